(** Properties of profiles saved as JSON (C75). *)
From Coq Require Import ZArith QArith DecimalString DecimalZ FinFun.
From Verif Require Import PyCommon PyDict PyString SchemaModel JsonSaveModel.
Local Open Scope nat_scope.
Local Open Scope string_scope.
Local Open Scope list_scope.

(** ** Induction on Python values *)
Section Ind.
  Variable P : py -> Prop.
  Hypothesis HNone : P PNone.
  Hypothesis HBool : forall b, P (PBool b).
  Hypothesis HInt : forall z, P (PInt z).
  Hypothesis HFlag : forall z, P (PFlag z).
  Hypothesis HFlt : forall q, P (PFlt q).
  Hypothesis HStr : forall s, P (PStr s).
  Hypothesis HTime : forall s, P (PTime s).
  Hypothesis HFun : forall s, P (PFun s).
  Hypothesis HLab : forall l, P (PLab l).
  Hypothesis HAlien : P PAlien.
  Hypothesis HList : forall l, Forall P l -> P (PList l).
  Hypothesis HSet : forall l, Forall P l -> P (PSet l).
  Hypothesis HArr : forall l, Forall P l -> P (PArr l).
  Hypothesis HDict : forall d, Forall (fun kv => P (snd kv)) d -> P (PDict d).
  Hypothesis HObj : forall c a, Forall (fun kv => P (snd kv)) a -> P (PObj c a).
  Fixpoint py_ind' (v : py) : P v :=
    let all := fix all (l : list py) : Forall P l := match l with [] => Forall_nil _ | x :: r => Forall_cons _ (py_ind' x) (all r) end in
    match v with
    | PNone => HNone | PBool b => HBool b | PInt z => HInt z | PFlag z => HFlag z | PFlt q => HFlt q | PStr s => HStr s
    | PTime s => HTime s | PFun s => HFun s | PLab l => HLab l | PAlien => HAlien
    | PList l => HList l (all l) | PSet l => HSet l (all l) | PArr l => HArr l (all l)
    | PDict d => HDict d ((fix go (d : list (py * py)) : Forall (fun kv => P (snd kv)) d :=
        match d with [] => Forall_nil _ | (k, x) :: r => Forall_cons (k, x) (py_ind' x) (go r) end) d)
    | PObj c a => HObj c a ((fix go (d : list (string * py)) : Forall (fun kv => P (snd kv)) d :=
        match d with [] => Forall_nil _ | (k, x) :: r => Forall_cons (k, x) (py_ind' x) (go r) end) a)
    end.
End Ind.

(** ** Lemmas on lists *)
Section Lists.
  Context {A B : Type}.
  Lemma mapM_ok (f : A -> result B) (R : A -> B -> Prop) l :
    Forall (fun x => exists y, f x = Ok y /\ R x y) l -> exists ys, mapM f l = Ok ys /\ Forall2 R l ys.
  Proof.
    induction 1 as [|x l (y & Hy & HR) _ (ys & Hys & HF)]; [exists []; split; [reflexivity|constructor]|].
    exists (y :: ys). cbn [mapM]. rewrite Hy. cbn [bind]. rewrite Hys. split; [reflexivity|constructor; assumption].
  Qed.
  Lemma mapM_back (f : B -> result A) l ys : Forall2 (fun x y => f y = Ok x) l ys -> mapM f ys = Ok l.
  Proof. induction 1 as [|x y l ys H _ IH]; [reflexivity|]. cbn [mapM]. rewrite H. cbn [bind]. rewrite IH. reflexivity. Qed.
  Lemma mapM_inv (f : A -> result B) l ys : mapM f l = Ok ys -> Forall2 (fun x y => f x = Ok y) l ys.
  Proof.
    revert ys. induction l as [|x l IH]; cbn [mapM]; intros ys H; [inversion H; constructor|].
    destruct (f x) as [y|] eqn:Ex; [|discriminate]. cbn [bind] in H. destruct (mapM f l) as [t|]; [|discriminate].
    inversion H; subst. constructor; [exact Ex|]. apply IH. reflexivity.
  Qed.
  Lemma mapM_err (f : A -> result B) l x e : In x l -> f x = Err e -> exists e', mapM f l = Err e'.
  Proof.
    induction l as [|y l IH]; cbn [mapM In]; [intros []|]. intros [->|Hi] Hx.
    - rewrite Hx. eexists; reflexivity.
    - destruct (f y) as [b|e0]; [|eexists; reflexivity]. cbn [bind]. destruct (IH Hi Hx) as [e' ->]. eexists; reflexivity.
  Qed.
  Lemma Forall2_impl (R S : A -> B -> Prop) l m : (forall a b, R a b -> S a b) -> Forall2 R l m -> Forall2 S l m.
  Proof. intros H. induction 1; constructor; auto. Qed.
  Lemma Forall2_map_eq {C} (f : A -> C) (g : B -> C) l m : Forall2 (fun a b => f a = g b) l m -> map f l = map g m.
  Proof. induction 1; cbn; congruence. Qed.
  Lemma Forall2_Forall_l (R : A -> B -> Prop) (P : A -> Prop) l m :
    Forall P l -> Forall2 R l m -> Forall2 (fun a b => P a /\ R a b) l m.
  Proof. intros H1 H2. induction H2; inversion H1; subst; constructor; auto. Qed.
End Lists.

Section Dedup.
  Context {K V : Type} {E : EqDecB K}.
  Lemma dset_absent (d : dict K V) k v : ~ In k (dkeys d) -> dset d k v = d ++ [(k, v)].
  Proof.
    induction d as [|[k' v'] d IH]; cbn [dset]; intros H; [reflexivity|].
    destruct (PyDict.eqb k' k) eqn:Ek.
    - apply (proj1 (PyDict.eqb_eq _ _)) in Ek. subst. exfalso. apply H. left. reflexivity.
    - cbn [app]. f_equal. apply IH. intros Hi. apply H. right. exact Hi.
  Qed.
  Lemma dedup_id (l : list (K * V)) : NoDup (map fst l) -> dedup l = l.
  Proof.
    unfold dedup. enough (H : forall acc, NoDup (map fst (acc ++ l)) -> fold_left (fun d kv => dset d (fst kv) (snd kv)) l acc = acc ++ l).
    { intros Hn. apply (H []). exact Hn. }
    induction l as [|[k v] l IH]; intros acc Hn; [rewrite app_nil_r; reflexivity|]. cbn [fold_left fst snd].
    rewrite dset_absent.
    - replace (acc ++ (k, v) :: l) with ((acc ++ [(k, v)]) ++ l) in * by (rewrite <- app_assoc; reflexivity).
      apply IH. exact Hn.
    - rewrite map_app in Hn. apply NoDup_remove_2 in Hn. intros Hi. apply Hn. apply in_or_app. left. exact Hi.
  Qed.
End Dedup.

(** ** The types of the attributes, as the constructors and updates of the profiles give them *)

(** A dictionary with strings for keys *)
Definition sdict (P : py -> Prop) (v : py) : Prop :=
  exists d, v = PDict d /\ NoDup (map fst d) /\ Forall (fun kv => (exists s, fst kv = PStr s) /\ P (snd kv)) d.
Definition idict (P : py -> Prop) (v : py) : Prop :=
  exists d, v = PDict d /\ NoDup (map fst d) /\ Forall (fun kv => (exists z, fst kv = PInt z) /\ P (snd kv)) d.

Section All.
  Context {A : Type}.
  Variable P : A -> Prop.
  Fixpoint All (l : list A) : Prop := match l with [] => True | x :: r => P x /\ All r end.
End All.

(** Numbers, strings, None, and lists and dictionaries of such *)
Fixpoint native (v : py) : Prop :=
  match v with
  | PNone | PBool _ | PInt _ | PFlt _ | PStr _ => True
  | PList l => All native l
  | PDict d => NoDup (map fst d) /\ All (fun kv => (exists s, fst kv = PStr s) /\ native (snd kv)) d
  | _ => False
  end.
Definition array (v : py) : Prop := v = PNone \/ exists l, v = PArr l /\ Forall native l.
Definition histogram (v : py) : Prop :=
  exists d, v = PDict d /\ NoDup (map fst d) /\
    Forall (fun kv => exists s, fst kv = PStr s /\ if String.eqb s "histogram" then sdict array (snd kv) else native (snd kv)) d.
Inductive ty := TNative | TArr | TSets | TInts | TIntsOpt | TTime | TFlags | THist | THists | TFuns | TStore | TLab | TLabOpt.
Definition has_type (t : ty) (v : py) : Prop :=
  match t with
  | TNative => native v
  | TArr => array v
  | TSets => sdict (fun x => exists l, x = PSet l /\ Forall native l) v
  | TInts => idict native v
  | TIntsOpt => v = PNone \/ idict native v
  | TTime => v = PNone \/ exists s, v = PTime s
  | TFlags => sdict (fun x => x = PInt 0 \/ exists z, z <> 0%Z /\ x = PFlag z) v
  | THist => histogram v
  | THists => sdict histogram v
  | TFuns => sdict (fun x => exists s, x = PFun s) v
  | TStore => v = PFun "str" \/ v = PFun "float64"
  | TLab => exists s, v = PLab (Some s)
  | TLabOpt => v = PNone \/ exists s, v = PLab (Some s)
  end.

(** The attributes of the column profiles that are not made of numbers, strings, lists and dictionaries:
    base_column_profilers.py 33-46, numerical_column_stats.py 58-140, order_column_profile.py 52-58,
    data_labeler_column_profile.py 43-72, datetime_column_profile.py 69-75 *)
Definition function_tables : list string :=
  ["_NumericStatsMixin__calculations"; "_IntColumn__calculations"; "_FloatColumn__calculations"; "_TextColumn__calculations";
   "_DateTimeColumn__calculations"; "_OrderColumn__calculations"; "_CategoricalColumn__calculations"; "_DataLabelerColumn__calculations"].
Definition profile_type (c k : string) : ty :=
  if lmem function_tables k then TFuns
  else if lmem ["IntColumn"; "FloatColumn"; "TextColumn"] c then
    (if String.eqb k "_stored_histogram" then THist else if String.eqb k "histogram_methods" then THists else TNative)
  else if String.eqb c "DateTimeColumn" then (if lmem ["_dt_obj_min"; "_dt_obj_max"] k then TTime else TNative)
  else if String.eqb c "OrderColumn" then (if String.eqb k "_data_store_type" then TStore else TNative)
  else if String.eqb c "DataLabelerColumn" then
    (if String.eqb k "data_labeler" then TLab else if String.eqb k "_reverse_label_mapping" then TIntsOpt
     else if String.eqb k "_sum_predictions" then TArr else TNative)
  else TNative.

Definition object (classes : list string) (P : string -> string -> py -> Prop) (v : py) : Prop :=
  exists c a, v = PObj c a /\ In c classes /\ NoDup (map fst a) /\ Forall (fun kv => P c (fst kv) (snd kv)) a.
Definition kinds_of_profile : list string :=
  ["CategoricalColumn"; "FloatColumn"; "IntColumn"; "DateTimeColumn"; "OrderColumn"; "DataLabelerColumn"; "TextColumn"].
Definition column_profile : py -> Prop := object kinds_of_profile (fun c k x => has_type (profile_type c k) x).

(** The profiles of a compiler are in the order of its class, some of them switched off *)
Inductive subseq {A} : list A -> list A -> Prop :=
  | sub_nil l : subseq [] l
  | sub_take x l m : subseq l m -> subseq (x :: l) (x :: m)
  | sub_skip x l m : subseq l m -> subseq l (x :: m).
Definition kinds_in (c : string) : list string :=
  if String.eqb c "ColumnPrimitiveTypeProfileCompiler" then ["datetime"; "int"; "float"; "text"]
  else if String.eqb c "ColumnStatsProfileCompiler" then ["order"; "category"]
  else ["data_labeler"].
Definition kinds_of_compiler : list string := ["ColumnDataLabelerCompiler"; "ColumnPrimitiveTypeProfileCompiler"; "ColumnStatsProfileCompiler"].
Definition compiler : py -> Prop :=
  object kinds_of_compiler (fun c k x =>
    if String.eqb k "_profiles" then
      exists d, x = PDict d /\ Forall (fun kv => column_profile (snd kv)) d /\
        exists ts, map fst d = map PStr ts /\ subseq ts (kinds_in c)
    else native x).

(** Options: other options, a labeler, or a value of JSON; no dictionary has the key "class" *)
Definition no_class (v : py) : Prop := forall d, v = PDict d -> ~ In (PStr "class") (map fst d).
Definition labeler_option (c k : string) : Prop := c = "DataLabelerOptions" /\ k = "data_labeler_object".
Definition kinds_of_option : list string :=
  ["BooleanOption"; "HistogramAndQuantilesOption"; "ModeOption"; "BaseInspectorOptions"; "NumericalOptions"; "IntOptions";
   "PrecisionOptions"; "FloatOptions"; "TextOptions"; "DateTimeOptions"; "OrderOptions"; "CategoricalOptions"; "CorrelationOptions";
   "UniqueCountOptions"; "HyperLogLogOptions"; "RowStatisticsOptions"; "DataLabelerOptions"; "TextProfilerOptions";
   "StructuredOptions"; "UnstructuredOptions"; "ProfilerOptions"].
Inductive option_object : py -> Prop :=
  | is_option c a : In c kinds_of_option -> NoDup (map fst a) ->
      (forall k x, In (k, x) a ->
        (labeler_option c k /\ has_type TLabOpt x) \/ (~ labeler_option c k /\ (option_object x \/ (native x /\ no_class x)))) ->
      option_object (PObj c a).

Definition column : py -> Prop :=
  object ["StructuredColProfiler"] (fun _ k x =>
    if String.eqb k "profiles" then sdict compiler x
    else if String.eqb k "options" then x = PNone \/ option_object x
    else if String.eqb k "_null_values" then has_type TFlags x
    else if String.eqb k "null_types_index" then has_type TSets x
    else native x).

Section Props.
  Variable dec : Z -> string.
  Variable parse : string -> option Z.
  Variable frepr : option Q -> string.
  Hypothesis parse_dec : forall z, parse (dec z) = Some z.

  Notation enc := (enc dec frepr).
  Notation convert := (convert parse).
  Notation load := (load parse).
  Notation load_option := (load_option parse).
  Notation reload := (reload dec parse frepr).

  (** The names of the columns: all integers, or all strings of which at least one is no integer *)
  Definition names_ok (v : py) : Prop :=
    idict native v \/ (sdict native v /\ exists d k x, v = PDict d /\ In (PStr k, x) d /\ parse k = None).

  Definition profile_object (names options metrics : py -> Prop) : py -> Prop :=
    object ["StructuredProfiler"] (fun _ k x =>
      if lmem ["chi2_matrix"; "correlation_matrix"] k then array x
      else if String.eqb k "_col_name_to_idx" then names x
      else if String.eqb k "hashed_row_object" then has_type TInts x
      else if String.eqb k "options" then options x
      else if String.eqb k "_profile" then exists l, x = PList l /\ Forall column l
      else if String.eqb k "_null_replication_metrics" then metrics x
      else native x).
  Definition profiler : py -> Prop := profile_object names_ok (fun o => option_object o /\ validate_nulls o = Ok tt) native.

  Lemma All_Forall {A} (P : A -> Prop) l : All P l <-> Forall P l.
  Proof. induction l; cbn; split; intros H; [constructor|exact I| |]; [destruct H; constructor; tauto|inversion H; subst; tauto]. Qed.

  (** *** Encoding dictionaries and objects *)
  Lemma enc_sdict (P : py -> Prop) (R : py -> json -> Prop) d :
    NoDup (map fst d) -> Forall (fun kv => (exists s, fst kv = PStr s) /\ exists j, enc (snd kv) = Ok j /\ R (snd kv) j) d ->
    exists js, enc (PDict d) = Ok (JObj js) /\ Forall2 (fun kv kx => fst kv = PStr (fst kx) /\ R (snd kv) (snd kx)) d js.
  Proof.
    intros Hn HF. cbn [JsonSaveModel.enc].
    destruct (mapM_ok (fun kv => bind (key_of dec frepr (fst kv)) (fun k => bind (enc (snd kv)) (fun x => Ok (k, x))))
      (fun kv kx => fst kv = PStr (fst kx) /\ R (snd kv) (snd kx)) d) as (js & Hjs & H2).
    { eapply Forall_impl; [|exact HF]. intros [k v] [[s Hs] (j & Hj & HR)]. cbn [fst snd] in *. subst k. cbn [key_of bind].
      rewrite Hj. cbn [bind]. eexists; split; [reflexivity|]. split; [reflexivity|exact HR]. }
    rewrite Hjs. cbn [bind]. rewrite dedup_id; [eexists; split; [reflexivity|exact H2]|].
    assert (Hk : map fst d = map (fun kx => PStr (fst kx)) js).
    { apply Forall2_map_eq. eapply Forall2_impl; [|exact H2]. intros ? ? [H _]. exact H. }
    rewrite Hk in Hn. rewrite <- map_map in Hn. apply NoDup_map_inv in Hn. exact Hn.
  Qed.
  Lemma dec_inj a b : dec a = dec b -> a = b.
  Proof. intros H. assert (H' := parse_dec a). rewrite H, parse_dec in H'. congruence. Qed.
  Lemma enc_idict (R : py -> json -> Prop) d :
    NoDup (map fst d) -> Forall (fun kv => (exists z, fst kv = PInt z) /\ exists j, enc (snd kv) = Ok j /\ R (snd kv) j) d ->
    exists js, enc (PDict d) = Ok (JObj js) /\
      Forall2 (fun kv kx => exists z, fst kv = PInt z /\ fst kx = dec z /\ R (snd kv) (snd kx)) d js.
  Proof.
    intros Hn HF. cbn [JsonSaveModel.enc].
    destruct (mapM_ok (fun kv => bind (key_of dec frepr (fst kv)) (fun k => bind (enc (snd kv)) (fun x => Ok (k, x))))
      (fun kv kx => exists z, fst kv = PInt z /\ fst kx = dec z /\ R (snd kv) (snd kx)) d) as (js & Hjs & H2).
    { eapply Forall_impl; [|exact HF]. intros [k v] [[z Hs] (j & Hj & HR)]. cbn [fst snd] in *. subst k. cbn [key_of bind].
      rewrite Hj. cbn [bind]. eexists; split; [reflexivity|]. exists z. split; [reflexivity|split; [reflexivity|exact HR]]. }
    rewrite Hjs. cbn [bind]. rewrite dedup_id; [eexists; split; [reflexivity|exact H2]|].
    clear -Hn H2 parse_dec. induction H2 as [|kv kx d js (z & Hz & Hx & _) H2 IH]; [constructor|].
    cbn [map] in *. inversion Hn as [|? ? Hni Hn']; subst. constructor; [|apply IH; exact Hn'].
    intros Hi. apply Hni. rewrite Hz. rewrite Hx in Hi. clear -Hi H2 parse_dec.
    induction H2 as [|kv' kx' d js (z' & Hz' & Hx' & _) H2 IH]; cbn in *; [exact Hi|].
    destruct Hi as [Hi|Hi]; [left|right; apply IH; exact Hi]. rewrite Hx' in Hi. apply dec_inj in Hi. congruence.
  Qed.
  Lemma enc_obj (R : string -> py -> json -> Prop) c a :
    c <> "UnstructuredProfiler" -> NoDup (map fst a) ->
    Forall (fun kv => exists j, enc (snd kv) = Ok j /\ R (fst kv) (snd kv) j) a ->
    exists js, enc (PObj c a) = Ok (JObj [("class", JStr c); ("data", JObj js)]) /\
      Forall2 (fun kv kx => fst kv = fst kx /\ R (fst kv) (snd kv) (snd kx)) a js.
  Proof.
    intros Hc Hn HF. cbn [JsonSaveModel.enc]. apply String.eqb_neq in Hc. rewrite Hc.
    destruct (mapM_ok (fun kv => bind (enc (snd kv)) (fun x => Ok (fst kv, x)))
      (fun kv kx => fst kv = fst kx /\ R (fst kv) (snd kv) (snd kx)) a) as (js & Hjs & H2).
    { eapply Forall_impl; [|exact HF]. intros [k v] (j & Hj & HR). cbn [fst snd] in *. rewrite Hj. cbn [bind].
      eexists; split; [reflexivity|]. split; [reflexivity|exact HR]. }
    rewrite Hjs. cbn [bind]. rewrite dedup_id; [eexists; split; [reflexivity|exact H2]|].
    rewrite <- (Forall2_map_eq fst fst a js); [exact Hn|]. eapply Forall2_impl; [|exact H2]. intros ? ? [H _]. exact H.
  Qed.

  (** *** Values of JSON *)
  Lemma enc_native v : native v -> exists j, enc v = Ok j /\ plain j = v.
  Proof.
    induction v using py_ind'; cbn [native]; intros HN; try contradiction; try (eexists; split; reflexivity).
    - apply All_Forall in HN. destruct (mapM_ok enc (fun x j => plain j = x) l) as (js & Hjs & H2).
      { rewrite Forall_forall in *. intros x Hx. apply H; auto. }
      exists (JList js). cbn [JsonSaveModel.enc]. rewrite Hjs. split; [reflexivity|]. cbn [plain]. f_equal.
      clear -H2. induction H2; cbn; congruence.
    - destruct HN as [Hn HN]. apply All_Forall in HN.
      destruct (enc_sdict native (fun x j => plain j = x) d Hn) as (js & Hjs & H2).
      { rewrite Forall_forall in *. intros kv Hi. destruct (HN kv Hi) as [Hs Hv]. split; [exact Hs|]. apply H; assumption. }
      exists (JObj js). split; [exact Hjs|]. cbn [plain]. f_equal. clear -H2.
      induction H2 as [|[k v] [s j] d js [Hk Hv] H2 IH]; [reflexivity|]. cbn in *. congruence.
  Qed.
  Lemma enc_natives l : Forall native l -> exists js, mapM enc l = Ok js /\ map plain js = l.
  Proof.
    intros H. destruct (mapM_ok enc (fun x j => plain j = x) l) as (js & Hjs & H2).
    { eapply Forall_impl; [|exact H]. apply enc_native. }
    exists js. split; [exact Hjs|]. clear -H2. induction H2; cbn; congruence.
  Qed.
  Lemma enc_array v : array v -> exists j, enc v = Ok j /\ to_arr j = Ok v.
  Proof.
    intros [-> | (l & -> & Hl)]; [exists JNull; split; reflexivity|].
    destruct (enc_natives l Hl) as (js & Hjs & Hp). exists (JList js). cbn [JsonSaveModel.enc]. rewrite Hjs. split; [reflexivity|].
    cbn [to_arr]. rewrite Hp. reflexivity.
  Qed.
  (** Dictionaries with strings for keys, decoded value by value *)
  Lemma enc_back (P : py -> Prop) (f : string -> json -> result (py * py)) v :
    sdict P v -> (forall s x, P x -> exists j, enc x = Ok j /\ f s j = Ok (PStr s, x)) ->
    exists js, enc v = Ok (JObj js) /\ bind (over f js) (fun d' => Ok (PDict d')) = Ok v.
  Proof.
    intros (d & -> & Hn & HF) Hf.
    destruct (enc_sdict P (fun x j => forall s, f s j = Ok (PStr s, x) \/ ~ exists kv, In kv d /\ fst kv = PStr s /\ snd kv = x) d Hn)
      as (js & Hjs & H2).
    { clear Hn. assert (Hd : Forall (fun kv => In kv d) d) by (apply Forall_forall; auto).
      rewrite Forall_forall in *. intros kv Hi. destruct (HF kv Hi) as [[s Hs] Hv]. split; [exists s; exact Hs|].
      destruct (Hf s (snd kv) Hv) as (j & Hj & Hfs). exists j. split; [exact Hj|]. intros s'.
      destruct (Hf s' (snd kv) Hv) as (j' & Hj' & Hfs'). left. congruence. }
    exists js. split; [exact Hjs|].
    assert (Ho : over f js = Ok d).
    { unfold over. apply mapM_back. assert (Hd : Forall (fun kv => In kv d) d) by (apply Forall_forall; auto).
      eapply Forall2_impl; [|exact (Forall2_Forall_l _ _ _ _ Hd H2)]. intros [k x] [s j] (Hi & Hk & HR). cbn [fst snd] in *. subst k.
      destruct (HR s) as [E|Hno]; [exact E|]. exfalso. apply Hno. exists (PStr s, x). auto. }
    rewrite Ho. reflexivity.
  Qed.
  Lemma enc_hist v : histogram v -> exists j, enc v = Ok j /\ to_hist j = Ok v.
  Proof.
    intros (d & -> & Hn & HF).
    set (f := fun (k : string) (x : json) =>
          if String.eqb k "histogram" then
            match x with
            | JObj h => bind (over (fun k' y => bind (to_arr y) (fun v => Ok (PStr k', v))) h) (fun h' => Ok (PStr k, PDict h'))
            | _ => Err AttributeError
            end
          else Ok (PStr k, plain x)).
    assert (Hone : forall kv, In kv d -> (exists s, fst kv = PStr s) /\ exists j, enc (snd kv) = Ok j /\ forall s, fst kv = PStr s -> f s j = Ok kv).
    { rewrite Forall_forall in HF. intros [k x] Hi. destruct (HF _ Hi) as (s & Hs & Ht). cbn [fst snd] in *. subst k.
      split; [exists s; reflexivity|]. destruct (String.eqb s "histogram") eqn:Es.
      - destruct (enc_back array (fun k' y => bind (to_arr y) (fun v => Ok (PStr k', v))) x Ht) as (js & Hjs & Hb).
        + intros s' x' Hx'. destruct (enc_array x' Hx') as (j & Hj & Ha). exists j. split; [exact Hj|]. rewrite Ha. reflexivity.
        + exists (JObj js). split; [exact Hjs|]. intros s' E. inversion E; subst s'. unfold f. rewrite Es.
          destruct (over _ js) as [h|]; [|discriminate]. cbn [bind] in Hb |- *. congruence.
      - destruct (enc_native x Ht) as (j & Hj & Hp). exists j. split; [exact Hj|]. intros s' E. inversion E; subst s'. unfold f. rewrite Es.
        congruence. }
    destruct (enc_sdict (fun _ => True) (fun x j => enc x = Ok j) d Hn) as (js & Hjs & H2).
    { apply Forall_forall. intros kv Hi. destruct (Hone kv Hi) as [Hs (j & Hj & _)]. split; [exact Hs|]. exists j. split; exact Hj. }
    exists (JObj js). split; [exact Hjs|]. cbn [to_hist]. fold f.
    assert (Ho : over f js = Ok d).
    { unfold over. apply mapM_back. assert (Hd : Forall (fun kv => In kv d) d) by (apply Forall_forall; auto).
      eapply Forall2_impl; [|exact (Forall2_Forall_l _ _ _ _ Hd H2)]. intros kv kx (Hi & Hk & HR).
      destruct (Hone kv Hi) as [_ (j & Hj & Hf)]. rewrite HR in Hj. inversion Hj; subst j. apply Hf. exact Hk. }
    rewrite Ho. reflexivity.
  Qed.
  Lemma enc_ints d : NoDup (map fst d) -> Forall (fun kv => (exists z, fst kv = PInt z) /\ native (snd kv)) d ->
    exists js, enc (PDict d) = Ok (JObj js) /\ bind (to_ints parse js) (fun l => Ok (int_dict l)) = Ok (PDict d).
  Proof.
    intros Hn HF. destruct (enc_idict (fun x j => plain j = x) d Hn) as (js & Hjs & H2).
    { eapply Forall_impl; [|exact HF]. intros kv [Hz Hv]. split; [exact Hz|]. apply enc_native. exact Hv. }
    exists js. split; [exact Hjs|].
    assert (exists l, over (fun k x => match parse k with Some z => Ok (z, plain x) | None => Err ValueError end) js = Ok l /\
      map (fun zv => (PInt (fst zv), snd zv)) l = d) as (l & Hl & Hd).
    { clear -H2 parse_dec. induction H2 as [|[k v] [s j] d js (z & Hz & Hs & Hv) H2 (l & Hl & Hd)]; [exists []; split; reflexivity|].
      cbn [fst snd] in *. subst k s. exists ((z, v) :: l). split; [|cbn; congruence].
      unfold over in *. cbn [mapM fst snd]. rewrite parse_dec. cbn [bind]. rewrite Hl. cbn [bind]. congruence. }
    unfold to_ints. rewrite Hl. cbn [bind]. rewrite dedup_id; [unfold int_dict; rewrite Hd; reflexivity|].
    rewrite <- Hd in Hn. rewrite map_map in Hn. cbn [fst] in Hn. rewrite <- (map_map fst PInt) in Hn. apply NoDup_map_inv in Hn. exact Hn.
  Qed.

  (** Each kind of value comes back through the conversion of its attribute. *)
  Definition conv_of_ty (t : ty) (c : conv) : Prop :=
    match t, c with
    | TNative, CPlain | TArr, CArr | TSets, CSets | TInts, CInts | TIntsOpt, CIntsOpt | TTime, CTime | TFlags, CFlags | THist, CHist
    | THists, CHists | TFuns, CFuns | TStore, CStore | TLab, CLab | TLabOpt, CLab => True
    | _, _ => False
    end.
  Lemma enc_convert t c v : conv_of_ty t c -> has_type t v -> exists j, enc v = Ok j /\ convert c j = Ok v.
  Proof.
    destruct t, c; cbn [conv_of_ty has_type]; intros HC; try contradiction; clear HC; intros H.
    - destruct (enc_native v H) as (j & Hj & Hp). exists j. split; [exact Hj|]. cbn [JsonSaveModel.convert]. congruence.
    - destruct (enc_array v H) as (j & Hj & Hp). exists j. split; [exact Hj|]. destruct j; exact Hp.
    - destruct (enc_back _ (fun k x => match x with JList l => Ok (PStr k, PSet (map plain l)) | _ => Err TypeError end) v H) as (js & Hjs & Hb).
      + intros s x (l & -> & Hl). destruct (enc_natives l Hl) as (ks & Hks & Hp). exists (JList ks). cbn [JsonSaveModel.enc]. rewrite Hks.
        split; [reflexivity|]. rewrite Hp. reflexivity.
      + exists (JObj js). split; [exact Hjs|exact Hb].
    - destruct H as (d & -> & Hn & HF). destruct (enc_ints d Hn HF) as (js & Hjs & Hb). exists (JObj js). split; [exact Hjs|exact Hb].
    - destruct H as [-> | (d & -> & Hn & HF)]; [exists JNull; split; reflexivity|].
      destruct (enc_ints d Hn HF) as (js & Hjs & Hb). exists (JObj js). split; [exact Hjs|exact Hb].
    - destruct H as [-> | (s & ->)]; [exists JNull; split; reflexivity|exists (JStr s); split; reflexivity].
    - destruct (enc_back _ (fun k x => match x with
                               | JInt z => Ok (PStr k, if Z.eqb z 0 then PInt 0 else PFlag z)
                               | _ => Err ValueError
                               end) v H) as (js & Hjs & Hb).
      + intros s x [-> | (z & Hz & ->)]; [exists (JInt 0); split; reflexivity|]. exists (JInt z). split; [reflexivity|].
        apply Z.eqb_neq in Hz. rewrite Hz. reflexivity.
      + exists (JObj js). split; [exact Hjs|exact Hb].
    - destruct (enc_hist v H) as (j & Hj & Hp). exists j. split; [exact Hj|]. destruct j; exact Hp.
    - destruct (enc_back _ (fun k x => bind (to_hist x) (fun v => Ok (PStr k, v))) v H) as (js & Hjs & Hb).
      + intros s x Hx. destruct (enc_hist x Hx) as (j & Hj & Hp). exists j. split; [exact Hj|]. rewrite Hp. reflexivity.
      + exists (JObj js). split; [exact Hjs|exact Hb].
    - destruct (enc_back _ (fun k x => match x with JStr s => Ok (PStr k, PFun s) | _ => Err TypeError end) v H) as (js & Hjs & Hb).
      + intros s x (f & ->). exists (JStr f). split; reflexivity.
      + exists (JObj js). split; [exact Hjs|exact Hb].
    - destruct H as [-> | ->]; eexists; split; reflexivity.
    - destruct H as (s & ->). eexists; split; reflexivity.
    - destruct H as [-> | (s & ->)]; eexists; split; reflexivity.
  Qed.

  (** *** Objects *)
  Lemma enc_object classes (P : string -> string -> py -> Prop) (f : string -> string -> json -> result py) v :
    ~ In "UnstructuredProfiler" classes ->
    (forall c k x, In c classes -> P c k x -> exists j, enc x = Ok j /\ f c k j = Ok x) -> object classes P v ->
    exists j, enc v = Ok j /\ load_object classes f j = Ok v.
  Proof.
    intros Hu Hf (c & a & -> & Hc & Hn & HF).
    destruct (enc_obj (fun k x j => f c k j = Ok x) c a) as (js & Hjs & H2).
    - intros ->. contradiction.
    - exact Hn.
    - eapply Forall_impl; [|exact HF]. intros [k x] Hx. apply Hf; assumption.
    - eexists. split; [exact Hjs|]. unfold load_object. apply lmem_In in Hc as Hc'. rewrite Hc'.
      assert (Ho : over (fun k x => bind (f c k x) (fun v => Ok (k, v))) js = Ok a).
      { unfold over. apply mapM_back. eapply Forall2_impl; [|exact H2]. intros [k x] [s j] [Hk Hx]. cbn [fst snd] in *. subst s.
        rewrite Hx. reflexivity. }
      rewrite Ho. reflexivity.
  Qed.
  Ltac not_in := cbn; intros HH; repeat (destruct HH as [HH|HH]; [discriminate HH|]); exact HH.

  Lemma conv_fits c k : In c profile_classes -> conv_of_ty (profile_type c k) (profile_conv c k).
  Proof.
    intros Hc. unfold profile_type, profile_conv, numeric_class. change function_tables with calculations. destruct (lmem calculations k); [exact I|].
    cbn [profile_classes In] in Hc. repeat (destruct Hc as [<-|Hc]; [
      cbn [lmem PyDict.eqb EqDecB_string String.eqb Ascii.eqb Bool.eqb andb orb];
      repeat match goal with |- context [String.eqb k ?s] => destruct (String.eqb k s) end;
      try match goal with |- context [lmem ?l k] => destruct (lmem l k) end; exact I|]). destruct Hc.
  Qed.
  Theorem C75_column_profile : forall v, column_profile v -> exists j, enc v = Ok j /\ load_profile parse j = Ok v.
  Proof.
    intros v H. apply (enc_object profile_classes (fun c k x => has_type (profile_type c k) x)); [not_in| |exact H].
    intros c k x Hc Hx. apply (enc_convert (profile_type c k)); [apply conv_fits; exact Hc|exact Hx].
  Qed.

  (** Taking the profiles in the order of the class changes nothing *)
  Lemma subseq_in {A} (l m : list A) x : subseq l m -> In x l -> In x m.
  Proof.
    induction 1 as [m|y l m _ IH|y l m _ IH]; cbn; intros H; [destruct H| |right; auto].
    destruct H as [->|H]; [left; reflexivity|right; auto].
  Qed.
  Lemma reorder (ts : list string) : forall (d : list (string * py)), NoDup ts -> subseq (map fst d) ts ->
    flat_map (fun t => match dget d t with Some v => [(PStr t, v)] | None => [] end) ts = map (fun kv => (PStr (fst kv), snd kv)) d.
  Proof.
    induction ts as [|t ts IH]; intros d Hn Hs.
    - inversion Hs as [? E| |]; subst. destruct d; [reflexivity|discriminate].
    - apply NoDup_cons_iff in Hn as [Hni Hn'].
      assert (Hskip : forall d : list (string * py), ~ In t (map fst d) -> subseq (map fst d) ts ->
        flat_map (fun t => match dget d t with Some v => [(PStr t, v)] | None => [] end) (t :: ts) = map (fun kv => (PStr (fst kv), snd kv)) d).
      { intros d0 Hni0 Hs0. cbn [flat_map]. assert (Hg : dget d0 t = None) by (apply dget_None; exact Hni0). rewrite Hg. cbn [app].
        apply IH; assumption. }
      inversion Hs as [? E|? l ? Hs' E|? l ? Hs' E]; subst.
      + destruct d; [|discriminate]. apply Hskip; [intros []|constructor].
      + destruct d as [|[k v] d]; [discriminate|]. cbn [map fst] in E. inversion E; subst.
        match goal with Hx : ~ In ?y ts |- _ => rename y into t end.
        cbn [flat_map dget]. rewrite PyDict.eqb_refl. cbn [app map fst snd]. f_equal. rewrite <- (IH d Hn' Hs').
        clear -Hni. induction ts as [|t' ts IH]; [reflexivity|]. cbn [flat_map].
        assert (Hne : PyDict.eqb t t' = false) by (apply (proj2 (PyDict.eqb_neq _ _)); intros ->; apply Hni; left; reflexivity).
        cbn [dget]. rewrite Hne. f_equal. apply IH. intros Hi. apply Hni. right. exact Hi.
      + apply Hskip; [|exact Hs']. intros Hi. apply Hni. eapply subseq_in; eassumption.
  Qed.
  Lemma compiler_types_NoDup c : NoDup (compiler_types c).
  Proof.
    unfold compiler_types. repeat destruct (String.eqb c _); repeat constructor; cbn; intros H; repeat (destruct H as [H|H]; [discriminate H|]); contradiction.
  Qed.
  Theorem C75_compiler : forall v, compiler v -> exists j, enc v = Ok j /\ load_compiler parse j = Ok v.
  Proof.
    intros v H. unfold load_compiler. eapply enc_object; [|clear v H|exact H]; [not_in|].
    intros c k x _ Hx. cbn beta in Hx. destruct (String.eqb k "_profiles").
    - destruct Hx as (d & -> & HF & ts & Hts & Hsub). change (kinds_in c) with (compiler_types c) in Hsub.
      assert (Hn : NoDup (map fst d)).
      { rewrite Hts. apply FinFun.Injective_map_NoDup; [intros a b E; congruence|].
        clear -Hsub. assert (HN := compiler_types_NoDup c). revert HN.
        induction Hsub as [m|y l m Hs IH|y l m Hs IH]; intros HN; [constructor| |]; inversion HN; subst; [|apply IH; assumption].
        constructor; [|apply IH; assumption]. intros Hi. match goal with Hx : ~ In y m |- _ => apply Hx end. eapply subseq_in; eassumption. }
      destruct (enc_sdict column_profile (fun x j => load_profile parse j = Ok x) d Hn) as (js & Hjs & H2).
      { assert (Hstr : forall kv, In kv d -> exists s, fst kv = PStr s).
        { intros kv Hi. assert (Hm : In (fst kv) (map PStr ts)) by (rewrite <- Hts; apply in_map; exact Hi).
          apply in_map_iff in Hm. destruct Hm as (s & Hs & _). exists s. auto. }
        rewrite Forall_forall in *. intros kv Hi. split; [apply Hstr; exact Hi|]. apply C75_column_profile. apply HF. exact Hi. }
      exists (JObj js). split; [exact Hjs|].
      assert (exists d', over (fun t y => bind (load_profile parse y) (fun v => Ok (t, v))) js = Ok d' /\ map (fun kv => (PStr (fst kv), snd kv)) d' = d)
        as (d' & Hd' & Hm).
      { clear -H2. induction H2 as [|[k x] [s j] d js [Hk Hx] H2 (d' & Hd' & Hm)]; [exists []; split; reflexivity|].
        cbn [fst snd] in *. subst k. exists ((s, x) :: d'). split; [|cbn; congruence].
        unfold over in *. cbn [mapM fst snd]. rewrite Hx. cbn [bind]. rewrite Hd'. reflexivity. }
      rewrite Hd'. cbn [bind]. rewrite reorder; [rewrite Hm; reflexivity|apply compiler_types_NoDup|].
      replace (map fst d') with ts; [exact Hsub|].
      rewrite <- Hm, map_map in Hts. cbn [fst] in Hts. rewrite <- (map_map fst PStr) in Hts.
      clear -Hts. revert Hts. generalize (map fst d'). intros l. revert ts. induction l; intros [|t ts] E; try discriminate; [reflexivity|].
      cbn in E. inversion E. f_equal. apply IHl. assumption.
    - apply enc_native in Hx. destruct Hx as (j & Hj & Hp). exists j. split; [exact Hj|congruence].
  Qed.

  (** Options *)
  Lemma native_no_class v : native v -> no_class v -> forall j, enc v = Ok j -> has_class j = false.
  Proof.
    intros HN Hno j Hj. destruct v; cbn [native] in HN; try contradiction;
      try (cbn [JsonSaveModel.enc] in Hj; inversion Hj; reflexivity).
    - cbn [JsonSaveModel.enc] in Hj. destruct (mapM enc l); [|discriminate]. inversion Hj. reflexivity.
    - destruct HN as [Hn HF]. apply All_Forall in HF.
      destruct (enc_sdict native (fun _ _ => True) d Hn) as (js & Hjs & H2).
      { eapply Forall_impl; [|exact HF]. intros kv [Hs Hv]. split; [exact Hs|]. destruct (enc_native _ Hv) as (j' & Hj' & _). exists j'. auto. }
      rewrite Hjs in Hj. inversion Hj; subst j. cbn [has_class]. apply dmem_false. intros Hi.
      apply (Hno d eq_refl). assert (Hk : map fst d = map (fun kx => PStr (fst kx)) js).
      { apply Forall2_map_eq. eapply Forall2_impl; [|exact H2]. intros ? ? [E _]. exact E. }
      rewrite Hk. rewrite <- (map_map fst PStr). apply in_map. exact Hi.
  Qed.
  Lemma option_has_class v j : option_object v -> enc v = Ok j -> has_class j = true.
  Proof.
    intros [c a Hc Hn HF] Hj. cbn [JsonSaveModel.enc] in Hj. destruct (String.eqb c "UnstructuredProfiler"); [discriminate|].
    destruct (mapM _ a); [|discriminate]. inversion Hj. reflexivity.
  Qed.
  Theorem C75_options : forall v, option_object v -> exists j, enc v = Ok j /\ load_option j = Ok v.
  Proof.
    intros v. induction v using py_ind'; intros HO; inversion HO as [c' a' Hc Hn HF]; subst.
    assert (Hone : forall k x, In (k, x) a -> exists j, enc x = Ok j /\
      (if is_labeler_attr c k then JsonSaveModel.convert parse CLab j else if has_class j then load_option j else Ok (plain j)) = Ok x).
    { intros k x Hi. specialize (HF k x Hi). unfold is_labeler_attr. destruct HF as [[[-> ->] HF]|[Hnl HF]].
      - apply (enc_convert TLabOpt CLab); [exact I|exact HF].
      - assert (Hb : (String.eqb c "DataLabelerOptions" && String.eqb k "data_labeler_object")%bool = false).
        { destruct (String.eqb c "DataLabelerOptions") eqn:E1, (String.eqb k "data_labeler_object") eqn:E2; try reflexivity.
          apply String.eqb_eq in E1, E2. exfalso. apply Hnl. split; assumption. }
        rewrite Hb. rewrite Forall_forall in H. destruct HF as [HF|[HF1 HF2]].
        + destruct (H (k, x) Hi HF) as (j & Hj & Hl). exists j. split; [exact Hj|]. rewrite (option_has_class _ _ HF Hj). exact Hl.
        + destruct (enc_native x HF1) as (j & Hj & Hp). exists j. split; [exact Hj|]. rewrite (native_no_class x HF1 HF2 j Hj). congruence. }
    destruct (enc_obj (fun k x j =>
      (if is_labeler_attr c k then JsonSaveModel.convert parse CLab j else if has_class j then load_option j else Ok (plain j)) = Ok x) c a)
      as (js & Hjs & H2); [|exact Hn| |].
    { intros ->. clear -Hc. revert Hc. not_in. }
    { apply Forall_forall. intros [k x] Hi. apply Hone. exact Hi. }
    eexists. split; [exact Hjs|]. cbn [JsonSaveModel.load_option]. apply lmem_In in Hc. change kinds_of_option with option_classes in Hc. rewrite Hc.
    assert (Ho : mapM (fun kx : string * json =>
            bind (if is_labeler_attr c (fst kx) then JsonSaveModel.convert parse CLab (snd kx)
                  else if has_class (snd kx) then load_option (snd kx) else Ok (plain (snd kx)))
              (fun v => Ok (fst kx, v))) js = Ok a).
    { apply mapM_back. eapply Forall2_impl; [|exact H2]. intros [k x] [s j] [Hk Hx]. cbn [fst snd] in *. subst s. rewrite Hx. reflexivity. }
    match goal with |- bind (mapM ?f js) _ = _ => change (mapM f js) with (mapM (fun kx : string * json =>
            bind (if is_labeler_attr c (fst kx) then JsonSaveModel.convert parse CLab (snd kx)
                  else if has_class (snd kx) then load_option (snd kx) else Ok (plain (snd kx)))
              (fun v => Ok (fst kx, v))) js) end.
    rewrite Ho. reflexivity.
  Qed.

  Theorem C75_column : forall v, column v -> exists j, enc v = Ok j /\ load_column parse j = Ok v.
  Proof.
    intros v H. unfold load_column. eapply enc_object; [|clear v H|exact H]; [not_in|].
    intros c k x _ Hx. cbn beta in Hx.
    destruct (String.eqb k "profiles").
    { destruct (enc_back compiler (fun t y => bind (load_compiler parse y) (fun v => Ok (PStr t, v))) x Hx) as (js & Hjs & Hb).
      - intros s y Hy. destruct (C75_compiler y Hy) as (j & Hj & Hl). exists j. split; [exact Hj|]. rewrite Hl. reflexivity.
      - exists (JObj js). split; [exact Hjs|exact Hb]. }
    destruct (String.eqb k "options").
    { destruct Hx as [->|Hx]; [exists JNull; split; reflexivity|]. destruct (C75_options x Hx) as (j & Hj & Hl). exists j. split; [exact Hj|].
      destruct j; try exact Hl. discriminate. }
    destruct (String.eqb k "_null_values"); [apply (enc_convert TFlags CFlags); [exact I|exact Hx]|].
    destruct (String.eqb k "null_types_index"); [apply (enc_convert TSets CSets); [exact I|exact Hx]|].
    apply enc_native in Hx. destruct Hx as (j & Hj & Hp). exists j. split; [exact Hj|congruence].
  Qed.

  Lemma enc_names v : names_ok v -> exists j, enc v = Ok j /\ convert CNames j = Ok v.
  Proof.
    intros [(d & -> & Hn & HF)|[HS (d & k & x & -> & Hi & Hk)]].
    - destruct (enc_ints d Hn HF) as (js & Hjs & Hb). exists (JObj js). split; [exact Hjs|]. cbn [JsonSaveModel.convert].
      destruct (to_ints parse js) as [l|]; [|discriminate]. exact Hb.
    - destruct HS as (d' & E & Hn & HF). inversion E; subst d'.
      destruct (enc_sdict native (fun x j => plain j = x) d Hn) as (js & Hjs & H2).
      { eapply Forall_impl; [|exact HF]. intros kv [Hs Hv]. split; [exact Hs|]. apply enc_native. exact Hv. }
      exists (JObj js). split; [exact Hjs|]. cbn [JsonSaveModel.convert].
      assert (Hin : exists j, In (k, j) js).
      { clear -H2 Hi. induction H2 as [|kv [s j] d js [Hs Hv] H2 IH]; [destruct Hi|]. destruct Hi as [->|Hi].
        - cbn [fst] in Hs. inversion Hs; subst. exists j. left. reflexivity.
        - destruct (IH Hi) as [j' Hj']. exists j'. right. exact Hj'. }
      destruct Hin as [j Hin]. unfold to_ints, over.
      destruct (mapM_err (fun kx : string * json => match parse (fst kx) with Some z => Ok (z, plain (snd kx)) | None => Err ValueError end)
        js (k, j) ValueError Hin) as [e He]; [cbn [fst snd]; rewrite Hk; reflexivity|].
      rewrite He. cbn [bind plain]. f_equal. f_equal. clear -H2.
      induction H2 as [|[k v] [s j] d js [Hk Hv] H2 IH]; [reflexivity|]. cbn in *. congruence.
  Qed.

  (** The profile loaded is the profile saved. *)
  Theorem C75_reload : forall p, profiler p -> reload p = Ok p.
  Proof.
    intros p H. unfold JsonSaveModel.reload, JsonSaveModel.load.
    destruct (enc_object ["StructuredProfiler"] (fun _ k x =>
      if lmem ["chi2_matrix"; "correlation_matrix"] k then array x
      else if String.eqb k "_col_name_to_idx" then names_ok x
      else if String.eqb k "hashed_row_object" then has_type TInts x
      else if String.eqb k "options" then option_object x /\ validate_nulls x = Ok tt
      else if String.eqb k "_profile" then exists l, x = PList l /\ Forall column l
      else if String.eqb k "_null_replication_metrics" then native x
      else native x) (fun _ k x => profiler_attr parse k x) p) as (j & Hj & Hl); [not_in| |exact H|rewrite Hj; exact Hl].
    clear p H. intros c k x _ Hx. cbn beta in Hx. unfold profiler_attr.
    destruct (lmem ["chi2_matrix"; "correlation_matrix"] k); [apply (enc_convert TArr CArr); [exact I|exact Hx]|].
    destruct (String.eqb k "_col_name_to_idx"); [apply enc_names; exact Hx|].
    destruct (String.eqb k "hashed_row_object"); [apply (enc_convert TInts CInts); [exact I|exact Hx]|].
    destruct (String.eqb k "options").
    { destruct Hx as [Hx Hv]. destruct (C75_options x Hx) as (j & Hj & Hl). exists j. split; [exact Hj|]. rewrite Hl. cbn [bind]. rewrite Hv. reflexivity. }
    destruct (String.eqb k "_profile").
    { destruct Hx as (l & -> & HF). destruct (mapM_ok enc (fun x j => load_column parse j = Ok x) l) as (js & Hjs & H2).
      - eapply Forall_impl; [|exact HF]. intros y Hy. apply C75_column. exact Hy.
      - exists (JList js). cbn [JsonSaveModel.enc]. rewrite Hjs. split; [reflexivity|]. rewrite (mapM_back (load_column parse) l js H2). reflexivity. }
    assert (Hx' : native x) by (destruct (String.eqb k "_null_replication_metrics"); exact Hx). clear Hx. rename Hx' into Hx.
    apply enc_native in Hx. destruct Hx as (j & Hj & Hp). exists j. split; [exact Hj|congruence].
  Qed.

  (** *** What cannot be saved *)
  Inductive holds (x : py) : py -> Prop :=
    | holds_self : holds x x
    | holds_list l y : In y l -> holds x y -> holds x (PList l)
    | holds_set l y : In y l -> holds x y -> holds x (PSet l)
    | holds_array l y : In y l -> holds x y -> holds x (PArr l)
    | holds_dict d k y : In (k, y) d -> holds x y -> holds x (PDict d)
    | holds_attr c a k y : In (k, y) a -> holds x y -> holds x (PObj c a).
  (** Sketches, labelers that are not of the library, and profiles of texts *)
  Inductive unsaveable : py -> Prop :=
    | un_alien : unsaveable PAlien
    | un_labeler : unsaveable (PLab None)
    | un_text a : unsaveable (PObj "UnstructuredProfiler" a).
  Theorem C75_not_saved : forall x v, unsaveable x -> holds x v -> exists e, enc v = Err e.
  Proof.
    intros x v Hu Hh. induction Hh as [|l y Hi _ [e IH]|l y Hi _ [e IH]|l y Hi _ [e IH]|d k y Hi _ [e IH]|c a k y Hi _ [e IH]].
    - destruct Hu; eexists; reflexivity.
    - destruct (mapM_err enc l y e Hi IH) as [e' H]. exists e'. cbn [JsonSaveModel.enc]. rewrite H. reflexivity.
    - destruct (mapM_err enc l y e Hi IH) as [e' H]. exists e'. cbn [JsonSaveModel.enc]. rewrite H. reflexivity.
    - destruct (mapM_err enc l y e Hi IH) as [e' H]. exists e'. cbn [JsonSaveModel.enc]. rewrite H. reflexivity.
    - assert (exists e1, bind (key_of dec frepr k) (fun k' => bind (enc y) (fun x0 => Ok (k', x0))) = Err e1) as [e1 He1].
      { destruct (key_of dec frepr k); cbn [bind]; [rewrite IH|]; eexists; reflexivity. }
      destruct (mapM_err (fun kv => bind (key_of dec frepr (fst kv)) (fun k => bind (enc (snd kv)) (fun x => Ok (k, x)))) d (k, y) e1 Hi He1) as [e' H].
      exists e'. cbn [JsonSaveModel.enc]. rewrite H. reflexivity.
    - cbn [JsonSaveModel.enc]. destruct (String.eqb c "UnstructuredProfiler"); [eexists; reflexivity|].
      destruct (mapM_err (fun kv => bind (enc (snd kv)) (fun x => Ok (fst kv, x))) a (k, y) e Hi) as [e' H]; [cbn [fst snd]; rewrite IH; reflexivity|].
      exists e'. rewrite H. reflexivity.
  Qed.

  (** *** What cannot be loaded *)
  Lemma enc_attrs c a j : NoDup (map fst a) -> enc (PObj c a) = Ok j ->
    exists js, j = JObj [("class", JStr c); ("data", JObj js)] /\ Forall2 (fun kv kx => fst kv = fst kx /\ enc (snd kv) = Ok (snd kx)) a js.
  Proof.
    intros Hn. cbn [JsonSaveModel.enc]. destruct (String.eqb c "UnstructuredProfiler"); [discriminate|].
    destruct (mapM _ a) as [js|] eqn:E; [|discriminate]. cbn [bind]. intros H. inversion H; subst j. apply mapM_inv in E.
    assert (H2 : Forall2 (fun kv kx => fst kv = fst kx /\ enc (snd kv) = Ok (snd kx)) a js).
    { eapply Forall2_impl; [|exact E]. intros [k v] [s j] Hx. cbn [fst snd] in *. destruct (enc v); [|discriminate]. cbn [bind] in Hx.
      inversion Hx. auto. }
    exists js. rewrite dedup_id; [split; [reflexivity|exact H2]|].
    rewrite <- (Forall2_map_eq fst fst a js); [exact Hn|]. eapply Forall2_impl; [|exact H2]. intros ? ? [Hk _]. exact Hk.
  Qed.
  (** An attribute, through saving and loading *)
  Lemma attr_through {B} (R : string -> json -> B -> Prop) (a : list (string * py)) js (a' : list (string * B)) k v :
    NoDup (map fst a) -> Forall2 (fun kv kx => fst kv = fst kx /\ enc (snd kv) = Ok (snd kx)) a js ->
    Forall2 (fun kx kw => fst kx = fst kw /\ R (fst kx) (snd kx) (snd kw)) js a' ->
    dget a k = Some v -> exists j w, enc v = Ok j /\ R k j w /\ dget a' k = Some w.
  Proof.
    intros _ H. revert a'. induction H as [|[k1 v1] [k2 j2] a js [Hk Hj] H IH]; intros a' H' Hg; [discriminate|].
    cbn [fst snd] in *. subst k2. inversion H' as [|? [k3 w3] ? a'' [Hk3 HR] H'']; subst. cbn [fst snd] in *. subst k3.
    cbn [dget] in Hg |- *. destruct (PyDict.eqb k1 k) eqn:Ek.
    - apply (proj1 (PyDict.eqb_eq _ _)) in Ek. subst k1. inversion Hg; subst. exists j2, w3. auto.
    - apply IH; assumption.
  Qed.
  Lemma load_attrs known f c js q : load_object known f (JObj [("class", JStr c); ("data", JObj js)]) = Ok q ->
    exists a', q = PObj c a' /\ Forall2 (fun kx kw => fst kx = fst kw /\ f c (fst kx) (snd kx) = Ok (snd kw)) js a'.
  Proof.
    unfold load_object. destruct (lmem known c); [|discriminate]. destruct (over _ js) as [a'|] eqn:E; [|discriminate].
    cbn [bind]. intros H. inversion H. exists a'. split; [reflexivity|]. unfold over in E. apply mapM_inv in E.
    eapply Forall2_impl; [|exact E]. intros [k j] [k' w] Hx. cbn [fst snd] in *. destruct (f c k j); [|discriminate]. cbn [bind] in Hx.
    inversion Hx. auto.
  Qed.
  Lemma reload_attr c a q k v : NoDup (map fst a) -> reload (PObj c a) = Ok q -> dget a k = Some v ->
    exists a' j w, q = PObj c a' /\ enc v = Ok j /\ profiler_attr parse k j = Ok w /\ dget a' k = Some w.
  Proof.
    intros Hn Hr Hg. unfold JsonSaveModel.reload in Hr. destruct (enc (PObj c a)) as [j|] eqn:Ej; [|discriminate]. cbn [bind] in Hr.
    destruct (enc_attrs c a j Hn Ej) as (js & -> & H2). unfold JsonSaveModel.load in Hr.
    apply load_attrs in Hr. destruct Hr as (a' & -> & H3).
    destruct (attr_through (fun k j w => profiler_attr parse k j = Ok w) a js a' k v Hn H2 H3 Hg) as (j & w & H4 & H5 & H6).
    exists a', j, w. auto.
  Qed.
  Lemma option_attr co ao oj o' k v : NoDup (map fst ao) -> enc (PObj co ao) = Ok oj -> load_option oj = Ok o' -> dget ao k = Some v ->
    k <> "data_labeler_object" ->
    exists ao' j w, o' = PObj co ao' /\ dget ao' k = Some w /\ enc v = Ok j /\ ((exists c x, w = PObj c x) \/ w = plain j).
  Proof.
    intros Hn He Hl Hg Hk. destruct (enc_attrs co ao oj Hn He) as (js & -> & H2). cbn [JsonSaveModel.load_option] in Hl.
    destruct (lmem option_classes co); [|discriminate].
    destruct (mapM _ js) as [ao'|] eqn:E; [|discriminate]. cbn [bind] in Hl. inversion Hl; subst o'. apply mapM_inv in E.
    assert (H3 : Forall2 (fun kx kw => fst kx = fst kw /\
      ((fst kx = k -> (exists c x, snd kw = PObj c x) \/ snd kw = plain (snd kx)))) js ao').
    { eapply Forall2_impl; [|exact E]. intros [k1 j] [k2 w] Hx. cbn [fst snd] in *.
      match type of Hx with bind ?r _ = _ => destruct r as [v'|] eqn:Er; [|discriminate] end. cbn [bind] in Hx. inversion Hx; subst.
      split; [reflexivity|]. intros ->. unfold is_labeler_attr in Er. apply String.eqb_neq in Hk. rewrite Hk, Bool.andb_false_r in Er.
      destruct (has_class j); [|right; congruence]. left.
      destruct j as [| | | | | |dj]; cbn [JsonSaveModel.load_option] in Er; try discriminate.
      repeat match type of Er with context [match ?x with _ => _ end] => destruct x; try discriminate Er end.
      match type of Er with bind ?r _ = _ => destruct r as [xx|]; [|discriminate] end. cbn [bind] in Er. inversion Er. eauto. }
    destruct (attr_through (fun k1 j w => k1 = k -> (exists c x, w = PObj c x) \/ w = plain j) ao js ao' k v Hn H2 H3 Hg) as (j & w & H4 & H5 & H6).
    exists ao', j, w. split; [reflexivity|]. auto.
  Qed.
  Lemma options_valid c a q co ao : NoDup (map fst a) -> NoDup (map fst ao) -> dget a "options" = Some (PObj co ao) ->
    reload (PObj c a) = Ok q -> exists oj o', enc (PObj co ao) = Ok oj /\ load_option oj = Ok o' /\ validate_nulls o' = Ok tt.
  Proof.
    intros Hn Hn' Hg Hr. destruct (reload_attr c a q "options" (PObj co ao) Hn Hr Hg) as (a' & j & w & _ & He & Hp & _).
    unfold profiler_attr in Hp. cbn in Hp. destruct (load_option j) as [o'|] eqn:El; [|discriminate]. cbn [bind] in Hp.
    destruct (validate_nulls o') as [[]|] eqn:Ev; [|discriminate]. exists j, o'. auto.
  Qed.

  Lemma fold_dset_nonempty (l : list (string * json)) : forall acc, acc <> [] \/ l <> [] -> fold_left (fun d kv => dset d (fst kv) (snd kv)) l acc <> [].
  Proof.
    induction l as [|x l IH]; intros acc H; cbn [fold_left]; [destruct H; auto|]. apply IH. left.
    destruct acc as [|[k v] acc]; cbn [dset]; [discriminate|]. destruct (PyDict.eqb k (fst x)); discriminate.
  Qed.
  Lemma enc_dict_obj d j : enc (PDict d) = Ok j -> exists js, j = JObj js /\ (d <> [] -> js <> []).
  Proof.
    cbn [JsonSaveModel.enc]. destruct (mapM _ d) as [l|] eqn:E; [|discriminate]. cbn [bind]. intros H. inversion H.
    eexists. split; [reflexivity|]. intros Hd. apply fold_dset_nonempty. right. destruct d; [contradiction|].
    cbn [mapM] in E. destruct (bind (key_of _ _ _) _); [|discriminate]. cbn [bind] in E. destruct (mapM _ d); [|discriminate].
    inversion E. discriminate.
  Qed.

  (** Null values for columns cannot be loaded: their positions have become strings. *)
  Theorem C75_column_nulls : forall c a co ao d, NoDup (map fst a) -> NoDup (map fst ao) ->
    dget a "options" = Some (PObj co ao) -> dget ao "column_null_values" = Some (PDict d) -> d <> [] ->
    exists e, reload (PObj c a) = Err e.
  Proof.
    intros c a co ao d Hn Hn' Hg Hg' Hd. destruct (reload (PObj c a)) as [q|e] eqn:Er; [exfalso|eexists; reflexivity].
    destruct (options_valid c a q co ao Hn Hn' Hg Er) as (oj & o' & He & Hl & Hv).
    destruct (option_attr co ao oj o' "column_null_values" (PDict d) Hn' He Hl Hg') as (ao' & j & w & -> & Hw & Hj & Hc); [discriminate|].
    unfold validate_nulls in Hv. rewrite Hw in Hv.
    match type of Hv with (if (?x && ?y)%bool then _ else _) = _ => assert (Hy : y = false); [|rewrite Hy, Bool.andb_false_r in Hv; discriminate] end.
    destruct Hc as [(c' & x & ->)|Hc]; [reflexivity|]. subst w. destruct (enc_dict_obj d j Hj) as (js & -> & Hne). specialize (Hne Hd).
    cbn [plain]. destruct js as [|[k x] js]; [contradiction|]. reflexivity.
  Qed.

  (** Null values with a flag cannot be loaded: the flag has become a number. *)
  Theorem C75_flags : forall c a co ao d k z, NoDup (map fst a) -> NoDup (map fst ao) -> NoDup (map fst d) ->
    (forall k x, In (k, x) d -> exists s, k = PStr s) ->
    dget a "options" = Some (PObj co ao) -> dget ao "null_values" = Some (PDict d) -> In (PStr k, PFlag z) d -> z <> 0%Z ->
    exists e, reload (PObj c a) = Err e.
  Proof.
    intros c a co ao d k z Hn Hn' Hnd Hs Hg Hg' Hi Hz. destruct (reload (PObj c a)) as [q|e] eqn:Er; [exfalso|eexists; reflexivity].
    destruct (options_valid c a q co ao Hn Hn' Hg Er) as (oj & o' & He & Hl & Hv).
    destruct (option_attr co ao oj o' "null_values" (PDict d) Hn' He Hl Hg') as (ao' & j & w & -> & Hw & Hj & Hc); [discriminate|].
    unfold validate_nulls in Hv. rewrite Hw in Hv.
    match type of Hv with (if (?x && ?y)%bool then _ else _) = _ => assert (Hy : x = false); [|rewrite Hy in Hv; discriminate] end.
    destruct Hc as [(c' & x & ->)|Hc]; [reflexivity|]. subst w.
    assert (Hev : Forall (fun kv => exists y, enc (snd kv) = Ok y) d).
    { cbn [JsonSaveModel.enc] in Hj. destruct (mapM _ d) as [l|] eqn:E; [|discriminate]. apply mapM_inv in E. clear -E.
      induction E as [|[k v] y d l H E IH]; constructor; [|exact IH]. cbn [fst snd] in *. destruct (key_of dec frepr k); [|discriminate].
      cbn [bind] in H. destruct (enc v); [eexists; reflexivity|discriminate]. }
    destruct (enc_sdict (fun _ => True) (fun x j => enc x = Ok j) d Hnd) as (js & Hjs & H2).
    { rewrite Forall_forall in *. intros [k' x] Hx. split; [exact (Hs k' x Hx)|]. destruct (Hev _ Hx) as [y Hy]. exists y. split; exact Hy. }
    rewrite Hjs in Hj. inversion Hj; subst j. cbn [plain].
    destruct (null_dict_ok (PDict (map (fun kx => (PStr (fst kx), plain (snd kx))) js))) eqn:En; [|reflexivity].
    exfalso. cbn [null_dict_ok] in En. rewrite forallb_forall in En.
    assert (Hin : In (k, JInt z) js).
    { clear -H2 Hi. induction H2 as [|kv [s j] d js [Hs Hv] H2 IH]; [destruct Hi|]. destruct Hi as [->|Hi]; [|right; apply IH; exact Hi].
      cbn [fst snd] in *. inversion Hs; subst. cbn in Hv. inversion Hv. left. reflexivity. }
    specialize (En (PStr k, PInt z)). cbn [fst snd flag_ok] in En. apply Z.eqb_neq in Hz. rewrite Hz in En.
    assert (Hf : false = true); [|discriminate Hf]. apply En. apply in_map_iff. exists (k, JInt z). split; [reflexivity|exact Hin].
  Qed.

  (** *** What is lost *)
  (** Metrics of the nulls of a column, as the report looks them up (profile_builder.py 2100-2106) *)
  Definition metric (p : py) (i : nat) : option py :=
    match p with
    | PObj _ a =>
        match dget a "_null_replication_metrics" with
        | Some (PDict d) =>
            option_map snd (find (fun kv => match fst kv with PInt z => Z.eqb z (Z.of_nat i) | _ => false end) d)
        | _ => None
        end
    | _ => None
    end.
  (** No column has null replication metrics after loading. *)
  Theorem C75_metrics : forall c a q v i, NoDup (map fst a) -> dget a "_null_replication_metrics" = Some v ->
    reload (PObj c a) = Ok q -> metric q i = None.
  Proof.
    intros c a q v i Hn Hg Hr. destruct (reload_attr c a q "_null_replication_metrics" v Hn Hr Hg) as (a' & j & w & -> & He & Hp & Hw).
    unfold metric. rewrite Hw. unfold profiler_attr in Hp. cbn in Hp. inversion Hp; subst w.
    destruct j; cbn [plain]; try reflexivity. clear. induction d as [|x d IH]; [reflexivity|]. cbn [map find fst]. exact IH.
  Qed.
End Props.

(** ** Counterexamples *)
Definition dec0 (z : Z) : string := NilZero.string_of_int (Z.to_int z).
Definition parse0 (s : string) : option Z := option_map Z.of_int (NilZero.int_of_string s).
Definition frepr0 (q : option Q) : string := "0.5".
Lemma parse_dec0 : forall z, parse0 (dec0 z) = Some z.
Proof.
  intros z. unfold parse0, dec0. rewrite NilZero.isi; cbn [option_map].
  - f_equal. apply DecimalZ.of_to.
  - destruct z as [|p|p]; cbn [Z.to_int]; try discriminate. intros E. inversion E as [E']. apply (DecimalPos.Unsigned.to_uint_nonnil _ E').
  - destruct z as [|p|p]; cbn [Z.to_int]; try discriminate. intros E. inversion E as [E']. apply (DecimalPos.Unsigned.to_uint_nonnil _ E').
Qed.
Notation reload0 := (reload dec0 parse0 frepr0).

(** The names of columns: integers or strings.  What the profile expects of the next batch's columns. *)
Inductive name := NInt (z : Z) | NStr (s : string).
Definition name_eqb (a b : name) : bool :=
  match a, b with NInt x, NInt y => Z.eqb x y | NStr x, NStr y => String.eqb x y | _, _ => false end.
#[export] Instance EqDecB_name : EqDecB name.
Proof.
  refine {| PyDict.eqb := name_eqb |}. intros [x|x] [y|y]; cbn; try (constructor; discriminate).
  - destruct (Z.eqb_spec x y); constructor; congruence.
  - destruct (String.eqb_spec x y); constructor; congruence.
Defined.
Definition lower_name (n : name) : name := match n with NStr s => NStr (lower_string s) | _ => n end.
Definition schema_of (p : py) : dict name (list nat) :=
  match p with
  | PObj _ a =>
      match dget a "_col_name_to_idx" with
      | Some (PDict d) =>
          flat_map (fun kv =>
            match fst kv, snd kv with
            | PInt z, PList l => [(NInt z, map (fun x => match x with PInt i => Z.to_nat i | _ => 0 end) l)]
            | PStr s, PList l => [(NStr s, map (fun x => match x with PInt i => Z.to_nat i | _ => 0 end) l)]
            | _, _ => []
            end) d
      | _ => []
      end
  | _ => []
  end.
(** Whether a batch with these columns is accepted: [update_profile], profile_builder.py 2811-2835 *)
Definition accepts (p : py) (cols : list name) : bool :=
  match get_mapping lower_name (build_schema lower_name cols) (schema_of p) false with Ok _ => true | Err _ => false end.

Definition ints (l : list Z) : py := PList (map PInt l).
Definition enabled (c : string) (b : bool) : py := PObj c [("is_enabled", PBool b)].
Definition options_with (nulls cnulls : py) : py :=
  PObj "StructuredOptions"
    [("multiprocess", enabled "BooleanOption" true); ("category", PObj "CategoricalOptions" [("is_enabled", PBool true); ("top_k_categories", PNone)]);
     ("data_labeler", PObj "DataLabelerOptions" [("is_enabled", PBool true); ("data_labeler_dirpath", PNone);
        ("data_labeler_object", PLab (Some "structured_model"))]);
     ("null_values", nulls); ("column_null_values", cnulls); ("sampling_ratio", PFlt (Some (1 # 5)))].
Definition int_profile : py :=
  PObj "IntColumn" [("name", PStr "a"); ("_NumericStatsMixin__calculations", PDict [(PStr "min", PFun "_get_min"); (PStr "sum", PFun "_get_sum")]);
    ("min", PInt 3); ("sum", PFlt (Some 10%Q)); ("variance", PFlt None);
    ("_stored_histogram", PDict [(PStr "total_loss", PInt 0);
       (PStr "histogram", PDict [(PStr "bin_counts", PArr [PInt 1; PInt 1]); (PStr "bin_edges", PArr [PFlt (Some 3%Q); PFlt (Some 5%Q); PFlt (Some 7%Q)])])])].
Definition order_profile : py := PObj "OrderColumn" [("order", PStr "ascending"); ("_first_value", PFlt (Some 3%Q)); ("_data_store_type", PFun "float64")].
Definition label_profile : py :=
  PObj "DataLabelerColumn" [("data_labeler", PLab (Some "structured_model")); ("_reverse_label_mapping", PDict [(PInt 0, PStr "PAD"); (PInt 1, PStr "UNKNOWN")]);
    ("_sum_predictions", PArr [PInt 0; PInt 2])].
Definition column_of : py :=
  PObj "StructuredColProfiler" [("name", PStr "a"); ("options", options_with PNone PNone); ("sample_size", PInt 3);
    ("null_types_index", PDict [(PStr "", PSet [PInt 1])]); ("_null_values", PDict [(PStr "", PInt 0); (PStr "nan", PFlag 2)]);
    ("profiles", PDict
      [(PStr "data_type_profile", PObj "ColumnPrimitiveTypeProfileCompiler" [("_profiles", PDict [(PStr "int", int_profile)])]);
       (PStr "data_stats_profile", PObj "ColumnStatsProfileCompiler" [("_profiles", PDict [(PStr "order", order_profile)])]);
       (PStr "data_label_profile", PObj "ColumnDataLabelerCompiler" [("_profiles", PDict [(PStr "data_labeler", label_profile)])])])].
Definition profile_with (names nulls cnulls metrics : py) : py :=
  PObj "StructuredProfiler" [("encoding", PStr "utf-8"); ("total_samples", PInt 3); ("times", PDict [(PStr "clean", PFlt (Some (1 # 2)))]);
    ("options", options_with nulls cnulls); ("hashed_row_object", PDict [(PInt 77, PBool true); (PInt (-5), PBool false)]);
    ("_profile", PList [column_of]); ("_col_name_to_idx", names); ("correlation_matrix", PNone);
    ("chi2_matrix", PArr [PList [PFlt None]]); ("_null_replication_metrics", metrics)].
Definition example : py := profile_with (PDict [(PStr "a", ints [0%Z])]) (PDict [(PStr "?", PInt 0)]) PNone PNone.

Ltac nd := repeat constructor; cbn; intros HH; repeat (destruct HH as [HH|HH]; [discriminate HH|]); try exact HH.
Ltac here := first [left; reflexivity|right; here].
Lemma options_example nulls cnulls : native nulls -> no_class nulls -> native cnulls -> no_class cnulls -> option_object (options_with nulls cnulls).
Proof.
  intros H1 H2 H3 H4. unfold options_with. constructor; [cbn; here|nd|].
  assert (Hb : option_object (enabled "BooleanOption" true)).
  { constructor; [cbn; here|nd|]. intros k x [E|[]]. inversion E. right. split; [intros [? _]; discriminate|]. right. split; [exact I|intros ? ?; discriminate]. }
  assert (Hnl : forall k, ~ labeler_option "StructuredOptions" k) by (intros k [? _]; discriminate).
  intros k x Hi. right. split; [apply Hnl|].
  cbn in Hi. repeat (destruct Hi as [E|Hi]; [inversion E; subst; clear E|]); [left; exact Hb| | |right; split; assumption|right; split; assumption| |destruct Hi].
  - left. constructor; [cbn; here|nd|]. intros k' x' [E|[E|[]]]; inversion E; right; (split; [intros [? _]; discriminate|]); right;
      (split; [exact I|intros ? ?; discriminate]).
  - left. constructor; [cbn; here|nd|]. intros k' x' [E|[E|[E|[]]]]; inversion E.
    1,2: right; (split; [intros [_ ?]; discriminate|]); right; (split; [exact I|intros ? ?; discriminate]).
    left. split; [split; reflexivity|]. right. eexists. reflexivity.
  - right. split; [exact I|intros ? ?; discriminate].
Qed.
Lemma column_example : column column_of.
Proof.
  exists "StructuredColProfiler". eexists. split; [reflexivity|]. split; [left; reflexivity|]. split; [nd|].
  repeat match goal with |- Forall _ (_ :: _) => constructor | |- Forall _ [] => constructor end;
    cbn [fst snd String.eqb Ascii.eqb Bool.eqb].
  - exact I.
  - right. apply options_example; try exact I; intros ? ?; discriminate.
  - exact I.
  - exists [(PStr "", PSet [PInt 1])]. split; [reflexivity|]. split; [nd|]. repeat constructor; [eexists; reflexivity|].
    exists [PInt 1]. split; [reflexivity|]. repeat constructor.
  - eexists. split; [reflexivity|]. split; [nd|]. constructor; [|constructor; [|constructor]]; (split; [eexists; reflexivity|]); [left; reflexivity|].
    right. exists 2%Z. split; [discriminate|reflexivity].
  - eexists. split; [reflexivity|]. split; [nd|]. constructor; [|constructor; [|constructor; [|constructor]]]; (split; [eexists; reflexivity|]); cbn [snd].
    + exists "ColumnPrimitiveTypeProfileCompiler". eexists. split; [reflexivity|]. split; [cbn; here|]. split; [nd|]. constructor; [|constructor].
      cbn [fst snd String.eqb Ascii.eqb Bool.eqb]. eexists. split; [reflexivity|]. split.
      * constructor; [|constructor]. cbn [snd]. exists "IntColumn". eexists. split; [reflexivity|]. split; [cbn; here|]. split; [nd|].
        repeat match goal with |- Forall _ (_ :: _) => constructor | |- Forall _ [] => constructor end; try exact I.
        -- change (has_type TFuns (PDict [(PStr "min", PFun "_get_min"); (PStr "sum", PFun "_get_sum")])).
           eexists. split; [reflexivity|]. split; [nd|]. repeat constructor; eexists; reflexivity.
        -- match goal with |- has_type _ ?x => change (histogram x) end. eexists. split; [reflexivity|]. split; [nd|].
           constructor; [|constructor; [|constructor]].
           ++ exists "total_loss". split; [reflexivity|]. exact I.
           ++ exists "histogram". split; [reflexivity|]. cbn. eexists. split; [reflexivity|]. split; [nd|].
              constructor; [|constructor; [|constructor]]; (split; [eexists; reflexivity|]); right; eexists; (split; [reflexivity|]); repeat constructor.
      * exists ["int"]. split; [reflexivity|]. cbn. apply sub_skip, sub_take, sub_nil.
    + exists "ColumnStatsProfileCompiler". eexists. split; [reflexivity|]. split; [cbn; here|]. split; [nd|]. constructor; [|constructor].
      cbn [fst snd String.eqb Ascii.eqb Bool.eqb]. eexists. split; [reflexivity|]. split.
      * constructor; [|constructor]. cbn [snd]. exists "OrderColumn". eexists. split; [reflexivity|]. split; [cbn; here|]. split; [nd|].
        repeat match goal with |- Forall _ (_ :: _) => constructor | |- Forall _ [] => constructor end; try exact I. right. reflexivity.
      * exists ["order"]. split; [reflexivity|]. cbn. apply sub_take, sub_nil.
    + exists "ColumnDataLabelerCompiler". eexists. split; [reflexivity|]. split; [cbn; here|]. split; [nd|]. constructor; [|constructor].
      cbn [fst snd String.eqb Ascii.eqb Bool.eqb]. eexists. split; [reflexivity|]. split.
      * constructor; [|constructor]. cbn [snd]. exists "DataLabelerColumn". eexists. split; [reflexivity|]. split; [cbn; here|]. split; [nd|].
        constructor; [|constructor; [|constructor; [|constructor]]].
        -- eexists. reflexivity.
        -- right. eexists. split; [reflexivity|]. split; [nd|]. repeat constructor; eexists; reflexivity.
        -- right. eexists. split; [reflexivity|]. repeat constructor.
      * exists ["data_labeler"]. split; [reflexivity|]. cbn. apply sub_take, sub_nil.
Qed.
Lemma profile_example (P O M : py -> Prop) names nulls cnulls metrics : P names -> O (options_with nulls cnulls) -> M metrics ->
  profile_object P O M (profile_with names nulls cnulls metrics).
Proof.
  intros H1 H2 H3. exists "StructuredProfiler". eexists. split; [reflexivity|]. split; [left; reflexivity|]. split; [nd|].
  repeat match goal with |- Forall _ (_ :: _) => constructor | |- Forall _ [] => constructor end; try exact I.
  - split; [nd|]. cbn. split; [|exact I]. split; [eexists; reflexivity|exact I].
  - exact H2.
  - eexists. split; [reflexivity|]. split; [nd|]. repeat constructor; eexists; reflexivity.
  - exists [column_of]. split; [reflexivity|]. constructor; [apply column_example|constructor].
  - exact H1.
  - left. reflexivity.
  - right. eexists. split; [reflexivity|]. repeat constructor.
  - exact H3.
Qed.
Example C75_example : profiler parse0 example /\ reload0 example = Ok example /\ accepts example [NStr "A"] = true.
Proof.
  assert (H : profiler parse0 example).
  { apply profile_example.
    - right. split.
      + exists [(PStr "a", ints [0%Z])]. split; [reflexivity|]. split; [nd|]. repeat constructor. eexists. reflexivity.
      + exists [(PStr "a", ints [0%Z])], "a", (ints [0%Z]). split; [reflexivity|]. split; [left; reflexivity|reflexivity].
    - split; [|reflexivity]. apply options_example; try exact I; try (intros ? ?; discriminate).
      + split; [nd|]. cbn. split; [|exact I]. split; [eexists; reflexivity|exact I].
      + intros d E. inversion E. cbn. intros [HH|[]]. discriminate.
    - exact I. }
  split; [exact H|]. split; [|reflexivity]. apply C75_reload; [exact parse_dec0|exact H].
Qed.

(** Profiles in general: any names, options that are valid, metrics of any columns *)
Definition keyed (K : py -> Prop) (v : py) : Prop :=
  exists d, v = PDict d /\ NoDup (map fst d) /\ Forall (fun kv => K (fst kv) /\ native (snd kv)) d.
Definition is_str (k : py) : Prop := exists s, k = PStr s.
Definition is_int (k : py) : Prop := exists z, k = PInt z.
Definition any_profile : py -> Prop :=
  profile_object (keyed (fun k => is_str k \/ is_int k)) (fun o => validate_nulls o = Ok tt) (fun v => v = PNone \/ keyed is_int v).
Ltac any := apply profile_example;
  [eexists; split; [reflexivity|]; split; [nd|];
   repeat (constructor; [split; [first [left; eexists; reflexivity|right; eexists; reflexivity]|repeat constructor]|]); constructor
  |reflexivity|].

(** Column names that look like numbers are numbers after loading: the next batch of the same table is refused. *)
Theorem C75_names_refuted :
  ~ (forall p q cols, any_profile p -> reload0 p = Ok q -> accepts p cols = true -> accepts q cols = true).
Proof.
  intros H. specialize (H (profile_with (PDict [(PStr "2019", ints [0%Z]); (PStr "2020", ints [1%Z])]) PNone PNone PNone)).
  match type of H with forall q _, _ -> reload0 ?p = _ -> _ => destruct (reload0 p) as [q|] eqn:E; [|vm_compute in E; discriminate E] end.
  specialize (H q [NStr "2019"; NStr "2020"]). assert (Hq : accepts q [NStr "2019"; NStr "2020"] = true) by (apply H; [any; left; reflexivity|reflexivity|reflexivity]).
  vm_compute in E. injection E as <-. vm_compute in Hq. discriminate Hq.
Qed.
(** Integers among names that are strings are strings after loading. *)
Theorem C75_mixed_names_refuted :
  ~ (forall p q cols, any_profile p -> reload0 p = Ok q -> (exists s l, In (NStr s, l) (schema_of p) /\ parse0 s = None) ->
       accepts p cols = true -> accepts q cols = true).
Proof.
  intros H. specialize (H (profile_with (PDict [(PStr "a", ints [0%Z]); (PInt 1, ints [1%Z])]) PNone PNone PNone)).
  match type of H with forall q _, _ -> reload0 ?p = _ -> _ => destruct (reload0 p) as [q|] eqn:E; [|vm_compute in E; discriminate E] end.
  specialize (H q [NStr "a"; NInt 1]). assert (Hq : accepts q [NStr "a"; NInt 1] = true).
  { apply H; [any; left; reflexivity|reflexivity| |reflexivity]. exists "a", [0]. split; [left; reflexivity|reflexivity]. }
  vm_compute in E. injection E as <-. vm_compute in Hq. discriminate Hq.
Qed.
(** Names that are the same number become one name. *)
Theorem C75_same_number_refuted :
  ~ (forall p q, any_profile p -> reload0 p = Ok q -> length (schema_of q) = length (schema_of p)).
Proof.
  intros H. specialize (H (profile_with (PDict [(PStr "1", ints [0%Z]); (PStr "01", ints [1%Z])]) PNone PNone PNone)).
  match type of H with forall q, _ -> reload0 ?p = _ -> _ => destruct (reload0 p) as [q|] eqn:E; [|vm_compute in E; discriminate E] end.
  assert (Hq := H q ltac:(any; left; reflexivity) eq_refl). clear H. rename Hq into H. vm_compute in E. injection E as <-. vm_compute in H. discriminate H.
Qed.

(** Not every profile that can be saved, with options that are valid, can be loaded: not with null values of a column, ... *)
Theorem C75_column_nulls_refuted :
  ~ (forall p j, any_profile p -> enc dec0 frepr0 p = Ok j -> exists q, reload0 p = Ok q).
Proof.
  intros H.
  set (p := profile_with (PDict [(PStr "a", ints [0%Z])]) PNone (PDict [(PInt 0, PDict [(PStr "?", PInt 0)])]) PNone) in *.
  destruct (enc dec0 frepr0 p) as [j|] eqn:E; [|vm_compute in E; discriminate E].
  destruct (H p j) as [q Hq]; [any; left; reflexivity|exact E|].
  vm_compute in Hq. discriminate Hq.
Qed.
(** ... not with a flag, ... *)
Theorem C75_flags_refuted :
  ~ (forall p j, any_profile p -> enc dec0 frepr0 p = Ok j -> exists q, reload0 p = Ok q).
Proof.
  intros H.
  set (p := profile_with (PDict [(PStr "a", ints [0%Z])]) (PDict [(PStr "missing", PFlag 2)]) PNone PNone) in *.
  destruct (enc dec0 frepr0 p) as [j|] eqn:E; [|vm_compute in E; discriminate E].
  destruct (H p j) as [q Hq]; [any; left; reflexivity|exact E|].
  vm_compute in Hq. discriminate Hq.
Qed.
(** ... and not if the word "class" stands for a null value. *)
Theorem C75_class_refuted :
  ~ (forall p j, any_profile p -> enc dec0 frepr0 p = Ok j -> exists q, reload0 p = Ok q).
Proof.
  intros H.
  set (p := profile_with (PDict [(PStr "a", ints [0%Z])]) (PDict [(PStr "class", PInt 0)]) PNone PNone) in *.
  destruct (enc dec0 frepr0 p) as [j|] eqn:E; [|vm_compute in E; discriminate E].
  destruct (H p j) as [q Hq]; [any; left; reflexivity|exact E|].
  vm_compute in Hq. discriminate Hq.
Qed.
(** The null replication metrics of a column are gone after loading. *)
Theorem C75_metrics_refuted : ~ (forall p q i, any_profile p -> reload0 p = Ok q -> metric q i = metric p i).
Proof.
  intros H.
  specialize (H (profile_with (PDict [(PStr "a", ints [0%Z])]) PNone PNone
    (PDict [(PInt 0, PDict [(PStr "class_prior", PList [PFlt (Some (1 # 2)); PFlt (Some (1 # 2))])])]))).
  match type of H with forall q _, _ -> reload0 ?p = _ -> _ => destruct (reload0 p) as [q|] eqn:E; [|vm_compute in E; discriminate E] end.
  assert (Hq := H q 0). clear H. rename Hq into H.
  assert (H' : metric q 0 = Some (PDict [(PStr "class_prior", PList [PFlt (Some (1 # 2)); PFlt (Some (1 # 2))])])).
  { rewrite H; [reflexivity| |reflexivity]. any. right. eexists. split; [reflexivity|]. split; [nd|]. constructor; [|constructor].
    split; [eexists; reflexivity|]. cbn. split; [nd|]. split; [|exact I]. split; [eexists; reflexivity|auto]. }
  clear H. rename H' into H. vm_compute in E. injection E as <-. vm_compute in H. discriminate H.
Qed.

Print Assumptions C75_reload.
Print Assumptions C75_not_saved.
Print Assumptions C75_column_nulls.
Print Assumptions C75_flags.
Print Assumptions C75_metrics.
Print Assumptions C75_names_refuted.
