(** Properties of saved and loaded profiles (C26). *)
From Coq Require Import ZArith QArith.
From Verif Require Import PyCommon PyDict PyString SizeModel SaveModel.
Local Open Scope nat_scope.
Local Open Scope string_scope.
Local Open Scope list_scope.

(** ** Lemmas on dictionaries *)
Section Dicts.
  Context {K V : Type} {E : EqDecB K}.

  Lemma dict_ext (d1 d2 : dict K V) :
    dkeys d1 = dkeys d2 -> NoDup (dkeys d1) -> (forall k, In k (dkeys d1) -> dget d1 k = dget d2 k) -> d1 = d2.
  Proof.
    revert d2. induction d1 as [|[k v] d1 IH]; intros [|[k2 v2] d2]; try discriminate; [reflexivity|].
    unfold dkeys; cbn [map fst]; fold (dkeys d1) (dkeys d2). intros Hk Hn Hg. inversion Hk; subst k2.
    inversion Hn as [|? ? Hni Hn']; subst.
    assert (Hv := Hg k (or_introl eq_refl)). cbn [dget] in Hv. rewrite !PyDict.eqb_refl in Hv. inversion Hv; subst v2.
    f_equal. apply IH; auto. intros k' Hi. assert (Hg' := Hg k' (or_intror Hi)). cbn [dget] in Hg'.
    destruct (PyDict.eqb k k') eqn:Ek; [|exact Hg'].
    apply (proj1 (PyDict.eqb_eq _ _)) in Ek. subst. exfalso. apply Hni. exact Hi.
  Qed.

  Definition assign (d : dict K V) (b : dict K V) : dict K V := fold_left (fun g kv => dset g (fst kv) (snd kv)) d b.

  Lemma assign_get d : forall b k, NoDup (dkeys d) ->
    dget (assign d b) k = match dget d k with Some v => Some v | None => dget b k end.
  Proof.
    unfold assign. induction d as [|[k0 v0] d IH]; intros b k Hn; [reflexivity|].
    inversion Hn as [|? ? Hni Hn']; subst. cbn [fold_left fst snd dget]. rewrite (IH _ _ Hn'), dget_dset.
    destruct (PyDict.eqb k0 k) eqn:Ek; [|reflexivity].
    apply (proj1 (PyDict.eqb_eq _ _)) in Ek. subst k0. change (map fst d) with (dkeys d) in Hni. apply dget_None in Hni. rewrite Hni. reflexivity.
  Qed.

  Lemma dkeys_dset_in (d : dict K V) k v : In k (dkeys d) -> dkeys (dset d k v) = dkeys d.
  Proof. intros H. rewrite dkeys_dset. apply dmem_true in H. rewrite H. reflexivity. Qed.

  Lemma assign_keys d : forall b, (forall k, In k (dkeys d) -> In k (dkeys b)) -> dkeys (assign d b) = dkeys b.
  Proof.
    unfold assign. induction d as [|[k0 v0] d IH]; intros b Hi; [reflexivity|]. cbn [fold_left fst snd].
    assert (H0 : dkeys (dset b k0 v0) = dkeys b) by (apply dkeys_dset_in, Hi; left; reflexivity).
    rewrite IH; [exact H0|]. intros k Hk. rewrite H0. apply Hi. right. exact Hk.
  Qed.
End Dicts.

(** ** What the theorems speak of *)

(** The attributes a profiler of a class has.  [new] gives exactly these; later operations assign to them. *)
Definition names (c : cls) : list string := dkeys (new_attrs c VNone VNone 0).
Definition well_formed (p : prof) : Prop := dkeys (p_attrs p) = names (p_cls p) /\ p_shape p = p_cls p.

(** The attributes no pickle holds *)
Definition lost (c : cls) : list string :=
  match c with
  | Structured => ["correlation_matrix"; "_null_replication_metrics"; "_sampling_ratio"; "_min_sample_size"]
  | Unstructured => ["_sampling_ratio"; "_min_sample_size"]
  end.
(** ... and the values they have after loading *)
Definition lost_default (k : string) : val :=
  if String.eqb k "_sampling_ratio" then VNum (1 # 5)
  else if String.eqb k "_min_sample_size" then VNum 5000 else VNone.

(** Every column is labelled by [L], and so say the options; or labelling is off and no column has a labeler *)
Definition labelled (p : prof) (L : labeler) : Prop :=
  o_enabled (p_opts p) = true /\ o_labeler (p_opts p) = Some L /\ forall c, In c (p_cells p) -> c = Lab (Some L).
Definition unlabelled (p : prof) : Prop :=
  o_enabled (p_opts p) = false /\ forall c l, In c (p_cells p) -> c <> Lab l.
Definition consistent (p : prof) : Prop := (exists L, labelled p L) \/ unlabelled p.

(** The profiler with every labeler replaced by [L] *)
Definition with_labeler (p : prof) (L : labeler) : prof :=
  mkProf (p_cls p) (p_attrs p) (set_labeler (p_opts p) (Some L)) (p_shape p) (map (fun _ => Lab (Some L)) (p_cells p)).

(** What a load gives, said of one profiler: [q] has the attributes of [p] but for those lost *)
Definition same_but_lost (p q : prof) : Prop :=
  p_cls q = p_cls p /\ p_shape q = p_shape p /\ dkeys (p_attrs q) = dkeys (p_attrs p) /\
  forall k, In k (dkeys (p_attrs p)) ->
    dget (p_attrs q) k = if lmem (lost (p_cls p)) k then Some (lost_default k) else dget (p_attrs p) k.

Section Props.
  Variable disk : cls -> option nat -> option labeler.
  Variable from_json : nat -> result prof.

  Notation save := (save disk).
  Notation load := (load disk from_json).
  Notation new := (new disk).

  Lemma names_NoDup c : NoDup (names c).
  Proof.
    destruct c; cbv; repeat constructor; cbn [In];
      intros H; repeat (destruct H as [H|H]; [discriminate H|]); exact H.
  Qed.

  (** The constructors give all attributes *)
  Theorem C26_new : forall c per_update min_true o, well_formed (new c per_update min_true o).
  Proof. intros [] ? ? ?; split; reflexivity. Qed.

  Lemma remove_labelled L cs : (forall c, In c cs -> c = Lab (Some L)) ->
    remove_cells true (Some L) cs = (map (fun _ => Lab (Some Placeholder)) cs, Ok (Some L)).
  Proof.
    induction cs as [|c cs IH]; intros H; [reflexivity|].
    rewrite (H c (or_introl eq_refl)). cbn [remove_cells map]. rewrite IH by (intros; apply H; right; auto). reflexivity.
  Qed.
  Lemma remove_unlabelled cs : (forall c l, In c cs -> c <> Lab l) -> remove_cells false None cs = (cs, Ok None).
  Proof.
    induction cs as [|c cs IH]; intros H; [reflexivity|].
    destruct c as [| |l]; [| |exfalso; exact (H _ l (or_introl eq_refl) eq_refl)];
      cbn [remove_cells]; rewrite IH by (intros; apply H; right; auto); reflexivity.
  Qed.
  Lemma restore_labelled c L (cs : list cell) : (forall x, In x cs -> exists l, x = Lab l) ->
    restore_cells c L cs = (map (fun _ => Lab L) cs, Ok tt).
  Proof.
    induction cs as [|x cs IH]; intros H; [reflexivity|].
    destruct (H x (or_introl eq_refl)) as [l ->]. cbn [restore_cells map].
    rewrite IH by (intros; apply H; right; auto). reflexivity.
  Qed.
  Lemma map_const {A B} (f : A -> B) (l : list A) (b : B) : (forall a, In a l -> f a = b) -> map f l = map (fun _ => b) l.
  Proof. intros H. apply map_ext_in. exact H. Qed.
  Lemma map_same (l : list cell) L : (forall c, In c l -> c = L) -> map (fun _ => L) l = l.
  Proof. intros H. rewrite <- (map_id l) at 2. symmetry. apply map_const. exact H. Qed.

  Lemma collect_spec p : forall ks, (forall k, In k ks -> In k (dkeys (p_attrs p))) ->
    exists d, collect p ks = Ok d /\ dkeys d = ks /\ forall k, In k ks -> dget d k = dget (p_attrs p) k.
  Proof.
    induction ks as [|k ks IH]; intros H; [exists []; repeat split; intros ? []|].
    destruct IH as (d & Hc & Hk & Hg); [intros; apply H; right; auto|].
    cbn [collect]. unfold getattr. destruct (dget (p_attrs p) k) as [v|] eqn:Ev.
    - cbn [bind]. rewrite Hc. cbn [bind]. exists ((k, v) :: d). split; [reflexivity|]. split; [unfold dkeys in *; cbn; f_equal; exact Hk|].
      intros k' Hi. cbn [dget]. destruct (PyDict.eqb k k') eqn:E.
      + apply (proj1 (PyDict.eqb_eq _ _)) in E. subst. symmetry. exact Ev.
      + destruct Hi as [->|Hi]; [rewrite PyDict.eqb_refl in E; discriminate|]. apply Hg. exact Hi.
    - exfalso. apply dget_None in Ev. apply Ev, H. left. reflexivity.
  Qed.

  Lemma saved_in c k : In k (saved_names c) -> In k (names c).
  Proof. destruct c; cbn; intuition. Qed.
  Lemma saved_NoDup c : NoDup (saved_names c).
  Proof.
    destruct c; repeat constructor; cbn [In]; intros H; repeat (destruct H as [H|H]; [discriminate H|]); exact H.
  Qed.
  (** Every attribute is either saved or lost; the lost ones get the values named. *)
  Lemma saved_or_lost c k : In k (names c) ->
    (In k (saved_names c) /\ lmem (lost c) k = false) \/
    (~ In k (saved_names c) /\ lmem (lost c) k = true /\ dget (new_attrs c VNone (VNum 0) (1 # 5)) k = Some (lost_default k)).
  Proof.
    assert (D : forall x (l : list string), lmem l x = false -> ~ In x l) by (intros x l H; apply lmem_false; exact H).
    destruct c; unfold names; cbn [new_attrs base_attrs app dkeys map fst In];
      intros H; repeat (destruct H as [<-|H];
        [first [left; split; [apply lmem_In; reflexivity|reflexivity]
               |right; split; [apply D; reflexivity|split; reflexivity]]|]); destruct H.
  Qed.

  (** Saving a profile whose labelers agree succeeds, leaves the profile as it was, and writes a file. *)
  Theorem C26_save : forall p m, well_formed p -> consistent p -> lower_string m = "pickle" ->
    exists f, save p m true = (p, Some f, Ok tt).
  Proof.
    intros p m [Hk Hs] Hc Hm. unfold SaveModel.save. rewrite Hm. cbn [String.eqb Ascii.eqb Bool.eqb].
    destruct (collect_spec p (saved_names (p_cls p))) as (d & Hd & _ & _); [intros k Hi; rewrite Hk; apply saved_in; exact Hi|].
    rewrite Hd. unfold remove.
    destruct p as [c a o sh cs]. cbn [p_cls p_attrs p_opts p_shape p_cells] in *. subst sh. destruct o as [en lab dir nr ra re].
    destruct Hc as [[L (He & Hl & Hcs)]|(He & Hcs)]; cbn [p_opts p_cells o_enabled o_labeler] in *; subst en.
    - subst lab. rewrite (remove_labelled L cs Hcs).
      unfold restore, set_cells, set_opts, set_labeler. cbn [p_cls p_attrs p_opts p_shape p_cells o_enabled o_labeler o_dir o_nullrep o_ratio o_rest].
      destruct c; (rewrite restore_labelled by (intros x Hx; apply in_map_iff in Hx; destruct Hx as (y & <- & _); eauto));
        rewrite map_map, (map_same cs (Lab (Some L))) by exact Hcs; eexists; reflexivity.
    - rewrite (remove_unlabelled cs Hcs). unfold restore, set_cells, set_opts, set_labeler.
      cbn [p_cls p_attrs p_opts p_shape p_cells o_enabled o_labeler o_dir o_nullrep o_ratio o_rest]. destruct c; eexists; reflexivity.
  Qed.

  (** An unknown method is refused; nothing changes. *)
  Theorem C26_unknown_method : forall p m opens, lower_string m <> "pickle" -> lower_string m <> "json" ->
    save p m opens = (p, None, Err ValueError).
  Proof.
    intros p m opens H1 H2. unfold SaveModel.save. apply String.eqb_neq in H1, H2. rewrite H1, H2. reflexivity.
  Qed.
  Theorem C26_unknown_load : forall called m f, lower_string m <> "pickle" -> lower_string m <> "json" ->
    load called (Some m) f = Err ValueError.
  Proof.
    intros called m f H1 H2. unfold SaveModel.load. cbn [option_map]. apply String.eqb_neq in H1, H2. rewrite H1, H2. reflexivity.
  Qed.

  (** How the saved profile may be loaded: no method or "pickle"; through Profiler or through its own class *)
  Definition pickle_method (m : option string) : Prop := forall s, m = Some s -> lower_string s = "pickle".
  Definition right_class (called : option cls) (p : prof) : Prop := forall c, called = Some c -> c = p_cls p.

  Lemma load_saved : forall p m f called meth p' r, well_formed p -> consistent p -> lower_string m = "pickle" ->
    save p m true = (p', Some f, r) -> pickle_method meth -> right_class called p ->
    exists q, load called meth f = Ok q /\ same_but_lost p q /\
      p_opts q = (if o_enabled (p_opts p)
                  then set_labeler (match disk (p_cls p) (o_dir (p_opts p)) with Some _ => p_opts p | None => set_enabled (p_opts p) false end)
                         (disk (p_cls p) (o_dir (p_opts p)))
                  else p_opts p) /\
      p_cells q = if o_enabled (p_opts p) then map (fun _ => Lab (disk (p_cls p) (o_dir (p_opts p)))) (p_cells p) else p_cells p.
  Proof.
    intros p m f called meth p' r [Hk Hs] Hc Hm Hsave Hmeth Hcalled. unfold SaveModel.save in Hsave. rewrite Hm in Hsave.
    cbn [String.eqb Ascii.eqb Bool.eqb] in Hsave.
    destruct (collect_spec p (saved_names (p_cls p))) as (d & Hd & Hdk & Hdg); [intros k Hi; rewrite Hk; apply saved_in; exact Hi|].
    rewrite Hd in Hsave.
    assert (Hrm : exists o1 cs1 lab, remove p = (mkProf (p_cls p) (p_attrs p) o1 (p_shape p) cs1, Ok lab) /\
      o_enabled o1 = o_enabled (p_opts p) /\
      (forall l, set_labeler o1 l = set_labeler (p_opts p) l) /\
      if o_enabled (p_opts p) then cs1 = map (fun _ => Lab (Some Placeholder)) (p_cells p) else o1 = p_opts p /\ cs1 = p_cells p).
    { unfold remove. destruct p as [c a o sh cs]. destruct o as [en lab dir nr ra re].
      destruct Hc as [[L (He & Hl & Hcs)]|(He & Hcs)]; cbn [p_cls p_attrs p_opts p_shape p_cells o_enabled o_labeler] in *; subst en.
      - subst lab. rewrite (remove_labelled L cs Hcs). eexists _, _, _. split; [reflexivity|]. repeat split.
      - rewrite (remove_unlabelled cs Hcs). eexists _, _, _. split; [reflexivity|]. repeat split. }
    destruct Hrm as (o1 & cs1 & lab & Hrm & Hen & Hset & Hcs1). rewrite Hrm in Hsave.
    cbn [p_cls p_attrs p_opts p_shape p_cells] in Hsave.
    destruct (restore disk (mkProf (p_cls p) (p_attrs p) o1 (p_shape p) cs1) lab) as [p2 x]. inversion Hsave; subst p2 f x; clear Hsave.
    unfold SaveModel.load.
    assert (Hv : match option_map lower_string meth with None => true | Some s => (String.eqb s "pickle" || String.eqb s "json")%bool end = true).
    { destruct meth as [s|]; [|reflexivity]. cbn [option_map]. rewrite (Hmeth s eq_refl). reflexivity. }
    assert (Hj : match option_map lower_string meth with Some s => String.eqb s "json" | None => false end = false).
    { destruct meth as [s|]; [|reflexivity]. cbn [option_map]. rewrite (Hmeth s eq_refl). reflexivity. }
    rewrite Hv, Hj. cbn [negb].
    assert (Hcl : load_class called (Some (class_name (p_cls p))) d = Ok (p_cls p)).
    { unfold load_class. destruct called as [c|]; [rewrite (Hcalled c eq_refl); reflexivity|]. destruct (p_cls p); reflexivity. }
    rewrite Hcl. cbn [bind].
    set (base := new (p_cls p) VNone (VNum 0) load_options).
    assert (Hfold : forall l b, fold_left (fun p0 kv => setattr p0 (fst kv) (snd kv)) l b =
      mkProf (p_cls b) (assign l (p_attrs b)) (p_opts b) (p_shape b) (p_cells b)).
    { unfold assign. induction l as [|kv l IH]; intros b; [destruct b; reflexivity|]. cbn [fold_left]. rewrite IH. reflexivity. }
    rewrite Hfold. cbn [p_cls p_attrs p_opts p_shape p_cells].
    assert (Hbase : p_cls base = p_cls p /\ p_attrs base = new_attrs (p_cls p) VNone (VNum 0) (1 # 5)) by (split; reflexivity).
    clearbody base. destruct Hbase as [Hb1 Hb2]. rewrite Hb1, Hb2.
    assert (Hattr : forall q, p_cls q = p_cls p -> p_shape q = p_shape p ->
      p_attrs q = assign d (new_attrs (p_cls p) VNone (VNum 0) (1 # 5)) -> same_but_lost p q).
    { intros q H1 H2 H3. split; [exact H1|]. split; [exact H2|].
      assert (Hkeys : dkeys (new_attrs (p_cls p) VNone (VNum 0) (1 # 5)) = names (p_cls p)) by (destruct (p_cls p); reflexivity).
      split.
      - rewrite H3, assign_keys, Hk; [exact Hkeys|]. intros k Hi. rewrite Hkeys. rewrite Hdk in Hi. apply saved_in. exact Hi.
      - intros k Hi. rewrite H3, assign_get by (rewrite Hdk; apply saved_NoDup).
        rewrite Hk in Hi. destruct (saved_or_lost _ _ Hi) as [[Hs1 Hs2]|(Hs1 & Hs2 & Hs3)]; rewrite Hs2.
        + rewrite (Hdg _ Hs1). destruct (dget (p_attrs p) k) eqn:Eg; [reflexivity|]. exfalso. apply dget_None in Eg. apply Eg.
          rewrite Hk. exact Hi.
        + assert (Hn : dget d k = None) by (apply dget_None; rewrite Hdk; exact Hs1). rewrite Hn. exact Hs3. }
    unfold restore. cbn [p_cls p_attrs p_opts p_shape p_cells]. rewrite Hen, Hs.
    assert (Hdir : o_dir o1 = o_dir (p_opts p)).
    { assert (Hx := Hset None). unfold set_labeler in Hx. inversion Hx. reflexivity. }
    rewrite Hdir. destruct (o_enabled (p_opts p)) eqn:Een.
    - assert (Hset' : set_labeler (set_enabled o1 false) None = set_labeler (set_enabled (p_opts p) false) None).
      { assert (Hx := Hset None). unfold set_labeler, set_enabled in *. cbn [o_enabled o_labeler o_dir o_nullrep o_ratio o_rest]. inversion Hx. reflexivity. }
      assert (Hlab : match disk (p_cls p) (o_dir (p_opts p)) with Some l => Some l | None => None end = disk (p_cls p) (o_dir (p_opts p)))
        by (destruct (disk _ _); reflexivity).
      assert (Hcs2 : forall x, In x cs1 -> exists l, x = Lab l)
        by (subst cs1; intros x Hx; apply in_map_iff in Hx; destruct Hx as (y & <- & _); eauto).
      destruct (p_cls p) eqn:Ec; rewrite (restore_labelled _ _ _ Hcs2); cbn [bind]; eexists; (split; [reflexivity|]);
        (split; [apply Hattr; cbn [set_cells set_opts p_cls p_attrs p_shape]; congruence|]); split;
        try (subst cs1; cbn [set_cells p_cells]; rewrite map_map; reflexivity);
        cbn [set_cells set_opts p_opts]; destruct (disk _ _); first [apply Hset|apply Hset'].
    - destruct Hcs1 as [-> ->].
      destruct (p_cls p) eqn:Ec; cbn [bind]; eexists; (split; [reflexivity|]);
        (split; [apply Hattr; cbn [set_cells set_opts p_cls p_attrs p_shape]; congruence|]); split; reflexivity.
  Qed.

  (** Loading a saved profile gives its attributes, but for those that no pickle holds; its options but for the labeler; and
      every column labelled by the labeler found on disk.  If there is none, labelling is switched off. *)
  Theorem C26_attributes : forall p m f called meth p' r, well_formed p -> consistent p -> lower_string m = "pickle" ->
    save p m true = (p', Some f, r) -> pickle_method meth -> right_class called p ->
    exists q, load called meth f = Ok q /\ same_but_lost p q /\
      match o_enabled (p_opts p), disk (p_cls p) (o_dir (p_opts p)) with
      | true, Some L => p_opts q = p_opts (with_labeler p L) /\ p_cells q = p_cells (with_labeler p L)
      | true, None =>
          p_opts q = mkOpts false None (o_dir (p_opts p)) (o_nullrep (p_opts p)) (o_ratio (p_opts p)) (o_rest (p_opts p)) /\
          length (p_cells q) = length (p_cells p) /\ forall c, In c (p_cells q) -> c = Lab None
      | _, _ => p_opts q = p_opts p /\ p_cells q = p_cells p
      end.
  Proof.
    intros p m f called meth p' r Hw Hc Hm Hs Hmeth Hcl.
    destruct (load_saved p m f called meth p' r Hw Hc Hm Hs Hmeth Hcl) as (q & Hl & Hq & Ho & Hcs).
    exists q. split; [exact Hl|]. split; [exact Hq|].
    destruct (o_enabled (p_opts p)); [|split; assumption].
    destruct (disk (p_cls p) (o_dir (p_opts p))) as [L|]; [split; assumption|].
    split; [exact Ho|]. rewrite Hcs. split; [apply map_length|]. intros c Hi. apply in_map_iff in Hi. destruct Hi as (y & <- & _). reflexivity.
  Qed.

  (** No labeler is written to the file. *)
  Theorem C26_no_labeler : forall p m opens q c d o sh cs r, save p m opens = (q, Some (FPickle c d (Some (o, sh, cs))), r) ->
    (o_enabled (p_opts p) = true -> o_labeler o = None \/ o_labeler o = Some Placeholder) /\
    (forall l, In (Lab l) cs -> l = Some Placeholder).
  Proof.
    intros p m opens q c d o sh cs r H. unfold SaveModel.save in H.
    destruct (String.eqb (lower_string m) "pickle"); [|destruct (String.eqb (lower_string m) "json"); discriminate H].
    destruct (collect p (saved_names (p_cls p))) as [d'|]; [|discriminate H].
    assert (Hr : forall use lab cs, forall l, In (Lab l) (fst (remove_cells use lab cs)) ->
      (exists x, snd (remove_cells use lab cs) = Ok x) -> l = Some Placeholder).
    { clear. intros use lab cs l. revert lab. induction cs as [|cell cs IH]; intros lab; cbn [remove_cells]; [intros []|].
      destruct cell as [| |l'].
      - specialize (IH lab). destruct (remove_cells use lab cs) as [r x]. cbn [fst snd] in *. intros [Hi|Hi]; [discriminate|]. apply IH; exact Hi.
      - destruct use, lab; try (specialize (IH (Some l0))); try (specialize (IH None));
          try (destruct (remove_cells _ _ cs) as [r x]; cbn [fst snd] in *; intros [Hi|Hi]; [discriminate|]; apply IH; exact Hi).
        cbn [fst snd]. intros _ [x Hx]. discriminate Hx.
      - match goal with |- context [remove_cells use ?a cs] => specialize (IH a); destruct (remove_cells use a cs) as [r x] end.
        cbn [fst snd] in *. intros [Hi|Hi]; [congruence|]. apply IH; exact Hi. }
    unfold remove in H.
    destruct (remove_cells (o_enabled (p_opts p)) (if o_enabled (p_opts p) then o_labeler (p_opts p) else None) (p_cells p)) as [cs' x] eqn:E.
    destruct x as [lab|e]; [|discriminate H]. destruct opens; [|discriminate H].
    destruct (restore disk _ lab) as [p2 x]. inversion H; subst. clear H. cbn [set_cells set_opts p_opts p_cells]. split.
    - intros He. rewrite He. destruct (o_labeler (p_opts p)) as [L|] eqn:EL; [right; reflexivity|left; exact EL].
    - intros l Hi. apply (Hr (o_enabled (p_opts p)) (if o_enabled (p_opts p) then o_labeler (p_opts p) else None) (p_cells p)).
      + rewrite E. exact Hi.
      + rewrite E. exists lab. reflexivity.
  Qed.

  (** The columns keep their labeler also if the options name none; the options name it from then on. *)
  Theorem C26_save_columns : forall p m L, well_formed p -> lower_string m = "pickle" ->
    o_enabled (p_opts p) = true -> o_labeler (p_opts p) = None -> p_cells p <> [] -> (forall c, In c (p_cells p) -> c = Lab (Some L)) ->
    exists f, save p m true = (with_labeler p L, Some f, Ok tt) /\ p_cells (with_labeler p L) = p_cells p.
  Proof.
    intros p m L [Hk Hs] Hm He Hl Hne Hcs. unfold SaveModel.save. rewrite Hm. cbn [String.eqb Ascii.eqb Bool.eqb].
    destruct (collect_spec p (saved_names (p_cls p))) as (d & Hd & _ & _); [intros k Hi; rewrite Hk; apply saved_in; exact Hi|].
    rewrite Hd. unfold remove, with_labeler.
    destruct p as [c a o sh cs]. cbn [p_cls p_attrs p_opts p_shape p_cells] in *. subst sh. destruct o as [en lab dir nr ra re].
    cbn [o_enabled o_labeler] in *. subst en lab. destruct cs as [|x cs]; [contradiction|].
    rewrite (Hcs x (or_introl eq_refl)). cbn [remove_cells]. rewrite (remove_labelled L cs) by (intros; apply Hcs; right; assumption).
    unfold restore, set_cells, set_opts, set_labeler. cbn [p_cls p_attrs p_opts p_shape p_cells o_enabled o_labeler o_dir o_nullrep o_ratio o_rest].
    cbn [restore_cells map].
    rewrite (map_same cs (Lab (Some L))) by (intros; apply Hcs; right; assumption).
    destruct c; (rewrite restore_labelled by (intros y Hy; apply in_map_iff in Hy; destruct Hy as (z & <- & _); eauto));
      rewrite map_map, (map_same cs (Lab (Some L))) by (intros; apply Hcs; right; assumption); eexists; split; reflexivity.
  Qed.

  (** ... so that the profile loaded is the profile saved exactly if what is lost had its first value, and the labelers were those
      found on disk. *)
  Theorem C26_same : forall p m f called meth p' r, well_formed p -> consistent p -> lower_string m = "pickle" ->
    save p m true = (p', Some f, r) -> pickle_method meth -> right_class called p ->
    (load called meth f = Ok p <->
     (forall k, In k (lost (p_cls p)) -> dget (p_attrs p) k = Some (lost_default k)) /\
     (o_enabled (p_opts p) = true -> exists L, disk (p_cls p) (o_dir (p_opts p)) = Some L /\ labelled p L)).
  Proof.
    intros p m f called meth p' r Hw Hc Hm Hs Hmeth Hcl.
    destruct (load_saved p m f called meth p' r Hw Hc Hm Hs Hmeth Hcl) as (q & Hl & (Hq1 & Hq2 & Hq3 & Hq4) & Ho & Hcs).
    rewrite Hl. destruct Hw as [Hk Hsh]. split.
    - intros H. inversion H; subst q. split.
      + intros k Hi. assert (Hin : In k (dkeys (p_attrs p))).
        { rewrite Hk. destruct (p_cls p); cbn in Hi |- *; intuition. }
        rewrite (Hq4 k Hin). apply lmem_In in Hi. rewrite Hi. reflexivity.
      + intros He. rewrite He in *. destruct (disk (p_cls p) (o_dir (p_opts p))) as [L|]; [|exfalso; rewrite Ho in He; discriminate He].
        exists L. split; [reflexivity|]. split; [exact He|]. split; [rewrite Ho; reflexivity|].
        intros c Hi. rewrite Hcs in Hi. apply in_map_iff in Hi. destruct Hi as (y & <- & _). reflexivity.
    - intros [Hlost Hlab]. f_equal. destruct p as [c a o sh cs], q as [c' a' o' sh' cs'].
      cbn [p_cls p_attrs p_opts p_shape p_cells] in *. subst c' sh'. f_equal.
      + apply dict_ext; [exact Hq3|rewrite Hq3, Hk; apply names_NoDup|].
        intros k Hi. rewrite Hq3 in Hi. rewrite (Hq4 k Hi). destruct (lmem (lost c) k) eqn:El; [|reflexivity].
        apply lmem_In in El. symmetry. apply Hlost. exact El.
      + rewrite Ho. destruct (o_enabled o) eqn:Ee; [|reflexivity]. destruct (Hlab eq_refl) as (L & -> & _ & HL & _).
        cbn [p_opts] in HL. destruct o; cbn in *; subst; reflexivity.
      + rewrite Hcs. destruct (o_enabled o) eqn:Ee; [|reflexivity]. destruct (Hlab eq_refl) as (L & -> & _ & _ & HL).
        apply map_same. exact HL.
  Qed.

  (** A profile that was loaded can be saved and loaded without any change. *)
  Theorem C26_again : forall p m f called meth p' r q, well_formed p -> consistent p -> lower_string m = "pickle" ->
    save p m true = (p', Some f, r) -> pickle_method meth -> right_class called p ->
    (o_enabled (p_opts p) = true -> disk (p_cls p) (o_dir (p_opts p)) <> None) ->
    load called meth f = Ok q ->
    exists f', save q m true = (q, Some f', Ok tt) /\ load called meth f' = Ok q.
  Proof.
    intros p m f called meth p' r q Hw Hc Hm Hs Hmeth Hcl Hd Hl.
    destruct (load_saved p m f called meth p' r Hw Hc Hm Hs Hmeth Hcl) as (q0 & Hl0 & (Hq1 & Hq2 & Hq3 & Hq4) & Ho & Hcs).
    rewrite Hl in Hl0. inversion Hl0; subst q0; clear Hl0. destruct Hw as [Hk Hsh].
    assert (Hwq : well_formed q) by (split; congruence).
    assert (Hen : o_enabled (p_opts q) = o_enabled (p_opts p) /\ o_dir (p_opts q) = o_dir (p_opts p)).
    { rewrite Ho. destruct (o_enabled (p_opts p)) eqn:E; [|auto].
      destruct (disk _ _); [cbn; auto|exfalso; exact (Hd eq_refl eq_refl)]. }
    destruct Hen as [Hen Hdir].
    assert (Hlabq : o_enabled (p_opts q) = true -> exists L, disk (p_cls q) (o_dir (p_opts q)) = Some L /\ labelled q L).
    { intros He. rewrite Hen in He. rewrite He in *. rewrite Hq1, Hdir.
      destruct (disk (p_cls p) (o_dir (p_opts p))) as [L|] eqn:Ed; [|exfalso; exact (Hd eq_refl eq_refl)].
      exists L. split; [reflexivity|]. split; [exact Hen|]. split; [rewrite Ho; reflexivity|].
      intros c Hi. rewrite Hcs in Hi. apply in_map_iff in Hi. destruct Hi as (y & <- & _). reflexivity. }
    assert (Hcq : consistent q).
    { destruct (o_enabled (p_opts q)) eqn:E; [left; destruct (Hlabq eq_refl) as (L & _ & HL); exists L; exact HL|right].
      split; [exact E|]. rewrite <- Hen in Hcs. rewrite Hcs. destruct Hc as [[L (He & _)]|[_ H]]; [congruence|exact H]. }
    destruct (C26_save q m Hwq Hcq Hm) as [f' Hf']. exists f'. split; [exact Hf'|].
    apply (C26_same q m f' called meth q (Ok tt) Hwq Hcq Hm Hf' Hmeth).
    - intros c E. rewrite Hq1. apply Hcl. exact E.
    - split; [|exact Hlabq].
      intros k Hi. rewrite Hq1 in Hi. assert (Hin : In k (dkeys (p_attrs p))).
      { rewrite Hk. clear -Hi. destruct (p_cls p); cbn in Hi |- *; intuition. }
      rewrite (Hq4 k Hin). apply lmem_In in Hi. rewrite Hi. reflexivity.
  Qed.

  (** The report of the loaded profile is that of the profile saved, if there was no correlation matrix, null replication metrics
      are off, and the labelers were those found on disk (or off). *)
  Theorem C26_report : forall p m f called meth p' r, well_formed p -> consistent p -> lower_string m = "pickle" ->
    p_cls p = Structured -> save p m true = (p', Some f, r) -> pickle_method meth -> right_class called p ->
    dget (p_attrs p) "correlation_matrix" = Some VNone -> o_nullrep (p_opts p) = false ->
    (o_enabled (p_opts p) = true -> exists L, disk (p_cls p) (o_dir (p_opts p)) = Some L /\ labelled p L) ->
    exists q, load called meth f = Ok q /\ report q = report p.
  Proof.
    intros p m f called meth p' r Hw Hc Hm Hst Hs Hmeth Hcl Hcorr Hnr Hlab.
    assert (Hd : o_enabled (p_opts p) = true -> disk (p_cls p) (o_dir (p_opts p)) <> None).
    { intros He. destruct (Hlab He) as (L & -> & _). discriminate. }
    destruct (load_saved p m f called meth p' r Hw Hc Hm Hs Hmeth Hcl) as (q & Hl & (Hq1 & Hq2 & Hq3 & Hq4) & Ho & Hcs).
    exists q. split; [exact Hl|]. destruct Hw as [Hk Hsh].
    assert (Hcells : p_cells q = p_cells p).
    { rewrite Hcs. destruct (o_enabled (p_opts p)); [|reflexivity]. destruct (Hlab eq_refl) as (L & -> & _ & _ & HL).
      apply map_same. exact HL. }
    assert (Hnq : o_nullrep (p_opts q) = false).
    { rewrite Ho. destruct (o_enabled (p_opts p)); cbn; destruct (disk _ _); exact Hnr. }
    unfold report. rewrite Hnq, Hnr, Hcells. f_equal. f_equal. rewrite Hst in *.
    apply map_ext_in. intros k Hi. unfold getattr.
    assert (Hin : In k (dkeys (p_attrs p))) by (rewrite Hk; cbn in Hi |- *; intuition).
    rewrite (Hq4 k Hin). destruct (lmem (lost Structured) k) eqn:El; [|reflexivity].
    assert (k = "correlation_matrix") as ->.
    { apply lmem_In in El. cbn [lost In] in El. cbn [shown_names In] in Hi.
      clear -El Hi. destruct El as [E|[E|[E|[E|[]]]]]; subst k; [reflexivity|..];
        exfalso; repeat (destruct Hi as [Hi|Hi]; [discriminate Hi|]); exact Hi. }
    rewrite Hcorr. reflexivity.
  Qed.

  (** Graph profiles (with the attributes their constructor sets) are saved and loaded whole by their own class. *)
  Theorem C26_graph : forall g, dkeys g = dkeys new_graph -> exists f, graph_save g = Ok f /\ graph_load f = Ok g.
  Proof.
    intros g Hk. unfold graph_save. change (dkeys new_graph) with graph_names in Hk.
    assert (Hn : NoDup graph_names).
    { repeat constructor; cbn [In]; intros H; repeat (destruct H as [H|H]; [discriminate H|]); exact H. }
    assert (Hc : forall ks, (forall k, In k ks -> In k (dkeys g)) ->
      exists d, graph_collect g ks = Ok d /\ dkeys d = ks /\ forall k, In k ks -> dget d k = dget g k).
    { induction ks as [|k ks IH]; intros H; [exists []; repeat split; intros ? []|].
      destruct IH as (d & Hc & Hkd & Hg); [intros; apply H; right; auto|].
      cbn [graph_collect]. destruct (dget g k) as [v|] eqn:Ev.
      - rewrite Hc. cbn [bind]. exists ((k, v) :: d). split; [reflexivity|]. split; [unfold dkeys in *; cbn; f_equal; exact Hkd|].
        intros k' Hi. cbn [dget]. destruct (PyDict.eqb k k') eqn:E.
        + apply (proj1 (PyDict.eqb_eq _ _)) in E. subst. symmetry. exact Ev.
        + destruct Hi as [->|Hi]; [rewrite PyDict.eqb_refl in E; discriminate|]. apply Hg. exact Hi.
      - exfalso. apply dget_None in Ev. apply Ev, H. left. reflexivity. }
    destruct (Hc graph_names) as (d & Hd & Hdk & Hdg); [rewrite Hk; auto|]. rewrite Hd. cbn [bind]. eexists. split; [reflexivity|].
    unfold graph_load. f_equal. fold (assign d new_graph).
    assert (Hkeys : dkeys (assign d new_graph) = graph_names) by (rewrite assign_keys; [reflexivity|rewrite Hdk; auto]).
    apply dict_ext; [congruence|rewrite Hkeys; exact Hn|]. intros k Hi. rewrite Hkeys in Hi.
    rewrite assign_get by (rewrite Hdk; exact Hn). rewrite (Hdg k Hi). destruct (dget g k) eqn:E; [reflexivity|].
    exfalso. apply dget_None in E. rewrite Hk in E. contradiction.
  Qed.
End Props.

(** ** What does not hold *)

(** A structured profile as [update_profile] leaves it: the attributes listed are assigned *)
Definition assigned (p : prof) (d : dict string val) (cs : list cell) : prof :=
  mkProf (p_cls p) (assign d (p_attrs p)) (p_opts p) (p_shape p) cs.
Definition disk0 (c : cls) (d : option nat) : option labeler := Some (FromDisk c d).
Definition nojson (n : nat) : result prof := Err ValueError.
Definition off : opts := mkOpts false None None false (1 # 5) VEmpty.
Definition saved (p : prof) : file := match save disk0 p "pickle" true with (_, Some f, _) => f | _ => FOther end.
Definition reloaded (p : prof) : result prof := load disk0 nojson None None (saved p).

(** The correlation matrix is not in the report of the loaded profile. *)
Definition corr_profile : prof :=
  assigned (new disk0 Structured VNone (VNum 0) off)
    [("total_samples", VNum 100); ("_profile", VDat 1); ("_col_name_to_idx", VDat 2); ("correlation_matrix", VDat 3)] [NoCompiler; NoCompiler].
Theorem C26_correlation_refuted :
  ~ (forall p q, well_formed p -> consistent p -> reloaded p = Ok q -> report q = report p).
Proof.
  intros H. specialize (H corr_profile). destruct (reloaded corr_profile) as [q|] eqn:E; [|discriminate].
  specialize (H q). assert (Hr : report q = report corr_profile).
  { apply H; [split; reflexivity| |reflexivity]. right. split; [reflexivity|]. intros c l [<-|[<-|[]]]; discriminate. }
  vm_compute in E. injection E as <-. vm_compute in Hr. discriminate.
Qed.

(** With null replication metrics the report of the loaded profile raises TypeError. *)
Definition metric_profile : prof :=
  assigned (new disk0 Structured VNone (VNum 0) (mkOpts false None None true (1 # 5) VEmpty))
    [("total_samples", VNum 100); ("_profile", VDat 1); ("_null_replication_metrics", VDat 3)] [NoCompiler].
Theorem C26_metrics_refuted :
  ~ (forall p q r, well_formed p -> consistent p -> report p = Ok r -> reloaded p = Ok q -> exists r', report q = Ok r').
Proof.
  intros H. destruct (reloaded metric_profile) as [q|] eqn:E; [|discriminate].
  destruct (report metric_profile) as [r|] eqn:Er; [|discriminate].
  destruct (H metric_profile q r) as [r' Hr']; try assumption.
  - split; reflexivity.
  - right. split; [reflexivity|]. intros c l [<-|[]]; discriminate.
  - vm_compute in E. injection E as <-. vm_compute in Hr'. discriminate.
Qed.

(** A profile with a sampling ratio of its own samples with the default ratio after loading. *)
Definition ratio_profile : prof := new disk0 Structured VNone (VNum 0) (mkOpts false None None false (1 # 2) VEmpty).
Theorem C26_ratio_refuted :
  ~ (forall p q rows, well_formed p -> consistent p -> reloaded p = Ok q -> rows_sampled q rows = rows_sampled p rows).
Proof.
  intros H. destruct (reloaded ratio_profile) as [q|] eqn:E; [|discriminate].
  assert (Hr : rows_sampled q (20 * 1000) = rows_sampled ratio_profile (20 * 1000)).
  { apply H; [split; reflexivity| |exact E]. right. split; [reflexivity|]. intros c l []. }
  apply (f_equal (fun x => match x with Ok n => Z.of_nat n | Err _ => 0%Z end)) in Hr.
  assert (Ha : match rows_sampled ratio_profile (20 * 1000) with Ok n => Z.of_nat n | Err _ => 0%Z end = 10000%Z) by (vm_compute; reflexivity).
  assert (Hb : match bind (reloaded ratio_profile) (fun q => rows_sampled q (20 * 1000)) with Ok n => Z.of_nat n | Err _ => 0%Z end = 5000%Z)
    by (vm_compute; reflexivity).
  rewrite E in Hb. cbn [bind] in Hb. rewrite Hb, Ha in Hr. clear -Hr. vm_compute in Hr. discriminate Hr.
Qed.

(** A data labeler of the user's own is replaced by the default one. *)
Definition custom_profile : prof :=
  assigned (new disk0 Structured VNone (VNum 0) (mkOpts true (Some (Custom 7)) None false (1 # 5) VEmpty))
    [("total_samples", VNum 100); ("_profile", VDat 1)] [Lab (Some (Custom 7))].
Theorem C26_labeler_refuted :
  ~ (forall p q L, well_formed p -> labelled p L -> reloaded p = Ok q -> labelled q L).
Proof.
  intros H. destruct (reloaded custom_profile) as [q|] eqn:E; [|discriminate].
  assert (Hq : labelled q (Custom 7)).
  { apply (H custom_profile); [split; reflexivity| |exact E]. split; [reflexivity|]. split; [reflexivity|]. intros c [<-|[]]. reflexivity. }
  vm_compute in E. injection E as <-. destruct Hq as (_ & Hq & _). discriminate.
Qed.

(** A failed save (say, of a file in a directory that is not there) changes the profile: its labelers are gone. *)
Theorem C26_failed_save_refuted :
  ~ (forall p m opens p' f r, well_formed p -> consistent p -> save disk0 p m opens = (p', f, r) -> p' = p).
Proof.
  intros H. destruct (save disk0 custom_profile "pickle" false) as [[p' f] r] eqn:E.
  assert (Hp := H custom_profile "pickle" false p' f r). rewrite Hp in E; [vm_compute in E; discriminate| | |exact E].
  - split; reflexivity.
  - left. exists (Custom 7). split; [reflexivity|]. split; [reflexivity|]. intros c [<-|[]]. reflexivity.
Qed.

(** A profile of texts that has seen no text yet cannot be saved: the call raises AttributeError. *)
Theorem C26_empty_text_refuted :
  ~ (forall c o p f r, save disk0 (new disk0 c VNone (VNum 0) o) "pickle" true = (p, f, r) -> r = Ok tt).
Proof.
  intros H. destruct (save disk0 (new disk0 Unstructured VNone (VNum 0) (mkOpts true None None false (1 # 5) VEmpty)) "pickle" true)
    as [[p f] r] eqn:E. apply H in E as E'. rewrite E' in E. vm_compute in E. discriminate.
Qed.

(** [load_method="pickle"] loads JSON files too. *)
Theorem C26_method_refuted :
  ~ (forall from_json called f q, load disk0 from_json called (Some "pickle") f = Ok q -> exists c d o, f = FPickle c d o).
Proof.
  intros H. destruct (H (fun _ => Ok corr_profile) None (FJson 0) corr_profile eq_refl) as (c & d & o & E). discriminate.
Qed.

(** A file of a profile of columns is loaded by UnstructuredProfiler, as a profile of a text that holds a list of columns. *)
Theorem C26_class_refuted :
  ~ (forall p c q, well_formed p -> consistent p -> load disk0 nojson (Some c) None (saved p) = Ok q -> p_shape q = p_cls q).
Proof.
  intros H. destruct (load disk0 nojson (Some Unstructured) None (saved corr_profile)) as [q|] eqn:E; [|discriminate].
  apply H in E as E'.
  - vm_compute in E. injection E as <-. discriminate.
  - split; reflexivity.
  - right. split; [reflexivity|]. intros c l [<-|[<-|[]]]; discriminate.
Qed.

(** [Profiler.load] of the file of a graph profile gives a structured profile without columns. *)
Theorem C26_graph_refuted :
  ~ (forall g f q, dkeys g = dkeys new_graph -> graph_save g = Ok f -> load disk0 nojson None None f = Ok q -> False).
Proof.
  intros H. destruct (graph_save new_graph) as [f|] eqn:Ef; [|discriminate].
  destruct (load disk0 nojson None None f) as [q|] eqn:Eq.
  - exact (H new_graph f q eq_refl Ef Eq).
  - vm_compute in Ef. injection Ef as <-. vm_compute in Eq. discriminate.
Qed.

(** ** Examples *)
Definition default_profile : prof :=
  assigned (new disk0 Structured (VNum 7) (VNum 3) (mkOpts true None (Some 4) false (1 # 5) (VDat 9)))
    [("total_samples", VNum 100); ("_profile", VDat 1); ("chi2_matrix", VDat 2); ("encoding", VDat 5)]
    [Lab (Some (FromDisk Structured (Some 4))); Lab (Some (FromDisk Structured (Some 4)))].
Example C26_example :
  save disk0 default_profile "Pickle" true = (default_profile, Some (saved default_profile), Ok tt) /\
  reloaded default_profile = Ok default_profile /\
  load disk0 nojson (Some Structured) (Some "PICKLE") (saved default_profile) = Ok default_profile /\
  bind (reloaded corr_profile) (fun q => getattr q "chi2_matrix") = Ok VNone /\
  bind (reloaded corr_profile) (fun q => getattr q "_profile") = Ok (VDat 1) /\
  bind (reloaded corr_profile) (fun q => getattr q "correlation_matrix") = Ok VNone /\
  snd (save disk0 default_profile "csv" true) = Err ValueError /\
  load disk0 nojson None None FOther = Err ValueError /\
  bind (graph_save (assign [("_num_nodes", VNum 4)] new_graph)) graph_load = Ok (assign [("_num_nodes", VNum 4)] new_graph).
Proof. repeat split. Qed.

Print Assumptions C26_new.
Print Assumptions C26_save.
Print Assumptions C26_attributes.
Print Assumptions C26_same.
Print Assumptions C26_again.
Print Assumptions C26_report.
Print Assumptions C26_graph.
Print Assumptions C26_ratio_refuted.
