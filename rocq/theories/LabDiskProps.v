(** * C97: labelers on disk *)
From Coq Require Import List Arith Bool Lia.
From Coq Require String.
Import ListNotations.
From Verif Require Import PyCommon PyString PyDict LabDiskModel.
Local Open Scope nat_scope.
Local Delimit Scope string_scope with string.

(** ** What is expected *)
(** A value that JSON can hold *)
Definition plain (v : pval) : Prop := exists s, v = PJson s.

(** The generator of a postprocessor that saves its state *)
Definition generator (c k : string) (v : pval) : Prop :=
  has_state c = true /\ k = "random_state"%string /\ exists i st, v = PRandom i st.

(** Every parameter can be saved *)
Definition can_save (l : labeler) : Prop :=
  (forall k v, In (k, v) (m_params (l_model l)) -> plain v)
  /\ (forall k v, In (k, v) (c_params (l_pre l)) -> plain v \/ generator (c_class (l_pre l)) k v)
  /\ (forall k v, In (k, v) (c_params (l_post l)) -> plain v \/ generator (c_class (l_post l)) k v).

(** The same value, a generator being a new object with the same state *)
Definition renewed (id : nat) (v : pval) : pval :=
  match v with PRandom _ st => PRandom id st | _ => v end.

Definition renew (id : nat) (c : comp) : comp :=
  mkComp (c_class c) (map (fun kv => (fst kv, renewed id (snd kv))) (c_params c)).

(** ** Dumping *)
Lemma dump_some b ps : (exists js, dump b ps = Some js) <->
  forall k v, In (k, v) ps -> plain v \/ (b = true /\ k = "random_state"%string /\ exists i st, v = PRandom i st).
Proof.
  induction ps as [|[k v] r IH]; cbn [dump].
  - split; [intros _ k v []|intros _; exists []; reflexivity].
  - split.
    + intros [js H] k' v' [E|I].
      * inversion E; subst k' v'. destruct v as [s|i st|i]; cbn [dump_value] in H.
        -- left; exists s; reflexivity.
        -- destruct b; cbn [andb] in H; [|discriminate H].
           destruct (String.eqb k "random_state") eqn:K; [|discriminate H].
           apply String.eqb_eq in K. right; split; [reflexivity|]. split; [exact K|].
           exists i, st; reflexivity.
        -- discriminate H.
      * refine (proj1 IH _ k' v' I). destruct (dump_value b k v); [|discriminate H].
        destruct (dump b r) as [l|]; [|discriminate H]. exists l; reflexivity.
    + intro H. destruct (proj2 IH) as [l L]; [intros k' v' I; apply H; right; exact I|].
      rewrite L. destruct (H k v (or_introl eq_refl)) as [[s ->]|(-> & -> & i & st & ->)]; cbn;
        eexists; reflexivity.
Qed.

Lemma undump_dump c id ps js : dump (has_state c) ps = Some js ->
  undump c id js = map (fun kv => (fst kv, renewed id (snd kv))) ps.
Proof.
  revert js; induction ps as [|[k v] r IH]; intros js H; cbn [dump] in H.
  - inversion H; reflexivity.
  - destruct (dump_value (has_state c) k v) as [j|] eqn:D; [|discriminate H].
    destruct (dump (has_state c) r) as [l|] eqn:R; [|discriminate H].
    inversion H; subst js. cbn [undump map fst snd]. fold (undump c id l). rewrite (IH l eq_refl).
    destruct v as [s|i st|i]; cbn [dump_value] in D.
    + inversion D; reflexivity.
    + destruct (has_state c); cbn [andb] in D; [|discriminate D].
      destruct (String.eqb k "random_state"); [|discriminate D]. inversion D; reflexivity.
    + discriminate D.
Qed.

Lemma undump_plain c id ps js : dump false ps = Some js -> undump c id js = ps.
Proof.
  revert js; induction ps as [|[k v] r IH]; intros js H; cbn [dump] in H.
  - inversion H; reflexivity.
  - destruct v as [s|i st|i]; cbn [dump_value andb] in H; try discriminate H.
    destruct (dump false r) as [l|] eqn:R; [|discriminate H].
    inversion H; subst js. cbn [undump map fst snd]. fold (undump c id l). rewrite (IH l eq_refl).
    reflexivity.
Qed.

Lemma dset_new {V} (d : dict string V) k v : ~ In k (dkeys d) -> dset d k v = d ++ [(k, v)].
Proof.
  induction d as [|[k' v'] r IH]; intro H; cbn [dset]; [reflexivity|].
  destruct (PyDict.eqb k' k) eqn:E.
  - apply (proj1 (PyDict.eqb_eq _ _)) in E. exfalso; apply H; left; exact E.
  - cbn [app]. rewrite IH; [reflexivity|]. intro I; apply H; right; exact I.
Qed.

Section Disk.
Variable show : nat -> string.
Variable valid : string -> dict string jval -> bool.
Notation key_text := (key_text show).
Notation dump_labels := (dump_labels show).
Notation save := (save show).
Notation load := (load valid).

Definition texts (m : dict label nat) : dict label nat := map (fun kv => (LStr (key_text (fst kv)), snd kv)) m.

Lemma dump_labels_map m : NoDup (map (fun kv => key_text (fst kv)) m) ->
  dump_labels m = map (fun kv => (key_text (fst kv), snd kv)) m.
Proof.
  unfold LabDiskModel.dump_labels. intro N.
  cut (forall d, NoDup (dkeys d ++ map (fun kv => key_text (fst kv)) m) ->
       fold_left (fun d kv => dset d (key_text (fst kv)) (snd kv)) m d
       = d ++ map (fun kv => (key_text (fst kv), snd kv)) m).
  { intro C. apply (C []). exact N. }
  clear N. induction m as [|[k v] r IH]; intros d N; cbn [fold_left map fst snd].
  - rewrite app_nil_r; reflexivity.
  - cbn [map fst] in N.
    assert (F : ~ In (key_text k) (dkeys d)).
    { intro I. apply NoDup_remove_2 in N. apply N, in_or_app; left; exact I. }
    rewrite (dset_new d _ v F). rewrite IH.
    + rewrite <- app_assoc; reflexivity.
    + unfold dkeys in *. rewrite map_app; cbn [map fst]. rewrite <- app_assoc; exact N.
Qed.

(** The classes of a labeler are registered under their names, constructors take
    what was saved, and the labels differ as texts *)
Definition loadable (reg : registry) (l : labeler) : Prop :=
  dget (r_models reg) (lower_string (m_class (l_model l)))
    = Some (m_class (l_model l), match m_weights (l_model l) with Some _ => true | None => false end)
  /\ dget (r_procs reg) (lower_string (c_class (l_pre l))) = Some (c_class (l_pre l), KPre)
  /\ dget (r_procs reg) (lower_string (c_class (l_post l))) = Some (c_class (l_post l), KPost)
  /\ (forall js, dump false (m_params (l_model l)) = Some js -> valid (m_class (l_model l)) js = true)
  /\ (forall js, dump (has_state (c_class (l_pre l))) (c_params (l_pre l)) = Some js ->
        valid (c_class (l_pre l)) js = true)
  /\ (forall js, dump (has_state (c_class (l_post l))) (c_params (l_post l)) = Some js ->
        valid (c_class (l_post l)) js = true)
  /\ m_labels (l_model l) <> []
  /\ NoDup (map (fun kv => key_text (fst kv)) (m_labels (l_model l))).

Lemma can_save_dumps l : can_save l <->
  (exists a, dump false (m_params (l_model l)) = Some a)
  /\ (exists b, dump (has_state (c_class (l_pre l))) (c_params (l_pre l)) = Some b)
  /\ (exists c, dump (has_state (c_class (l_post l))) (c_params (l_post l)) = Some c).
Proof.
  unfold can_save. rewrite !dump_some. unfold generator.
  assert (P : (forall k v, In (k, v) (m_params (l_model l)) -> plain v) <->
              (forall k v, In (k, v) (m_params (l_model l)) ->
                 plain v \/ (false = true /\ k = "random_state"%string /\ exists i st, v = PRandom i st))).
  { split; intros H k v I; [left; exact (H k v I)|].
    destruct (H k v I) as [A|(A & _)]; [exact A|discriminate A]. }
  rewrite P. tauto.
Qed.

(** Saving succeeds exactly if the directory is there and every parameter can be saved;
    no other directory is touched, and none is made. *)
Theorem C97_save l d k :
  (snd (save l d k) = None <-> (exists f, dget k d = Some f) /\ can_save l)
  /\ (forall d', d' <> d -> dget (fst (save l d k)) d' = dget k d')
  /\ (dget k d = None -> save l d k = (k, Some GenericException)).
Proof.
  unfold LabDiskModel.save. destruct (dget k d) as [f|] eqn:D.
  - rewrite can_save_dumps. unfold save_files.
    destruct (dump false (m_params (l_model l))) as [a|];
      [destruct (dump (has_state (c_class (l_pre l))) (c_params (l_pre l))) as [b|];
        [destruct (dump (has_state (c_class (l_post l))) (c_params (l_post l))) as [c|]|]|];
      cbn [fst snd]; (split; [split; [intro H; try discriminate H|]|split; [|intro H; discriminate H]]).
    all: try (intros d' N; rewrite dget_dset; destruct (PyDict.eqb d d') eqn:E;
              [apply (proj1 (PyDict.eqb_eq _ _)) in E; exfalso; apply N; symmetry; exact E|reflexivity]).
    all: try (split; [exists f; reflexivity|]; split; [exists a; reflexivity|];
              split; [exists b; reflexivity|exists c; reflexivity]).
    all: intros (_ & (a' & A) & (b' & B) & (c' & C)); try discriminate A; try discriminate B;
         try discriminate C; reflexivity.
  - cbn [fst snd]. split; [|split; [reflexivity|reflexivity]].
    split; [intro H; discriminate H|intros [[f F] _]; discriminate F].
Qed.

(** What was saved is loaded: same classes, parameters, weights and states of
    generators, and the labels as texts - whatever was in the directory before. *)
Theorem C97_roundtrip reg l d k f id :
  dget k d = Some f -> can_save l -> loadable reg l ->
  load reg no_options d (fst (save l d k)) id =
  Ok (mkLab (renew id (l_pre l))
        (mkModel (m_class (l_model l)) (m_params (l_model l)) (texts (m_labels (l_model l)))
           (m_weights (l_model l)))
        (renew (S id) (l_post l))).
Proof.
  intros D S (R1 & R2 & R3 & V1 & V2 & V3 & NE & ND).
  apply can_save_dumps in S. destruct S as ([a A] & [b B] & [c C]).
  unfold LabDiskModel.save, LabDiskModel.load. rewrite D. unfold save_files. rewrite A, B, C.
  cbn [written fst]. rewrite dget_dset, PyDict.eqb_refl.
  unfold load_files, no_options. cbn [f_names set_post set_pre set_names].
  assert (LM : forall f', f_mparams f' = Content a ->
            f_labels f' = Content (dump_labels (m_labels (l_model l))) ->
            (forall w, m_weights (l_model l) = Some w -> f_weights f' = Content w) ->
            load_model valid f' (m_class (l_model l), match m_weights (l_model l) with Some _ => true | None => false end)
            = Ok (mkModel (m_class (l_model l)) (m_params (l_model l)) (texts (m_labels (l_model l))) (m_weights (l_model l)))).
  { intros f' F1 F2 F3. unfold load_model. rewrite F1, F2. cbn [read bind fst snd].
    assert (W : (if match m_weights (l_model l) with Some _ => true | None => false end
                 then bind (read (f_weights f')) (fun w => Ok (Some w)) else Ok None) = Ok (m_weights (l_model l))).
    { destruct (m_weights (l_model l)) as [w|]; [rewrite (F3 w eq_refl)|]; reflexivity. }
    rewrite W. cbn [bind]. rewrite (V1 a A), (undump_plain _ _ _ _ A), (dump_labels_map _ ND).
    unfold texts. destruct (m_labels (l_model l)) as [|x r]; [exfalso; apply NE; reflexivity|].
    cbn [map]. rewrite map_map. reflexivity. }
  destruct (m_weights (l_model l)) as [w|] eqn:W;
    cbn [f_names set_weights set_labels set_mparams set_names read bind o_model o_pre o_post check_opt find_class];
    rewrite R1, R2, R3; cbn [bind]; (rewrite LM; [|reflexivity|reflexivity|]).
  all: try (intros w' E; try discriminate E; inversion E; reflexivity).
  all: cbn [bind]; unfold load_comp; cbn [fst snd f_pre f_post set_post set_pre read bind];
       rewrite (V2 b B), (V3 c C); cbn [bind];
       rewrite (undump_dump _ _ _ _ B), (undump_dump _ _ _ _ C); reflexivity.
Qed.

(** ** Equality *)
Lemma pval_eqb_refl v : pval_eqb v v = true.
Proof. destruct v; cbn; [apply String.eqb_refl|apply Nat.eqb_refl|apply Nat.eqb_refl]. Qed.

Lemma dget_map_val (g : pval -> pval) (ps : dict string pval) k :
  dget (map (fun kv => (fst kv, g (snd kv))) ps) k = option_map g (dget ps k).
Proof.
  induction ps as [|[k' v] r IH]; cbn [map dget fst snd]; [reflexivity|].
  destruct (PyDict.eqb k' k); [reflexivity|exact IH].
Qed.

Lemma dict_eqb_map g (ps : dict string pval) : NoDup (dkeys ps) ->
  (dict_eqb pval_eqb (map (fun kv => (fst kv, g (snd kv))) ps) ps = true
   <-> forall k v, In (k, v) ps -> pval_eqb (g v) v = true).
Proof.
  intro N. unfold dict_eqb. rewrite map_length, Nat.eqb_refl. cbn [andb].
  rewrite forallb_forall. split; intros H.
  - intros k v I. specialize (H (k, g v)). cbn [fst snd] in H.
    rewrite (dget_In ps k v N I) in H. apply H.
    apply in_map_iff. exists (k, v). split; [reflexivity|exact I].
  - intros x I. apply in_map_iff in I. destruct I as ([k v] & <- & I). cbn [fst snd].
    rewrite (dget_In ps k v N I). exact (H k v I).
Qed.

Lemma filter_map_fst (g : pval -> pval) (q : string -> bool) (ps : dict string pval) :
  filter (fun kv => q (fst kv)) (map (fun kv => (fst kv, g (snd kv))) ps)
  = map (fun kv => (fst kv, g (snd kv))) (filter (fun kv => q (fst kv)) ps).
Proof.
  induction ps as [|[k v] r IH]; [reflexivity|]. cbn [map filter fst snd].
  destruct (q k); cbn [map fst snd]; rewrite IH; reflexivity.
Qed.

Lemma NoDup_filter_keys (q : string * pval -> bool) (ps : dict string pval) :
  NoDup (dkeys ps) -> NoDup (dkeys (filter q ps)).
Proof.
  unfold dkeys. induction ps as [|[k v] r IH]; cbn [map filter fst]; intro N; [constructor|].
  inversion N as [|x y N1 N2]; subst. destruct (q (k, v)); cbn [map fst]; [|exact (IH N2)].
  constructor; [|exact (IH N2)]. intro I. apply N1. apply in_map_iff in I.
  destruct I as (z & Z & I). apply filter_In in I. apply in_map_iff. exists z. split; [exact Z|exact (proj1 I)].
Qed.

(** A processor with a new generator equals the old one exactly if the generator
    is not compared or there is none *)
Lemma renew_eqb id c : NoDup (dkeys (c_params c)) ->
  (forall k v, In (k, v) (c_params c) -> plain v \/ generator (c_class c) k v) ->
  (forall k i st, In (k, PRandom i st) (c_params c) -> i <> id) ->
  (comp_eqb (renew id c) c = true <->
   c_class c = "StructCharPostprocessor"%string \/ forall k v, In (k, v) (c_params c) -> plain v).
Proof.
  intros N P F. unfold comp_eqb, renew, compared. cbn [c_class c_params].
  rewrite String.eqb_refl. cbn [andb].
  destruct (String.eqb (c_class c) "StructCharPostprocessor") eqn:E.
  - apply String.eqb_eq in E. split; [intros _; left; exact E|intros _].
    rewrite (filter_map_fst (renewed id) (fun k => negb (String.eqb k "random_state"))).
    apply dict_eqb_map; [apply NoDup_filter_keys; exact N|].
    intros k v I. apply filter_In in I. destruct I as [I K]. cbn [fst] in K.
    destruct (P k v I) as [[s ->]|(_ & -> & _)]; [apply pval_eqb_refl|].
    rewrite String.eqb_refl in K. discriminate K.
  - rewrite (dict_eqb_map (renewed id) _ N). split.
    + intro H. right. intros k v I. destruct (P k v I) as [A|(_ & _ & i & st & ->)]; [exact A|].
      specialize (H k _ I). cbn in H. apply Nat.eqb_eq in H. exfalso. apply (F k i st I). symmetry; exact H.
    + intros [A|A] k v I.
      * rewrite A, String.eqb_refl in E. discriminate E.
      * destruct (A k v I) as [s ->]. apply pval_eqb_refl.
Qed.

Lemma label_eqb_eq a b : label_eqb a b = true <-> a = b.
Proof.
  destruct a, b; cbn [label_eqb]; try (split; intro H; discriminate H).
  - rewrite String.eqb_eq. split; intro H; [subst; reflexivity|inversion H; reflexivity].
  - rewrite Nat.eqb_eq. split; intro H; [subst; reflexivity|inversion H; reflexivity].
Qed.

Lemma lget_In m k v : NoDup (map fst m) -> In (k, v) m -> lget m k = Some v.
Proof.
  unfold lget. induction m as [|[k' v'] r IH]; cbn [map find fst]; intros N HI; [destruct HI|].
  destruct HI as [E|I].
  - inversion E; subst. rewrite (proj2 (label_eqb_eq k k) eq_refl). reflexivity.
  - inversion N as [|x y N1 N2]; subst. destruct (label_eqb k' k) eqn:E.
    + apply label_eqb_eq in E. subst k'. exfalso. apply N1, in_map_iff. exists (k, v). split; [reflexivity|exact I].
    + apply IH; [exact N2|exact I].
Qed.

Lemma lget_Some m k v : lget m k = Some v -> In (k, v) m.
Proof.
  unfold lget. destruct (find _ m) as [[k' v']|] eqn:E; [|intro H; discriminate H].
  intro H; inversion H; subst v'. apply find_some in E. destruct E as [I E]. cbn [fst] in E.
  apply label_eqb_eq in E. subst k'. exact I.
Qed.

Lemma texts_eqb m : NoDup (map (fun kv => key_text (fst kv)) m) ->
  (labels_eqb (texts m) m = true <-> forall k v, In (k, v) m -> exists s, k = LStr s).
Proof.
  intro N. assert (N' : NoDup (map fst m)).
  { rewrite <- (map_map fst key_text) in N. exact (NoDup_map_inv _ _ N). }
  unfold labels_eqb, texts. rewrite map_length, Nat.eqb_refl. cbn [andb]. rewrite forallb_forall. split.
  - intros H k v I. specialize (H (LStr (key_text k), v)). cbn [fst snd] in H.
    destruct (lget m (LStr (key_text k))) as [w|] eqn:L.
    + apply lget_Some in L. destruct k as [s|n]; [exists s; reflexivity|]. exfalso.
      assert (X : (LStr (show n), w) = (LInt n, v)).
      { clear H N'. cbn [LabDiskModel.key_text] in L.
        induction m as [|[k' v'] r IH]; [destruct I|]. cbn [map fst] in N.
        inversion N as [|x y N1 N2]; subst. destruct L as [L|L], I as [I|I].
        - rewrite <- L, <- I. congruence.
        - exfalso. inversion L; subst. apply N1. apply in_map_iff. exists (LInt n, v). split; [reflexivity|exact I].
        - exfalso. inversion I; subst. apply N1. apply in_map_iff. exists (LStr (show n), w). split; [reflexivity|exact L].
        - exact (IH N2 L I). }
      discriminate X.
    + assert (X : false = true); [|discriminate X]. apply H. apply in_map_iff. exists (k, v). split; [reflexivity|exact I].
  - intros H x I. apply in_map_iff in I. destruct I as ([k v] & <- & I). cbn [fst snd].
    destruct (H k v I) as [s ->]. cbn [LabDiskModel.key_text]. rewrite (lget_In _ _ _ N' I). apply Nat.eqb_refl.
Qed.

(** The labeler loaded equals the one saved exactly if all labels are texts and the
    postprocessor has no generator that is compared. *)
Theorem C97_equal reg l d k f id :
  dget k d = Some f -> can_save l -> loadable reg l ->
  has_state (c_class (l_pre l)) = false ->
  NoDup (dkeys (m_params (l_model l))) -> NoDup (dkeys (c_params (l_pre l))) -> NoDup (dkeys (c_params (l_post l))) ->
  (forall key i st, In (key, PRandom i st) (c_params (l_post l)) -> i <> S id) ->
  exists l', load reg no_options d (fst (save l d k)) id = Ok l'
    /\ (labeler_eqb l' l = true <->
        (forall lab v, In (lab, v) (m_labels (l_model l)) -> exists s, lab = LStr s)
        /\ (c_class (l_post l) = "StructCharPostprocessor"%string
            \/ forall key v, In (key, v) (c_params (l_post l)) -> plain v)).
Proof.
  intros D S Ld H0 N1 N2 N3 F. eexists. split; [exact (C97_roundtrip reg l d k f id D S Ld)|].
  destruct S as (S1 & S2 & S3). destruct Ld as (_ & _ & _ & _ & _ & _ & _ & ND).
  assert (P : forall key v, In (key, v) (c_params (l_pre l)) -> plain v).
  { intros key v I. destruct (S2 key v I) as [A|(A & _)]; [exact A|]. rewrite H0 in A. discriminate A. }
  unfold labeler_eqb. cbn [l_pre l_model l_post].
  rewrite !andb_true_iff, (renew_eqb (Datatypes.S id) _ N3 S3 F).
  rewrite (renew_eqb id (l_pre l) N2 S2); [|intros key i st I; destruct (P _ _ I) as [s E]; discriminate E].
  unfold model_eqb. cbn [m_class m_params m_labels].
  rewrite String.eqb_refl, orb_true_r. cbn [andb].
  rewrite andb_true_iff, (texts_eqb _ ND).
  assert (M : dict_eqb pval_eqb (m_params (l_model l)) (m_params (l_model l)) = true).
  { pose proof (proj2 (dict_eqb_map (fun v => v) _ N1) (fun _ v _ => pval_eqb_refl v)) as X.
    rewrite (map_ext _ (fun x => x)) in X; [|intros [a b]; reflexivity]. rewrite map_id in X. exact X. }
  rewrite M. tauto.
Qed.

(** Whatever was in the directory - also what a failed save left - the next save that
    succeeds decides alone what is loaded. *)
Theorem C97_last reg l d k k' f f' id :
  dget k d = Some f -> dget k' d = Some f' -> can_save l -> loadable reg l ->
  load reg no_options d (fst (save l d k)) id = load reg no_options d (fst (save l d k')) id.
Proof.
  intros D D' S Ld. rewrite (C97_roundtrip reg l d k f id D S Ld), (C97_roundtrip reg l d k' f' id D' S Ld). reflexivity.
Qed.

(** After a save that fails in a directory that is there nothing can be loaded from it,
    whatever was saved there before. *)
Theorem C97_failed reg o l d k f id :
  dget k d = Some f -> ~ can_save l ->
  dget (r_procs reg) (lower_string (c_class (l_pre l))) = Some (c_class (l_pre l), KPre) ->
  dget (r_procs reg) (lower_string (c_class (l_post l))) = Some (c_class (l_post l), KPost) ->
  o_pre o = OAbsent -> o_post o = OAbsent ->
  exists e, load reg o d (fst (save l d k)) id = Err e.
Proof.
  intros D S R2 R3 O2 O3. unfold LabDiskModel.save, LabDiskModel.load. rewrite D.
  rewrite can_save_dumps in S. unfold save_files.
  assert (X : forall f', f_names f' = Content (m_class (l_model l), c_class (l_pre l), c_class (l_post l)) ->
            f_mparams f' = Broken \/ f_pre f' = Broken \/ f_post f' = Broken ->
            exists e, load_files valid reg o f' id = Err e).
  { intros f' Nm Br. unfold load_files. rewrite Nm. cbn [read bind].
    destruct (check_opt (o_model o) (m_class (l_model l))) as [e|]; [exists e; reflexivity|].
    rewrite O2, O3. cbn [check_opt find_class]. rewrite R2, R3.
    destruct (find_class (o_model o) (r_models reg) (m_class (l_model l))) as [c|e]; cbn [bind]; [|exists e; reflexivity].
    destruct (load_model valid f' c) as [m|e] eqn:LM; cbn [bind]; [|exists e; reflexivity].
    destruct (load_comp valid f' KPre (c_class (l_pre l), KPre) id) as [p|e] eqn:LP; cbn [bind]; [|exists e; reflexivity].
    destruct (load_comp valid f' KPost (c_class (l_post l), KPost) (Datatypes.S id)) as [q|e] eqn:LQ; cbn [bind]; [|exists e; reflexivity].
    exfalso. destruct Br as [Br|[Br|Br]].
    - unfold load_model in LM. rewrite Br in LM. discriminate LM.
    - unfold load_comp in LP. cbn [snd] in LP. rewrite Br in LP. discriminate LP.
    - unfold load_comp in LQ. cbn [snd] in LQ. rewrite Br in LQ. discriminate LQ. }
  destruct (dump false (m_params (l_model l))) as [a|];
    [destruct (dump (has_state (c_class (l_pre l))) (c_params (l_pre l))) as [b|];
      [destruct (dump (has_state (c_class (l_post l))) (c_params (l_post l))) as [c|]|]|];
    cbn [fst]; rewrite dget_dset, PyDict.eqb_refl.
  - exfalso. apply S. split; [exists a; reflexivity|]. split; [exists b; reflexivity|exists c; reflexivity].
  - apply X; [destruct (m_weights (l_model l)); reflexivity|right; right; destruct (m_weights (l_model l)); reflexivity].
  - apply X; [destruct (m_weights (l_model l)); reflexivity|right; left; destruct (m_weights (l_model l)); reflexivity].
  - apply X; [reflexivity|left; reflexivity].
Qed.

(** Objects of classes given for loading are accepted exactly if they are of the kind
    asked for and of the very class that was saved; the first wrong one of model,
    preprocessor and postprocessor decides the error. *)
Theorem C97_options reg o d k f id nm np nq :
  dget k d = Some f -> f_names f = Content (nm, np, nq) ->
  (o_model o = OBad -> load reg o d k id = Err TypeError)
  /\ (forall c b, o_model o = OClass (c, b) -> c <> nm -> load reg o d k id = Err ValueError)
  /\ (check_opt (o_model o) nm = None -> o_pre o = OBad -> load reg o d k id = Err TypeError)
  /\ (forall c b, check_opt (o_model o) nm = None -> o_pre o = OClass (c, b) -> c <> np ->
        load reg o d k id = Err ValueError)
  /\ (check_opt (o_model o) nm = None -> check_opt (o_pre o) np = None -> o_post o = OBad ->
        load reg o d k id = Err TypeError)
  /\ (forall c b, check_opt (o_model o) nm = None -> check_opt (o_pre o) np = None ->
        o_post o = OClass (c, b) -> c <> nq -> load reg o d k id = Err ValueError).
Proof.
  intros D Nm. unfold LabDiskModel.load, load_files. rewrite D, Nm. cbn [read bind].
  repeat match goal with |- _ /\ _ => split end; intros;
    repeat match goal with H : ?x = _ |- context [?x] => rewrite H end; cbn [check_opt];
    repeat match goal with H : ?c <> ?n |- context [String.eqb ?c ?n] =>
      rewrite (proj2 (String.eqb_neq c n) H) end; reflexivity.
Qed.

End Disk.

(** ** Examples and refuted expectations *)
Local Open Scope string_scope.
Definition ex_show (n : nat) : string := match n with 0 => "0" | 1 => "1" | _ => "2" end%string.
Definition ex_valid (c : string) (ps : dict string jval) : bool := true.
Definition ex_reg : registry :=
  mkReg [("directpasspreprocessor", ("DirectPassPreprocessor", KPre));
         ("regexpostprocessor", ("RegexPostProcessor", KPost));
         ("structcharpostprocessor", ("StructCharPostprocessor", KPost))]%string
        [("regexmodel", ("RegexModel", false));
         ("characterlevelcnnmodel", ("CharacterLevelCnnModel", true))]%string.

Definition ex_pre : comp := mkComp "DirectPassPreprocessor" [].
Definition ex_model : model :=
  mkModel "RegexModel" [("regex_patterns", PJson "{}")]%string [(LStr "PAD", 0); (LStr "A", 1)]%string None.
Definition ex_regex_post : comp :=
  mkComp "RegexPostProcessor" [("aggregation_func", PJson "split"); ("random_state", PRandom 3 77)]%string.
Definition ex_char_post : comp :=
  mkComp "StructCharPostprocessor" [("default_label", PJson "A"); ("random_state", PRandom 3 77)]%string.
Definition ex_regex : labeler := mkLab ex_pre ex_model ex_regex_post.
Definition ex_char : labeler := mkLab ex_pre ex_model ex_char_post.
Definition ex_bad : labeler := mkLab ex_pre ex_model
  (mkComp "RegexPostProcessor" [("priority_order", POther 5); ("random_state", PRandom 3 77)]%string).
Definition ex_disk : disk := [("here", empty_dir); ("there", empty_dir)]%string.

Definition ex_save := save ex_show.
Definition ex_load reg d k id := load ex_valid reg no_options d k id.

Example C97_example :
  ex_load ex_reg "here"%string (fst (ex_save ex_regex "here"%string ex_disk)) 8
  = Ok (mkLab ex_pre ex_model
          (mkComp "RegexPostProcessor" [("aggregation_func", PJson "split"); ("random_state", PRandom 9 77)]%string))
  /\ (exists l, ex_load ex_reg "here"%string (fst (ex_save ex_char "here"%string ex_disk)) 8 = Ok l
        /\ labeler_eqb l ex_char = true)
  /\ snd (ex_save ex_bad "here"%string ex_disk) = Some TypeError
  /\ snd (ex_save ex_regex "nowhere"%string ex_disk) = Some GenericException
  /\ ex_load ex_reg "there"%string (fst (ex_save ex_regex "here"%string ex_disk)) 8 = Err GenericException.
Proof.
  split; [vm_compute; reflexivity|]. split; [eexists; split; vm_compute; reflexivity|].
  split; [vm_compute; reflexivity|]. split; vm_compute; reflexivity.
Qed.

(** Expectation: a labeler that was saved and loaded equals the one saved. Regex
    postprocessors compare their generators, which are new objects. *)
Theorem C97_equal_refuted :
  ~ (forall l d id l', snd (ex_save l d ex_disk) = None ->
       ex_load ex_reg d (fst (ex_save l d ex_disk)) id = Ok l' -> labeler_eqb l' l = true).
Proof.
  intro H. specialize (H ex_regex "here"%string 8 _ eq_refl eq_refl). vm_compute in H. discriminate H.
Qed.

(** Expectation: a save that fails leaves what was saved before. *)
Theorem C97_atomic_refuted :
  ~ (forall l d k id l0, snd (ex_save l d k) <> None -> ex_load ex_reg d k id = Ok l0 ->
       ex_load ex_reg d (fst (ex_save l d k)) id = Ok l0).
Proof.
  intro H.
  specialize (H ex_bad "here"%string (fst (ex_save ex_regex "here"%string ex_disk)) 8
    (mkLab ex_pre ex_model
       (mkComp "RegexPostProcessor" [("aggregation_func", PJson "split"); ("random_state", PRandom 9 77)]%string))).
  assert (A : snd (ex_save ex_bad "here"%string (fst (ex_save ex_regex "here"%string ex_disk))) <> None)
    by (vm_compute; intro K; discriminate K).
  specialize (H A eq_refl). vm_compute in H. discriminate H.
Qed.

(** Expectation: as many labels are loaded as were saved. The number 1 and the text 1
    are different labels before and one label afterwards. *)
Theorem C97_labels_refuted :
  ~ (forall l d id l', snd (ex_save l d ex_disk) = None ->
       NoDup (map fst (m_labels (l_model l))) ->
       ex_load ex_reg d (fst (ex_save l d ex_disk)) id = Ok l' ->
       length (m_labels (l_model l')) = length (m_labels (l_model l))).
Proof.
  intro H.
  specialize (H (mkLab ex_pre (mkModel "RegexModel" [] [(LInt 1, 0); (LStr "1", 1)]%string None) ex_char_post)
                "here"%string 8
                (mkLab ex_pre (mkModel "RegexModel" [] [(LStr "1", 1)]%string None) (renew 9 ex_char_post)) eq_refl).
  assert (N : NoDup [LInt 1; LStr "1"%string]).
  { constructor; [intros [K|[]]; discriminate K|]. constructor; [intros []|constructor]. }
  specialize (H N eq_refl). vm_compute in H. discriminate H.
Qed.

(** Expectation: a labeler that could be loaded still gets its model after another
    class of models was made. Names are compared in lower case. *)
Theorem C97_case_refuted :
  ~ (forall name w d k id l l', name <> m_class (l_model l) ->
       ex_load ex_reg d k id = Ok l -> ex_load (register_model ex_reg name w) d k id = Ok l' ->
       m_class (l_model l') = m_class (l_model l)).
Proof.
  intro H.
  specialize (H "REGEXModel"%string false "here"%string (fst (ex_save ex_char "here"%string ex_disk)) 8).
  specialize (H (mkLab ex_pre ex_model (renew 9 ex_char_post))
                (mkLab ex_pre (mkModel "REGEXModel" (m_params ex_model) (m_labels ex_model) None) (renew 9 ex_char_post))).
  assert (N : "REGEXModel"%string <> "RegexModel"%string) by (intro K; discriminate K).
  specialize (H N eq_refl eq_refl). vm_compute in H. discriminate H.
Qed.

(** Expectation: equal labelers have the same weights; equality does not look at them. *)
Theorem C97_weights_refuted :
  ~ (forall a b, labeler_eqb a b = true -> m_weights (l_model a) = m_weights (l_model b)).
Proof.
  intro H.
  specialize (H (mkLab ex_pre (mkModel "CharacterLevelCnnModel" [] [(LStr "PAD", 0)]%string (Some 1)) ex_char_post)
                (mkLab ex_pre (mkModel "CharacterLevelCnnModel" [] [(LStr "PAD", 0)]%string (Some 2)) ex_char_post)
                eq_refl).
  discriminate H.
Qed.
