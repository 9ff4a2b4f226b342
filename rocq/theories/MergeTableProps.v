(** * C95: merging tables profiled with different options *)
From Coq Require Import List Arith Bool Lia.
Import ListNotations.
From Verif Require Import PyCommon PyString PyDict MergeTableModel.
Local Open Scope nat_scope.
Local Delimit Scope string_scope with string.

Lemma hashing_eqb_iff a b : hashing_eqb a b = true <-> a = b.
Proof. destruct a, b; cbn; split; intro H; try reflexivity; discriminate H. Qed.

Lemma same_set_iff a b : same_set a b = true <-> (forall k, In k a <-> In k b).
Proof.
  unfold same_set. rewrite andb_true_iff, !forallb_forall. split.
  - intros [H1 H2] k. split; intro H.
    + apply lmem_In, H1, H.
    + apply lmem_In, H2, H.
  - intro H. split; intros x Hx; apply lmem_In, H, Hx.
Qed.

(** [l] consists of some of the entries of [m], in their order *)
Inductive some_of {B : Type} : list B -> list B -> Prop :=
| so_nil : some_of [] []
| so_take x l m : some_of l m -> some_of (x :: l) (x :: m)
| so_skip x l m : some_of l m -> some_of l (x :: m).

Lemma so_none {B} (m : list B) : some_of [] m.
Proof. induction m; constructor; auto. Qed.

Lemma so_refl {B} (m : list B) : some_of m m.
Proof. induction m; constructor; auto. Qed.

Lemma so_app {B} (a b c d : list B) : some_of a b -> some_of c d -> some_of (a ++ c) (b ++ d).
Proof. intros H K. induction H; cbn; [exact K| |]; constructor; auto. Qed.

Section Tables.
Variable B : Type.
Variable brows bblank : B -> nat.
Variable bnull : B -> bool.
Variable bcols : B -> list string.
Variable sch : list string -> list string -> bool.
Variable bcorr : list B -> B -> bool.
Variable compat : list B -> list B -> bool.

Notation update := (update B brows bblank bcols sch bcorr).
Notation merge := (merge B bnull sch compat).
Notation run := (run B brows bblank bnull bcols sch bcorr compat).

(** The batches with rows of a history, in the order of the profiles *)
Fixpoint batches (h : hist B) : list B :=
  match h with
  | HNew _ => []
  | HUpd h b => batches h ++ (if brows b =? 0 then [] else [b])
  | HAdd h1 h2 => batches h1 ++ batches h2
  | HReload h => batches h
  end.

(** The options given to the leftmost profile *)
Fixpoint first (h : hist B) : topts :=
  match h with
  | HNew o => o
  | HUpd h _ => first h
  | HAdd h1 _ => first h1
  | HReload h => first h
  end.

Fixpoint everywhere (f : topts -> bool) (h : hist B) : Prop :=
  match h with
  | HNew o => f o = true
  | HUpd h _ => everywhere f h
  | HAdd h1 h2 => everywhere f h1 /\ everywhere f h2
  | HReload h => everywhere f h
  end.

Fixpoint never_reloaded (h : hist B) : Prop :=
  match h with
  | HNew _ => True
  | HUpd h _ => never_reloaded h
  | HAdd h1 h2 => never_reloaded h1 /\ never_reloaded h2
  | HReload _ => False
  end.

(** The metrics were lost by the last steps: a merge where they are off on one
    side, or saving and loading, without rows afterwards *)
Fixpoint lost (h : hist B) : Prop :=
  match h with
  | HNew _ => True
  | HUpd h b => brows b = 0 /\ lost h
  | HAdd h1 h2 => o_nrm (first h1) = false \/ o_nrm (first h2) = false
  | HReload _ => True
  end.

Fixpoint total (l : list B) : nat :=
  match l with [] => 0 | b :: r => brows b + total r end.
Fixpoint total_blank (l : list B) : nat :=
  match l with [] => 0 | b :: r => bblank b + total_blank r end.

(** A batch with a row that is not null in every column *)
Definition real (b : B) : bool := bblank b <? brows b.

(** ** Outcome of a merge *)

(** Merging raises TypeError exactly in this case (after the checks) *)
Definition metrics_missing (p q : prof B) : Prop :=
  o_nrm (opts p) = true /\ o_nrm (opts q) = true
  /\ (exists b, In b (taken p ++ taken q) /\ bnull b = true)
  /\ (nrm p = None \/ nrm q = None).

Definition allowed (p q : prof B) : Prop :=
  cols p <> [] /\ cols q <> [] /\ sch (cols p) (cols q) = true
  /\ o_rows (opts p) = o_rows (opts q)
  /\ o_unique (opts p) = o_unique (opts q)
  /\ o_nulls (opts p) = o_nulls (opts q)
  /\ o_hash (opts p) = o_hash (opts q)
  /\ (o_hash (opts p) = HHll ->
      o_seed (opts p) = o_seed (opts q) /\ o_regs (opts p) = o_regs (opts q))
  /\ (forall k, In k (o_kinds (opts p)) <-> In k (o_kinds (opts q))).

Lemma checks_None p q :
  checks B sch p q = None /\ same_set (o_kinds (opts p)) (o_kinds (opts q)) = true
  <-> allowed p q.
Proof.
  unfold checks, allowed. rewrite same_set_iff.
  destruct (cols p) as [|c1 r1]; [split; [intros [H _]; discriminate H | intros [H _]; contradiction H; reflexivity]|].
  destruct (cols q) as [|c2 r2]; [split; [intros [H _]; discriminate H | intros (_ & H & _); contradiction H; reflexivity]|].
  destruct (sch (c1 :: r1) (c2 :: r2)); cbn [negb];
    [|split; [intros [H _]; discriminate H | intros (_ & _ & H & _); discriminate H]].
  destruct (Bool.eqb (o_rows (opts p)) (o_rows (opts q))) eqn:E1; cbn [negb].
  2:{ apply eqb_false_iff in E1. split; [intros [H _]; discriminate H | intros (_ & _ & _ & H & _); contradiction]. }
  destruct (Bool.eqb (o_unique (opts p)) (o_unique (opts q))) eqn:E2; cbn [negb].
  2:{ apply eqb_false_iff in E2. split; [intros [H _]; discriminate H | intros (_ & _ & _ & _ & H & _); contradiction]. }
  destruct (Bool.eqb (o_nulls (opts p)) (o_nulls (opts q))) eqn:E3; cbn [negb].
  2:{ apply eqb_false_iff in E3. split; [intros [H _]; discriminate H | intros (_ & _ & _ & _ & _ & H & _); contradiction]. }
  destruct (hashing_eqb (o_hash (opts p)) (o_hash (opts q))) eqn:E4; cbn [negb].
  2:{ split; [intros [H _]; discriminate H | intros (_ & _ & _ & _ & _ & _ & H & _)].
      rewrite (proj2 (hashing_eqb_iff _ _) H) in E4. discriminate E4. }
  apply eqb_prop in E1. apply eqb_prop in E2. apply eqb_prop in E3.
  apply hashing_eqb_iff in E4.
  destruct (o_hash (opts p)) eqn:Eh; cbn [is_hll andb].
  - split.
    + intros [_ H]. repeat (split; [solve [assumption | intro K; discriminate K | reflexivity]|]).
      exact H.
    + intros (_ & _ & _ & _ & _ & _ & _ & _ & H). split; [reflexivity | exact H].
  - destruct (o_seed (opts p) =? o_seed (opts q)) eqn:E5; cbn [negb].
    2:{ apply Nat.eqb_neq in E5. split; [intros [H _]; discriminate H |].
        intros (_ & _ & _ & _ & _ & _ & _ & H & _). destruct (H eq_refl). contradiction. }
    destruct (o_regs (opts p) =? o_regs (opts q)) eqn:E6; cbn [negb].
    2:{ apply Nat.eqb_neq in E6. split; [intros [H _]; discriminate H |].
        intros (_ & _ & _ & _ & _ & _ & _ & H & _). destruct (H eq_refl). contradiction. }
    apply Nat.eqb_eq in E5. apply Nat.eqb_eq in E6.
    split.
    + intros [_ H]. repeat (split; [solve [assumption | intro K; discriminate K | reflexivity]|]).
      split; [intros _; split; assumption | exact H].
    + intros (_ & _ & _ & _ & _ & _ & _ & _ & H). split; [reflexivity | exact H].
Qed.

Lemma checks_Err p q e : checks B sch p q = Some e -> e = ValueError.
Proof.
  unfold checks.
  repeat match goal with |- context [if ?b then _ else _] => destruct b end;
    intro H; try discriminate H; inversion H; reflexivity.
Qed.

Lemma merge_nrm_missing p q :
  (exists b, In b (taken p ++ taken q) /\ bnull b = true) /\ (nrm p = None \/ nrm q = None)
  <-> exists e, merge_nrm B bnull p q = Err e.
Proof.
  unfold merge_nrm. destruct (existsb bnull (taken p ++ taken q)) eqn:E.
  - apply existsb_exists in E. split.
    + intros [_ [H|H]]; rewrite H; [|destruct (nrm p)]; exists TypeError; reflexivity.
    + intros [e H]. split; [exact E|].
      destruct (nrm p); [|left; reflexivity]. destruct (nrm q); [discriminate H | right; reflexivity].
  - split.
    + intros [(b & Hb & Hn) _]. assert (Hx : existsb bnull (taken p ++ taken q) = true).
      { apply existsb_exists. exists b. split; assumption. }
      rewrite Hx in E. discriminate E.
    + intros [e H]. discriminate H.
Qed.

(** Two tables can be merged exactly if both have columns that match, with the
    same options for rows, the same way of counting unique rows, and the same
    column profiles - unless null replication metrics enabled on both sides went
    missing on one. *)
Theorem C95_outcome p q :
  (exists r, merge p q = Ok r) <-> allowed p q /\ ~ metrics_missing p q.
Proof.
  rewrite <- checks_None. unfold merge, metrics_missing.
  destruct (checks B sch p q) as [e|]; [split; [intros [r H]; discriminate H | intros [[H _] _]; discriminate H]|].
  destruct (same_set (o_kinds (opts p)) (o_kinds (opts q))); cbn [negb];
    [|split; [intros [r H]; discriminate H | intros [[_ H] _]; discriminate H]].
  destruct (o_nrm (opts p)); cbn [andb];
    [|split; [intros _; split; [split; reflexivity | intros [H _]; discriminate H] | intros _; eexists; reflexivity]].
  destruct (o_nrm (opts q));
    [|split; [intros _; split; [split; reflexivity | intros (_ & H & _); discriminate H] | intros _; eexists; reflexivity]].
  pose proof (merge_nrm_missing p q) as M.
  destruct (merge_nrm B bnull p q) as [n|e].
  - split; [intros _ | intros _; eexists; reflexivity].
    split; [split; reflexivity|]. intros (_ & _ & H1 & H2).
    destruct (proj1 M (conj H1 H2)) as [e H]. discriminate H.
  - split; [intros [r H]; discriminate H|]. intros [_ H]. exfalso. apply H.
    destruct (proj2 M) as [H1 H2]; [exists e; reflexivity|].
    repeat split; assumption.
Qed.

(** A merge that is not allowed raises ValueError; the only other error is the
    TypeError of missing metrics. *)
Theorem C95_errors p q e :
  merge p q = Err e ->
  (e = ValueError /\ ~ allowed p q) \/ (e = TypeError /\ allowed p q /\ metrics_missing p q).
Proof.
  intro H. destruct (checks B sch p q) as [e'|] eqn:Ec.
  - left. unfold merge, MergeTableModel.merge in H. rewrite Ec in H. inversion H; subst e'.
    split; [exact (checks_Err p q e Ec)|].
    rewrite <- checks_None, Ec. intros [K _]. discriminate K.
  - destruct (same_set (o_kinds (opts p)) (o_kinds (opts q))) eqn:Es.
    + right. assert (Ha : allowed p q) by (apply checks_None; split; assumption).
      unfold MergeTableModel.merge in H. rewrite Ec, Es in H. cbn [negb] in H.
      destruct (o_nrm (opts p)) eqn:E1; cbn [andb] in H; [|discriminate H].
      destruct (o_nrm (opts q)) eqn:E2; [|discriminate H].
      destruct (merge_nrm B bnull p q) as [n|e'] eqn:En; [discriminate H|].
      inversion H; subst e'.
      split; [|split; [exact Ha|]].
      * unfold merge_nrm in En. destruct (existsb bnull (taken p ++ taken q)); [|discriminate En].
        destruct (nrm p); [destruct (nrm q); [discriminate En|]|]; inversion En; reflexivity.
      * destruct (proj2 (merge_nrm_missing p q) (ex_intro _ e En)) as [H1 H2].
        split; [exact E1|]. split; [exact E2|]. split; assumption.
    + left. unfold MergeTableModel.merge in H. rewrite Ec, Es in H. cbn [negb] in H.
      inversion H; subst e. split; [reflexivity|].
      rewrite <- checks_None, Es. intros [_ K]. discriminate K.
Qed.

Lemma merge_fields p q r :
  merge p q = Ok r ->
  allowed p q
  /\ opts r = opts p /\ cols r = cols p /\ size r = size p + size q
  /\ blank r = (if o_rows (opts p) then blank p + blank q else 0)
  /\ taken r = taken p ++ taken q
  /\ corr r = (if o_corr (opts p) && o_corr (opts q) then merge_corr B compat p q else None)
  /\ chi2 r = (if o_chi2 (opts p) && o_chi2 (opts q) then merge_chi2 B p q else None)
  /\ (if o_nrm (opts p) && o_nrm (opts q)
      then merge_nrm B bnull p q = Ok (nrm r) else nrm r = None).
Proof.
  intro H. assert (Ha : allowed p q) by (apply C95_outcome; exists r; exact H).
  split; [exact Ha|].
  assert (Hr : o_rows (opts p) = o_rows (opts q)) by (destruct Ha as (_ & _ & _ & K & _); exact K).
  unfold MergeTableModel.merge in H.
  destruct (checks B sch p q); [discriminate H|].
  destruct (negb (same_set (o_kinds (opts p)) (o_kinds (opts q)))); [discriminate H|].
  rewrite <- Hr, andb_diag in H.
  destruct (o_nrm (opts p) && o_nrm (opts q)).
  - destruct (merge_nrm B bnull p q) as [n|e]; [|discriminate H].
    inversion H; subst r; cbn. repeat split; reflexivity.
  - inversion H; subst r; cbn. repeat split; reflexivity.
Qed.

(** ** What the result speaks of *)

(** The result of a merge has the options and columns of the left table, its
    rows are those of both and its column statistics are of all batches of
    both; a statistic over several columns that is off on one side is missing. *)
Theorem C95_merged p q r :
  merge p q = Ok r ->
  opts r = opts p /\ cols r = cols p /\ size r = size p + size q
  /\ taken r = taken p ++ taken q
  /\ (o_corr (opts p) && o_corr (opts q) = false -> corr r = None)
  /\ (o_chi2 (opts p) && o_chi2 (opts q) = false -> chi2 r = None)
  /\ (o_nrm (opts p) && o_nrm (opts q) = false -> nrm r = None).
Proof.
  intro H. destruct (merge_fields p q r H) as (_ & H1 & H2 & H3 & _ & H4 & H5 & H6 & H7).
  split; [exact H1|]. split; [exact H2|]. split; [exact H3|]. split; [exact H4|].
  split; [intro E; rewrite H5, E; reflexivity|].
  split; [intro E; rewrite H6, E; reflexivity|].
  intro E. rewrite E in H7. exact H7.
Qed.

Lemma bind_Ok {A C} (x : result A) (f : A -> result C) r :
  bind x f = Ok r -> exists a, x = Ok a /\ f a = Ok r.
Proof. destruct x as [a|e]; cbn; intro H; [exists a; split; [reflexivity | exact H] | discriminate H]. Qed.

Lemma total_app a b : total (a ++ b) = total a + total b.
Proof. induction a; cbn; lia. Qed.
Lemma total_blank_app a b : total_blank (a ++ b) = total_blank a + total_blank b.
Proof. induction a; cbn; lia. Qed.

Lemma update_cases p b r :
  update p b = Ok r ->
  (brows b = 0 /\ r = p)
  \/ (brows b <> 0
      /\ opts r = opts p /\ size r = size p + brows b
      /\ blank r = (if o_rows (opts p) && o_nulls (opts p) then blank p + bblank b else blank p)
      /\ taken r = taken p ++ [b]
      /\ corr r = (if o_corr (opts p) then upd_corr B bcorr (corr p) (taken p) b else corr p)
      /\ chi2 r = (if o_chi2 (opts p) then Some (taken p ++ [b]) else chi2 p)
      /\ nrm r = (if o_nrm (opts p) then upd_nrm B (nrm p) b else nrm p)).
Proof.
  unfold MergeTableModel.update. destruct (brows b =? 0) eqn:E.
  - apply Nat.eqb_eq in E. intro H. inversion H; subst r. left. split; [exact E | reflexivity].
  - apply Nat.eqb_neq in E.
    destruct (negb (match cols p with [] => true | _ => sch (cols p) (bcols b) end)); intro H; [discriminate H|].
    inversion H; subst r; cbn. right. repeat split; try reflexivity. exact E.
Qed.

(** After any history: the options are the first ones, the columns took in all
    batches and the number of rows is the sum. *)
Theorem C95_history h p :
  run h = Ok p ->
  opts p = first h /\ taken p = batches h /\ size p = total (batches h).
Proof.
  revert p. induction h as [o|h IH b|h1 IH1 h2 IH2|h IH]; intros p H; cbn [MergeTableModel.run] in H.
  - inversion H; subst p; cbn. repeat split; reflexivity.
  - apply bind_Ok in H. destruct H as (a & Ha & H). destruct (IH a Ha) as (I1 & I2 & I3).
    cbn [first batches].
    destruct (update_cases a b p H) as [[E Hp]|(E & U1 & U2 & _ & U4 & _)].
    + subst p. rewrite E. cbn [Nat.eqb]. rewrite app_nil_r. repeat split; assumption.
    + apply Nat.eqb_neq in E. rewrite E, U1, U2, U4, I1, I2, I3, total_app. cbn.
      repeat split; try reflexivity. lia.
  - apply bind_Ok in H. destruct H as (a & Ha & H). apply bind_Ok in H. destruct H as (c & Hc & H).
    destruct (IH1 a Ha) as (I1 & I2 & I3). destruct (IH2 c Hc) as (J1 & J2 & J3).
    destruct (C95_merged a c p H) as (M1 & M2 & M3 & M4 & _).
    cbn [first batches]. rewrite M1, M3, M4, total_app, I1, I2, I3, J2, J3. repeat split; reflexivity.
  - apply bind_Ok in H. destruct H as (a & Ha & H). inversion H; subst p.
    destruct (IH a Ha) as (I1 & I2 & I3). cbn. repeat split; assumption.
Qed.

(** Nothing is invented and nothing is counted twice: correlations, chi-squared
    tests and metrics are each of some of the batches of the history, in order. *)
Theorem C95_sound h p :
  run h = Ok p ->
  (forall l, corr p = Some l -> some_of l (batches h))
  /\ (forall l, chi2 p = Some l -> some_of l (batches h))
  /\ (forall l, nrm p = Some l -> some_of l (batches h)).
Proof.
  revert p. induction h as [o|h IH b|h1 IH1 h2 IH2|h IH]; intros p H; pose proof H as H0;
    cbn [MergeTableModel.run] in H.
  - inversion H; subst p; cbn. repeat split; intros l K; discriminate K.
  - apply bind_Ok in H. destruct H as (a & Ha & H). destruct (IH a Ha) as (I1 & I2 & I3).
    destruct (C95_history h a Ha) as (_ & Ht & _). cbn [batches].
    destruct (update_cases a b p H) as [[E Hp]|(E & _ & _ & _ & _ & U1 & U2 & U3)].
    + subst p. rewrite E. cbn [Nat.eqb]. rewrite app_nil_r. repeat split; assumption.
    + apply Nat.eqb_neq in E. rewrite E, U1, U2, U3, Ht. split; [|split].
      * intros l K. destruct (o_corr (opts a)).
        -- unfold upd_corr in K. destruct (corr a) as [m|] eqn:Em; destruct (bcorr (batches h) b);
             inversion K; subst l.
           ++ apply so_app; [apply I1; reflexivity | apply so_refl].
           ++ rewrite <- (app_nil_r m). apply so_app; [apply I1; reflexivity | apply so_none].
           ++ change [b] with ([] ++ [b]) at 1. apply so_app; [apply so_none | apply so_refl].
        -- rewrite <- (app_nil_r l). apply so_app; [apply I1; exact K | apply so_none].
      * intros l K. destruct (o_chi2 (opts a)).
        -- inversion K; subst l. apply so_refl.
        -- rewrite <- (app_nil_r l). apply so_app; [apply I2; exact K | apply so_none].
      * intros l K. destruct (o_nrm (opts a)).
        -- unfold upd_nrm in K. destruct (nrm a) as [m|] eqn:Em; inversion K; subst l.
           ++ apply so_app; [apply I3; reflexivity | apply so_refl].
           ++ change [b] with ([] ++ [b]) at 1. apply so_app; [apply so_none | apply so_refl].
        -- rewrite <- (app_nil_r l). apply so_app; [apply I3; exact K | apply so_none].
  - apply bind_Ok in H. destruct H as (a & Ha & H). apply bind_Ok in H. destruct H as (c & Hc & H).
    destruct (IH1 a Ha) as (I1 & I2 & I3). destruct (IH2 c Hc) as (J1 & J2 & J3).
    destruct (C95_history h1 a Ha) as (_ & Ht & _). destruct (C95_history h2 c Hc) as (_ & Ht2 & _).
    destruct (merge_fields a c p H) as (_ & _ & _ & _ & _ & _ & M1 & M2 & M3). cbn [batches].
    split; [|split].
    + intros l K. rewrite M1 in K. destruct (o_corr (opts a) && o_corr (opts c)); [|discriminate K].
      unfold merge_corr in K. destruct (filled a =? 0).
      { change l with ([] ++ l). apply so_app; [apply so_none | apply J1; exact K]. }
      destruct (filled c =? 0).
      { rewrite <- (app_nil_r l). apply so_app; [apply I1; exact K | apply so_none]. }
      destruct (corr a) as [x|]; [|discriminate K]. destruct (corr c) as [y|]; [|discriminate K].
      destruct (compat x y); inversion K; subst l.
      apply so_app; [apply I1 | apply J1]; reflexivity.
    + intros l K. rewrite M2 in K. destruct (o_chi2 (opts a) && o_chi2 (opts c)); [|discriminate K].
      unfold merge_chi2 in K. destruct (filled a =? 0).
      { change l with ([] ++ l). apply so_app; [apply so_none | apply J2; exact K]. }
      destruct (filled c =? 0).
      { rewrite <- (app_nil_r l). apply so_app; [apply I2; exact K | apply so_none]. }
      destruct (chi2 a); [|discriminate K]. destruct (chi2 c); [|discriminate K].
      inversion K; subst l. rewrite Ht, Ht2. apply so_refl.
    + intros l K. destruct (o_nrm (opts a) && o_nrm (opts c)); [|rewrite M3 in K; discriminate K].
      unfold merge_nrm in M3. destruct (existsb bnull (taken a ++ taken c)).
      * destruct (nrm a) as [x|]; [|discriminate M3]. destruct (nrm c) as [y|]; [|discriminate M3].
        inversion M3 as [M4]. rewrite <- M4 in K. inversion K; subst l.
        apply so_app; [apply I3 | apply J3]; reflexivity.
      * inversion M3 as [M4]. rewrite <- M4 in K. inversion K; subst l.
        rewrite Ht, Ht2. apply so_refl.
  - apply bind_Ok in H. destruct H as (a & Ha & H). inversion H; subst p.
    destruct (IH a Ha) as (I1 & I2 & I3). cbn.
    split; [intros l K; discriminate K|]. split; [exact I2 | intros l K; discriminate K].
Qed.

(** ** When a statistic is of all the rows *)

Hypothesis blank_le : forall b, bblank b <= brows b.

Lemma batches_pos h b : In b (batches h) -> brows b <> 0.
Proof.
  induction h as [o|h IH c|h1 IH1 h2 IH2|h IH]; cbn; intro H.
  - contradiction.
  - apply in_app_or in H. destruct H as [H|H]; [apply IH, H|].
    destruct (brows c =? 0) eqn:E; [contradiction H|].
    destruct H as [H|[]]. subst c. apply Nat.eqb_neq, E.
  - apply in_app_or in H. destruct H as [H|H]; [apply IH1, H | apply IH2, H].
  - apply IH, H.
Qed.

Lemma blank_run h p :
  run h = Ok p ->
  blank p = (if o_rows (opts p) && o_nulls (opts p) then total_blank (batches h) else 0).
Proof.
  revert p. induction h as [o|h IH b|h1 IH1 h2 IH2|h IH]; intros p H; cbn [MergeTableModel.run] in H.
  - inversion H; subst p; cbn. destruct (o_rows o && o_nulls o); reflexivity.
  - apply bind_Ok in H. destruct H as (a & Ha & H). specialize (IH a Ha). cbn [batches].
    destruct (update_cases a b p H) as [[E Hp]|(E & U1 & _ & U2 & _)].
    + subst p. rewrite E. cbn [Nat.eqb]. rewrite app_nil_r. exact IH.
    + apply Nat.eqb_neq in E. rewrite E, U1, U2, IH.
      destruct (o_rows (opts a) && o_nulls (opts a)); [|reflexivity].
      rewrite total_blank_app. cbn. lia.
  - apply bind_Ok in H. destruct H as (a & Ha & H). apply bind_Ok in H. destruct H as (c & Hc & H).
    specialize (IH1 a Ha). specialize (IH2 c Hc).
    destruct (merge_fields a c p H) as (A & M1 & _ & _ & M2 & _).
    destruct A as (_ & _ & _ & A1 & _ & A2 & _).
    cbn [batches]. rewrite M2, M1, IH1, IH2, <- A1, <- A2.
    destruct (o_rows (opts a)); cbn [andb]; [|reflexivity].
    destruct (o_nulls (opts a)); [|reflexivity]. rewrite total_blank_app. reflexivity.
  - apply bind_Ok in H. destruct H as (a & Ha & H). inversion H; subst p. cbn. apply IH, Ha.
Qed.

Lemma total_le l : total_blank l <= total l.
Proof. induction l as [|b r IH]; cbn; [lia|]. specialize (blank_le b). lia. Qed.

Lemma real_none l : total l - total_blank l = 0 -> filter real l = [].
Proof.
  induction l as [|b r IH]; cbn [filter total total_blank]; intro H; [reflexivity|].
  pose proof (total_le r) as Hr. pose proof (blank_le b) as Hb.
  destruct (real b) eqn:E; [unfold real in E; apply Nat.ltb_lt in E; lia|].
  apply IH. lia.
Qed.

Lemma filled_0 h p : run h = Ok p -> filled p = 0 -> filter real (batches h) = [].
Proof.
  intros H F. unfold filled in F.
  destruct (C95_history h p H) as (_ & _ & Hs). rewrite Hs, (blank_run h p H) in F.
  destruct (o_rows (opts p) && o_nulls (opts p)); [apply real_none, F|].
  rewrite Nat.sub_0_r in F.
  destruct (batches h) as [|b r] eqn:E; [reflexivity|].
  exfalso. apply (batches_pos h b); [rewrite E; left; reflexivity|]. cbn in F. lia.
Qed.

Lemma filled_pos h p : run h = Ok p -> filled p <> 0 -> batches h <> [].
Proof.
  intros H F E. apply F. unfold filled. destruct (C95_history h p H) as (_ & _ & Hs).
  rewrite Hs, E. reflexivity.
Qed.

Lemma cols_batches h p : run h = Ok p -> cols p <> [] -> batches h <> [].
Proof.
  revert p. induction h as [o|h IH b|h1 IH1 h2 IH2|h IH]; intros p H; cbn [MergeTableModel.run] in H.
  - inversion H; subst p; cbn. intro K. contradiction K. reflexivity.
  - apply bind_Ok in H. destruct H as (a & Ha & H). cbn [batches].
    destruct (update_cases a b p H) as [[E Hp]|(E & _)].
    + subst p. rewrite E. cbn [Nat.eqb]. rewrite app_nil_r. apply IH, Ha.
    + apply Nat.eqb_neq in E. rewrite E. intros _ K. apply app_eq_nil in K. destruct K as [_ K]. discriminate K.
  - apply bind_Ok in H. destruct H as (a & Ha & H). apply bind_Ok in H. destruct H as (c & Hc & H).
    destruct (merge_fields a c p H) as (_ & _ & M & _). rewrite M. intros K E. cbn [batches] in E.
    apply app_eq_nil in E. destruct E as [E _]. exact (IH1 a Ha K E).
  - apply bind_Ok in H. destruct H as (a & Ha & H). inversion H; subst p. cbn. apply IH, Ha.
Qed.

(** If the tests are on in all profiles, then the matrix of chi-squared tests
    exists as soon as there are rows and is of all batches, except perhaps
    batches that are null in every cell; saving and loading does no harm. *)
Theorem C95_chi2 h p :
  run h = Ok p -> everywhere o_chi2 h -> batches h <> [] ->
  exists l, chi2 p = Some l /\ filter real l = filter real (batches h).
Proof.
  revert p. induction h as [o|h IH b|h1 IH1 h2 IH2|h IH]; intros p H Ev Hn; cbn [MergeTableModel.run] in H.
  - contradiction Hn. reflexivity.
  - apply bind_Ok in H. destruct H as (a & Ha & H). cbn [batches everywhere] in *.
    destruct (C95_history h a Ha) as (Ho & Ht & _).
    destruct (update_cases a b p H) as [[E Hp]|(E & _ & _ & _ & _ & _ & U & _)].
    + subst p. rewrite E in *. cbn [Nat.eqb] in *. rewrite app_nil_r in *. apply IH; assumption.
    + apply Nat.eqb_neq in E. rewrite E. rewrite U, Ho, Ht.
      assert (Hf : o_chi2 (first h) = true).
      { clear - Ev. induction h; cbn in *; try (destruct Ev); auto. }
      rewrite Hf. eexists. split; reflexivity.
  - apply bind_Ok in H. destruct H as (a & Ha & H). apply bind_Ok in H. destruct H as (c & Hc & H).
    cbn [batches everywhere] in *. destruct Ev as [Ev1 Ev2].
    destruct (C95_history h1 a Ha) as (Ho & Ht & _). destruct (C95_history h2 c Hc) as (Ho2 & Ht2 & _).
    destruct (merge_fields a c p H) as (A & _ & _ & _ & _ & _ & _ & M & _).
    destruct A as (A1 & A2 & _).
    assert (F : forall h, everywhere o_chi2 h -> o_chi2 (first h) = true).
    { clear. intros h Ev. induction h; cbn in *; try (destruct Ev); auto. }
    rewrite Ho, Ho2, (F h1 Ev1), (F h2 Ev2) in M. cbn [andb] in M.
    destruct (IH1 a Ha Ev1 (cols_batches h1 a Ha A1)) as (x & Hx & Fx).
    destruct (IH2 c Hc Ev2 (cols_batches h2 c Hc A2)) as (y & Hy & Fy).
    rewrite M. unfold merge_chi2. rewrite Hx, Hy.
    destruct (filled a =? 0) eqn:E1.
    + apply Nat.eqb_eq in E1. exists y. split; [reflexivity|].
      rewrite filter_app, (filled_0 h1 a Ha E1). exact Fy.
    + destruct (filled c =? 0) eqn:E2.
      * apply Nat.eqb_eq in E2. exists x. split; [reflexivity|].
        rewrite filter_app, (filled_0 h2 c Hc E2), app_nil_r. exact Fx.
      * eexists. split; [reflexivity|]. rewrite Ht, Ht2. reflexivity.
  - apply bind_Ok in H. destruct H as (a & Ha & H). inversion H; subst p. cbn in *. apply IH; assumption.
Qed.

(** If correlations are on in all profiles, no profile was saved and loaded, and
    the matrices of the batches exist and have the same columns, then the matrix
    is of all batches, except perhaps batches that are null in every cell. *)
Theorem C95_corr h p :
  (forall past b, bcorr past b = true) -> (forall a b, compat a b = true) ->
  run h = Ok p -> everywhere o_corr h -> never_reloaded h -> batches h <> [] ->
  exists l, corr p = Some l /\ filter real l = filter real (batches h).
Proof.
  intros Hb Hc'. revert p.
  induction h as [o|h IH b|h1 IH1 h2 IH2|h IH]; intros p H Ev Nr Hn; cbn [MergeTableModel.run] in H.
  - contradiction Hn. reflexivity.
  - apply bind_Ok in H. destruct H as (a & Ha & H). cbn [batches everywhere never_reloaded] in *.
    destruct (C95_history h a Ha) as (Ho & Ht & _).
    destruct (update_cases a b p H) as [[E Hp]|(E & _ & _ & _ & _ & U & _)].
    + subst p. rewrite E in *. cbn [Nat.eqb] in *. rewrite app_nil_r in *. apply IH; assumption.
    + apply Nat.eqb_neq in E. rewrite E. rewrite U, Ho.
      assert (Hf : o_corr (first h) = true).
      { clear - Ev. induction h; cbn in *; try (destruct Ev); auto. }
      rewrite Hf. unfold upd_corr. rewrite Hb.
      destruct (batches h) as [|b0 r0] eqn:Eb.
      * destruct (corr a) as [l|] eqn:Ec.
        -- pose proof (proj1 (C95_sound h a Ha) l Ec) as S. rewrite Eb in S. inversion S; subst l.
           eexists. split; reflexivity.
        -- eexists. split; reflexivity.
      * assert (Hne : b0 :: r0 <> []) by (intro K; discriminate K).
        destruct (IH a Ha Ev Nr Hne) as (l & Hl & Fl). rewrite Hl.
        eexists. split; [reflexivity|]. rewrite !filter_app, Fl. reflexivity.
  - apply bind_Ok in H. destruct H as (a & Ha & H). apply bind_Ok in H. destruct H as (c & Hc & H).
    cbn [batches everywhere never_reloaded] in *. destruct Ev as [Ev1 Ev2]. destruct Nr as [Nr1 Nr2].
    destruct (C95_history h1 a Ha) as (Ho & Ht & _). destruct (C95_history h2 c Hc) as (Ho2 & Ht2 & _).
    destruct (merge_fields a c p H) as (A & _ & _ & _ & _ & _ & M & _).
    destruct A as (A1 & A2 & _).
    assert (F : forall h, everywhere o_corr h -> o_corr (first h) = true).
    { clear. intros h Ev. induction h; cbn in *; try (destruct Ev); auto. }
    rewrite Ho, Ho2, (F h1 Ev1), (F h2 Ev2) in M. cbn [andb] in M.
    destruct (IH1 a Ha Ev1 Nr1 (cols_batches h1 a Ha A1)) as (x & Hx & Fx).
    destruct (IH2 c Hc Ev2 Nr2 (cols_batches h2 c Hc A2)) as (y & Hy & Fy).
    rewrite M. unfold merge_corr. rewrite Hx, Hy, Hc'.
    destruct (filled a =? 0) eqn:E1.
    + apply Nat.eqb_eq in E1. exists y. split; [reflexivity|].
      rewrite filter_app, (filled_0 h1 a Ha E1). exact Fy.
    + destruct (filled c =? 0) eqn:E2.
      * apply Nat.eqb_eq in E2. exists x. split; [reflexivity|].
        rewrite filter_app, (filled_0 h2 c Hc E2), app_nil_r. exact Fx.
      * eexists. split; [reflexivity|]. rewrite !filter_app, Fx, Fy. reflexivity.
  - contradiction Nr.
Qed.

(** If null replication metrics are on in all profiles and no profile was saved
    and loaded, they are of all batches, the report can be made, and merging
    never fails for missing metrics. *)
Theorem C95_metrics h p :
  run h = Ok p -> everywhere o_nrm h -> never_reloaded h -> batches h <> [] ->
  nrm p = Some (batches h)
  /\ (exists r, report p = Ok r /\ r_nrm r = Some (batches h) /\ r_columns_of r = batches h).
Proof.
  intros H Ev Nr Hn.
  assert (F : forall h, everywhere o_nrm h -> o_nrm (first h) = true).
  { clear. intros h Ev. induction h; cbn in *; try (destruct Ev); auto. }
  assert (G : nrm p = Some (batches h)).
  { revert p H Ev Nr Hn.
    induction h as [o|h IH b|h1 IH1 h2 IH2|h IH]; intros p H Ev Nr Hn; cbn [MergeTableModel.run] in H.
    - contradiction Hn. reflexivity.
    - apply bind_Ok in H. destruct H as (a & Ha & H). cbn [batches everywhere never_reloaded] in *.
      destruct (C95_history h a Ha) as (Ho & Ht & _).
      destruct (update_cases a b p H) as [[E Hp]|(E & _ & _ & _ & _ & _ & _ & U)].
      + subst p. rewrite E in *. cbn [Nat.eqb] in *. rewrite app_nil_r in *. apply IH; assumption.
      + apply Nat.eqb_neq in E. rewrite E. rewrite U, Ho, (F h Ev). unfold upd_nrm.
        destruct (batches h) as [|b0 r0] eqn:Eb.
        * destruct (nrm a) as [l|] eqn:Ec; [|reflexivity].
          pose proof (proj2 (proj2 (C95_sound h a Ha)) l Ec) as S. rewrite Eb in S. inversion S; subst l.
          reflexivity.
        * assert (Hne : b0 :: r0 <> []) by (intro K; discriminate K).
          rewrite (IH a Ha Ev Nr Hne). reflexivity.
    - apply bind_Ok in H. destruct H as (a & Ha & H). apply bind_Ok in H. destruct H as (c & Hc & H).
      cbn [batches everywhere never_reloaded] in *. destruct Ev as [Ev1 Ev2]. destruct Nr as [Nr1 Nr2].
      destruct (C95_history h1 a Ha) as (Ho & Ht & _). destruct (C95_history h2 c Hc) as (Ho2 & Ht2 & _).
      destruct (merge_fields a c p H) as (A & _ & _ & _ & _ & _ & _ & _ & M).
      destruct A as (A1 & A2 & _).
      rewrite Ho, Ho2, (F h1 Ev1), (F h2 Ev2) in M. cbn [andb] in M.
      unfold merge_nrm in M.
      rewrite (IH1 a Ha Ev1 Nr1 (cols_batches h1 a Ha A1)), (IH2 c Hc Ev2 Nr2 (cols_batches h2 c Hc A2)) in M.
      destruct (existsb bnull (taken a ++ taken c)); inversion M as [M']; [reflexivity|].
      rewrite Ht, Ht2. reflexivity.
    - contradiction Nr. }
  split; [exact G|].
  destruct (C95_history h p H) as (Ho & Ht & _).
  unfold report. rewrite G, Ho, (F h Ev), andb_false_r. eexists. cbn.
  split; [reflexivity|]. split; [reflexivity | exact Ht].
Qed.

Theorem C95_metrics_merge h1 h2 p q :
  run h1 = Ok p -> run h2 = Ok q ->
  everywhere o_nrm h1 -> everywhere o_nrm h2 -> never_reloaded h1 -> never_reloaded h2 ->
  merge p q <> Err TypeError.
Proof.
  intros H1 H2 E1 E2 N1 N2 H. destruct (C95_errors p q TypeError H) as [[K _]|(_ & A & M)]; [discriminate K|].
  destruct A as (A1 & A2 & _). destruct M as (_ & _ & _ & M).
  rewrite (proj1 (C95_metrics h1 p H1 E1 N1 (cols_batches h1 p H1 A1))) in M.
  rewrite (proj1 (C95_metrics h2 q H2 E2 N2 (cols_batches h2 q H2 A2))) in M.
  destruct M as [M|M]; discriminate M.
Qed.

(** ** Reports *)

Lemma nrm_lost h p : run h = Ok p -> o_nrm (first h) = true -> (nrm p = None <-> lost h).
Proof.
  revert p. induction h as [o|h IH b|h1 IH1 h2 IH2|h IH]; intros p H Hf; cbn [MergeTableModel.run] in H.
  - inversion H; subst p; cbn. split; intros _; [exact I | reflexivity].
  - apply bind_Ok in H. destruct H as (a & Ha & H). cbn [first lost] in *.
    destruct (C95_history h a Ha) as (Ho & _).
    destruct (update_cases a b p H) as [[E Hp]|(E & _ & _ & _ & _ & _ & _ & U)].
    + subst p. rewrite (IH a Ha Hf). split; [intro K; split; assumption | intros [_ K]; exact K].
    + rewrite U, Ho, Hf. unfold upd_nrm. split.
      * destruct (nrm a); intro K; discriminate K.
      * intros [K _]. contradiction.
  - apply bind_Ok in H. destruct H as (a & Ha & H). apply bind_Ok in H. destruct H as (c & Hc & H).
    cbn [first lost] in *.
    destruct (C95_history h1 a Ha) as (Ho & _). destruct (C95_history h2 c Hc) as (Ho2 & _).
    destruct (merge_fields a c p H) as (_ & _ & _ & _ & _ & _ & _ & _ & M).
    rewrite Ho, Ho2, Hf in M. cbn [andb] in M. destruct (o_nrm (first h2)) eqn:E2.
    + split.
      * intro K. exfalso. unfold merge_nrm in M. destruct (existsb bnull (taken a ++ taken c)).
        -- destruct (nrm a); [|discriminate M]. destruct (nrm c); [|discriminate M].
           inversion M as [M']. rewrite <- M' in K. discriminate K.
        -- inversion M as [M']. rewrite <- M' in K. discriminate K.
      * intros [K|K]; [rewrite Hf in K; discriminate K | discriminate K].
    + split; intros _; [right; reflexivity | exact M].
  - apply bind_Ok in H. destruct H as (a & Ha & H). inversion H; subst p. cbn.
    split; intros _; [exact I | reflexivity].
Qed.

(** The report of a table with columns fails exactly if null replication metrics
    are on for the leftmost profile and were lost since the last rows. *)
Theorem C95_report h p :
  run h = Ok p ->
  (report p = Err TypeError <-> o_nrm (first h) = true /\ cols p <> [] /\ lost h)
  /\ (forall e, report p = Err e -> e = TypeError)
  /\ (forall r, report p = Ok r ->
        r_rows r = total (batches h) /\ r_cols r = cols p /\ r_columns_of r = batches h
        /\ r_corr r = corr p /\ r_chi2 r = chi2 p
        /\ (o_nrm (first h) = true -> r_nrm r = nrm p)
        /\ (o_nrm (first h) = false -> r_nrm r = None)).
Proof.
  intro H. destruct (C95_history h p H) as (Ho & Ht & Hs).
  unfold report. rewrite Ho. split; [|split].
  - destruct (o_nrm (first h)) eqn:E; cbn [andb].
    + rewrite <- (nrm_lost h p H E). destruct (cols p); cbn [andb].
      * split; [intro K; discriminate K | intros (_ & K & _); contradiction K; reflexivity].
      * destruct (nrm p).
        -- split; [intro K; discriminate K | intros (_ & _ & K); discriminate K].
        -- split; [intros _ | intros _; reflexivity].
           split; [reflexivity|]. split; [intro K; discriminate K | reflexivity].
    + split; [intro K; discriminate K | intros [K _]; discriminate K].
  - intros e K.
    destruct (o_nrm (first h) && match cols p with [] => false | _ => true end
              && match nrm p with None => true | Some _ => false end); inversion K; reflexivity.
  - intros r K.
    destruct (o_nrm (first h) && match cols p with [] => false | _ => true end
              && match nrm p with None => true | Some _ => false end); inversion K; subst r; cbn.
    split; [exact Hs|]. split; [reflexivity|]. split; [exact Ht|].
    split; [reflexivity|]. split; [reflexivity|].
    split; intro E; rewrite E; reflexivity.
Qed.

(** After a matrix or metrics are lost, rows profiled later begin anew: the
    statistics are of the last batch alone, beside columns of all batches. *)
Theorem C95_restart p b r :
  update p b = Ok r -> brows b <> 0 ->
  taken r = taken p ++ [b]
  /\ (o_corr (opts p) = true -> corr p = None -> bcorr (taken p) b = true -> corr r = Some [b])
  /\ (o_nrm (opts p) = true -> nrm p = None -> nrm r = Some [b])
  /\ (o_chi2 (opts p) = true -> chi2 r = Some (taken p ++ [b])).
Proof.
  intros H Hb. destruct (update_cases p b r H) as [[E _]|(_ & _ & _ & _ & U1 & U2 & U3 & U4)]; [contradiction|].
  split; [exact U1|].
  split; [intros E1 E2 E3; rewrite U2, E1, E2; unfold upd_corr; rewrite E3; reflexivity|].
  split; [intros E1 E2; rewrite U4, E1, E2; reflexivity|].
  intro E1. rewrite U3, E1. reflexivity.
Qed.

End Tables.

(** ** Examples and refuted expectations: batches are pairs of an identity and
    whether there is a null cell, each of three rows with columns a and b *)
Definition ex_batch := (nat * bool)%type.
Definition ex_cols : list string := ["a"%string; "b"%string].
Definition ex_run (h : hist ex_batch) : result (prof ex_batch) :=
  run ex_batch (fun _ => 3) (fun _ => 0) snd (fun _ => ex_cols) same_set
    (fun _ _ => true) (fun _ _ => true) h.
Definition ex_opts (c x n : bool) : topts :=
  mkTopts true true true HFull 0 0 c x n ["data_type_profile"%string; "data_stats_profile"%string].

(** A table with null replication metrics can be merged with one without, but
    the report of the result fails; in the other order it does not. *)
Theorem C95_order_refuted :
  ~ (forall h1 h2 : hist ex_batch, forall p q,
       ex_run (HAdd h1 h2) = Ok p -> ex_run (HAdd h2 h1) = Ok q ->
       ((exists r, report p = Ok r) <-> (exists r, report q = Ok r))).
Proof.
  intro H.
  pose (h1 := HUpd (HNew (ex_opts false false true)) (1, true)).
  pose (h2 := HUpd (HNew (ex_opts false false false)) (2, true)).
  destruct (ex_run (HAdd h1 h2)) as [p|e] eqn:E1; [|vm_compute in E1; discriminate E1].
  destruct (ex_run (HAdd h2 h1)) as [q|e] eqn:E2; [|vm_compute in E2; discriminate E2].
  specialize (H h1 h2 p q E1 E2). vm_compute in E1, E2.
  inversion E1; subst p. inversion E2; subst q.
  destruct H as [_ H]. destruct H as [r Hr]; [eexists; reflexivity|].
  vm_compute in Hr. discriminate Hr.
Qed.

(** Saving and loading a profile does not change with what it can be merged:
    with null replication metrics it does. *)
Theorem C95_reload_refuted :
  ~ (forall h1 h2 : hist ex_batch,
       (exists p, ex_run (HAdd h1 h2) = Ok p) -> exists p, ex_run (HAdd (HReload h1) h2) = Ok p).
Proof.
  intro H.
  destruct (H (HUpd (HNew (ex_opts false false true)) (1, true))
              (HUpd (HNew (ex_opts false false true)) (2, true))) as [p Hp].
  - eexists. vm_compute. reflexivity.
  - vm_compute in Hp. discriminate Hp.
Qed.

(** The correlations and the metrics that a report shows are of the rows it
    counts: not after a merge with a table without them and an update. *)
Theorem C95_covers_refuted :
  ~ (forall (h : hist ex_batch) p r l,
       ex_run h = Ok p -> report p = Ok r -> r_corr r = Some l -> l = r_columns_of r)
  /\ ~ (forall (h : hist ex_batch) p r l,
       ex_run h = Ok p -> report p = Ok r -> r_nrm r = Some l -> l = r_columns_of r).
Proof.
  split; intro H.
  - pose (h := HUpd (HAdd (HUpd (HNew (ex_opts true false false)) (1, true))
                          (HUpd (HNew (ex_opts false false false)) (2, true))) (3, false)).
    destruct (ex_run h) as [p|e] eqn:E1; [|vm_compute in E1; discriminate E1].
    destruct (report p) as [r|e] eqn:E2; [|vm_compute in E1; inversion E1; subst p; vm_compute in E2; discriminate E2].
    specialize (H h p r [(3, false)] E1 E2).
    vm_compute in E1. inversion E1; subst p. vm_compute in E2. inversion E2; subst r.
    specialize (H eq_refl). vm_compute in H. discriminate H.
  - pose (h := HUpd (HAdd (HUpd (HNew (ex_opts false false true)) (1, true))
                          (HUpd (HNew (ex_opts false false false)) (2, true))) (3, false)).
    destruct (ex_run h) as [p|e] eqn:E1; [|vm_compute in E1; discriminate E1].
    destruct (report p) as [r|e] eqn:E2; [|vm_compute in E1; inversion E1; subst p; vm_compute in E2; discriminate E2].
    specialize (H h p r [(3, false)] E1 E2).
    vm_compute in E1. inversion E1; subst p. vm_compute in E2. inversion E2; subst r.
    specialize (H eq_refl). vm_compute in H. discriminate H.
Qed.

(** The theorems are not vacuous: two tables with all statistics merged and
    updated; and merges that are refused. *)
Example C95_example :
  (exists p r, ex_run (HUpd (HAdd (HUpd (HNew (ex_opts true true true)) (1, true))
                          (HUpd (HUpd (HNew (ex_opts true true true)) (2, true)) (3, true))) (4, false)) = Ok p
     /\ report p = Ok r /\ r_rows r = 12
     /\ r_corr r = Some [(1, true); (2, true); (3, true); (4, false)]
     /\ r_chi2 r = r_corr r /\ r_nrm r = r_corr r)
  /\ ex_run (HAdd (HNew (ex_opts true true true)) (HUpd (HNew (ex_opts true true true)) (1, true)))
     = Err ValueError
  /\ ex_run (HAdd (HUpd (HNew (mkTopts true true true HHll 0 15 false false false [])) (1, true))
                  (HUpd (HNew (mkTopts true true true HHll 1 15 false false false [])) (1, true)))
     = Err ValueError
  /\ (exists p, ex_run (HAdd (HUpd (HNew (mkTopts true true true HFull 0 15 false false false [])) (1, true))
                  (HUpd (HNew (mkTopts true true true HFull 1 15 false false false [])) (1, true)))
     = Ok p).
Proof.
  split; [|split; [vm_compute; reflexivity | split; [vm_compute; reflexivity | eexists; vm_compute; reflexivity]]].
  eexists. eexists. split; [vm_compute; reflexivity|]. split; [vm_compute; reflexivity|].
  repeat split; reflexivity.
Qed.
