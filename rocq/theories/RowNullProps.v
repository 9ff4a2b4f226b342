(** Properties of rows with nulls (C63). *)
From Coq Require Import QArith Lia Permutation.
From Verif Require Import PyCommon ListFacts PyDict NullModel NullProofs NullProofs2 RowNullModel RowProofs RowNullProofs RowNullProofs2.
Local Open Scope nat_scope.

Section Props.
  (** Cells are any type; the null pattern is any predicate; the order of a Python set is any
      permutation. *)
  Context {C : Type} {EC : EqDecB C}.
  Variable is_null : C -> bool.
  Variable order : list label -> list label.
  Hypothesis order_perm : forall l, Permutation (order l) l.
  Variable dflt : C.

  (** A row with a null in some cell, in every cell. *)
  Notation has_null := (fun r : label * list C => existsb is_null (snd r)).
  Notation is_all_null := (fun r : label * list C => forallb is_null (snd r)).
  Definition share (n d : nat) : Q := if d =? 0 then 0%Q else (inject_Z (Z.of_nat n) / inject_Z (Z.of_nat d))%Q.

  (** C63. Without a minimum of true samples: over any history of updates and merges, the profile counts
      exactly the examined rows with a null and the examined rows of nulls only; the ratios are
      relative to the examined rows.  Labels may repeat from batch to batch. *)
  Theorem C63_rows_with_nulls : forall (m : nat) (h : hist C) p, 0 < m -> run is_null order dflt h = Ok p ->
    Forall (fun f => frame_ok f /\ one_piece f /\ f_width f = m) (frames h) ->
    let rows := concat (map sampled (frames h)) in
    p_has p = length (filter has_null rows) /\ p_is p = length (filter is_all_null rows) /\
    min_samples_used p = length rows /\
    (has_null_ratio p == share (length (filter has_null rows)) (length rows))%Q /\
    (is_null_ratio p == share (length (filter is_all_null rows)) (length rows))%Q.
  Proof.
    intros m h p Hm H F rows. destruct (run_table is_null order order_perm dflt m Hm h p H F) as [[En ->]|[T [TI [Em [Eh Ei]]]]].
    - unfold rows. rewrite En. cbn. repeat split; reflexivity.
    - fold rows in Em.
      assert (L : length T = length rows) by (rewrite <- (map_length snd T), Em, map_length; reflexivity).
      assert (E1 : p_has p = length (filter has_null rows)).
      { rewrite Eh. apply (count_snd (some_null is_null) (existsb is_null)); [reflexivity|exact Em]. }
      assert (E2 : p_is p = length (filter is_all_null rows)).
      { rewrite Ei. apply (count_snd (all_null is_null) (forallb is_null)); [reflexivity|exact Em]. }
      pose proof (tinv_samples is_null dflt m p T Hm TI) as Es. rewrite L in Es.
      split; [exact E1|]. split; [exact E2|]. split; [exact Es|].
      unfold has_null_ratio, is_null_ratio, share. rewrite Es, E1, E2. split; reflexivity.
  Qed.

  (** C63. With a minimum of true samples, and rows labelled from 0 in each batch: the profile counts
      the rows with nulls among those that every column examined, batch by batch. *)
  Theorem C63_rows_with_nulls_min_true : forall (m : nat) (h : hist C) p, 0 < m -> run is_null order dflt h = Ok p ->
    Forall (fun f => frame_ok f /\ with_min f /\ f_width f = m) (frames h) ->
    exists Rs, Forall2 (counted is_null dflt) (frames h) Rs /\
      p_has p = length (filter has_null (concat Rs)) /\ p_is p = length (filter is_all_null (concat Rs)).
  Proof.
    intros m h p Hm H F. destruct (run_counted is_null order order_perm dflt m Hm h p H F) as [_ G]. exact G.
  Qed.

  (** The rows counted for a batch are determined. *)
  Theorem C63_counted_rows_unique : forall (f : frame C) R1 R2, counted is_null dflt f R1 -> counted is_null dflt f R2 -> R1 = R2.
  Proof.
    intros f R1 R2 [K1 [E1 [A1 [j1 [x1 [W1 [X1 L1]]]]]]] [K2 [E2 [A2 [j2 [x2 [W2 [X2 L2]]]]]]].
    pose proof (A1 j2 x2 W2 X2). pose proof (A2 j1 x1 W1 X1). assert (K1 = K2) by lia. subst K2. congruence.
  Qed.

  (** C63. In both modes: rows of nulls only are rows with a null. *)
  Theorem C63_all_null_at_most_some_null : forall (m : nat) (h : hist C) p, 0 < m -> run is_null order dflt h = Ok p ->
    Forall (fun f => frame_ok f /\ f_width f = m) (frames h) ->
    Forall one_piece (frames h) \/ Forall with_min (frames h) -> p_is p <= p_has p.
  Proof.
    intros m h p Hm H F M.
    assert (Le : forall rows : list (label * list C), Forall (fun r => length (snd r) = m) rows ->
              length (filter is_all_null rows) <= length (filter has_null rows)).
    { induction rows as [|[l r] rows IH]; intro Fr; cbn [filter]; [lia|]. inversion Fr as [|? ? W Fr']; subst. specialize (IH Fr').
      cbn [snd] in *. destruct r as [|c r]; [cbn in Hm; lia|]. cbn. destruct (is_null c); cbn; [|destruct (existsb is_null r); cbn; lia].
      destruct (forallb is_null r); cbn; lia. }
    assert (Ws : forall fs, Forall (fun f : frame C => frame_ok f /\ f_width f = m) fs ->
              Forall (fun r => length (snd r) = m) (concat (map sampled fs))).
    { intros fs Fs. apply Forall_concat. apply Forall_map. apply Forall_forall. intros f I. rewrite Forall_forall in Fs.
      destruct (Fs f I) as [Hf <-]. apply sampled_width. exact Hf. }
    destruct M as [M|M].
    - assert (F' : Forall (fun f => frame_ok f /\ one_piece f /\ f_width f = m) (frames h)).
      { rewrite Forall_forall in *. intros f I. destruct (F f I). auto. }
      destruct (C63_rows_with_nulls m h p Hm H F') as [-> [-> _]]. apply Le. apply Ws. exact F.
    - assert (F' : Forall (fun f => frame_ok f /\ with_min f /\ f_width f = m) (frames h)).
      { rewrite Forall_forall in *. intros f I. destruct (F f I). auto. }
      destruct (C63_rows_with_nulls_min_true m h p Hm H F') as [Rs [FR [-> ->]]]. apply Le.
      specialize (Ws _ F). clear - FR Ws. revert Ws. induction FR as [|f R fs Rs [K [-> _]] FR IH]; intro Ws; cbn in *; [constructor|].
      apply Forall_app in Ws. destruct Ws as [W1 W2]. apply Forall_app. split; [|auto].
      rewrite Forall_forall in *. intros r I. apply W1. eapply In_firstn. exact I.
  Qed.
End Props.

(** *** Examples and findings: cells are numbers, 0 is null *)
Notation wnull := (fun c : nat => c =? 0).
Notation wrun := (run wnull (fun l => l) 0).

Definition rows_at (z : Z) (cells : list (list nat)) : list (label * list nat) :=
  combine (map (fun i => LI (z + Z.of_nat i)) (seq 0 (length cells))) cells.

(** A batch of which all rows are examined. *)
Definition all_rows (mt : nat) (z : Z) (cells : list (list nat)) : frame nat :=
  mkFrame 2 (rows_at z cells) (length cells) mt [seq 0 (length cells)].

Definition counts (h : hist nat) : option (nat * nat * Q * Q) :=
  match wrun h with Ok p => Some (p_has p, p_is p, has_null_ratio p, is_null_ratio p) | Err _ => None end.

Example C63_example :
  counts (HAdd (HUpd (HUpd HNew (all_rows 0 0 [[0; 1]; [0; 0]; [2; 3]])) (all_rows 0 0 [[1; 0]; [5; 6]]))
               (HUpd HNew (all_rows 0 0 [[0; 0]; [4; 4]])))
  = Some (4, 2, (4 # 7)%Q, (2 # 7)%Q).
Proof. vm_compute. reflexivity. Qed.

Example C63_min_true_example :
  counts (HAdd (HUpd (HUpd HNew (all_rows 1 0 [[0; 1]; [0; 0]; [2; 3]])) (all_rows 1 0 [[1; 0]; [5; 6]]))
               (HUpd HNew (all_rows 1 0 [[0; 0]; [4; 4]])))
  = Some (4, 2, (4 # 7)%Q, (2 # 7)%Q).
Proof. vm_compute. reflexivity. Qed.

Lemma map_fst_combine {X Y} : forall (l : list X) (l' : list Y), length l = length l' -> map fst (combine l l') = l.
Proof. induction l as [|x l IH]; intros [|y l'] E; cbn in *; try discriminate; [reflexivity|]. f_equal. apply IH. lia. Qed.

Lemma all_rows_ok mt z cells : (0 <= z)%Z -> Forall (fun r => length r = 2) cells -> frame_ok (all_rows mt z cells).
Proof.
  intros Hz F. unfold frame_ok, all_rows. cbn [f_width f_rows f_chunks].
  assert (Lc : length (rows_at z cells) = length cells) by (unfold rows_at; rewrite combine_length, map_length, seq_length; lia).
  assert (Ef : map fst (rows_at z cells) = map (fun i => LI (z + Z.of_nat i)) (seq 0 (length cells))).
  { unfold rows_at. apply map_fst_combine. rewrite map_length, seq_length. reflexivity. }
  split; [lia|]. split.
  - apply Forall_forall. intros [l r] I. apply in_combine_r in I. rewrite Forall_forall in F. apply F. exact I.
  - split.
    + rewrite Ef. apply NoDup_map_inj; [intros x y _ _ E; injection E; lia|apply seq_NoDup].
    + split.
      * intros r I. apply (in_map fst) in I. rewrite Ef in I. apply in_map_iff in I. destruct I as [i [E _]].
        exists (z + Z.of_nat i)%Z. split; [auto|lia].
      * unfold valid_chunks. cbn. rewrite app_nil_r, Lc. split; [apply seq_NoDup|]. apply Forall_forall. intros i I.
        apply in_seq in I. lia.
Qed.

Definition stale_hist : hist nat :=
  HUpd (HUpd (HUpd HNew (all_rows 1 0 [[1; 1]; [2; 2]])) (all_rows 1 0 [[1; 1]; [2; 2]])) (all_rows 1 10 [[0; 1]; [2; 2]]).
Definition result_of (h : hist nat) : prof nat := match wrun h with Ok p => p | Err _ => new_prof end.
Definition stale_prof : prof nat := Eval vm_compute in result_of stale_hist.
Lemma stale_run : wrun stale_hist = Ok stale_prof.
Proof. vm_compute. reflexivity. Qed.

(** C63 (finding). With a minimum of true samples, the shift of row labels set by an overlapping batch
    is kept for a later batch that does not overlap: the nulls of that batch are looked up at
    the wrong labels, and its rows are not counted. *)
Theorem C63_any_labels_refuted :
  ~ forall (h : hist nat) p, wrun h = Ok p ->
      Forall (fun f => frame_ok f /\ f_min_true f <> 0 /\ sampled f = f_rows f /\ length (f_chunks f) = 1) (frames h) ->
      p_has p = length (filter (fun r => existsb wnull (snd r)) (concat (map f_rows (frames h)))).
Proof.
  intro H. specialize (H stale_hist stale_prof stale_run).
  assert (F : Forall (fun f => frame_ok f /\ f_min_true f <> 0 /\ sampled f = f_rows f /\ length (f_chunks f) = 1) (frames stale_hist)).
  { repeat (constructor; [split; [apply all_rows_ok; [lia|repeat constructor]|repeat split; discriminate]|]). constructor. }
  specialize (H F). clear F. vm_compute in H. discriminate.
Qed.

(** C63 (finding). With a minimum of true samples, the denominator of the ratios is the smallest number
    of rows examined for a column over all batches, which can exceed the number of rows for which
    nulls were counted: every counted row has a null, and the ratio is 2/3. *)
Definition two_chunks (cells : list (list nat)) : frame nat := mkFrame 2 (rows_at 0 cells) 1 1 [[0]; [1]].
Definition skewed1 := two_chunks [[0; 5]; [5; 5]].
Definition skewed2 := two_chunks [[5; 0]; [5; 5]].

Definition skewed_hist : hist nat := HUpd (HUpd HNew skewed1) skewed2.
Definition skewed_prof : prof nat := Eval vm_compute in result_of skewed_hist.
Lemma skewed_run : wrun skewed_hist = Ok skewed_prof.
Proof. vm_compute. reflexivity. Qed.

Lemma two_chunks_ok r0 r1 : length r0 = 2 -> length r1 = 2 -> frame_ok (two_chunks [r0; r1]).
Proof.
  intros L0 L1. split; [cbn; lia|]. split; [repeat constructor; assumption|]. split; [cbn; repeat constructor; cbn; intuition congruence|].
  split; [intros r [<-|[<-|[]]]; cbn; eexists; (split; [reflexivity|lia])|].
  split; cbn; repeat constructor; cbn; intuition lia.
Qed.

Lemma examined_first r0 r1 j : nth j r0 0 <> 0 ->
  examined wnull (column 0 (two_chunks [r0; r1]) j) [(LI 0, nth j r0 0)].
Proof.
  intro N. exists 1. cbn. split; [lia|]. split; [reflexivity|]. split; [intros; lia|]. right. split; [lia|].
  unfold enough. cbn. destruct (Nat.eqb_spec (nth j r0 0) 0); [contradiction|]. cbn. lia.
Qed.

Lemma examined_both r0 r1 j : nth j r0 0 = 0 ->
  examined wnull (column 0 (two_chunks [r0; r1]) j) [(LI 0, nth j r0 0); (LI 1, nth j r1 0)].
Proof.
  intro N. exists 2. cbn. split; [lia|]. split; [reflexivity|]. split; [|left; reflexivity]. intros k' Hk.
  assert (k' = 1) by lia. subst k'. cbn. unfold enough. cbn. rewrite N. cbn. lia.
Qed.

Lemma counted_first r0 r1 : (nth 0 r0 0 <> 0 \/ nth 1 r0 0 <> 0) -> counted wnull 0 (two_chunks [r0; r1]) [(LI 0, r0)].
Proof.
  intro N. exists 1. split; [reflexivity|]. split.
  - intros j ex _ Ex. destruct (Nat.eq_dec (nth j r0 0) 0) as [E|E].
    + rewrite (examined_det wnull _ _ _ Ex (examined_both r0 r1 j E)). cbn. lia.
    + rewrite (examined_det wnull _ _ _ Ex (examined_first r0 r1 j E)). cbn. lia.
  - destruct N as [N|N]; [exists 0|exists 1]; eexists; (split; [cbn; lia|]); (split; [apply examined_first; exact N|reflexivity]).
Qed.

Theorem C63_ratio_of_counted_rows_refuted :
  ~ forall (h : hist nat) p Rs, wrun h = Ok p -> Forall (fun f => frame_ok f /\ with_min f) (frames h) ->
      Forall2 (counted wnull 0) (frames h) Rs ->
      (has_null_ratio p == share (length (filter (fun r => existsb wnull (snd r)) (concat Rs))) (length (concat Rs)))%Q.
Proof.
  intro H. specialize (H skewed_hist skewed_prof [[(LI 0, [0; 5])]; [(LI 0, [5; 0])]] skewed_run).
  match type of H with ?A -> ?B -> _ => assert (HA : A); [|assert (HB : B); [|specialize (H HA HB); vm_compute in H; discriminate]] end.
  - repeat (constructor; [split; [apply two_chunks_ok; reflexivity|split; [discriminate|cbn; auto]]|]). constructor.
  - constructor; [apply counted_first; right; discriminate|]. constructor; [apply counted_first; left; discriminate|constructor].
Qed.

Print Assumptions C63_rows_with_nulls.
Print Assumptions C63_rows_with_nulls_min_true.
Print Assumptions C63_counted_rows_unique.
Print Assumptions C63_all_null_at_most_some_null.
Print Assumptions C63_any_labels_refuted.
Print Assumptions C63_ratio_of_counted_rows_refuted.
