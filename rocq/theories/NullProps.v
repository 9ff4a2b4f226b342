(** Properties of nulls and row labels of a column (C19, C20). *)
From Coq Require Import QArith Permutation.
From Verif Require Import PyCommon PyDict ListFacts NullModel NullProofs NullProofs2.
Local Open Scope nat_scope.

Section Props.
  (** Cells are any type; the null pattern is any predicate; the order of a Python set is any
      permutation. *)
  Context {C : Type} {EC : EqDecB C}.
  Variable is_null : C -> bool.
  Variable order : list label -> list label.
  Hypothesis order_perm : forall l, Permutation (order l) l.

  Notation truerow := (fun x : label * C => negb (is_null (snd x))).
  Notation nullrow := (fun x : label * C => is_null (snd x)).

  (** The row positions stored for null value [c]. *)
  Definition null_rows (s : col C) (c : C) : list label :=
    match dget (c_index s) c with Some l => l | None => [] end.

  Lemma concat_vals_perm (d : dict C (list label)) (r : rows C) : NoDup (map fst r) -> lists is_null d r ->
    Permutation (concat (dvals d)) (map fst (filter nullrow r)).
  Proof.
    intros Hr [H1 [H2 H3]]. apply NoDup_Permutation.
    - assert (G : forall c x, In x (lookup d c) -> In (x, c) r) by (intros c x I; apply H3 in I; tauto).
      clear H3. induction d as [|[c l] d IH]; [constructor|]. cbn [dvals map concat snd].
      inversion H1 as [|? ? Hc Hd]; subst. cbn [fst] in Hc. fold (dkeys d) in Hc, Hd.
      assert (G' : forall c' x, In x (lookup d c') -> In (x, c') r /\ c' <> c).
      { intros c' x I. assert (c' <> c).
        { intros ->. unfold lookup in I. destruct (dget d c) eqn:E; [|destruct I].
          apply dget_Some_In in E. apply Hc. apply in_map_iff. exists (c, l0). auto. }
        split; [|assumption]. apply G. unfold lookup in *. cbn [dget].
        destruct (eqb_spec c c') as [->|N]; [congruence|exact I]. }
      apply NoDup_app_intro.
      + apply (H2 c l). cbn [dget]. rewrite eqb_refl. reflexivity.
      + apply IH; [exact Hd| |intros c' x I; apply G'; exact I].
        intros c' l' E. apply (H2 c' l'). cbn [dget]. destruct (eqb_spec c c') as [->|N]; [|exact E].
        exfalso. apply dget_Some_In in E. apply Hc. apply in_map_iff. exists (c', l'). auto.
      + intros x I1 I2. assert (X1 : In (x, c) r).
        { apply G. unfold lookup. cbn [dget]. rewrite eqb_refl. exact I1. }
        apply in_concat in I2. destruct I2 as [l' [Hl' I2]]. apply in_map_iff in Hl'. destruct Hl' as [[c' l''] [E Hp]].
        cbn in E. subst l''. destruct (G' c' x) as [X2 Nc].
        { unfold lookup. rewrite (dget_In _ _ _ Hd Hp). exact I2. }
        apply Nc. apply In_nth_error in X1, X2. destruct X1 as [i1 X1], X2 as [i2 X2].
        assert (i1 = i2) by exact (NoDup_nth_fst r i1 i2 (x, c) (x, c') Hr X1 X2 eq_refl). congruence.
    - apply filter_NoDup_fst. exact Hr.
    - intro x. rewrite in_concat, in_map_iff. split.
      + intros [l [Hl Hx]]. apply in_map_iff in Hl. destruct Hl as [[c l'] [E Hp]]. cbn in E. subst l'.
        assert (I : In x (lookup d c)) by (unfold lookup; rewrite (dget_In _ _ _ H1 Hp); exact Hx).
        apply H3 in I. exists (x, c). split; [reflexivity|]. apply filter_In. tauto.
      + intros [[x' c] [E I]]. cbn in E. subst x'. apply filter_In in I.
        assert (I' : In x (lookup d c)) by (apply H3; tauto). unfold lookup in I'.
        destruct (dget d c) as [l|] eqn:E; [|destruct I']. exists l. split; [|exact I'].
        apply in_map_iff. exists (c, l). split; [reflexivity|]. apply dget_Some_In. exact E.
  Qed.

  (** C19. Whatever the history of batches and merges (each batch with distinct non-negative integer
      labels, overlapping others or not), there is one shift per batch such that the shifted labels
      of all examined rows are distinct and exactly the null cells are listed, each under its value. *)
  Theorem C19_positions_never_collide : forall (h : hist C) s,
    run is_null order h = Ok s -> Forall proper (batches h) ->
    exists shifts exs,
      length shifts = length exs /\ Forall2 (examined is_null) (batches h) exs /\ Forall (fun z => (0 <= z)%Z) shifts /\
      let rows := concat (map (fun p => map (fun x => (shift_label (fst p) (fst x), snd x)) (snd p)) (combine shifts exs)) in
      NoDup (map fst rows) /\
      (forall c x, In x (null_rows s c) <-> is_null c = true /\ In (x, c) rows) /\
      (forall c, NoDup (null_rows s c)) /\
      (forall c, In c (c_types s) <-> is_null c = true /\ exists x, In (x, c) rows).
  Proof.
    intros h s H P. destruct (run_rep is_null order order_perm h s H P) as [shs [exs [L [F [Sg R]]]]].
    exists shs, exs. split; [exact L|]. split; [exact F|]. split; [exact Sg|].
    change (concat (map (fun p => map (fun x => (shift_label (fst p) (fst x), snd x)) (snd p)) (combine shs exs)))
      with (placed shs exs). cbv zeta.
    destruct R as [R1 [R2 [R3 [R4 [[R5 [R6 R7]] [R8 R9]]]]]].
    split; [exact R1|]. split; [exact R7|]. split.
    - intro c. unfold null_rows. destruct (dget (c_index s) c) as [l|] eqn:E; [apply (R6 c l E)|constructor].
    - intro c. rewrite R9. split.
      + intro K. apply dmem_true in K. unfold dmem in K. destruct (dget (c_index s) c) as [l|] eqn:E; [|discriminate].
        destruct (R6 c l E) as [_ Nl]. destruct l as [|x l]; [congruence|].
        assert (I : In x (lookup (c_index s) c)) by (unfold lookup; rewrite E; cbn; auto).
        apply R7 in I. split; [tauto|]. exists x. tauto.
      + intros [Hc [x I]]. assert (I' : In x (lookup (c_index s) c)) by (apply R7; auto).
        unfold lookup in I'. destruct (dget (c_index s) c) as [l|] eqn:E; [|destruct I'].
        apply dget_Some_In in E. apply in_map_iff. exists (c, l). auto.
  Qed.

  (** C19, C20. The number of stored positions is the null count, which is the number of null cells
      examined; the sample size is the number of cells examined. *)
  Theorem C19_as_many_positions_as_nulls : forall (h : hist C) s,
    run is_null order h = Ok s -> Forall proper (batches h) ->
    Z.of_nat (length (concat (dvals (c_index s)))) = c_nulls s /\
    NoDup (concat (dvals (c_index s))) /\
    exists exs, Forall2 (examined is_null) (batches h) exs /\
      c_size s = length (concat exs) /\
      c_nulls s = Z.of_nat (length (filter nullrow (concat exs))).
  Proof.
    intros h s H P. destruct (run_rep is_null order order_perm h s H P) as [shs [exs [L [F [_ R]]]]].
    destruct R as [R1 [R2 [R3 [R4 [R5 _]]]]]. pose proof (concat_vals_perm _ _ R1 R5) as Pm.
    split; [rewrite (Permutation_length Pm), map_length, R3; reflexivity|]. split.
    - apply (Permutation_NoDup (Permutation_sym Pm)). apply filter_NoDup_fst. exact R1.
    - exists exs. split; [exact F|]. clear - L R2 R3.
      assert (G : length (placed shs exs) = length (concat exs) /\ count_null is_null (placed shs exs) = count_null is_null (concat exs)).
      { clear R2 R3. revert exs L. unfold placed. induction shs as [|sh shs IH]; intros [|e exs] L; cbn in L; try discriminate; [auto|].
        cbn [combine map concat fst snd]. rewrite !app_length. destruct (IH exs) as [I1 I2]; [lia|].
        unfold count_null in *. rewrite !filter_app, !app_length. fold (count_null is_null (place sh e)).
        rewrite place_null, place_length. unfold count_null. rewrite I1, I2. auto. }
      destruct G as [G1 G2]. rewrite R2, R3, G1, G2. auto.
  Qed.

  (** C19. The stored positions lie between the smallest and the largest id. *)
  Theorem C19_positions_in_range : forall (h : hist C) s c x,
    run is_null order h = Ok s -> Forall proper (batches h) -> In x (null_rows s c) ->
    exists lo hi z, c_ids s = Some (lo, hi) /\ x = LI z /\ (0 <= lo <= z)%Z /\ (z <= hi)%Z.
  Proof.
    intros h s c x H P I. destruct (run_rep is_null order order_perm h s H P) as [shs [exs [L [F [_ R]]]]].
    destruct R as [R1 [R2 [R3 [R4 [[R5 [R6 R7]] _]]]]]. apply R7 in I. destruct I as [_ I].
    unfold bounded in R4. destruct (c_ids s) as [[lo hi]|]; [|rewrite R4 in I; destruct I].
    destruct R4 as [[B _] A]. destruct (A _ I) as [z [E Hz]]. cbn in E. exists lo, hi, z. split; [reflexivity|]. split; [exact E|]. lia.
  Qed.

  (** C20. One batch with distinct labels (of any kind).  The examined rows are the shortest sequence
      of chunks with enough rows and enough true values, or all; the sample size counts them; the
      cleaned series are the true rows; null rows are listed under their own value; both together
      are all. *)
  Theorem C20_batch : forall t, t_rows t <> [] -> NoDup (map fst (t_rows t)) ->
    valid_chunks (length (t_rows t)) (t_chunks t) ->
    exists ex, examined is_null t ex /\
      let cleaned := fst (clean_batch is_null order t) in
      let b := snd (clean_batch is_null order t) in
      Permutation cleaned (filter truerow ex) /\
      b_size b = length ex /\
      b_nulls b = Z.of_nat (length (filter nullrow ex)) /\
      (Z.of_nat (length cleaned) + b_nulls b = Z.of_nat (b_size b))%Z /\
      forall c, dget (b_types b) c =
        match map fst (filter (fun x => eqb (snd x) c) (filter nullrow ex)) with
        | [] => None
        | ls => Some ls
        end.
  Proof.
    intros t Ne Nd V. destruct (clean_spec is_null order order_perm t Ne Nd V) as [ex [Ex H]].
    exists ex. split; [exact Ex|]. destruct (clean_batch is_null order t) as [cl b]. cbn [fst snd].
    destruct H as [H1 [H2 [H3 [H4 _]]]]. split; [exact H1|]. split; [exact H2|]. split; [exact H3|]. split.
    - rewrite (Permutation_length H1), H2, H3. pose proof (count_split is_null ex). lia.
    - intro c. rewrite H4, na_get. reflexivity.
  Qed.

  (** C20. If at least as many samples are asked for as there are rows, and the chunks cover them,
      all rows are examined. *)
  Theorem C20_all_rows_examined : forall t ex, examined is_null t ex -> NoDup (map fst (t_rows t)) ->
    Permutation (concat (t_chunks t)) (seq 0 (length (t_rows t))) -> length (t_rows t) <= t_sample t ->
    Permutation ex (t_rows t).
  Proof.
    intros t ex Ex Nd P L.
    assert (V : valid_chunks (length (t_rows t)) (t_chunks t)).
    { split.
      - apply (Permutation_NoDup (Permutation_sym P)). apply seq_NoDup.
      - apply Forall_forall. intros i Hi. apply (Permutation_in _ P) in Hi. apply in_seq in Hi. lia. }
    pose proof (examined_NoDup is_null t ex Nd V Ex) as Ndx. pose proof (examined_sub is_null t ex Ex) as Sub.
    apply NoDup_Permutation_bis.
    - apply NoDup_map_inv in Ndx. exact Ndx.
    - destruct Ex as [k [_ [E [_ [->|[_ [_ S]]]]]]]; [|lia].
      rewrite firstn_all in E. rewrite E, pick_length by apply V. rewrite (Permutation_length P), seq_length. lia.
    - exact Sub.
  Qed.

  (** C20. A batch whose first chunk has a row is taken in without error. *)
  Theorem C20_update_succeeds : forall (h : hist C) s t ids rest,
    run is_null order h = Ok s -> Forall proper (batches h) -> proper t ->
    t_chunks t = ids :: rest -> ids <> [] -> exists s', update is_null order s t = Ok s'.
  Proof.
    intros h s t ids rest H P Pt Ec Ni. destruct (run_rep is_null order order_perm h s H P) as [shs [exs [_ [_ [_ R]]]]].
    assert (Ne : t_rows t <> []).
    { intro E. destruct Pt as [_ [_ [_ V]]]. rewrite Ec, E in V. destruct ids as [|i ids]; [congruence|].
      cbn in V. inversion V; subst. lia. }
    destruct (batch_rep is_null order order_perm t Pt Ne) as [ex [Ex [_ B]]].
    assert (Nx : ex <> []).
    { destruct Ex as [k [_ [-> [_ K]]]]. rewrite Ec in *. destruct k as [|k].
      - destruct K as [K|[K _]]; [discriminate|lia].
      - cbn [firstn concat]. rewrite pick_app. intro E. apply app_eq_nil in E. destruct E as [E _].
        assert (Li : length (pick (t_rows t) ids) = length ids).
        { apply pick_length. destruct Pt as [_ [_ [_ V]]]. rewrite Ec in V. cbn in V. apply Forall_app in V. tauto. }
        rewrite E in Li. destruct ids; [congruence|discriminate]. }
    destruct (update_base_rep is_null s _ _ ex R (B Nx) Nx) as [s' [sh [E _]]]. unfold update. eauto.
  Qed.

  (** C20 (finding). Merging with a column profile that has seen no row raises ZeroDivisionError. *)
  Theorem C20_merge_with_empty_fails : forall s : col C,
    add new_col s = Err ZeroDivisionError /\ (c_size s <> 0 -> add s new_col = Err ZeroDivisionError).
  Proof.
    intro s. split; [reflexivity|]. intro N. unfold add, update_base at 1. cbn [as_base b_size].
    destruct (c_size s); [congruence|]. reflexivity.
  Qed.

  (** C20. The null ratio is the one of the last batch, or of the right operand. *)
  Theorem C20_null_ratio_of_last : forall (s s' : col C) b, update_base s b = Ok s' ->
    c_ratio s' = Some (inject_Z (b_nulls b) / inject_Z (Z.of_nat (b_size b)))%Q.
  Proof.
    intros s s' b H. unfold update_base in H. destruct (b_size b =? 0); [discriminate|]. injection H as <-. reflexivity.
  Qed.
End Props.

(** Witnesses: cells are numbers, 0 is null. *)
Definition zero_null (c : nat) : bool := c =? 0.
Definition same_order (l : list label) : list label := l.
Definition simple (r : rows nat) : batch nat := mkBatch r (length r) 0 [seq 0 (length r)].
Definition zbatch (l : list (Z * Z)) : batch nat := simple (map (fun p => (LI (fst p), Z.to_nat (snd p))) l).

Example C19_example :
  exists s, run zero_null same_order
      (HAdd (HUpd (HUpd HNew (zbatch [(0, 0); (1, 5); (2, 0)]%Z)) (zbatch [(0, 7); (1, 0)]%Z))
            (HUpd HNew (zbatch [(10, 0); (11, 1)]%Z))) = Ok s /\
    c_index s = [(0, [LI 0; LI 2; LI 4; LI 10]%Z)] /\ c_nulls s = 4%Z /\ c_size s = 7.
Proof. eexists. split; [vm_compute; reflexivity|]. vm_compute. auto. Qed.

Example C20_example :
  let t := mkBatch [(LI 0, 0); (LI 1, 5); (LI 2, 0); (LI 3, 4)] 2 2 [[2; 0]; [3; 1]] in
  clean_batch zero_null same_order t =
    ([(LI 3, 4); (LI 1, 5)], mkBase 4 2 [(0, [LI 2; LI 0]%Z)] (Some (0, 3)%Z)).
Proof. reflexivity. Qed.

(** C19 (limit). With negative labels the shift does not separate overlapping batches. *)
Theorem C19_negative_labels_refuted :
  ~ forall (h : hist nat) s, run zero_null same_order h = Ok s ->
      Forall (fun t => NoDup (map fst (t_rows t)) /\ (forall x, In x (t_rows t) -> exists z, fst x = LI z) /\
                       valid_chunks (length (t_rows t)) (t_chunks t)) (batches h) ->
      Z.of_nat (length (concat (dvals (c_index s)))) = c_nulls s.
Proof.
  intro H. pose (h := HUpd (HUpd HNew (zbatch [(0, 1); (1, 0)]%Z)) (zbatch [(-1, 0); (0, 1)]%Z)).
  destruct (run zero_null same_order h) as [s|] eqn:E; [|discriminate].
  specialize (H h s E). vm_compute in E. injection E as <-.
  assert (P : Forall (fun t => NoDup (map fst (t_rows t)) /\ (forall x, In x (t_rows t) -> exists z, fst x = LI z) /\
                       valid_chunks (length (t_rows t)) (t_chunks t)) (batches h)).
  { repeat constructor; cbn; try lia; try (intros [?|?]; try discriminate; tauto); try tauto.
    - intros x [<-|[<-|[]]]; cbn; eauto.
    - intros x [<-|[<-|[]]]; cbn; eauto. }
  specialize (H P). vm_compute in H. discriminate.
Qed.

(** C20 (finding). With repeated labels the null count is wrong: two values, no null, one null
    counted, and the number of cleaned values is not the number of true rows. *)
Theorem C20_repeated_labels_refuted :
  ~ forall t : batch nat, valid_chunks (length (t_rows t)) (t_chunks t) -> length (t_rows t) <= t_sample t ->
      Permutation (concat (t_chunks t)) (seq 0 (length (t_rows t))) ->
      b_nulls (snd (clean_batch zero_null same_order t)) = Z.of_nat (length (filter (fun x => zero_null (snd x)) (t_rows t))).
Proof.
  intro H. specialize (H (zbatch [(0, 1); (0, 2)]%Z)). vm_compute in H.
  assert (F : 1%Z = 0%Z); [|discriminate]. apply H.
  - split; [repeat constructor; cbn; intuition; discriminate|repeat constructor].
  - lia.
  - apply Permutation_refl.
Qed.

(** C20 (finding). The null ratio (shown by diff) is not null count over sample size. *)
Theorem C20_null_ratio_is_overall_refuted :
  ~ forall (h : hist nat) s q, run zero_null same_order h = Ok s -> Forall proper (batches h) ->
      c_ratio s = Some q -> (q == inject_Z (c_nulls s) / inject_Z (Z.of_nat (c_size s)))%Q.
Proof.
  intro H. pose (h := HUpd (HUpd HNew (zbatch [(0, 0)]%Z)) (zbatch [(1, 1)]%Z)).
  destruct (run zero_null same_order h) as [s|] eqn:E; [|discriminate].
  specialize (H h s (0 / 1)%Q E). vm_compute in E. injection E as <-.
  assert (P : Forall proper (batches h)).
  { repeat constructor; cbn; try lia; try (intros [?|?]; try discriminate; tauto); try tauto.
    - intros x [<-|[]]; cbn. exists 0%Z. split; [reflexivity|lia].
    - intros x [<-|[]]; cbn. exists 1%Z. split; [reflexivity|lia]. }
  specialize (H P eq_refl). vm_compute in H. discriminate.
Qed.

Print Assumptions C19_positions_never_collide.
Print Assumptions C19_as_many_positions_as_nulls.
Print Assumptions C19_positions_in_range.
Print Assumptions C20_batch.
Print Assumptions C20_all_rows_examined.
Print Assumptions C20_update_succeeds.
Print Assumptions C20_merge_with_empty_fails.
Print Assumptions C20_null_ratio_of_last.
Print Assumptions C19_negative_labels_refuted.
Print Assumptions C20_repeated_labels_refuted.
Print Assumptions C20_null_ratio_is_overall_refuted.
