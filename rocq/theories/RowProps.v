(** Duplicate and unique rows (C21), merging and aliasing (C27). *)
From Coq Require Import QArith Permutation.
From Verif Require Import PyCommon PyDict PyEq ListFacts NullModel NullProofs RowModel RowProofs.
Local Open Scope nat_scope.

Section Props.
  (** Rows are any type; hash function, registers, ranks and estimator are arbitrary. *)
  Context {R H : Type} {EH : EqDecB H}.
  Variable hash : R -> H.
  Variable registers : nat.
  Variable register : R -> nat.
  Variable rank : R -> nat.
  Variable cardinality : list nat -> nat.

  Notation run := (run hash registers register rank).
  Notation dups := (duplicate_row_count (H:=H) cardinality).
  Notation ratio := (unique_row_ratio (H:=H) cardinality).

  (** What is reported for profile [k] after a program: row count, duplicates, unique ratio. *)
  Definition report (w : world H) (k : nat) : option (nat * option Z * option Q) :=
    match nth_error (profs w) k with Some p => Some (p_total p, dups w p, ratio w p) | None => None end.

  Lemma same_size (d l : list H) : NoDup d -> (forall x, In x d <-> In x l) -> length d = length (distinct l).
  Proof.
    intros Nd I. apply Permutation_length. apply NoDup_Permutation; [exact Nd|apply distinct_NoDup|].
    intro x. rewrite I, distinct_In. tauto.
  Qed.

  (** C21. In the full mode, after any program of creating, updating and merging profiles (of any
      options, in any order, operands used again or not): duplicates are the rows minus the
      distinct hashes, the unique ratio is the distinct hashes over the rows. *)
  Theorem C21_full : forall cs k a, nth_error (given cs) k = Some a ->
    o_method (g_opts a) = Full -> o_rows (g_opts a) = true -> o_unique (g_opts a) = true ->
    let n := length (g_rows a) in
    let d := length (distinct (map hash (g_rows a))) in
    report (run cs) k = Some (n, Some (Z.of_nat n - Z.of_nat d)%Z,
      Some (if n =? 0 then 0%Q else (inject_Z (Z.of_nat d) / inject_Z (Z.of_nat n))%Q)) /\ d <= n.
  Proof.
    intros cs k a Ha Em Er Eu n d.
    assert (Ln : d <= n).
    { unfold d, n. rewrite <- (map_length hash (g_rows a)). generalize (map hash (g_rows a)). clear.
      induction l as [|x l IH]; cbn; [lia|]. destruct (lmem l x); cbn; lia. }
    split; [|exact Ln]. pose proof (full_run hash registers register rank cs) as I.
    destruct (inv_prof _ _ _ _ _ _ _ _ _ I Ha) as [p Hp]. pose proof I as [_ [C _]].
    destruct (C k p a Hp Ha) as [C1 [C2 [ob [C3 [C4 C5]]]]].
    assert (Hc : counts (p_opts p) = true) by (rewrite C1; unfold counts; rewrite Er, Eu; reflexivity).
    assert (Ht : is_full (given cs) k = true) by (unfold is_full; rewrite Ha, Em; reflexivity).
    specialize (C5 Ht Hc). unfold holds in C5. rewrite Em in C5. destruct ob as [dd|]; [|destruct C5].
    destruct C5 as [Nd I5]. pose proof (same_size dd _ Nd I5) as Sz. fold d in Sz.
    unfold report. rewrite Hp. unfold duplicate_row_count, unique_row_ratio. rewrite C3, C1, Er, Eu, Sz, C2. cbn [negb orb]. fold n.
    destruct n; reflexivity.
  Qed.

  (** C21. A hash without collisions on the rows counts distinct rows. *)
  Theorem C21_distinct_rows : forall {ER : EqDecB R} (rows : list R),
    (forall x y, In x rows -> In y rows -> hash x = hash y -> x = y) ->
    length (distinct (map hash rows)) = length (distinct rows).
  Proof.
    intros ER rows Inj. symmetry. transitivity (length (map hash (distinct rows))); [rewrite map_length; reflexivity|].
    apply same_size.
    - apply NoDup_map_inj; [|apply distinct_NoDup]. intros x y Hx Hy. apply Inj; apply (proj1 (distinct_In _ _)); assumption.
    - intro h. rewrite !in_map_iff. split; intros [x [E I]]; exists x; (split; [exact E|]); apply distinct_In; exact I.
  Qed.

  (** C21. In the full mode the report does not depend on batching, merging or order of rows. *)
  Theorem C21_independent_of_batching : forall cs cs' k k' a a',
    nth_error (given cs) k = Some a -> nth_error (given cs') k' = Some a' -> g_opts a = g_opts a' ->
    o_method (g_opts a) = Full -> o_rows (g_opts a) = true -> o_unique (g_opts a) = true ->
    Permutation (g_rows a) (g_rows a') -> report (run cs) k = report (run cs') k'.
  Proof.
    intros cs cs' k k' a a' Ha Ha' Eo Em Er Eu P.
    destruct (C21_full cs k a Ha Em Er Eu) as [E _]. rewrite E.
    rewrite Eo in Em, Er, Eu. destruct (C21_full cs' k' a' Ha' Em Er Eu) as [E' _]. rewrite E'.
    assert (D : length (distinct (map hash (g_rows a))) = length (distinct (map hash (g_rows a')))).
    { apply same_size; [apply distinct_NoDup|]. intro x. rewrite distinct_In.
      split; apply Permutation_in; [apply Permutation_map; exact P|apply Permutation_map, Permutation_sym; exact P]. }
    rewrite D, (Permutation_length P). reflexivity.
  Qed.

  (** C21. With a sketch, if no profile is used again after being the left operand of a merge: the
      report is that of the sketch of all rows given, which depends on the set of rows only. *)
  Theorem C21_sketch : forall cs k a, careful cs -> nth_error (given cs) k = Some a -> g_live a = true ->
    o_method (g_opts a) = Hll -> o_rows (g_opts a) = true -> o_unique (g_opts a) = true ->
    let n := length (g_rows a) in
    let d := cardinality (map (fun i => list_max (map rank (filter (fun r => register r =? i) (g_rows a)))) (seq 0 registers)) in
    report (run cs) k = Some (n, Some (Z.max 0 (Z.of_nat n - Z.of_nat d)),
      Some (if n =? 0 then 0%Q else (inject_Z (Z.of_nat d) / inject_Z (Z.of_nat n))%Q)).
  Proof.
    intros cs k a Hc' Ha Hl Em Er Eu n d. pose proof (live_run hash registers register rank cs Hc') as I.
    destruct (inv_prof _ _ _ _ _ _ _ _ _ I Ha) as [p Hp]. pose proof I as [_ [C _]].
    destruct (C k p a Hp Ha) as [C1 [C2 [ob [C3 [C4 C5]]]]].
    assert (Hc : counts (p_opts p) = true) by (rewrite C1; unfold counts; rewrite Er, Eu; reflexivity).
    assert (Ht : is_live (given cs) k = true) by (unfold is_live; rewrite Ha; exact Hl).
    specialize (C5 Ht Hc). unfold holds in C5. rewrite Em in C5. destruct ob as [|rg]; [destruct C5|]. subst rg.
    unfold report. rewrite Hp. unfold duplicate_row_count, unique_row_ratio. rewrite C3, C1, Er, Eu, C2. cbn [negb orb]. fold n.
    destruct n; reflexivity.
  Qed.

  Theorem C21_sketch_of_a_set : forall rows rows', (forall r, In r rows <-> In r rows') ->
    sketch registers register rank rows = sketch registers register rank rows'.
  Proof.
    intros rows rows' E. unfold sketch. apply map_ext. intro i. apply Nat.le_antisymm.
    - apply list_max_le. apply Forall_forall. intros x Hx. apply in_map_iff in Hx. destruct Hx as [r [<- Hr]].
      apply filter_In in Hr. destruct Hr as [Hr Hi]. apply E in Hr.
      assert (F : Forall (fun k => k <= list_max (map rank (filter (fun r => register r =? i) rows'))) (map rank (filter (fun r => register r =? i) rows'))).
      { apply list_max_le. lia. }
      rewrite Forall_forall in F. apply F. apply in_map. apply filter_In. auto.
    - apply list_max_le. apply Forall_forall. intros x Hx. apply in_map_iff in Hx. destruct Hx as [r [<- Hr]].
      apply filter_In in Hr. destruct Hr as [Hr Hi]. apply E in Hr.
      assert (F : Forall (fun k => k <= list_max (map rank (filter (fun r => register r =? i) rows))) (map rank (filter (fun r => register r =? i) rows))).
      { apply list_max_le. lia. }
      rewrite Forall_forall in F. apply F. apply in_map. apply filter_In. auto.
  Qed.

  (** C21. Nothing is reported when row statistics or the unique count are switched off; the number of
      rows still is. *)
  Theorem C21_disabled : forall cs k a, nth_error (given cs) k = Some a ->
    o_rows (g_opts a) && o_unique (g_opts a) = false ->
    report (run cs) k = Some (length (g_rows a), None, None).
  Proof.
    intros cs k a Ha E. pose proof (full_run hash registers register rank cs) as I.
    destruct (inv_prof _ _ _ _ _ _ _ _ _ I Ha) as [p Hp]. pose proof I as [_ [C _]].
    destruct (C k p a Hp Ha) as [C1 [C2 _]]. unfold report. rewrite Hp.
    unfold duplicate_row_count, unique_row_ratio. rewrite C1, C2.
    destruct (o_rows (g_opts a)), (o_unique (g_opts a)); try discriminate; reflexivity.
  Qed.

  (** C27. In the full mode no command other than its own update changes the report of a profile: in
      particular merging changes neither operand, and later updates of an operand do not reach the
      merged profile nor the other way round. *)
  Theorem C27_full_no_interference : forall cs c k a, nth_error (given cs) k = Some a ->
    o_method (g_opts a) = Full -> (forall data, c <> Upd k data) ->
    report (run (cs ++ [c])) k = report (run cs) k.
  Proof.
    intros cs c k a Ha Em Nc.
    assert (Ha' : exists a', nth_error (given (cs ++ [c])) k = Some a' /\ g_opts a' = g_opts a /\ g_rows a' = g_rows a).
    { unfold given in *. rewrite fold_left_app. cbn [fold_left]. pose proof (nth_error_lt _ _ _ Ha) as Lk.
      destruct c as [o|i data|i j]; cbn [gexec].
      - rewrite nth_error_app1 by exact Lk. eauto.
      - destruct (nth_error (fold_left gexec cs []) i); [|eauto]. rewrite nth_error_set_nth.
        destruct (Nat.eqb_spec i k) as [->|]; [|eauto]. exfalso. eapply Nc. reflexivity.
      - destruct (nth_error (fold_left gexec cs []) i) as [b|] eqn:Eb; [|eauto].
        destruct (nth_error (fold_left gexec cs []) j) as [b'|]; [|eauto].
        destruct (mergeable b b'); [|eauto]. rewrite nth_error_app1 by (rewrite set_nth_length; exact Lk).
        rewrite nth_error_set_nth. destruct (Nat.eqb_spec i k) as [->|]; [|eauto].
        rewrite Eb. exists (kill b). rewrite Ha in Eb. injection Eb as <-. auto. }
    destruct Ha' as [a' [Ha' [Eo Er']]]. destruct (o_rows (g_opts a) && o_unique (g_opts a)) eqn:E.
    - apply andb_prop in E. destruct E as [E1 E2].
      destruct (C21_full cs k a Ha Em E1 E2) as [R1 _]. rewrite R1.
      rewrite <- Eo in Em, E1, E2. destruct (C21_full _ k a' Ha' Em E1 E2) as [R2 _]. rewrite R2, Er'. reflexivity.
    - rewrite (C21_disabled cs k a Ha E). rewrite <- Eo in E. rewrite (C21_disabled _ k a' Ha' E), Er'. reflexivity.
  Qed.

  (** C27 (finding). With sketches the left operand of a successful merge is overwritten: from then on
      it reports the duplicates of its own row count against the sketch of both row sets. *)
  Theorem C27_sketch_merge_changes_left : forall cs i j a b, careful cs ->
    nth_error (given cs) i = Some a -> nth_error (given cs) j = Some b -> g_live a = true -> g_live b = true ->
    o_method (g_opts a) = Hll -> o_rows (g_opts a) = true -> o_unique (g_opts a) = true ->
    g_opts b = g_opts a -> g_rows a <> [] -> g_rows b <> [] ->
    let n := length (g_rows a) in
    let d := cardinality (sketch registers register rank (g_rows a ++ g_rows b)) in
    report (run (cs ++ [Add i j])) i =
      Some (n, Some (Z.max 0 (Z.of_nat n - Z.of_nat d)), Some (inject_Z (Z.of_nat d) / inject_Z (Z.of_nat n))%Q).
  Proof.
    intros cs i j a b Hc Ha Hb La Lb Em Er Eu Eo Na Nb n d.
    pose proof (live_run hash registers register rank cs Hc) as I. pose proof I as [_ [C _]].
    destruct (inv_prof _ _ _ _ _ _ _ _ _ I Ha) as [p Hp]. destruct (inv_prof _ _ _ _ _ _ _ _ _ I Hb) as [q Hq].
    destruct (C i p a Hp Ha) as [C1 [C2 [oa [C3 [C4 C5]]]]]. destruct (C j q b Hq Hb) as [D1 [D2 [ob [D3 [D4 D5]]]]].
    assert (Cn : counts (g_opts a) = true) by (unfold counts; rewrite Er, Eu; reflexivity).
    assert (Ha5 : holds hash registers register rank (g_opts a) (g_rows a) oa).
    { apply C5; [unfold is_live; rewrite Ha; exact La|rewrite C1; exact Cn]. }
    assert (Hb5 : holds hash registers register rank (g_opts b) (g_rows b) ob).
    { apply D5; [unfold is_live; rewrite Hb; exact Lb|rewrite D1, Eo; exact Cn]. }
    unfold holds in Ha5, Hb5. rewrite Eo in Hb5. rewrite Em in Ha5, Hb5.
    destruct oa as [|ra]; [destruct Ha5|]. destruct ob as [|rb]; [destruct Hb5|]. subst ra rb.
    unfold RowModel.run. rewrite fold_left_app. cbn [fold_left RowModel.exec].
    change (fold_left (exec hash registers register rank) cs (mkWorld [] [])) with (run cs).
    unfold do_add. rewrite Hp, Hq. rewrite (add_check_mergeable p q a b) by assumption.
    assert (M : mergeable a b = true).
    { unfold mergeable. rewrite Eo. rewrite (proj2 (same_opts_eq _ _) eq_refl).
      destruct (g_rows a), (g_rows b); cbn; congruence. }
    rewrite M. cbn [negb heap]. rewrite C1, Er, Eu. cbn [andb].
    pose proof (nth_error_lt _ _ _ C3) as Lp. pose proof (nth_error_lt _ _ _ D3) as Lq.
    rewrite !nth_error_app1 by assumption. rewrite C3, D3. cbn [fst]. unfold report. cbn [profs heap].
    rewrite nth_error_app1 by (eapply nth_error_lt; exact Hp). rewrite Hp.
    unfold duplicate_row_count, unique_row_ratio. cbn [heap]. rewrite nth_error_set_nth, Nat.eqb_refl.
    rewrite nth_error_app1 by assumption. rewrite C3, C1, C2, Er, Eu, sketch_merge. cbn [negb orb]. fold n d.
    destruct n eqn:En; [|reflexivity]. unfold n in En. destruct (g_rows a); [congruence|discriminate].
  Qed.
End Props.

(** Witness: rows are numbers below 4, register and row coincide, the estimate is exact. *)
Definition exact_card (regs : list nat) : nat := length (filter (fun x => 0 <? x) regs).
Definition wrun (cs : list (cmd nat)) : world nat := run (fun x => x) 4 (fun x => x) (fun _ => 1) cs.
Definition wreport := @report nat exact_card.
Definition full : opts := mkOpts true true Full.
Definition hll : opts := mkOpts true true Hll.

Example C21_example :
  wreport (wrun [New full; Upd 0 [1; 2; 1]; Upd 0 [2; 3]; New full; Upd 1 [3; 0]; Add 0 1; Upd 0 [7]]) 2 =
    Some (7, Some 3%Z, Some (4 # 7)%Q).
Proof. reflexivity. Qed.

Example C21_sketch_example :
  wreport (wrun [New hll; Upd 0 [1; 2; 1]; Upd 0 [2; 3]; New hll; Upd 1 [3; 0]; Add 0 1]) 2 =
    Some (7, Some 3%Z, Some (4 # 7)%Q).
Proof. reflexivity. Qed.

(** C27 (finding). Merging changes the left operand: after [a + b] the profile [a] of one row reports
    a unique row ratio of 2. *)
Theorem C27_merge_keeps_operands_refuted :
  ~ forall cs i j, wreport (wrun (cs ++ [Add i j])) i = wreport (wrun cs) i.
Proof.
  intro H. specialize (H [New hll; Upd 0 [1]; New hll; Upd 1 [2]] 0 1). vm_compute in H. discriminate.
Qed.

Theorem C27_unique_ratio_at_most_one_refuted :
  ~ forall cs i n d q, wreport (wrun cs) i = Some (n, d, Some q) -> (q <= 1)%Q.
Proof.
  intro H. specialize (H [New hll; Upd 0 [1]; New hll; Upd 1 [2]; Add 0 1] 0 _ _ _ eq_refl). vm_compute in H. apply H. reflexivity.
Qed.

(** C27 (finding). Updating the left operand after the merge changes the merged profile. *)
Theorem C27_merged_profile_is_independent_refuted :
  ~ forall cs i k data, i <> k -> wreport (wrun (cs ++ [Upd i data])) k = wreport (wrun cs) k.
Proof.
  intro H. specialize (H [New hll; Upd 0 [1]; New hll; Upd 1 [2]; Add 0 1] 0 2 [3]).
  assert (N : 0 <> 2) by lia. specialize (H N). vm_compute in H. discriminate.
Qed.

(** C21 (finding). Rows are hashed in the column order of the batch.  The profiler accepts a batch with
    permuted columns (C18), but does not recognise its rows: the same record, given twice with
    permuted columns, is not a duplicate, even with a perfect hash. *)
Definition record (names row : list nat) (c : nat) : option nat :=
  dget (combine names row) c.
Theorem C21_columns_may_be_permuted_refuted :
  ~ forall names names' row row' : list nat, Permutation names names' -> (forall c, record names row c = record names' row' c) ->
      exists q, @report (list nat) exact_card
        (run (fun x => x) 1 (fun _ => 0) (fun _ => 0) [New full; Upd 0 [row]; Upd 0 [row']]) 0 = Some (2, Some 1%Z, q).
Proof.
  intro H. specialize (H [0; 1] [1; 0] [5; 6] [6; 5] (perm_swap 1 0 [])).
  assert (E : forall c, record [0; 1] [5; 6] c = record [1; 0] [6; 5] c) by (intros [|[|c]]; reflexivity).
  destruct (H E) as [q Hq]. vm_compute in Hq. discriminate.
Qed.

Print Assumptions C21_full.
Print Assumptions C21_distinct_rows.
Print Assumptions C21_independent_of_batching.
Print Assumptions C21_sketch.
Print Assumptions C21_sketch_of_a_set.
Print Assumptions C21_disabled.
Print Assumptions C27_full_no_interference.
Print Assumptions C27_sketch_merge_changes_left.
Print Assumptions C27_merge_keeps_operands_refuted.
Print Assumptions C27_unique_ratio_at_most_one_refuted.
Print Assumptions C27_merged_profile_is_independent_refuted.
Print Assumptions C21_columns_may_be_permuted_refuted.
