(** Properties of matching columns by name (C18). *)
From Verif Require Import PyCommon PyDict PyString SchemaModel SchemaProofs SchemaProofs2.

Section Props.
  (** Names are any type with decidable equality; [lower] is idempotent, as [str.lower] is. *)
  Context {K A : Type} {EK : EqDecB K}.
  Variable lower : K -> K.
  Hypothesis lower_idem : forall k, lower (lower k) = lower k.

  Notation low := (map lower).

  (** C18. Two tables with columns pass the check iff every name occurs equally often in both, and
      names occurring more than once do so at the same positions.  The names are compared in lower
      case.  Otherwise a ValueError is raised. *)
  Theorem C18_check_passes_iff : forall cols1 cols2 strict, cols1 <> [] -> cols2 <> [] ->
    ((exists m, get_mapping lower (build_schema lower cols1) (build_schema lower cols2) strict = Ok m) <->
     forall k, occ k (low cols1) = occ k (low cols2) /\
       (occ k (low cols1) > 1 -> forall i, nth_error (low cols1) i = Some k <-> nth_error (low cols2) i = Some k)) /\
    (forall e, get_mapping lower (build_schema lower cols1) (build_schema lower cols2) strict = Err e -> e = ValueError).
  Proof.
    intros cols1 cols2 strict N1 N2. split; [split|].
    - intros [m H]. exact (mapping_compat lower lower_idem _ _ _ _ N1 N2 H).
    - intro C. destruct (mapping_ok lower lower_idem _ _ strict N1 N2 C) as [m [H _]]. eauto.
    - apply mapping_err.
  Qed.

  (** C18. The resulting map is a bijection between the columns, pairs equal names, and keeps the
      position of names which are not unique. *)
  Theorem C18_pairing_is_bijection : forall cols1 cols2 strict m, cols1 <> [] -> cols2 <> [] ->
    get_mapping lower (build_schema lower cols1) (build_schema lower cols2) strict = Ok m ->
    (forall i, i < length cols1 -> exists j, dget m i = Some j /\ j < length cols2) /\
    (forall i j, dget m i = Some j -> i < length cols1 /\ j < length cols2) /\
    (forall j, j < length cols2 -> exists i, dget m i = Some j) /\
    (forall i i' j, dget m i = Some j -> dget m i' = Some j -> i = i') /\
    (forall i j, dget m i = Some j ->
       nth_error (low cols1) i = nth_error (low cols2) j /\
       forall k, nth_error (low cols1) i = Some k -> occ k (low cols1) > 1 -> i = j).
  Proof.
    intros cols1 cols2 strict m N1 N2 H.
    pose proof (mapping_compat lower lower_idem _ _ _ _ N1 N2 H) as C.
    destruct (mapping_ok lower lower_idem _ _ strict N1 N2 C) as [m' [H' M]]. rewrite H in H'. injection H' as <-.
    assert (B : forall i j, dget m i = Some j -> i < length cols1 /\ j < length cols2).
    { intros i j D. apply M in D. destruct D as [k [D1 [D2 _]]]. split.
      - rewrite <- (map_length lower). apply nth_error_Some. congruence.
      - rewrite <- (map_length lower cols2). apply nth_error_Some. congruence. }
    split; [|split; [exact B|split; [|split]]].
    - intros i L. rewrite <- (map_length lower) in L. apply nth_error_Some in L.
      destruct (nth_error (low cols1) i) as [k|] eqn:E; [|congruence].
      destruct (pairs_exists _ _ _ _ C E) as [j P]. apply M in P. exists j. split; [exact P|]. eapply B; exact P.
    - intros j L. rewrite <- (map_length lower) in L. apply nth_error_Some in L.
      destruct (nth_error (low cols2) j) as [k|] eqn:E; [|congruence].
      destruct (pairs_exists _ _ _ _ (compat_sym _ _ C) E) as [i P]. exists i. apply M. apply pairs_sym; [apply compat_sym; exact C|exact P].
    - intros i i' j D D'. apply M in D, D'. eapply pairs_inj; eassumption.
    - intros i j D. apply M in D. destruct D as [k [D1 [D2 D3]]]. split; [congruence|].
      intros k' E O. rewrite D1 in E. injection E as <-. apply D3. lia.
  Qed.

  (** C18. Merging needs columns on both sides. *)
  Theorem C18_merge_of_empty_fails : forall cols1 cols2, cols1 = [] \/ cols2 = [] ->
    get_mapping lower (build_schema lower cols1) (build_schema lower cols2) true = Err ValueError.
  Proof. apply mapping_strict_empty. Qed.

  (** C18. Whatever the history of updates and merges, the columns are those of the first batch, in
      its order; every batch had the same names; column [i] has taken in, batch after batch, exactly
      the cells of the column of its name ([n]); among columns with the same lower-case name, of the
      one in the same position.  Base statistics and the statistics see the same cells. *)
  Theorem C18_columns_receive_their_data : forall (h : hist K A) s, run lower h = Ok s ->
    let bs := batches h in
    let names := match bs with [] => [] | b :: _ => map fst b end in
    length (p_cols s) = length names /\
    (forall b, In b bs -> length b = length names) /\
    forall i c, nth_error (p_cols s) i = Some c ->
      exists n, nth_error names i = Some n /\ c_name c = Some n /\
        map snd (c_base c) = c_stats c /\
        Forall2 (fun b cells => exists j, nth_error b j = Some (n, cells) /\
                   (i = j \/ forall j' x, nth_error b j' = Some x -> lower (fst x) = lower n -> j' = j))
          bs (c_stats c).
  Proof.
    intros h s H bs names. pose proof (run_ginv lower lower_idem h s H) as [[_ IL IC IK] NE].
    change (first_names (batches h)) with names in *. fold bs in IC, IK, NE.
    split; [exact IL|]. split.
    { intros b Hb. apply IC in Hb. apply compat_length in Hb. rewrite !map_length in Hb. exact Hb. }
    intros i c Hc. assert (L : i < length names) by (rewrite <- IL; apply nth_error_Some; congruence).
    apply nth_error_Some in L. destruct (nth_error names i) as [n|] eqn:En; [|congruence].
    exists n. split; [reflexivity|]. destruct (IK _ _ _ En Hc) as [N _ S B _]. split.
    { rewrite N. destruct bs; [|reflexivity]. cbn in En. destruct i; discriminate. }
    split; [exact B|]. revert S. apply Forall2_imp. intros b cells Hb [j [[k [P1 [P2 P3]]] E]].
    exists j. split; [exact E|]. rewrite !nth_error_map, E in P1. cbn in P1. injection P1 as <-.
    destruct (le_lt_dec (occ (lower n) (low (map fst b))) 1) as [O|O].
    - right. intros j' x E' Ex. apply (occ_one_unique (lower n) (low (map fst b))); [lia| |].
      + rewrite !nth_error_map, E'. cbn. congruence.
      + rewrite !nth_error_map, E. reflexivity.
    - left. symmetry. apply P3. exact O.
  Qed.

  (** C18. A batch is accepted iff its columns pass the check and paired names are equal including
      case; otherwise a ValueError is raised, and if the check fails the profile is unchanged. *)
  Theorem C18_update_outcome : forall (h : hist K A) s d, run lower h = Ok s -> batches h <> [] -> d <> [] ->
    let names := match batches h with [] => [] | b :: _ => map fst b end in
    (snd (update lower s d) = None <->
      compat (low (map fst d)) (low names) /\
      forall x i, pairs (low (map fst d)) (low names) x i -> nth_error (map fst d) x = nth_error names i) /\
    (forall e, snd (update lower s d) = Some e -> e = ValueError) /\
    (~ compat (low (map fst d)) (low names) -> fst (update lower s d) = s).
  Proof.
    intros h s d H N Nd names. pose proof (update_spec lower lower_idem _ _ d (run_ginv lower lower_idem h s H)) as U.
    change (first_names (batches h)) with names in U. unfold same_names in U.
    destruct (update lower s d) as [s' [e|]]; cbn [fst snd].
    - destruct U as [-> [_ [_ U]]]. split; [|split].
      + split; [discriminate|]. intros [C S]. destruct U as [[U _]|[_ U]]; contradiction.
      + intros e H0. congruence.
      + intro C. destruct U as [[_ U]|[U _]]; [exact U|contradiction].
    - destruct U as [_ U]. specialize (U N Nd). split; [|split].
      + tauto.
      + discriminate.
      + intro C. destruct U as [U _]. contradiction.
  Qed.

  (** C18. A first batch is always accepted, and so is a batch without columns. *)
  Theorem C18_first_batch_accepted : forall (h : hist K A) s d, run lower h = Ok s -> batches h = [] \/ d = [] ->
    snd (update lower s d) = None.
  Proof.
    intros h s d H N. pose proof (update_spec lower lower_idem _ _ d (run_ginv lower lower_idem h s H)) as U.
    destruct (update lower s d) as [s' [e|]]; cbn [fst snd]; [|reflexivity].
    destruct U as [_ [U1 [U2 _]]]. destruct N; contradiction.
  Qed.

  (** C18. Merging succeeds under the same condition. *)
  Theorem C18_merge_outcome : forall (h1 h2 : hist K A) s1 s2, run lower h1 = Ok s1 -> run lower h2 = Ok s2 ->
    batches h1 <> [] -> batches h2 <> [] ->
    let names1 := match batches h1 with [] => [] | b :: _ => map fst b end in
    let names2 := match batches h2 with [] => [] | b :: _ => map fst b end in
    ((exists s, add lower s1 s2 = Ok s) <->
      compat (low names1) (low names2) /\
      forall x i, pairs (low names1) (low names2) x i -> nth_error names1 x = nth_error names2 i) /\
    (forall e, add lower s1 s2 = Err e -> e = ValueError).
  Proof.
    intros h1 h2 s1 s2 H1 H2 N1 N2 names1 names2.
    pose proof (add_spec lower lower_idem _ _ _ _ (run_ginv lower lower_idem h1 s1 H1) (run_ginv lower lower_idem h2 s2 H2)) as U.
    change (first_names (batches h1)) with names1 in U. change (first_names (batches h2)) with names2 in U. unfold same_names in U.
    destruct (add lower s1 s2) as [s|e].
    - split; [|discriminate]. split; [tauto|eauto].
    - destruct U as [-> U]. split; [|congruence]. split; [intros [s Hs]; discriminate|].
      intros [C S]. destruct U as [U|[U|[U|U]]]; contradiction.
  Qed.

  (** C18. If all batches present their columns in the same order, the null values configured for
      position [i] are the only ones ever applied to column [i], and they are always applied. *)
  Theorem C18_null_values_in_fixed_order : forall (h : hist K A) s, run lower h = Ok s ->
    (forall b b', In b (batches h) -> In b' (batches h) -> low (map fst b) = low (map fst b')) ->
    forall i c used cells, nth_error (p_cols s) i = Some c -> In (used, cells) (c_base c) ->
      In i used /\ forall q, In q used -> q = i.
  Proof.
    intros h s H Same i c used cells Hc Hu. pose proof (run_ginv lower lower_idem h s H) as [[_ IL IC IK] NE].
    destruct (batches h) as [|b0 bs] eqn:Eb.
    { cbn in IL. apply length_zero_iff_nil in IL. rewrite IL in Hc. destruct i; discriminate. }
    cbn [first_names] in *.
    assert (Pi : forall b j, In b (b0 :: bs) -> pairs (low (map fst b)) (low (map fst b0)) j i -> j = i).
    { intros b j Hb P. rewrite (Same b b0 Hb (or_introl eq_refl)) in P. apply (pairs_self lower (map fst b0)) in P. tauto. }
    assert (L : i < length (map fst b0)) by (rewrite <- IL; apply nth_error_Some; congruence).
    apply nth_error_Some in L. destruct (nth_error (map fst b0) i) as [n|] eqn:En; [|congruence].
    destruct (IK _ _ _ En Hc) as [_ _ _ _ U].
    assert (Hu' : In used (map fst (c_base c))) by (apply in_map_iff; exists (used, cells); auto).
    revert U Hu'. generalize (map fst (c_base c)). intros us U Hu'.
    assert (G : exists b, In b (b0 :: bs) /\ exists j, pairs (low (map fst b)) (low (map fst b0)) j i /\ (used = [j] \/ exists q, used = [q; j] /\
                 q < length (map fst b0) /\ (q = i \/ exists b', In b' (b0 :: bs) /\ pairs (low (map fst b')) (low (map fst b0)) q i))).
    { revert Hu'. pattern (b0 :: bs) at 1, us. 
      set (R := fun b used0 => _) in U.
      assert (Q : forall l us', Forall2 R l us' -> In used us' -> exists b, In b l /\ R b used).
      { intros l us' F. induction F as [|x y l us' Hx F IH]; intros []; [subst; exists x; cbn; auto|].
        destruct (IH H0) as [b [Hb Rb]]. exists b. cbn. auto. }
      intro Hu'. exact (Q _ _ U Hu'). }
    destruct G as [b [Hb [j [P G]]]]. pose proof (Pi _ _ Hb P) as Ej. subst j.
    destruct G as [->|[q [-> [_ G]]]].
    - split; [cbn; auto|]. intros q [<-|[]]. reflexivity.
    - assert (q = i).
      { destruct G as [G|[b' [Hb' Pq]]]; [exact G|]. eapply Pi; eassumption. }
      subst q. split; [cbn; auto|]. intros q [<-|[<-|[]]]; reflexivity.
  Qed.
End Props.

Local Open Scope string_scope.

(** Example: permuted columns, one of them twice, then a merge. *)
Example C18_example :
  exists s, run lower_string (HAdd (HUpd (HUpd HNew [("a", [1; 2]); ("x", [3]); ("x", [4]); ("b", [5])])
                                   [("b", [6]); ("x", [7]); ("x", [8]); ("a", [9])])
                             (HUpd HNew [("b", [10]); ("x", [11]); ("x", [12]); ("a", [13])])) = Ok s /\
    map (@c_stats string nat) (p_cols s) = [[[1; 2]; [9]; [13]]; [[3]; [7]; [11]]; [[4]; [8]; [12]]; [[5]; [6]; [10]]].
Proof. eexists. split; vm_compute; reflexivity. Qed.

(** C18 (finding). A batch whose names differ in case passes the schema check; its null and sample
    counts are added, and only then a ValueError is raised: a failing update is not atomic. *)
Theorem C18_update_atomic_refuted :
  ~ forall (h : hist string nat) s d, run lower_string h = Ok s -> snd (update lower_string s d) <> None ->
      fst (update lower_string s d) = s.
Proof.
  intro H. pose (h := HUpd HNew [("A", [1])]).
  destruct (run lower_string h) as [s|] eqn:E; [|discriminate].
  specialize (H h s [("a", [2])] E). vm_compute in E. injection E as <-. vm_compute in H.
  assert (F := H ltac:(discriminate)). discriminate.
Qed.

(** C18 (finding). The null values configured for a column are those of its position in each batch:
    with permuted columns, the values configured for another column are applied. *)
Theorem C18_null_values_follow_column_refuted :
  ~ forall (h : hist string nat) s i c used cells, run lower_string h = Ok s ->
      nth_error (p_cols s) i = Some c -> In (used, cells) (c_base c) -> forall q, In q used -> q = i.
Proof.
  intro H. pose (h := HUpd (HUpd HNew [("a", [1]); ("b", [2])]) [("b", [3]); ("a", [4])]).
  destruct (run lower_string h) as [s|] eqn:E; [|discriminate].
  vm_compute in E. injection E as <-.
  specialize (H h _ 0 _ [0; 1] [4] eq_refl eq_refl). vm_compute in H.
  specialize (H (or_intror (or_introl eq_refl)) 1 (or_intror (or_introl eq_refl))). discriminate.
Qed.

(** C18 (finding). In a merged profile a column no longer knows the null values it was created
    with, so what is configured for the column itself is not applied to permuted batches. *)
Theorem C18_own_null_values_kept_refuted :
  ~ forall (h : hist string nat) s i c used cells, run lower_string h = Ok s ->
      nth_error (p_cols s) i = Some c -> In (used, cells) (c_base c) -> In i used.
Proof.
  intro H. pose (h0 := HUpd HNew [("a", [1]); ("b", [2])]).
  pose (h := HUpd (HAdd h0 h0) [("b", [3]); ("a", [4])]).
  destruct (run lower_string h) as [s|] eqn:E; [|discriminate].
  vm_compute in E. injection E as <-.
  specialize (H h _ 0 _ [1] [4] eq_refl eq_refl). vm_compute in H.
  specialize (H (or_intror (or_intror (or_introl eq_refl)))). destruct H as [H|[]]. discriminate.
Qed.

Print Assumptions C18_check_passes_iff.
Print Assumptions C18_pairing_is_bijection.
Print Assumptions C18_merge_of_empty_fails.
Print Assumptions C18_columns_receive_their_data.
Print Assumptions C18_update_outcome.
Print Assumptions C18_first_batch_accepted.
Print Assumptions C18_merge_outcome.
Print Assumptions C18_null_values_in_fixed_order.
Print Assumptions C18_update_atomic_refuted.
Print Assumptions C18_null_values_follow_column_refuted.
Print Assumptions C18_own_null_values_kept_refuted.
