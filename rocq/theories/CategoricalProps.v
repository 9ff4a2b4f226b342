(** Properties C04, C05, C06, C07, C54, C55: categorical column profiles. A history is any
    tree of new profiles, updates and merges; [rows h] are the values it was given. *)
From Coq Require Import QArith.
From Verif Require Import PyCommon PyDict CategoricalModel CategoricalProofs.
Open Scope nat_scope.

Section Statements.
  Context {K : Type} {EK : EqDecB K}.

  (** C04. *)
  Theorem C04_counts_are_occurrences :
    forall (vc : list K -> dict K nat) (h : hist K) (s : cat K),
    value_counts_ok vc -> run vc h = Ok s -> cat_stopped s = false ->
    NoDup (dkeys (cat_cats s)) /\
    (forall v, dget (cat_cats s) v = if occ v (rows h) =? 0 then None else Some (occ v (rows h))) /\
    fold_right (fun kv a => snd kv + a) 0 (cat_cats s) = cat_n s /\
    cat_n s = length (rows h).
  Proof.
    intros vc h s Hvc E Hs. destruct (run_counts vc Hvc h s E Hs) as [Hc Hn].
    split; [apply Hc|]. split; [apply Hc|]. split; [|exact Hn].
    rewrite Hn. exact (counts_of_total _ _ Hc).
  Qed.

  (** Without thresholds no history stops, so C04 applies to it. *)
  Fixpoint no_thresholds (h : hist K) : Prop :=
    match h with
    | HNew _ _ _ maxn ratio => maxn = None \/ ratio = None
    | HUpd h _ => no_thresholds h
    | HAdd h1 h2 => no_thresholds h1 /\ no_thresholds h2
    end.
  Theorem C04_never_stops_without_thresholds :
    forall (vc : list K -> dict K nat) (h : hist K) (s : cat K),
    no_thresholds h -> run vc h = Ok s -> cat_stopped s = false.
  Proof.
    intros vc h s Hn E.
    enough (cat_stopped s = false /\ (cat_maxn s = None \/ cat_ratio s = None)) by tauto.
    revert s Hn E. induction h as [name idx topk maxn ratio|h IH b|h1 IH1 h2 IH2]; intros s Hn E; cbn in *.
    - injection E as <-. cbn. auto.
    - destruct (run vc h) as [s0|]; [|discriminate]. destruct (IH _ Hn eq_refl) as [Hs Ht].
      cbn in E. injection E as <-. unfold update. rewrite Hs.
      destruct (length b =? 0); cbn [orb]; [auto|]. cbn.
      split; [|exact Ht]. unfold check_stop. destruct Ht as [-> | ->]; [reflexivity|].
      destruct (cat_maxn s0); reflexivity.
    - destruct Hn as [Hn1 Hn2].
      destruct (run vc h1) as [s1|]; [|discriminate]. destruct (run vc h2) as [s2|]; [|discriminate].
      destruct (IH1 _ Hn1 eq_refl) as [Hs1 Ht1], (IH2 _ Hn2 eq_refl) as [Hs2 Ht2]. cbn in E.
      unfold add in E. rewrite Hs1, Hs2 in E. cbn [orb negb] in E.
      destruct (add_index (cat_index s1) (cat_index s2)) as [idx|]; [|discriminate]. cbn [bind] in E.
      destruct (negb (name_eqb (cat_name s1) (cat_name s2))); [discriminate|].
      destruct (unique_ratio s1) as [r1|]; [|discriminate].
      destruct (unique_ratio s2) as [r2|]; [|discriminate]. cbn zeta in E.
      match type of E with context [unique_ratio ?m] => destruct (unique_ratio m) as [ur|] end; [|discriminate].
      match type of E with context [if check_stop ?m ?n ?q then _ else _] =>
        assert (Hc : check_stop m n q = false) end.
      { unfold check_stop. cbn [cat_maxn cat_ratio].
        destruct (negb _); [destruct Ht1 as [-> | ->]|destruct Ht2 as [-> | ->]]; try reflexivity;
        match goal with |- match ?x with _ => _ end = _ => destruct x; reflexivity end. }
      rewrite Hc in E. injection E as <-. cbn. split; [reflexivity|].
      destruct (negb _); assumption.
  Qed.

  (** C05. Permanence. *)
  Theorem C05_stopped_is_permanent :
    forall (vc : list K -> dict K nat) (h : hist K) (s : cat K) (batches : list (list K)),
    value_counts_ok vc -> run vc h = Ok s -> cat_stopped s = true ->
    fold_left (update vc) batches s = s /\
    cat_cats s = [] /\ is_match s = false /\
    unique_count s = cat_stop_count s /\ unique_ratio s = cat_stop_ratio s /\
    cat_stop_count s <> None /\ cat_stop_ratio s <> None.
  Proof.
    intros vc h s bs Hvc E Hs. split; [apply fold_update_stopped; exact Hs|].
    exact (run_stopped_report vc Hvc h s E Hs).
  Qed.

  (** C05. Trigger: on the totals including the batch. *)
  Theorem C05_stops_exactly_at_thresholds :
    forall (vc : list K -> dict K nat) (h : hist K) (s : cat K) (b : list K),
    value_counts_ok vc -> run vc h = Ok s -> cat_stopped s = false -> b <> [] ->
    (cat_stopped (update vc s b) = true <->
     exists m r, cat_maxn s = Some m /\ cat_ratio s = Some r /\
       m <= length (rows h ++ b) /\
       (r <= Qnat (length (distinct (rows h ++ b))) / Qnat (length (rows h ++ b)))%Q) /\
    (cat_stopped (update vc s b) = true ->
       unique_count (update vc s b) = Some (length (distinct (rows h ++ b))) /\
       unique_ratio (update vc s b)
         = Some (Qnat (length (distinct (rows h ++ b))) / Qnat (length (rows h ++ b)))%Q /\
       cat_n (update vc s b) = length (rows h ++ b)).
  Proof.
    intros vc h s b Hvc E Hs Hb. destruct (update_stop_iff vc Hvc h s b E Hs Hb) as [H1 H2].
    split; [exact H1|]. intro H. unfold unique_count, unique_ratio. rewrite H. exact (H2 H).
  Qed.

  (** C06. *)
  Theorem C06_merge_of_stopped :
    forall (s1 s2 s : cat K),
    cat_stopped s1 = true \/ cat_stopped s2 = true -> add s1 s2 = Ok s ->
    cat_stopped s = true /\ cat_cats s = [] /\ cat_n s = Nat.max (cat_n s1) (cat_n s2).
  Proof. exact add_stopped. Qed.

  (** C07. Gini impurity. *)
  Theorem C07_gini :
    forall (vc : list K -> dict K nat) (h : hist K) (s : cat K),
    value_counts_ok vc -> run vc h = Ok s -> cat_stopped s = false -> rows h <> [] ->
    exists g, gini_impurity s = Some g /\
      (g == 1 - fold_right (fun v a =>
             ((Qnat (occ v (rows h)) / Qnat (length (rows h)))
              * (Qnat (occ v (rows h)) / Qnat (length (rows h))) + a)%Q) 0%Q (distinct (rows h)))%Q /\
      (0 <= g < 1)%Q /\
      (g == 0 <-> forall x y, In x (rows h) -> In y (rows h) -> x = y)%Q.
  Proof.
    intros vc h s Hvc E Hs Hne. destruct (gini_spec vc Hvc h s E Hs Hne) as (g & Hg & Eg).
    assert (Hpos : 0 < length (rows h)) by (destruct (rows h); [congruence|cbn; lia]).
    exists g. split; [exact Hg|]. split.
    { rewrite Eg. exact (pairs_sum_squares _ Hpos). }
    pose proof (Qnat_pos _ Hpos) as Hp.
    pose proof (differing_pairs_bounds (rows h)) as Hb.
    assert (Hpp : (0 < Qnat (length (rows h)) * Qnat (length (rows h)))%Q) by (apply Qmult_lt_0_compat; assumption).
    split; [split|].
    - rewrite Eg. apply Qle_shift_div_l; [exact Hpp|]. rewrite Qmult_0_l. unfold Qnat, Qle, inject_Z. cbn. lia.
    - rewrite Eg. apply Qlt_shift_div_r; [exact Hpp|]. rewrite Qmult_1_l.
      unfold Qnat, Qlt, Qmult, inject_Z. cbn. lia.
    - rewrite Eg, <- differing_pairs_zero. split.
      + intro H0. assert (H1 : (Qnat (differing_pairs (rows h)) == 0)%Q).
        { rewrite <- (Qmult_div_r (Qnat (differing_pairs (rows h)))
             (Qnat (length (rows h)) * Qnat (length (rows h)))).
          - rewrite H0. apply Qmult_0_r.
          - intro Hz. rewrite Hz in Hpp. apply Qlt_irrefl in Hpp. exact Hpp. }
        unfold Qnat, Qeq, inject_Z in H1. cbn in H1. lia.
      + intros ->. unfold Qdiv. apply Qmult_0_l.
  Qed.

  (** C07. Unalikeability. *)
  Theorem C07_unalikeability :
    forall (vc : list K -> dict K nat) (h : hist K) (s : cat K),
    value_counts_ok vc -> run vc h = Ok s -> cat_stopped s = false -> 2 <= length (rows h) ->
    exists u, unalikeability s = Some u /\
      (u == Qnat (length (filter (fun p => negb (eqb (fst p) (snd p))) (list_prod (rows h) (rows h))))
            / Qnat (length (rows h) * length (rows h) - length (rows h)))%Q /\
      (0 <= u <= 1)%Q /\
      (u == 0 <-> forall x y, In x (rows h) -> In y (rows h) -> x = y)%Q /\
      (u == 1 <-> NoDup (rows h))%Q.
  Proof.
    intros vc h s Hvc E Hs Hlen. pose proof (unalike_spec vc Hvc h s E Hs) as Hu.
    fold (differing_pairs (rows h)).
    destruct (length (rows h)) as [|[|n]] eqn:El; [lia|lia|]. rewrite <- El in *.
    eexists. split; [exact Hu|].
    pose proof (differing_pairs_bounds (rows h)) as Hb.
    pose proof (differing_pairs_zero (rows h)) as Hz. pose proof (differing_pairs_max (rows h)) as Hm.
    set (D := Z.of_nat (differing_pairs (rows h))) in *.
    set (L := (Z.of_nat (length (rows h)) * Z.of_nat (length (rows h)) - Z.of_nat (length (rows h)))%Z) in *.
    assert (HL : (0 < L)%Z) by (unfold L; nia).
    assert (HLQ : (0 < inject_Z L)%Q) by (unfold Qlt, inject_Z; cbn; lia).
    assert (HLne : ~ (inject_Z L == 0)%Q) by (intro H0; rewrite H0 in HLQ; apply Qlt_irrefl in HLQ; exact HLQ).
    split; [|split; [split|split]].
    - unfold Qnat. fold D. replace (Z.of_nat (length (rows h) * length (rows h) - length (rows h))) with L; [reflexivity|].
      unfold L. rewrite Nat2Z.inj_sub by nia. lia.
    - apply Qle_shift_div_l; [exact HLQ|]. rewrite Qmult_0_l. unfold Qle, inject_Z. cbn. lia.
    - apply Qle_shift_div_r; [exact HLQ|]. rewrite Qmult_1_l. unfold Qle, inject_Z. cbn. lia.
    - rewrite <- Hz. split.
      + intro H0. assert (H1 : (inject_Z D == 0)%Q).
        { rewrite <- (Qmult_div_r (inject_Z D) (inject_Z L)) by exact HLne. rewrite H0. apply Qmult_0_r. }
        unfold Qeq, inject_Z in H1. cbn in H1. lia.
      + intro H0. unfold D. rewrite H0. unfold Qdiv. apply Qmult_0_l.
    - rewrite <- Hm. fold D L. split.
      + intro H0. assert (H1 : (inject_Z D == inject_Z L)%Q).
        { rewrite <- (Qmult_div_r (inject_Z D) (inject_Z L)) by exact HLne. rewrite H0. apply Qmult_1_r. }
        unfold Qeq, inject_Z in H1. cbn in H1. lia.
      + intros ->. apply Qmult_inv_r. exact HLne.
  Qed.

  (** C54. The reported top categories. *)
  Theorem C54_top_categories :
    forall (vc : list K -> dict K nat) (h : hist K) (s : cat K),
    value_counts_ok vc -> run vc h = Ok s -> cat_stopped s = false ->
    desc (categorical_count s) /\
    (forall v c, In (v, c) (categorical_count s) -> c = occ v (rows h) /\ In v (rows h)) /\
    NoDup (map fst (categorical_count s)) /\
    length (categorical_count s) = match cat_topk s with
      | None => length (distinct (rows h)) | Some k => Nat.min k (length (distinct (rows h))) end /\
    (forall v c w, In (v, c) (categorical_count s) -> In w (rows h) ->
       ~ In w (map fst (categorical_count s)) -> occ w (rows h) <= c).
  Proof. exact top_k_spec. Qed.
End Statements.
Print Assumptions C04_counts_are_occurrences.
Print Assumptions C04_never_stops_without_thresholds.
Print Assumptions C05_stopped_is_permanent.
Print Assumptions C05_stops_exactly_at_thresholds.
Print Assumptions C06_merge_of_stopped.
Print Assumptions C07_gini.
Print Assumptions C07_unalikeability.
Print Assumptions C54_top_categories.

(** ** Examples and refutations, on numbers as values *)
Definition ex_h : hist nat :=
  HAdd (HUpd (HUpd (HNew None None (Some 1) None None) [7; 8; 7]) [9])
       (HUpd (HNew None None None None None) [8; 8]).
Example C04_example :
  value_counts_ok (vc_simple (K := nat)) /\ no_thresholds ex_h /\
  match run vc_simple ex_h with
  | Ok s => cat_stopped s = false /\ dget (cat_cats s) 8 = Some 3 /\ cat_n s = 6 /\
            rows ex_h = [7; 8; 7; 9; 8; 8]
  | Err _ => False
  end.
Proof. split; [apply vc_simple_ok|]. split; [cbn; auto|]. vm_compute. auto. Qed.

Definition ex_stop : hist nat := HUpd (HNew None None None (Some 3) (Some (1 # 2)%Q)) [1; 1].
Example C05_example :
  match run vc_simple ex_stop with
  | Ok s => cat_stopped s = false /\ cat_stopped (update vc_simple s [2]) = true /\
            unique_count (update vc_simple s [2]) = Some 2 /\
            cat_stopped (update vc_simple s [1]) = false
  | Err _ => False
  end.
Proof. vm_compute. auto. Qed.

(** C06: a user expects the sample size of a merge to be the sum. *)
Theorem C06_merge_adds_sample_sizes_refuted :
  ~ (forall s1 s2 s : cat nat, add s1 s2 = Ok s -> cat_n s = cat_n s1 + cat_n s2).
Proof.
  intro H.
  specialize (H (update vc_simple (cat_new None None None (Some 2) (Some (1 # 2)%Q)) [1; 2])
                (update vc_simple (cat_new None None None (Some 2) (Some (1 # 2)%Q)) [3; 3; 3])
                _ eq_refl).
  vm_compute in H. discriminate.
Qed.
Print Assumptions C06_merge_adds_sample_sizes_refuted.

(** C55: the options of a profile after merging. *)
Theorem C55_merge_keeps_top_k_refuted :
  ~ (forall s1 s2 s : cat nat, add s1 s2 = Ok s -> cat_topk s1 = cat_topk s2 -> cat_topk s = cat_topk s1).
Proof.
  intro H.
  specialize (H (cat_new None None (Some 3) None None) (cat_new None None (Some 3) None None)
                _ eq_refl eq_refl).
  vm_compute in H. discriminate.
Qed.
Print Assumptions C55_merge_keeps_top_k_refuted.

(** The stop thresholds of the profile with fewer categories win, the second one's on a tie;
    after a merge with a stopped profile there are none (it is stopped for good). *)
Theorem C55_merge_thresholds :
  forall {K} {EK : EqDecB K} (vc : list K -> dict K nat) (h1 h2 : hist K) (s1 s2 s : cat K),
  value_counts_ok vc -> run vc h1 = Ok s1 -> run vc h2 = Ok s2 ->
  cat_stopped s1 = false -> cat_stopped s2 = false -> add s1 s2 = Ok s ->
  (cat_maxn s, cat_ratio s) =
    if length (distinct (rows h1)) <? length (distinct (rows h2))
    then (cat_maxn s1, cat_ratio s1) else (cat_maxn s2, cat_ratio s2).
Proof.
  intros K EK vc h1 h2 s1 s2 s Hvc E1 E2 Hs1 Hs2 E.
  assert (Hp : forall h s, run vc h = Ok s -> cat_stopped s = false ->
     exists q, unique_ratio s = Some q /\ (Qnat (cat_n s) * q == Qnat (length (distinct (rows h))))%Q).
  { intros h s0 E0 Hs0. destruct (run_counts vc Hvc h s0 E0 Hs0) as [Hc Hn].
    unfold unique_ratio. rewrite Hs0, (counts_of_length _ _ Hc). rewrite Hn.
    destruct (Nat.eqb_spec (length (rows h)) 0) as [H0|H0]; cbn [negb].
    - eexists. split; [reflexivity|]. apply length_zero_iff_nil in H0. rewrite H0. reflexivity.
    - eexists. split; [reflexivity|]. apply Qmult_div_r.
      intro Hz. unfold Qnat, Qeq, inject_Z in Hz. cbn in Hz. lia. }
  destruct (Hp _ _ E1 Hs1) as (q1 & U1 & P1), (Hp _ _ E2 Hs2) as (q2 & U2 & P2).
  unfold add in E. rewrite Hs1, Hs2, U1, U2 in E. cbn [orb negb] in E.
  destruct (add_index (cat_index s1) (cat_index s2)) as [idx|]; [|discriminate]. cbn [bind] in E.
  destruct (negb (name_eqb (cat_name s1) (cat_name s2))); [discriminate|]. cbn zeta in E.
  assert (Hlt : negb (Qle_bool (Qnat (cat_n s2) * q2) (Qnat (cat_n s1) * q1))
                = (length (distinct (rows h1)) <? length (distinct (rows h2)))).
  { destruct (Nat.ltb_spec (length (distinct (rows h1))) (length (distinct (rows h2)))) as [L|L].
    - destruct (Qle_bool (Qnat (cat_n s2) * q2) (Qnat (cat_n s1) * q1)) eqn:Eq; [|reflexivity].
      apply Qle_bool_iff in Eq. rewrite P1, P2 in Eq. unfold Qnat, Qle, inject_Z in Eq. cbn in Eq. lia.
    - assert (Qle_bool (Qnat (cat_n s2) * q2) (Qnat (cat_n s1) * q1) = true) as ->; [|reflexivity].
      apply Qle_bool_iff. rewrite P1, P2. unfold Qnat, Qle, inject_Z. cbn. lia. }
  rewrite Hlt in E.
  match type of E with context [unique_ratio ?m] => destruct (unique_ratio m) as [ur|] end; [|discriminate].
  match type of E with context [if ?b then Ok _ else _] => destruct b end; injection E as <-; cbn [cat_maxn cat_ratio];
    destruct (_ <? _); reflexivity.
Qed.
Print Assumptions C55_merge_thresholds.

Theorem C55_merge_keeps_thresholds_refuted :
  ~ (forall s1 s2 s : cat nat, add s1 s2 = Ok s ->
       cat_maxn s1 <> None -> cat_maxn s2 = None -> cat_stopped s = false -> cat_maxn s = cat_maxn s1).
Proof.
  intro H.
  specialize (H (update vc_simple (cat_new None None None (Some 5) (Some (1 # 2)%Q)) [1; 2])
                (update vc_simple (cat_new None None None None None) [3]) _ eq_refl).
  vm_compute in H. specialize (H ltac:(discriminate) eq_refl eq_refl). discriminate.
Qed.
Print Assumptions C55_merge_keeps_thresholds_refuted.

Example C55_example :
  match run vc_simple (HUpd (HNew None None None (Some 9) (Some (1 # 2)%Q)) [1]),
        run vc_simple (HUpd (HNew None None None (Some 8) (Some (1 # 3)%Q)) [1; 2]) with
  | Ok s1, Ok s2 => exists s, add s1 s2 = Ok s /\ cat_stopped s1 = false /\ cat_stopped s2 = false /\
                      cat_maxn s = Some 9
  | _, _ => False
  end.
Proof. vm_compute. eexists. repeat split. Qed.

Example C07_example :
  match run vc_simple ex_h with
  | Ok s => (exists g, gini_impurity s = Some g /\ (g == 11 # 18)%Q) /\
            (exists u, unalikeability s = Some u /\ (u == 11 # 15)%Q)
  | Err _ => False
  end.
Proof. vm_compute. split; eexists; (split; [reflexivity|reflexivity]). Qed.

Definition ex_top : hist nat := HUpd (HUpd (HNew None None (Some 2) None None) [7; 8; 7; 5]) [9; 9; 9].
Example C54_example :
  match run vc_simple ex_top with
  | Ok s => cat_stopped s = false /\ categorical_count s = [(9, 3); (7, 2)]
  | Err _ => False
  end.
Proof. vm_compute. auto. Qed.
