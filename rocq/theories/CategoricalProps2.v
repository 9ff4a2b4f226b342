(** Further properties of categorical column profiles: merging succeeds (C04), when a merge stops
    (C05), what a merge of stopped profiles reports (C06), categorical or not (C62). *)
From Coq Require Import QArith.
From Verif Require Import PyCommon PyDict CategoricalModel CategoricalProofs.
Open Scope nat_scope.

Section Statements.
  Context {K : Type} {EK : EqDecB K}.

  (** All profiles of the history are for the same column. *)
  Fixpoint same_column (name : option string) (idx : option nat) (h : hist K) : Prop :=
    match h with
    | HNew n i _ _ _ => n = name /\ i = idx
    | HUpd h _ => same_column name idx h
    | HAdd h1 h2 => same_column name idx h1 /\ same_column name idx h2
    end.

  Lemma name_eqb_refl n : name_eqb n n = true.
  Proof. destruct n; cbn; [apply String.eqb_refl|reflexivity]. Qed.

  Lemma unique_ratio_good (s : cat K) l : good s l -> exists r, unique_ratio s = Some r.
  Proof.
    unfold good, unique_ratio. destruct (cat_stopped s); intro H.
    - destruct (cat_stop_ratio s) as [r|]; [eexists; reflexivity|]. destruct H as (_ & H & _). congruence.
    - destruct (negb (cat_n s =? 0)); eexists; reflexivity.
  Qed.

  (** C04. Merging profiles of one column always succeeds. *)
  Theorem C04_merge_succeeds : forall (vc : list K -> dict K nat) name idx (h : hist K),
    value_counts_ok vc -> same_column name idx h ->
    exists s, run vc h = Ok s /\ cat_name s = name /\ cat_index s = idx.
  Proof.
    intros vc name idx h Hvc. induction h as [n i topk maxn ratio|h IH b|h1 IH1 h2 IH2]; cbn [same_column run]; intro H.
    - destruct H as [-> ->]. eexists. repeat split.
    - destruct (IH H) as (s & -> & Hn & Hi). cbn [bind]. eexists. split; [reflexivity|].
      unfold update. destruct ((length b =? 0) || cat_stopped s); cbn; auto.
    - destruct H as [H1 H2]. destruct (IH1 H1) as (s1 & E1 & Hn1 & Hi1), (IH2 H2) as (s2 & E2 & Hn2 & Hi2).
      rewrite E1, E2. cbn [bind].
      pose proof (run_good vc Hvc h1 s1 E1) as G1. pose proof (run_good vc Hvc h2 s2 E2) as G2.
      unfold add. rewrite Hn1, Hn2, Hi1, Hi2.
      assert (Ei : add_index idx idx = Ok idx) by (destruct idx; cbn; [rewrite Nat.eqb_refl|]; reflexivity).
      rewrite Ei. cbn [bind]. rewrite name_eqb_refl. cbn [negb].
      destruct (unique_ratio_good s1 _ G1) as (r1 & Er1), (unique_ratio_good s2 _ G2) as (r2 & Er2).
      destruct (negb (cat_stopped s1 || cat_stopped s2)).
      + rewrite Er1, Er2. cbn zeta.
        match goal with |- context [unique_ratio ?m] => assert (Hm : exists ur, unique_ratio m = Some ur) end.
        { unfold unique_ratio. cbn [cat_stopped cat_n]. destruct (negb _); eexists; reflexivity. }
        destruct Hm as (ur & Hm). rewrite Hm.
        match goal with |- context [if check_stop ?a ?b ?c then _ else _] => destruct (check_stop a b c) end;
          eexists; repeat split; cbn; reflexivity.
      + eexists. repeat split; cbn; reflexivity.
  Qed.

  (** Profiles of different columns are rejected. *)
  Theorem C04_merge_of_other_column_fails : forall (s1 s2 : cat K),
    cat_name s1 <> cat_name s2 \/ cat_index s1 <> cat_index s2 -> add s1 s2 = Err ValueError.
  Proof.
    intros s1 s2 H. unfold add.
    destruct (add_index (cat_index s1) (cat_index s2)) as [i|e] eqn:Ei.
    - cbn [bind]. destruct H as [H|H].
      + assert (E : name_eqb (cat_name s1) (cat_name s2) = false).
        { destruct (cat_name s1) as [a|], (cat_name s2) as [b|]; cbn; try reflexivity; [|congruence].
          apply String.eqb_neq. congruence. }
        rewrite E. reflexivity.
      + exfalso. apply H. unfold add_index in Ei.
        destruct (cat_index s1) as [a|], (cat_index s2) as [b|]; try discriminate; [|reflexivity].
        destruct (Nat.eqb_spec a b); [congruence|discriminate].
    - cbn [bind]. unfold add_index in Ei.
      destruct (cat_index s1) as [a|], (cat_index s2) as [b|]; try congruence.
      destruct (a =? b); congruence.
  Qed.

  (** C05. A merge of two counting profiles stops exactly if the thresholds it keeps are met by the
      rows of both together; it then reports the distinct values of both together. *)
  Theorem C05_merge_stops_exactly_at_thresholds :
    forall (vc : list K -> dict K nat) (h1 h2 : hist K) (s1 s2 s : cat K),
    value_counts_ok vc -> run vc h1 = Ok s1 -> run vc h2 = Ok s2 ->
    cat_stopped s1 = false -> cat_stopped s2 = false -> add s1 s2 = Ok s ->
    let all := rows h1 ++ rows h2 in
    let ratio := match all with [] => 0%Q | _ => (Qnat (length (distinct all)) / Qnat (length all))%Q end in
    (cat_stopped s = true <->
     exists m r, cat_maxn s = Some m /\ cat_ratio s = Some r /\ m <= length all /\ (r <= ratio)%Q) /\
    unique_count s = Some (length (distinct all)) /\ unique_ratio s = Some ratio /\
    cat_n s = length all.
  Proof.
    intros vc h1 h2 s1 s2 s Hvc E1 E2 Hs1 Hs2 E all ratio.
    destruct (run_counts vc Hvc h1 s1 E1 Hs1) as [C1 N1]. destruct (run_counts vc Hvc h2 s2 E2 Hs2) as [C2 N2].
    pose proof (counts_of_add _ _ _ _ C1 C2) as C. fold all in C.
    assert (Hl : length (dkeys (add_nested_dictionaries (cat_cats s1) (cat_cats s2))) = length (distinct all))
      by (apply counts_of_length; exact C).
    assert (Hn : cat_n s1 + cat_n s2 = length all) by (unfold all; rewrite app_length; lia).
    unfold add in E. destruct (add_index (cat_index s1) (cat_index s2)) as [idx|]; [|discriminate].
    cbn [bind] in E. destruct (negb (name_eqb (cat_name s1) (cat_name s2))); [discriminate|].
    rewrite Hs1, Hs2 in E. cbn [orb negb] in E.
    destruct (unique_ratio s1) as [r1|]; [|discriminate]. destruct (unique_ratio s2) as [r2|]; [|discriminate].
    cbn zeta in E. rewrite Hn in E.
    set (lt := negb (Qle_bool (Qnat (cat_n s2) * r2) (Qnat (cat_n s1) * r1))) in E.
    set (m := mkCat (cat_name s1) idx (length all) _ None _ _ false None None) in E at 1.
    assert (Hur : unique_ratio m = Some ratio).
    { unfold unique_ratio, m. cbn [cat_stopped cat_n cat_cats]. rewrite Hl. unfold ratio.
      destruct all; reflexivity. }
    rewrite Hur in E. fold m in E.
    assert (Huc : unique_count m = Some (length (distinct all))) by (unfold unique_count, m; cbn [cat_stopped cat_cats]; rewrite Hl; reflexivity).
    assert (Hck : check_stop m (length all) ratio = true <->
      exists mm r, (if lt then cat_maxn s1 else cat_maxn s2) = Some mm /\ (if lt then cat_ratio s1 else cat_ratio s2) = Some r
                  /\ mm <= length all /\ (r <= ratio)%Q).
    { unfold check_stop, m. cbn [cat_maxn cat_ratio].
      destruct (if lt then cat_maxn s1 else cat_maxn s2) as [mm|]; [|split; [discriminate|intros (? & ? & ? & _); discriminate]].
      destruct (if lt then cat_ratio s1 else cat_ratio s2) as [r|]; [|split; [discriminate|intros (? & ? & _ & ? & _); discriminate]].
      split.
      - intro H. apply andb_prop in H. destruct H as [H1 H2]. apply Nat.leb_le in H1. apply Qle_bool_iff in H2. exists mm, r. auto.
      - intros (m' & r' & A & B & H1 & H2). injection A as <-. injection B as <-.
        apply Nat.leb_le in H1. apply Qle_bool_iff in H2. rewrite H1, H2. reflexivity. }
    destruct (check_stop m (length all) ratio) eqn:Ec.
    - injection E as <-. cbn [cat_stopped cat_maxn cat_ratio cat_n]. split; [tauto|].
      unfold unique_count at 1, unique_ratio. cbn [cat_stopped cat_stop_count cat_stop_ratio]. auto.
    - injection E as <-. split; [|split; [exact Huc|split; [exact Hur|reflexivity]]].
      cbn [cat_stopped cat_maxn cat_ratio]. unfold m. cbn [cat_stopped cat_maxn cat_ratio]. exact Hck.
  Qed.

  (** C06. A merge with a stopped profile reports the unique count and ratio of the profile with
      more rows, the second one's on a tie. *)
  Theorem C06_merge_of_stopped_reports_larger :
    forall (s1 s2 s : cat K),
    cat_stopped s1 = true \/ cat_stopped s2 = true -> add s1 s2 = Ok s ->
    (cat_n s2 < cat_n s1 -> unique_count s = unique_count s1 /\ unique_ratio s = unique_ratio s1) /\
    (cat_n s1 <= cat_n s2 -> unique_count s = unique_count s2 /\ unique_ratio s = unique_ratio s2).
  Proof.
    intros s1 s2 s H E. unfold add in E.
    destruct (add_index (cat_index s1) (cat_index s2)) as [idx|]; [|discriminate].
    cbn [bind] in E. destruct (negb (name_eqb (cat_name s1) (cat_name s2))); [discriminate|].
    assert (Ho : cat_stopped s1 || cat_stopped s2 = true) by (apply orb_true_iff; exact H).
    rewrite Ho in E. cbn [negb] in E. injection E as <-.
    unfold unique_count at 1 3, unique_ratio at 1 3. cbn [cat_stopped cat_stop_count cat_stop_ratio].
    destruct (Nat.ltb_spec (cat_n s2) (cat_n s1)); split; intros; try lia; auto.
  Qed.

  (** C62. A profile counts as categorical exactly if it is still counting and has at most ten
      distinct values, or at most a fifth of the rows are distinct. *)
  Theorem C62_is_match :
    forall (vc : list K -> dict K nat) (h : hist K) (s : cat K),
    value_counts_ok vc -> run vc h = Ok s ->
    (is_match s = true <->
     cat_stopped s = false /\
     (length (distinct (rows h)) <= 10 \/
      5 * length (distinct (rows h)) <= length (rows h))).
  Proof.
    intros vc h s Hvc E. unfold is_match. destruct (cat_stopped s) eqn:Es; [split; [discriminate|intros [? _]; discriminate]|].
    destruct (run_counts vc Hvc h s E Es) as [C N].
    assert (Hl : length (cat_cats s) = length (distinct (rows h)))
      by (rewrite <- (counts_of_length _ _ C); unfold dkeys; rewrite map_length; reflexivity).
    rewrite Hl. destruct (Nat.leb_spec (length (distinct (rows h))) 10) as [L|L]; [split; auto|].
    unfold unique_ratio. rewrite Es, N.
    destruct (Nat.eqb_spec (length (rows h)) 0) as [Z|Z].
    - apply length_zero_iff_nil in Z. rewrite Z in L. cbn in L. lia.
    - cbn [negb]. rewrite (counts_of_length _ _ C), Qle_bool_iff.
      assert (Hd : (0 < Qnat (length (rows h)))%Q) by (apply Qnat_pos; lia).
      split.
      + intro Hq. split; [reflexivity|]. right. apply (Qmult_le_r _ _ _ Hd) in Hq.
        assert (Eq : (Qnat (length (distinct (rows h))) / Qnat (length (rows h)) * Qnat (length (rows h))
                      == Qnat (length (distinct (rows h))))%Q).
        { field. intro A. rewrite A in Hd. discriminate. }
        rewrite Eq in Hq. unfold Qnat, Qle, Qmult, inject_Z in Hq. cbn [Qnum Qden] in Hq. lia.
      + intros [_ [H|H]]; [lia|]. apply Qle_shift_div_r; [exact Hd|].
        unfold Qnat, Qle, Qmult, inject_Z. cbn [Qnum Qden]. lia.
  Qed.
End Statements.
Print Assumptions C04_merge_succeeds.
Print Assumptions C04_merge_of_other_column_fails.
Print Assumptions C05_merge_stops_exactly_at_thresholds.
Print Assumptions C06_merge_of_stopped_reports_larger.
Print Assumptions C62_is_match.

Example C05_merge_example :
  let h1 := HUpd (HNew None None None (Some 4) (Some (1 # 2)%Q)) [1; 1; 2] in
  let h2 := HUpd (HNew None None None (Some 4) (Some (1 # 2)%Q)) [3] in
  same_column None None (HAdd h1 h2) /\
  match run vc_simple h1, run vc_simple h2, run vc_simple (HAdd h1 h2) with
  | Ok s1, Ok s2, Ok s => cat_stopped s1 = false /\ cat_stopped s2 = false /\ cat_stopped s = true /\
       unique_count s = Some 3 /\ cat_n s = 4
  | _, _, _ => False
  end.
Proof. cbv zeta. split; [cbn; auto|]. vm_compute. auto. Qed.

Example C62_example :
  match run vc_simple (HUpd (HNew None None None None None) [1; 2; 3; 4; 5; 6; 7; 8; 9; 10]),
        run vc_simple (HUpd (HNew None None None None None) [1; 2; 3; 4; 5; 6; 7; 8; 9; 10; 11]) with
  | Ok a, Ok b => is_match a = true /\ is_match b = false
  | _, _ => False
  end.
Proof. vm_compute. auto. Qed.
