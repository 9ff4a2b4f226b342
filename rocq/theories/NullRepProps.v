(** Property C41: null replication metrics. *)
From Coq Require Import ZArith QArith Lqa.
From Verif Require Import QFacts ListFacts PyCommon PyDict NullRepModel.
Local Open Scope nat_scope.

Section Props.
  Variable nc : nat.

  (** Histories of a table with [nc] columns: updates with the order of the columns in the batch, and merges with the places
      of the columns in the second table *)
  Inductive hist :=
  | NNew
  | NUpd (h : hist) (order : list nat) (rows : list rowt)
  | NAdd (h1 h2 : hist) (perm : list nat).
  Fixpoint run (h : hist) : result prof :=
    match h with
    | NNew => Ok (new_prof nc)
    | NUpd h order rows => bind (run h) (fun p => Ok (update_prof p order rows))
    | NAdd h1 h2 perm => bind (run h1) (fun a => bind (run h2) (fun b => add_prof a b perm))
    end.
  Fixpoint rows_of (h : hist) : list rowt :=
    match h with NNew => [] | NUpd h _ rows => rows_of h ++ rows | NAdd h1 h2 _ => rows_of h1 ++ rows_of h2 end.

  (** ** What is expected *)
  Definition value (j : nat) (r : rowt) : Q := match cell_at r j with Some v => number v | None => 0%Q end.
  Definition nulls (i : nat) (rows : list rowt) : nat := length (filter (fun r => is_null r i) rows).
  Definition sum_over (f : rowt -> bool) (j : nat) (rows : list rowt) : Q := qsum (map (value j) (filter f rows)).
  Definition null_in (i : nat) (r : rowt) : bool := is_null r i.
  Definition given_in (i : nat) (r : rowt) : bool := negb (is_null r i).
  Definition others (i : nat) : list nat := filter (fun j => negb (j =? i)) (seq 0 nc).

  (** Columns are merged with the ones at the same place *)
  Fixpoint same_order (h : hist) : Prop :=
    match h with NNew => True | NUpd h _ _ => same_order h | NAdd h1 h2 perm => same_order h1 /\ same_order h2 /\ perm = seq 0 nc end.
  (** Batches have their columns in the order of the table *)
  Fixpoint same_columns (h : hist) : Prop :=
    match h with NNew => True | NUpd h order _ => same_columns h /\ order = seq 0 nc | NAdd h1 h2 _ => same_columns h1 /\ same_columns h2 end.
  (** Only numbers *)
  Definition plain (rows : list rowt) : Prop := forall r j v, In r rows -> cell_at r j = Some v -> v_num v <> None /\ v_date v = false.
  Definition has_value (j : nat) (rows : list rowt) : Prop := exists r, In r rows /\ is_null r j = false.
  (** If the last step is a merge, each column has values in both profiles *)
  Fixpoint filled (h : hist) : Prop :=
    match h with
    | NNew => True
    | NUpd h _ rows => rows <> [] \/ filled h
    | NAdd h1 h2 _ => forall j, j < nc -> has_value j (rows_of h1) /\ has_value j (rows_of h2)
    end.
  (** The labels of a batch differ and are not negative; after labels were shifted, the labels of each batch overlap *)
  Fixpoint labels_ok (h : hist) : Prop :=
    match h with
    | NNew => True
    | NUpd h _ rows => labels_ok h /\ NoDup (map fst rows) /\ (forall r, In r rows -> (0 <= fst r)%Z) /\
        (rows <> [] -> forall p, run h = Ok p -> p_shift p = None \/ overlap (p_ids p) (bounds rows) = true)
    | NAdd h1 h2 _ => labels_ok h1 /\ labels_ok h2
    end.

  (** ** Lists *)
  Let dc : colst := mkColst 0 0 [] [].
  Lemma mapi_length {A B} (f : nat -> A -> B) l : length (mapi f l) = length l.
  Proof. unfold mapi. rewrite map_length, combine_length, seq_length. lia. Qed.
  Lemma nth_combine_seq {A} (l : list A) d : forall s j, j < length l -> nth j (combine (seq s (length l)) l) (0, d) = (s + j, nth j l d).
  Proof. induction l as [|x l IH]; intros s j H; cbn [length] in *; [lia|]. cbn [seq combine]. destruct j as [|j]; [cbn; f_equal; lia|]. cbn [nth]. rewrite IH by lia. f_equal. lia. Qed.
  Lemma mapi_nth {A B} (f : nat -> A -> B) l d d' j : j < length l -> nth j (mapi f l) d' = f j (nth j l d).
  Proof.
    intro H. unfold mapi. rewrite (nth_indep _ d' (f (fst (0, d)) (snd (0, d)))) by (rewrite map_length, combine_length, seq_length; lia).
    rewrite (map_nth (fun p => f (fst p) (snd p)) _ (0, d)). rewrite nth_combine_seq by exact H. reflexivity.
  Qed.
  Lemma fold_metrics {A M} (g : nat -> A -> option M -> option M) (d0 : A) (l : list A) : forall s (d : dict nat M) i,
    dget (fold_left (fun d ic => match g (fst ic) (snd ic) (dget d (fst ic)) with Some m => dset d (fst ic) m | None => d end) (combine (seq s (length l)) l) d) i =
    if (s <=? i) && (i <? s + length l) then match g i (nth (i - s) l d0) (dget d i) with Some m => Some m | None => dget d i end else dget d i.
  Proof.
    induction l as [|x l IH]; intros s d i.
    - cbn [length seq combine fold_left]. destruct (Nat.leb_spec s i), (Nat.ltb_spec i (s + 0)); try lia; reflexivity.
    - cbn [length seq combine fold_left fst snd]. rewrite IH. set (d1 := match g s x (dget d s) with Some m => dset d s m | None => d end).
      assert (forall k, k <> s -> dget d1 k = dget d k) as Hk. { intros k Hk. unfold d1. destruct (g s x (dget d s)); [|reflexivity]. rewrite dget_dset. destruct (PyDict.eqb_spec s k) as [->|_]; [contradiction|reflexivity]. }
      destruct (Nat.eq_dec i s) as [->|Hi].
      + rewrite (proj2 (Nat.leb_gt (S s) s)) by lia. rewrite Nat.leb_refl. rewrite (proj2 (Nat.ltb_lt s (s + S (length l)))) by lia. cbn [andb]. rewrite Nat.sub_diag. cbn [nth]. unfold d1. destruct (g s x (dget d s)); [|reflexivity]. rewrite dget_dset, PyDict.eqb_refl. reflexivity.
      + rewrite (Hk i Hi). destruct (Nat.leb_spec (S s) i) as [H1|H1], (Nat.leb_spec s i) as [H2|H2]; try lia; cbn [andb]; [|reflexivity].
        replace (i - s) with (S (i - S s)) by lia. cbn [nth]. replace (s + S (length l)) with (S s + length l) by lia. reflexivity.
  Qed.

  Lemma others_split i : i < nc -> others i = seq 0 i ++ seq (S i) (nc - S i).
  Proof.
    intro H. unfold others. replace nc with (i + S (nc - S i)) at 1 by lia. rewrite seq_app, filter_app, Nat.add_0_l. cbn [seq filter]. rewrite Nat.eqb_refl. cbn [negb]. f_equal.
    - assert (forall s, s + i <= i + s /\ forall k, In k (seq 0 i) -> k < i) as HS by (intro s; split; [lia|]; intros k Hk; apply in_seq in Hk; lia). destruct (HS 0) as [_ HS']. clear HS. revert HS'. generalize (seq 0 i). intros l Hl. induction l as [|x l IH]; [reflexivity|]. cbn [filter]. destruct (Nat.eqb_spec x i) as [->|_]; [specialize (Hl i (or_introl eq_refl)); lia|]. cbn [negb]. f_equal. apply IH. intros; apply Hl; right; assumption.
    - assert (forall k, In k (seq (S i) (nc - S i)) -> i < k) as HS by (intros k Hk; apply in_seq in Hk; lia). revert HS. generalize (seq (S i) (nc - S i)). intros l Hl. induction l as [|x l IH]; [reflexivity|]. cbn [filter]. destruct (Nat.eqb_spec x i) as [->|_]; [specialize (Hl i (or_introl eq_refl)); lia|]. cbn [negb]. f_equal. apply IH. intros; apply Hl; right; assumption.
  Qed.
  Lemma firstn_map_nth {A} (d : A) i : forall l, i <= length l -> firstn i l = map (fun j => nth j l d) (seq 0 i).
  Proof. induction i as [|i IH]; intros l H; [reflexivity|]. destruct l as [|x l]; [cbn in H; lia|]. cbn [firstn seq map nth]. f_equal. rewrite <- seq_shift, map_map. cbn [nth]. apply IH. cbn in H; lia. Qed.
  Lemma skipn_map_nth {A} (d : A) i : forall l, i <= length l -> skipn i l = map (fun j => nth j l d) (seq i (length l - i)).
  Proof.
    induction i as [|i IH]; intros l H; [rewrite Nat.sub_0_r; cbn [skipn]; rewrite <- (firstn_all l) at 1; apply firstn_map_nth; lia|]. destruct l as [|x l]; [cbn in H; lia|].
    cbn [skipn length]. replace (S (length l) - S i) with (length l - i) by lia. rewrite <- seq_shift, map_map. cbn [nth]. apply IH. cbn in H; lia.
  Qed.
  Lemma delete_others {A} (d : A) (l : list A) i : length l = nc -> i < nc -> delete_at i l = map (fun j => nth j l d) (others i).
  Proof. intros HL Hi. unfold delete_at. rewrite (firstn_map_nth d) by lia. rewrite (skipn_map_nth d) by lia. rewrite others_split, map_app, HL by exact Hi. reflexivity. Qed.
  Lemma others_length i : i < nc -> length (others i) = nc - 1.
  Proof. intro H. rewrite others_split, app_length, !seq_length by exact H. lia. Qed.

  (** ** Counts of the columns *)
  Definition vals (j : nat) (rows : list rowt) : list val := flat_map (fun r => match cell_at r j with Some v => [v] | None => [] end) rows.
  Definition cgood (p : prof) (rows : list rowt) : Prop :=
    length (p_cols p) = nc /\
    forall j, j < nc -> let c := nth j (p_cols p) dc in k_nulls c = nulls j rows /\ k_size c = length rows /\ k_vals c = vals j rows.
  Lemma nulls_app i a b : nulls i (a ++ b) = nulls i a + nulls i b.
  Proof. unfold nulls. rewrite filter_app, app_length. reflexivity. Qed.
  Lemma nulls_le i rows : nulls i rows <= length rows.
  Proof. unfold nulls. induction rows as [|r l IH]; [reflexivity|]. cbn [filter]. destruct (is_null r i); cbn [length]; lia. Qed.
  Lemma vals_app j a b : vals j (a ++ b) = vals j a ++ vals j b.
  Proof. apply flat_map_app. Qed.
  Lemma cgood_new : cgood (new_prof nc) [].
  Proof. split; [apply repeat_length|]. intros j Hj. cbn [p_cols new_prof]. replace (nth j (repeat _ nc) dc) with dc; [auto|]. revert j Hj. generalize nc. intro m. induction m as [|m IH]; intros [|j] Hj; cbn; try lia; auto. apply IH. lia. Qed.
  Lemma cgood_update p order rows0 rows : cgood p rows0 -> cgood (update_prof p order rows) (rows0 ++ rows).
  Proof.
    intros [HL HC]. destruct rows as [|r rs] eqn:ER; [rewrite app_nil_r; split; assumption|]. rewrite <- ER. unfold update_prof. destruct rows as [|r' rs'] eqn:ER2; [discriminate|]. rewrite <- ER2. clear ER2 ER r' rs'.
    unfold cgood. cbn [p_cols]. split; [rewrite mapi_length; exact HL|]. intros j Hj. cbv zeta. rewrite (mapi_nth _ _ dc dc) by (rewrite HL; exact Hj). destruct (HC j Hj) as (H1 & H2 & H3). cbn [update_col k_nulls k_size k_vals].
    rewrite H1, H2, H3, nulls_app, app_length, vals_app. auto.
  Qed.
  Lemma combine_seq_nth {A} (l : list A) d j (perm : list nat) : perm = seq 0 (length l) -> j < length l -> nth j (combine l perm) (d, 0) = (nth j l d, j).
  Proof.
    intros -> H. rewrite combine_nth by (rewrite seq_length; reflexivity). rewrite seq_nth by exact H. reflexivity.
  Qed.
  Lemma cgood_add a b ra rb c : cgood a ra -> cgood b rb -> add_prof a b (seq 0 nc) = Ok c -> cgood c (ra ++ rb).
  Proof.
    intros [LA CA] [LB CB] H. unfold add_prof in H. destruct (existsb _ _); [discriminate|]. destruct (merge_sums (p_cols a)) as [sa|]; [|discriminate]. cbn [bind] in H. destruct (merge_sums (p_cols b)) as [sb|]; [|discriminate]. cbn [bind] in H. injection H as <-.
    unfold cgood. cbn [p_cols]. split; [rewrite map_length, combine_length, seq_length, LA; lia|]. intros j Hj. cbv zeta.
    set (s := if overlap (p_ids a) (p_ids b) then next_label (p_ids a) else 0%Z).
    rewrite (nth_indep _ dc (add_col s (fst (dc, 0)) (nth (snd (dc, 0)) (p_cols b) dc))) by (rewrite map_length, combine_length, seq_length, LA; lia). fold dc.
    rewrite (map_nth (fun p => add_col s (fst p) (nth (snd p) (p_cols b) dc))). rewrite combine_seq_nth by (rewrite ?LA; auto). cbn [fst snd]. destruct (CA j Hj) as (A1 & A2 & A3), (CB j Hj) as (B1 & B2 & B3). cbn [add_col k_nulls k_size k_vals].
    rewrite A1, A2, A3, B1, B2, B3, nulls_app, app_length, vals_app. auto.
  Qed.

  (** ** The metric of a column after an update or a merge *)
  Definition update_sums (p : prof) (order : list nat) (rows : list rowt) (i : nat) (c : colst) (o : option metric) : list Q :=
    let ov := overlap (p_ids p) (bounds rows) in
    let s := if ov then next_label (p_ids p) else 0%Z in
    let shift := if ov then Some s else p_shift p in
    let null_indices := match shift with Some s => filter (fun z => 0 <=? z)%Z (map (fun z => z - s)%Z (k_index c)) | None => k_index c end in
    let sums := batch_sums order rows null_indices i in
    match o with Some m => qadd sums (snd (m_sum m)) | None => sums end.
  Lemma metrics_update p order rows i : rows <> [] -> length (p_cols p) = nc -> i < nc ->
    let p' := update_prof p order rows in
    let c := nth i (p_cols p') dc in
    dget (p_metrics p') i =
      if k_nulls c =? 0 then dget (p_metrics p) i
      else Some (make_metric nc (k_nulls c) (k_size c) (map col_sum (p_cols p')) i (update_sums p order rows i c (dget (p_metrics p) i))).
  Proof.
    intros HR HL Hi. cbv zeta. unfold update_prof. destruct rows as [|r rs] eqn:ER; [contradiction|]. rewrite <- ER in *. clear r rs ER. cbn [p_cols p_metrics].
    set (s := if overlap (p_ids p) (bounds rows) then next_label (p_ids p) else 0%Z). set (shift := if overlap (p_ids p) (bounds rows) then Some s else p_shift p). set (cols := mapi (update_col s rows) (p_cols p)).
    assert (length cols = nc) as HLc by (unfold cols; rewrite mapi_length; exact HL).
    set (g := fun i c (o : option metric) => if k_nulls c =? 0 then None else
      Some (make_metric (length cols) (k_nulls c) (k_size c) (map col_sum cols) i (update_sums p order rows i c o))).
    transitivity (dget (fold_left (fun d ic => match g (fst ic) (snd ic) (dget d (fst ic)) with Some m => dset d (fst ic) m | None => d end) (combine (seq 0 (length cols)) cols) (p_metrics p)) i).
    { f_equal. generalize (combine (seq 0 (length cols)) cols) (p_metrics p). intros l. induction l as [|[k c] l IH]; intro d; [reflexivity|]. cbn [fold_left fst snd]. rewrite IH. f_equal. unfold update_metric, g. destruct (k_nulls c =? 0); reflexivity. }
    rewrite (fold_metrics g dc). rewrite HLc. rewrite Nat.add_0_l; change (0 <=? i) with true; cbn [andb]; rewrite (proj2 (Nat.ltb_lt i nc) Hi), Nat.sub_0_r. unfold g. rewrite HLc. destruct (k_nulls (nth i cols dc) =? 0); reflexivity.
  Qed.
  Definition merged_sums (a b : prof) (i : nat) : list Q :=
    let add s m := match m with Some m => qadd s (snd (m_sum m)) | None => s end in
    add (add (repeat 0%Q (nc - 1)) (dget (p_metrics a) i)) (dget (p_metrics b) i).
  Lemma metrics_add a b perm c i : length (p_cols a) = nc -> length (p_cols b) = nc -> add_prof a b perm = Ok c -> i < nc ->
    let ca := nth i (p_cols a) dc in let cb := nth i (p_cols b) dc in
    exists sa sb, merge_sums (p_cols a) = Ok sa /\ merge_sums (p_cols b) = Ok sb /\
    dget (p_metrics c) i =
      if k_nulls ca + k_nulls cb =? 0 then None
      else Some (make_metric nc (k_nulls ca + k_nulls cb) (k_size ca + k_size cb) (map (fun p => plus (fst p) (snd p)) (combine sa sb)) i (merged_sums a b i)).
  Proof.
    intros LA LB H Hi. cbv zeta. unfold add_prof in H. destruct (existsb _ _); [discriminate|]. destruct (merge_sums (p_cols a)) as [sa|]; [|discriminate]. cbn [bind] in H. destruct (merge_sums (p_cols b)) as [sb|]; [|discriminate]. cbn [bind] in H. injection H as <-.
    exists sa, sb. split; [reflexivity|]. split; [reflexivity|]. cbn [p_metrics]. set (total := map _ (combine sa sb)).
    set (g := fun i (x : colst * colst) (o : option metric) => if k_nulls (fst x) + k_nulls (snd x) =? 0 then None else
      Some (make_metric nc (k_nulls (fst x) + k_nulls (snd x)) (k_size (fst x) + k_size (snd x)) total i (merged_sums a b i))).
    transitivity (dget (fold_left (fun d ic => match g (fst ic) (snd ic) (dget d (fst ic)) with Some m => dset d (fst ic) m | None => d end) (combine (seq 0 (length (combine (p_cols a) (p_cols b)))) (combine (p_cols a) (p_cols b))) []) i).
    { rewrite combine_length, LA, LB, Nat.min_id. f_equal. generalize (combine (seq 0 nc) (combine (p_cols a) (p_cols b))) (@nil (nat * metric)). intros l. induction l as [|[k x] l IH]; intro d; [reflexivity|]. cbn [fold_left fst snd]. rewrite IH. f_equal. unfold merge_metric, g, merged_sums. rewrite LA. destruct (k_nulls (fst x) + k_nulls (snd x) =? 0); reflexivity. }
    rewrite (fold_metrics g (dc, dc)). rewrite combine_length, LA, LB, Nat.min_id. rewrite Nat.add_0_l; change (0 <=? i) with true; cbn [andb]; rewrite (proj2 (Nat.ltb_lt i nc) Hi), Nat.sub_0_r. rewrite combine_nth by (rewrite LA, LB; reflexivity). unfold g. cbn [fst snd dget]. destruct (k_nulls _ + k_nulls _ =? 0); reflexivity.
  Qed.

  Lemma run_cgood h : same_order h -> forall p, run h = Ok p -> cgood p (rows_of h).
  Proof.
    induction h as [|h IH order rows|h1 IH1 h2 IH2 perm]; intros HO p HR; cbn [run rows_of] in *.
    - injection HR as <-. exact cgood_new.
    - destruct (run h) as [q|]; [|discriminate]. cbn [bind] in HR. injection HR as <-. apply cgood_update. apply (IH HO q eq_refl).
    - destruct HO as (O1 & O2 & ->). destruct (run h1) as [a|]; [|discriminate]. destruct (run h2) as [b|]; [|discriminate]. cbn [bind] in HR. apply (cgood_add a b _ _ p (IH1 O1 a eq_refl) (IH2 O2 b eq_refl) HR).
  Qed.

  (** C41.  A column has metrics exactly if it has nulls; its class priors are the shares of given values and of nulls, which
      are not negative and sum up to 1. *)
  Theorem C41_priors h p i : same_order h -> run h = Ok p -> i < nc ->
    (nulls i (rows_of h) = 0 <-> dget (p_metrics p) i = None) /\
    forall m, dget (p_metrics p) i = Some m ->
      let rows := rows_of h in let '(given, null) := m_prior m in
      (given == Qn (length rows - nulls i rows) / Qn (length rows))%Q /\ (null == Qn (nulls i rows) / Qn (length rows))%Q /\
      (given + null == 1)%Q /\ (0 <= given)%Q /\ (0 <= null)%Q.
  Proof.
    intros HO HR Hi. cbv zeta.
    assert ((nulls i (rows_of h) = 0 /\ dget (p_metrics p) i = None) \/ (nulls i (rows_of h) <> 0 /\ exists total sums, dget (p_metrics p) i = Some (make_metric nc (nulls i (rows_of h)) (length (rows_of h)) total i sums))) as HX.
    { revert HO p HR. induction h as [|h IH order rows|h1 IH1 h2 IH2 perm]; intros HO p HR; pose proof (run_cgood _ HO p HR) as HC.
      - left. cbn [run] in HR. injection HR as <-. split; reflexivity.
      - cbn [run rows_of] in *. destruct (run h) as [q|] eqn:EQ; [|discriminate]. cbn [bind] in HR. injection HR as <-. destruct rows as [|r rs] eqn:ER; [rewrite app_nil_r in *; apply (IH HO q eq_refl)|]. rewrite <- ER in *.
        pose proof (run_cgood h HO q EQ) as [HL _]. rewrite (metrics_update q order rows i) by (rewrite ?ER; auto; discriminate). destruct HC as [_ HC]. destruct (HC i Hi) as (C1 & C2 & _). rewrite C1, C2.
        destruct (Nat.eqb_spec (nulls i (rows_of h ++ rows)) 0) as [E0|E0].
        + left. split; [exact E0|]. destruct (IH HO q eq_refl) as [[_ H]|[H _]]; [exact H|]. rewrite nulls_app in E0. lia.
        + right. split; [exact E0|]. eauto.
      - cbn [run rows_of] in *. destruct HO as (O1 & O2 & ->). destruct (run h1) as [a|] eqn:EA; [|discriminate]. destruct (run h2) as [b|] eqn:EB; [|discriminate]. cbn [bind] in HR.
        pose proof (run_cgood h1 O1 a EA) as [LA CA]. pose proof (run_cgood h2 O2 b EB) as [LB CB]. destruct (metrics_add a b _ p i LA LB HR Hi) as (sa & sb & _ & _ & ->). destruct (CA i Hi) as (A1 & A2 & _), (CB i Hi) as (B1 & B2 & _). rewrite A1, A2, B1, B2, nulls_app, app_length.
        destruct (Nat.eqb_spec (nulls i (rows_of h1) + nulls i (rows_of h2)) 0) as [E0|E0]; [left; auto|right; eauto]. }
    destruct HX as [[H0 ->]|[H0 (total & sums & ->)]]; [split; [tauto|discriminate]|]. split; [split; [contradiction|discriminate]|]. intros m Hm. injection Hm as <-. cbn [m_prior make_metric].
    pose proof (nulls_le i (rows_of h)) as HN. assert (0 < length (rows_of h)) as HLn by lia. pose proof (Qn_pos _ HLn) as HQ. split; [reflexivity|]. split; [reflexivity|]. split.
    - assert (Qn (length (rows_of h)) == Qn (length (rows_of h) - nulls i (rows_of h)) + Qn (nulls i (rows_of h)))%Q as HE by (rewrite <- Qn_plus; replace (length (rows_of h) - nulls i (rows_of h) + nulls i (rows_of h)) with (length (rows_of h)) by lia; reflexivity).
      rewrite HE. field. intro HZ. rewrite <- HE in HZ. lra.
    - split; (apply Qle_shift_div_l; [exact HQ|]; rewrite Qmult_0_l; apply Qn_nonneg).
  Qed.

  (** ** Labels *)
  Lemma bounds_spec rows r : In r rows -> exists lo hi, bounds rows = Some (lo, hi) /\ (lo <= fst r <= hi)%Z.
  Proof.
    induction rows as [|[z cs] rows IH]; [intros []|]. intros [<-|H]; cbn [bounds fst].
    - destruct (bounds rows) as [[lo hi]|]; eexists; eexists; (split; [reflexivity|]); lia.
    - destruct (IH H) as (lo & hi & -> & HB). eexists; eexists. split; [reflexivity|]. lia.
  Qed.
  Definition within (ids : option (Z * Z)) (z : Z) : Prop := exists lo hi, ids = Some (lo, hi) /\ (lo <= z <= hi)%Z.
  Definition lgood (p : prof) : Prop := forall j z, j < nc -> In z (k_index (nth j (p_cols p) dc)) -> within (p_ids p) z.
  Lemma within_join_l x y z : within x z -> within (join_ids x y) z.
  Proof. intros (lo & hi & -> & H). destruct y as [[lo' hi']|]; cbn [join_ids]; eexists; eexists; (split; [reflexivity|]); lia. Qed.
  Lemma within_join_r x y z : within y z -> within (join_ids x y) z.
  Proof. intros (lo & hi & -> & H). destruct x as [[lo' hi']|]; cbn [join_ids]; eexists; eexists; (split; [reflexivity|]); lia. Qed.
  Lemma within_shift s x z : within x z -> within (shift_ids s x) (z + s)%Z.
  Proof. intros (lo & hi & -> & H). cbn [shift_ids]. eexists; eexists; (split; [reflexivity|]); lia. Qed.
  Lemma in_nulls s rows j z : In z (flat_map (fun r => nullb r j (fun r => fst r + s)%Z) rows) <-> exists r, In r rows /\ is_null r j = true /\ z = (fst r + s)%Z.
  Proof.
    rewrite in_flat_map. split.
    - intros (r & Hr & Hz). exists r. unfold nullb in Hz. destruct (is_null r j); [|destruct Hz]. destruct Hz as [<-|[]]. auto.
    - intros (r & Hr & Hn & ->). exists r. split; [exact Hr|]. unfold nullb. rewrite Hn. left. reflexivity.
  Qed.
  Lemma lgood_update p order rows : length (p_cols p) = nc -> lgood p -> lgood (update_prof p order rows).
  Proof.
    intros HL HG. unfold update_prof. destruct rows as [|r rs] eqn:ER; [exact HG|]. rewrite <- ER. clear r rs ER. set (s := if overlap (p_ids p) (bounds rows) then next_label (p_ids p) else 0%Z).
    intros j z Hj Hz. cbn [p_cols p_ids] in *. rewrite (mapi_nth _ _ dc dc) in Hz by (rewrite HL; exact Hj). cbn [update_col k_index] in Hz. apply in_app_iff in Hz as [Hz|Hz]; [apply within_join_l; apply (HG j z Hj Hz)|].
    apply within_join_r. apply in_nulls in Hz as (r & Hr & _ & ->). apply within_shift. destruct (bounds_spec rows r Hr) as (lo & hi & HB & HR). exists lo, hi. auto.
  Qed.
  Lemma lgood_add a b c : length (p_cols a) = nc -> lgood a -> lgood b -> add_prof a b (seq 0 nc) = Ok c -> lgood c.
  Proof.
    intros LA GA GB H. unfold add_prof in H. destruct (existsb _ _); [discriminate|]. destruct (merge_sums (p_cols a)) as [sa|]; [|discriminate]. cbn [bind] in H. destruct (merge_sums (p_cols b)) as [sb|]; [|discriminate]. cbn [bind] in H. injection H as <-.
    set (s := if overlap (p_ids a) (p_ids b) then next_label (p_ids a) else 0%Z). intros j z Hj Hz. cbn [p_cols p_ids] in *.
    rewrite (nth_indep _ dc (add_col s (fst (dc, 0)) (nth (snd (dc, 0)) (p_cols b) dc))) in Hz by (rewrite map_length, combine_length, seq_length, LA; lia). fold dc in Hz.
    rewrite (map_nth (fun p => add_col s (fst p) (nth (snd p) (p_cols b) dc))) in Hz. rewrite combine_seq_nth in Hz by (rewrite ?LA; auto). cbn [fst snd add_col k_index] in Hz. apply in_app_iff in Hz as [Hz|Hz]; [apply within_join_l; apply (GA j z Hj Hz)|].
    apply in_map_iff in Hz as (y & <- & Hy). apply within_join_r, within_shift. apply (GB j y Hj Hy).
  Qed.
  Lemma run_lgood h : same_order h -> forall p, run h = Ok p -> lgood p.
  Proof.
    induction h as [|h IH order rows|h1 IH1 h2 IH2 perm]; intros HO p HR; cbn [run] in *.
    - injection HR as <-. intros j z Hj Hz. destruct cgood_new as [_ HC]. exfalso. cbn [new_prof p_cols] in Hz. replace (nth j (repeat _ nc) dc) with dc in Hz; [destruct Hz|]. revert j Hj Hz. clear. generalize nc. intro m. induction m as [|m IH]; intros [|j] Hj Hz; cbn in *; try lia; auto. apply IH; [lia|exact Hz].
    - destruct (run h) as [q|] eqn:EQ; [|discriminate]. cbn [bind] in HR. injection HR as <-. apply lgood_update; [apply (run_cgood h HO q EQ)|apply (IH HO q eq_refl)].
    - destruct HO as (O1 & O2 & ->). destruct (run h1) as [a|] eqn:EA; [|discriminate]. destruct (run h2) as [b|] eqn:EB; [|discriminate]. cbn [bind] in HR. apply (lgood_add a b p); [apply (run_cgood h1 O1 a EA)|apply (IH1 O1 a eq_refl)|apply (IH2 O2 b eq_refl)|exact HR].
  Qed.

  Lemma NoDup_label (rows : list rowt) r r' : NoDup (map fst rows) -> In r rows -> In r' rows -> fst r = fst r' -> r = r'.
  Proof.
    induction rows as [|x rows IH]; [intros _ []|]. cbn [map]. intros HN. inversion HN as [|? ? Hx HN']; subst. intros [<-|H] [<-|H'] HE; try reflexivity.
    - exfalso. apply Hx. rewrite HE. apply in_map. exact H'.
    - exfalso. apply Hx. rewrite <- HE. apply in_map. exact H.
    - apply IH; assumption.
  Qed.
  (** The rows chosen are the rows of the batch with a null *)
  Lemma chosen_null p rows i r : lgood p -> length (p_cols p) = nc -> i < nc -> NoDup (map fst rows) -> (forall r, In r rows -> (0 <= fst r)%Z) ->
    (p_shift p = None \/ overlap (p_ids p) (bounds rows) = true) -> In r rows ->
    let ov := overlap (p_ids p) (bounds rows) in
    let s := if ov then next_label (p_ids p) else 0%Z in
    let shift := if ov then Some s else p_shift p in
    let c := update_col s rows i (nth i (p_cols p) dc) in
    let null_indices := match shift with Some s => filter (fun z => 0 <=? z)%Z (map (fun z => z - s)%Z (k_index c)) | None => k_index c end in
    existsb (Z.eqb (fst r)) null_indices = is_null r i.
  Proof.
    intros HG HL Hi HN HP HS Hr. cbv zeta.
    assert (forall l, existsb (Z.eqb (fst r)) l = true <-> In (fst r) l) as HX. { intro l. rewrite existsb_exists. split; [intros (z & Hz & Ez); apply Z.eqb_eq in Ez; congruence|]. intro H. exists (fst r). split; [exact H|apply Z.eqb_refl]. }
    assert (forall A B : bool, (A = true <-> B = true) -> A = B) as HB by (intros [] []; intuition congruence). apply HB. rewrite HX. clear HB HX.
    assert (forall s', (exists r', In r' rows /\ is_null r' i = true /\ (fst r + s' = fst r' + s')%Z) <-> is_null r i = true) as HR.
    { intro s'. split; [|intro H; exists r; auto]. intros (r' & Hr' & Hn & HE). assert (r = r') as -> by (apply (NoDup_label rows); [exact HN|exact Hr|exact Hr'|lia]). exact Hn. }
    destruct (bounds_spec rows r Hr) as (lo' & hi' & HBs & HB). destruct (overlap (p_ids p) (bounds rows)) eqn:EO.
    - rewrite filter_In, in_map_iff. cbn [update_col k_index]. set (s := next_label (p_ids p)). split.
      + intros [(z & Hz & Hi1) _]. apply in_app_iff in Hi1 as [Hi1|Hi1].
        * exfalso. destruct (HG i z Hi Hi1) as (lo & hi & HE & Hb). unfold s in Hz. rewrite HE in Hz. cbn [next_label] in Hz. specialize (HP r Hr). lia.
        * apply in_nulls in Hi1 as (r' & Hr' & Hn & ->). apply (HR s). exists r'. split; [exact Hr'|]. split; [exact Hn|]. lia.
      + intro Hn. split; [|apply Z.leb_le; apply HP; exact Hr]. exists (fst r + s)%Z. split; [lia|]. apply in_app_iff. right. apply in_nulls. exists r. auto.
    - destruct HS as [->|HS]; [|congruence]. cbn [update_col k_index]. rewrite in_app_iff. split.
      + intros [Hi1|Hi1].
        * exfalso. destruct (HG i _ Hi Hi1) as (lo & hi & HE & Hb). rewrite HE, HBs in EO. cbn [overlap] in EO. apply not_true_iff_false in EO. apply EO. repeat rewrite orb_true_iff. repeat rewrite andb_true_iff. rewrite !Z.leb_le. lia.
        * apply in_nulls in Hi1 as (r' & Hr' & Hn & HE). apply (HR 0%Z). exists r'. split; [exact Hr'|]. split; [exact Hn|]. lia.
      + intro Hn. right. apply in_nulls. exists r. split; [exact Hr|]. split; [exact Hn|]. lia.
  Qed.

  (** ** Sums *)
  Lemma sum_over_app f j a b : (sum_over f j (a ++ b) == sum_over f j a + sum_over f j b)%Q.
  Proof. unfold sum_over. rewrite filter_app, map_app. apply qsum_app. Qed.
  Lemma sum_over_none f j rows : (forall r, In r rows -> f r = false) -> (sum_over f j rows == 0)%Q.
  Proof. intro H. unfold sum_over. replace (filter f rows) with (@nil rowt); [reflexivity|]. induction rows as [|r rows IH]; [reflexivity|]. cbn [filter]. rewrite (H r (or_introl eq_refl)). apply IH. intros; apply H; right; assumption. Qed.
  Lemma nulls_zero i rows : nulls i rows = 0 -> forall r, In r rows -> null_in i r = false.
  Proof. unfold nulls, null_in. intros H r Hr. destruct (is_null r i) eqn:EN; [|reflexivity]. exfalso. assert (In r (filter (fun r => is_null r i) rows)) as HI by (apply filter_In; auto). destruct (filter _ rows); [destruct HI|discriminate]. Qed.
  Lemma batch_sums_eq rows ni i : i < nc -> (forall r, In r rows -> existsb (Z.eqb (fst r)) ni = is_null r i) ->
    Forall2 (fun j q => (q == sum_over (null_in i) j rows)%Q) (others i) (batch_sums (seq 0 nc) rows ni i).
  Proof.
    intros Hi HE. unfold batch_sums. fold (others i). assert (forall j, In j (others i) -> j < nc) as HO by (intros j Hj; apply filter_In in Hj as [Hj _]; apply in_seq in Hj; lia).
    revert HO. generalize (others i). intro l. induction l as [|j l IH]; intro HO; [constructor|]. cbn [map]. constructor; [|apply IH; intros; apply HO; right; assumption].
    assert (j < nc) as Hj by (apply HO; left; reflexivity). clear IH HO. change (fun r => match cell_at r j with Some v => number v | None => 0%Q end) with (value j). induction rows as [|r rows IH]; [reflexivity|].
    assert (sum_over (null_in i) j (r :: rows) == (if is_null r i then value j r else 0) + sum_over (null_in i) j rows)%Q as ->.
    { unfold sum_over. cbn [filter]. change (null_in i r) with (is_null r i). destruct (is_null r i); cbn [map]; [rewrite qsum_cons|]; ring. }
    rewrite <- IH by (intros; apply HE; right; assumption). cbn [filter]. destruct (existsb (fun k => negb (is_null r k)) (seq 0 nc)) eqn:EX.
    - cbn [filter]. rewrite (HE r (or_introl eq_refl)). destruct (is_null r i); [cbn [map]; rewrite qsum_cons|]; ring.
    - assert (value j r == 0)%Q as HV. { unfold value. destruct (cell_at r j) as [v|] eqn:EC; [|reflexivity]. exfalso. apply not_true_iff_false in EX. apply EX. apply existsb_exists. exists j. split; [apply in_seq; lia|]. unfold is_null. rewrite EC. reflexivity. }
      destruct (is_null r i); rewrite ?HV; ring.
  Qed.
  Lemma qadd_Forall2 (f g : nat -> Q) l : forall a b, Forall2 (fun j q => (q == f j)%Q) l a -> Forall2 (fun j q => (q == g j)%Q) l b -> Forall2 (fun j q => (q == f j + g j)%Q) l (qadd a b).
  Proof.
    induction l as [|j l IH]; intros a b HA HB; inversion HA; inversion HB; subst; [constructor|]. unfold qadd. cbn [combine map fst snd]. constructor; [|apply IH; assumption]. apply Qplus_comp; assumption.
  Qed.
  Lemma Forall2_weak {A B} (P P' : A -> B -> Prop) l l' : (forall a b, In a l -> P a b -> P' a b) -> Forall2 P l l' -> Forall2 P' l l'.
  Proof. intros H HF. induction HF; constructor; [apply H; [left; reflexivity|assumption]|]. apply IHHF. intros; apply H; [right; assumption|assumption]. Qed.

  Definition sgood (p : prof) (rows : list rowt) : Prop :=
    forall i, i < nc -> match dget (p_metrics p) i with
                        | Some m => Forall2 (fun j q => (q == sum_over (null_in i) j rows)%Q) (others i) (snd (m_sum m))
                        | None => nulls i rows = 0
                        end.
  Lemma update_sums_good p rows0 rows i : cgood p rows0 -> lgood p -> sgood p rows0 -> i < nc -> NoDup (map fst rows) -> (forall r, In r rows -> (0 <= fst r)%Z) ->
    (p_shift p = None \/ overlap (p_ids p) (bounds rows) = true) -> rows <> [] ->
    Forall2 (fun j q => (q == sum_over (null_in i) j (rows0 ++ rows))%Q) (others i)
      (update_sums p (seq 0 nc) rows i (nth i (p_cols (update_prof p (seq 0 nc) rows)) dc) (dget (p_metrics p) i)).
  Proof.
    intros [HL HC] HG HS Hi HN HP HSh HR. unfold update_sums.
    assert (nth i (p_cols (update_prof p (seq 0 nc) rows)) dc = update_col (if overlap (p_ids p) (bounds rows) then next_label (p_ids p) else 0%Z) rows i (nth i (p_cols p) dc)) as ->.
    { unfold update_prof. destruct rows as [|r rs] eqn:ER; [contradiction|]. cbn [p_cols]. apply (mapi_nth _ _ dc dc). rewrite HL. exact Hi. }
    set (ni := match (if overlap (p_ids p) (bounds rows) then _ else p_shift p) with Some s => _ | None => _ end).
    assert (Forall2 (fun j q => (q == sum_over (null_in i) j rows)%Q) (others i) (batch_sums (seq 0 nc) rows ni i)) as HB by (apply batch_sums_eq; [exact Hi|]; intros r Hr; apply (chosen_null p rows i r HG HL Hi HN HP HSh Hr)).
    specialize (HS i Hi). destruct (dget (p_metrics p) i) as [m|].
    - eapply Forall2_weak; [|apply (qadd_Forall2 _ _ _ _ _ HB HS)]. intros j q _ Hq. cbv beta in Hq. rewrite Hq, sum_over_app. ring.
    - eapply Forall2_weak; [|exact HB]. intros j q _ Hq. cbv beta in Hq. rewrite Hq, sum_over_app, (sum_over_none _ j rows0) by (apply nulls_zero; exact HS). ring.
  Qed.
  Lemma merged_sums_good a b ra rb i : sgood a ra -> sgood b rb -> i < nc ->
    Forall2 (fun j q => (q == sum_over (null_in i) j (ra ++ rb))%Q) (others i) (merged_sums a b i).
  Proof.
    intros SA SB Hi. specialize (SA i Hi). specialize (SB i Hi). unfold merged_sums.
    assert (Forall2 (fun j q => (q == 0)%Q) (others i) (repeat 0%Q (nc - 1))) as HZ. { rewrite <- (others_length i Hi). generalize (others i). intro l. induction l; cbn; constructor; [reflexivity|assumption]. }
    set (s1 := match dget (p_metrics a) i with Some m => _ | None => _ end).
    assert (Forall2 (fun j q => (q == sum_over (null_in i) j ra)%Q) (others i) s1) as H1.
    { unfold s1. destruct (dget (p_metrics a) i) as [m|].
      - eapply Forall2_weak; [|apply (qadd_Forall2 _ _ _ _ _ HZ SA)]. intros j q _ Hq. cbv beta in Hq. rewrite Hq. ring.
      - eapply Forall2_weak; [|exact HZ]. intros j q _ Hq. cbv beta in Hq. rewrite Hq, (sum_over_none _ j ra) by (apply nulls_zero; exact SA). reflexivity. }
    destruct (dget (p_metrics b) i) as [m|].
    - eapply Forall2_weak; [|apply (qadd_Forall2 _ _ _ _ _ H1 SB)]. intros j q _ Hq. cbv beta in Hq. rewrite Hq, sum_over_app. ring.
    - eapply Forall2_weak; [|exact H1]. intros j q _ Hq. cbv beta in Hq. rewrite Hq, sum_over_app, (sum_over_none _ j rb) by (apply nulls_zero; exact SB). ring.
  Qed.
  Lemma sums_of_make n nu sz total i sums : snd (m_sum (make_metric n nu sz total i sums)) = sums.
  Proof. reflexivity. Qed.
  Lemma run_sgood h : same_order h -> same_columns h -> labels_ok h -> forall p, run h = Ok p -> sgood p (rows_of h).
  Proof.
    induction h as [|h IH order rows|h1 IH1 h2 IH2 perm]; intros HO HCo HLa p HR.
    - cbn [run] in HR. injection HR as <-. intros i Hi. reflexivity.
    - pose proof (run_cgood _ HO p HR) as HC. cbn [run rows_of] in *. destruct (run h) as [q|] eqn:EQ; [|discriminate]. cbn [bind] in HR. injection HR as <-. destruct HCo as [HCo ->]. destruct HLa as (HLa & HN & HP & HS). 
      specialize (IH HO HCo HLa q eq_refl). pose proof (run_cgood h HO q EQ) as HC0. destruct rows as [|r rs] eqn:ER; [rewrite app_nil_r; exact IH|]. rewrite <- ER in *. assert (rows <> []) as HR by (rewrite ER; discriminate). specialize (HS HR q EQ).
      intros i Hi. rewrite (metrics_update q _ rows i HR (proj1 HC0) Hi). destruct HC as [_ HC]. destruct (HC i Hi) as (C1 & C2 & _). rewrite C1, C2. destruct (Nat.eqb_spec (nulls i (rows_of h ++ rows)) 0) as [E0|E0].
      + specialize (IH i Hi). destruct (dget (p_metrics q) i) as [m|]; [|exact E0]. eapply Forall2_weak; [|exact IH]. intros j s _ Hq. cbv beta in Hq. rewrite Hq. rewrite !sum_over_none by (apply nulls_zero; rewrite ?nulls_app in *; lia). reflexivity.
      + rewrite sums_of_make. apply update_sums_good; auto. apply (run_lgood h HO q EQ).
    - cbn [run rows_of] in *. destruct HO as (O1 & O2 & ->). destruct HCo as [C1 C2]. destruct HLa as [L1 L2]. destruct (run h1) as [a|] eqn:EA; [|discriminate]. destruct (run h2) as [b|] eqn:EB; [|discriminate]. cbn [bind] in HR.
      pose proof (run_cgood h1 O1 a EA) as [LA CA]. pose proof (run_cgood h2 O2 b EB) as [LB CB]. intros i Hi. destruct (metrics_add a b _ p i LA LB HR Hi) as (sa & sb & _ & _ & ->). destruct (CA i Hi) as (A1 & A2 & _), (CB i Hi) as (B1 & B2 & _). rewrite A1, A2, B1, B2.
      destruct (Nat.eqb_spec (nulls i (rows_of h1) + nulls i (rows_of h2)) 0) as [E0|E0]; [rewrite nulls_app; exact E0|]. rewrite sums_of_make. apply merged_sums_good; [apply (IH1 O1 C1 L1 a eq_refl)|apply (IH2 O2 C2 L2 b eq_refl)|exact Hi].
  Qed.

  Definition everywhere (r : rowt) : bool := true.
  Lemma sum_split i j rows : (sum_over everywhere j rows == sum_over (null_in i) j rows + sum_over (given_in i) j rows)%Q.
  Proof.
    unfold sum_over. induction rows as [|r rows IH]; [reflexivity|]. cbn [filter everywhere]. unfold null_in, given_in in *. rewrite (map_cons (value j) r), qsum_cons, IH. destruct (is_null r i); cbn [negb map]; rewrite qsum_cons; ring.
  Qed.
  (** The sum of a column of numbers *)
  Definition sum_is (rows : list rowt) (j : nat) (o : option Q) : Prop :=
    match o with Some q => (q == sum_over everywhere j rows)%Q /\ has_value j rows | None => ~ has_value j rows end.
  Lemma in_vals j rows v : In v (vals j rows) <-> exists r, In r rows /\ cell_at r j = Some v.
  Proof. unfold vals. rewrite in_flat_map. split; intros (r & Hr & Hv); exists r; (split; [exact Hr|]); destruct (cell_at r j); [destruct Hv as [->|[]]; reflexivity|destruct Hv|injection Hv as ->; left; reflexivity|discriminate]. Qed.
  Lemma has_value_vals j rows : has_value j rows <-> vals j rows <> [].
  Proof.
    split.
    - intros (r & Hr & Hn) HE. unfold is_null in Hn. destruct (cell_at r j) as [v|] eqn:EC; [|discriminate]. assert (In v (vals j rows)) as HI by (apply in_vals; eauto). rewrite HE in HI. destruct HI.
    - intro H. destruct (vals j rows) as [|v l] eqn:EV; [contradiction|]. assert (In v (vals j rows)) as HI by (rewrite EV; left; reflexivity). apply in_vals in HI as (r & Hr & HC). exists r. split; [exact Hr|]. unfold is_null. rewrite HC. reflexivity.
  Qed.
  Lemma vals_sum j rows : (qsum (map number (vals j rows)) == sum_over everywhere j rows)%Q.
  Proof.
    unfold sum_over, vals. induction rows as [|r rows IH]; [reflexivity|]. cbn [flat_map filter everywhere map]. rewrite qsum_cons, map_app, qsum_app, IH. unfold value. destruct (cell_at r j) as [v|]; [cbn [map]; rewrite qsum_cons|]; cbn [qsum map fold_right]; ring.
  Qed.
  Lemma plain_sum c j rows : plain rows -> k_vals c = vals j rows -> sum_is rows j (col_sum c) /\ merge_sum c = Ok (col_sum c).
  Proof.
    intros HP HV. unfold col_sum, merge_sum, sum_is. rewrite HV. destruct (vals j rows) as [|v l] eqn:EV; [split; [rewrite has_value_vals, EV; congruence|reflexivity]|]. rewrite <- EV.
    assert (forall w, In w (vals j rows) -> v_num w <> None /\ v_date w = false) as HW by (intros w Hw; apply in_vals in Hw as (r & Hr & HC); apply (HP r j w Hr HC)).
    assert (all_dates (vals j rows) = false) as ->. { unfold all_dates. rewrite EV. cbn [forallb]. rewrite (proj2 (HW v ltac:(rewrite EV; left; reflexivity))). reflexivity. }
    split; [|reflexivity]. split; [|rewrite has_value_vals, EV; discriminate]. unfold type_sum.
    assert (all_numbers (vals j rows) = true) as ->. { apply forallb_forall. intros w Hw. destruct (HW w Hw) as [H _]. destruct (v_num w); [reflexivity|contradiction]. }
    apply vals_sum.
  Qed.
  Lemma merge_sums_map l : (forall c, In c l -> merge_sum c = Ok (col_sum c)) -> merge_sums l = Ok (map col_sum l).
  Proof. induction l as [|c l IH]; intro H; [reflexivity|]. cbn [merge_sums map]. rewrite (H c (or_introl eq_refl)). cbn [bind]. rewrite IH by (intros; apply H; right; assumption). reflexivity. Qed.
  Lemma plain_app a b : plain (a ++ b) -> plain a /\ plain b.
  Proof. intro H. split; intros r j v Hr; apply (H r j v); apply in_app_iff; auto. Qed.
  Lemma cols_sums p rows : cgood p rows -> plain rows -> merge_sums (p_cols p) = Ok (map col_sum (p_cols p)) /\ forall j, j < nc -> sum_is rows j (nth j (map col_sum (p_cols p)) None).
  Proof.
    intros [HL HC] HP. split.
    - apply merge_sums_map. intros c Hc. apply (In_nth _ _ dc) in Hc as (j & Hj & <-). rewrite HL in Hj. apply (plain_sum _ j rows HP). apply (HC j Hj).
    - intros j Hj. rewrite (nth_indep _ None (col_sum dc)) by (rewrite map_length, HL; exact Hj). rewrite map_nth. apply (plain_sum _ j rows HP). apply (HC j Hj).
  Qed.

  (** C41.  For tables of numbers, whatever the updates and merges: the class sums of a column with nulls are the sums of the
      other columns over the rows where it is null and the rows where it is given, and the class means are these sums
      divided by the number of these rows. *)
  Definition given_mean (rows : list rowt) (i j : nat) (n : nat) (o : option Q) : Prop :=
    match o with Some q => (q == sum_over (given_in i) j rows / Qn n)%Q | None => ~ has_value j rows end.
  Definition sums_agree (rows : list rowt) (i : nat) (m : metric) : Prop :=
    Forall2 (fun j s => (s == sum_over (null_in i) j rows)%Q) (others i) (snd (m_sum m)) /\
    Forall2 (fun j s => (s == sum_over (null_in i) j rows / Qn (nulls i rows))%Q) (others i) (snd (m_mean m)) /\
    (nulls i rows < length rows ->
       Forall2 (fun j o => given_mean rows i j 1 o) (others i) (fst (m_sum m)) /\
       Forall2 (fun j o => given_mean rows i j (length rows - nulls i rows) o) (others i) (fst (m_mean m))).
  Lemma make_good rows i total sums : i < nc -> length total = nc -> (forall j, j < nc -> sum_is rows j (nth j total None)) ->
    Forall2 (fun j q => (q == sum_over (null_in i) j rows)%Q) (others i) sums ->
    sums_agree rows i (make_metric nc (nulls i rows) (length rows) total i sums).
  Proof.
    intros Hi HT HS HF. unfold sums_agree, make_metric. cbn [m_sum m_mean fst snd]. split; [exact HF|]. split.
    { clear -HF. induction HF; cbn [map]; constructor; [|assumption]. rewrite H. reflexivity. }
    intro HN. destruct (Nat.eqb_spec (length rows - nulls i rows) 0) as [E0|E0]; [lia|]. rewrite (delete_others None total i HT Hi).
    assert (forall j, In j (others i) -> j < nc) as HO by (intros j Hj; apply filter_In in Hj as [Hj _]; apply in_seq in Hj; lia).
    revert HF HO. generalize (others i). intros l HF. induction HF as [|j q l sums Hq HF IH]; intro HO; [split; constructor|]. destruct (IH (fun k Hk => HO k (or_intror Hk))) as [I1 I2]. cbn [map combine fst snd].
    specialize (HS j (HO j (or_introl eq_refl))). pose proof (sum_split i j rows) as HSp. unfold sum_is in HS. split; (constructor; [|assumption]); destruct (nth j total None) as [t|]; cbn [minus divide given_mean]; try exact HS.
    - destruct HS as [HS _]. rewrite HS, Hq, HSp. change (Qn 1) with 1%Q. field.
    - destruct HS as [HS _]. rewrite HS, Hq, HSp. apply Qmult_comp; [ring|reflexivity].
  Qed.
  Theorem C41_sums h p i : same_order h -> same_columns h -> labels_ok h -> filled h -> plain (rows_of h) -> run h = Ok p -> i < nc -> nulls i (rows_of h) <> 0 ->
    exists m, dget (p_metrics p) i = Some m /\ sums_agree (rows_of h) i m.
  Proof.
    revert p. induction h as [|h IH order rows|h1 _ h2 _ perm]; intros p HO HCo HLa HFi HPl HR Hi HNu.
    - exfalso. apply HNu. reflexivity.
    - pose proof (run_cgood _ HO p HR) as HC. pose proof HR as HR0. pose proof HCo as HCo0. pose proof HLa as HLa0. cbn [run rows_of] in *. destruct (run h) as [q|] eqn:EQ; [|discriminate]. cbn [bind] in HR. injection HR as <-. destruct HCo as [HCo ->]. destruct HLa as (HLa & HN & HP & HS).
      destruct rows as [|r rs] eqn:ER; [rewrite app_nil_r in *; apply (IH q HO HCo HLa); auto; destruct HFi; [contradiction|assumption]|]. rewrite <- ER in *. assert (rows <> []) as HR by (rewrite ER; discriminate). clear IH HFi.
      rewrite (metrics_update q _ rows i HR (proj1 (run_cgood h HO q EQ)) Hi). destruct (cols_sums _ _ HC HPl) as [_ HT]. pose proof HC as [LC HC']. destruct (HC' i Hi) as (C1 & C2 & _). rewrite C1, C2. destruct (Nat.eqb_spec (nulls i (rows_of h ++ rows)) 0) as [E0|E0]; [contradiction|].
      eexists. split; [reflexivity|]. rewrite ?LC. apply make_good; [exact Hi|rewrite map_length; exact LC|exact HT|]. apply update_sums_good; auto; [apply (run_cgood h HO q EQ)|apply (run_lgood h HO q EQ)|apply (run_sgood h HO HCo HLa q EQ)].
    - cbn [run rows_of filled] in *. destruct HO as (O1 & O2 & ->). destruct HCo as [C1 C2]. destruct HLa as [L1 L2]. destruct (run h1) as [a|] eqn:EA; [|discriminate]. destruct (run h2) as [b|] eqn:EB; [|discriminate]. cbn [bind] in HR.
      pose proof (run_cgood h1 O1 a EA) as GA. pose proof (run_cgood h2 O2 b EB) as GB. pose proof GA as [LA CA]. pose proof GB as [LB CB]. destruct (plain_app _ _ HPl) as [P1 P2]. destruct (cols_sums a _ GA P1) as [MA TA]. destruct (cols_sums b _ GB P2) as [MB TB].
      destruct (metrics_add a b _ p i LA LB HR Hi) as (sa & sb & Ea & Eb & ->). rewrite MA in Ea. rewrite MB in Eb. injection Ea as <-. injection Eb as <-. destruct (CA i Hi) as (A1 & A2 & _), (CB i Hi) as (B1 & B2 & _). rewrite A1, A2, B1, B2, <- nulls_app, <- app_length, ?LA.
      destruct (Nat.eqb_spec (nulls i (rows_of h1 ++ rows_of h2)) 0) as [E0|E0]; [contradiction|]. eexists. split; [reflexivity|]. apply make_good; [exact Hi|rewrite map_length, combine_length, !map_length, LA, LB; lia| |].
      + intros j Hj. specialize (TA j Hj). specialize (TB j Hj). destruct (HFi j Hj) as [F1 F2].
        rewrite (nth_indep _ None (plus (fst (@None Q, @None Q)) (snd (@None Q, @None Q)))) by (rewrite map_length, combine_length, !map_length, LA, LB; lia). rewrite (map_nth (fun p => plus (fst p) (snd p))). rewrite combine_nth by (rewrite !map_length, LA, LB; reflexivity).
        cbn [fst snd]. unfold sum_is in *. destruct (nth j (map col_sum (p_cols a)) None) as [x|]; [|contradiction]. destruct (nth j (map col_sum (p_cols b)) None) as [y|]; [|contradiction]. cbn [plus]. destruct TA as [TA _], TB as [TB _]. split; [rewrite sum_over_app, TA, TB; reflexivity|]. destruct F1 as (r & Hr & Hn). exists r. split; [apply in_app_iff; auto|exact Hn].
      + apply merged_sums_good; [apply (run_sgood h1 O1 C1 L1 a EA)|apply (run_sgood h2 O2 C2 L2 b EB)|exact Hi].
  Qed.

  (** With the row labels that tables have by default, 0, 1, ... in each batch, the labels cause no trouble *)
  Fixpoint default_labels (h : hist) : Prop :=
    match h with
    | NNew => True
    | NUpd h _ rows => default_labels h /\ map fst rows = map Z.of_nat (seq 0 (length rows))
    | NAdd h1 h2 _ => default_labels h1 /\ default_labels h2
    end.
  Lemma bounds_default l : forall rows s, map fst rows = map Z.of_nat (seq s l) -> l <> 0 -> bounds rows = Some (Z.of_nat s, Z.of_nat (s + l - 1)).
  Proof.
    induction l as [|l IH]; intros rows s H Hl; [lia|]. destruct rows as [|[z cs] rows]; [discriminate|]. cbn [seq map fst] in H. injection H as -> H. cbn [bounds]. destruct l as [|l].
    - destruct rows; [|discriminate]. cbn [bounds]. do 2 f_equal. lia.
    - rewrite (IH rows (S s) H) by lia. f_equal. f_equal; lia.
  Qed.
  Lemma default_ids h : default_labels h -> forall p, run h = Ok p -> (p_ids p = None /\ p_shift p = None) \/ exists hi, p_ids p = Some (0, hi)%Z /\ (0 <= hi)%Z.
  Proof.
    induction h as [|h IH order rows|h1 IH1 h2 IH2 perm]; intros HD p HR; cbn [run] in HR.
    - injection HR as <-. left. split; reflexivity.
    - destruct HD as [HD HL]. destruct (run h) as [q|] eqn:EQ; [|discriminate]. cbn [bind] in HR. injection HR as <-. specialize (IH HD q eq_refl). unfold update_prof. destruct rows as [|r rs] eqn:ER; [exact IH|]. rewrite <- ER in *. assert (length rows <> 0) as HN by (rewrite ER; discriminate). clear r rs ER.
      rewrite (bounds_default (length rows) rows 0 HL HN). right. cbn [p_ids]. destruct IH as [[-> _]|(hi & -> & Hh)]; cbn [overlap shift_ids join_ids next_label].
      + eexists. split; [reflexivity|]. lia.
      + set (b := (_ || _)%bool). destruct b; eexists; (split; [f_equal; f_equal; lia|]); lia.
    - destruct HD as [D1 D2]. destruct (run h1) as [a|] eqn:EA; [|discriminate]. destruct (run h2) as [b|] eqn:EB; [|discriminate]. cbn [bind] in HR. specialize (IH1 D1 a eq_refl). specialize (IH2 D2 b eq_refl).
      unfold add_prof in HR. destruct (existsb _ _); [discriminate|]. destruct (merge_sums (p_cols a)) as [sa|]; [|discriminate]. cbn [bind] in HR. destruct (merge_sums (p_cols b)) as [sb|]; [|discriminate]. cbn [bind] in HR. injection HR as <-. cbn [p_ids p_shift].
      destruct IH1 as [[-> _]|(h1' & -> & H1)]; destruct IH2 as [[-> _]|(h2' & -> & H2)]; cbn [overlap shift_ids join_ids next_label].
      + left. split; reflexivity.
      + right. eexists. split; [reflexivity|]. lia.
      + right. eexists. split; [reflexivity|]. lia.
      + right. set (b' := (_ || _)%bool). destruct b'; eexists; (split; [f_equal; f_equal; lia|]); lia.
  Qed.
  Lemma default_labels_ok h : default_labels h -> labels_ok h.
  Proof.
    induction h as [|h IH order rows|h1 IH1 h2 IH2 perm]; cbn [default_labels labels_ok]; [auto| |intuition]. intros [HD HL]. split; [apply IH; exact HD|]. rewrite HL. split; [|split].
    - apply FinFun.Injective_map_NoDup; [intros x y; apply Nat2Z.inj|apply seq_NoDup].
    - intros r Hr. apply (in_map fst) in Hr. rewrite HL in Hr. apply in_map_iff in Hr as (k & <- & _). lia.
    - intros HN p HR. destruct (default_ids h HD p HR) as [[_ H]|(hi & HE & Hh)]; [left; exact H|]. right. rewrite HE, (bounds_default (length rows) rows 0 HL) by (destruct rows; [contradiction|discriminate]).
      cbn [overlap]. rewrite !orb_true_iff, !andb_true_iff, !Z.leb_le. lia.
  Qed.
  Theorem C41_default_labels h p i : same_order h -> same_columns h -> default_labels h -> filled h -> plain (rows_of h) -> run h = Ok p -> i < nc -> nulls i (rows_of h) <> 0 ->
    exists m, dget (p_metrics p) i = Some m /\ sums_agree (rows_of h) i m.
  Proof. intros HO HC HD. apply C41_sums; [exact HO|exact HC|apply default_labels_ok; exact HD]. Qed.
End Props.

(** ** Examples and findings *)
Definition num (z : Z) : cell := Some (mkVal (Some (inject_Z z)) false 1).
Definition text (n : nat) : cell := Some (mkVal None false n).
Definition day (z : Z) : cell := Some (mkVal (Some (inject_Z z)) true 8).
Definition nul : cell := None.
Definition metric_of (nc : nat) (h : hist) (i : nat) : option metric := match run nc h with Ok p => dget (p_metrics p) i | Err _ => None end.

(** Two batches and a merge: nulls in both columns *)
Definition eg_rows1 : list rowt := [(0%Z, [nul; num 5]); (1%Z, [num 1; num 7])].
Definition eg_rows2 : list rowt := [(0%Z, [num 4; nul]); (1%Z, [nul; num 9]); (2%Z, [nul; nul])].
Definition eg_h : hist := NAdd (NUpd (NUpd NNew [0; 1] eg_rows1) [0; 1] eg_rows2) (NUpd NNew [0; 1] eg_rows1) [0; 1].
Lemma plain_ok rows : forallb (fun r => forallb (fun c => match c with Some v => match v_num v with Some _ => negb (v_date v) | None => false end | None => true end) (snd r)) rows = true -> plain rows.
Proof.
  intros H r j v Hr HC. rewrite forallb_forall in H. specialize (H r Hr). rewrite forallb_forall in H. unfold cell_at in HC. destruct (nth_in_or_default j (snd r) None) as [HI|HE]; [|congruence]. specialize (H _ HI). rewrite HC in H. destruct (v_num v); [|discriminate]. split; [discriminate|]. destruct (v_date v); [discriminate|reflexivity].
Qed.
Theorem C41_example : same_order 2 eg_h /\ same_columns 2 eg_h /\ default_labels eg_h /\ filled 2 eg_h /\ plain (rows_of eg_h) /\
  match metric_of 2 eg_h 0 with
  | Some m => (fst (m_prior m) == 3 # 7)%Q /\ (snd (m_prior m) == 4 # 7)%Q /\ map (Qeq_bool 19) (snd (m_sum m)) = [true] /\
      map (fun o => match o with Some q => Qeq_bool q 14 | None => false end) (fst (m_sum m)) = [true] /\ map (Qeq_bool (19 # 4)) (snd (m_mean m)) = [true]
  | None => False
  end.
Proof.
  split; [repeat split|]. split; [repeat split|]. split; [repeat split|]. split.
  - intros j Hj. assert (j = 0 \/ j = 1) as [-> | ->] by lia; split; (exists (1%Z, [num 1; num 7]); split; [|reflexivity]); cbn; auto.
  - split; [apply plain_ok; vm_compute; reflexivity|]. vm_compute. repeat split.
Qed.

(** After a batch whose labels were shifted, the nulls of a batch with new labels are not found: the class sums miss them *)
Definition stale_h : hist := NUpd (NUpd (NUpd NNew [0; 1] [(0%Z, [num 1; num 1])]) [0; 1] [(0%Z, [num 2; num 2])]) [0; 1] [(10%Z, [nul; num 5]); (11%Z, [num 3; num 3])].
Theorem C41_labels_refuted : ~ forall h p, same_order 2 h -> same_columns 2 h -> filled 2 h -> plain (rows_of h) -> run 2 h = Ok p -> nulls 0 (rows_of h) <> 0 ->
  exists m, dget (p_metrics p) 0 = Some m /\ Forall2 (fun j s => (s == sum_over (null_in 0) j (rows_of h))%Q) (others 2 0) (snd (m_sum m)).
Proof.
  intro H. destruct (run 2 stale_h) as [p|] eqn:EP; [|vm_compute in EP; discriminate].
  destruct (H stale_h p) as (m & Hm & HF); [repeat split|repeat split|left; discriminate|apply plain_ok; vm_compute; reflexivity|exact EP|vm_compute; discriminate|].
  vm_compute in EP. injection EP as <-. vm_compute in Hm. injection Hm as <-. cbn [snd m_sum] in HF. inversion HF as [|? ? ? ? HQ]; subst. vm_compute in HQ. discriminate.
Qed.
(** The sums over the rows where a column is given are, for a column of texts, the lengths of the texts of all rows *)
Definition text_h : hist := NUpd NNew [0; 1] [(0%Z, [nul; text 3]); (1%Z, [num 1; text 4])].
Theorem C41_text_refuted : exists m q, metric_of 2 text_h 0 = Some m /\ fst (m_sum m) = [Some q] /\ (q == 7)%Q /\ map (Qeq_bool 0) (snd (m_sum m)) = [true].
Proof. eexists. eexists. split; [vm_compute; reflexivity|]. split; [reflexivity|]. split; [vm_compute; reflexivity|vm_compute; reflexivity]. Qed.
(** A batch with its columns in another order: the sums of the other columns are mixed up *)
Definition order_h : hist := NUpd (NUpd NNew [0; 1; 2] [(0%Z, [nul; num 5; num 100])]) [2; 1; 0] [(0%Z, [nul; num 7; num 200])].
Theorem C41_order_refuted : exists m, metric_of 3 order_h 0 = Some m /\ snd (m_sum m) <> [] /\
  ~ Forall2 (fun j s => (s == sum_over (null_in 0) j (rows_of order_h))%Q) (others 3 0) (snd (m_sum m)).
Proof.
  eexists. split; [vm_compute; reflexivity|]. split; [discriminate|]. intro HF. cbn [snd m_sum] in HF. inversion HF as [|? ? ? ? HQ]; subst. vm_compute in HQ. discriminate.
Qed.
(** Tables with their columns in different orders are merged by place: the priors of a column are those of two columns *)
Definition place_h : hist := NAdd (NUpd NNew [0; 1] [(0%Z, [nul; num 5]); (1%Z, [num 1; num 2])]) (NUpd NNew [0; 1] [(0%Z, [nul; num 7]); (1%Z, [num 4; num 8])]) [1; 0].
Theorem C41_place_refuted : exists p, run 2 place_h = Ok p /\ k_nulls (nth 0 (p_cols p) (mkColst 0 0 [] [])) = 1 /\
  exists m, dget (p_metrics p) 0 = Some m /\ (snd (m_prior m) == 1 # 2)%Q.
Proof. eexists. split; [vm_compute; reflexivity|]. split; [reflexivity|]. eexists. split; [reflexivity|]. vm_compute. reflexivity. Qed.
(** Tables with a column of dates cannot be merged *)
Definition date_rows : list rowt := [(0%Z, [nul; day 5]); (1%Z, [num 1; day 2])].
Theorem C41_date_refuted : (exists m, metric_of 2 (NUpd NNew [0; 1] date_rows) 0 = Some m) /\
  run 2 (NAdd (NUpd NNew [0; 1] date_rows) (NUpd NNew [0; 1] date_rows) [0; 1]) = Err AttributeError.
Proof. split; [eexists|]; vm_compute; reflexivity. Qed.
(** A column without values in one of two merged tables: the sums over the rows where a column is given are lost *)
Definition lost_h : hist := NAdd (NUpd NNew [0; 1] [(0%Z, [nul; nul]); (1%Z, [num 1; nul])]) (NUpd NNew [0; 1] [(0%Z, [nul; num 7]); (1%Z, [num 4; num 8])]) [0; 1].
Theorem C41_lost_refuted : exists m, metric_of 2 lost_h 0 = Some m /\ fst (m_sum m) = [None] /\ (sum_over (given_in 0) 1 (rows_of lost_h) == 8)%Q /\
  exists m', metric_of 2 (NUpd NNew [0; 1] (rows_of lost_h)) 0 = Some m' /\ match fst (m_sum m') with [Some q] => (q == 8)%Q | _ => False end.
Proof. eexists. split; [vm_compute; reflexivity|]. split; [reflexivity|]. split; [vm_compute; reflexivity|]. eexists. split; vm_compute; reflexivity. Qed.

(** With correlations enabled a table with a column of texts and nulls cannot be profiled *)
Theorem C41_correlation_refuted : exists rows m, metric_of 4 (NUpd NNew [0; 1; 2; 3] rows) 0 = Some m /\ update_with_correlation (new_prof 4) rows = Some (Err ValueError) /\
  update_with_correlation (new_prof 4) (map (fun r => (fst r, firstn 3 (snd r) ++ [num 1])) rows) <> Some (Err ValueError).
Proof. exists [(0%Z, [nul; num 5; num 6; text 3]); (1%Z, [num 1; num 2; num 3; text 4])]. eexists. split; [vm_compute; reflexivity|]. split; [vm_compute; reflexivity|]. vm_compute. discriminate. Qed.

(** With correlations enabled: the columns of numbers of the batch *)
Definition numbers_in (p : prof) (rows : list rowt) (j : nat) : bool :=
  match k_vals (nth j (p_cols (update_prof p [] rows)) (mkColst 0 0 [] [])) with
  | [] => false
  | l => existsb (fun v => negb (v_date v)) l && forallb (fun v => match v_num v with Some _ => true | None => false end) l
  end.
Lemma numeric_numbers p rows j : numeric_col (nth j (p_cols (update_prof p [] rows)) (mkColst 0 0 [] [])) = numbers_in p rows j.
Proof.
  unfold numeric_col, numbers_in. destruct (k_vals _) as [|v l]; [reflexivity|]. f_equal. unfold all_dates. generalize (v :: l). clear. intro l.
  induction l as [|v l IH]; [reflexivity|]. cbn [forallb existsb]. rewrite Bool.negb_andb, IH. reflexivity.
Qed.
Lemma update_cols_length p order rows : length (p_cols (update_prof p order rows)) = length (p_cols p).
Proof. destruct rows as [|r rows]; [reflexivity|]. cbn [update_prof p_cols]. unfold mapi. rewrite map_length, combine_length, seq_length. apply Nat.min_id. Qed.
Lemma filter_same {A} (f g : A -> bool) l : (forall x, f x = g x) -> filter f l = filter g l.
Proof. intro H. induction l as [|x l IH]; [reflexivity|]. cbn [filter]. rewrite H, IH. reflexivity. Qed.
Lemma filter_both {A} (f g : A -> bool) l : filter g (filter f l) = filter (fun x => f x && g x) l.
Proof. induction l as [|x l IH]; [reflexivity|]. cbn [filter]. destruct (f x); cbn [filter andb]; rewrite IH; reflexivity. Qed.

(** The number of columns of numbers besides a column *)
Definition number_cols (p : prof) (rows : list rowt) (i : nat) : nat :=
  length (filter (fun j => numbers_in p rows j && negb (j =? i)) (seq 0 (length (p_cols p)))).

Lemma all_others (f : nat -> bool) n i : i < n -> (forall j, j < n -> f j = true) -> length (filter (fun j => f j && negb (j =? i)) (seq 0 n)) = n - 1.
Proof.
  intros Hi Hf. assert (forall a m, (forall j, a <= j < a + m -> f j = true) -> length (filter (fun j => f j && negb (j =? i)) (seq a m)) = if (a <=? i) && (i <? a + m) then m - 1 else m) as G.
  { intros a m. revert a. induction m as [|m IH]; intros a H; [destruct ((a <=? i) && (i <? a + 0)); reflexivity|]. cbn [seq filter]. rewrite H by lia. rewrite Bool.andb_true_l.
    assert (forall j, S a <= j < S a + m -> f j = true) as H' by (intros j Hj; apply H; lia). specialize (IH (S a) H').
    destruct (Nat.eqb_spec a i) as [->|N]; cbn [negb length]; rewrite IH.
    - replace (S i <=? i) with false by (symmetry; apply Nat.leb_gt; lia). rewrite Nat.leb_refl. replace (i <? i + S m) with true by (symmetry; apply Nat.ltb_lt; lia). cbn. lia.
    - destruct (Nat.leb_spec a i), (Nat.leb_spec (S a) i), (Nat.ltb_spec i (S a + m)), (Nat.ltb_spec i (a + S m)); cbn [andb]; lia. }
  rewrite G by (intros j Hj; apply Hf; lia). replace (i <? 0 + n) with true by (symmetry; apply Nat.ltb_lt; lia). reflexivity.
Qed.

Lemma correlation_lengths p rows : update_with_correlation p rows =
  let lengths := map (fun ic => number_cols p rows (fst ic)) (filter (fun ic => negb (k_nulls (snd ic) =? 0)) (combine (seq 0 (length (p_cols p))) (p_cols (update_prof p [] rows)))) in
  let k := length (p_cols p) in
  if forallb (fun n => n =? k - 1) lengths then Some (Ok (update_prof p (filter (numbers_in p rows) (seq 0 k)) rows))
  else if existsb (fun n => negb (n =? k - 1) && negb (n =? 1)) lengths && negb (k - 1 =? 1) then Some (Err ValueError)
  else None.
Proof.
  unfold update_with_correlation. cbv zeta. rewrite update_cols_length.
  rewrite (filter_same (fun j => numeric_col (nth j (p_cols (update_prof p [] rows)) (mkColst 0 0 [] []))) (numbers_in p rows)) by (intro j; apply numeric_numbers).
  erewrite (map_ext (fun ic : nat * colst => length (filter (fun j => negb (j =? fst ic)) (filter (numbers_in p rows) (seq 0 (length (p_cols p)))))) (fun ic => number_cols p rows (fst ic))); [reflexivity|].
  intros [i c]. cbn [fst]. unfold number_cols. rewrite filter_both. reflexivity.
Qed.

Lemma in_indexed {A} (l : list A) i x : In (i, x) (combine (seq 0 (length l)) l) <-> nth_error l i = Some x.
Proof.
  assert (forall a, In (i, x) (combine (seq a (length l)) l) <-> a <= i /\ nth_error l (i - a) = Some x) as G.
  { induction l as [|y l IH]; intro a.
    - cbn. split; [intros []|intros [_ H]; destruct (i - a); discriminate].
    - cbn [length seq combine In]. rewrite IH. split.
      + intros [H|[H1 H2]]; [injection H as -> ->; split; [lia|]; rewrite Nat.sub_diag; reflexivity|]. split; [lia|]. replace (i - a) with (S (i - S a)) by lia. exact H2.
      + intros [H1 H2]. destruct (Nat.eq_dec a i) as [->|N]; [left; rewrite Nat.sub_diag in H2; cbn in H2; congruence|]. right. split; [lia|]. replace (i - a) with (S (i - S a)) in H2 by lia. exact H2. }
  rewrite G, Nat.sub_0_r. split; [intros [_ H]; exact H|intro H; split; [lia|exact H]].
Qed.

(** A table of numbers gets the same metrics with correlations as without *)
Theorem C41_correlation_numbers p rows : (forall j, j < length (p_cols p) -> numbers_in p rows j = true) ->
  update_with_correlation p rows = Some (Ok (update_prof p (seq 0 (length (p_cols p))) rows)).
Proof.
  intro H. rewrite correlation_lengths. cbv zeta. rewrite (proj2 (forallb_forall _ _)).
  - do 3 f_equal. assert (forall l, (forall j, In j l -> numbers_in p rows j = true) -> filter (numbers_in p rows) l = l) as G.
    { induction l as [|j l IH]; [reflexivity|]. intro K. cbn [filter]. rewrite K by (left; reflexivity). f_equal. apply IH. intros i Hi. apply K. right. exact Hi. }
    apply G. intros j Hj. apply in_seq in Hj. apply H. lia.
  - intros n Hn. apply in_map_iff in Hn. destruct Hn as ([i c] & <- & Hi). apply filter_In in Hi. destruct Hi as [Hi _]. cbn [fst]. apply in_combine_l in Hi. apply in_seq in Hi.
    unfold number_cols. rewrite all_others by (auto; lia). apply Nat.eqb_refl.
Qed.

(** With correlations, profiling a table fails exactly if a column has nulls and the other columns are not all numbers,
    unless exactly one of them is or there are only two columns *)
Theorem C41_correlation_fails p rows : update_with_correlation p rows = Some (Err ValueError) <->
  length (p_cols p) <> 2 /\ exists i c, nth_error (p_cols (update_prof p [] rows)) i = Some c /\ k_nulls c <> 0 /\
    number_cols p rows i <> length (p_cols p) - 1 /\ number_cols p rows i <> 1.
Proof.
  rewrite correlation_lengths. cbv zeta.
  set (lengths := map _ _). assert (forall n, In n lengths <-> exists i c, nth_error (p_cols (update_prof p [] rows)) i = Some c /\ k_nulls c <> 0 /\ n = number_cols p rows i) as HL.
  { intro n. unfold lengths. rewrite in_map_iff. split.
    - intros ([i c] & <- & Hi). apply filter_In in Hi. destruct Hi as [Hi Hc]. cbn [fst snd] in *. rewrite <- (update_cols_length p [] rows) in Hi. apply in_indexed in Hi. exists i, c. split; [exact Hi|]. split; [|reflexivity]. destruct (Nat.eqb_spec (k_nulls c) 0); [discriminate|assumption].
    - intros (i & c & Hi & Hc & ->). exists (i, c). split; [reflexivity|]. apply filter_In. split; [rewrite <- (update_cols_length p [] rows); apply in_indexed; exact Hi|]. cbn [snd]. destruct (Nat.eqb_spec (k_nulls c) 0); [contradiction|reflexivity]. }
  clearbody lengths. split.
  - destruct (forallb _ lengths); [discriminate|]. destruct (existsb _ lengths) eqn:E; [|discriminate]. destruct (Nat.eqb_spec (length (p_cols p) - 1) 1) as [Z|Z]; [discriminate|]. intros _. split; [lia|].
    apply existsb_exists in E. destruct E as (n & Hn & Hb). apply HL in Hn. destruct Hn as (i & c & Hi & Hc & ->). exists i, c. split; [exact Hi|]. split; [exact Hc|].
    destruct (Nat.eqb_spec (number_cols p rows i) (length (p_cols p) - 1)); [discriminate|]. destruct (Nat.eqb_spec (number_cols p rows i) 1); [discriminate|]. auto.
  - intros (H2 & i & c & Hi & Hc & N1 & N2). assert (In (number_cols p rows i) lengths) as Hin by (apply HL; exists i, c; auto).
    assert (i < length (p_cols p)) as HB by (rewrite <- (update_cols_length p [] rows); apply nth_error_Some; congruence).
    destruct (forallb _ lengths) eqn:F; [rewrite forallb_forall in F; specialize (F _ Hin); apply Nat.eqb_eq in F; contradiction|].
    assert (existsb (fun n => negb (n =? length (p_cols p) - 1) && negb (n =? 1)) lengths = true) as ->.
    { apply existsb_exists. exists (number_cols p rows i). split; [exact Hin|]. apply Nat.eqb_neq in N1, N2. rewrite N1, N2. reflexivity. }
    destruct (Nat.eqb_spec (length (p_cols p) - 1) 1) as [Z|Z]; [exfalso; lia|reflexivity].
Qed.
Example C41_correlation_ex : update_with_correlation (new_prof 2) [(0%Z, [nul; num 5]); (1%Z, [num 1; num 2])] = Some (Ok (update_prof (new_prof 2) [0; 1] [(0%Z, [nul; num 5]); (1%Z, [num 1; num 2])])).
Proof. apply C41_correlation_numbers. intros [|[|j]] H; [reflexivity..|cbn in H; lia]. Qed.
Print Assumptions C41_correlation_numbers.
Print Assumptions C41_correlation_fails.
