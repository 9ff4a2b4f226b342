(** Properties C08, C09, C10, C12, C47, C57: numeric column statistics. A history is any tree
    of new profiles, updates and merges; [data h] are its values of the column's type. *)
From Verif Require Import PyCommon QFacts NumericModel NumericProofs.
Open Scope nat_scope.

(** C08. The reported minimum is a value of the data and is the least one, except that a least
    value 0 can be reported as a positive one. *)
Theorem C08_minimum : forall h,
  match nm_min (run h) with
  | None => data h = []
  | Some m => In m (data h) /\
      (is_min m (data h) \/ exists z, is_min z (data h) /\ (z == 0)%Q /\ (0 < m)%Q)
  end.
Proof. intro h. exact (g_min _ _ _ (run_good h)). Qed.
Print Assumptions C08_minimum.

Theorem C08_maximum : forall h,
  match nm_max (run h) with
  | None => data h = []
  | Some m => In m (data h) /\
      (is_max m (data h) \/ exists z, is_max z (data h) /\ (z == 0)%Q /\ (m < 0)%Q)
  end.
Proof. intro h. exact (g_max _ _ _ (run_good h)). Qed.
Print Assumptions C08_maximum.

(** Hence it is right whenever the least value is not 0. *)
Theorem C08_minimum_exact : forall h z, is_min z (data h) -> ~ (z == 0)%Q ->
  exists m, nm_min (run h) = Some m /\ (m == z)%Q.
Proof.
  intros h z Hz Hne. pose proof (C08_minimum h) as H. destruct (nm_min (run h)) as [m|].
  - exists m. split; [reflexivity|]. destruct H as [Hm [Hmin|(z' & Hz' & E & _)]].
    + apply Qle_antisym; [apply Hmin, Hz|apply Hz, Hmin].
    + exfalso. apply Hne. apply Qle_antisym.
      * rewrite <- E. apply Hz, Hz'.
      * rewrite <- E. apply Hz', Hz.
  - exfalso. rewrite H in Hz. destruct Hz as [[] _].
Qed.
Print Assumptions C08_minimum_exact.

Theorem C08_maximum_exact : forall h z, is_max z (data h) -> ~ (z == 0)%Q ->
  exists m, nm_max (run h) = Some m /\ (m == z)%Q.
Proof.
  intros h z Hz Hne. pose proof (C08_maximum h) as H. destruct (nm_max (run h)) as [m|].
  - exists m. split; [reflexivity|]. destruct H as [Hm [Hmax|(z' & Hz' & E & _)]].
    + apply Qle_antisym; [apply Hz, Hmax|apply Hmax, Hz].
    + exfalso. apply Hne. apply Qle_antisym.
      * rewrite <- E. apply Hz', Hz.
      * rewrite <- E. apply Hz, Hz'.
  - exfalso. rewrite H in Hz. destruct Hz as [[] _].
Qed.
Print Assumptions C08_maximum_exact.

(** A single batch is always right. *)
Theorem C08_single_batch_exact : forall b bias, matched b <> [] ->
  exists m M, nm_min (run (NUpd (NNew bias) b)) = Some m /\ is_min m (matched b) /\
              nm_max (run (NUpd (NNew bias) b)) = Some M /\ is_max M (matched b).
Proof.
  intros b bias Hb. cbn [run]. unfold update. destruct b as [|c b]; [cbn in Hb; congruence|].
  destruct (matched (c :: b)) as [|x r]; [congruence|]. cbn.
  eexists. eexists. split; [reflexivity|]. split; [apply list_min_is_min|]. split; [reflexivity|].
  apply list_max_is_max.
Qed.
Print Assumptions C08_single_batch_exact.

(** The user's expectation is false: [0] then [5] reports minimum 5. *)
Theorem C08_streaming_minimum_refuted :
  ~ (forall h m, nm_min (run h) = Some m -> is_min m (data h)).
Proof.
  intro H. specialize (H (NUpd (NUpd (NNew true) [Some 0%Q]) [Some (5 # 1)%Q]) _ eq_refl).
  destruct H as [_ H]. specialize (H 0%Q (or_introl eq_refl)). vm_compute in H. apply H. reflexivity.
Qed.
Print Assumptions C08_streaming_minimum_refuted.
Theorem C08_streaming_maximum_refuted :
  ~ (forall h m, nm_max (run h) = Some m -> is_max m (data h)).
Proof.
  intro H. specialize (H (NUpd (NUpd (NNew true) [Some 0%Q]) [Some (-5 # 1)%Q]) _ eq_refl).
  destruct H as [_ H]. specialize (H 0%Q (or_introl eq_refl)). vm_compute in H. apply H. reflexivity.
Qed.
Print Assumptions C08_streaming_maximum_refuted.

(** C09. Merging adds no error of its own. [l1], [l2] are any data the two extrema are right
    for (empty and missing included). *)
Definition right_min (o : option Q) (l : list Q) : Prop :=
  match o with None => l = [] | Some m => is_min m l end.
Definition right_max (o : option Q) (l : list Q) : Prop :=
  match o with None => l = [] | Some m => is_max m l end.
Theorem C09_merged_extrema : forall a b l1 l2,
  (right_min (nm_min a) l1 -> right_min (nm_min b) l2 -> right_min (nm_min (add a b)) (l1 ++ l2)) /\
  (right_max (nm_max a) l1 -> right_max (nm_max b) l2 -> right_max (nm_max (add a b)) (l1 ++ l2)).
Proof.
  intros a b l1 l2. unfold add. cbn [nm_min nm_max].
  split; [destruct (nm_min a), (nm_min b)|destruct (nm_max a), (nm_max b)]; cbn; intros H1 H2; subst;
    rewrite ?app_nil_r; try assumption; try reflexivity.
  - apply is_min_app; assumption.
  - apply is_max_app; assumption.
Qed.
Print Assumptions C09_merged_extrema.

Definition oeq (a b : option Q) : Prop :=
  match a, b with Some x, Some y => (x == y)%Q | None, None => True | _, _ => False end.
Theorem C09_merge_commutative_associative : forall a b c,
  oeq (nm_min (add a b)) (nm_min (add b a)) /\ oeq (nm_max (add a b)) (nm_max (add b a)) /\
  oeq (nm_min (add (add a b) c)) (nm_min (add a (add b c))) /\
  oeq (nm_max (add (add a b) c)) (nm_max (add a (add b c))).
Proof.
  intros a b c. unfold add. cbn [nm_min nm_max].
  split; [|split; [|split]];
    destruct (nm_min a) as [x|], (nm_min b) as [y|], (nm_min c) as [z|],
             (nm_max a) as [x'|], (nm_max b) as [y'|], (nm_max c) as [z'|]; cbn;
    try exact I; try reflexivity;
    repeat match goal with
    | |- context [pymin ?p ?q] => is_var p; is_var q; destruct (pymin_cases p q) as [[-> ?]|[-> ?]]
    | |- context [pymax ?p ?q] => is_var p; is_var q; destruct (pymax_cases p q) as [[-> ?]|[-> ?]]
    end; lra.
Qed.
Print Assumptions C09_merge_commutative_associative.

Definition ex_h : hist :=
  NAdd (NUpd (NUpd (NNew true) [Some (3 # 1)%Q; None; Some (1 # 2)%Q]) [Some (-2 # 1)%Q])
       (NUpd (NNew true) [Some (7 # 2)%Q; Some 0%Q]).
Example C08_example :
  is_min (-2 # 1)%Q (data ex_h) /\ ~ ((-2 # 1) == 0)%Q /\ nm_min (run ex_h) = Some (-2 # 1)%Q /\
  cells ex_h = 6 /\ nm_match (run ex_h) = 5.
Proof.
  split; [|split; [|vm_compute; auto]].
  - split; [cbn; tauto|]. intros x Hx. cbn in Hx. repeat (destruct Hx as [<-|Hx]; [lra|]). contradiction.
  - intro H. vm_compute in H. discriminate.
Qed.

(** C10. Sum, mean and variance of all values; [qsum], [qmean], [qvar] are the textbook
    definitions on a list; the mean of no values is reported as 0. *)
Theorem C10_sum_mean : forall h,
  (nm_sum (run h) == qsum (data h))%Q /\
  (mean (run h) == if length (data h) =? 0 then 0 else qsum (data h) / Qn (length (data h)))%Q.
Proof.
  intro h. split; [exact (g_sum _ _ _ (run_good h))|].
  destruct (Nat.eqb_spec (length (data h)) 0) as [E|E].
  - unfold mean. rewrite (g_match _ _ _ (run_good h)), E. reflexivity.
  - apply (mean_good _ _ _ (run_good h)). intros F. rewrite F in E. apply E. reflexivity.
Qed.
Print Assumptions C10_sum_mean.

Theorem C10_variance : forall h,
  let n := length (data h) in
  let m := (qsum (data h) / Qn n)%Q in
  let M2 := qsum (map (fun x => ((x - m) * (x - m))%Q) (data h)) in
  match variance (run h) with
  | Some v => if all_bias h then 2 <= n /\ (v == M2 / (Qn n - 1))%Q else 1 <= n /\ (v == M2 / Qn n)%Q
  | None => if all_bias h then n < 2 else n = 0
  end.
Proof.
  intro h. cbv zeta. pose proof (run_good h) as G. unfold variance.
  rewrite (run_bias h), (g_match _ _ _ G). pose proof (g_var _ _ _ G) as V.
  fold (qmean (data h)). fold (sqdev (qmean (data h)) (data h)).
  destruct (all_bias h); cbn [negb].
  - unfold correct_bias_variance. destruct (Nat.ltb_spec (length (data h)) 2) as [L|L]; [exact L|].
    destruct (nm_var (run h)) as [v|]; cbn in V; [|rewrite V in L; cbn in L; lia].
    destruct V as [Hne E]. split; [exact L|]. rewrite E. unfold qvar.
    pose proof (Qn_neq (length (data h)) ltac:(lia)) as N0.
    assert (N1 : ~ (Qn (length (data h)) - 1 == 0)%Q).
    { intro Hz. assert (Hq : (Qn (length (data h)) == Qn 1)%Q) by (change (Qn 1) with 1%Q; lra).
      apply Qn_inj in Hq. lia. }
    field. auto.
  - destruct (nm_var (run h)) as [v|]; cbn in V; [|rewrite V; reflexivity].
    destruct V as [Hne E]. pose proof (len_pos _ Hne). split; [lia|exact E].
Qed.
Print Assumptions C10_variance.

Example C10_example :
  exists v, variance (run ex_h) = Some v /\ (v == 41 # 8)%Q /\ (mean (run ex_h) == 1)%Q /\
    data ex_h = [3 # 1; 1 # 2; -2 # 1; 7 # 2; 0]%Q.
Proof. vm_compute. eexists. repeat split. Qed.

(** C57. *)
Theorem C57_zeros_and_negatives : forall h,
  nm_zeros (run h) = length (filter (fun q => Qeq_bool q 0) (data h)) /\
  nm_negs (run h) = length (filter (fun q => negb (Qle_bool 0 q)) (data h)) /\
  nm_zeros (run h) + nm_negs (run h) <= nm_match (run h).
Proof.
  intro h. pose proof (run_good h) as G.
  rewrite (g_zeros _ _ _ G), (g_negs _ _ _ G), (g_match _ _ _ G).
  split; [reflexivity|]. split; [reflexivity|].
  clear G. induction (data h) as [|x l IH]; cbn [filter length]; [lia|].
  destruct (Qeq_bool x 0) eqn:E1, (Qle_bool 0 x) eqn:E2; cbn [negb length]; try lia.
  apply Qeq_bool_iff in E1. apply Qle_bool_false in E2. lra.
Qed.
Print Assumptions C57_zeros_and_negatives.
Example C57_example : nm_zeros (run ex_h) = 1 /\ nm_negs (run ex_h) = 1.
Proof. vm_compute. auto. Qed.

(** C47. *)
Theorem C47_match_counts : forall h,
  nm_match (run h) = length (data h) /\ nm_sample (run h) = cells h /\
  nm_match (run h) <= nm_sample (run h) /\
  match data_type_ratio (run h) with
  | Some r => cells h <> 0 /\ (0 <= r <= 1)%Q /\ (r * Qn (cells h) == Qn (length (data h)))%Q /\
      (r == 1 <-> length (data h) = cells h)%Q
  | None => cells h = 0
  end.
Proof.
  intro h. pose proof (run_good h) as G. pose proof (g_le _ _ _ G) as L.
  unfold data_type_ratio. rewrite (g_match _ _ _ G), (g_sample _ _ _ G).
  split; [reflexivity|]. split; [reflexivity|]. split; [exact L|].
  destruct (Nat.eqb_spec (cells h) 0) as [E|E]; cbn [negb]; [exact E|].
  split; [exact E|]. pose proof (Qn_pos (cells h) ltac:(lia)) as P.
  pose proof (Qn_neq (cells h) ltac:(lia)) as N.
  assert (R : (Qn (length (data h)) / Qn (cells h) * Qn (cells h) == Qn (length (data h)))%Q)
    by (field; exact N).
  split; [split|].
  - apply Qle_shift_div_l; [exact P|]. rewrite Qmult_0_l. apply Qn_nonneg.
  - apply Qle_shift_div_r; [exact P|]. rewrite Qmult_1_l. apply Qn_le. exact L.
  - split; [exact R|]. split.
    + intro H1. apply Qn_inj. rewrite <- R, H1. ring.
    + intros ->. field. exact N.
Qed.
Print Assumptions C47_match_counts.

(** C12. Everything but the variance is that of all sampled values, in every history. *)
Theorem C12_precision : forall h,
  match prun h with
  | None => pdata h = []
  | Some p => pdata h <> [] /\ is_min (pr_min p) (pdata h) /\ is_max (pr_max p) (pdata h) /\
      (pr_sum p == qsum (pdata h))%Q /\ (pr_mean p == qmean (pdata h))%Q /\ pr_n p = length (pdata h)
  end.
Proof. exact prun_good. Qed.
Print Assumptions C12_precision.

(** The variance is right when each profile gets one batch and profiles are merged, in any
    tree. *)
Theorem C12_precision_variance_by_merging : forall h p, single_batches h -> prun h = Some p ->
  exists v, pr_var p = Some v /\ (v == qvar (pdata h))%Q.
Proof. intros h p Hs E. pose proof (prun_var h Hs) as H. rewrite E in H. exact H. Qed.
Print Assumptions C12_precision_variance_by_merging.

(** Streaming is wrong: what it computes from two batches, and a witness. *)
Theorem C12_precision_variance_of_two_updates : forall b1 b2, b1 <> [] -> b2 <> [] ->
  exists p, prun (PUpd (PUpd PNew b1) b2) = Some p /\
  exists v, pr_var p = Some v /\
   (v == (qvar b1 * (Qn (length b1) + Qn (length b2)) + qvar b2 * Qn (length b2)
          + (qmean b2 - qmean b1) * (qmean b2 - qmean b1)
            * (Qn (length b1) + Qn (length b2)) * Qn (length b2)
            / (Qn (length b1) + 2 * Qn (length b2)))
         / (Qn (length b1) + 2 * Qn (length b2)))%Q.
Proof. exact pvar_two. Qed.
Print Assumptions C12_precision_variance_of_two_updates.

Theorem C12_streamed_precision_variance_refuted :
  ~ (forall h p, prun h = Some p -> exists v, pr_var p = Some v /\ (v == qvar (pdata h))%Q).
Proof.
  intro H. specialize (H (PUpd (PUpd PNew [1%Q]) [3%Q]) _ eq_refl).
  destruct H as (v & E & Hv). vm_compute in E. injection E as <-. vm_compute in Hv. discriminate.
Qed.
Print Assumptions C12_streamed_precision_variance_refuted.

Example C12_example :
  single_batches (PAdd (PUpd PNew [1; 2]%Q) (PUpd PNew [4]%Q)) /\
  exists p v, prun (PAdd (PUpd PNew [1; 2]%Q) (PUpd PNew [4]%Q)) = Some p /\ pr_var p = Some v /\ (v == 14 # 9)%Q.
Proof. split; [cbn; auto|]. vm_compute. eexists. eexists. repeat split. Qed.

(** ** C14, first half *)
(** Merging with a fresh profile leaves every statistic except the histogram as it was. *)
Theorem C14_other_statistics_unchanged : forall h b,
  let s := run h in
  let t := add s (num_new b) in
  nm_sample t = nm_sample s /\ nm_match t = nm_match s /\ nm_min t = nm_min s /\ nm_max t = nm_max s /\
  (nm_sum t == nm_sum s)%Q /\ nm_var t = nm_var s /\ nm_zeros t = nm_zeros s /\ nm_negs t = nm_negs s /\
  (mean t == mean s)%Q.
Proof.
  intros h b s t. pose proof (run_good h) as G. fold s in G.
  unfold t, add, num_new. cbn [nm_sample nm_match nm_min nm_max nm_sum nm_var nm_zeros nm_negs].
  rewrite !Nat.add_0_r. unfold mean. cbn [nm_match nm_sum].
  split; [reflexivity|]. split; [reflexivity|].
  split; [destruct (nm_min s); reflexivity|]. split; [destruct (nm_max s); reflexivity|].
  split; [lra|]. split; [|split; [reflexivity|split; [reflexivity|]]].
  - unfold merge_biased_variance. destruct (Nat.ltb_spec (nm_match s) 1) as [L|L]; [|reflexivity].
    pose proof (g_var _ _ _ G) as V. pose proof (g_match _ _ _ G) as M.
    destruct (nm_var s) as [v|]; [|reflexivity]. destruct V as [Hne _]. destruct (data h); [congruence|cbn in M; lia].
  - destruct (nm_match s =? 0); [reflexivity|]. rewrite Qplus_0_r. reflexivity.
Qed.
Print Assumptions C14_other_statistics_unchanged.
