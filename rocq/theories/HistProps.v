(** Properties of the histograms of numeric columns. *)
From Verif Require Import PyCommon QFacts ListFacts HistModel HistProofs HistProofs2 HistProofs3.
From Coq Require Import Qround.
Open Scope nat_scope.

(** Specification vocabulary:
    - [wf_hist h]: one more edge than bins, counts not negative;
    - [zsum]: total of a list of integers;
    - [sorted]: each edge is at most the next;
    - [bins counts edges]: the bins as triples (count, left edge, right edge);
    - [csum (ends_by e) bs] / [csum (starts_before e) bs]: the count in bins that lie left of
      [e] / that begin left of [e]. *)

(** ** C13 *)
Theorem C13_rebinning_conserves : forall lo hi nb is_float h, 0 < nb -> wf_hist h ->
  exists h', regenerate lo hi nb is_float h = Ok h' /\ wf_hist h' /\ length (h_counts h') = nb /\
    zsum (h_counts h') = zsum (h_counts h) /\ h_edges h' = linspace lo hi nb.
Proof. exact regenerate_ok. Qed.
Print Assumptions C13_rebinning_conserves.

Theorem C13_merging_conserves : forall lo hi nb h1 h2, 0 < nb -> wf_hist h1 -> wf_hist h2 ->
  exists h', merge_hists lo hi nb h1 h2 = Ok h' /\ wf_hist h' /\ length (h_counts h') = nb /\
    zsum (h_counts h') = (zsum (h_counts h1) + zsum (h_counts h2))%Z /\ h_edges h' = linspace lo hi nb.
Proof. exact merge_hists_ok. Qed.
Print Assumptions C13_merging_conserves.

(** Mass is moved at most to the bins its source bin overlaps: up to each inner edge the new
    count lies between the count of the source bins that end there and of those that start
    before it. *)
Theorem C13_rebinning_local : forall lo hi nb h h', 0 < nb -> wf_hist h -> sorted (h_edges h) -> (lo < hi)%Q ->
  (forall b0, nth_error (h_edges h) 0 = Some b0 -> (lo <= b0)%Q) ->
  regenerate lo hi nb true h = Ok h' ->
  forall k, k < nb ->
  let e := (lo + Qn k * ((hi - lo) / Qn nb))%Q in
  (csum (ends_by e) (bins (h_counts h) (h_edges h)) <= zsum (firstn k (h_counts h'))
   <= csum (starts_before e) (bins (h_counts h) (h_edges h)))%Z.
Proof. exact regenerate_local. Qed.
Print Assumptions C13_rebinning_local.

Theorem C13_merging_local : forall lo hi nb h1 h2 h', 0 < nb -> wf_hist h1 -> wf_hist h2 ->
  sorted (h_edges h1) -> sorted (h_edges h2) -> (lo < hi)%Q ->
  (forall b0, nth_error (h_edges h1) 0 = Some b0 -> (lo <= b0)%Q) ->
  (forall b0, nth_error (h_edges h2) 0 = Some b0 -> (lo <= b0)%Q) ->
  merge_hists lo hi nb h1 h2 = Ok h' ->
  forall k, k < nb ->
  let e := (lo + Qn k * ((hi - lo) / Qn nb))%Q in
  (csum (ends_by e) (bins (h_counts h1) (h_edges h1)) + csum (ends_by e) (bins (h_counts h2) (h_edges h2))
   <= zsum (firstn k (h_counts h'))
   <= csum (starts_before e) (bins (h_counts h1) (h_edges h1)) + csum (starts_before e) (bins (h_counts h2) (h_edges h2)))%Z.
Proof. exact merge_hists_local. Qed.
Print Assumptions C13_merging_local.

Example C13_example :
  let h1 := mkHist [3; 0; 5]%Z [0; 1; 2; 3]%Q in
  let h2 := mkHist [7; 1]%Z [1; 4; 7]%Q in
  wf_hist h1 /\ wf_hist h2 /\ sorted (h_edges h1) /\ sorted (h_edges h2) /\
  exists h', merge_hists 0 7 4 h1 h2 = Ok h' /\ h_counts h' = [5; 10; 0; 1]%Z.
Proof.
  cbv zeta. repeat split; try (repeat constructor; lia); try (cbn; lra).
  eexists. vm_compute. split; reflexivity.
Qed.

(** ** C58: streaming and merging account for every value *)
Theorem C58_histogram_total : forall f rnd h, np_histogram_ok f -> no_lonely_merge h ->
  exists o, srun f rnd h = Ok o /\
  match o with
  | None => sdata h = []
  | Some hh => sdata h <> [] /\ wf_hist hh /\ h_counts hh <> [] /\
       zsum (h_counts hh) = Z.of_nat (length (sdata h))
  end.
Proof. exact srun_ok. Qed.
Print Assumptions C58_histogram_total.

(** After an update all its values, and those the former histogram stands for, lie within the edges
    of the histogram, whatever bins are chosen within the range of the values; values that are all
    equal make one bin of no width. *)
Definition within (h : hist) (l : list Q) : Prop :=
  exists e0 es, h_edges h = e0 :: es /\ forall x, In x l -> (e0 <= x /\ x <= last_q e0 es)%Q.

Lemma all_equal_spec l : l <> [] -> all_equal l = true <-> (forall x y, In x l -> In y l -> (x == y)%Q).
Proof.
  intros N. destruct l as [|a r]; [congruence|]. unfold all_equal. rewrite forallb_forall. split.
  - intros H. assert (forall x, In x (a :: r) -> (x == a)%Q) as G. { intros x [<-|X]; [reflexivity|]. apply Qeq_bool_iff. apply H. exact X. }
    intros x y X Y. rewrite (G x X), (G y Y). reflexivity.
  - intros H x X. apply Qeq_bool_iff. apply H; [right; exact X|left; reflexivity].
Qed.

Theorem C58_within : forall f rnd s values, (forall l, l <> [] -> within (f l) l) -> values <> [] ->
  exists h, update_histogram f rnd s values = Some h /\
    within h values /\
    (forall h0, s = Some h0 -> within h (histogram_to_array rnd h0)) /\
    (s = None -> (forall x y, In x values -> In y values -> (x == y)%Q) ->
       exists x, In x values /\ h = mkHist [Z.of_nat (length values)] [x; x]).
Proof.
  intros f rnd s values Hf N.
  assert (forall l, l <> [] -> within (get_histogram f l) l) as G.
  { intros l NL. destruct l as [|x r]; [congruence|]. unfold get_histogram. destruct (all_equal (x :: r)) eqn:E; [|apply Hf; discriminate].
    pose proof (proj1 (all_equal_spec (x :: r) NL) E) as H. exists x, [x]. split; [reflexivity|]. intros y Y. cbn [last_q]. specialize (H x y (or_introl eq_refl) Y). rewrite H. split; apply Qle_refl. }
  assert (forall h a b, within h (a ++ b) -> within h a /\ within h b) as SP.
  { intros h a b (e0 & es & E & H). split; exists e0, es; (split; [exact E|]); intros x X; apply H, in_or_app; [left|right]; exact X. }
  destruct values as [|v vs]; [congruence|]. unfold update_histogram. destruct s as [h0|].
  - eexists. split; [reflexivity|]. destruct (SP _ _ _ (G ((v :: vs) ++ histogram_to_array rnd h0) ltac:(discriminate))) as [A B]. split; [exact A|]. split; [intros h1 E; injection E as <-; exact B|discriminate].
  - eexists. split; [reflexivity|]. split; [apply G; discriminate|]. split; [discriminate|]. intros _ H. exists v. split; [left; reflexivity|]. unfold get_histogram.
    rewrite (proj2 (all_equal_spec (v :: vs) N) H). reflexivity.
Qed.
Print Assumptions C58_within.

Example C58_within_example :
  let f l := mkHist [Z.of_nat (length l)] [0; 9]%Q in
  update_histogram f (fun q => q) None [2; 2; 3]%Q = Some (mkHist [3%Z] [0; 9]%Q) /\
  update_histogram f (fun q => q) None [2; 2]%Q = Some (mkHist [2%Z] [2; 2]%Q).
Proof. split; vm_compute; reflexivity. Qed.

(** A histogram function as the hypothesis asks: everything in one bin. *)
Definition one_bin (l : list Q) : hist := mkHist [Z.of_nat (length l)] [0; 1]%Q.
Lemma one_bin_ok : np_histogram_ok one_bin.
Proof.
  intro l. split; [split; [reflexivity|constructor; [cbn; lia|constructor]]|]. split; [cbn; lia|discriminate].
Qed.
Example C58_example :
  let h := SUpd (SAdd 0 1 4 (SUpd SNew [0; 1]%Q) (SUpd (SUpd SNew [0; 0; 1]%Q) [1; 1]%Q)) [0]%Q in
  no_lonely_merge h /\ exists hh, srun one_bin (fun q => q) h = Ok (Some hh) /\ zsum (h_counts hh) = 8%Z.
Proof.
  split; [cbn; repeat split; try lia; discriminate|]. eexists. vm_compute. split; reflexivity.
Qed.

(** ** C14 *)
(** Merging with a profile that has seen no value drops the histogram, on either side. *)
Theorem C14_merge_with_empty_drops_histogram : forall lo hi nb hh,
  add_histogram lo hi nb (Some hh) None = Ok None /\ add_histogram lo hi nb None (Some hh) = Ok None.
Proof. intros. split; reflexivity. Qed.
Print Assumptions C14_merge_with_empty_drops_histogram.

Theorem C14_empty_is_neutral_refuted :
  ~ (forall f rnd lo hi nb h, np_histogram_ok f -> srun f rnd (SAdd lo hi nb h SNew) = srun f rnd h).
Proof.
  intro H. specialize (H one_bin (fun q => q) 0%Q 1%Q 4 (SUpd SNew [0; 1]%Q) one_bin_ok).
  vm_compute in H. discriminate.
Qed.
Print Assumptions C14_empty_is_neutral_refuted.

(** A later update then yields a histogram of the new values only. *)
Theorem C14_update_after_merge_with_empty : forall f rnd lo hi nb l v, np_histogram_ok f ->
  l <> [] -> v <> [] ->
  exists hh, srun f rnd (SUpd (SAdd lo hi nb (SUpd SNew l) SNew) v) = Ok (Some hh) /\
    zsum (h_counts hh) = Z.of_nat (length v) /\
    length v < length (sdata (SUpd (SAdd lo hi nb (SUpd SNew l) SNew) v)).
Proof.
  intros f rnd lo hi nb l v Hf Hl Hv. destruct l as [|x l]; [congruence|]. destruct v as [|y v]; [congruence|].
  cbn [srun bind update_histogram add_histogram sdata].
  eexists. split; [reflexivity|]. destruct (get_histogram_ok f (y :: v) Hf) as (_ & S & _). split; [exact S|].
  rewrite !app_length. cbn [length]. lia.
Qed.
Print Assumptions C14_update_after_merge_with_empty.

(** ** C15 *)
(** [percentile_hyps h]: one more edge than bins, counts not negative, edges sorted, and a total
    between 1 and 10^15. [share_upto counts k]: the share of the total in the first [k] bins. *)
Theorem C15_percentile_in_range : forall h e0 es p, percentile_hyps h -> h_edges h = e0 :: es ->
  (e0 <= get_percentile h p <= last_q e0 es)%Q.
Proof. exact get_percentile_range. Qed.
Print Assumptions C15_percentile_in_range.

Theorem C15_percentile_monotone : forall h p q, percentile_hyps h ->
  (p == 50 \/ p <= 50 - (2 # 100000000) \/ 50 + (2 # 100000000) <= p)%Q ->
  (q == 50 \/ q <= 50 - (2 # 100000000) \/ 50 + (2 # 100000000) <= q)%Q ->
  (p <= q)%Q -> (get_percentile h p <= get_percentile h q)%Q.
Proof. exact get_percentile_mono. Qed.
Print Assumptions C15_percentile_monotone.

(** Every percentile other than the median lies in the bin where the cumulative share passes it. *)
Theorem C15_percentile_in_right_bin : forall h k e c p, percentile_hyps h -> ~ (p == 50)%Q ->
  nth_error (h_edges h) (S k) = Some e -> nth_error (h_counts h) k = Some c ->
  ((p / 100 < share_upto (h_counts h) (S k))%Q -> (get_percentile h p <= e)%Q) /\
  ((share_upto (h_counts h) (S k) + (1 # 1000000000000000) <= p / 100)%Q -> (e <= get_percentile h p)%Q).
Proof.
  intros h k e c p H Hp Ee Ec.
  assert (E : get_percentile h p = plain h (p / 100)).
  { destruct (get_percentile_cases h) as [E|(m & _ & E)]; rewrite E; [reflexivity|].
    apply Qeq_bool_false in Hp. rewrite Hp. reflexivity. }
  rewrite E. destruct (plain_bin h k e c (p / 100) H Ee Ec) as (A & B & _). split; assumption.
Qed.
Print Assumptions C15_percentile_in_right_bin.

Theorem C15_quantiles_monotone : forall h n i j a b, percentile_hyps h -> 0 < n -> (Z.of_nat n <= 100000000)%Z ->
  nth_error (get_quantiles h n) i = Some a -> nth_error (get_quantiles h n) j = Some b -> i <= j ->
  (a <= b)%Q.
Proof.
  intros h n i j a b H Hn0 Hn Ha Hb Hij. unfold get_quantiles in *. rewrite nth_error_map in Ha, Hb.
  destruct (nth_error (seq 1 (n - 1)) i) as [x|] eqn:Ex; [|discriminate].
  destruct (nth_error (seq 1 (n - 1)) j) as [y|] eqn:Ey; [|discriminate].
  cbn in Ha, Hb. injection Ha as <-. injection Hb as <-.
  assert (Hi : i < n - 1) by (rewrite <- (seq_length (n - 1) 1); apply nth_error_Some; congruence).
  assert (Hj : j < n - 1) by (rewrite <- (seq_length (n - 1) 1); apply nth_error_Some; congruence).
  rewrite nth_error_seq in Ex, Ey by lia. injection Ex as <-. injection Ey as <-.
  assert (Hnq : (0 < Qn n)%Q) by (apply Qn_pos; lia).
  assert (Hclear : forall z, (Qn z * (100 / Qn n) == 50 \/ Qn z * (100 / Qn n) <= 50 - (2 # 100000000)
                     \/ 50 + (2 # 100000000) <= Qn z * (100 / Qn n))%Q).
  { intro z.
    assert (Hmul : forall q, (Qn z * (100 / Qn n) <= q <-> 100 * Qn z <= q * Qn n)%Q).
    { intro q. assert (E : (Qn z * (100 / Qn n) == (100 * Qn z) / Qn n)%Q) by (field; lra). rewrite E. split; intro L.
      - apply (Qmult_le_r _ _ (Qn n) Hnq) in L. assert (E2 : (100 * Qn z / Qn n * Qn n == 100 * Qn z)%Q) by (field; lra). lra.
      - apply Qle_shift_div_r; assumption. }
    assert (Hmul2 : forall q, (q <= Qn z * (100 / Qn n) <-> q * Qn n <= 100 * Qn z)%Q).
    { intro q. assert (E : (Qn z * (100 / Qn n) == (100 * Qn z) / Qn n)%Q) by (field; lra). rewrite E. split; intro L.
      - apply (Qmult_le_r _ _ (Qn n) Hnq) in L. assert (E2 : (100 * Qn z / Qn n * Qn n == 100 * Qn z)%Q) by (field; lra). lra.
      - apply Qle_shift_div_l; assumption. }
    rewrite Hmul, Hmul2.
    assert (Hsmall : (Qn n <= 100000000)%Q).
    { change 100000000%Q with (inject_Z 100000000). unfold Qn. apply inject_Z_le. lia. }
    destruct (Nat.lt_trichotomy (2 * z) n) as [L|[E|L]].
    - right. left. assert (Hq : (Qn (2 * z + 1) <= Qn n)%Q) by (apply Qn_le; lia).
      rewrite Qn_plus, Qn_mult in Hq. change (Qn 2) with 2%Q in Hq. change (Qn 1) with 1%Q in Hq. lra.
    - left. rewrite <- E, Qn_mult. change (Qn 2) with 2%Q. assert (Hz : (0 < Qn z)%Q) by (apply Qn_pos; lia). field. lra.
    - right. right. assert (Hq : (Qn (n + 1) <= Qn (2 * z))%Q) by (apply Qn_le; lia).
      rewrite Qn_plus, Qn_mult in Hq. change (Qn 2) with 2%Q in Hq. change (Qn 1) with 1%Q in Hq. lra. }
  apply get_percentile_mono; [exact H|apply Hclear|apply Hclear|].
  assert (Hle : (Qn (1 + i) <= Qn (1 + j))%Q) by (apply Qn_le; lia).
  assert (H100 : (0 < 100 / Qn n)%Q) by (apply Qlt_shift_div_l; lra). apply (Qmult_le_r _ _ _ H100). exact Hle.
Qed.
Print Assumptions C15_quantiles_monotone.

(** Without the condition on the percentages it is false: just above 50 the interpolation is
    steeper than the median rule allows. *)
Theorem C15_percentile_monotone_everywhere_refuted :
  ~ (forall h p q, percentile_hyps h -> (p <= q)%Q -> (get_percentile h p <= get_percentile h q)%Q).
Proof.
  intro H.
  assert (Hh : percentile_hyps (mkHist [1; 0; 1]%Z [1; 2; 3; 4]%Q)).
  { repeat split; try (repeat constructor; lia); cbn; try lra; lia. }
  assert (Hp : (50 <= 50 + (1 # 100000000000000))%Q) by lra.
  specialize (H _ _ _ Hh Hp). vm_compute in H. apply H. reflexivity.
Qed.
Print Assumptions C15_percentile_monotone_everywhere_refuted.

Example C15_example :
  let h := mkHist [2; 0; 3; 5]%Z [0; 1; 2; 4; 8]%Q in
  percentile_hyps h /\ (get_percentile h 50 == 4)%Q /\ (get_percentile h 10 == 1 # 2)%Q /\ (get_percentile h 75 == 6)%Q.
Proof.
  cbv zeta. split; [|vm_compute; repeat split].
  repeat split; try (repeat constructor; lia); cbn; try lra; lia.
Qed.

(** ** C59 *)
(** Shifting the data shifts the percentiles, unless the middle of an empty half-way gap is 0
    before or after the shift. *)
Theorem C59_percentiles_shift : forall d h p, h_edges h <> [] ->
  (forall m, halfway h = Some m -> ~ (m == 0)%Q) ->
  (forall m, halfway (shift d h) = Some m -> ~ (m == 0)%Q) ->
  (get_percentile (shift d h) p == get_percentile h p + d)%Q.
Proof. exact percentile_shift. Qed.
Print Assumptions C59_percentiles_shift.

Theorem C59_median_shift_refuted :
  ~ (forall d h, h_edges h <> [] -> (get_percentile (shift d h) 50 == get_percentile h 50 + d)%Q).
Proof.
  intro H. specialize (H 1%Q (mkHist [2; 0; 0; 2]%Z [-1; -1 # 2; 0; 1 # 2; 1]%Q) ltac:(discriminate)).
  vm_compute in H. discriminate.
Qed.
Print Assumptions C59_median_shift_refuted.

Example C59_example :
  let h := mkHist [2; 0; 0; 2]%Z [0; 1; 2; 3; 4]%Q in
  (forall m, halfway h = Some m -> ~ (m == 0)%Q) /\ (forall m, halfway (shift 5 h) = Some m -> ~ (m == 0)%Q) /\
  (get_percentile (shift 5 h) 50 == 7)%Q.
Proof.
  cbv zeta. split; [|split].
  - intros m E. vm_compute in E. injection E as <-. vm_compute. discriminate.
  - intros m E. vm_compute in E. injection E as <-. vm_compute. discriminate.
  - vm_compute. reflexivity.
Qed.

(** ** C60 *)
(** Folding at a value in the second or a later bin splits the mass exactly at the value. *)
Theorem C60_fold_splits_mass : forall h v i a b, wf_hist h -> (0 < zsum (h_counts h))%Z -> sorted (h_edges h) ->
  1 <= i -> nth_error (h_edges h) i = Some a -> nth_error (h_edges h) (S i) = Some b -> (a <= v < b)%Q ->
  exists pos neg, fold_histogram h v = Ok (pos, neg) /\
    (qsum (fst neg) == mass_left h i v)%Q /\ (qsum (fst pos) == 1 - mass_left h i v)%Q /\
    Forall (fun q => 0 <= q)%Q (fst pos) /\ Forall (fun q => 0 <= q)%Q (fst neg) /\
    length (snd pos) = length (fst pos) + 1 /\ length (snd neg) = length (fst neg) + 1.
Proof. exact fold_splits. Qed.
Print Assumptions C60_fold_splits_mass.

(** A median in the first bin makes the median absolute deviation 0, whatever the bins hold. *)
Theorem C60_mad_zero_in_first_bin : forall h m e0 e1 es c cs,
  h_edges h = e0 :: e1 :: es -> h_counts h = c :: cs -> (e0 <= m < e1)%Q ->
  mad_early_exit h m = Ok (Some 0%Q).
Proof. exact mad_first_bin. Qed.
Print Assumptions C60_mad_zero_in_first_bin.

(** So it is not symmetric under mirroring the data. *)
Definition mirror (h : hist) : hist := mkHist (rev (h_counts h)) (map Qopp (rev (h_edges h))).
Theorem C60_mad_mirror_refuted :
  ~ (forall h, percentile_hyps h -> strictly_increasing (h_edges h) ->
      (mad_early_exit h (get_percentile h 50) = Ok (Some 0%Q) <->
       mad_early_exit (mirror h) (get_percentile (mirror h) 50) = Ok (Some 0%Q))).
Proof.
  intro H. specialize (H (mkHist [6; 2; 2]%Z [0; 1; 2; 3]%Q)).
  assert (H1 : percentile_hyps (mkHist [6; 2; 2]%Z [0; 1; 2; 3]%Q)).
  { repeat split; try (repeat constructor; lia); cbn; try lra; lia. }
  assert (H2 : strictly_increasing [0; 1; 2; 3]%Q).
  { intros i j x y Hij Ei Ej.
    destruct i as [|[|[|[|i]]]], j as [|[|[|[|j]]]]; cbn in Ei, Ej; try lia; try (destruct j; discriminate); try (destruct i; discriminate);
      injection Ei as <-; injection Ej as <-; reflexivity. }
  destruct (H H1 H2) as [A _]. assert (E : mad_early_exit (mkHist [6; 2; 2]%Z [0; 1; 2; 3]%Q) (get_percentile (mkHist [6; 2; 2]%Z [0; 1; 2; 3]%Q) 50) = Ok (Some 0%Q))
    by (vm_compute; reflexivity).
  specialize (A E). vm_compute in A. discriminate.
Qed.
Print Assumptions C60_mad_mirror_refuted.

Example C60_example :
  let h := mkHist [2; 2; 6]%Z [0; 1; 2; 3]%Q in
  wf_hist h /\ sorted (h_edges h) /\ (mass_left h 2 (13 # 6) == 1 # 2)%Q.
Proof. cbv zeta. split; [split; [reflexivity|repeat constructor; lia]|]. split; [cbn; lra|vm_compute; reflexivity]. Qed.

(** ** C61 *)
(** The mode estimate is the midpoints of the first [k] of the bins that hold the largest count. *)
Theorem C61_mode : forall k h, wf_hist h -> h_counts h <> [] -> 0 < k ->
  exists m, (In m (h_counts h) /\ forall x, In x (h_counts h) -> (x <= m)%Z) /\
    estimate_mode k h = map (midpoint (h_edges h))
      (firstn k (filter (fun i => (nth i (h_counts h) 0 =? m)%Z) (seq 0 (length (h_counts h))))) /\
    Forall (fun o => exists x, o = Some x) (estimate_mode k h).
Proof. exact mode_ok. Qed.
Print Assumptions C61_mode.

Example C61_example : estimate_mode 2 (mkHist [1; 4; 0; 4; 4]%Z [0; 2; 4; 6; 8; 10]%Q) = [Some (6 # 2); Some (14 # 2)]%Q.
Proof. reflexivity. Qed.
