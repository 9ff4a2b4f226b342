(** Property C11: skewness and kurtosis of streamed and merged columns. *)
From Coq Require Import Reals Lra Permutation.
From Verif Require Import PyCommon MomentModel.
Local Open Scope R_scope.

(** ** What is expected *)

(** All values, in order *)
Fixpoint data (h : hist) : list R :=
  match h with HNew _ => [] | HUpd h b => data h ++ b | HAdd h1 h2 => data h1 ++ data h2 end.
Fixpoint corrected (h : hist) : bool :=
  match h with HNew b => b | HUpd h _ => corrected h | HAdd h1 h2 => corrected h1 && corrected h2 end.

Definition num (l : list R) : R := INR (length l).
Definition avg (l : list R) : R := rsum l / num l.
(** Sum of the powers of the deviations from the mean *)
Definition moment (k : nat) (l : list R) : R := rsum (map (fun x => (x - avg l) ^ k) l).

(** Batches whose moments are not mistaken for rounding errors *)
Definition sound_batch (l : list R) : Prop := forall k, (2 <= k <= 4)%nat -> moment k l = 0 \/ tiny <= Rabs (moment k l).
Fixpoint sound (h : hist) : Prop :=
  match h with HNew _ => True | HUpd h b => sound h /\ sound_batch b | HAdd h1 h2 => sound h1 /\ sound h2 end.

(** ** Sums *)
Lemma rsum_app l1 l2 : rsum (l1 ++ l2) = rsum l1 + rsum l2.
Proof. unfold rsum. induction l1 as [|x l1 IH]; cbn [app fold_right]; [ring|]. rewrite IH. ring. Qed.

Definition pw (k : nat) (l : list R) : R := rsum (map (fun x => x ^ k) l).
Lemma pw_app k l1 l2 : pw k (l1 ++ l2) = pw k l1 + pw k l2.
Proof. unfold pw. rewrite map_app. apply rsum_app. Qed.
Lemma pw1 l : pw 1 l = rsum l.
Proof. unfold pw. f_equal. rewrite <- (map_id l) at 2. apply map_ext. intro. ring. Qed.
Lemma num_app l1 l2 : num (l1 ++ l2) = num l1 + num l2.
Proof. unfold num. rewrite app_length. apply plus_INR. Qed.
Lemma num_pos l : l <> [] -> 0 < num l.
Proof. intro H. unfold num. apply lt_0_INR. destruct l; [contradiction|cbn; lia]. Qed.

Lemma about2 m l : rsum (map (fun x => (x - m) ^ 2) l) = pw 2 l - 2 * m * pw 1 l + num l * m ^ 2.
Proof. unfold pw, num. induction l as [|x l IH]; [cbn; ring|]. cbn [map rsum fold_right length]. unfold rsum in *. rewrite IH, S_INR. ring. Qed.
Lemma about3 m l : rsum (map (fun x => (x - m) ^ 3) l) = pw 3 l - 3 * m * pw 2 l + 3 * m ^ 2 * pw 1 l - num l * m ^ 3.
Proof. unfold pw, num. induction l as [|x l IH]; [cbn; ring|]. cbn [map rsum fold_right length]. unfold rsum in *. rewrite IH, S_INR. ring. Qed.
Lemma about4 m l : rsum (map (fun x => (x - m) ^ 4) l) = pw 4 l - 4 * m * pw 3 l + 6 * m ^ 2 * pw 2 l - 4 * m ^ 3 * pw 1 l + num l * m ^ 4.
Proof. unfold pw, num. induction l as [|x l IH]; [cbn; ring|]. cbn [map rsum fold_right length]. unfold rsum in *. rewrite IH, S_INR. ring. Qed.

Section Merge.
  Variables l1 l2 : list R.
  Hypothesis N1 : l1 <> [].
  Hypothesis N2 : l2 <> [].
  Let a := num l1.
  Let b := num l2.
  Let delta := avg l2 - avg l1.

  Ltac prep := unfold delta, avg, a, b; rewrite ?num_app, <- ?pw1, ?pw_app; pose proof (num_pos l1 N1); pose proof (num_pos l2 N2).

  Lemma moment2_app : moment 2 (l1 ++ l2) = moment 2 l1 + moment 2 l2 + delta ^ 2 * a * b / (a + b).
  Proof. unfold moment. rewrite !about2. prep. field. repeat split; lra. Qed.

  Lemma moment3_app : moment 3 (l1 ++ l2) = moment 3 l1 + moment 3 l2 + delta ^ 3 * a * b * (a - b) / (a + b) ^ 2 + 3 * delta * (a * moment 2 l2 - b * moment 2 l1) / (a + b).
  Proof. unfold moment. rewrite !about2, !about3. prep. field. repeat split; lra. Qed.

  Lemma moment4_app : moment 4 (l1 ++ l2) = moment 4 l1 + moment 4 l2 + delta ^ 4 * (a * b * (a ^ 2 - a * b + b ^ 2)) / (a + b) ^ 3 +
    6 * delta ^ 2 * (a ^ 2 * moment 2 l2 + b ^ 2 * moment 2 l1) / (a + b) ^ 2 + 4 * delta * (a * moment 3 l2 - b * moment 3 l1) / (a + b).
  Proof. unfold moment. rewrite !about2, !about3, !about4. prep. field. repeat split; lra. Qed.
End Merge.

Lemma moment2_nonneg l : 0 <= moment 2 l.
Proof. unfold moment. generalize (avg l) as m. intro m. induction l as [|x l IH]; cbn [map rsum fold_right]; [lra|]. unfold rsum in IH. pose proof (pow2_ge_0 (x - m)). lra. Qed.

Lemma moment2_zero l : moment 2 l = 0 -> forall x, In x l -> x = avg l.
Proof.
  unfold moment. generalize (avg l) as m. intros m. induction l as [|y l IH]; intros H x; [intros []|]. cbn [map rsum fold_right] in H.
  assert (0 <= rsum (map (fun x => (x - m) ^ 2) l)) as P. { clear. induction l as [|x l IH]; cbn [map rsum fold_right]; [lra|]. unfold rsum in IH. pose proof (pow2_ge_0 (x - m)). lra. }
  unfold rsum in *. pose proof (pow2_ge_0 (y - m)) as P2. intros [<-|Hx].
  - assert ((y - m) ^ 2 = 0) as Z by lra. assert (y - m = 0) by nra. lra.
  - apply IH; [lra|exact Hx].
Qed.

Lemma moment_zero k l : (0 < k)%nat -> moment 2 l = 0 -> moment k l = 0.
Proof.
  intros Hk H. pose proof (moment2_zero l H) as E. unfold moment. set (m := avg l) in *. clearbody m. clear H. induction l as [|y l IH]; [reflexivity|]. cbn [map rsum fold_right]. unfold rsum in IH.
  rewrite IH by (intros x Hx; apply E; right; exact Hx). rewrite (E y (or_introl eq_refl)). replace (m - m) with 0 by ring. rewrite pow_i by lia. ring.
Qed.

(** ** The invariant *)
Definition g1 (l : list R) : R := if Req_EM_T (moment 2 l) 0 then 0 else sqrt (num l) * moment 3 l / sqrt (moment 2 l ^ 3).
Definition g2 (l : list R) : R := num l * moment 4 l / moment 2 l ^ 2 - 3.

Record good (c : col) (l : list R) : Prop := {
  gd_n : c_n c = length l;
  gd_sum : c_sum c = rsum l;
  gd_var : c_var c = match l with [] => None | _ => Some (moment 2 l / num l) end;
  gd_skew : c_skew c = match l with [] => None | _ => Some (g1 l) end;
  gd_kurt : match l with [] => c_kurt c = None | _ => exists k, c_kurt c = Some k /\ (moment 2 l <> 0 -> k = g2 l) end }.

Lemma third_spec l : l <> [] -> third (g1 l) (num l) (moment 2 l) = moment 3 l.
Proof.
  intro H. unfold third, g1. pose proof (num_pos l H) as P. pose proof (sqrt_lt_R0 _ P) as P2. destruct (Req_EM_T (moment 2 l) 0) as [E|E].
  - rewrite (moment_zero 3 l ltac:(lia) E). field. lra.
  - pose proof (moment2_nonneg l). assert (0 < moment 2 l ^ 3) as P3 by (apply pow_lt; lra). pose proof (sqrt_lt_R0 _ P3). field. lra.
Qed.

Lemma merge_good_skew l1 l2 : l1 <> [] -> l2 <> [] ->
  merge_skewness (length l1) (Some (g1 l1)) (Some (moment 2 l1 / num l1)) (avg l1) (length l2) (Some (g1 l2)) (Some (moment 2 l2 / num l2)) (avg l2) = Some (g1 (l1 ++ l2)).
Proof.
  intros N1 N2. unfold merge_skewness. replace ((length l1 <? 1)%nat) with false by (destruct l1; [contradiction|reflexivity]). replace ((length l2 <? 1)%nat) with false by (destruct l2; [contradiction|reflexivity]).
  cbv zeta. fold (num l1) (num l2). pose proof (num_pos l1 N1) as P1. pose proof (num_pos l2 N2) as P2.
  replace (num l1 * (moment 2 l1 / num l1)) with (moment 2 l1) by (field; lra). replace (num l2 * (moment 2 l2 / num l2)) with (moment 2 l2) by (field; lra).
  assert (merged_M2 (num l1) (num l2) (moment 2 l1 / num l1) (moment 2 l2 / num l2) (avg l2 - avg l1) = moment 2 (l1 ++ l2)) as ->. { unfold merged_M2. rewrite moment2_app by assumption. field. repeat split; lra. }
  rewrite !third_spec by assumption. unfold g1. destruct (Req_EM_T (moment 2 (l1 ++ l2)) 0); [reflexivity|]. rewrite num_app, moment3_app by assumption. reflexivity.
Qed.

Lemma merge_good_kurt l1 l2 k1 k2 : l1 <> [] -> l2 <> [] -> (moment 2 l1 <> 0 -> k1 = g2 l1) -> (moment 2 l2 <> 0 -> k2 = g2 l2) ->
  exists k, merge_kurtosis (length l1) (Some k1) (Some (g1 l1)) (Some (moment 2 l1 / num l1)) (avg l1) (length l2) (Some k2) (Some (g1 l2)) (Some (moment 2 l2 / num l2)) (avg l2) = Some k /\
    (moment 2 (l1 ++ l2) <> 0 -> k = g2 (l1 ++ l2)).
Proof.
  intros N1 N2 K1 K2. unfold merge_kurtosis. replace ((length l1 <? 1)%nat) with false by (destruct l1; [contradiction|reflexivity]). replace ((length l2 <? 1)%nat) with false by (destruct l2; [contradiction|reflexivity]).
  cbv zeta. fold (num l1) (num l2). pose proof (num_pos l1 N1) as P1. pose proof (num_pos l2 N2) as P2.
  replace (num l1 * (moment 2 l1 / num l1)) with (moment 2 l1) by (field; lra). replace (num l2 * (moment 2 l2 / num l2)) with (moment 2 l2) by (field; lra).
  assert (merged_M2 (num l1) (num l2) (moment 2 l1 / num l1) (moment 2 l2 / num l2) (avg l2 - avg l1) = moment 2 (l1 ++ l2)) as ->. { unfold merged_M2. rewrite moment2_app by assumption. field. repeat split; lra. }
  rewrite !third_spec by assumption.
  assert (forall l k, l <> [] -> (moment 2 l <> 0 -> k = g2 l) -> (k + 3) * moment 2 l ^ 2 / num l = moment 4 l) as F.
  { clear. intros l k H K. pose proof (num_pos l H) as P. destruct (Req_EM_T (moment 2 l) 0) as [E|E]; [rewrite (moment_zero 4 l ltac:(lia) E), E; field; lra|]. rewrite (K E). unfold g2. field. split; try exact E; lra. }
  rewrite (F l1 k1 N1 K1), (F l2 k2 N2 K2). destruct (Req_EM_T (moment 2 (l1 ++ l2)) 0) as [E|E]; eexists; (split; [reflexivity|]); intro H; [contradiction|]. unfold g2. rewrite num_app, moment4_app by assumption. reflexivity.
Qed.

Lemma merge_good_var l1 l2 : l1 <> [] -> l2 <> [] ->
  merge_variance (length l1) (Some (moment 2 l1 / num l1)) (avg l1) (length l2) (Some (moment 2 l2 / num l2)) (avg l2) = Some (moment 2 (l1 ++ l2) / num (l1 ++ l2)).
Proof.
  intros N1 N2. unfold merge_variance. replace ((length l1 <? 1)%nat) with false by (destruct l1; [contradiction|reflexivity]). replace ((length l2 <? 1)%nat) with false by (destruct l2; [contradiction|reflexivity]).
  cbv zeta. fold (num l1) (num l2). pose proof (num_pos l1 N1) as P1. pose proof (num_pos l2 N2) as P2. rewrite moment2_app, num_app by assumption. f_equal. field. repeat split; lra.
Qed.

Lemma good_mean c l : good c l -> l <> [] -> mean c = avg l.
Proof. intros G H. unfold mean, avg, num. rewrite (gd_n _ _ G), (gd_sum _ _ G). destruct l; [contradiction|reflexivity]. Qed.

(** The statistics of a batch alone *)
Definition batch_col (b : list R) : col := mkCol (length b) (rsum b) (np_var b) (biased_skew b) (biased_kurt b) true.

Lemma cut_sound x : x = 0 \/ tiny <= Rabs x -> cut_tiny x = x.
Proof. unfold cut_tiny. intros [->|H]; destruct (Rlt_dec _ _); try reflexivity; lra. Qed.

Lemma good_batch b : sound_batch b -> good (batch_col b) b.
Proof.
  intro S. destruct b as [|x b0] eqn:E; [constructor; reflexivity|]. rewrite <- E in *. assert (b <> []) as Hne by (rewrite E; discriminate). clear E.
  assert (map (fun x => (x - avg b) ^ 2 * (x - avg b)) b = map (fun x => (x - avg b) ^ 3) b) as E3 by (apply map_ext; intro; ring).
  assert (map (fun x => (x - avg b) ^ 2 * (x - avg b) ^ 2) b = map (fun x => (x - avg b) ^ 4) b) as E4 by (apply map_ext; intro; ring).
  constructor; cbn [batch_col c_n c_sum c_var c_skew c_kurt]; try reflexivity.
  - unfold biased_skew. destruct b as [|y b1] eqn:E; [contradiction|]. rewrite <- E in *. cbv zeta. fold (num b). fold (avg b). rewrite E3. fold (moment 2 b) (moment 3 b). rewrite !cut_sound by (apply S; lia). reflexivity.
  - unfold biased_kurt. destruct b as [|y b1] eqn:E; [contradiction|]. rewrite <- E in *. cbv zeta. fold (num b). fold (avg b). rewrite E4. fold (moment 2 b) (moment 4 b). rewrite !cut_sound by (apply S; lia). eexists. split; [reflexivity|].
    intro N. destruct (Req_EM_T (moment 2 b) 0); [contradiction|]. reflexivity.
Qed.

Lemma good_add x y l1 l2 : good x l1 -> good y l2 -> good (add x y) (l1 ++ l2).
Proof.
  intros G1 G2. pose proof (gd_n _ _ G1) as n1. pose proof (gd_n _ _ G2) as n2.
  destruct l1 as [|x1 l1'] eqn:E1.
  { assert (c_n x = 0%nat) as Z by exact n1. assert (c_sum x = 0) as Zs by exact (gd_sum _ _ G1). cbn [app]. constructor; unfold add; cbn [c_n c_sum c_var c_skew c_kurt]; rewrite ?Z, ?Zs; unfold merge_variance, merge_skewness, merge_kurtosis; cbn [Nat.ltb Nat.leb Nat.add].
    - exact n2.
    - rewrite (gd_sum _ _ G2). ring.
    - exact (gd_var _ _ G2).
    - exact (gd_skew _ _ G2).
    - exact (gd_kurt _ _ G2). }
  rewrite <- E1 in *. assert (l1 <> []) as N1 by (rewrite E1; discriminate).
  destruct l2 as [|x2 l2'] eqn:E2.
  { assert (c_n y = 0%nat) as Z by exact n2. assert (c_sum y = 0) as Zs by exact (gd_sum _ _ G2). assert ((c_n x <? 1)%nat = false) as Zx by (rewrite n1, E1; reflexivity).
    rewrite app_nil_r. constructor; unfold add; cbn [c_n c_sum c_var c_skew c_kurt]; rewrite ?Z, ?Zs; unfold merge_variance, merge_skewness, merge_kurtosis; rewrite ?Zx; cbn [Nat.ltb Nat.leb].
    - rewrite n1. lia.
    - rewrite (gd_sum _ _ G1). ring.
    - exact (gd_var _ _ G1).
    - exact (gd_skew _ _ G1).
    - exact (gd_kurt _ _ G1). }
  rewrite <- E2 in *. assert (l2 <> []) as N2 by (rewrite E2; discriminate).
  assert (l1 ++ l2 <> []) as N3 by (rewrite E1; discriminate).
  pose proof (gd_var _ _ G1) as V1. pose proof (gd_var _ _ G2) as V2. pose proof (gd_skew _ _ G1) as S1. pose proof (gd_skew _ _ G2) as S2. pose proof (gd_kurt _ _ G1) as K1. pose proof (gd_kurt _ _ G2) as K2.
  rewrite E1 in V1, S1, K1. rewrite E2 in V2, S2, K2. rewrite <- E1 in *. rewrite <- E2 in *. destruct K1 as (k1 & K1 & HK1). destruct K2 as (k2 & K2 & HK2).
  assert (forall {X} (u v : X), match l1 ++ l2 with [] => u | _ => v end = v) as M by (intros; destruct (l1 ++ l2); [contradiction|reflexivity]).
  constructor; unfold add; cbn [c_n c_sum c_var c_skew c_kurt]; rewrite ?(good_mean _ _ G1 N1), ?(good_mean _ _ G2 N2), ?V1, ?V2, ?S1, ?S2, ?K1, ?K2, ?n1, ?n2.
  - rewrite app_length. reflexivity.
  - rewrite rsum_app, (gd_sum _ _ G1), (gd_sum _ _ G2). reflexivity.
  - rewrite M. apply merge_good_var; assumption.
  - rewrite M. apply merge_good_skew; assumption.
  - destruct (merge_good_kurt l1 l2 k1 k2 N1 N2 HK1 HK2) as (k & E & H). rewrite M. exists k. split; assumption.
Qed.

Lemma update_add c b l : good c l -> b <> [] -> update c b = let r := add c (batch_col b) in mkCol (c_n r) (c_sum r) (c_var r) (c_skew r) (c_kurt r) (c_bias c).
Proof.
  intros G H. unfold update. destruct b as [|x b0] eqn:E; [contradiction|]. rewrite <- E in *. cbv zeta. unfold add. cbn [batch_col c_n c_sum c_var c_skew c_kurt c_bias].
  assert (mean (batch_col b) = rsum b / INR (length b)) as ->. { unfold mean. cbn [batch_col c_n c_sum]. rewrite E. reflexivity. }
  assert (forall {X} (old merged : option X), (old = None -> c_n c = 0%nat) -> keep c old merged = merged) as K. { intros X old merged Ho. unfold keep. destruct old; [reflexivity|]. rewrite (Ho eq_refl). reflexivity. }
  assert (l = [] -> c_n c = 0%nat) as L by (intros ->; exact (gd_n _ _ G)).
  f_equal; apply K; intro F; apply L.
  - rewrite (gd_var _ _ G) in F. destruct l; [reflexivity|discriminate].
  - rewrite (gd_skew _ _ G) in F. destruct l; [reflexivity|discriminate].
  - pose proof (gd_kurt _ _ G) as Gk. destruct l; [reflexivity|]. destruct Gk as (k & Ek & _). congruence.
Qed.

Lemma run_good h : sound h -> good (run h) (data h).
Proof.
  induction h as [b|h IH b|h1 IH1 h2 IH2]; cbn [run data sound]; intro S.
  - constructor; reflexivity.
  - destruct S as [S Sb]. destruct b as [|x b0] eqn:E; [rewrite app_nil_r; cbn [update]; apply IH; exact S|]. rewrite <- E in *. rewrite (update_add _ b (data h) (IH S) ltac:(rewrite E; discriminate)).
    pose proof (good_add (run h) (batch_col b) (data h) b (IH S) (good_batch b Sb)) as G. destruct G as [H1 H2 H3 H4 H5]. constructor; cbn [c_n c_sum c_var c_skew c_kurt]; assumption.
  - destruct S as [S1 S2]. apply good_add; auto.
Qed.

Lemma run_bias h : c_bias (run h) = corrected h.
Proof. induction h as [b|h IH b|h1 IH1 h2 IH2]; cbn [run corrected]; [reflexivity| |unfold add; cbn; rewrite IH1, IH2; reflexivity]. unfold update. destruct b; [exact IH|]. exact IH. Qed.

(** ** Results *)

(** The skewness is that of all values, however they came in batches and profiles: without bias correction the ratio of
    mean cubed deviation and standard deviation cubed, with it the usual estimator; 0 for equal values. *)
Theorem C11_skewness h : sound h ->
  let l := data h in let n := num l in
  match skewness (run h) with
  | None => if corrected h then (length l < 3)%nat else l = []
  | Some s => l <> [] /\
      if corrected h
      then (3 <= length l)%nat /\ (moment 2 l = 0 -> s = 0) /\
           (moment 2 l <> 0 -> s = n / ((n - 1) * (n - 2)) * rsum (map (fun x => ((x - avg l) / sqrt (moment 2 l / (n - 1))) ^ 3) l))
      else (moment 2 l = 0 -> s = 0) /\ (moment 2 l <> 0 -> s = (moment 3 l / n) / sqrt (moment 2 l / n) ^ 3)
  end.
Proof.
  intros S l. cbv zeta. pose proof (run_good h S) as G. fold l in G. clearbody l. unfold skewness. rewrite run_bias, (gd_skew _ _ G), (gd_n _ _ G).
  destruct l as [|x l0] eqn:E; [destruct (corrected h); cbn; [lia|reflexivity]|]. rewrite <- E in *. assert (l <> []) as Hne by (rewrite E; discriminate). clear E.
  pose proof (num_pos l Hne) as P. set (n := num l) in *. pose proof (moment2_nonneg l) as M. destruct (corrected h); cbn [negb].
  - destruct (Nat.ltb_spec (length l) 3) as [L|L]; [exact L|]. split; [exact Hne|]. split; [exact L|]. assert (3 <= n) as L3. { unfold n, num. pose proof (le_INR _ _ L) as L'. replace (INR 3) with 3 in L' by (cbn; ring). exact L'. }
    cbv zeta. fold (num l). fold n. unfold g1. destruct (Req_EM_T (moment 2 l) 0) as [E|E]; split; intro H; try contradiction; [field; lra|].
    assert (0 < moment 2 l) as MP by lra. set (M2 := moment 2 l) in *. assert (rsum (map (fun x => ((x - avg l) / sqrt (M2 / (n - 1))) ^ 3) l) = moment 3 l / sqrt (M2 / (n - 1)) ^ 3) as ->.
    { unfold moment. assert (0 < sqrt (M2 / (n - 1))) as SP by (apply sqrt_lt_R0; apply Rdiv_lt_0_compat; lra). generalize (avg l) as m. intro m. revert SP. generalize (sqrt (M2 / (n - 1))) as sd. intros sd SP. clear -SP. induction l as [|y l IH]; cbn [map rsum fold_right]; [field; lra|]. unfold rsum in IH. rewrite IH. field. lra. }
    fold n. assert (M2 ^ 3 = M2 * M2 * M2) as -> by ring. rewrite sqrt_div by lra. assert (0 <= M2 * M2) by nra. rewrite (sqrt_mult (M2 * M2) M2), (sqrt_mult M2 M2), (sqrt_mult n (n - 1)) by lra.
    pose proof (sqrt_lt_R0 _ MP) as A1. pose proof (sqrt_lt_R0 (n - 1) ltac:(lra)) as A2. pose proof (sqrt_lt_R0 n P) as A3. pose proof (sqrt_sqrt M2 ltac:(lra)) as B1. pose proof (sqrt_sqrt (n - 1) ltac:(lra)) as B2. pose proof (sqrt_sqrt n ltac:(lra)) as B3.
    set (q := sqrt (n - 1)) in *. set (r := sqrt n) in *. set (t := sqrt M2) in *. clearbody q r t.
    replace (r * q * (r * moment 3 l / (t * t * t)) / (n - 2)) with ((r * r) * q * moment 3 l / (t * t * t) / (n - 2)) by (field; repeat split; nra).
    rewrite B3. replace (n / ((n - 1) * (n - 2)) * (moment 3 l / (t / q) ^ 3)) with (n / ((n - 1) * (n - 2)) * (moment 3 l * (q * q) * q / (t * t * t))) by (field; repeat split; nra).
    rewrite B2. field. repeat split; nra.
  - split; [exact Hne|]. unfold g1. destruct (Req_EM_T (moment 2 l) 0) as [E|E]; split; intro H; try contradiction; [reflexivity|].
    assert (0 < moment 2 l) as MP by lra. fold n. set (M2 := moment 2 l) in *. assert (M2 ^ 3 = M2 * M2 * M2) as -> by ring. rewrite sqrt_div by lra. assert (0 <= M2 * M2) by nra. rewrite (sqrt_mult (M2 * M2) M2), (sqrt_mult M2 M2) by lra.
    pose proof (sqrt_lt_R0 _ MP) as A1. pose proof (sqrt_lt_R0 n P) as A3. pose proof (sqrt_sqrt n ltac:(lra)) as B3. set (r := sqrt n) in *. set (t := sqrt M2) in *. clearbody r t.
    rewrite <- B3. field. split; lra.
Qed.

(** The kurtosis is that of all values if they are not all equal. *)
Theorem C11_kurtosis h : sound h ->
  let l := data h in let n := num l in
  match kurtosis (run h) with
  | None => if corrected h then (length l < 4)%nat else l = []
  | Some k => l <> [] /\
      if corrected h
      then (4 <= length l)%nat /\
           (moment 2 l <> 0 -> k = n * (n + 1) / ((n - 1) * (n - 2) * (n - 3)) * (moment 4 l / (moment 2 l / (n - 1)) ^ 2) - 3 * (n - 1) ^ 2 / ((n - 2) * (n - 3)))
      else moment 2 l <> 0 -> k = (moment 4 l / n) / (moment 2 l / n) ^ 2 - 3
  end.
Proof.
  intros S l. cbv zeta. pose proof (run_good h S) as G. fold l in G. clearbody l. unfold kurtosis. rewrite run_bias, (gd_n _ _ G). pose proof (gd_kurt _ _ G) as K.
  destruct l as [|x l0] eqn:E; [rewrite K; destruct (corrected h); cbn; [lia|reflexivity]|]. destruct K as (k & -> & K). rewrite <- E in *. assert (l <> []) as Hne by (rewrite E; discriminate). clear E.
  pose proof (num_pos l Hne) as P. set (n := num l) in *. destruct (corrected h); cbn [negb].
  - destruct (Nat.ltb_spec (length l) 4) as [L|L]; [exact L|]. split; [exact Hne|]. split; [exact L|]. assert (4 <= n) as L3. { unfold n, num. pose proof (le_INR _ _ L) as L'. replace (INR 4) with 4 in L' by (cbn; ring). exact L'. }
    intro H. rewrite (K H). cbv zeta. fold (num l). fold n. unfold g2. fold n. field. repeat split; try exact H; lra.
  - split; [exact Hne|]. intro H. rewrite (K H). unfold g2. fold n. field. split; try exact H; lra.
Qed.

(** Batches that are constant or not too close to one another satisfy the assumption, e.g. the following ones. *)
Lemma moment_example : moment 2 [0; 3] = 9 / 2 /\ moment 3 [0; 3] = 0 /\ moment 4 [0; 3] = 81 / 8.
Proof. unfold moment, avg, num. cbn. repeat split; field. Qed.

Lemma tiny_pos : 0 < tiny < 1 / 1000.
Proof. unfold tiny. split; [apply Rinv_0_lt_compat; lra|]. cut (/ 10 ^ 14 < / 1000); [lra|]. apply Rinv_lt_contravar; lra. Qed.

Lemma sound_single x : sound_batch [x].
Proof. intros k Hk. left. unfold moment, avg, num. cbn. replace (x - (x + 0) / 1) with 0 by field. rewrite pow_i by lia. ring. Qed.

Lemma sound_example : sound_batch [0; 3].
Proof.
  destruct moment_example as (E2 & E3 & E4). pose proof tiny_pos. intros k Hk. assert (k = 2 \/ k = 3 \/ k = 4)%nat as [-> | [-> | ->]] by lia.
  - right. rewrite E2, Rabs_right by lra. lra.
  - left. exact E3.
  - right. rewrite E4, Rabs_right by lra. lra.
Qed.

Example C11_example : kurtosis (run (HUpd (HUpd (HNew false) [0; 3]) [3])) = Some (- 3 / 2).
Proof.
  pose proof (C11_kurtosis (HUpd (HUpd (HNew false) [0; 3]) [3]) (conj (conj I sound_example) (sound_single 3))) as H. cbv zeta in H.
  destruct (kurtosis _) as [k|]; [|discriminate H]. destruct H as [_ H]. cbn [corrected data app] in H.
  assert (moment 2 [0; 3; 3] = 6) as E2 by (unfold moment, avg, num; cbn; field). assert (moment 4 [0; 3; 3] = 18) as E4 by (unfold moment, avg, num; cbn; field).
  rewrite E2, E4 in H. unfold num in H. cbn in H. f_equal. rewrite H by lra. field.
Qed.

(** A user expects the kurtosis not to depend on how values come in batches.  For equal values it is -3 in one batch and 0
    in two. *)
Theorem C11_constant_kurtosis_refuted : ~ (forall h1 h2, sound h1 -> sound h2 -> data h1 = data h2 -> corrected h1 = corrected h2 -> kurtosis (run h1) = kurtosis (run h2)).
Proof.
  intro H. specialize (H (HUpd (HNew false) [1; 1]) (HUpd (HUpd (HNew false) [1]) [1])).
  assert (forall k, moment k [1; 1] = 2 * 0 ^ k) as M by (intro k; unfold moment, avg, num; cbn; replace (1 - (1 + (1 + 0)) / (1 + 1)) with 0 by field; ring).
  assert (sound_batch [1; 1]) as S by (intros k Hk; left; rewrite M, pow_i by lia; ring).
  specialize (H (conj I S) (conj (conj I (sound_single 1)) (sound_single 1)) eq_refl eq_refl).
  cbn [run update new c_n c_sum c_var c_skew c_kurt c_bias keep Nat.add Nat.ltb Nat.leb merge_kurtosis merge_variance merge_skewness length] in H. unfold kurtosis in H. cbn [c_bias negb c_kurt] in H.
  unfold biased_kurt in H. cbn [length map rsum fold_right] in H. cbv zeta in H. unfold biased_skew, np_var, mean in H. cbn [length map rsum fold_right c_n c_sum Nat.eqb Nat.ltb Nat.leb] in H. cbv zeta in H.
  assert (cut_tiny 0 = 0) as C by (apply cut_sound; left; reflexivity).
  replace ((1 - (1 + (1 + 0)) / INR 2) ^ 2 + ((1 - (1 + (1 + 0)) / INR 2) ^ 2 + 0)) with 0 in H by (cbn; field).
  replace ((1 - (1 + 0) / INR 1) ^ 2 + 0) with 0 in H by (cbn; field).
  rewrite !C in H. destruct (Req_EM_T 0 0) as [_|N]; [|apply N; reflexivity].
  unfold merged_M2 in H.
  match type of H with context [Req_EM_T ?x 0] => replace x with 0 in H by (cbn; field) end.
  destruct (Req_EM_T 0 0) as [_|N]; [|apply N; reflexivity]. injection H. lra.
Qed.

(** A user expects the skewness not to depend on the unit of the values.  That of small values is 0 in one batch. *)
Theorem C11_small_values_refuted : ~ (forall l, (2 < length l)%nat -> moment 3 l <> 0 -> skewness (run (HUpd (HNew false) l)) <> Some 0).
Proof.
  intro H. set (e := / 10 ^ 8). assert (0 < e) as E0 by (unfold e; apply Rinv_0_lt_compat; lra).
  assert (avg [0; 0; e] = e / 3) as A by (unfold avg, num; cbn; field).
  apply (H [0; 0; e]); [cbn; lia| |].
  - unfold moment. rewrite A. cbn. apply Rgt_not_eq. assert (0 < e * e * e) by (repeat apply Rmult_lt_0_compat; assumption). lra.
  - cbn [run update new c_n c_sum c_var c_skew c_kurt c_bias keep Nat.add Nat.ltb Nat.leb merge_kurtosis merge_variance merge_skewness length]. unfold skewness. cbn [c_bias negb c_skew].
    unfold biased_skew. cbn [length]. cbv zeta. change (rsum [0; 0; e] / INR 3) with (avg [0; 0; e]). rewrite A.
    assert (cut_tiny (rsum (map (fun x => (x - e / 3) ^ 2) [0; 0; e])) = 0) as ->.
    { unfold cut_tiny. destruct (Rlt_dec _ _) as [_|N]; [reflexivity|]. exfalso. apply N. cbn.
      assert (e * e = / 10 ^ 16) as E2. { unfold e. rewrite <- Rinv_mult. f_equal. ring. }
      match goal with |- Rabs ?x < _ => replace x with (2 / 3 * (e * e)) by field end. rewrite E2. assert (0 < / 10 ^ 16) by (apply Rinv_0_lt_compat; lra).
      rewrite Rabs_right by lra. unfold tiny. assert (/ 10 ^ 16 = / 10 ^ 14 * / 100) as -> by (rewrite <- Rinv_mult; f_equal; ring).
      assert (0 < / 10 ^ 14) by (apply Rinv_0_lt_compat; lra). lra. }
    destruct (Req_EM_T 0 0) as [_|N]; [reflexivity|exfalso; apply N; reflexivity].
Qed.

Print Assumptions C11_skewness.
Print Assumptions C11_kurtosis.
Print Assumptions C11_constant_kurtosis_refuted.
Print Assumptions C11_small_values_refuted.
