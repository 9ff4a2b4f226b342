(** Properties of the numbers of bins suggested for merged profiles. *)
From Coq Require Import Reals ZArith Lra Lia.
From Verif Require Import PyCommon PyString BinWidthModel.
From Coq Require String.
Local Delimit Scope string_scope with string.
Local Open Scope R_scope.

Lemma Rceil_spec x : IZR (Rceil x) - 1 < x <= IZR (Rceil x).
Proof.
  unfold Rceil. destruct (base_Int_part (- x)) as [A B]. rewrite opp_IZR. lra.
Qed.
Lemma Rceil_unique x z : IZR z - 1 < x -> x <= IZR z -> Rceil x = z.
Proof.
  intros A B. destruct (Rceil_spec x) as [C D].
  assert (IZR (Rceil x) < IZR (z + 1)) by (rewrite plus_IZR; lra).
  assert (IZR z < IZR (Rceil x + 1)) by (rewrite plus_IZR; lra).
  apply lt_IZR in H. apply lt_IZR in H0. lia.
Qed.
Lemma Rceil_pos x : 0 < x -> (1 <= Rceil x)%Z.
Proof. intro H. destruct (Rceil_spec x) as [_ B]. assert (0 < IZR (Rceil x)) by lra. apply lt_IZR in H0. lia. Qed.
Lemma Rceil_mono x y : x <= y -> (Rceil x <= Rceil y)%Z.
Proof.
  intro H. destruct (Rceil_spec x) as [A _], (Rceil_spec y) as [_ B].
  assert (IZR (Rceil x) < IZR (Rceil y + 1)) by (rewrite plus_IZR; lra). apply lt_IZR in H0. lia.
Qed.
Lemma Rceil_max x y : Rceil (Rmax x y) = Z.max (Rceil x) (Rceil y).
Proof.
  unfold Rmax. destruct (Rle_dec x y) as [L|L].
  - pose proof (Rceil_mono x y L). lia.
  - pose proof (Rceil_mono y x ltac:(lra)). lia.
Qed.

Lemma size_pos s : (0 < s_size s)%nat -> 0 < size s.
Proof. intro H. unfold size. apply lt_0_INR. exact H. Qed.

Lemma ln2_pos : 0 < ln 2.
Proof. rewrite <- ln_1. apply ln_increasing; lra. Qed.

Lemma log2R_nonneg x : 1 <= x -> 0 <= log2R x.
Proof.
  intro H. unfold log2R. apply Rmult_le_pos; [|left; apply Rinv_0_lt_compat, ln2_pos].
  rewrite <- ln_1. destruct (Req_dec x 1) as [->|N]; [lra|]. left. apply ln_increasing; lra.
Qed.

Lemma size_ge1 s : (0 < s_size s)%nat -> 1 <= size s.
Proof. intro H. unfold size. change 1 with (INR 1). apply le_INR. lia. Qed.

(** [ptp / (ptp / d)] *)
Lemma quot_quot p d : p <> 0 -> d <> 0 -> p / (p / d) = d.
Proof. intros. field. split; assumption. Qed.

Lemma bins_of_quot s d : 0 < ptp s -> 0 < d -> bins_of_width s (Some (ptp s / d)) = Rceil d.
Proof.
  intros Hp Hd. unfold bins_of_width. destruct (Req_EM_T (ptp s / d) 0) as [E|_].
  - exfalso. assert (0 < ptp s / d) by (apply Rdiv_lt_0_compat; assumption). lra.
  - rewrite quot_quot; [reflexivity|lra|lra].
Qed.

Lemma cube_root n : 0 < n -> Rpower n (1 / 3) * Rpower n (1 / 3) * Rpower n (1 / 3) = n.
Proof.
  intro H. rewrite <- !Rpower_plus. replace (1 / 3 + 1 / 3 + 1 / 3) with 1 by field. apply Rpower_1. exact H.
Qed.

Lemma Rpower_pos x y : 0 < Rpower x y.
Proof. unfold Rpower. apply exp_pos. Qed.

Lemma Rpower_2_log n : 0 < n -> Rpower 2 (log2R n) = n.
Proof.
  intro H. unfold Rpower, log2R. replace (ln n / ln 2 * ln 2) with (ln n).
  - apply exp_ln. exact H.
  - field. pose proof ln2_pos. lra.
Qed.

(** ** C91 *)
(** The square root rule gives the smallest number of bins whose square is at least the number of
    values. *)
Theorem C91_sqrt : forall s, (0 < s_size s)%nat -> 0 < ptp s ->
  exists b, calculate_bins s "sqrt"%string = Ok b /\ (1 <= b)%Z /\
    ((b - 1) * (b - 1) < Z.of_nat (s_size s) <= b * b)%Z.
Proof.
  intros s Hn Hp. unfold calculate_bins. cbn [selector String.eqb Ascii.eqb Bool.eqb].
  replace (s_size s =? 0)%nat with false by (symmetry; apply Nat.eqb_neq; lia).
  eexists. split; [reflexivity|]. unfold sqrt_width.
  pose proof (size_pos s Hn) as Hs. pose proof (sqrt_lt_R0 _ Hs) as Hr.
  rewrite bins_of_quot by assumption.
  pose proof (Rceil_pos _ Hr) as Hb. destruct (Rceil_spec (sqrt (size s))) as [A B].
  set (b := Rceil (sqrt (size s))) in *. split; [exact Hb|].
  assert (Q : sqrt (size s) * sqrt (size s) = IZR (Z.of_nat (s_size s))).
  { rewrite sqrt_sqrt by lra. unfold size. apply INR_IZR_INZ. }
  assert (Hb0 : 0 <= IZR b - 1) by (rewrite <- minus_IZR; apply IZR_le; lia).
  split.
  - apply lt_IZR. rewrite mult_IZR, minus_IZR, <- Q. nra.
  - apply le_IZR. rewrite mult_IZR, <- Q. nra.
Qed.
Print Assumptions C91_sqrt.

(** Rice's rule: the smallest number of bins whose cube is at least eight times the number of
    values. *)
Theorem C91_rice : forall s, (0 < s_size s)%nat -> 0 < ptp s ->
  exists b, calculate_bins s "rice"%string = Ok b /\ (1 <= b)%Z /\
    ((b - 1) * (b - 1) * (b - 1) < 8 * Z.of_nat (s_size s) <= b * b * b)%Z.
Proof.
  intros s Hn Hp. unfold calculate_bins. cbn [selector String.eqb Ascii.eqb Bool.eqb].
  replace (s_size s =? 0)%nat with false by (symmetry; apply Nat.eqb_neq; lia).
  eexists. split; [reflexivity|]. unfold rice.
  pose proof (size_pos s Hn) as Hs. pose proof (Rpower_pos (size s) (1 / 3)) as Hr.
  rewrite bins_of_quot by lra.
  pose proof (cube_root _ Hs) as Q. set (r := Rpower (size s) (1 / 3)) in *.
  pose proof (Rceil_pos (2 * r) ltac:(lra)) as Hb. destruct (Rceil_spec (2 * r)) as [A B].
  set (b := Rceil (2 * r)) in *. split; [exact Hb|].
  assert (Q8 : 2 * r * (2 * r) * (2 * r) = IZR (8 * Z.of_nat (s_size s))).
  { rewrite mult_IZR, <- INR_IZR_INZ. fold (size s). rewrite <- Q. ring. }
  assert (Hb0 : 0 <= IZR b - 1) by (rewrite <- minus_IZR; apply IZR_le; lia).
  set (x := IZR b - 1) in *. set (y := 2 * r) in *. assert (Hy : 0 < y) by (unfold y; lra).
  split.
  - apply lt_IZR. rewrite <- Q8, !mult_IZR, !minus_IZR. fold x.
    assert (x * x <= y * y) by nra.
    assert (x * x * x <= y * y * x) by (apply Rmult_le_compat_r; assumption).
    assert (y * y * x < y * y * y) by (apply Rmult_lt_compat_l; [apply Rmult_lt_0_compat|]; assumption). lra.
  - apply le_IZR. rewrite <- Q8, !mult_IZR. set (z := IZR b) in *.
    assert (y * y <= z * z) by nra.
    assert (y * y * y <= z * z * y) by (apply Rmult_le_compat_r; lra).
    assert (z * z * y <= z * z * z) by (apply Rmult_le_compat_l; [nra|assumption]). lra.
Qed.
Print Assumptions C91_rice.

(** Sturges' rule: one more than the smallest exponent of two that reaches the number of values. *)
Theorem C91_sturges : forall s, (0 < s_size s)%nat -> 0 < ptp s ->
  exists b, calculate_bins s "sturges"%string = Ok b /\ (1 <= b)%Z /\
    (Z.of_nat (s_size s) <= 2 ^ (b - 1))%Z /\ (b = 1 \/ 2 ^ (b - 2) < Z.of_nat (s_size s))%Z.
Proof.
  intros s Hn Hp. unfold calculate_bins. cbn [selector String.eqb Ascii.eqb Bool.eqb].
  replace (s_size s =? 0)%nat with false by (symmetry; apply Nat.eqb_neq; lia).
  eexists. split; [reflexivity|]. unfold sturges.
  pose proof (size_pos s Hn) as Hs. pose proof (log2R_nonneg _ (size_ge1 s Hn)) as Hl.
  rewrite bins_of_quot by lra.
  set (l := log2R (size s)) in *.
  pose proof (Rceil_pos (l + 1) ltac:(lra)) as Hb. destruct (Rceil_spec (l + 1)) as [A B].
  set (b := Rceil (l + 1)) in *. split; [exact Hb|].
  assert (Q : Rpower 2 l = IZR (Z.of_nat (s_size s))).
  { unfold l. rewrite Rpower_2_log by exact Hs. unfold size. apply INR_IZR_INZ. }
  assert (P : forall k, (0 <= k)%Z -> Rpower 2 (IZR k) = IZR (2 ^ k)).
  { intros k Hk. rewrite <- (Z2Nat.id k Hk), <- INR_IZR_INZ, Rpower_pow by lra.
    rewrite pow_IZR. reflexivity. }
  split.
  - apply le_IZR. rewrite <- Q, <- P by lia. apply Rle_Rpower; [lra|]. rewrite minus_IZR. lra.
  - destruct (Z.eq_dec b 1) as [E|E]; [left; exact E|right].
    apply lt_IZR. rewrite <- Q, <- P by lia. apply Rpower_lt; [lra|]. rewrite minus_IZR. lra.
Qed.
Print Assumptions C91_sturges.

(** The rule "auto" takes the larger of the numbers by Freedman and Diaconis and by Sturges, and the
    latter if the quartiles coincide. *)
Theorem C91_auto : forall s, (0 < s_size s)%nat -> 0 < ptp s -> 0 <= s_iqr s ->
  exists a f t, calculate_bins s "auto"%string = Ok a /\ calculate_bins s "fd"%string = Ok f /\
    calculate_bins s "sturges"%string = Ok t /\ a = Z.max f t.
Proof.
  intros s Hn Hp Hq. unfold calculate_bins. cbn [selector String.eqb Ascii.eqb Bool.eqb].
  replace (s_size s =? 0)%nat with false by (symmetry; apply Nat.eqb_neq; lia).
  eexists _, _, _. repeat (split; [reflexivity|]).
  unfold auto, fd, sturges. pose proof (log2R_nonneg _ (size_ge1 s Hn)) as Hl.
  pose proof (Rpower_pos (size s) (- 1 / 3)) as Hr.
  set (w := 2 * s_iqr s * Rpower (size s) (- 1 / 3)).
  set (t := ptp s / (log2R (size s) + 1)).
  assert (Ht : 0 < t) by (apply Rdiv_lt_0_compat; lra).
  assert (Et : bins_of_width s (Some t) = Rceil (ptp s / t)).
  { unfold bins_of_width. destruct (Req_EM_T t 0); [lra|reflexivity]. }
  assert (Hct : (1 <= Rceil (ptp s / t))%Z) by (apply Rceil_pos, Rdiv_lt_0_compat; lra).
  destruct (Req_EM_T w 0) as [E|E].
  - rewrite Et. unfold bins_of_width at 1. destruct (Req_EM_T w 0); [|contradiction]. lia.
  - assert (Hw : 0 < w).
    { assert (0 <= w) by (unfold w; apply Rmult_le_pos; lra). lra. }
    rewrite Et. unfold bins_of_width. destruct (Req_EM_T w 0); [contradiction|].
    destruct (Req_EM_T (Rmin w t) 0) as [E'|_].
    { exfalso. unfold Rmin in E'. destruct (Rle_dec w t); lra. }
    rewrite <- Rceil_max. f_equal. unfold Rmin, Rmax.
    assert (M : w <= t -> ptp s / t <= ptp s / w).
    { intro L. apply Rmult_le_compat_l; [lra|]. apply Rinv_le_contravar; assumption. }
    assert (M' : t <= w -> ptp s / w <= ptp s / t).
    { intro L. apply Rmult_le_compat_l; [lra|]. apply Rinv_le_contravar; assumption. }
    destruct (Rle_dec w t) as [L|L], (Rle_dec (ptp s / w) (ptp s / t)) as [K|K]; try reflexivity.
    + specialize (M L). lra.
    + exfalso. apply K. apply M'. lra.
Qed.
Print Assumptions C91_auto.

(** Every rule gives at least one bin, and only the seven rules are known. *)
Definition consistent (s : pstats) : Prop :=
  0 <= ptp s /\ 0 <= s_iqr s /\ (forall d, s_std s = Some d -> 0 <= d) /\
  (ptp s = 0 -> s_iqr s = 0 /\ forall d, s_std s = Some d -> d = 0).

Definition known : list string := ["auto"; "doane"; "fd"; "rice"; "scott"; "sqrt"; "sturges"]%string.

Lemma selector_known m : selector m <> None <-> In m known.
Proof.
  unfold selector, known. cbn [In].
  repeat match goal with
  | |- context [String.eqb m ?x] => destruct (String.eqb_spec m x); [subst; split; [intros _; tauto|intros _; discriminate]|]
  end.
  split; [congruence|]. intros H. exfalso. intuition congruence.
Qed.

Lemma bins_ge1 s w : 0 <= ptp s -> (forall x, w = Some x -> 0 <= x /\ (ptp s = 0 -> x = 0)) ->
  (1 <= bins_of_width s w)%Z.
Proof.
  intros Hp H. unfold bins_of_width. destruct w as [x|]; [|lia].
  destruct (H x eq_refl) as (A & B). destruct (Req_EM_T x 0) as [_|N]; [lia|].
  apply Rceil_pos. apply Rdiv_lt_0_compat; [|lra].
  destruct (Req_dec (ptp s) 0) as [E|E]; [specialize (B E); contradiction|lra].
Qed.

Lemma quot_ok s d : 0 <= ptp s -> 0 < d ->
  0 <= ptp s / d /\ (ptp s = 0 -> ptp s / d = 0).
Proof.
  intros Hp Hd. split.
  - apply Rmult_le_pos; [exact Hp|]. left. apply Rinv_0_lt_compat. exact Hd.
  - intros ->. unfold Rdiv. ring.
Qed.

Theorem C91_at_least_one_bin : forall s m, consistent s ->
  match calculate_bins s m with
  | Ok b => In m known /\ (1 <= b)%Z
  | Err e => e = ValueError /\ ~ In m known
  end.
Proof.
  intros s m (Hp & Hi & Hd & H0). unfold calculate_bins.
  destruct (selector m) as [f|] eqn:E.
  2:{ split; [reflexivity|]. rewrite <- selector_known, E. congruence. }
  split; [apply selector_known; congruence|].
  destruct (Nat.eqb_spec (s_size s) 0) as [_|N]; [lia|].
  assert (Hn : (0 < s_size s)%nat) by lia.
  pose proof (log2R_nonneg _ (size_ge1 s Hn)) as Hl. pose proof (size_pos s Hn) as Hs.
  assert (Hst : 0 <= ptp s / (log2R (size s) + 1) /\ (ptp s = 0 -> ptp s / (log2R (size s) + 1) = 0)).
  { apply quot_ok; lra. }
  assert (Hfd : 0 <= 2 * s_iqr s * Rpower (size s) (- 1 / 3) /\
                (ptp s = 0 -> 2 * s_iqr s * Rpower (size s) (- 1 / 3) = 0)).
  { pose proof (Rpower_pos (size s) (- 1 / 3)). split; [apply Rmult_le_pos; lra|].
    intro Z0. destruct (H0 Z0) as (-> & _). ring. }
  apply bins_ge1; [exact Hp|]. unfold selector in E.
  repeat match type of E with
  | (if ?b then _ else _) = _ => destruct b; [injection E as <-|]
  end; [..|discriminate].
  - unfold auto, fd, sturges. intros x Hx. destruct (Req_EM_T _ 0); injection Hx as <-; [exact Hst|].
    unfold Rmin. destruct (Rle_dec _ _); assumption.
  - unfold doane. intros x Hx. assert (Z : forall y, Some 0 = Some y -> 0 <= y /\ (ptp s = 0 -> y = 0)).
    { intros y Hy. injection Hy as <-. split; [lra|reflexivity]. }
    destruct (2 <? s_size s)%nat eqn:E2; [|apply Z; exact Hx].
    destruct (s_std s) as [sd|]; [|apply Z; exact Hx].
    destruct (Rlt_dec 0 sd); [|apply Z; exact Hx].
    destruct (s_skew s) as [g|]; [|discriminate]. injection Hx as <-. apply quot_ok; [exact Hp|].
    assert (0 <= log2R (1 + Rabs g / sqrt (6 * (size s - 2) / ((size s + 1) * (size s + 3))))); [|lra].
    apply log2R_nonneg.
    assert (0 <= Rabs g / sqrt (6 * (size s - 2) / ((size s + 1) * (size s + 3)))); [|lra].
    apply Rmult_le_pos; [apply Rabs_pos|]. left. apply Rinv_0_lt_compat, sqrt_lt_R0.
    apply Nat.ltb_lt in E2. assert (2 < size s) by (unfold size; change 2 with (INR 2); apply lt_INR; exact E2).
    apply Rdiv_lt_0_compat; [lra|]. apply Rmult_lt_0_compat; lra.
  - unfold fd. intros x Hx. injection Hx as <-. exact Hfd.
  - unfold rice. intros x Hx. injection Hx as <-. apply quot_ok; [exact Hp|].
    pose proof (Rpower_pos (size s) (1 / 3)). lra.
  - unfold scott. intros x Hx. destruct (s_std s) as [sd|]; [|discriminate]. injection Hx as <-.
    pose proof (Rpower_pos (24 * Rpower PI (1 / 2) / size s) (1 / 3)). split.
    + apply Rmult_le_pos; [lra|]. apply Hd. reflexivity.
    + intro Z0. destruct (H0 Z0) as (_ & K). rewrite (K sd eq_refl). ring.
  - unfold sqrt_width. intros x Hx. injection Hx as <-. apply quot_ok; [exact Hp|]. apply sqrt_lt_R0. exact Hs.
  - unfold sturges. intros x Hx. injection Hx as <-. exact Hst.
Qed.
Print Assumptions C91_at_least_one_bin.

(** Changing the unit of the values - and shifting them - changes no number of bins. *)
Definition rescale (k d : R) (s : pstats) : pstats :=
  mkStats (s_size s) (k * s_min s + d) (k * s_max s + d) (k * s_iqr s)
    (option_map (Rmult k) (s_std s)) (s_skew s).

Lemma bins_scale k d s w : 0 < k -> bins_of_width (rescale k d s) (option_map (Rmult k) w) = bins_of_width s w.
Proof.
  intro Hk. unfold bins_of_width. destruct w as [x|]; [|reflexivity]. cbn [option_map].
  assert (Ep : ptp (rescale k d s) = k * ptp s) by (unfold ptp; cbn; ring).
  destruct (Req_EM_T x 0) as [->|N], (Req_EM_T _ 0) as [Z|Z]; try reflexivity.
  - exfalso. apply Z. ring.
  - exfalso. apply Rmult_integral in Z. lra.
  - rewrite Ep. f_equal. field. split; [exact N|lra].
Qed.

Theorem C91_unit_free : forall k d s m, 0 < k ->
  calculate_bins (rescale k d s) m = calculate_bins s m.
Proof.
  intros k d s m Hk. unfold calculate_bins. cbn [rescale s_size].
  destruct (selector m) as [f|] eqn:E; [|reflexivity]. f_equal.
  destruct (s_size s =? 0)%nat; [reflexivity|].
  assert (Ep : ptp (rescale k d s) = k * ptp s) by (unfold ptp; cbn; ring).
  assert (Es : size (rescale k d s) = size s) by reflexivity.
  assert (Est : sturges (rescale k d s) = option_map (Rmult k) (sturges s)).
  { unfold sturges. rewrite Ep, Es. cbn. f_equal. unfold Rdiv. ring. }
  assert (Efd : fd (rescale k d s) = option_map (Rmult k) (fd s)).
  { unfold fd. rewrite Es. cbn. f_equal. ring. }
  assert (H : f (rescale k d s) = option_map (Rmult k) (f s)); [|rewrite H; apply bins_scale; exact Hk].
  unfold selector in E.
  repeat match type of E with
  | (if ?b then _ else _) = _ => destruct b; [injection E as <-|]
  end; [..|discriminate].
  - unfold auto. rewrite Est, Efd. unfold fd, sturges. cbn [option_map].
    set (w := 2 * s_iqr s * Rpower (size s) (- 1 / 3)). set (t := ptp s / (log2R (size s) + 1)).
    destruct (Req_EM_T w 0) as [Z|Z], (Req_EM_T (k * w) 0) as [Z'|Z']; try reflexivity.
    + exfalso. apply Z'. rewrite Z. ring.
    + exfalso. apply Rmult_integral in Z'. lra.
    + cbn [option_map]. f_equal. unfold Rmin.
      destruct (Rle_dec w t) as [L|L], (Rle_dec (k * w) (k * t)) as [K|K]; try reflexivity.
      * exfalso. apply K. apply Rmult_le_compat_l; lra.
      * exfalso. apply L. apply Rmult_le_reg_l with k; lra.
  - unfold doane. cbn [rescale s_size s_std s_skew]. rewrite Ep, Es.
    assert (Z : Some 0 = option_map (Rmult k) (Some 0)) by (cbn; f_equal; ring).
    destruct (2 <? s_size s)%nat; [|exact Z]. destruct (s_std s) as [sd|]; [|exact Z]. cbn [option_map].
    destruct (Rlt_dec 0 sd) as [L|L], (Rlt_dec 0 (k * sd)) as [K|K].
    + destruct (s_skew s) as [g|]; [|reflexivity]. cbn. f_equal. unfold Rdiv. ring.
    + exfalso. apply K. apply Rmult_lt_0_compat; assumption.
    + exfalso. apply L. apply Rmult_lt_reg_l with k; lra.
    + exact Z.
  - exact Efd.
  - unfold rice. rewrite Ep, Es. cbn. f_equal. unfold Rdiv. ring.
  - unfold scott. cbn [rescale s_std]. rewrite Es. destruct (s_std s) as [sd|]; [|reflexivity].
    cbn. f_equal. ring.
  - unfold sqrt_width. rewrite Ep, Es. cbn. f_equal. unfold Rdiv. ring.
  - exact Est.
Qed.
Print Assumptions C91_unit_free.

(** The number by Freedman and Diaconis exceeds every bound, also the limit of 100000 that holds for
    profiles that are not merged: eight values, most of them close together, are enough. *)
Theorem C91_limit_refuted : forall limit, (1 <= limit)%Z ->
  exists s b, consistent s /\ s_size s = 8%nat /\ calculate_bins s "fd"%string = Ok b /\
    calculate_bins s "auto"%string = Ok b /\ (limit < b)%Z.
Proof.
  intros limit Hlim.
  set (s := mkStats 8 0 (IZR (limit + 4)) 1 (Some 1) (Some 0)).
  assert (H4 : 5 <= IZR (limit + 4)) by (apply IZR_le; lia).
  assert (Hp : ptp s = IZR (limit + 4)) by (unfold ptp, s; cbn [s_max s_min]; ring).
  assert (Hc : consistent s).
  { unfold consistent. rewrite Hp. cbn [s s_iqr s_std]. split; [lra|]. split; [lra|].
    split; [intros d Hd; injection Hd as <-; lra|]. intro Z. lra. }
  assert (Hroot : Rpower (size s) (- 1 / 3) = / 2).
  { unfold size. cbn [s s_size]. replace (INR 8) with (Rpower 2 3).
    - rewrite Rpower_mult. replace (3 * (- 1 / 3)) with (Ropp 1) by field.
      rewrite Rpower_Ropp, Rpower_1 by lra. reflexivity.
    - replace 3 with (INR 3) by (cbn; ring). rewrite Rpower_pow by lra. cbn. ring. }
  assert (Hf : calculate_bins s "fd"%string = Ok (limit + 4)%Z).
  { unfold calculate_bins. cbn [selector String.eqb Ascii.eqb Bool.eqb]. cbn [s s_size Nat.eqb]. f_equal.
    unfold fd. fold s. rewrite Hroot. cbn [s s_iqr]. replace (2 * 1 * / 2) with 1 by field.
    unfold bins_of_width. destruct (Req_EM_T 1 0); [lra|]. fold s. rewrite Hp.
    apply Rceil_unique; unfold Rdiv; rewrite Rinv_1, Rmult_1_r; lra. }
  destruct (C91_auto s ltac:(cbn; lia) ltac:(lra) ltac:(cbn; lra)) as (a & f & t & Ea & Ef & Et & Em).
  rewrite Hf in Ef. injection Ef as <-.
  destruct (C91_sturges s ltac:(cbn; lia) ltac:(lra)) as (t' & Et' & _ & _ & Hsmall).
  rewrite Et in Et'. injection Et' as <-. cbn [s s_size] in Hsmall.
  assert (Ht : (t <= 4)%Z).
  { destruct Hsmall as [->|Hs]; [lia|]. destruct (Z.le_gt_cases t 4) as [L|G]; [exact L|].
    assert (2 ^ 3 <= 2 ^ (t - 2))%Z by (apply Z.pow_le_mono_r; lia). lia. }
  exists s, (limit + 4)%Z. split; [exact Hc|]. split; [reflexivity|]. split; [exact Hf|].
  split; [rewrite Ea, Em; f_equal; lia|lia].
Qed.
Print Assumptions C91_limit_refuted.

(** A thousand values: 32 bins by the square root, 20 by Rice's rule and 11 by Sturges'. *)
Example C91_example : forall s, s_size s = (100 * 10)%nat -> 0 < ptp s ->
  calculate_bins s "sqrt"%string = Ok 32%Z /\ calculate_bins s "rice"%string = Ok 20%Z /\ calculate_bins s "sturges"%string = Ok 11%Z.
Proof.
  intros s Hn Hp. assert (Hz : Z.of_nat (s_size s) = 1000%Z) by (rewrite Hn; reflexivity).
  assert (Hpos : (0 < s_size s)%nat) by lia.
  destruct (C91_sqrt s Hpos Hp) as (b & -> & B1 & B2).
  destruct (C91_rice s Hpos Hp) as (c & -> & C1 & C2).
  destruct (C91_sturges s Hpos Hp) as (d & -> & D1 & D2 & D3). rewrite Hz in *. clear Hz Hn Hpos Hp.
  split; [f_equal; nia|]. split; f_equal.
  - assert (c <= 20)%Z by nia. assert (20 <= c)%Z by nia. lia.
  - assert (d - 1 >= 10)%Z.
    { destruct (Z.le_gt_cases 10 (d - 1)) as [L|G]; [lia|].
      assert (2 ^ (d - 1) <= 2 ^ 9)%Z by (apply Z.pow_le_mono_r; lia). lia. }
    destruct D3 as [D3|D3]; [lia|].
    destruct (Z.le_gt_cases d 11) as [L|G]; [lia|].
    assert (2 ^ 10 <= 2 ^ (d - 2))%Z by (apply Z.pow_le_mono_r; lia). lia.
Qed.
