(** Property C74: the t-test of two numeric columns. *)
From Coq Require Import Reals Arith Lia.
From Verif Require Import PyCommon TTestModel.
From Coq Require Import Lra.
Local Open Scope nat_scope.

Section Props.
  Variable cdf : R -> R -> R.
  Notation test := (t_test cdf).

  (** When the test has a result *)
  Definition testable (m1 v1 : option R) (n1 : nat) (m2 v2 : option R) (n2 : nat) : Prop :=
    2 <= n1 /\ 2 <= n2 /\ m1 <> None /\ m2 <> None /\ exists a b, v1 = Some a /\ v2 = Some b /\ ~ (a = 0 /\ b = 0)%R.

  Lemma zero_spec v : is_zero v = true <-> v = 0%R.
  Proof. unfold is_zero. destruct (Req_EM_T v 0); split; congruence. Qed.
  Lemma test_value m1 v1 n1 m2 v2 n2 : 2 <= n1 -> 2 <= n2 -> ~ (v1 = 0 /\ v2 = 0)%R ->
    let s := (v1 / INR n1 + v2 / INR n2)%R in
    let t := ((m1 - m2) / sqrt s)%R in
    let c := (INR (Nat.min n1 n2) - 1)%R in
    let w := (s ^ 2 / ((v1 / INR n1) ^ 2 / (INR n1 - 1) + (v2 / INR n2) ^ 2 / (INR n2 - 1)))%R in
    test (Some m1) (Some v1) n1 (Some m2) (Some v2) n2 = mkT (Some t) (Some c) (Some ((1 - cdf c (Rabs t)) * 2)%R) (Some w) (Some ((1 - cdf w (Rabs t)) * 2)%R).
  Proof.
    intros H1 H2 HV. unfold t_test. destruct (Nat.leb_spec n1 1); [lia|]. destruct (Nat.leb_spec n2 1); [lia|]. cbn [orb].
    destruct (is_zero v1 && is_zero v2) eqn:EZ; [|reflexivity]. apply andb_true_iff in EZ. rewrite !zero_spec in EZ. contradiction.
  Qed.
  Theorem C74_defined m1 v1 n1 m2 v2 n2 :
    (testable m1 v1 n1 m2 v2 n2 <-> t_stat (test m1 v1 n1 m2 v2 n2) <> None) /\
    (~ testable m1 v1 n1 m2 v2 n2 -> test m1 v1 n1 m2 v2 n2 = no_ttest).
  Proof.
    assert (testable m1 v1 n1 m2 v2 n2 -> t_stat (test m1 v1 n1 m2 v2 n2) <> None) as H1.
    { intros (H1 & H2 & H3 & H4 & a & b & -> & -> & H5). destruct m1 as [m1|]; [|contradiction]. destruct m2 as [m2|]; [|contradiction]. rewrite test_value by assumption. discriminate. }
    assert (testable m1 v1 n1 m2 v2 n2 \/ test m1 v1 n1 m2 v2 n2 = no_ttest) as [HT|HT].
    { unfold t_test, testable. destruct (Nat.leb_spec n1 1); [right; reflexivity|]. destruct (Nat.leb_spec n2 1); [right; reflexivity|]. cbn [orb]. destruct m1, v1 as [a|], m2, v2 as [b|]; try (right; reflexivity).
      destruct (is_zero a && is_zero b) eqn:EZ; [right; reflexivity|]. left. repeat split; try lia; try discriminate. exists a, b. repeat split. intros [-> ->]. unfold is_zero in EZ. destruct (Req_EM_T 0 0); [discriminate|contradiction]. }
    - split; [tauto|contradiction].
    - split; [|auto]. rewrite HT. cbn. split; [|congruence]. intro H. apply H1 in H. rewrite HT in H. exact H.
  Qed.

  Lemma inr_pos n : 2 <= n -> (2 <= INR n)%R.
  Proof. intro H. apply le_INR in H. cbn in H. lra. Qed.
  Lemma delta_pos v1 n1 v2 n2 : 2 <= n1 -> 2 <= n2 -> (0 <= v1)%R -> (0 <= v2)%R -> ~ (v1 = 0 /\ v2 = 0)%R ->
    (0 <= v1 / INR n1)%R /\ (0 <= v2 / INR n2)%R /\ (0 < v1 / INR n1 + v2 / INR n2)%R.
  Proof.
    intros H1 H2 P1 P2 HV. apply inr_pos in H1, H2. assert (0 <= v1 / INR n1)%R as A by (unfold Rdiv; apply Rmult_le_pos; [exact P1|left; apply Rinv_0_lt_compat; lra]). assert (0 <= v2 / INR n2)%R as B by (unfold Rdiv; apply Rmult_le_pos; [exact P2|left; apply Rinv_0_lt_compat; lra]). split; [exact A|]. split; [exact B|].
    destruct (Req_dec v1 0) as [E|E].
    - assert (v2 <> 0)%R by tauto. assert (0 < v2 / INR n2)%R by (apply Rdiv_lt_0_compat; lra). lra.
    - assert (0 < v1 / INR n1)%R by (apply Rdiv_lt_0_compat; lra). lra.
  Qed.

  (** Swapping the columns changes the sign of the statistic and nothing else *)
  Theorem C74_swap m1 v1 n1 m2 v2 n2 :
    let a := test m1 v1 n1 m2 v2 n2 in let b := test m2 v2 n2 m1 v1 n1 in
    t_stat b = option_map Ropp (t_stat a) /\ t_cons_deg b = t_cons_deg a /\ t_cons_p b = t_cons_p a /\ t_welch_deg b = t_welch_deg a /\ t_welch_p b = t_welch_p a.
  Proof.
    intros a b. unfold a, b, t_test. rewrite (orb_comm (n2 <=? 1)). destruct ((n1 <=? 1) || (n2 <=? 1)) eqn:EN; [repeat split|]. destruct m1 as [m1|], v1 as [v1|], m2 as [m2|], v2 as [v2|]; try (repeat split; fail). rewrite (andb_comm (is_zero v2)). destruct (is_zero v1 && is_zero v2); [repeat split|].
    cbn [t_stat t_cons_deg t_cons_p t_welch_deg t_welch_p option_map].
    rewrite (Rplus_comm (v2 / INR n2) (v1 / INR n1)), (Rplus_comm ((v2 / INR n2) ^ 2 / (INR n2 - 1))), (Nat.min_comm n2 n1).
    assert ((m2 - m1) / sqrt (v1 / INR n1 + v2 / INR n2) = - ((m1 - m2) / sqrt (v1 / INR n1 + v2 / INR n2)))%R as HT by (unfold Rdiv; ring). rewrite HT, Rabs_Ropp. repeat split.
  Qed.

  (** The degrees of freedom: the conservative number is one less than the smaller column, Welch's number lies between it and
      two less than both columns together *)
  Theorem C74_degrees m1 v1 n1 m2 v2 n2 c w : (0 <= v1)%R -> (0 <= v2)%R ->
    t_cons_deg (test m1 (Some v1) n1 m2 (Some v2) n2) = Some c -> t_welch_deg (test m1 (Some v1) n1 m2 (Some v2) n2) = Some w ->
    c = INR (Nat.min n1 n2 - 1) /\ (1 <= c <= w)%R /\ (w <= INR (n1 + n2 - 2))%R.
  Proof.
    intros P1 P2 HC HW. destruct (C74_defined m1 (Some v1) n1 m2 (Some v2) n2) as [HD HN].
    assert (testable m1 (Some v1) n1 m2 (Some v2) n2) as HT. { apply HD. intro H. unfold t_test in *. destruct ((n1 <=? 1) || (n2 <=? 1)); [discriminate|]. destruct m1, m2; try discriminate. destruct (is_zero v1 && is_zero v2); discriminate. }
    clear HD HN. destruct HT as (H1 & H2 & H3 & H4 & a & b & Ha & Hb & HV). injection Ha as <-. injection Hb as <-. destruct m1 as [m1|]; [|contradiction]. destruct m2 as [m2|]; [|contradiction]. rewrite test_value in HC, HW by assumption. cbn [t_cons_deg t_welch_deg] in HC, HW. injection HC as <-. injection HW as <-.
    destruct (delta_pos v1 n1 v2 n2 H1 H2 P1 P2 HV) as (A & B & S). set (x := (v1 / INR n1)%R) in *. set (y := (v2 / INR n2)%R) in *. pose proof (inr_pos n1 H1) as R1. pose proof (inr_pos n2 H2) as R2.
    assert (INR (Nat.min n1 n2) - 1 = INR (Nat.min n1 n2 - 1))%R as HM. { rewrite minus_INR by lia. cbn. ring. }
    assert (INR (n1 + n2 - 2) = INR n1 + INR n2 - 2)%R as HS. { rewrite minus_INR by lia. rewrite plus_INR. cbn. ring. }
    rewrite HS. set (p := (INR n1 - 1)%R) in *. set (q := (INR n2 - 1)%R) in *. assert (1 <= p)%R by (unfold p; lra). assert (1 <= q)%R by (unfold q; lra).
    assert (1 <= INR (Nat.min n1 n2) - 1 <= p)%R as M1 by (unfold p; destruct (Nat.min_spec n1 n2) as [[L E]|[L E]]; rewrite E; [lra|apply le_INR in L; lra]).
    assert (INR (Nat.min n1 n2) - 1 <= q)%R as M2 by (unfold q; destruct (Nat.min_spec n1 n2) as [[L E]|[L E]]; rewrite E; [apply lt_INR in L; lra|lra]).
    set (m := (INR (Nat.min n1 n2) - 1)%R) in *. split; [exact HM|]. set (d := (x ^ 2 / p + y ^ 2 / q)%R).
    assert (0 <= x ^ 2 / p)%R as D1 by (unfold Rdiv; apply Rmult_le_pos; [nra|left; apply Rinv_0_lt_compat; lra]). assert (0 <= y ^ 2 / q)%R as D2 by (unfold Rdiv; apply Rmult_le_pos; [nra|left; apply Rinv_0_lt_compat; lra]).
    assert (x ^ 2 = x ^ 2 / p * p)%R as E1 by (field; lra). assert (y ^ 2 = y ^ 2 / q * q)%R as E2 by (field; lra).
    assert (0 < d)%R as D. { unfold d. destruct (Req_dec x 0) as [Ex|Ex]; [assert (0 < y)%R by lra; assert (0 < y ^ 2 / q)%R by (apply Rdiv_lt_0_compat; [nra|lra]); lra|]. assert (0 < x)%R by lra. assert (0 < x ^ 2 / p)%R by (apply Rdiv_lt_0_compat; [nra|lra]). lra. }
    split; [split; [lra|]|].
    - apply (Rmult_le_reg_r d); [exact D|]. unfold Rdiv at 1. rewrite Rmult_assoc, Rinv_l, Rmult_1_r by lra. unfold d.
      assert (m * (x ^ 2 / p) <= x ^ 2)%R by nra. assert (m * (y ^ 2 / q) <= y ^ 2)%R by nra. nra.
    - apply (Rmult_le_reg_r d); [exact D|]. unfold Rdiv at 1. rewrite Rmult_assoc, Rinv_l, Rmult_1_r by lra. replace (INR n1 + INR n2 - 2)%R with (p + q)%R by (unfold p, q; ring).
      set (u := (x / p)%R). set (w := (y / q)%R). assert (x = u * p)%R as EX by (unfold u; field; lra). assert (y = w * q)%R as EY by (unfold w; field; lra).
      assert (d = u ^ 2 * p + w ^ 2 * q)%R as -> by (unfold d; rewrite EX, EY; field; lra). rewrite EX, EY. assert ((p + q) * (u ^ 2 * p + w ^ 2 * q) - (u * p + w * q) ^ 2 = p * q * (u - w) ^ 2)%R as HQ by ring.
      assert (0 <= p * q * (u - w) ^ 2)%R by (apply Rmult_le_pos; [nra|apply pow2_ge_0]). lra.
  Qed.

  (** Another unit of measurement: all numbers multiplied by [k] and shifted by [d] *)
  Theorem C74_units k d m1 v1 n1 m2 v2 n2 : (0 < k)%R -> (0 <= v1)%R -> (0 <= v2)%R ->
    test (Some (k * m1 + d)%R) (Some (k ^ 2 * v1)%R) n1 (Some (k * m2 + d)%R) (Some (k ^ 2 * v2)%R) n2 = test (Some m1) (Some v1) n1 (Some m2) (Some v2) n2.
  Proof.
    intros HK P1 P2. destruct (Nat.le_gt_cases 2 n1) as [H1|H1]; [|unfold t_test; destruct (Nat.leb_spec n1 1); [reflexivity|lia]]. destruct (Nat.le_gt_cases 2 n2) as [H2|H2]; [|unfold t_test; destruct (Nat.leb_spec n2 1); [rewrite !orb_true_r; reflexivity|lia]].
    assert (k ^ 2 <> 0)%R as HK2 by nra.
    assert (forall v, (k ^ 2 * v = 0 <-> v = 0)%R) as HZ. { intro v. split; [intro H; apply Rmult_integral in H; tauto|intros ->; ring]. }
    destruct (Req_dec v1 0) as [E1|E1]; [destruct (Req_dec v2 0) as [E2|E2]|].
    - subst. unfold t_test. rewrite !Rmult_0_r. assert (is_zero 0 = true) as -> by (apply zero_spec; reflexivity). destruct (_ || _); reflexivity.
    - revert E1 E2. intros E1 E2. rewrite !test_value by (assumption || (rewrite ?HZ; tauto)). destruct (delta_pos v1 n1 v2 n2 H1 H2 P1 P2 ltac:(tauto)) as (A & B & C).
      pose proof (inr_pos n1 H1). pose proof (inr_pos n2 H2).
      assert (k ^ 2 * v1 / INR n1 = k ^ 2 * (v1 / INR n1))%R as -> by (field; lra). assert (k ^ 2 * v2 / INR n2 = k ^ 2 * (v2 / INR n2))%R as -> by (field; lra). set (x := (v1 / INR n1)%R) in *. set (y := (v2 / INR n2)%R) in *.
      assert (sqrt (k ^ 2 * x + k ^ 2 * y) = k * sqrt (x + y))%R as ->. { rewrite <- Rmult_plus_distr_l, sqrt_mult_alt by apply pow2_ge_0. rewrite sqrt_pow2 by lra. reflexivity. }
      pose proof (sqrt_lt_R0 (x + y) C). assert ((k * m1 + d - (k * m2 + d)) / (k * sqrt (x + y)) = (m1 - m2) / sqrt (x + y))%R as -> by (field; lra).
      assert ((k ^ 2 * x + k ^ 2 * y) ^ 2 / ((k ^ 2 * x) ^ 2 / (INR n1 - 1) + (k ^ 2 * y) ^ 2 / (INR n2 - 1)) = (x + y) ^ 2 / (x ^ 2 / (INR n1 - 1) + y ^ 2 / (INR n2 - 1)))%R as ->; [|reflexivity].
      assert (0 < y)%R by (apply Rdiv_lt_0_compat; lra). assert (0 < y ^ 2 / (INR n2 - 1))%R by (apply Rdiv_lt_0_compat; nra). assert (0 <= x ^ 2 / (INR n1 - 1))%R by (unfold Rdiv; apply Rmult_le_pos; [nra|left; apply Rinv_0_lt_compat; lra]).
      set (u := (x ^ 2 / (INR n1 - 1))%R) in *. set (w := (y ^ 2 / (INR n2 - 1))%R) in *. replace ((k ^ 2 * x) ^ 2 / (INR n1 - 1))%R with (k ^ 4 * u)%R by (unfold u; field; lra). replace ((k ^ 2 * y) ^ 2 / (INR n2 - 1))%R with (k ^ 4 * w)%R by (unfold w; field; lra). assert (0 < k ^ 4)%R by (apply pow_lt; exact HK). replace (k ^ 4 * u + k ^ 4 * w)%R with (k ^ 4 * (u + w))%R by ring. replace ((k ^ 2 * x + k ^ 2 * y) ^ 2)%R with (k ^ 4 * (x + y) ^ 2)%R by ring. set (k4 := (k ^ 4)%R) in *. field. split; lra.
    - rewrite !test_value by (assumption || (rewrite ?HZ; tauto)). destruct (delta_pos v1 n1 v2 n2 H1 H2 P1 P2 ltac:(tauto)) as (A & B & C).
      pose proof (inr_pos n1 H1). pose proof (inr_pos n2 H2).
      assert (k ^ 2 * v1 / INR n1 = k ^ 2 * (v1 / INR n1))%R as -> by (field; lra). assert (k ^ 2 * v2 / INR n2 = k ^ 2 * (v2 / INR n2))%R as -> by (field; lra). set (x := (v1 / INR n1)%R) in *. set (y := (v2 / INR n2)%R) in *.
      assert (sqrt (k ^ 2 * x + k ^ 2 * y) = k * sqrt (x + y))%R as ->. { rewrite <- Rmult_plus_distr_l, sqrt_mult_alt by apply pow2_ge_0. rewrite sqrt_pow2 by lra. reflexivity. }
      pose proof (sqrt_lt_R0 (x + y) C). assert ((k * m1 + d - (k * m2 + d)) / (k * sqrt (x + y)) = (m1 - m2) / sqrt (x + y))%R as -> by (field; lra).
      assert ((k ^ 2 * x + k ^ 2 * y) ^ 2 / ((k ^ 2 * x) ^ 2 / (INR n1 - 1) + (k ^ 2 * y) ^ 2 / (INR n2 - 1)) = (x + y) ^ 2 / (x ^ 2 / (INR n1 - 1) + y ^ 2 / (INR n2 - 1)))%R as ->; [|reflexivity].
      assert (0 < x)%R by (apply Rdiv_lt_0_compat; lra). assert (0 < x ^ 2 / (INR n1 - 1))%R by (apply Rdiv_lt_0_compat; nra). assert (0 <= y ^ 2 / (INR n2 - 1))%R by (unfold Rdiv; apply Rmult_le_pos; [nra|left; apply Rinv_0_lt_compat; lra]).
      set (u := (x ^ 2 / (INR n1 - 1))%R) in *. set (w := (y ^ 2 / (INR n2 - 1))%R) in *. replace ((k ^ 2 * x) ^ 2 / (INR n1 - 1))%R with (k ^ 4 * u)%R by (unfold u; field; lra). replace ((k ^ 2 * y) ^ 2 / (INR n2 - 1))%R with (k ^ 4 * w)%R by (unfold w; field; lra). assert (0 < k ^ 4)%R by (apply pow_lt; exact HK). replace (k ^ 4 * u + k ^ 4 * w)%R with (k ^ 4 * (u + w))%R by ring. replace ((k ^ 2 * x + k ^ 2 * y) ^ 2)%R with (k ^ 4 * (x + y) ^ 2)%R by ring. set (k4 := (k ^ 4)%R) in *. field. split; lra.
  Qed.

  (** The statistic has the sign of the difference of the means; p-values are between 0 and 1, and 1 for equal means *)
  Hypothesis cdf_half : forall d, cdf d 0 = (1 / 2)%R.
  Hypothesis cdf_range : forall d t, (0 <= t)%R -> (1 / 2 <= cdf d t <= 1)%R.
  Theorem C74_p_value m1 v1 n1 m2 v2 n2 t p q : (0 <= v1)%R -> (0 <= v2)%R ->
    let r := test (Some m1) (Some v1) n1 (Some m2) (Some v2) n2 in
    t_stat r = Some t -> t_cons_p r = Some p -> t_welch_p r = Some q ->
    (0 < t <-> m2 < m1)%R /\ (t < 0 <-> m1 < m2)%R /\ (0 <= p <= 1)%R /\ (0 <= q <= 1)%R /\ (m1 = m2 -> t = 0 /\ p = 1 /\ q = 1)%R.
  Proof.
    intros P1 P2 r HT HP HQ. destruct (C74_defined (Some m1) (Some v1) n1 (Some m2) (Some v2) n2) as [HD _]. destruct (proj2 HD) as (H1 & H2 & _ & _ & a & b & Ha & Hb & HV); [fold r; rewrite HT; discriminate|]. injection Ha as <-. injection Hb as <-.
    unfold r in *. rewrite test_value in HT, HP, HQ by assumption. cbn [t_stat t_cons_p t_welch_p] in *. injection HT as HT. injection HP as HP. injection HQ as HQ. destruct (delta_pos v1 n1 v2 n2 H1 H2 P1 P2 HV) as (_ & _ & C). pose proof (sqrt_lt_R0 _ C) as S.
    set (s := sqrt (v1 / INR n1 + v2 / INR n2)) in *. pose proof (Rinv_0_lt_compat s S) as SI. rewrite HT in HP, HQ. unfold Rdiv in HT. assert (m1 - m2 = t * s)%R as HM by (rewrite <- HT; field; lra).
    pose proof (Rabs_pos t) as HA. pose proof (cdf_range (INR (Nat.min n1 n2) - 1) (Rabs t) HA) as HR1. match type of HQ with ((1 - cdf ?w _) * 2 = q)%R => pose proof (cdf_range w (Rabs t) HA) as HR2; set (ww := w) in * end.
    split; [split; intro; [nra|rewrite <- HT; apply Rmult_lt_0_compat; lra]|]. split; [split; intro; [nra|nra]|]. split; [lra|]. split; [lra|]. intros ->. assert (t = 0)%R as -> by (rewrite <- HT; ring). rewrite Rabs_R0, cdf_half in HP, HQ. split; [reflexivity|]. split; lra.
  Qed.
End Props.
Print Assumptions C74_defined.
Print Assumptions C74_swap.
Print Assumptions C74_degrees.
Print Assumptions C74_units.
Print Assumptions C74_p_value.

(** Means 5 and 3, variances 4 and 12, 2 and 6 values: the statistic is 1 *)
Example C74_example cdf : exists p q w, t_test cdf (Some 5%R) (Some 4%R) 2 (Some 3%R) (Some 12%R) 6 = mkT (Some 1%R) (Some 1%R) (Some p) (Some w) (Some q) /\ w = (10 / 3)%R.
Proof.
  unfold t_test. cbn [Nat.leb orb Nat.min]. unfold is_zero. destruct (Req_EM_T 4 0); [lra|]. cbn [andb]. assert (4 / INR 2 + 12 / INR 6 = 4)%R as -> by (cbn; field). assert (sqrt 4 = 2)%R as -> by (replace 4%R with (2 * 2)%R by ring; apply sqrt_square; lra).
  assert ((5 - 3) / 2 = 1)%R as -> by field. assert (INR 2 - 1 = 1)%R as -> by (cbn; ring). do 3 eexists. split; [reflexivity|]. cbn. field.
Qed.
