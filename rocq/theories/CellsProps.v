(** * Properties of the numbers of a column for its cells *)
From Coq Require Import List Arith Bool ZArith Lia QArith Qabs Qpower Permutation Ascii Lqa.
From Coq Require String.
Import ListNotations.
From Verif Require Import PyCommon PyDict PyString QFacts.
From Verif Require NullModel NullProofs NullProps NullCellModel NullCellProps NumTextModel NumTextProps.
From Verif Require NumericModel NumericProofs NumericProps.
From Verif Require Import CellsModel.
Import String.StringSyntax.
Local Delimit Scope string_scope with string.
Local Open Scope list_scope.
Local Open Scope Z_scope.

(** ** Numbers of double precision *)
Definition double_number (x : Q) : Prop :=
  exists m e, Z.abs m < 2 ^ 53 /\ -1074 <= e <= 971 /\ (x == inject_Z m * Qpower 2 e)%Q.
(** One binary digit fewer is enough. *)
Definition short_number (x : Q) : Prop :=
  exists m e, Z.abs m <= 2 ^ 52 /\ -1073 <= e <= 972 /\ (x == inject_Z m * Qpower 2 e)%Q.
(** [x] is the nearest number of double precision to [q]; of two that are as near, that with a
    digit fewer. *)
Definition nearest (q x : Q) : Prop :=
  double_number x /\
  (forall y, double_number y -> (Qabs (x - q) <= Qabs (y - q))%Q) /\
  ((exists y, double_number y /\ ~ (y == x)%Q /\ (Qabs (y - q) == Qabs (x - q))%Q) -> short_number x).
Definition whole_number (x : Q) : Prop := exists z, (x == inject_Z z)%Q.

(** Half a unit above the largest number of double precision *)
Definition too_large : Q := inject_Z ((2 ^ 54 - 1) * 2 ^ 970).

Lemma round_div_tie n d : 0 < d -> Z.abs (2 * (NumTextModel.round_div n d * d - n)) = d ->
  Z.even (NumTextModel.round_div n d) = true.
Proof.
  intros Hd. unfold NumTextModel.round_div.
  pose proof (Z.div_mod n d ltac:(lia)) as E. pose proof (Z.mod_pos_bound n d Hd) as B.
  set (q := n / d) in *. set (r := n mod d) in *.
  destruct (Z.compare_spec (2 * r) d) as [C|C|C].
  - intros _. destruct (Z.even q) eqn:Ev; [exact Ev|].
    rewrite Z.even_add, Ev. reflexivity.
  - intros H. exfalso. replace (q * d - n) with (- r) in H by nia. lia.
  - intros H. exfalso. replace ((q + 1) * d - n) with (d - r) in H by nia. lia.
Qed.

(** The rounded number is nearer than any other, in units of [1 / (d * 2 ^ K)]. *)
Section Round.
  Variables n d : Z.
  Hypothesis (Hn : 0 < n) (Hd : 0 < d).
  Let e := NumTextModel.fexp n d.
  Let m := NumTextModel.round_div (n * NumTextModel.up (- e)) (d * NumTextModel.up e).
  Let K := Z.abs (NumTextProps.rexp n d) + 1074.
  Let U := d * 2 ^ (e + K).
  Let V := n * 2 ^ K.

  Lemma e_low : -1074 <= e /\ NumTextProps.rexp n d <= e /\ 0 <= e + K /\ 0 <= K.
  Proof. unfold e, K. rewrite NumTextProps.fexp_rexp. lia. Qed.

  Lemma U_pos : 0 < U.
  Proof.
    unfold U. pose proof e_low. assert (0 < 2 ^ (e + K)) by (apply Z.pow_pos_nonneg; lia). nia.
  Qed.

  Lemma m_near : - U <= 2 * (m * U - V) <= U.
  Proof.
    pose proof e_low as E.
    pose proof (NumTextProps.rounded n d K Hn Hd ltac:(lia) ltac:(fold e; lia)) as R. cbv zeta in R.
    fold e in R. fold m in R. unfold U, V. replace (m * (d * 2 ^ (e + K))) with (m * d * 2 ^ (e + K)) by ring.
    exact R.
  Qed.

  Lemma V_low : -1074 < e -> 2 ^ 52 * U <= V.
  Proof.
    intros H. pose proof e_low as E.
    assert (e = NumTextProps.rexp n d) as Er.
    { unfold e in *. rewrite NumTextProps.fexp_rexp in *. lia. }
    pose proof (NumTextProps.rexp_spec n d K Hn Hd ltac:(lia) ltac:(lia)) as [R _].
    rewrite <- Er in R. replace (e + 52 + K) with (52 + (e + K)) in R by lia.
    rewrite Z.pow_add_r in R by lia. unfold U, V. lia.
  Qed.

  Lemma V_high : V < 2 ^ 53 * U.
  Proof.
    pose proof e_low as E.
    assert (0 <= NumTextProps.rexp n d + K) as P by (unfold K; lia).
    pose proof (NumTextProps.rexp_spec n d K Hn Hd P ltac:(lia)) as [_ R].
    replace (NumTextProps.rexp n d + 53 + K) with (53 + (NumTextProps.rexp n d + K)) in R by lia.
    rewrite Z.pow_add_r in R by lia.
    assert (2 ^ (NumTextProps.rexp n d + K) <= 2 ^ (e + K)) as M by (apply Z.pow_le_mono_r; lia).
    unfold U, V. assert (0 < 2 ^ 53) by reflexivity. nia.
  Qed.

  Lemma m_range : 0 <= m <= 2 ^ 53 /\ (-1074 < e -> 2 ^ 52 <= m).
  Proof.
    pose proof U_pos as P. pose proof m_near as N. pose proof V_high as H. pose proof V_low as L.
    assert (0 < V). { unfold V. assert (0 < 2 ^ K) by (apply Z.pow_pos_nonneg; pose proof e_low; lia). nia. }
    split; [split|].
    - nia.
    - change (2 ^ 53) with 9007199254740992 in *. nia.
    - intros I. specialize (L I). change (2 ^ 52) with 4503599627370496 in *. nia.
  Qed.

  Lemma m_best_grid k : Z.abs (m * U - V) <= Z.abs (k * U - V) /\
    (Z.abs (k * U - V) = Z.abs (m * U - V) -> k <> m -> Z.abs (2 * (m * U - V)) = U).
  Proof.
    pose proof U_pos as P. pose proof m_near as N. destruct (Z.eq_dec k m) as [->|Hk]; [split; [lia|tauto]|].
    assert (U <= Z.abs (k * U - m * U)) as D by (destruct (Z.lt_ge_cases k m); nia).
    split; [|intros]; lia.
  Qed.

  Lemma m_even : Z.abs (2 * (m * U - V)) = U -> Z.even m = true.
  Proof.
    intros H. unfold m. pose proof e_low as E. apply round_div_tie.
    - pose proof (NumTextProps.up_pos e). nia.
    - fold m. pose proof (NumTextProps.up_shift e K ltac:(lia) ltac:(lia)) as S.
      pose proof (NumTextProps.up_pos e) as P.
      assert (0 < 2 ^ (e + K)) as P2 by (apply Z.pow_pos_nonneg; lia).
      assert (0 < 2 ^ K) as P3 by (apply Z.pow_pos_nonneg; lia).
      apply (Z.mul_reg_r _ _ (2 ^ (e + K))); [lia|].
      replace (d * NumTextModel.up e * 2 ^ (e + K)) with (U * NumTextModel.up e) by (unfold U; ring).
      rewrite <- H. rewrite <- (Z.abs_eq (2 ^ (e + K))) at 1 by lia. rewrite <- Z.abs_mul.
      rewrite <- (Z.abs_eq (NumTextModel.up e)) at 2 by lia. rewrite <- Z.abs_mul. f_equal.
      unfold U, V.
      transitivity (2 * (m * d * NumTextModel.up e * 2 ^ (e + K) - n * (NumTextModel.up (- e) * 2 ^ (e + K)))); [ring|].
      rewrite S. ring.
  Qed.

  (** For numbers [a * 2 ^ x] *)
  Lemma m_best a x : Z.abs a < 2 ^ 53 -> -1074 <= x ->
    let W := a * d * 2 ^ (x + K) in
    Z.abs (m * U - V) <= Z.abs (W - V) /\
    (Z.abs (W - V) = Z.abs (m * U - V) -> W <> m * U -> Z.even m = true).
  Proof.
    intros Ha Hx W. pose proof e_low as E. pose proof U_pos as P.
    assert (0 <= x + K) as Hx2 by (unfold K; lia).
    destruct (Z.le_gt_cases e x) as [C|C].
    - assert (W = (a * 2 ^ (x - e)) * U) as ->.
      { unfold W, U. replace (x + K) with ((x - e) + (e + K)) by lia. rewrite Z.pow_add_r by lia. ring. }
      destruct (m_best_grid (a * 2 ^ (x - e))) as [B1 B2]. split; [exact B1|].
      intros Q1 Q2. apply m_even. apply B2; [exact Q1|]. intros F. apply Q2. rewrite F. reflexivity.
    - pose proof (V_low ltac:(lia)) as L.
      assert (W <= 2 ^ 52 * U) as HW.
      { unfold W, U.
        assert (2 * 2 ^ (x + K) <= 2 ^ (e + K)).
        { replace (2 * 2 ^ (x + K)) with (2 ^ (1 + (x + K))) by (rewrite Z.pow_add_r by lia; reflexivity).
          apply Z.pow_le_mono_r; lia. }
        assert (0 < 2 ^ (x + K)) by (apply Z.pow_pos_nonneg; lia).
        assert (a * 2 ^ (x + K) <= 2 ^ 52 * 2 ^ (e + K)).
        { change (2 ^ 53) with (2 * 2 ^ 52) in Ha. assert (0 < 2 ^ 52) by reflexivity. nia. }
        nia. }
      destruct (m_best_grid (2 ^ 52)) as [B1 B2].
      split; [lia|]. intros Q1 Q2.
      assert (W = 2 ^ 52 * U) as EW by lia. apply m_even. apply B2; [lia|].
      intros F. apply Q2. rewrite EW, F. reflexivity.
  Qed.
End Round.

Lemma two_pow x K : 0 <= K -> 0 <= x + K -> (Qpower 2 x * inject_Z (2 ^ K) == inject_Z (2 ^ (x + K)))%Q.
Proof.
  intros HK H. rewrite !Zpower_Qpower by assumption. change (inject_Z 2) with 2%Q.
  rewrite Qpower_plus by discriminate. reflexivity.
Qed.

Lemma pos_Z z : 0 < z -> (0 < inject_Z z)%Q.
Proof. intros H. change 0%Q with (inject_Z 0). rewrite <- Zlt_Qlt. exact H. Qed.

Lemma abs_Z z : (Qabs (inject_Z z) == inject_Z (Z.abs z))%Q.
Proof. reflexivity. Qed.

Section Real.
  Variables n d : Z.
  Hypothesis (Hn : 0 < n) (Hd : 0 < d).
  Variable q : Q.
  Hypothesis Hq : (q * inject_Z d == inject_Z n)%Q.
  Let e := NumTextModel.fexp n d.
  Let m := NumTextModel.round_div (n * NumTextModel.up (- e)) (d * NumTextModel.up e).
  Let K := Z.abs (NumTextProps.rexp n d) + 1074.
  Let U := d * 2 ^ (e + K).
  Let V := n * 2 ^ K.
  Let T := inject_Z (d * 2 ^ K).

  Lemma T_pos : (0 < T)%Q.
  Proof.
    apply pos_Z. assert (0 < 2 ^ K) by (apply Z.pow_pos_nonneg; unfold K; lia). nia.
  Qed.

  Lemma scaled a x : -1074 <= x ->
    ((inject_Z a * Qpower 2 x) * T == inject_Z (a * d * 2 ^ (x + K)))%Q.
  Proof.
    intros Hx. unfold T. rewrite !inject_Z_mult. rewrite <- (two_pow x K) by (unfold K; lia). ring.
  Qed.

  Lemma scaled_q : (q * T == inject_Z V)%Q.
  Proof. unfold T, V. rewrite !inject_Z_mult. rewrite <- Hq. ring. Qed.

  Lemma scaled_dist a x : -1074 <= x ->
    (Qabs (inject_Z a * Qpower 2 x - q) * T == inject_Z (Z.abs (a * d * 2 ^ (x + K) - V)))%Q.
  Proof.
    intros Hx. rewrite <- (Qabs_pos T) at 1 by (apply Qlt_le_weak, T_pos). rewrite <- Qabs_Qmult.
    setoid_replace ((inject_Z a * Qpower 2 x - q) * T)%Q with (inject_Z a * Qpower 2 x * T - q * T)%Q by ring.
    rewrite scaled by exact Hx. rewrite scaled_q.
    setoid_replace (inject_Z (a * d * 2 ^ (x + K)) - inject_Z V)%Q with (inject_Z (a * d * 2 ^ (x + K) - V))
      by (unfold Z.sub; rewrite inject_Z_plus, inject_Z_opp; reflexivity).
    apply abs_Z.
  Qed.

  Lemma mU : m * d * 2 ^ (e + K) = m * U.
  Proof. unfold U. ring. Qed.

  Lemma round_nearest : (0 <= e -> m * 2 ^ e < 2 ^ 1024) -> nearest q (inject_Z m * Qpower 2 e)%Q.
  Proof.
    intros Fin. pose proof (e_low n d) as E. fold e K in E. cbv zeta in E.
    pose proof (m_range n d Hn Hd) as R. fold e in R. fold m in R. destruct R as [[R1 R2] R3].
    assert (e <= 971 /\ (m = 2 ^ 53 -> e < 971)) as [E1 E2].
    { destruct (Z.le_gt_cases 0 e) as [C|C]; [|lia]. specialize (Fin C). specialize (R3 ltac:(lia)).
      assert (0 < 2 ^ e) as P by (apply Z.pow_pos_nonneg; lia).
      assert (e < 972) as L.
      { apply (Z.pow_lt_mono_r_iff 2); [lia|lia|].
        replace (2 ^ 1024) with (2 ^ 52 * 2 ^ 972) in Fin by reflexivity. assert (0 < 2 ^ 52) by reflexivity. nia. }
      split; [lia|]. intros ->.
      apply (Z.pow_lt_mono_r_iff 2); [lia|lia|].
      replace (2 ^ 1024) with (2 ^ 53 * 2 ^ 971) in Fin by reflexivity. assert (0 < 2 ^ 53) by reflexivity. nia. }
    assert (forall a x, -1074 <= x -> Z.abs a < 2 ^ 53 ->
      (Qabs (inject_Z m * Qpower 2 e - q) <= Qabs (inject_Z a * Qpower 2 x - q))%Q /\
      ((Qabs (inject_Z a * Qpower 2 x - q) == Qabs (inject_Z m * Qpower 2 e - q))%Q ->
       ~ (inject_Z a * Qpower 2 x == inject_Z m * Qpower 2 e)%Q -> Z.even m = true)) as B.
    { intros a x Hx Ha. pose proof (m_best n d Hn Hd a x Ha Hx) as M. cbv zeta in M.
      fold e in M. fold m in M. fold K in M. fold U V in M. destruct M as [M1 M2].
      split.
      - apply (Qmult_le_r _ _ T T_pos). rewrite !scaled_dist by lia. rewrite mU, <- Zle_Qle. exact M1.
      - intros Q1 Q2. apply M2.
        + apply inject_Z_injective. rewrite <- mU. rewrite <- !scaled_dist by lia. rewrite Q1. reflexivity.
        + intros F. apply Q2. apply (Qmult_inj_r _ _ T); [intros F2; pose proof T_pos as P; rewrite F2 in P; discriminate P|].
          rewrite !scaled by lia. rewrite mU, F. reflexivity. }
    split; [|split].
    - destruct (Z.eq_dec m (2 ^ 53)) as [Em|Em].
      + exists (2 ^ 52), (e + 1). split; [reflexivity|]. split; [lia|]. rewrite Em.
        rewrite Qpower_plus by discriminate. change (2 ^ 1)%Q with 2%Q.
        change (inject_Z (2 ^ 53)) with (inject_Z (2 ^ 52) * 2)%Q. ring.
      + exists m, e. split; [lia|]. split; [lia|reflexivity].
    - intros y (a & x & Ha & Hx & ->). apply B; [lia|exact Ha].
    - intros (y & (a & x & Ha & Hx & Ey) & Ny & Ty). destruct (B a x ltac:(lia) Ha) as [_ B2].
      rewrite Ey in Ny, Ty. specialize (B2 Ty Ny). apply Z.even_spec in B2. destruct B2 as [h Eh].
      exists h, (e + 1). split; [lia|]. split; [lia|]. rewrite Eh.
      rewrite Qpower_plus by discriminate. change (2 ^ 1)%Q with 2%Q. rewrite inject_Z_mult. ring.
  Qed.

  Lemma round_finite : (0 <= e /\ 2 ^ 1024 <= m * 2 ^ e) <-> (too_large <= q)%Q.
  Proof.
    pose proof (e_low n d) as E. fold e K in E. cbv zeta in E.
    pose proof (m_range n d Hn Hd) as R. fold e in R. fold m in R. destruct R as [[R1 R2] R3].
    pose proof (m_near n d Hn Hd) as N. fold e in N. fold m in N. fold K in N. fold U V in N.
    pose proof (V_low n d Hn Hd) as VL. fold e K in VL. fold U V in VL.
    pose proof (V_high n d Hn Hd) as VH. fold e K in VH. fold U V in VH.
    pose proof (U_pos n d Hd) as UP. fold e K in UP. fold U in UP.
    pose proof (m_even n d Hd) as EV. fold e in EV. fold m in EV. fold K in EV. fold U V in EV.
    assert ((too_large <= q)%Q <-> (2 ^ 54 - 1) * 2 ^ 970 * d * 2 ^ K <= V) as ->.
    { rewrite <- (Qmult_le_r _ _ T T_pos). rewrite scaled_q. unfold too_large, T.
      rewrite <- inject_Z_mult, <- Zle_Qle.
      replace ((2 ^ 54 - 1) * 2 ^ 970 * (d * 2 ^ K)) with ((2 ^ 54 - 1) * 2 ^ 970 * d * 2 ^ K) by ring. reflexivity. }
    assert (0 < 2 ^ K) as PK by (apply Z.pow_pos_nonneg; lia).
    assert (forall x, 0 <= x -> d * 2 ^ (x + K) = d * 2 ^ K * 2 ^ x) as SP
      by (intros; rewrite Z.pow_add_r by lia; ring).
    set (D := d * 2 ^ K) in *. assert (0 < D) as PD by (unfold D; nia).
    replace ((2 ^ 54 - 1) * 2 ^ 970 * d * 2 ^ K) with ((2 ^ 54 - 1) * 2 ^ 970 * D) by (unfold D; ring).
    assert (0 < 2 ^ 970) as P970 by reflexivity.
    assert (2 ^ 971 = 2 * 2 ^ 970) as E971 by reflexivity.
    assert (2 ^ 972 = 4 * 2 ^ 970) as E972 by reflexivity.
    assert (2 ^ 1024 = 2 ^ 54 * 2 ^ 970) as E1024 by reflexivity.
    set (G := 2 ^ 970) in *.
    split.
    - intros [C F]. assert (0 < 2 ^ e) as P by (apply Z.pow_pos_nonneg; lia).
      unfold U in *. rewrite SP in * by exact C.
      destruct (Z.lt_trichotomy e 971) as [L|[L|L]].
      + exfalso. assert (2 ^ e <= G) by (apply Z.pow_le_mono_r; lia).
        change (2 ^ 53) with 9007199254740992 in *. change (2 ^ 54) with 18014398509481984 in *. nia.
      + rewrite L, E971 in *. change (2 ^ 53) with 9007199254740992 in *. change (2 ^ 54) with 18014398509481984 in *.
        assert (m = 9007199254740992) as -> by nia. nia.
      + assert (2 ^ 972 <= 2 ^ e) by (apply Z.pow_le_mono_r; lia). rewrite E972 in *.
        specialize (VL ltac:(lia)). change (2 ^ 52) with 4503599627370496 in *. change (2 ^ 54) with 18014398509481984 in *.
        assert (D * (4 * G) <= D * 2 ^ e) by nia. nia.
    - intros HV. unfold U in *.
      destruct (Z.lt_ge_cases e 971) as [L|L].
      + exfalso. assert (D * 2 ^ 0 > 0) by (change (2 ^ 0) with 1; lia).
        assert (d * 2 ^ (e + K) <= D * G).
        { unfold G. rewrite <- SP by lia. assert (2 ^ (e + K) <= 2 ^ (970 + K)) by (apply Z.pow_le_mono_r; lia). nia. }
        change (2 ^ 53) with 9007199254740992 in *. change (2 ^ 54) with 18014398509481984 in *. nia.
      + split; [lia|]. rewrite SP in * by lia. specialize (R3 ltac:(lia)).
        destruct (Z.eq_dec e 971) as [Ee|Ee].
        * rewrite Ee, E971 in *. change (2 ^ 53) with 9007199254740992 in *. change (2 ^ 54) with 18014398509481984 in *.
          assert (m = 9007199254740992) as ->; [|nia].
          destruct (Z.eq_dec m 9007199254740991) as [->|Nm]; [|nia].
          exfalso. assert (Z.even 9007199254740991 = true) as X; [|discriminate X]. apply EV. nia.
        * assert (2 ^ 972 <= 2 ^ e) by (apply Z.pow_le_mono_r; lia). rewrite E972 in *.
          change (2 ^ 52) with 4503599627370496 in *. change (2 ^ 54) with 18014398509481984 in *. nia.
  Qed.
End Real.

Lemma nearest_opp q x : nearest q x -> nearest (- q) (- x).
Proof.
  assert (forall y, double_number y -> double_number (- y)) as D.
  { intros y (a & x0 & Ha & Hx & E). exists (- a), x0. split; [lia|]. split; [exact Hx|]. rewrite E, inject_Z_opp. ring. }
  assert (forall a b, Qabs (- a - - b) == Qabs (a - b))%Q as A.
  { intros. setoid_replace (- a - - b)%Q with (- (a - b))%Q by ring. apply Qabs_opp. }
  assert (forall y, (y == - - y)%Q) as N by (intros; ring).
  intros (H1 & H2 & H3). split; [apply D, H1|]. split.
  - intros y Hy. rewrite A. rewrite (N y), A. apply H2, D, Hy.
  - intros (y & Hy & Ny & Ty). destruct H3 as (a & x0 & Ha & Hx & E).
    + exists (- y)%Q. split; [apply D, Hy|]. split.
      * intros F. apply Ny. rewrite <- F. apply N.
      * rewrite <- A. rewrite <- (N y), Ty, A. reflexivity.
    + exists (- a), x0. split; [lia|]. split; [exact Hx|]. rewrite E, inject_Z_opp. ring.
Qed.

Lemma double_proper x x' : (x == x')%Q -> double_number x -> double_number x'.
Proof. intros E (a & b & H & I & J). exists a, b. rewrite <- E. auto. Qed.

Lemma nearest_proper q q' x x' : (q == q')%Q -> (x == x')%Q -> nearest q x -> nearest q' x'.
Proof.
  intros E F (H1 & H2 & H3). split; [|split].
  - exact (double_proper _ _ F H1).
  - intros y Hy. rewrite <- E, <- F. apply H2, Hy.
  - intros (y & Hy & Ny & Ty). destruct H3 as (a & b & H & I & J).
    + exists y. split; [exact Hy|]. rewrite E, F. split; [exact Ny|exact Ty].
    + exists a, b. rewrite <- F. auto.
Qed.

Lemma nearest_zero : nearest 0 0.
Proof.
  split; [|split].
  - exists 0, 0. split; [reflexivity|]. split; [lia|reflexivity].
  - intros y _. apply Qabs_nonneg.
  - intros (y & _ & Ny & Ty). exfalso. apply Ny. change (Qabs (0 - 0)) with 0%Q in Ty.
    setoid_replace (y - 0)%Q with y in Ty by ring.
    assert (y <= 0 /\ 0 <= y)%Q as [A B].
    { split; [rewrite <- Ty; apply Qle_Qabs|].
      assert (- y <= 0)%Q by (rewrite <- Ty, <- Qabs_opp; apply Qle_Qabs). lra. }
    apply Qle_antisym; assumption.
Qed.

Lemma whole_bool k x : NumTextModel.whole k x = true <-> whole_number (inject_Z k * Qpower 2 x).
Proof.
  unfold NumTextModel.whole. destruct (Z.leb_spec 0 x) as [C|C]; cbn [orb].
  - split; [intros _|reflexivity]. exists (k * 2 ^ x). rewrite inject_Z_mult, Zpower_Qpower by exact C. reflexivity.
  - assert (0 < 2 ^ (- x)) as P by (apply Z.pow_pos_nonneg; lia).
    assert (forall z, (inject_Z k * Qpower 2 x == inject_Z z)%Q <-> k = z * 2 ^ (- x)) as L.
    { intros z. rewrite <- (Qmult_inj_r _ _ (inject_Z (2 ^ (- x))))
        by (intros F; apply pos_Z in P; rewrite F in P; discriminate P).
      setoid_replace (inject_Z k * Qpower 2 x * inject_Z (2 ^ (- x)))%Q with (inject_Z k).
      - rewrite <- inject_Z_mult, inject_Z_injective. reflexivity.
      - setoid_replace (inject_Z k * Qpower 2 x * inject_Z (2 ^ (- x)))%Q
          with (inject_Z k * (Qpower 2 x * inject_Z (2 ^ (- x))))%Q by ring.
        rewrite two_pow by lia. replace (x + - x) with 0 by lia. change (2 ^ 0) with 1. ring. }
    rewrite Z.eqb_eq. split.
    + intros H. exists (k / 2 ^ (- x)). apply L. pose proof (Z.div_mod k (2 ^ (- x)) ltac:(lia)). lia.
    + intros [z Hz]. apply L in Hz. rewrite Hz. apply Z.mod_mul. lia.
Qed.

(** ** A cell as a number *)
(** A cell that reads as [q] gives the nearest number of double precision, unless that would be
    infinite; it is an integer exactly if what it gives is whole. *)
Theorem C109_cell : forall s q, NumTextProps.reads (NullCellModel.chars s) q ->
  match value s with
  | Some x => nearest q x /\ (Qabs q < too_large)%Q /\
      (NumTextModel.is_int (NullCellModel.chars s) = true <-> whole_number x)
  | None => (too_large <= Qabs q)%Q /\ NumTextModel.is_int (NullCellModel.chars s) = false
  end.
Proof.
  intros s q (neg & b & A & B & X & Hb & Hnum & Eq). unfold value, NumTextModel.is_int.
  rewrite (proj2 (NumTextProps.parse_num _ neg (NumTextProps.value (A ++ B)) (X - Z.of_nat (length B))))
    by (exists b, A, B, X; auto).
  pose proof (NumTextProps.num_value _ _ _ _ Hnum) as Hm.
  set (m := NumTextProps.value (A ++ B)) in *. set (e := X - Z.of_nat (length B)) in *.
  unfold double. destruct (Z.eqb_spec m 0) as [M0|M0].
  - assert (q == 0)%Q as Z0 by (rewrite Eq, M0; ring).
    split; [apply (nearest_proper 0 q 0 0); [symmetry; exact Z0|reflexivity|apply nearest_zero]|].
    split; [rewrite Z0; reflexivity|]. split; [intros _; exists 0; reflexivity|reflexivity].
  - assert (exists n d, NumTextModel.frac m e = (n, d) /\ 0 < n /\ 0 < d /\
            (inject_Z m * Qpower (10 # 1) e * inject_Z d == inject_Z n)%Q) as (n & d & Ef & H1 & H2 & H4).
    { unfold NumTextModel.frac. destruct (Z.leb_spec 0 e) as [He|He].
      - assert (0 < 10 ^ e) as P by (apply Z.pow_pos_nonneg; lia).
        exists (m * 10 ^ e), 1. split; [reflexivity|]. split; [nia|]. split; [lia|].
        rewrite NumTextProps.ten_pos by exact He. rewrite inject_Z_mult. ring.
      - assert (0 < 10 ^ (- e)) as P by (apply Z.pow_pos_nonneg; lia).
        exists m, (10 ^ (- e)). split; [reflexivity|]. split; [lia|]. split; [exact P|].
        replace e with (- (- e)) at 1 by lia. rewrite Qpower_opp, NumTextProps.ten_pos by lia.
        field. intros F. unfold Qeq in F. cbn in F. lia. }
    rewrite Ef. cbn [fst snd]. set (q0 := (inject_Z m * Qpower (10 # 1) e)%Q) in *.
    assert (q == if neg then - q0 else q0)%Q as Eq0.
    { rewrite Eq. unfold q0. destruct neg; ring. }
    assert (0 <= q0)%Q as Pq.
    { unfold q0. apply Qmult_le_0_compat; [unfold Qle; cbn; lia|]. apply Qpower_0_le. discriminate. }
    assert (Qabs q == q0)%Q as Ea.
    { rewrite Eq0. destruct neg; rewrite ?Qabs_opp; apply Qabs_pos, Pq. }
    unfold NumTextModel.to_double.
    pose proof (round_finite n d H1 H2 q0 H4) as RF. pose proof (round_nearest n d H1 H2 q0 H4) as RN.
    set (fe := NumTextModel.fexp n d) in *.
    set (k := NumTextModel.round_div (n * NumTextModel.up (- fe)) (d * NumTextModel.up fe)) in *.
    destruct ((0 <=? fe) && (2 ^ 1024 <=? k * 2 ^ fe)) eqn:Inf.
    + apply andb_true_iff in Inf. rewrite !Z.leb_le in Inf. split; [|reflexivity]. rewrite Ea. apply RF, Inf.
    + split; [|split].
      * apply (nearest_proper (if neg then - q0 else q0) q (if neg then - (inject_Z k * Qpower 2 fe) else inject_Z k * Qpower 2 fe)).
        -- symmetry. exact Eq0.
        -- destruct neg; [rewrite inject_Z_opp; ring|reflexivity].
        -- assert (nearest q0 (inject_Z k * Qpower 2 fe)) as RN'.
           { apply RN. intros C. apply andb_false_iff in Inf. rewrite Z.leb_gt, Z.leb_gt in Inf. lia. }
           destruct neg; [apply nearest_opp|]; exact RN'.
      * rewrite Ea. apply Qnot_le_lt. intros F. apply RF in F. apply andb_false_iff in Inf.
        rewrite Z.leb_gt, Z.leb_gt in Inf. lia.
      * rewrite whole_bool. destruct neg; [|reflexivity].
        unfold whole_number. split; intros [z Hz].
        -- exists (- z). rewrite !inject_Z_opp, <- Hz. ring.
        -- exists (- z). rewrite !inject_Z_opp in *. rewrite <- Hz. ring.
Qed.
Print Assumptions C109_cell.

(** There is only one. *)
Lemma pow_pos x : (0 < Qpower 2 x)%Q.
Proof. apply Qpower_0_lt. reflexivity. Qed.

Lemma between x y : short_number x -> short_number y -> (x < y)%Q ->
  exists z, double_number z /\ (x < z)%Q /\ (z < y)%Q.
Proof.
  assert (forall a e b f, Z.abs a <= 2 ^ 52 -> -1073 <= e <= 972 -> e <= f ->
    (inject_Z a * Qpower 2 e < inject_Z b * Qpower 2 f)%Q -> a < 2 ^ 52 ->
    exists z, double_number z /\ (inject_Z a * Qpower 2 e < z)%Q /\ (z < inject_Z b * Qpower 2 f)%Q) as L.
  { intros a e b f Ha He Hf Lt Na.
    exists (inject_Z (2 * a + 1) * Qpower 2 (e - 1))%Q. split; [|].
    - exists (2 * a + 1), (e - 1). split; [change (2 ^ 53) with (2 * 2 ^ 52); lia|]. split; [lia|reflexivity].
    - assert (Qpower 2 e == 2 * Qpower 2 (e - 1))%Q as Ee.
      { replace e with (1 + (e - 1)) at 1 by lia. rewrite Qpower_plus by discriminate. reflexivity. }
      assert (inject_Z a * Qpower 2 e == inject_Z (2 * a) * Qpower 2 (e - 1))%Q as E1.
      { rewrite Ee, inject_Z_mult. ring. }
      assert (inject_Z b * Qpower 2 f == inject_Z (2 * (b * 2 ^ (f - e))) * Qpower 2 (e - 1))%Q as E2.
      { rewrite !inject_Z_mult. rewrite Zpower_Qpower by lia. change (inject_Z 2) with 2%Q.
        replace f with ((f - e) + e) at 1 by lia. rewrite Qpower_plus by discriminate. rewrite Ee. ring. }
      rewrite E1, E2 in *. pose proof (pow_pos (e - 1)) as P.
      rewrite Qmult_lt_r in Lt by exact P. rewrite !Qmult_lt_r by exact P.
      rewrite <- !Zlt_Qlt in *. lia. }
  assert (forall a e b f, Z.abs a <= 2 ^ 52 -> Z.abs b <= 2 ^ 52 -> -1073 <= e <= 972 -> -1073 <= f <= 972 -> e <= f ->
    (inject_Z a * Qpower 2 e < inject_Z b * Qpower 2 f)%Q ->
    exists z, double_number z /\ (inject_Z a * Qpower 2 e < z)%Q /\ (z < inject_Z b * Qpower 2 f)%Q) as L2.
  { intros a e b f Ha Hb He Hf Hef Lt.
    destruct (Z.eq_dec a (2 ^ 52)) as [Ea|Ea]; [|apply L; auto; lia].
    assert (inject_Z a * Qpower 2 e == inject_Z (2 ^ 51) * Qpower 2 (e + 1))%Q as E.
    { rewrite Ea. rewrite Qpower_plus by discriminate. change (2 ^ 1)%Q with 2%Q.
      change (inject_Z (2 ^ 52)) with (inject_Z (2 ^ 51) * 2)%Q. ring. }
    assert (e <> f) as Ne.
    { intros <-. rewrite Qmult_lt_r in Lt by apply pow_pos. rewrite <- Zlt_Qlt in Lt. lia. }
    rewrite E in *.
    destruct (L (2 ^ 51) (e + 1) b f) as (z & Z1 & Z2 & Z3).
    - vm_compute. discriminate.
    - lia.
    - lia.
    - exact Lt.
    - reflexivity.
    - exists z. rewrite E. auto. }
  intros (a & e & Ha & He & Ex) (b & f & Hb & Hf & Ey) Lt. rewrite Ex, Ey in Lt.
  destruct (Z.le_ge_cases e f) as [C|C].
  - destruct (L2 a e b f Ha Hb He Hf C Lt) as (z & Z1 & Z2 & Z3). exists z. rewrite Ex, Ey. auto.
  - destruct (L2 (- b) f (- a) e) as (z & (k & g & Hk & Hg & Ez) & Z2 & Z3); try lia.
    + rewrite !inject_Z_opp. lra.
    + exists (- z)%Q. split.
      * exists (- k), g. split; [lia|]. split; [exact Hg|]. rewrite Ez, inject_Z_opp. ring.
      * rewrite Ex, Ey. rewrite !inject_Z_opp in *. lra.
Qed.

Theorem C109_nearest_unique : forall q x y, nearest q x -> nearest q y -> (x == y)%Q.
Proof.
  assert (forall q x y, nearest q x -> nearest q y -> ~ (x < y)%Q) as N.
  { intros q x y (X1 & X2 & X3) (Y1 & Y2 & Y3) Lt.
    assert (Qabs (x - q) == Qabs (y - q))%Q as T by (apply Qle_antisym; auto).
    destruct (between x y) as (z & Z1 & Z2 & Z3).
    - apply X3. exists y. split; [exact Y1|]. split; [intros E; lra|symmetry; exact T].
    - apply Y3. exists x. split; [exact X1|]. split; [intros E; lra|exact T].
    - exact Lt.
    - specialize (X2 z Z1).
      assert (Qabs (z - q) < Qabs (x - q) \/ Qabs (z - q) < Qabs (y - q))%Q as C; [|lra].
      revert T X2. apply Qabs_case; apply Qabs_case; apply Qabs_case; intros; lra. }
  intros q x y Hx Hy. destruct (Q_dec x y) as [[C|C]|C]; [| |exact C]; exfalso.
  - exact (N q x y Hx Hy C).
  - exact (N q y x Hy Hx C).
Qed.
Print Assumptions C109_nearest_unique.

(** ** Columns *)
(** [ys] are what the elements of [xs] that have something in relation [R] have, in order. *)
Inductive picks {A B} (R : A -> B -> Prop) : list A -> list B -> Prop :=
| picks_nil : picks R [] []
| picks_skip x xs ys : (forall y, ~ R x y) -> picks R xs ys -> picks R (x :: xs) ys
| picks_take x xs y ys : R x y -> picks R xs ys -> picks R (x :: xs) (y :: ys).

(** The cells that count as missing by default *)
Definition missing (c : string) : Prop := NullCellProps.upto_break NullCellProps.default_null c.
Definition missing_cell (c d : string) : Prop := missing c /\ d = c.
Definition given_cell (c d : string) : Prop := ~ missing c /\ d = c.
(** The number a cell gives - texts of larger numbers give infinity -, and the whole number *)
Definition float_cell (c : string) (x : Q) : Prop :=
  ~ missing c /\ exists q, NumTextProps.reads (NullCellModel.chars c) q /\ (Qabs q < too_large)%Q /\ nearest q x.
Definition int_cell (c : string) (x : Q) : Prop := float_cell c x /\ whole_number x.

Fixpoint cells (h : history) : list string :=
  match h with
  | New _ => []
  | Upd h t => cells h ++ map snd (NullModel.t_rows t)
  | Add h1 h2 => cells h1 ++ cells h2
  end.
Fixpoint unbiased (h : history) : bool :=
  match h with New b => b | Upd h _ => unbiased h | Add h1 h2 => unbiased h1 && unbiased h2 end.

(** A batch with row labels of its own of which all rows are looked at *)
Definition whole_batch (t : NullModel.batch string) : Prop :=
  NullModel.t_rows t <> [] /\ NoDup (map fst (NullModel.t_rows t)) /\
  Permutation (concat (NullModel.t_chunks t)) (seq 0 (length (NullModel.t_rows t))) /\
  (length (NullModel.t_rows t) <= NullModel.t_sample t)%nat.
(** All batches are such; and no profile of no cells is merged. *)
Fixpoint proper (h : history) : Prop :=
  match h with
  | New _ => True
  | Upd h t => proper h /\ whole_batch t
  | Add h1 h2 => (proper h1 /\ cells h1 <> []) /\ (proper h2 /\ cells h2 <> [])
  end.

(** The statistics of numbers *)
Definition sq (l : list Q) : Q :=
  qsum (map (fun x => (x - qsum l / Qn (length l)) * (x - qsum l / Qn (length l)))%Q l).
Record statistics (s : NumericModel.num) (unbiased : bool) (given : nat) (xs : list Q) : Prop := {
  st_count : NumericModel.nm_match s = length xs;
  st_given : NumericModel.nm_sample s = given;
  st_sum : (NumericModel.nm_sum s == qsum xs)%Q;
  st_mean : (NumericModel.mean s == if length xs =? 0 then 0 else qsum xs / Qn (length xs))%nat%Q;
  st_variance :
    match NumericModel.variance s with
    | Some v => if unbiased then (2 <= length xs)%nat /\ (v == sq xs / (Qn (length xs) - 1))%Q
                else (1 <= length xs)%nat /\ (v == sq xs / Qn (length xs))%Q
    | None => if unbiased then (length xs < 2)%nat else xs = []
    end;
  st_zeros : exists zs, picks (fun x z => (x == 0)%Q /\ z = x) xs zs /\ NumericModel.nm_zeros s = length zs;
  st_negatives : exists ns, picks (fun x n => (x < 0)%Q /\ n = x) xs ns /\ NumericModel.nm_negs s = length ns;
  st_min : forall z, is_min z xs -> ~ (z == 0)%Q -> exists v, NumericModel.nm_min s = Some v /\ (v == z)%Q;
  st_max : forall z, is_max z xs -> ~ (z == 0)%Q -> exists v, NumericModel.nm_max s = Some v /\ (v == z)%Q
}.

Lemma qsum_perm a b : Permutation a b -> (qsum a == qsum b)%Q.
Proof.
  induction 1 as [|x a b _ IH|x y a|a b c _ IH1 _ IH2]; [reflexivity| | |].
  - rewrite !qsum_cons, IH. reflexivity.
  - rewrite !qsum_cons. ring.
  - rewrite IH1. exact IH2.
Qed.

Lemma qsum_ext (f g : Q -> Q) l : (forall x, f x == g x)%Q -> (qsum (map f l) == qsum (map g l))%Q.
Proof.
  intros E. induction l as [|x l IH]; [reflexivity|]. cbn [map]. rewrite !qsum_cons, E, IH. reflexivity.
Qed.

Lemma sq_perm a b : Permutation a b -> (sq a == sq b)%Q.
Proof.
  intros P. unfold sq. rewrite (qsum_perm _ _ (Permutation_map _ P)). apply qsum_ext.
  intros x. rewrite (qsum_perm _ _ P), (Permutation_length P). reflexivity.
Qed.

Lemma picks_filter {A} (p : A -> bool) (P : A -> Prop) l : (forall x, p x = true <-> P x) ->
  picks (fun x y => P x /\ y = x) l (filter p l).
Proof.
  intros E. induction l as [|x l IH]; [constructor|]. cbn [filter].
  destruct (p x) eqn:Ep.
  - constructor; [split; [apply E, Ep|reflexivity]|exact IH].
  - constructor; [|exact IH]. intros y [F _]. apply E in F. congruence.
Qed.

Lemma perm_filter {A} (p : A -> bool) a b : Permutation a b -> Permutation (filter p a) (filter p b).
Proof.
  induction 1 as [|x a b _ IH|x y a|a b c _ IH1 _ IH2]; cbn [filter]; [constructor| | |].
  - destruct (p x); [constructor|]; exact IH.
  - destruct (p x), (p y); try constructor; try apply Permutation_refl.
  - eapply Permutation_trans; eassumption.
Qed.

Lemma perm_flat_map {A B} (f : A -> list B) a b : Permutation a b -> Permutation (flat_map f a) (flat_map f b).
Proof.
  induction 1 as [|x a b _ IH|x y a|a b c _ IH1 _ IH2]; cbn [flat_map]; [constructor| | |].
  - apply Permutation_app_head, IH.
  - rewrite !app_assoc. apply Permutation_app_tail, Permutation_app_comm.
  - eapply Permutation_trans; eassumption.
Qed.

Lemma statistics_of nh b xs : NumericProofs.all_bias nh = b -> Permutation (NumericProofs.data nh) xs ->
  statistics (NumericProofs.run nh) b (NumericProofs.cells nh) xs.
Proof.
  intros Eb P. pose proof (Permutation_length P) as L.
  destruct (NumericProps.C47_match_counts nh) as (M1 & M2 & _).
  destruct (NumericProps.C10_sum_mean nh) as (S1 & S2).
  destruct (NumericProps.C57_zeros_and_negatives nh) as (Z1 & Z2 & _).
  constructor.
  - rewrite M1. exact L.
  - exact M2.
  - rewrite S1. apply qsum_perm, P.
  - rewrite S2, L. destruct (length xs =? 0)%nat; [reflexivity|]. rewrite (qsum_perm _ _ P). reflexivity.
  - pose proof (NumericProps.C10_variance nh) as V. cbv zeta in V. rewrite Eb in V.
    fold (sq (NumericProofs.data nh)) in V. rewrite L in V.
    destruct (NumericModel.variance (NumericProofs.run nh)) as [v|].
    + destruct b; (destruct V as [V1 V2]; split; [exact V1|]; rewrite V2, (sq_perm _ _ P); reflexivity).
    + destruct b; [exact V|]. apply length_zero_iff_nil, V.
  - exists (filter (fun q => Qeq_bool q 0) xs). split.
    + apply picks_filter. intros x. apply Qeq_bool_iff.
    + rewrite Z1. apply Permutation_length, perm_filter, P.
  - exists (filter (fun q => negb (Qle_bool 0 q)) xs). split.
    + apply picks_filter. intros x. rewrite negb_true_iff. apply Qle_bool_false.
    + rewrite Z2. apply Permutation_length, perm_filter, P.
  - intros z Hz. apply NumericProps.C08_minimum_exact. destruct Hz as [I H]. split.
    + apply (Permutation_in _ (Permutation_sym P)), I.
    + intros x Hx. apply H. apply (Permutation_in _ P), Hx.
  - intros z Hz. apply NumericProps.C08_maximum_exact. destruct Hz as [I H]. split.
    + apply (Permutation_in _ (Permutation_sym P)), I.
    + intros x Hx. apply H. apply (Permutation_in _ P), Hx.
Qed.

(** *** A batch *)
Section Histories.
  Variable order : list NullModel.label -> list NullModel.label.
  Hypothesis order_perm : forall l, Permutation (order l) l.
  Variable alts : list (list NullCellModel.piece).
  Hypothesis parsed :
    NullCellModel.parse (NullCellModel.join (map NullCellModel.chars (dkeys NullCellModel.default_nulls))) = Ok alts.

  Let nb (c : string) : bool := NullCellModel.anchored alts (NullCellModel.chars c).

  Lemma nb_missing c : nb c = true <-> missing c.
  Proof.
    destruct (NullCellProps.C92_default [c]) as (bs & E & F). unfold NullCellModel.cells_null in E.
    rewrite parsed in E. cbn [bind map] in E. injection E as <-. inversion F as [|? ? ? ? F1 _]; subst. exact F1.
  Qed.

  Definition numbers (p : list ascii -> bool) (l : list string) : list Q :=
    NumericModel.matched (map (as_number p) (filter (fun c => negb (nb c)) l)).

  Lemma matched_app a b : NumericModel.matched (a ++ b) = NumericModel.matched a ++ NumericModel.matched b.
  Proof. apply flat_map_app. Qed.

  Lemma numbers_app p a b : numbers p (a ++ b) = numbers p a ++ numbers p b.
  Proof. unfold numbers. rewrite filter_app, map_app. apply matched_app. Qed.

  Lemma batch_ok t : whole_batch t ->
    let r := NullModel.clean_batch nb order t in
    let l := map snd (NullModel.t_rows t) in
    NullModel.b_size (snd r) = length l /\ l <> [] /\
    NullModel.b_nulls (snd r) = Z.of_nat (length (filter nb l)) /\
    Permutation (map snd (fst r)) (filter (fun c => negb (nb c)) l).
  Proof.
    intros (W1 & W2 & W3 & W4). cbv zeta.
    assert (NullProofs.valid_chunks (length (NullModel.t_rows t)) (NullModel.t_chunks t)) as VC.
    { split.
      - apply (Permutation_NoDup (Permutation_sym W3)). apply seq_NoDup.
      - apply Forall_forall. intros i Hi. apply (Permutation_in _ W3) in Hi. apply in_seq in Hi. lia. }
    destruct (NullProps.C20_batch nb order order_perm t W1 W2 VC) as (ex & Ex & B1 & B2 & B3 & _).
    pose proof (NullProps.C20_all_rows_examined nb t ex Ex W2 W3 W4) as PE.
    assert (forall p (l : list (NullModel.label * string)), map snd (filter (fun x => p (snd x)) l) = filter p (map snd l)) as MF.
    { intros p l. induction l as [|x l IH]; [reflexivity|]. cbn [filter map]. destruct (p (snd x)); cbn [map]; rewrite IH; reflexivity. }
    split; [|split; [|split]].
    - rewrite B2, map_length. apply Permutation_length, PE.
    - intros F. apply map_eq_nil in F. contradiction.
    - rewrite B3. rewrite <- (MF nb), map_length. f_equal. apply Permutation_length, perm_filter, PE.
    - eapply Permutation_trans; [apply Permutation_map, B1|]. rewrite <- (MF (fun c => negb (nb c))).
      apply Permutation_map, perm_filter, PE.
  Qed.

  Lemma run_proper h : proper h -> exists s, run NullCellModel.default_nulls order h = Ok s /\
    NullModel.c_size (k_base s) = length (cells h) /\
    NullModel.c_nulls (k_base s) = Z.of_nat (length (filter nb (cells h))) /\
    (exists nh, k_ints s = NumericProofs.run nh /\ NumericProofs.all_bias nh = unbiased h /\
      Permutation (NumericProofs.data nh) (numbers NumTextModel.is_int (cells h)) /\
      NumericProofs.cells nh = length (filter (fun c => negb (nb c)) (cells h))) /\
    (exists nh, k_floats s = NumericProofs.run nh /\ NumericProofs.all_bias nh = unbiased h /\
      Permutation (NumericProofs.data nh) (numbers NumTextModel.is_float (cells h)) /\
      NumericProofs.cells nh = length (filter (fun c => negb (nb c)) (cells h))).
  Proof.
    induction h as [b|h IH t|h1 IH1 h2 IH2]; cbn [proper cells run unbiased].
    - intros _. exists (new_column b). split; [reflexivity|]. split; [reflexivity|]. split; [reflexivity|].
      split; exists (NumericProofs.NNew b); repeat split; constructor.
    - intros [H W]. destruct (IH H) as (s & -> & C1 & C2 & (ni & I1 & I2 & I3 & I4) & (nf & F1 & F2 & F3 & F4)).
      cbn [bind]. unfold update_column. rewrite parsed. cbn [bind].
      change (fun c => NullCellModel.anchored alts (NullCellModel.chars c)) with nb.
      destruct (batch_ok t W) as (B1 & B0 & B2 & B3). set (r := NullModel.clean_batch nb order t) in *.
      set (l := map snd (NullModel.t_rows t)) in *.
      unfold NullModel.update_base. rewrite B1. destruct (Nat.eqb_spec (length l) 0) as [E|E].
      { exfalso. apply B0. apply length_zero_iff_nil, E. }
      cbn [bind]. eexists. split; [reflexivity|]. cbn [k_base k_ints k_floats NullModel.c_size NullModel.c_nulls].
      rewrite C1, C2, B2. rewrite !app_length, !filter_app, !app_length. split; [reflexivity|]. split; [lia|].
      assert (forall p, Permutation (NumericModel.matched (map (as_number p) (map snd (fst r)))) (numbers p l)) as PN.
      { intros p. unfold numbers, NumericModel.matched. apply perm_flat_map, Permutation_map, B3. }
      pose proof (Permutation_length B3) as LB.
      split.
      + exists (NumericProofs.NUpd ni (map (as_number NumTextModel.is_int) (map snd (fst r)))).
        cbn [NumericProofs.run NumericProofs.all_bias NumericProofs.data NumericProofs.cells].
        rewrite I1, I4, map_length, LB. split; [reflexivity|]. split; [exact I2|]. split; [|reflexivity].
        rewrite numbers_app. apply Permutation_app; [exact I3|apply PN].
      + exists (NumericProofs.NUpd nf (map (as_number NumTextModel.is_float) (map snd (fst r)))).
        cbn [NumericProofs.run NumericProofs.all_bias NumericProofs.data NumericProofs.cells].
        rewrite F1, F4, map_length, LB. split; [reflexivity|]. split; [exact F2|]. split; [|reflexivity].
        rewrite numbers_app. apply Permutation_app; [exact F3|apply PN].
    - intros [[H1 N1] [H2 N2]].
      destruct (IH1 H1) as (s1 & -> & C1 & C2 & (ni & I1 & I2 & I3 & I4) & (nf & F1 & F2 & F3 & F4)).
      destruct (IH2 H2) as (s2 & -> & D1 & D2 & (mi & J1 & J2 & J3 & J4) & (mf & G1 & G2 & G3 & G4)).
      cbn [bind]. unfold add_column, NullModel.add, NullModel.update_base, NullModel.as_base.
      cbn [NullModel.b_size]. rewrite C1. destruct (Nat.eqb_spec (length (cells h1)) 0) as [E|E].
      { exfalso. apply N1. apply length_zero_iff_nil, E. }
      cbn [bind NullModel.b_size]. rewrite D1. destruct (Nat.eqb_spec (length (cells h2)) 0) as [E'|E'].
      { exfalso. apply N2. apply length_zero_iff_nil, E'. }
      cbn [bind]. eexists. split; [reflexivity|].
      cbn [k_base k_ints k_floats NullModel.c_size NullModel.c_nulls NullModel.b_nulls NullModel.new_col].
      rewrite C2, D2, !app_length, !filter_app, !app_length. split; [lia|]. split; [lia|]. split.
      + exists (NumericProofs.NAdd ni mi). cbn [NumericProofs.run NumericProofs.all_bias NumericProofs.data NumericProofs.cells].
        rewrite I1, J1, I2, J2, I4, J4, numbers_app. split; [reflexivity|]. split; [reflexivity|].
        split; [apply Permutation_app; assumption|reflexivity].
      + exists (NumericProofs.NAdd nf mf). cbn [NumericProofs.run NumericProofs.all_bias NumericProofs.data NumericProofs.cells].
        rewrite F1, G1, F2, G2, F4, G4, numbers_app. split; [reflexivity|]. split; [reflexivity|].
        split; [apply Permutation_app; assumption|reflexivity].
  Qed.

  Lemma numbers_cons p c l : numbers p (c :: l) =
    (if nb c then [] else match as_number p c with Some x => [x] | None => [] end) ++ numbers p l.
  Proof. unfold numbers. cbn [filter]. destruct (nb c); reflexivity. Qed.

  Lemma picks_ints l : picks int_cell l (numbers NumTextModel.is_int l).
  Proof.
    induction l as [|c l IH]; [constructor|]. rewrite numbers_cons.
    destruct (nb c) eqn:En; cbn [app].
    - constructor; [|exact IH]. intros x [[N _] _]. apply N, nb_missing, En.
    - unfold as_number. destruct (NumTextModel.is_int (NullCellModel.chars c)) eqn:Ei.
      + destruct (NumTextProps.C100_int_reads _ Ei) as (_ & q & Hq).
        pose proof (C109_cell c q Hq) as H. destruct (value c) as [x|]; [|destruct H; congruence].
        constructor; [|exact IH]. destruct H as (H1 & H2 & H3). split; [split|].
        * intros M. apply nb_missing in M. congruence.
        * eauto.
        * apply H3, Ei.
      + constructor; [|exact IH]. intros x [(_ & q & Hq & Bq & Nx) W].
        pose proof (C109_cell c q Hq) as H. destruct (value c) as [y|].
        * destruct H as (H1 & H2 & H3). assert (NumTextModel.is_int (NullCellModel.chars c) = true) as T; [|congruence].
          apply H3. destruct W as [z Hz]. exists z. rewrite (C109_nearest_unique q y x H1 Nx). exact Hz.
        * destruct H as [Hl _]. lra.
  Qed.

  (** No cell but the missing ones is the word nan or infinite. *)
  Definition finite (l : list string) : Prop := forall c, In c l -> ~ missing c ->
    NumTextModel.is_float (NullCellModel.chars c) = true ->
    exists q, NumTextProps.reads (NullCellModel.chars c) q /\ (Qabs q < too_large)%Q.

  Lemma reads_float l q : NumTextProps.reads l q -> NumTextModel.is_float l = true.
  Proof.
    intros (neg & b & A & B & X & H & I & _). apply NumTextProps.C100_float. exists neg, b. eauto 8.
  Qed.

  Lemma picks_floats l : finite l -> picks float_cell l (numbers NumTextModel.is_float l).
  Proof.
    intros F. induction l as [|c l IH]; [constructor|]. rewrite numbers_cons.
    assert (picks float_cell l (numbers NumTextModel.is_float l)) as IH'
      by (apply IH; intros d Hd; apply F; right; exact Hd).
    destruct (nb c) eqn:En; cbn [app].
    - constructor; [|exact IH']. intros x [N _]. apply N, nb_missing, En.
    - assert (~ missing c) as Nm by (intros M; apply nb_missing in M; congruence).
      unfold as_number. destruct (NumTextModel.is_float (NullCellModel.chars c)) eqn:Ef.
      + destruct (F c (or_introl eq_refl) Nm Ef) as (q & Hq & Bq).
        pose proof (C109_cell c q Hq) as H. destruct (value c) as [x|]; [|destruct H; lra].
        constructor; [|exact IH']. destruct H as (H1 & H2 & H3). split; [exact Nm|eauto].
      + constructor; [|exact IH']. intros x (_ & q & Hq & _). apply reads_float in Hq. congruence.
  Qed.

  Lemma fewer_ints l : (length (numbers NumTextModel.is_int l) <= length (numbers NumTextModel.is_float l))%nat.
  Proof.
    induction l as [|c l IH]; [reflexivity|]. rewrite !numbers_cons, !app_length.
    destruct (nb c); cbn [length Nat.add]; [exact IH|]. unfold as_number.
    destruct (NumTextModel.is_int (NullCellModel.chars c)) eqn:Ei.
    - rewrite (proj1 (NumTextProps.C100_int_reads _ Ei)). lia.
    - cbn [length]. lia.
  Qed.
End Histories.

Lemma default_parsed : exists alts,
  NullCellModel.parse (NullCellModel.join (map NullCellModel.chars (dkeys NullCellModel.default_nulls))) = Ok alts.
Proof.
  destruct (NullCellProps.C92_default []) as (bs & E & _). unfold NullCellModel.cells_null in E.
  destruct (NullCellModel.parse _) as [alts|]; [eauto|discriminate].
Qed.

(** The column of a profile after any updates and merges: how many cells, how many missing. *)
Theorem C109_counts : forall order, (forall l, Permutation (order l) l) -> forall h, proper h ->
  exists s, run NullCellModel.default_nulls order h = Ok s /\
    NullModel.c_size (k_base s) = length (cells h) /\
    exists ms, picks missing_cell (cells h) ms /\ NullModel.c_nulls (k_base s) = Z.of_nat (length ms).
Proof.
  intros order Op h Hp. destruct default_parsed as [alts Pa].
  destruct (run_proper order Op alts Pa h Hp) as (s & E & C1 & C2 & _).
  exists s. split; [exact E|]. split; [exact C1|]. eexists. split; [|exact C2].
  apply picks_filter. apply nb_missing, Pa.
Qed.
Print Assumptions C109_counts.

(** As integers: the statistics are those of the cells that give a whole number. *)
Theorem C109_integers : forall order, (forall l, Permutation (order l) l) -> forall h, proper h ->
  exists s, run NullCellModel.default_nulls order h = Ok s /\
    exists xs gs, picks int_cell (cells h) xs /\ picks given_cell (cells h) gs /\
      statistics (k_ints s) (unbiased h) (length gs) xs.
Proof.
  intros order Op h Hp. destruct default_parsed as [alts Pa].
  destruct (run_proper order Op alts Pa h Hp) as (s & E & _ & _ & (nh & I1 & I2 & I3 & I4) & _).
  exists s. split; [exact E|]. eexists. eexists. split; [apply (picks_ints alts Pa)|]. split.
  - apply (picks_filter (fun c => negb (NullCellModel.anchored alts (NullCellModel.chars c)))).
    intros c. rewrite <- (nb_missing alts Pa c), negb_true_iff. destruct (NullCellModel.anchored _ _); intuition congruence.
  - rewrite I1, <- I4. apply statistics_of; assumption.
Qed.
Print Assumptions C109_integers.

(** As floats: those of the cells that give a number; there are at least as many as integers. *)
Theorem C109_floats : forall order, (forall l, Permutation (order l) l) -> forall h, proper h -> finite (cells h) ->
  exists s, run NullCellModel.default_nulls order h = Ok s /\
    (NumericModel.nm_match (k_ints s) <= NumericModel.nm_match (k_floats s))%nat /\
    exists xs gs, picks float_cell (cells h) xs /\ picks given_cell (cells h) gs /\
      statistics (k_floats s) (unbiased h) (length gs) xs.
Proof.
  intros order Op h Hp Fh. destruct default_parsed as [alts Pa].
  destruct (run_proper order Op alts Pa h Hp) as (s & E & _ & _ & (ni & J1 & J2 & J3 & _) & (nh & I1 & I2 & I3 & I4)).
  exists s. split; [exact E|].
  pose proof (statistics_of nh _ _ I2 I3) as St. pose proof (statistics_of ni _ _ J2 J3) as Si.
  split.
  - rewrite J1, I1, (st_count _ _ _ _ Si), (st_count _ _ _ _ St). apply fewer_ints.
  - eexists. eexists. split; [apply (picks_floats alts Pa), Fh|]. split.
    + apply (picks_filter (fun c => negb (NullCellModel.anchored alts (NullCellModel.chars c)))).
      intros c. rewrite <- (nb_missing alts Pa c), negb_true_iff. destruct (NullCellModel.anchored _ _); intuition congruence.
    + rewrite I1, <- I4. exact St.
Qed.
Print Assumptions C109_floats.

(** The expectation that a cell which is not missing and counts as a float is a number is false:
    with a blank before it the word nan is not missing. *)
Lemma missing_dec c : missing c <-> NullCellModel.cells_null NullCellModel.default_nulls [c] = Ok [true].
Proof.
  destruct (NullCellProps.C92_default [c]) as (bs & E & F). rewrite E.
  inversion F as [|? b ? ? F1 F2]; subst. inversion F2; subst. unfold missing. rewrite <- F1.
  split; [intros ->; reflexivity|]. intros H. injection H as H. exact H.
Qed.

Theorem C109_floats_are_numbers_refuted :
  ~ (forall c, ~ missing c -> NumTextModel.is_float (NullCellModel.chars c) = true ->
       exists q, NumTextProps.reads (NullCellModel.chars c) q).
Proof.
  intros H. destruct (H " nan"%string) as (q & neg & b & A & B & X & H1 & H2 & _).
  - rewrite missing_dec. vm_compute. discriminate.
  - reflexivity.
  - assert (NumTextModel.parse (NullCellModel.chars " nan"%string)
      = Some (NumTextModel.PNum neg (NumTextProps.value (A ++ B)) (X - Z.of_nat (length B)))) as P
      by (apply NumTextProps.parse_num; exists b, A, B, X; auto).
    vm_compute in P. discriminate P.
Qed.
Print Assumptions C109_floats_are_numbers_refuted.

(** ** Examples *)
Example ex_tenth : exists x, value "0.1"%string = Some x /\ (x == 3602879701896397 # 36028797018963968)%Q.
Proof. eexists. split; [vm_compute; reflexivity|]. vm_compute. reflexivity. Qed.
Example ex_tie : exists x y, value "9007199254740993"%string = Some x /\ (x == inject_Z 9007199254740992)%Q /\
  value "9007199254740995"%string = Some y /\ (y == inject_Z 9007199254740996)%Q.
Proof. eexists. eexists. split; [vm_compute; reflexivity|]. split; [reflexivity|].
  split; [vm_compute; reflexivity|]. reflexivity. Qed.

Definition ex_row (z : Z) (s : string) : NullModel.label * string := (NullModel.LI z, s).
Definition ex_history : history :=
  Add (Upd (Upd (New true) (NullModel.mkBatch [ex_row 0 "1"; ex_row 1 "2.5"; ex_row 2 "nan"]%string 5000 0 [[2; 0; 1]%nat]))
         (NullModel.mkBatch [ex_row 0 "abc"; ex_row 1 " 7 "]%string 5000 0 [[1]; [0]]%nat))
      (Upd (New true) (NullModel.mkBatch [ex_row 0 "-3e0"; ex_row 1 ""]%string 5000 0 [[0; 1]%nat])).

Lemma ex_proper : proper ex_history.
Proof.
  assert (forall l : list nat, NoDup l <-> forallb (fun x => (count_occ Nat.eq_dec l x =? 1)%nat) l = true) as D.
  { intros l. rewrite forallb_forall. rewrite (NoDup_count_occ' Nat.eq_dec). split; intros H x Hx; specialize (H x Hx);
      [rewrite H; reflexivity|apply Nat.eqb_eq, H]. }
  cbn [proper ex_history cells NullModel.t_rows map snd]. unfold whole_batch. cbn [NullModel.t_rows NullModel.t_chunks NullModel.t_sample length map concat app fst seq ex_row].
  assert (forall a b : Z, a <> b -> NullModel.LI a <> NullModel.LI b) as L by (intros a b H E; injection E; exact H).
  repeat match goal with
  | |- _ /\ _ => split
  | |- True => exact I
  | |- _ <> [] => discriminate
  | |- (_ <= _)%nat => apply Nat.leb_le; reflexivity
  | |- NoDup [] => constructor
  | |- NoDup (_ :: _) => constructor; [cbn [In]; intros N; repeat (destruct N as [N|N]; [revert N; apply L; lia|]); exact N|]
  | |- Permutation [0]%nat _ => apply Permutation_refl
  end.
  - apply (Permutation_trans (l' := [0; 2; 1]%nat)); [apply perm_swap|]. constructor. apply perm_swap.
  - apply perm_swap.
  - apply Permutation_refl.
Qed.

Example ex_column : exists s, run NullCellModel.default_nulls (fun l => l) ex_history = Ok s /\
  NullModel.c_size (k_base s) = 7%nat /\ NullModel.c_nulls (k_base s) = 2 /\
  NumericModel.nm_match (k_ints s) = 3%nat /\ NumericModel.nm_match (k_floats s) = 4%nat /\
  NumericModel.nm_sample (k_floats s) = 5%nat /\
  (NumericModel.nm_sum (k_ints s) == 5)%Q /\ (NumericModel.nm_sum (k_floats s) == 15 # 2)%Q.
Proof.
  eexists. split; [vm_compute; reflexivity|]. vm_compute. repeat split.
Qed.
Example ex_finite : finite (cells ex_history).
Proof.
  intros c Hc Nm Hf. rewrite missing_dec in Nm. cbn [cells ex_history app map snd NullModel.t_rows ex_row In] in Hc.
  assert (forall l neg m e, NumTextModel.parse l = Some (NumTextModel.PNum neg m e) ->
    exists q, NumTextProps.reads l q /\ (q == inject_Z (if neg then -1 else 1) * inject_Z m * Qpower (10 # 1) e)%Q) as R.
  { intros l neg m e H. apply NumTextProps.parse_num in H. destruct H as (b & A & B & X & H1 & H2 & -> & ->).
    eexists. split; [|reflexivity]. exists neg, b, A, B, X. split; [exact H1|]. split; [exact H2|reflexivity]. }
  repeat (destruct Hc as [<-|Hc]; [first [discriminate Hf | exfalso; apply Nm; vm_compute; reflexivity |
    match type of Hf with NumTextModel.is_float ?l = true =>
      let p := eval vm_compute in (NumTextModel.parse l) in
      match p with
      | Some (NumTextModel.PNum ?ng ?m ?e) =>
          destruct (R l ng m e ltac:(vm_compute; reflexivity)) as (q & R1 & R2); exists q; split; [exact R1|]; rewrite R2; vm_compute; reflexivity
      end end]|]).
  contradiction.
Qed.
