(** * C91: the numbers of bins of the rules of Freedman and Diaconis, Scott and Doane *)
From Coq Require Import Reals ZArith Lra Lia.
From Coq Require String.
From Verif Require Import PyCommon PyString BinWidthModel BinWidthProps.
Local Delimit Scope string_scope with string.
Local Open Scope R_scope.

Lemma cube_lt x y : 0 <= x -> x < y -> x * x * x < y * y * y.
Proof.
  intros X L. assert (Y : 0 < y) by lra.
  assert (A : x * x < y * y) by (apply Rmult_le_0_lt_compat; lra).
  apply Rmult_le_0_lt_compat; try lra. apply Rmult_le_pos; lra.
Qed.

Lemma cube_le x y : 0 <= x -> x <= y -> x * x * x <= y * y * y.
Proof. intros X [L| ->]; [left; apply cube_lt; assumption|right; reflexivity]. Qed.

(** Bins for the width [c / r], where [r] is the cube root of [n] *)
Lemma bins_cube s c r n : 0 < ptp s -> 0 < c -> 0 < r -> r * r * r = n ->
  let b := bins_of_width s (Some (c / r)) in
  (1 <= b)%Z /\
  (c * IZR (b - 1)) ^ 3 < n * ptp s ^ 3 <= (c * IZR b) ^ 3.
Proof.
  intros Hp Hc Hr Hn b.
  assert (W : 0 < c / r) by (apply Rdiv_lt_0_compat; assumption).
  assert (E : b = Rceil (ptp s / (c / r))).
  { unfold b, bins_of_width. destruct (Req_EM_T (c / r) 0) as [Z|_]; [lra|reflexivity]. }
  assert (Q : 0 < ptp s / (c / r)) by (apply Rdiv_lt_0_compat; assumption).
  assert (M : c * (ptp s / (c / r)) = r * ptp s) by (field; lra).
  destruct (Rceil_spec (ptp s / (c / r))) as [A B]. rewrite <- E in A, B.
  assert (B1 : (1 <= b)%Z) by (rewrite E; apply Rceil_pos; exact Q).
  split; [exact B1|].
  assert (P0 : 0 <= IZR (b - 1)) by (apply IZR_le; lia).
  assert (A' : IZR (b - 1) < ptp s / (c / r)) by (rewrite minus_IZR; exact A).
  assert (N3 : n * ptp s ^ 3 = (r * ptp s) * (r * ptp s) * (r * ptp s)) by (rewrite <- Hn; ring).
  rewrite N3, <- M.
  replace ((c * IZR (b - 1)) ^ 3) with ((c * IZR (b - 1)) * (c * IZR (b - 1)) * (c * IZR (b - 1))) by ring.
  replace ((c * IZR b) ^ 3) with ((c * IZR b) * (c * IZR b) * (c * IZR b)) by ring.
  split.
  - apply cube_lt; [apply Rmult_le_pos; lra|apply Rmult_lt_compat_l; assumption].
  - apply cube_le; [apply Rmult_le_pos; lra|apply Rmult_le_compat_l; lra].
Qed.

(** Freedman and Diaconis: the smallest number of bins [b] with
    [range <= b * 2 * iqr / size ^ (1/3)], as an inequality of cubes; one bin if the
    quartiles are equal. *)
Theorem C91_fd : forall s, (0 < s_size s)%nat -> 0 < ptp s -> 0 <= s_iqr s ->
  exists b, calculate_bins s "fd"%string = Ok b /\ (1 <= b)%Z /\
    (s_iqr s = 0 -> b = 1%Z) /\
    (0 < s_iqr s ->
     (2 * s_iqr s * IZR (b - 1)) ^ 3 < INR (s_size s) * (s_max s - s_min s) ^ 3
     <= (2 * s_iqr s * IZR b) ^ 3).
Proof.
  intros s Hn Hp Hi. unfold calculate_bins. cbn [selector String.eqb Ascii.eqb Bool.eqb].
  replace (s_size s =? 0)%nat with false by (symmetry; apply Nat.eqb_neq; lia).
  eexists. split; [reflexivity|].
  pose proof (size_pos s Hn) as Hs.
  assert (P : fd s = Some (2 * s_iqr s / Rpower (size s) (1 / 3))).
  { unfold fd. f_equal. replace (- 1 / 3) with (- (1 / 3)) by field. rewrite Rpower_Ropp.
    unfold Rdiv. ring. }
  destruct Hi as [Hi|Hi].
  - destruct (bins_cube s (2 * s_iqr s) (Rpower (size s) (1 / 3)) (size s)) as [A B];
      [exact Hp|lra|apply Rpower_pos|apply cube_root; exact Hs|].
    rewrite P. split; [exact A|]. split; [intro Z; lra|intros _; exact B].
  - assert (Z : bins_of_width s (fd s) = 1%Z).
    { unfold fd. rewrite <- Hi. unfold bins_of_width.
      destruct (Req_EM_T (2 * 0 * Rpower (size s) (- 1 / 3)) 0) as [_|N]; [reflexivity|].
      exfalso; apply N; ring. }
    rewrite Z. split; [lia|]. split; [reflexivity|intro X; lra].
Qed.

(** Scott: the smallest number of bins [b] with
    [range <= b * deviation * (24 * sqrt(pi) / size) ^ (1/3)]; one bin without deviation. *)
Theorem C91_scott : forall s sd, (0 < s_size s)%nat -> 0 < ptp s -> s_std s = Some sd -> 0 <= sd ->
  exists b, calculate_bins s "scott"%string = Ok b /\ (1 <= b)%Z /\
    (sd = 0 -> b = 1%Z) /\
    (0 < sd ->
     24 * sqrt PI * (sd * IZR (b - 1)) ^ 3 < INR (s_size s) * (s_max s - s_min s) ^ 3
     <= 24 * sqrt PI * (sd * IZR b) ^ 3).
Proof.
  intros s sd Hn Hp E Hi. unfold calculate_bins. cbn [selector String.eqb Ascii.eqb Bool.eqb].
  replace (s_size s =? 0)%nat with false by (symmetry; apply Nat.eqb_neq; lia).
  eexists. split; [reflexivity|]. unfold scott. rewrite E.
  pose proof (size_pos s Hn) as Hs.
  pose proof PI_RGT_0 as Hpi. pose proof (sqrt_lt_R0 _ Hpi) as Hq.
  replace (1 / 2) with (/ 2) by field. rewrite (Rpower_sqrt PI Hpi).
  set (g := 24 * sqrt PI). assert (Hg : 0 < g) by (unfold g; lra).
  set (u := Rpower (g / size s) (1 / 3)).
  assert (Hu : 0 < u) by apply Rpower_pos.
  assert (U3 : u * u * u = g / size s).
  { apply cube_root. apply Rdiv_lt_0_compat; assumption. }
  destruct Hi as [Hi|Hi].
  - destruct (bins_cube s sd (/ u) (/ (u * u * u))) as [A B];
      [exact Hp|exact Hi|apply Rinv_0_lt_compat; exact Hu|field; lra|].
    replace (u * sd) with (sd / / u) by (field; lra).
    split; [exact A|]. split; [intro Z; lra|intros _].
    rewrite U3 in B. replace (/ (g / size s)) with (size s / g) in B by (field; lra).
    fold (size s). fold (ptp s).
    set (b := bins_of_width s (Some (sd / / u))) in *. destruct B as [B1 B2].
    assert (F : g * (size s / g * ptp s ^ 3) = size s * ptp s ^ 3) by (field; lra).
    rewrite <- F. split; [apply Rmult_lt_compat_l|apply Rmult_le_compat_l]; lra.
  - subst sd. assert (Z : bins_of_width s (Some (u * 0)) = 1%Z).
    { unfold bins_of_width. destruct (Req_EM_T (u * 0) 0) as [_|N]; [reflexivity|]. exfalso; apply N; ring. }
    rewrite Z. split; [lia|]. split; [reflexivity|intro X; lra].
Qed.

(** Doane: one more than the smallest exponent of two that reaches the number of values
    times one plus the skewness in units of its deviation; one bin for up to two values
    or without deviation. *)
Theorem C91_doane : forall s sd g, 0 < ptp s -> s_std s = Some sd -> s_skew s = Some g ->
  exists b, calculate_bins s "doane"%string = Ok b /\ (1 <= b)%Z /\
    ((s_size s <= 2)%nat \/ sd <= 0 -> b = 1%Z) /\
    ((2 < s_size s)%nat -> 0 < sd ->
     exists sg, 0 < sg
       /\ sg ^ 2 * ((INR (s_size s) + 1) * (INR (s_size s) + 3)) = 6 * (INR (s_size s) - 2)
       /\ Rpower 2 (IZR (b - 2)) < INR (s_size s) * (1 + Rabs g / sg) <= Rpower 2 (IZR (b - 1))).
Proof.
  intros s sd g Hp E G. unfold calculate_bins. cbn [selector String.eqb Ascii.eqb Bool.eqb].
  eexists. split; [reflexivity|].
  destruct (s_size s =? 0)%nat eqn:Z0.
  { apply Nat.eqb_eq in Z0. split; [lia|]. split; [reflexivity|intro X; lia]. }
  unfold doane. destruct (2 <? s_size s)%nat eqn:L2.
  2:{ apply Nat.ltb_ge in L2. unfold bins_of_width. destruct (Req_EM_T 0 0) as [_|N]; [|exfalso; apply N; reflexivity].
      split; [lia|]. split; [reflexivity|intro X; lia]. }
  apply Nat.ltb_lt in L2. rewrite E, G. destruct (Rlt_dec 0 sd) as [Hd|Hd].
  2:{ unfold bins_of_width. destruct (Req_EM_T 0 0) as [_|N]; [|exfalso; apply N; reflexivity].
      split; [lia|]. split; [reflexivity|intros _ X; lra]. }
  assert (Hn : 3 <= size s) by (unfold size; replace 3 with (INR 3) by (cbn; ring); apply le_INR; lia).
  assert (Q0 : 0 < (size s + 1) * (size s + 3)) by (apply Rmult_lt_0_compat; lra).
  set (v := 6 * (size s - 2) / ((size s + 1) * (size s + 3))).
  assert (Hv : 0 < v) by (apply Rdiv_lt_0_compat; lra).
  set (sg := sqrt v). assert (Hsg : 0 < sg) by (apply sqrt_lt_R0; exact Hv).
  assert (A0 : 0 <= Rabs g / sg).
  { apply Rmult_le_pos; [apply Rabs_pos|left; apply Rinv_0_lt_compat; exact Hsg]. }
  set (t := 1 + Rabs g / sg) in *.
  pose proof (log2R_nonneg (size s) ltac:(lra)) as L1.
  pose proof (log2R_nonneg t ltac:(unfold t; lra)) as LT.
  set (x := 1 + log2R (size s) + log2R t).
  rewrite bins_of_quot by (try exact Hp; unfold x; lra).
  destruct (Rceil_spec x) as [A B].
  assert (B1 : (1 <= Rceil x)%Z) by (apply Rceil_pos; unfold x; lra).
  split; [exact B1|]. split; [intros [X|X]; [lia|lra]|].
  intros _ _. exists sg. split; [exact Hsg|]. split.
  - unfold sg. rewrite pow2_sqrt by lra. unfold v. fold (size s). field. lra.
  - assert (PX : Rpower 2 (x - 1) = size s * t).
    { replace (x - 1) with (log2R (size s) + log2R t) by (unfold x; ring).
      rewrite Rpower_plus, !Rpower_2_log; [reflexivity|unfold t; lra|lra]. }
    change (INR (s_size s) * (1 + Rabs g / sg)) with (size s * t). rewrite <- PX. split.
    + apply Rpower_lt; [lra|]. rewrite minus_IZR. lra.
    + apply Rle_Rpower; [lra|]. rewrite minus_IZR. lra.
Qed.

(** Eight values from 0 to 10 with quartiles at distance 5 have two bins. *)
Example C91_fd_example :
  calculate_bins (mkStats 8 0 10 5 (Some 3) (Some 0)) "fd"%string = Ok 2%Z.
Proof.
  destruct (C91_fd (mkStats 8 0 10 5 (Some 3) (Some 0))) as (b & E & B & _ & H);
    [cbn; lia|unfold ptp; cbn [s_max s_min]; lra|cbn [s_iqr]; lra|].
  rewrite E. f_equal. specialize (H ltac:(cbn [s_iqr]; lra)). cbn [s_iqr s_size s_max s_min] in H.
  replace (INR 8) with 8 in H by (cbn; ring).
  assert (C : b = 1%Z \/ b = 2%Z \/ (3 <= b)%Z) by lia. destruct C as [->|[->|C]]; [|reflexivity|].
  - exfalso. cbn in H. lra.
  - exfalso. assert (X : 2 <= IZR (b - 1)) by (apply IZR_le; lia).
    assert (Y : (2 * 5 * 2) ^ 3 <= (2 * 5 * IZR (b - 1)) ^ 3) by (apply pow_incr; lra). lra.
Qed.
