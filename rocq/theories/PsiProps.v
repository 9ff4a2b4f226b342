(** Property C49: the population stability index of two columns. *)
From Coq Require Import ZArith QArith Reals Lra Permutation.
From Verif Require Import QFacts ListFacts PyCommon PyDict HistModel HistProofs PsiModel.
From Coq Require Import Lra.
Local Open Scope nat_scope.

(** Specification: the index of a list of pairs of shares *)
Definition gap (p : R * R) : R :=
  let (s, o) := p in
  if Req_EM_T s 0 then 0%R else if Req_EM_T o 0 then 0%R else ((o - s) * (ln o - ln s))%R.
Definition index (l : list (R * R)) : R := fold_right (fun p r => (gap p + r)%R) 0%R l.
(** the shares of the bins of two histograms at the same positions *)
Definition bin_shares (n1 n2 : Z) (a b : list Z) : list (R * R) :=
  combine (map (fun c => (IZR c / IZR n1)%R) a) (map (fun d => (IZR d / IZR n2)%R) b).

Lemma share_zero c n : (0 < n)%Z -> (IZR c / IZR n = 0)%R <-> c = 0%Z.
Proof.
  intro Hn. apply IZR_lt in Hn. split; [|intros ->; unfold Rdiv; apply Rmult_0_l]. intro H. apply eq_IZR.
  apply (Rmult_eq_compat_r (IZR n)) in H. unfold Rdiv in H. rewrite Rmult_assoc, Rinv_l, Rmult_1_r, Rmult_0_l in H by (intro HZ; rewrite HZ in Hn; lra). exact H.
Qed.
Lemma share_pos c n : (0 < n)%Z -> (0 < c)%Z -> (0 < IZR c / IZR n)%R.
Proof. intros H1 H2. apply IZR_lt in H1, H2. apply Rdiv_lt_0_compat; assumption. Qed.
Lemma ln_div x y : (0 < x)%R -> (0 < y)%R -> ln (x / y) = (ln x - ln y)%R.
Proof. intros Hx Hy. unfold Rdiv. rewrite ln_mult, ln_Rinv; [reflexivity|exact Hy|exact Hx|apply Rinv_0_lt_compat; exact Hy]. Qed.
Lemma term_gap n1 n2 c d : (0 < n1)%Z -> (0 < n2)%Z -> (0 <= c)%Z -> (0 <= d)%Z ->
  psi_term n1 n2 c d = gap ((IZR c / IZR n1)%R, (IZR d / IZR n2)%R).
Proof.
  intros H1 H2 Hc Hd. unfold psi_term, gap. destruct (Req_EM_T _ 0) as [E1|E1].
  - apply share_zero in E1; [|exact H1]. subst c. reflexivity.
  - rewrite share_zero in E1 by exact H1. destruct (Z.eqb_spec c 0) as [|_]; [contradiction|]. destruct (Req_EM_T _ 0) as [E2|E2].
    + apply share_zero in E2; [|exact H2]. subst d. reflexivity.
    + rewrite share_zero in E2 by exact H2. destruct (Z.eqb_spec d 0) as [|_]; [contradiction|]. cbn [orb]. unfold rshare. rewrite ln_div; [reflexivity| |]; apply share_pos; lia.
Qed.
Lemma gap_nonneg s o : (0 <= s)%R -> (0 <= o)%R -> (0 <= gap (s, o))%R.
Proof.
  intros Hs Ho. unfold gap. destruct (Req_EM_T s 0); [lra|]. destruct (Req_EM_T o 0); [lra|]. assert (0 < s)%R by lra. assert (0 < o)%R by lra.
  destruct (Rtotal_order s o) as [H'|[->|H']]; [| lra|].
  - pose proof (ln_increasing s o ltac:(assumption) H'). apply Rmult_le_pos; lra.
  - pose proof (ln_increasing o s ltac:(assumption) H'). replace ((o - s) * (ln o - ln s))%R with ((s - o) * (ln s - ln o))%R by lra. apply Rmult_le_pos; lra.
Qed.
Lemma gap_zero s o : (0 <= s)%R -> (0 <= o)%R -> gap (s, o) = 0%R <-> (s = 0 \/ o = 0 \/ s = o)%R.
Proof.
  intros Hs Ho. unfold gap. destruct (Req_EM_T s 0); [tauto|]. destruct (Req_EM_T o 0); [tauto|]. split.
  - intro H. apply Rmult_integral in H. right. right. destruct H as [H|H]; [lra|]. apply ln_inv; lra.
  - intros [H|[H|H]]; [contradiction..|]. subst. lra.
Qed.
Lemma gap_swap s o : gap (o, s) = gap (s, o).
Proof. unfold gap. destruct (Req_EM_T s 0), (Req_EM_T o 0); try reflexivity; lra. Qed.

Lemma index_nonneg l : Forall (fun p => 0 <= fst p /\ 0 <= snd p)%R l -> (0 <= index l)%R.
Proof. induction l as [|[s o] l IH]; intro H; cbn [index fold_right]; [lra|]. inversion H as [|? ? [H1 H2] H3]; subst. pose proof (gap_nonneg s o H1 H2). specialize (IH H3). unfold index in IH. lra. Qed.
Lemma index_zero l : Forall (fun p => 0 <= fst p /\ 0 <= snd p)%R l ->
  index l = 0%R <-> Forall (fun p => fst p = 0 \/ snd p = 0 \/ fst p = snd p)%R l.
Proof.
  induction l as [|[s o] l IH]; intro H; [split; [constructor|reflexivity]|]. inversion H as [|? ? [H1 H2] H3]; subst. cbn [fst snd] in *. specialize (IH H3). pose proof (index_nonneg l H3) as HP. pose proof (gap_nonneg s o H1 H2) as HG. change (index ((s, o) :: l)) with (gap (s, o) + index l)%R. split.
  - intro HE. constructor; [cbn; apply gap_zero; [assumption..|lra]|]. apply IH. lra.
  - intro HF. inversion HF as [|? ? F1 F2]; subst. cbn in F1. apply gap_zero in F1; [|assumption..]. apply IH in F2. lra.
Qed.
Lemma index_swap l : index (map (fun p => (snd p, fst p)) l) = index l.
Proof. induction l as [|[s o] l IH]; [reflexivity|]. cbn [map fst snd]. change (gap (o, s) + index (map (fun p => (snd p, fst p)) l) = gap (s, o) + index l)%R. rewrite gap_swap, IH. reflexivity. Qed.
Lemma index_perm l l' : Permutation l l' -> index l = index l'.
Proof. intro H. induction H; cbn [index fold_right] in *; unfold index in *; [reflexivity|lra|lra|congruence]. Qed.

Lemma loop_ok n1 n2 : (0 < n1)%Z -> (0 < n2)%Z -> forall a b, Forall (Z.le 0) a -> Forall (Z.le 0) b -> length a <= length b ->
  psi_loop n1 n2 a b = Ok (index (bin_shares n1 n2 a b)).
Proof.
  intros H1 H2. induction a as [|c a IH]; intros [|d b] HA HB HL; try reflexivity; [cbn in HL; lia|]. cbn [psi_loop]. inversion HA; inversion HB; subst. cbn in HL. rewrite IH by (assumption || lia). cbn [bind]. f_equal. rewrite term_gap by assumption. reflexivity.
Qed.
Lemma loop_err n1 n2 : forall a b, length b < length a -> psi_loop n1 n2 a b = Err IndexError.
Proof. induction a as [|c a IH]; intros [|d b] HL; cbn in *; try lia; [reflexivity|]. rewrite IH by lia. reflexivity. Qed.
Lemma shares_nonneg n1 n2 : (0 < n1)%Z -> (0 < n2)%Z -> forall a b, Forall (Z.le 0) a -> Forall (Z.le 0) b -> Forall (fun p => 0 <= fst p /\ 0 <= snd p)%R (bin_shares n1 n2 a b).
Proof.
  intros H1 H2. apply IZR_lt in H1, H2. assert (forall c n, (0 < IZR n)%R -> (0 <= c)%Z -> (0 <= IZR c / IZR n)%R) as HS. { intros c n Hn Hc. apply IZR_le in Hc. unfold Rdiv. apply Rmult_le_pos; [exact Hc|]. left. apply Rinv_0_lt_compat. exact Hn. }
  induction a as [|c a IH]; intros [|d b] HA HB; try constructor; inversion HA; inversion HB; subst; [|apply IH; assumption]. cbn. split; apply HS; assumption.
Qed.

Lemma array_equal_length a : forall b, array_equal a b = true -> length a = length b.
Proof. induction a as [|x a IH]; intros [|y b] H; try discriminate; [reflexivity|]. cbn in *. apply andb_true_iff in H. f_equal. apply IH. apply H. Qed.
Definition same_edges (h1 h2 : hist) : Prop := Forall2 Qeq (h_edges h1) (h_edges h2).
Lemma array_equal_spec h1 h2 : array_equal (h_edges h2) (h_edges h1) = true <-> same_edges h1 h2.
Proof.
  unfold same_edges. generalize (h_edges h2) as b, (h_edges h1) as a. induction b as [|y b IH]; intros [|x a]; cbn; split; intro H; try discriminate; try constructor; try (inversion H; fail).
  - apply andb_true_iff in H. apply Qeq_sym, Qeq_bool_iff, H.
  - apply andb_true_iff in H. apply IH, H.
  - inversion H; subst. apply andb_true_iff. split; [apply Qeq_bool_iff, Qeq_sym; assumption|apply IH; assumption].
Qed.

(** The outer edges of both histograms together *)
Definition lowest (h1 h2 : hist) : Q := pymin (nth 0 (h_edges h1) 0%Q) (nth 0 (h_edges h2) 0%Q).
Definition highest (h1 h2 : hist) : Q := pymax (last (h_edges h1) 0%Q) (last (h_edges h2) 0%Q).
(** [h] in ten bins from [lo] to [hi] *)
Definition ten_bins (lo hi : Q) (is_float : bool) (h h' : hist) : Prop :=
  regenerate lo hi 10 is_float h = Ok h'.

(** When there is no value, when it is 0 as all values are the same, and when the comparison fails *)
Theorem C49_defined is_float n1 h1 n2 h2 : (0 < n1)%Z -> (0 < n2)%Z ->
  (forall h, h1 = Some h \/ h2 = Some h -> wf_hist h) ->
  (psi is_float n1 h1 n2 h2 = Ok None <-> h1 = None \/ h2 = None) /\
  (forall e, psi is_float n1 h1 n2 h2 = Err e <->
     e = IndexError /\ exists a b, h1 = Some a /\ h2 = Some b /\ ~ (lowest a b == highest a b)%Q /\ same_edges a b /\ length (h_counts a) < 10) /\
  (forall v, psi is_float n1 h1 n2 h2 = Ok (Some v) -> (0 <= v)%R).
Proof.
  intros H1 H2 HW. destruct h1 as [a|]; [|cbn; split; [split; auto|split; [split; [discriminate|intros (_ & a & b & Ha & _); discriminate]|discriminate]]].
  destruct h2 as [b|]; [|cbn; split; [split; auto|split; [split; [discriminate|intros (_ & x & y & _ & Hy & _); discriminate]|discriminate]]].
  assert (wf_hist a) as WA by (apply HW; auto). assert (wf_hist b) as WB by (apply HW; auto). clear HW.
  cbn [psi]. unfold psi_prepare. fold (lowest a b). fold (highest a b). destruct (Qeq_bool (lowest a b) (highest a b)) eqn:EQ.
  { cbn [bind]. split; [split; [discriminate|intros [|]; discriminate]|]. split; [|intros v Hv; injection Hv as <-; lra]. intro e. split; [discriminate|]. intros (_ & x & y & Hx & Hy & HN & _). injection Hx as <-. injection Hy as <-. apply Qeq_bool_iff in EQ. contradiction. }
  apply Qeq_bool_neq in EQ.
  assert (exists a', (if length (h_counts a) =? psi_bins then Ok a else regenerate (lowest a b) (highest a b) psi_bins is_float a) = Ok a' /\ length (h_counts a') = 10 /\ wf_hist a') as (a' & -> & LA & WA').
  { destruct (Nat.eqb_spec (length (h_counts a)) psi_bins) as [E|_]; [exists a; auto|]. destruct (regenerate_ok (lowest a b) (highest a b) psi_bins is_float a) as (x & X1 & X2 & X3 & _); [unfold psi_bins; lia|exact WA|]. exists x. auto. }
  assert (exists b', (if array_equal (h_edges b) (h_edges a) then Ok b else regenerate (lowest a b) (highest a b) psi_bins is_float b) = Ok b' /\ wf_hist b' /\ (length (h_counts b') < 10 <-> same_edges a b /\ length (h_counts a) < 10)) as (b' & -> & WB' & LB).
  { destruct (array_equal (h_edges b) (h_edges a)) eqn:EA.
    - exists b. split; [reflexivity|]. split; [exact WB|]. pose proof (array_equal_length _ _ EA) as HL. destruct WA as [WA _]. destruct WB as [WB _]. apply array_equal_spec in EA. assert (length (h_counts a) = length (h_counts b)) as -> by lia. tauto.
    - destruct (regenerate_ok (lowest a b) (highest a b) psi_bins is_float b) as (x & X1 & X2 & X3 & _); [unfold psi_bins; lia|exact WB|]. exists x. split; [exact X1|]. split; [exact X2|]. rewrite X3. unfold psi_bins. split; [lia|]. intros [HS _]. apply array_equal_spec in HS. congruence. }
  cbn [bind]. destruct (Nat.lt_ge_cases (length (h_counts b')) 10) as [HL|HL].
  - rewrite loop_err by lia. cbn [bind]. split; [split; [discriminate|intros [|]; discriminate]|]. split; [|discriminate]. apply LB in HL. intro e. split; [|intros [-> _]; reflexivity]. intro H. injection H as <-. split; [reflexivity|]. exists a, b. tauto.
  - rewrite loop_ok by (assumption || apply WA' || apply WB' || lia). cbn [bind]. split; [split; [discriminate|intros [|]; discriminate]|]. split.
    + intro e. split; [discriminate|]. intros (_ & x & y & Hx & Hy & _ & HS). injection Hx as <-. injection Hy as <-. apply LB in HS. lia.
    + intros v Hv. injection Hv as <-. apply index_nonneg, shares_nonneg; try assumption; [apply WA'|apply WB'].
Qed.
Print Assumptions C49_defined.

(** The value: the index of the shares of bins, which are those of ten common bins if self has not exactly ten bins and the
    edges differ, and those of the given bins if self has ten bins and the edges agree *)
Theorem C49_common is_float n1 a n2 b : (0 < n1)%Z -> (0 < n2)%Z -> wf_hist a -> wf_hist b ->
  ~ (lowest a b == highest a b)%Q -> length (h_counts a) <> 10 -> ~ same_edges a b ->
  exists a' b', ten_bins (lowest a b) (highest a b) is_float a a' /\ ten_bins (lowest a b) (highest a b) is_float b b' /\ h_edges a' = h_edges b' /\
    psi is_float n1 (Some a) n2 (Some b) = Ok (Some (index (bin_shares n1 n2 (h_counts a') (h_counts b')))).
Proof.
  intros H1 H2 WA WB HN HL HS. unfold ten_bins.
  destruct (regenerate_ok (lowest a b) (highest a b) 10 is_float a) as (a' & X1 & X2 & X3 & _ & X4); [lia|exact WA|].
  destruct (regenerate_ok (lowest a b) (highest a b) 10 is_float b) as (b' & Y1 & Y2 & Y3 & _ & Y4); [lia|exact WB|].
  exists a', b'. split; [exact X1|]. split; [exact Y1|]. split; [congruence|]. cbn [psi]. unfold psi_prepare. fold (lowest a b). fold (highest a b).
  destruct (Qeq_bool (lowest a b) (highest a b)) eqn:EQ; [apply Qeq_bool_iff in EQ; contradiction|]. unfold psi_bins. destruct (Nat.eqb_spec (length (h_counts a)) 10) as [|_]; [contradiction|]. rewrite X1. cbn [bind].
  destruct (array_equal (h_edges b) (h_edges a)) eqn:EA; [apply array_equal_spec in EA; contradiction|]. rewrite Y1. cbn [bind]. rewrite loop_ok by (assumption || apply X2 || apply Y2 || lia). reflexivity.
Qed.
Theorem C49_given is_float n1 a n2 b : (0 < n1)%Z -> (0 < n2)%Z -> wf_hist a -> wf_hist b ->
  ~ (lowest a b == highest a b)%Q -> length (h_counts a) = 10 -> same_edges a b ->
  psi is_float n1 (Some a) n2 (Some b) = Ok (Some (index (bin_shares n1 n2 (h_counts a) (h_counts b)))).
Proof.
  intros H1 H2 WA WB HN HL HS. cbn [psi]. unfold psi_prepare. fold (lowest a b). fold (highest a b).
  destruct (Qeq_bool (lowest a b) (highest a b)) eqn:EQ; [apply Qeq_bool_iff in EQ; contradiction|]. unfold psi_bins. destruct (Nat.eqb_spec (length (h_counts a)) 10) as [_|]; [|contradiction]. cbn [bind].
  apply array_equal_spec in HS. rewrite HS. cbn [bind]. apply array_equal_length in HS. rewrite loop_ok; [reflexivity|assumption|assumption|apply WA|apply WB|]. destruct WA as [WA _]. destruct WB as [WB _]. lia.
Qed.
Print Assumptions C49_common.
Print Assumptions C49_given.

(** The index is 0 exactly if the shares agree wherever both are positive, and does not depend on the direction *)
Theorem C49_zero n1 n2 a b : (0 < n1)%Z -> (0 < n2)%Z -> Forall (Z.le 0) a -> Forall (Z.le 0) b ->
  index (bin_shares n1 n2 a b) = 0%R <->
  (forall i c d, nth_error a i = Some c -> nth_error b i = Some d -> (0 < c)%Z -> (0 < d)%Z -> (c * n2 = d * n1)%Z).
Proof.
  intros H1 H2 HA HB. rewrite (index_zero _ (shares_nonneg n1 n2 H1 H2 a b HA HB)).
  assert (forall c d, (0 <= c)%Z -> (0 <= d)%Z -> ((IZR c / IZR n1 = 0 \/ IZR d / IZR n2 = 0 \/ IZR c / IZR n1 = IZR d / IZR n2)%R <-> ((0 < c)%Z -> (0 < d)%Z -> (c * n2 = d * n1)%Z))) as HC.
  { intros c d Hc Hd. rewrite !share_zero by assumption. pose proof (IZR_lt _ _ H1) as R1. pose proof (IZR_lt _ _ H2) as R2. assert ((IZR c / IZR n1 = IZR d / IZR n2)%R <-> (c * n2 = d * n1)%Z) as HE.
    { split; intro H.
      - apply eq_IZR. rewrite !mult_IZR. apply (Rmult_eq_compat_r (IZR n1 * IZR n2)) in H. replace (IZR c / IZR n1 * (IZR n1 * IZR n2))%R with (IZR c * IZR n2)%R in H by (field; lra). replace (IZR d / IZR n2 * (IZR n1 * IZR n2))%R with (IZR d * IZR n1)%R in H by (field; lra). exact H.
      - apply (f_equal IZR) in H. rewrite !mult_IZR in H. apply (Rmult_eq_reg_r (IZR n1 * IZR n2)); [|apply Rmult_integral_contrapositive_currified; lra]. replace (IZR c / IZR n1 * (IZR n1 * IZR n2))%R with (IZR c * IZR n2)%R by (field; lra). replace (IZR d / IZR n2 * (IZR n1 * IZR n2))%R with (IZR d * IZR n1)%R by (field; lra). exact H. }
    rewrite HE. split; [intros [->|[->|H]] ? ?; [lia|lia|exact H]|]. intro H. destruct (Z.eq_dec c 0); [auto|]. destruct (Z.eq_dec d 0); [auto|]. right. right. apply H; lia. }
  revert b HB. induction a as [|c a IH]; intros b HB.
  - split; [intros _ i x d Hx; destruct i; discriminate|constructor].
  - inversion HA as [|? ? Hc HA']; subst. specialize (IH HA'). destruct b as [|d b]; [split; [intros _ i x y _ Hy; destruct i; discriminate|constructor]|]. inversion HB as [|? ? Hd HB']; subst. specialize (IH b HB'). cbn [bin_shares map combine]. split.
    + intro HF. inversion HF as [|? ? F1 F2]; subst. cbn [fst snd] in F1. pose proof (proj1 (HC c d Hc Hd) F1) as F3. intros [|i] x y Hx Hy; cbn in Hx, Hy; [injection Hx as <-; injection Hy as <-; exact F3|]. apply (proj1 IH F2 i); assumption.
    + intro HF. constructor; [cbn [fst snd]; apply (HC c d Hc Hd); apply (HF 0); reflexivity|]. apply IH. intros i x y Hx Hy. apply (HF (Datatypes.S i)); assumption.
Qed.
Theorem C49_symmetric n1 n2 a b : index (bin_shares n2 n1 b a) = index (bin_shares n1 n2 a b).
Proof.
  unfold bin_shares. generalize (map (fun c => (IZR c / IZR n1)%R) a) as x, (map (fun d => (IZR d / IZR n2)%R) b) as y. intros x y. rewrite <- index_swap. f_equal. revert y. induction x as [|u x IH]; intros [|w y]; cbn; try reflexivity. f_equal. apply IH.
Qed.
Print Assumptions C49_zero.
Print Assumptions C49_symmetric.

(** Twenty bins of one value each, compared with themselves *)
Definition twenty : hist := mkHist (repeat 1%Z 20) (map (fun i => inject_Z (Z.of_nat i)) (seq 0 21)).
Lemma ln_half : (ln (1 / 2) < 0)%R.
Proof. rewrite <- ln_1. apply ln_increasing; lra. Qed.
Theorem C49_identical_refuted : wf_hist twenty /\ exists v, psi true 20 (Some twenty) 20 (Some twenty) = Ok (Some v) /\ (0 < v)%R.
Proof.
  split; [split; [reflexivity|repeat constructor; lia]|].
  assert (psi_prepare true twenty twenty = Ok (Some (mkHist (repeat 2%Z 10) (linspace 0 20 10), twenty))) as HP by (vm_compute; reflexivity).
  cbn [psi]. rewrite HP. cbn [bind]. clear HP. assert (psi_term 20 20 2 1 > 0)%R as HT.
  { unfold psi_term, rshare. cbn [Z.eqb orb]. replace (1 / 20 / (2 / 20))%R with (1 / 2)%R by field. pose proof ln_half. nra. }
  cbn [h_counts twenty repeat psi_loop bind]. eexists. split; [reflexivity|]. lra.
Qed.
(** Five bins, as chosen with the histogram options, compared with themselves *)
Theorem C49_index_refuted : exists h, wf_hist h /\ h_counts h = [3; 1; 4; 1; 5]%Z /\ psi true 14 (Some h) 14 (Some h) = Err IndexError.
Proof. exists (mkHist [3; 1; 4; 1; 5]%Z [0; 1; 2; 3; 4; 5]%Q). split; [split; [reflexivity|repeat constructor; lia]|]. split; reflexivity. Qed.
(** Ten bins from 0 to 10 compared with the same numbers in twenty bins: two bins of the other from 0 to 20 have the same
    counts as those of self, and the index is 0, though the other column has numbers twice as large *)
Theorem C49_ranges_refuted : exists h1 h2, wf_hist h1 /\ wf_hist h2 /\ last (h_edges h1) 0%Q = 10%Q /\ last (h_edges h2) 0%Q = 20%Q /\
  h_counts h1 = [10; 1; 1; 1; 1; 1; 1; 1; 1; 2]%Z /\ h_counts h2 = [10; 1; 1; 1; 1; 1; 1; 1; 1; 2]%Z /\
  psi true 20 (Some h1) 20 (Some h2) = Ok (Some 0%R).
Proof.
  exists (mkHist [10; 1; 1; 1; 1; 1; 1; 1; 1; 2]%Z [0; 1; 2; 3; 4; 5; 6; 7; 8; 9; 10]%Q), (mkHist [10; 1; 1; 1; 1; 1; 1; 1; 1; 2]%Z [0; 2; 4; 6; 8; 10; 12; 14; 16; 18; 20]%Q).
  split; [split; [reflexivity|repeat constructor; lia]|]. split; [split; [reflexivity|repeat constructor; lia]|]. do 4 (split; [reflexivity|]).
  cbn [psi]. match goal with |- bind ?x _ = _ => let y := eval vm_compute in x in replace x with y by (vm_compute; reflexivity) end. cbn [bind h_counts].
  rewrite loop_ok; [|lia|lia|repeat constructor; lia|repeat constructor; lia|reflexivity]. cbn [bind]. do 2 f_equal. apply C49_zero; [lia|lia|repeat constructor; lia|repeat constructor; lia|].
  intros i c d Hc Hd _ _. rewrite Hc in Hd. injection Hd as <-. reflexivity.
Qed.
(** Columns without a number in common *)
Theorem C49_disjoint_refuted : exists h1 h2, wf_hist h1 /\ wf_hist h2 /\ last (h_edges h1) 0%Q = 1%Q /\ nth 0 (h_edges h2) 0%Q = 9%Q /\
  psi true 20 (Some h1) 20 (Some h2) = Ok (Some 0%R).
Proof.
  exists (mkHist [10; 10]%Z [0; 1 # 2; 1]%Q), (mkHist [10; 10]%Z [9; 19 # 2; 10]%Q).
  split; [split; [reflexivity|repeat constructor; lia]|]. split; [split; [reflexivity|repeat constructor; lia]|]. do 2 (split; [reflexivity|]).
  cbn [psi]. match goal with |- bind ?x _ = _ => let y := eval vm_compute in x in replace x with y by (vm_compute; reflexivity) end. cbn [bind h_counts].
  rewrite loop_ok; [|lia|lia|repeat constructor; lia|repeat constructor; lia|reflexivity]. cbn [bind]. do 2 f_equal. apply C49_zero; [lia|lia|repeat constructor; lia|repeat constructor; lia|].
  intros i c d Hc Hd H1 H2. repeat (destruct i as [|i]; [cbn in Hc, Hd; injection Hc as <-; injection Hd as <-; lia|]). destruct i; discriminate.
Qed.
Print Assumptions C49_identical_refuted.
Print Assumptions C49_index_refuted.
Print Assumptions C49_ranges_refuted.
Print Assumptions C49_disjoint_refuted.

(** Numbers from 0 to 20 and from 10 to 20 *)
Example C49_example : exists v, psi true 20 (Some twenty) 10 (Some (mkHist [5; 5]%Z [10; 15; 20]%Q)) = Ok (Some v) /\ (0 < v)%R.
Proof.
  cbn [psi]. match goal with |- context [psi_prepare ?f ?x ?y] => let z := eval vm_compute in (psi_prepare f x y) in replace (psi_prepare f x y) with z by (vm_compute; reflexivity) end. cbn [bind h_counts].
  rewrite loop_ok; [|lia|lia|repeat constructor; lia|repeat constructor; lia|reflexivity]. cbn [bind]. eexists. split; [reflexivity|].
  match goal with |- (0 < index ?l)%R => assert (0 <= index l)%R as H0 by (apply index_nonneg, shares_nonneg; [lia|lia|repeat constructor; lia|repeat constructor; lia]); assert (index l <> 0)%R as H1 end; [|lra].
  rewrite C49_zero by (lia || (repeat constructor; lia)). intro H. specialize (H 6 _ _ eq_refl eq_refl). cbn in H. lia.
Qed.

(** ** Categories *)
Section Categories.
  Context {K : Type} {E : EqDecB K}.
  Variable order : list K -> list K.
  Variable by_count : dict K Z -> dict K Z.
  Hypothesis order_perm : forall l, Permutation (order l) l.
  Hypothesis count_perm : forall d, Permutation (by_count d) d.

  (** the number of values of a category *)
  Definition number (d : dict K Z) (k : K) : Z := match dget d k with Some c => c | None => 0%Z end.
  Definition cat_shares (n1 : Z) (c1 : dict K Z) (n2 : Z) (c2 : dict K Z) : list (R * R) :=
    map (fun k => ((IZR (number c1 k) / IZR n1)%R, (IZR (number c2 k) / IZR n2)%R)) (distinct (dkeys c1 ++ dkeys c2)).
  Definition counts_ok (d : dict K Z) : Prop := NoDup (dkeys d) /\ forall k c, In (k, c) d -> (0 <= c)%Z.

  Lemma perm_keys d : Permutation (dkeys (by_count d)) (dkeys d).
  Proof. apply Permutation_map, count_perm. Qed.
  Lemma perm_get d k : NoDup (dkeys d) -> dget (by_count d) k = dget d k.
  Proof.
    intro HN. assert (NoDup (dkeys (by_count d))) as HN' by (apply (Permutation_NoDup (Permutation_sym (perm_keys d))); exact HN).
    destruct (dget d k) as [c|] eqn:EG.
    - apply dget_In; [exact HN'|]. apply (Permutation_in _ (Permutation_sym (count_perm d))). apply dget_Some_In. exact EG.
    - apply dget_None. apply dget_None in EG. intro H. apply EG. apply (Permutation_in _ (perm_keys d)). exact H.
  Qed.
  Lemma fill_get : forall keys d k, dget (fill keys d) k = match dget d k with Some c => Some c | None => if lmem keys k then Some 0%Z else None end.
  Proof.
    induction keys as [|x keys IH]; intros d k; unfold fill in *; cbn [fold_left].
    - destruct (dget d k); reflexivity.
    - rewrite IH. unfold lmem. cbn [existsb].
      destruct (dget d x) as [c|] eqn:EG; rewrite dget_dset; destruct (PyDict.eqb_spec x k) as [->|Hn].
      + rewrite EG. reflexivity.
      + destruct (dget d k); [reflexivity|]. destruct (PyDict.eqb_spec k x) as [->|_]; [contradiction|reflexivity].
      + rewrite EG. destruct (PyDict.eqb_spec k k) as [_|]; [reflexivity|contradiction].
      + destruct (dget d k); [reflexivity|]. destruct (PyDict.eqb_spec k x) as [->|_]; [contradiction|reflexivity].
  Qed.
  Lemma fill_NoDup : forall keys d, NoDup (dkeys d) -> NoDup (dkeys (fill keys d)).
  Proof. induction keys as [|x keys IH]; intros d HN; [exact HN|]. unfold fill. cbn [fold_left]. apply IH. destruct (dget d x); apply NoDup_dset; exact HN. Qed.
  Lemma fill_keys keys d : NoDup (dkeys d) -> NoDup keys -> (forall k, In k (dkeys d) -> In k keys) -> Permutation (dkeys (fill keys d)) keys.
  Proof.
    intros HN HK HI. apply NoDup_Permutation; [apply fill_NoDup; exact HN|exact HK|]. intro k. rewrite <- (dmem_true (fill keys d) k). unfold dmem. rewrite fill_get. split.
    - destruct (dget d k) eqn:EG; [intros _; apply HI; apply dget_Some_In in EG; apply (in_map fst) in EG; exact EG|]. destruct (lmem keys k) eqn:EM; [intros _; apply lmem_In; exact EM|discriminate].
    - intro H. destruct (dget d k); [reflexivity|]. apply lmem_In in H. rewrite H. reflexivity.
  Qed.
  Lemma cat_loop_ok n1 n2 c1 c2 : (0 < n1)%Z -> (0 < n2)%Z -> (forall k, (0 <= number c1 k)%Z) -> (forall k, (0 <= number c2 k)%Z) -> forall a b ks t, (forall k, In k ks -> dget a k = Some (number c1 k) /\ dget b k = Some (number c2 k)) ->
    cat_loop n1 n2 ks a b t = Ok (t + index (map (fun k => ((IZR (number c1 k) / IZR n1)%R, (IZR (number c2 k) / IZR n2)%R)) ks))%R.
  Proof.
    intros H1 H2 P1 P2 a b. induction ks as [|k ks IH]; intros t HK; cbn [cat_loop map]; [cbn; f_equal; lra|]. destruct (HK k (or_introl eq_refl)) as [-> ->].
    destruct (Z.eqb_spec n1 0); [lia|]. destruct (Z.eqb_spec n2 0); [lia|]. cbn [orb]. rewrite IH by (intros; apply HK; right; assumption). f_equal. rewrite term_gap by auto. unfold index. cbn [fold_right]. lra.
  Qed.
  Lemma number_nonneg d : counts_ok d -> forall k, (0 <= number d k)%Z.
  Proof. intros [_ H] k. unfold number. destruct (dget d k) as [c|] eqn:EG; [|lia]. apply dget_Some_In in EG. apply (H k). exact EG. Qed.

  (** The value is the index of the shares of all categories *)
  Theorem C49_categories n1 c1 n2 c2 : (0 < n1)%Z -> (0 < n2)%Z -> counts_ok c1 -> counts_ok c2 ->
    cat_psi order by_count n1 c1 n2 c2 = Ok (match c1 ++ c2 with [] => None | _ => Some (index (cat_shares n1 c1 n2 c2)) end) /\
    (0 <= index (cat_shares n1 c1 n2 c2))%R /\
    index (cat_shares n2 c2 n1 c1) = index (cat_shares n1 c1 n2 c2) /\
    (index (cat_shares n1 c1 n2 c2) = 0%R <-> forall k, (0 < number c1 k)%Z -> (0 < number c2 k)%Z -> (number c1 k * n2 = number c2 k * n1)%Z).
  Proof.
    intros H1 H2 C1 C2. set (ks := distinct (dkeys c1 ++ dkeys c2)). pose proof (number_nonneg c1 C1) as P1. pose proof (number_nonneg c2 C2) as P2. pose proof (proj1 C1) as N1. pose proof (proj1 C2) as N2.
    set (sh := fun k => ((IZR (number c1 k) / IZR n1)%R, (IZR (number c2 k) / IZR n2)%R)).
    assert (forall k, In k (order ks) <-> In k (dkeys c1) \/ In k (dkeys c2)) as HO. { intro k. rewrite <- in_app_iff. transitivity (In k ks); [|apply distinct_In]. split; apply Permutation_in; [|apply Permutation_sym]; apply order_perm. }
    assert (Forall (fun p => 0 <= fst p /\ 0 <= snd p)%R (map sh ks)) as HNN.
    { apply Forall_map, Forall_forall. intros k _. unfold sh. cbn [fst snd]. apply IZR_lt in H1, H2. specialize (P1 k). specialize (P2 k). apply IZR_le in P1, P2. split; unfold Rdiv; (apply Rmult_le_pos; [assumption|left; apply Rinv_0_lt_compat; assumption]). }
    split; [|split; [apply index_nonneg; exact HNN|split]].
    - unfold cat_psi. fold ks. set (a := fill (order ks) (by_count c1)). set (b := fill (order ks) (by_count c2)).
      assert (NoDup (order ks)) as HNO by (apply (Permutation_NoDup (Permutation_sym (order_perm ks))), distinct_NoDup).
      assert (Permutation (dkeys a) (order ks)) as HPA. { apply fill_keys; [apply (Permutation_NoDup (Permutation_sym (perm_keys c1))); exact N1|exact HNO|]. intros k Hk. apply HO. left. apply (Permutation_in _ (perm_keys c1)). exact Hk. }
      assert (forall c d k, (c = a /\ d = c1) \/ (c = b /\ d = c2) -> In k (order ks) -> dget c k = Some (number d k)) as HG.
      { intros c d k [[-> ->]|[-> ->]] Hk; unfold a, b; rewrite fill_get, perm_get by assumption; apply lmem_In in Hk; rewrite Hk; unfold number; match goal with |- match ?x with _ => _ end = _ => destruct x; reflexivity end. }
      rewrite (cat_loop_ok n1 n2 c1 c2 H1 H2 P1 P2); [|intros k Hk; apply (Permutation_in _ HPA) in Hk; split; apply HG; auto]. cbn [bind]. f_equal.
      rewrite (index_perm _ (map sh ks)) by (apply Permutation_map; rewrite HPA; apply order_perm). rewrite Rplus_0_l.
      destruct a as [|x a'] eqn:EA.
      + cbn [dkeys map] in HPA. apply Permutation_nil in HPA. destruct c1 as [|[k c] c1']; [destruct c2 as [|[k c] c2']; [reflexivity|]|]; exfalso; assert (In k (order ks)) as HI by (apply HO; cbn; auto); rewrite HPA in HI; destruct HI.
      + destruct (c1 ++ c2) eqn:EC; [|reflexivity]. apply app_eq_nil in EC. destruct EC as [-> ->]. exfalso. assert (In (fst x) (order ks)) as HI by (apply (Permutation_in _ HPA); left; reflexivity). apply HO in HI. cbn in HI. tauto.
    - transitivity (index (map (fun p => (snd p, fst p)) (cat_shares n1 c1 n2 c2))); [|apply index_swap]. apply index_perm. unfold cat_shares. rewrite map_map. cbn [fst snd]. apply Permutation_map. apply NoDup_Permutation; [apply distinct_NoDup..|]. intro k. rewrite !distinct_In, !in_app_iff. tauto.
    - change (cat_shares n1 c1 n2 c2) with (map sh ks). rewrite (index_zero _ HNN). rewrite Forall_map, Forall_forall. split.
      + intros HF k Hc Hd. assert (In k ks) as Hk. { unfold ks. apply distinct_In, in_app_iff. left. unfold number in Hc. destruct (dget c1 k) eqn:EG; [|lia]. apply dget_Some_In in EG. apply (in_map fst) in EG. exact EG. }
        specialize (HF k Hk). unfold sh in HF. cbn [fst snd] in HF. rewrite !share_zero in HF by assumption. destruct HF as [HF|[HF|HF]]; [lia|lia|]. apply IZR_lt in H1, H2. apply eq_IZR. rewrite !mult_IZR. apply (Rmult_eq_compat_r (IZR n1 * IZR n2)) in HF.
        replace (IZR (number c1 k) / IZR n1 * (IZR n1 * IZR n2))%R with (IZR (number c1 k) * IZR n2)%R in HF by (field; lra). replace (IZR (number c2 k) / IZR n2 * (IZR n1 * IZR n2))%R with (IZR (number c2 k) * IZR n1)%R in HF by (field; lra). exact HF.
      + intros HF k Hk. unfold sh. cbn [fst snd]. rewrite !share_zero by assumption. specialize (HF k). destruct (Z.eq_dec (number c1 k) 0); [auto|]. destruct (Z.eq_dec (number c2 k) 0); [auto|]. right. right. specialize (P1 k). specialize (P2 k). specialize (HF ltac:(lia) ltac:(lia)). apply IZR_lt in H1, H2. apply (f_equal IZR) in HF. rewrite !mult_IZR in HF.
        apply (Rmult_eq_reg_r (IZR n1 * IZR n2)); [|apply Rmult_integral_contrapositive_currified; lra]. replace (IZR (number c1 k) / IZR n1 * (IZR n1 * IZR n2))%R with (IZR (number c1 k) * IZR n2)%R by (field; lra). replace (IZR (number c2 k) / IZR n2 * (IZR n1 * IZR n2))%R with (IZR (number c2 k) * IZR n1)%R by (field; lra). exact HF.
  Qed.
End Categories.
Print Assumptions C49_categories.

(** Columns without a category in common; a column of nulls only *)
Theorem C49_categories_refuted : cat_psi (fun l => l) (fun d => d) 4 [(1, 4%Z)] 4 [(2, 4%Z)] = Ok (Some 0%R).
Proof. unfold cat_psi. cbn. unfold psi_term. cbn. do 2 f_equal. lra. Qed.
Theorem C49_empty_refuted : cat_psi (fun l => l) (fun d => d) 4 [(1, 3%Z); (2, 1%Z)] 0 [] = Err ZeroDivisionError.
Proof. reflexivity. Qed.
Print Assumptions C49_categories_refuted.
Print Assumptions C49_empty_refuted.
Example C49_categories_example : exists v, cat_psi (fun l => l) (fun d => d) 4 [(1, 3%Z); (2, 1%Z)] 2 [(2, 1%Z); (3, 1%Z)] = Ok (Some v) /\ (0 < v)%R.
Proof.
  assert (counts_ok [(1, 3%Z); (2, 1%Z)]) as C1 by (split; [repeat constructor; cbn; intuition congruence|intros k c [H|[H|[]]]; injection H as <- <-; lia]).
  assert (counts_ok [(2, 1%Z); (3, 1%Z)]) as C2 by (split; [repeat constructor; cbn; intuition congruence|intros k c [H|[H|[]]]; injection H as <- <-; lia]).
  destruct (C49_categories (fun l => l) (fun d => d) (fun l => Permutation_refl l) (fun d => Permutation_refl d) 4 [(1, 3%Z); (2, 1%Z)] 2 [(2, 1%Z); (3, 1%Z)] ltac:(lia) ltac:(lia) C1 C2) as (-> & HP & _ & HZ).
  cbn [app]. eexists. split; [reflexivity|]. match type of HP with (0 <= ?x)%R => assert (x <> 0)%R end; [|lra]. rewrite HZ. intro H. specialize (H 2). cbn in H. lia.
Qed.
