(** Property C73: the chi-squared test for homogeneity of categories and the matrix of its p-values. *)
From Coq Require Import ZArith QArith Permutation.
From Verif Require Import QFacts ListFacts PyCommon PyDict CategoricalModel CategoricalProofs ChiModel.
From Coq Require Import Lqa.
Local Open Scope nat_scope.

Section Test.
  Context {K : Type} {E : EqDecB K}.
  Variable cdf : nat -> Q -> Q.

  (** Specification: how often a category occurs; all categories; the statistic in closed form, for which the expected
      numbers are not needed *)
  Definition times (d : dict K nat) (k : K) : nat := match dget d k with Some c => c | None => 0 end.
  Definition all_categories (c1 c2 : dict K nat) : list K := distinct (dkeys c1 ++ dkeys c2).
  Definition heterogeneity (c1 : dict K nat) (n1 : nat) (c2 : dict K nat) (n2 : nat) : Q :=
    qsum (map (fun k =>
      let x := Qn (times c1 k) in let y := Qn (times c2 k) in
      ((x * Qn n2 - y * Qn n1) * (x * Qn n2 - y * Qn n1) / (Qn n1 * Qn n2 * (x + y)))%Q) (all_categories c1 c2)).

  Lemma Qsquare_nonneg (d : Q) : (0 <= d * d)%Q.
  Proof. nra. Qed.
  Lemma qsum_perm l l' : Permutation l l' -> (qsum l == qsum l')%Q.
  Proof. intro H. induction H; rewrite ?qsum_cons; [reflexivity|lra|lra|lra]. Qed.
  Lemma qsum_map_eq {A} (f g : A -> Q) l : (forall x, In x l -> (f x == g x)%Q) -> (qsum (map f l) == qsum (map g l))%Q.
  Proof. induction l as [|x l IH]; intro H; [reflexivity|]. cbn [map]. rewrite !qsum_cons, IH by (intros; apply H; right; assumption). rewrite (H x (or_introl eq_refl)). reflexivity. Qed.

  Section Two.
    Variables c1 c2 : dict K nat.
    Hypothesis N1 : NoDup (dkeys c1).
    Hypothesis N2 : NoDup (dkeys c2).
    Let counts := add_nested_dictionaries c1 c2.
    Lemma counts_get k : dget counts k = if lmem (all_categories c1 c2) k then Some (times c1 k + times c2 k) else None.
    Proof.
      unfold counts. rewrite add_nested_get by assumption. unfold times. destruct (lmem (all_categories c1 c2) k) eqn:EM.
      - apply lmem_In in EM. unfold all_categories in EM. apply distinct_In, in_app_iff in EM. destruct (dget c1 k) as [a|] eqn:EA, (dget c2 k) as [b|] eqn:EB; f_equal; try lia. apply dget_None in EA, EB. tauto.
      - apply lmem_false in EM. assert (forall c : dict K nat, (c = c1 \/ c = c2) -> dget c k = None) as HN.
        { intros c Hc. apply dget_None. intro Hi. apply EM. unfold all_categories. apply distinct_In, in_app_iff. destruct Hc as [->| ->]; auto. }
        rewrite (HN c1), (HN c2) by auto. reflexivity.
    Qed.
    Lemma counts_keys : Permutation (dkeys counts) (all_categories c1 c2).
    Proof.
      apply NoDup_Permutation; [apply add_nested_NoDup|apply distinct_NoDup|]. intro k. rewrite <- dmem_true. unfold dmem. rewrite counts_get. rewrite <- lmem_In. destruct (lmem (all_categories c1 c2) k); split; auto; discriminate.
    Qed.
    Lemma counts_length : length counts = length (all_categories c1 c2).
    Proof. rewrite <- (Permutation_length counts_keys). unfold dkeys. rewrite map_length. reflexivity. Qed.
    Lemma counts_entries : counts = map (fun k => (k, times c1 k + times c2 k)) (dkeys counts).
    Proof.
      unfold dkeys. rewrite map_map. rewrite <- (map_id counts) at 1. apply map_ext_in. intros [k v] Hi. cbn [fst]. f_equal.
      pose proof (dget_In counts k v (add_nested_NoDup c1 c2) Hi) as HG. rewrite counts_get in HG. destruct (lmem _ k); congruence.
    Qed.
    Lemma zero_counts : existsb (fun kv => snd kv =? 0) counts = true <-> exists k, In k (all_categories c1 c2) /\ times c1 k = 0 /\ times c2 k = 0.
    Proof.
      rewrite existsb_exists. rewrite counts_entries. split.
      - intros ([k v] & Hi & Hv). apply in_map_iff in Hi. destruct Hi as (k' & Hk & Hi). injection Hk as <- <-. cbn [snd] in Hv. apply Nat.eqb_eq in Hv. exists k'. split; [apply (Permutation_in _ counts_keys); exact Hi|lia].
      - intros (k & Hk & H1 & H2). exists (k, times c1 k + times c2 k). split; [apply in_map_iff; exists k; split; [reflexivity|apply (Permutation_in _ (Permutation_sym counts_keys)); exact Hk]|]. cbn [snd]. apply Nat.eqb_eq. lia.
    Qed.
    Variables n1 n2 : nat.
    Let term (kv : K * nat) : Q :=
      ((Qn (cget c1 (fst kv)) - Qn n1 * Qn (snd kv) / Qn (n1 + n2)) * (Qn (cget c1 (fst kv)) - Qn n1 * Qn (snd kv) / Qn (n1 + n2)) / (Qn n1 * Qn (snd kv) / Qn (n1 + n2)) +
       (Qn (cget c2 (fst kv)) - Qn n2 * Qn (snd kv) / Qn (n1 + n2)) * (Qn (cget c2 (fst kv)) - Qn n2 * Qn (snd kv) / Qn (n1 + n2)) / (Qn n2 * Qn (snd kv) / Qn (n1 + n2)))%Q.
    Lemma fold_steps l : forall acc, (fold_left (chi_step c1 n1 c2 n2) l acc == acc + qsum (map term l))%Q.
    Proof. induction l as [|kv l IH]; intro acc; cbn [fold_left map]; [change (qsum []) with 0%Q; lra|]. rewrite IH, qsum_cons. unfold chi_step, term. lra. Qed.
    Lemma statistic : 0 < n1 -> 0 < n2 -> (forall k, In k (all_categories c1 c2) -> 0 < times c1 k + times c2 k) ->
      (fold_left (chi_step c1 n1 c2 n2) counts 0 == heterogeneity c1 n1 c2 n2)%Q.
    Proof.
      intros P1 P2 PC. rewrite fold_steps. rewrite counts_entries, map_map. unfold heterogeneity. rewrite <- (qsum_perm _ _ (Permutation_map (fun k => _) counts_keys)). rewrite Qplus_0_l.
      apply qsum_map_eq. intros k Hk. apply (Permutation_in _ counts_keys) in Hk. specialize (PC k Hk). unfold term. cbn [fst snd]. change (cget c1 k) with (times c1 k). change (cget c2 k) with (times c2 k). cbv zeta.
      assert (~ Qn n1 == 0)%Q by (apply Qn_neq; exact P1). assert (~ Qn n2 == 0)%Q by (apply Qn_neq; exact P2). assert (~ Qn (n1 + n2) == 0)%Q as HT by (apply Qn_neq; lia). assert (~ Qn (times c1 k + times c2 k) == 0)%Q as HC by (apply Qn_neq; exact PC).
      rewrite Qn_plus in HT. rewrite Qn_plus in HC. rewrite !Qn_plus. field. repeat split; assumption.
    Qed.
  End Two.

  Lemma het_nonneg c1 n1 c2 n2 : (0 <= heterogeneity c1 n1 c2 n2)%Q.
  Proof.
    unfold heterogeneity. induction (all_categories c1 c2) as [|k ks IH]; [cbn; lra|]. cbn [map]. rewrite qsum_cons. cbv zeta in *.
    set (d := (Qn (times c1 k) * Qn n2 - Qn (times c2 k) * Qn n1)%Q). set (w := (Qn n1 * Qn n2 * (Qn (times c1 k) + Qn (times c2 k)))%Q).
    assert (0 <= d * d / w)%Q as HD.
    { unfold Qdiv. apply Qmult_le_0_compat; [apply Qsquare_nonneg|]. apply Qinv_le_0_compat. unfold w. pose proof (Qn_nonneg n1). pose proof (Qn_nonneg n2). pose proof (Qn_nonneg (times c1 k)). pose proof (Qn_nonneg (times c2 k)). apply Qmult_le_0_compat; [apply Qmult_le_0_compat; assumption|lra]. }
    lra.
  Qed.

  (** The test of two columns: no result for a single category; an infinite statistic if a column has no values (or a category
      none); otherwise the heterogeneity, which is not negative *)
  Theorem C73_test c1 n1 c2 n2 : NoDup (dkeys c1) -> NoDup (dkeys c2) ->
    let cats := all_categories c1 c2 in
    let t := chi_test cdf c1 n1 c2 n2 in
    (length cats <= 1 -> t = mkChi None None None) /\
    (1 < length cats -> chi_deg t = Some (length cats - 1) /\
      ((n1 = 0 \/ n2 = 0 \/ exists k, In k cats /\ times c1 k = 0 /\ times c2 k = 0) -> chi_stat t = Some Infinite /\ chi_p t = Some 0%Q) /\
      (~ (n1 = 0 \/ n2 = 0 \/ exists k, In k cats /\ times c1 k = 0 /\ times c2 k = 0) ->
         exists s, chi_stat t = Some (Finite s) /\ (s == heterogeneity c1 n1 c2 n2)%Q /\ (0 <= s)%Q /\ chi_p t = Some (1 - cdf (length cats - 1) s)%Q)).
  Proof.
    intros N1 N2 cats t. unfold t, chi_test. rewrite (counts_length c1 c2 N1 N2). fold cats. destruct (Nat.leb_spec (length cats) 1) as [HL|HL]; [split; [reflexivity|intro; lia]|]. split; [intro; lia|]. intros _.
    pose proof (zero_counts c1 c2 N1 N2) as HZ. fold cats in HZ. destruct (existsb (fun kv => snd kv =? 0) (add_nested_dictionaries c1 c2)) eqn:EZ.
    - rewrite orb_true_r. cbn. split; [reflexivity|]. split; [auto|]. intro H. exfalso. apply H. right. right. apply HZ. reflexivity.
    - destruct (Nat.eqb_spec n1 0) as [->|H1]; [cbn; split; [reflexivity|]; split; [auto|]; intro H; exfalso; apply H; left; reflexivity|].
      destruct (Nat.eqb_spec n2 0) as [->|H2]; [cbn; split; [reflexivity|]; split; [auto|]; intro H; exfalso; apply H; right; left; reflexivity|]. cbn [orb chi_deg chi_stat chi_p].
      split; [reflexivity|]. split; [intros [H|[H|H]]; [lia|lia|apply HZ in H; discriminate]|]. intro H.
      assert (fold_left (chi_step c1 n1 c2 n2) (add_nested_dictionaries c1 c2) 0 == heterogeneity c1 n1 c2 n2)%Q as HS.
      { apply statistic; [assumption|assumption|lia|lia|]. intros k Hk. destruct (Nat.eq_dec (times c1 k + times c2 k) 0); [|lia]. exfalso. apply H. right. right. exists k. fold cats in Hk. split; [exact Hk|lia]. }
      eexists. split; [reflexivity|]. split; [exact HS|]. split; [rewrite HS; apply het_nonneg|reflexivity].
  Qed.

  (** The statistic is 0 exactly if each category has the same share of both columns *)
  Theorem C73_homogeneous c1 n1 c2 n2 : 0 < n1 -> 0 < n2 ->
    (heterogeneity c1 n1 c2 n2 == 0)%Q <-> (forall k, times c1 k * n2 = times c2 k * n1).
  Proof.
    intros P1 P2. unfold heterogeneity.
    assert (forall k, let x := Qn (times c1 k) in let y := Qn (times c2 k) in let q := ((x * Qn n2 - y * Qn n1) * (x * Qn n2 - y * Qn n1) / (Qn n1 * Qn n2 * (x + y)))%Q in (0 <= q)%Q /\ ((q == 0)%Q <-> times c1 k * n2 = times c2 k * n1)) as HQ.
    { intros k x y q. pose proof (Qn_pos n1 P1) as Q1. pose proof (Qn_pos n2 P2) as Q2. pose proof (Qn_nonneg (times c1 k)) as X. pose proof (Qn_nonneg (times c2 k)) as Y. fold x in X. fold y in Y.
      assert (0 < Qn n1 * Qn n2)%Q as Q12 by (apply Qmult_lt_0_compat; assumption).
      assert (0 <= Qn n1 * Qn n2 * (x + y))%Q as HW by (apply Qmult_le_0_compat; lra).
      split; [unfold q, Qdiv; apply Qmult_le_0_compat; [apply Qsquare_nonneg|apply Qinv_le_0_compat; exact HW]|].
      rewrite <- Qn_inj, !Qn_mult. fold x. fold y. split.
      - intro H. destruct (Qeq_dec (x + y) 0) as [HXY|HXY]; [assert (x == 0)%Q as -> by lra; assert (y == 0)%Q as -> by lra; lra|].
        unfold q, Qdiv in H. apply Qmult_integral in H. destruct H as [H|H].
        + apply Qmult_integral in H. destruct H; lra.
        + exfalso. assert (~ Qn n1 * Qn n2 * (x + y) == 0)%Q as HN. { intro HH. apply Qmult_integral in HH. destruct HH; [lra|contradiction]. } pose proof (Qmult_inv_r _ HN) as HI. rewrite H in HI. lra.
      - intro H. unfold q. assert (x * Qn n2 - y * Qn n1 == 0)%Q as -> by lra. unfold Qdiv. lra. }
    split.
    - intro HS. assert (forall k, In k (all_categories c1 c2) -> times c1 k * n2 = times c2 k * n1) as HI.
      { revert HS. induction (all_categories c1 c2) as [|k ks IH]; intros HS k' Hk; [destruct Hk|]. cbn [map] in HS. rewrite qsum_cons in HS.
        assert (0 <= qsum (map (fun k => let x := Qn (times c1 k) in let y := Qn (times c2 k) in ((x * Qn n2 - y * Qn n1) * (x * Qn n2 - y * Qn n1) / (Qn n1 * Qn n2 * (x + y)))%Q) ks))%Q as HR. { clear -HQ. induction ks as [|k ks IH]; [cbn; lra|]. cbn [map]. rewrite qsum_cons. pose proof (proj1 (HQ k)). cbv zeta in *. lra. }
        destruct (HQ k) as [Hk1 Hk2]. cbv zeta in *. destruct Hk as [<-|Hk]; [apply Hk2; lra|]. apply IH; [lra|exact Hk]. }
      intro k. destruct (in_dec (fun a b => match PyDict.eqb_spec a b with ReflectT _ p => left p | ReflectF _ p => right p end) k (all_categories c1 c2)) as [Hi|Hn]; [apply HI; exact Hi|].
      unfold times. assert (dget c1 k = None) as -> by (apply dget_None; intro; apply Hn; unfold all_categories; apply distinct_In, in_app_iff; auto). assert (dget c2 k = None) as -> by (apply dget_None; intro; apply Hn; unfold all_categories; apply distinct_In, in_app_iff; auto). reflexivity.
    - intro H. induction (all_categories c1 c2) as [|k ks IH]; [reflexivity|]. cbn [map]. rewrite qsum_cons, IH. cbv zeta. destruct (HQ k) as [_ Hk]. cbv zeta in Hk. rewrite (proj2 Hk (H k)). reflexivity.
  Qed.

  (** The order of the columns does not matter *)
  Definition same_stat (a b : option stat) : Prop :=
    match a, b with
    | None, None => True
    | Some Infinite, Some Infinite => True
    | Some (Finite x), Some (Finite y) => (x == y)%Q
    | _, _ => False
    end.
  Definition same_p (a b : option Q) : Prop :=
    match a, b with None, None => True | Some x, Some y => (x == y)%Q | _, _ => False end.
  Hypothesis cdf_eq : forall d x y, (x == y)%Q -> (cdf d x == cdf d y)%Q.
  Theorem C73_symmetric c1 n1 c2 n2 : NoDup (dkeys c1) -> NoDup (dkeys c2) ->
    let t := chi_test cdf c1 n1 c2 n2 in let u := chi_test cdf c2 n2 c1 n1 in
    same_stat (chi_stat t) (chi_stat u) /\ chi_deg t = chi_deg u /\ same_p (chi_p t) (chi_p u).
  Proof.
    intros N1 N2 t u. assert (Permutation (all_categories c1 c2) (all_categories c2 c1)) as HP. { apply NoDup_Permutation; [apply distinct_NoDup..|]. intro k. unfold all_categories. rewrite !distinct_In, !in_app_iff. tauto. }
    destruct (C73_test c1 n1 c2 n2 N1 N2) as [A1 A2]. destruct (C73_test c2 n2 c1 n1 N2 N1) as [B1 B2]. cbv zeta in *. fold t in A1, A2. fold u in B1, B2. pose proof (Permutation_length HP) as HL. rewrite HL in A1, A2.
    destruct (Nat.le_gt_cases (length (all_categories c2 c1)) 1) as [HC|HC]; [rewrite (A1 HC), (B1 HC); cbn; auto|]. destruct (A2 HC) as (D1 & I1 & F1). destruct (B2 HC) as (D2 & I2 & F2).
    assert ((n1 = 0 \/ n2 = 0 \/ (exists k, In k (all_categories c1 c2) /\ times c1 k = 0 /\ times c2 k = 0)) <-> (n2 = 0 \/ n1 = 0 \/ (exists k, In k (all_categories c2 c1) /\ times c2 k = 0 /\ times c1 k = 0))) as HE.
    { split; (intros [H|[H|(k & H1 & H2 & H3)]]; [auto|auto|right; right; exists k; split; [|auto]]); [apply (Permutation_in _ HP)|apply (Permutation_in _ (Permutation_sym HP))]; exact H1. }
    assert ((n1 = 0 \/ n2 = 0 \/ (exists k, In k (all_categories c1 c2) /\ times c1 k = 0 /\ times c2 k = 0)) \/ ~ (n1 = 0 \/ n2 = 0 \/ (exists k, In k (all_categories c1 c2) /\ times c1 k = 0 /\ times c2 k = 0))) as [HD|HD].
    { rewrite <- (zero_counts c1 c2 N1 N2). destruct (existsb (fun kv => snd kv =? 0) (add_nested_dictionaries c1 c2)); [left; auto|]. destruct n1; [left; auto|]. destruct n2; [left; auto|]. right. intros [H|[H|H]]; discriminate. }
    - destruct (I1 HD) as [-> ->]. destruct (I2 (proj1 HE HD)) as [-> ->]. rewrite D1, D2. cbn. split; [exact I|]. split; [reflexivity|reflexivity].
    - destruct (F1 HD) as (s & -> & S1 & _ & ->). destruct (F2 ltac:(tauto)) as (s' & -> & S2 & _ & ->). rewrite D1, D2. assert (s == s')%Q as HS.
      { rewrite S1, S2. unfold heterogeneity. rewrite (qsum_perm _ _ (Permutation_map (fun k => _) HP)). apply qsum_map_eq. intros k _. cbv zeta. unfold Qdiv. rewrite (Qmult_comm (Qn n1) (Qn n2)), (Qplus_comm (Qn (times c1 k))). ring. }
      cbn. split; [exact HS|]. split; [reflexivity|]. rewrite (cdf_eq _ s s' HS). reflexivity.
  Qed.

  (** Columns with the same shares have p-value 1, and p-values are between 0 and 1 *)
  Hypothesis cdf_zero : forall d, (cdf d 0 == 0)%Q.
  Hypothesis cdf_range : forall d x, (0 <= cdf d x <= 1)%Q.
  Theorem C73_p_value c1 n1 c2 n2 p : NoDup (dkeys c1) -> NoDup (dkeys c2) ->
    chi_p (chi_test cdf c1 n1 c2 n2) = Some p ->
    (0 <= p <= 1)%Q /\
    (0 < n1 -> 0 < n2 -> (forall k, In k (all_categories c1 c2) -> 0 < times c1 k + times c2 k) ->
       (forall k, times c1 k * n2 = times c2 k * n1) -> (p == 1)%Q).
  Proof.
    intros N1 N2 HP. destruct (C73_test c1 n1 c2 n2 N1 N2) as [A1 A2]. cbv zeta in *. destruct (Nat.le_gt_cases (length (all_categories c1 c2)) 1) as [HC|HC]; [rewrite (A1 HC) in HP; discriminate|].
    destruct (A2 HC) as (D & I & F). split.
    - assert (chi_p (chi_test cdf c1 n1 c2 n2) = Some 0%Q \/ exists d s, chi_p (chi_test cdf c1 n1 c2 n2) = Some (1 - cdf d s)%Q) as [H|(d & s & H)].
      { unfold chi_test. destruct (length _ <=? 1) eqn:EL; [unfold chi_test in D; rewrite EL in D; discriminate|]. destruct (_ || _); [left; reflexivity|right; eexists; eexists; reflexivity]. }
      + rewrite H in HP. injection HP as <-. lra.
      + rewrite H in HP. injection HP as <-. pose proof (cdf_range d s). lra.
    - intros P1 P2 PC HH. destruct F as (s & _ & S1 & _ & S3). { intros [H|[H|(k & H1 & H2 & H3)]]; [lia|lia|]. specialize (PC k H1). lia. }
      rewrite S3 in HP. injection HP as <-. apply (C73_homogeneous c1 n1 c2 n2 P1 P2) in HH. rewrite (cdf_eq _ s 0) by (rewrite S1; exact HH). rewrite cdf_zero. lra.
  Qed.
End Test.
Print Assumptions C73_test.
Print Assumptions C73_homogeneous.
Print Assumptions C73_symmetric.
Print Assumptions C73_p_value.

Section Matrix.
  Context {K : Type} {E : EqDecB K}.
  Variable cdf : nat -> Q -> Q.
  Notation test := (@chi_test K E cdf).

  (** Specification: the p-value of two columns *)
  Definition p_value (cols : list ccol) (a b : nat) : option Q :=
    match nth_error cols a, nth_error cols b with
    | Some x, Some y =>
        if cc_match x && cc_match y then
          if a =? b then Some 1%Q else chi_p (test (cc_counts x) (cc_n x) (cc_counts y) (cc_n y))
        else None
    | _, _ => None
    end.

  Lemma row_fold cols i a : forall k j0 m, i <= j0 -> j0 + k <= length cols -> nth_error cols i = Some a -> cc_match a = true ->
    forall x y, fold_left (chi_entry cdf cols i a) (seq j0 k) m x y =
      if (x =? i) && (j0 <=? y) && (y <? j0 + k) && match nth_error cols y with Some b => cc_match b | None => false end then p_value cols i y
      else if (y =? i) && (j0 <=? x) && (x <? j0 + k) && match nth_error cols x with Some b => cc_match b | None => false end then p_value cols i x
      else m x y.
  Proof.
    induction k as [|k IH]; intros j0 m Hi Hk HA HM x y.
    - cbn [seq fold_left]. destruct (Nat.leb_spec j0 y), (Nat.ltb_spec y (j0 + 0)), (Nat.leb_spec j0 x), (Nat.ltb_spec x (j0 + 0)); try lia; rewrite ?andb_false_r; cbn [andb]; reflexivity || (rewrite !andb_false_r; reflexivity).
    - cbn [seq fold_left]. rewrite IH by (assumption || lia). clear IH. assert (forall z, ((j0 <=? z) && (z <? j0 + S k)) = ((z =? j0) || ((S j0 <=? z) && (z <? S j0 + k)))) as HR.
      { intro z. destruct (Nat.eqb_spec z j0), (Nat.leb_spec j0 z), (Nat.ltb_spec z (j0 + S k)), (Nat.leb_spec (S j0) z), (Nat.ltb_spec z (S j0 + k)); try lia; reflexivity. }
      rewrite <- !(andb_assoc _ (_ <=? _)), !HR. clear HR.
      assert (forall z, ((S j0 <=? z) && (z <? S j0 + k)) = true -> z <> j0 /\ z <> i) as HZ. { intros z Hz. apply andb_true_iff in Hz. destruct Hz as [Hz _]. apply Nat.leb_le in Hz. lia. }
      assert (exists b, nth_error cols j0 = Some b) as [b Hb]. { destruct (nth_error cols j0) eqn:EN; [eauto|]. apply nth_error_None in EN. lia. }
      assert (forall u w, chi_entry cdf cols i a m j0 u w = if (u =? i) && (w =? j0) && cc_match b then p_value cols i j0 else if (w =? i) && (u =? j0) && cc_match b then p_value cols i j0 else m u w) as HE.
      { intros u w. unfold chi_entry, p_value. rewrite HA, Hb, HM. cbn [andb]. destruct (Nat.eqb_spec i j0) as [Hij|Hij].
        - subst j0. rewrite HA in Hb. injection Hb as <-. rewrite HM. unfold mset. rewrite !andb_true_r. rewrite (andb_comm (w =? i)). destruct ((u =? i) && (w =? i)); reflexivity.
        - destruct (cc_match b); [|rewrite !andb_false_r; reflexivity]. rewrite !andb_true_r. unfold mset, col_test. rewrite (andb_comm (u =? j0)).
          destruct (Nat.eqb_spec u i), (Nat.eqb_spec w j0), (Nat.eqb_spec w i), (Nat.eqb_spec u j0); cbn [andb]; try reflexivity; lia. }
      rewrite HE. clear HE.
      destruct ((S j0 <=? y) && (y <? S j0 + k)) eqn:EY, ((S j0 <=? x) && (x <? S j0 + k)) eqn:EX; rewrite ?orb_true_r, ?orb_false_r, ?andb_true_r, ?andb_false_r; cbn [andb].
      + destruct (HZ y EY), (HZ x EX). destruct (Nat.eqb_spec x i); [lia|]. destruct (Nat.eqb_spec y i); [lia|]. reflexivity.
      + destruct (HZ y EY). destruct (Nat.eqb_spec y i); [lia|]. destruct (Nat.eqb_spec y j0); [lia|]. rewrite !andb_false_r. cbn [andb]. reflexivity.
      + destruct (HZ x EX). destruct (Nat.eqb_spec x i); [lia|]. destruct (Nat.eqb_spec x j0); [lia|]. rewrite !andb_false_r. cbn [andb]. reflexivity.
      + assert (forall u w, (u =? i) && (w =? j0) && cc_match b = (u =? i) && (w =? j0) && match nth_error cols w with Some c => cc_match c | None => false end) as HC. { intros u w. destruct (Nat.eqb_spec w j0) as [->|]; [rewrite Hb; reflexivity|]. rewrite andb_false_r. reflexivity. }
        rewrite (HC x y), (HC y x). destruct ((x =? i) && (y =? j0)) eqn:E1.
        * apply andb_true_iff in E1. destruct E1 as [_ E1]. apply Nat.eqb_eq in E1. subst y. cbn [andb]. rewrite Hb. destruct (cc_match b); [reflexivity|]. destruct ((j0 =? i) && (x =? j0)) eqn:E2; cbn [andb]; [|reflexivity]. apply andb_true_iff in E2. destruct E2 as [_ E2]. apply Nat.eqb_eq in E2. subst x. rewrite Hb. destruct (cc_match b); reflexivity.
        * cbn [andb]. destruct ((y =? i) && (x =? j0)) eqn:E2; cbn [andb]; [|reflexivity]. apply andb_true_iff in E2. destruct E2 as [_ E2]. apply Nat.eqb_eq in E2. subst x. reflexivity.
  Qed.
  (** Each pair of columns of categories has the p-value of its test, the earlier column first; other entries are nan; the
      matrix is symmetric and 1 on the diagonal of columns of categories *)
  Theorem C73_matrix cols a b : a <= b -> b < length cols ->
    update_chi2 cdf cols a b = p_value cols a b /\ update_chi2 cdf cols b a = p_value cols a b.
  Proof.
    intros Hab Hb. unfold update_chi2.
    assert (forall k i0 m x y, i0 + k <= length cols -> x <= y -> y < length cols ->
      (fold_left (chi_row cdf cols) (seq i0 k) m x y = (if (i0 <=? x) && (x <? i0 + k) && match nth_error cols x, nth_error cols y with Some c, Some d => cc_match c && cc_match d | _, _ => false end then p_value cols x y else m x y)) /\
      (fold_left (chi_row cdf cols) (seq i0 k) m y x = (if (i0 <=? x) && (x <? i0 + k) && match nth_error cols x, nth_error cols y with Some c, Some d => cc_match c && cc_match d | _, _ => false end then p_value cols x y else m y x))) as HF.
    { induction k as [|k IH]; intros i0 m x y Hk Hx Hy.
      - cbn [seq fold_left]. destruct (Nat.leb_spec i0 x), (Nat.ltb_spec x (i0 + 0)); try lia; split; reflexivity.
      - cbn [seq fold_left]. destruct (IH (S i0) (chi_row cdf cols m i0) x y ltac:(lia) Hx Hy) as [I1 I2]. rewrite I1, I2. clear IH I1 I2.
        assert (exists c, nth_error cols x = Some c) as [c Hc]. { destruct (nth_error cols x) eqn:EN; [eauto|]. apply nth_error_None in EN. lia. }
        assert (exists d, nth_error cols y = Some d) as [d Hd]. { destruct (nth_error cols y) eqn:EN; [eauto|]. apply nth_error_None in EN. lia. }
        assert (exists e, nth_error cols i0 = Some e) as [e He]. { destruct (nth_error cols i0) eqn:EN; [eauto|]. apply nth_error_None in EN. lia. }
        rewrite Hc, Hd. unfold chi_row. rewrite He.
        destruct (Nat.eq_dec x i0) as [->|Hn].
        + rewrite Hc in He. injection He as <-. destruct (Nat.leb_spec (S i0) i0); [lia|]. cbn [andb]. destruct (Nat.leb_spec i0 i0); [|lia]. destruct (Nat.ltb_spec i0 (i0 + S k)); [|lia]. cbn [andb].
          destruct (cc_match c) eqn:EC; [|split; reflexivity]. rewrite !(row_fold cols i0 c (length cols - i0) i0 m) by (assumption || lia). rewrite Hd, Hc, EC, Nat.eqb_refl. destruct (Nat.leb_spec i0 y); [|lia]. destruct (Nat.ltb_spec y (i0 + (length cols - i0))); [|lia]. destruct (Nat.leb_spec i0 i0); [|lia]. destruct (Nat.ltb_spec i0 (i0 + (length cols - i0))); [|lia]. cbn [andb]. rewrite !andb_true_r.
          destruct (Nat.eqb_spec y i0) as [->|Hy0]; [rewrite Hc in Hd; injection Hd as <-; rewrite EC; split; reflexivity|]. destruct (cc_match d); split; reflexivity.
        + assert ((S i0 <=? x) && (x <? S i0 + k) = (i0 <=? x) && (x <? i0 + S k)) as ->. { destruct (Nat.leb_spec (S i0) x), (Nat.ltb_spec x (S i0 + k)), (Nat.leb_spec i0 x), (Nat.ltb_spec x (i0 + S k)); try lia; reflexivity. }
          destruct ((i0 <=? x) && (x <? i0 + S k) && (cc_match c && cc_match d)) eqn:EB; [split; reflexivity|]. destruct (cc_match e) eqn:EE; [|split; reflexivity]. rewrite !(row_fold cols i0 e (length cols - i0) i0 m) by (assumption || lia).
          destruct (Nat.eqb_spec x i0); [lia|]. destruct (Nat.eqb_spec y i0) as [->|Hy0]; [|split; reflexivity]. destruct (Nat.leb_spec i0 x); [lia|]. cbn [andb]. split; reflexivity. }
    destruct (HF (length cols) 0 nan_matrix a b ltac:(lia) Hab Hb) as [-> ->]. cbn [Nat.leb andb]. destruct (Nat.ltb_spec a (0 + length cols)); [|lia]. cbn [andb]. unfold p_value, nan_matrix.
    destruct (nth_error cols a) as [c|]; [|split; reflexivity]. destruct (nth_error cols b) as [d|]; [|split; reflexivity]. destruct (cc_match c && cc_match d); split; reflexivity.
  Qed.
End Matrix.
Print Assumptions C73_matrix.

(** Merging a table without a row of values with one whose columns are in another order: columns 0 and 1 of the merged table
    are the last and the second of the other table, of which the last has no values, so that their p-value is 0; but the
    matrix of the other table is taken over *)
Theorem C73_merge_refuted (cdf : nat -> Q -> Q) : (forall s, (s == 0)%Q -> (cdf 1%nat s == 0)%Q) -> exists x y z : @ccol nat,
  let m := update_chi2 cdf [x; y; z] in
  let merged := [z; y; x] in
  p_value cdf merged 0 1 = Some 0%Q /\
  exists m' p, merge_chi2 cdf 0 4 None (Some m) merged = Some m' /\ m' 0 1 = Some p /\ (p == 1)%Q.
Proof.
  intro H0. exists (mkCcol true [(1, 1); (2, 1)] 2), (mkCcol true [(1, 1); (2, 1)] 2), (mkCcol true [] 0). split; [reflexivity|]. eexists. eexists. split; [reflexivity|]. split; [match goal with |- update_chi2 _ ?c 0 1 = _ => rewrite (proj1 (C73_matrix cdf c 0 1 ltac:(lia) ltac:(cbn; lia))) end; reflexivity|].
  match goal with |- (1 - cdf ?d ?s == 1)%Q => assert (s == 0)%Q as HS by (vm_compute; reflexivity) end.
  rewrite (H0 _ HS). reflexivity.
Qed.
Print Assumptions C73_merge_refuted.
(** Two columns with the same single category: no p-value, though the diagonal has one *)
Theorem C73_constant_refuted (cdf : nat -> Q -> Q) : let c := mkCcol true [(7, 3)] 3 in
  let m := update_chi2 cdf [c; c] in m 0 0 = Some 1%Q /\ m 0 1 = None.
Proof. split; reflexivity. Qed.
Print Assumptions C73_constant_refuted.

(** Three columns of categories and one of others; a statistic of 4 * 4 / (4 * 4 * 4) + ... *)
Definition eg_cdf (d : nat) (s : Q) : Q := (s / (s + Qn d))%Q.
Example C73_example :
  chi_stat (chi_test eg_cdf [(1, 1); (2, 3)] 4 [(2, 2); (3, 2)] 4) <> None /\
  (exists s, chi_stat (chi_test eg_cdf [(1, 1); (2, 3)] 4 [(2, 2); (3, 2)] 4) = Some (Finite s) /\ (s == 16 # 5)%Q) /\
  let cols := [mkCcol true [(1, 1); (2, 3)] 4; mkCcol false [(1, 1)] 1; mkCcol true [(2, 2); (3, 2)] 4] in
  update_chi2 eg_cdf cols 0 1 = None /\ (exists p, update_chi2 eg_cdf cols 2 0 = Some p /\ (p == 5 # 13)%Q) /\ update_chi2 eg_cdf cols 2 2 = Some 1%Q.
Proof.
  split; [discriminate|]. split; [eexists; split; [reflexivity|vm_compute; reflexivity]|]. split; [reflexivity|]. split; [|reflexivity]. eexists. split; [match goal with |- update_chi2 _ ?c 2 0 = _ => rewrite (proj2 (C73_matrix eg_cdf c 0 2 ltac:(lia) ltac:(cbn; lia))) end; reflexivity|vm_compute; reflexivity].
Qed.
