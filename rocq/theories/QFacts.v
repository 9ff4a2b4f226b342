(** Rational arithmetic on lists: meanings of numpy/pandas reductions and facts about them. *)
From Coq Require Export QArith Qminmax Lqa.
From Verif Require Export PyCommon.
Open Scope nat_scope.

(** A count as a rational. *)
Definition Qn (n : nat) : Q := inject_Z (Z.of_nat n).

Lemma Qn_plus a b : (Qn (a + b) == Qn a + Qn b)%Q.
Proof. unfold Qn. rewrite Nat2Z.inj_add, inject_Z_plus. reflexivity. Qed.
Lemma Qn_mult a b : (Qn (a * b) == Qn a * Qn b)%Q.
Proof. unfold Qn. rewrite Nat2Z.inj_mul, inject_Z_mult. reflexivity. Qed.
Lemma Qn_S n : (Qn (S n) == Qn n + 1)%Q.
Proof. rewrite <- Nat.add_1_r, Qn_plus. reflexivity. Qed.
Lemma Qn_nonneg n : (0 <= Qn n)%Q.
Proof. unfold Qn, Qle, inject_Z. cbn. lia. Qed.
Lemma Qn_pos n : 0 < n -> (0 < Qn n)%Q.
Proof. intro H. unfold Qn, Qlt, inject_Z. cbn. lia. Qed.
Lemma Qn_neq n : 0 < n -> ~ (Qn n == 0)%Q.
Proof. intros H Hz. apply Qn_pos in H. rewrite Hz in H. apply Qlt_irrefl in H. exact H. Qed.
Lemma Qn_le a b : (Qn a <= Qn b)%Q <-> a <= b.
Proof. unfold Qn, Qle, inject_Z. cbn. lia. Qed.
Lemma Qn_lt a b : (Qn a < Qn b)%Q <-> a < b.
Proof. unfold Qn, Qlt, inject_Z. cbn. lia. Qed.
Lemma Qn_inj a b : (Qn a == Qn b)%Q <-> a = b.
Proof. unfold Qn, Qeq, inject_Z. cbn. lia. Qed.

(** Sum of a list. *)
Definition qsum (l : list Q) : Q := fold_right Qplus 0%Q l.

Lemma qsum_cons x l : qsum (x :: l) = (x + qsum l)%Q.
Proof. reflexivity. Qed.

Lemma qsum_app a b : (qsum (a ++ b) == qsum a + qsum b)%Q.
Proof.
  induction a as [|x a IH]; [change (qsum []) with 0%Q; cbn [app]; ring|].
  cbn [app]. rewrite !qsum_cons, IH. ring.
Qed.

(** Arithmetic mean and population variance ([np.mean], [np.var]). *)
Definition qmean (l : list Q) : Q := (qsum l / Qn (length l))%Q.
Definition sqdev (m : Q) (l : list Q) : Q := qsum (map (fun x => ((x - m) * (x - m))%Q) l).
Definition qvar (l : list Q) : Q := (sqdev (qmean l) l / Qn (length l))%Q.

Definition qsumsq (l : list Q) : Q := qsum (map (fun x => (x * x)%Q) l).

Lemma qsumsq_app a b : (qsumsq (a ++ b) == qsumsq a + qsumsq b)%Q.
Proof. unfold qsumsq. rewrite map_app. apply qsum_app. Qed.

Lemma sqdev_expand m l :
  (sqdev m l == qsumsq l - 2 * m * qsum l + Qn (length l) * m * m)%Q.
Proof.
  unfold sqdev, qsumsq. induction l as [|x l IH]; cbn [map length].
  - change (Qn 0) with 0%Q. change (qsum []) with 0%Q. ring.
  - rewrite !qsum_cons, IH, Qn_S. ring.
Qed.

(** [n * var = sum of squares - sum^2 / n]. *)
Lemma qvar_sums l : 0 < length l ->
  (Qn (length l) * qvar l == qsumsq l - qsum l * qsum l / Qn (length l))%Q.
Proof.
  intro H. unfold qvar. rewrite Qmult_div_r by (apply Qn_neq; exact H).
  rewrite sqdev_expand. unfold qmean. field. apply Qn_neq. exact H.
Qed.

Global Instance qsum_proper_map : Proper (Logic.eq ==> Qeq) qsum.
Proof. intros ? ? ->. reflexivity. Qed.

Lemma qmean_sum l : 0 < length l -> (Qn (length l) * qmean l == qsum l)%Q.
Proof. intro H. unfold qmean. apply Qmult_div_r. apply Qn_neq. exact H. Qed.

Lemma qvar_nonneg l : (0 <= qvar l)%Q.
Proof.
  unfold qvar. destruct l as [|x l]; [cbn; unfold Qdiv; rewrite Qmult_0_l; apply Qle_refl|].
  apply Qle_shift_div_l; [apply Qn_pos; cbn; lia|]. rewrite Qmult_0_l. unfold sqdev.
  set (m := qmean (x :: l)). clearbody m. generalize (x :: l). intro k.
  induction k as [|y k IH]; cbn [map]; [apply Qle_refl|]. rewrite qsum_cons.
  assert (0 <= (y - m) * (y - m))%Q by (destruct (Qlt_le_dec (y - m) 0); nra). lra.
Qed.

(** [min(a, b)] and [max(a, b)]: Python keeps the first on a tie. *)
Definition pymin (a b : Q) : Q := if Qle_bool a b then a else b.
Definition pymax (a b : Q) : Q := if Qle_bool b a then a else b.

(** [series.min()], [series.max()] of a non-empty series. *)
Definition list_min (x : Q) (l : list Q) : Q := fold_left pymin l x.
Definition list_max (x : Q) (l : list Q) : Q := fold_left pymax l x.

(** Specification: a least (greatest) element of a list. *)
Definition is_min (m : Q) (l : list Q) : Prop := In m l /\ forall x, In x l -> (m <= x)%Q.
Definition is_max (m : Q) (l : list Q) : Prop := In m l /\ forall x, In x l -> (x <= m)%Q.

Lemma Qle_bool_false a b : Qle_bool a b = false <-> (b < a)%Q.
Proof.
  split.
  - intro H. apply Qnot_le_lt. intro Hl. apply Qle_bool_iff in Hl. congruence.
  - intro H. destruct (Qle_bool a b) eqn:E; [|reflexivity]. apply Qle_bool_iff in E.
    exfalso. apply (Qlt_irrefl a). apply Qle_lt_trans with b; assumption.
Qed.

Lemma Qeq_bool_false a b : Qeq_bool a b = false <-> ~ (a == b)%Q.
Proof.
  split.
  - intros H E. apply Qeq_bool_iff in E. congruence.
  - intro H. destruct (Qeq_bool a b) eqn:E; [|reflexivity]. apply Qeq_bool_iff in E. contradiction.
Qed.

Lemma pymin_cases a b : (pymin a b = a /\ (a <= b)%Q) \/ (pymin a b = b /\ (b < a)%Q).
Proof.
  unfold pymin. destruct (Qle_bool a b) eqn:E.
  - left. split; [reflexivity|]. apply Qle_bool_iff. exact E.
  - right. split; [reflexivity|]. apply Qle_bool_false. exact E.
Qed.
Lemma pymax_cases a b : (pymax a b = a /\ (b <= a)%Q) \/ (pymax a b = b /\ (a < b)%Q).
Proof.
  unfold pymax. destruct (Qle_bool b a) eqn:E.
  - left. split; [reflexivity|]. apply Qle_bool_iff. exact E.
  - right. split; [reflexivity|]. apply Qle_bool_false. exact E.
Qed.

Lemma list_min_is_min l : forall x, is_min (list_min x l) (x :: l).
Proof.
  induction l as [|y l IH]; intro x; unfold list_min; cbn [fold_left].
  - split; [left; reflexivity|]. intros z [<-|[]]. apply Qle_refl.
  - specialize (IH (pymin x y)). fold (list_min (pymin x y) l). destruct IH as [Hi Hl].
    pose proof (Hl _ (or_introl eq_refl)) as H0.
    destruct (pymin_cases x y) as [[E L]|[E L]]; rewrite E in *; split.
    + destruct Hi as [H|H]; [left; exact H|right; right; exact H].
    + intros z [<-|[<-|H]]; [exact H0|lra|apply Hl; right; exact H].
    + destruct Hi as [H|H]; [right; left; exact H|right; right; exact H].
    + intros z [<-|[<-|H]]; [lra|exact H0|apply Hl; right; exact H].
Qed.
Lemma list_max_is_max l : forall x, is_max (list_max x l) (x :: l).
Proof.
  induction l as [|y l IH]; intro x; unfold list_max; cbn [fold_left].
  - split; [left; reflexivity|]. intros z [<-|[]]. apply Qle_refl.
  - specialize (IH (pymax x y)). fold (list_max (pymax x y) l). destruct IH as [Hi Hl].
    pose proof (Hl _ (or_introl eq_refl)) as H0.
    destruct (pymax_cases x y) as [[E L]|[E L]]; rewrite E in *; split.
    + destruct Hi as [H|H]; [left; exact H|right; right; exact H].
    + intros z [<-|[<-|H]]; [exact H0|lra|apply Hl; right; exact H].
    + destruct Hi as [H|H]; [right; left; exact H|right; right; exact H].
    + intros z [<-|[<-|H]]; [lra|exact H0|apply Hl; right; exact H].
Qed.

Lemma is_min_app a b l1 l2 : is_min a l1 -> is_min b l2 -> is_min (pymin a b) (l1 ++ l2).
Proof.
  intros [I1 L1] [I2 L2]. destruct (pymin_cases a b) as [[E L]|[E L]]; rewrite E; split.
  - apply in_or_app. auto.
  - intros x Hx. apply in_app_or in Hx. destruct Hx as [Hx|Hx]; [auto|]. specialize (L2 _ Hx). lra.
  - apply in_or_app. auto.
  - intros x Hx. apply in_app_or in Hx. destruct Hx as [Hx|Hx]; [|auto]. specialize (L1 _ Hx). lra.
Qed.
Lemma is_max_app a b l1 l2 : is_max a l1 -> is_max b l2 -> is_max (pymax a b) (l1 ++ l2).
Proof.
  intros [I1 L1] [I2 L2]. destruct (pymax_cases a b) as [[E L]|[E L]]; rewrite E; split.
  - apply in_or_app. auto.
  - intros x Hx. apply in_app_or in Hx. destruct Hx as [Hx|Hx]; [auto|]. specialize (L2 _ Hx). lra.
  - apply in_or_app. auto.
  - intros x Hx. apply in_app_or in Hx. destruct Hx as [Hx|Hx]; [|auto]. specialize (L1 _ Hx). lra.
Qed.
