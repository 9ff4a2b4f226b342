(** Properties of the score that labelers are trained by *)
From Coq Require Import QArith Qabs Lqa List Arith Bool Lia Permutation.
Import ListNotations.
From Verif Require Import PyCommon QFacts FBetaModel.
From Verif Require ConfModel.
Local Open Scope nat_scope.

(** ** Sums *)
Lemma qsum_ext {A} (f g : A -> Q) l : (forall x, In x l -> f x == g x)%Q -> (qsum (map f l) == qsum (map g l))%Q.
Proof.
  induction l as [|x l IH]; intros H; [reflexivity|]. cbn [map]. rewrite !qsum_cons.
  rewrite (H x) by (left; reflexivity). rewrite IH by (intros y I; apply H; right; exact I). reflexivity.
Qed.
Lemma qsum_nonneg {A} (f : A -> Q) l : (forall x, In x l -> 0 <= f x)%Q -> (0 <= qsum (map f l))%Q.
Proof.
  induction l as [|x l IH]; intros H; [apply Qle_refl|]. cbn [map]. rewrite qsum_cons.
  pose proof (H x (or_introl eq_refl)). assert (0 <= qsum (map f l))%Q by (apply IH; intros y I; apply H; right; exact I). lra.
Qed.
Lemma qsum_le {A} (f g : A -> Q) l : (forall x, In x l -> f x <= g x)%Q -> (qsum (map f l) <= qsum (map g l))%Q.
Proof.
  induction l as [|x l IH]; intros H; [apply Qle_refl|]. cbn [map]. rewrite !qsum_cons.
  pose proof (H x (or_introl eq_refl)). assert (qsum (map f l) <= qsum (map g l))%Q by (apply IH; intros y I; apply H; right; exact I). lra.
Qed.
Lemma qsum_perm {A} (f : A -> Q) l l' : Permutation l l' -> (qsum (map f l) == qsum (map f l'))%Q.
Proof.
  induction 1 as [|x l l' P IH|x y l|a b c P1 IH1 P2 IH2]; cbn [map]; rewrite ?qsum_cons.
  - reflexivity.
  - rewrite IH. reflexivity.
  - ring.
  - rewrite IH1. exact IH2.
Qed.
Lemma qsum_scale {A} (f : A -> Q) k l : (qsum (map (fun x => f x * k) l) == qsum (map f l) * k)%Q.
Proof.
  induction l as [|x l IH]; cbn [map]; [change (qsum []) with 0%Q; ring|]. rewrite !qsum_cons, IH. ring.
Qed.

Lemma divide_comp a a' b b' : (a == a' -> b == b' -> divide a b == divide a' b')%Q.
Proof.
  intros A B. unfold divide. destruct (Qeq_bool b 0) eqn:E.
  - apply Qeq_bool_iff in E. assert (Qeq_bool b' 0 = true) as -> by (apply Qeq_bool_iff; rewrite <- B; exact E). reflexivity.
  - assert (Qeq_bool b' 0 = false) as ->.
    { apply not_true_iff_false. intros F. apply Qeq_bool_iff in F. rewrite <- B in F. apply Qeq_bool_iff in F. congruence. }
    rewrite A, B. reflexivity.
Qed.

(** ** Batches *)
Definition sums_of (m : metric) (rows : list row) : state :=
  mkState
    (reduce m rows (fun r d => hit m (r_pred r) d * r_true r d)%Q)
    (reduce m rows (fun r d => hit m (r_pred r) d * (1 - r_true r d))%Q)
    (reduce m rows (fun r d => (1 - hit m (r_pred r) d) * r_true r d)%Q)
    (reduce m rows (fun r d => r_true r d)).

Definition same (s t : state) : Prop :=
  forall c, (tp s c == tp t c /\ fp s c == fp t c /\ fn s c == fn t c /\ wi s c == wi t c)%Q.

Lemma reduce_app m a b f c : (reduce m (a ++ b) f c == reduce m a f c + reduce m b f c)%Q.
Proof. unfold reduce. destruct (m_average m); rewrite map_app, qsum_app; reflexivity. Qed.
Lemma reduce_nil m f c : reduce m [] f c = 0%Q.
Proof. unfold reduce. destruct (m_average m); reflexivity. Qed.
Lemma reduce_perm m a b f c : Permutation a b -> (reduce m a f c == reduce m b f c)%Q.
Proof. intros P. unfold reduce. destruct (m_average m); apply qsum_perm; exact P. Qed.

Lemma run_sums m batches : same (run m batches) (sums_of m (concat batches)).
Proof.
  unfold run.
  assert (G : forall s c, (tp (fold_left (update m) batches s) c == tp s c + tp (sums_of m (concat batches)) c /\
     fp (fold_left (update m) batches s) c == fp s c + fp (sums_of m (concat batches)) c /\
     fn (fold_left (update m) batches s) c == fn s c + fn (sums_of m (concat batches)) c /\
     wi (fold_left (update m) batches s) c == wi s c + wi (sums_of m (concat batches)) c)%Q).
  { induction batches as [|b bs IH]; intros s c; cbn [fold_left concat].
    - unfold sums_of. cbn [tp fp fn wi]. rewrite !reduce_nil. repeat split; ring.
    - destruct (IH (update m s b) c) as (A & B & C & D). rewrite A, B, C, D.
      unfold sums_of, update. cbn [tp fp fn wi]. rewrite !reduce_app. repeat split; ring. }
  intros c. destruct (G zero c) as (A & B & C & D). rewrite A, B, C, D. unfold zero. cbn [tp fp fn wi]. repeat split; ring.
Qed.

Lemma same_f m s t c : same s t -> (f_class m s c == f_class m t c)%Q.
Proof.
  intros H. destruct (H c) as (A & B & C & _). unfold f_class.
  assert (P : (divide (tp s c) (tp s c + fp s c) == divide (tp t c) (tp t c + fp t c))%Q) by (apply divide_comp; rewrite ?A, ?B; reflexivity).
  assert (R : (divide (tp s c) (tp s c + fn s c) == divide (tp t c) (tp t c + fn t c))%Q) by (apply divide_comp; rewrite ?A, ?C; reflexivity).
  cbv zeta. apply Qmult_comp; [|reflexivity]. apply divide_comp; rewrite P, R; reflexivity.
Qed.

Lemma qmean_ext {A} (f g : A -> Q) l : (forall x, In x l -> f x == g x)%Q -> (qmean (map f l) == qmean (map g l))%Q.
Proof. intros H. unfold qmean. rewrite !map_length. rewrite (qsum_ext f g l H). reflexivity. Qed.

Lemma same_score m s t : same s t -> Forall2 Qeq (score m s) (score m t).
Proof.
  intros H. unfold score. destruct (m_average m).
  - induction (seq 0 (m_classes m)); cbn; constructor; auto using same_f.
  - constructor; [apply same_f; exact H|constructor].
  - constructor; [|constructor]. apply qmean_ext. intros c _. apply same_f. exact H.
  - constructor; [|constructor]. cbv zeta. apply qsum_ext. intros c _. apply Qmult_comp; [apply same_f; exact H|].
    apply divide_comp; [apply H|]. apply qsum_ext. intros d _. apply H.
Qed.

(** The score depends neither on how the rows were put into batches nor on their order. *)
Theorem C103_batches : forall m a b, Permutation (concat a) (concat b) ->
  Forall2 Qeq (score m (run m a)) (score m (run m b)).
Proof.
  intros m a b P. apply same_score. intros c.
  destruct (run_sums m a c) as (A1 & A2 & A3 & A4). destruct (run_sums m b c) as (B1 & B2 & B3 & B4).
  rewrite A1, A2, A3, A4, B1, B2, B3, B4. unfold sums_of. cbn [tp fp fn wi].
  repeat split; apply reduce_perm; exact P.
Qed.

(** ** The value of the score *)
(** F-beta from true and false positives and false negatives *)
Definition f_beta (b t p n : Q) : Q := ((1 + b * b) * t / ((1 + b * b) * t + b * b * n + p))%Q.

Lemma f_class_value m s c : (0 <= tp s c -> 0 <= fp s c -> 0 <= fn s c -> 0 < m_beta m ->
  (tp s c == 0 -> f_class m s c == 0) /\ (0 < tp s c -> f_class m s c == f_beta (m_beta m) (tp s c) (fp s c) (fn s c)))%Q.
Proof.
  set (t := tp s c). set (p := fp s c). set (n := fn s c). set (b := m_beta m). intros T P N B.
  unfold f_class. fold t p n b. cbv zeta. split.
  - intros Z. assert (Z1 : (divide t (t + p) == 0)%Q).
    { unfold divide. destruct (Qeq_bool (t + p) 0); [reflexivity|]. rewrite Z. unfold Qdiv. ring. }
    rewrite (divide_comp _ (0 * divide t (t + n)) _ (b * b * 0 + divide t (t + n))).
    + unfold divide at 1. destruct (Qeq_bool _ 0); [ring|]. unfold Qdiv. ring.
    + rewrite Z1. reflexivity.
    + rewrite Z1. reflexivity.
  - intros Tp.
    assert (E1 : (divide t (t + p) == t / (t + p))%Q).
    { unfold divide. destruct (Qeq_bool (t + p) 0) eqn:E; [|reflexivity]. apply Qeq_bool_iff in E. exfalso. lra. }
    assert (E2 : (divide t (t + n) == t / (t + n))%Q).
    { unfold divide. destruct (Qeq_bool (t + n) 0) eqn:E; [|reflexivity]. apply Qeq_bool_iff in E. exfalso. lra. }
    rewrite (divide_comp _ (t / (t + p) * (t / (t + n))) _ (b * b * (t / (t + p)) + t / (t + n))) by (rewrite ?E1, ?E2; reflexivity).
    assert (G1 : (0 < t / (t + p))%Q) by (apply Qlt_shift_div_l; lra).
    assert (G2 : (0 < t / (t + n))%Q) by (apply Qlt_shift_div_l; lra).
    assert (Bb : (0 < b * b)%Q) by nra.
    unfold divide. destruct (Qeq_bool (b * b * (t / (t + p)) + t / (t + n)) 0) eqn:E.
    + apply Qeq_bool_iff in E. exfalso. nra.
    + unfold f_beta. clear E E1 E2 G1 G2. revert Bb. generalize (b * b)%Q. intros b2 Bb.
      assert (X1 : (0 < b2 * t)%Q) by nra. assert (X2 : (0 <= b2 * n)%Q) by nra. assert (X3 : (0 < t * t)%Q) by nra.
      assert (X4 : (0 < b2 * t * t)%Q) by nra. assert (X5 : (0 <= t * p)%Q) by nra. assert (X6 : (0 <= b2 * t * n)%Q) by nra.
      field. repeat split; nra.
Qed.

Definition row_ok (n : nat) (r : row) : Prop :=
  (forall c, c < n -> (0 <= r_true r c <= 1)%Q) /\ match r_weight r with Some w => (0 <= w)%Q | None => True end.

Lemma hit_01 m p c : (hit m p c == 0 \/ hit m p c == 1)%Q.
Proof.
  unfold hit. destruct (m_threshold m).
  - destruct (Qle_bool (p c) q); [left|right]; reflexivity.
  - match goal with |- context [if ?x then _ else _] => destruct x end; [right|left]; reflexivity.
Qed.

Lemma weigh_nonneg w v : (match w with Some x => (0 <= x)%Q | None => True end -> 0 <= v -> 0 <= weigh w v)%Q.
Proof. destruct w; cbn; intros; [nra|assumption]. Qed.

Lemma reduce_nonneg m rows f c : (forall r, In r rows -> row_ok (m_classes m) r) ->
  (forall r d, In r rows -> d < m_classes m -> (0 <= f r d)%Q) ->
  (m_average m = AMicro \/ c < m_classes m) -> (0 <= reduce m rows f c)%Q.
Proof.
  intros R F C. unfold reduce. destruct (m_average m); try (destruct C as [C|C]; [discriminate C|]; apply qsum_nonneg; intros r I; apply weigh_nonneg; [apply (R r I)|apply F; assumption]).
  apply qsum_nonneg. intros r I. apply qsum_nonneg. intros d J. apply in_seq in J. apply weigh_nonneg; [apply (R r I)|apply F; [exact I|lia]].
Qed.

Lemma sums_nonneg m rows c : (forall r, In r rows -> row_ok (m_classes m) r) -> (m_average m = AMicro \/ c < m_classes m) ->
  (0 <= tp (sums_of m rows) c /\ 0 <= fp (sums_of m rows) c /\ 0 <= fn (sums_of m rows) c /\ 0 <= wi (sums_of m rows) c)%Q.
Proof.
  intros R C. unfold sums_of. cbn [tp fp fn wi].
  repeat split; apply reduce_nonneg; auto; intros r d I D; destruct (R r I) as [T _]; specialize (T d D);
    try (destruct (hit_01 m (r_pred r) d) as [E|E]; rewrite E); lra.
Qed.

Lemma f_range m rows c : (0 < m_beta m)%Q -> (forall r, In r rows -> row_ok (m_classes m) r) -> (m_average m = AMicro \/ c < m_classes m) ->
  (0 <= f_class m (sums_of m rows) c <= 1)%Q.
Proof.
  intros B R C. destruct (sums_nonneg m rows c R C) as (T & P & N & _).
  destruct (f_class_value m _ c T P N B) as [Z V].
  destruct (Qlt_le_dec 0 (tp (sums_of m rows) c)) as [H|H].
  - rewrite (V H). unfold f_beta. set (b := m_beta m) in *. assert (0 < b * b)%Q by nra.
    split; [apply Qle_shift_div_l; nra|apply Qle_shift_div_r; nra].
  - rewrite Z by lra. lra.
Qed.

Lemma mean_range {A} (f : A -> Q) l : (forall x, In x l -> 0 <= f x <= 1)%Q -> (0 <= qmean (map f l) <= 1)%Q.
Proof.
  intros H. unfold qmean. rewrite map_length. assert (D : l = [] \/ 0 < length l) by (destruct l; cbn; [left; reflexivity|right; lia]).
  destruct D as [->|D]; [cbn; unfold Qdiv; rewrite Qmult_0_l; lra|].
  assert (L : (0 < Qn (length l))%Q) by (apply Qn_pos; exact D).
  assert (A1 : (0 <= qsum (map f l))%Q) by (apply qsum_nonneg; intros y I; apply H; exact I).
  assert (A2 : (qsum (map f l) <= Qn (length l))%Q).
  { clear D L A1. induction l as [|y l IH]; [apply Qle_refl|]. cbn [map length]. rewrite qsum_cons, Qn_S.
    pose proof (H y (or_introl eq_refl)). assert (qsum (map f l) <= Qn (length l))%Q by (apply IH; intros z I; apply H; right; exact I). lra. }
  split; [apply Qle_shift_div_l; lra|apply Qle_shift_div_r; lra].
Qed.

(** Scores are between 0 and 1. *)
Theorem C103_range : forall m batches, (0 < m_beta m)%Q ->
  (forall r, In r (concat batches) -> row_ok (m_classes m) r) ->
  forall x, In x (score m (run m batches)) -> (0 <= x <= 1)%Q.
Proof.
  intros m batches B R. pose proof (same_score m _ _ (run_sums m batches)) as F2.
  assert (G : forall x, In x (score m (sums_of m (concat batches))) -> (0 <= x <= 1)%Q).
  { unfold score. destruct (m_average m) eqn:Ea.
    - intros x I. apply in_map_iff in I. destruct I as (c & <- & I). apply in_seq in I. apply f_range; auto. right. lia.
    - intros x [<-|[]]. apply f_range; auto.
    - intros x [<-|[]]. apply mean_range. intros c I. apply in_seq in I. apply f_range; auto. right. lia.
    - intros x [<-|[]]. cbv zeta. set (s := sums_of m (concat batches)). set (cs := seq 0 (m_classes m)).
      assert (Fr : forall c, In c cs -> (0 <= f_class m s c <= 1)%Q) by (intros c I; apply in_seq in I; apply f_range; auto; right; lia).
      assert (Wr : forall c, In c cs -> (0 <= wi s c)%Q) by (intros c I; apply in_seq in I; apply sums_nonneg; auto; right; lia).
      set (total := qsum (map (wi s) cs)). assert (T0 : (0 <= total)%Q) by (apply qsum_nonneg; exact Wr).
      assert (Dr : forall c, In c cs -> (0 <= divide (wi s c) total)%Q).
      { intros c I. unfold divide. destruct (Qeq_bool total 0) eqn:E; [lra|].
        assert (0 < total)%Q by (destruct (Qlt_le_dec 0 total); [assumption|exfalso; apply Qeq_bool_neq in E; apply E; lra]).
        apply Qle_shift_div_l; [assumption|]. specialize (Wr c I). lra. }
      split; [apply qsum_nonneg; intros c I; specialize (Fr c I); specialize (Dr c I); nra|].
      apply Qle_trans with (qsum (map (fun c => divide (wi s c) total) cs)).
      { apply qsum_le. intros c I. specialize (Fr c I). specialize (Dr c I). nra. }
      destruct (Qeq_bool total 0) eqn:E.
      + rewrite (qsum_ext _ (fun c => wi s c * 0)%Q) by (intros c _; unfold divide; rewrite E; ring). rewrite qsum_scale. lra.
      + rewrite (qsum_ext _ (fun c => wi s c * / total)%Q) by (intros c _; unfold divide; rewrite E; reflexivity). rewrite qsum_scale.
        fold total. rewrite Qmult_inv_r by (apply Qeq_bool_neq in E; exact E). lra. }
  intros x I. revert F2 I G. generalize (score m (sums_of m (concat batches))). generalize (score m (run m batches)).
  intros l l' F2. induction F2 as [|a b l l' E F2 IH]; intros I G; [destruct I|]. destruct I as [<-|I].
  - rewrite E. apply G. left. reflexivity.
  - apply IH; [exact I|]. intros y J. apply G. right. exact J.
Qed.

(** A class has the score 1 if and only if something was predicted right and nothing wrong. *)
Theorem C103_perfect : forall m batches c, (0 < m_beta m)%Q ->
  (forall r, In r (concat batches) -> row_ok (m_classes m) r) -> c < m_classes m ->
  let s := run m batches in
  (f_class m s c == 1 <-> 0 < tp s c /\ fp s c == 0 /\ fn s c == 0)%Q.
Proof.
  intros m batches c B R C. cbv zeta. pose proof (run_sums m batches) as E. rewrite (same_f m _ _ c E).
  destruct (E c) as (E1 & E2 & E3 & _). rewrite E1, E2, E3.
  destruct (sums_nonneg m (concat batches) c R (or_intror C)) as (T & P & N & _).
  destruct (f_class_value m _ c T P N B) as [Z V]. set (s := sums_of m (concat batches)) in *.
  destruct (Qlt_le_dec 0 (tp s c)) as [H|H].
  - rewrite (V H). unfold f_beta. assert (Bb : (0 < m_beta m * m_beta m)%Q) by nra.
    revert Bb. generalize (m_beta m * m_beta m)%Q. intros b2 Bb.
    assert (D : (0 < (1 + b2) * tp s c + b2 * fn s c + fp s c)%Q) by nra. split.
    + intros F. assert (G : ((1 + b2) * tp s c == (1 + b2) * tp s c + b2 * fn s c + fp s c)%Q).
      { revert F D. generalize ((1 + b2) * tp s c)%Q, (b2 * fn s c)%Q. intros x y F D.
        assert (E0 : (x == x / (x + y + fp s c) * (x + y + fp s c))%Q) by (field; lra). rewrite F in E0. lra. }
      repeat split; [exact H|nra|nra].
    + intros (_ & F1 & F2). rewrite F1, F2. field. nra.
  - rewrite Z by lra. split; [intros F; exfalso; lra|intros (F & _); exfalso; lra].
Qed.

(** ** One label for every row *)
(** Row [r] has the label [y] and the prediction is [p]: the largest value, above all others *)
Definition single (n : nat) (r : row) (yp : nat * nat) : Prop :=
  let (y, p) := yp in y < n /\ p < n /\ r_weight r = None /\
  (forall c, c < n -> (r_true r c == if (c =? y)%nat then 1 else 0)%Q) /\
  (forall c, c < n -> c <> p -> (r_pred r c < r_pred r p)%Q) /\ (1 # 1000000000000 < Qabs (r_pred r p))%Q.

Lemma qmax_le a b x : (a <= x -> b <= x -> qmax a b <= x)%Q.
Proof. intros. unfold qmax. destruct (Qle_bool a b); assumption. Qed.
Lemma qmax_l a b : (a <= qmax a b)%Q.
Proof.
  unfold qmax. destruct (Qle_bool a b) eqn:E; [apply Qle_bool_iff; exact E|apply Qle_refl].
Qed.
Lemma qmax_r a b : (b <= qmax a b)%Q.
Proof.
  unfold qmax. destruct (Qle_bool a b) eqn:E; [apply Qle_refl|].
  destruct (Qlt_le_dec a b) as [H|H]; [|exact H]. apply Qlt_le_weak, Qle_bool_iff in H. congruence.
Qed.

Lemma row_max_spec n p : 0 < n -> (forall c, c < n -> (p c <= row_max n p)%Q) /\
  (forall x, (forall c, c < n -> (p c <= x)%Q) -> (row_max n p <= x)%Q).
Proof.
  intros N. unfold row_max.
  assert (G : forall l m0, (m0 <= fold_left (fun m c => qmax m (p c)) l m0)%Q /\
     (forall c, In c l -> (p c <= fold_left (fun m c => qmax m (p c)) l m0)%Q) /\
     (forall x, (m0 <= x)%Q -> (forall c, In c l -> (p c <= x)%Q) -> (fold_left (fun m c => qmax m (p c)) l m0 <= x)%Q)).
  { induction l as [|d l IH]; intros m0; cbn [fold_left].
    - split; [apply Qle_refl|]. split; [intros c []|]. auto.
    - destruct (IH (qmax m0 (p d))) as (A & B & C). split; [|split].
      + eapply Qle_trans; [apply qmax_l|exact A].
      + intros c [<-|I]; [eapply Qle_trans; [apply qmax_r|exact A]|auto].
      + intros x H1 H2. apply C; [apply qmax_le; [exact H1|apply H2; left; reflexivity]|]. intros c I. apply H2. right. exact I. }
  destruct (G (seq 1 (n - 1)) (p 0)) as (A & B & C). split.
  - intros [|c] H; [exact A|]. apply B. apply in_seq. lia.
  - intros x H. apply C; [apply H; exact N|]. intros c I. apply in_seq in I. apply H. lia.
Qed.

Lemma hit_single m r y p c : m_threshold m = None -> single (m_classes m) r (y, p) -> c < m_classes m ->
  hit m (r_pred r) c = if c =? p then 1%Q else 0%Q.
Proof.
  intros Th (Y & P & _ & _ & Mx & Ab) C. unfold hit. rewrite Th.
  assert (N : 0 < m_classes m) by lia. destruct (row_max_spec (m_classes m) (r_pred r) N) as [U L].
  destruct (Nat.eqb_spec c p) as [->|Ne].
  - assert (Qle_bool (row_max (m_classes m) (r_pred r)) (r_pred r p) = true) as ->.
    { apply Qle_bool_iff. apply L. intros d D. destruct (Nat.eq_dec d p) as [->|Nd]; [apply Qle_refl|apply Qlt_le_weak, Mx; assumption]. }
    assert (Qle_bool (Qabs (r_pred r p)) (1 # 1000000000000) = false) as ->; [|reflexivity].
    apply not_true_iff_false. intros F. apply Qle_bool_iff in F. lra.
  - assert (Qle_bool (row_max (m_classes m) (r_pred r)) (r_pred r c) = false) as ->; [|reflexivity].
    apply not_true_iff_false. intros F. apply Qle_bool_iff in F. specialize (U p P). specialize (Mx c C Ne). lra.
Qed.

Lemma qsum_count (rows : list row) pairs (Pr : row -> nat * nat -> Prop) f (g : nat * nat -> bool) :
  Forall2 Pr rows pairs -> (forall r yp, In yp pairs -> Pr r yp -> (f r == if g yp then 1 else 0)%Q) ->
  (qsum (map f rows) == Qn (length (filter g pairs)))%Q.
Proof.
  induction 1 as [|r yp rows pairs H F IH]; intros G; [reflexivity|]. cbn [map filter]. rewrite qsum_cons.
  rewrite (G r yp (or_introl eq_refl) H). rewrite IH by (intros r2 yp2 I; apply G; right; exact I).
  destruct (g yp); cbn [length]; [rewrite Qn_S|]; ring.
Qed.

(** Counts *)
Definition count (g : nat -> nat -> bool) (pairs : list (nat * nat)) : nat := length (filter (fun yp => g (fst yp) (snd yp)) pairs).

Lemma single_sums m rows pairs c : m_threshold m = None -> m_average m <> AMicro ->
  Forall2 (single (m_classes m)) rows pairs -> c < m_classes m ->
  (tp (sums_of m rows) c == Qn (count (fun y p => (y =? c)%nat && (p =? c)%nat) pairs))%Q /\
  (fp (sums_of m rows) c == Qn (count (fun y p => negb (y =? c)%nat && (p =? c)%nat) pairs))%Q /\
  (fn (sums_of m rows) c == Qn (count (fun y p => (y =? c)%nat && negb (p =? c)%nat) pairs))%Q /\
  (wi (sums_of m rows) c == Qn (count (fun y p => (y =? c)%nat) pairs))%Q.
Proof.
  intros Th Av F C. unfold sums_of, count. cbn [tp fp fn wi].
  assert (E : forall f, reduce m rows f c = qsum (map (fun r => weigh (r_weight r) (f r c)) rows))
    by (intros f; unfold reduce; destruct (m_average m); try reflexivity; congruence).
  rewrite !E. repeat split; apply (qsum_count _ _ _ _ _ F); intros r [y p] _ S; pose proof (hit_single m r y p c Th S C) as H;
    destruct S as (Y & P & W & T & _); rewrite W; cbn [weigh fst snd]; rewrite ?H, (T c C), ?(Nat.eqb_sym c y), ?(Nat.eqb_sym c p);
    destruct (y =? c), (p =? c); reflexivity.
Qed.

Lemma sum_to_ext n f g : (forall j, j < n -> f j = g j) -> ConfModel.sum_to n f = ConfModel.sum_to n g.
Proof. intros H. unfold ConfModel.sum_to. f_equal. apply map_ext_in. intros j J. apply in_seq in J. apply H. lia. Qed.
Lemma list_sum_add l (f g : nat -> nat) : list_sum (map (fun j => f j + g j) l) = list_sum (map f l) + list_sum (map g l).
Proof. unfold list_sum in *. induction l as [|x l IH]; [reflexivity|]. cbn [map fold_right]. rewrite IH. lia. Qed.
Lemma sum_to_add n f g : ConfModel.sum_to n (fun j => f j + g j) = ConfModel.sum_to n f + ConfModel.sum_to n g.
Proof. apply list_sum_add. Qed.
Lemma sum_to_zero n f : (forall j, j < n -> f j = 0) -> ConfModel.sum_to n f = 0.
Proof.
  intros H. rewrite (sum_to_ext n f (fun _ => 0) H). unfold ConfModel.sum_to.
  induction (seq 0 n) as [|x l IH]; [reflexivity|exact IH].
Qed.
Lemma sum_to_one n f p v : p < n -> f p = v -> (forall j, j < n -> j <> p -> f j = 0) -> ConfModel.sum_to n f = v.
Proof.
  revert f p. induction n as [|n IH]; intros f p P V Z; [lia|].
  unfold ConfModel.sum_to in *. cbn [seq map]. rewrite <- seq_shift, map_map.
  change (list_sum (f 0 :: map (fun x => f (S x)) (seq 0 n))) with (f 0 + list_sum (map (fun x => f (S x)) (seq 0 n))). destruct p as [|p].
  - rewrite V. assert (E : list_sum (map (fun x => f (S x)) (seq 0 n)) = 0).
    { apply (sum_to_zero n (fun x => f (S x))). intros j J. apply Z; lia. }
    rewrite E. lia.
  - rewrite (Z 0) by lia. apply (IH (fun x => f (S x)) p); [lia|exact V|]. intros j J Nj. apply Z; lia.
Qed.

Definition conf (pairs : list (nat * nat)) : ConfModel.cmatrix := fun i j => ConfModel.count_pair i j pairs.

Lemma mcm_counts n pairs c : (forall yp, In yp pairs -> fst yp < n /\ snd yp < n) -> c < n ->
  ConfModel.tp (ConfModel.mcm_of n (conf pairs) c) = count (fun y p => (y =? c) && (p =? c)) pairs /\
  ConfModel.fp (ConfModel.mcm_of n (conf pairs) c) = count (fun y p => negb (y =? c) && (p =? c)) pairs /\
  ConfModel.fn (ConfModel.mcm_of n (conf pairs) c) = count (fun y p => (y =? c) && negb (p =? c)) pairs.
Proof.
  intros H C. unfold ConfModel.mcm_of. cbn [ConfModel.tp ConfModel.fp ConfModel.fn]. unfold conf, ConfModel.count_pair, count.
  induction pairs as [|[y p] pairs IH].
  - cbn [filter length]. repeat split; apply sum_to_zero; intros j _; destruct (c =? j); reflexivity.
  - destruct IH as (I1 & I2 & I3); [intros yp I; apply H; right; exact I|].
    destruct (H (y, p) (or_introl eq_refl)) as [Hy Hp]. cbn [fst snd] in Hy, Hp.
    assert (L : forall (b : bool) (l : list (nat * nat)), length (if b then (y, p) :: l else l) = (if b then 1 else 0) + length l)
      by (intros [] l; reflexivity).
    cbn [filter fst snd]. rewrite !L. rewrite <- I1, <- I2, <- I3. repeat split.
    + transitivity (ConfModel.sum_to n (fun j => (if c =? j then (if (y =? c) && (p =? j) then 1 else 0) else 0) +
        (if c =? j then length (filter (fun q => (fst q =? c) && (snd q =? j)) pairs) else 0))).
      { apply sum_to_ext. intros j _. destruct (c =? j); [apply L|reflexivity]. }
      rewrite sum_to_add. f_equal. apply (sum_to_one n _ c); [exact C|rewrite Nat.eqb_refl; reflexivity|].
      intros j _ Nj. destruct (Nat.eqb_spec c j); [congruence|reflexivity].
    + transitivity (ConfModel.sum_to n (fun j => (if c =? j then 0 else (if (y =? j) && (p =? c) then 1 else 0)) +
        (if c =? j then 0 else length (filter (fun q => (fst q =? j) && (snd q =? c)) pairs)))).
      { apply sum_to_ext. intros j _. destruct (c =? j); [reflexivity|apply L]. }
      rewrite sum_to_add. f_equal. apply (sum_to_one n _ y); [exact Hy| |].
      * rewrite (Nat.eqb_sym c y), Nat.eqb_refl. destruct (y =? c), (p =? c); reflexivity.
      * intros j _ Nj. destruct (Nat.eqb_spec y j); [congruence|]. destruct (c =? j); reflexivity.
    + transitivity (ConfModel.sum_to n (fun j => (if c =? j then 0 else (if (y =? c) && (p =? j) then 1 else 0)) +
        (if c =? j then 0 else length (filter (fun q => (fst q =? c) && (snd q =? j)) pairs)))).
      { apply sum_to_ext. intros j _. destruct (c =? j); [reflexivity|apply L]. }
      rewrite sum_to_add. f_equal. apply (sum_to_one n _ p); [exact Hp| |].
      * rewrite (Nat.eqb_sym c p), Nat.eqb_refl. destruct (y =? c), (p =? c); reflexivity.
      * intros j _ Nj. destruct (Nat.eqb_spec p j); [congruence|]. rewrite andb_false_r. destruct (c =? j); reflexivity.
Qed.

Lemma divide_counts a b : (divide (Qn a) (Qn b) == ConfModel.prf_divide a b)%Q.
Proof.
  unfold divide, ConfModel.prf_divide. destruct (Nat.eqb_spec b 0) as [->|N]; [reflexivity|].
  destruct (Qeq_bool (Qn b) 0) eqn:E; [|reflexivity]. apply Qeq_bool_iff in E. exfalso. apply (Qn_neq b); [lia|exact E].
Qed.

Lemma prf_divide_nonneg a b : (0 <= ConfModel.prf_divide a b)%Q.
Proof.
  unfold ConfModel.prf_divide. destruct (Nat.eqb_spec b 0) as [|N]; [apply Qle_refl|].
  apply Qle_shift_div_l; [apply Qn_pos; lia|]. rewrite Qmult_0_l. apply Qn_nonneg.
Qed.

Lemma f_score_agree b2 p r p' r' : (0 < b2 -> 0 <= p' -> 0 <= r' -> p == p' -> r == r' ->
  divide (p * r) (b2 * p + r) * (1 + b2) == ConfModel.f_score b2 p' r')%Q.
Proof.
  intros B P0 R0 P R. unfold ConfModel.f_score. cbv zeta.
  rewrite (divide_comp _ (p' * r') _ (b2 * p' + r')) by (rewrite ?P, ?R; reflexivity).
  unfold divide. destruct (Qeq_bool (b2 * p' + r') 0) eqn:E.
  - apply Qeq_bool_iff in E. assert (Z : (r' == 0)%Q) by nra. rewrite Z. field.
  - apply Qeq_bool_neq in E. field. exact E.
Qed.

Lemma single_pairs n rows pairs : Forall2 (single n) rows pairs -> forall yp, In yp pairs -> fst yp < n /\ snd yp < n.
Proof.
  induction 1 as [|r [y p] rows pairs S F IH]; intros yp I; [destruct I|]. destruct I as [<-|I]; [|apply IH; exact I].
  destruct S as (Y & P & _). split; assumption.
Qed.

Lemma class_agree m rows pairs c : (0 < m_beta m)%Q -> m_threshold m = None -> m_average m <> AMicro ->
  Forall2 (single (m_classes m)) rows pairs -> c < m_classes m ->
  (f_class m (sums_of m rows) c ==
   ConfModel.s_f (ConfModel.class_scores (m_beta m * m_beta m) (ConfModel.mcm_of (m_classes m) (conf pairs) c)))%Q.
Proof.
  intros B Th Av F C. destruct (single_sums m rows pairs c Th Av F C) as (T & P & N & _).
  destruct (mcm_counts (m_classes m) pairs c (single_pairs _ _ _ F) C) as (T' & P' & N').
  unfold ConfModel.class_scores, ConfModel.scores_of. cbn [ConfModel.s_f]. rewrite T', P', N'.
  unfold f_class. cbv zeta. apply f_score_agree; [nra|apply prf_divide_nonneg|apply prf_divide_nonneg| |].
  - rewrite <- divide_counts. apply divide_comp; [exact T|]. rewrite T, P, Qn_plus. reflexivity.
  - rewrite <- divide_counts. apply divide_comp; [exact T|]. rewrite T, N, Qn_plus. reflexivity.
Qed.

Lemma count_split (g h : nat -> nat -> bool) pairs :
  count g pairs = count (fun y p => g y p && h y p) pairs + count (fun y p => g y p && negb (h y p)) pairs.
Proof.
  unfold count. induction pairs as [|[y p] pairs IH]; [reflexivity|]. cbn [filter fst snd].
  destruct (g y p), (h y p); cbn [andb negb length]; rewrite ?IH; lia.
Qed.

Lemma support_count n pairs c : (forall yp, In yp pairs -> fst yp < n /\ snd yp < n) -> c < n ->
  ConfModel.support (ConfModel.mcm_of n (conf pairs) c) = count (fun y p => y =? c) pairs.
Proof.
  intros H C. destruct (mcm_counts n pairs c H C) as (T & _ & N). unfold ConfModel.support. rewrite T, N.
  symmetry. apply (count_split (fun y p => y =? c) (fun y p => p =? c)).
Qed.

Lemma qsum_onehot n k (f : nat -> Q) v : k < n -> (f k == v)%Q -> (forall j, j < n -> j <> k -> (f j == 0)%Q) ->
  (qsum (map f (seq 0 n)) == v)%Q.
Proof.
  revert k f. induction n as [|n IH]; intros k f K V Z; [lia|]. cbn [seq map]. rewrite qsum_cons, <- seq_shift, map_map.
  destruct k as [|k].
  - rewrite V. rewrite (qsum_ext (fun x => f (S x)) (fun _ => 0%Q)).
    + assert (E : (qsum (map (fun _ : nat => 0%Q) (seq 0 n)) == 0)%Q).
      { clear. induction (seq 0 n) as [|x l IH]; [reflexivity|]. cbn [map]. rewrite qsum_cons, IH. ring. }
      rewrite E. ring.
    + intros x I. apply in_seq in I. apply Z; lia.
  - rewrite (Z 0) by lia. rewrite (IH k (fun x => f (S x))); [ring|lia|exact V|]. intros j J Nj. apply Z; lia.
Qed.

Lemma micro_sums m rows pairs c : m_threshold m = None -> m_average m = AMicro ->
  Forall2 (single (m_classes m)) rows pairs ->
  (tp (sums_of m rows) c == Qn (count Nat.eqb pairs))%Q /\
  (fp (sums_of m rows) c == Qn (count (fun y p => negb (y =? p)%nat) pairs))%Q /\
  (fn (sums_of m rows) c == Qn (count (fun y p => negb (y =? p)%nat) pairs))%Q.
Proof.
  intros Th Av F. unfold sums_of, count, reduce. cbn [tp fp fn]. rewrite Av.
  repeat split; apply (qsum_count _ _ _ _ _ F); intros r [y p] _ S; pose proof (fun c => hit_single m r y p c Th S) as H;
    destruct S as (Y & P & W & T & _); rewrite W; cbn [weigh fst snd].
  - apply (qsum_onehot _ p); [exact P| |].
    + rewrite (H p P), (T p P), Nat.eqb_refl, (Nat.eqb_sym y p). destruct (p =? y); ring.
    + intros j J Nj. rewrite (H j J). apply Nat.eqb_neq in Nj. rewrite Nj. ring.
  - apply (qsum_onehot _ p); [exact P| |].
    + rewrite (H p P), (T p P), Nat.eqb_refl, (Nat.eqb_sym y p). destruct (p =? y); cbn [negb]; ring.
    + intros j J Nj. rewrite (H j J). apply Nat.eqb_neq in Nj. rewrite Nj. ring.
  - apply (qsum_onehot _ y); [exact Y| |].
    + rewrite (H y Y), (T y Y), Nat.eqb_refl. destruct (y =? p); cbn [negb]; ring.
    + intros j J Nj. rewrite (T j J). apply Nat.eqb_neq in Nj. rewrite Nj. ring.
Qed.

Lemma count_all pairs : length pairs = count Nat.eqb pairs + count (fun y p => negb (y =? p)) pairs.
Proof.
  unfold count. induction pairs as [|[y p] pairs IH]; [reflexivity|]. cbn [filter length fst snd].
  destruct (y =? p); cbn [negb length]; lia.
Qed.

(** Rows with one label each: the micro average is the share of rows predicted right. *)
Theorem C103_accuracy : forall m batches pairs, (0 < m_beta m)%Q -> m_threshold m = None -> m_average m = AMicro ->
  Forall2 (single (m_classes m)) (concat batches) pairs -> pairs <> [] ->
  exists x, score m (run m batches) = [x] /\
    (x == Qn (length (filter (fun yp => fst yp =? snd yp)%nat pairs)) / Qn (length pairs))%Q.
Proof.
  intros m batches pairs B Th Av F Ne. unfold score. rewrite Av. eexists. split; [reflexivity|].
  rewrite (same_f m _ _ 0 (run_sums m batches)). destruct (micro_sums m _ pairs 0 Th Av F) as (T & P & N).
  change (length (filter (fun yp => fst yp =? snd yp)%nat pairs)) with (count Nat.eqb pairs).
  assert (L : length pairs <> 0) by (intros E; apply Ne; apply length_zero_iff_nil; exact E).
  rewrite (count_all pairs) in L |- *. set (a := count Nat.eqb pairs) in *. set (e := count (fun y p => negb (y =? p)) pairs) in *.
  set (s := sums_of m (concat batches)) in *.
  pose proof (Qn_nonneg a) as A0. pose proof (Qn_nonneg e) as E0.
  destruct (f_class_value m s 0) as [Z V]; [rewrite T; exact A0|rewrite P; exact E0|rewrite N; exact E0|exact B|].
  destruct (Nat.eq_dec a 0) as [Ea|Na].
  - rewrite Z by (rewrite T, Ea; reflexivity). rewrite Ea. unfold Qdiv. change (Qn 0) with 0%Q. ring.
  - assert (A : (0 < Qn a)%Q) by (apply Qn_pos; lia). rewrite V by (rewrite T; exact A).
    unfold f_beta. rewrite T, P, N, Qn_plus. assert (Bb : (0 < m_beta m * m_beta m)%Q) by nra.
    revert Bb. generalize (m_beta m * m_beta m)%Q. intros b2 Bb. field. split; [lra|]. nra.
Qed.

Definition other_average (a : average) : ConfModel.average :=
  match a with ANone => ConfModel.ANoAverage | AMicro => ConfModel.AMicro | AMacro => ConfModel.AMacro | AWeighted => ConfModel.AWeighted end.

Lemma list_sum_Qn {A} (f : A -> nat) l : (Qn (list_sum (map f l)) == qsum (map (fun x => Qn (f x)) l))%Q.
Proof.
  induction l as [|x l IH]; [reflexivity|]. cbn [map]. rewrite qsum_cons, <- IH.
  change (list_sum (f x :: map f l)) with (f x + list_sum (map f l)). apply Qn_plus.
Qed.

(** Rows with one label each: the scores that training shows are those of the report that
    evaluates predictions. *)
Theorem C103_report : forall m batches pairs, (0 < m_beta m)%Q -> m_threshold m = None -> m_average m <> AMicro ->
  0 < m_classes m -> Forall2 (single (m_classes m)) (concat batches) pairs ->
  exists l, ConfModel.prf (m_beta m) (other_average (m_average m)) (m_classes m)
    (fun i j => length (filter (fun yp => (fst yp =? i) && (snd yp =? j)) pairs)) (seq 0 (m_classes m)) = Ok l /\
    Forall2 (fun x o => exists sc, o = Some sc /\ (x == ConfModel.s_f sc)%Q) (score m (run m batches)) l.
Proof.
  intros m batches pairs B Th Av N F.
  change (fun i j => length (filter (fun yp => (fst yp =? i) && (snd yp =? j)) pairs)) with (conf pairs).
  unfold ConfModel.prf. assert (Qle_bool (m_beta m) 0 = false) as ->.
  { apply not_true_iff_false. intros H. apply Qle_bool_iff in H. lra. }
  assert (existsb (fun l => m_classes m <=? l) (seq 0 (m_classes m)) = false) as ->.
  { apply not_true_iff_false. intros H. apply existsb_exists in H. destruct H as (x & I & H). apply in_seq in I. apply Nat.leb_le in H. lia. }
  eexists. split; [reflexivity|]. set (n := m_classes m) in *. set (b2 := (m_beta m * m_beta m)%Q).
  set (s := run m batches). set (t := sums_of m (concat batches)).
  assert (Fc : forall c, In c (seq 0 n) -> (f_class m s c == ConfModel.s_f (ConfModel.class_scores b2 (ConfModel.mcm_of n (conf pairs) c)))%Q).
  { intros c I. apply in_seq in I. unfold s. rewrite (same_f m _ _ c (run_sums m batches)). apply class_agree; auto. unfold n in I. lia. }
  unfold score. destruct (m_average m) eqn:Ea; [| congruence | |]; cbn [other_average]; fold n.
  - unfold ConfModel.prf_none. rewrite !map_map. clear - Fc. induction (seq 0 n) as [|c l IH]; [constructor|].
    constructor; [|apply IH; intros d I; apply Fc; right; exact I]. eexists. split; [reflexivity|]. apply Fc. left. reflexivity.
  - destruct (seq 0 n) as [|c0 l0] eqn:El; [apply (f_equal (@length nat)) in El; rewrite seq_length in El; cbn in El; lia|].
    constructor; [|constructor]. cbn [ConfModel.prf_macro map]. eexists. split; [reflexivity|]. cbn [ConfModel.s_f].
    change (ConfModel.mcm_of n (conf pairs) c0 :: map (ConfModel.mcm_of n (conf pairs)) l0) with (map (ConfModel.mcm_of n (conf pairs)) (c0 :: l0)).
    unfold ConfModel.prf_none. rewrite !map_map.
    change (f_class m s c0 :: map (f_class m s) l0) with (map (f_class m s) (c0 :: l0)). apply qmean_ext. exact Fc.
  - constructor; [|constructor]. eexists. split; [reflexivity|].
    assert (Wc : forall c, In c (seq 0 n) -> (wi s c == Qn (ConfModel.support (ConfModel.mcm_of n (conf pairs) c)))%Q).
    { intros c I. apply in_seq in I. rewrite support_count; [|apply (single_pairs n _ _ F)|lia]. unfold s.
      destruct (run_sums m batches c) as (_ & _ & _ & W). rewrite W. apply (single_sums m _ pairs c Th); [congruence|exact F|unfold n in I; lia]. }
    unfold ConfModel.prf_weighted, ConfModel.prf_none. rewrite !map_map.
    set (sup := fun c => ConfModel.support (ConfModel.mcm_of n (conf pairs) c)) in *.
    change (map (fun x => ConfModel.support (ConfModel.mcm_of n (conf pairs) x)) (seq 0 n)) with (map sup (seq 0 n)).
    assert (Tot : (qsum (map (wi s) (seq 0 n)) == Qn (list_sum (map sup (seq 0 n))))%Q).
    { rewrite list_sum_Qn. apply qsum_ext. intros c I. apply Wc. exact I. }
    destruct (Nat.eqb_spec (list_sum (map sup (seq 0 n))) 0) as [Z|Nz].
    + cbn [ConfModel.s_f]. rewrite Z in Tot. rewrite (qsum_ext _ (fun _ => 0 * 0)%Q).
      * rewrite (qsum_scale (fun _ => 0%Q) 0). ring.
      * intros c I. unfold divide. assert (Qeq_bool (qsum (map (wi s) (seq 0 n))) 0 = true) as ->; [apply Qeq_bool_iff; rewrite Tot; reflexivity|]. ring.
    + cbn [ConfModel.s_f]. unfold ConfModel.wmean. set (T := list_sum (map sup (seq 0 n))) in *.
      assert (NT : ~ (Qn T == 0)%Q) by (apply Qn_neq; lia).
      rewrite (qsum_ext _ (fun c => (Qn (sup c) * ConfModel.s_f (ConfModel.class_scores b2 (ConfModel.mcm_of n (conf pairs) c))) * / Qn T)%Q).
      * rewrite qsum_scale. unfold Qdiv. apply Qmult_comp; [|reflexivity].
        assert (E : forall (f : nat -> nat) (g : nat -> Q) l,
          map (fun wx => (Qn (fst wx) * snd wx)%Q) (combine (map f l) (map g l)) = map (fun c => (Qn (f c) * g c)%Q) l)
          by (intros f g l; induction l as [|c l IH]; [reflexivity|]; cbn [map combine fst snd]; rewrite IH; reflexivity).
        rewrite (E sup (fun c => ConfModel.s_f (ConfModel.class_scores b2 (ConfModel.mcm_of n (conf pairs) c)))). reflexivity.
      * intros c I. rewrite (Fc c I). rewrite (divide_comp _ (Qn (sup c)) _ (Qn T) (Wc c I) Tot).
        unfold divide. destruct (Qeq_bool (Qn T) 0) eqn:E; [apply Qeq_bool_iff in E; contradiction|]. unfold Qdiv. ring.
Qed.

(** What counts as predicted: values above the threshold, or the largest values of a row
    if they are not zero. *)
Definition predicted (m : metric) (r : row) (c : nat) : Prop :=
  match m_threshold m with
  | Some t => (t < r_pred r c)%Q
  | None => (forall d, d < m_classes m -> (r_pred r d <= r_pred r c)%Q) /\ (1 # 1000000000000 < Qabs (r_pred r c))%Q
  end.

Lemma hit_predicted m r c : c < m_classes m ->
  (predicted m r c /\ hit m (r_pred r) c = 1%Q) \/ (~ predicted m r c /\ hit m (r_pred r) c = 0%Q).
Proof.
  intros C. unfold predicted, hit. destruct (m_threshold m) as [t|].
  - destruct (Qle_bool (r_pred r c) t) eqn:E; [right|left]; split; auto.
    + apply Qle_bool_iff in E. lra.
    + apply Qnot_le_lt. intros F. apply Qle_bool_iff in F. congruence.
  - assert (N : 0 < m_classes m) by lia. destruct (row_max_spec (m_classes m) (r_pred r) N) as [U L].
    destruct (Qle_bool (row_max (m_classes m) (r_pred r)) (r_pred r c)) eqn:E1.
    + apply Qle_bool_iff in E1. destruct (Qle_bool (Qabs (r_pred r c)) (1 # 1000000000000)) eqn:E2; cbn [andb negb].
      * right. split; [|reflexivity]. apply Qle_bool_iff in E2. intros [_ F]. lra.
      * left. split; [|reflexivity]. split; [intros d D; specialize (U d D); lra|].
        apply Qnot_le_lt. intros F. apply Qle_bool_iff in F. congruence.
    + right. split; [|reflexivity]. intros [F _]. specialize (L _ F). apply Qle_bool_iff in L. congruence.
Qed.

(** The score of a class, from the weights of the rows: [w] is the weight of a row and
    [h] says what counts as predicted. *)
Theorem C103_value : forall m batches (h : row -> nat -> bool), (0 < m_beta m)%Q -> m_average m <> AMicro ->
  (forall r, In r (concat batches) -> row_ok (m_classes m) r) ->
  (forall r c, In r (concat batches) -> c < m_classes m -> (h r c = true <-> predicted m r c)) ->
  forall c, c < m_classes m ->
  let w := fun r => match r_weight r with Some x => x | None => 1%Q end in
  let T := qsum (map (fun r => if h r c then (w r * r_true r c)%Q else 0%Q) (concat batches)) in
  let P := qsum (map (fun r => if h r c then (w r * (1 - r_true r c))%Q else 0%Q) (concat batches)) in
  let N := qsum (map (fun r => if h r c then 0%Q else (w r * r_true r c)%Q) (concat batches)) in
  let b2 := (m_beta m * m_beta m)%Q in
  (T == 0 -> f_class m (run m batches) c == 0)%Q /\
  (0 < T -> f_class m (run m batches) c == (1 + b2) * T / ((1 + b2) * T + b2 * N + P))%Q.
Proof.
  intros m batches h B Av R H c C w T P N b2. set (rows := concat batches) in *.
  rewrite !(same_f m _ _ c (run_sums m batches)). fold rows.
  destruct (sums_nonneg m rows c R (or_intror C)) as (T0 & P0 & N0 & _).
  assert (E : forall f, reduce m rows f c = qsum (map (fun r => weigh (r_weight r) (f r c)) rows))
    by (intros f; unfold reduce; destruct (m_average m); try reflexivity; congruence).
  assert (G : forall r, In r rows -> hit m (r_pred r) c = if h r c then 1%Q else 0%Q).
  { intros r I. specialize (H r c I C). destruct (hit_predicted m r c C) as [[A1 A2]|[A1 A2]]; rewrite A2.
    - apply H in A1. rewrite A1. reflexivity.
    - destruct (h r c); [exfalso; apply A1, H; reflexivity|reflexivity]. }
  assert (W : forall r v, (weigh (r_weight r) v == w r * v)%Q)
    by (intros r v; unfold w; destruct (r_weight r); cbn [weigh]; ring).
  assert (ET : (tp (sums_of m rows) c == T)%Q).
  { unfold sums_of. cbn [tp]. rewrite E. apply qsum_ext. intros r I. rewrite W, (G r I). destruct (h r c); ring. }
  assert (EP : (fp (sums_of m rows) c == P)%Q).
  { unfold sums_of. cbn [fp]. rewrite E. apply qsum_ext. intros r I. rewrite W, (G r I). destruct (h r c); ring. }
  assert (EN : (fn (sums_of m rows) c == N)%Q).
  { unfold sums_of. cbn [fn]. rewrite E. apply qsum_ext. intros r I. rewrite W, (G r I). destruct (h r c); ring. }
  destruct (f_class_value m (sums_of m rows) c T0 P0 N0 B) as [Z V]. split.
  - intros F. apply Z. rewrite ET. exact F.
  - intros F. rewrite V by (rewrite ET; exact F). unfold f_beta. rewrite ET, EP, EN. reflexivity.
Qed.

(** Averages: of all classes alike, or by the weights of the classes. *)
Theorem C103_averages : forall m batches,
  let s := run m batches in let n := m_classes m in
  match m_average m with
  | ANone => Forall2 Qeq (score m s) (map (f_class m s) (seq 0 n))
  | AMicro => length (score m s) = 1
  | AMacro => exists x, score m s = [x] /\ (0 < n -> (x * Qn n == qsum (map (f_class m s) (seq 0 n)))%Q)
  | AWeighted => exists x, score m s = [x] /\
      let w := fun c => qsum (map (fun r => match r_weight r with Some v => (v * r_true r c)%Q | None => r_true r c end) (concat batches)) in
      let t := qsum (map w (seq 0 n)) in
      (t == 0 -> x == 0)%Q /\ (~ t == 0 -> x * t == qsum (map (fun c => f_class m s c * w c) (seq 0 n)))%Q
  end.
Proof.
  intros m batches. cbv zeta. unfold score. destruct (m_average m) eqn:Ea.
  - induction (map (f_class m (run m batches)) (seq 0 (m_classes m))); constructor; [reflexivity|assumption].
  - reflexivity.
  - eexists. split; [reflexivity|]. intros N. unfold qmean. rewrite map_length, seq_length.
    rewrite Qmult_comm. apply Qmult_div_r. apply Qn_neq. exact N.
  - eexists. split; [reflexivity|]. set (s := run m batches). set (cs := seq 0 (m_classes m)).
    set (w := fun c => qsum (map (fun r => match r_weight r with Some v => (v * r_true r c)%Q | None => r_true r c end) (concat batches))).
    assert (W : forall c, (wi s c == w c)%Q).
    { intros c. destruct (run_sums m batches c) as (_ & _ & _ & E). unfold s. rewrite E. unfold sums_of, reduce. cbn [wi]. rewrite Ea.
      apply qsum_ext. intros r _. unfold weigh. destruct (r_weight r); [ring|reflexivity]. }
    assert (Tt : (qsum (map (wi s) cs) == qsum (map w cs))%Q) by (apply qsum_ext; intros c _; apply W).
    change (map (fun c => qsum (map (fun r => match r_weight r with Some v => (v * r_true r c)%Q | None => r_true r c end) (concat batches))) cs) with (map w cs).
    set (t := qsum (map w cs)) in *. split.
    + intros Z. rewrite (qsum_ext _ (fun _ => 0 * 0)%Q); [rewrite (qsum_scale (fun _ => 0%Q) 0); ring|].
      intros c _. unfold divide. assert (Qeq_bool (qsum (map (wi s) cs)) 0 = true) as -> by (apply Qeq_bool_iff; rewrite Tt; exact Z). ring.
    + intros Nz. rewrite <- (qsum_scale _ t). apply qsum_ext. intros c _. rewrite (divide_comp _ (w c) _ t (W c) Tt). unfold divide.
      destruct (Qeq_bool t 0) eqn:E; [apply Qeq_bool_iff in E; contradiction|].
      transitivity (f_class m s c * w c)%Q; [field; exact Nz|reflexivity].
Qed.

(** What the constructor accepts *)
Theorem C103_make : forall n avg beta threshold,
  let fits := match threshold with None => True | Some (FFloat t) => (0 < t /\ t <= 1)%Q | Some FOther => False end in
  (exists m, make n avg beta threshold = Ok m) <-> (avg <> AvgOther /\ (exists b, beta = FFloat b /\ (0 < b)%Q) /\ fits).
Proof.
  intros n avg beta threshold. cbv zeta. unfold make. destruct avg as [a|]; [|split; [intros (m & H); discriminate H|intros (H & _); congruence]].
  destruct beta as [b|]; [|split; [intros (m & H); discriminate H|intros (_ & (b & H & _) & _); discriminate H]].
  destruct (Qle_bool b 0) eqn:E.
  { apply Qle_bool_iff in E. split; [intros (m & H); discriminate H|intros (_ & (b' & H & L) & _)]. injection H as <-. exfalso. lra. }
  assert (B : (0 < b)%Q) by (apply Qnot_le_lt; intros F; apply Qle_bool_iff in F; congruence).
  destruct threshold as [[t|]|].
  - destruct (Qle_bool t 1) eqn:E1, (Qle_bool t 0) eqn:E2; cbn [negb orb].
    + apply Qle_bool_iff in E2. split; [intros (m & H); discriminate H|intros (_ & _ & F & _); exfalso; lra].
    + apply Qle_bool_iff in E1. split; [intros _|eexists; reflexivity]. split; [discriminate|]. split; [exists b; auto|].
      split; [|exact E1]. apply Qnot_le_lt. intros F. apply Qle_bool_iff in F. congruence.
    + split; [intros (m & H); discriminate H|]. intros (_ & _ & _ & F). apply Qle_bool_iff in F. congruence.
    + split; [intros (m & H); discriminate H|]. intros (_ & _ & _ & F). apply Qle_bool_iff in F. congruence.
  - split; [intros (m & H); discriminate H|]. intros (_ & _ & []).
  - split; [intros _|eexists; reflexivity]. split; [discriminate|]. split; [exists b; auto|exact I].
Qed.

(** The metric made is as asked for. *)
Theorem C103_made : forall n avg beta threshold m, make n avg beta threshold = Ok m ->
  m_classes m = n /\ avg = AvgOk (m_average m) /\ beta = FFloat (m_beta m) /\ threshold = option_map FFloat (m_threshold m).
Proof.
  intros n avg beta threshold m. unfold make. destruct avg as [a|]; [|discriminate]. destruct beta as [b|]; [|discriminate].
  destruct (Qle_bool b 0); [discriminate|]. destruct threshold as [[t|]|]; [|discriminate|].
  - destruct (negb (Qle_bool t 1) || Qle_bool t 0); [discriminate|]. intros H. injection H as <-. auto.
  - intros H. injection H as <-. auto.
Qed.

(** Types are checked before values: which error *)
Theorem C103_make_errors : forall n avg beta threshold e, make n avg beta threshold = Err e ->
  (e = TypeError <-> avg <> AvgOther /\ (beta = FOther \/ ((exists b, beta = FFloat b /\ (0 < b)%Q) /\ threshold = Some FOther))) /\
  (e = TypeError \/ e = ValueError).
Proof.
  intros n avg beta threshold e. unfold make. destruct avg as [a|].
  2: { intros H. injection H as <-. split; [split; [discriminate|intros [H _]; congruence]|auto]. }
  destruct beta as [b|].
  2: { intros H. injection H as <-. split; [split; [intros _; split; [discriminate|auto]|reflexivity]|auto]. }
  destruct (Qle_bool b 0) eqn:E.
  { intros H. injection H as <-. split; [split; [discriminate|]|auto]. intros (_ & [H|((b' & H & L) & _)]); [discriminate H|].
    injection H as <-. apply Qle_bool_iff in E. exfalso. lra. }
  destruct threshold as [[t|]|]; [| |discriminate].
  - destruct (negb (Qle_bool t 1) || Qle_bool t 0); [|discriminate]. intros H. injection H as <-.
    split; [split; [discriminate|]|auto]. intros (_ & [H|(_ & H)]); discriminate H.
  - intros H. injection H as <-. split; [split; [intros _|reflexivity]|auto]. split; [discriminate|]. right. split; [|reflexivity].
    exists b. split; [reflexivity|]. apply Qnot_le_lt. intros F. apply Qle_bool_iff in F. congruence.
Qed.

(** ** Examples *)
Definition row_of (t p : list Q) : row := mkRow (fun c => nth c t 0%Q) (fun c => nth c p 0%Q) None.

(** Three classes, one row wrong: scores by class, micro, macro and weighted *)
Definition ex_rows : list row :=
  [row_of [1; 0; 0] [7 # 10; 2 # 10; 1 # 10]; row_of [0; 1; 0] [2 # 10; 5 # 10; 3 # 10];
   row_of [0; 1; 0] [6 # 10; 3 # 10; 1 # 10]; row_of [0; 0; 1] [0; 1 # 10; 9 # 10]]%Q.
Example C103_example :
  map (fun a => map Qred (score (mkMetric 3 a 1 None) (run (mkMetric 3 a 1 None) [ex_rows]))) [ANone; AMicro; AMacro; AWeighted] =
  [[2 # 3; 2 # 3; 1]; [3 # 4]; [7 # 9]; [3 # 4]]%Q.
Proof. vm_compute. reflexivity. Qed.
Example C103_example_single : Forall2 (single 3) ex_rows [(0, 0); (1, 1); (1, 0); (2, 2)].
Proof.
  repeat (constructor; [split; [lia|split; [lia|split; [reflexivity|split; [|split; [|reflexivity]]]]];
    intros c C; (do 3 (destruct c as [|c]; [try (intros X; congruence); reflexivity|])); lia|]). constructor.
Qed.

(** "All rows right give the score 1" does not hold of macro averages: a class without rows counts as 0. *)
Theorem C103_perfect_macro_refuted : exists m rows, (0 < m_beta m)%Q /\ m_average m = AMacro /\ m_threshold m = None /\
  Forall2 (single (m_classes m)) rows [(0, 0); (1, 1)] /\ Forall2 Qeq (score m (run m [rows])) [(2 # 3)%Q].
Proof.
  exists (mkMetric 3 AMacro 1 None), [row_of [1; 0; 0] [1; 0; 0]; row_of [0; 1; 0] [0; 1; 0]]%Q.
  split; [reflexivity|]. split; [reflexivity|]. split; [reflexivity|]. split.
  - cbn [m_classes]. repeat (constructor; [split; [lia|split; [lia|split; [reflexivity|split; [|split; [|reflexivity]]]]];
      intros c C; (do 3 (destruct c as [|c]; [try (intros X; congruence); reflexivity|])); lia|]). constructor.
  - constructor; [vm_compute; reflexivity|constructor].
Qed.

(** "A row has one prediction" does not hold: classes with the same largest value all count,
    and a row of zeros has none. *)
Theorem C103_one_prediction_refuted : forall n, exists m tied zeros, m_classes m = n /\ m_threshold m = None /\
  (forall c, c < n -> hit m (r_pred tied) c = 1%Q /\ hit m (r_pred zeros) c = 0%Q).
Proof.
  intros n. exists (mkMetric n ANone 1 None), (mkRow (fun _ => 0%Q) (fun _ => 1%Q) None), (mkRow (fun _ => 0%Q) (fun _ => 0%Q) None).
  split; [reflexivity|]. split; [reflexivity|]. intros c C. split.
  - destruct (hit_predicted (mkMetric n ANone 1 None) (mkRow (fun _ => 0%Q) (fun _ => 1%Q) None) c C) as [[_ H]|[H _]]; [exact H|].
    exfalso. apply H. unfold predicted. cbn. split; [intros; apply Qle_refl|reflexivity].
  - destruct (hit_predicted (mkMetric n ANone 1 None) (mkRow (fun _ => 0%Q) (fun _ => 0%Q) None) c C) as [[H _]|[_ H]]; [|exact H].
    exfalso. unfold predicted in H. cbn in H. destruct H as [_ H]. discriminate H.
Qed.
