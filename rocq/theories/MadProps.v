(** * C108: the median absolute deviation is the radius of half the mass *)
From Verif Require Import PyCommon QFacts ListFacts HistModel HistProofs HistProofs2 HistProofs3 MadModel.
From Coq Require Import Sorted.
Open Scope nat_scope.

(** ** What is claimed *)
(** The part of the bin from [a] to [b] that is left of [t], with values spread evenly *)
Definition frac (a b t : Q) : Q :=
  if Qle_bool t a then 0%Q else if Qle_bool b t then 1%Q else ((t - a) / (b - a))%Q.

(** Sum over the bins: share, left and right edge *)
Fixpoint bsum (g : Q -> Q -> Q -> Q) (cs es : list Q) : Q :=
  match cs, es with
  | c :: cs', a :: ((b :: _) as es') => (g c a b + bsum g cs' es')%Q
  | _, _ => 0%Q
  end.

(** The share of the values from [x] to [y] *)
Definition mass (h : hist) (x y : Q) : Q :=
  bsum (fun c a b => (c * (frac a b y - frac a b x))%Q) (shares (h_counts h)) (h_edges h).

(** Bins of one width *)
Definition regular (w : Q) (l : list Q) : Prop :=
  forall k x y, nth_error l k = Some x -> nth_error l (S k) = Some y -> (y - x == w)%Q.

(** ** Bins *)
Lemma frac_left a b t : (t <= a)%Q -> frac a b t = 0%Q.
Proof. intros H. unfold frac. apply Qle_bool_iff in H. rewrite H. reflexivity. Qed.
Lemma frac_right a b t : (a < b)%Q -> (b <= t)%Q -> frac a b t = 1%Q.
Proof.
  intros H K. unfold frac. assert (E : Qle_bool t a = false) by (apply Qle_bool_false; lra). rewrite E.
  apply Qle_bool_iff in K. rewrite K. reflexivity.
Qed.
Lemma frac_mid a b t : (a < b)%Q -> (a <= t <= b)%Q -> (frac a b t == (t - a) / (b - a))%Q.
Proof.
  intros H [K1 K2]. unfold frac. destruct (Qle_bool t a) eqn:E1.
  - apply Qle_bool_iff in E1. assert (E : (t - a == 0)%Q) by lra. rewrite E. field. lra.
  - destruct (Qle_bool b t) eqn:E2; [|reflexivity]. apply Qle_bool_iff in E2.
    assert (E : (t - a == b - a)%Q) by lra. rewrite E. field. lra.
Qed.
Lemma frac_cases a b t : (a < b)%Q ->
  ((t <= a)%Q /\ frac a b t = 0%Q) \/ ((b <= t)%Q /\ frac a b t = 1%Q) \/
  ((a < t < b)%Q /\ frac a b t = ((t - a) / (b - a))%Q).
Proof.
  intros H. unfold frac. destruct (Qle_bool t a) eqn:E1; [apply Qle_bool_iff in E1; auto|].
  apply Qle_bool_false in E1. destruct (Qle_bool b t) eqn:E2.
  - apply Qle_bool_iff in E2. auto.
  - apply Qle_bool_false in E2. right; right. split; [lra|reflexivity].
Qed.

Lemma frac_mono a b x y : (a < b)%Q -> (x <= y)%Q -> (frac a b x <= frac a b y)%Q.
Proof.
  intros H L. assert (R : forall t, (a < t < b)%Q -> (0 <= (t - a) / (b - a) <= 1)%Q).
  { intros t T. split; [apply Qle_shift_div_l|apply Qle_shift_div_r]; lra. }
  destruct (frac_cases a b x H) as [[A ->]|[[A ->]|[A ->]]], (frac_cases a b y H) as [[B ->]|[[B ->]|[B ->]]];
    try lra; try (specialize (R _ A); lra); try (specialize (R _ B); lra).
  apply Qmult_le_compat_r; [lra|]. apply Qlt_le_weak, Qinv_lt_0_compat. lra.
Qed.

Lemma frac_shift a b v t : (a < b)%Q -> (frac (a - v) (b - v) t == frac a b (v + t))%Q.
Proof.
  intros H. assert (H' : (a - v < b - v)%Q) by lra.
  destruct (frac_cases a b (v + t) H) as [[A ->]|[[A ->]|[A ->]]].
  - rewrite frac_left by lra. reflexivity.
  - rewrite frac_right by lra. reflexivity.
  - rewrite frac_mid by lra. field; lra.
Qed.

Lemma frac_flip a b v t : (a < b)%Q -> (frac (- (b - v)) (- (a - v)) t == 1 - frac a b (v - t))%Q.
Proof.
  intros H. assert (H' : (- (b - v) < - (a - v))%Q) by lra.
  destruct (frac_cases a b (v - t) H) as [[A ->]|[[A ->]|[A ->]]].
  - rewrite frac_right by lra. reflexivity.
  - rewrite frac_left by lra. reflexivity.
  - rewrite frac_mid by lra. field; lra.
Qed.

Lemma frac_affine a b x y t : (a < b)%Q -> (x < y)%Q -> (x <= t <= y)%Q ->
  (a <= x \/ y <= a)%Q -> (b <= x \/ y <= b)%Q ->
  (frac a b t == frac a b x + (frac a b y - frac a b x) / (y - x) * (t - x))%Q.
Proof.
  intros H L T A B. destruct B as [B|B].
  - rewrite !frac_right by lra. field. lra.
  - destruct A as [A|A].
    + rewrite !frac_mid by lra. field. lra.
    + rewrite !frac_left by lra. field. lra.
Qed.

(** Edges that increase from [x] *)
Fixpoint inc (x : Q) (l : list Q) : Prop :=
  match l with [] => True | y :: r => (x < y)%Q /\ inc y r end.
Lemma inc_all l : forall x, inc x l -> forall y, In y l -> (x < y)%Q.
Proof.
  induction l as [|z r IH]; intros x H y I; [contradiction|]. destruct H as [H1 H2].
  destruct I as [->|I]; [exact H1|]. specialize (IH _ H2 _ I). lra.
Qed.

(** ** Cumulated counts, interpolated *)
Lemma interp_cum cs : forall es x0 f0 t, length es = length cs -> inc x0 es -> (x0 <= t)%Q ->
  (interp_from x0 f0 (combine es (cumsum f0 cs)) t ==
   f0 + bsum (fun c a b => c * frac a b t) cs (x0 :: es))%Q.
Proof.
  induction cs as [|c cs IH]; intros [|x1 es] x0 f0 t L I T; try discriminate; cbn [cumsum combine interp_from].
  - cbn [bsum]. lra.
  - cbn [bsum] in *. destruct I as [I1 I2]. cbn [length] in L.
    assert (Z : forall cs es x0, inc x0 es -> (t <= x0)%Q -> (bsum (fun c a b => c * frac a b t) cs (x0 :: es) == 0)%Q).
    { clear. induction cs as [|c cs IH]; intros [|y es] x0 I G; cbn [bsum]; try reflexivity.
      destruct I as [I1 I2]. rewrite frac_left by lra. rewrite IH by (auto; lra). ring. }
    destruct (Qle_bool x1 t) eqn:E.
    + apply Qle_bool_iff in E. rewrite IH by (auto; lia). rewrite (frac_right x0 x1 t) by lra. ring.
    + apply Qle_bool_false in E. rewrite (Z cs es x1 I2) by lra. rewrite frac_mid by lra. field. lra.
Qed.

(** The function of [t] that a part of the histogram gives *)
Definition upto (cs es : list Q) (t : Q) : Q := bsum (fun c a b => (c * frac a b t)%Q) cs es.

Lemma interp_upto cs e0 es t : length es = length cs -> inc e0 es -> (e0 <= t)%Q ->
  (interp (combine (e0 :: es) (cumsum 0 (0%Q :: cs))) t == upto cs (e0 :: es) t)%Q.
Proof.
  intros L I T. cbn [cumsum combine interp]. apply Qle_bool_iff in T. rewrite T. apply Qle_bool_iff in T.
  change (0 + 0)%Q with 0%Q. rewrite interp_cum by assumption. unfold upto. lra.
Qed.

Lemma upto_mono cs : forall e0 es x y, Forall (fun c => 0 <= c)%Q cs -> inc e0 es -> (x <= y)%Q ->
  (upto cs (e0 :: es) x <= upto cs (e0 :: es) y)%Q.
Proof.
  unfold upto. induction cs as [|c cs IH]; intros e0 [|e1 es] x y F I L; cbn [bsum]; try lra.
  inversion F; subst. destruct I as [I1 I2]. specialize (IH e1 es x y H2 I2 L).
  pose proof (frac_mono e0 e1 x y I1 L). nra.
Qed.

Lemma upto_affine cs : forall e0 es x y t, inc e0 es -> (x < y)%Q -> (x <= t <= y)%Q ->
  (forall k, In k (e0 :: es) -> (k <= x \/ y <= k)%Q) ->
  (upto cs (e0 :: es) t == upto cs (e0 :: es) x + (upto cs (e0 :: es) y - upto cs (e0 :: es) x) / (y - x) * (t - x))%Q.
Proof.
  unfold upto. induction cs as [|c cs IH]; intros e0 [|e1 es] x y t I L T K; cbn [bsum].
  1-3: field; lra.
  destruct I as [I1 I2]. specialize (IH e1 es x y t I2 L T (fun k H => K k (or_intror H))). rewrite IH.
  rewrite (frac_affine e0 e1 x y t I1 L T (K e0 (or_introl eq_refl)) (K e1 (or_intror (or_introl eq_refl)))).
  field. lra.
Qed.

Lemma upto_start cs : forall e0 es t, inc e0 es -> (t <= e0)%Q -> (upto cs (e0 :: es) t == 0)%Q.
Proof.
  unfold upto. induction cs as [|c cs IH]; intros e0 [|e1 es] t I L; cbn [bsum]; try reflexivity.
  destruct I as [I1 I2]. rewrite frac_left by lra. rewrite (IH e1 es t I2) by lra. ring.
Qed.

Lemma upto_end cs : forall e0 es t, length es = length cs -> inc e0 es -> (forall k, In k es -> (k <= t)%Q) ->
  (upto cs (e0 :: es) t == qsum cs)%Q.
Proof.
  unfold upto. induction cs as [|c cs IH]; intros e0 [|e1 es] t LE I K; try discriminate; cbn [bsum]; [reflexivity|].
  destruct I as [I1 I2]. rewrite frac_right by (auto; apply K; left; reflexivity).
  rewrite (IH e1 es t) by (auto; intros; apply K; right; assumption). rewrite qsum_cons. ring.
Qed.

(** ** Superimposed edges *)
Fixpoint gaps (lo : Q) (l : list Q) : Prop :=
  match l with [] => True | x :: r => ((x - lo == 0)%Q \/ (gap < x - lo)%Q) /\ gaps x r end.

Lemma thin_spec l : forall prev lo, (prev == lo)%Q -> gaps prev l ->
  StronglySorted Qlt (lo :: thin prev l) /\
  (forall x, In x l -> (x == lo)%Q \/ exists z, In z (thin prev l) /\ (z == x)%Q).
Proof.
  induction l as [|x r IH]; intros prev lo E G; cbn [thin].
  - split; [repeat constructor|]. intros x [].
  - destruct G as [G1 G2]. destruct (Qle_bool (x - prev) gap) eqn:B.
    + apply Qle_bool_iff in B. destruct G1 as [G1|G1]; [|lra].
      destruct (IH x lo ltac:(lra) G2) as [S K]. split; [exact S|]. intros y [<-|I]; [left; lra|apply K; exact I].
    + apply Qle_bool_false in B. assert (L : (lo < x)%Q) by (unfold gap in B; lra).
      destruct (IH x x ltac:(lra) G2) as [S K]. split.
      * constructor; [exact S|]. inversion S; subst. constructor; [exact L|].
        eapply Forall_impl; [|exact H2]. cbn. intros; lra.
      * intros y [<-|I]; [right; exists x; split; [left; reflexivity|reflexivity]|].
        destruct (K y I) as [K1|(z & Z1 & Z2)].
        -- right. exists x. split; [left; reflexivity|lra].
        -- right. exists z. split; [right; exact Z1|exact Z2].
Qed.

Fixpoint steps (w x : Q) (l : list Q) : Prop :=
  match l with [] => True | y :: r => (y - x == w)%Q /\ steps w y r end.
Lemma steps_inc w l : (0 < w)%Q -> forall x, steps w x l -> inc x l.
Proof. intros W. induction l as [|y r IH]; intros x H; cbn in *; auto. destruct H as [H1 H2]. split; [lra|auto]. Qed.
Lemma steps_gaps w l : (gap < w)%Q -> forall x, steps w x l -> gaps x l.
Proof. intros W. induction l as [|y r IH]; intros x H; cbn in *; auto. destruct H as [H1 H2]. split; [right; lra|auto]. Qed.

Lemma in_interleave a : forall b x, In x (interleave a b) <-> In x a \/ In x b.
Proof.
  induction a as [|y r IH]; intros [|z s] x; cbn [interleave In]; try tauto. rewrite IH. tauto.
Qed.

Lemma interleave_gaps w : (gap < w)%Q -> forall a b x y prev,
  steps w x a -> steps w y b -> (x <= y)%Q -> (gap < x + w - y)%Q ->
  (y - x == 0 \/ gap < y - x)%Q -> (x - prev == 0 \/ gap < x - prev)%Q ->
  gaps prev (interleave (x :: a) (y :: b)).
Proof.
  intros W. induction a as [|x' a IH]; intros [|y' b] x y prev A B L G1 G2 G3.
  - cbn. tauto.
  - cbn [interleave gaps]. split; [exact G3|]. split; [exact G2|]. apply (steps_gaps w (y' :: b) W y B).
  - change (interleave (x :: x' :: a) [y]) with (x :: y :: x' :: a). cbn [gaps]. destruct A as [A1 A2].
    split; [exact G3|]. split; [exact G2|]. split; [right; lra|]. apply (steps_gaps w a W x' A2).
  - change (interleave (x :: x' :: a) (y :: y' :: b)) with (x :: y :: interleave (x' :: a) (y' :: b)).
    cbn [gaps]. destruct A as [A1 A2], B as [B1 B2].
    split; [exact G3|]. split; [exact G2|]. apply IH; auto; lra.
Qed.

(** ** Going back from one half to an edge *)
Fixpoint chain (g : Q -> Q) (x : Q) (l : list Q) : Prop :=
  match l with
  | [] => True
  | y :: r => (x < y)%Q /\ (forall t, (x <= t <= y)%Q -> (g t == g x + (g y - g x) / (y - x) * (t - x))%Q) /\ chain g y r
  end.

Lemma inverse (g : Q -> Q) (g' : Q -> Q) : forall l x,
  (forall y, In y (x :: l) -> (g' y == g y)%Q) -> chain g x l -> (g x <= 1 # 2)%Q ->
  (exists z, In z l /\ ((1 # 2) < g z)%Q) ->
  let m := interp_from (g' x) x (combine (map g' l) l) (1 # 2) in
  (g m == 1 # 2)%Q /\ (x <= m)%Q.
Proof.
  induction l as [|y r IH]; intros x E C L (z & Z1 & Z2); [contradiction|].
  cbn [map combine interp_from]. destruct C as (C1 & C2 & C3).
  assert (Ex : (g' x == g x)%Q) by (apply E; left; reflexivity).
  assert (Ey : (g' y == g y)%Q) by (apply E; right; left; reflexivity).
  destruct (Qle_bool (g' y) (1 # 2)) eqn:B.
  - apply Qle_bool_iff in B.
    destruct (IH y) as [I1 I2]; auto.
    + intros u U. apply E. right; exact U.
    + lra.
    + destruct Z1 as [->|Z1]; [lra|]. exists z; auto.
    + split; [exact I1|lra].
  - apply Qle_bool_false in B. cbv zeta.
    set (m := (x + (y - x) / (g' y - g' x) * ((1 # 2) - g' x))%Q).
    assert (Em : (m == x + (y - x) * (((1 # 2) - g x) / (g y - g x)))%Q).
    { unfold m. rewrite Ex, Ey. field. lra. }
    assert (R : (0 <= ((1 # 2) - g x) / (g y - g x) <= 1)%Q).
    { split; [apply Qle_shift_div_l|apply Qle_shift_div_r]; lra. }
    assert (T : (x <= m <= y)%Q) by (rewrite Em; nra).
    split; [|lra]. rewrite (C2 m T), Em. field. split; lra.
Qed.

Lemma chain_intro (g : Q -> Q) (K : list Q) :
  (forall x y t, (x < y)%Q -> (x <= t <= y)%Q -> (forall k, In k K -> (k <= x \/ y <= k)%Q) ->
     (g t == g x + (g y - g x) / (y - x) * (t - x))%Q) ->
  forall l x, StronglySorted Qlt (x :: l) ->
  (forall k, In k K -> (k <= x)%Q \/ exists z, In z l /\ (z == k)%Q) -> chain g x l.
Proof.
  intros A. induction l as [|y r IH]; intros x S C; cbn [chain]; [exact I|].
  inversion S as [|? ? S1 S2]; subst. inversion S2 as [|? ? S3 S4]; subst. inversion S1 as [|? ? S5 S6]; subst.
  rewrite Forall_forall in S6. split; [exact S3|]. split.
  - intros t T. apply A; auto. intros k Hk. destruct (C k Hk) as [?|(z & [->|Z] & E)]; [left; lra|right; lra|].
    right. specialize (S6 z Z). lra.
  - apply IH; auto. intros k Hk. destruct (C k Hk) as [?|(z & [->|Z] & E)]; [left; lra|left; lra|]. right; exists z; auto.
Qed.

(** ** Means *)
Lemma qmean_between l : l <> [] -> exists x y, is_min x l /\ is_max y l /\ (x <= qmean l <= y)%Q.
Proof.
  destruct l as [|a r]; [congruence|]. intros _.
  destruct (list_min_is_min r a) as [M1 M2]. destruct (list_max_is_max r a) as [X1 X2].
  set (lo := list_min a r) in *. set (hi := list_max a r) in *. exists lo, hi. split; [split; assumption|]. split; [split; assumption|].
  assert (B : forall l, (forall x, In x l -> (lo <= x <= hi)%Q) -> (lo * Qn (length l) <= qsum l <= hi * Qn (length l))%Q).
  { clearbody lo hi. clear. intros l. induction l as [|x q IH]; intros H; [change (Qn (length (@nil Q))) with 0%Q; change (qsum []) with 0%Q; lra|]. rewrite qsum_cons. cbn [length]. rewrite Qn_S.
    pose proof (H x (or_introl eq_refl)). specialize (IH (fun y Y => H y (or_intror Y))). lra. }
  specialize (B (a :: r) (fun x X => conj (M2 x X) (X2 x X))).
  assert (P : (0 < Qn (length (a :: r)))%Q) by (apply Qn_pos; cbn; lia).
  unfold qmean. split; [apply Qle_shift_div_l|apply Qle_shift_div_r]; auto; apply B.
Qed.

Lemma sorted_some (P : Q * Q -> bool) l : forall fs, StronglySorted Qlt l ->
  StronglySorted Qlt (map snd (filter P (combine fs l))).
Proof.
  induction l as [|x r IH]; intros [|f fs] S; cbn [combine filter map]; try constructor.
  inversion S as [|? ? S1 S2]; subst. destruct (P (f, x)); cbn [map]; [|apply IH; exact S1].
  constructor; [apply IH; exact S1|]. rewrite Forall_forall in *. intros y Y. apply S2.
  apply in_map_iff in Y. destruct Y as ([a b] & <- & Y). apply filter_In in Y. destruct Y as [Y _].
  apply in_combine_r in Y. exact Y.
Qed.

(** ** The superimposed parts *)
Lemma qabs_lt q e : (qabs q < e)%Q <-> (- e < q < e)%Q.
Proof.
  unfold qabs. destruct (Qle_bool 0 q) eqn:B; [apply Qle_bool_iff in B|apply Qle_bool_false in B]; split; intros; lra.
Qed.

Lemma superimpose_spec w (cp cn : list Q) z p1 ep z' n1 en :
  (gap < w)%Q -> (z == 0)%Q -> (z' == 0)%Q ->
  (gap < p1)%Q -> (p1 <= w)%Q -> (gap < n1)%Q -> (n1 <= w)%Q -> (p1 == n1 \/ gap < p1 - n1 \/ gap < n1 - p1)%Q ->
  steps w p1 ep -> steps w n1 en ->
  length (p1 :: ep) = length cp -> length (n1 :: en) = length cn ->
  Forall (fun c => 0 <= c)%Q cp -> Forall (fun c => 0 <= c)%Q cn -> (qsum cp + qsum cn == 1)%Q ->
  let g := fun t => (upto cp (z :: p1 :: ep) t + upto cn (z' :: n1 :: en) t)%Q in
  exists m, superimpose (cp, z :: p1 :: ep) (cn, z' :: n1 :: en) = Ok m /\ (0 <= m)%Q /\
    (- (1 # 10000000000) < g m - (1 # 2) < (1 # 10000000000))%Q /\
    ((g m == 1 # 2)%Q \/
     exists x y, (0 <= x < y)%Q /\ (x <= m <= y)%Q /\
       forall t, (x <= t <= y)%Q -> (- (1 # 10000000000) < g t - (1 # 2) < (1 # 10000000000))%Q).
Proof.
  intros W Z Z' P1 P2 N1 N2 PN SP SN LP LN FP FN TOT g.
  assert (W0 : (0 < gap)%Q) by reflexivity.
  assert (IP : inc z (p1 :: ep)) by (split; [lra|apply (steps_inc w); [lra|exact SP]]).
  assert (IN : inc z' (n1 :: en)) by (split; [lra|apply (steps_inc w); [lra|exact SN]]).
  unfold superimpose. cbn [snd fst nth_error].
  set (g' := fun e => (interp (combine (z :: p1 :: ep) (cumsum 0 (0%Q :: cp))) e
                       + interp (combine (z' :: n1 :: en) (cumsum 0 (0%Q :: cn))) e)%Q).
  set (l := tl _).
  assert (HL : exists e0 r, l = e0 :: r /\ (e0 == 0)%Q /\ gaps e0 r /\
                (forall k, In k (z :: p1 :: ep) \/ In k (z' :: n1 :: en) -> (k == 0)%Q \/ In k r)).
  { unfold l. destruct (Qle_bool p1 n1) eqn:B.
    - apply Qle_bool_iff in B. exists z', (interleave (p1 :: ep) (n1 :: en)). split; [reflexivity|]. split; [exact Z'|]. split.
      + apply (interleave_gaps w W); auto; try lra; destruct PN as [PN|[PN|PN]]; lra.
      + intros k K. rewrite in_interleave. destruct K as [[<-|K]|[<-|K]]; auto.
    - apply Qle_bool_false in B. exists z, (interleave (n1 :: en) (p1 :: ep)). split; [reflexivity|]. split; [exact Z|]. split.
      + apply (interleave_gaps w W); auto; try lra; destruct PN as [PN|[PN|PN]]; lra.
      + intros k K. rewrite in_interleave. destruct K as [[<-|K]|[<-|K]]; auto. }
  destruct HL as (e0 & r & -> & E0 & G & K).
  destruct (thin_spec r e0 e0 (Qeq_refl _) G) as [SS TH].
  set (es := thin e0 r) in *.
  assert (GE : forall y, In y (e0 :: es) -> (g' y == g y)%Q).
  { intros y Y. assert (Y0 : (e0 <= y)%Q).
    { destruct Y as [->|Y]; [lra|]. inversion SS; subst. rewrite Forall_forall in H2. specialize (H2 y Y). lra. }
    unfold g', g. rewrite !interp_upto; auto; lra || reflexivity. }
  assert (KE : forall k, In k ((z :: p1 :: ep) ++ (z' :: n1 :: en)) -> (k <= e0)%Q \/ exists u, In u es /\ (u == k)%Q).
  { intros k KK. apply in_app_iff in KK. destruct (K k KK) as [K0|KR]; [left; lra|].
    destruct (TH k KR) as [T|T]; [left; lra|right; exact T]. }
  assert (CH : chain g e0 es).
  { apply (chain_intro g ((z :: p1 :: ep) ++ (z' :: n1 :: en))); auto.
    intros x y t L T KK. unfold g. rewrite (upto_affine cp z (p1 :: ep) x y t IP L T), (upto_affine cn z' (n1 :: en) x y t IN L T).
    - field. lra.
    - intros k I0. apply KK. apply in_app_iff. right; exact I0.
    - intros k I0. apply KK. apply in_app_iff. left; exact I0. }
  assert (MONO : forall x y, (x <= y)%Q -> (g x <= g y)%Q).
  { intros x y L. unfold g. pose proof (upto_mono cp z (p1 :: ep) x y FP IP L). pose proof (upto_mono cn z' (n1 :: en) x y FN IN L). lra. }
  assert (G0 : (g e0 == 0)%Q).
  { unfold g. rewrite !upto_start by (auto; lra). lra. }
  assert (TOP : exists u, In u es /\ ((1 # 2) < g u)%Q).
  { destruct (list_max_is_max es e0) as [M1 M2]. set (u := list_max e0 es) in *.
    assert (U : forall k, In k ((z :: p1 :: ep) ++ (z' :: n1 :: en)) -> (k <= u)%Q).
    { intros k KK. destruct (KE k KK) as [L|(q & Q1 & Q2)].
      - specialize (M2 e0 (or_introl eq_refl)). lra.
      - specialize (M2 q (or_intror Q1)). lra. }
    assert (GU : (g u == 1)%Q).
    { unfold g. rewrite !upto_end; auto.
      - intros k KK. apply U. apply in_app_iff. right. right. exact KK.
      - intros k KK. apply U. apply in_app_iff. left. right. exact KK. }
    exists u. split; [|lra]. destruct M1 as [M1|M1]; [|exact M1]. rewrite <- M1 in GU. lra. }
  set (near := map snd _).
  assert (NEAR : forall y, In y near -> In y (e0 :: es) /\ (- (1 # 10000000000) < g y - (1 # 2) < (1 # 10000000000))%Q).
  { intros y Y. unfold near in Y. apply in_map_iff in Y. destruct Y as ([f y'] & <- & Y). apply filter_In in Y.
    destruct Y as [Y1 Y2]. cbn [snd fst] in *.
    assert (F : In y' (e0 :: es) /\ f = g' y').
    { clear - Y1. change (map g' (e0 :: es)) with (map g' (e0 :: es)) in Y1. revert Y1. generalize (e0 :: es). intros q.
      induction q as [|a q IH]; cbn; [contradiction|]. intros [E|I0]; [injection E as <- <-; auto|]. destruct (IH I0); auto. }
    destruct F as [F1 ->]. split; [exact F1|]. apply negb_true_iff, Qle_bool_false, qabs_lt in Y2. rewrite (GE y' F1) in Y2. exact Y2. }
  destruct (1 <? length near) eqn:B.
  - exists (qmean near). split; [reflexivity|]. apply Nat.ltb_lt in B.
    assert (NE : near <> []) by (intros E; rewrite E in B; cbn in B; lia).
    destruct (qmean_between near NE) as (x & y & [X XM] & [Y YM] & M).
    assert (XY : (x < y)%Q).
    { assert (SN' : StronglySorted Qlt near) by (unfold near; apply sorted_some; exact SS).
      destruct near as [|a [|b q]]; cbn in B; try lia. inversion SN' as [|? ? _ S2]; subst. inversion S2; subst.
      specialize (XM a (or_introl eq_refl)). specialize (YM b (or_intror (or_introl eq_refl))). lra. }
    destruct (NEAR x X) as [X1 X2], (NEAR y Y) as [Y1 Y2].
    pose proof (MONO x (qmean near) ltac:(lra)). pose proof (MONO (qmean near) y ltac:(lra)).
    assert (P : forall q, In q (e0 :: es) -> (0 <= q)%Q).
    { intros q [<-|Q1]; [lra|]. inversion SS; subst. rewrite Forall_forall in H4. specialize (H4 q Q1). lra. }
    split; [specialize (P x X1); lra|]. split; [lra|].
    right. exists x, y. specialize (P x X1). split; [lra|]. split; [exact M|]. intros t T.
    pose proof (MONO x t ltac:(lra)). pose proof (MONO t y ltac:(lra)). lra.
  - destruct (inverse g g' es e0 GE CH ltac:(lra) TOP) as [I1 I2].
    cbn [map combine interp].
    assert (Q0 : Qle_bool (g' e0) (1 # 2) = true) by (apply Qle_bool_iff; rewrite (GE e0 (or_introl eq_refl)); lra).
    rewrite Q0. eexists. split; [reflexivity|]. split; [lra|]. split; [lra|]. left. exact I1.
Qed.

(** ** The folded parts *)
Lemma bsum_app g cs1 : forall cs2 es1 a es2, length es1 = length cs1 ->
  (bsum g (cs1 ++ cs2) (es1 ++ a :: es2) == bsum g cs1 (es1 ++ [a]) + bsum g cs2 (a :: es2))%Q.
Proof.
  induction cs1 as [|c cs1 IH]; intros cs2 [|e es1] a es2 L; try discriminate; cbn [app].
  - destruct cs2; cbn [bsum]; [|destruct es2]; lra.
  - cbn [length] in L. specialize (IH cs2 es1 a es2 ltac:(lia)).
    destruct es1 as [|e' es1]; cbn [app bsum] in *; lra.
Qed.

Lemma bsum_map g f cs : forall es, bsum g cs (map f es) = bsum (fun c a b => g c (f a) (f b)) cs es.
Proof.
  induction cs as [|c cs IH]; intros es; [reflexivity|]. destruct es as [|a [|b es]]; try reflexivity.
  cbn [map bsum]. f_equal. apply (IH (b :: es)).
Qed.

Lemma bsum_rev g cs : forall es, length es = length cs + 1 ->
  (bsum g (rev cs) (rev es) == bsum (fun c a b => g c b a) cs es)%Q.
Proof.
  induction cs as [|c cs IH]; intros es L.
  - destruct es as [|a [|b es]]; cbn in L; try lia. cbn. lra.
  - destruct es as [|a [|b es]]; cbn [length] in L; try lia. cbn [rev bsum].
    rewrite <- app_assoc. cbn [app]. rewrite bsum_app by (rewrite !rev_length; cbn; lia).
    specialize (IH (b :: es) ltac:(cbn; lia)). cbn [rev] in IH. rewrite IH. cbn [bsum]. lra.
Qed.

Lemma bsum_ext g g' (P : Q -> Prop) cs : forall es,
  (forall c a b, (a < b)%Q -> P a -> P b -> (g c a b == g' c a b)%Q) ->
  match es with [] => True | e :: r => inc e r end -> Forall P es -> (bsum g cs es == bsum g' cs es)%Q.
Proof.
  induction cs as [|c cs IH]; intros es E I F; [reflexivity|]. destruct es as [|a [|b es]]; try reflexivity.
  cbn [bsum]. inversion F as [|? ? F1 F2]; subst. inversion F2; subst. destruct I as [I1 I2].
  rewrite (E c a b) by assumption. rewrite (IH (b :: es)) by assumption. reflexivity.
Qed.

Definition stepped (w : Q) (l : list Q) : Prop := match l with [] => True | x :: r => steps w x r end.
Lemma regular_stepped w l : regular w l -> stepped w l.
Proof.
  destruct l as [|x r]; [reflexivity|]. revert x. induction r as [|y r IH]; intros x R; cbn; [exact I|]. split.
  - exact (R 0 x y eq_refl eq_refl).
  - apply IH. intros k u v U V. exact (R (S k) u v U V).
Qed.
Lemma stepped_app w l1 : forall x l2, stepped w (l1 ++ x :: l2) <-> stepped w (l1 ++ [x]) /\ steps w x l2.
Proof.
  induction l1 as [|y l1 IH]; intros x l2; cbn [app stepped]; [cbn; tauto|].
  specialize (IH x l2). destruct l1 as [|z l1]; cbn [app stepped steps] in *; tauto.
Qed.
Lemma stepped_flip w v l : stepped w l -> stepped w (map Qopp (rev (map (fun e => (e - v)%Q) l))).
Proof.
  induction l as [|x l IH]; intros H; [exact I|]. destruct l as [|y l]; [cbn; exact I|].
  cbn [map rev] in *. rewrite <- app_assoc. rewrite map_app in *. cbn [map app] in *. cbn [stepped steps] in H.
  apply stepped_app. split; [apply IH; exact (proj2 H)|]. cbn [steps]. split; [|exact I]. destruct H as [H _]. lra.
Qed.
Lemma stepped_shift w v l : stepped w l -> stepped w (map (fun e => (e - v)%Q) l).
Proof.
  destruct l as [|x l]; [auto|]. cbn [stepped map]. revert x. induction l as [|y l IH]; intros x H; cbn in *; auto.
  destruct H as [H1 H2]. split; [lra|]. apply IH. exact H2.
Qed.
Lemma stepped_inc w e r : (0 < w)%Q -> stepped w (e :: r) -> inc e r.
Proof. intros W H. apply (steps_inc w); auto. Qed.

Lemma steps_back w l : forall x, (0 < w)%Q -> stepped w (l ++ [x]) -> Forall (fun y => (y <= x)%Q) l.
Proof.
  induction l as [|y l IH]; intros x W H; [constructor|]. constructor.
  - cbn [app stepped] in H. apply (steps_inc w _ W) in H.
    assert (I0 : (y < x)%Q) by (apply (inc_all _ _ H); apply in_app_iff; right; left; reflexivity). lra.
  - apply IH; auto. destruct l as [|z l]; cbn [app stepped steps] in *; tauto.
Qed.

(** What folding gives, and that the folded parts together are the mass around [v] *)
Lemma folded h w v i a b : wf_hist h -> (0 < zsum (h_counts h))%Z -> (0 < w)%Q -> regular w (h_edges h) ->
  1 <= i -> nth_error (h_edges h) i = Some a -> nth_error (h_edges h) (S i) = Some b -> (a <= v < b)%Q ->
  exists cp z p1 ep cn z' n1 en,
    fold_histogram h v = Ok ((cp, z :: p1 :: ep), (cn, z' :: n1 :: en)) /\
    (z == 0)%Q /\ (z' == 0)%Q /\ (p1 == b - v)%Q /\ (n1 == if Qeq_bool a v then w else v - a)%Q /\
    steps w p1 ep /\ steps w n1 en /\
    forall t, (0 <= t)%Q ->
      (upto cp (z :: p1 :: ep) t + upto cn (z' :: n1 :: en) t == mass h (v - t) (v + t))%Q.
Proof.
  intros Hw Ht W R Hi Ha Hb Hv. apply regular_stepped in R. destruct Hw as [He Hc].
  destruct (nth_error_split _ _ Ha) as (E1 & E2' & EE & LE1).
  assert (E2' = b :: tl E2').
  { rewrite EE in Hb. rewrite nth_error_app2 in Hb by lia. rewrite LE1 in Hb.
    replace (S i - i) with 1 in Hb by lia. cbn in Hb. destruct E2'; cbn in *; congruence. }
  set (E2 := tl E2') in *. rewrite H in EE. clear H. clearbody E2. clear E2'.
  assert (Li : i < length (shares (h_counts h))).
  { unfold shares. rewrite map_length. rewrite EE, app_length in He. cbn in He. lia. }
  destruct (nth_error (shares (h_counts h)) i) as [s|] eqn:Es; [|apply nth_error_None in Es; lia].
  destruct (nth_error_split _ _ Es) as (C1 & C2 & CC & LC1).
  assert (LC2 : length E2 = length C2).
  { assert (L : length (shares (h_counts h)) = length (h_counts h)) by (unfold shares; apply map_length).
    rewrite CC, app_length in L. rewrite EE, app_length in He. cbn in *. lia. }
  pose proof R as R0. rewrite EE in R0. apply stepped_app in R0. destruct R0 as [R1 R2]. cbn [steps] in R2. destruct R2 as [Rab R2].
  set (sh := fun e => (e - v)%Q).
  assert (FP : first_positive 0 (map sh (h_edges h)) = Some (S i)).
  { rewrite EE, map_app. cbn [map]. pose proof (steps_back w E1 a W R1) as B.
    assert (K : forall l j, Forall (fun y => (y <= a)%Q) l -> forall r,
              first_positive j (map sh l ++ r) = first_positive (j + length l) r).
    { clear - Hv. unfold sh. induction l as [|y l IH]; intros j F r; cbn [map app length]; [f_equal; lia|].
      inversion F; subst. cbn [first_positive]. assert (Q : Qle_bool (y - v) 0 = true) by (apply Qle_bool_iff; lra).
      rewrite Q, IH by assumption. f_equal. lia. }
    rewrite K by exact B. cbn [first_positive]. unfold sh at 1.
    assert (Q : Qle_bool (a - v) 0 = true) by (apply Qle_bool_iff; lra). rewrite Q. unfold sh at 1.
    assert (Q' : Qle_bool (b - v) 0 = false) by (apply Qle_bool_false; lra). rewrite Q'. f_equal. lia. }
  assert (N1 : nth_error (map sh (h_edges h)) (S i) = Some (b - v)%Q) by exact (map_nth_error sh _ _ Hb).
  assert (N0 : nth_error (map sh (h_edges h)) i = Some (a - v)%Q) by exact (map_nth_error sh _ _ Ha).
  set (part := (s * ((b - v) / (b - v - (a - v))))%Q).
  assert (S1 : skipn (S i) (shares (h_counts h)) = C2).
  { rewrite CC. replace (S i) with (length (C1 ++ [s])) by (rewrite app_length; cbn; lia).
    change (C1 ++ s :: C2) with (C1 ++ [s] ++ C2). rewrite app_assoc. rewrite skipn_app, skipn_all, Nat.sub_diag. reflexivity. }
  assert (S2 : firstn i (shares (h_counts h)) = C1).
  { rewrite CC, <- LC1, firstn_app, firstn_all, Nat.sub_diag. cbn. apply app_nil_r. }
  assert (S3 : skipn (S i) (map sh (h_edges h)) = map sh (b :: E2)).
  { rewrite EE, map_app. replace (S i) with (length (map sh E1 ++ [sh a])) by (rewrite app_length, map_length; cbn; lia).
    cbn [map]. change (map sh E1 ++ sh a :: sh b :: map sh E2) with (map sh E1 ++ [sh a] ++ sh b :: map sh E2).
    rewrite app_assoc. rewrite skipn_app, skipn_all, Nat.sub_diag. reflexivity. }
  assert (S4 : firstn (S i) (map sh (h_edges h)) = map sh (E1 ++ [a])).
  { rewrite EE, !map_app. replace (S i) with (length (map sh E1 ++ [sh a])) by (rewrite app_length, map_length; cbn; lia).
    cbn [map]. change (map sh E1 ++ sh a :: sh b :: map sh E2) with (map sh E1 ++ [sh a] ++ sh b :: map sh E2).
    rewrite app_assoc. rewrite firstn_app, firstn_all, Nat.sub_diag. cbn [firstn]. apply app_nil_r. }
  assert (INC2 : inc b E2) by (apply (stepped_inc w); auto).
  assert (POS : forall t, (0 <= t)%Q ->
    (upto (part :: C2) (0%Q :: map sh (b :: E2)) t ==
     s * (frac a b (v + t) - (v - a) / (b - a)) + bsum (fun c x y => c * (frac x y (v + t) - frac x y (v - t))) C2 (b :: E2))%Q).
  { intros t T. unfold upto. change (0%Q :: map sh (b :: E2)) with (0%Q :: (b - v)%Q :: map sh E2). cbn [bsum].
    change ((b - v)%Q :: map sh E2) with (map sh (b :: E2)). rewrite bsum_map.
    rewrite (bsum_ext _ (fun c x y => (c * (frac x y (v + t) - frac x y (v - t)))%Q) (fun x => (b <= x)%Q)).
    - apply Qplus_comp; [|reflexivity]. unfold part.
      destruct (Qlt_le_dec t (b - v)) as [L|L].
      + rewrite !frac_mid by lra. field. lra.
      + rewrite !frac_right by lra. field. lra.
    - intros c x y L X Y. unfold sh. rewrite frac_shift by exact L. rewrite (frac_left x y (v - t)) by lra. lra.
    - exact INC2.
    - constructor; [lra|]. apply Forall_forall. intros x X. pose proof (inc_all _ _ INC2 x X). lra. }
  assert (BACK : Forall (fun y => (y <= a)%Q) (E1 ++ [a])).
  { apply Forall_app. split; [apply (steps_back w); auto|]. constructor; [lra|constructor]. }
  assert (NEG : forall t, (0 <= t)%Q ->
    (bsum (fun c x y => c * frac x y t) (rev C1) (map Qopp (rev (map sh (E1 ++ [a])))) ==
     bsum (fun c x y => c * (frac x y (v + t) - frac x y (v - t))) C1 (E1 ++ [a]))%Q).
  { intros t T. rewrite bsum_map. rewrite <- map_rev, bsum_map. rewrite bsum_rev by (rewrite app_length; cbn; lia).
    apply (bsum_ext _ _ (fun x => (x <= a)%Q)).
    - intros c x y L X Y. unfold sh. rewrite frac_flip by exact L. rewrite (frac_right x y (v + t)) by lra. lra.
    - destruct E1 as [|e E1]; [exact I|]. cbn [app] in *. apply (stepped_inc w); auto.
    - exact BACK. }
  assert (MASS : forall t, (mass h (v - t) (v + t) ==
     bsum (fun c x y => c * (frac x y (v + t) - frac x y (v - t))) C1 (E1 ++ [a]) +
     (s * (frac a b (v + t) - frac a b (v - t)) + bsum (fun c x y => c * (frac x y (v + t) - frac x y (v - t))) C2 (b :: E2)))%Q).
  { intros t. unfold mass. rewrite CC, EE, bsum_app by lia. cbn [bsum]. reflexivity. }
  pose proof (stepped_flip w v _ R1) as RN. fold sh in RN.
  rewrite map_app, rev_app_distr in RN, NEG. cbn [map rev app] in RN, NEG.
  unfold fold_histogram. fold sh. rewrite FP. destruct i as [|i]; [lia|]. rewrite Es, N1, N0. fold part. rewrite S1, S2, S3, S4.
  rewrite map_app, rev_app_distr. cbn [map rev app].
  destruct (Qeq_bool (a - v) 0) eqn:Q.
  - apply Qeq_bool_iff in Q.
    destruct (rev (map sh E1)) as [|n1 en] eqn:RV.
    { apply (f_equal (@length QArith_base.Q)) in RV. rewrite rev_length, map_length in RV. cbn in RV. lia. }
    cbn [map stepped steps] in RN. destruct RN as [RN1 RN2].
    do 8 eexists. split; [reflexivity|]. split; [reflexivity|]. split; [unfold sh; lra|]. split; [reflexivity|].
    split.
    { assert (QA : Qeq_bool a v = true) by (apply Qeq_bool_iff; lra). rewrite QA. unfold sh in RN1. lra. }
    split; [exact (stepped_shift w v (b :: E2) R2)|]. split; [exact RN2|]. intros t T.
    cbn [tl]. rewrite MASS, <- (NEG t T). change (upto (part :: C2) (0%Q :: sh b :: map sh E2) t) with (upto (part :: C2) (0%Q :: map sh (b :: E2)) t).
    rewrite (POS t T). unfold upto. rewrite (frac_left a b (v - t)) by lra.
    assert (Z : ((v - a) / (b - a) == 0)%Q). { assert (VA : (v - a == 0)%Q) by lra. rewrite VA. field. lra. }
    rewrite Z. apply Qplus_comm.
  - apply Qeq_bool_false in Q. assert (AV : (a < v)%Q) by (destruct (Qlt_le_dec a v); auto; exfalso; apply Q; lra).
    do 8 eexists. split; [reflexivity|]. split; [reflexivity|]. split; [reflexivity|]. split; [reflexivity|].
    split.
    { assert (QA : Qeq_bool a v = false) by (apply Qeq_bool_false; lra). rewrite QA. unfold sh. lra. }
    split; [exact (stepped_shift w v (b :: E2) R2)|]. split; [exact RN|]. intros t T.
    rewrite MASS, <- (NEG t T). change (upto (part :: C2) (0%Q :: sh b :: map sh E2) t) with (upto (part :: C2) (0%Q :: map sh (b :: E2)) t).
    rewrite (POS t T). unfold upto. cbn [bsum].
    assert (F : ((s - part) * frac 0 (- sh a) t == s * ((v - a) / (b - a) - frac a b (v - t)))%Q).
    { unfold part, sh. destruct (Qlt_le_dec t (v - a)) as [L|L].
      - rewrite !frac_mid by lra. field. lra.
      - rewrite frac_right by lra. rewrite frac_left by lra. field. lra. }
    rewrite F. lra.
Qed.

(** ** Theorems *)
(** The distances of [v] from the edges of its bin differ by nothing or by more than 1e-14,
    and are nothing or more than 1e-14 *)
Definition tiny : Q := 1 # 100000000000000.
Definition clear (a b v : Q) : Prop :=
  (tiny < b - v)%Q /\ (v == a \/ tiny < v - a)%Q /\
  ((b - v == v - a) \/ tiny < (b - v) - (v - a) \/ tiny < (v - a) - (b - v))%Q.

Theorem C108_half : forall h w v i a b,
  wf_hist h -> (0 < zsum (h_counts h))%Z -> (0 < w)%Q -> regular w (h_edges h) ->
  1 <= i -> nth_error (h_edges h) i = Some a -> nth_error (h_edges h) (S i) = Some b -> (a <= v < b)%Q ->
  clear a b v ->
  exists m, deviation h v = Ok m /\ (0 <= m)%Q /\
    (- (1 # 10000000000) < mass h (v - m) (v + m) - (1 # 2) < (1 # 10000000000))%Q /\
    ((mass h (v - m) (v + m) == 1 # 2)%Q \/
     exists x y, (0 <= x < y)%Q /\ (x <= m <= y)%Q /\
       forall t, (x <= t <= y)%Q -> (- (1 # 10000000000) < mass h (v - t) (v + t) - (1 # 2) < (1 # 10000000000))%Q).
Proof.
  intros h w v i a b Hw Ht W R Hi Ha Hb Hv (C1 & C2 & C3). change tiny with gap in C1, C2, C3.
  destruct (folded h w v i a b Hw Ht W R Hi Ha Hb Hv) as (cp & z & p1 & ep & cn & z' & n1 & en & F & Z & Z' & P & N & SP & SN & M).
  assert (SO : sorted (h_edges h)).
  { apply regular_stepped in R. destruct (h_edges h) as [|e es]; [exact I|]. cbn [stepped] in R. apply (steps_inc w _ W) in R.
    clear - R. revert e R. induction es as [|y es IH]; intros e R; cbn in *; auto. destruct R as [R1 R2]. split; [lra|]. apply IH; exact R2. }
  destruct (fold_splits h v i a b Hw Ht SO Hi Ha Hb Hv) as (pos & neg & F' & S1 & S2 & FP & FN & LP & LN).
  rewrite F in F'. injection F' as <- <-. cbn [fst snd] in *.
  assert (AB : (b - a == w)%Q) by exact (R i a b Ha Hb).
  assert (GW : (gap < w)%Q) by lra.
  assert (HP : (p1 <= w)%Q) by lra.
  assert (HN : (gap < n1)%Q /\ (n1 <= w)%Q /\ (p1 == n1 \/ gap < p1 - n1 \/ gap < n1 - p1)%Q).
  { destruct (Qeq_bool a v) eqn:E.
    - apply Qeq_bool_iff in E. repeat split; try lra.
    - apply Qeq_bool_false in E. destruct C2 as [C2|C2]; [exfalso; apply E; lra|]. repeat split; try lra; destruct C3 as [C3|[C3|C3]]; lra. }
  destruct HN as (HN1 & HN2 & HN3).
  destruct (superimpose_spec w cp cn z p1 ep z' n1 en) as (m & E & M0 & M1 & M2); auto; try lra.
  { cbn [length] in *. lia. } { cbn [length] in *. lia. }
  exists m. split.
  { unfold deviation. rewrite F. cbn [bind fst snd]. destruct cp as [|c cp]; [cbn in LP; lia|]. destruct cn as [|d cn]; [cbn in LN; lia|].
    exact E. }
  split; [exact M0|]. cbv zeta in M1, M2. rewrite (M m M0) in M1, M2. split; [exact M1|].
  destruct M2 as [M2|(x & y & X & Y & K)]; [left; exact M2|]. right. exists x, y. split; [exact X|]. split; [exact Y|].
  intros t T. specialize (K t T). rewrite (M t) in K by lra. exact K.
Qed.
Print Assumptions C108_half.

(** The mass around a value grows with the radius, from nothing to everything *)
Theorem C108_mass : forall h w v, wf_hist h -> (0 < zsum (h_counts h))%Z -> (0 < w)%Q -> regular w (h_edges h) ->
  (mass h v v == 0)%Q /\
  (forall s t, (s <= t)%Q -> (mass h (v - s) (v + s) <= mass h (v - t) (v + t))%Q) /\
  (forall x y, (forall e, In e (h_edges h) -> (x <= e <= y)%Q) -> (mass h x y == 1)%Q).
Proof.
  intros h w v Hw Ht W R. pose proof (shares_nonneg h Hw Ht) as NN.
  assert (TOT : (qsum (shares (h_counts h)) == 1)%Q).
  { assert (T0 : (0 < inject_Z (zsum (h_counts h)))%Q) by (change 0%Q with (inject_Z 0); apply inject_Z_lt; exact Ht).
    unfold shares. rewrite <- (firstn_all (map _ _)). rewrite map_length, qsum_shares_firstn by lra.
    rewrite firstn_all. field. lra. }
  destruct Hw as [L _]. assert (LS : length (h_edges h) = length (shares (h_counts h)) + 1) by (unfold shares; rewrite map_length; exact L).
  apply regular_stepped in R. unfold mass. destruct (h_edges h) as [|e es]; [cbn in LS; lia|].
  cbn [stepped] in R. apply (steps_inc w _ W) in R. cbn [length] in LS.
  assert (LE : length es = length (shares (h_counts h))) by lia. clear LS L. revert R LE NN TOT.
  generalize (shares (h_counts h)). intros cs R LE NN TOT.
  split; [|split].
  - clear - R. revert e es R. induction cs as [|c cs IH]; intros e [|y es] R; cbn [bsum]; try reflexivity.
    destruct R as [_ R]. rewrite IH by exact R. ring.
  - intros s t ST. clear - R NN ST. revert e es R. induction cs as [|c cs IH]; intros e [|y es] R; cbn [bsum]; try lra.
    destruct R as [R1 R2]. inversion NN; subst. specialize (IH H2 y es R2).
    pose proof (frac_mono e y (v + s) (v + t) R1 ltac:(lra)). pose proof (frac_mono e y (v - t) (v - s) R1 ltac:(lra)). nra.
  - intros x y B. rewrite <- TOT. clear - R LE B. revert e es R LE B.
    induction cs as [|c cs IH]; intros e [|u es] R LE B; try discriminate; cbn [bsum]; [reflexivity|].
    destruct R as [R1 R2]. cbn [length] in LE.
    rewrite (IH u es R2) by (auto; intros k K; apply B; right; exact K).
    pose proof (B e (or_introl eq_refl)). pose proof (B u (or_intror (or_introl eq_refl))).
    rewrite frac_right, frac_left by lra. rewrite qsum_cons. ring.
Qed.
Print Assumptions C108_mass.

(** So the deviation lies between all radii with less and all with more than half the mass *)
Theorem C108_between : forall h w v i a b m,
  wf_hist h -> (0 < zsum (h_counts h))%Z -> (0 < w)%Q -> regular w (h_edges h) ->
  1 <= i -> nth_error (h_edges h) i = Some a -> nth_error (h_edges h) (S i) = Some b -> (a <= v < b)%Q ->
  clear a b v -> deviation h v = Ok m ->
  forall t, (mass h (v - t) (v + t) <= (1 # 2) - (1 # 10000000000) -> t < m)%Q /\
            (mass h (v - t) (v + t) >= (1 # 2) + (1 # 10000000000) -> m < t)%Q.
Proof.
  intros h w v i a b m Hw Ht W R Hi Ha Hb Hv C D t.
  destruct (C108_half h w v i a b Hw Ht W R Hi Ha Hb Hv C) as (m' & D' & _ & M & _). rewrite D in D'. injection D' as <-.
  destruct (C108_mass h w v Hw Ht W R) as (_ & MONO & _). split; intros H.
  - destruct (Qlt_le_dec t m) as [?|L]; auto. specialize (MONO m t L). lra.
  - destruct (Qlt_le_dec m t) as [?|L]; auto. specialize (MONO t m L). lra.
Qed.
Print Assumptions C108_between.

(** What is reported: NaN exactly without a histogram or when it is switched off, otherwise
    the deviation from the median of the histogram *)
Theorem C108_reported : forall enabled oh,
  (median_abs_deviation enabled oh = Ok None <-> oh = None \/ enabled = false) /\
  (forall h m, oh = Some h -> enabled = true ->
     (median_abs_deviation enabled oh = Ok (Some m) <-> deviation h (get_percentile h 50) = Ok m)).
Proof.
  intros enabled oh. unfold median_abs_deviation. split.
  - destruct oh as [h|]; [|tauto]. destruct enabled; [|tauto]. destruct (deviation h (get_percentile h 50)); cbn; split; try discriminate;
      intros [?|?]; discriminate.
  - intros h m -> ->. destruct (deviation h (get_percentile h 50)); cbn; split; congruence.
Qed.
Print Assumptions C108_reported.

(** ** What is not so *)
Definition tiny_hist : Q := 1 # 100000000000000000000.

(** On a small scale the deviation is 0, though nothing of the mass is within 0 of the median *)
Theorem C108_small_scale_refuted :
  exists h w i a b, let v := get_percentile h 50 in
    wf_hist h /\ (0 < zsum (h_counts h))%Z /\ (0 < w)%Q /\ regular w (h_edges h) /\
    1 <= i /\ nth_error (h_edges h) i = Some a /\ nth_error (h_edges h) (S i) = Some b /\ (a <= v < b)%Q /\
    exists m, deviation h v = Ok m /\ (mass h (v - m) (v + m) == 0)%Q.
Proof.
  exists (mkHist [2; 2; 2]%Z [0; 1 * tiny_hist; 2 * tiny_hist; 3 * tiny_hist]%Q), tiny_hist, 1, (1 * tiny_hist)%Q, (2 * tiny_hist)%Q.
  cbv zeta. split; [split; [reflexivity|repeat constructor; lia]|]. split; [reflexivity|]. split; [reflexivity|].
  split.
  { intros [|[|[|[|k]]]] x y; cbn [nth_error]; intros X Y; try discriminate;
      try (injection X as <-; injection Y as <-; vm_compute; reflexivity); destruct k; discriminate. }
  split; [lia|]. split; [reflexivity|]. split; [reflexivity|]. split; [vm_compute; split; [discriminate|reflexivity]|].
  eexists. split; [vm_compute; reflexivity|]. vm_compute. reflexivity.
Qed.
Print Assumptions C108_small_scale_refuted.

(** With bins of different widths it is not the radius of half the mass *)
Theorem C108_widths_refuted :
  exists h i a b, let v := get_percentile h 50 in
    wf_hist h /\ (0 < zsum (h_counts h))%Z /\ sorted (h_edges h) /\
    1 <= i /\ nth_error (h_edges h) i = Some a /\ nth_error (h_edges h) (S i) = Some b /\ (a <= v < b)%Q /\ clear a b v /\
    exists m, deviation h v = Ok m /\ ((7 # 10) < mass h (v - m) (v + m))%Q.
Proof.
  exists (mkHist [3; 4; 3]%Z [0; 1; 2; 10]%Q), 1, 1%Q, 2%Q.
  cbv zeta. split; [split; [reflexivity|repeat constructor; lia]|]. split; [reflexivity|].
  split; [cbn; lra|]. split; [lia|]. split; [reflexivity|]. split; [reflexivity|].
  split; [vm_compute; split; [discriminate|reflexivity]|]. split; [vm_compute; auto|].
  eexists. split; [vm_compute; reflexivity|]. vm_compute. reflexivity.
Qed.
Print Assumptions C108_widths_refuted.

(** ** An example: median 9/4, half the mass is within 7/12 of it *)
Example C108_example :
  let h := mkHist [1; 2; 4; 0; 1]%Z [0; 1; 2; 3; 4; 5]%Q in
  let v := get_percentile h 50 in
  (v == 9 # 4)%Q /\ regular 1 (h_edges h) /\ clear 2 3 v /\
  exists m, deviation h v = Ok m /\ (m == 7 # 12)%Q /\ (mass h (v - m) (v + m) == 1 # 2)%Q.
Proof.
  cbv zeta. split; [vm_compute; reflexivity|]. split.
  { intros [|[|[|[|[|k]]]]] x y; cbn [nth_error h_edges]; intros X Y; try discriminate;
      try (injection X as <-; injection Y as <-; vm_compute; reflexivity); destruct k; discriminate. }
  split; [vm_compute; intuition|]. eexists. split; [vm_compute; reflexivity|]. split; vm_compute; reflexivity.
Qed.
