From Verif Require Import PyCommon QFacts ListFacts HistModel HistProofs.
From Coq Require Import Qround.
Open Scope nat_scope.

(** ** Interpolation *)
Fixpoint psorted (x0 f0 : Q) (pts : list (Q * Q)) : Prop :=
  match pts with
  | [] => True
  | (x1, f1) :: r => (x0 <= x1)%Q /\ (f0 <= f1)%Q /\ psorted x1 f1 r
  end.
Fixpoint last_f (f0 : Q) (pts : list (Q * Q)) : Q :=
  match pts with [] => f0 | (_, f1) :: r => last_f f1 r end.

Lemma psorted_last pts : forall x0 f0, psorted x0 f0 pts -> (f0 <= last_f f0 pts)%Q.
Proof.
  induction pts as [|[x1 f1] r IH]; intros x0 f0 H; cbn in *; [lra|].
  destruct H as (_ & Hf & Hr). specialize (IH _ _ Hr). lra.
Qed.

Lemma segment x0 f0 x1 f1 x : (x0 <= x)%Q -> (x < x1)%Q -> (f0 <= f1)%Q ->
  (f0 <= f0 + (f1 - f0) / (x1 - x0) * (x - x0) <= f1)%Q.
Proof.
  intros H0 H1 Hf. set (t := ((x - x0) / (x1 - x0))%Q).
  assert (Ht : (0 <= t <= 1)%Q).
  { unfold t. split; [apply Qle_shift_div_l|apply Qle_shift_div_r]; lra. }
  assert (E : (f0 + (f1 - f0) / (x1 - x0) * (x - x0) == f0 + (f1 - f0) * t)%Q) by (unfold t; field; lra).
  rewrite E. nra.
Qed.

Lemma segment_mono x0 f0 x1 f1 x y : (x0 <= x)%Q -> (x <= y)%Q -> (y < x1)%Q -> (f0 <= f1)%Q ->
  (f0 + (f1 - f0) / (x1 - x0) * (x - x0) <= f0 + (f1 - f0) / (x1 - x0) * (y - x0))%Q.
Proof.
  intros H0 H1 H2 Hf.
  assert (Hs : (0 <= (f1 - f0) / (x1 - x0))%Q) by (apply Qle_shift_div_l; lra). nra.
Qed.

Lemma interp_from_range pts : forall x0 f0 x, psorted x0 f0 pts -> (x0 <= x)%Q ->
  (f0 <= interp_from x0 f0 pts x <= last_f f0 pts)%Q.
Proof.
  induction pts as [|[x1 f1] r IH]; intros x0 f0 x H Hx; cbn [interp_from last_f]; [lra|].
  destruct H as (_ & Hf & Hr). destruct (Qle_bool x1 x) eqn:E.
  - apply Qle_bool_iff in E. specialize (IH _ _ x Hr E). lra.
  - apply Qle_bool_false in E. pose proof (segment x0 f0 x1 f1 x Hx E Hf). pose proof (psorted_last _ _ _ Hr). lra.
Qed.

Lemma interp_from_mono pts : forall x0 f0 x y, psorted x0 f0 pts -> (x0 <= x)%Q -> (x <= y)%Q ->
  (interp_from x0 f0 pts x <= interp_from x0 f0 pts y)%Q.
Proof.
  induction pts as [|[x1 f1] r IH]; intros x0 f0 x y H Hx Hxy; cbn [interp_from]; [lra|].
  destruct H as (_ & Hf & Hr).
  destruct (Qle_bool x1 x) eqn:E, (Qle_bool x1 y) eqn:E2; rewrite ?Qle_bool_iff, ?Qle_bool_false in *.
  - apply IH; assumption.
  - lra.
  - pose proof (segment x0 f0 x1 f1 x Hx E Hf). pose proof (interp_from_range r x1 f1 y Hr E2). lra.
  - apply segment_mono; assumption.
Qed.

(** Left of a point's abscissa the value is at most the point's ordinate; right of or at it, at
    least. *)
Lemma interp_from_point pts : forall x0 f0 x k xk fk, psorted x0 f0 pts -> (x0 <= x)%Q ->
  nth_error pts k = Some (xk, fk) ->
  ((x < xk)%Q -> (interp_from x0 f0 pts x <= fk)%Q) /\ ((xk <= x)%Q -> (fk <= interp_from x0 f0 pts x)%Q).
Proof.
  induction pts as [|[x1 f1] r IH]; intros x0 f0 x k xk fk H Hx Hk; [destruct k; discriminate|].
  cbn [interp_from]. destruct H as (Hx1 & Hf & Hr).
  assert (Hbeyond : forall r x1 f1 k, psorted x1 f1 r -> nth_error r k = Some (xk, fk) -> (x1 <= xk /\ f1 <= fk)%Q).
  { clear. induction r as [|[x2 f2] r IH]; intros x1 f1 k H Hk; [destruct k; discriminate|].
    destruct H as (A & B & C). destruct k as [|k]; cbn in Hk.
    - injection Hk as -> ->. split; assumption.
    - destruct (IH _ _ _ C Hk). split; lra. }
  destruct k as [|k]; cbn in Hk.
  - injection Hk as -> ->. split; intro L.
    + assert (E : Qle_bool xk x = false) by (apply Qle_bool_false; exact L). rewrite E.
      apply segment; assumption.
    + apply Qle_bool_iff in L. rewrite L. apply Qle_bool_iff in L.
      pose proof (interp_from_range r xk fk x Hr L). lra.
  - destruct (Hbeyond _ _ _ _ Hr Hk) as [B1 B2].
    destruct (Qle_bool x1 x) eqn:E; [apply Qle_bool_iff in E|apply Qle_bool_false in E].
    + apply (IH _ _ _ _ _ _ Hr E Hk).
    + split; intro L; [|lra]. pose proof (segment x0 f0 x1 f1 x Hx E Hf). lra.
Qed.

(** ** Cumulative shares *)
Lemma cumsum_length l : forall a, length (cumsum a l) = length l.
Proof. induction l; intros; cbn; auto. Qed.

(** The share of the first [k] bins. *)
Definition share_upto (counts : list Z) (k : nat) : Q := (inject_Z (zsum (firstn k counts)) / inject_Z (zsum counts))%Q.

Lemma cumsum_nth counts t : forall a k, k < length counts ->
  exists q, nth_error (cumsum a (map (fun c => (inject_Z c / t)%Q) counts)) k = Some q /\
  (q == a + inject_Z (zsum (firstn (S k) counts)) / t)%Q.
Proof.
  induction counts as [|c cs IH]; intros a k Hk; [cbn in Hk; lia|].
  destruct k as [|k].
  - cbn [map cumsum nth_error]. eexists. split; [reflexivity|]. cbn [firstn].
    rewrite zsum_cons. change (zsum []) with 0%Z. rewrite Z.add_0_r. lra.
  - cbn [map cumsum nth_error]. cbn [length] in Hk.
    destruct (IH (a + inject_Z c / t)%Q k ltac:(lia)) as (q & E & Hq). exists q. split; [exact E|].
    rewrite Hq. change (firstn (S (S k)) (c :: cs)) with (c :: firstn (S k) cs). rewrite zsum_cons, inject_Z_plus.
    unfold Qdiv. ring.
Qed.

Lemma zsum_nonneg l : Forall (Z.le 0) l -> (0 <= zsum l)%Z.
Proof. induction 1; [cbn; lia|]. rewrite zsum_cons. lia. Qed.

Fixpoint bumped (t : Q) (acc : Z) (counts : list Z) : list Q :=
  match counts with
  | [] => []
  | c :: r => (if (c =? 0)%Z then inject_Z acc / t + eps else inject_Z (acc + c) / t)%Q :: bumped t (acc + c) r
  end.

Lemma bumped_length t counts : forall acc, length (bumped t acc counts) = length counts.
Proof. induction counts; intros; cbn; auto. Qed.

(** The points given to the interpolation, up to the value of the abscissas. *)
Definition same_pts (a b : list (Q * Q)) : Prop := Forall2 (fun p q => (fst p == fst q)%Q /\ snd p = snd q) a b.

Lemma bump_bumped t : ~ (t == 0)%Q -> forall counts acc a fs,
  (a == inject_Z acc / t)%Q ->
  same_pts (combine (bump counts (cumsum a (map (fun c => (inject_Z c / t)%Q) counts))) fs)
           (combine (bumped t acc counts) fs).
Proof.
  intro Ht. induction counts as [|c cs IH]; intros acc a fs Ha; [constructor|].
  cbn [map cumsum]. unfold bump. cbn [combine map fst snd bumped].
  destruct fs as [|f fs]; [constructor|]. cbn [combine].
  constructor.
  - cbn [fst snd]. split; [|reflexivity]. destruct (Z.eqb_spec c 0) as [->|Hc].
    + rewrite Ha. change (inject_Z 0) with 0%Q. field. exact Ht.
    + rewrite Ha, inject_Z_plus. field. exact Ht.
  - apply IH. rewrite Ha, inject_Z_plus. field. exact Ht.
Qed.

Lemma Qle_bool_comp a b x y : (a == b)%Q -> (x == y)%Q -> Qle_bool a x = Qle_bool b y.
Proof.
  intros E1 E2. destruct (Qle_bool b y) eqn:E.
  - apply Qle_bool_iff in E. apply Qle_bool_iff. lra.
  - apply Qle_bool_false in E. apply Qle_bool_false. lra.
Qed.

Lemma interp_from_same a b : same_pts a b -> forall x0 y0 f x, (x0 == y0)%Q ->
  (interp_from x0 f a x == interp_from y0 f b x)%Q.
Proof.
  induction 1 as [|[x1 f1] [y1 g1] a b [E1 E2] H IH]; intros x0 y0 f x E0; cbn [interp_from]; [lra|].
  cbn [fst snd] in *. subst g1. rewrite (Qle_bool_comp x1 y1 x x E1 ltac:(lra)).
  destruct (Qle_bool y1 x); [apply IH; exact E1|]. rewrite E0, E1. reflexivity.
Qed.

(** The cumulative shares are non-decreasing when the total is at most 10^15. *)
Lemma bumped_sorted (t : Z) : (0 < t <= 1000000000000000)%Z -> forall counts acc x0 f0 edges,
  Forall (Z.le 0) counts -> (x0 <= inject_Z acc / inject_Z t + eps)%Q ->
  sorted (f0 :: edges) ->
  psorted x0 f0 (combine (bumped (inject_Z t) acc counts) edges).
Proof.
  intros Ht. induction counts as [|c cs IH]; intros acc x0 f0 edges Hc Hx Hs; [exact I|].
  inversion Hc as [|? ? Hc0 Hcs]; subst. cbn [bumped].
  destruct edges as [|f1 edges]; [exact I|]. destruct Hs as [Hf Hs]. cbn [combine psorted].
  assert (Htq : (0 < inject_Z t)%Q) by (change 0%Q with (inject_Z 0); apply inject_Z_lt; lia).
  assert (Hstep : (inject_Z (acc + c) / inject_Z t == inject_Z acc / inject_Z t + inject_Z c / inject_Z t)%Q).
  { rewrite inject_Z_plus. field. lra. }
  destruct (Z.eqb_spec c 0) as [->|Hne].
  - split; [lra|]. split; [exact Hf|]. rewrite Z.add_0_r. apply IH; auto; lra.
  - assert (Hce : (eps <= inject_Z c / inject_Z t)%Q).
    { apply Qle_shift_div_l; [exact Htq|]. unfold eps.
      assert (H1 : (inject_Z 1 <= inject_Z c)%Q) by (apply inject_Z_le; lia).
      assert (H2 : (inject_Z t <= inject_Z 1000000000000000)%Q) by (apply inject_Z_le; lia).
      change (inject_Z 1) with 1%Q in H1. change (inject_Z 1000000000000000) with 1000000000000000%Q in H2.
      assert (H3 : ((1 # 1000000000000000) * inject_Z t <= (1 # 1000000000000000) * 1000000000000000)%Q).
      { apply Qmult_le_l; [reflexivity|exact H2]. }
      assert (H4 : ((1 # 1000000000000000) * 1000000000000000 == 1)%Q) by reflexivity. lra. }
    split; [lra|]. split; [exact Hf|]. apply IH; auto. unfold eps in *. lra.
Qed.

Lemma bumped_nth t : ~ (t == 0)%Q -> forall counts acc k c, nth_error counts k = Some c ->
  exists x, nth_error (bumped t acc counts) k = Some x /\
   (x == inject_Z (acc + zsum (firstn (S k) counts)) / t + if (c =? 0)%Z then eps else 0)%Q.
Proof.
  intros Ht. induction counts as [|c0 cs IH]; intros acc k c Hk; [destruct k; discriminate|].
  destruct k as [|k]; cbn [nth_error bumped] in *.
  - injection Hk as ->. eexists. split; [reflexivity|]. cbn [firstn]. rewrite zsum_cons. change (zsum []) with 0%Z.
    destruct (Z.eqb_spec c 0) as [->|]; rewrite ?Z.add_0_r; lra.
  - destruct (IH (acc + c0)%Z k c Hk) as (x & E & Hx). exists x. split; [exact E|].
    change (firstn (S (S k)) (c0 :: cs)) with (c0 :: firstn (S k) cs). rewrite zsum_cons, Z.add_assoc. exact Hx.
Qed.

Definition percentile_hyps (h : hist) : Prop :=
  length (h_edges h) = length (h_counts h) + 1 /\ Forall (Z.le 0) (h_counts h) /\ sorted (h_edges h) /\
  (0 < zsum (h_counts h) <= 1000000000000000)%Z.

Definition plain (h : hist) (x : Q) : Q :=
  interp (combine (0%Q :: bump (h_counts h) (cumsum 0 (shares (h_counts h)))) (h_edges h)) x.

Lemma nth_error_combine {A B} (a : list A) : forall (b : list B) k x y,
  nth_error a k = Some x -> nth_error b k = Some y -> nth_error (combine a b) k = Some (x, y).
Proof.
  induction a as [|x0 a IH]; intros [|y0 b] [|k] x y Ha Hb; cbn in *; try discriminate; [congruence|].
  apply IH; assumption.
Qed.
Lemma nth_error_combine_inv {A B} (a : list A) : forall (b : list B) k x y,
  nth_error (combine a b) k = Some (x, y) -> nth_error a k = Some x /\ nth_error b k = Some y.
Proof.
  induction a as [|x0 a IH]; intros [|y0 b] [|k] x y H; cbn in *; try discriminate.
  - injection H as -> ->. split; reflexivity.
  - apply IH. exact H.
Qed.

Lemma plain_spec h : percentile_hyps h ->
  exists e0 es pts, h_edges h = e0 :: es /\ psorted 0 e0 pts /\
    (forall x, (plain h x == if Qle_bool 0 x then interp_from 0 e0 pts x else e0)%Q) /\
    (last_f e0 pts = last_q e0 es) /\
    (forall k c e, nth_error (h_counts h) k = Some c -> nth_error es k = Some e ->
       exists xk, nth_error pts k = Some (xk, e) /\
        (xk == share_upto (h_counts h) (S k) + if (c =? 0)%Z then eps else 0)%Q).
Proof.
  intros (He & Hc & Hs & Ht). destruct (h_edges h) as [|e0 es] eqn:Ee; [cbn in He; lia|].
  set (t := inject_Z (zsum (h_counts h))).
  assert (Htq : (0 < t)%Q) by (unfold t; change 0%Q with (inject_Z 0); apply inject_Z_lt; lia).
  exists e0, es, (combine (bumped t 0 (h_counts h)) es). split; [reflexivity|].
  split; [|split; [|split]].
  - apply bumped_sorted; auto. change (inject_Z 0) with 0%Q. unfold eps. 
    assert (E : (0 / inject_Z (zsum (h_counts h)) == 0)%Q) by (field; unfold t in Htq; lra). rewrite E. lra.
  - intro x. unfold plain. rewrite Ee. cbn [combine interp]. destruct (Qle_bool 0 x); [|reflexivity].
    apply interp_from_same; [|reflexivity]. apply bump_bumped; [lra|]. change (inject_Z 0) with 0%Q. field. lra.
  - cbn [length] in He. assert (Hl : length es = length (bumped t 0 (h_counts h))) by (rewrite bumped_length; lia).
    revert Hl. generalize (bumped t 0 (h_counts h)). clear. revert e0. induction es as [|e es IH]; intros e0 [|b bs] Hl; cbn in *; try lia; [reflexivity|].
    apply IH. lia.
  - intros k c e Hk Hke. destruct (bumped_nth t ltac:(lra) (h_counts h) 0%Z k c Hk) as (x & Ex & Hx).
    exists x. split; [apply nth_error_combine; assumption|]. rewrite Hx. reflexivity.
Qed.

Lemma plain_mono h x y : percentile_hyps h -> (x <= y)%Q -> (plain h x <= plain h y)%Q.
Proof.
  intros H Hxy. destruct (plain_spec h H) as (e0 & es & pts & _ & Hs & Hp & _).
  rewrite !Hp. destruct (Qle_bool 0 x) eqn:E1, (Qle_bool 0 y) eqn:E2; rewrite ?Qle_bool_iff, ?Qle_bool_false in *.
  - apply interp_from_mono; assumption.
  - lra.
  - apply interp_from_range; assumption.
  - lra.
Qed.

Lemma sorted_nth l : forall d k e, sorted (d :: l) -> nth_error l k = Some e -> (d <= e <= last_q d l)%Q.
Proof.
  induction l as [|x l IH]; intros d k e Hs Hk; [destruct k; discriminate|].
  destruct Hs as [Hd Hs]. destruct k as [|k]; cbn [nth_error] in Hk.
  - injection Hk as ->. split; [exact Hd|]. cbn [last_q].
    clear - Hs. revert e Hs. induction l as [|y l IH]; intros e Hs; cbn [last_q]; [lra|].
    destruct Hs as [H1 H2]. specialize (IH _ H2). lra.
  - specialize (IH _ _ _ Hs Hk). cbn [last_q]. lra.
Qed.
Lemma sorted_last d l : sorted (d :: l) -> (d <= last_q d l)%Q.
Proof.
  intro H. destruct l as [|x l]; [cbn; lra|]. exact (Qle_trans _ _ _ (proj1 (sorted_nth (x :: l) d 0 x H eq_refl)) (proj2 (sorted_nth (x :: l) d 0 x H eq_refl))).
Qed.

Lemma plain_range h e0 es x : percentile_hyps h -> h_edges h = e0 :: es ->
  (e0 <= plain h x <= last_q e0 es)%Q.
Proof.
  intros H Ee. destruct (plain_spec h H) as (e0' & es' & pts & Ee' & Hs & Hp & Hl & _).
  rewrite Ee in Ee'. injection Ee' as <- <-. rewrite Hp. destruct (Qle_bool 0 x) eqn:E1.
  - apply Qle_bool_iff in E1. rewrite <- Hl. apply interp_from_range; assumption.
  - split; [lra|]. apply sorted_last. destruct H as (_ & _ & H & _). rewrite Ee in H. exact H.
Qed.

(** The value returned for the share [x] lies in the bin in which the cumulative share passes
    [x]. *)
Lemma plain_bin h k e c x : percentile_hyps h -> nth_error (h_edges h) (S k) = Some e ->
  nth_error (h_counts h) k = Some c ->
  ((x < share_upto (h_counts h) (S k))%Q -> (plain h x <= e)%Q) /\
  ((share_upto (h_counts h) (S k) + eps <= x)%Q -> (e <= plain h x)%Q) /\
  (c <> 0%Z -> (share_upto (h_counts h) (S k) <= x)%Q -> (e <= plain h x)%Q).
Proof.
  intros H Ek Hc. destruct (plain_spec h H) as (e0 & es & pts & Ee & Hs & Hp & Hl & Hpt).
  rewrite Ee in Ek. cbn [nth_error] in Ek. destruct (Hpt k c e Hc Ek) as (xk & Exk & Hxk).
  assert (Hsh : (0 <= share_upto (h_counts h) (S k))%Q).
  { destruct H as (_ & Hcn & _ & Ht). apply Qle_shift_div_l.
    - change 0%Q with (inject_Z 0). apply inject_Z_lt. lia.
    - rewrite Qmult_0_l. change 0%Q with (inject_Z 0). apply inject_Z_le. apply zsum_nonneg.
      apply Forall_forall. intros y Hy. eapply Forall_forall; [exact Hcn|]. eapply In_firstn. exact Hy. }
  assert (He0 : (e0 <= e)%Q).
  { eapply sorted_nth; [|exact Ek]. destruct H as (_ & _ & H & _). rewrite Ee in H. exact H. }
  rewrite Hp. destruct (Qle_bool 0 x) eqn:E0; [apply Qle_bool_iff in E0|apply Qle_bool_false in E0].
  - destruct (interp_from_point pts 0 e0 x k xk e Hs E0 Exk) as [L R].
    assert (Heps : (0 < eps)%Q) by reflexivity.
    split; [|split].
    + intro Hx. apply L. destruct (c =? 0)%Z; lra.
    + intro Hx. apply R. destruct (c =? 0)%Z; lra.
    + intros Hc0 Hx. apply R. apply Z.eqb_neq in Hc0. rewrite Hc0 in Hxk. lra.
  - split; [intros; exact He0|]. assert (Heps : (0 < eps)%Q) by reflexivity. split; intros; lra.
Qed.

(** ** The median override *)
Lemma qmean_between lo hi l : l <> [] -> Forall (fun x => lo <= x <= hi)%Q l -> (lo <= qmean l <= hi)%Q.
Proof.
  intros Hne H.
  assert (Hb : (Qn (length l) * lo <= qsum l <= Qn (length l) * hi)%Q).
  { clear Hne. induction H as [|x l Hx H IH]; [unfold Qn; cbn; change (inject_Z 0) with 0%Q; lra|].
    cbn beta in Hx. cbn [length]. rewrite qsum_cons, Qn_S. destruct IH. split; nra. }
  assert (Hn : (0 < Qn (length l))%Q) by (apply Qn_pos; destruct l; [congruence|cbn; lia]).
  unfold qmean. split; [apply Qle_shift_div_l|apply Qle_shift_div_r]; try exact Hn; lra.
Qed.

Lemma qabs_lt a b : negb (Qle_bool b (qabs a)) = true <-> (- b < a < b)%Q.
Proof.
  rewrite negb_true_iff, Qle_bool_false. unfold qabs. destruct (Qle_bool 0 a) eqn:E;
    [apply Qle_bool_iff in E|apply Qle_bool_false in E]; lra.
Qed.

Lemma median_edges_in h m : percentile_hyps h ->
  median_value (cumsum 0 (shares (h_counts h))) (h_edges h) = Some m ->
  exists lo hi e1 e2 k1 k2 c1 c2,
    nth_error (h_edges h) (S k1) = Some e1 /\ nth_error (h_counts h) k1 = Some c1 /\
    nth_error (h_edges h) (S k2) = Some e2 /\ nth_error (h_counts h) k2 = Some c2 /\
    (lo == share_upto (h_counts h) (S k1))%Q /\ (hi == share_upto (h_counts h) (S k2))%Q /\
    ((1 # 2) - (1 # 10000000000) < lo)%Q /\ (hi < (1 # 2) + (1 # 10000000000))%Q /\
    (e1 <= m <= e2)%Q.
Proof.
  intros H. unfold median_value.
  set (es := median_edges (cumsum 0 (shares (h_counts h))) (h_edges h)).
  destruct (1 <? length es) eqn:Elen; [|discriminate]. apply Nat.ltb_lt in Elen. intro Em. injection Em as <-.
  assert (Hin : forall e, In e es -> exists k c q, nth_error (h_edges h) (S k) = Some e /\
     nth_error (h_counts h) k = Some c /\ (q == share_upto (h_counts h) (S k))%Q /\
     ((1 # 2) - (1 # 10000000000) < q < (1 # 2) + (1 # 10000000000))%Q).
  { intros e Hin. unfold es, median_edges in Hin. apply in_map_iff in Hin.
    destruct Hin as ((q & e') & E & Hin). cbn in E. subst e'. apply filter_In in Hin. destruct Hin as [Hin Hf].
    cbn [fst] in Hf. apply qabs_lt in Hf. apply In_nth_error in Hin. destruct Hin as (k & Hk).
    apply nth_error_combine_inv in Hk. destruct Hk as [Hk1 Hk2].
    assert (Hlk : k < length (h_counts h)).
    { assert (L : k < length (cumsum 0 (shares (h_counts h)))) by (apply nth_error_Some; congruence).
      rewrite cumsum_length in L. unfold shares in L. rewrite map_length in L. exact L. }
    destruct (cumsum_nth (h_counts h) (inject_Z (zsum (h_counts h))) 0%Q k Hlk) as (q' & Eq & Hq).
    unfold shares in Hk1. assert (q = q') by congruence. subst q'.
    destruct (nth_error (h_counts h) k) as [c|] eqn:Ec; [|apply nth_error_None in Ec; lia].
    exists k, c, q. split.
    - destruct (h_edges h); [destruct k; discriminate|exact Hk2].
    - split; [exact Ec|]. split; [rewrite Hq; unfold share_upto; lra|]. lra. }
  destruct es as [|x es'] eqn:Ees; [cbn in Elen; lia|]. rewrite <- Ees in *.
  assert (Hne : es <> []) by (rewrite Ees; discriminate).
  pose proof (list_min_is_min es' x) as [M1 M2]. pose proof (list_max_is_max es' x) as [X1 X2].
  rewrite <- Ees in M1, M2, X1, X2.
  destruct (Hin _ M1) as (k1 & c1 & q1 & A1 & A2 & A3 & A4).
  destruct (Hin _ X1) as (k2 & c2 & q2 & B1 & B2 & B3 & B4).
  exists q1, q2, (list_min x es'), (list_max x es'), k1, k2, c1, c2.
  repeat (split; [solve [assumption | lra]|]).
  apply qmean_between; [exact Hne|]. apply Forall_forall. intros e He. split; auto.
Qed.

Lemma get_percentile_cases h :
  (forall p, get_percentile h p = plain h (p / 100)) \/
  (exists m, median_value (cumsum 0 (shares (h_counts h))) (h_edges h) = Some m /\
    forall p, get_percentile h p = if Qeq_bool p 50 then m else plain h (p / 100)).
Proof.
  unfold get_percentile, plain.
  destruct (median_value _ _) as [m|]; [|left; reflexivity].
  destruct (Qeq_bool m 0); [left; reflexivity|]. right. exists m. split; reflexivity.
Qed.

Lemma get_percentile_range h e0 es p : percentile_hyps h -> h_edges h = e0 :: es ->
  (e0 <= get_percentile h p <= last_q e0 es)%Q.
Proof.
  intros H Ee. destruct (get_percentile_cases h) as [->|(m & Hm & ->)]; [apply plain_range; assumption|].
  destruct (Qeq_bool p 50); [|apply plain_range; assumption].
  destruct (median_edges_in h m H Hm) as (lo & hi & e1 & e2 & k1 & k2 & c1 & c2 & A1 & _ & B1 & _ & _ & _ & _ & _ & Hm2).
  rewrite Ee in A1, B1. cbn [nth_error] in A1, B1.
  assert (Hs : sorted (e0 :: es)) by (destruct H as (_ & _ & H & _); rewrite Ee in H; exact H).
  pose proof (sorted_nth es e0 k1 e1 Hs A1). pose proof (sorted_nth es e0 k2 e2 Hs B1). lra.
Qed.

(** Percentages at which the median rule makes no trouble: 50 itself, and anything at least
    2e-8 away from it. *)
Definition clear_of_median (p : Q) : Prop := (p == 50 \/ p <= 50 - (2 # 100000000) \/ 50 + (2 # 100000000) <= p)%Q.

Lemma get_percentile_mono h p q : percentile_hyps h -> clear_of_median p -> clear_of_median q ->
  (p <= q)%Q -> (get_percentile h p <= get_percentile h q)%Q.
Proof.
  intros H Hp Hq Hpq.
  assert (Hdiv : forall a, (a / 100 == a * (1 # 100))%Q) by (intro; field).
  assert (Hpq' : (p / 100 <= q / 100)%Q) by (rewrite !Hdiv; lra).
  destruct (get_percentile_cases h) as [E|(m & Hm & E)]; rewrite !E; [apply plain_mono; assumption|].
  destruct (median_edges_in h m H Hm) as (lo & hi & e1 & e2 & k1 & k2 & c1 & c2 & A1 & A2 & B1 & B2 & C1 & C2 & D1 & D2 & Hm2).
  destruct (Qeq_bool p 50) eqn:Ep, (Qeq_bool q 50) eqn:Eq;
    rewrite ?Qeq_bool_iff, ?Qeq_bool_false in *; [lra| | |apply plain_mono; assumption].
  - destruct (plain_bin h k2 e2 c2 (q / 100) H B1 B2) as (_ & P & _).
    assert (HqL : (50 + (2 # 100000000) <= q)%Q) by (destruct Hq as [?|[?|?]]; lra).
    assert (Hx : (share_upto (h_counts h) (S k2) + eps <= q / 100)%Q) by (rewrite <- C2, Hdiv; unfold eps; lra).
    specialize (P Hx). lra.
  - destruct (plain_bin h k1 e1 c1 (p / 100) H A1 A2) as (P & _).
    assert (HpL : (p <= 50 - (2 # 100000000))%Q) by (destruct Hp as [?|[?|?]]; lra).
    assert (Hx : (p / 100 < share_upto (h_counts h) (S k1))%Q) by (rewrite <- C1, Hdiv; lra).
    specialize (P Hx). lra.
Qed.
