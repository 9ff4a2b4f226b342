From Verif Require Import PyCommon QFacts ListFacts HistModel.
From Coq Require Import Qround.
Open Scope nat_scope.

(** ** Rounding *)
Lemma round_bounds q : (inject_Z (round_half_even q) - (1 # 2) <= q <= inject_Z (round_half_even q) + (1 # 2))%Q.
Proof.
  unfold round_half_even. pose proof (Qfloor_le q) as Hl. pose proof (Qlt_floor q) as Hu.
  set (f := Qfloor q) in *. rewrite inject_Z_plus in Hu. change (inject_Z 1) with 1%Q in Hu.
  destruct (Qle_bool (1 # 2) (q - inject_Z f)) eqn:E1; cbn [negb].
  - apply Qle_bool_iff in E1. destruct (Qle_bool (q - inject_Z f) (1 # 2)) eqn:E2; cbn [negb].
    + apply Qle_bool_iff in E2. destruct (Z.even f); rewrite ?inject_Z_plus; change (inject_Z 1) with 1%Q; lra.
    + apply Qle_bool_false in E2. rewrite inject_Z_plus. change (inject_Z 1) with 1%Q. lra.
  - apply Qle_bool_false in E1. lra.
Qed.

Lemma inject_Z_le a b : (inject_Z a <= inject_Z b)%Q <-> (a <= b)%Z.
Proof. unfold Qle, inject_Z. cbn. lia. Qed.
Lemma inject_Z_lt a b : (inject_Z a < inject_Z b)%Q <-> (a < b)%Z.
Proof. unfold Qlt, inject_Z. cbn. lia. Qed.
Lemma inject_Z_inj a b : (inject_Z a == inject_Z b)%Q <-> a = b.
Proof. unfold Qeq, inject_Z. cbn. lia. Qed.

Lemma round_range q c : (0 <= q)%Q -> (q <= inject_Z c)%Q -> (0 <= round_half_even q <= c)%Z.
Proof.
  intros H0 H1. pose proof (round_bounds q) as [A B].
  split.
  - assert (H : (inject_Z (-1) < inject_Z (round_half_even q))%Q) by (change (inject_Z (-1)) with (-1)%Q; lra).
    apply (proj1 (inject_Z_lt _ _)) in H. lia.
  - assert (H : (inject_Z (round_half_even q) < inject_Z (c + 1))%Q)
      by (rewrite inject_Z_plus; change (inject_Z 1) with 1%Q; lra).
    apply (proj1 (inject_Z_lt _ _)) in H. lia.
Qed.

Lemma round_Z z q : (q == inject_Z z)%Q -> round_half_even q = z.
Proof.
  intro E. pose proof (round_bounds q) as [A B].
  assert (H1 : (inject_Z (round_half_even q) < inject_Z (z + 1))%Q)
    by (rewrite inject_Z_plus; change (inject_Z 1) with 1%Q; lra).
  assert (H2 : (inject_Z (z - 1) < inject_Z (round_half_even q))%Q)
    by (unfold Z.sub; rewrite inject_Z_plus; change (inject_Z (- (1))) with (-1)%Q; lra).
  apply (proj1 (inject_Z_lt _ _)) in H1. apply (proj1 (inject_Z_lt _ _)) in H2. lia.
Qed.

Lemma round_mono a b : (a <= b)%Q -> (round_half_even a <= round_half_even b)%Z.
Proof.
  intro H. pose proof (round_bounds a) as [A1 A2]. pose proof (round_bounds b) as [B1 B2].
  destruct (Z_le_gt_dec (round_half_even a) (round_half_even b)) as [L|G]; [exact L|].
  (* then round a >= round b + 1, so a and b are the same half-integer *)
  assert (Hz : (inject_Z (round_half_even b) + 1 <= inject_Z (round_half_even a))%Q).
  { change 1%Q with (inject_Z 1). rewrite <- inject_Z_plus. apply inject_Z_le. lia. }
  exfalso. assert (E : (a == b)%Q) by lra.
  assert (round_half_even a = round_half_even b); [|lia].
  unfold round_half_even. rewrite (Qfloor_comp _ _ E).
  assert (Q1 : Qle_bool (1 # 2) (a - inject_Z (Qfloor b)) = Qle_bool (1 # 2) (b - inject_Z (Qfloor b))).
  { destruct (Qle_bool (1 # 2) (b - inject_Z (Qfloor b))) eqn:Eb.
    - apply Qle_bool_iff in Eb. apply Qle_bool_iff. lra.
    - apply Qle_bool_false in Eb. apply Qle_bool_false. lra. }
  assert (Q2 : Qle_bool (a - inject_Z (Qfloor b)) (1 # 2) = Qle_bool (b - inject_Z (Qfloor b)) (1 # 2)).
  { destruct (Qle_bool (b - inject_Z (Qfloor b)) (1 # 2)) eqn:Eb.
    - apply Qle_bool_iff in Eb. apply Qle_bool_iff. lra.
    - apply Qle_bool_false in Eb. apply Qle_bool_false. lra. }
  rewrite Q1, Q2. reflexivity.
Qed.

(** ** Arrays *)
Lemma zsum_app a b : zsum (a ++ b) = (zsum a + zsum b)%Z.
Proof. unfold zsum. induction a; cbn; [reflexivity|]. rewrite IHa. lia. Qed.

Lemma zsum_cons x l : zsum (x :: l) = (x + zsum l)%Z.
Proof. reflexivity. Qed.

Lemma add_at_ok a : forall i c, i < length a ->
  exists a', add_at a i c = Ok a' /\ length a' = length a /\ zsum a' = (zsum a + c)%Z /\
    (forall k, zsum (firstn k a') = (zsum (firstn k a) + if (i <? k)%nat then c else 0)%Z) /\
    ((0 <= c)%Z -> Forall2 Z.le a a').
Proof.
  induction a as [|x a IH]; intros i c Hi; [cbn in Hi; lia|].
  destruct i as [|i]; cbn [add_at].
  - eexists. split; [reflexivity|]. split; [reflexivity|]. split; [unfold zsum; cbn; lia|]. split.
    + intros [|k]; cbn [firstn]; [reflexivity|]. change (0 <? S k) with true. rewrite !zsum_cons. lia.
    + intro Hc. constructor; [lia|]. clear. induction a; constructor; [lia|assumption].
  - cbn [length] in Hi. destruct (IH i c ltac:(lia)) as (a' & E & Hl & Hs & Hk & Hle).
    rewrite E. cbn [bind]. eexists. split; [reflexivity|]. cbn [length]. split; [lia|].
    split; [rewrite !zsum_cons; lia|]. split.
    + intros [|k]; cbn [firstn]; [reflexivity|]. specialize (Hk k).
      change (S i <? S k) with (i <? k). rewrite !zsum_cons. lia.
    + intro Hc. constructor; [lia|auto].
Qed.

(** ** The cursor *)
Lemma advance_ok dedges num b0 : forall fuel new,
  length dedges = num + 1 -> new < num -> num <= fuel + new + 1 ->
  exists new', advance fuel dedges num b0 new = Ok new' /\ new <= new' < num /\
    (new' = num - 1 \/ exists e, nth_error dedges (new' + 1) = Some e /\ (b0 < e)%Q) /\
    (new' = new \/ exists e, nth_error dedges new' = Some e /\ (e <= b0)%Q).
Proof.
  induction fuel as [|fuel IH]; intros new Hl Hn Hf; cbn [advance].
  - destruct (nth_error dedges (new + 1)) as [e|] eqn:E; [|apply nth_error_None in E; lia].
    assert (Hnew : new = num - 1) by lia.
    destruct (Nat.ltb_spec new (num - 1)); [lia|]. rewrite andb_false_r.
    exists new. split; [reflexivity|]. split; [lia|]. split; [left; exact Hnew|left; reflexivity].
  - destruct (nth_error dedges (new + 1)) as [e|] eqn:E; [|apply nth_error_None in E; lia].
    destruct (Qle_bool e b0) eqn:Eb; cbn [andb].
    + destruct (Nat.ltb_spec new (num - 1)) as [L|L].
      * destruct (IH (S new) Hl ltac:(lia) ltac:(lia)) as (n' & En & Hr & H1 & H2).
        exists n'. split; [exact En|]. split; [lia|]. split; [exact H1|]. right.
        destruct H2 as [->|H2]; [|exact H2]. exists e. rewrite Nat.add_1_r in E. split; [exact E|].
        apply Qle_bool_iff. exact Eb.
      * exists new. split; [reflexivity|]. split; [lia|]. split; [left; lia|left; reflexivity].
    + exists new. split; [reflexivity|]. split; [lia|]. split; [|left; reflexivity].
      right. exists e. split; [exact E|]. apply Qle_bool_false. exact Eb.
Qed.

(** ** One source bin: what is added *)
Record placed (dedges : list Q) (num : nat) (c : Z) (b0 b1 : Q) (new new' : nat)
  (d d' : list Z) : Prop := {
  pl_len : length d' = length d;
  pl_new : new' < num;
  pl_sum : zsum d' = (zsum d + c)%Z;
  pl_le : Forall2 Z.le d d';
  (** cursor stays at or left of the bin's right edge *)
  pl_cur : (forall e, nth_error dedges new = Some e -> (e <= b0)%Q) -> (b0 <= b1)%Q ->
           forall e, nth_error dedges new' = Some e -> (e <= b1)%Q;
  (** locality *)
  pl_lower : forall k e, (forall i j x y, i < j -> nth_error dedges i = Some x ->
                            nth_error dedges j = Some y -> (x < y)%Q) ->
             (forall e, nth_error dedges new = Some e -> (e <= b0)%Q) ->
             nth_error dedges k = Some e -> ((b0 < b1 /\ b1 <= e) \/ (b0 <= b1 /\ b1 < e))%Q ->
             zsum (firstn k d') = (zsum (firstn k d) + c)%Z;
  pl_upper : forall k e, (forall i j x y, i < j -> nth_error dedges i = Some x ->
                            nth_error dedges j = Some y -> (x < y)%Q) ->
             k < num -> nth_error dedges k = Some e -> (e <= b0)%Q ->
             zsum (firstn k d') = zsum (firstn k d);
  pl_between : forall k, (zsum (firstn k d) <= zsum (firstn k d') <= zsum (firstn k d) + c)%Z
}.

Lemma Forall2_Zle_refl a : Forall2 Z.le a a.
Proof. induction a; constructor; [lia|assumption]. Qed.
Lemma Forall2_Zle_trans a b : Forall2 Z.le a b -> forall c, Forall2 Z.le b c -> Forall2 Z.le a c.
Proof.
  induction 1 as [|x y a b Hxy Hab IH]; intros c H; inversion H; subst; constructor; [lia|].
  apply IH. assumption.
Qed.

Lemma assimilate_bin_ok dedges num new d c b0 b1 :
  length dedges = num + 1 -> length d = num -> new < num -> (0 <= c)%Z ->
  exists new' d', assimilate_bin dedges num new d c b0 b1 = Ok (new', d') /\
    placed dedges num c b0 b1 new new' d d'.
Proof.
  intros He Hd Hn Hc. unfold assimilate_bin.
  destruct (Z.eqb_spec c 0) as [->|Hc0].
  { exists new, d. split; [reflexivity|]. constructor; try lia; auto using Forall2_Zle_refl.
    - intros Hcur Hb e E. specialize (Hcur e E). lra. }
  destruct (advance_ok dedges num b0 num new He Hn ltac:(lia)) as (n1 & -> & Hr & Hstop & Hmoved).
  cbn [bind].
  destruct (nth_error dedges (n1 + 1)) as [e1|] eqn:Ee1; [|apply nth_error_None in Ee1; lia].
  assert (Hstop' : n1 = num - 1 \/ (b0 < e1)%Q).
  { destruct Hstop as [|(e' & E' & L)]; [left; assumption|right; congruence]. }
  clear Hstop. rename Hstop' into Hstop.
  (* facts about where the cursor is, given sortedness *)
  assert (Hleft : (forall e, nth_error dedges new = Some e -> (e <= b0)%Q) ->
                  forall e, nth_error dedges n1 = Some e -> (e <= b0)%Q).
  { intros Hcur e E. destruct Hmoved as [->|(e' & E' & L)]; [auto|]. congruence. }
  assert (Hup : forall k e, (forall i j x y, i < j -> nth_error dedges i = Some x ->
                            nth_error dedges j = Some y -> (x < y)%Q) ->
             k < num -> nth_error dedges k = Some e -> (e <= b0)%Q -> k <= n1).
  { intros k e Hs Hk Ek Hle. destruct Hstop as [->|L]; [lia|].
    destruct (Nat.le_gt_cases k n1) as [|G]; [assumption|]. exfalso.
    destruct (Nat.eq_dec k (n1 + 1)) as [->|Hne].
    - assert (e = e1) by congruence. subst. lra.
    - pose proof (Hs (n1 + 1) k e1 e ltac:(lia) Ee1 Ek). lra. }
  assert (Hlow : forall k e, (forall i j x y, i < j -> nth_error dedges i = Some x ->
                            nth_error dedges j = Some y -> (x < y)%Q) ->
             (forall e, nth_error dedges new = Some e -> (e <= b0)%Q) ->
             nth_error dedges k = Some e -> (b0 < e)%Q -> n1 < k).
  { intros k e Hs Hcur Ek Hlt. destruct (nth_error dedges n1) as [x|] eqn:En1;
      [|apply nth_error_None in En1; lia].
    pose proof (Hleft Hcur x eq_refl) as Hx.
    destruct (Nat.le_gt_cases k n1) as [G|]; [|assumption]. exfalso.
    destruct (Nat.eq_dec k n1) as [->|Hne].
    - assert (x = e) by congruence. subst. lra.
    - pose proof (Hs k n1 e x ltac:(lia) Ek En1). lra. }
  destruct (negb (Qle_bool e1 b1) || (n1 =? num - 1)) eqn:Ein.
  - destruct (add_at_ok d n1 c ltac:(lia)) as (d' & -> & Hl' & Hs' & Hk' & Hle'). cbn [bind].
    exists n1, d'. split; [reflexivity|]. constructor; auto; try lia.
    + intros Hcur Hb e E. specialize (Hleft Hcur e E). lra.
    + intros k e Hs Hcur Ek Hb. rewrite Hk'.
      pose proof (Hlow k e Hs Hcur Ek ltac:(lra)). destruct (Nat.ltb_spec n1 k); lia.
    + intros k e Hs Hk Ek Hle. rewrite Hk'. pose proof (Hup k e Hs Hk Ek Hle).
      destruct (Nat.ltb_spec n1 k); lia.
    + intro k. rewrite Hk'. destruct (n1 <? k); lia.
  - apply orb_false_elim in Ein. destruct Ein as [Hge Hnl].
    apply negb_false_iff, Qle_bool_iff in Hge. apply Nat.eqb_neq in Hnl.
    destruct Hstop as [?|L]; [lia|].
    assert (Hlt : Qle_bool e1 b0 = false) by (apply Qle_bool_false; exact L). rewrite Hlt. cbn [negb].
    assert (Hw : (0 < b1 - b0)%Q) by lra.
    assert (Hz : Qeq_bool (b1 - b0) 0 = false) by (apply Qeq_bool_false; lra). rewrite Hz.
    set (p := ((e1 - b0) / (b1 - b0))%Q).
    assert (Hp : (0 < p <= 1)%Q).
    { unfold p. split; [apply Qlt_shift_div_l|apply Qle_shift_div_r]; lra. }
    assert (HcQ : (0 <= inject_Z c)%Q) by (change 0%Q with (inject_Z 0); apply inject_Z_le; exact Hc).
    assert (Hrr : (0 <= round_half_even (inject_Z c * p) <= c)%Z) by (apply round_range; nra).
    set (lft := round_half_even (inject_Z c * p)) in *.
    destruct (add_at_ok d n1 lft ltac:(lia)) as (d1 & -> & Hl1 & Hs1 & Hk1 & Hle1). cbn [bind].
    destruct (add_at_ok d1 (n1 + 1) (c - lft)%Z ltac:(lia)) as (d2 & -> & Hl2 & Hs2 & Hk2 & Hle2). cbn [bind].
    exists (S n1), d2. split; [reflexivity|]. constructor; try lia.
    + eapply Forall2_Zle_trans; [apply Hle1; lia|apply Hle2; lia].
    + intros Hcur Hb e E. rewrite Nat.add_1_r in Ee1. assert (e = e1) by congruence. subst. exact Hge.
    + intros k e Hs Hcur Ek Hb. rewrite Hk2, Hk1.
      pose proof (Hlow k e Hs Hcur Ek ltac:(lra)) as Hlk.
      destruct (Nat.ltb_spec n1 k); [|lia].
      destruct (Nat.ltb_spec (n1 + 1) k); [lia|].
      assert (k = n1 + 1) by lia. subst k. assert (e = e1) by congruence. subst e.
      assert (Hb1 : (b1 == e1)%Q) by lra.
      assert (lft = c); [|lia]. unfold lft. apply round_Z. unfold p. rewrite Hb1. field. lra.
    + intros k e Hs Hk Ek Hle. rewrite Hk2, Hk1. pose proof (Hup k e Hs Hk Ek Hle).
      destruct (Nat.ltb_spec n1 k); [lia|]. destruct (Nat.ltb_spec (n1 + 1) k); lia.
    + intro k. rewrite Hk2, Hk1. destruct (Nat.ltb_spec n1 k), (Nat.ltb_spec (n1 + 1) k); lia.
Qed.

(** ** The whole pass *)
Lemma assimilate_conserves dedges num : forall fcounts fedges new d,
  length dedges = num + 1 -> length d = num -> new < num ->
  length fedges = length fcounts + 1 -> Forall (Z.le 0) fcounts ->
  exists d', assimilate dedges num new d fcounts fedges = Ok d' /\
    length d' = num /\ zsum d' = (zsum d + zsum fcounts)%Z /\ Forall2 Z.le d d'.
Proof.
  induction fcounts as [|c cs IH]; intros fedges new d He Hd Hn Hf Hc; cbn [assimilate].
  - exists d. unfold zsum at 3. cbn. split; [reflexivity|]. split; [exact Hd|]. split; [lia|apply Forall2_Zle_refl].
  - inversion Hc as [|? ? Hc0 Hcs]; subst. cbn [length] in Hf.
    destruct fedges as [|b0 [|b1 rest]]; cbn [length] in Hf; try lia.
    destruct (assimilate_bin_ok dedges (length d) new d c b0 b1 He eq_refl Hn Hc0) as (n' & d1 & -> & P).
    cbn [bind fst snd].
    destruct (IH (b1 :: rest) n' d1 He (pl_len _ _ _ _ _ _ _ _ _ P) (pl_new _ _ _ _ _ _ _ _ _ P)
                ltac:(cbn [length]; lia) Hcs) as (d' & -> & Hl & Hs & Hle).
    exists d'. split; [reflexivity|]. split; [exact Hl|].
    split; [rewrite Hs, (pl_sum _ _ _ _ _ _ _ _ _ P); unfold zsum; cbn; lia|].
    eapply Forall2_Zle_trans; [apply P|exact Hle].
Qed.

(** Source bins with their counts. *)
Fixpoint bins (counts : list Z) (edges : list Q) : list (Z * Q * Q) :=
  match counts, edges with
  | c :: cs, b0 :: ((b1 :: _) as rest) => (c, b0, b1) :: bins cs rest
  | _, _ => []
  end.
Definition csum (p : Q -> Q -> bool) (l : list (Z * Q * Q)) : Z :=
  zsum (map (fun b => if p (snd (fst b)) (snd b) then fst (fst b) else 0%Z) l).

(** Bins which end at or before [e] (a bin of width 0 lies at its edge, so it must be
    strictly before), and bins which start before [e]. *)
Definition ends_by (e : Q) (b0 b1 : Q) : bool :=
  negb (Qle_bool e b1) || (Qle_bool b1 e && negb (Qle_bool b1 b0)).
Definition starts_before (e : Q) (b0 b1 : Q) : bool := negb (Qle_bool e b0).

Fixpoint sorted (l : list Q) : Prop :=
  match l with
  | x :: ((y :: _) as r) => (x <= y)%Q /\ sorted r
  | _ => True
  end.
Definition strictly_increasing (l : list Q) : Prop :=
  forall i j x y, i < j -> nth_error l i = Some x -> nth_error l j = Some y -> (x < y)%Q.

Lemma assimilate_local dedges num : strictly_increasing dedges ->
  forall fcounts fedges new d d',
  length dedges = num + 1 -> length d = num -> new < num ->
  length fedges = length fcounts + 1 -> Forall (Z.le 0) fcounts -> sorted fedges ->
  (forall e b0, nth_error dedges new = Some e -> nth_error fedges 0 = Some b0 -> (e <= b0)%Q) ->
  assimilate dedges num new d fcounts fedges = Ok d' ->
  forall k e, k < num -> nth_error dedges k = Some e ->
  (zsum (firstn k d) + csum (ends_by e) (bins fcounts fedges) <= zsum (firstn k d')
   <= zsum (firstn k d) + csum (starts_before e) (bins fcounts fedges))%Z.
Proof.
  intro Hsi.
  induction fcounts as [|c cs IH]; intros fedges new d d' He Hd Hn Hf Hc Hs Hcur E k e Hk Ek.
  - cbn in E. injection E as <-. cbn [bins]. destruct fedges; cbn; lia.
  - inversion Hc as [|? ? Hc0 Hcs]; subst. cbn [length] in Hf.
    destruct fedges as [|b0 [|b1 rest]]; cbn [length] in Hf; try lia.
    cbn [assimilate] in E. destruct Hs as [Hb Hs].
    destruct (assimilate_bin_ok dedges (length d) new d c b0 b1 He eq_refl Hn Hc0) as (n' & d1 & E1 & P).
    rewrite E1 in E. cbn [bind fst snd] in E.
    assert (Hcur0 : forall e, nth_error dedges new = Some e -> (e <= b0)%Q) by (intros; eapply Hcur; eauto; reflexivity).
    specialize (IH (b1 :: rest) n' d1 d' He (pl_len _ _ _ _ _ _ _ _ _ P) (pl_new _ _ _ _ _ _ _ _ _ P)
                  ltac:(cbn [length]; lia) Hcs Hs).
    assert (Hcur1 : forall e b, nth_error dedges n' = Some e -> nth_error (b1 :: rest) 0 = Some b -> (e <= b)%Q).
    { intros e0 b E0 Eb. cbn in Eb. injection Eb as <-. eapply (pl_cur _ _ _ _ _ _ _ _ _ P); eauto. }
    specialize (IH Hcur1 E k e Hk Ek).
    change (bins (c :: cs) (b0 :: b1 :: rest)) with ((c, b0, b1) :: bins cs (b1 :: rest)).
    unfold csum in *. cbn [map fst snd].
    set (A := zsum (map _ (bins cs (b1 :: rest)))) in IH at 1.
    set (B := zsum (map _ (bins cs (b1 :: rest)))) in IH at 1.
    change (zsum ((if ends_by e b0 b1 then c else 0%Z)
              :: map (fun b => if ends_by e (snd (fst b)) (snd b) then fst (fst b) else 0%Z) (bins cs (b1 :: rest))))
      with ((if ends_by e b0 b1 then c else 0) + A)%Z.
    change (zsum ((if starts_before e b0 b1 then c else 0%Z)
              :: map (fun b => if starts_before e (snd (fst b)) (snd b) then fst (fst b) else 0%Z) (bins cs (b1 :: rest))))
      with ((if starts_before e b0 b1 then c else 0) + B)%Z.
    pose proof (pl_between _ _ _ _ _ _ _ _ _ P k) as Hbt.
    assert (Lo : ends_by e b0 b1 = true -> zsum (firstn k d1) = (zsum (firstn k d) + c)%Z).
    { intro H. apply (pl_lower _ _ _ _ _ _ _ _ _ P k e Hsi Hcur0 Ek). unfold ends_by in H.
      apply orb_prop in H. destruct H as [H|H].
      - apply negb_true_iff, Qle_bool_false in H. right. split; assumption.
      - apply andb_prop in H. destruct H as [H1 H2]. apply Qle_bool_iff in H1.
        apply negb_true_iff, Qle_bool_false in H2. left. split; assumption. }
    assert (Up : starts_before e b0 b1 = false -> zsum (firstn k d1) = zsum (firstn k d)).
    { intro H. apply (pl_upper _ _ _ _ _ _ _ _ _ P k e Hsi Hk Ek). unfold starts_before in H.
      apply negb_false_iff, Qle_bool_iff in H. exact H. }
    destruct (ends_by e b0 b1) eqn:Ee; [specialize (Lo eq_refl)|];
      destruct (starts_before e b0 b1) eqn:Es; try specialize (Up eq_refl); lia.
Qed.

Lemma linspace_length a b n : length (linspace a b n) = n + 1.
Proof. unfold linspace. rewrite map_length, seq_length. reflexivity. Qed.

Lemma linspace_nth a b n i : i <= n -> nth_error (linspace a b n) i = Some (a + Qn i * ((b - a) / Qn n))%Q.
Proof.
  intro H. unfold linspace. erewrite map_nth_error; [reflexivity|].
  rewrite (nth_error_nth' _ 0) by (rewrite seq_length; lia). rewrite seq_nth by lia. reflexivity.
Qed.

Lemma linspace_increasing a b n : 0 < n -> (a < b)%Q -> strictly_increasing (linspace a b n).
Proof.
  intros Hn Hab i j x y Hij Ei Ej.
  assert (Hj : j < length (linspace a b n)) by (apply nth_error_Some; congruence).
  rewrite linspace_length in Hj.
  rewrite linspace_nth in Ei, Ej by lia. injection Ei as <-. injection Ej as <-.
  assert (Hd : (0 < (b - a) / Qn n)%Q).
  { apply Qlt_shift_div_l; [apply Qn_pos; exact Hn|]. lra. }
  assert (Hq : (Qn i < Qn j)%Q) by (apply Qn_lt; exact Hij). nra.
Qed.

Lemma zsum_zeros n : zsum (zeros n) = 0%Z.
Proof. unfold zsum, zeros. induction n; cbn; [reflexivity|exact IHn]. Qed.
Lemma zsum_zeros_firstn n k : zsum (firstn k (zeros n)) = 0%Z.
Proof. revert k. unfold zsum, zeros. induction n; intros [|k]; cbn; try reflexivity. apply IHn. Qed.

Definition wf_hist (h : hist) : Prop :=
  length (h_edges h) = length (h_counts h) + 1 /\ Forall (Z.le 0) (h_counts h).

Lemma Forall_le_zeros n d : Forall2 Z.le (zeros n) d -> Forall (Z.le 0) d.
Proof.
  revert d. unfold zeros. induction n as [|n IH]; intros d H; inversion H; subst; constructor; auto.
Qed.

Lemma regenerate_ok lo hi nb fl h : 0 < nb -> wf_hist h ->
  exists h', regenerate lo hi nb fl h = Ok h' /\ wf_hist h' /\ length (h_counts h') = nb /\
    zsum (h_counts h') = zsum (h_counts h) /\ h_edges h' = linspace lo hi nb.
Proof.
  intros Hb [He Hc]. unfold regenerate.
  destruct (assimilate_conserves (linspace lo hi nb) nb (h_counts h)
      (if fl then h_edges h else map (fun e => inject_Z (round_half_even e)) (h_edges h))
      0 (zeros nb)) as (d & -> & Hl & Hs & Hle); try assumption.
  - apply linspace_length.
  - apply repeat_length.
  - destruct fl; rewrite ?map_length; exact He.
  - cbn [bind]. eexists. split; [reflexivity|]. cbn [h_counts h_edges]. split; [|split; [exact Hl|split]].
    + split; cbn [h_counts h_edges]; [rewrite linspace_length; lia|]. eapply Forall_le_zeros, Hle.
    + rewrite Hs, zsum_zeros. lia.
    + reflexivity.
Qed.

Lemma merge_hists_ok lo hi nb h1 h2 : 0 < nb -> wf_hist h1 -> wf_hist h2 ->
  exists h', merge_hists lo hi nb h1 h2 = Ok h' /\ wf_hist h' /\ length (h_counts h') = nb /\
    zsum (h_counts h') = (zsum (h_counts h1) + zsum (h_counts h2))%Z /\ h_edges h' = linspace lo hi nb.
Proof.
  intros Hb [He1 Hc1] [He2 Hc2]. unfold merge_hists.
  destruct (assimilate_conserves (linspace lo hi nb) nb (h_counts h1) (h_edges h1) 0 (zeros nb))
    as (d & -> & Hl & Hs & Hle); try assumption; [apply linspace_length|apply repeat_length|].
  cbn [bind].
  destruct (assimilate_conserves (linspace lo hi nb) nb (h_counts h2) (h_edges h2) 0 d)
    as (d' & -> & Hl' & Hs' & Hle'); try assumption; [apply linspace_length|].
  cbn [bind]. eexists. split; [reflexivity|]. cbn [h_counts h_edges]. split; [|split; [exact Hl'|split]].
  - split; cbn [h_counts h_edges]; [rewrite linspace_length; lia|].
    eapply Forall_le_zeros, Forall2_Zle_trans; eassumption.
  - rewrite Hs', Hs, zsum_zeros. lia.
  - reflexivity.
Qed.

(** ** Streaming *)
Definition np_histogram_ok (f : list Q -> hist) : Prop := forall l,
  wf_hist (f l) /\ zsum (h_counts (f l)) = Z.of_nat (length l) /\ h_counts (f l) <> [].

Lemma get_histogram_ok f l : np_histogram_ok f ->
  wf_hist (get_histogram f l) /\ zsum (h_counts (get_histogram f l)) = Z.of_nat (length l) /\
  h_counts (get_histogram f l) <> [].
Proof.
  intro Hf. unfold get_histogram. destruct l as [|x l]; [apply Hf|].
  destruct (all_equal (x :: l)); [|apply Hf]. split; [|split; [unfold zsum; cbn; lia|discriminate]].
  split; [reflexivity|]. constructor; [lia|constructor].
Qed.

Lemma to_array_length : forall counts edges, length edges = length counts + 1 ->
  Forall (Z.le 0) counts -> Z.of_nat (length (to_array_left counts edges)) = zsum counts.
Proof.
  induction counts as [|c cs IH]; intros edges He Hc; [destruct edges; reflexivity|].
  inversion Hc as [|? ? Hc0 Hcs]; subst. cbn [length] in He.
  destruct edges as [|e0 [|e1 es]]; cbn [length] in He; try lia.
  destruct cs as [|c' cs].
  - cbn [to_array_left]. rewrite app_length, !repeat_length. unfold zsum. cbn [fold_right].
    rewrite Z.quot_div_nonneg by lia. pose proof (Z.div_mod c 2 ltac:(lia)).
    pose proof (Z.mod_pos_bound c 2 ltac:(lia)). lia.
  - change (to_array_left (c :: c' :: cs) (e0 :: e1 :: es))
      with (repeat e0 (Z.to_nat c) ++ to_array_left (c' :: cs) (e1 :: es)).
    rewrite app_length, repeat_length, Nat2Z.inj_add, (IH (e1 :: es)); [|cbn [length] in *; lia|exact Hcs].
    unfold zsum. cbn [fold_right]. lia.
Qed.

Inductive shist :=
| SNew
| SUpd (h : shist) (values : list Q)
| SAdd (lo hi : Q) (nbins : nat) (h1 h2 : shist).
Fixpoint sdata (h : shist) : list Q :=
  match h with
  | SNew => []
  | SUpd h v => sdata h ++ v
  | SAdd _ _ _ h1 h2 => sdata h1 ++ sdata h2
  end.
Section Runs.
  Variables (f : list Q -> hist) (rnd : Q -> Q).
  Fixpoint srun (h : shist) : result (option hist) :=
    match h with
    | SNew => Ok None
    | SUpd h v => bind (srun h) (fun s => Ok (update_histogram f rnd s v))
    | SAdd lo hi nb h1 h2 => bind (srun h1) (fun a => bind (srun h2) (fun b => add_histogram lo hi nb a b))
    end.
End Runs.

(** Merges only between profiles which have both seen data, or neither has. *)
Fixpoint no_lonely_merge (h : shist) : Prop :=
  match h with
  | SNew => True
  | SUpd h _ => no_lonely_merge h
  | SAdd _ _ nb h1 h2 => 0 < nb /\ no_lonely_merge h1 /\ no_lonely_merge h2 /\ (sdata h1 = [] <-> sdata h2 = [])
  end.

Definition sgood (o : option hist) (l : list Q) : Prop :=
  match o with
  | None => l = []
  | Some h => l <> [] /\ wf_hist h /\ h_counts h <> [] /\ zsum (h_counts h) = Z.of_nat (length l)
  end.

Lemma srun_ok f rnd h : np_histogram_ok f -> no_lonely_merge h ->
  exists o, srun f rnd h = Ok o /\ sgood o (sdata h).
Proof.
  intro Hf. induction h as [|h IH v|lo hi nb h1 IH1 h2 IH2]; cbn [no_lonely_merge srun sdata]; intro Hn.
  - exists None. split; reflexivity.
  - destruct (IH Hn) as (o & -> & G). cbn [bind]. eexists. split; [reflexivity|].
    destruct v as [|x v]; cbn [update_histogram]; [rewrite app_nil_r; exact G|].
    destruct o as [h0|]; cbn [sgood] in *.
    + destruct G as (Hne & Hw & Hc & Hs).
      destruct (get_histogram_ok f ((x :: v) ++ histogram_to_array rnd h0) Hf) as (W & S & N).
      split; [destruct (sdata h); [congruence|discriminate]|]. split; [exact W|]. split; [exact N|].
      rewrite S. unfold histogram_to_array. rewrite !app_length, map_length, !Nat2Z.inj_add.
      rewrite to_array_length by apply Hw. rewrite Hs. lia.
    + subst. destruct (get_histogram_ok f (x :: v) Hf) as (W & S & N). rewrite G.
      split; [discriminate|]. auto.
  - destruct Hn as (Hb & Hn1 & Hn2 & Hiff).
    destruct (IH1 Hn1) as (o1 & -> & G1), (IH2 Hn2) as (o2 & -> & G2). cbn [bind].
    destruct o1 as [x1|], o2 as [x2|]; cbn [add_histogram sgood] in *.
    + destruct G1 as (N1 & W1 & C1 & S1), G2 as (N2 & W2 & C2 & S2).
      destruct (merge_hists_ok lo hi nb x1 x2 Hb W1 W2) as (h' & -> & W & L & S & _). cbn [bind].
      eexists. split; [reflexivity|]. cbn [sgood].
      split; [destruct (sdata h1); [congruence|discriminate]|]. split; [exact W|].
      split; [intro Hz; rewrite Hz in L; cbn in L; lia|]. rewrite S, S1, S2, app_length. lia.
    + exfalso. destruct G1 as (N1 & _). apply N1, Hiff. exact G2.
    + exfalso. destruct G2 as (N2 & _). apply N2, Hiff. exact G1.
    + eexists. split; [reflexivity|]. cbn. rewrite G1, G2. reflexivity.
Qed.
