(** The order of a column against the order of all its data. *)
From Coq Require Import List Bool Arith Lia Sorting.Sorted.
From Verif Require Import OrderModel OrderProofs OrderProofs2.
Import ListNotations.

Section Order.
  Context {N C : Type}.
  Variable nltb : N -> N -> bool.
  Variable cltb : C -> C -> bool.
  Variable parse : C -> option N.
  Variable show : N -> C.
  Hypothesis Hn : total_order nltb.
  Hypothesis Hc : total_order cltb.

  Notation value := (value N C).
  Notation info := (info N C).
  Notation vltb := (vltb nltb cltb).
  Notation veqb := (veqb nltb cltb).
  Notation vmin := (vmin nltb cltb).
  Notation vmax := (vmax nltb cltb).
  Notation vle := (vle nltb cltb).
  Notation rising := (rising nltb cltb).
  Notation falling := (falling nltb cltb).
  Notation merge_info := (merge_info nltb cltb show).
  Notation run := (run nltb cltb parse show).
  Notation pieces := (pieces parse).
  Notation textual := (textual parse).
  Notation is_intersecting := (is_intersecting nltb cltb).
  Notation is_enveloping := (is_enveloping nltb cltb).

  (** All data read as numbers ([t = false]) or all as text. *)
  Definition all_kind (t : bool) (h : hist C) : Prop := Forall (Forall (of_kind t)) (pieces h).

  Lemma no_pieces_not_textual h : pieces h = [] -> textual h = false.
  Proof.
    induction h as [|h IH b|h1 IH1 h2 IH2]; cbn [OrderProofs.pieces OrderProofs.textual]; intro E.
    - reflexivity.
    - apply app_eq_nil in E. destruct E as [E1 E2]. rewrite (IH E1). destruct b; [reflexivity|discriminate].
    - apply app_eq_nil in E. destruct E as [E1 E2]. rewrite (IH1 E1), (IH2 E2). reflexivity.
  Qed.

  Lemma kind_unique t t' (v : value) : of_kind t v -> of_kind t' v -> t = t'.
  Proof. destruct v; cbn; congruence. Qed.

  Lemma all_kind_textual t h : all_kind t h -> pieces h <> [] -> textual h = t.
  Proof.
    unfold all_kind.
    induction h as [|h IH b|h1 IH1 h2 IH2]; cbn [OrderProofs.pieces OrderProofs.textual]; intros A Nn.
    - congruence.
    - destruct b as [|c b'].
      + rewrite app_nil_r in *. cbn [existsb]. rewrite orb_false_r. auto.
      + apply Forall_app in A. destruct A as [_ A]. apply Forall_inv in A.
        pose proof (read_kind parse (textual h) (c :: b')) as K.
        set (t' := textual h || existsb (is_text parse) (c :: b')) in *.
        unfold read in A, K. cbn [map] in A, K. apply Forall_inv in A. apply Forall_inv in K.
        exact (kind_unique _ _ _ K A).
    - apply Forall_app in A. destruct A as [A1 A2].
      destruct (pieces h1) eqn:E1.
      + rewrite (no_pieces_not_textual _ E1). cbn [orb app] in *. apply IH2; assumption.
      + destruct (pieces h2) eqn:E2.
        * rewrite (no_pieces_not_textual _ E2), orb_false_r. apply IH1; [assumption|discriminate].
        * rewrite IH1, IH2; try assumption; try discriminate. destruct t; reflexivity.
  Qed.

  Lemma pieces_nonempty h p : In p (pieces h) -> p <> [].
  Proof.
    induction h as [|h IH b|h1 IH1 h2 IH2]; cbn [OrderProofs.pieces].
    - intros [].
    - intro H. apply in_app_or in H. destruct H as [H|H]; [auto|]. destruct b; cbn in H; [tauto|].
      destruct H as [<-|[]]. discriminate.
    - intro H. apply in_app_or in H. tauto.
  Qed.

  (** ** Comparing two ranges *)

  Lemma minmax_eq t a b : of_kind t a -> of_kind t b -> vmin a b = vmax a b -> a = b.
  Proof.
    intros Ka Kb. unfold OrderModel.vmin, OrderModel.vmax. destruct (vltb b a) eqn:P.
    - rewrite (vltb_asym nltb cltb Hn Hc _ _ P). auto.
    - destruct (vltb a b) eqn:Q; [auto|]. intros _. apply (vltb_total nltb cltb Hn Hc t); assumption.
  Qed.

  Lemma inter_sep t f1 l1 f2 l2 :
    of_kind t f1 -> of_kind t l1 -> of_kind t f2 -> of_kind t l2 ->
    vle f1 f2 -> vle f1 l2 -> vle l1 f2 -> vle l1 l2 -> ~ (f1 = l1 /\ f2 = l2) ->
    is_intersecting f1 l1 f2 l2 = false.
  Proof.
    intros K1 K2 K3 K4 A B D E Nq. unfold OrderModel.is_intersecting. cbv zeta.
    assert (S : vle (vmax f1 l1) (vmin f2 l2)).
    { apply vmax_lub; apply vmin_glb; assumption. }
    assert (M1 : vle (vmin f1 l1) (vmax f1 l1)).
    { unfold OrderModel.vmin, OrderModel.vmax. destruct (vltb l1 f1) eqn:X, (vltb f1 l1) eqn:Y;
        unfold OrderProofs.vle; try assumption; try (apply vltb_irrefl; assumption). }
    assert (M2 : vle (vmin f2 l2) (vmax f2 l2)).
    { unfold OrderModel.vmin, OrderModel.vmax. destruct (vltb l2 f2) eqn:X, (vltb f2 l2) eqn:Y;
        unfold OrderProofs.vle; try assumption; try (apply vltb_irrefl; assumption). }
    assert (Eq : ~ (vmin f1 l1 = vmax f1 l1 /\ vmin f2 l2 = vmax f2 l2)).
    { intros [X Y]. apply Nq. split.
      - apply (minmax_eq t f1 l1); assumption.
      - apply (minmax_eq t f2 l2); assumption. }
    assert (k1 : of_kind t (vmin f1 l1)) by (apply vmin_kind; assumption).
    assert (k2 : of_kind t (vmax f1 l1)) by (apply vmax_kind; assumption).
    assert (k3 : of_kind t (vmin f2 l2)) by (apply vmin_kind; assumption).
    assert (k4 : of_kind t (vmax f2 l2)) by (apply vmax_kind; assumption).
    set (a := vmin f1 l1) in *. set (b := vmax f1 l1) in *. set (c := vmin f2 l2) in *. set (d := vmax f2 l2) in *.
    clearbody a b c d.
    assert (S2 : vle a c) by (apply (vle_trans nltb cltb Hn Hc t _ b); assumption).
    assert (S3 : vle b d) by (apply (vle_trans nltb cltb Hn Hc t _ c); assumption).
    assert (Q : veqb a c && veqb b d = false).
    { apply andb_false_iff. destruct (veqb a c) eqn:X; [|auto]. destruct (veqb b d) eqn:Y; [|auto].
      apply (veqb_true nltb cltb Hn Hc t) in X, Y; try assumption. subst. exfalso. apply Eq.
      assert (c = d) by (apply (vle_antisym nltb cltb Hn Hc t); assumption). auto. }
    rewrite Q. unfold OrderProofs.vle in *. rewrite S, S2, S3. rewrite !andb_false_r. reflexivity.
  Qed.

  Lemma inter_strict t f1 l1 f2 l2 :
    of_kind t f1 -> of_kind t l1 -> of_kind t f2 -> of_kind t l2 ->
    vltb f1 l1 = true -> vltb f2 l2 = true ->
    is_intersecting f1 l1 f2 l2 = vltb f1 l2 && vltb f2 l1.
  Proof.
    intros K1 K2 K3 K4 A B. unfold OrderModel.is_intersecting, OrderModel.vmin, OrderModel.vmax. cbv zeta.
    rewrite A, B, (vltb_asym nltb cltb Hn Hc _ _ A), (vltb_asym nltb cltb Hn Hc _ _ B).
    apply eq_true_iff_eq. rewrite !orb_true_iff, !andb_true_iff.
    pose proof (vltb_trans nltb cltb Hn Hc) as T. split.
    - intros [[[[[X Y]|[X Y]]|[X Y]]|[X Y]]|[X Y]]; eauto.
      apply (veqb_true nltb cltb Hn Hc t) in X, Y; try assumption. subst. auto.
    - intros [X Y]. destruct (vltb f2 f1) eqn:E1; [auto 10|]. destruct (vltb f1 f2) eqn:E2; [auto 10|].
      assert (f1 = f2) by (apply (vltb_total nltb cltb Hn Hc t); assumption). subst f2.
      destruct (vltb l1 l2) eqn:E3; [auto 10|]. destruct (vltb l2 l1) eqn:E4; [auto 10|].
      assert (l1 = l2) by (apply (vltb_total nltb cltb Hn Hc t); assumption). subst l2.
      right. unfold OrderModel.veqb. rewrite !vltb_irrefl by assumption. auto.
  Qed.

  Lemma inter_flip1 t f1 l1 f2 l2 : of_kind t f1 -> of_kind t l1 -> of_kind t f2 -> of_kind t l2 ->
    is_intersecting f1 l1 f2 l2 = is_intersecting l1 f1 l2 f2.
  Proof.
    intros K1 K2 K3 K4. unfold OrderModel.is_intersecting. cbv zeta.
    rewrite (vmin_comm nltb cltb Hn Hc t l1 f1), (vmax_comm nltb cltb Hn Hc t l1 f1),
      (vmin_comm nltb cltb Hn Hc t l2 f2), (vmax_comm nltb cltb Hn Hc t l2 f2) by assumption.
    reflexivity.
  Qed.

  (** ** Rising data *)

  Lemma StronglySorted_app {A} (R : A -> A -> Prop) l1 l2 :
    StronglySorted R (l1 ++ l2) ->
    StronglySorted R l1 /\ StronglySorted R l2 /\ (forall x y, In x l1 -> In y l2 -> R x y).
  Proof.
    induction l1 as [|a l1 IH]; cbn; intro H.
    - split; [constructor|]. split; [exact H|]. intros x y [].
    - apply StronglySorted_inv in H. destruct H as [H F]. destruct (IH H) as [S1 [S2 S3]].
      rewrite Forall_app in F. destruct F as [F1 F2]. split; [constructor; assumption|]. split; [assumption|].
      rewrite Forall_forall in F2. intros x y [->|Hx] Hy; auto.
  Qed.

  Lemma last_app_ne {A} (l1 l2 : list A) d : l2 <> [] -> List.last (l1 ++ l2) d = List.last l2 d.
  Proof.
    intro H. induction l1 as [|a l1 IH]; [reflexivity|].
    cbn [app]. rewrite last_cons2.
    destruct (l1 ++ l2) as [|x r] eqn:E; [apply app_eq_nil in E; tauto|].
    rewrite last_cons2. rewrite last_cons2 in IH. exact IH.
  Qed.

  Lemma last_indep {A} (l : list A) d d' : l <> [] -> List.last l d = List.last l d'.
  Proof. destruct l as [|a l]; [congruence|]. intros _. rewrite !last_cons2. reflexivity. Qed.

  Lemma hd_app {A} (l1 l2 : list A) x : hd_error l1 = Some x -> hd_error (l1 ++ l2) = Some x.
  Proof. destruct l1; [discriminate|auto]. Qed.

  (** The state of a profile whose data rise over all batches. *)
  Definition up_state (t : bool) (ps : list (list value)) (i : info) : Prop :=
    i_text i = t /\ kinds_ok i /\
    hd_error (concat ps) = Some (i_first i) /\ List.last (concat ps) (i_first i) = i_last i /\
    ((i_order i = Const /\ Forall constant ps) \/
     (i_order i = Asc /\ vltb (i_first i) (i_last i) = true)).

  Lemma hd_last_le vs f : rising vs -> hd_error vs = Some f -> vle f (List.last vs f).
  Proof.
    destruct vs as [|v r]; [discriminate|]. intros R H. injection H as ->.
    rewrite last_cons2. destruct (last_in f r) as [E|E]; [rewrite <- E; apply vle_refl; assumption|].
    eapply rising_head; eassumption.
  Qed.

  Lemma coerce_same t v : of_kind t v -> (if t then vstr show v else v) = v.
  Proof. destruct t, v; cbn; congruence. Qed.

  Lemma up_merge t ps1 ps2 a b :
    up_state t ps1 a -> up_state t ps2 b -> rising (concat (ps1 ++ ps2)) ->
    up_state t (ps1 ++ ps2) (merge_info a b).
  Proof.
    intros [Ta [Ka [Ha [La Oa]]]] [Tb [Kb [Hb [Lb Ob]]]] R.
    rewrite concat_app in R. destruct (StronglySorted_app _ _ _ R) as [R1 [R2 R3]].
    pose proof (hd_last_le _ _ R1 Ha) as L1. pose proof (hd_last_le _ _ R2 Hb) as L2.
    rewrite La in L1. rewrite Lb in L2.
    destruct Ka as [Kfa Kla]. destruct Kb as [Kfb Klb]. rewrite Ta in Kfa, Kla. rewrite Tb in Kfb, Klb.
    assert (Ifa : In (i_first a) (concat ps1)) by (destruct (concat ps1); [discriminate|injection Ha as ->; cbn; auto]).
    assert (Ifb : In (i_first b) (concat ps2)) by (destruct (concat ps2); [discriminate|injection Hb as ->; cbn; auto]).
    assert (Ila : In (i_last a) (concat ps1)).
    { destruct (concat ps1); [discriminate|]. rewrite <- La, last_cons2. apply last_in. }
    assert (Ilb : In (i_last b) (concat ps2)).
    { destruct (concat ps2); [discriminate|]. rewrite <- Lb, last_cons2. apply last_in. }
    assert (N2 : concat ps2 <> []) by (intro E; rewrite E in Hb; discriminate).
    pose proof (R3 _ _ Ifa Ifb) as Lff. pose proof (R3 _ _ Ifa Ilb) as Lfl.
    pose proof (R3 _ _ Ila Ifb) as Llf. pose proof (R3 _ _ Ila Ilb) as Lll.
    assert (Et : i_text a || i_text b = t) by (rewrite Ta, Tb; destruct t; reflexivity).
    assert (Ord : (i_order a = Const /\ i_order b = Const) \/
       (is_intersecting (i_first a) (i_last a) (i_first b) (i_last b) = false /\
        (i_order a = Asc \/ i_order b = Asc) /\ vltb (i_first a) (i_last b) = true)).
    { destruct Oa as [[Oa Fa]|[Oa Fa]], Ob as [[Ob Fb]|[Ob Fb]].
      - auto.
      - right. split; [|split; [auto|]].
        + apply (inter_sep t); auto. intros [_ E]. rewrite E, vltb_irrefl in Fb; auto. discriminate.
        + apply (vle_lt_trans nltb cltb Hn Hc t _ (i_first b)); auto.
      - right. split; [|split; [auto|]].
        + apply (inter_sep t); auto. intros [E _]. rewrite E, vltb_irrefl in Fa; auto. discriminate.
        + apply (vlt_le_trans nltb cltb Hn Hc t _ (i_last a)); auto.
      - right. split; [|split; [auto|]].
        + apply (inter_sep t); auto. intros [E _]. rewrite E, vltb_irrefl in Fa; auto. discriminate.
        + apply (vlt_le_trans nltb cltb Hn Hc t _ (i_last a)); auto. }
    assert (Eo : i_order (merge_info a b) = (if ord_eqb (i_order a) Const && ord_eqb (i_order b) Const then Const else Asc)).
    { unfold OrderModel.merge_info. cbv zeta. cbn [i_order]. rewrite Et, !coerce_same by assumption.
      destruct Ord as [[-> ->]|[-> [O _]]].
      - cbn. repeat match goal with |- context [if ?c then _ else _] => destruct c end; reflexivity.
      - destruct Oa as [[-> _]|[-> _]], Ob as [[-> _]|[-> _]]; cbn; try reflexivity. }
    assert (Ef : i_first (merge_info a b) = i_first a).
    { unfold OrderModel.merge_info in Eo |- *. cbv zeta in Eo |- *. cbn [i_order] in Eo. cbn [i_first]. rewrite Eo.
      rewrite Et, !coerce_same by assumption.
      rewrite (vmin_le _ _ (i_first a) (i_first b)) by assumption.
      rewrite (vmin_le _ _ (i_first a) (i_last a)) by assumption.
      rewrite (vmin_le _ _ (i_first a) (i_last b)) by assumption.
      destruct (ord_eqb (i_order a) Const && ord_eqb (i_order b) Const); reflexivity. }
    assert (El : i_last (merge_info a b) = i_last b).
    { unfold OrderModel.merge_info in Eo |- *. cbv zeta in Eo |- *. cbn [i_order] in Eo. cbn [i_last]. rewrite Eo.
      rewrite Et, !coerce_same by assumption.
      destruct (ord_eqb (i_order a) Const && ord_eqb (i_order b) Const).
      - apply (vmax_le nltb cltb Hn Hc t); auto; [repeat (apply vmax_kind; auto)|].
        repeat apply vmax_lub; assumption.
      - apply (vmax_le nltb cltb Hn Hc t); assumption. }
    unfold up_state. rewrite merge_info_text, Et. split; [reflexivity|].
    split; [apply merge_info_kinds; unfold kinds_ok; rewrite ?Ta, ?Tb; auto|].
    rewrite Ef, El, concat_app. split; [apply hd_app; assumption|].
    split; [rewrite last_app_ne by assumption; rewrite <- Lb; apply last_indep; assumption|].
    rewrite Eo.
    destruct Oa as [[Oa Fa]|[Oa Fa]], Ob as [[Ob Fb]|[Ob Fb]]; rewrite Oa, Ob in *; cbn [ord_eqb andb];
      [left; split; [reflexivity|apply Forall_app; auto]|right..];
      (split; [reflexivity|]; destruct Ord as [[? ?]|[_ [_ ?]]]; [discriminate|assumption]).
  Qed.

  Lemma up_batch t b i : get_data_order nltb cltb parse t b = Some i -> b <> [] ->
    rising (read parse (t || existsb (is_text parse) b) b) ->
    up_state (t || existsb (is_text parse) b) [read parse (t || existsb (is_text parse) b) b] i.
  Proof.
    intros E Hb R. destruct (get_data_order_spec nltb cltb parse Hn Hc t b Hb) as [j [E' [Ht [_ [Ho [Hf [K [_ Hl]]]]]]]].
    rewrite E in E'. injection E' as <-. set (t' := t || existsb (is_text parse) b) in *. set (vs := read parse t' b) in *.
    assert (Nr : i_order i <> Random).
    { intro A. rewrite A in Ho. cbn in Ho. tauto. }
    split; [exact Ht|]. split; [exact K|]. cbn [concat]. rewrite app_nil_r. split; [exact Hf|].
    split; [symmetry; apply Hl; exact Nr|].
    pose proof (hd_last_le _ _ R Hf) as L. rewrite <- (Hl Nr) in L.
    destruct (i_order i) eqn:O; cbn [has_order] in Ho; try congruence.
    - right. split; [reflexivity|]. destruct Ho as [_ Nc].
      destruct (vltb (i_first i) (i_last i)) eqn:X; [reflexivity|]. exfalso. apply Nc.
      destruct K as [K1 K2].
      assert (Eq : i_first i = i_last i) by (apply (vltb_total nltb cltb Hn Hc (i_text i)); assumption).
      destruct vs as [|v r] eqn:Ev; [discriminate|]. injection Hf as ->. apply constant_cons. intros x Hx.
      assert (Kx : of_kind (i_text i) x).
      { pose proof (read_kind parse t b) as Kr. fold t' in Kr. fold vs in Kr. rewrite Ev in Kr. rewrite Ht.
        rewrite Forall_forall in Kr. apply Kr. right. exact Hx. }
      apply (vle_antisym nltb cltb Hn Hc (i_text i)); try assumption.
      + rewrite Eq. rewrite (Hl Nr), last_cons2.
        clear - R Hx Hn Hc. revert R Hx. generalize (i_first i). induction r as [|y r IH]; intros a R Hx; [destruct Hx|].
        rewrite last_cons2. apply rising_tail in R. destruct Hx as [->|Hx]; [|apply IH; assumption].
        destruct (last_in x r) as [Q|Q]; [rewrite <- Q; apply vle_refl; assumption|]. eapply rising_head; eassumption.
      + eapply rising_head; eassumption.
    - exfalso. destruct Ho as [F Nc]. apply Nc. destruct vs as [|v r] eqn:Ev; [discriminate|].
      apply constant_cons. intros x Hx.
      pose proof (read_kind parse t b) as Kr. fold t' in Kr. fold vs in Kr. rewrite Ev in Kr.
      rewrite Forall_forall in Kr.
      apply (vle_antisym nltb cltb Hn Hc t'); [apply Kr; right; exact Hx|apply Kr; cbn; auto| |].
      + eapply falling_head; eassumption.
      + eapply rising_head; eassumption.
    - left. split; [reflexivity|]. auto.
  Qed.

  Lemma up_run t : forall h, all_kind t h -> rising (concat (pieces h)) ->
    match c_info (run h) with
    | None => pieces h = []
    | Some i => up_state t (pieces h) i
    end.
  Proof.
    induction h as [|h IH b|h1 IH1 h2 IH2]; intros A R.
    - reflexivity.
    - assert (Akh : all_kind t h).
      { unfold all_kind in *. cbn [OrderProofs.pieces] in A. apply Forall_app in A. tauto. }
      assert (Rh : rising (concat (pieces h))).
      { cbn [OrderProofs.pieces] in R. rewrite concat_app in R. apply StronglySorted_app in R. tauto. }
      specialize (IH Akh Rh).
      cbn [OrderModel.run]. unfold update. destruct b as [|c b'].
      { cbn [OrderProofs.pieces]. rewrite app_nil_r. exact IH. }
      remember (c :: b') as b eqn:Eb. assert (Hb : b <> []) by (rewrite Eb; discriminate).
      assert (Ep : pieces (HUpd h b) = pieces h ++ [read parse (textual h || existsb (is_text parse) b) b]).
      { cbn [OrderProofs.pieces]. rewrite Eb. reflexivity. }
      assert (Rb : rising (read parse (textual h || existsb (is_text parse) b) b)).
      { rewrite Ep, concat_app in R. apply StronglySorted_app in R. destruct R as [_ [R _]].
        cbn [concat] in R. rewrite app_nil_r in R. exact R. }
      assert (Et : textual h || existsb (is_text parse) b = t).
      { change (textual (HUpd h b) = t). apply (all_kind_textual t); [exact A|]. rewrite Ep.
        destruct (pieces h); discriminate. }
      clear Eb c b'. cbn [c_info]. unfold update_order.
      destruct (c_info (run h)) as [i|] eqn:E.
      + pose proof IH as [Ti [_ [Hh [_ O]]]].
        assert (Er : ord_eqb (i_order i) Random = false) by (destruct O as [[-> _]|[-> _]]; reflexivity).
        rewrite Er.
        assert (Th : textual h = t).
        { apply (all_kind_textual t); [exact Akh|]. intro Q. rewrite Q in Hh. discriminate. }
        rewrite Ti, <- Th.
        destruct (get_data_order_spec nltb cltb parse Hn Hc (textual h) b Hb) as [j [Ej _]].
        rewrite Ej. cbn [merge_order]. pose proof (up_batch _ _ _ Ej Hb Rb) as U. rewrite Ep. rewrite Ep in R.
        rewrite Et in *. rewrite Th. apply up_merge; assumption.
      + rewrite IH in Ep. cbn [app] in Ep. rewrite (no_pieces_not_textual _ IH) in *. cbn [orb] in Et, Rb, Ep.
        destruct (get_data_order_spec nltb cltb parse Hn Hc false b Hb) as [j [Ej _]].
        rewrite Ej. cbn [merge_order]. pose proof (up_batch _ _ _ Ej Hb Rb) as U. cbn [orb] in U.
        rewrite Ep, Et in *. exact U.
    - cbn [OrderModel.run OrderProofs.pieces] in *. unfold add. cbn [c_info].
      unfold all_kind in *. cbn [OrderProofs.pieces] in A. apply Forall_app in A. destruct A as [A1 A2].
      pose proof R as R'. rewrite concat_app in R'. apply StronglySorted_app in R'. destruct R' as [R1 [R2 _]].
      specialize (IH1 A1 R1). specialize (IH2 A2 R2).
      destruct (c_info (run h1)) as [a|], (c_info (run h2)) as [b|]; cbn [merge_order].
      + apply up_merge; assumption.
      + rewrite IH2, app_nil_r. exact IH1.
      + rewrite IH1. exact IH2.
      + rewrite IH1, IH2. reflexivity.
  Qed.

  Lemma rising_data_ascending t h : all_kind t h -> rising (concat (pieces h)) ->
    Exists (fun p => ~ constant p) (pieces h) -> report_order (run h) = Some Asc.
  Proof.
    intros A R E. pose proof (up_run t h A R) as U. unfold report_order.
    destruct (c_info (run h)) as [i|].
    - destruct U as [_ [_ [_ [_ [[_ F]|[O _]]]]]]; [|rewrite O; reflexivity].
      exfalso. rewrite Exists_exists in E. destruct E as [p [Hp Np]]. apply Np.
      rewrite Forall_forall in F. auto.
    - rewrite U in E. inversion E.
  Qed.

  (** ** Falling data *)

  Definition down_state (t : bool) (ps : list (list value)) (i : info) : Prop :=
    i_text i = t /\ kinds_ok i /\
    exists f, hd_error (concat ps) = Some f /\
    let e := List.last (concat ps) f in
    ((i_order i = Const /\ Forall constant ps /\ i_first i = e /\ i_last i = f) \/
     (i_order i = Desc /\ vltb (i_last i) (i_first i) = true /\ vle e (i_last i) /\ vle (i_first i) f)).

  Lemma last_hd_le vs f : falling vs -> hd_error vs = Some f -> vle (List.last vs f) f.
  Proof.
    destruct vs as [|v r]; [discriminate|]. intros R H. injection H as ->.
    rewrite last_cons2. destruct (last_in f r) as [E|E]; [rewrite <- E; apply vle_refl; assumption|].
    eapply falling_head; eassumption.
  Qed.

  Lemma hd_kind t (ps : list (list value)) (f : value) : Forall (Forall (of_kind t)) ps -> hd_error (concat ps) = Some f ->
    of_kind t f /\ of_kind t (List.last (concat ps) f) /\ In f (concat ps) /\ In (List.last (concat ps) f) (concat ps).
  Proof.
    intros A H. apply Forall_concat in A.
    assert (I1 : In f (concat ps)) by (destruct (concat ps); [discriminate|injection H as ->; cbn; auto]).
    assert (I2 : In (List.last (concat ps) f) (concat ps)).
    { destruct (concat ps); [discriminate|]. rewrite last_cons2. apply last_in. }
    rewrite Forall_forall in A. auto.
  Qed.

  Lemma down_merge t (ps1 ps2 : list (list value)) a b :
    Forall (Forall (of_kind t)) ps1 -> Forall (Forall (of_kind t)) ps2 ->
    down_state t ps1 a -> down_state t ps2 b -> falling (concat (ps1 ++ ps2)) ->
    down_state t (ps1 ++ ps2) (merge_info a b).
  Proof.
    intros A1 A2 [Ta [Ka [f1 [Hf1 Oa]]]] [Tb [Kb [f2 [Hf2 Ob]]]] R. cbv zeta in Oa, Ob.
    rewrite concat_app in R. destruct (StronglySorted_app _ _ _ R) as [R1 [R2 R3]].
    pose proof (last_hd_le _ _ R1 Hf1) as L1. pose proof (last_hd_le _ _ R2 Hf2) as L2.
    destruct (hd_kind t ps1 f1 A1 Hf1) as [Kf1 [Ke1 [I1 J1]]].
    destruct (hd_kind t ps2 f2 A2 Hf2) as [Kf2 [Ke2 [I2 J2]]].
    assert (Mid : vle f2 (List.last (concat ps1) f1)) by (apply (R3 _ _ J1 I2)).
    set (e1 := List.last (concat ps1) f1) in *. set (e2 := List.last (concat ps2) f2) in *.
    destruct Ka as [Kfa Kla]. destruct Kb as [Kfb Klb]. rewrite Ta in Kfa, Kla. rewrite Tb in Kfb, Klb.
    assert (Et : i_text a || i_text b = t) by (rewrite Ta, Tb; destruct t; reflexivity).
    assert (N2 : concat ps2 <> []) by (intro E; rewrite E in Hf2; discriminate).
    (* all of b's stored values are below e1 and all of a's above f2 *)
    assert (Ba : vle e1 (i_first a) /\ vle e1 (i_last a) /\ vle (i_first a) f1 /\ vle (i_last a) f1).
    { destruct Oa as [[_ [_ [-> ->]]]|[_ [X [Y Z]]]].
      - repeat split; auto using vle_refl.
      - repeat split; auto.
        + apply (vle_trans nltb cltb Hn Hc t _ (i_last a)); auto. apply vlt_le; assumption.
        + apply (vle_trans nltb cltb Hn Hc t _ (i_first a)); auto. apply vlt_le; assumption. }
    assert (Bb : vle e2 (i_first b) /\ vle e2 (i_last b) /\ vle (i_first b) f2 /\ vle (i_last b) f2).
    { destruct Ob as [[_ [_ [-> ->]]]|[_ [X [Y Z]]]].
      - repeat split; auto using vle_refl.
      - repeat split; auto.
        + apply (vle_trans nltb cltb Hn Hc t _ (i_last b)); auto. apply vlt_le; assumption.
        + apply (vle_trans nltb cltb Hn Hc t _ (i_first b)); auto. apply vlt_le; assumption. }
    destruct Ba as [Ba1 [Ba2 [Ba3 Ba4]]]. destruct Bb as [Bb1 [Bb2 [Bb3 Bb4]]].
    assert (Cr : forall x y, of_kind t x -> of_kind t y -> vle e1 x -> vle y f2 -> vle y x).
    { intros x y Kx Ky H1 H2. apply (vle_trans nltb cltb Hn Hc t _ f2); auto.
      apply (vle_trans nltb cltb Hn Hc t _ e1); auto. }
    assert (Inter : ~ (i_first b = i_last b /\ i_first a = i_last a) ->
      is_intersecting (i_first a) (i_last a) (i_first b) (i_last b) = false).
    { intro H. rewrite inter_comm. apply (inter_sep t); auto. }
    unfold down_state. rewrite merge_info_text, Et. split; [reflexivity|].
    split; [apply merge_info_kinds; unfold kinds_ok; rewrite ?Ta, ?Tb; auto|].
    exists f1. rewrite concat_app. split; [apply hd_app; assumption|].
    rewrite last_app_ne by assumption. rewrite (last_indep _ f1 f2) by assumption. fold e2. cbv zeta.
    unfold OrderModel.merge_info. cbv zeta. cbn [i_order i_first i_last]. rewrite Et, !coerce_same by assumption.
    destruct Oa as [[Oa [Fa [Ea Da]]]|[Oa [Xa [Ya Za]]]], Ob as [[Ob [Fb [Eb Db]]]|[Ob [Xb [Yb Zb]]]];
      rewrite Oa, Ob; cbn [ord_eqb orb andb].
    - left.
      assert (Ec : forall c1 c2 c3 : bool, (if c1 then Const else if c2 then Const else if c3 then Const else Const) = Const)
        by (intros [] [] []; reflexivity).
      rewrite Ec. split; [reflexivity|]. split; [apply Forall_app; auto|].
      rewrite Ea, Da, Eb, Db in *. split.
      + rewrite (vmin_ge nltb cltb Hn Hc t e1 e2) by auto.
        rewrite (vmin_le _ _ e2 f1) by (apply Cr; auto). rewrite (vmin_le _ _ e2 f2) by assumption. reflexivity.
      + rewrite (vmax_ge _ _ e1 e2) by auto.
        rewrite (vmax_le nltb cltb Hn Hc t e1 f1) by auto. rewrite (vmax_ge _ _ f1 f2) by auto. reflexivity.
    - right. rewrite Inter by (intros [E _]; rewrite E, vltb_irrefl in Xb; auto; discriminate).
      cbn. split; [reflexivity|].
      rewrite (vmax_ge _ _ (i_first a) (i_first b)) by auto.
      rewrite (vmin_ge nltb cltb Hn Hc t (i_last a) (i_last b)) by auto.
      split; [|auto]. apply (vlt_le_trans nltb cltb Hn Hc t _ (i_first b)); auto.
    - right. rewrite Inter by (intros [_ E]; rewrite E, vltb_irrefl in Xa; auto; discriminate).
      cbn. split; [reflexivity|].
      rewrite (vmax_ge _ _ (i_first a) (i_first b)) by auto.
      rewrite (vmin_ge nltb cltb Hn Hc t (i_last a) (i_last b)) by auto.
      split; [|auto]. apply (vle_lt_trans nltb cltb Hn Hc t _ (i_last a)); auto.
    - right. rewrite Inter by (intros [E _]; rewrite E, vltb_irrefl in Xb; auto; discriminate).
      cbn. split; [reflexivity|].
      rewrite (vmax_ge _ _ (i_first a) (i_first b)) by auto.
      rewrite (vmin_ge nltb cltb Hn Hc t (i_last a) (i_last b)) by auto.
      split; [|auto]. apply (vlt_le_trans nltb cltb Hn Hc t _ (i_first b)); auto.
  Qed.

  Lemma last_le_falling : forall r f x, falling (f :: r) -> In x (f :: r) -> vle (List.last r f) x.
  Proof.
    induction r as [|y r IH]; intros f x F Hx.
    - destruct Hx as [->|[]]. apply vle_refl; assumption.
    - rewrite last_cons2. destruct Hx as [->|Hx].
      + destruct (last_in y r) as [Q|Q]; rewrite <- ?Q; eapply falling_head; try exact F; [left; reflexivity|].
        right. exact Q.
      + apply IH; [eapply falling_tail; exact F|exact Hx].
  Qed.

  Lemma last_ge_rising : forall r f x, rising (f :: r) -> In x (f :: r) -> vle x (List.last r f).
  Proof.
    induction r as [|y r IH]; intros f x F Hx.
    - destruct Hx as [->|[]]. apply vle_refl; assumption.
    - rewrite last_cons2. destruct Hx as [->|Hx].
      + destruct (last_in y r) as [Q|Q]; rewrite <- ?Q; eapply rising_head; try exact F; [left; reflexivity|].
        right. exact Q.
      + apply IH; [eapply rising_tail; exact F|exact Hx].
  Qed.

  Lemma down_batch t b i : get_data_order nltb cltb parse t b = Some i -> b <> [] ->
    falling (read parse (t || existsb (is_text parse) b) b) ->
    down_state (t || existsb (is_text parse) b) [read parse (t || existsb (is_text parse) b) b] i.
  Proof.
    intros E Hb R. destruct (get_data_order_spec nltb cltb parse Hn Hc t b Hb) as [j [E' [Ht [_ [Ho [Hf [K [_ Hl]]]]]]]].
    rewrite E in E'. injection E' as <-. pose proof (read_kind parse t b) as Kr.
    set (t' := t || existsb (is_text parse) b) in *. set (vs := read parse t' b) in *.
    rewrite Forall_forall in Kr.
    assert (Nr : i_order i <> Random).
    { intro A. rewrite A in Ho. cbn in Ho. tauto. }
    split; [exact Ht|]. split; [exact K|]. exists (i_first i). cbn [concat]. rewrite app_nil_r. split; [exact Hf|].
    cbv zeta. rewrite (Hl Nr). specialize (Hl Nr).
    destruct vs as [|v r] eqn:Ev; [discriminate|]. injection Hf as ->.
    rewrite last_cons2 in *.
    destruct (i_order i) eqn:O; cbn [has_order] in Ho; try congruence.
    - exfalso. destruct Ho as [F Nc]. apply Nc.
      apply constant_cons. intros x Hx.
      apply (vle_antisym nltb cltb Hn Hc t'); [apply Kr; right; exact Hx|apply Kr; cbn; auto| |].
      + eapply falling_head; eassumption.
      + eapply rising_head; eassumption.
    - right. split; [reflexivity|]. split; [|auto using vle_refl]. destruct Ho as [_ Nc].
      destruct (vltb (List.last r (i_first i)) (i_first i)) eqn:X; [reflexivity|]. exfalso. apply Nc.
      apply constant_cons. intros x Hx.
      apply (vle_antisym nltb cltb Hn Hc t'); [apply Kr; right; exact Hx|apply Kr; cbn; auto| |].
      + eapply falling_head; eassumption.
      + apply (vle_trans nltb cltb Hn Hc t' _ (List.last r (i_first i)));
          [apply Kr; cbn; auto|apply Kr; apply last_in|apply Kr; right; exact Hx|exact X|].
        apply last_le_falling; [exact R|right; exact Hx].
    - left. split; [reflexivity|]. split; [auto|].
      assert (Q : List.last r (i_first i) = i_first i).
      { apply Ho; [apply last_in|cbn; auto]. }
      rewrite !Q. auto.
  Qed.

  Lemma down_run t : forall h, all_kind t h -> falling (concat (pieces h)) ->
    match c_info (run h) with
    | None => pieces h = []
    | Some i => down_state t (pieces h) i
    end.
  Proof.
    induction h as [|h IH b|h1 IH1 h2 IH2]; intros A R.
    - reflexivity.
    - assert (Akh : all_kind t h).
      { unfold all_kind in *. cbn [OrderProofs.pieces] in A. apply Forall_app in A. tauto. }
      assert (Rh : falling (concat (pieces h))).
      { cbn [OrderProofs.pieces] in R. rewrite concat_app in R. apply StronglySorted_app in R. tauto. }
      specialize (IH Akh Rh).
      cbn [OrderModel.run]. unfold update. destruct b as [|c b'].
      { cbn [OrderProofs.pieces]. rewrite app_nil_r. exact IH. }
      remember (c :: b') as b eqn:Eb. assert (Hb : b <> []) by (rewrite Eb; discriminate).
      assert (Ep : pieces (HUpd h b) = pieces h ++ [read parse (textual h || existsb (is_text parse) b) b]).
      { cbn [OrderProofs.pieces]. rewrite Eb. reflexivity. }
      assert (Rb : falling (read parse (textual h || existsb (is_text parse) b) b)).
      { rewrite Ep, concat_app in R. apply StronglySorted_app in R. destruct R as [_ [R _]].
        cbn [concat] in R. rewrite app_nil_r in R. exact R. }
      assert (Et : textual h || existsb (is_text parse) b = t).
      { change (textual (HUpd h b) = t). apply (all_kind_textual t); [exact A|]. rewrite Ep.
        destruct (pieces h); discriminate. }
      clear Eb c b'. cbn [c_info]. unfold update_order.
      destruct (c_info (run h)) as [i|] eqn:E.
      + pose proof IH as [Ti [_ [f [Hh O]]]].
        assert (Er : ord_eqb (i_order i) Random = false) by (destruct O as [[-> _]|[-> _]]; reflexivity).
        rewrite Er.
        assert (Th : textual h = t).
        { apply (all_kind_textual t); [exact Akh|]. intro Q. rewrite Q in Hh. discriminate. }
        rewrite Ti, <- Th.
        destruct (get_data_order_spec nltb cltb parse Hn Hc (textual h) b Hb) as [j [Ej _]].
        rewrite Ej. cbn [merge_order]. pose proof (down_batch _ _ _ Ej Hb Rb) as U.
        unfold all_kind in A. rewrite Ep in *. apply Forall_app in A. destruct A as [A1 A2].
        rewrite Et in *. rewrite Th. apply down_merge; assumption.
      + rewrite IH in Ep. cbn [app] in Ep. rewrite (no_pieces_not_textual _ IH) in *. cbn [orb] in Et, Rb, Ep.
        destruct (get_data_order_spec nltb cltb parse Hn Hc false b Hb) as [j [Ej _]].
        rewrite Ej. cbn [merge_order]. pose proof (down_batch _ _ _ Ej Hb Rb) as U. cbn [orb] in U.
        rewrite Ep, Et in *. exact U.
    - cbn [OrderModel.run OrderProofs.pieces] in *. unfold add. cbn [c_info].
      unfold all_kind in *. cbn [OrderProofs.pieces] in A. apply Forall_app in A. destruct A as [A1 A2].
      pose proof R as R'. rewrite concat_app in R'. apply StronglySorted_app in R'. destruct R' as [R1 [R2 _]].
      specialize (IH1 A1 R1). specialize (IH2 A2 R2).
      destruct (c_info (run h1)) as [a|], (c_info (run h2)) as [b|]; cbn [merge_order].
      + apply down_merge; assumption.
      + rewrite IH2, app_nil_r. exact IH1.
      + rewrite IH1. exact IH2.
      + rewrite IH1, IH2. reflexivity.
  Qed.

  Lemma falling_data_descending t h : all_kind t h -> falling (concat (pieces h)) ->
    Exists (fun p => ~ constant p) (pieces h) -> report_order (run h) = Some Desc.
  Proof.
    intros A R E. pose proof (down_run t h A R) as U. unfold report_order.
    destruct (c_info (run h)) as [i|].
    - destruct U as [_ [_ [f [_ [[_ [F _]]|[O _]]]]]]; [|rewrite O; reflexivity].
      exfalso. rewrite Exists_exists in E. destruct E as [p [Hp Np]]. apply Np.
      rewrite Forall_forall in F. auto.
    - rewrite U in E. inversion E.
  Qed.

  (** ** Two batches *)

  Lemma two_pieces t h1 h2 b1 b2 o :
    h1 = HUpd HNew b1 -> h2 = HUpd h1 b2 -> (o = Asc \/ o = Desc) ->
    b1 <> [] -> b2 <> [] ->
    existsb (is_text parse) b1 = t -> (t = false -> existsb (is_text parse) b2 = false) ->
    has_order nltb cltb o (read parse t b1) -> has_order nltb cltb o (read parse t b2) ->
    forall f1 l1 f2 l2, hd_error (read parse t b1) = Some f1 -> l1 = List.last (read parse t b1) f1 ->
    hd_error (read parse t b2) = Some f2 -> l2 = List.last (read parse t b2) f2 ->
    report_order (run h2) =
      Some (if match o with Asc => vltb f1 l2 && vltb f2 l1 | _ => vltb l1 f2 && vltb l2 f1 end then Random else o).
  Proof.
    intros -> -> Ho B1 B2 T1 T2 O1 O2 f1 l1 f2 l2 F1 L1 F2 L2.
    cbn [OrderModel.run]. unfold update at 1. destruct b2 as [|c b2']; [congruence|].
    remember (c :: b2') as b2 eqn:E2. unfold report_order. cbn [c_info].
    assert (E : c_info (update nltb cltb parse show new_col b1) = get_data_order nltb cltb parse false b1).
    { unfold update. destruct b1; [congruence|]. reflexivity. }
    rewrite E. destruct (get_data_order_spec nltb cltb parse Hn Hc false b1 B1) as [i [Ei [Ti [Pi [Oi [Fi [Ki [_ Li]]]]]]]].
    cbn [orb] in *. rewrite T1 in *. rewrite Ei. unfold update_order.
    assert (Wf : forall x o', (o' = Asc \/ o' = Desc) -> Forall (of_kind t) x -> has_order nltb cltb o' x ->
               forall o'', has_order nltb cltb o'' x -> o'' = o').
    { intros x o' Ho' Kx H o'' H'.
      assert (U : rising x -> falling x -> constant x).
      { intros R F. destruct x as [|v r]; [intros ? ? []|]. apply constant_cons. intros y Hy.
        rewrite Forall_forall in Kx.
        apply (vle_antisym nltb cltb Hn Hc t); [apply Kx; right; exact Hy|apply Kx; cbn; auto| |].
        - eapply falling_head; eassumption.
        - eapply rising_head; eassumption. }
      destruct Ho' as [-> | ->], o''; cbn [has_order] in *; try reflexivity; exfalso; tauto. }
    pose proof (read_kind parse false b1) as Kr1. cbn [orb] in Kr1. rewrite T1 in Kr1.
    assert (Oi' : i_order i = o) by (eapply Wf; eassumption).
    assert (Er : ord_eqb (i_order i) Random = false) by (rewrite Oi'; destruct Ho as [-> | ->]; reflexivity).
    rewrite Er. destruct (get_data_order_spec nltb cltb parse Hn Hc (i_text i) b2 B2) as [j [Ej [Tj [Pj [Oj [Fj [Kj [_ Lj]]]]]]]].
    rewrite Ej. cbn [merge_order]. rewrite Ti in *.
    assert (Tt : t || existsb (is_text parse) b2 = t) by (destruct t; [reflexivity|]; rewrite T2; reflexivity).
    pose proof (read_kind parse t b2) as Kr2. rewrite Tt in *.
    assert (Oj' : i_order j = o) by (eapply Wf; eassumption).
    assert (Nr : o <> Random) by (destruct Ho as [-> | ->]; discriminate).
    rewrite Oi' in Li. rewrite Oj' in Lj. specialize (Li Nr). specialize (Lj Nr).
    rewrite F1 in Fi. injection Fi as Fi. rewrite F2 in Fj. injection Fj as Fj.
    rewrite <- Fi in Li. rewrite <- Fj in Lj. rewrite <- L1 in Li. rewrite <- L2 in Lj.
    unfold OrderModel.merge_info. cbv zeta. cbn [i_order]. rewrite Pi, Pj, Oi', Oj'. cbn [andb orb].
    destruct Ki as [Ki1 Ki2]. destruct Kj as [Kj1 Kj2]. rewrite Ti in *. rewrite Tj in *.
    assert (Tt' : t || t = t) by (destruct t; reflexivity). rewrite Tt'. rewrite !coerce_same by assumption.
    rewrite <- Fi, <- Fj, Li, Lj. rewrite <- Fi, Li in *. rewrite <- Fj, Lj in *.
    destruct Ho as [-> | ->]; cbn [ord_eqb orb].
    - assert (S1 : vltb f1 l1 = true).
      { destruct (up_batch false b1 i Ei B1) as [_ [_ [_ [_ [[Q _]|[_ Q]]]]]].
        - cbn [orb]. rewrite T1. apply O1.
        - congruence.
        - rewrite <- Fi, Li in Q. exact Q. }
      assert (S2 : vltb f2 l2 = true).
      { destruct (up_batch t b2 j Ej B2) as [_ [_ [_ [_ [[Q _]|[_ Q]]]]]].
        - rewrite Tt. apply O2.
        - congruence.
        - rewrite <- Fj, Lj in Q. exact Q. }
      rewrite (inter_strict t) by assumption. destruct (vltb f1 l2 && vltb f2 l1); reflexivity.
    - assert (S1 : vltb l1 f1 = true).
      { destruct (down_batch false b1 i Ei B1) as [_ [_ [f [_ [[Q _]|[_ [Q _]]]]]]].
        - cbn [orb]. rewrite T1. apply O1.
        - congruence.
        - rewrite <- Fi, Li in Q. exact Q. }
      assert (S2 : vltb l2 f2 = true).
      { destruct (down_batch t b2 j Ej B2) as [_ [_ [f [_ [[Q _]|[_ [Q _]]]]]]].
        - rewrite Tt. apply O2.
        - congruence.
        - rewrite <- Fj, Lj in Q. exact Q. }
      rewrite (inter_flip1 t) by assumption. rewrite (inter_strict t) by assumption.
      destruct (vltb l1 f2 && vltb l2 f1); reflexivity.
  Qed.

  Lemma inter_point t f1 l1 c :
    of_kind t f1 -> of_kind t l1 -> of_kind t c -> vltb f1 l1 = true ->
    is_intersecting f1 l1 c c = vltb f1 c && vltb c l1.
  Proof.
    intros K1 K2 K3 A. unfold OrderModel.is_intersecting, OrderModel.vmin, OrderModel.vmax. cbv zeta.
    rewrite A, (vltb_asym nltb cltb Hn Hc _ _ A), !vltb_irrefl by assumption.
    assert (E : veqb f1 c && veqb l1 c = false).
    { unfold veqb. destruct (vltb f1 c) eqn:E1, (vltb c f1) eqn:E2, (vltb l1 c) eqn:E3, (vltb c l1) eqn:E4; try reflexivity.
      exfalso. assert (Q : vle l1 f1).
      { apply (vle_trans nltb cltb Hn Hc t _ c); assumption. }
      unfold vle in Q. congruence. }
    rewrite E. destruct (vltb f1 c) eqn:E1, (vltb c l1) eqn:E2;
      rewrite ?(vltb_asym nltb cltb Hn Hc _ _ E1), ?(vltb_asym nltb cltb Hn Hc _ _ E2), ?andb_false_r, ?orb_false_r; cbn; try reflexivity;
      destruct (vltb c f1), (vltb l1 c); reflexivity.
  Qed.

  (** A constant batch after one ascending or descending batch *)
  Lemma then_constant t b1 b2 o :
    (o = Asc \/ o = Desc) -> b1 <> [] -> b2 <> [] ->
    existsb (is_text parse) b1 = t -> (t = false -> existsb (is_text parse) b2 = false) ->
    has_order nltb cltb o (read parse t b1) -> has_order nltb cltb Const (read parse t b2) ->
    forall f1 l1 c, hd_error (read parse t b1) = Some f1 -> l1 = List.last (read parse t b1) f1 ->
    hd_error (read parse t b2) = Some c ->
    report_order (run (HUpd (HUpd HNew b1) b2)) =
      Some (if match o with Asc => vltb f1 c && vltb c l1 | _ => vltb l1 c && vltb c f1 end then Random else o).
  Proof.
    intros Ho B1 B2 T1 T2 O1 O2 f1 l1 f2 F1 L1 F2.
    cbn [OrderModel.run]. unfold update at 1. destruct b2 as [|c0 b2']; [congruence|].
    remember (c0 :: b2') as b2 eqn:E2. unfold report_order. cbn [c_info].
    assert (E : c_info (update nltb cltb parse show new_col b1) = get_data_order nltb cltb parse false b1).
    { unfold update. destruct b1; [congruence|]. reflexivity. }
    rewrite E. destruct (get_data_order_spec nltb cltb parse Hn Hc false b1 B1) as [i [Ei [Ti [Pi [Oi [Fi [Ki [_ Li]]]]]]]].
    cbn [orb] in *. rewrite T1 in *. rewrite Ei. unfold update_order.
    pose proof (read_kind parse false b1) as Kr1. cbn [orb] in Kr1. rewrite T1 in Kr1.
    assert (Oi' : i_order i = o).
    { assert (U : rising (read parse t b1) -> falling (read parse t b1) -> constant (read parse t b1)).
      { intros R F. destruct (read parse t b1) as [|v r]; [intros ? ? []|]. apply constant_cons. intros y Hy.
        rewrite Forall_forall in Kr1.
        apply (vle_antisym nltb cltb Hn Hc t); [apply Kr1; right; exact Hy|apply Kr1; cbn; auto| |].
        - eapply falling_head; eassumption.
        - eapply rising_head; eassumption. }
      destruct Ho as [-> | ->], (i_order i); cbn [has_order] in *; try reflexivity; exfalso; tauto. }
    assert (Er : ord_eqb (i_order i) Random = false) by (rewrite Oi'; destruct Ho as [-> | ->]; reflexivity).
    rewrite Er. destruct (get_data_order_spec nltb cltb parse Hn Hc (i_text i) b2 B2) as [j [Ej [Tj [Pj [Oj [Fj [Kj [Inj Lj]]]]]]]].
    rewrite Ej. cbn [merge_order]. rewrite Ti in *.
    assert (Tt : t || existsb (is_text parse) b2 = t) by (destruct t; [reflexivity|]; rewrite T2; reflexivity).
    pose proof (read_kind parse t b2) as Kr2. rewrite Tt in *.
    assert (Oj' : i_order j = Const).
    { cbn [has_order] in O2. pose proof (constant_rising nltb cltb Hn Hc _ O2) as R. destruct (i_order j); cbn [has_order] in Oj; try reflexivity; exfalso; tauto. }
    assert (Nr : o <> Random) by (destruct Ho as [-> | ->]; discriminate).
    rewrite Oi' in Li. specialize (Li Nr).
    rewrite F1 in Fi. injection Fi as Fi. rewrite F2 in Fj. injection Fj as Fj.
    rewrite <- Fi in Li. rewrite <- L1 in Li.
    assert (Lj' : i_last j = f2).
    { apply O2; [exact Inj|]. destruct (read parse t b2); [discriminate|]. injection F2 as ->. cbn. auto. }
    unfold OrderModel.merge_info. cbv zeta. cbn [i_order]. rewrite Pi, Pj, Oi', Oj'. cbn [andb orb].
    destruct Ki as [Ki1 Ki2]. destruct Kj as [Kj1 Kj2]. rewrite Ti in *. rewrite Tj in *.
    assert (Tt' : t || t = t) by (destruct t; reflexivity). rewrite Tt'. rewrite !coerce_same by assumption.
    rewrite <- Fi, <- Fj, Li, Lj'. rewrite <- Fi, Li in *. rewrite <- Fj, Lj' in *.
    destruct Ho as [-> | ->]; cbn [ord_eqb orb andb negb].
    - assert (S1 : vltb f1 l1 = true).
      { destruct (up_batch false b1 i Ei B1) as [_ [_ [_ [_ [[Q _]|[_ Q]]]]]].
        - cbn [orb]. rewrite T1. apply O1.
        - congruence.
        - rewrite <- Fi, Li in Q. exact Q. }
      rewrite (inter_point t) by assumption. destruct (vltb f1 f2 && vltb f2 l1); reflexivity.
    - assert (S1 : vltb l1 f1 = true).
      { destruct (down_batch false b1 i Ei B1) as [_ [_ [f [_ [[Q _]|[_ [Q _]]]]]]].
        - cbn [orb]. rewrite T1. apply O1.
        - congruence.
        - rewrite <- Fi, Li in Q. exact Q. }
      rewrite (inter_flip1 t) by assumption. rewrite (inter_point t) by assumption.
      destruct (vltb l1 f2 && vltb f2 f1); reflexivity.
  Qed.

  (** ** The stored range *)

  Definition range_state (t : bool) (ps : list (list value)) (i : info) : Prop :=
    i_order i = Asc \/ i_order i = Const ->
    i_text i = t /\ forall x, In x (concat ps) -> vle (i_first i) x /\ vle x (i_last i).

  Lemma range_merge t (ps1 ps2 : list (list value)) a b : kinds_ok a -> kinds_ok b ->
    Forall (Forall (of_kind t)) (ps1 ++ ps2) -> range_state t ps1 a -> range_state t ps2 b ->
    range_state t (ps1 ++ ps2) (merge_info a b).
  Proof.
    intros Ka Kb A Ra Rb O. pose proof (merge_info_order_table nltb cltb show a b) as T.
    assert (Oa : i_order a = Asc \/ i_order a = Const) by (destruct O as [O|O]; rewrite O in T; tauto).
    assert (Ob : i_order b = Asc \/ i_order b = Const) by (destruct O as [O|O]; rewrite O in T; tauto).
    destruct (Ra Oa) as [Ta Va]. destruct (Rb Ob) as [Tb Vb].
    assert (Et : i_text a || i_text b = t) by (rewrite Ta, Tb; destruct t; reflexivity).
    destruct Ka as [Kfa Kla]. destruct Kb as [Kfb Klb]. rewrite Ta in Kfa, Kla. rewrite Tb in Kfb, Klb.
    split; [rewrite merge_info_text; exact Et|]. rewrite concat_app. intros x Hx.
    apply Forall_concat in A. rewrite concat_app in A. rewrite Forall_forall in A. pose proof (A x Hx) as Kx.
    set (m := merge_info a b) in *.
    assert (Bf : vle (i_first m) (i_first a) /\ vle (i_first m) (i_first b) /\
                 vle (i_last a) (i_last m) /\ vle (i_last b) (i_last m) /\ of_kind t (i_first m) /\ of_kind t (i_last m)).
    { unfold m in *. unfold OrderModel.merge_info in O |- *. cbv zeta in O |- *. cbn [i_order] in O. cbn [i_first i_last].
      rewrite Et in *. rewrite !coerce_same in * by assumption.
      assert (k : of_kind t (vmin (i_first a) (i_first b))) by (apply vmin_kind; assumption).
      assert (k' : of_kind t (vmax (i_first a) (i_first b))) by (apply vmax_kind; assumption).
      destruct (vmin_lower nltb cltb Hn Hc t (vmin (i_first a) (i_first b)) (i_last a) (i_last b)) as [V1 [V2 V3]]; auto.
      destruct (vmax_upper nltb cltb Hn Hc t (vmax (i_first a) (i_first b)) (i_last a) (i_last b)) as [W1 [W2 W3]]; auto.
      assert (k2 : of_kind t (vmin (vmin (vmin (i_first a) (i_first b)) (i_last a)) (i_last b)))
        by (repeat apply vmin_kind; assumption).
      assert (k3 : of_kind t (vmax (vmax (vmax (i_first a) (i_first b)) (i_last a)) (i_last b)))
        by (repeat apply vmax_kind; assumption).
      destruct O as [O|O]; rewrite O.
      - repeat split; auto using vmin_lower_l, vmin_lower_r, vmax_upper_l, vmax_upper_r, vmin_kind, vmax_kind.
      - repeat split; auto.
        + apply (vle_trans nltb cltb Hn Hc t _ (vmin (i_first a) (i_first b))); auto using vmin_lower_l.
        + apply (vle_trans nltb cltb Hn Hc t _ (vmin (i_first a) (i_first b))); auto using vmin_lower_r. }
    destruct Bf as [B1 [B2 [B3 [B4 [K1 K2]]]]].
    apply in_app_or in Hx. destruct Hx as [Hx|Hx].
    - destruct (Va x Hx). split.
      + apply (vle_trans nltb cltb Hn Hc t _ (i_first a)); assumption.
      + apply (vle_trans nltb cltb Hn Hc t _ (i_last a)); assumption.
    - destruct (Vb x Hx). split.
      + apply (vle_trans nltb cltb Hn Hc t _ (i_first b)); assumption.
      + apply (vle_trans nltb cltb Hn Hc t _ (i_last b)); assumption.
  Qed.

  Lemma range_batch t b i : get_data_order nltb cltb parse t b = Some i -> b <> [] ->
    range_state (t || existsb (is_text parse) b) [read parse (t || existsb (is_text parse) b) b] i.
  Proof.
    intros E Hb O. destruct (get_data_order_spec nltb cltb parse Hn Hc t b Hb) as [j [E' [Ht [_ [Ho [Hf [K [_ Hl]]]]]]]].
    rewrite E in E'. injection E' as <-. split; [exact Ht|].
    cbn [concat]. rewrite app_nil_r. set (vs := read parse (t || existsb (is_text parse) b) b) in *.
    assert (R : rising vs).
    { destruct O as [O|O]; rewrite O in Ho; cbn [has_order] in Ho; [tauto|]. apply constant_rising; assumption. }
    assert (Nr : i_order i <> Random) by (destruct O as [O|O]; rewrite O; discriminate).
    rewrite (Hl Nr). destruct vs as [|v r]; [discriminate|]. injection Hf as ->. intros x Hx.
    rewrite last_cons2. split; [|apply last_ge_rising; assumption].
    destruct Hx as [->|Hx]; [apply vle_refl; assumption|]. eapply rising_head; eassumption.
  Qed.

  Lemma range_run t : forall h, all_kind t h ->
    match c_info (run h) with
    | None => pieces h = []
    | Some i => range_state t (pieces h) i
    end.
  Proof.
    induction h as [|h IH b|h1 IH1 h2 IH2]; intros A.
    - reflexivity.
    - assert (Akh : all_kind t h).
      { unfold all_kind in *. cbn [OrderProofs.pieces] in A. apply Forall_app in A. tauto. }
      specialize (IH Akh). pose proof (good_run nltb cltb parse show Hn Hc h) as G.
      cbn [OrderModel.run]. unfold update. destruct b as [|c b'].
      { cbn [OrderProofs.pieces]. rewrite app_nil_r. exact IH. }
      remember (c :: b') as b eqn:Eb. assert (Hb : b <> []) by (rewrite Eb; discriminate).
      assert (Ep : pieces (HUpd h b) = pieces h ++ [read parse (textual h || existsb (is_text parse) b) b]).
      { cbn [OrderProofs.pieces]. rewrite Eb. reflexivity. }
      assert (Et : textual h || existsb (is_text parse) b = t).
      { change (textual (HUpd h b) = t). apply (all_kind_textual t); [exact A|]. rewrite Ep.
        destruct (pieces h); discriminate. }
      clear Eb c b'. cbn [c_info]. unfold update_order.
      destruct (c_info (run h)) as [i|] eqn:E.
      + cbn [good] in G. destruct G as [Ki [Np [Ti _]]].
        destruct (ord_eqb (i_order i) Random) eqn:Er.
        { intro O. exfalso. destruct O as [O|O]; rewrite O in Er; discriminate. }
        assert (Nr : i_order i <> Random) by (intro Q; rewrite Q in Er; discriminate).
        assert (Th : textual h = t) by (apply (all_kind_textual t); assumption).
        rewrite (Ti Nr).
        destruct (get_data_order_spec nltb cltb parse Hn Hc (textual h) b Hb) as [j [Ej [_ [_ [_ [_ [Kj _]]]]]]].
        rewrite Ej. cbn [merge_order]. pose proof (range_batch _ _ _ Ej Hb) as U.
        unfold all_kind in A. rewrite Ep in *. rewrite Et in *. apply range_merge; assumption.
      + rewrite IH in Ep. cbn [app] in Ep. rewrite (no_pieces_not_textual _ IH) in *. cbn [orb] in Et, Ep.
        destruct (get_data_order_spec nltb cltb parse Hn Hc false b Hb) as [j [Ej _]].
        rewrite Ej. cbn [merge_order]. pose proof (range_batch _ _ _ Ej Hb) as U. cbn [orb] in U.
        rewrite Ep, Et in *. exact U.
    - cbn [OrderModel.run OrderProofs.pieces] in *. unfold add. cbn [c_info].
      unfold all_kind in *. cbn [OrderProofs.pieces] in A. pose proof A as A'. apply Forall_app in A. destruct A as [A1 A2].
      specialize (IH1 A1). specialize (IH2 A2).
      pose proof (run_kinds nltb cltb parse show Hn Hc h1) as K1. pose proof (run_kinds nltb cltb parse show Hn Hc h2) as K2.
      destruct (c_info (run h1)) as [a|], (c_info (run h2)) as [b|]; cbn [merge_order].
      + apply range_merge; auto.
      + rewrite IH2, app_nil_r. exact IH1.
      + rewrite IH1. exact IH2.
      + rewrite IH1, IH2. reflexivity.
  Qed.
End Order.
