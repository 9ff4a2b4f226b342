(** Lemmas about the order of a column. *)
From Coq Require Import List Bool Arith Lia Sorting.Sorted.
From Verif Require Import OrderModel.
Import ListNotations.

(** * Specification vocabulary *)

(** A strict total order given as a boolean. *)
Record total_order {A} (lt : A -> A -> bool) : Prop := {
  to_irrefl : forall a, lt a a = false;
  to_trans : forall a b c, lt a b = true -> lt b c = true -> lt a c = true;
  to_total : forall a b, lt a b = false -> lt b a = false -> a = b
}.

Section Order.
  Context {N C : Type}.
  Variable nltb : N -> N -> bool.
  Variable cltb : C -> C -> bool.
  Variable parse : C -> option N.
  Variable show : N -> C.
  Hypothesis Hn : total_order nltb.
  Hypothesis Hc : total_order cltb.

  Notation value := (value N C).
  Notation info := (info N C).
  Notation vltb := (vltb nltb cltb).
  Notation veqb := (veqb nltb cltb).
  Notation vmin := (vmin nltb cltb).
  Notation vmax := (vmax nltb cltb).

  Definition vle (a b : value) : Prop := vltb b a = false.

  (** All values equal; each value at least (at most) all before it. *)
  Definition constant (vs : list value) : Prop := forall x y, In x vs -> In y vs -> x = y.
  Definition rising (vs : list value) : Prop := StronglySorted vle vs.
  Definition falling (vs : list value) : Prop := StronglySorted (fun a b => vle b a) vs.

  (** What each answer means for one batch. *)
  Definition has_order (o : ord) (vs : list value) : Prop :=
    match o with
    | Const => constant vs
    | Asc => rising vs /\ ~ constant vs
    | Desc => falling vs /\ ~ constant vs
    | Random => ~ rising vs /\ ~ falling vs
    end.

  (** Number ([false]) or text ([true]). *)
  Definition of_kind (t : bool) (v : value) : Prop :=
    match v with VN _ => t = false | VS _ => t = true end.

  (** A cell that is no number. *)
  Definition is_text (c : C) : bool := match parse c with Some _ => false | None => true end.

  (** A batch read as numbers or as text. *)
  Definition read (t : bool) (b : list C) : list value :=
    map (fun c => match parse c with
                  | Some n => if t then VS c else VN n
                  | None => VS c
                  end) b.

  (** Has the profile met a cell that is no number? *)
  Fixpoint textual (h : hist C) : bool :=
    match h with
    | HNew => false
    | HUpd h b => textual h || existsb is_text b
    | HAdd a b => textual a || textual b
    end.

  (** The non-empty batches in order, each read as text if it or an earlier batch of the same
      profile has a cell that is no number. *)
  Fixpoint pieces (h : hist C) : list (list value) :=
    match h with
    | HNew => []
    | HUpd h b => pieces h ++ match b with [] => [] | _ => [read (textual h || existsb is_text b) b] end
    | HAdd a b => pieces a ++ pieces b
    end.

  Fixpoint cells (h : hist C) : list C :=
    match h with
    | HNew => []
    | HUpd h b => cells h ++ b
    | HAdd a b => cells a ++ cells b
    end.

  (** * The order on values of one kind *)

  Lemma vltb_irrefl a : vltb a a = false.
  Proof. destruct a; cbn; [apply Hn|apply Hc]. Qed.

  Lemma vltb_trans a b c : vltb a b = true -> vltb b c = true -> vltb a c = true.
  Proof.
    destruct a, b, c; cbn; try discriminate; [apply Hn|apply Hc].
  Qed.

  Lemma vltb_total t a b : of_kind t a -> of_kind t b -> vltb a b = false -> vltb b a = false -> a = b.
  Proof.
    destruct a as [x|x], b as [y|y]; cbn; intros Ka Kb H1 H2; try congruence.
    - f_equal. apply Hn; assumption.
    - f_equal. apply Hc; assumption.
  Qed.

  Lemma vltb_asym a b : vltb a b = true -> vltb b a = false.
  Proof.
    intro H. destruct (vltb b a) eqn:E; [|reflexivity].
    pose proof (vltb_trans _ _ _ H E) as A. rewrite vltb_irrefl in A. discriminate.
  Qed.

  Lemma vle_refl a : vle a a.
  Proof. apply vltb_irrefl. Qed.

  Lemma vle_trans t a b c : of_kind t a -> of_kind t b -> of_kind t c -> vle a b -> vle b c -> vle a c.
  Proof.
    unfold vle. intros Ka Kb Kc H1 H2. destruct (vltb c a) eqn:E; [|reflexivity].
    destruct (vltb a b) eqn:E1.
    - rewrite (vltb_trans _ _ _ E E1) in H2. discriminate.
    - rewrite (vltb_total _ _ _ Ka Kb E1 H1) in E. congruence.
  Qed.

  Lemma vlt_le_trans t a b c : of_kind t a -> of_kind t b -> of_kind t c ->
    vltb a b = true -> vle b c -> vltb a c = true.
  Proof.
    unfold vle. intros Ka Kb Kc H1 H2. destruct (vltb b c) eqn:E.
    - eapply vltb_trans; eassumption.
    - rewrite <- (vltb_total _ _ _ Kb Kc E H2). exact H1.
  Qed.

  Lemma vle_lt_trans t a b c : of_kind t a -> of_kind t b -> of_kind t c ->
    vle a b -> vltb b c = true -> vltb a c = true.
  Proof.
    unfold vle. intros Ka Kb Kc H1 H2. destruct (vltb a b) eqn:E.
    - eapply vltb_trans; eassumption.
    - rewrite (vltb_total _ _ _ Ka Kb E H1). exact H2.
  Qed.

  Lemma vlt_le a b : vltb a b = true -> vle a b.
  Proof. apply vltb_asym. Qed.

  Lemma vle_antisym t a b : of_kind t a -> of_kind t b -> vle a b -> vle b a -> a = b.
  Proof. intros Ka Kb H1 H2. apply (vltb_total t); assumption. Qed.

  Lemma vmin_le a b : vle a b -> vmin a b = a.
  Proof. unfold vle, OrderModel.vmin. intros ->. reflexivity. Qed.
  Lemma vmax_le t a b : of_kind t a -> of_kind t b -> vle a b -> vmax a b = b.
  Proof.
    unfold OrderModel.vmax. intros Ka Kb H. destruct (vltb a b) eqn:E; [reflexivity|].
    apply (vltb_total t); assumption.
  Qed.
  Lemma vmin_ge t a b : of_kind t a -> of_kind t b -> vle b a -> vmin a b = b.
  Proof.
    unfold OrderModel.vmin. intros Ka Kb H. destruct (vltb b a) eqn:E; [reflexivity|].
    apply (vltb_total t); assumption.
  Qed.
  Lemma vmax_ge a b : vle b a -> vmax a b = a.
  Proof. unfold vle, OrderModel.vmax. intros ->. reflexivity. Qed.

  Lemma vmin_kind t a b : of_kind t a -> of_kind t b -> of_kind t (vmin a b).
  Proof. unfold OrderModel.vmin. destruct vltb; auto. Qed.
  Lemma vmax_kind t a b : of_kind t a -> of_kind t b -> of_kind t (vmax a b).
  Proof. unfold OrderModel.vmax. destruct vltb; auto. Qed.

  Lemma vmin_comm t a b : of_kind t a -> of_kind t b -> vmin a b = vmin b a.
  Proof.
    intros Ka Kb. unfold OrderModel.vmin. destruct (vltb b a) eqn:E1, (vltb a b) eqn:E2; try reflexivity.
    - rewrite (vltb_asym _ _ E1) in E2. discriminate.
    - apply (vltb_total t); assumption.
  Qed.
  Lemma vmax_comm t a b : of_kind t a -> of_kind t b -> vmax a b = vmax b a.
  Proof.
    intros Ka Kb. unfold OrderModel.vmax. destruct (vltb b a) eqn:E1, (vltb a b) eqn:E2; try reflexivity.
    - rewrite (vltb_asym _ _ E1) in E2. discriminate.
    - apply (vltb_total t); assumption.
  Qed.

  Lemma vmin_lower_l a b : vle (vmin a b) a.
  Proof.
    unfold OrderModel.vmin. destruct (vltb b a) eqn:E; [apply vlt_le; exact E|apply vle_refl].
  Qed.
  Lemma vmin_lower_r a b : vle (vmin a b) b.
  Proof. unfold OrderModel.vmin. destruct (vltb b a) eqn:E; [apply vle_refl|exact E]. Qed.
  Lemma vmax_upper_l a b : vle a (vmax a b).
  Proof.
    unfold OrderModel.vmax. destruct (vltb a b) eqn:E; [apply vlt_le; exact E|apply vle_refl].
  Qed.
  Lemma vmax_upper_r a b : vle b (vmax a b).
  Proof. unfold OrderModel.vmax. destruct (vltb a b) eqn:E; [apply vle_refl|exact E]. Qed.

  Lemma veqb_comm a b : veqb a b = veqb b a.
  Proof. unfold OrderModel.veqb. apply andb_comm. Qed.

  Lemma veqb_true t a b : of_kind t a -> of_kind t b -> (veqb a b = true <-> a = b).
  Proof.
    intros Ka Kb. unfold OrderModel.veqb. rewrite andb_true_iff, !negb_true_iff. split.
    - intros [H1 H2]. apply (vltb_total t); assumption.
    - intros ->. rewrite vltb_irrefl. auto.
  Qed.

  (** * One batch *)

  Lemma rising_cons2 t a b l : of_kind t a -> Forall (of_kind t) (b :: l) ->
    vle a b -> rising (b :: l) -> rising (a :: b :: l).
  Proof.
    intros Ka Kl H R. constructor; [exact R|]. constructor; [exact H|].
    apply StronglySorted_inv in R. destruct R as [_ R]. inversion Kl as [|? ? Kb Kl']; subst.
    rewrite Forall_forall in *. intros x Hx. apply (vle_trans t a b x); auto.
  Qed.

  Lemma falling_cons2 t a b l : of_kind t a -> Forall (of_kind t) (b :: l) ->
    vle b a -> falling (b :: l) -> falling (a :: b :: l).
  Proof.
    intros Ka Kl H R. constructor; [exact R|]. constructor; [exact H|].
    apply StronglySorted_inv in R. destruct R as [_ R]. inversion Kl as [|? ? Kb Kl']; subst.
    rewrite Forall_forall in *. intros x Hx. apply (vle_trans t x b a); auto.
  Qed.

  Lemma rising_tail a l : rising (a :: l) -> rising l.
  Proof. intro H. apply StronglySorted_inv in H. tauto. Qed.
  Lemma falling_tail a l : falling (a :: l) -> falling l.
  Proof. intro H. apply StronglySorted_inv in H. tauto. Qed.
  Lemma rising_head a l x : rising (a :: l) -> In x l -> vle a x.
  Proof. intros H Hx. apply StronglySorted_inv in H. destruct H as [_ H]. rewrite Forall_forall in H. auto. Qed.
  Lemma falling_head a l x : falling (a :: l) -> In x l -> vle x a.
  Proof.
    intros H Hx. apply StronglySorted_inv in H. destruct H as [_ H]. rewrite Forall_forall in H.
    apply (H x Hx).
  Qed.

  Lemma last_cons2 {A} (v : A) r d : List.last (v :: r) d = List.last r v.
  Proof.
    revert v d. induction r as [|x r IH]; intros v d; [reflexivity|].
    change (List.last (v :: x :: r) d) with (List.last (x :: r) d). rewrite !IH. reflexivity.
  Qed.

  Lemma scan_asc t : forall vs last, Forall (of_kind t) (last :: vs) ->
    (scan nltb cltb (Some Asc) last vs = (Some Asc, List.last vs last) /\ rising (last :: vs)) \/
    (exists l, scan nltb cltb (Some Asc) last vs = (Some Random, l) /\ ~ rising (last :: vs)).
  Proof.
    induction vs as [|v r IH]; intros last K.
    - left. split; [reflexivity|]. repeat constructor.
    - inversion K as [|? ? K1 K2]; subst. cbn [scan]. destruct (vltb v last) eqn:E.
      + right. exists last. split; [reflexivity|]. intro R.
        pose proof (rising_head _ _ v R (or_introl eq_refl)) as A. unfold vle in A. congruence.
      + destruct (IH v K2) as [[H R]|[l [H R]]].
        * left. split; [|apply (rising_cons2 t); assumption].
          rewrite H, last_cons2. reflexivity.
        * right. exists l. split; [exact H|]. intro A. apply R. exact (rising_tail _ _ A).
  Qed.

  Lemma scan_desc t : forall vs last, Forall (of_kind t) (last :: vs) ->
    (scan nltb cltb (Some Desc) last vs = (Some Desc, List.last vs last) /\ falling (last :: vs)) \/
    (exists l, scan nltb cltb (Some Desc) last vs = (Some Random, l) /\ ~ falling (last :: vs)).
  Proof.
    induction vs as [|v r IH]; intros last K.
    - left. split; [reflexivity|]. repeat constructor.
    - inversion K as [|? ? K1 K2]; subst. cbn [scan]. destruct (vltb last v) eqn:E.
      + right. exists last. split; [reflexivity|]. intro R.
        pose proof (falling_head _ _ v R (or_introl eq_refl)) as A. unfold vle in A. congruence.
      + destruct (IH v K2) as [[H R]|[l [H R]]].
        * left. split; [|apply (falling_cons2 t); assumption].
          rewrite H, last_cons2. reflexivity.
        * right. exists l. split; [exact H|]. intro A. apply R. exact (falling_tail _ _ A).
  Qed.

  Lemma constant_cons a l : constant (a :: l) <-> forall x, In x l -> x = a.
  Proof.
    split.
    - intros H x Hx. apply H; cbn; auto.
    - intros H x y [->|Hx] [->|Hy]; auto.
      + symmetry. auto.
      + rewrite (H x Hx), (H y Hy). reflexivity.
  Qed.

  Lemma scan_none t : forall vs last, Forall (of_kind t) (last :: vs) ->
    exists o l, scan nltb cltb None last vs = (o, l) /\
      match o with
      | None => constant (last :: vs) /\ l = List.last vs last
      | Some Random => ~ rising (last :: vs) /\ ~ falling (last :: vs)
      | Some o => has_order o (last :: vs) /\ l = List.last vs last
      end /\ o <> Some Const.
  Proof.
    induction vs as [|v r IH]; intros last K.
    - exists None, last. cbn. split; [reflexivity|]. split; [|discriminate]. split; [|reflexivity].
      apply constant_cons. intros x [].
    - inversion K as [|? ? K1 K2]; subst. cbn [scan]. destruct (vltb v last) eqn:E.
      + assert (Nr : ~ rising (last :: v :: r)).
        { intro R. pose proof (rising_head _ _ v R (or_introl eq_refl)) as A. unfold vle in A. congruence. }
        destruct (scan_desc t r v K2) as [[H R]|[l [H R]]]; rewrite H.
        * exists (Some Desc), (List.last r v). split; [reflexivity|]. split; [|discriminate].
          split; [|rewrite last_cons2; reflexivity]. cbn [has_order]. split.
          -- apply (falling_cons2 t); try assumption. apply vlt_le. exact E.
          -- intro A. apply constant_cons with (x := v) in A; [|cbn; auto]. subst.
             rewrite vltb_irrefl in E. discriminate.
        * exists (Some Random), l. split; [reflexivity|]. split; [|discriminate].
          split; [exact Nr|]. intro A. apply R. exact (falling_tail _ _ A).
      + destruct (vltb last v) eqn:E'.
        * assert (Nr : ~ falling (last :: v :: r)).
          { intro R. pose proof (falling_head _ _ v R (or_introl eq_refl)) as A. unfold vle in A. congruence. }
          destruct (scan_asc t r v K2) as [[H R]|[l [H R]]]; rewrite H.
          -- exists (Some Asc), (List.last r v). split; [reflexivity|]. split; [|discriminate].
             split; [|rewrite last_cons2; reflexivity]. cbn [has_order]. split.
             ++ apply (rising_cons2 t); assumption.
             ++ intro A. apply constant_cons with (x := v) in A; [|cbn; auto]. subst.
                rewrite vltb_irrefl in E'. discriminate.
          -- exists (Some Random), l. split; [reflexivity|]. split; [|discriminate].
             split; [|exact Nr]. intro A. apply R. exact (rising_tail _ _ A).
        * inversion K2 as [|? ? Kv Kr]; subst.
          assert (v = last) as -> by (apply (vltb_total t); assumption).
          destruct (IH last K2) as [o [l [H [Ho Hx]]]]. exists o, l. split; [exact H|]. split; [|exact Hx].
          assert (Cst : constant (last :: last :: r) <-> constant (last :: r)).
          { rewrite !constant_cons. cbn. split; [auto|]. intros A x [->|Hr]; auto. }
          assert (Ri : rising (last :: last :: r) <-> rising (last :: r)).
          { split; [apply rising_tail|]. apply (rising_cons2 t); auto using vle_refl. }
          assert (Fa : falling (last :: last :: r) <-> falling (last :: r)).
          { split; [apply falling_tail|]. apply (falling_cons2 t); auto using vle_refl. }
          rewrite last_cons2.
          destruct o as [[]|]; cbn [has_order] in *; rewrite ?Cst, ?Ri, ?Fa; auto.
  Qed.

  Lemma parse_all_some b : existsb is_text b = false -> parse_all parse b = Some (read false b).
  Proof.
    induction b as [|c r IH]; [reflexivity|]. cbn [existsb read map parse_all]. unfold is_text at 1.
    destruct (parse c); [|discriminate]. cbn [orb]. intro H. rewrite (IH H). reflexivity.
  Qed.

  Lemma parse_all_none b : existsb is_text b = true -> parse_all parse b = None.
  Proof.
    induction b as [|c r IH]; [discriminate|]. cbn [existsb parse_all]. unfold is_text at 1.
    destruct (parse c); [|reflexivity]. cbn [orb]. intro H. rewrite (IH H). reflexivity.
  Qed.

  Lemma read_true b : read true b = map VS b.
  Proof. apply map_ext. intro c. destruct (parse c); reflexivity. Qed.

  Lemma convert_spec t b :
    convert parse t b = (read (t || existsb is_text b) b, t || existsb is_text b).
  Proof.
    unfold convert. destruct t; cbn [orb].
    - rewrite read_true. reflexivity.
    - destruct (existsb is_text b) eqn:E.
      + rewrite (parse_all_none _ E), read_true. reflexivity.
      + rewrite (parse_all_some _ E). reflexivity.
  Qed.

  Lemma read_kind t b : Forall (of_kind (t || existsb is_text b)) (read (t || existsb is_text b) b).
  Proof.
    destruct (t || existsb is_text b) eqn:E.
    - rewrite read_true. rewrite Forall_map. apply Forall_forall. intros; reflexivity.
    - apply orb_false_iff in E. destruct E as [_ E]. unfold read. rewrite Forall_map.
      apply Forall_forall. intros c Hi.
      assert (A : is_text c = false).
      { destruct (is_text c) eqn:Ec; [|reflexivity]. rewrite <- E. symmetry. apply existsb_exists. eauto. }
      unfold is_text in A. destruct (parse c); [reflexivity|discriminate].
  Qed.

  Definition kinds_ok (i : info) : Prop := of_kind (i_text i) (i_first i) /\ of_kind (i_text i) (i_last i).

  Lemma last_in {A} (v : A) r : In (List.last r v) (v :: r).
  Proof.
    revert v. induction r as [|x r IH]; intro v; [cbn; auto|].
    rewrite last_cons2. right. apply IH.
  Qed.

  Lemma scan_last_in : forall vs o last, In (snd (scan nltb cltb o last vs)) (last :: vs).
  Proof.
    induction vs as [|v r IH]; intros o last; [cbn; auto|].
    cbn [scan].
    destruct o as [[]|]; repeat match goal with |- context [if ?c then _ else _] => destruct c end;
      try (cbn; auto; fail); right; apply IH.
  Qed.

  Lemma get_data_order_spec t b : b <> [] ->
    exists i, get_data_order nltb cltb parse t b = Some i /\
      let t' := t || existsb is_text b in
      let vs := read t' b in
      i_text i = t' /\ i_piecewise i = false /\ has_order (i_order i) vs /\
      hd_error vs = Some (i_first i) /\ kinds_ok i /\ In (i_last i) vs /\
      (i_order i <> Random -> i_last i = List.last vs (i_first i)).
  Proof.
    intro Hb. unfold get_data_order. rewrite convert_spec.
    pose proof (read_kind t b) as K. set (t' := t || existsb is_text b) in *. cbv zeta.
    destruct (read t' b) as [|v r] eqn:E.
    { exfalso. apply Hb. unfold read in E. destruct b; [reflexivity|discriminate]. }
    cbn [scan]. rewrite vltb_irrefl.
    destruct (scan_none t' r v K) as [o [l [H [Ho Hx]]]].
    pose proof (scan_last_in r None v) as Hin. rewrite H in *. cbn [snd] in Hin.
    eexists. split; [reflexivity|]. cbn [i_text i_piecewise i_order i_first i_last].
    split; [reflexivity|]. split; [reflexivity|].
    split; [destruct o as [[]|]; cbn [has_order] in *; tauto|].
    split; [reflexivity|].
    split. { inversion K; subst. split; cbn; [assumption|]. rewrite Forall_forall in K. apply K. exact Hin. }
    split; [exact Hin|]. rewrite last_cons2.
    destruct o as [[]|]; cbn [has_order] in *; intro A; try (destruct Ho; assumption); try congruence.
  Qed.
End Order.
