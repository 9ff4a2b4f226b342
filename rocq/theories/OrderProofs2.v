(** Lemmas about the order of a column over histories of updates and merges. *)
From Coq Require Import List Bool Arith Lia Sorting.Sorted.
From Verif Require Import OrderModel OrderProofs.
Import ListNotations.

Section Order.
  Context {N C : Type}.
  Variable nltb : N -> N -> bool.
  Variable cltb : C -> C -> bool.
  Variable parse : C -> option N.
  Variable show : N -> C.
  Hypothesis Hn : total_order nltb.
  Hypothesis Hc : total_order cltb.

  Notation value := (value N C).
  Notation info := (info N C).
  Notation vltb := (vltb nltb cltb).
  Notation vmin := (vmin nltb cltb).
  Notation vmax := (vmax nltb cltb).
  Notation vle := (vle nltb cltb).
  Notation rising := (rising nltb cltb).
  Notation falling := (falling nltb cltb).
  Notation merge_info := (merge_info nltb cltb show).
  Notation run := (run nltb cltb parse show).
  Notation pieces := (pieces parse).
  Notation textual := (textual parse).
  Notation is_intersecting := (is_intersecting nltb cltb).
  Notation is_enveloping := (is_enveloping nltb cltb).

  (** ** Tables of the merge *)

  Lemma vstr_kind v : of_kind true (vstr show v).
  Proof. destruct v; reflexivity. Qed.

  Lemma coerce_kind (i : info) t v : of_kind (i_text i) v ->
    of_kind (i_text i || t) (if i_text i || t then vstr show v else v).
  Proof.
    intro K. destruct (i_text i || t) eqn:E; [apply vstr_kind|].
    apply orb_false_iff in E. destruct E as [E _]. rewrite E in K. exact K.
  Qed.

  Lemma coerce_kind' (i : info) t v : of_kind (i_text i) v ->
    of_kind (t || i_text i) (if t || i_text i then vstr show v else v).
  Proof. rewrite orb_comm. apply coerce_kind. Qed.

  Lemma merge_info_text a b : i_text (merge_info a b) = i_text a || i_text b.
  Proof. reflexivity. Qed.

  Lemma merge_info_kinds a b : kinds_ok a -> kinds_ok b -> kinds_ok (merge_info a b).
  Proof.
    intros [A1 A2] [B1 B2].
    pose proof (coerce_kind a (i_text b) _ A1). pose proof (coerce_kind a (i_text b) _ A2).
    pose proof (coerce_kind' b (i_text a) _ B1). pose proof (coerce_kind' b (i_text a) _ B2).
    unfold kinds_ok. rewrite merge_info_text. unfold OrderModel.merge_info. cbv zeta. cbn [i_first i_last].
    match goal with |- context [match ?o with Asc => _ | Desc => _ | Const => _ | Random => _ end] => destruct o end;
      split; repeat (apply vmin_kind || apply vmax_kind); assumption.
  Qed.

  Lemma merge_info_order_table a b :
    match i_order (merge_info a b) with
    | Const => i_order a = Const /\ i_order b = Const
    | Asc => (i_order a = Asc /\ (i_order b = Asc \/ i_order b = Const)) \/ (i_order a = Const /\ i_order b = Asc)
    | Desc => (i_order a = Desc /\ (i_order b = Desc \/ i_order b = Const)) \/ (i_order a = Const /\ i_order b = Desc)
    | Random => i_order a <> Const \/ i_order b <> Const
    end.
  Proof.
    unfold OrderModel.merge_info. cbv zeta. cbn [i_order].
    match goal with |- context [is_intersecting ?x ?y ?z ?w] => set (it := is_intersecting x y z w); clearbody it end.
    match goal with |- context [is_enveloping ?x ?y ?z ?w] => set (e1 := is_enveloping x y z w); clearbody e1 end.
    match goal with |- context [is_enveloping ?x ?y ?z ?w] => set (e2 := is_enveloping x y z w); clearbody e2 end.
    destruct (i_order a), (i_order b), it, (i_piecewise a), (i_piecewise b), e1, e2; cbn;
      intuition discriminate.
  Qed.

  Lemma merge_info_random_l a b : i_order a = Random -> i_order (merge_info a b) = Random.
  Proof. intro H. unfold OrderModel.merge_info. cbv zeta. cbn [i_order]. rewrite H. reflexivity. Qed.
  Lemma merge_info_random_r a b : i_order b = Random -> i_order (merge_info a b) = Random.
  Proof.
    intro H. unfold OrderModel.merge_info. cbv zeta. cbn [i_order]. rewrite H.
    cbn [ord_eqb]. rewrite orb_true_r. reflexivity.
  Qed.

  (** ** What every history guarantees *)

  Lemma constant_rising vs : constant vs -> rising vs.
  Proof.
    induction vs as [|v r IH]; intro H; [constructor|]. constructor.
    - apply IH. intros x y Hx Hy. apply H; right; assumption.
    - apply Forall_forall. intros x Hx. rewrite (H x v); cbn; auto. apply vle_refl; assumption.
  Qed.
  Lemma constant_falling vs : constant vs -> falling vs.
  Proof.
    induction vs as [|v r IH]; intro H; [constructor|]. constructor.
    - apply IH. intros x y Hx Hy. apply H; right; assumption.
    - apply Forall_forall. intros x Hx. rewrite (H x v); cbn; auto. apply vle_refl; assumption.
  Qed.

  Definition claim (o : ord) (ps : list (list value)) : Prop :=
    match o with
    | Const => Forall constant ps
    | Asc => Forall rising ps /\ Exists (fun p => ~ constant p) ps
    | Desc => Forall falling ps /\ Exists (fun p => ~ constant p) ps
    | Random => Exists (fun p => ~ constant p) ps
    end.

  Definition good (t : bool) (ps : list (list value)) (s : option info) : Prop :=
    match s with
    | None => ps = [] /\ t = false
    | Some i => kinds_ok i /\ ps <> [] /\ (i_order i <> Random -> i_text i = t) /\ claim (i_order i) ps
    end.

  Lemma claim_const_up ps : Forall constant ps -> Forall rising ps.
  Proof. intro H. eapply Forall_impl; [|exact H]. apply constant_rising. Qed.
  Lemma claim_const_down ps : Forall constant ps -> Forall falling ps.
  Proof. intro H. eapply Forall_impl; [|exact H]. apply constant_falling. Qed.

  Lemma claim_nonconst o ps : o <> Const -> claim o ps -> Exists (fun p => ~ constant p) ps.
  Proof. destruct o; cbn; tauto. Qed.

  Lemma good_merge t1 ps1 s1 t2 ps2 s2 : good t1 ps1 s1 -> good t2 ps2 s2 ->
    good (t1 || t2) (ps1 ++ ps2) (merge_order nltb cltb show s1 s2).
  Proof.
    destruct s1 as [a|], s2 as [b|]; cbn [good merge_order].
    2:{ intros G [-> ->]. rewrite orb_false_r, app_nil_r. exact G. }
    2:{ intros [-> ->] G. exact G. }
    2:{ intros [-> ->] [-> ->]. auto. }
    intros [Ka [Na [Ta Ca]]] [Kb [Nb [Tb Cb]]].
    split; [apply merge_info_kinds; assumption|].
    split; [destruct ps1; [congruence|discriminate]|].
    split.
    - intro Hr. rewrite merge_info_text.
      assert (i_order a <> Random) by (intro A; apply Hr; apply merge_info_random_l; exact A).
      assert (i_order b <> Random) by (intro A; apply Hr; apply merge_info_random_r; exact A).
      rewrite Ta, Tb by assumption. reflexivity.
    - pose proof (merge_info_order_table a b) as T.
      destruct (i_order (merge_info a b)); cbn [claim].
      + rewrite Forall_app, Exists_app.
        destruct T as [[E1 [E2|E2]]|[E1 E2]]; rewrite E1 in Ca; rewrite E2 in Cb; cbn [claim] in *;
          intuition auto using claim_const_up.
      + rewrite Forall_app, Exists_app.
        destruct T as [[E1 [E2|E2]]|[E1 E2]]; rewrite E1 in Ca; rewrite E2 in Cb; cbn [claim] in *;
          intuition auto using claim_const_down.
      + rewrite Forall_app. destruct T as [E1 E2]. rewrite E1 in Ca. rewrite E2 in Cb. auto.
      + rewrite Exists_app. destruct T as [E|E].
        * left. exact (claim_nonconst _ _ E Ca).
        * right. exact (claim_nonconst _ _ E Cb).
  Qed.

  Lemma good_batch t b : b <> [] ->
    good (t || existsb (is_text parse) b) [read parse (t || existsb (is_text parse) b) b]
         (get_data_order nltb cltb parse t b).
  Proof.
    intro Hb. destruct (get_data_order_spec nltb cltb parse Hn Hc t b Hb) as [i [E [Ht [_ [Ho [_ [K _]]]]]]].
    rewrite E. cbn [good]. split; [exact K|]. split; [discriminate|]. split; [intros _; exact Ht|].
    destruct (i_order i); cbn [claim has_order] in *; intuition auto.
    constructor. intro A. apply H. apply constant_rising. exact A.
  Qed.

  Lemma good_run : forall h, good (textual h) (pieces h) (c_info (run h)).
  Proof.
    induction h as [|h IH b|h1 IH1 h2 IH2].
    - cbn. auto.
    - cbn [OrderModel.run OrderProofs.pieces OrderProofs.textual]. unfold update.
      destruct b as [|c b']; [cbn [existsb]; rewrite app_nil_r, orb_false_r; exact IH|].
      remember (c :: b') as b eqn:Eb. assert (Hb : b <> []) by (rewrite Eb; discriminate). clear Eb c b'.
      cbn [c_info]. unfold update_order.
      destruct (c_info (run h)) as [i|] eqn:E.
      + destruct (ord_eqb (i_order i) Random) eqn:Er.
        * assert (R : i_order i = Random) by (destruct (i_order i); (reflexivity || discriminate)).
          cbn [good] in IH |- *. destruct IH as [K [Nn [_ Cl]]]. rewrite R in *. cbn [claim] in *.
          split; [exact K|]. split; [destruct (pieces h); [congruence|discriminate]|].
          split; [congruence|]. apply Exists_app. left. exact Cl.
        * assert (R : i_order i <> Random) by (intro A; rewrite A in Er; discriminate).
          pose proof IH as IH'. cbn [good] in IH'. destruct IH' as [_ [_ [Ht _]]].
          rewrite (Ht R).
          replace (textual h || existsb (is_text parse) b)
            with (textual h || (textual h || existsb (is_text parse) b)) at 1
            by (destruct (textual h); reflexivity).
          apply good_merge; [exact IH|]. apply good_batch. exact Hb.
      + cbn [good] in IH. destruct IH as [-> ->]. cbn [orb app merge_order].
        exact (good_batch false b Hb).
    - cbn [OrderModel.run OrderProofs.pieces OrderProofs.textual]. unfold add. cbn [c_info].
      apply good_merge; assumption.
  Qed.

  Lemma claim_iff_const o ps : claim o ps -> (o = Const <-> Forall constant ps).
  Proof.
    intro H. split; [intros ->; exact H|]. intro F.
    assert (A : ~ Exists (fun p => ~ constant p) ps).
    { intro E. rewrite Exists_exists in E. destruct E as [p [Hp Hq]]. apply Hq.
      rewrite Forall_forall in F. auto. }
    destruct o; cbn [claim] in H; tauto.
  Qed.

  Lemma run_order h :
    match report_order (run h) with
    | None => pieces h = []
    | Some Const => pieces h <> [] /\ Forall constant (pieces h)
    | Some Asc => Forall rising (pieces h) /\ Exists (fun p => ~ constant p) (pieces h)
    | Some Desc => Forall falling (pieces h) /\ Exists (fun p => ~ constant p) (pieces h)
    | Some Random => Exists (fun p => ~ constant p) (pieces h)
    end.
  Proof.
    pose proof (good_run h) as G. unfold report_order. destruct (c_info (run h)) as [i|]; cbn [good] in G.
    - destruct G as [_ [Nn [_ Cl]]]. destruct (i_order i); cbn [claim] in Cl; tauto.
    - tauto.
  Qed.

  Lemma run_const h : report_order (run h) = Some Const <-> pieces h <> [] /\ Forall constant (pieces h).
  Proof.
    pose proof (good_run h) as G. unfold report_order. destruct (c_info (run h)) as [i|]; cbn [good] in G.
    - destruct G as [_ [Nn [_ Cl]]]. apply claim_iff_const in Cl. split.
      + intro H. injection H as H. tauto.
      + intros [_ H]. f_equal. tauto.
    - destruct G as [-> _]. split; [discriminate|]. tauto.
  Qed.

  Lemma run_random_stays h b : report_order (run h) = Some Random -> report_order (run (HUpd h b)) = Some Random.
  Proof.
    unfold report_order. cbn [OrderModel.run]. destruct (c_info (run h)) as [i|] eqn:E; [|discriminate].
    intro H. injection H as H. unfold update. destruct b; [rewrite E; f_equal; exact H|].
    cbn [c_info]. unfold update_order. rewrite E, H. cbn [ord_eqb]. f_equal. exact H.
  Qed.

  Lemma run_random_merge h1 h2 :
    report_order (run h1) = Some Random \/ report_order (run h2) = Some Random ->
    report_order (run (HAdd h1 h2)) = Some Random.
  Proof.
    unfold report_order. cbn [OrderModel.run]. unfold add. cbn [c_info].
    destruct (c_info (run h1)) as [a|], (c_info (run h2)) as [b|]; cbn [merge_order];
      intros [H|H]; try discriminate; injection H as H; f_equal; try assumption.
    - apply merge_info_random_l. exact H.
    - apply merge_info_random_r. exact H.
  Qed.

  Lemma run_merge_empty h1 h2 : pieces h2 = [] ->
    report_order (run (HAdd h1 h2)) = report_order (run h1) /\
    report_order (run (HAdd h2 h1)) = report_order (run h1).
  Proof.
    intro E. pose proof (good_run h2) as G. rewrite E in G.
    unfold report_order. cbn [OrderModel.run]. unfold add. cbn [c_info].
    destruct (c_info (run h2)) as [b|].
    - cbn [good] in G. destruct G as [_ [A _]]. congruence.
    - destruct (c_info (run h1)); cbn [merge_order]; auto.
  Qed.

  Lemma run_size h : c_size (run h) = length (cells h).
  Proof.
    induction h as [|h IH b|h1 IH1 h2 IH2]; cbn [OrderModel.run cells].
    - reflexivity.
    - rewrite app_length, <- IH. unfold update. destruct b; cbn [c_size length]; lia.
    - rewrite app_length, <- IH1, <- IH2. reflexivity.
  Qed.

  Lemma run_kinds h i : c_info (run h) = Some i -> kinds_ok i.
  Proof. intro E. pose proof (good_run h) as G. rewrite E in G. cbn [good] in G. tauto. Qed.

  (** ** Commutativity *)

  Lemma inter_comm f1 l1 f2 l2 : is_intersecting f1 l1 f2 l2 = is_intersecting f2 l2 f1 l1.
  Proof.
    unfold OrderModel.is_intersecting. cbv zeta. rewrite (veqb_comm _ _ (vmin f1 l1)), (veqb_comm _ _ (vmax f1 l1)).
    repeat match goal with |- context [vltb ?a ?b] => let x := fresh in set (x := vltb a b); clearbody x end.
    repeat match goal with x : bool |- _ => destruct x; try reflexivity end.
    all: cbn; try reflexivity; repeat match goal with |- context [?a && ?b] => destruct a, b; try reflexivity end.
  Qed.

  Lemma vmin_glb x a b : vle x a -> vle x b -> vle x (vmin a b).
  Proof. unfold OrderModel.vmin. destruct vltb; auto. Qed.
  Lemma vmax_lub x a b : vle a x -> vle b x -> vle (vmax a b) x.
  Proof. unfold OrderModel.vmax. destruct vltb; auto. Qed.

  Lemma vmin_lower t m x y : of_kind t m -> of_kind t x -> of_kind t y ->
    vle (vmin (vmin m x) y) m /\ vle (vmin (vmin m x) y) x /\ vle (vmin (vmin m x) y) y.
  Proof.
    intros Km Kx Ky.
    assert (K1 : of_kind t (vmin m x)) by (apply vmin_kind; assumption).
    assert (K2 : of_kind t (vmin (vmin m x) y)) by (apply vmin_kind; assumption).
    split; [|split].
    - apply (vle_trans nltb cltb Hn Hc t _ (vmin m x)); auto; apply vmin_lower_l; assumption.
    - apply (vle_trans nltb cltb Hn Hc t _ (vmin m x)); auto; [apply vmin_lower_l|apply vmin_lower_r]; assumption.
    - apply vmin_lower_r; assumption.
  Qed.
  Lemma vmax_upper t m x y : of_kind t m -> of_kind t x -> of_kind t y ->
    vle m (vmax (vmax m x) y) /\ vle x (vmax (vmax m x) y) /\ vle y (vmax (vmax m x) y).
  Proof.
    intros Km Kx Ky.
    assert (K1 : of_kind t (vmax m x)) by (apply vmax_kind; assumption).
    assert (K2 : of_kind t (vmax (vmax m x) y)) by (apply vmax_kind; assumption).
    split; [|split].
    - apply (vle_trans nltb cltb Hn Hc t _ (vmax m x)); auto; apply vmax_upper_l; assumption.
    - apply (vle_trans nltb cltb Hn Hc t _ (vmax m x)); auto; [apply vmax_upper_r|apply vmax_upper_l]; assumption.
    - apply vmax_upper_r; assumption.
  Qed.

  Lemma vmin_swap t m x y : of_kind t m -> of_kind t x -> of_kind t y ->
    vmin (vmin m x) y = vmin (vmin m y) x.
  Proof.
    intros Km Kx Ky. destruct (vmin_lower t m x y) as [A [B D]]; auto.
    destruct (vmin_lower t m y x) as [A' [B' D']]; auto.
    apply (vle_antisym nltb cltb Hn Hc t); repeat (apply vmin_kind; try assumption);
      repeat (apply vmin_glb; try assumption).
  Qed.
  Lemma vmax_swap t m x y : of_kind t m -> of_kind t x -> of_kind t y ->
    vmax (vmax m x) y = vmax (vmax m y) x.
  Proof.
    intros Km Kx Ky. destruct (vmax_upper t m x y) as [A [B D]]; auto.
    destruct (vmax_upper t m y x) as [A' [B' D']]; auto.
    apply (vle_antisym nltb cltb Hn Hc t); repeat (apply vmax_kind; try assumption);
      repeat (apply vmax_lub; try assumption).
  Qed.

  Lemma merge_info_comm a b : kinds_ok a -> kinds_ok b -> merge_info a b = merge_info b a.
  Proof.
    intros [A1 A2] [B1 B2].
    pose proof (coerce_kind a (i_text b) _ A1) as K1. pose proof (coerce_kind a (i_text b) _ A2) as K2.
    pose proof (coerce_kind' b (i_text a) _ B1) as K3. pose proof (coerce_kind' b (i_text a) _ B2) as K4.
    unfold OrderModel.merge_info. cbv zeta. rewrite (orb_comm (i_text b) (i_text a)).
    set (t := i_text a || i_text b) in *. clearbody t.
    set (f1 := if t then vstr show (i_first a) else i_first a) in *.
    set (l1 := if t then vstr show (i_last a) else i_last a) in *.
    set (f2 := if t then vstr show (i_first b) else i_first b) in *.
    set (l2 := if t then vstr show (i_last b) else i_last b) in *.
    clearbody f1 l1 f2 l2. rewrite (inter_comm f2 l2 f1 l1).
    rewrite (vmin_comm nltb cltb Hn Hc t f2 f1), (vmax_comm nltb cltb Hn Hc t f2 f1),
      (vmin_comm nltb cltb Hn Hc t l2 l1), (vmax_comm nltb cltb Hn Hc t l2 l1) by assumption.
    assert (Em : vmin (vmin (vmin f1 f2) l2) l1 = vmin (vmin (vmin f1 f2) l1) l2)
      by (apply (vmin_swap t); try assumption; apply vmin_kind; assumption).
    assert (Ex : vmax (vmax (vmax f1 f2) l2) l1 = vmax (vmax (vmax f1 f2) l1) l2)
      by (apply (vmax_swap t); try assumption; apply vmax_kind; assumption).
    rewrite Em, Ex.
    assert (Eo : forall it e1 e2 p1 p2,
      (if ord_eqb (i_order b) Random || ord_eqb (i_order a) Random then Random
       else if ord_eqb (i_order b) (i_order a) then
         if negb it || (p2 && p1) then i_order b
         else if p2 && e2 then i_order b
         else if p1 && e1 then i_order b
         else if ord_eqb (i_order b) Const then i_order b else Random
       else if (ord_eqb (i_order b) Asc && ord_eqb (i_order a) Desc) || (ord_eqb (i_order b) Desc && ord_eqb (i_order a) Asc) then Random
       else if negb it then if ord_eqb (i_order b) Asc || ord_eqb (i_order a) Asc then Asc else Desc
       else if ord_eqb (i_order b) Const && p1 then i_order a
       else if ord_eqb (i_order a) Const && p2 then i_order b else Random) =
      (if ord_eqb (i_order a) Random || ord_eqb (i_order b) Random then Random
       else if ord_eqb (i_order a) (i_order b) then
         if negb it || (p1 && p2) then i_order a
         else if p1 && e1 then i_order a
         else if p2 && e2 then i_order a
         else if ord_eqb (i_order a) Const then i_order a else Random
       else if (ord_eqb (i_order a) Asc && ord_eqb (i_order b) Desc) || (ord_eqb (i_order a) Desc && ord_eqb (i_order b) Asc) then Random
       else if negb it then if ord_eqb (i_order a) Asc || ord_eqb (i_order b) Asc then Asc else Desc
       else if ord_eqb (i_order a) Const && p2 then i_order b
       else if ord_eqb (i_order b) Const && p1 then i_order a else Random)).
    { intros [] [] [] [] []; destruct (i_order a), (i_order b); reflexivity. }
    rewrite Eo. reflexivity.
  Qed.

  Lemma run_merge_comm h1 h2 : run (HAdd h1 h2) = run (HAdd h2 h1).
  Proof.
    cbn [OrderModel.run]. unfold add. f_equal; [|lia].
    pose proof (run_kinds h1) as K1. pose proof (run_kinds h2) as K2.
    destruct (c_info (run h1)) as [a|], (c_info (run h2)) as [b|]; cbn [merge_order]; try reflexivity.
    f_equal. apply merge_info_comm; auto.
  Qed.
End Order.
