(** Properties of the order of a column (C16, C17). *)
From Coq Require Import List Bool Arith ZArith Lia Sorting.Sorted.
From Verif Require Import OrderModel OrderProofs OrderProofs2 OrderProofs3.
Import ListNotations.

Section Props.
  (** Numbers, cells, their orders, [float()] and [str()] are arbitrary; the orders are total. *)
  Context {N C : Type}.
  Variable nltb : N -> N -> bool.
  Variable cltb : C -> C -> bool.
  Variable parse : C -> option N.
  Variable show : N -> C.
  Hypothesis Hn : total_order nltb.
  Hypothesis Hc : total_order cltb.

  Notation vltb := (vltb nltb cltb).
  Notation vle := (vle nltb cltb).
  Notation rising := (rising nltb cltb).
  Notation falling := (falling nltb cltb).
  Notation run := (run nltb cltb parse show).
  Notation pieces := (pieces parse).
  Notation all_kind := (all_kind parse).

  (** C16. One non-empty batch: it is read as numbers iff all cells are numbers; the order is the one
      of these values; first and last value are stored. *)
  Theorem C16_single_batch : forall b, b <> [] ->
    let vs := read parse (existsb (is_text parse) b) b in
    exists i, c_info (run (HUpd HNew b)) = Some i /\
      report_order (run (HUpd HNew b)) = Some (i_order i) /\
      has_order nltb cltb (i_order i) vs /\
      hd_error vs = Some (i_first i) /\
      (i_order i <> Random -> i_last i = List.last vs (i_first i)) /\
      c_size (run (HUpd HNew b)) = length b.
  Proof.
    intros b Hb vs. destruct (get_data_order_spec nltb cltb parse Hn Hc false b Hb) as [i [E [_ [_ [Ho [Hf [_ [_ Hl]]]]]]]].
    cbn [orb] in *. exists i.
    assert (Ec : c_info (run (HUpd HNew b)) = Some i).
    { cbn [OrderModel.run]. unfold update. destruct b; [congruence|]. cbn [c_info new_col update_order merge_order]. exact E. }
    split; [exact Ec|]. split; [unfold report_order; rewrite Ec; reflexivity|]. split; [exact Ho|].
    split; [exact Hf|]. split; [exact Hl|]. rewrite run_size. reflexivity.
  Qed.

  (** The four answers exclude each other, so the answer of C16 is the only one with its meaning. *)
  Theorem C16_answers_exclusive : forall t vs o o',
    Forall (of_kind t) vs -> vs <> [] ->
    has_order nltb cltb o vs -> has_order nltb cltb o' vs -> o = o'.
  Proof.
    intros t vs o o' K Hv H H'.
    assert (U : rising vs -> falling vs -> constant vs).
    { intros R F. destruct vs as [|v r]; [congruence|]. apply constant_cons. intros y Hy.
      rewrite Forall_forall in K.
      apply (vle_antisym nltb cltb Hn Hc t); [apply K; right; exact Hy|apply K; cbn; auto| |].
      - eapply falling_head; eassumption.
      - eapply rising_head; eassumption. }
    pose proof (constant_rising nltb cltb Hn Hc vs) as Cr.
    destruct o, o'; cbn [has_order] in *; try reflexivity; exfalso; tauto.
  Qed.

  (** C17. After any history: no order iff no data; constant value iff every batch is constant (not
      necessarily the same value); ascending only if every batch rises and one is not constant;
      descending likewise; random only if some batch is not constant. *)
  Theorem C17_order_of_history : forall h,
    match report_order (run h) with
    | None => pieces h = []
    | Some Const => pieces h <> [] /\ Forall constant (pieces h)
    | Some Asc => Forall rising (pieces h) /\ Exists (fun p => ~ constant p) (pieces h)
    | Some Desc => Forall falling (pieces h) /\ Exists (fun p => ~ constant p) (pieces h)
    | Some Random => Exists (fun p => ~ constant p) (pieces h)
    end.
  Proof. exact (run_order nltb cltb parse show Hn Hc). Qed.

  Theorem C17_constant_iff : forall h,
    report_order (run h) = Some Const <-> pieces h <> [] /\ Forall constant (pieces h).
  Proof. exact (run_const nltb cltb parse show Hn Hc). Qed.

  (** A batch that is neither rising nor falling, or a rising and a falling one, make it random. *)
  Theorem C17_contradiction_is_random : forall h p q,
    In p (pieces h) -> In q (pieces h) -> ~ rising p -> ~ falling q ->
    report_order (run h) = Some Random.
  Proof.
    intros h p q Hp Hq Np Nq. pose proof (run_order nltb cltb parse show Hn Hc h) as O.
    destruct (report_order (run h)) as [[]|]; [exfalso..|reflexivity|exfalso].
    - destruct O as [F _]. rewrite Forall_forall in F. apply Np. auto.
    - destruct O as [F _]. rewrite Forall_forall in F. apply Nq. auto.
    - destruct O as [_ F]. rewrite Forall_forall in F. apply Np. apply constant_rising; auto.
    - rewrite O in Hp. destruct Hp.
  Qed.

  (** Random is permanent. *)
  Theorem C17_random_is_permanent : forall h b h',
    report_order (run h) = Some Random ->
    report_order (run (HUpd h b)) = Some Random /\
    report_order (run (HAdd h h')) = Some Random /\ report_order (run (HAdd h' h)) = Some Random.
  Proof.
    intros h b h' H. split; [apply run_random_stays; exact H|].
    split; apply run_random_merge; auto.
  Qed.

  (** Merging is commutative, and a profile without data changes nothing. *)
  Theorem C17_merge_commutative : forall h1 h2, run (HAdd h1 h2) = run (HAdd h2 h1).
  Proof. exact (run_merge_comm nltb cltb parse show Hn Hc). Qed.

  Theorem C17_empty_is_neutral : forall h1 h2, pieces h2 = [] ->
    report_order (run (HAdd h1 h2)) = report_order (run h1) /\
    report_order (run (HAdd h2 h1)) = report_order (run h1).
  Proof. exact (run_merge_empty nltb cltb parse show Hn Hc). Qed.

  Theorem C17_sample_size : forall h, c_size (run h) = length (cells h).
  Proof. exact (run_size nltb cltb parse show). Qed.

  (** If all data of one kind rise (fall) over the whole history and some batch is not constant, the
      answer is ascending (descending). *)
  Theorem C17_sorted_data_recognised : forall t h,
    all_kind t h -> Exists (fun p => ~ constant p) (pieces h) ->
    (rising (concat (pieces h)) -> report_order (run h) = Some Asc) /\
    (falling (concat (pieces h)) -> report_order (run h) = Some Desc).
  Proof.
    intros t h A E. split; intro R.
    - exact (rising_data_ascending nltb cltb parse show Hn Hc t h A R E).
    - exact (falling_data_descending nltb cltb parse show Hn Hc t h A R E).
  Qed.

  (** Two batches with the same direction: that direction is kept iff their ranges do not overlap. *)
  Theorem C17_two_batches : forall o b1 b2 f1 f2,
    o = Asc \/ o = Desc ->
    let t := existsb (is_text parse) b1 in
    let v1 := read parse t b1 in
    let v2 := read parse t b2 in
    (t = false -> existsb (is_text parse) b2 = false) ->
    hd_error v1 = Some f1 -> hd_error v2 = Some f2 ->
    has_order nltb cltb o v1 -> has_order nltb cltb o v2 ->
    let overlap := exists x1 y1 x2 y2, In x1 v1 /\ In y1 v1 /\ In x2 v2 /\ In y2 v2 /\
                     vltb x1 y2 = true /\ vltb x2 y1 = true in
    (report_order (run (HUpd (HUpd HNew b1) b2)) = Some o <-> ~ overlap) /\
    (report_order (run (HUpd (HUpd HNew b1) b2)) = Some Random <-> overlap).
  Proof.
    intros o b1 b2 f1 f2 Ho t v1 v2 T2 F1 F2 O1 O2 overlap.
    assert (B1 : b1 <> []) by (intros ->; discriminate).
    assert (B2 : b2 <> []) by (intros ->; discriminate).
    pose proof (two_pieces nltb cltb parse show Hn Hc t _ _ b1 b2 o eq_refl eq_refl Ho B1 B2 eq_refl T2 O1 O2
                  f1 _ f2 _ F1 eq_refl F2 eq_refl) as E.
    fold v1 in E. fold v2 in E. rewrite E.
    pose proof (read_kind parse false b1) as K1. cbn [orb] in K1. fold t in K1. fold v1 in K1.
    assert (K2 : Forall (of_kind t) v2).
    { pose proof (read_kind parse t b2) as K2. destruct t eqn:Et; [exact K2|]. rewrite (T2 eq_refl) in K2. exact K2. }
    rewrite Forall_forall in K1, K2.
    assert (I1 : In f1 v1 /\ In (List.last v1 f1) v1).
    { clear - F1. destruct v1 as [|v r]; [discriminate|]. injection F1 as ->. rewrite last_cons2.
      split; [cbn; auto|apply last_in]. }
    assert (I2 : In f2 v2 /\ In (List.last v2 f2) v2).
    { clear - F2. destruct v2 as [|v r]; [discriminate|]. injection F2 as ->. rewrite last_cons2.
      split; [cbn; auto|apply last_in]. }
    destruct I1 as [I1 J1], I2 as [I2 J2].
    set (l1 := List.last v1 f1) in *. set (l2 := List.last v2 f2) in *.
    set (c := match o with Asc => vltb f1 l2 && vltb f2 l1 | _ => vltb l1 f2 && vltb l2 f1 end).
    assert (Ov : c = true <-> overlap).
    { unfold c, overlap. destruct Ho as [-> | ->]; rewrite andb_true_iff.
      - assert (B : forall x, In x v1 -> vle f1 x /\ vle x l1).
        { intros x Hx. destruct O1 as [R _]. unfold l1. clear - R F1 Hx Hn Hc. destruct v1 as [|v r]; [discriminate|].
          injection F1 as ->. rewrite last_cons2. split; [|apply last_ge_rising; assumption].
          destruct Hx as [->|Hx]; [apply vle_refl; assumption|eapply rising_head; eassumption]. }
        assert (B' : forall x, In x v2 -> vle f2 x /\ vle x l2).
        { intros x Hx. destruct O2 as [R _]. unfold l2. clear - R F2 Hx Hn Hc. destruct v2 as [|v r]; [discriminate|].
          injection F2 as ->. rewrite last_cons2. split; [|apply last_ge_rising; assumption].
          destruct Hx as [->|Hx]; [apply vle_refl; assumption|eapply rising_head; eassumption]. }
        split.
        + intros [X Y]. exists f1, l1, f2, l2. auto 8.
        + intros [x1 [y1 [x2 [y2 [H1 [H2 [H3 [H4 [X Y]]]]]]]]]. split.
          * apply (vle_lt_trans nltb cltb Hn Hc t _ x1); auto; [apply B; assumption|].
            apply (vlt_le_trans nltb cltb Hn Hc t _ y2); auto. apply B'; assumption.
          * apply (vle_lt_trans nltb cltb Hn Hc t _ x2); auto; [apply B'; assumption|].
            apply (vlt_le_trans nltb cltb Hn Hc t _ y1); auto. apply B; assumption.
      - assert (B : forall x, In x v1 -> vle l1 x /\ vle x f1).
        { intros x Hx. destruct O1 as [R _]. unfold l1. clear - R F1 Hx Hn Hc. destruct v1 as [|v r]; [discriminate|].
          injection F1 as ->. rewrite last_cons2. split; [apply last_le_falling; assumption|].
          destruct Hx as [->|Hx]; [apply vle_refl; assumption|eapply falling_head; eassumption]. }
        assert (B' : forall x, In x v2 -> vle l2 x /\ vle x f2).
        { intros x Hx. destruct O2 as [R _]. unfold l2. clear - R F2 Hx Hn Hc. destruct v2 as [|v r]; [discriminate|].
          injection F2 as ->. rewrite last_cons2. split; [apply last_le_falling; assumption|].
          destruct Hx as [->|Hx]; [apply vle_refl; assumption|eapply falling_head; eassumption]. }
        split.
        + intros [X Y]. exists l1, f1, l2, f2. auto 8.
        + intros [x1 [y1 [x2 [y2 [H1 [H2 [H3 [H4 [X Y]]]]]]]]]. split.
          * apply (vle_lt_trans nltb cltb Hn Hc t _ x1); auto; [apply B; assumption|].
            apply (vlt_le_trans nltb cltb Hn Hc t _ y2); auto. apply B'; assumption.
          * apply (vle_lt_trans nltb cltb Hn Hc t _ x2); auto; [apply B'; assumption|].
            apply (vlt_le_trans nltb cltb Hn Hc t _ y1); auto. apply B; assumption. }
    assert (Nr : o <> Random) by (destruct Ho as [-> | ->]; discriminate).
    destruct c.
    - assert (V : overlap) by (apply Ov; reflexivity). split; split; intro H; try reflexivity; try exact V.
      + injection H as H. congruence.
      + contradiction.
    - assert (V : ~ overlap) by (intro V; apply Ov in V; discriminate).
      split; split; intro H; try reflexivity; try exact V.
      + injection H as H. contradiction.
      + contradiction.
  Qed.

  (** A constant batch after one ascending (descending) batch: the direction is kept iff the constant
      does not lie strictly between the first and the last value. *)
  Theorem C17_constant_after_batch : forall o b1 b2 f1 c,
    o = Asc \/ o = Desc ->
    let t := existsb (is_text parse) b1 in
    let v1 := read parse t b1 in
    let v2 := read parse t b2 in
    (t = false -> existsb (is_text parse) b2 = false) ->
    hd_error v1 = Some f1 -> hd_error v2 = Some c ->
    has_order nltb cltb o v1 -> constant v2 ->
    let inside := match o with
                  | Asc => vltb f1 c = true /\ vltb c (List.last v1 f1) = true
                  | _ => vltb (List.last v1 f1) c = true /\ vltb c f1 = true
                  end in
    (inside -> report_order (run (HUpd (HUpd HNew b1) b2)) = Some Random) /\
    (~ inside -> report_order (run (HUpd (HUpd HNew b1) b2)) = Some o).
  Proof.
    intros o b1 b2 f1 c Ho t v1 v2 T2 F1 F2 O1 O2 inside.
    assert (B1 : b1 <> []) by (intros ->; discriminate).
    assert (B2 : b2 <> []) by (intros ->; discriminate).
    rewrite (then_constant nltb cltb parse show Hn Hc t b1 b2 o Ho B1 B2 eq_refl T2 O1 O2 f1 _ c F1 eq_refl F2).
    fold v1. unfold inside. destruct Ho as [-> | ->]; split; intro H.
    - destruct H as [-> ->]. reflexivity.
    - destruct (vltb f1 c) eqn:E1, (vltb c (List.last v1 f1)) eqn:E2; try reflexivity. exfalso. auto.
    - destruct H as [-> ->]. reflexivity.
    - destruct (vltb (List.last v1 f1) c) eqn:E1, (vltb c f1) eqn:E2; try reflexivity. exfalso. auto.
  Qed.

  (** The stored first and last value of an ascending or constant profile enclose all data. *)
  Theorem C17_range_encloses : forall t h i,
    all_kind t h -> c_info (run h) = Some i -> i_order i = Asc \/ i_order i = Const ->
    forall x, In x (concat (pieces h)) -> vle (i_first i) x /\ vle x (i_last i).
  Proof.
    intros t h i A E O. pose proof (range_run nltb cltb parse show Hn Hc t h A) as R. rewrite E in R.
    destruct (R O) as [_ R']. exact R'.
  Qed.

  (** First and last value are both numbers or both text, as the stored type says: numbers and text
      are never compared. *)
  Theorem C17_values_of_one_kind : forall h i,
    c_info (run h) = Some i -> of_kind (i_text i) (i_first i) /\ of_kind (i_text i) (i_last i).
  Proof. exact (run_kinds nltb cltb parse show Hn Hc). Qed.
End Props.

(** An instance: cells are integers, those from 1000 on count as text. *)
Definition zparse (c : Z) : option Z := if (c <? 1000)%Z then Some c else None.
Notation zrun := (run Z.ltb Z.ltb zparse (fun z : Z => z)).

Lemma Zltb_total_order : total_order Z.ltb.
Proof.
  split.
  - intro a. apply Z.ltb_irrefl.
  - intros a b c. rewrite !Z.ltb_lt. lia.
  - intros a b. rewrite !Z.ltb_ge. lia.
Qed.

(** A user would expect "ascending" to mean that the data ascend.  False: the batches 5 and 1, 2, 3. *)
Theorem C17_ascending_means_sorted_refuted :
  ~ (forall (nltb : Z -> Z -> bool) cltb (parse : Z -> option Z) show (h : hist Z),
     total_order nltb -> total_order cltb -> all_kind parse false h ->
     report_order (run nltb cltb parse show h) = Some Asc ->
     rising nltb cltb (concat (pieces parse h))).
Proof.
  intro H. specialize (H Z.ltb Z.ltb zparse (fun z => z) (HUpd (HUpd HNew [5%Z]) [1; 2; 3]%Z)
                         Zltb_total_order Zltb_total_order).
  assert (A : all_kind zparse false (HUpd (HUpd HNew [5%Z]) [1; 2; 3]%Z)).
  { unfold all_kind. cbn. repeat constructor. }
  specialize (H A eq_refl). apply StronglySorted_inv in H. destruct H as [_ H].
  inversion H as [|? ? B _]. discriminate B.
Qed.

(** A user would expect "constant value" to mean one value.  False: the batches 1 and 2. *)
Theorem C17_constant_means_one_value_refuted :
  ~ (forall (nltb : Z -> Z -> bool) cltb (parse : Z -> option Z) show (h : hist Z),
     total_order nltb -> total_order cltb -> all_kind parse false h ->
     report_order (run nltb cltb parse show h) = Some Const ->
     constant (concat (pieces parse h))).
Proof.
  intro H. specialize (H Z.ltb Z.ltb zparse (fun z => z) (HUpd (HUpd HNew [1%Z]) [2%Z])
                         Zltb_total_order Zltb_total_order).
  assert (A : all_kind zparse false (HUpd (HUpd HNew [1%Z]) [2%Z])).
  { unfold all_kind. cbn. repeat constructor. }
  specialize (H A eq_refl (VN 1%Z) (VN 2%Z)). cbn in H. specialize (H (or_introl eq_refl) (or_intror (or_introl eq_refl))).
  discriminate H.
Qed.

(** The answer depends on how the batches are grouped. *)
Theorem C17_merge_associative_refuted :
  ~ (forall (nltb : Z -> Z -> bool) cltb (parse : Z -> option Z) show (a b c : hist Z),
     total_order nltb -> total_order cltb ->
     report_order (run nltb cltb parse show (HAdd (HAdd a b) c)) =
     report_order (run nltb cltb parse show (HAdd a (HAdd b c)))).
Proof.
  intro H.
  specialize (H Z.ltb Z.ltb zparse (fun z => z) (HUpd HNew [1; 4]%Z) (HUpd HNew [9; 10]%Z) (HUpd HNew [3; 6]%Z)
                Zltb_total_order Zltb_total_order).
  vm_compute in H. discriminate H.
Qed.

(** Negating all data should exchange ascending and descending.  False: merging constant pieces into
    a descending profile shrinks the stored range. *)
Definition flip (o : ord) : ord := match o with Asc => Desc | Desc => Asc | o => o end.

Fixpoint hmap (f : Z -> Z) (h : hist Z) : hist Z :=
  match h with
  | HNew => HNew
  | HUpd h b => HUpd (hmap f h) (map f b)
  | HAdd a b => HAdd (hmap f a) (hmap f b)
  end.

Theorem C17_mirror_refuted :
  ~ (forall h : hist Z,
     report_order (run Z.ltb Z.ltb Some (fun z => z) (hmap Z.opp h)) =
     option_map flip (report_order (run Z.ltb Z.ltb Some (fun z => z) h))).
Proof.
  intro H.
  specialize (H (HUpd (HAdd (HUpd (HUpd HNew [1]%Z) [20]%Z) (HUpd (HUpd HNew [10; 9]%Z) [7; 6]%Z)) [25; 15]%Z)).
  vm_compute in H. discriminate H.
Qed.

Print Assumptions C16_single_batch.
Print Assumptions C16_answers_exclusive.
Print Assumptions C17_order_of_history.
Print Assumptions C17_constant_iff.
Print Assumptions C17_contradiction_is_random.
Print Assumptions C17_random_is_permanent.
Print Assumptions C17_merge_commutative.
Print Assumptions C17_empty_is_neutral.
Print Assumptions C17_sample_size.
Print Assumptions C17_sorted_data_recognised.
Print Assumptions C17_two_batches.
Print Assumptions C17_constant_after_batch.
Print Assumptions C17_range_encloses.
Print Assumptions C17_values_of_one_kind.
Print Assumptions C17_ascending_means_sorted_refuted.
Print Assumptions C17_constant_means_one_value_refuted.
Print Assumptions C17_merge_associative_refuted.
Print Assumptions C17_mirror_refuted.

(** Examples: numbers, text, both directions, overlapping batches. *)
Example C16_example :
  report_order (zrun (HUpd HNew [1; 1; 2; 5]%Z)) = Some Asc /\
  report_order (zrun (HUpd HNew [5; 5; 2; 1]%Z)) = Some Desc /\
  report_order (zrun (HUpd HNew [5; 5]%Z)) = Some Const /\
  report_order (zrun (HUpd HNew [5; 6; 1]%Z)) = Some Random /\
  (exists i, c_info (zrun (HUpd HNew [5; 2000]%Z)) = Some i /\ i_text i = true /\ i_first i = VS 5%Z).
Proof. repeat split; try reflexivity. eexists. vm_compute. eauto. Qed.

Example C17_example :
  report_order (zrun (HUpd (HUpd HNew [1; 2]%Z) [2; 3]%Z)) = Some Asc /\
  report_order (zrun (HUpd (HUpd HNew [1; 5]%Z) [3; 7]%Z)) = Some Random /\
  report_order (zrun (HUpd (HUpd HNew [1; 5]%Z) [3; 3]%Z)) = Some Random /\
  report_order (zrun (HUpd (HUpd HNew [1; 5]%Z) [5; 5]%Z)) = Some Asc /\
  report_order (zrun (HUpd (HUpd HNew [3; 4]%Z) [1; 2]%Z)) = Some Asc /\
  report_order (zrun (HAdd (HUpd HNew [9; 7]%Z) (HUpd HNew [5; 4]%Z))) = Some Desc /\
  all_kind zparse false (HUpd (HUpd HNew [1; 2]%Z) [2; 3]%Z) /\
  rising Z.ltb Z.ltb (concat (pieces zparse (HUpd (HUpd HNew [1; 2]%Z) [2; 3]%Z))).
Proof.
  repeat split; try reflexivity.
  - unfold all_kind. cbn. repeat constructor.
  - cbn. repeat constructor.
Qed.
