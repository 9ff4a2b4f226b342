(** Votes: first largest element, shares, means over a cell, most frequent label, parameters. *)
From Coq Require Import QArith.
From Verif Require Import PyCommon PyDict PyString ListFacts RowModel RowProofs QFacts RegexModel RegexProofs.
Local Open Scope nat_scope.

Section Argmax.
  Context {X : Type} (lt : X -> X -> bool).
  Hypothesis asym : forall a b, lt a b = true -> lt b a = false.
  Hypothesis negtrans : forall a b c, lt a b = false -> lt b c = false -> lt a c = false.

  Lemma lt_irrefl a : lt a a = false.
  Proof. destruct (lt a a) eqn:E; [|reflexivity]. rewrite (asym a a E) in E. discriminate. Qed.

  Lemma argmax_from_spec l : forall pre best bi,
    nth_error pre bi = Some best ->
    (forall i x, nth_error pre i = Some x -> lt best x = false) ->
    (forall i x, i < bi -> nth_error pre i = Some x -> lt x best = true) ->
    exists v, nth_error (pre ++ l) (argmax_from lt best bi (length pre) l) = Some v /\
      (forall i x, nth_error (pre ++ l) i = Some x -> lt v x = false) /\
      (forall i x, i < argmax_from lt best bi (length pre) l -> nth_error (pre ++ l) i = Some x -> lt x v = true).
  Proof.
    induction l as [|x l IH]; intros pre best bi H1 H2 H3; cbn [argmax_from].
    - rewrite app_nil_r. exists best. auto.
    - replace (pre ++ x :: l) with ((pre ++ [x]) ++ l) by (rewrite <- app_assoc; reflexivity).
      assert (length (pre ++ [x]) = S (length pre)) as L by (rewrite app_length; cbn; lia).
      destruct (lt best x) eqn:Eb; rewrite <- L; apply IH.
      + rewrite nth_error_snoc, Nat.eqb_refl. reflexivity.
      + intros i y. rewrite nth_error_snoc. destruct (i =? length pre).
        * intro E. injection E as <-. apply lt_irrefl.
        * intro E. apply (negtrans x best y); [apply asym; exact Eb|apply (H2 i y E)].
      + intros i y Hi. rewrite nth_error_snoc. destruct (Nat.eqb_spec i (length pre)); [lia|]. intro E.
        destruct (lt y x) eqn:Eyx; [reflexivity|]. rewrite (negtrans best y x (H2 i y E) Eyx) in Eb. discriminate.
      + rewrite nth_error_snoc. destruct (Nat.eqb_spec bi (length pre)) as [->|]; [|exact H1].
        exfalso. assert (length pre < length pre); [|lia]. apply nth_error_Some. congruence.
      + intros i y. rewrite nth_error_snoc. destruct (i =? length pre).
        * intro E. injection E as <-. exact Eb.
        * apply H2.
      + intros i y Hi. rewrite nth_error_snoc. destruct (Nat.eqb_spec i (length pre)); [|apply H3; exact Hi].
        exfalso. assert (bi < length pre); [|lia]. apply nth_error_Some. congruence.
  Qed.

  Lemma argmax_spec l k : argmax lt l = Some k ->
    exists v, nth_error l k = Some v /\ (forall i x, nth_error l i = Some x -> lt v x = false) /\
      (forall i x, i < k -> nth_error l i = Some x -> lt x v = true).
  Proof.
    destruct l as [|x l]; cbn [argmax]; [discriminate|]. intro H. injection H as <-.
    apply (argmax_from_spec l [x] x 0); [reflexivity| |intros; lia].
    intros [|i] y E; [injection E as <-; apply lt_irrefl|destruct i; discriminate].
  Qed.

  Lemma argmax_total l : l <> [] -> exists k, argmax lt l = Some k.
  Proof. destruct l as [|x l]; [congruence|]. intros _. cbn [argmax]. eauto. Qed.
End Argmax.

Lemma natlt_asym a b : (a <? b) = true -> (b <? a) = false.
Proof. rewrite Nat.ltb_lt, Nat.ltb_ge. lia. Qed.
Lemma natlt_neg a b c : (a <? b) = false -> (b <? c) = false -> (a <? c) = false.
Proof. rewrite !Nat.ltb_ge. lia. Qed.

Lemma Qltb_true a b : Qltb a b = true <-> (a < b)%Q.
Proof. unfold Qltb. rewrite negb_true_iff, Qle_bool_false. reflexivity. Qed.
Lemma Qltb_false a b : Qltb a b = false <-> (b <= a)%Q.
Proof. unfold Qltb. rewrite negb_false_iff. apply Qle_bool_iff. Qed.
Lemma Qltb_asym a b : Qltb a b = true -> Qltb b a = false.
Proof. rewrite Qltb_true, Qltb_false. apply Qlt_le_weak. Qed.
Lemma Qltb_neg a b c : Qltb a b = false -> Qltb b c = false -> Qltb a c = false.
Proof. rewrite !Qltb_false. intros H1 H2. apply (Qle_trans _ b); assumption. Qed.

(** Priority *)
Lemma takes_at_spec {X} (row : list X) order vs : takes_at row order = Some vs ->
  Forall2 (fun j v => nth_error row j = Some v) order vs.
Proof.
  revert vs. induction order as [|j order IH]; intros vs H; cbn in H; [injection H as <-; constructor|].
  destruct (nth_error row j) as [v|] eqn:E; [|discriminate]. destruct (takes_at row order) as [ws|]; [|discriminate].
  injection H as <-. constructor; auto.
Qed.

Lemma takes_at_total {X} (row : list X) order : (forall j, In j order -> j < length row) ->
  exists vs, takes_at row order = Some vs.
Proof.
  induction order as [|j order IH]; intro H; cbn; [eauto|].
  destruct (nth_error row j) as [v|] eqn:E.
  - destruct IH as [vs ->]; [intros k Hk; apply H; right; exact Hk|]. eauto.
  - exfalso. apply nth_error_None in E. specialize (H j (or_introl eq_refl)). lia.
Qed.

Lemma priority_row_spec order row l : priority_row order row = Ok l ->
  exists k v, nth_error order k = Some l /\ nth_error row l = Some v /\
    (forall j w, In j order -> nth_error row j = Some w -> w <= v) /\
    (forall i j w, i < k -> nth_error order i = Some j -> nth_error row j = Some w -> w < v).
Proof.
  unfold priority_row. destruct (takes_at row order) as [vs|] eqn:E; [|discriminate].
  destruct (argmax Nat.ltb vs) as [k|] eqn:Ek; [|discriminate]. destruct (nth_error order k) as [l'|] eqn:El; [|discriminate].
  intro H. injection H as ->. apply takes_at_spec in E.
  destruct (argmax_spec Nat.ltb natlt_asym natlt_neg vs k Ek) as (v & H1 & H2 & H3).
  assert (forall i j w, nth_error order i = Some j -> nth_error row j = Some w -> nth_error vs i = Some w) as A.
  { clear - E. intros i j w. revert i. induction E as [|j' v' order vs E' F IH]; intros i E1 E2; [destruct i; discriminate|].
    destruct i as [|i]; cbn in *; [injection E1 as ->; congruence|]. apply (IH i E1 E2). }
  assert (forall i v, nth_error vs i = Some v -> exists j, nth_error order i = Some j /\ nth_error row j = Some v) as B.
  { clear - E. intros i v. revert i. induction E as [|j' v' order vs E' F IH]; intros i E1; [destruct i; discriminate|].
    destruct i as [|i]; cbn in *; [injection E1 as ->; eauto|]. apply (IH i E1). }
  destruct (B k v H1) as (j & Hj1 & Hj2). rewrite El in Hj1. injection Hj1 as <-.
  exists k, v. split; [exact El|]. split; [exact Hj2|]. split.
  - intros j w Hj Hw. destruct (In_nth_error _ _ Hj) as [i Hi]. specialize (H2 i w (A i j w Hi Hw)).
    apply Nat.ltb_ge in H2. exact H2.
  - intros i j w Hi Hj Hw. specialize (H3 i w Hi (A i j w Hj Hw)). apply Nat.ltb_lt in H3. exact H3.
Qed.

Lemma priority_row_total order row : order <> [] -> (forall j, In j order -> j < length row) ->
  exists l, priority_row order row = Ok l.
Proof.
  intros Hne Hb. unfold priority_row. destruct (takes_at_total row order Hb) as [vs E]. rewrite E.
  apply takes_at_spec in E. destruct vs as [|v vs]; [inversion E; subst; congruence|].
  destruct (argmax_total Nat.ltb (v :: vs)) as [k Hk]; [discriminate|]. rewrite Hk.
  destruct (argmax_spec Nat.ltb natlt_asym natlt_neg _ _ Hk) as (w & H1 & _).
  destruct (nth_error order k) as [l|] eqn:El; [eauto|]. exfalso. apply nth_error_None in El.
  rewrite (Forall2_length E) in El. assert (k < length (v :: vs)); [|lia]. apply nth_error_Some. congruence.
Qed.

Lemma mapR_spec {X Y} (f : X -> result Y) l ys : mapR f l = Ok ys -> Forall2 (fun x y => f x = Ok y) l ys.
Proof.
  revert ys. induction l as [|x l IH]; intros ys H; cbn [mapR] in H; [injection H as <-; constructor|].
  destruct (f x) as [y|] eqn:E; cbn [bind] in H; [|discriminate].
  destruct (mapR f l) as [zs|]; cbn [bind] in H; [|discriminate]. injection H as <-. constructor; auto.
Qed.

Lemma mapR_total {X Y} (f : X -> result Y) l : (forall x, In x l -> exists y, f x = Ok y) -> exists ys, mapR f l = Ok ys.
Proof.
  induction l as [|x l IH]; intro H; cbn [mapR]; [eauto|]. destruct (H x (or_introl eq_refl)) as [y ->]. cbn [bind].
  destruct IH as [ys ->]; [intros z Hz; apply H; right; exact Hz|]. cbn [bind]. eauto.
Qed.

(** Shares *)
Lemma qsum_scale c l : (qsum (map (fun v => Qn v / c) l) == Qn (list_sum l) / c)%Q.
Proof.
  induction l as [|v l IH]; cbn [map qsum fold_right]; [change (list_sum []) with 0; unfold Qdiv; rewrite Qmult_0_l; reflexivity|].
  change (list_sum (v :: l)) with (v + list_sum l). fold (qsum (map (fun v => (Qn v / c)%Q) l)).
  rewrite IH, Qn_plus. unfold Qdiv. ring.
Qed.

Lemma share_row_spec row : 0 < list_sum row ->
  share_row row = Some (map (fun v => (Qn v / Qn (list_sum row))%Q) row) /\
  (qsum (map (fun v => Qn v / Qn (list_sum row)) row) == 1)%Q.
Proof.
  intro H. unfold share_row. destruct (Nat.eqb_spec (list_sum row) 0); [lia|]. split; [reflexivity|].
  rewrite qsum_scale. unfold Qdiv. apply Qmult_inv_r. apply Qn_neq. exact H.
Qed.

Lemma list_sum_pos l x : In x l -> 0 < x -> 0 < list_sum l.
Proof.
  induction l as [|y l IH]; cbn [In]; [tauto|]. change (list_sum (y :: l)) with (y + list_sum l).
  intros [->|H] Hx; [lia|]. specialize (IH H Hx). lia.
Qed.

Lemma seqO_spec {X} (l : list (option X)) xs : seqO l = Some xs <-> l = map Some xs.
Proof.
  revert xs. induction l as [|[x|] l IH]; intro xs; cbn.
  - split; [intro H; injection H as <-; reflexivity|destruct xs; [reflexivity|discriminate]].
  - destruct (seqO l) as [ys|] eqn:E.
    + split.
      * intro H. injection H as <-. cbn. f_equal. apply IH. reflexivity.
      * destruct xs as [|z xs]; cbn; [discriminate|]. intro H. injection H as -> H2. apply IH in H2. injection H2 as ->. reflexivity.
    + split; [discriminate|]. destruct xs as [|z xs]; cbn; [discriminate|]. intro H. injection H as -> H2.
      apply IH in H2. discriminate.
  - split; [discriminate|]. destruct xs; discriminate.
Qed.

Lemma qsum_add {X} (f g : X -> Q) l : (qsum (map (fun x => f x + g x) l) == qsum (map f l) + qsum (map g l))%Q.
Proof. induction l as [|x l IH]; cbn; [ring|]. fold (qsum (map (fun x => (f x + g x)%Q) l)). rewrite IH. unfold qsum. ring. Qed.

Lemma qsum_ext {X} (f g : X -> Q) l : (forall x, In x l -> (f x == g x)%Q) -> (qsum (map f l) == qsum (map g l))%Q.
Proof.
  induction l as [|x l IH]; intro H; cbn [map]; [reflexivity|]. rewrite !qsum_cons, (H x (or_introl eq_refl)), IH; [reflexivity|].
  intros y Hy. apply H. right. exact Hy.
Qed.

Lemma qsum_zero {X} (l : list X) : (qsum (map (fun _ => 0) l) == 0)%Q.
Proof. induction l as [|x l IH]; cbn [map]; [reflexivity|]. rewrite qsum_cons, IH. ring. Qed.

Lemma qsum_div {X} (f : X -> Q) c l : (qsum (map (fun x => f x / c) l) == qsum (map f l) / c)%Q.
Proof.
  induction l as [|x l IH]; cbn [map]; [unfold Qdiv; cbn; ring|]. rewrite !qsum_cons, IH. unfold Qdiv. ring.
Qed.

Lemma nth_seq_map {X} (x0 : X) r : map (fun j => nth j r x0) (seq 0 (length r)) = r.
Proof.
  induction r as [|x r IH]; [reflexivity|]. cbn [length seq map nth]. f_equal. rewrite <- seq_shift, map_map. exact IH.
Qed.

(** Exchange of the sums over rows and over columns *)
Lemma qsum_exchange nl rs : (forall r, In r rs -> length r = nl) ->
  (qsum (map (fun j => qsum (column j rs)) (seq 0 nl)) == qsum (map qsum rs))%Q.
Proof.
  induction rs as [|r rs IH]; intro H; cbn [map].
  - rewrite (qsum_ext _ (fun _ => 0%Q)); [apply qsum_zero|]. intros; reflexivity.
  - rewrite qsum_cons. rewrite <- IH by (intros x Hx; apply H; right; exact Hx).
    rewrite (qsum_ext _ (fun j => (nth j r 0 + qsum (column j rs))%Q)) by (intros; unfold column; cbn [map]; rewrite qsum_cons; reflexivity).
    rewrite qsum_add. rewrite <- (H r (or_introl eq_refl)) at 1. rewrite nth_seq_map. reflexivity.
Qed.

Lemma qsum_ones {X} (f : X -> Q) l : (forall x, In x l -> (f x == 1)%Q) -> (qsum (map f l) == Qn (length l))%Q.
Proof.
  induction l as [|x l IH]; intro H; cbn [map length]; [reflexivity|]. rewrite qsum_cons, (H x (or_introl eq_refl)), IH, Qn_S; [ring|].
  intros y Hy. apply H. right. exact Hy.
Qed.

(** Frequencies *)
Lemma tally_snoc ls l : tally (ls ++ [l]) = dset (tally ls) l (S (match dget (tally ls) l with Some c => c | None => 0 end)).
Proof. unfold tally. rewrite fold_left_app. reflexivity. Qed.

Lemma tally_NoDup ls : NoDup (dkeys (tally ls)).
Proof. induction ls as [|l ls IH] using rev_ind; [constructor|]. rewrite tally_snoc. apply NoDup_dset. exact IH. Qed.

Lemma tally_get ls l : dget (tally ls) l = if lmem ls l then Some (occ l ls) else None.
Proof.
  induction ls as [|x ls IH] using rev_ind; [reflexivity|]. rewrite tally_snoc, dget_dset, occ_app. cbn [occ].
  unfold lmem in *. rewrite existsb_app. cbn [existsb]. destruct (PyDict.eqb_spec x l) as [->|Hx].
  - rewrite IH, PyDict.eqb_refl, orb_true_r. f_equal. destruct (existsb (PyDict.eqb l) ls) eqn:E; [lia|].
    assert (occ l ls = 0) as ->; [|lia]. apply occ_zero. intro Hin. apply lmem_false in E. tauto.
  - rewrite IH. assert (PyDict.eqb l x = false) as -> by (apply PyDict.eqb_neq; congruence). rewrite !orb_false_r, !Nat.add_0_r. reflexivity.
Qed.

(** The labels that count: of characters in the cell, other than padding *)
Definition counting (pad n : nat) (labels : list nat) : list nat := filter (fun l => negb (l =? pad)) (firstn n labels).

Lemma occ_filter (f : nat -> bool) l ls : occ l (filter f ls) = if f l then occ l ls else 0.
Proof.
  induction ls as [|x ls IH]; cbn [filter occ]; [destruct (f l); reflexivity|].
  destruct (f x) eqn:E; cbn [occ]; rewrite IH; destruct (PyDict.eqb_spec x l) as [->|]; try rewrite E; destruct (f l) eqn:El; try lia; congruence.
Qed.

Lemma counter_get pad n labels l :
  dget (cell_counter pad n labels) l = if lmem (counting pad n labels) l then Some (occ l (counting pad n labels)) else None.
Proof.
  unfold cell_counter. rewrite dget_ddel by apply tally_NoDup. rewrite tally_get. unfold counting. rewrite occ_filter.
  destruct (lmem (filter _ (firstn n labels)) l) eqn:E.
  - apply lmem_In in E. apply filter_In in E. destruct E as [E1 E2]. rewrite E2.
    assert (PyDict.eqb pad l = false) as -> by (apply PyDict.eqb_neq; intros ->; rewrite Nat.eqb_refl in E2; discriminate).
    apply lmem_In in E1. rewrite E1. reflexivity.
  - apply lmem_false in E. destruct (PyDict.eqb_spec pad l) as [|Hp]; [reflexivity|].
    destruct (lmem (firstn n labels) l) eqn:E1; [|reflexivity]. exfalso. apply E. apply filter_In.
    apply lmem_In in E1. split; [exact E1|]. apply negb_true_iff, Nat.eqb_neq. congruence.
Qed.

Lemma counter_NoDup pad n labels : NoDup (dkeys (cell_counter pad n labels)).
Proof. apply NoDup_ddel, tally_NoDup. Qed.

Lemma counter_entry pad n labels l c : In (l, c) (cell_counter pad n labels) <->
  In l (counting pad n labels) /\ c = occ l (counting pad n labels).
Proof.
  split.
  - intro H. apply (dget_In _ _ _ (counter_NoDup pad n labels)) in H. rewrite counter_get in H.
    destruct (lmem _ l) eqn:E; [|discriminate]. injection H as <-. apply lmem_In in E. auto.
  - intros [H ->]. apply dget_Some_In. rewrite counter_get. apply lmem_In in H. rewrite H. reflexivity.
Qed.

Lemma occ_split (k : nat) ls : occ k ls + length (filter (fun l => negb (l =? k)) ls) = length ls.
Proof.
  induction ls as [|x ls IH]; cbn [occ filter length]; [reflexivity|].
  change (PyDict.eqb x k) with (x =? k). destruct (x =? k); cbn [negb length]; lia.
Qed.

Lemma total_of_counts (d : dict nat nat) : forall ls, NoDup (dkeys d) ->
  (forall l c, In (l, c) d <-> In l ls /\ c = occ l ls) -> list_sum (dvals d) = length ls.
Proof.
  induction d as [|[k c] d IH]; intros ls Hn H.
  - destruct ls as [|x ls]; [reflexivity|]. exfalso. apply (proj2 (H x (occ x (x :: ls)))). split; [left|]; reflexivity.
  - inversion Hn as [|? ? Hk Hd]; subst. change (list_sum (dvals ((k, c) :: d))) with (c + list_sum (dvals d)).
    rewrite (IH (filter (fun l => negb (l =? k)) ls) Hd).
    + destruct (proj1 (H k c) (or_introl eq_refl)) as [_ ->]. apply occ_split.
    + intros l c'. rewrite occ_filter, filter_In. split.
      * intro Hi. destruct (proj1 (H l c') (or_intror Hi)) as [H1 ->].
        assert ((l =? k) = false) as ->; [|auto]. apply Nat.eqb_neq. intros ->. apply Hk. apply (in_map fst) in Hi. exact Hi.
      * intros [[H1 H2] ->]. rewrite H2. destruct (proj2 (H l (occ l ls)) (conj H1 eq_refl)) as [E|E]; [|exact E].
        injection E as <- _. rewrite Nat.eqb_refl in H2. discriminate.
Qed.

Lemma counter_total pad n labels : list_sum (dvals (cell_counter pad n labels)) = length (counting pad n labels).
Proof. apply total_of_counts; [apply counter_NoDup|apply counter_entry]. Qed.

Lemma list_max_bound l : (l = [] /\ List.list_max l = 0) \/ In (List.list_max l) l.
Proof.
  induction l as [|x l IH]; [auto|]. right. change (List.list_max (x :: l)) with (Nat.max x (List.list_max l)).
  destruct (Nat.max_spec x (List.list_max l)) as [[H ->]|[H ->]]; [|left; reflexivity].
  destruct IH as [[-> H0]|IH]; [cbn in H; lia|right; exact IH].
Qed.

Lemma modes_spec pad n labels x : In x (modes (cell_counter pad n labels)) <->
  In x (counting pad n labels) /\ forall y, In y (counting pad n labels) -> occ y (counting pad n labels) <= occ x (counting pad n labels).
Proof.
  unfold modes. rewrite in_map_iff. split.
  - intros ([l c] & <- & H). cbn [fst]. apply filter_In in H. destruct H as [H1 H2]. cbn [snd] in H2. apply Nat.eqb_eq in H2.
    destruct (proj1 (counter_entry pad n labels l c) H1) as [H3 H4]. split; [exact H3|]. intros y Hy. rewrite <- H4, H2.
    apply list_max_In. apply (in_map snd _ (y, _)). apply counter_entry. auto.
  - intros [H1 H2]. exists (x, occ x (counting pad n labels)). split; [reflexivity|]. apply filter_In. split; [apply counter_entry; auto|].
    cbn [snd]. apply Nat.eqb_eq. apply Nat.le_antisymm.
    + apply list_max_In. apply (in_map snd _ (x, _)). apply counter_entry. auto.
    + destruct (list_max_bound (dvals (cell_counter pad n labels))) as [[_ ->]|Hm]; [lia|].
      apply in_map_iff in Hm. destruct Hm as ([y c] & E & Hy). cbn [snd] in E. rewrite <- E.
      apply counter_entry in Hy. destruct Hy as [Hy ->]. apply H2. exact Hy.
Qed.

Lemma NoDup_map_filter {A B} (f : A -> B) (g : A -> bool) l : NoDup (map f l) -> NoDup (map f (filter g l)).
Proof.
  induction l as [|x l IH]; cbn; [auto|]. intro H. inversion H as [|? ? H1 H2]; subst.
  destruct (g x); cbn; [|auto]. constructor; [|auto]. intro Hi. apply H1. apply in_map_iff in Hi.
  destruct Hi as (y & E & Hy). apply filter_In in Hy. rewrite <- E. apply in_map. tauto.
Qed.

Lemma modes_NoDup pad n labels : NoDup (modes (cell_counter pad n labels)).
Proof. apply NoDup_map_filter. apply counter_NoDup. Qed.

Lemma remove1_In x y l : NoDup l -> (In y (remove1 x l) <-> In y l /\ y <> x).
Proof.
  induction l as [|z l IH]; intro H; cbn; [tauto|]. inversion H as [|? ? H1 H2]; subst.
  destruct (Nat.eqb_spec x z) as [->|Hz]; cbn [In].
  - split; [intro Hy; split; [auto|intros ->; tauto]|]. intros [[->|Hy] Hn]; [congruence|exact Hy].
  - rewrite (IH H2). split; [intros [->|[Hy Hn]]; auto|]. intros [[->|Hy] Hn]; auto.
Qed.

Lemma set_fold_nth (f : nat * nat -> Q) (c : dict nat nat) : NoDup (dkeys c) -> forall row j, j < length row ->
  nth_error (fold_left (fun r kv => set_nth r (fst kv) (f kv)) c row) j =
  match dget c j with Some v => Some (f (j, v)) | None => nth_error row j end.
Proof.
  induction c as [|[k v] c IH]; intros Hn row j Hj; cbn [fold_left]; [reflexivity|]. inversion Hn as [|? ? H1 H2]; subst.
  rewrite IH by (try assumption; rewrite set_nth_length; exact Hj). cbn [dget fst]. destruct (PyDict.eqb_spec k j) as [->|Hk].
  - assert (dget c j = None) as -> by (apply dget_None; exact H1). rewrite nth_error_set_nth, Nat.eqb_refl.
    destruct (nth_error row j) eqn:E; [reflexivity|]. apply nth_error_None in E. lia.
  - destruct (dget c j); [reflexivity|]. rewrite nth_error_set_nth. destruct (Nat.eqb_spec k j); [congruence|reflexivity].
Qed.

Lemma set_fold_length (f : nat * nat -> Q) (c : dict nat nat) : forall row,
  length (fold_left (fun r kv => set_nth r (fst kv) (f kv)) c row) = length row.
Proof. induction c as [|kv c IH]; intro row; cbn [fold_left]; [reflexivity|]. rewrite IH. apply set_nth_length. Qed.

Lemma conf_nth nl pad n labels j : j < nl ->
  nth_error (cell_conf nl (cell_counter pad n labels)) j =
  Some (if lmem (counting pad n labels) j then (Qn (occ j (counting pad n labels)) / Qn (length (counting pad n labels)))%Q else 0%Q).
Proof.
  intro Hj. unfold cell_conf.
  rewrite (set_fold_nth (fun kv => (Qn (snd kv) / Qn (list_sum (dvals (cell_counter pad n labels))))%Q)).
  - rewrite counter_get, counter_total. destruct (lmem (counting pad n labels) j); [reflexivity|]. apply nth_error_repeat_in. exact Hj.
  - apply counter_NoDup.
  - rewrite repeat_length. exact Hj.
Qed.

Lemma conf_length nl c : length (cell_conf nl c) = nl.
Proof.
  unfold cell_conf. rewrite (set_fold_length (fun kv => (Qn (snd kv) / Qn (list_sum (dvals c)))%Q)). apply repeat_length.
Qed.

Lemma occ_sum nl ls : (forall l, In l ls -> l < nl) -> list_sum (map (fun j => occ j ls) (seq 0 nl)) = length ls.
Proof.
  induction ls as [|x ls IH]; intro H; cbn [occ length].
  - clear H. generalize (seq 0 nl). intro s. induction s as [|y s IHs]; [reflexivity|]. exact IHs.
  - rewrite <- IH by (intros l Hl; apply H; right; exact Hl). specialize (H x (or_introl eq_refl)).
    replace (list_sum (map (fun j => (if PyDict.eqb x j then 1 else 0) + occ j ls) (seq 0 nl)))
      with (list_sum (map (fun j => if PyDict.eqb x j then 1 else 0) (seq 0 nl)) + list_sum (map (fun j => occ j ls) (seq 0 nl))).
    + assert (list_sum (map (fun j => if PyDict.eqb x j then 1 else 0) (seq 0 nl)) = 1) as ->; [|lia].
      replace nl with (x + S (nl - S x)) by lia. rewrite seq_app, map_app, list_sum_app. cbn [seq map]. rewrite Nat.add_0_l.
      rewrite PyDict.eqb_refl. change (list_sum (1 :: ?l)) with (1 + list_sum l).
      assert (forall s k, ~ In x (seq s k) -> list_sum (map (fun j => if PyDict.eqb x j then 1 else 0) (seq s k)) = 0) as Z.
      { intros s k. revert s. induction k as [|k IHk]; intros s Hs; [reflexivity|]. cbn [seq map]. cbn [seq In] in Hs.
        assert (PyDict.eqb x s = false) as -> by (apply PyDict.eqb_neq; intros ->; tauto). apply IHk. tauto. }
      rewrite !Z; [lia| |]; rewrite in_seq; lia.
    + generalize (seq 0 nl). intro s. induction s as [|y s IHs]; [reflexivity|]. cbn [map].
      change (list_sum (?a :: ?l)) with (a + list_sum l). lia.
Qed.

(** Parameters *)
Local Open Scope string_scope.
Local Open Scope nat_scope.

Definition params_ok (st : dict string pv) : Prop :=
  (exists s a, dget st "aggregation_func" = Some (PStr s) /\ agg_of s = Some a) /\
  (dget st "priority_order" = Some PNone \/ exists l, dget st "priority_order" = Some (PList l)).

Lemma good_values stored kwargs p v : bad_param stored kwargs p v = false ->
  (p = "aggregation_func" /\ exists s a, v = PStr s /\ agg_of s = Some a) \/
  (p = "priority_order" /\ (v = PNone \/ exists l, v = PList l)).
Proof.
  unfold bad_param. destruct (PyDict.eqb_spec p "aggregation_func") as [->|H1].
  - destruct v as [s| | |]; try discriminate. destruct (agg_of s) eqn:E; [|discriminate]. eauto 8.
  - destruct (PyDict.eqb_spec p "priority_order") as [->|H2]; [|discriminate]. destruct v; try discriminate; eauto 8.
Qed.

Lemma dupdate_ok kwargs : forall st, params_ok st ->
  (forall kv, In kv kwargs ->
     (fst kv = "aggregation_func" /\ exists s a, snd kv = PStr s /\ agg_of s = Some a) \/
     (fst kv = "priority_order" /\ (snd kv = PNone \/ exists l, snd kv = PList l))) ->
  params_ok (dupdate st kwargs).
Proof.
  unfold dupdate. induction kwargs as [|[p v] kw IH]; intros st Hs Hk; cbn [fold_left]; [exact Hs|].
  apply IH; [|intros kv Hkv; apply Hk; right; exact Hkv]. cbn [fst snd]. destruct Hs as [H1 H2].
  destruct (Hk (p, v) (or_introl eq_refl)) as [[E (s & a & Ev & Ea)]|[E Ev]]; cbn [fst snd] in *; subst p.
  - split.
    + exists s, a. rewrite dget_dset. subst v. split; [reflexivity|exact Ea].
    + rewrite dget_dset. exact H2.
  - split.
    + destruct H1 as (s & a & E1 & E2). exists s, a. rewrite dget_dset. split; [exact E1|exact E2].
    + rewrite dget_dset. destruct Ev as [->|[l ->]]; [left; reflexivity|right; exists l; reflexivity].
Qed.

Lemma set_params_ok st kw st' : set_params st kw = Ok st' -> params_ok st -> params_ok st'.
Proof.
  unfold set_params. destruct (existsb _ kw) eqn:E; [discriminate|]. intros H Hs. injection H as <-. apply dupdate_ok; [exact Hs|].
  intros kv Hkv. destruct (bad_param st kw (fst kv) (snd kv)) eqn:B; [|apply (good_values _ _ _ _ B)].
  exfalso. assert (existsb (fun kv => bad_param st kw (fst kv) (snd kv)) kw = true); [|congruence].
  apply existsb_exists. exists kv. auto.
Qed.

Lemma new_processor_ok a o st : new_processor a o = Ok st -> params_ok st.
Proof.
  unfold new_processor, set_params. destruct (existsb _ _) eqn:E; [discriminate|]. intro H. injection H as <-.
  cbn [existsb fst snd] in E. rewrite orb_false_r in E. apply orb_false_iff in E. destruct E as [E1 E2].
  apply good_values in E1, E2. destruct E1 as [[_ (s & b & -> & Hb)]|[E1 _]]; [|discriminate E1].
  destruct E2 as [[E2 _]|[_ E2]]; [discriminate E2|]. split; [exists s, b; split; [reflexivity|exact Hb]|].
  destruct E2 as [->|[l ->]]; [left; reflexivity|right; exists l; reflexivity].
Qed.

Lemma configure_ok calls : forall st, params_ok st -> params_ok (configure st calls).
Proof.
  unfold configure. induction calls as [|kw calls IH]; intros st Hs; cbn [fold_left]; [exact Hs|]. apply IH.
  destruct (set_params st kw) as [st'|] eqn:E; [|exact Hs]. apply (set_params_ok _ _ _ E Hs).
Qed.
