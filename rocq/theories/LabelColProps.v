(** Property C38: votes for the labels of a column, their shares, and the label reported. *)
From Coq Require Import ZArith QArith Lqa Permutation Sorted.
From Verif Require Import QFacts ListFacts PyCommon PyDict PyString LabelColModel.
Local Open Scope nat_scope.

Lemma sorted_seq n : forall s l, StronglySorted lt l -> (forall i, In i l <-> s <= i < s + n) -> l = seq s n.
Proof.
  induction n as [|n IH]; intros s l HS HI.
  - destruct l as [|x l]; [reflexivity|]. exfalso. destruct (proj1 (HI x) (or_introl eq_refl)). lia.
  - destruct l as [|x l]; [exfalso; destruct (proj2 (HI s)); lia|]. inversion HS as [|? ? HS' HF]; subst. rewrite Forall_forall in HF.
    assert (x = s) as ->. { destruct (proj2 (HI s)) as [E|H]; [lia|exact E|]. specialize (HF s H). pose proof (proj1 (HI x) (or_introl eq_refl)). lia. }
    cbn [seq]. f_equal. apply IH; [exact HS'|]. intro i. split.
    + intro H. specialize (HF i H). pose proof (proj1 (HI i) (or_intror H)). lia.
    + intro H. destruct (proj2 (HI i)) as [E|H']; [lia|lia|exact H'].
Qed.

Lemma list_sum_cons x l : list_sum (x :: l) = x + list_sum l.
Proof. reflexivity. Qed.

Lemma nth_error_ext {A} (a : list A) : forall b, (forall i, nth_error a i = nth_error b i) -> a = b.
Proof.
  induction a as [|x a IH]; intros [|y b] H; [reflexivity|discriminate (H 0)|discriminate (H 0)|]. pose proof (H 0) as H0. cbn in H0. injection H0 as ->. f_equal. apply IH. intro i. exact (H (S i)).
Qed.

Section Props.
  Context {L : Type} {E : EqDecB L}.
  Variable mapping : dict nat L.
  Variable zero : bool.
  Variable num_labels : nat.
  Variable best : list Q -> nat.

  (** The labels have the positions below their number (with or without a label at the position of PAD) *)
  Definition first_label : nat := if zero then 1 else 0.
  Definition proper : Prop := NoDup (dkeys mapping) /\ NoDup (dvals mapping) /\ first_label < num_labels /\
    (forall i, first_label <= i -> (In i (dkeys mapping) <-> i < num_labels)).
  (** [best] finds a largest number *)
  Definition finds_best : Prop := forall row, row <> [] -> best row < length row /\ (forall i, i < length row -> Qle (nth i row 0%Q) (nth (best row) row 0%Q)).
  Hypothesis HP : proper.
  Hypothesis HB : finds_best.

  Inductive hist :=
  | LNew
  | LUpd (h : hist) (rows : list (list Q))
  | LSee (h : hist)
  | LAdd (h1 h2 : hist) (order : list L -> list L).
  Fixpoint run (h : hist) : result (@lcol L) :=
    match h with
    | LNew => Ok new_labels
    | LUpd h rows => bind (run h) (fun c => update_labels mapping zero num_labels best c rows)
    | LSee h => bind (run h) (fun c => Ok (read_report mapping zero c))
    | LAdd h1 h2 order => bind (run h1) (fun a => bind (run h2) (fun b => add_labels order a b))
    end.
  Fixpoint rows_of (h : hist) : list (list Q) :=
    match h with LNew => [] | LUpd h rows => rows_of h ++ rows | LSee h => rows_of h | LAdd h1 h2 _ => rows_of h1 ++ rows_of h2 end.
  (** Rows have a number per label, and sets have some order *)
  Fixpoint wf (h : hist) : Prop :=
    match h with
    | LNew => True
    | LUpd h rows => wf h /\ (forall r, In r rows -> length r = num_labels)
    | LSee h => wf h
    | LAdd h1 h2 order => wf h1 /\ wf h2 /\ (forall l, Permutation (order l) l)
    end.
  (** ** What is expected *)
  (** The confidence of a row for a position, and whether the row votes for it *)
  Definition conf (row : list Q) (p : nat) : Q := nth p row 0%Q.
  Definition votes_for (row : list Q) (p : nat) : bool :=
    (first_label + best (skipn first_label row) =? p) && negb (Qle_bool (conf row p) (1 # 5)).
  Definition count (rows : list (list Q)) (p : nat) : nat := length (filter (fun r => votes_for r p) rows).
  Definition voting (rows : list (list Q)) : nat := length (filter (fun r => existsb (votes_for r) (seq first_label (num_labels - first_label))) rows).

  (** Whether a profile has votes: some cell voted, or a report was read when there were data, or it is merged from such *)
  Fixpoint has_votes (h : hist) : Prop :=
    match h with
    | LNew => False
    | LUpd h rows => has_votes h \/ 0 < voting rows
    | LSee h => rows_of h <> []
    | LAdd h1 h2 _ => rows_of h1 ++ rows_of h2 <> []
    end.
  (** Only profiles that both have votes, or both have no data, are merged *)
  Fixpoint merges_ok (h : hist) : Prop :=
    match h with
    | LNew => True
    | LUpd h _ => merges_ok h
    | LSee h => merges_ok h
    | LAdd h1 h2 _ => merges_ok h1 /\ merges_ok h2 /\ ((rows_of h1 = [] /\ rows_of h2 = []) \/ (has_votes h1 /\ has_votes h2))
    end.

  (** ** Labels *)
  Let labels' := labels mapping zero.
  Let n := width zero num_labels.
  Lemma start_first : start zero = first_label. Proof. reflexivity. Qed.
  Lemma n_eq : n = num_labels - first_label.
  Proof. unfold n, width, first_label. destruct zero; lia. Qed.
  Lemma n_pos : 0 < n.
  Proof. destruct HP as (_ & _ & H & _). rewrite n_eq. lia. Qed.
  Lemma rm_NoDup : NoDup (dkeys (reverse_mapping mapping zero)).
  Proof. destruct HP as (H & _). unfold reverse_mapping. destruct zero; [apply NoDup_ddel|]; exact H. Qed.
  Lemma rm_get p : first_label <= p -> dget (reverse_mapping mapping zero) p = dget mapping p.
  Proof. intro H. unfold reverse_mapping, first_label in *. destruct HP as (H' & _). destruct zero; [|reflexivity]. rewrite dget_ddel by exact H'. destruct (PyDict.eqb_spec 0 p) as [<-|]; [lia|reflexivity]. Qed.
  Lemma rm_keys p : In p (dkeys (reverse_mapping mapping zero)) <-> first_label <= p < first_label + n.
  Proof.
    destruct HP as (HN & _ & _ & HK). rewrite n_eq. destruct (Nat.le_gt_cases first_label p) as [Hp|Hp].
    - assert (In p (dkeys (reverse_mapping mapping zero)) <-> In p (dkeys mapping)) as ->.
      { pose proof (rm_get p Hp) as G. split; intro H; apply Decidable.not_not; try (unfold Decidable.decidable; destruct (in_dec Nat.eq_dec p (dkeys mapping)), (in_dec Nat.eq_dec p (dkeys (reverse_mapping mapping zero))); tauto); intro H'; apply dget_None in H'; [rewrite <- G in H'|rewrite G in H']; apply dget_None in H'; contradiction. }
      rewrite (HK p Hp). lia.
    - split; [|lia]. intro H. exfalso. unfold first_label, reverse_mapping in *. destruct zero; [|lia]. assert (p = 0) as -> by lia.
      apply dmem_true in H. unfold dmem in H. rewrite dget_ddel in H by exact HN. rewrite PyDict.eqb_refl in H. discriminate.
  Qed.
  Lemma insert_key_perm (x : nat * L) l : Permutation (insert_key x l) (x :: l).
  Proof. induction l as [|y l IH]; [reflexivity|]. cbn [insert_key]. destruct (fst x <=? fst y); [reflexivity|]. rewrite IH. apply perm_swap. Qed.
  Lemma sort_keys_perm (l : list (nat * L)) : Permutation (sort_keys l) l.
  Proof. induction l as [|x l IH]; [reflexivity|]. cbn [sort_keys fold_right]. fold (sort_keys l). rewrite insert_key_perm. constructor. exact IH. Qed.
  Lemma insert_key_sorted (x : nat * L) l : StronglySorted lt (map fst l) -> ~ In (fst x) (map fst l) -> StronglySorted lt (map fst (insert_key x l)).
  Proof.
    induction l as [|y l IH]; intros HS HN; [repeat constructor|]. cbn [insert_key]. destruct (Nat.leb_spec (fst x) (fst y)) as [H|H].
    - cbn [map] in *. constructor; [exact HS|]. inversion HS as [|? ? _ HF]; subst. assert (fst x < fst y) as Hlt by (assert (fst x <> fst y) by (intro EE; apply HN; left; symmetry; exact EE); lia).
      constructor; [exact Hlt|]. revert HF. apply Forall_impl. intros; lia.
    - cbn [map] in *. inversion HS as [|? ? HS' HF]; subst. constructor; [apply IH; [exact HS'|intro HI; apply HN; right; exact HI]|].
      apply Forall_forall. intros i Hi. rewrite (Permutation_map fst (insert_key_perm x l)) in Hi. destruct Hi as [<-|Hi]; [exact H|]. rewrite Forall_forall in HF. auto.
  Qed.
  Lemma sort_keys_sorted (l : list (nat * L)) : NoDup (map fst l) -> StronglySorted lt (map fst (sort_keys l)).
  Proof. induction l as [|x l IH]; intro H; [constructor|]. inversion H as [|? ? Hx Hl]; subst. cbn [sort_keys fold_right]. fold (sort_keys l). apply insert_key_sorted; [auto|]. rewrite (Permutation_map fst (sort_keys_perm l)). exact Hx. Qed.
  Lemma sorted_keys : map fst (sort_keys (reverse_mapping mapping zero)) = seq first_label n.
  Proof.
    apply sorted_seq; [apply sort_keys_sorted; exact rm_NoDup|]. intro i. rewrite <- rm_keys. unfold dkeys.
    split; apply Permutation_in; [|symmetry]; apply Permutation_map, sort_keys_perm.
  Qed.
  Lemma labels_length : length labels' = n.
  Proof. unfold labels', labels. rewrite map_length. rewrite <- (map_length fst), sorted_keys. apply seq_length. Qed.
  (** The labels are listed by position *)
  Lemma labels_at i : i < n -> exists l, nth_error labels' i = Some l /\ dget mapping (first_label + i) = Some l.
  Proof.
    intro Hi. pose proof sorted_keys as HS. assert (nth_error (map fst (sort_keys (reverse_mapping mapping zero))) i = Some (first_label + i)) as HN by (rewrite HS; apply nth_error_seq; exact Hi).
    rewrite nth_error_map in HN. destruct (nth_error (sort_keys (reverse_mapping mapping zero)) i) as [[p l]|] eqn:EN; [|discriminate]. cbn [option_map fst] in HN. injection HN as ->.
    exists l. split; [unfold labels', labels; rewrite nth_error_map, EN; reflexivity|]. rewrite <- rm_get by lia. apply dget_In; [exact rm_NoDup|]. apply (Permutation_in _ (sort_keys_perm _)). eapply nth_error_In. exact EN.
  Qed.
  Lemma dvals_inj {K V} {EK : EqDecB K} (d : dict K V) a b v : NoDup (dvals d) -> dget d a = Some v -> dget d b = Some v -> a = b.
  Proof.
    intros HN Ha Hb. apply dget_Some_In in Ha, Hb. unfold dvals in HN. induction d as [|[k w] d IH]; [destruct Ha|]. cbn [map] in HN. inversion HN as [|? ? Hw HN']; subst.
    destruct Ha as [Ha|Ha], Hb as [Hb|Hb]; [congruence| | |auto].
    - injection Ha as -> ->. exfalso. apply Hw. change v with (snd (b, v)). apply in_map. exact Hb.
    - injection Hb as -> ->. exfalso. apply Hw. change v with (snd (a, v)). apply in_map. exact Ha.
  Qed.
  Lemma labels_NoDup : NoDup labels'.
  Proof.
    apply NoDup_nth_error. intros i j Hi HE. rewrite labels_length in Hi. destruct (labels_at i Hi) as (l & H1 & H2). rewrite H1 in HE. symmetry in HE.
    assert (j < n) as Hj by (rewrite <- labels_length; apply nth_error_Some; rewrite HE; discriminate). destruct (labels_at j Hj) as (l' & H3 & H4). rewrite HE in H3. injection H3 as <-.
    destruct HP as (_ & HV & _). pose proof (dvals_inj mapping _ _ _ HV H2 H4). lia.
  Qed.

  (** ** Invariant *)
  Definition vgood (v : dict L nat) (rows : list (list Q)) : Prop :=
    NoDup (dkeys v) /\ (forall l, In l (dkeys v) <-> In l labels') /\
    (forall p l, first_label <= p -> dget mapping p = Some l -> dget v l = Some (count rows p)).
  Definition column (p : nat) (rows : list (list Q)) : Q := qsum (map (fun r => conf r p) rows).
  Definition sgood (s : list Q) (rows : list (list Q)) : Prop :=
    length s = n /\ forall i, i < n -> (nth i s 0 == column (first_label + i) rows)%Q.
  Definition good (c : @lcol L) (rows : list (list Q)) : Prop :=
    l_n c = length rows /\ vgood (votes_of mapping zero c) rows /\ sgood (sums_of zero num_labels c) rows /\
    (rows = [] -> l_votes c = None /\ l_sums c = None) /\ (rows <> [] -> l_sums c <> None).

  Lemma fresh_votes ls : forall d, NoDup ls -> NoDup (dkeys d) ->
    let r := fold_left (fun d l => dset d l 0) ls d in NoDup (dkeys r) /\ (forall l, In l (dkeys r) <-> In l (dkeys d) \/ In l ls) /\ (forall l, dget r l = if lmem ls l then Some 0 else dget d l).
  Proof.
    induction ls as [|x ls IH]; intros d HN HD; cbn [fold_left].
    - cbv zeta. split; [exact HD|]. split; [intro l; split; [auto|intros [H|[]]; exact H]|reflexivity].
    - inversion HN as [|? ? Hx HN']; subst. destruct (IH (dset d x 0) HN' (NoDup_dset _ _ _ HD)) as (H1 & H2 & H3). cbv zeta in *. split; [exact H1|]. split.
      + intro l. rewrite H2, In_dkeys_dset. cbn [In]. split; intros [H|H]; try tauto; destruct H as [-> | H]; tauto.
      + intro l. rewrite H3, dget_dset. unfold lmem. cbn [existsb]. destruct (PyDict.eqb_spec l x) as [->|Hlx]; cbn [orb].
        * rewrite PyDict.eqb_refl. destruct (existsb _ ls); reflexivity.
        * destruct (PyDict.eqb_spec x l) as [->|_]; [contradiction|]. reflexivity.
  Qed.
  Lemma label_in p l : first_label <= p -> dget mapping p = Some l -> p < num_labels /\ In l labels'.
  Proof.
    intros Hp Hg. assert (p < num_labels) as Hlt. { destruct HP as (_ & _ & _ & HK). apply (HK p Hp). apply dget_Some_In in Hg. change p with (fst (p, l)). apply in_map. exact Hg. }
    split; [exact Hlt|]. destruct (labels_at (p - first_label)) as (l' & H1 & H2); [rewrite n_eq; lia|]. replace (first_label + (p - first_label)) with p in H2 by lia. rewrite Hg in H2. injection H2 as <-. eapply nth_error_In. exact H1.
  Qed.
  Lemma in_label l : In l labels' -> exists p, first_label <= p < num_labels /\ dget mapping p = Some l.
  Proof.
    intro H. apply In_nth_error in H as [i Hi]. assert (i < n) as Hlt by (rewrite <- labels_length; apply nth_error_Some; rewrite Hi; discriminate).
    destruct (labels_at i Hlt) as (l' & H1 & H2). rewrite Hi in H1. injection H1 as <-. exists (first_label + i). rewrite n_eq in Hlt. split; [lia|exact H2].
  Qed.
  Lemma vgood_new : vgood (votes_of mapping zero new_labels) [].
  Proof.
    cbn [votes_of new_labels l_votes]. destruct (fresh_votes labels' [] labels_NoDup (NoDup_nil _)) as (H1 & H2 & H3). fold labels'. split; [exact H1|]. split.
    - intro l. rewrite H2. cbn [dkeys map In]. tauto.
    - intros p l Hp Hg. rewrite H3. rewrite (proj2 (lmem_In _ _) (proj2 (label_in p l Hp Hg))). reflexivity.
  Qed.
  Lemma nth_repeat_0 m i : nth i (repeat 0%Q m) 0%Q = 0%Q.
  Proof. revert i. induction m; destruct i; cbn; auto. Qed.
  Lemma good_new : good new_labels [].
  Proof.
    split; [reflexivity|]. split; [exact vgood_new|]. split.
    - cbn [sums_of new_labels l_sums]. split; [apply repeat_length|]. intros i _. rewrite nth_repeat_0. reflexivity.
    - split; [auto|congruence].
  Qed.

  Lemma skipn_delete r : delete_pad zero r = skipn first_label r.
  Proof. unfold delete_pad, first_label. destruct zero; [destruct r; reflexivity|reflexivity]. Qed.
  Lemma nth_skipn {A} k (r : list A) i d : nth i (skipn k r) d = nth (k + i) r d.
  Proof. revert r. induction k as [|k IH]; intro r; [reflexivity|]. destruct r as [|x r]; [destruct i; reflexivity|]. cbn [skipn plus nth]. apply IH. Qed.
  Lemma above_le q : above q = negb (Qle_bool q (1 # 5)).
  Proof. unfold above. destruct (Qcompare_spec (1 # 5) q) as [H|H|H]; symmetry; [apply negb_false_iff|apply negb_true_iff|apply negb_false_iff]; [apply Qle_bool_iff; lra|apply Qle_bool_false; exact H|apply Qle_bool_iff; lra]. Qed.

  Lemma count_snoc rows r p : count (rows ++ [r]) p = count rows p + (if votes_for r p then 1 else 0).
  Proof. unfold count. rewrite filter_app, app_length. cbn [filter]. destruct (votes_for r p); reflexivity. Qed.
  Lemma vote_good v rows r : vgood v rows -> length r = num_labels ->
    exists v', vote mapping zero best v (delete_pad zero r) = Ok v' /\ vgood v' (rows ++ [r]).
  Proof.
    intros (V1 & V2 & V3) HL. rewrite skipn_delete. assert (length (skipn first_label r) = n) as HS by (rewrite skipn_length, HL, n_eq; reflexivity).
    assert (skipn first_label r <> []) as HNE by (intro EE; rewrite EE in HS; pose proof n_pos; cbn in HS; lia). destruct (HB _ HNE) as [HB1 _]. rewrite HS in HB1.
    unfold vote. destruct (skipn first_label r) as [|x xs] eqn:ES; [contradiction|]. rewrite <- ES in *. clear x xs ES. set (b := best (skipn first_label r)) in *.
    destruct (labels_at b HB1) as (l & Hl1 & Hl2). rewrite nth_skipn, above_le.
    destruct (Qle_bool (nth (first_label + b) r 0%Q) (1 # 5)) eqn:EA; cbn [negb].
    - exists v. split; [reflexivity|]. split; [exact V1|]. split; [exact V2|]. intros p l' Hp Hg. rewrite (V3 p l' Hp Hg), count_snoc. f_equal.
      assert (votes_for r p = false) as ->; [|lia]. unfold votes_for. fold b. destruct (Nat.eqb_spec (first_label + b) p) as [<-|]; [|reflexivity]. unfold conf. rewrite EA. reflexivity.
    - rewrite start_first, Nat.add_comm, rm_get by lia. rewrite Hl2. rewrite (V3 (first_label + b) l) by (lia || exact Hl2).
      eexists. split; [reflexivity|]. split; [apply NoDup_dset; exact V1|]. split.
      + intro l'. rewrite In_dkeys_dset, V2. split; [intros [-> | H]; [eapply nth_error_In; exact Hl1|exact H]|auto].
      + intros p l' Hp Hg. rewrite dget_dset, count_snoc. unfold votes_for. fold b. destruct (PyDict.eqb_spec l l') as [->|Hne].
        * assert (p = first_label + b) as ->. { destruct HP as (_ & HV & _). eapply dvals_inj; [exact HV|exact Hg|exact Hl2]. }
          rewrite Nat.eqb_refl. unfold conf. rewrite EA. reflexivity.
        * destruct (Nat.eqb_spec (first_label + b) p) as [<-|]; [congruence|]. cbn [andb]. rewrite Nat.add_0_r. apply V3; assumption.
  Qed.
  Lemma vote_all_good rs : forall v rows, vgood v rows -> (forall r, In r rs -> length r = num_labels) ->
    exists v', vote_all mapping zero best v (map (delete_pad zero) rs) = Ok v' /\ vgood v' (rows ++ rs).
  Proof.
    induction rs as [|r rs IH]; intros v rows HV HL; [exists v; rewrite app_nil_r; auto|]. cbn [map vote_all].
    destruct (vote_good v rows r HV (HL r (or_introl eq_refl))) as (v1 & -> & HV1). cbn [bind]. destruct (IH v1 (rows ++ [r]) HV1) as (v2 & -> & HV2); [intros; apply HL; right; assumption|].
    exists v2. split; [reflexivity|]. rewrite <- app_assoc in HV2. exact HV2.
  Qed.
  Lemma vadd_length a b : length (vadd a b) = Nat.min (length a) (length b).
  Proof. unfold vadd. rewrite map_length. apply combine_length. Qed.
  Lemma vadd_nth a : forall b i, i < length a -> i < length b -> nth i (vadd a b) 0%Q = (nth i a 0 + nth i b 0)%Q.
  Proof. induction a as [|x a IH]; intros [|y b] i Ha Hb; cbn [length] in *; try lia. unfold vadd. cbn [combine map]. destruct i as [|i]; [reflexivity|]. cbn [nth]. apply IH; lia. Qed.
  Lemma column_app p a b : (column p (a ++ b) == column p a + column p b)%Q.
  Proof. unfold column. rewrite map_app. apply qsum_app. Qed.
  Lemma sums_good rs : forall s rows, sgood s rows -> (forall r, In r rs -> length r = num_labels) -> sgood (fold_left vadd (map (delete_pad zero) rs) s) (rows ++ rs).
  Proof.
    induction rs as [|r rs IH]; intros s rows HS HL; [rewrite app_nil_r; exact HS|]. cbn [map fold_left]. replace (rows ++ r :: rs) with ((rows ++ [r]) ++ rs) by (rewrite <- app_assoc; reflexivity).
    apply IH; [|intros; apply HL; right; assumption]. destruct HS as [HS1 HS2]. rewrite skipn_delete. assert (length (skipn first_label r) = n) as HN by (rewrite skipn_length, (HL r (or_introl eq_refl)), n_eq; reflexivity).
    split; [rewrite vadd_length, HS1, HN; lia|]. intros i Hi. rewrite vadd_nth by lia. rewrite nth_skipn, (HS2 i Hi), column_app. unfold column at 3. cbn [map]. rewrite qsum_cons. unfold conf. cbn [qsum fold_right]. ring.
  Qed.

  Lemma voted_voting rs : (forall r, In r rs -> length r = num_labels) -> existsb (voted best) (map (delete_pad zero) rs) = true <-> 0 < voting rs.
  Proof.
    intros HL. assert (forall r, In r rs -> voted best (delete_pad zero r) = existsb (votes_for r) (seq first_label (num_labels - first_label))) as V.
    { intros r Hr. specialize (HL r Hr). rewrite skipn_delete. assert (length (skipn first_label r) = n) as HS by (rewrite skipn_length, HL, n_eq; reflexivity).
      assert (skipn first_label r <> []) as HNE by (intro EE; rewrite EE in HS; pose proof n_pos; cbn in HS; lia). destruct (HB _ HNE) as [HB1 _]. rewrite HS in HB1.
      unfold voted. destruct (skipn first_label r) as [|x xs] eqn:ES; [contradiction|]. rewrite <- ES in *. clear x xs ES. rewrite nth_skipn, above_le.
      apply eq_true_iff_eq. rewrite existsb_exists. split.
      - intros H. exists (first_label + best (skipn first_label r)). split; [apply in_seq; rewrite n_eq in HB1; lia|]. unfold votes_for. rewrite Nat.eqb_refl. exact H.
      - intros (p & _ & H). unfold votes_for in H. apply andb_true_iff in H. destruct H as [H1 H2]. apply Nat.eqb_eq in H1. subst p. exact H2. }
    rewrite existsb_exists. unfold voting. split.
    - intros (x & Hx & HV). apply in_map_iff in Hx. destruct Hx as (r & <- & Hr). rewrite (V r Hr) in HV. destruct (filter _ rs) eqn:EF; [|cbn; lia]. exfalso. assert (In r []) as HX; [|destruct HX]. rewrite <- EF. apply filter_In. split; assumption.
    - intros H. destruct (filter _ rs) as [|r l] eqn:EF; [cbn in H; lia|]. assert (In r (filter (fun r => existsb (votes_for r) (seq first_label (num_labels - first_label))) rs)) as Hr by (rewrite EF; left; reflexivity).
      apply filter_In in Hr. destruct Hr as [Hr HV]. exists (delete_pad zero r). split; [apply in_map; exact Hr|]. rewrite (V r Hr). exact HV.
  Qed.
  Lemma vote_none d row : voted best row = false -> forall d', vote mapping zero best d row = Ok d' -> d' = d.
  Proof. unfold voted, vote. destruct row; [discriminate|]. intros -> d' H. congruence. Qed.
  Lemma vote_all_none rs : forall d d', existsb (voted best) rs = false -> vote_all mapping zero best d rs = Ok d' -> d' = d.
  Proof.
    induction rs as [|r rs IH]; intros d d' HV H; [cbn in H; congruence|]. cbn [existsb] in HV. apply orb_false_iff in HV. destruct HV as [H1 H2]. cbn [vote_all] in H. destruct (vote mapping zero best d r) as [d1|] eqn:E1; [|discriminate].
    cbn [bind] in H. rewrite (IH d1 d' H2 H). apply (vote_none _ _ H1 _ E1).
  Qed.
  Lemma update_good c rows rs : good c rows -> (forall r, In r rs -> length r = num_labels) ->
    exists c', update_labels mapping zero num_labels best c rs = Ok c' /\ good c' (rows ++ rs) /\ (l_votes c' <> None <-> l_votes c <> None \/ 0 < voting rs).
  Proof.
    intros (G1 & G2 & G3 & G4 & G5) HL. unfold update_labels. destruct rs as [|r0 rs0] eqn:ER; [exists c; rewrite app_nil_r; split; [reflexivity|]; split; [refine (conj G1 (conj G2 (conj G3 (conj G4 G5))))|cbn; intuition lia]|]. rewrite <- ER in *.
    assert (forallb (fun r => length r =? length (sums_of zero num_labels c)) (map (delete_pad zero) rs) = true) as ->.
    { apply forallb_forall. intros r Hr. apply in_map_iff in Hr as (r' & <- & Hr'). rewrite skipn_delete, skipn_length, (HL r' Hr'). destruct G3 as [-> _]. rewrite n_eq. apply Nat.eqb_refl. }
    destruct (vote_all_good rs _ rows G2 HL) as (v & EV & HV). rewrite EV. cbn [bind]. eexists. split; [reflexivity|]. pose proof (voted_voting rs HL) as VV. split.
    - unfold good. cbn [l_n l_votes l_sums votes_of sums_of]. split; [rewrite app_length, map_length, G1; reflexivity|]. split.
      + destruct (existsb (voted best) (map (delete_pad zero) rs)) eqn:EX; [exact HV|]. rewrite (vote_all_none _ _ _ EX EV) in HV. exact HV.
      + split; [apply sums_good; assumption|]. split; [intro EE; exfalso; apply app_eq_nil in EE as [_ EE]; rewrite ER in EE; discriminate|]. discriminate.
    - cbn [l_votes]. destruct (existsb (voted best) (map (delete_pad zero) rs)).
      + split; [intros _; right; apply VV; reflexivity|discriminate].
      + split; [auto|]. intros [H|H]; [exact H|]. apply VV in H. discriminate.
  Qed.
  Lemma read_good c rows : good c rows -> good (read_report mapping zero c) rows /\ (l_votes (read_report mapping zero c) <> None <-> rows <> []).
  Proof.
    intros (G1 & G2 & G3 & G4 & G5). unfold read_report. rewrite G1. destruct rows as [|r rows]; cbn [length].
    - split; [refine (conj G1 (conj G2 (conj G3 (conj G4 G5))))|]. rewrite (proj1 (G4 eq_refl)). split; congruence.
    - split; [|split; discriminate]. refine (conj eq_refl (conj G2 (conj G3 (conj _ G5)))). discriminate.
  Qed.

  Lemma dget_map_key (f : L -> nat) ks l : dget (map (fun l => (l, f l)) ks) l = if lmem ks l then Some (f l) else None.
  Proof.
    induction ks as [|k ks IH]; [reflexivity|]. cbn [map dget]. unfold lmem in *. cbn [existsb]. destruct (PyDict.eqb_spec k l) as [->|Hn]; [rewrite PyDict.eqb_refl; reflexivity|].
    destruct (PyDict.eqb_spec l k) as [->|_]; [contradiction|]. exact IH.
  Qed.
  Lemma add_good a b ra rb order : good a ra -> good b rb -> (ra = [] /\ rb = []) \/ (l_votes a <> None /\ l_votes b <> None) -> (forall l, Permutation (order l) l) ->
    exists c, add_labels order a b = Ok c /\ good c (ra ++ rb) /\ (l_votes c <> None <-> ra ++ rb <> []).
  Proof.
    intros (A1 & A2 & A3 & A4 & A5) (B1 & B2 & B3 & B4 & B5) HE HO. unfold add_labels. rewrite A1, B1. destruct HE as [[-> ->]|[HA HBn]].
    - cbn [length Nat.eqb andb app plus]. eexists. split; [reflexivity|]. split; [exact good_new|]. cbn [l_votes]. split; intros X; exfalso; apply X; reflexivity.
    - assert (ra <> []) as NA by (intros ->; destruct (A4 eq_refl); congruence). assert (rb <> []) as NB by (intros ->; destruct (B4 eq_refl); congruence).
      assert (length ra =? 0 = false) as -> by (destruct ra; [congruence|reflexivity]). cbn [andb]. specialize (A5 NA). specialize (B5 NB).
      unfold votes_of in A2, B2. unfold sums_of in A3, B3.
      destruct (l_votes a) as [va|]; [|congruence]. destruct (l_votes b) as [vb|]; [|congruence]. destruct (l_sums a) as [sa|]; [|congruence]. destruct (l_sums b) as [sb|]; [|congruence].
      destruct A3 as [A3 A3']. destruct B3 as [B3 B3']. rewrite A3, B3, Nat.eqb_refl. eexists. split; [reflexivity|]. assert (ra ++ rb <> []) as NR by (destruct ra; [congruence|discriminate]). split; [|cbn [l_votes]; split; [intros _; exact NR|discriminate]]. destruct A2 as (A21 & A22 & A23), B2 as (B21 & B22 & B23).
      set (ks := order (distinct (dkeys va ++ dkeys vb))).
      assert (forall l, In l ks <-> In l labels') as HK. { intro l. unfold ks. split; [intro H|intro H]. - apply (Permutation_in _ (HO _)) in H. apply distinct_In, in_app_iff in H. rewrite A22, B22 in H. tauto. - apply (Permutation_in _ (Permutation_sym (HO _))). apply distinct_In, in_app_iff. rewrite A22. auto. }
      unfold good. cbn [l_n l_votes l_sums votes_of sums_of]. split; [rewrite app_length; reflexivity|]. split; [|split; [|split; [intro EE; contradiction|discriminate]]].
      + split; [unfold dkeys; rewrite map_map; cbn [fst]; rewrite map_id; apply (Permutation_NoDup (Permutation_sym (HO _))); apply distinct_NoDup|]. split; [intro l; unfold dkeys; rewrite map_map; cbn [fst]; rewrite map_id; apply HK|].
        intros p l Hp Hg. rewrite dget_map_key. rewrite (proj2 (lmem_In ks l) (proj2 (HK l) (proj2 (label_in p l Hp Hg)))). unfold get0. rewrite (A23 p l Hp Hg), (B23 p l Hp Hg). unfold count. rewrite filter_app, app_length. reflexivity.
      + split; [rewrite vadd_length; lia|]. intros i Hi. rewrite vadd_nth by lia. rewrite (A3' i Hi), (B3' i Hi), column_app. reflexivity.
  Qed.
  Lemma add_bad a b ra rb order : good a ra -> good b rb -> ~ ((ra = [] /\ rb = []) \/ (l_votes a <> None /\ l_votes b <> None)) -> add_labels order a b = Err TypeError.
  Proof.
    intros (A1 & _ & _ & A4 & A5) (B1 & _ & _ & B4 & B5) HE. unfold add_labels. rewrite A1, B1.
    assert ((length ra =? 0) && (length rb =? 0) = false) as -> by (destruct ra, rb; try reflexivity; exfalso; apply HE; auto).
    destruct (l_votes a), (l_votes b); try reflexivity. exfalso. apply HE. right. split; discriminate.
  Qed.

  Lemma run_good h : wf h -> merges_ok h -> exists c, run h = Ok c /\ good c (rows_of h) /\ (l_votes c <> None <-> has_votes h).
  Proof.
    induction h as [|h IH rows|h IH|h1 IH1 h2 IH2 order]; intros HW HM; cbn [run rows_of has_votes].
    - exists new_labels. split; [reflexivity|]. split; [exact good_new|]. cbn. split; [congruence|intros []].
    - destruct HW as [HW HL]. destruct (IH HW HM) as (c & -> & G & V). destruct (update_good c _ rows G HL) as (c' & U & G' & V'). cbn [bind]. exists c'. split; [exact U|]. split; [exact G'|]. rewrite V', V. reflexivity.
    - destruct (IH HW HM) as (c & -> & G & V). cbn [bind]. eexists. split; [reflexivity|]. apply read_good. exact G.
    - destruct HW as (W1 & W2 & HO). destruct HM as (M1 & M2 & HE). destruct (IH1 W1 M1) as (a & -> & GA & VA). destruct (IH2 W2 M2) as (b & -> & GB & VB). cbn [bind]. apply (add_good a b _ _ order GA GB); [rewrite VA, VB; exact HE|exact HO].
  Qed.
  Lemma has_votes_dec h : wf h -> merges_ok h -> has_votes h \/ ~ has_votes h.
  Proof. intros W M. destruct (run_good h W M) as (c & _ & _ & V). rewrite <- V. destruct (l_votes c); [left; discriminate|right; congruence]. Qed.

  (** C38.  A history of updates, reports and merges goes through exactly if profiles are merged only when both have votes
      (some cell voted, or a report was read) or both have no data; otherwise the result is an error. *)
  Theorem C38_total h : wf h -> (merges_ok h <-> exists c, run h = Ok c) /\ (~ merges_ok h -> run h = Err TypeError).
  Proof.
    intro HW. assert (merges_ok h \/ run h = Err TypeError) as HD.
    { induction h as [|h IH rows|h IH|h1 IH1 h2 IH2 order]; [left; exact I| | |].
      - destruct HW as [HW _]. destruct (IH HW) as [H|H]; [left; exact H|right; cbn [run]; rewrite H; reflexivity].
      - destruct (IH HW) as [H|H]; [left; exact H|right; cbn [run]; rewrite H; reflexivity].
      - destruct HW as (W1 & W2 & HO). cbn [merges_ok run]. destruct (IH1 W1) as [H1|H1]; [|right; rewrite H1; reflexivity]. destruct (run_good h1 W1 H1) as (a & Ra & GA & VA).
        destruct (IH2 W2) as [H2|H2]; [|right; rewrite Ra, H2; reflexivity]. destruct (run_good h2 W2 H2) as (b & Rb & GB & VB).
        assert (((rows_of h1 = [] /\ rows_of h2 = []) \/ (has_votes h1 /\ has_votes h2)) \/ ~ ((rows_of h1 = [] /\ rows_of h2 = []) \/ (has_votes h1 /\ has_votes h2))) as [HE|HE].
        { assert (rows_of h1 = [] \/ rows_of h1 <> []) as D1 by (destruct (rows_of h1); [left; reflexivity|right; discriminate]). assert (rows_of h2 = [] \/ rows_of h2 <> []) as D2 by (destruct (rows_of h2); [left; reflexivity|right; discriminate]).
          pose proof (has_votes_dec h1 W1 H1). pose proof (has_votes_dec h2 W2 H2). tauto. }
        + left. auto.
        + right. rewrite Ra, Rb. cbn [bind]. apply (add_bad a b _ _ order GA GB). rewrite VA, VB. exact HE. }
    split.
    - split; [intro HM; destruct (run_good h HW HM) as (c & R & _); exists c; exact R|]. intros (c & R). destruct HD as [H|H]; [exact H|congruence].
    - intro HN. destruct HD as [H|H]; [contradiction|exact H].
  Qed.

  (** C38.  Whatever the batches and merges: the votes for a label are the number of sampled values for which it is the best
      one and its confidence is above 0.2; the average confidence is that of all sampled values. *)
  Theorem C38_votes h c p l : wf h -> run h = Ok c -> rows_of h <> [] -> first_label <= p -> dget mapping p = Some l ->
    l_n c = length (rows_of h) /\ dget (votes_of mapping zero c) l = Some (count (rows_of h) p) /\
    exists d q, avg_predictions mapping zero num_labels c = Some d /\ dget d l = Some q /\ (q == column p (rows_of h) / Qn (length (rows_of h)))%Q.
  Proof.
    intros HW HR HN Hp Hg. destruct (C38_total h HW) as [HT _]. assert (merges_ok h) as HM by (apply HT; exists c; exact HR). destruct (run_good h HW HM) as (c' & HR' & (G1 & G2 & G3 & _) & _). rewrite HR in HR'. injection HR' as <-.
    split; [exact G1|]. split; [apply G2; assumption|]. unfold avg_predictions. rewrite G1. destruct (length (rows_of h)) as [|k] eqn:EL; [destruct (rows_of h); [contradiction|discriminate]|].
    destruct (label_in p l Hp Hg) as [Hlt _]. set (i := p - first_label). assert (i < n) as Hi by (rewrite n_eq; unfold i; lia). destruct (labels_at i Hi) as (l' & H1 & H2). replace (first_label + i) with p in H2 by (unfold i; lia). rewrite Hg in H2. injection H2 as <-.
    destruct G3 as [S1 S2]. eexists. exists (nth i (sums_of zero num_labels c) 0 / (Z.of_nat (S k) # 1))%Q. split; [reflexivity|]. split.
    - apply dget_In.
      + unfold dkeys. replace (map fst (combine labels' _)) with labels'; [exact labels_NoDup|]. clear -S1 HP. assert (length labels' = length (sums_of zero num_labels c)) as HL by (rewrite labels_length, S1; reflexivity). revert HL. generalize labels' (sums_of zero num_labels c). intro a. induction a as [|x a IH]; intros [|y b] HL; try discriminate; [reflexivity|]. cbn [map combine fst]. f_equal. apply IH. cbn in HL; lia.
      + apply nth_error_In with (n := i). fold labels'. set (f := fun s => (s / (Z.of_nat (S k) # 1))%Q). assert (nth_error (map f (sums_of zero num_labels c)) i = Some (f (nth i (sums_of zero num_labels c) 0%Q))) as HX by (rewrite nth_error_map, (nth_error_nth' _ 0%Q) by (rewrite S1; exact Hi); reflexivity). fold (f (nth i (sums_of zero num_labels c) 0%Q)).
        revert HX. generalize (map f (sums_of zero num_labels c)) (f (nth i (sums_of zero num_labels c) 0%Q)). revert H1. clear. generalize labels'. revert i. induction i as [|i IH]; intros [|x a] Ha [|y b] z Hb; try discriminate; cbn in *; [congruence|]. apply IH; assumption.
    - rewrite (S2 i Hi). replace (first_label + i) with p by (unfold i; lia). reflexivity.
  Qed.

  (** ** Shares *)
  Lemma sum_one (f : nat -> bool) ps x : NoDup ps -> (forall p, f p = true -> p = x) -> list_sum (map (fun p => if f p then 1 else 0) ps) = if existsb f ps then 1 else 0.
  Proof.
    intros HN HF. induction ps as [|p ps IH]; [reflexivity|]. inversion HN as [|? ? Hp HN']; subst. cbn [map existsb]. rewrite list_sum_cons, (IH HN').
    destruct (f p) eqn:EP; cbn [orb]; [|destruct (existsb f ps); reflexivity]. destruct (existsb f ps) eqn:EX; [|reflexivity]. apply existsb_exists in EX as (q & Hq & Eq). exfalso. apply Hp. rewrite (HF p EP), <- (HF q Eq). exact Hq.
  Qed.
  Lemma sum_count rows ps : NoDup ps -> list_sum (map (count rows) ps) = length (filter (fun r => existsb (votes_for r) ps) rows).
  Proof.
    intro HN. induction rows as [|r rows IH].
    - cbn [filter length]. induction ps as [|p ps IHp]; [reflexivity|]. inversion HN; subst. cbn [map]. rewrite list_sum_cons, IHp by assumption. reflexivity.
    - cbn [filter]. assert (list_sum (map (count (r :: rows)) ps) = list_sum (map (fun p => if votes_for r p then 1 else 0) ps) + list_sum (map (count rows) ps)) as ->.
      { clear. induction ps as [|p ps IH]; [reflexivity|]. cbn [map]. rewrite !list_sum_cons, IH. unfold count at 1. cbn [filter]. unfold count at 2. destruct (votes_for r p); cbn [length]; lia. }
      rewrite IH. rewrite (sum_one (votes_for r) ps (first_label + best (skipn first_label r)) HN) by (intros p H; unfold votes_for in H; apply andb_true_iff in H as [H _]; apply Nat.eqb_eq in H; auto).
      destruct (existsb (votes_for r) ps); reflexivity.
  Qed.
  Lemma sum_get0 (v : dict L nat) : NoDup (dkeys v) -> list_sum (dvals v) = list_sum (map (get0 v) (dkeys v)).
  Proof.
    intro HN. f_equal. unfold dvals, dkeys. rewrite map_map. apply map_ext_in. intros [l k] Hi. cbn [fst snd]. unfold get0. rewrite (dget_In v l k HN Hi). reflexivity.
  Qed.
  Lemma map_get0 v rows : vgood v rows -> map (get0 v) labels' = map (count rows) (seq first_label n).
  Proof.
    intros (_ & _ & V3). apply nth_error_ext. intro i. rewrite !nth_error_map. destruct (Nat.lt_ge_cases i n) as [Hi|Hi].
    - destruct (labels_at i Hi) as (l & H1 & H2). rewrite H1, nth_error_seq by exact Hi. cbn [option_map]. unfold get0. rewrite (V3 (first_label + i) l) by (lia || exact H2). reflexivity.
    - rewrite (proj2 (nth_error_None labels' i)) by (rewrite labels_length; exact Hi). rewrite (proj2 (nth_error_None (seq first_label n) i)) by (rewrite seq_length; exact Hi). reflexivity.
  Qed.
  Lemma total_voting c rows : good c rows -> total mapping zero c = voting rows.
  Proof.
    intros (_ & G2 & _). unfold total, voting. rewrite (sum_get0 _ (proj1 G2)). rewrite <- n_eq, <- sum_count by apply seq_NoDup. rewrite <- (map_get0 _ rows G2).
    assert (Permutation (dkeys (votes_of mapping zero c)) labels') as HPm by (apply NoDup_Permutation; [apply G2|exact labels_NoDup|apply G2]).
    pose proof (Permutation_map (get0 (votes_of mapping zero c)) HPm) as HQ. revert HQ. generalize (map (get0 (votes_of mapping zero c)) (dkeys (votes_of mapping zero c))) (map (get0 (votes_of mapping zero c)) labels'). intros a b HQ. clear -HQ. induction HQ; rewrite ?list_sum_cons; lia.
  Qed.
  Lemma shares_map v m ls : (forall l, In l ls -> In l (dkeys v)) -> shares v m ls = Ok (map (fun l => (l, share (get0 v l) m)) ls).
  Proof.
    induction ls as [|l ls IH]; intro HI; [reflexivity|]. cbn [shares map]. assert (In l (dkeys v)) as Hl by (apply HI; left; reflexivity). apply dmem_true in Hl. unfold dmem in Hl. unfold get0 at 1. destruct (dget v l) as [k|] eqn:EG; [|discriminate].
    rewrite IH by (intros; apply HI; right; assumption). reflexivity.
  Qed.
  Lemma share_eq k m : 0 < m -> (share k m == Qn k / Qn m)%Q.
  Proof. intro H. destruct m as [|m]; [lia|]. unfold share, Qn, inject_Z, Qdiv, Qmult, Qinv, Qeq. cbn [Qnum Qden Z.of_nat]. rewrite !Pos2Z.inj_mul. lia. Qed.
  Lemma qsum_shares ks m : 0 < m -> (qsum (map (fun k => share k m) ks) == Qn (list_sum ks) / Qn m)%Q.
  Proof.
    intro H. induction ks as [|k ks IH].
    - change (0 == 0 / Qn m)%Q. unfold Qdiv. rewrite Qmult_0_l. reflexivity.
    - cbn [map]. rewrite list_sum_cons, qsum_cons, IH, share_eq, Qn_plus by exact H. field. apply Qn_neq. exact H.
  Qed.

  (** C38.  The label representation lists the labels by position with their shares of the votes, which are in [0,1] and
      sum up to 1 unless there are no votes. *)
  Theorem C38_representation h c : wf h -> run h = Ok c -> rows_of h <> [] ->
    let rows := rows_of h in
    exists d, label_representation mapping zero c = Some (Ok d) /\ length d = num_labels - first_label /\
      (forall i, i < num_labels - first_label -> exists l q, nth_error d i = Some (l, q) /\ dget mapping (first_label + i) = Some l /\
         (q == Qn (count rows (first_label + i)) / Qn (Nat.max 1 (voting rows)))%Q /\ (0 <= q)%Q /\ (q <= 1)%Q) /\
      (qsum (dvals d) == if voting rows =? 0 then 0 else 1)%Q.
  Proof.
    cbv zeta. intros HW HR HN. destruct (C38_total h HW) as [HT _]. assert (merges_ok h) as HM by (apply HT; exists c; exact HR). destruct (run_good h HW HM) as (c' & HR' & G & _). rewrite HR in HR'. injection HR' as <-. pose proof G as (G1 & G2 & _).
    unfold label_representation. rewrite G1, (total_voting c _ G). destruct (length (rows_of h)) as [|k] eqn:EL; [destruct (rows_of h); [contradiction|discriminate]|].
    set (m := Nat.max 1 (voting (rows_of h))). assert (0 < m) as Hm by (unfold m; lia). fold labels'. rewrite shares_map by (intros l Hl; apply G2; exact Hl). eexists. split; [reflexivity|]. rewrite <- n_eq. split; [rewrite map_length; apply labels_length|].
    assert (list_sum (map (count (rows_of h)) (seq first_label n)) = voting (rows_of h)) as HS by (rewrite sum_count by apply seq_NoDup; unfold voting; rewrite <- n_eq; reflexivity).
    split.
    - intros i Hi. destruct (labels_at i Hi) as (l & H1 & H2). exists l, (share (get0 (votes_of mapping zero c) l) m). split; [rewrite nth_error_map, H1; reflexivity|]. split; [exact H2|].
      assert (get0 (votes_of mapping zero c) l = count (rows_of h) (first_label + i)) as -> by (unfold get0; destruct G2 as (_ & _ & V3); rewrite (V3 (first_label + i) l) by (lia || exact H2); reflexivity).
      split; [apply share_eq; exact Hm|]. rewrite share_eq by exact Hm.
      assert (count (rows_of h) (first_label + i) <= voting (rows_of h)) as HC.
      { rewrite <- HS. assert (In (first_label + i) (seq first_label n)) as Hin by (apply in_seq; lia). revert Hin. generalize (seq first_label n) (first_label + i). clear. intros ps p. induction ps as [|q ps IH]; [intros []|]. intros [->|H]; cbn [map]; rewrite list_sum_cons; [lia|]. specialize (IH H). lia. }
      assert (0 < Qn m)%Q as Hq by (apply Qn_pos; exact Hm). split.
      + apply Qle_shift_div_l; [exact Hq|]. rewrite Qmult_0_l. apply Qn_nonneg.
      + apply Qle_shift_div_r; [exact Hq|]. rewrite Qmult_1_l. apply Qn_le. unfold m. lia.
    - unfold dvals. rewrite map_map. cbn [snd]. rewrite <- (map_map (get0 (votes_of mapping zero c)) (fun k => share k m)), (map_get0 _ _ G2), qsum_shares, HS by exact Hm.
      destruct (Nat.eqb_spec (voting (rows_of h)) 0) as [EV|EV]; [rewrite EV; change (0 / Qn m == 0)%Q; unfold Qdiv; apply Qmult_0_l|]. replace m with (voting (rows_of h)) by (unfold m; lia). field. apply Qn_neq. lia.
  Qed.

  (** ** The label reported *)
  Lemma insert_votes_perm (x : L * nat) l : Permutation (insert_votes x l) (x :: l).
  Proof. induction l as [|y l IH]; [reflexivity|]. cbn [insert_votes]. destruct (snd y <=? snd x); [reflexivity|]. rewrite IH. apply perm_swap. Qed.
  Lemma sort_votes_perm (l : list (L * nat)) : Permutation (sort_votes l) l.
  Proof. induction l as [|x l IH]; [reflexivity|]. cbn [sort_votes fold_right]. fold (sort_votes l). rewrite insert_votes_perm. constructor. exact IH. Qed.
  Definition more (x y : L * nat) : Prop := snd y <= snd x.
  Lemma insert_votes_sorted (x : L * nat) l : StronglySorted more l -> StronglySorted more (insert_votes x l).
  Proof.
    induction l as [|y l IH]; intro HS; [repeat constructor|]. cbn [insert_votes]. inversion HS as [|? ? HS' HF]; subst. destruct (Nat.leb_spec (snd y) (snd x)) as [H|H].
    - constructor; [exact HS|]. constructor; [exact H|]. revert HF. apply Forall_impl. unfold more. intros; lia.
    - constructor; [apply IH; exact HS'|]. apply Forall_forall. intros z Hz. apply (Permutation_in _ (insert_votes_perm x l)) in Hz as [<-|Hz]; [unfold more; lia|]. rewrite Forall_forall in HF. auto.
  Qed.
  Lemma sort_votes_sorted (l : list (L * nat)) : StronglySorted more (sort_votes l).
  Proof. induction l as [|x l IH]; [constructor|]. cbn [sort_votes fold_right]. apply insert_votes_sorted. exact IH. Qed.

  Lemma determined k m : 0 < m -> Qle_bool (35 # 100) (share k m) = (7 * m <=? 20 * k).
  Proof.
    intro H. destruct m as [|m]; [lia|]. unfold share. destruct (Nat.leb_spec (7 * S m) (20 * k)) as [HL|HL].
    - apply Qle_bool_iff. unfold Qle. cbn [Qnum Qden]. lia.
    - apply Qle_bool_false. unfold Qlt. cbn [Qnum Qden]. lia.
  Qed.
  Lemma close_nat top m (x : L * nat) : 0 < m -> close top m x = (5 * top <=? m + 5 * snd x).
  Proof.
    intro H. destruct m as [|m]; [lia|]. unfold close, share. destruct (Nat.leb_spec (5 * top) (S m + 5 * snd x)) as [HL|HL].
    - apply Qle_bool_iff. unfold Qminus, Qplus, Qopp, Qle. cbn [Qnum Qden]. rewrite !Pos2Z.inj_mul. nia.
    - apply Qle_bool_false. unfold Qminus, Qplus, Qopp, Qlt. cbn [Qnum Qden]. rewrite !Pos2Z.inj_mul. nia.
  Qed.
  Lemma sorted_filter (f : L * nat -> bool) l : StronglySorted more l -> StronglySorted more (filter f l).
  Proof.
    induction l as [|x l IH]; intro HS; [constructor|]. inversion HS as [|? ? HS' HF]; subst. cbn [filter]. destruct (f x); [|auto]. constructor; [auto|]. rewrite Forall_forall in *. intros y Hy. apply filter_In in Hy as [Hy _]. auto.
  Qed.
  Lemma sorted_app (a b : list (L * nat)) : StronglySorted more (a ++ b) -> StronglySorted more a /\ forall x y, In x a -> In y b -> more x y.
  Proof.
    induction a as [|x a IH]; intro HS; [split; [constructor|intros x y []]|]. inversion HS as [|? ? HS' HF]; subst. destruct (IH HS') as [I1 I2]. rewrite Forall_forall in HF. split.
    - constructor; [exact I1|]. apply Forall_forall. intros y Hy. apply HF, in_app_iff. auto.
    - intros y z [<-|Hy] Hz; [apply HF, in_app_iff; auto|auto].
  Qed.

  (** C38.  The label reported consists of at most three labels, best first, all within a fifth of the votes of the best one,
      which has at least 35 hundredths of the votes; otherwise the label cannot be determined. A label that is close enough
      is left out only if three others have at least as many votes. *)
  Theorem C38_label h c : wf h -> run h = Ok c -> rows_of h <> [] ->
    let rows := rows_of h in
    let has p l k := first_label <= p /\ dget mapping p = Some l /\ count rows p = k in
    (data_label mapping zero c = Some (Ok None) /\ (forall p l, first_label <= p -> dget mapping p = Some l -> 20 * count rows p < 7 * Nat.max 1 (voting rows))) \/
    (exists ls, data_label mapping zero c = Some (Ok (Some (map fst ls))) /\ ls <> [] /\ NoDup (map fst ls) /\ length ls <= 3 /\
       (forall l k, In (l, k) ls -> exists p, has p l k) /\ StronglySorted more ls /\
       (forall top, hd_error ls = Some top -> 7 * voting rows <= 20 * snd top /\ 0 < voting rows /\ (forall p l, first_label <= p -> dget mapping p = Some l -> count rows p <= snd top) /\
          (forall l k, In (l, k) ls -> 5 * snd top <= voting rows + 5 * k) /\
          (forall p l, first_label <= p -> dget mapping p = Some l -> 5 * snd top <= voting rows + 5 * count rows p -> ~ In l (map fst ls) ->
             length ls = 3 /\ forall l' k', In (l', k') ls -> count rows p <= k'))).
  Proof.
    cbv zeta. intros HW HR HN. destruct (C38_total h HW) as [HT _]. assert (merges_ok h) as HM by (apply HT; exists c; exact HR). destruct (run_good h HW HM) as (c' & HR' & G & _). rewrite HR in HR'. injection HR' as <-. pose proof G as (G1 & G2 & _).
    unfold data_label. rewrite G1, (total_voting c _ G). destruct (length (rows_of h)) as [|k0] eqn:EL; [destruct (rows_of h); [contradiction|discriminate]|]. set (rows := rows_of h) in *. set (v := votes_of mapping zero c) in *. destruct G2 as (V1 & V2 & V3).
    assert (forall l k, In (l, k) v -> exists p, first_label <= p /\ dget mapping p = Some l /\ count rows p = k) as Hin.
    { intros l k Hi. assert (In l (dkeys v)) as Hl by (change l with (fst (l, k)); apply in_map; exact Hi). apply V2 in Hl. apply in_label in Hl as (p & Hp & Hg). exists p. split; [lia|]. split; [exact Hg|]. pose proof (V3 p l ltac:(lia) Hg) as HX. rewrite (dget_In v l k V1 Hi) in HX. congruence. }
    assert (forall p l, first_label <= p -> dget mapping p = Some l -> In (l, count rows p) v) as Hout by (intros p l Hp Hg; apply dget_Some_In; apply V3; assumption).
    pose proof (sort_votes_perm v) as HPm. pose proof (sort_votes_sorted v) as HS. destruct (sort_votes v) as [|[l k] rest] eqn:ES.
    { exfalso. destruct (labels_at 0 n_pos) as (l & H1 & _). apply nth_error_In in H1. apply V2 in H1. apply in_map_iff in H1 as (x & _ & Hx). apply (Permutation_in _ (Permutation_sym HPm)) in Hx. destruct Hx. }
    change (firstn 3 ((l, k) :: rest)) with ((l, k) :: firstn 2 rest).
    assert (forall p l', first_label <= p -> dget mapping p = Some l' -> count rows p <= k) as Htop.
    { intros p l' Hp Hg. pose proof (Hout p l' Hp Hg) as Hi. apply (Permutation_in _ (Permutation_sym HPm)) in Hi. destruct Hi as [Hi|Hi]; [injection Hi as _ ->; lia|]. inversion HS as [|? ? _ HF]; subst. rewrite Forall_forall in HF. apply (HF _ Hi). }
    cbv beta iota; rewrite determined by lia. destruct (Nat.leb_spec (7 * Nat.max 1 (voting rows)) (20 * k)) as [HD|HD]; [|left; split; [reflexivity|]; intros p l' Hp Hg; specialize (Htop p l' Hp Hg); lia].
    right. assert (0 < voting rows) as Hv.
    { destruct (Hin l k) as (p & Hp & Hg & Hc); [apply (Permutation_in _ HPm); left; reflexivity|]. assert (count rows p <> 0) as Hk by lia. unfold voting. destruct (filter _ rows) eqn:EF; [|cbn; lia]. exfalso. apply Hk. unfold count. destruct (filter (fun r => votes_for r p) rows) as [|r rs] eqn:ER; [reflexivity|]. exfalso.
      assert (In r (filter (fun r => votes_for r p) rows)) as Hr by (rewrite ER; left; reflexivity). apply filter_In in Hr as [Hr1 Hr2]. assert (In r []) as HX; [|destruct HX]. rewrite <- EF. apply filter_In. split; [exact Hr1|]. apply existsb_exists. exists p. split; [|exact Hr2]. destruct (label_in p l Hp Hg) as [Hlt _]. apply in_seq. lia. }
    set (ls := filter (close k (voting rows)) ((l, k) :: firstn 2 rest)). exists ls. split; [reflexivity|].
    assert (ls = (l, k) :: filter (close k (voting rows)) (firstn 2 rest)) as Els. { unfold ls. cbn [filter]. rewrite close_nat by exact Hv. cbn [snd]. rewrite (proj2 (Nat.leb_le _ _)) by lia. reflexivity. }
    assert ((l, k) :: rest = ((l, k) :: firstn 2 rest) ++ skipn 2 rest) as Esplit by (cbn [app]; rewrite firstn_skipn; reflexivity).
    assert (NoDup (map fst ((l, k) :: rest))) as HND by (apply (Permutation_NoDup (Permutation_map fst (Permutation_sym HPm))); exact V1).
    assert (incl ls v) as Hincl. { intros x Hx. apply (Permutation_in _ HPm). rewrite Esplit. apply in_app_iff. left. unfold ls in Hx. apply filter_In in Hx as [Hx _]. exact Hx. }
    rewrite Esplit in HS. destruct (sorted_app _ _ HS) as [HS1 HS2].
    split; [rewrite Els; discriminate|]. split.
    { rewrite Esplit, map_app in HND. apply NoDup_app_l in HND. clear -HND. unfold ls. revert HND. generalize ((l, k) :: firstn 2 rest). intro a. induction a as [|x a IH]; intro H; [constructor|]. cbn [map] in H. inversion H as [|? ? Hx Ha]; subst. cbn [filter]. destruct (close k (voting rows) x); [|auto]. cbn [map]. constructor; [|auto].
      intro Hi. apply Hx. apply in_map_iff in Hi as (y & Ey & Hy). apply filter_In in Hy as [Hy _]. rewrite <- Ey. apply in_map. exact Hy. }
    assert (length ls <= length ((l, k) :: firstn 2 rest)) as Hlen. { unfold ls. generalize ((l, k) :: firstn 2 rest). clear. intro a. induction a as [|x a IH]; [reflexivity|]. cbn [filter]. destruct (close k (voting rows) x); cbn [length]; lia. }
    split; [rewrite Hlen; cbn [length]; rewrite firstn_length; lia|]. split; [intros l' k' Hi; apply Hin, Hincl, Hi|]. split; [apply sorted_filter; exact HS1|].
    intros top Ht. rewrite Els in Ht. cbn [hd_error] in Ht. injection Ht as <-. cbn [snd]. split; [lia|]. split; [exact Hv|]. split; [exact Htop|]. split.
    - intros l' k' Hi. unfold ls in Hi. apply filter_In in Hi as [_ Hc]. rewrite close_nat in Hc by exact Hv. apply Nat.leb_le in Hc. exact Hc.
    - intros p l' Hp Hg Hcl Hni. pose proof (Hout p l' Hp Hg) as Hi. apply (Permutation_in _ (Permutation_sym HPm)) in Hi. rewrite Esplit in Hi. apply in_app_iff in Hi.
      assert (close k (voting rows) (l', count rows p) = true) as Hc by (rewrite close_nat by exact Hv; apply Nat.leb_le; exact Hcl).
      destruct Hi as [Hi|Hi]; [exfalso; apply Hni; change l' with (fst (l', count rows p)); apply in_map; unfold ls; apply filter_In; split; [exact Hi|exact Hc]|].
      assert (forall x, In x ((l, k) :: firstn 2 rest) -> count rows p <= snd x) as HA by (intros x Hx; apply (HS2 x (l', count rows p) Hx Hi)).
      assert (ls = (l, k) :: firstn 2 rest) as Eall.
      { unfold ls. assert (forall x, In x ((l, k) :: firstn 2 rest) -> close k (voting rows) x = true) as HC by (intros x Hx; rewrite close_nat by exact Hv; apply Nat.leb_le; specialize (HA x Hx); lia). revert HC. generalize ((l, k) :: firstn 2 rest). clear. intro a. induction a as [|x a IH]; intro HC; [reflexivity|]. cbn [filter]. rewrite (HC x (or_introl eq_refl)). f_equal. apply IH. intros; apply HC; right; assumption. }
      split; [|intros l2 k2 Hi2; rewrite Eall in Hi2; apply (HA _ Hi2)]. rewrite Eall. cbn [length]. rewrite firstn_length. assert (length (skipn 2 rest) <> 0) as Hsk by (destruct (skipn 2 rest); [destruct Hi|discriminate]). rewrite skipn_length in Hsk. lia.
  Qed.
End Props.

(** ** Examples *)
Local Open Scope string_scope.
Local Open Scope list_scope.
(** The first largest number *)
Fixpoint argmax (row : list Q) : nat :=
  match row with
  | [] | [_] => 0
  | x :: r => let i := argmax r in if Qle_bool (nth i r 0%Q) x then 0 else S i
  end.
Lemma argmax_best : finds_best argmax.
Proof.
  intros row. induction row as [|x r IH]; [contradiction|]. intros _. destruct r as [|y r]; [cbn; split; [lia|intros [|[|i]] Hi; cbn in *; try lia; apply Qle_refl]|].
  destruct IH as [I1 I2]; [discriminate|]. cbn [argmax] in *. set (j := match r with [] => 0 | _ :: _ => _ end) in *. destruct (Qle_bool (nth j (y :: r) 0%Q) x) eqn:EB.
  - apply Qle_bool_iff in EB. split; [cbn [length]; lia|]. intros [|i] Hi; cbn [nth] in *; [apply Qle_refl|]. eapply Qle_trans; [apply I2; cbn [length] in *; lia|exact EB].
  - apply Qle_bool_false in EB. split; [cbn [length] in *; lia|]. intros [|i] Hi; cbn [nth] in *; [apply Qlt_le_weak; exact EB|]. apply I2. cbn [length] in *. lia.
Qed.

Definition eg_mapping : dict nat string := [(0, "PAD"); (2, "B"); (1, "A"); (3, "C")].
Definition eg_run (h : @hist string) := run eg_mapping true 4 argmax h.
Definition row (a b c : Q) : list Q := [0; a; b; c]%Q.
Definition in_order (l : list string) : list string := l.

Lemma eg_proper : proper eg_mapping true 4.
Proof.
  split; [repeat (constructor; [intro H; cbn in H; intuition discriminate|]); constructor|]. split; [repeat (constructor; [intro H; cbn in H; intuition discriminate|]); constructor|]. split; [cbn; lia|].
  intros i Hi. unfold first_label in Hi. cbn [dkeys map eg_mapping fst In]. lia.
Qed.

Example C38_example :
  let h := LAdd (LUpd (LUpd LNew [row (1#2) (1#4) (1#4); row (1#10) (8#10) (1#10)]) [row (1#10) (1#10) (2#10)]) (LUpd LNew [row (7#10) (2#10) (1#10); row (6#10) 0 (4#10)]) in_order in
  @wf string 4 h /\ merges_ok true 4 argmax h /\
  bind (eg_run h) (fun c => Ok (l_n c, votes_of eg_mapping true c, label_representation eg_mapping true c, data_label eg_mapping true c)) =
    Ok (5, [("A", 3); ("B", 1); ("C", 0)], Some (Ok [("A", 3#4); ("B", 1#4); ("C", 0#4)]%Q), Some (Ok (Some ["A"]))).
Proof.
  cbv zeta. split; [repeat split; try (intros r Hr; cbn in Hr; intuition (subst; reflexivity)); intro; apply Permutation_refl|]. split; [|vm_compute; reflexivity]. split; [exact I|]. split; [exact I|]. right. split; [left; right; vm_compute; lia|right; vm_compute; lia].
Qed.

(** Profiles of labelers with different labels: each label has the votes of both profiles, none being no vote. *)
Definition both_votes (x y : option nat) : option nat :=
  match x, y with Some a, Some b => Some (a + b) | Some a, None => Some a | None, y => y end.
Theorem C38_added {L} {E : EqDecB L} order (a b c : @lcol L) :
  (forall l, Permutation (order l) l) -> l_n a + l_n b > 0 -> add_labels order a b = Ok c ->
  l_n c = l_n a + l_n b /\
  exists va vb v, l_votes a = Some va /\ l_votes b = Some vb /\ l_votes c = Some v /\
    forall l, dget v l = both_votes (dget va l) (dget vb l).
Proof.
  intros HO Hn HA. unfold add_labels in HA. destruct ((l_n a =? 0) && (l_n b =? 0)) eqn:EZ.
  { apply andb_true_iff in EZ. destruct EZ as [E1 E2]. apply Nat.eqb_eq in E1, E2. lia. }
  destruct (l_votes a) as [va|], (l_votes b) as [vb|]; try discriminate. destruct (l_sums a) as [sa|], (l_sums b) as [sb|]; try discriminate.
  destruct (length sa =? length sb); [|discriminate]. injection HA as <-. cbn [l_n l_votes]. split; [reflexivity|].
  exists va, vb. eexists. split; [reflexivity|]. split; [reflexivity|]. split; [reflexivity|]. intro l. rewrite dget_map_key.
  destruct (lmem (order (distinct (dkeys va ++ dkeys vb))) l) eqn:EM.
  - apply lmem_In in EM. apply (Permutation_in _ (HO _)) in EM. apply distinct_In, in_app_or in EM.
    unfold get0. destruct (dget va l) as [x|] eqn:EX, (dget vb l) as [y|] eqn:EY; cbn [both_votes]; f_equal; try lia.
    apply dget_None in EX, EY. tauto.
  - apply lmem_false in EM. destruct (dget va l) as [x|] eqn:EX; [|destruct (dget vb l) as [y|] eqn:EY; [|reflexivity]].
    + exfalso. apply EM. apply (Permutation_in _ (Permutation_sym (HO _))). apply distinct_In, in_or_app. left. apply dget_Some_In in EX. apply (in_map fst) in EX. exact EX.
    + exfalso. apply EM. apply (Permutation_in _ (Permutation_sym (HO _))). apply distinct_In, in_or_app. right. apply dget_Some_In in EY. apply (in_map fst) in EY. exact EY.
Qed.
Print Assumptions C38_added.
Example C38_added_example : option_map (@l_votes string) match add_labels (fun l => l) (mkLabels (Some [("A", 2); ("B", 1)]) (Some [2; 1]%Q) 3) (mkLabels (Some [("B", 4); ("C", 0)]) (Some [3; 1]%Q) 4) with Ok c => Some c | Err _ => None end = Some (Some [("A", 2); ("B", 5); ("C", 0)]).
Proof. reflexivity. Qed.


(** Merging a column that has data with one that has none is an error: *)
Theorem C38_merge_refuted : exists rows : list (list Q), rows <> [] /\
  eg_run (LAdd (LUpd LNew rows) LNew in_order) = Err TypeError /\ eg_run (LAdd LNew (LUpd LNew rows) in_order) = Err TypeError.
Proof. exists [row 1 0 0]. split; [discriminate|]. split; reflexivity. Qed.

(** Profiles that both have data can be merged: not if no cell of one of them was labelled with confidence; reading a
    report of it makes the difference. *)
Theorem C38_no_votes_refuted : exists rows rows' : list (list Q), rows <> [] /\ rows' <> [] /\
  eg_run (LAdd (LUpd LNew rows) (LUpd LNew rows') in_order) = Err TypeError /\
  exists c, eg_run (LAdd (LUpd LNew rows) (LSee (LUpd LNew rows')) in_order) = Ok c /\ l_n c = length rows + length rows'.
Proof. exists [row 1 0 0], [row (1#10) (1#10) (2#10)]. split; [discriminate|]. split; [discriminate|]. split; [reflexivity|]. eexists. split; reflexivity. Qed.

(** The label of a merged profile depends on the order of a set: of labels with as many votes, the first ones are reported. *)
Theorem C38_order_refuted : exists (a b : list (list Q)) (order1 order2 : list string -> list string),
  (forall l, Permutation (order1 l) l) /\ (forall l, Permutation (order2 l) l) /\
  bind (eg_run (LAdd (LUpd LNew a) (LUpd LNew b) order1)) (fun c => Ok (data_label eg_mapping true c)) = Ok (Some (Ok (Some ["A"; "B"]))) /\
  bind (eg_run (LAdd (LUpd LNew a) (LUpd LNew b) order2)) (fun c => Ok (data_label eg_mapping true c)) = Ok (Some (Ok (Some ["B"; "A"]))).
Proof.
  exists [row 1 0 0], [row 0 1 0], in_order, (@rev string). split; [intro; apply Permutation_refl|]. split; [intro; symmetry; apply Permutation_rev|]. split; reflexivity.
Qed.

(** If a position below the number of labels has no label, average confidences are listed for the wrong labels, and a vote for
    the position is an error: *)
Theorem C38_gap_refuted : exists mapping : dict nat string, dget mapping 2 = None /\ dget mapping 3 = Some "B" /\
  bind (run mapping true 4 argmax (LUpd LNew [row (8#10) (15#100) (5#100)])) (fun c => Ok (avg_predictions mapping true 4 c)) =
    Ok (Some [("A", (0 + (8#10)) / 1); ("B", (0 + (15#100)) / 1)]%Q) /\
  run mapping true 4 argmax (LUpd LNew [row (1#10) (8#10) (1#10)]) = Err KeyError.
Proof. exists [(0, "PAD"); (1, "A"); (3, "B")]. repeat split; reflexivity. Qed.

(** In double precision a label whose share is exactly a fifth below the best one is sometimes reported and sometimes not: *)
Theorem C38_rounding_refuted : exists top k n top' k' n', 5 * top = n + 5 * k /\ 5 * top' = n' + 5 * k' /\
  close_float top n k = true /\ close_float top' n' k' = false.
Proof. exists 6, 4, 10, 11, 7, 20. repeat split; reflexivity. Qed.
