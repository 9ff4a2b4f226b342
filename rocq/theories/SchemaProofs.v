(** Lemmas about matching columns by name. *)
From Verif Require Import PyCommon PyDict ListFacts SchemaModel.

(** * Specification vocabulary, on lists of (lower-case) names *)

Section Spec.
  Context {K : Type} {EK : EqDecB K}.

  (** Each name occurs equally often in both; names occurring more than once occur at the same
      positions. *)
  Definition compat (l1 l2 : list K) : Prop :=
    forall k, occ k l1 = occ k l2 /\
      (1 < occ k l1 -> forall i, nth_error l1 i = Some k <-> nth_error l2 i = Some k).

  (** Position [i] of the first and [j] of the second list carry the same name, and are equal if
      this name is not unique. *)
  Definition pairs (l1 l2 : list K) (i j : nat) : Prop :=
    exists k, nth_error l1 i = Some k /\ nth_error l2 j = Some k /\ (1 < occ k l1 -> i = j).

  Lemma compat_refl l : compat l l.
  Proof. intro k. split; [reflexivity|]. intros _ i. tauto. Qed.

  Lemma compat_sym l1 l2 : compat l1 l2 -> compat l2 l1.
  Proof.
    intros H k. destruct (H k) as [E S]. split; [auto|]. intros Hk i. symmetry. apply S. lia.
  Qed.

  Lemma compat_trans l1 l2 l3 : compat l1 l2 -> compat l2 l3 -> compat l1 l3.
  Proof.
    intros H1 H2 k. destruct (H1 k) as [E1 S1]. destruct (H2 k) as [E2 S2]. split; [congruence|].
    intros Hk i. rewrite S1 by exact Hk. apply S2. lia.
  Qed.

  Lemma pairs_sym l1 l2 i j : compat l1 l2 -> pairs l1 l2 i j -> pairs l2 l1 j i.
  Proof.
    intros C [k [H1 [H2 H3]]]. exists k. split; [exact H2|]. split; [exact H1|].
    destruct (C k) as [E _]. intro Hk. symmetry. apply H3. lia.
  Qed.

  Lemma pairs_trans l1 l2 l3 i j x : compat l1 l2 -> pairs l1 l2 i j -> pairs l2 l3 j x -> pairs l1 l3 i x.
  Proof.
    intros C [k [H1 [H2 H3]]] [k' [G1 [G2 G3]]]. rewrite H2 in G1. injection G1 as <-.
    exists k. split; [exact H1|]. split; [exact G2|]. destruct (C k) as [E _]. intro Hk.
    rewrite (H3 Hk). apply G3. lia.
  Qed.

  Lemma occ_one_unique k (l : list K) i j :
    occ k l <= 1 -> nth_error l i = Some k -> nth_error l j = Some k -> i = j.
  Proof.
    revert i j. induction l as [|x l IH]; intros i j Ho Hi Hj; [destruct i; discriminate|].
    cbn in Ho. destruct i as [|i], j as [|j]; cbn in Hi, Hj.
    - reflexivity.
    - injection Hi as ->. rewrite eqb_refl in Ho. apply nth_error_In in Hj. apply occ_pos in Hj. lia.
    - injection Hj as ->. rewrite eqb_refl in Ho. apply nth_error_In in Hi. apply occ_pos in Hi. lia.
    - f_equal. apply IH; [|assumption..]. destruct (eqb x k); lia.
  Qed.

  Lemma pairs_exists l1 l2 i k : compat l1 l2 -> nth_error l1 i = Some k -> exists j, pairs l1 l2 i j.
  Proof.
    intros C H. destruct (C k) as [E S].
    destruct (le_lt_dec (occ k l1) 1) as [L|L].
    - assert (P : In k l2) by (apply occ_pos; rewrite <- E; apply occ_pos; eapply nth_error_In; exact H).
      apply In_nth_error in P. destruct P as [j P]. exists j, k. split; [exact H|]. split; [exact P|]. lia.
    - exists i, k. split; [exact H|]. split; [apply S; assumption|]. auto.
  Qed.

  Lemma pairs_fun l1 l2 i j j' : compat l1 l2 -> pairs l1 l2 i j -> pairs l1 l2 i j' -> j = j'.
  Proof.
    intros C [k [H1 [H2 H3]]] [k' [G1 [G2 G3]]]. rewrite H1 in G1. injection G1 as <-.
    destruct (le_lt_dec (occ k l1) 1) as [L|L].
    - destruct (C k) as [E _]. apply (occ_one_unique k l2); [lia|assumption..].
    - rewrite <- (H3 L). apply G3. exact L.
  Qed.

  Lemma pairs_inj l1 l2 i i' j : compat l1 l2 -> pairs l1 l2 i j -> pairs l1 l2 i' j -> i = i'.
  Proof.
    intros C H G. apply (pairs_fun l2 l1 j); [apply compat_sym; exact C| |]; apply pairs_sym; assumption.
  Qed.

  Lemma compat_length l1 l2 : compat l1 l2 -> length l1 = length l2.
  Proof.
    assert (H : forall n (l1 l2 : list K), length l1 <= n -> (forall k, occ k l1 = occ k l2) -> length l1 = length l2).
    { clear l1 l2. induction n as [|n IH]; intros l1 l2 L C.
      - destruct l1; [|cbn in L; lia]. destruct l2 as [|x l2]; [reflexivity|].
        specialize (C x). cbn in C. rewrite eqb_refl in C. discriminate.
      - destruct l1 as [|x l1].
        + destruct l2 as [|y l2]; [reflexivity|]. specialize (C y). cbn in C. rewrite eqb_refl in C. discriminate.
        + assert (P : In x l2) by (apply occ_pos; rewrite <- C; cbn; rewrite eqb_refl; lia).
          apply in_split in P. destruct P as [a [b ->]]. rewrite app_length. cbn [length].
          rewrite (IH l1 (a ++ b)); [rewrite app_length; lia|cbn in L; lia|].
          intro k. specialize (C k). cbn in C. rewrite !occ_app in *. cbn in C. lia. }
    intro C. apply (H (length l1)); [lia|]. intro k. apply C.
  Qed.
End Spec.

Section Schema.
  Context {K A : Type} {EK : EqDecB K}.
  Variable lower : K -> K.
  Hypothesis lower_idem : forall k, lower (lower k) = lower k.

  Notation low := (map lower).

  Fixpoint pos_from (i : nat) (k : K) (l : list K) : list nat :=
    match l with
    | [] => []
    | x :: r => if eqb x k then i :: pos_from (S i) k r else pos_from (S i) k r
    end.

  Lemma pos_from_In : forall l i k j, In j (pos_from i k l) <-> i <= j /\ nth_error l (j - i) = Some k.
  Proof.
    induction l as [|x l IH]; intros i k j; cbn [pos_from].
    - split; [intros []|]. intros [_ H]. destruct (j - i); discriminate.
    - assert (R : In j (pos_from (S i) k l) <-> S i <= j /\ nth_error (x :: l) (j - i) = Some k).
      { rewrite IH. split; intros [H1 H2]; split; try lia;
          replace (j - i) with (S (j - S i)) in * by lia; exact H2. }
      destruct (eqb_spec x k) as [->|N].
      + cbn [In]. rewrite R. split.
        * intros [->|[H1 H2]]; [rewrite Nat.sub_diag; auto|split; [lia|exact H2]].
        * intros [H1 H2]. destruct (Nat.eq_dec i j) as [->|D]; [auto|right; split; [lia|exact H2]].
      + rewrite R. split; intros [H1 H2]; split; try lia; try exact H2.
        destruct (Nat.eq_dec i j) as [->|D]; [|lia]. rewrite Nat.sub_diag in H2. cbn in H2. congruence.
  Qed.

  Lemma pos_In l k j : In j (pos_from 0 k l) <-> nth_error l j = Some k.
  Proof. rewrite pos_from_In, Nat.sub_0_r. intuition lia. Qed.

  Lemma pos_from_length : forall l i k, length (pos_from i k l) = occ k l.
  Proof.
    induction l as [|x l IH]; intros i k; cbn; [reflexivity|]. destruct (eqb x k); cbn; rewrite IH; reflexivity.
  Qed.

  Lemma pos_from_nil l i k : (forall j, nth_error l j <> Some k) -> pos_from i k l = [].
  Proof.
    intro H. destruct (pos_from i k l) as [|x r] eqn:E; [reflexivity|]. exfalso.
    assert (In x (pos_from i k l)) as P by (rewrite E; cbn; auto). apply pos_from_In in P. apply (H (x - i)). tauto.
  Qed.

  Lemma pos_from_ext : forall l1 l2 i k, (forall j, nth_error l1 j = Some k <-> nth_error l2 j = Some k) ->
    pos_from i k l1 = pos_from i k l2.
  Proof.
    induction l1 as [|x l1 IH]; intros l2 i k H.
    - symmetry. apply pos_from_nil. intros j G. apply H in G. destruct j; discriminate.
    - destruct l2 as [|y l2].
      + apply pos_from_nil. intros j G. apply H in G. destruct j; discriminate.
      + cbn. rewrite (IH l2 (S i) k) by (intro j; apply (H (S j))).
        specialize (H 0). cbn in H. destruct (eqb_spec x k), (eqb_spec y k); try reflexivity; exfalso.
        * subst. destruct H as [H _]. specialize (H eq_refl). congruence.
        * subst. destruct H as [_ H]. specialize (H eq_refl). congruence.
  Qed.

  Lemma build_get : forall cols i (d : schema K) k,
    dget (build_from lower i cols d) k =
      match dget d k, pos_from i k (low cols) with
      | None, [] => None
      | None, ps => Some ps
      | Some l, ps => Some (l ++ ps)
      end.
  Proof.
    induction cols as [|c cols IH]; intros i d k; cbn [build_from map pos_from].
    - destruct (dget d k); [rewrite app_nil_r|]; reflexivity.
    - rewrite IH. unfold dappend. rewrite dget_dset. destruct (eqb_spec (lower c) k) as [->|N].
      + destruct (dget d k); [rewrite <- app_assoc|]; reflexivity.
      + reflexivity.
  Qed.

  Lemma build_keys_NoDup : forall cols i (d : schema K), NoDup (dkeys d) -> NoDup (dkeys (build_from lower i cols d)).
  Proof.
    induction cols as [|c cols IH]; intros i d H; cbn; [exact H|]. apply IH. apply NoDup_dset. exact H.
  Qed.

  Lemma build_keys : forall cols i (d : schema K) k,
    In k (dkeys (build_from lower i cols d)) <-> In k (dkeys d) \/ In k (low cols).
  Proof.
    induction cols as [|c cols IH]; intros i d k; cbn [build_from map]; [cbn; tauto|].
    rewrite IH. unfold dappend. rewrite In_dkeys_dset. cbn [In]. intuition.
  Qed.

  Lemma schema_get cols k : In k (low cols) -> dget (build_schema lower cols) k = Some (pos_from 0 k (low cols)).
  Proof.
    intro H. unfold build_schema. rewrite build_get. cbn [dget].
    destruct (pos_from 0 k (low cols)) eqn:E; [|reflexivity]. exfalso.
    apply occ_pos in H. rewrite <- (pos_from_length _ 0), E in H. cbn in H. lia.
  Qed.

  Lemma schema_get_none cols k : ~ In k (low cols) -> dget (build_schema lower cols) k = None.
  Proof.
    intro H. apply dget_None. unfold build_schema. rewrite build_keys. cbn. tauto.
  Qed.

  Lemma schema_keys cols k : In k (dkeys (build_schema lower cols)) <-> In k (low cols).
  Proof. unfold build_schema. rewrite build_keys. cbn. tauto. Qed.

  Lemma schema_keys_NoDup cols : NoDup (dkeys (build_schema lower cols)).
  Proof. apply build_keys_NoDup. constructor. Qed.

  Lemma schema_empty cols : length (build_schema lower cols) = 0 <-> cols = [].
  Proof.
    split.
    - intro H. destruct cols as [|c cols]; [reflexivity|]. exfalso.
      assert (P : In (lower c) (dkeys (build_schema lower (c :: cols)))) by (apply schema_keys; cbn; auto).
      apply length_zero_iff_nil in H. rewrite H in P. destruct P.
    - intros ->. reflexivity.
  Qed.

  (** ** zip_loop *)

  Lemma zip_dup_same : forall p m, NoDup p ->
    exists m', zip_loop true p p m = Ok m' /\
      forall i, dget m' i = if lmem p i then Some i else dget m i.
  Proof.
    induction p as [|x p IH]; intros m Hn; cbn [zip_loop].
    - exists m. split; [reflexivity|]. intro i. reflexivity.
    - inversion Hn as [|? ? Hx Hp]; subst. rewrite Nat.eqb_refl. cbn [negb andb].
      destruct (IH (dset m x x) Hp) as [m' [E G]]. exists m'. split; [exact E|]. intro i. rewrite G, dget_dset.
      unfold lmem. cbn [existsb]. change (existsb (eqb i) p) with (lmem p i). cbn [eqb EqDecB_nat].
      rewrite (Nat.eqb_sym x i). destruct (Nat.eqb_spec i x) as [->|N]; cbn [orb].
      + destruct (lmem p x); reflexivity.
      + reflexivity.
  Qed.

  Lemma zip_dup_ok_same : forall p q m m', length p = length q -> zip_loop true p q m = Ok m' -> p = q.
  Proof.
    induction p as [|x p IH]; intros [|y q] m m' L H; try discriminate; [reflexivity|].
    cbn [zip_loop] in H. destruct (Nat.eqb_spec x y) as [->|N]; [|discriminate].
    cbn [negb andb] in H. f_equal. apply (IH q (dset m y y) m'); [cbn in L; lia|exact H].
  Qed.

  Definition ck (l1 l2 : list K) (k : K) : Prop :=
    occ k l1 = occ k l2 /\ (1 < occ k l1 -> forall i, nth_error l1 i = Some k <-> nth_error l2 i = Some k).

  Definition pairk (l1 l2 : list K) (k : K) (i j : nat) : Prop :=
    nth_error l1 i = Some k /\ nth_error l2 j = Some k /\ (1 < occ k l1 -> i = j).

  Lemma pos_NoDup l k : forall i, NoDup (pos_from i k l).
  Proof.
    induction l as [|x l IH]; intro i; cbn; [constructor|]. destruct (eqb x k); [|apply IH].
    constructor; [|apply IH]. intro H. apply pos_from_In in H. lia.
  Qed.

  Lemma zip_ok l1 l2 k m : In k l1 -> ck l1 l2 k ->
    exists m', zip_loop (1 <? length (pos_from 0 k l1)) (pos_from 0 k l1) (pos_from 0 k l2) m = Ok m' /\
      forall i j, dget m' i = Some j <->
        pairk l1 l2 k i j \/ (nth_error l1 i <> Some k /\ dget m i = Some j).
  Proof.
    intros Hk [E S]. rewrite pos_from_length.
    destruct (Nat.ltb_spec 1 (occ k l1)) as [L|L].
    - specialize (S L). rewrite <- (pos_from_ext l1 l2 0 k S).
      destruct (zip_dup_same (pos_from 0 k l1) m (pos_NoDup _ _ _)) as [m' [Em G]].
      exists m'. split; [exact Em|]. intros i j. rewrite G.
      destruct (lmem (pos_from 0 k l1) i) eqn:Ei.
      + apply lmem_In in Ei. apply pos_In in Ei. split.
        * intro H. injection H as <-. left. split; [exact Ei|]. split; [apply S; exact Ei|auto].
        * intros [[_ [_ H]]|[H _]]; [rewrite (H L); reflexivity|contradiction].
      + apply lmem_false in Ei. rewrite pos_In in Ei. split.
        * intro H. auto.
        * intros [[H _]|[_ H]]; [contradiction|exact H].
    - assert (O1 : occ k l1 = 1) by (apply occ_pos in Hk; lia).
      pose proof (pos_from_length l1 0 k) as L1. pose proof (pos_from_length l2 0 k) as L2.
      rewrite O1 in L1. rewrite <- E, O1 in L2.
      destruct (pos_from 0 k l1) as [|a [|]] eqn:P1; try discriminate.
      destruct (pos_from 0 k l2) as [|b [|]] eqn:P2; try discriminate.
      cbn [zip_loop andb]. exists (dset m a b). split; [reflexivity|]. intros i j. rewrite dget_dset.
      cbn [eqb EqDecB_nat].
      assert (H1 : forall x, nth_error l1 x = Some k <-> x = a).
      { intro x. rewrite <- pos_In, P1. cbn. intuition. }
      assert (H2 : forall x, nth_error l2 x = Some k <-> x = b).
      { intro x. rewrite <- pos_In, P2. cbn. intuition. }
      destruct (Nat.eqb_spec a i) as [->|N].
      + split.
        * intro H. injection H as <-. left. split; [apply H1; reflexivity|]. split; [apply H2; reflexivity|lia].
        * intros [[_ [H _]]|[H _]]; [apply H2 in H; congruence|exfalso; apply H; apply H1; reflexivity].
      + split.
        * intro H. right. split; [|exact H]. intro G. apply H1 in G. congruence.
        * intros [[H _]|[_ H]]; [apply H1 in H; congruence|exact H].
  Qed.

  Lemma zip_ok_ck l1 l2 k m m' : occ k l1 = occ k l2 ->
    zip_loop (1 <? length (pos_from 0 k l1)) (pos_from 0 k l1) (pos_from 0 k l2) m = Ok m' -> ck l1 l2 k.
  Proof.
    intros E H. split; [exact E|]. intro L. rewrite pos_from_length in H.
    apply Nat.ltb_lt in L. rewrite L in H. apply zip_dup_ok_same in H; [|rewrite !pos_from_length; exact E].
    intro i. rewrite <- !pos_In, H. tauto.
  Qed.

  (** ** key_loop *)

  Section Keys.
    Variables cols1 cols2 : list K.
    Notation l1 := (low cols1).
    Notation l2 := (low cols2).
    Notation s1 := (build_schema lower cols1).
    Notation s2 := (build_schema lower cols2).

    Lemma low_fix cols k : In k (low cols) -> lower k = k.
    Proof. intro H. apply in_map_iff in H. destruct H as [x [<- _]]. apply lower_idem. Qed.

    Lemma key_loop_ok : forall keys m, (forall k, In k keys -> In k l1) -> (forall k, In k keys -> ck l1 l2 k) ->
      exists m', key_loop lower keys s1 s2 m = Ok m' /\
        forall i j, dget m' i = Some j <->
          (exists k, In k keys /\ pairk l1 l2 k i j) \/
          ((forall k, In k keys -> nth_error l1 i <> Some k) /\ dget m i = Some j).
    Proof.
      induction keys as [|k keys IH]; intros m Hin Hck; cbn [key_loop].
      - exists m. split; [reflexivity|]. intros i j. split; [|intros [[k [[] _]]|[_ H]]; exact H].
        intro H. right. split; [|exact H]. intros ? [].
      - assert (Hk : In k l1) by (apply Hin; cbn; auto). pose proof (Hck k (or_introl eq_refl)) as Ck.
        rewrite (low_fix _ _ Hk).
        assert (Hk2 : In k l2) by (apply occ_pos; rewrite <- (proj1 Ck); apply occ_pos; exact Hk).
        rewrite (schema_get _ _ Hk2), (schema_get _ _ Hk). rewrite !pos_from_length.
        assert (Eo : occ k l1 =? occ k l2 = true) by (apply Nat.eqb_eq; apply Ck). rewrite Eo. cbn [negb].
        destruct (zip_ok l1 l2 k m Hk Ck) as [m1 [E1 G1]]. rewrite pos_from_length in E1. rewrite E1. cbn [bind].
        destruct (IH m1) as [m' [E' G']].
        { intros x Hx. apply Hin. cbn. auto. }
        { intros x Hx. apply Hck. cbn. auto. }
        exists m'. split; [exact E'|]. intros i j. rewrite G', G1. split.
        + intros [[x [Hx P]]|[Hn [P|[Hn' D]]]].
          * left. exists x. cbn. auto.
          * left. exists k. cbn. auto.
          * right. split; [|exact D]. intros x [<-|Hx]; auto.
        + intros [[x [[<-|Hx] P]]|[Hn D]].
          * destruct (in_dec (fun x y => match eqb_spec x y with ReflectT _ e => left e | ReflectF _ e => right e end) k keys) as [I|I].
            -- left. exists k. auto.
            -- right. split; [|auto]. intros x Hx Q. destruct P as [P _]. rewrite P in Q. injection Q as <-. contradiction.
          * left. exists x. auto.
          * right. split; [intros x Hx; apply Hn; cbn; auto|]. right. split; [apply Hn; cbn; auto|exact D].
    Qed.

    Lemma key_loop_ck : forall keys m m', (forall k, In k keys -> In k l1) ->
      key_loop lower keys s1 s2 m = Ok m' -> forall k, In k keys -> ck l1 l2 k.
    Proof.
      induction keys as [|k keys IH]; intros m m' Hin H x Hx; [destruct Hx|]. cbn [key_loop] in H.
      assert (Hk : In k l1) by (apply Hin; cbn; auto). rewrite (low_fix _ _ Hk) in H.
      destruct (in_dec (fun x y => match eqb_spec x y with ReflectT _ e => left e | ReflectF _ e => right e end) k l2) as [Hk2|Hk2].
      - rewrite (schema_get _ _ Hk2), (schema_get _ _ Hk) in H.
        destruct (Nat.eqb_spec (length (pos_from 0 k l1)) (length (pos_from 0 k l2))) as [E|E]; [|discriminate].
        cbn [negb] in H.
        destruct (zip_loop (1 <? length (pos_from 0 k l1)) (pos_from 0 k l1) (pos_from 0 k l2) m) as [m1|] eqn:Z; [|discriminate].
        cbn [bind] in H. destruct Hx as [<-|Hx].
        + rewrite !pos_from_length in E. eapply zip_ok_ck; eassumption.
        + eapply IH; try eassumption. intros y Hy. apply Hin. cbn. auto.
      - rewrite (schema_get_none _ _ Hk2) in H. discriminate.
    Qed.

    Lemma key_loop_err : forall keys m e, key_loop lower keys s1 s2 m = Err e -> e = ValueError.
    Proof.
      assert (Z : forall dup p q m e, zip_loop dup p q m = Err e -> e = ValueError).
      { intros dup. induction p as [|x p IH]; intros [|y q] m e; cbn; try discriminate.
        destruct (dup && negb (x =? y)); [congruence|apply IH]. }
      induction keys as [|k keys IH]; intros m e H; cbn [key_loop] in H; [discriminate|].
      destruct (dget s2 (lower k)); [|congruence].
      destruct (negb _); [congruence|]. destruct (zip_loop _ _ _ m) eqn:Ez; cbn [bind] in H.
      - eapply IH; exact H.
      - injection H as <-. eapply Z; exact Ez.
    Qed.

    Lemma schema_lengths : compat l1 l2 -> length s1 = length s2.
    Proof.
      intro C. rewrite <- (map_length fst s1), <- (map_length fst s2). apply Nat.le_antisymm.
      - apply NoDup_incl_length; [apply schema_keys_NoDup|]. intros k Hk. apply schema_keys in Hk. apply schema_keys.
        apply occ_pos. rewrite <- (proj1 (C k)). apply occ_pos. exact Hk.
      - apply NoDup_incl_length; [apply schema_keys_NoDup|]. intros k Hk. apply schema_keys in Hk. apply schema_keys.
        apply occ_pos. rewrite (proj1 (C k)). apply occ_pos. exact Hk.
    Qed.

    (** Both schemas non-empty: success iff compatible; then the mapping is the pairing. *)
    Lemma mapping_ok strict : cols1 <> [] -> cols2 <> [] -> compat l1 l2 ->
      exists m, get_mapping lower s1 s2 strict = Ok m /\ forall i j, dget m i = Some j <-> pairs l1 l2 i j.
    Proof.
      intros N1 N2 C. unfold get_mapping.
      assert (Z1 : length s1 <> 0) by (intro Z; apply schema_empty in Z; contradiction).
      assert (Z2 : length s2 <> 0) by (intro Z; apply schema_empty in Z; contradiction).
      assert (El : length s1 =? length s2 = true) by (apply Nat.eqb_eq; apply schema_lengths; exact C).
      rewrite El. cbn [negb]. rewrite andb_false_r. cbn [andb].
      apply Nat.eqb_neq in Z1, Z2. rewrite Z1, Z2. cbn [orb]. rewrite !andb_false_r.
      destruct (key_loop_ok (dkeys s1) []) as [m [E G]].
      { intros k Hk. apply schema_keys. exact Hk. }
      { intros k Hk. exact (C k). }
      exists m. split; [exact E|]. intros i j. rewrite G. cbn [dget]. split.
      - intros [[k [_ P]]|[_ H]]; [exists k; exact P|discriminate].
      - intros [k P]. left. exists k. split; [|exact P]. apply schema_keys. destruct P as [P _].
        eapply nth_error_In. exact P.
    Qed.

    Lemma mapping_compat strict m : cols1 <> [] -> cols2 <> [] ->
      get_mapping lower s1 s2 strict = Ok m -> compat l1 l2.
    Proof.
      intros N1 N2 H. unfold get_mapping in H.
      assert (Z1 : length s1 <> 0) by (intro Z; apply schema_empty in Z; contradiction).
      assert (Z2 : length s2 <> 0) by (intro Z; apply schema_empty in Z; contradiction).
      assert (L : length s1 = length s2).
      { destruct (Nat.eqb_spec (length s1) (length s2)) as [E|E]; [exact E|].
        assert (P1 : 0 <? length s1 = true) by (apply Nat.ltb_lt; lia).
        assert (P2 : 0 <? length s2 = true) by (apply Nat.ltb_lt; lia).
        rewrite P1, P2 in H. discriminate. }
      rewrite L, Nat.eqb_refl in H. cbn [negb] in H. rewrite andb_false_r in H. cbn [andb] in H.
      apply Nat.eqb_neq in Z2. rewrite Z2 in H. cbn [orb] in H. rewrite !andb_false_r in H.
      pose proof (key_loop_ck _ _ _ (fun k Hk => proj1 (schema_keys cols1 k) Hk) H) as CK.
      assert (Sub : forall k, In k l2 -> In k l1).
      { assert (I : incl (dkeys s2) (dkeys s1)).
        { apply NoDup_length_incl; [apply schema_keys_NoDup| |].
          - unfold dkeys. rewrite !map_length. lia.
          - intros k Hk. destruct (CK k Hk) as [E _]. apply schema_keys. apply schema_keys in Hk.
            apply occ_pos. rewrite <- E. apply occ_pos. exact Hk. }
        intros k Hk. apply schema_keys. apply I. apply schema_keys. exact Hk. }
      intro k. destruct (in_dec (fun x y => match eqb_spec x y with ReflectT _ e => left e | ReflectF _ e => right e end) k l1) as [I|I].
      - apply CK. apply schema_keys. exact I.
      - assert (O1 : occ k l1 = 0) by (apply occ_zero; exact I).
        assert (O2 : occ k l2 = 0) by (apply occ_zero; auto). split; [congruence|]. lia.
    Qed.

    Lemma mapping_err strict e : get_mapping lower s1 s2 strict = Err e -> e = ValueError.
    Proof.
      unfold get_mapping. destruct (_ && _ && _); [congruence|]. destruct (strict && _); [congruence|].
      destruct (negb strict && _); [discriminate|]. apply key_loop_err.
    Qed.
  End Keys.

  Lemma mapping_strict_empty cols1 cols2 : cols1 = [] \/ cols2 = [] ->
    get_mapping lower (build_schema lower cols1) (build_schema lower cols2) true = Err ValueError.
  Proof.
    intro H. unfold get_mapping. destruct (_ && _ && _); [reflexivity|].
    destruct H as [-> | ->]; cbn [build_schema build_from length Nat.eqb]; rewrite ?orb_true_r; reflexivity.
  Qed.

  (** Positions of a schema built from names, as the identity map. *)
  Lemma concat_vals_In (d : schema K) i : In i (concat (dvals d)) <-> exists k l, In (k, l) d /\ In i l.
  Proof.
    unfold dvals. rewrite in_concat. split.
    - intros [l [Hl Hi]]. apply in_map_iff in Hl. destruct Hl as [[k l'] [<- Hp]]. eauto.
    - intros [k [l [Hp Hi]]]. exists l. split; [|exact Hi]. apply in_map_iff. exists (k, l). auto.
  Qed.

  Lemma dget_idmap (l : list nat) i : dget (map (fun i => (i, i)) l) i = if lmem l i then Some i else None.
  Proof.
    induction l as [|x l IH]; [reflexivity|]. cbn [map dget]. unfold lmem. cbn [existsb].
    cbn [eqb EqDecB_nat]. rewrite (Nat.eqb_sym i x). destruct (Nat.eqb_spec x i) as [->|N]; [reflexivity|]. exact IH.
  Qed.

  Lemma mapping_fresh cols i j :
    get_mapping lower (build_schema lower cols) [] false = Ok (map (fun i => (i, i)) (concat (dvals (build_schema lower cols)))) /\
    (dget (map (fun i => (i, i)) (concat (dvals (build_schema lower cols)))) i = Some j <-> i = j /\ i < length cols).
  Proof.
    split.
    - unfold get_mapping. cbn [length Nat.eqb Nat.ltb Nat.leb]. rewrite andb_false_r. reflexivity.
    - rewrite dget_idmap.
      assert (Q : In i (concat (dvals (build_schema lower cols))) <-> i < length cols).
      { rewrite concat_vals_In. split.
        - intros [k [l [Hp Hi]]]. apply dget_In in Hp; [|apply schema_keys_NoDup].
          destruct (in_dec (fun x y => match eqb_spec x y with ReflectT _ e => left e | ReflectF _ e => right e end) k (low cols)) as [I|I].
          + rewrite (schema_get _ _ I) in Hp. injection Hp as <-. apply pos_In in Hi.
            rewrite <- (map_length lower). apply nth_error_Some. congruence.
          + rewrite (schema_get_none _ _ I) in Hp. discriminate.
        - intro L. rewrite <- (map_length lower) in L. apply nth_error_Some in L.
          destruct (nth_error (low cols) i) as [k|] eqn:E; [|congruence].
          assert (I : In k (low cols)) by (eapply nth_error_In; exact E).
          exists k, (pos_from 0 k (low cols)). split; [|apply pos_In; exact E].
          apply dget_Some_In. apply schema_get. exact I. }
      destruct (lmem (concat (dvals (build_schema lower cols))) i) eqn:E.
      + apply lmem_In in E. apply Q in E. split; [intro H; injection H as <-; auto|intros [<- _]; reflexivity].
      + apply lmem_false in E. split; [discriminate|]. intros [_ L]. exfalso. apply E. apply Q. exact L.
  Qed.

  Lemma pairs_self (cols : list K) i j : pairs (low cols) (low cols) i j <-> i = j /\ i < length cols.
  Proof.
    split.
    - intro P. assert (i = j).
      { destruct P as [k [H1 [H2 H3]]]. destruct (le_lt_dec (occ k (low cols)) 1) as [L|L]; [|auto].
        eapply occ_one_unique; eassumption. }
      split; [assumption|]. destruct P as [k [H1 _]]. rewrite <- (map_length lower). apply nth_error_Some. congruence.
    - intros [<- L]. rewrite <- (map_length lower) in L. apply nth_error_Some in L.
      destruct (nth_error (low cols) i) as [k|] eqn:E; [|congruence]. exists k. auto.
  Qed.
End Schema.
