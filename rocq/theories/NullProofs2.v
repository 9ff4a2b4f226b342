(** Null row positions over histories of batches and merges. *)
From Coq Require Import QArith Permutation.
From Verif Require Import PyCommon PyDict ListFacts NullModel NullProofs.
Local Open Scope nat_scope.

Section Null.
  Context {C : Type} {EC : EqDecB C}.
  Variable is_null : C -> bool.
  Variable order : list label -> list label.
  Hypothesis order_perm : forall l, Permutation (order l) l.

  Notation rows := (rows C).
  Notation nullrow := (fun x : label * C => is_null (snd x)).
  Notation count_null := (count_null is_null).

  (** Rows placed at shifted labels. *)
  Definition place (s : Z) (r : rows) : rows := map (fun x => (shift_label s (fst x), snd x)) r.

  Definition lookup (d : dict C (list label)) (c : C) : list label :=
    match dget d c with Some l => l | None => [] end.

  (** All labels are integers in the range [ids], which is non-negative. *)
  Definition bounded (ids : option (Z * Z)) (r : rows) : Prop :=
    match ids with
    | None => r = []
    | Some (lo, hi) => ((0 <= lo <= hi)%Z /\ r <> []) /\ forall x, In x r -> exists z, fst x = LI z /\ (lo <= z <= hi)%Z
    end.

  (** Dictionary [d] lists exactly the null rows of [r] under their cell. *)
  Definition lists (d : dict C (list label)) (r : rows) : Prop :=
    NoDup (dkeys d) /\
    (forall c l, dget d c = Some l -> NoDup l /\ l <> []) /\
    (forall c x, In x (lookup d c) <-> is_null c = true /\ In (x, c) r).

  Definition brep (b : base C) (r : rows) : Prop :=
    NoDup (map fst r) /\ b_size b = length r /\ b_nulls b = Z.of_nat (count_null r) /\
    bounded (b_ids b) r /\ lists (b_types b) r.

  Definition srep (s : col C) (r : rows) : Prop :=
    NoDup (map fst r) /\ c_size s = length r /\ c_nulls s = Z.of_nat (count_null r) /\
    bounded (c_ids s) r /\ lists (c_index s) r /\
    NoDup (c_types s) /\ (forall c, In c (c_types s) <-> In c (dkeys (c_index s))).

  Lemma srep_new : srep new_col [].
  Proof.
    unfold srep. split; [constructor|]. split; [reflexivity|]. split; [reflexivity|]. split; [reflexivity|].
    split; [|split; [constructor|cbn; tauto]]. split; [constructor|]. split; [discriminate|].
    cbn. tauto.
  Qed.

  Lemma srep_brep s r : srep s r -> brep (as_base s) r.
  Proof. unfold srep, brep, as_base. cbn. tauto. Qed.

  Lemma place_place a b r : place a (place b r) = place (b + a) r.
  Proof.
    unfold place. rewrite map_map. apply map_ext. intros [[z|n] c]; cbn; [|reflexivity].
    f_equal. f_equal. lia.
  Qed.

  Lemma place_0 r : place 0 r = r.
  Proof.
    unfold place. rewrite <- (map_id r) at 2. apply map_ext. intros [[z|n] c]; cbn; [|reflexivity].
    rewrite Z.add_0_r. reflexivity.
  Qed.

  Lemma place_length s r : length (place s r) = length r.
  Proof. apply map_length. Qed.

  Lemma place_app s a b : place s (a ++ b) = place s a ++ place s b.
  Proof. apply map_app. Qed.

  Lemma place_null s r : count_null (place s r) = count_null r.
  Proof.
    unfold NullProofs.count_null, place. induction r as [|x r IH]; cbn [map filter snd]; [reflexivity|].
    destruct (is_null (snd x)); cbn [length]; [f_equal|]; exact IH.
  Qed.

  Lemma shift_inj s a b : shift_label s a = shift_label s b -> a = b.
  Proof. destruct a, b; cbn; intro H; try discriminate; [|exact H]. injection H as H. f_equal. lia. Qed.

  Lemma place_NoDup s r : NoDup (map fst r) -> NoDup (map fst (place s r)).
  Proof.
    intro H. unfold place. rewrite map_map. cbn [fst]. rewrite <- (map_map fst (shift_label s)).
    apply FinFun.Injective_map_NoDup; [|exact H]. intros a b. apply shift_inj.
  Qed.

  Lemma place_In s r x c : In (x, c) (place s r) <-> exists y, x = shift_label s y /\ In (y, c) r.
  Proof.
    unfold place. rewrite in_map_iff. split.
    - intros [[y c'] [E I]]. cbn in E. injection E as <- <-. eauto.
    - intros [y [-> I]]. exists (y, c). auto.
  Qed.

  Lemma NoDup_app_intro {X} (a b : list X) : NoDup a -> NoDup b -> (forall x, In x a -> ~ In x b) -> NoDup (a ++ b).
  Proof.
    induction 1 as [|x a Hx Ha IH]; intros Hb D; cbn; [exact Hb|]. constructor.
    - rewrite in_app_iff. intros [I|I]; [contradiction|]. eapply D; [cbn; auto|exact I].
    - apply IH; [exact Hb|]. intros y Hy. apply D. cbn. auto.
  Qed.

  (** ** The index *)

  Lemma index_lookup : forall (nti : dict C (list label)) d c x,
    In x (lookup (fold_left index_add nti d) c) <-> In x (lookup d c) \/ exists l, In (c, l) nti /\ In x l.
  Proof.
    induction nti as [|[k l] nti IH]; intros d c x; cbn [fold_left].
    - split; [auto|]. intros [H|[l [[] _]]]. exact H.
    - rewrite IH. unfold index_add at 1, lookup at 1. cbn [fst snd]. rewrite dget_dset.
      destruct (eqb_spec k c) as [->|N].
      + rewrite supdate_In. fold (lookup d c). split.
        * intros [[H|H]|[l' [H1 H2]]]; [auto|right; exists l; cbn; auto|right; exists l'; cbn; auto].
        * intros [H|[l' [[E|H1] H2]]]; [auto|injection E as <-; auto|right; eauto].
      + fold (lookup d c). split.
        * intros [H|[l' [H1 H2]]]; [auto|right; exists l'; cbn; auto].
        * intros [H|[l' [[E|H1] H2]]]; [auto|injection E as E _; contradiction|right; eauto].
  Qed.

  Lemma index_keys : forall (nti : dict C (list label)) d c,
    In c (dkeys (fold_left index_add nti d)) <-> In c (dkeys d) \/ In c (dkeys nti).
  Proof.
    induction nti as [|[k l] nti IH]; intros d c; cbn [fold_left]; [cbn; tauto|].
    rewrite IH. unfold index_add at 1. cbn [fst snd]. rewrite In_dkeys_dset. cbn [dkeys map fst In]. intuition.
  Qed.

  Lemma index_good : forall (nti : dict C (list label)) d, NoDup (dkeys d) ->
    (forall c l, dget d c = Some l -> NoDup l /\ l <> []) -> (forall c l, In (c, l) nti -> l <> []) ->
    NoDup (dkeys (fold_left index_add nti d)) /\
    (forall c l, dget (fold_left index_add nti d) c = Some l -> NoDup l /\ l <> []).
  Proof.
    induction nti as [|[k l] nti IH]; intros d Hd Hl Hn; cbn [fold_left]; [auto|]. apply IH.
    - apply NoDup_dset. exact Hd.
    - intros c l'. unfold index_add. cbn [fst snd]. rewrite dget_dset. destruct (eqb_spec k c) as [->|N]; [|apply Hl].
      intro H. injection H as <-. split.
      + apply supdate_NoDup. destruct (dget d c) as [l0|] eqn:E; [apply (Hl c l0 E)|constructor].
      + specialize (Hn c l (or_introl eq_refl)). destruct l as [|x l]; [congruence|]. intro H.
        assert (I : In x (supdate match dget d c with Some l => l | None => [] end (x :: l))).
        { apply supdate_In. cbn. auto. }
        rewrite H in I. destruct I.
    - intros c l' H. apply (Hn c). cbn. auto.
  Qed.

  Lemma lists_In d r c l : lists d r -> In (c, l) d -> l = lookup d c.
  Proof. intros [H _] I. unfold lookup. rewrite (dget_In _ _ _ H I). reflexivity. Qed.

  Lemma lists_merge d1 d2 r1 r2 sh : lists d1 r1 -> lists d2 r2 ->
    lists (fold_left index_add (map (fun p => (fst p, map (shift_label sh) (snd p))) d2) d1) (r1 ++ place sh r2).
  Proof.
    intros [N1 [L1 I1]] L2'. pose proof L2' as [N2 [L2 I2]].
    destruct (index_good (map (fun p => (fst p, map (shift_label sh) (snd p))) d2) d1 N1 L1) as [G1 G2].
    { intros c l H. apply in_map_iff in H. destruct H as [[k l'] [E H]]. cbn in E. injection E as <- <-.
      destruct (L2 k l' (dget_In _ _ _ N2 H)) as [_ Hl]. destruct l'; [congruence|discriminate]. }
    split; [exact G1|]. split; [exact G2|]. intros c x. rewrite index_lookup, I1, in_app_iff, place_In.
    assert (Q : (exists l, In (c, l) (map (fun p => (fst p, map (shift_label sh) (snd p))) d2) /\ In x l) <->
                exists y, x = shift_label sh y /\ In y (lookup d2 c)).
    { split.
      - intros [l [H Hx]]. apply in_map_iff in H. destruct H as [[k l'] [E H]]. cbn in E. injection E as -> <-.
        apply in_map_iff in Hx. destruct Hx as [y [<- Hy]]. exists y. split; [reflexivity|].
        rewrite <- (lists_In _ _ _ _ L2' H). exact Hy.
      - intros [y [-> Hy]]. unfold lookup in Hy. destruct (dget d2 c) as [l|] eqn:E; [|destruct Hy].
        exists (map (shift_label sh) l). split; [|apply in_map; exact Hy].
        apply in_map_iff. exists (c, l). split; [reflexivity|]. apply dget_Some_In. exact E. }
    rewrite Q. split.
    - intros [[H1 H2]|[y [-> Hy]]]; [auto|]. apply I2 in Hy. destruct Hy as [H1 H2]. split; [exact H1|]. right. eauto.
    - intros [H1 [H2|[y [-> H2]]]]; [auto|]. right. exists y. split; [reflexivity|]. apply I2. auto.
  Qed.

  Lemma shift_0_types (d : dict C (list label)) : map (fun p => (fst p, map (shift_label 0) (snd p))) d = d.
  Proof.
    rewrite <- (map_id d) at 2. apply map_ext. intros [c l]. cbn [fst snd]. f_equal.
    rewrite <- (map_id l) at 2. apply map_ext. intros [z|n]; cbn; [rewrite Z.add_0_r|]; reflexivity.
  Qed.

  Lemma shift_keys sh (d : dict C (list label)) : dkeys (map (fun p => (fst p, map (shift_label sh) (snd p))) d) = dkeys d.
  Proof. unfold dkeys. rewrite map_map. reflexivity. Qed.

  (** ** One step *)

  (** The shift given to a batch with range [b] by a column with range [a]. *)
  Definition next_shift (a b : option (Z * Z)) : Z :=
    if overlap a b then match a with Some (_, hi) => (hi + 1)%Z | None => 0%Z end else 0%Z.

  Lemma update_base_rep_at s r b r' : srep s r -> brep b r' -> r' <> [] ->
    exists s', update_base s b = Ok s' /\ srep s' (r ++ place (next_shift (c_ids s) (b_ids b)) r') /\
      (0 <= next_shift (c_ids s) (b_ids b))%Z /\
      c_ratio s' = Some (inject_Z (Z.of_nat (count_null r')) / inject_Z (Z.of_nat (length r')))%Q /\
      (r = [] -> next_shift (c_ids s) (b_ids b) = 0%Z).
  Proof.
    intros [S1 [S2 [S3 [S4 [S5 [S6 S7]]]]]] [B1 [B2 [B3 [B4 B5]]]] Ne.
    unfold update_base. assert (Z : b_size b =? 0 = false).
    { apply Nat.eqb_neq. rewrite B2. destruct r'; [congruence|discriminate]. }
    rewrite Z. set (ov := overlap (c_ids s) (b_ids b)).
    set (hi1 := match c_ids s with Some (_, hi) => (hi + 1)%Z | None => 0%Z end).
    change (next_shift (c_ids s) (b_ids b)) with (if ov then hi1 else 0%Z).
    set (sh := if ov then hi1 else 0%Z).
    eexists. split; [reflexivity|].
    assert (Types : (if ov then map (fun p => (fst p, map (shift_label hi1) (snd p))) (b_types b) else b_types b) =
              map (fun p => (fst p, map (shift_label sh) (snd p))) (b_types b)).
    { unfold sh. destruct ov; [reflexivity|]. rewrite shift_0_types. reflexivity. }
    assert (Sh : (0 <= sh)%Z).
    { unfold sh, hi1. destruct ov; [|lia]. destruct (c_ids s) as [[lo hi]|]; [|lia]. cbn in S4. lia. }
    assert (Bb : exists lo' hi', b_ids b = Some (lo', hi')).
    { unfold bounded in B4. destruct (b_ids b) as [[lo' hi']|]; [eauto|]. congruence. }
    destruct Bb as [lo' [hi' Eb]]. rewrite Eb in *. cbn [bounded] in B4. destruct B4 as [B4 B4'].
    assert (Disj : forall x, In x (map fst r) -> ~ In x (map fst (place sh r'))).
    { intros x H1 H2. apply in_map_iff in H1. destruct H1 as [[x1 c1] [E1 H1]]. cbn in E1. subst x1.
      apply in_map_iff in H2. destruct H2 as [[x2 c2] [E2 H2]]. cbn in E2. subst x2.
      apply place_In in H2. destruct H2 as [y [-> H2]]. destruct (B4' _ H2) as [z [Ez Hz]]. cbn in Ez. subst y.
      unfold bounded in S4. destruct (c_ids s) as [[lo hi]|] eqn:Es; [|subst r; destruct H1].
      destruct S4 as [S4 S4']. destruct (S4' _ H1) as [z' [Ez' Hz']]. cbn in Ez'. injection Ez' as Ez'.
      unfold sh, hi1 in Ez'. destruct ov eqn:Eo; [lia|]. unfold ov in Eo. rewrite ?Es, ?Eb in Eo. unfold overlap in Eo.
      rewrite !orb_false_iff, !andb_false_iff, !Z.leb_gt in Eo. lia. }
    split; [|split; [exact Sh|split; [cbn [c_ratio]; rewrite B3, B2; reflexivity|]]].
    2:{ intros ->. unfold bounded in S4. unfold sh, hi1.
        destruct (c_ids s) as [[lo hi]|] eqn:Es; [|destruct ov; reflexivity].
        destruct S4 as [[_ S4] _]. congruence. }
    unfold srep. cbn [c_size c_nulls c_ids c_index c_types].
    split; [rewrite map_app; apply NoDup_app_intro; [exact S1|apply place_NoDup; exact B1|exact Disj]|].
    split; [rewrite app_length, place_length; lia|].
    split.
    { unfold NullProofs.count_null in *. rewrite filter_app, app_length. fold (count_null (place sh r')).
      rewrite place_null. unfold NullProofs.count_null. rewrite S3, B3. lia. }
    split.
    { assert (Ids : (if ov then Some ((lo' + hi1)%Z, (hi' + hi1)%Z) else Some (lo', hi')) = Some ((lo' + sh)%Z, (hi' + sh)%Z)).
      { unfold sh. destruct ov; [reflexivity|]. rewrite !Z.add_0_r. reflexivity. }
      rewrite Ids. destruct (c_ids s) as [[lo hi]|] eqn:Es.
      - cbn [bounded] in *. destruct S4 as [[S4 S4n] S4']. split; [split; [lia|destruct r; [congruence|discriminate]]|]. intros x I. apply in_app_iff in I. destruct I as [I|I].
        + destruct (S4' _ I) as [z [-> Hz]]. exists z. split; [reflexivity|]. lia.
        + destruct x as [x c]. apply place_In in I. destruct I as [y [-> I]]. destruct (B4' _ I) as [z [Ez Hz]].
          cbn in Ez. subst y. exists (z + sh)%Z. split; [reflexivity|]. lia.
      - cbn [bounded] in *. subst r. cbn [app]. split; [split; [lia|unfold place; destruct r'; [congruence|discriminate]]|]. intros [x c] I. apply place_In in I.
        destruct I as [y [-> I]]. destruct (B4' _ I) as [z [Ez Hz]]. cbn in Ez. subst y.
        exists (z + sh)%Z. split; [reflexivity|]. lia. }
    rewrite Types. split; [apply lists_merge; assumption|]. split; [apply supdate_NoDup; exact S6|].
    intro c. rewrite supdate_In, index_keys, shift_keys, S7. tauto.
  Qed.

  Lemma update_base_rep s r b r' : srep s r -> brep b r' -> r' <> [] ->
    exists s' sh, update_base s b = Ok s' /\ srep s' (r ++ place sh r') /\ (0 <= sh)%Z /\
      c_ratio s' = Some (inject_Z (Z.of_nat (count_null r')) / inject_Z (Z.of_nat (length r')))%Q /\
      (r = [] -> sh = 0%Z).
  Proof.
    intros S B N. destruct (update_base_rep_at s r b r' S B N) as [s' H]. exists s', (next_shift (c_ids s) (b_ids b)). exact H.
  Qed.

  (** ** A batch *)

  Lemma int_bounds_spec : forall r : rows, r <> [] -> (forall x, In x r -> exists z, fst x = LI z /\ (0 <= z)%Z) ->
    exists lo hi, int_bounds r = Some (lo, hi) /\ (0 <= lo <= hi)%Z /\
      forall x, In x r -> exists z, fst x = LI z /\ (lo <= z <= hi)%Z.
  Proof.
    induction r as [|[l c] r IH]; intros Ne H; [congruence|].
    destruct (H (l, c) (or_introl eq_refl)) as [z [Ez Hz]]. cbn in Ez. subst l.
    destruct r as [|y r].
    - exists z, z. cbn. split; [reflexivity|]. split; [lia|]. intros x [<-|[]]. exists z. cbn. split; [reflexivity|lia].
    - destruct IH as [lo [hi [E [B A]]]]; [discriminate|intros x Hx; apply H; cbn; auto|].
      exists (Z.min z lo), (Z.max z hi). split; [|split].
      + change (int_bounds ((LI z, c) :: y :: r)) with
          (match int_bounds (y :: r) with Some (lo, hi) => Some (Z.min z lo, Z.max z hi) | None => None end).
        rewrite E. reflexivity.
      + lia.
      + intros x [<-|Hx].
        * exists z. cbn. split; [reflexivity|lia].
        * destruct (A x Hx) as [z' [E' H']]. exists z'. split; [exact E'|lia].
  Qed.

  (** A batch as the users are supposed to give it: rows with distinct non-negative integer labels,
      sampled without repetition. *)
  Definition proper (t : batch C) : Prop :=
    NoDup (map fst (t_rows t)) /\
    (forall x, In x (t_rows t) -> exists z, fst x = LI z /\ (0 <= z)%Z) /\
    valid_chunks (length (t_rows t)) (t_chunks t).

  Lemma na_lists (ex : rows) : NoDup (map fst ex) -> lists (fold_left na_add (filter nullrow ex) []) ex.
  Proof.
    intro Nd.
    assert (G : forall c, dget (fold_left na_add (filter nullrow ex) []) c =
               match map fst (filter (fun x => eqb (snd x) c) (filter nullrow ex)) with [] => None | ls => Some ls end).
    { intro c. rewrite na_get. reflexivity. }
    assert (Mem : forall c x, In x (map fst (filter (fun x => eqb (snd x) c) (filter nullrow ex))) <-> is_null c = true /\ In (x, c) ex).
    { intros c x. rewrite in_map_iff. split.
      - intros [[x' c'] [E I]]. cbn in E. subst x'. apply filter_In in I. destruct I as [I Ec]. cbn in Ec.
        apply (proj1 (eqb_eq _ _)) in Ec. subst c'. apply filter_In in I. tauto.
      - intros [Hc I]. exists (x, c). split; [reflexivity|]. apply filter_In. split; [|apply eqb_refl].
        apply filter_In. auto. }
    split; [apply na_keys_NoDup; constructor|]. split.
    - intros c l H. rewrite G in H.
      destruct (map fst (filter (fun x => eqb (snd x) c) (filter nullrow ex))) as [|y ys] eqn:E; [discriminate|].
      injection H as <-. split; [|discriminate]. rewrite <- E. apply filter_NoDup_fst. apply filter_NoDup_fst. exact Nd.
    - intros c x. rewrite <- Mem. unfold lookup. rewrite G.
      destruct (map fst (filter (fun x => eqb (snd x) c) (filter nullrow ex))); tauto.
  Qed.

  Lemma examined_sub (t : batch C) ex : examined is_null t ex -> forall x, In x ex -> In x (t_rows t).
  Proof.
    intros [k [_ [-> _]]] x H. apply pick_In in H. destruct H as [i [_ H]]. eapply nth_error_In. exact H.
  Qed.

  Lemma firstn_concat_prefix {X} (l : list (list X)) k : concat l = concat (firstn k l) ++ concat (skipn k l).
  Proof. rewrite <- concat_app, firstn_skipn. reflexivity. Qed.

  Lemma examined_NoDup (t : batch C) ex : NoDup (map fst (t_rows t)) -> valid_chunks (length (t_rows t)) (t_chunks t) ->
    examined is_null t ex -> NoDup (map fst ex).
  Proof.
    intros Hr [V _] [k [_ [-> _]]]. apply pick_NoDup; [exact Hr|].
    rewrite (firstn_concat_prefix _ k) in V. apply NoDup_app_l in V. exact V.
  Qed.

  Lemma batch_rep (t : batch C) : proper t -> t_rows t <> [] ->
    exists ex, examined is_null t ex /\
      (ex = [] -> b_size (snd (clean_batch is_null order t)) = 0) /\
      (ex <> [] -> brep (snd (clean_batch is_null order t)) ex).
  Proof.
    intros [P1 [P2 P3]] Ne. destruct (clean_spec is_null order order_perm t Ne P1 P3) as [ex [Ex H]].
    exists ex. split; [exact Ex|]. destruct (clean_batch is_null order t) as [cl b]. cbn [snd].
    destruct H as [_ [H1 [H2 [H3 H4]]]]. split; [intros ->; exact H1|]. intro Nex.
    pose proof (examined_NoDup t ex P1 P3 Ex) as Nd. split; [exact Nd|]. split; [exact H1|]. split; [exact H2|]. split.
    - destruct (int_bounds_spec (t_rows t) Ne P2) as [lo [hi [E [B A]]]]. rewrite H4, E. split; [auto|].
      intros x Hx. apply A. eapply examined_sub; eassumption.
    - rewrite H3. apply na_lists. exact Nd.
  Qed.

  (** ** Histories *)

  Fixpoint batches (h : hist C) : list (batch C) :=
    match h with
    | HNew => []
    | HUpd h t => batches h ++ [t]
    | HAdd h1 h2 => batches h1 ++ batches h2
    end.

  Definition placed (shs : list Z) (exs : list rows) : rows :=
    concat (map (fun p => place (fst p) (snd p)) (combine shs exs)).

  Lemma placed_app s1 e1 s2 e2 : length s1 = length e1 -> placed (s1 ++ s2) (e1 ++ e2) = placed s1 e1 ++ placed s2 e2.
  Proof.
    intro L. unfold placed. assert (E : combine (s1 ++ s2) (e1 ++ e2) = combine s1 e1 ++ combine s2 e2).
    { revert e1 L. induction s1 as [|s s1 IH]; intros [|e e1] L; cbn in *; try discriminate; [reflexivity|].
      rewrite IH by lia. reflexivity. }
    rewrite E, map_app, concat_app. reflexivity.
  Qed.

  Lemma placed_shift sh : forall shs exs, placed (map (fun s => (s + sh)%Z) shs) exs = place sh (placed shs exs).
  Proof.
    induction shs as [|s shs IH]; intros [|e exs]; try reflexivity. unfold placed in *. cbn [map combine concat fst snd].
    rewrite IH, place_app, place_place. reflexivity.
  Qed.

  Lemma run_rep : forall h s, run is_null order h = Ok s -> Forall proper (batches h) ->
    exists shs exs, length shs = length exs /\ Forall2 (examined is_null) (batches h) exs /\ Forall (fun z => (0 <= z)%Z) shs /\
      srep s (placed shs exs).
  Proof.
    induction h as [|h IH t|h1 IH1 h2 IH2]; intros s H P; cbn [run batches] in *.
    - injection H as <-. exists [], []. split; [reflexivity|]. split; [constructor|]. split; [constructor|]. exact srep_new.
    - apply Forall_app in P. destruct P as [P Pt]. inversion Pt as [|? ? Pt' _]; subst.
      destruct (run is_null order h) as [s0|]; [|discriminate]. cbn [bind] in H.
      destruct (IH s0 eq_refl P) as [shs [exs [L [F [Sg R]]]]].
      destruct (t_rows t) as [|x0 xs] eqn:Et.
      { exfalso. unfold update, clean_batch, clean in H. rewrite Et in H. discriminate. }
      assert (Ne : t_rows t <> []) by congruence.
      destruct (batch_rep t Pt' Ne) as [ex [Ex [Z B]]].
      assert (Nex : ex <> []).
      { intros ->. specialize (Z eq_refl). unfold update, update_base in H. rewrite Z in H. discriminate. }
      destruct (update_base_rep s0 _ _ ex R (B Nex) Nex) as [s' [sh [E [R' [Hs _]]]]].
      unfold update in H. rewrite E in H. injection H as <-.
      exists (shs ++ [sh]), (exs ++ [ex]). split; [rewrite !app_length; cbn; lia|].
      split; [apply Forall2_app; [exact F|constructor; [exact Ex|constructor]]|].
      split; [apply Forall_app; split; [exact Sg|constructor; [exact Hs|constructor]]|].
      rewrite placed_app by exact L. unfold placed at 2. cbn [combine map concat fst snd]. rewrite app_nil_r. exact R'.
    - apply Forall_app in P. destruct P as [P1 P2].
      destruct (run is_null order h1) as [s1|]; [|discriminate]. destruct (run is_null order h2) as [s2|]; [|discriminate].
      cbn [bind] in H.
      destruct (IH1 s1 eq_refl P1) as [shs1 [exs1 [L1 [F1 [Sg1 R1]]]]].
      destruct (IH2 s2 eq_refl P2) as [shs2 [exs2 [L2 [F2 [Sg2 R2]]]]].
      set (r1 := placed shs1 exs1) in *. set (r2 := placed shs2 exs2) in *. unfold add in H.
      assert (N1 : r1 <> []).
      { intro E. destruct R1 as [_ [R1 _]]. rewrite E in R1. cbn in R1. unfold update_base at 1 in H. cbn [as_base b_size] in H.
        rewrite R1 in H. discriminate. }
      destruct (update_base_rep new_col [] (as_base s1) r1 srep_new (srep_brep _ _ R1) N1) as [m [sh1 [E1 [Rm [_ [_ Z1]]]]]].
      rewrite (Z1 eq_refl) in *. rewrite place_0 in Rm. cbn [app] in Rm. rewrite E1 in H. cbn [bind] in H.
      assert (N2 : r2 <> []).
      { intro E. destruct R2 as [_ [R2 _]]. rewrite E in R2. cbn in R2. unfold update_base in H. cbn [as_base b_size] in H.
        rewrite R2 in H. discriminate. }
      destruct (update_base_rep m r1 (as_base s2) r2 Rm (srep_brep _ _ R2) N2) as [s' [sh2 [E2 [Rs [Hs _]]]]].
      rewrite E2 in H. injection H as <-.
      exists (shs1 ++ map (fun s => (s + sh2)%Z) shs2), (exs1 ++ exs2).
      split; [rewrite !app_length, map_length; lia|]. split; [apply Forall2_app; assumption|].
      split.
      { apply Forall_app. split; [exact Sg1|]. apply Forall_map. eapply Forall_impl; [|exact Sg2]. cbn. lia. }
      rewrite placed_app by exact L1. rewrite placed_shift. exact Rs.
  Qed.
End Null.
