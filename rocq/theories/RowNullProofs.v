(** Lemmas about rows with nulls. *)
From Coq Require Import QArith Permutation.
From Verif Require Import PyCommon PyDict ListFacts NullModel NullProofs NullProofs2 RowNullModel.
Local Open Scope nat_scope.

Section RowNull.
  Context {C : Type} {EC : EqDecB C}.
  Variable is_null : C -> bool.
  Variable order : list label -> list label.
  Hypothesis order_perm : forall l, Permutation (order l) l.
  Variable dflt : C.

  Notation cell := (cell dflt).
  Notation column := (column dflt).
  Notation srep := (srep is_null).
  Notation update := (update is_null order dflt).
  Notation run := (run is_null order dflt).
  Notation table := (list (label * list C)).

  Definition some_null (r : label * list C) : bool := existsb is_null (snd r).
  Definition all_null (r : label * list C) : bool := forallb is_null (snd r).

  (** ** Sets *)

  Lemma mapM_Forall2 {X Y} (g : X -> result Y) : forall l ys, mapM g l = Ok ys -> Forall2 (fun x y => g x = Ok y) l ys.
  Proof.
    induction l as [|x l IH]; intros ys H; cbn in H; [injection H as <-; constructor|].
    destruct (g x) as [y|] eqn:E; cbn in H; [|discriminate].
    destruct (mapM g l) as [zs|]; cbn in H; [|discriminate]. injection H as <-. constructor; auto.
  Qed.

  Lemma fold_combine : forall rest n h, NoDup n -> NoDup h -> Forall (@NoDup label) rest ->
    let '(n', h') := fold_left (fun acc l => (filter (fun x => lmem l x) (fst acc), supdate (snd acc) l)) rest (n, h) in
    NoDup n' /\ NoDup h' /\ (forall x, In x n' <-> In x n /\ forall l, In l rest -> In x l) /\
    (forall x, In x h' <-> In x h \/ exists l, In l rest /\ In x l).
  Proof.
    induction rest as [|l rest IH]; intros n h Nn Nh F; cbn [fold_left].
    - split; [exact Nn|]. split; [exact Nh|]. split; intro x.
      + split; [intro I; split; [exact I|intros l []]|tauto].
      + split; [auto|]. intros [I|[l [[] _]]]. exact I.
    - inversion F as [|? ? Fl Fr]; subst. cbn [fst snd].
      specialize (IH (filter (fun x => lmem l x) n) (supdate h l) (NoDup_filter _ Nn) (supdate_NoDup _ _ Nh) Fr).
      destruct (fold_left _ rest _) as [n' h']. destruct IH as [I1 [I2 [I3 I4]]]. split; [exact I1|]. split; [exact I2|]. split; intro x.
      + rewrite I3, filter_In, lmem_In. split.
        * intros [[H1 H2] H3]. split; [exact H1|]. intros l' [<-|Hl']; auto.
        * intros [H1 H2]. split; [split; [exact H1|apply H2; cbn; auto]|]. intros l' Hl'. apply H2. cbn. auto.
      + rewrite I4, supdate_In. split.
        * intros [[H1|H1]|[l' [H1 H2]]]; [auto|right; exists l; cbn; auto|right; exists l'; cbn; auto].
        * intros [H1|[l' [[<-|H1] H2]]]; [auto|auto|right; exists l'; auto].
  Qed.

  Lemma combine_nulls_spec ls : ls <> [] -> Forall (@NoDup label) ls ->
    let '(n, h) := combine_nulls ls in
    NoDup n /\ NoDup h /\ (forall x, In x n <-> forall l, In l ls -> In x l) /\ (forall x, In x h <-> exists l, In l ls /\ In x l).
  Proof.
    destruct ls as [|l rest]; intros Ne F; [congruence|]. inversion F as [|? ? Fl Fr]; subst. unfold combine_nulls.
    pose proof (fold_combine rest l l Fl Fl Fr) as H. destruct (fold_left _ rest _) as [n h].
    destruct H as [I1 [I2 [I3 I4]]]. split; [exact I1|]. split; [exact I2|]. split; intro x.
    - rewrite I3. split.
      + intros [H1 H2] l' [<-|Hl']; auto.
      + intro H. split; [apply H; cbn; auto|]. intros l' Hl'. apply H. cbn. auto.
    - rewrite I4. split.
      + intros [H|[l' [H1 H2]]]; [exists l; cbn; auto|exists l'; cbn; auto].
      + intros [l' [[<-|H1] H2]]; [auto|right; eauto].
  Qed.

  (** ** The null labels of a column *)

  Lemma col_nulls_all (s : colx C) r x : srep (x_col s) r ->
    In x (col_nulls None s) <-> exists c, is_null c = true /\ In (x, c) r.
  Proof.
    intros [_ [_ [_ [_ [[L1 [L2 L3]] _]]]]]. unfold col_nulls. rewrite supdate_In, in_concat. split.
    - intros [[]|[l [Hl Hx]]]. apply in_map_iff in Hl. destruct Hl as [[c l'] [E Hp]]. cbn in E. subst l'.
      exists c. apply L3. unfold lookup. rewrite (dget_In _ _ _ L1 Hp). exact Hx.
    - intros [c H]. apply L3 in H. unfold lookup in H. destruct (dget (c_index (x_col s)) c) as [l|] eqn:E; [|destruct H].
      right. exists l. split; [|exact H]. apply in_map_iff. exists (c, l). split; [reflexivity|]. apply dget_Some_In. exact E.
  Qed.

  Lemma col_nulls_NoDup sel (s : colx C) : NoDup (col_nulls sel s).
  Proof.
    unfold col_nulls. destruct sel as [ls|]; [apply NoDup_filter|]; apply supdate_NoDup; constructor.
  Qed.

  Lemma In_cell j (T : table) x c : In (x, c) (map (cell j) T) <-> exists r, In (x, r) T /\ nth j r dflt = c.
  Proof.
    rewrite in_map_iff. split.
    - intros [[x' r] [E I]]. unfold RowNullModel.cell in E. cbn in E. injection E as -> <-. eauto.
    - intros [r [I <-]]. exists (x, r). auto.
  Qed.

  Lemma fst_unique {X} (T : list (label * X)) x r r' : NoDup (map fst T) -> In (x, r) T -> In (x, r') T -> r = r'.
  Proof.
    intros Nd I1 I2. apply In_nth_error in I1, I2. destruct I1 as [i I1], I2 as [i' I2].
    assert (i = i').
    { rewrite NoDup_nth_error in Nd. apply Nd; [rewrite map_length; apply nth_error_Some; congruence|].
      rewrite !nth_error_map, I1, I2. reflexivity. }
    congruence.
  Qed.

  Lemma existsb_nth m (r : list C) : length r = m -> existsb is_null r = true <-> exists j, j < m /\ is_null (nth j r dflt) = true.
  Proof.
    intros <-. rewrite existsb_exists. split.
    - intros [c [I H]]. apply (In_nth _ _ dflt) in I. destruct I as [j [Hj <-]]. eauto.
    - intros [j [Hj H]]. exists (nth j r dflt). split; [apply nth_In; exact Hj|exact H].
  Qed.

  Lemma forallb_nth m (r : list C) : length r = m -> forallb is_null r = true <-> forall j, j < m -> is_null (nth j r dflt) = true.
  Proof.
    intros <-. rewrite forallb_forall. split.
    - intros H j Hj. apply H. apply nth_In. exact Hj.
    - intros H c I. apply (In_nth _ _ dflt) in I. destruct I as [j [Hj <-]]. auto.
  Qed.

  Lemma count_labels (ls : list label) (T : table) p : NoDup ls -> NoDup (map fst T) ->
    (forall x, In x ls <-> exists r, In (x, r) T /\ p (x, r) = true) -> length ls = length (filter p T).
  Proof.
    intros N1 N2 H. rewrite <- (map_length fst). apply Permutation_length. apply NoDup_Permutation; [exact N1| |].
    - apply (filter_NoDup_fst (C:=list C) T p N2).
    - intro x. rewrite H, in_map_iff. split.
      + intros [r [I E]]. exists (x, r). split; [reflexivity|]. apply filter_In. auto.
      + intros [[x' r] [E I]]. cbn in E. subst x'. apply filter_In in I. eauto.
  Qed.

  (** Counting null rows in a table from the null labels of its columns. *)
  Lemma count_rows m (T : table) (ls : list (list label)) : 0 < m -> length ls = m -> Forall (@NoDup label) ls ->
    NoDup (map fst T) -> Forall (fun r => length (snd r) = m) T ->
    (forall j l x, nth_error ls j = Some l -> In x l <-> exists r, In (x, r) T /\ is_null (nth j r dflt) = true) ->
    let '(n, h) := combine_nulls ls in
    length h = length (filter some_null T) /\ length n = length (filter all_null T).
  Proof.
    intros Hm Hl F Nd W H. assert (Ne : ls <> []) by (intros ->; cbn in Hl; lia).
    pose proof (combine_nulls_spec ls Ne F) as S. destruct (combine_nulls ls) as [n h]. destruct S as [S1 [S2 [S3 S4]]].
    rewrite Forall_forall in W. split; apply count_labels; auto; intro x.
    - rewrite S4. unfold some_null. split.
      + intros [l [Il Ix]]. apply In_nth_error in Il. destruct Il as [j Ej]. apply (H j l x Ej) in Ix.
        destruct Ix as [r [Ir Hn]]. exists r. split; [exact Ir|]. cbn [snd]. apply (existsb_nth m); [exact (W _ Ir)|].
        exists j. split; [|exact Hn]. rewrite <- Hl. apply nth_error_Some. congruence.
      + intros [r [Ir Hn]]. cbn [snd] in Hn. apply (existsb_nth m r (W _ Ir)) in Hn. destruct Hn as [j [Hj Hn]].
        rewrite <- Hl in Hj. apply nth_error_Some in Hj. destruct (nth_error ls j) as [l|] eqn:E; [|congruence].
        exists l. split; [eapply nth_error_In; exact E|]. apply (H j l x E). eauto.
    - rewrite S3. unfold all_null. split.
      + intro A. assert (E0 : exists l0, nth_error ls 0 = Some l0).
        { destruct (nth_error ls 0) eqn:E; [eauto|]. apply nth_error_None in E. lia. }
        destruct E0 as [l0 E0]. assert (I0 : In x l0) by (apply A; eapply nth_error_In; exact E0).
        apply (H 0 l0 x E0) in I0. destruct I0 as [r [Ir _]]. exists r. split; [exact Ir|]. cbn [snd].
        apply (forallb_nth m r (W _ Ir)). intros j Hj. rewrite <- Hl in Hj. apply nth_error_Some in Hj.
        destruct (nth_error ls j) as [l|] eqn:E; [|congruence].
        assert (I : In x l) by (apply A; eapply nth_error_In; exact E). apply (H j l x E) in I. destruct I as [r' [Ir' Hn]].
        rewrite (fst_unique T x r r' Nd Ir Ir'). exact Hn.
      + intros [r [Ir A]] l Il. cbn [snd] in A. apply In_nth_error in Il. destruct Il as [j E]. apply (H j l x E).
        exists r. split; [exact Ir|]. apply (forallb_nth m r (W _ Ir)); [exact A|].
        rewrite <- Hl. apply nth_error_Some. congruence.
  Qed.

  (** ** One column *)

  Definition next_ids (a b : option (Z * Z)) : option (Z * Z) :=
    let ids := match b with Some (lo, hi) => Some (lo + next_shift a b, hi + next_shift a b)%Z | None => None end in
    match a, ids with
    | None, _ => ids
    | Some _, None => a
    | Some (lo, hi), Some (lo', hi') => Some (Z.min lo lo', Z.max hi hi')
    end.

  Lemma update_base_ids (s : col C) b s' : update_base s b = Ok s' -> c_ids s' = next_ids (c_ids s) (b_ids b) /\ b_size b <> 0.
  Proof.
    unfold update_base. destruct (Nat.eqb_spec (b_size b) 0) as [|N]; [discriminate|]. intro H. injection H as <-. cbn [c_ids].
    split; [|exact N]. unfold next_ids, next_shift.
    destruct (c_ids s) as [[lo hi]|], (b_ids b) as [[lo' hi']|]; cbn [overlap]; rewrite ?Z.add_0_r; try reflexivity.
    match goal with |- context [if ?b then _ else _] => destruct b end; rewrite ?Z.add_0_r; reflexivity.
  Qed.

  Lemma int_bounds_column j : forall R : table, int_bounds (map (cell j) R) = int_bounds R.
  Proof.
    induction R as [|[[z|n] c] R IH]; [reflexivity| |reflexivity]. destruct R as [|y R]; [reflexivity|].
    change (map (cell j) ((LI z, c) :: y :: R)) with ((LI z, nth j c dflt) :: map (cell j) (y :: R)).
    remember (y :: R) as R' eqn:E. destruct (map (cell j) R') as [|a b] eqn:E'; [subst R'; discriminate|].
    change (int_bounds ((LI z, nth j c dflt) :: a :: b)) with
      (match int_bounds (a :: b) with Some (lo, hi) => Some (Z.min z lo, Z.max z hi) | None => None end).
    rewrite IH. subst R'. reflexivity.
  Qed.

  Lemma clean_batch_ids (t : batch C) : t_rows t <> [] -> b_ids (snd (clean_batch is_null order t)) = int_bounds (t_rows t).
  Proof.
    intro Ne. unfold clean_batch, clean. destruct (t_rows t) as [|x r] eqn:E; [congruence|].
    destruct (clean_loop _ _ _ _ _ _ _ _) as [[a b] c]. reflexivity.
  Qed.

  Lemma pick_map {X Y} (g : label * X -> label * Y) (R : list (label * X)) ids :
    flat_map (fun i => match nth_error (map g R) i with Some x => [x] | None => [] end) ids =
    map g (flat_map (fun i => match nth_error R i with Some x => [x] | None => [] end) ids).
  Proof.
    induction ids as [|i ids IH]; cbn [flat_map map]; [reflexivity|]. rewrite map_app, IH, nth_error_map. f_equal.
    destruct (nth_error R i); reflexivity.
  Qed.

  Lemma pick_cell j (R : table) ids : pick (map (cell j) R) ids = map (cell j) (pick R ids).
  Proof. apply pick_map. Qed.

  (** A frame as users are supposed to give it. *)
  Definition frame_ok (f : frame C) : Prop :=
    0 < f_width f /\ Forall (fun r => length (snd r) = f_width f) (f_rows f) /\
    NoDup (map fst (f_rows f)) /\
    (forall r, In r (f_rows f) -> exists z, fst r = LI z /\ (0 <= z)%Z) /\
    valid_chunks (length (f_rows f)) (f_chunks f).

  Lemma column_proper f j : frame_ok f -> proper (column f j).
  Proof.
    intros [_ [_ [N [L V]]]]. split; [|split].
    - cbn. rewrite map_map. cbn. exact N.
    - cbn. intros x I. apply in_map_iff in I. destruct I as [r [<- I]]. cbn. apply L. exact I.
    - cbn. rewrite map_length. exact V.
  Qed.

  (** The column after a batch. *)
  Lemma column_step f j (s : colx C) r s' : frame_ok f -> srep (x_col s) r ->
    update_colx s (snd (clean_batch is_null order (column f j))) = Ok s' ->
    exists ex, examined is_null (column f j) ex /\ ex <> [] /\
      srep (x_col s') (r ++ place (next_shift (c_ids (x_col s)) (int_bounds (f_rows f))) ex) /\
      c_ids (x_col s') = next_ids (c_ids (x_col s)) (int_bounds (f_rows f)) /\
      x_last s' = Some (length ex) /\
      x_shift s' = (if overlap (c_ids (x_col s)) (int_bounds (f_rows f))
                    then match c_ids (x_col s) with Some (_, hi) => Some (hi + 1)%Z | None => None end else x_shift s).
  Proof.
    intros Hf S H. unfold update_colx in H. set (b := snd (clean_batch is_null order (column f j))) in *.
    destruct (update_base (x_col s) b) as [c|] eqn:U; cbn in H; [|discriminate]. injection H as <-. cbn [x_col x_shift x_last].
    destruct (update_base_ids _ _ _ U) as [Ids Sz].
    assert (Ne : t_rows (column f j) <> []).
    { intro E. apply Sz. unfold b, clean_batch, clean. rewrite E. reflexivity. }
    destruct (batch_rep is_null order order_perm (column f j) (column_proper f j Hf) Ne) as [ex [Ex [B0 B1]]].
    assert (Nx : ex <> []) by (intro E; apply Sz; apply B0; exact E). specialize (B1 Nx). fold b in B1.
    assert (Eb : b_ids b = int_bounds (f_rows f)).
    { unfold b. rewrite clean_batch_ids by exact Ne. cbn. apply int_bounds_column. }
    destruct (update_base_rep_at is_null (x_col s) r b ex S B1 Nx) as [s1 [E1 [S1 _]]]. rewrite U in E1. injection E1 as <-.
    exists ex. split; [exact Ex|]. split; [exact Nx|]. rewrite Eb in S1, Ids. split; [exact S1|]. split; [exact Ids|].
    split; [|rewrite Eb; reflexivity]. destruct B1 as [_ [-> _]]. reflexivity.
  Qed.

  Lemma srep_nonempty s r : srep s r -> c_size s <> 0 -> r <> [].
  Proof. intros [_ [E _]] N ->. apply N. rewrite E. reflexivity. Qed.

  (** The column after a merge. *)
  Lemma column_add (a b s : colx C) r1 r2 : srep (x_col a) r1 -> srep (x_col b) r2 -> add_colx a b = Ok s ->
    srep (x_col s) (r1 ++ place (next_shift (c_ids (x_col a)) (c_ids (x_col b))) r2) /\
    c_ids (x_col s) = next_ids (c_ids (x_col a)) (c_ids (x_col b)) /\
    r1 <> [] /\ r2 <> [].
  Proof.
    intros S1 S2 H. unfold add_colx in H.
    destruct (update_colx new_colx (as_base (x_col a))) as [m|] eqn:Em; cbn in H; [|discriminate].
    unfold update_colx in Em. destruct (update_base (x_col new_colx) (as_base (x_col a))) as [c|] eqn:Ec; cbn in Em; [|discriminate].
    injection Em as <-. unfold update_colx in H. cbn [x_col] in H.
    destruct (update_base c (as_base (x_col b))) as [d|] eqn:Ed; cbn in H; [|discriminate]. injection H as <-. cbn [x_col].
    destruct (update_base_ids _ _ _ Ec) as [I1 N1]. destruct (update_base_ids _ _ _ Ed) as [I2 N2]. cbn in N1, N2.
    pose proof (srep_nonempty _ _ S1 N1) as Ne1. pose proof (srep_nonempty _ _ S2 N2) as Ne2.
    destruct (update_base_rep_at is_null new_col [] _ r1 (srep_new is_null) (srep_brep is_null _ _ S1) Ne1) as [c' [E1 [R1 [_ [_ Z1]]]]].
    change (x_col new_colx) with (@new_col C) in Ec. rewrite Ec in E1. injection E1 as <-. rewrite (Z1 eq_refl), place_0 in R1. cbn [app] in R1.
    assert (Ic : c_ids c = c_ids (x_col a)).
    { rewrite I1. unfold next_ids, next_shift. cbn. destruct (c_ids (x_col a)) as [[lo hi]|]; [|reflexivity].
      cbn. rewrite !Z.add_0_r. reflexivity. }
    destruct (update_base_rep_at is_null c r1 _ r2 R1 (srep_brep is_null _ _ S2) Ne2) as [d' [E2 [R2 _]]].
    rewrite Ed in E2. injection E2 as <-. rewrite Ic in R2, I2. cbn [as_base b_ids] in R2, I2. auto.
  Qed.

  (** ** Histories *)

  Fixpoint frames (h : hist C) : list (frame C) :=
    match h with
    | HNew => []
    | HUpd h f => frames h ++ [f]
    | HAdd h1 h2 => frames h1 ++ frames h2
    end.

  Lemma combine_seq_nth {X} (l : list X) : forall s j, nth_error (combine (seq s (length l)) l) j =
    match nth_error l j with Some x => Some (s + j, x) | None => None end.
  Proof.
    induction l as [|x l IH]; intros s j; cbn [length seq combine]; [destruct j; reflexivity|].
    destruct j as [|j]; cbn [nth_error]; [rewrite Nat.add_0_r; reflexivity|]. rewrite IH.
    destruct (nth_error l j); [|reflexivity]. do 2 f_equal. lia.
  Qed.

  Lemma Forall2_nth_r {X Y} (Rel : X -> Y -> Prop) l l' : Forall2 Rel l l' ->
    forall j y, nth_error l' j = Some y -> exists x, nth_error l j = Some x /\ Rel x y.
  Proof.
    induction 1 as [|a b l l' Hab F IH]; intros j y E; [destruct j; discriminate|].
    destruct j as [|j]; cbn in *; [injection E as <-; eauto|]. apply IH. exact E.
  Qed.

  Lemma nth_error_combine {X Y} (l : list X) (l' : list Y) j x y :
    nth_error (combine l l') j = Some (x, y) -> nth_error l j = Some x /\ nth_error l' j = Some y.
  Proof.
    revert l' j. induction l as [|a l IH]; intros [|b l'] [|j] E; cbn in E; try discriminate.
    - injection E as <- <-. auto.
    - cbn. apply IH. exact E.
  Qed.

  (** The columns a profile is updated from. *)
  Definition cols_of (p : prof C) (f : frame C) : list (colx C) :=
    match p_cols p with [] => repeat new_colx (f_width f) | l => l end.

  Lemma update_inv p f p' : update p f = Ok p' -> exists cols',
    length cols' = length (cols_of p f) /\
    (forall j s', nth_error cols' j = Some s' -> exists s, nth_error (cols_of p f) j = Some s /\
       update_colx s (snd (clean_batch is_null order (column f j))) = Ok s') /\
    p' = update_rows (mkProf cols' (p_has p) (p_is p)) (f_rows f) (if f_min_true f =? 0 then None else Some (concat (f_chunks f))).
  Proof.
    unfold RowNullModel.update. fold (cols_of p f). intro H.
    destruct (mapM _ _) as [cols'|] eqn:E; cbn [bind] in H; [|discriminate]. injection H as <-.
    apply mapM_Forall2 in E. exists cols'. split; [|split; [|reflexivity]].
    - rewrite <- (Forall2_length E), combine_length, seq_length. lia.
    - intros j s' Es. destruct (Forall2_nth_r _ _ _ E j s' Es) as [[j' s] [E1 E2]]. rewrite combine_seq_nth in E1.
      destruct (nth_error (cols_of p f) j) as [s0|] eqn:E0; [|discriminate]. injection E1 as <- <-. exists s0. auto.
  Qed.

  Lemma add_inv a b p : RowNullModel.add a b = Ok p -> 0 < length (p_cols a) /\ length (p_cols b) = length (p_cols a) /\
    length (p_cols p) = length (p_cols a) /\ p_has p = p_has a + p_has b /\ p_is p = p_is a + p_is b /\
    forall j s, nth_error (p_cols p) j = Some s -> exists x y, nth_error (p_cols a) j = Some x /\ nth_error (p_cols b) j = Some y /\
      add_colx x y = Ok s.
  Proof.
    unfold RowNullModel.add. destruct (Nat.eqb_spec (length (p_cols a)) 0) as [|N1]; [discriminate|].
    destruct (Nat.eqb_spec (length (p_cols a)) (length (p_cols b))) as [N2|]; [|discriminate]. cbn [orb negb].
    intro H. destruct (mapM _ _) as [cols|] eqn:E; cbn [bind] in H; [|discriminate]. injection H as <-. cbn [p_cols p_has p_is].
    apply mapM_Forall2 in E. split; [lia|]. split; [auto|]. split; [rewrite <- (Forall2_length E), combine_length; lia|].
    split; [reflexivity|]. split; [reflexivity|]. intros j s Es. destruct (Forall2_nth_r _ _ _ E j s Es) as [[x y] [E1 E2]].
    apply nth_error_combine in E1. exists x, y. tauto.
  Qed.

  Lemma count_snd (p : label * list C -> bool) q (T T' : table) : (forall r, p r = q (snd r)) -> map snd T = map snd T' ->
    length (filter p T) = length (filter p T').
  Proof.
    intros Hp. revert T'. induction T as [|r T IH]; intros [|r' T'] E; try discriminate; [reflexivity|]. cbn in E.
    injection E as E1 E2. cbn [filter]. rewrite !Hp, E1. destruct (q (snd r')); cbn [length]; [f_equal|]; apply IH; exact E2.
  Qed.

  Lemma snd_place sh (T : table) : map snd (place sh T) = map snd T.
  Proof. unfold place. rewrite map_map. reflexivity. Qed.

  Lemma place_cell sh j (T : table) : map (cell j) (place sh T) = place sh (map (cell j) T).
  Proof. unfold place. rewrite !map_map. reflexivity. Qed.

  Lemma fst_cell j (T : table) : map fst (map (cell j) T) = map fst T.
  Proof. rewrite map_map. reflexivity. Qed.

  (** *** Counting over the whole profile *)

  (** A batch sampled in one piece, without a minimum of true samples. *)
  Definition one_piece (f : frame C) : Prop := f_min_true f = 0 /\ length (f_chunks f) = 1.

  (** The rows of a batch that were examined. *)
  Definition sampled (f : frame C) : table := pick (f_rows f) (concat (f_chunks f)).

  Lemma examined_one f j ex : one_piece f -> examined is_null (column f j) ex -> ex = map (cell j) (sampled f).
  Proof.
    intros [_ L] [k [Hk [E [_ K]]]]. cbn in Hk, E, K. rewrite L in *.
    assert (k = 1) by (destruct K as [K|[K _]]; lia). subst k. rewrite E. rewrite firstn_all2 by lia. apply pick_cell.
  Qed.

  Definition tinv (m : nat) (cols : list (colx C)) (T : table) : Prop :=
    length cols = m /\ NoDup (map fst T) /\ Forall (fun r => length (snd r) = m) T /\
    exists ids, forall j s, nth_error cols j = Some s -> srep (x_col s) (map (cell j) T) /\ c_ids (x_col s) = ids.

  Lemma tinv_new m : tinv m (repeat new_colx m) [].
  Proof.
    split; [apply repeat_length|]. split; [constructor|]. split; [constructor|]. exists None. intros j s E.
    apply nth_error_In, repeat_spec in E. subst s. split; [apply srep_new|reflexivity].
  Qed.

  Lemma tinv_counts m cols T : 0 < m -> tinv m cols T ->
    let '(n, h) := combine_nulls (map (col_nulls None) cols) in
    length h = length (filter some_null T) /\ length n = length (filter all_null T).
  Proof.
    intros Hm [L [Nd [W [ids Cs]]]]. apply (count_rows m); auto.
    - rewrite map_length. exact L.
    - apply Forall_forall. intros l Hl. apply in_map_iff in Hl. destruct Hl as [s [<- _]]. apply col_nulls_NoDup.
    - intros j l x E. rewrite nth_error_map in E. destruct (nth_error cols j) as [s|] eqn:Es; [|discriminate].
      injection E as <-. destruct (Cs j s Es) as [S _]. rewrite (col_nulls_all s _ x S). split.
      + intros [c [Hc I]]. apply In_cell in I. destruct I as [r [I <-]]. eauto.
      + intros [r [I Hn]]. eexists. split; [exact Hn|]. apply In_cell. eauto.
  Qed.

  Lemma sampled_width f : frame_ok f -> Forall (fun r => length (snd r) = f_width f) (sampled f).
  Proof.
    intros [_ [W _]]. apply Forall_forall. intros r I. apply pick_In in I. destruct I as [i [_ I]].
    rewrite Forall_forall in W. apply W. eapply nth_error_In. exact I.
  Qed.

  Lemma tinv_update m p f p' T : 0 < m -> frame_ok f -> one_piece f -> f_width f = m -> tinv m (cols_of p f) T ->
    update p f = Ok p' -> exists T', tinv m (p_cols p') T' /\ map snd T' = map snd T ++ map snd (sampled f) /\
      p_has p' = length (filter some_null T') /\ p_is p' = length (filter all_null T').
  Proof.
    intros Hm Hf H1 Wf [L [Nd [W [ids Cs]]]] U. destruct (update_inv p f p' U) as [cols' [L' [U' ->]]].
    destruct H1 as [H0 H1]. rewrite H0. cbn [Nat.eqb]. set (sh := next_shift ids (int_bounds (f_rows f))).
    assert (Step : forall j s', nth_error cols' j = Some s' -> srep (x_col s') (map (cell j) (T ++ place sh (sampled f))) /\
              c_ids (x_col s') = next_ids ids (int_bounds (f_rows f))).
    { intros j s' E. destruct (U' j s' E) as [s [E1 E2]]. destruct (Cs j s E1) as [S Hi].
      destruct (column_step f j s _ s' Hf S E2) as [ex [Ex [_ [S' [I' _]]]]]. rewrite Hi in S', I'. fold sh in S'.
      rewrite (examined_one f j ex (conj H0 H1) Ex) in S'. split; [|exact I']. rewrite map_app, place_cell. exact S'. }
    assert (TI : tinv m cols' (T ++ place sh (sampled f))).
    { split; [congruence|]. split; [|split].
      - assert (E0 : exists s, nth_error cols' 0 = Some s).
        { destruct (nth_error cols' 0) eqn:E; [eauto|]. apply nth_error_None in E. lia. }
        destruct E0 as [s E0]. destruct (Step 0 s E0) as [[S _] _]. rewrite fst_cell in S. exact S.
      - apply Forall_app. split; [exact W|]. apply Forall_forall. intros r I. pose proof (sampled_width f Hf) as Sw.
        rewrite Forall_forall in Sw. apply in_map_iff in I. destruct I as [r' [<- I]]. cbn. rewrite <- Wf. apply Sw. exact I.
      - eexists. exact Step. }
    exists (T ++ place sh (sampled f)). unfold update_rows. cbn [p_cols p_has p_is].
    pose proof (tinv_counts m cols' _ Hm TI) as Ct. destruct (combine_nulls (map (col_nulls None) cols')) as [n h].
    cbn [p_cols p_has p_is]. split; [exact TI|]. split; [rewrite map_app, snd_place; reflexivity|exact Ct].
  Qed.

  Lemma tinv_add m a b p T1 T2 : 0 < m -> tinv m (p_cols a) T1 -> tinv m (p_cols b) T2 -> RowNullModel.add a b = Ok p ->
    exists T', tinv m (p_cols p) T' /\ map snd T' = map snd T1 ++ map snd T2.
  Proof.
    intros Hm [L1 [Nd1 [W1 [ids1 C1]]]] [L2 [Nd2 [W2 [ids2 C2]]]] A. destruct (add_inv a b p A) as [_ [_ [L [_ [_ Cs]]]]].
    set (sh := next_shift ids1 ids2).
    assert (Step : forall j s, nth_error (p_cols p) j = Some s -> srep (x_col s) (map (cell j) (T1 ++ place sh T2)) /\
              c_ids (x_col s) = next_ids ids1 ids2).
    { intros j s E. destruct (Cs j s E) as [x [y [Ex [Ey Exy]]]]. destruct (C1 j x Ex) as [S1 I1]. destruct (C2 j y Ey) as [S2 I2].
      destruct (column_add x y s _ _ S1 S2 Exy) as [S [I _]]. rewrite I1, I2 in S, I. split; [|exact I].
      rewrite map_app, place_cell. exact S. }
    exists (T1 ++ place sh T2). split; [|rewrite map_app, snd_place; reflexivity]. split; [congruence|]. split; [|split].
    - assert (E0 : exists s, nth_error (p_cols p) 0 = Some s).
      { destruct (nth_error (p_cols p) 0) eqn:E; [eauto|]. apply nth_error_None in E. lia. }
      destruct E0 as [s E0]. destruct (Step 0 s E0) as [[S _] _]. rewrite fst_cell in S. exact S.
    - apply Forall_app. split; [exact W1|]. apply Forall_forall. intros r I.
      rewrite Forall_forall in W2. apply in_map_iff in I. destruct I as [r' [<- I]]. cbn. apply W2. exact I.
    - eexists. exact Step.
  Qed.

  Lemma run_table m : 0 < m -> forall h p, run h = Ok p ->
    Forall (fun f => frame_ok f /\ one_piece f /\ f_width f = m) (frames h) ->
    (frames h = [] /\ p = new_prof) \/
    (exists T, tinv m (p_cols p) T /\ map snd T = map snd (concat (map sampled (frames h))) /\
      p_has p = length (filter some_null T) /\ p_is p = length (filter all_null T)).
  Proof.
    intro Hm. induction h as [|h IH f|h1 IH1 h2 IH2]; intros p H F; cbn [RowNullModel.run frames] in *.
    - injection H as <-. left. auto.
    - destruct (run h) as [q|] eqn:Eq; cbn [bind] in H; [|discriminate].
      apply Forall_app in F. destruct F as [F Ff]. inversion Ff as [|? ? [Hf [H1 Wf]] _]; subst. specialize (IH q eq_refl F). right.
      destruct IH as [[En ->]|[T [TI [Em _]]]].
      + destruct (tinv_update (f_width f) new_prof f p [] Hm Hf H1 eq_refl (tinv_new _) H) as [T' [TI' [Em' Ct]]].
        exists T'. split; [exact TI'|]. split; [|exact Ct]. rewrite Em', En. cbn. rewrite app_nil_r. reflexivity.
      + assert (TI0 : tinv (f_width f) (cols_of q f) T).
        { unfold cols_of. destruct (p_cols q) eqn:Ep; [|exact TI]. destruct TI as [L _]. cbn in L. lia. }
        destruct (tinv_update (f_width f) q f p T Hm Hf H1 eq_refl TI0 H) as [T' [TI' [Em' Ct]]].
        exists T'. split; [exact TI'|]. split; [|exact Ct]. rewrite Em', Em, map_app, concat_app, map_app. cbn. rewrite app_nil_r. reflexivity.
    - destruct (run h1) as [a|] eqn:Ea; cbn [bind] in H; [|discriminate].
      destruct (run h2) as [b|] eqn:Eb; cbn [bind] in H; [|discriminate].
      apply Forall_app in F. destruct F as [F1 F2]. specialize (IH1 a eq_refl F1). specialize (IH2 b eq_refl F2). right.
      destruct (add_inv a b p H) as [A1 [A2 [A3 [A4 [A5 _]]]]].
      destruct IH1 as [[_ ->]|[T1 [TI1 [Em1 [Ch1 Ci1]]]]]; [cbn in A1; lia|].
      destruct IH2 as [[_ ->]|[T2 [TI2 [Em2 [Ch2 Ci2]]]]]; [cbn in A2; lia|].
      destruct (tinv_add m a b p T1 T2 Hm TI1 TI2 H) as [T [TI Em]]. exists T. split; [exact TI|].
      assert (E : map snd T = map snd (T1 ++ T2)) by (rewrite map_app; exact Em).
      split; [rewrite Em, Em1, Em2, map_app, concat_app, map_app; reflexivity|].
      rewrite (count_snd some_null (existsb is_null) T (T1 ++ T2) (fun _ => eq_refl) E).
      rewrite (count_snd all_null (forallb is_null) T (T1 ++ T2) (fun _ => eq_refl) E).
      rewrite !filter_app, !app_length. lia.
  Qed.

  Lemma fold_min_same n : forall ns, Forall (fun k => k = n) ns -> fold_left Nat.min ns n = n.
  Proof. induction ns as [|k ns IH]; intro F; cbn; [reflexivity|]. inversion F; subst. rewrite Nat.min_id. auto. Qed.

  Lemma tinv_samples m p T : 0 < m -> tinv m (p_cols p) T -> min_samples_used p = length T.
  Proof.
    intros Hm [L [_ [_ [ids Cs]]]]. unfold min_samples_used.
    assert (F : Forall (fun k => k = length T) (map (fun s : colx C => c_size (x_col s)) (p_cols p))).
    { apply Forall_forall. intros k I. apply in_map_iff in I. destruct I as [s [<- I]]. apply In_nth_error in I. destruct I as [j E].
      destruct (Cs j s E) as [[_ [-> _]] _]. apply map_length. }
    destruct (map (fun s : colx C => c_size (x_col s)) (p_cols p)) as [|n ns] eqn:E.
    - apply map_eq_nil in E. rewrite E in L. cbn in L. lia.
    - inversion F; subst. apply fold_min_same. assumption.
  Qed.
End RowNull.
