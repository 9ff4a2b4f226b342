(** Rows with nulls, counted batch by batch (min_true_samples above 0). *)
From Coq Require Import QArith Lia Permutation.
From Verif Require Import PyCommon ListFacts PyDict NullModel NullProofs NullProofs2 RowNullModel RowProofs RowNullProofs.
Local Open Scope nat_scope.

Section RowNull2.
  Context {C : Type} {EC : EqDecB C}.
  Variable is_null : C -> bool.
  Variable order : list label -> list label.
  Hypothesis order_perm : forall l, Permutation (order l) l.
  Variable dflt : C.

  Notation cell := (cell dflt).
  Notation column := (column dflt).
  Notation srep := (srep is_null).
  Notation some_null := (some_null is_null).
  Notation all_null := (all_null is_null).
  Notation update := (update is_null order dflt).
  Notation run := (run is_null order dflt).
  Notation table := (list (label * list C)).

  (** A batch sampled with a minimum of true samples, whose rows include one labelled 0. *)
  Definition with_min (f : frame C) : Prop := f_min_true f <> 0 /\ In (LI 0) (map fst (f_rows f)).

  (** The rows every column has examined, in sampling order: as many as the column that examined fewest. *)
  Definition counted (f : frame C) (R : table) : Prop := exists K, R = firstn K (sampled f) /\
    (forall j ex, j < f_width f -> examined is_null (column f j) ex -> K <= length ex) /\
    (exists j ex, j < f_width f /\ examined is_null (column f j) ex /\ length ex = K).

  Lemma examined_det (t : batch C) e1 e2 : examined is_null t e1 -> examined is_null t e2 -> e1 = e2.
  Proof.
    intros [k1 [L1 [E1 [N1 S1]]]] [k2 [L2 [E2 [N2 S2]]]].
    destruct (lt_eq_lt_dec k1 k2) as [[Lt|Eq]|Gt]; [|subst; reflexivity|].
    - destruct S1 as [S1|[P1 S1]]; [lia|]. exfalso. apply (N2 k1); [lia|]. rewrite <- E1. exact S1.
    - destruct S2 as [S2|[P2 S2]]; [lia|]. exfalso. apply (N1 k2); [lia|]. rewrite <- E2. exact S2.
  Qed.

  Lemma pick_app {X} (R : list (label * X)) a b : pick R (a ++ b) = pick R a ++ pick R b.
  Proof. apply flat_map_app. Qed.

  Lemma firstn_app_l {X} (a b : list X) : firstn (length a) (a ++ b) = a.
  Proof. rewrite firstn_app, firstn_all, Nat.sub_diag. cbn. apply app_nil_r. Qed.

  (** What a column examines is an initial segment of the sampled rows. *)
  Lemma examined_prefix f j ex : examined is_null (column f j) ex -> ex = map (cell j) (firstn (length ex) (sampled f)).
  Proof.
    intros [k [_ [E _]]]. cbn in E. rewrite pick_cell in E. rewrite E, map_length. unfold sampled.
    rewrite <- (firstn_skipn k (f_chunks f)) at 3. rewrite concat_app, pick_app, firstn_app_l. reflexivity.
  Qed.

  Lemma pick_length {X} (R : list (label * X)) ids : Forall (fun i => i < length R) ids -> length (pick R ids) = length ids.
  Proof.
    induction ids as [|i ids IH]; intro F; [reflexivity|]. inversion F; subst. unfold pick in *. cbn [flat_map length].
    rewrite app_length, IH by assumption. destruct (nth_error R i) eqn:E; [reflexivity|]. apply nth_error_None in E. lia.
  Qed.

  Lemma pick_firstn {X} (R : list (label * X)) ids K : Forall (fun i => i < length R) ids ->
    pick R (firstn K ids) = firstn K (pick R ids).
  Proof.
    revert K. induction ids as [|i ids IH]; intros K F; [rewrite !firstn_nil; reflexivity|].
    destruct K as [|K]; [reflexivity|]. inversion F; subst. unfold pick in *. cbn [firstn flat_map].
    destruct (nth_error R i) eqn:E; [|apply nth_error_None in E; lia]. cbn [app firstn]. f_equal. apply IH. assumption.
  Qed.

  Lemma fold_min_spec : forall ns n, let k := fold_left Nat.min ns n in
    k <= n /\ Forall (fun x => k <= x) ns /\ (k = n \/ In k ns).
  Proof.
    induction ns as [|x ns IH]; intros n; cbn [fold_left]; [repeat split; auto|].
    specialize (IH (Nat.min n x)). cbn in IH. destruct IH as [H1 [H2 H3]]. split; [lia|]. split; [constructor; [lia|exact H2]|].
    destruct H3 as [H3|H3]; [|right; right; exact H3]. destruct (Nat.min_dec n x) as [E|E]; rewrite E in H3; [left|right; left]; congruence.
  Qed.

  Lemma min_sampled_spec (cols : list (colx C)) : cols <> [] -> (forall s, In s cols -> exists n, x_last s = Some n) ->
    (forall s n, In s cols -> x_last s = Some n -> min_sampled cols <= n) /\
    (exists s, In s cols /\ x_last s = Some (min_sampled cols)).
  Proof.
    intros Ne A. unfold min_sampled. set (ls := flat_map _ cols).
    assert (I : forall n, In n ls <-> exists s, In s cols /\ x_last s = Some n).
    { intro n. unfold ls. rewrite in_flat_map. split.
      - intros [s [Is H]]. destruct (x_last s) as [k|] eqn:E; [|destruct H]. destruct H as [<-|[]]. eauto.
      - intros [s [Is H]]. exists s. split; [exact Is|]. rewrite H. left. reflexivity. }
    destruct ls as [|n ns] eqn:E.
    { destruct cols as [|s cols]; [congruence|]. destruct (A s (or_introl eq_refl)) as [k Hk].
      destruct (proj2 (I k)). exists s. cbn. auto. }
    destruct (fold_min_spec ns n) as [M1 [M2 M3]]. rewrite Forall_forall in M2. split.
    - intros s k Is Hk. assert (Ik : In k (n :: ns)) by (apply I; eauto). destruct Ik as [<-|Ik]; [exact M1|apply M2; exact Ik].
    - apply I. destruct M3 as [M3|M3]; [rewrite M3; left; reflexivity|right; exact M3].
  Qed.

  Lemma shift_0 l : shift_label 0 l = l.
  Proof. destruct l; cbn; [f_equal; lia|reflexivity]. Qed.

  Definition zero_low (ids : option (Z * Z)) : Prop := match ids with Some (lo, hi) => (lo = 0 /\ 0 <= hi)%Z | None => True end.

  Definition cinv (m : nat) (cols : list (colx C)) : Prop :=
    length cols = m /\ exists ids, zero_low ids /\ forall j s, nth_error cols j = Some s ->
      (exists r, srep (x_col s) r) /\ c_ids (x_col s) = ids /\ (ids = None -> x_shift s = None).

  Lemma cinv_new m : cinv m (repeat new_colx m).
  Proof.
    split; [apply repeat_length|]. exists None. split; [exact I|]. intros j s E. apply nth_error_In, repeat_spec in E. subst s.
    split; [exists []; apply srep_new|]. split; reflexivity.
  Qed.

  Lemma bounds_zero f : frame_ok f -> with_min f -> exists hi, int_bounds (f_rows f) = Some (0, hi)%Z /\ (0 <= hi)%Z.
  Proof.
    intros [_ [_ [_ [Lb _]]]] [_ I0]. apply in_map_iff in I0. destruct I0 as [r0 [E0 I0]].
    destruct (int_bounds_spec (f_rows f)) as [lo [hi [E [B A]]]]; [intro E; rewrite E in I0; destruct I0|exact Lb|].
    destruct (A r0 I0) as [z [Ez Bz]]. rewrite E0 in Ez. injection Ez as <-. exists hi.
    assert (lo = 0%Z) by lia. subst lo. split; [exact E|lia].
  Qed.

  Lemma cinv_update m p f p' : 0 < m -> frame_ok f -> with_min f -> f_width f = m -> cinv m (cols_of p f) -> update p f = Ok p' ->
    cinv m (p_cols p') /\ exists R, counted f R /\
      p_has p' = p_has p + length (filter some_null R) /\ p_is p' = p_is p + length (filter all_null R).
  Proof.
    intros Hm Hf Hw Wf [L [ids [Z0 Cs]]] U. destruct (bounds_zero f Hf Hw) as [bh [Eb Hb]].
    destruct Hw as [Hw _]. destruct (update_inv is_null order dflt p f p' U) as [cols' [L' [U' ->]]].
    destruct (Nat.eqb_spec (f_min_true f) 0) as [|_]; [contradiction|].
    set (sh := next_shift ids (int_bounds (f_rows f))).
    assert (Step : forall j s', nth_error cols' j = Some s' -> exists ex r,
      examined is_null (column f j) ex /\ srep (x_col s') (r ++ place sh ex) /\
      c_ids (x_col s') = next_ids ids (int_bounds (f_rows f)) /\ x_last s' = Some (length ex) /\
      (forall l, match x_shift s' with None => l | Some z => shift_label z l end = shift_label sh l)).
    { intros j s' E. destruct (U' j s' E) as [s [E1 E2]]. destruct (Cs j s E1) as [[r S] [Hi Hs]].
      destruct (column_step is_null order order_perm dflt f j s r s' Hf S E2) as [ex [Ex [_ [S' [I' [La Sh]]]]]].
      rewrite Hi in S', I', Sh. fold sh in S'. exists ex, r. split; [exact Ex|]. split; [exact S'|]. split; [exact I'|]. split; [exact La|].
      intro l. rewrite Sh. unfold sh, next_shift. rewrite Eb. destruct ids as [[lo hi]|].
      - destruct Z0 as [-> Hh]. unfold overlap. replace (0 <=? 0)%Z with true by reflexivity. destruct (Z.leb_spec 0 bh); [|lia].
        cbn [andb orb]. reflexivity.
      - cbn [overlap]. rewrite (Hs eq_refl), shift_0. reflexivity. }
    assert (Ne : cols' <> []) by (intros ->; cbn in L'; lia).
    destruct (min_sampled_spec cols' Ne) as [M1 M2].
    { intros s I. apply In_nth_error in I. destruct I as [j E]. destruct (Step j s E) as [ex [r [_ [_ [_ [La _]]]]]]. eauto. }
    assert (CI : cinv m cols').
    { split; [congruence|]. exists (next_ids ids (int_bounds (f_rows f))). split.
      - unfold next_ids. rewrite Eb. destruct ids as [[lo hi]|]; cbn.
        + destruct Z0 as [-> Hh]. unfold next_shift, overlap. destruct (Z.leb_spec 0 bh); [|lia].
          destruct (Z.leb_spec 0 0); [|lia]. cbn [andb orb]. split; lia.
        + unfold next_shift. cbn. lia.
      - intros j s E. destruct (Step j s E) as [ex [r [_ [S [I' _]]]]]. split; [eauto|]. split; [exact I'|].
        rewrite Eb. unfold next_ids. destruct ids as [[lo hi]|]; discriminate. }
    set (K := min_sampled cols') in *. set (R := firstn K (sampled f)).
    assert (HK : forall j s ex, nth_error cols' j = Some s -> examined is_null (column f j) ex -> K <= length ex).
    { intros j s ex E Ex. destruct (Step j s E) as [ex' [r [Ex' [_ [_ [La _]]]]]]. rewrite (examined_det _ _ _ Ex Ex').
      apply (M1 s); [eapply nth_error_In; exact E|exact La]. }
    assert (CR : counted f R).
    { exists K. split; [reflexivity|]. split.
      - intros j ex Hj Ex. destruct (nth_error cols' j) as [s|] eqn:E; [|apply nth_error_None in E; lia]. eapply HK; eassumption.
      - destruct M2 as [s [I La]]. apply In_nth_error in I. destruct I as [j E]. destruct (Step j s E) as [ex [r [Ex [_ [_ [La' _]]]]]].
        exists j, ex. split; [|split; [exact Ex|congruence]]. rewrite Wf, <- L, <- L'. apply nth_error_Some. congruence. }
    unfold update_rows. cbn [p_cols p_has p_is]. fold K.
    set (sel := flat_map _ _).
    assert (Vl : Forall (fun i => i < length (f_rows f)) (concat (f_chunks f))) by (destruct Hf as [_ [_ [_ [_ [_ V]]]]]; exact V).
    assert (Hsel : sel = map fst R).
    { unfold R, sampled. rewrite <- pick_firstn by exact Vl. unfold sel, pick. clear.
      induction (firstn K (concat (f_chunks f))) as [|i l IH]; [reflexivity|]. cbn [flat_map]. rewrite IH, map_app.
      destruct (nth_error (f_rows f) i); reflexivity. }
    (* the counted rows belong to what each column has *)
    assert (Pre : forall j s ex, nth_error cols' j = Some s -> examined is_null (column f j) ex ->
              exists rest, ex = map (cell j) R ++ rest).
    { intros j s ex E Ex. pose proof (HK j s ex E Ex) as Hk. rewrite (examined_prefix f j ex Ex). unfold R.
      exists (map (cell j) (skipn K (firstn (length ex) (sampled f)))). rewrite <- map_app. f_equal.
      rewrite <- (firstn_skipn K (firstn (length ex) (sampled f))) at 1. f_equal. rewrite firstn_firstn. f_equal. lia. }
    assert (Nd : NoDup (map fst (place sh R))).
    { destruct (nth_error cols' 0) as [s|] eqn:E; [|apply nth_error_None in E; lia].
      destruct (Step 0 s E) as [ex [r [Ex [[S _] _]]]]. destruct (Pre 0 s ex E Ex) as [rest ->].
      unfold place in *. rewrite map_app in S. apply NoDup_app_r in S. rewrite map_app, map_app in S. apply NoDup_app_l in S.
      rewrite map_map, map_map in S. rewrite map_map. exact S. }
    assert (Ct : let '(n, h) := combine_nulls (map (col_nulls (Some sel)) cols') in
              length h = length (filter some_null (place sh R)) /\ length n = length (filter all_null (place sh R))).
    { apply (count_rows is_null dflt m); auto.
      - rewrite map_length. congruence.
      - apply Forall_forall. intros l I. apply in_map_iff in I. destruct I as [s [<- _]]. unfold col_nulls.
        apply NoDup_filter. apply (col_nulls_NoDup None s).
      - apply Forall_forall. intros r I. apply in_map_iff in I. destruct I as [r' [<- I]]. cbn. unfold R in I. apply In_firstn in I.
        pose proof (sampled_width f Hf) as Sw. rewrite Forall_forall in Sw. rewrite <- Wf. apply Sw. exact I.
      - intros j l x E. rewrite nth_error_map in E. destruct (nth_error cols' j) as [s|] eqn:Es; [|discriminate]. injection E as <-.
        destruct (Step j s Es) as [ex [r [Ex [S [_ [_ Sh]]]]]]. destruct (Pre j s ex Es Ex) as [rest Erest].
        assert (Hall : In x (col_nulls (Some sel) s) <-> In x (col_nulls None s) /\ In x (map (shift_label sh) sel)).
        { unfold col_nulls at 1. rewrite filter_In. rewrite lmem_In. unfold col_nulls at 1.
          assert (Em : match x_shift s with None => sel | Some z => map (shift_label z) sel end = map (shift_label sh) sel).
          { destruct (x_shift s) as [z|].
            - apply map_ext. exact Sh.
            - rewrite <- (map_id sel) at 1. apply map_ext. exact Sh. }
          rewrite Em. tauto. }
        rewrite Hall, (col_nulls_all is_null s _ x S), Hsel, Erest. clear Hall. split.
        + intros [[c [Hc Ic]] Ix]. apply in_map_iff in Ix. destruct Ix as [lx [<- Ix]]. apply in_map_iff in Ix.
          destruct Ix as [r0 [<- I0]]. exists (snd r0). split.
          * unfold place. apply in_map_iff. exists r0. auto.
          * assert (I2 : In (shift_label sh (fst r0), nth j (snd r0) dflt) (r ++ place sh ex)).
            { apply in_or_app. right. rewrite Erest. unfold place. rewrite map_app. apply in_or_app. left.
              rewrite map_map. apply in_map_iff. exists r0. auto. }
            rewrite <- Erest in Ic. destruct S as [Sn _].
            rewrite <- (fst_unique (r ++ place sh ex) _ c (nth j (snd r0) dflt) Sn Ic I2). exact Hc.
        + intros [r0 [I0 Hn]]. unfold place in I0. apply in_map_iff in I0. destruct I0 as [r1 [E1 I1]]. injection E1 as <- <-. split.
          * exists (nth j (snd r1) dflt). split; [exact Hn|]. apply in_or_app. right. unfold place. rewrite map_app. apply in_or_app. left.
            rewrite map_map. apply in_map_iff. exists r1. auto.
          * apply in_map. apply in_map. exact I1. }
    destruct (combine_nulls (map (col_nulls (Some sel)) cols')) as [n h]. cbn [p_cols p_has p_is]. split; [exact CI|].
    exists R. split; [exact CR|]. destruct Ct as [-> ->].
    rewrite (count_snd some_null (existsb is_null) (place sh R) R (fun _ => eq_refl) (snd_place sh R)).
    rewrite (count_snd all_null (forallb is_null) (place sh R) R (fun _ => eq_refl) (snd_place sh R)). auto.
  Qed.

  Lemma cinv_add m a b p : cinv m (p_cols a) -> cinv m (p_cols b) -> RowNullModel.add a b = Ok p -> cinv m (p_cols p).
  Proof.
    intros [L1 [ids1 [Z1 C1]]] [L2 [ids2 [Z2 C2]]] A. destruct (add_inv is_null dflt a b p A) as [A1 [_ [L [_ [_ Cs]]]]].
    split; [congruence|]. exists (next_ids ids1 ids2).
    assert (G : forall j s, nth_error (p_cols p) j = Some s -> (exists r, srep (x_col s) r) /\
              c_ids (x_col s) = next_ids ids1 ids2 /\ ids1 <> None).
    { intros j s E. destruct (Cs j s E) as [x [y [Ex [Ey Exy]]]]. destruct (C1 j x Ex) as [[r1 S1] [I1 _]].
      destruct (C2 j y Ey) as [[r2 S2] [I2 _]]. destruct (column_add is_null x y s r1 r2 S1 S2 Exy) as [S [I [N1 N2]]].
      split; [eauto|]. rewrite I1, I2 in I. split; [exact I|]. intro En. destruct S1 as [_ [_ [_ [B _]]]]. rewrite I1, En in B.
      cbn in B. contradiction. }
    split.
    - destruct ids1 as [[lo1 hi1]|], ids2 as [[lo2 hi2]|]; cbn in Z1, Z2 |- *; auto; unfold next_shift, overlap.
      + destruct Z1 as [-> H1], Z2 as [-> H2]. destruct (Z.leb_spec 0 hi2); [|lia]. destruct (Z.leb_spec 0 0); [|lia].
        cbn [andb orb]. lia.
      + rewrite !Z.add_0_r. exact Z2.
    - intros j s E. destruct (G j s E) as [S [I N]]. split; [exact S|]. split; [exact I|]. intro En.
      destruct ids1 as [[lo hi]|]; [|congruence]. unfold next_ids in En. destruct ids2 as [[lo' hi']|]; discriminate.
  Qed.

  Lemma run_counted m : 0 < m -> forall h p, run h = Ok p ->
    Forall (fun f => frame_ok f /\ with_min f /\ f_width f = m) (frames h) ->
    ((frames h = [] /\ p = new_prof) \/ cinv m (p_cols p)) /\
    exists Rs, Forall2 counted (frames h) Rs /\
      p_has p = length (filter some_null (concat Rs)) /\ p_is p = length (filter all_null (concat Rs)).
  Proof.
    intro Hm. induction h as [|h IH f|h1 IH1 h2 IH2]; intros p H F; cbn [RowNullModel.run frames] in *.
    - injection H as <-. split; [left; auto|]. exists []. repeat split; constructor.
    - destruct (run h) as [q|] eqn:Eq; cbn [bind] in H; [|discriminate].
      apply Forall_app in F. destruct F as [F Ff]. inversion Ff as [|? ? [Hf [Hw Wf]] _]; subst.
      destruct (IH q eq_refl F) as [CI [Rs [FR [Eh Ei]]]].
      assert (CI0 : cinv (f_width f) (cols_of q f)).
      { destruct CI as [[_ ->]|CI]; [apply cinv_new|]. unfold cols_of. destruct (p_cols q) eqn:Ep; [|exact CI].
        destruct CI as [L _]. cbn in L. lia. }
      destruct (cinv_update (f_width f) q f p Hm Hf Hw eq_refl CI0 H) as [CI' [R [CR [Eh' Ei']]]].
      split; [right; exact CI'|]. exists (Rs ++ [R]). split; [apply Forall2_app; [exact FR|constructor; [exact CR|constructor]]|].
      rewrite Eh', Ei', Eh, Ei, concat_app. cbn. rewrite app_nil_r, !filter_app, !app_length. auto.
    - destruct (run h1) as [a|] eqn:Ea; cbn [bind] in H; [|discriminate].
      destruct (run h2) as [b|] eqn:Eb; cbn [bind] in H; [|discriminate].
      apply Forall_app in F. destruct F as [F1 F2]. destruct (IH1 a eq_refl F1) as [CI1 [Rs1 [FR1 [Eh1 Ei1]]]].
      destruct (IH2 b eq_refl F2) as [CI2 [Rs2 [FR2 [Eh2 Ei2]]]]. destruct (add_inv is_null dflt a b p H) as [A1 [A2 [A3 [A4 [A5 _]]]]].
      destruct CI1 as [[_ ->]|CI1]; [cbn in A1; lia|]. destruct CI2 as [[_ ->]|CI2]; [cbn in A2; lia|].
      split; [right; exact (cinv_add m a b p CI1 CI2 H)|]. exists (Rs1 ++ Rs2). split; [apply Forall2_app; assumption|].
      rewrite A4, A5, Eh1, Eh2, Ei1, Ei2, concat_app, !filter_app, !app_length. auto.
  Qed.
End RowNull2.
