(** Lemmas about NerModel: relabelling words. *)
From Coq Require Import QArith.
From Verif Require Import PyCommon PyDict ListFacts RowModel RowProofs NerModel.
Local Open Scope nat_scope.

Section Words.
  Context {C : Type}.
  Variable is_sep : C -> bool.
  Variable bg : nat.
  Variable pct : Q.

  (** A label may dominate a word if it occurs at least twice and often enough. *)
  Definition eligible (w : list nat) (l : nat) : Prop :=
    1 < occ l w /\ (pct <= inject_Z (Z.of_nat (occ l w)) / inject_Z (Z.of_nat (Nat.max (length w) 1)))%Q.

  (** The most frequent eligible label, the background label first, then the first to occur; the
      background label if none is eligible. *)
  Definition dominant (w : list nat) (l : nat) : Prop :=
    (eligible w l /\ (forall l', eligible w l' -> occ l' w <= occ l w) /\
       exists pre post, bg :: w = pre ++ l :: post /\ forall l', In l' pre -> eligible w l' -> occ l' w < occ l w)
    \/ (l = bg /\ forall l', ~ eligible w l').

  Notation counted w := (fold_left count_label w [(bg, 0)]).

  Lemma counted_snoc w x : counted (w ++ [x]) = count_label (counted w) x.
  Proof. rewrite fold_left_app. reflexivity. Qed.

  Lemma get_count d x l : dget (count_label d x) l = if eqb x l then Some (S (match dget d x with Some c => c | None => 0 end)) else dget d l.
  Proof. apply dget_dset. Qed.

  Lemma keys_count d x : dkeys (count_label d x) = if dmem d x then dkeys d else dkeys d ++ [x].
  Proof. apply dkeys_dset. Qed.

  Lemma counted_NoDup w : NoDup (dkeys (counted w)).
  Proof.
    induction w as [|x w IH] using rev_ind; [repeat constructor; cbn; tauto|]. rewrite counted_snoc.
    unfold count_label. apply NoDup_dset. exact IH.
  Qed.

  Lemma counted_keys w l : In l (dkeys (counted w)) <-> In l (bg :: w).
  Proof.
    induction w as [|x w IH] using rev_ind; [reflexivity|]. rewrite counted_snoc. unfold count_label.
    rewrite In_dkeys_dset, IH. cbn [In]. rewrite in_app_iff. cbn [In]. intuition auto.
  Qed.

  Lemma counted_get w l : dget (counted w) l = if lmem (bg :: w) l then Some (occ l w) else None.
  Proof.
    induction w as [|x w IH] using rev_ind.
    - cbn [fold_left dget lmem existsb occ]. destruct (eqb_spec bg l) as [->|H].
      + rewrite eqb_refl. reflexivity.
      + replace (eqb l bg) with false by (symmetry; apply eqb_neq; congruence). reflexivity.
    - rewrite counted_snoc, get_count, occ_app. cbn [occ].
      destruct (eqb_spec x l) as [->|H].
      + rewrite IH. assert (E : lmem (bg :: w ++ [l]) l = true).
        { apply lmem_In. right. apply in_or_app. right. left. reflexivity. }
        rewrite E. destruct (lmem (bg :: w) l) eqn:M; [f_equal; lia|].
        apply lmem_false in M. assert (occ l w = 0).
        { destruct (occ l w) eqn:O; [reflexivity|]. exfalso. apply M. right. apply occ_pos. lia. }
        f_equal. lia.
      + rewrite IH. assert (E : lmem (bg :: w ++ [x]) l = lmem (bg :: w) l).
        { destruct (lmem (bg :: w) l) eqn:M.
          - apply lmem_In. apply lmem_In in M. destruct M as [M|M]; [left; exact M|right; apply in_or_app; left; exact M].
          - apply lmem_false. apply lmem_false in M. intros [K|K]; [apply M; left; exact K|].
            apply in_app_or in K. destruct K as [K|[K|[]]]; [apply M; right; exact K|congruence]. }
        rewrite E. destruct (lmem (bg :: w) l); [f_equal; lia|reflexivity].
  Qed.

  Lemma sum_dset d x : NoDup (dkeys d) -> list_sum (dvals (count_label d x)) = S (list_sum (dvals d)).
  Proof.
    unfold count_label. induction d as [|[k v] d IH]; intro H; [reflexivity|].
    inversion H as [|? ? Hk Hd]; subst. cbn [dget]. destruct (eqb_spec k x) as [->|Hn].
    - cbn [dset]. rewrite eqb_refl. reflexivity.
    - cbn [dset]. replace (eqb k x) with false by (symmetry; apply eqb_neq; exact Hn).
      change (v + list_sum (dvals (dset d x (S (match dget d x with Some c => c | None => 0 end)))) = S (v + list_sum (dvals d))).
      rewrite (IH Hd). lia.
  Qed.

  Lemma counted_sum w : list_sum (dvals (counted w)) = length w.
  Proof.
    induction w as [|x w IH] using rev_ind; [reflexivity|]. rewrite counted_snoc, sum_dset by apply counted_NoDup.
    rewrite IH, app_length. cbn. lia.
  Qed.

  Lemma counted_first w : forall ks1 l ks2, dkeys (counted w) = ks1 ++ l :: ks2 ->
    exists pre post, bg :: w = pre ++ l :: post /\ incl pre ks1.
  Proof.
    induction w as [|x w IH] using rev_ind; intros ks1 l ks2 E.
    - cbn in E. destruct ks1 as [|k ks1]; [|destruct ks1; discriminate]. injection E as <- _. exists [], []. split; [reflexivity|intros ? []].
    - rewrite counted_snoc, keys_count in E. destruct (dmem (counted w) x) eqn:M.
      + destruct (IH _ _ _ E) as (pre & post & E1 & I). exists pre, (post ++ [x]). split; [|exact I].
        rewrite app_comm_cons, E1, <- app_assoc. reflexivity.
      + destruct ks2 as [|y ks2] using rev_ind.
        * apply app_inj_tail in E. destruct E as [E ->]. exists (bg :: w), []. split; [reflexivity|].
          intros k Hk. rewrite <- E. apply counted_keys. exact Hk.
        * clear IHks2. rewrite app_comm_cons, app_assoc in E. apply app_inj_tail in E. destruct E as [E _].
          destruct (IH _ _ _ E) as (pre & post & E1 & I). exists pre, (post ++ [x]). split; [|exact I].
          rewrite app_comm_cons, E1, <- app_assoc. reflexivity.
  Qed.

  Lemma dominate_fold (ok : nat * nat -> bool) (d : list (nat * nat)) :
    let r := fold_left (fun acc kv => if ok kv && (snd acc <? snd kv) then kv else acc) d (bg, 1) in
    (r = (bg, 1) /\ forall kv, In kv d -> ok kv = true -> snd kv <= 1) \/
    (1 < snd r /\ ok r = true /\ (forall kv, In kv d -> ok kv = true -> snd kv <= snd r) /\
       exists pre post, d = pre ++ r :: post /\ forall kv, In kv pre -> ok kv = true -> snd kv < snd r).
  Proof.
    induction d as [|x d IH] using rev_ind; cbv zeta in *.
    - left. split; [reflexivity|intros ? []].
    - rewrite fold_left_app. cbn [fold_left].
      set (r := fold_left (fun acc kv => if ok kv && (snd acc <? snd kv) then kv else acc) d (bg, 1)) in *.
      destruct (ok x) eqn:Ox; cbn [andb].
      + destruct (snd r <? snd x) eqn:Lt.
        * apply Nat.ltb_lt in Lt. right. destruct IH as [[Er H]|(H1 & H2 & H3 & _)].
          -- rewrite Er in Lt. cbn [snd] in Lt. split; [exact Lt|]. split; [exact Ox|]. split.
             ++ intros kv Hi Hk. apply in_app_or in Hi. destruct Hi as [Hi|[->|[]]]; [|lia]. specialize (H kv Hi Hk). lia.
             ++ exists d, []. split; [reflexivity|]. intros kv Hi Hk. specialize (H kv Hi Hk). lia.
          -- split; [lia|]. split; [exact Ox|]. split.
             ++ intros kv Hi Hk. apply in_app_or in Hi. destruct Hi as [Hi|[->|[]]]; [|lia]. specialize (H3 kv Hi Hk). lia.
             ++ exists d, []. split; [reflexivity|]. intros kv Hi Hk. specialize (H3 kv Hi Hk). lia.
        * apply Nat.ltb_ge in Lt. destruct IH as [[Er H]|(H1 & H2 & H3 & pre & post & H4 & H5)].
          -- left. split; [exact Er|]. intros kv Hi Hk. apply in_app_or in Hi. destruct Hi as [Hi|[->|[]]]; [apply H; assumption|].
             rewrite Er in Lt. exact Lt.
          -- right. split; [exact H1|]. split; [exact H2|]. split.
             ++ intros kv Hi Hk. apply in_app_or in Hi. destruct Hi as [Hi|[->|[]]]; [apply H3; assumption|exact Lt].
             ++ exists pre, (post ++ [x]). split; [rewrite H4 at 1; rewrite <- app_assoc; reflexivity|exact H5].
      + destruct IH as [[Er H]|(H1 & H2 & H3 & pre & post & H4 & H5)].
        * left. split; [exact Er|]. intros kv Hi Hk. apply in_app_or in Hi. destruct Hi as [Hi|[->|[]]]; [apply H; assumption|congruence].
        * right. split; [exact H1|]. split; [exact H2|]. split.
          -- intros kv Hi Hk. apply in_app_or in Hi. destruct Hi as [Hi|[->|[]]]; [apply H3; assumption|congruence].
          -- exists pre, (post ++ [x]). split; [rewrite H4 at 1; rewrite <- app_assoc; reflexivity|exact H5].
  Qed.

  Lemma dominate_spec w : dominant w (dominate bg pct (counted w)).
  Proof.
    unfold dominate. rewrite counted_sum. set (tot := inject_Z (Z.of_nat (Nat.max (length w) 1))).
    pose proof (dominate_fold (fun kv => Qle_bool pct (inject_Z (Z.of_nat (snd kv)) / tot)) (counted w)) as H. cbv zeta in H.
    set (r := fold_left _ (counted w) (bg, 1)) in *.
    assert (G : forall kv, In kv (counted w) -> snd kv = occ (fst kv) w).
    { intros [k c] Hi. apply (dget_In _ _ _ (counted_NoDup w)) in Hi. rewrite counted_get in Hi.
      destruct (lmem (bg :: w) k); [injection Hi as <-; reflexivity|discriminate]. }
    assert (El : forall l, eligible w l -> exists kv, In kv (counted w) /\ fst kv = l /\ snd kv = occ l w /\
              Qle_bool pct (inject_Z (Z.of_nat (snd kv)) / tot) = true /\ 1 < snd kv).
    { intros l [E1 E2]. assert (Hi : In l (bg :: w)) by (right; apply occ_pos; lia).
      apply counted_keys in Hi. unfold dkeys in Hi. apply in_map_iff in Hi. destruct Hi as (kv & Ek & Hi). exists kv. split; [exact Hi|].
      split; [exact Ek|]. pose proof (G kv Hi) as Gk. rewrite Ek in Gk. split; [exact Gk|]. rewrite Gk. split; [|exact E1].
      apply Qle_bool_iff. exact E2. }
    destruct H as [[Er H]|(H1 & H2 & H3 & pre & post & H4 & H5)].
    - right. rewrite Er. split; [reflexivity|]. intros l Hl. destruct (El l Hl) as (kv & I1 & _ & _ & I4 & I5). specialize (H kv I1 I4). lia.
    - left. assert (Hr : In r (counted w)) by (rewrite H4; apply in_or_app; right; left; reflexivity).
      pose proof (G r Hr) as Gr. split; [|split].
      + split; [lia|]. rewrite <- Gr. apply Qle_bool_iff. exact H2.
      + intros l Hl. destruct (El l Hl) as (kv & I1 & I2 & I3 & I4 & I5). specialize (H3 kv I1 I4). lia.
      + destruct (counted_first w (map fst pre) (fst r) (map fst post)) as (pre' & post' & E1 & I).
        { unfold dkeys. rewrite H4 at 1. rewrite map_app. reflexivity. }
        exists pre', post'. split; [exact E1|]. intros l Hl El'. apply I in Hl. apply in_map_iff in Hl. destruct Hl as (kv & Ek & Hi).
        assert (Hc : In kv (counted w)) by (rewrite H4; apply in_or_app; left; exact Hi).
        pose proof (G kv Hc) as Gk. rewrite Ek in Gk. rewrite <- Gr, <- Gk. apply H5; [exact Hi|].
        apply Qle_bool_iff. rewrite Gk. apply El'.
  Qed.

  (** * Filling *)
  Lemma fill_length ents a b v : length (fill ents a b v) = length ents.
  Proof.
    unfold fill. generalize (seq a (b - a)). intro l. revert ents. induction l as [|i l IH]; intro ents; [reflexivity|].
    cbn [fold_left]. rewrite IH. apply set_nth_length.
  Qed.

  Lemma fill_nth ents a b v j : b <= length ents ->
    nth_error (fill ents a b v) j = if (a <=? j) && (j <? b) then Some v else nth_error ents j.
  Proof.
    intro Hb. unfold fill.
    assert (G : forall l ents0, (forall i, In i l -> i < length ents0) ->
      nth_error (fold_left (fun e i => set_nth e i v) l ents0) j = if lmem l j then Some v else nth_error ents0 j).
    { induction l as [|i l IH]; intros e0 H; [reflexivity|]. cbn [fold_left]. rewrite IH.
      - unfold lmem. cbn [existsb]. fold (lmem l j). destruct (lmem l j) eqn:M; [rewrite Bool.orb_true_r; reflexivity|].
        rewrite Bool.orb_false_r. rewrite nth_error_set_nth. change (eqb j i) with (j =? i). rewrite Nat.eqb_sym.
        destruct (j =? i) eqn:Ej; [|reflexivity]. apply Nat.eqb_eq in Ej. subst j.
        destruct (nth_error e0 i) eqn:En; [reflexivity|]. apply nth_error_None in En. specialize (H i (or_introl eq_refl)). lia.
      - intros k Hk. rewrite set_nth_length. apply H. right. exact Hk. }
    rewrite G by (intros i Hi; apply in_seq in Hi; lia).
    destruct ((a <=? j) && (j <? b)) eqn:B.
    - apply andb_prop in B. destruct B as [B1 B2]. apply Nat.leb_le in B1. apply Nat.ltb_lt in B2.
      replace (lmem (seq a (b - a)) j) with true; [reflexivity|]. symmetry. apply lmem_In, in_seq. lia.
    - replace (lmem (seq a (b - a)) j) with false; [reflexivity|]. symmetry. apply lmem_false. rewrite in_seq. intro K.
      apply Bool.andb_false_iff in B. rewrite Nat.leb_gt, Nat.ltb_ge in B. lia.
  Qed.

  (** * The loop *)
  Variable text : list C.
  Variable preds : list nat.
  Hypothesis Hlen : length preds = length text.
  Notation n := (length text).

  Definition sep_at (i : nat) : Prop := exists c, nth_error text i = Some c /\ is_sep c = true.

  (** No separator from [b] to before [e], and none could be added on the left. *)
  Definition word (b e : nat) : Prop :=
    b <= e <= n /\ (b = 0 \/ sep_at (b - 1)) /\ forall i, b <= i < e -> ~ sep_at i.

  Record good (start : nat) (ents : list nat) : Prop := {
    g_len : length ents = n;
    g_word : forall b e, word b e -> sep_at e -> e < start ->
       exists l, dominant (slice preds b e) l /\ forall i, b <= i < e -> nth_error ents i = Some l;
    g_sep : forall j, j < start -> sep_at j -> nth_error ents j = nth_error preds j \/ nth_error ents j = Some bg;
    g_rest : forall j, start <= j -> nth_error ents j = nth_error preds j
  }.

  Lemma slice_snoc (l : list nat) a b : a <= b -> b < length l -> slice l a (S b) = slice l a b ++ [nth b l 0].
  Proof.
    intros Ha Hb. unfold slice. replace (S b - a) with ((b - a) + 1) by lia.
    assert (E : skipn a l = firstn (b - a) (skipn a l) ++ nth b l 0 :: skipn (S b) l).
    { rewrite <- (firstn_skipn (b - a) (skipn a l)) at 1. f_equal. rewrite ListFacts.skipn_skipn. replace (a + (b - a)) with b by lia.
      clear Ha a. revert b Hb. induction l as [|y l IH]; intros b Hb; [cbn in Hb; lia|]. destruct b as [|b]; [reflexivity|].
      cbn [skipn nth]. apply IH. cbn in Hb. lia. }
    rewrite E at 1. rewrite firstn_app, firstn_firstn. rewrite firstn_length, skipn_length.
    replace (Nat.min (b - a + 1) (b - a)) with (b - a) by lia. f_equal.
    replace (b - a + 1 - Nat.min (b - a) (length l - a)) with 1 by lia. reflexivity.
  Qed.

  Lemma good_step start idx ents dom ents2 c :
    good start ents -> nth_error text idx = Some c -> start <= idx -> word start idx ->
    dominant (slice preds start (if is_sep c then idx else S idx)) dom ->
    ents2 = (if (dom =? bg) && (0 <? start) && negb (nth idx (fill ents start idx dom) 0 =? nth (start - 1) (fill ents start idx dom) 0)
             then set_nth (set_nth (fill ents start idx dom) (start - 1) bg) idx bg else fill ents start idx dom) ->
    length ents2 = n /\
    (forall i, start <= i < idx -> nth_error ents2 i = Some dom) /\
    (forall j, j <> idx -> (j < start - 1 \/ start = 0 \/ idx < j) -> ~ (start <= j < idx) -> nth_error ents2 j = nth_error ents j) /\
    (nth_error ents2 idx = nth_error preds idx \/ nth_error ents2 idx = Some bg) /\
    (0 < start -> nth_error ents2 (start - 1) = nth_error ents (start - 1) \/ nth_error ents2 (start - 1) = Some bg).
  Proof.
    intros G Ec Hle W D E. assert (Hi : idx < n) by (apply nth_error_Some; congruence). pose proof (g_len _ _ G) as Gl.
    set (e1 := fill ents start idx dom) in *.
    assert (F : forall j, nth_error e1 j = if (start <=? j) && (j <? idx) then Some dom else nth_error ents j)
      by (intro j; apply fill_nth; lia).
    assert (L1 : length e1 = n) by (unfold e1; rewrite fill_length; exact Gl).
    assert (Fidx : nth_error e1 idx = nth_error preds idx).
    { rewrite F. rewrite Nat.ltb_irrefl, Bool.andb_false_r. apply (g_rest _ _ G). exact Hle. }
    assert (Fst : 0 < start -> nth_error e1 (start - 1) = nth_error ents (start - 1)).
    { intro Hs. rewrite F. replace (start <=? start - 1) with false by (symmetry; apply Nat.leb_gt; lia). reflexivity. }
    destruct ((dom =? bg) && (0 <? start) && _) eqn:B; subst ents2.
    - apply andb_prop in B. destruct B as [B _]. apply andb_prop in B. destruct B as [_ B]. apply Nat.ltb_lt in B.
      assert (S2 : forall j, nth_error (set_nth (set_nth e1 (start - 1) bg) idx bg) j =
                 if idx =? j then Some bg else if start - 1 =? j then Some bg else nth_error e1 j).
      { intro j. rewrite !nth_error_set_nth. destruct (idx =? j) eqn:E1.
        - apply Nat.eqb_eq in E1. subst j. destruct (start - 1 =? idx); destruct (nth_error e1 idx) eqn:En; try reflexivity;
            apply nth_error_None in En; lia.
        - destruct (start - 1 =? j) eqn:E2; [|reflexivity]. apply Nat.eqb_eq in E2. subst j.
          destruct (nth_error e1 (start - 1)) eqn:En; [reflexivity|]. apply nth_error_None in En. lia. }
      split; [rewrite !set_nth_length; exact L1|]. split; [|split; [|split]].
      + intros i Hi'. rewrite S2. replace (idx =? i) with false by (symmetry; apply Nat.eqb_neq; lia).
        replace (start - 1 =? i) with false by (symmetry; apply Nat.eqb_neq; lia). rewrite F.
        replace ((start <=? i) && (i <? idx)) with true; [reflexivity|]. symmetry. rewrite Bool.andb_true_iff, Nat.leb_le, Nat.ltb_lt. lia.
      + intros j H1 H2 H3. rewrite S2. replace (idx =? j) with false by (symmetry; apply Nat.eqb_neq; lia).
        replace (start - 1 =? j) with false by (symmetry; apply Nat.eqb_neq; lia). rewrite F.
        replace ((start <=? j) && (j <? idx)) with false; [reflexivity|]. symmetry. rewrite Bool.andb_false_iff, Nat.leb_gt, Nat.ltb_ge. lia.
      + right. rewrite S2, Nat.eqb_refl. reflexivity.
      + intros _. right. rewrite S2, Nat.eqb_refl. destruct (idx =? start - 1); reflexivity.
    - split; [exact L1|]. split; [|split; [|split]].
      + intros i Hi'. rewrite F. replace ((start <=? i) && (i <? idx)) with true; [reflexivity|]. symmetry. rewrite Bool.andb_true_iff, Nat.leb_le, Nat.ltb_lt. lia.
      + intros j H1 H2 H3. rewrite F.
        replace ((start <=? j) && (j <? idx)) with false; [reflexivity|]. symmetry. rewrite Bool.andb_false_iff, Nat.leb_gt, Nat.ltb_ge. lia.
      + left. exact Fidx.
      + intro Hs. left. apply Fst. exact Hs.
  Qed.

  (** What the relabelled text looks like. *)
  Record result_ok (ents : list nat) : Prop := {
    r_len : length ents = n;
    r_word : forall b e, word b e -> sep_at e ->
       exists l, dominant (slice preds b e) l /\ forall i, b <= i < e -> nth_error ents i = Some l;
    r_sep : forall j, sep_at j -> nth_error ents j = nth_error preds j \/ nth_error ents j = Some bg;
    r_last : forall b, 0 < b < n -> word b n ->
       (exists l, dominant (slice preds b n) l /\ forall i, b <= i < n - 1 -> nth_error ents i = Some l) /\
       (nth_error ents (n - 1) = nth_error preds (n - 1) \/ nth_error ents (n - 1) = Some bg);
    r_one : word 0 n -> ents = preds
  }.

  Lemma sep_lt j : sep_at j -> j < n.
  Proof. intros (c & E & _). apply nth_error_Some. congruence. Qed.

  Lemma text_at idx c r : skipn idx text = c :: r -> nth_error text idx = Some c /\ skipn (S idx) text = r /\ idx < n.
  Proof.
    intro H. assert (Hi : idx < n).
    { assert (K : length (skipn idx text) <> 0) by (rewrite H; discriminate). rewrite skipn_length in K. lia. }
    split; [|split; [|exact Hi]].
    - rewrite <- (firstn_skipn idx text), H. rewrite nth_error_app2 by (rewrite firstn_length; lia).
      rewrite firstn_length, Nat.min_l by lia. rewrite Nat.sub_diag. reflexivity.
    - replace (S idx) with (idx + 1) by lia. rewrite <- ListFacts.skipn_skipn, H. reflexivity.
  Qed.

  Lemma word_unique b e b' : word b e -> word b' e -> b < e -> b' < e -> b = b'.
  Proof.
    intros (H1 & H2 & H3) (K1 & K2 & K3) Hb Hb'. destruct (Nat.lt_trichotomy b b') as [H|[H|H]]; [|exact H|]; exfalso.
    - destruct K2 as [->|K2]; [lia|]. apply (H3 (b' - 1)); [lia|exact K2].
    - destruct H2 as [->|H2]; [lia|]. apply (K3 (b - 1)); [lia|exact H2].
  Qed.

  Lemma nth_preds idx ents start : good start ents -> start <= idx -> nth idx ents 0 = nth idx preds 0.
  Proof.
    intros G H. pose proof (g_rest _ _ G idx H) as E. destruct (nth_error preds idx) as [v|] eqn:Ep.
    - rewrite (nth_error_nth _ _ 0 E), (nth_error_nth _ _ 0 Ep). reflexivity.
    - apply nth_error_None in E, Ep. rewrite !nth_overflow by assumption. reflexivity.
  Qed.

  Lemma words_loop_ok rest : forall idx start ents,
    skipn idx text = rest -> word start idx -> good start ents -> (idx = n -> start = 0 \/ start = n) ->
    result_ok (words_loop is_sep bg pct n rest idx start (counted (slice preds start idx)) ents).
  Proof.
    induction rest as [|c r IH]; intros idx start ents Hr W G Hend; cbn [words_loop].
    - destruct W as (W1 & W2 & W3). assert (idx = n).
      { assert (H : length (skipn idx text) = 0) by (rewrite Hr; reflexivity). rewrite skipn_length in H. lia. }
      subst idx. constructor.
      + apply G.
      + intros b e Wb Se. apply (g_word _ _ G b e Wb Se). destruct (Nat.lt_ge_cases e start); [assumption|].
        exfalso. apply (W3 e); [|exact Se]. pose proof (sep_lt e Se). lia.
      + intros j Sj. apply (g_sep _ _ G); [|exact Sj]. destruct (Nat.lt_ge_cases j start); [assumption|].
        exfalso. apply (W3 j); [|exact Sj]. pose proof (sep_lt j Sj). lia.
      + intros b Hb Wb. exfalso. destruct Wb as (Wb1 & Wb2 & Wb3). destruct (Hend eq_refl) as [E|E].
        * subst start. destruct Wb2 as [Wb2|Wb2]; [lia|]. apply (W3 (b - 1)); [lia|exact Wb2].
        * destruct W2 as [W2|W2]; [lia|]. apply (Wb3 (start - 1)); [lia|exact W2].
      + intros (_ & _ & Wn). destruct W2 as [->|W2].
        * apply nth_error_ext. intro j. apply (g_rest _ _ G). lia.
        * destruct start as [|st]; [apply nth_error_ext; intro j; apply (g_rest _ _ G); lia|].
          exfalso. apply (Wn (S st - 1)); [lia|exact W2].
    - destruct (text_at idx c r Hr) as (Ec & Hr' & Hi). destruct W as (W1 & W2 & W3).
      assert (W : word start idx) by (split; [lia|auto]). clear Hend.
      assert (Ecount : count_label (counted (slice preds start idx)) (nth idx ents 0) = counted (slice preds start (S idx))).
      { rewrite slice_snoc by lia. rewrite counted_snoc. f_equal. apply (nth_preds idx ents start G). lia. }
      destruct (is_sep c) eqn:Sc; cbn [orb].
      + (* a separator *)
        assert (Sidx : sep_at idx) by (exists c; auto).
        match goal with |- result_ok (words_loop _ _ _ _ _ _ _ _ ?e) => set (ents2 := e) end.
        pose proof (dominate_spec (slice preds start idx)) as D. set (dom := dominate bg pct (counted (slice preds start idx))) in *.
        destruct (good_step start idx ents dom ents2 c G Ec ltac:(lia) W) as (L2 & F2 & K2 & I2 & S2).
        { rewrite Sc. exact D. }
        { reflexivity. }
        clearbody ents2. replace [(bg, 0)] with (counted (slice preds (S idx) (S idx))) by (unfold slice; rewrite Nat.sub_diag; reflexivity).
        apply IH.
        * exact Hr'.
        * split; [lia|]. split; [right; replace (S idx - 1) with idx by lia; exact Sidx|]. intros i Hii. lia.
        * constructor.
          -- exact L2.
          -- intros b e Wb Se He. destruct (Nat.eq_dec e idx) as [->|Hne].
             ++ destruct (Nat.eq_dec b idx) as [->|Hb].
                ** pose proof (dominate_spec (slice preds idx idx)) as D0. eexists. split; [exact D0|]. intros i Hii. lia.
                ** destruct (Nat.eq_dec start idx) as [Es|Es].
                   { exfalso. destruct Wb as (Wb1 & _ & Wb3). destruct W2 as [W2|W2]; [lia|]. apply (Wb3 (start - 1)); [lia|exact W2]. }
                   assert (b = start) by (apply (word_unique b idx start Wb W); destruct Wb; lia). subst b.
                   exists dom. split; [exact D|exact F2].
             ++ assert (Hes : e < start).
                { destruct (Nat.lt_ge_cases e start); [assumption|]. exfalso. apply (W3 e); [lia|exact Se]. }
                destruct (g_word _ _ G b e Wb Se Hes) as (l & Dl & Fl). exists l. split; [exact Dl|]. intros i Hii.
                rewrite K2; [apply Fl; exact Hii|lia| |lia].
                destruct (Nat.eq_dec i (start - 1)) as [Ei|Ei]; [|lia]. exfalso. lia.
          -- intros j Hj Sj. destruct (Nat.eq_dec j idx) as [->|Hne]; [exact I2|].
             assert (Hjs : j < start) by (destruct (Nat.lt_ge_cases j start); [assumption|]; exfalso; apply (W3 j); [lia|exact Sj]).
             destruct (g_sep _ _ G j Hjs Sj) as [Gj|Gj].
             ++ destruct (Nat.eq_dec j (start - 1)) as [->|Hj1].
                ** destruct S2 as [S2|S2]; [lia| |right; exact S2]. left. congruence.
                ** left. rewrite K2; [exact Gj|lia|lia|lia].
             ++ destruct (Nat.eq_dec j (start - 1)) as [->|Hj1].
                ** destruct S2 as [S2|S2]; [lia| |right; exact S2]. right. congruence.
                ** right. rewrite K2; [exact Gj|lia|lia|lia].
          -- intros j Hj. rewrite K2; [apply (g_rest _ _ G); lia|lia|lia|lia].
        * intros ->. right. lia.
      + assert (Nidx : ~ sep_at idx) by (intros (c' & E & S'); congruence).
        assert (Wn : word start (S idx)).
        { split; [lia|]. split; [exact W2|]. intros i Hii. destruct (Nat.eq_dec i idx) as [->|]; [exact Nidx|apply W3; lia]. }
        destruct ((idx =? n - 1) && (0 <? start)) eqn:Be.
        * (* the last character of a later word *)
          apply andb_prop in Be. destruct Be as [Be1 Be2]. apply Nat.eqb_eq in Be1. apply Nat.ltb_lt in Be2.
          assert (Er : r = []).
          { destruct r as [|c' r]; [reflexivity|]. destruct (text_at (S idx) c' r Hr') as (_ & _ & H). lia. }
          rewrite Er. cbn [words_loop]. rewrite Ecount.
          match goal with |- result_ok ?e => set (ents2 := e) end.
          pose proof (dominate_spec (slice preds start (S idx))) as D. set (dom := dominate bg pct (counted (slice preds start (S idx)))) in *.
          destruct (good_step start idx ents dom ents2 c G Ec ltac:(lia) W) as (L2 & F2 & K2 & I2 & S2).
          { rewrite Sc. exact D. }
          { reflexivity. }
          clearbody ents2.
          destruct W2 as [W2|W2]; [lia|].
          assert (Sdec : forall j, sep_at j -> j < start).
          { intros j Sj. destruct (Nat.lt_ge_cases j start); [assumption|]. exfalso. pose proof (sep_lt j Sj).
            destruct (Nat.eq_dec j idx) as [->|]; [contradiction|]. apply (W3 j); [lia|exact Sj]. }
          constructor.
          -- exact L2.
          -- intros b e Wb Se. pose proof (Sdec e Se) as Hes. destruct (g_word _ _ G b e Wb Se Hes) as (l & Dl & Fl).
             exists l. split; [exact Dl|]. intros i Hii. rewrite K2; [apply Fl; exact Hii|lia|lia|lia].
          -- intros j Sj. pose proof (Sdec j Sj) as Hjs. destruct (g_sep _ _ G j Hjs Sj) as [Gj|Gj].
             ++ destruct (Nat.eq_dec j (start - 1)) as [->|Hj1].
                ** destruct S2 as [S2|S2]; [lia| |right; exact S2]. left. congruence.
                ** left. rewrite K2; [exact Gj|lia|lia|lia].
             ++ destruct (Nat.eq_dec j (start - 1)) as [->|Hj1].
                ** destruct S2 as [S2|S2]; [lia| |right; exact S2]. right. congruence.
                ** right. rewrite K2; [exact Gj|lia|lia|lia].
          -- intros b Hb Wb. replace (S idx) with n in * by lia.
             assert (b = start) by (apply (word_unique b n start Wb Wn); lia). subst b. split.
             ++ exists dom. split; [exact D|]. intros i Hii. apply F2. lia.
             ++ rewrite <- Be1. exact I2.
          -- intros (_ & _ & W0). exfalso. apply (W0 (start - 1)); [lia|exact W2].
        * rewrite Ecount. apply IH; [exact Hr'|exact Wn|exact G|].
          intro E. apply Bool.andb_false_iff in Be. destruct Be as [Be|Be].
          -- apply Nat.eqb_neq in Be. lia.
          -- apply Nat.ltb_ge in Be. left. lia.
  Qed.

  Lemma word_level_ok : result_ok (word_level is_sep bg pct text preds).
  Proof.
    unfold word_level. change [(bg, 0)] with (counted (slice preds 0 0)). apply words_loop_ok.
    - reflexivity.
    - split; [lia|]. split; [left; reflexivity|]. intros i Hi. lia.
    - constructor; auto; intros; lia.
    - intros _. left. reflexivity.
  Qed.
End Words.
