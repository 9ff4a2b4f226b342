From Verif Require Import PyCommon QFacts ListFacts HistModel HistProofs HistProofs2.
From Coq Require Import Qround.
Open Scope nat_scope.

(** ** Mode *)
Definition at_count (counts : list Z) (m : Z) : list nat :=
  filter (fun i => (nth i counts 0 =? m)%Z) (seq 0 (length counts)).
Definition is_zmax (m : Z) (l : list Z) : Prop := In m l /\ forall x, In x l -> (x <= m)%Z.

Lemma at_count_snoc d c m : at_count (d ++ [c]) m = at_count d m ++ (if (c =? m)%Z then [length d] else []).
Proof.
  unfold at_count. rewrite app_length. cbn [length]. rewrite Nat.add_1_r, seq_S, filter_app. cbn [plus]. f_equal.
  - apply filter_ext_in. intros i Hi. apply in_seq in Hi. rewrite app_nth1 by lia. reflexivity.
  - cbn [filter]. rewrite app_nth2, Nat.sub_diag by lia. reflexivity.
Qed.

Lemma at_count_none d m : (forall x, In x d -> x <> m) -> at_count d m = [].
Proof.
  intro H. unfold at_count. destruct (filter _ _) as [|i l] eqn:E; [reflexivity|].
  assert (Hi : In i (i :: l)) by (left; reflexivity). rewrite <- E in Hi. apply filter_In in Hi.
  destruct Hi as [Hi Hm]. apply in_seq in Hi. apply Z.eqb_eq in Hm. exfalso. apply (H _ (nth_In d 0%Z (proj2 Hi))). exact Hm.
Qed.

Lemma mode_loop_ok k : forall counts d cur idxs,
  Forall (Z.le 0) counts -> 0 < k ->
  (d = [] /\ cur = (-1)%Z /\ idxs = [] \/ is_zmax cur d /\ idxs = firstn k (at_count d cur)) ->
  counts <> [] ->
  exists m, is_zmax m (d ++ counts) /\ mode_loop k counts (length d) cur idxs = firstn k (at_count (d ++ counts) m).
Proof.
  induction counts as [|c r IH]; intros d cur idxs Hc Hk Hinv Hne; [congruence|].
  inversion Hc as [|? ? Hc0 Hcr]; subst. cbn [mode_loop].
  assert (Hstep : exists cur' idxs', 
     (if (cur <? c)%Z then mode_loop k r (S (length d)) c [length d]
      else if (c =? cur)%Z && (length idxs <? k) then mode_loop k r (S (length d)) cur (idxs ++ [length d])
           else mode_loop k r (S (length d)) cur idxs) = mode_loop k r (length (d ++ [c])) cur' idxs' /\
     is_zmax cur' (d ++ [c]) /\ idxs' = firstn k (at_count (d ++ [c]) cur')).
  { rewrite app_length. cbn [length]. rewrite Nat.add_1_r.
    destruct (Z.ltb_spec cur c) as [L|L].
    - exists c, [length d]. split; [reflexivity|].
      assert (Hlt : forall x, In x d -> (x < c)%Z).
      { intros x Hx. destruct Hinv as [(-> & _)|[[_ Hm] _]]; [destruct Hx|]. specialize (Hm x Hx). lia. }
      split.
      + split; [apply in_or_app; right; left; reflexivity|]. intros x Hx. apply in_app_or in Hx.
        destruct Hx as [Hx|[<-|[]]]; [specialize (Hlt x Hx)|]; lia.
      + rewrite at_count_snoc, Z.eqb_refl, at_count_none by (intros x Hx; specialize (Hlt x Hx); lia).
        cbn [app]. destruct k; [lia|]. cbn [firstn]. destruct k; reflexivity.
    - destruct Hinv as [(-> & -> & ->)|[[Hin Hm] ->]]; [lia|].
      assert (Hmax : is_zmax cur (d ++ [c])).
      { split; [apply in_or_app; left; exact Hin|]. intros x Hx. apply in_app_or in Hx.
        destruct Hx as [Hx|[<-|[]]]; [apply Hm; exact Hx|lia]. }
      destruct (Z.eqb_spec c cur) as [->|Hne']; cbn [andb].
      + rewrite firstn_length. destruct (Nat.ltb_spec (Nat.min k (length (at_count d cur))) k) as [G|G].
        * exists cur, (firstn k (at_count d cur) ++ [length d]). split; [reflexivity|]. split; [exact Hmax|].
          rewrite at_count_snoc, Z.eqb_refl. rewrite firstn_app, (firstn_all2 (n := k)) by lia.
          f_equal. destruct (k - length (at_count d cur)) eqn:E; [lia|]. cbn [firstn]. destruct n; reflexivity.
        * exists cur, (firstn k (at_count d cur)). split; [reflexivity|]. split; [exact Hmax|].
          rewrite at_count_snoc, firstn_app. replace (k - length (at_count d cur)) with 0 by lia.
          cbn [firstn]. rewrite app_nil_r. reflexivity.
      + exists cur, (firstn k (at_count d cur)). split; [reflexivity|]. split; [exact Hmax|].
        rewrite at_count_snoc. destruct (Z.eqb_spec c cur); [congruence|]. rewrite app_nil_r. reflexivity. }
  destruct Hstep as (cur' & idxs' & -> & Hm & Hi).
  destruct r as [|c' r'].
  - exists cur'. split; [exact Hm|]. cbn [mode_loop]. exact Hi.
  - destruct (IH (d ++ [c]) cur' idxs' Hcr Hk (or_intror (conj Hm Hi)) ltac:(discriminate)) as (m & Hm' & E).
    exists m. rewrite <- app_assoc in Hm', E. cbn [app] in Hm', E. split; [exact Hm'|exact E].
Qed.

Lemma mode_ok k h : wf_hist h -> h_counts h <> [] -> 0 < k ->
  exists m, is_zmax m (h_counts h) /\
    estimate_mode k h = map (midpoint (h_edges h)) (firstn k (at_count (h_counts h) m)) /\
    Forall (fun o => exists x, o = Some x) (estimate_mode k h).
Proof.
  intros [He Hc] Hne Hk.
  destruct (mode_loop_ok k (h_counts h) [] (-1)%Z [] Hc Hk ltac:(left; auto) Hne) as (m & Hm & E).
  cbn [app length] in Hm, E. exists m. split; [exact Hm|]. unfold estimate_mode. rewrite E. split; [reflexivity|].
  apply Forall_forall. intros o Ho. apply in_map_iff in Ho. destruct Ho as (i & <- & Hi).
  apply In_firstn in Hi. apply filter_In in Hi. destruct Hi as [Hi _]. apply in_seq in Hi.
  unfold midpoint. destruct (nth_error (h_edges h) i) eqn:E1; [|apply nth_error_None in E1; lia].
  destruct (nth_error (h_edges h) (i + 1)) eqn:E2; [|apply nth_error_None in E2; lia]. eexists. reflexivity.
Qed.

(** ** Folding *)
Lemma first_positive_spec edges : forall i,
  match first_positive i edges with
  | None => Forall (fun e => e <= 0)%Q edges
  | Some j => exists k, j = i + k /\ (forall l e, l < k -> nth_error edges l = Some e -> (e <= 0)%Q) /\
       exists e, nth_error edges k = Some e /\ (0 < e)%Q
  end.
Proof.
  induction edges as [|e r IH]; intro i; cbn [first_positive]; [constructor|].
  destruct (Qle_bool e 0) eqn:E.
  - apply Qle_bool_iff in E. specialize (IH (S i)). destruct (first_positive (S i) r) as [j|].
    + destruct IH as (k & -> & Hl & Hk). exists (S k). split; [lia|]. split; [|exact Hk].
      intros [|l] e' Hlt Hn; cbn [nth_error] in Hn; [injection Hn as <-; exact E|]. apply (Hl l); [lia|exact Hn].
    + constructor; assumption.
  - apply Qle_bool_false in E. exists 0. split; [lia|]. split; [intros; lia|]. exists e. split; [reflexivity|exact E].
Qed.

Lemma qsum_rev l : (qsum (rev l) == qsum l)%Q.
Proof. induction l; cbn [rev]; [reflexivity|]. rewrite qsum_app, !qsum_cons, IHl. cbn. lra. Qed.

Lemma qsum_shares_firstn counts t k : ~ (t == 0)%Q ->
  (qsum (firstn k (map (fun c => (inject_Z c / t)%Q) counts)) == inject_Z (zsum (firstn k counts)) / t)%Q.
Proof.
  intro Ht. revert k. induction counts as [|c cs IH]; intros [|k]; cbn [map firstn].
  - cbn. change (inject_Z 0) with 0%Q. field. exact Ht.
  - cbn. change (inject_Z 0) with 0%Q. field. exact Ht.
  - cbn. change (inject_Z 0) with 0%Q. field. exact Ht.
  - rewrite qsum_cons, zsum_cons, IH, inject_Z_plus. field. exact Ht.
Qed.

Lemma shares_nonneg h : wf_hist h -> (0 < zsum (h_counts h))%Z -> Forall (fun q => 0 <= q)%Q (shares (h_counts h)).
Proof.
  intros [_ Hc] Ht. unfold shares. apply Forall_forall. intros q Hq. apply in_map_iff in Hq.
  destruct Hq as (c & <- & Hin). rewrite Forall_forall in Hc. specialize (Hc c Hin).
  apply Qle_shift_div_l.
  - change 0%Q with (inject_Z 0). apply inject_Z_lt. lia.
  - rewrite Qmult_0_l. change 0%Q with (inject_Z 0). apply inject_Z_le. lia.
Qed.

(** The share of the mass left of [v], where [v] lies in the bin [i] and each bin's mass is spread
    evenly over it. *)
Definition mass_left (h : hist) (i : nat) (v : Q) : Q :=
  match nth_error (h_edges h) i, nth_error (h_edges h) (S i), nth_error (h_counts h) i with
  | Some a, Some b, Some c =>
      (share_upto (h_counts h) i + inject_Z c / inject_Z (zsum (h_counts h)) * ((v - a) / (b - a)))%Q
  | _, _, _ => 0%Q
  end.

Lemma skipn_cons_nth {A} (l : list A) : forall i x, nth_error l i = Some x -> skipn i l = x :: skipn (S i) l.
Proof.
  induction l as [|y l IH]; intros [|i] x H; cbn in *; try discriminate; [congruence|]. apply IH. exact H.
Qed.
Lemma firstn_S_nth {A} (l : list A) : forall i x, nth_error l i = Some x -> firstn (S i) l = firstn i l ++ [x].
Proof.
  induction l as [|y l IH]; intros [|i] x H; try discriminate.
  - cbn in H. injection H as ->. reflexivity.
  - change (firstn (S (S i)) (y :: l)) with (y :: firstn (S i) l). cbn in H. rewrite (IH _ _ H). reflexivity.
Qed.

Lemma sorted_le_nth l : sorted l -> forall i j a b, i <= j -> nth_error l i = Some a -> nth_error l j = Some b -> (a <= b)%Q.
Proof.
  induction l as [|x l IH]; intros Hs i j a b Hij Ha Hb; [destruct i; discriminate|].
  destruct i as [|i].
  - cbn in Ha. injection Ha as ->. destruct j as [|j]; [cbn in Hb; injection Hb as ->; lra|]. cbn in Hb.
    eapply sorted_nth; eassumption.
  - destruct j as [|j]; [lia|]. cbn in Ha, Hb. eapply (IH ltac:(destruct l; [exact I|apply Hs]) i j); eauto. lia.
Qed.

Lemma fold_splits h v i a b : wf_hist h -> (0 < zsum (h_counts h))%Z -> sorted (h_edges h) ->
  1 <= i -> nth_error (h_edges h) i = Some a -> nth_error (h_edges h) (S i) = Some b -> (a <= v < b)%Q ->
  exists pos neg, fold_histogram h v = Ok (pos, neg) /\
    (qsum (fst neg) == mass_left h i v)%Q /\ (qsum (fst pos) == 1 - mass_left h i v)%Q /\
    Forall (fun q => 0 <= q)%Q (fst pos) /\ Forall (fun q => 0 <= q)%Q (fst neg) /\
    length (snd pos) = length (fst pos) + 1 /\ length (snd neg) = length (fst neg) + 1.
Proof.
  intros Hw Ht Hs Hi Ha Hb Hv. pose proof (shares_nonneg h Hw Ht) as Hnn. destruct Hw as [He Hc].
  unfold fold_histogram. set (edges := map (fun e => (e - v)%Q) (h_edges h)).
  assert (Hea : nth_error edges i = Some (a - v)%Q) by (unfold edges; apply (map_nth_error (fun e => (e - v)%Q)); exact Ha).
  assert (Heb : nth_error edges (S i) = Some (b - v)%Q) by (unfold edges; apply (map_nth_error (fun e => (e - v)%Q)); exact Hb).
  assert (Hfp : first_positive 0 edges = Some (S i)).
  { pose proof (first_positive_spec edges 0) as P. destruct (first_positive 0 edges) as [j|].
    - destruct P as (k & -> & Hl & e & Ek & Hpos). cbn [plus]. f_equal.
      destruct (Nat.lt_trichotomy k (S i)) as [L|[->|L]]; [|reflexivity|].
      + exfalso. unfold edges in Ek. rewrite nth_error_map in Ek. destruct (nth_error (h_edges h) k) as [ek|] eqn:E; [|discriminate].
        cbn in Ek. injection Ek as <-. pose proof (sorted_le_nth _ Hs k i ek a ltac:(lia) E Ha). lra.
      + exfalso. specialize (Hl (S i) _ L Heb). lra.
    - exfalso. rewrite Forall_forall in P. apply nth_error_In in Heb. specialize (P _ Heb). cbn beta in P. lra. }
  rewrite Hfp. destruct i as [|i]; [lia|].
  assert (Hli : S i < length (h_counts h)).
  { assert (S (S i) < length (h_edges h)) by (apply nth_error_Some; congruence). lia. }
  destruct (nth_error (h_counts h) (S i)) as [c|] eqn:Ec; [|apply nth_error_None in Ec; lia].
  set (t := inject_Z (zsum (h_counts h))) in *.
  assert (Htq : (0 < t)%Q) by (unfold t; change 0%Q with (inject_Z 0); apply inject_Z_lt; exact Ht).
  assert (En : nth_error (shares (h_counts h)) (S i) = Some (inject_Z c / t)%Q)
    by (unfold shares; apply (map_nth_error (fun c => (inject_Z c / inject_Z (zsum (h_counts h)))%Q)); exact Ec).
  rewrite En, Heb, Hea.
  set (s := (inject_Z c / t)%Q) in *. set (part := (s * ((b - v) / (b - v - (a - v))))%Q).
  assert (Hs0 : (0 <= s)%Q) by (rewrite Forall_forall in Hnn; apply Hnn; eapply nth_error_In; exact En).
  assert (Hr : (0 <= (b - v) / (b - v - (a - v)) <= 1)%Q).
  { split; [apply Qle_shift_div_l|apply Qle_shift_div_r]; lra. }
  assert (Hpart : (0 <= part <= s)%Q) by (unfold part; nra).
  assert (Hmass : (mass_left h (S i) v == share_upto (h_counts h) (S i) + (s - part))%Q).
  { unfold mass_left. rewrite Ha, Hb, Ec. unfold part. fold t. fold s. field. lra. }
  assert (Hsum1 : (qsum (firstn (S i) (shares (h_counts h))) == share_upto (h_counts h) (S i))%Q).
  { unfold shares. rewrite qsum_shares_firstn by (fold t; lra). reflexivity. }
  assert (Hall : (qsum (shares (h_counts h)) == 1)%Q).
  { unfold shares. rewrite <- (firstn_all (map _ _)). rewrite map_length, qsum_shares_firstn by (fold t; lra).
    rewrite firstn_all. fold t. field. lra. }
  assert (Hsum2 : (qsum (skipn (S (S i)) (shares (h_counts h))) == 1 - share_upto (h_counts h) (S i) - s)%Q).
  { rewrite <- (firstn_skipn (S (S i)) (shares (h_counts h))) in Hall. rewrite qsum_app in Hall.
    rewrite (firstn_S_nth _ _ _ En), qsum_app, qsum_cons, Hsum1 in Hall. change (qsum []) with 0%Q in Hall. lra. }
  assert (HF1 : Forall (fun q => 0 <= q)%Q (part :: skipn (S (S i)) (shares (h_counts h)))).
  { constructor; [lra|]. apply Forall_forall. intros q Hq. rewrite Forall_forall in Hnn. apply Hnn. eapply In_skipn. exact Hq. }
  assert (HF2 : Forall (fun q => 0 <= q)%Q (rev (firstn (S i) (shares (h_counts h))))).
  { apply Forall_forall. intros q Hq. rewrite Forall_forall in Hnn. apply Hnn. apply in_rev in Hq. eapply In_firstn. exact Hq. }
  assert (Hlsh : length (shares (h_counts h)) = length (h_counts h)) by (unfold shares; apply map_length).
  assert (Hled : length edges = length (h_counts h) + 1) by (unfold edges; rewrite map_length; exact He).
  assert (HL1 : length (0%Q :: skipn (S (S i)) edges) = length (part :: skipn (S (S i)) (shares (h_counts h))) + 1).
  { cbn [length]. rewrite !skipn_length, Hlsh, Hled. lia. }
  destruct (Qeq_bool (a - v) 0) eqn:Ez.
  - apply Qeq_bool_iff in Ez. eexists. eexists. split; [reflexivity|]. cbn [fst snd tl].
    assert (Hps : (part == s)%Q).
    { unfold part. rewrite Ez. field. lra. }
    split; [rewrite qsum_rev, Hsum1; lra|]. split; [rewrite qsum_cons, Hsum2; lra|].
    split; [exact HF1|]. split; [exact HF2|]. split; [exact HL1|].
    rewrite map_length, !rev_length, !firstn_length, Hlsh, Hled. lia.
  - eexists. eexists. split; [reflexivity|]. cbn [fst snd].
    split; [rewrite qsum_cons, qsum_rev, Hsum1; lra|]. split; [rewrite qsum_cons, Hsum2; lra|].
    split; [exact HF1|]. split; [constructor; [lra|exact HF2]|]. split; [exact HL1|].
    cbn [length]. rewrite map_length, !rev_length, !firstn_length, Hlsh, Hled. lia.
Qed.

Lemma mad_first_bin h m e0 e1 es c cs : h_edges h = e0 :: e1 :: es -> h_counts h = c :: cs ->
  (e0 <= m < e1)%Q -> mad_early_exit h m = Ok (Some 0%Q).
Proof.
  intros Ee Ec Hm. unfold mad_early_exit, fold_histogram. rewrite Ee. cbn [map first_positive].
  assert (E0 : Qle_bool (e0 - m) 0 = true) by (apply Qle_bool_iff; lra). rewrite E0.
  assert (E1 : Qle_bool (e1 - m) 0 = false) by (apply Qle_bool_false; lra). rewrite E1.
  rewrite Ec. reflexivity.
Qed.

(** ** Shifting the data *)
Definition shift (d : Q) (h : hist) : hist := mkHist (h_counts h) (map (fun e => (e + d)%Q) (h_edges h)).

Lemma interp_from_shift d pts : forall x0 f0 x,
  (interp_from x0 (f0 + d) (map (fun p => (fst p, (snd p + d)%Q)) pts) x == interp_from x0 f0 pts x + d)%Q.
Proof.
  induction pts as [|[x1 f1] r IH]; intros x0 f0 x; cbn [map interp_from fst snd]; [lra|].
  destruct (Qle_bool x1 x); [apply IH|]. unfold Qdiv. ring.
Qed.

Lemma combine_shift d (xs : list Q) : forall es,
  combine xs (map (fun e => (e + d)%Q) es) = map (fun p => (fst p, (snd p + d)%Q)) (combine xs es).
Proof. induction xs as [|x xs IH]; intros [|e es]; cbn; try reflexivity. f_equal. apply IH. Qed.

Lemma plain_shift d h x : h_edges h <> [] -> (plain (shift d h) x == plain h x + d)%Q.
Proof.
  intro Hne. unfold plain, shift. cbn [h_counts h_edges]. rewrite combine_shift.
  destruct (h_edges h) as [|e0 es]; [congruence|]. cbn [combine map interp fst snd].
  destruct (Qle_bool 0 x); [apply interp_from_shift|reflexivity].
Qed.

Lemma qmean_shift d l : l <> [] -> (qmean (map (fun e => (e + d)%Q) l) == qmean l + d)%Q.
Proof.
  intro Hne. unfold qmean. rewrite map_length.
  assert (Hn : (0 < Qn (length l))%Q) by (apply Qn_pos; destruct l; [congruence|cbn; lia]).
  assert (E : (qsum (map (fun e => (e + d)%Q) l) == qsum l + Qn (length l) * d)%Q).
  { clear. induction l; [cbn; change (Qn 0) with 0%Q; lra|]. cbn [map length]. rewrite !qsum_cons, Qn_S, IHl. ring. }
  rewrite E. field. lra.
Qed.

Lemma median_value_shift d cum edges :
  match median_value cum edges, median_value cum (map (fun e => (e + d)%Q) edges) with
  | Some m, Some m' => (m' == m + d)%Q
  | None, None => True
  | _, _ => False
  end.
Proof.
  unfold median_value.
  assert (E : median_edges cum (map (fun e => (e + d)%Q) edges) = map (fun e => (e + d)%Q) (median_edges cum edges)).
  { unfold median_edges. destruct edges as [|e0 es]; cbn [map tl]; [destruct cum; reflexivity|].
    rewrite combine_shift.
    generalize (combine cum es). clear. induction l as [|[q e] l IH]; [reflexivity|]. cbn [map filter fst snd].
    destruct (negb _); cbn [map snd]; [f_equal|]; exact IH. }
  rewrite E, map_length. destruct (1 <? length (median_edges cum edges)) eqn:El; [|exact I].
  apply qmean_shift. intro Hn. rewrite Hn in El. discriminate.
Qed.

(** The mean of the edges at which the cumulative share is one half, when there are several. *)
Definition halfway (h : hist) : option Q := median_value (cumsum 0 (shares (h_counts h))) (h_edges h).

Lemma percentile_shift d h p : h_edges h <> [] ->
  (forall m, halfway h = Some m -> ~ (m == 0)%Q) ->
  (forall m, halfway (shift d h) = Some m -> ~ (m == 0)%Q) ->
  (get_percentile (shift d h) p == get_percentile h p + d)%Q.
Proof.
  intros Hne H1 H2. unfold halfway in H1, H2. pose proof (median_value_shift d (cumsum 0 (shares (h_counts h))) (h_edges h)) as M.
  change (get_percentile h p) with (match median_value (cumsum 0 (shares (h_counts h))) (h_edges h) with
     | Some m => if negb (Qeq_bool m 0) && Qeq_bool p 50 then m else plain h (p / 100) | None => plain h (p / 100) end).
  change (get_percentile (shift d h) p) with (match median_value (cumsum 0 (shares (h_counts h))) (map (fun e => (e + d)%Q) (h_edges h)) with
     | Some m => if negb (Qeq_bool m 0) && Qeq_bool p 50 then m else plain (shift d h) (p / 100) | None => plain (shift d h) (p / 100) end).
  change (median_value (cumsum 0 (shares (h_counts (shift d h)))) (h_edges (shift d h)))
    with (median_value (cumsum 0 (shares (h_counts h))) (map (fun e => (e + d)%Q) (h_edges h))) in H2.
  destruct (median_value _ (h_edges h)) as [m|], (median_value _ (map _ _)) as [m'|]; try contradiction;
    [|apply plain_shift; exact Hne].
  assert (E1 : Qeq_bool m 0 = false) by (apply Qeq_bool_false; apply H1; reflexivity).
  assert (E2 : Qeq_bool m' 0 = false) by (apply Qeq_bool_false; apply H2; reflexivity).
  rewrite E1, E2. cbn [negb andb]. destruct (Qeq_bool p 50); [exact M|apply plain_shift; exact Hne].
Qed.

(** ** Locality of merging *)
Lemma regenerate_local lo hi nb h h' : 0 < nb -> wf_hist h -> sorted (h_edges h) -> (lo < hi)%Q ->
  (forall b0, nth_error (h_edges h) 0 = Some b0 -> (lo <= b0)%Q) ->
  regenerate lo hi nb true h = Ok h' ->
  forall k, k < nb ->
  let e := (lo + Qn k * ((hi - lo) / Qn nb))%Q in
  (csum (ends_by e) (bins (h_counts h) (h_edges h)) <= zsum (firstn k (h_counts h'))
   <= csum (starts_before e) (bins (h_counts h) (h_edges h)))%Z.
Proof.
  intros Hb [He Hc] Hs Hlh Hlo E k Hk e. unfold regenerate in E.
  destruct (assimilate (linspace lo hi nb) nb 0 (zeros nb) (h_counts h) (h_edges h)) as [d|] eqn:Ea; [|discriminate].
  cbn [bind] in E. injection E as <-. cbn [h_counts].
  assert (Hk' : nth_error (linspace lo hi nb) k = Some e) by (apply linspace_nth; lia).
  pose proof (assimilate_local (linspace lo hi nb) nb (linspace_increasing lo hi nb Hb Hlh) (h_counts h) (h_edges h) 0
    (zeros nb) d (linspace_length lo hi nb) (repeat_length _ _) Hb He Hc Hs) as L.
  specialize (L ltac:(intros e' b0 E1 E2; rewrite linspace_nth in E1 by lia; injection E1 as <-;
     specialize (Hlo b0 E2); change (Qn 0) with 0%Q; lra) Ea k e Hk Hk').
  rewrite zsum_zeros_firstn in L. lia.
Qed.

Lemma merge_hists_local lo hi nb h1 h2 h' : 0 < nb -> wf_hist h1 -> wf_hist h2 ->
  sorted (h_edges h1) -> sorted (h_edges h2) -> (lo < hi)%Q ->
  (forall b0, nth_error (h_edges h1) 0 = Some b0 -> (lo <= b0)%Q) ->
  (forall b0, nth_error (h_edges h2) 0 = Some b0 -> (lo <= b0)%Q) ->
  merge_hists lo hi nb h1 h2 = Ok h' ->
  forall k, k < nb ->
  let e := (lo + Qn k * ((hi - lo) / Qn nb))%Q in
  (csum (ends_by e) (bins (h_counts h1) (h_edges h1)) + csum (ends_by e) (bins (h_counts h2) (h_edges h2))
   <= zsum (firstn k (h_counts h'))
   <= csum (starts_before e) (bins (h_counts h1) (h_edges h1)) + csum (starts_before e) (bins (h_counts h2) (h_edges h2)))%Z.
Proof.
  intros Hb [He1 Hc1] [He2 Hc2] Hs1 Hs2 Hlh Hlo1 Hlo2 E k Hk e. unfold merge_hists in E.
  destruct (assimilate_conserves (linspace lo hi nb) nb (h_counts h1) (h_edges h1) 0 (zeros nb))
    as (d & Ea & Hl & _); try assumption; [apply linspace_length|apply repeat_length|].
  rewrite Ea in E. cbn [bind] in E.
  destruct (assimilate (linspace lo hi nb) nb 0 d (h_counts h2) (h_edges h2)) as [d'|] eqn:Ea2; [|discriminate].
  cbn [bind] in E. injection E as <-. cbn [h_counts].
  assert (Hk' : nth_error (linspace lo hi nb) k = Some e) by (apply linspace_nth; lia).
  pose proof (assimilate_local (linspace lo hi nb) nb (linspace_increasing lo hi nb Hb Hlh) (h_counts h1) (h_edges h1) 0
    (zeros nb) d (linspace_length lo hi nb) (repeat_length _ _) Hb He1 Hc1 Hs1
    ltac:(intros e' b0 E1 E2; rewrite linspace_nth in E1 by lia; injection E1 as <-;
     specialize (Hlo1 b0 E2); change (Qn 0) with 0%Q; lra) Ea k e Hk Hk') as L1.
  pose proof (assimilate_local (linspace lo hi nb) nb (linspace_increasing lo hi nb Hb Hlh) (h_counts h2) (h_edges h2) 0
    d d' (linspace_length lo hi nb) Hl Hb He2 Hc2 Hs2
    ltac:(intros e' b0 E1 E2; rewrite linspace_nth in E1 by lia; injection E1 as <-;
     specialize (Hlo2 b0 E2); change (Qn 0) with 0%Q; lra) Ea2 k e Hk Hk') as L2.
  rewrite zsum_zeros_firstn in L1. lia.
Qed.
