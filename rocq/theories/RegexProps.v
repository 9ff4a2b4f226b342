(** C42: votes of the regular-expression model.  C52: combination of the votes for each character.
    C64: one label for a cell from labels of its characters.  C65: one label for a cell from votes. *)
From Coq Require Import QArith Permutation.
From Verif Require Import PyCommon PyDict PyString ListFacts RowModel RowProofs QFacts RegexModel RegexProofs RegexProofs2.
Local Open Scope nat_scope.

Section C42.
  Context {N T P : Type} {EN : EqDecB N}.
  Variable tlen : T -> nat.
  Variable finds : P -> T -> list (nat * nat).
  Variables (m : dict N nat) (pats : dict N (list P)) (default : N) (d : nat).
  Hypothesis Hd : dget m default = Some d.

  (** Some pattern of a label with number [j] matches text [t] over position [i]. *)
  Definition matched (t : T) (i j : nat) : Prop :=
    exists l ps p b e, In (l, ps) pats /\ dget m l = Some j /\ In p ps /\ In (b, e) (finds p t) /\ b <= i < e.

  Lemma events_In t ev : In ev (events finds m pats t) <->
    exists l ps p, In (l, ps) pats /\ dget m l = Some (fst ev) /\ In p ps /\ In (snd ev) (finds p t).
  Proof.
    unfold events. rewrite in_flat_map. split.
    - intros ([l ps] & H1 & H2). cbn [fst snd] in H2. destruct (dget m l) as [ent|] eqn:E; [|destruct H2].
      unfold events_of in H2. apply in_flat_map in H2. destruct H2 as (p & H2 & H3). apply in_map_iff in H3.
      destruct H3 as (sp & <- & H3). exists l, ps, p. cbn [fst snd]. auto.
    - intros (l & ps & p & H1 & H2 & H3 & H4). exists (l, ps). split; [exact H1|]. cbn [fst snd]. rewrite H2.
      unfold events_of. apply in_flat_map. exists p. split; [exact H3|]. apply in_map_iff. exists (snd ev).
      split; [destruct ev; reflexivity|exact H4].
  Qed.

  Lemma inside_true sp i : inside sp i = true <-> fst sp <= i < snd sp.
  Proof. unfold inside. rewrite andb_true_iff, Nat.leb_le, Nat.ltb_lt. reflexivity. Qed.

  Lemma matched_events t i j : matched t i j <-> exists ev, In ev (events finds m pats t) /\ fst ev = j /\ inside (snd ev) i = true.
  Proof.
    split.
    - intros (l & ps & p & b & e & H1 & H2 & H3 & H4 & H5). exists (j, (b, e)). split; [apply events_In; exists l, ps, p; cbn; auto|].
      split; [reflexivity|]. apply inside_true. exact H5.
    - intros ([j' [b e]] & H1 & <- & H3). apply events_In in H1. destruct H1 as (l & ps & p & H1 & H2 & H4 & H5).
      apply inside_true in H3. exists l, ps, p, b, e. cbn in *. auto.
  Qed.

  Lemma known_lt l j : dget m l = Some j -> j < num_labels m.
  Proof.
    intro H. unfold num_labels. apply Nat.lt_succ_r. apply list_max_In. apply dget_Some_In in H. apply (in_map snd) in H. exact H.
  Qed.

  Lemma rows_spec t i row :
    nth_error (fold_left (step d) (events finds m pats t) (blank tlen m d t)) i = Some row ->
    length row = num_labels m /\
    (forall j, j < num_labels m -> j <> d -> (matched t i j -> nth_error row j = Some 1) /\ (~ matched t i j -> nth_error row j = Some 0)) /\
    ((forall j, ~ matched t i j) -> nth_error row d = Some 1) /\
    ((exists j, matched t i j) -> ~ matched t i d -> nth_error row d = Some 0) /\
    (nth_error row d = Some 1 \/ (nth_error row d = Some 0 /\ exists j, j <> d /\ matched t i j)).
  Proof.
    rewrite fold_step_nth. unfold blank. destruct (nth_error (repeat _ (tlen t)) i) as [r0|] eqn:E0; [|discriminate].
    apply nth_error_In, repeat_spec in E0. cbn [option_map]. intro H. injection H as <-. subst r0.
    destruct (fold_row d i (num_labels m) (events finds m pats t)) as [L R].
    { apply (known_lt default). exact Hd. }
    { intros ev Hev. apply events_In in Hev. destruct Hev as (l & _ & _ & _ & H & _). apply (known_lt l). exact H. }
    pose proof (known_lt default d Hd) as Hlt. specialize (R d Hlt) as Rd. rewrite Nat.eqb_refl in Rd.
    split; [exact L|]. split; [|split; [|split]].
    - intros j Hj Hn. specialize (R j Hj). destruct (Nat.eqb_spec j d); [congruence|]. rewrite R. split; intro Hm.
      + apply matched_events in Hm. destruct Hm as (ev & H1 & H2 & H3).
        replace (existsb _ _) with true; [reflexivity|]. symmetry. apply existsb_exists. exists ev. split; [exact H1|].
        unfold hit. rewrite H3, andb_true_r. apply Nat.eqb_eq. exact H2.
      + destruct (existsb _ _) eqn:E; [|reflexivity]. exfalso. apply Hm. apply existsb_exists in E. destruct E as (ev & H1 & H2).
        unfold hit in H2. apply andb_true_iff in H2. destruct H2 as [H2 H3]. apply Nat.eqb_eq in H2. apply matched_events. eauto.
    - intro Hm. rewrite Rd. replace (last_hit i _) with (@None nat); [reflexivity|]. symmetry. apply last_hit_None. intros ev Hev.
      destruct (inside (snd ev) i) eqn:E; [|reflexivity]. exfalso. apply (Hm (fst ev)). apply matched_events. eauto.
    - intros [j Hm] Hn. rewrite Rd. destruct (last_hit i _) as [e|] eqn:E.
      + apply last_hit_In in E. destruct E as (ev & H1 & H2 & H3). destruct (Nat.eqb_spec e d) as [->|]; [|reflexivity].
        exfalso. apply Hn. apply matched_events. eauto.
      + exfalso. rewrite last_hit_None in E. apply matched_events in Hm. destruct Hm as (ev & H1 & _ & H3). rewrite (E ev H1) in H3. discriminate.
    - rewrite Rd. destruct (last_hit i _) as [e|] eqn:E; [|left; reflexivity]. destruct (Nat.eqb_spec e d) as [|Hn]; [left; reflexivity|].
      right. split; [reflexivity|]. exists e. split; [exact Hn|]. apply last_hit_In in E. destruct E as (ev & H1 & H2 & H3).
      apply matched_events. eauto.
  Qed.

  (** Every text gets one row of votes per character.  A label other than the default one has a vote
      exactly where one of its patterns matches; the default label has one where nothing matches and
      none where only others match. *)
  Theorem C42_votes data outs : data <> [] -> predict tlen finds m pats default data = Ok outs ->
    Forall2 (fun t o => exists votes, o = Some votes /\ length votes = tlen t /\
      forall i row, nth_error votes i = Some row ->
        length row = S (List.list_max (dvals m)) /\
        (forall j, j < length row -> j <> d -> (matched t i j -> nth_error row j = Some 1) /\ (~ matched t i j -> nth_error row j = Some 0)) /\
        ((forall j, ~ matched t i j) -> nth_error row d = Some 1) /\
        ((exists j, matched t i j) -> ~ matched t i d -> nth_error row d = Some 0)) data outs.
  Proof.
    intros Hne. rewrite predict_spec, Hd. destruct (length data =? 0) eqn:E0; [apply Nat.eqb_eq in E0; destruct data; [congruence|discriminate]|].
    destruct (forallb _ pats); [|discriminate]. intro H. injection H as <-. clear E0 Hne. induction data as [|t data IH]; cbn [map]; constructor; [|exact IH].
    eexists. split; [reflexivity|]. split; [rewrite fold_step_length; unfold blank; apply repeat_length|].
    intros i row Hr. destruct (rows_spec t i row Hr) as (H1 & H2 & H3 & H4 & _). rewrite H1. split; [reflexivity|].
    split; [exact H2|]. split; [exact H3|exact H4].
  Qed.

  (** The confidences of every character add up to 1, and a label has confidence 0 where it has no vote. *)
  Theorem C42_confidences data outs : data <> [] -> predict tlen finds m pats default data = Ok outs ->
    forall votes row, In (Some votes) outs -> In row votes ->
      exists conf, share_row row = Some conf /\ length conf = length row /\ (qsum conf == 1)%Q /\
        forall j v, nth_error row j = Some v -> exists c, nth_error conf j = Some c /\ (0 <= c <= 1)%Q /\ ((c == 0)%Q <-> v = 0).
  Proof.
    intros Hne Hp votes row Hv Hr. rewrite predict_spec, Hd in Hp. destruct (length data =? 0) eqn:E0; [apply Nat.eqb_eq in E0; destruct data; [congruence|discriminate]|].
    destruct (forallb _ pats); [|discriminate]. injection Hp as <-. apply in_map_iff in Hv. destruct Hv as (t & Ht & _). injection Ht as <-.
    destruct (In_nth_error _ _ Hr) as [i Hi]. destruct (rows_spec t i row Hi) as (H1 & H2 & _ & _ & H5).
    assert (0 < list_sum row) as Hs.
    { destruct H5 as [H5|[_ (j & Hj & Hm)]].
      - apply (list_sum_pos row 1); [apply (nth_error_In _ _ H5)|lia].
      - apply (list_sum_pos row 1); [|lia]. assert (j < num_labels m) as Hlt.
        { destruct Hm as (l & _ & _ & _ & _ & _ & Hl & _). apply (known_lt l). exact Hl. }
        destruct (H2 j Hlt Hj) as [H6 _]. apply (nth_error_In _ _ (H6 Hm)). }
    destruct (share_row_spec row Hs) as [E1 E2]. eexists. split; [exact E1|]. split; [apply map_length|]. split; [exact E2|].
    intros j v Hj. exists (Qn v / Qn (list_sum row))%Q. split; [rewrite nth_error_map, Hj; reflexivity|].
    assert (v <= list_sum row) as Hle.
    { apply nth_error_In in Hj. clear - Hj. induction row as [|x row IH]; [destruct Hj|]. change (list_sum (x :: row)) with (x + list_sum row).
      destruct Hj as [->|Hj]; [lia|]. specialize (IH Hj). lia. }
    pose proof (Qn_pos _ Hs) as Hsp. split; [split|].
    - apply Qle_shift_div_l; [exact Hsp|]. rewrite Qmult_0_l. apply Qn_nonneg.
    - apply Qle_shift_div_r; [exact Hsp|]. rewrite Qmult_1_l. apply Qn_le. exact Hle.
    - split; intro H.
      + apply Qn_inj. change (Qn 0) with 0%Q. rewrite <- (Qmult_0_l (Qn (list_sum row))), <- H. field. apply Qn_neq. exact Hs.
      + subst v. change (Qn 0) with 0%Q. unfold Qdiv. apply Qmult_0_l.
  Qed.

  (** Prediction fails only if a label with patterns is not in the label mapping. *)
  Theorem C42_succeeds data :
    (exists outs, predict tlen finds m pats default data = Ok outs) <->
    data = [] \/ forall l ps, In (l, ps) pats -> dget m l <> None.
  Proof.
    rewrite predict_spec, Hd. split.
    - intros [outs H]. destruct data as [|t data]; [left; reflexivity|]. right. change (length (t :: data) =? 0) with false in H. cbv iota in H.
      destruct (forallb _ pats) eqn:E; [|discriminate]. intros l ps Hl. rewrite forallb_forall in E. specialize (E (l, ps) Hl).
      cbn [fst] in E. unfold dmem in E. destruct (dget m l); [discriminate|discriminate E].
    - intros [->|H]; [eexists; reflexivity|]. destruct (length data =? 0); [eauto|]. replace (forallb _ pats) with true; [eauto|].
      symmetry. apply forallb_forall. intros [l ps] Hl. cbn [fst]. unfold dmem. specialize (H l ps Hl). destruct (dget m l); congruence.
  Qed.
End C42.

(** Patterns are given by their spans. *)
Definition demo_finds (p : list (nat * nat)) (t : nat) : list (nat * nat) := p.

Example C42_example :
  predict (fun t => t) demo_finds [(0, 0); (1, 1); (2, 2)] [(1, [[(0, 2)]]); (2, [[(1, 3)]])] 0 [4; 0] =
  Ok [Some [[0; 1; 0]; [0; 1; 1]; [0; 0; 1]; [1; 0; 0]]; Some []].
Proof. reflexivity. Qed.

(** A user expects one prediction per text.  Without texts there is one (empty) prediction. *)
Theorem C42_one_prediction_per_text_refuted :
  ~ (forall (m : dict nat nat) (pats : dict nat (list (list (nat * nat)))) default data outs,
       predict (fun t => t) demo_finds m pats default data = Ok outs -> length outs = length data).
Proof. intro H. specialize (H [(0, 0)] [] 0 [] [None] eq_refl). discriminate H. Qed.

(** A user expects a character labelled as background to match no other label.  A pattern of the default
    label that comes later gives its vote back. *)
Theorem C42_background_is_exclusive_refuted :
  ~ (forall (m : dict nat nat) (pats : dict nat (list (list (nat * nat)))) default d data outs votes row j,
       dget m default = Some d -> data <> [] -> predict (fun t => t) demo_finds m pats default data = Ok outs ->
       In (Some votes) outs -> In row votes -> nth_error row d = Some 1 -> j <> d -> nth_error row j <> Some 1).
Proof.
  intro H. apply (H [(0, 0); (1, 1)] [(1, [[(0, 1)]]); (0, [[(0, 1)]])] 0 0 [1] [Some [[1; 1]]] [[1; 1]] [1; 1] 1);
    try reflexivity; try discriminate; left; reflexivity.
Qed.

(** * C52 *)

(** Priority: a character gets the first label of the order that has a vote, or the first one of the order
    if none of the listed labels has a vote. *)
Theorem C52_priority order shuffled preds r : regex_process Priority (Some order) shuffled preds = Ok (VLabels r) ->
  Forall2 (Forall2 (fun row l =>
    exists k, nth_error order k = Some l /\
      (forall i j, i < k -> nth_error order i = Some j -> nth j row 0 < nth l row 0) /\
      (forall j, In j order -> nth j row 0 <= nth l row 0) /\
      ((forall j, In j order -> nth j row 0 = 0) -> k = 0))) preds r.
Proof.
  cbn [regex_process]. destruct (mapR (mapR (priority_row order)) preds) as [r'|] eqn:E; cbn [bind]; [|discriminate].
  intro H. injection H as <-. apply mapR_spec in E. induction E as [|mx ls preds r Hm F IH]; constructor; [|exact IH].
  apply mapR_spec in Hm. clear IH F. induction Hm as [|row l mx ls Hr G IHG]; constructor; [|exact IHG]. clear IHG G.
  assert (forall j, In j order -> j < length row) as Hb.
  { unfold priority_row in Hr. destruct (takes_at row order) as [vs|] eqn:Et; [|discriminate]. apply takes_at_spec in Et. clear - Et.
    induction Et as [|j v order vs Hj F IH]; cbn; [tauto|]. intros x [<-|Hx]; [|apply IH; exact Hx]. apply nth_error_Some. congruence. }
  destruct (priority_row_spec _ _ _ Hr) as (k & v & H1 & H2 & H3 & H4). exists k. split; [exact H1|].
  assert (nth l row 0 = v) as Hl by (apply nth_error_nth; exact H2).
  assert (forall j, In j order -> nth_error row j = Some (nth j row 0)) as A.
  { intros j Hj. apply nth_error_nth'. apply Hb. exact Hj. }
  rewrite Hl. split; [|split].
  - intros i j Hi Hj. apply (H4 i j _ Hi Hj). apply A. apply (nth_error_In _ _ Hj).
  - intros j Hj. apply (H3 j _ Hj). apply A. exact Hj.
  - intro Hz. destruct k as [|k]; [reflexivity|]. destruct order as [|j order]; [discriminate H1|].
    assert (0 < v) as Hv; [|].
    { specialize (H4 0 j (nth j row 0) ltac:(lia) eq_refl (A j (or_introl eq_refl))). lia. }
    rewrite <- Hl, (Hz l (nth_error_In _ _ H1)) in Hv. lia.
Qed.

(** Priority succeeds for an order of known labels. *)
Theorem C52_priority_succeeds order shuffled preds : order <> [] ->
  (forall mx row j, In mx preds -> In row mx -> In j order -> j < length row) ->
  exists r, regex_process Priority (Some order) shuffled preds = Ok (VLabels r).
Proof.
  intros Hne Hb. cbn [regex_process]. destruct (mapR_total (mapR (priority_row order)) preds) as [r ->]; [|cbn; eauto].
  intros mx Hm. apply mapR_total. intros row Hr. apply priority_row_total; [exact Hne|]. intros j Hj. apply (Hb mx row j Hm Hr Hj).
Qed.

(** Random: whatever order is drawn, a character that has votes gets a label with most votes. *)
Theorem C52_random order shuffled preds nl : Permutation shuffled (seq 0 nl) -> 0 < nl ->
  (forall mx row, In mx preds -> In row mx -> length row = nl) ->
  exists r, regex_process Random order shuffled preds = Ok (VLabels r) /\
    Forall2 (Forall2 (fun row l => l < nl /\ forall j, j < nl -> nth j row 0 <= nth l row 0)) preds r.
Proof.
  intros Hp Hn Hl.
  assert (forall j, In j shuffled <-> j < nl) as Hin.
  { intro j. split; intro H; [apply (Permutation_in _ Hp) in H; apply in_seq in H; lia|].
    apply (Permutation_in _ (Permutation_sym Hp)). apply in_seq. lia. }
  assert (shuffled <> []) as Hne by (intros ->; apply (proj2 (Hin 0)); exact Hn).
  destruct (C52_priority_succeeds shuffled shuffled preds Hne) as [r Hr].
  { intros mx row j H1 H2 H3. rewrite (Hl mx row H1 H2). apply Hin. exact H3. }
  exists r. split; [exact Hr|]. apply C52_priority in Hr. clear - Hr Hin.
  induction Hr as [|mx ls preds r H F IH]; constructor; [|exact IH]. clear - H Hin.
  induction H as [|row l mx ls H G IHG]; constructor; [|exact IHG]. destruct H as (k & H1 & _ & H3 & _).
  split; [apply Hin; apply (nth_error_In _ _ H1)|]. intros j Hj. apply H3. apply Hin. exact Hj.
Qed.

(** Split: the votes of a character are divided by their number; the shares add up to 1. *)
Theorem C52_split order shuffled preds : (forall mx row, In mx preds -> In row mx -> 0 < list_sum row) ->
  exists r, regex_process Split order shuffled preds = Ok (VShares r) /\
    Forall2 (Forall2 (fun row sh => exists s, sh = Some s /\ length s = length row /\ (qsum s == 1)%Q /\
      forall j, (nth j s 0 * Qn (list_sum row) == Qn (nth j row 0%nat))%Q)) preds r.
Proof.
  intro Hs. eexists. split; [reflexivity|]. induction preds as [|mx preds IH]; cbn [map]; constructor.
  - assert (forall row, In row mx -> 0 < list_sum row) as Hm by (intros row Hr; apply (Hs mx row (or_introl eq_refl) Hr)).
    clear IH Hs. induction mx as [|row mx IHm]; cbn [map]; constructor; [|apply IHm; intros x Hx; apply Hm; right; exact Hx].
    specialize (Hm row (or_introl eq_refl)). destruct (share_row_spec row Hm) as [E1 E2]. eexists. split; [exact E1|].
    split; [apply map_length|]. split; [exact E2|]. intro j. destruct (Nat.lt_ge_cases j (length row)) as [Hj|Hj].
    + rewrite (nth_indep _ 0%Q (Qn 0 / Qn (list_sum row))%Q) by (rewrite map_length; exact Hj).
      rewrite (map_nth (fun v => (Qn v / Qn (list_sum row))%Q)).
      rewrite Qmult_comm. apply Qmult_div_r. apply Qn_neq. exact Hm.
    + rewrite nth_overflow by (rewrite map_length; exact Hj). rewrite nth_overflow by exact Hj. apply Qmult_0_l.
  - apply IH. intros m' row H1 H2. apply (Hs m' row (or_intror H1) H2).
Qed.

Example C52_example :
  regex_process Priority (Some [2; 1; 0]) [] [[[0; 1; 0]; [0; 1; 1]; [1; 0; 0]]] = Ok (VLabels [[1; 2; 0]]) /\
  regex_process Random None [1; 0; 2] [[[0; 1; 0]; [0; 1; 1]; [1; 0; 0]]] = Ok (VLabels [[1; 1; 0]]) /\
  regex_process Split None [] [[[0; 1; 1]]] = Ok (VShares [[Some [0 / 2; 1 / 2; 1 / 2]%Q]]).
Proof. repeat split; vm_compute; reflexivity. Qed.

(** A user expects the chosen label to be one that matched.  A character without a vote for any label of the
    priority order, such as a background character when the order lists only entities, gets the first one. *)
Theorem C52_chosen_label_has_vote_refuted :
  ~ (forall order preds r, order <> [] -> regex_process Priority (Some order) [] preds = Ok (VLabels r) ->
       Forall2 (Forall2 (fun row l => nth l row 0 <> 0)) preds r).
Proof.
  intro H. specialize (H [1; 2] [[[1; 0; 0]]] [[1]] ltac:(discriminate) eq_refl).
  inversion H as [|? ? ? ? F _]; subst. inversion F as [|? ? ? ? G _]; subst. apply G. reflexivity.
Qed.

Local Open Scope string_scope.
Local Open Scope nat_scope.

(** Whatever calls change the parameters, the aggregation function is one of the three and the order is
    unset or a list. *)
Theorem C52_settings_stay_valid a o st calls : new_processor a o = Ok st ->
  exists s, dget (configure st calls) "aggregation_func" = Some (PStr s) /\
    In (lower_string s) ["split"; "priority"; "random"] /\
    (dget (configure st calls) "priority_order" = Some PNone \/ exists l, dget (configure st calls) "priority_order" = Some (PList l)).
Proof.
  intro H. destruct (configure_ok calls st (new_processor_ok _ _ _ H)) as [(s & b & H1 & H2) H3]. exists s. split; [exact H1|].
  split; [|exact H3]. unfold agg_of in H2. cbn [In].
  destruct (PyDict.eqb_spec (lower_string s) "split") as [E|_]; [auto|].
  destruct (PyDict.eqb_spec (lower_string s) "priority") as [E|_]; [auto|].
  destruct (PyDict.eqb_spec (lower_string s) "random") as [E|_]; [auto|discriminate].
Qed.

(** Setting the order to none together with, or after, the (lower-case) function priority is refused. *)
Theorem C52_order_required st kw : dget kw "priority_order" = Some PNone ->
  dget kw "aggregation_func" = Some (PStr "priority") \/
  (dget kw "aggregation_func" = None /\ dget st "aggregation_func" = Some (PStr "priority")) ->
  set_params st kw = Err ValueError.
Proof.
  intros H1 H2. unfold set_params. replace (existsb _ kw) with true; [reflexivity|]. symmetry. apply existsb_exists.
  exists ("priority_order", PNone). split; [apply dget_Some_In; exact H1|]. unfold bad_param. cbn [fst snd].
  change (PyDict.eqb "priority_order" "aggregation_func") with false. change (PyDict.eqb "priority_order" "priority_order") with true. cbv iota.
  destruct H2 as [->|[-> ->]]; reflexivity.
Qed.

(** A user expects that a processor that accepted the function priority has an order.  A call that sets only
    the function is accepted, and processing then fails. *)
Theorem C52_priority_has_an_order_refuted :
  ~ (forall a o st calls preds, new_processor a o = Ok st -> (forall p, In p preds -> p = []) ->
       exists v, run_process (configure st calls) [] preds = Ok v).
Proof.
  intro H. specialize (H (PStr "split") PNone [("aggregation_func", PStr "split"); ("priority_order", PNone)]
    [[("aggregation_func", PStr "priority")]] [] eq_refl ltac:(intros p [])). destruct H as [v H]. vm_compute in H. discriminate.
Qed.

Example C52_settings_example :
  exists st, new_processor (PStr "Priority") (PList [2; 1]) = Ok st /\
    run_process (configure st [[("aggregation_func", PStr "bogus")]]) [] [[[0; 1; 1]]] = Ok (VLabels [[2]]).
Proof. eexists. split; vm_compute; reflexivity. Qed.

(** * C65 *)

Lemma rows_shares mx : (forall row, In row mx -> 0 < list_sum row) ->
  seqO (map share_row mx) = Some (map (fun row => map (fun v => (Qn v / Qn (list_sum row))%Q) row) mx).
Proof.
  intro H. apply seqO_spec. rewrite map_map. apply map_ext_in. intros row Hr. apply share_row_spec. apply H. exact Hr.
Qed.

(** A cell with characters gets the first label with the largest mean share; the confidences are these
    means and add up to 1. *)
Theorem C65_cell nl cell : cell <> [] -> 0 < nl -> (forall row, In row cell -> length row = nl /\ 0 < list_sum row) ->
  exists k conf, struct_cell nl cell = (k, Some conf) /\ length conf = nl /\ k < nl /\ (qsum conf == 1)%Q /\
    (forall j, j < nl -> (nth j conf 0 * Qn (length cell) == qsum (map (fun row => Qn (nth j row 0%nat) / Qn (list_sum row)) cell))%Q) /\
    (forall j, j < nl -> (nth j conf 0 <= nth k conf 0)%Q) /\
    (forall j, j < k -> (nth j conf 0 < nth k conf 0)%Q).
Proof.
  intros Hne Hnl Hrows. unfold struct_cell, cell_means. rewrite rows_shares by (intros row Hr; apply Hrows; exact Hr).
  set (rs := map (fun row => map (fun v => (Qn v / Qn (list_sum row))%Q) row) cell).
  assert (length rs = length cell) as Lrs by apply map_length.
  assert (0 < length cell) as Hpos by (destruct cell; [congruence|cbn; lia]).
  set (ms := map (fun j => qmean (column j rs)) (seq 0 nl)).
  replace (match rs with [] => None | _ => Some ms end) with (Some ms) by (destruct rs; [cbn in Lrs; lia|reflexivity]).
  assert (length ms = nl) as Lms by (unfold ms; rewrite map_length, seq_length; reflexivity).
  destruct (argmax_total Qltb ms) as [k Hk]; [intros E; rewrite E in Lms; cbn in Lms; lia|]. rewrite Hk.
  destruct (argmax_spec Qltb Qltb_asym Qltb_neg ms k Hk) as (v & H1 & H2 & H3).
  assert (k < nl) as Hkl by (rewrite <- Lms; apply nth_error_Some; congruence).
  assert (nth k ms 0%Q = v) as Hv by (apply nth_error_nth; exact H1).
  exists k, ms. split; [reflexivity|]. split; [exact Lms|]. split; [exact Hkl|].
  assert (forall j, j < nl -> nth j ms 0%Q = qmean (column j rs)) as Hms.
  { intros j Hj. apply nth_error_nth. unfold ms. rewrite nth_error_map, nth_error_seq by exact Hj. reflexivity. }
  split; [|split; [|split]].
  - unfold ms. unfold qmean.
    rewrite (qsum_ext _ (fun j => (qsum (column j rs) / Qn (length rs))%Q)) by (intros j _; unfold column at 2; rewrite map_length; reflexivity).
    rewrite qsum_div, qsum_exchange.
    + rewrite qsum_ones; [unfold Qdiv; apply Qmult_inv_r; apply Qn_neq; lia|]. intros r Hr. unfold rs in Hr. apply in_map_iff in Hr.
      destruct Hr as (row & <- & Hr). apply share_row_spec. apply Hrows. exact Hr.
    + intros r Hr. unfold rs in Hr. apply in_map_iff in Hr. destruct Hr as (row & <- & Hr). rewrite map_length. apply Hrows. exact Hr.
  - intros j Hj. rewrite (Hms j Hj). rewrite Qmult_comm. replace (length cell) with (length (column j rs)) by (unfold column; rewrite map_length; exact Lrs).
    rewrite qmean_sum by (unfold column; rewrite map_length, Lrs; exact Hpos). unfold column, rs. rewrite map_map.
    apply qsum_ext. intros row Hr. destruct (Hrows row Hr) as [Hlen _].
    rewrite (nth_indep _ 0%Q (Qn 0 / Qn (list_sum row))%Q) by (rewrite map_length, Hlen; exact Hj).
    rewrite (map_nth (fun v => (Qn v / Qn (list_sum row))%Q)). reflexivity.
  - intros j Hj. rewrite Hv. destruct (nth_error ms j) as [x|] eqn:E; [|apply nth_error_None in E; lia].
    rewrite (nth_error_nth _ _ _ E). apply Qltb_false. apply (H2 j x E).
  - intros j Hj. rewrite Hv. destruct (nth_error ms j) as [x|] eqn:E; [|apply nth_error_None in E; lia].
    rewrite (nth_error_nth _ _ _ E). apply Qltb_true. apply (H3 j x Hj E).
Qed.

(** A cell whose characters all vote for one label alone gets that label. *)
Theorem C65_unanimous nl cell l : cell <> [] -> l < nl ->
  (forall row, In row cell -> length row = nl /\ forall j, j < nl -> nth j row 0 = if j =? l then 1 else 0) ->
  fst (struct_cell nl cell) = l.
Proof.
  intros Hne Hl Hrows.
  assert (forall row, In row cell -> length row = nl /\ 0 < list_sum row) as Hr.
  { intros row H. destruct (Hrows row H) as [H1 H2]. split; [exact H1|]. apply (list_sum_pos row 1); [|lia].
    specialize (H2 l Hl). rewrite Nat.eqb_refl in H2. rewrite <- H2. apply nth_In. lia. }
  destruct (C65_cell nl cell Hne ltac:(lia) Hr) as (k & conf & -> & L & Hk & Hs & Hm & Hmax & _). cbn [fst].
  destruct (Nat.eq_dec k l) as [|Hkl]; [assumption|]. exfalso.
  assert (0 < length cell) as Hpos by (destruct cell; [congruence|cbn; lia]).
  assert (forall j, j < nl -> j <> l -> (nth j conf 0 == 0)%Q) as Z.
  { intros j Hj Hn. specialize (Hm j Hj). rewrite (qsum_ext _ (fun _ => 0%Q)) in Hm.
    - rewrite qsum_zero in Hm. apply Qmult_integral in Hm. destruct Hm as [Hm|Hm]; [exact Hm|]. exfalso. apply (Qn_neq _ Hpos Hm).
    - intros row Hrow. destruct (Hrows row Hrow) as [_ H2]. rewrite (H2 j Hj). destruct (Nat.eqb_spec j l); [congruence|].
      change (Qn 0) with 0%Q. unfold Qdiv. apply Qmult_0_l. }
  assert (forall j, j < nl -> (nth j conf 0 <= 0)%Q) as Le.
  { intros j Hj. apply (Qle_trans _ _ _ (Hmax j Hj)). rewrite (Z k Hk Hkl). apply Qle_refl. }
  assert (qsum conf <= 0)%Q as Hc.
  { assert (forall x, In x conf -> (x <= 0)%Q) as Lx.
    { intros x Hx. destruct (In_nth conf x 0%Q Hx) as (j & Hj & <-). apply Le. lia. }
    clear - Lx. induction conf as [|x conf IH]; [apply Qle_refl|]. rewrite qsum_cons.
    rewrite <- (Qplus_0_l 0). apply Qplus_le_compat; [apply Lx; left; reflexivity|]. apply IH. intros y Hy. apply Lx. right. exact Hy. }
  rewrite Hs in Hc. apply Qle_not_lt in Hc. apply Hc. reflexivity.
Qed.

Example C65_example : fst (struct_cell 3 [[0; 1; 1]; [0; 0; 1]; [1; 0; 0]]) = 2.
Proof. vm_compute. reflexivity. Qed.

(** A user expects a cell in which no pattern matches to get the default label.  An empty cell gets the label
    with number 0, whatever the default label is. *)
Theorem C65_unmatched_cell_is_default_refuted :
  ~ (forall (m : dict nat nat) default d t votes, dget m default = Some d ->
       predict (fun t => t) demo_finds m [] default [t] = Ok [Some votes] ->
       fst (struct_cell (S (List.list_max (dvals m))) votes) = d).
Proof. intro H. specialize (H [(0, 0); (7, 1)] 7 1 0 [] eq_refl eq_refl). vm_compute in H. discriminate. Qed.

(** It holds for cells with characters. *)
Theorem C65_unmatched_cell {N T P} {EN : EqDecB N} (tlen : T -> nat) (finds : P -> T -> list (nat * nat)) m pats (default : N) d t votes :
  dget m default = Some d -> predict tlen finds m pats default [t] = Ok [Some votes] -> 0 < tlen t ->
  (forall l ps p, In (l, ps) pats -> In p ps -> finds p t = []) ->
  fst (struct_cell (S (List.list_max (dvals m))) votes) = d.
Proof.
  intros Hd Hp Ht Hf. pose proof (C42_votes tlen finds m pats default d Hd [t] _ ltac:(discriminate) Hp) as F.
  inversion F as [|? ? ? ? (v & Ev & Lv & Hv) _]; subst. injection Ev as <-.
  assert (forall i j, ~ matched finds m pats t i j) as Hn.
  { intros i j (l & ps & p & b & e & H1 & _ & H3 & H4 & _). rewrite (Hf l ps p H1 H3) in H4. destruct H4. }
  assert (d <= List.list_max (dvals m)) as Hle.
  { apply list_max_In. apply dget_Some_In in Hd. apply (in_map snd) in Hd. exact Hd. }
  apply C65_unanimous; [intros ->; cbn in Lv; lia|lia|].
  intros row Hr. destruct (In_nth_error _ _ Hr) as [i Hi]. destruct (Hv i row Hi) as (H1 & H2 & H3 & _). split; [exact H1|].
  intros j Hj. destruct (Nat.eqb_spec j d) as [->|Hjd].
  - apply nth_error_nth. apply H3. apply Hn.
  - apply nth_error_nth. apply H2; [lia|exact Hjd|apply Hn].
Qed.

(** * C64 *)
Section C64.
  Variable choose : list nat -> nat.
  Hypothesis choose_In : forall l, l <> [] -> In (choose l) l.
  Variables (bg pad nl n : nat) (labels : list nat).

  (** The labels predicted for the characters of the cell, without padding *)
  Notation seen := (filter (fun l => negb (l =? pad)) (firstn n labels)).

  (** The label of a cell is one of the most frequent labels of its characters apart from padding, and it
      is the background label only if that is more frequent than every other one. *)
  Theorem C64_label l : fst (structured_cell choose bg pad nl n labels) = Some l ->
    In l seen /\ (forall y, In y seen -> occ y seen <= occ l seen) /\
    (l = bg -> forall y, In y seen -> y <> bg -> occ y seen < occ bg seen).
  Proof.
    unfold structured_cell, cell_label. cbn [fst]. change seen with (counting pad n labels).
    pose proof (modes_spec pad n labels) as M. pose proof (modes_NoDup pad n labels) as ND.
    destruct (modes (cell_counter pad n labels)) as [|x [|y ms]] eqn:E; [discriminate| |].
    - intro H. injection H as <-. destruct (proj1 (M x) (or_introl eq_refl)) as [H1 H2]. split; [exact H1|]. split; [exact H2|].
      intros -> y Hy Hn. destruct (Nat.eq_dec (occ y (counting pad n labels)) (occ bg (counting pad n labels))) as [Eo|Eo]; [|specialize (H2 y Hy); lia].
      exfalso. assert (In y [bg]) as Hin; [|destruct Hin as [Hin|[]]; congruence]. apply M. split; [exact Hy|]. intros z Hz. rewrite Eo. apply H2. exact Hz.
    - set (ms' := x :: y :: ms) in *. intro H. injection H as <-.
      set (l := choose (if lmem ms' bg then remove1 bg ms' else ms')).
      assert (In l ms' /\ l <> bg) as [H1 H2].
      { unfold l. destruct (lmem ms' bg) eqn:Eb.
        - assert (In (choose (remove1 bg ms')) (remove1 bg ms')) as Hc.
          { apply choose_In. unfold ms'. cbn [remove1]. destruct (bg =? x); [discriminate|]. destruct (bg =? y); discriminate. }
          apply (remove1_In _ _ _ ND) in Hc. exact Hc.
        - apply lmem_false in Eb. assert (In (choose ms') ms') as Hc by (apply choose_In; discriminate). split; [exact Hc|].
          intros Hb. rewrite Hb in Hc. tauto. }
      destruct (proj1 (M l) H1) as [H3 H4]. split; [exact H3|]. split; [exact H4|]. intro Hb. contradiction.
  Qed.

  (** A cell has a label unless none of its characters has one other than padding. *)
  Theorem C64_no_label : fst (structured_cell choose bg pad nl n labels) = None <-> seen = [].
  Proof.
    unfold structured_cell, cell_label. cbn [fst]. change seen with (counting pad n labels). pose proof (modes_spec pad n labels) as M. split.
    - destruct (modes (cell_counter pad n labels)) as [|x [|y ms]] eqn:E; [|discriminate|discriminate]. intros _.
      destruct (counting pad n labels) as [|z zs] eqn:Ec; [reflexivity|]. exfalso. rewrite <- Ec in *.
      assert (exists x, In x (counting pad n labels) /\ forall y, In y (counting pad n labels) -> occ y (counting pad n labels) <= occ x (counting pad n labels)) as (x & Hx).
      { assert (counting pad n labels <> []) as Hne by congruence. clear - Hne. set (f := fun y => occ y (counting pad n labels)).
        change (exists x, In x (counting pad n labels) /\ forall y, In y (counting pad n labels) -> f y <= f x). clearbody f.
        induction (counting pad n labels) as [|a l IH]; [congruence|]. destruct l as [|b l].
        - exists a. split; [left; reflexivity|]. intros y [<-|[]]. lia.
        - destruct IH as (x & H1 & H2); [discriminate|]. destruct (Nat.le_gt_cases (f a) (f x)) as [Hle|Hgt].
          + exists x. split; [right; exact H1|]. intros y [<-|Hy]; [exact Hle|apply H2; exact Hy].
          + exists a. split; [left; reflexivity|]. intros y [<-|Hy]; [lia|]. specialize (H2 y Hy). lia. }
      apply (proj2 (M x)) in Hx. destruct Hx.
    - intro H. destruct (modes (cell_counter pad n labels)) as [|x ms]; [reflexivity|]. exfalso.
      destruct (proj1 (M x) (or_introl eq_refl)) as [Hx _]. rewrite H in Hx. destruct Hx.
  Qed.

  (** The confidence of a label is its share of these characters; the confidences add up to 1. *)
  Theorem C64_confidence : length (snd (structured_cell choose bg pad nl n labels)) = nl /\
    (forall j, j < nl -> (nth j (snd (structured_cell choose bg pad nl n labels)) 0 * Qn (length seen) == Qn (occ j seen))%Q) /\
    ((forall l, In l seen -> l < nl) -> seen <> [] -> (qsum (snd (structured_cell choose bg pad nl n labels)) == 1)%Q).
  Proof.
    unfold structured_cell. cbn [snd]. split; [apply conf_length|]. change seen with (counting pad n labels).
    assert (forall j, j < nl -> nth j (cell_conf nl (cell_counter pad n labels)) 0%Q =
      if lmem (counting pad n labels) j then (Qn (occ j (counting pad n labels)) / Qn (length (counting pad n labels)))%Q else 0%Q) as A.
    { intros j Hj. apply nth_error_nth. apply conf_nth. exact Hj. }
    split.
    - intros j Hj. rewrite (A j Hj). destruct (lmem (counting pad n labels) j) eqn:E.
      + rewrite Qmult_comm. apply Qmult_div_r. apply Qn_neq. apply lmem_In in E. destruct (counting pad n labels); [destruct E|cbn; lia].
      + apply lmem_false in E. apply occ_zero in E. rewrite E. apply Qmult_0_l.
    - intros Hb Hne. rewrite <- (nth_seq_map 0%Q (cell_conf nl (cell_counter pad n labels))), conf_length.
      rewrite (qsum_ext _ (fun j => (Qn (occ j (counting pad n labels)) / Qn (length (counting pad n labels)))%Q)).
      + rewrite <- (map_map (fun j => occ j (counting pad n labels)) (fun v => (Qn v / Qn (length (counting pad n labels)))%Q)).
        rewrite qsum_scale, (occ_sum nl _ Hb). unfold Qdiv. apply Qmult_inv_r. apply Qn_neq. destruct (counting pad n labels); [congruence|cbn; lia].
      + intros j Hj. apply in_seq in Hj. rewrite A by lia. destruct (lmem (counting pad n labels) j) eqn:E; [reflexivity|].
        apply lmem_false in E. apply occ_zero in E. rewrite E. unfold Qdiv. change (Qn 0) with 0%Q. symmetry. apply Qmult_0_l.
  Qed.
End C64.

(** Labels 1 (background) and 2 are tied; label 0 is padding; only 5 characters belong to the cell. *)
Example C64_example : structured_cell (fun l => hd 0 l) 1 0 3 5 [1; 2; 1; 2; 0; 1; 1] = (Some 2, [0; 2 / 4; 2 / 4]%Q).
Proof. vm_compute. reflexivity. Qed.

Print Assumptions C42_votes.
Print Assumptions C42_confidences.
Print Assumptions C52_priority.
Print Assumptions C52_split.
Print Assumptions C65_cell.
Print Assumptions C64_label.
Print Assumptions C64_confidence.
