(** Properties of the histogram shown in the report of a numeric column. *)
From Coq Require Import QArith Qround.
From Verif Require Import PyCommon QFacts ListFacts HistModel HistProofs HistProps PyDict PyString
  RepHistModel RepHistProofs RepHistProofs2.
Local Delimit Scope string_scope with string.
Open Scope list_scope.
Local Open Scope nat_scope.

(** Specification vocabulary: a history of a profile - made with an option for the bins, updated,
    reported, merged from two others - the values it has seen, and the profile it leads to. *)
Inductive hop :=
| HNew (is_float : bool) (o : binopt)
| HUpd (h : hop) (v : list Q)
| HRep (h : hop)
| HAdd (mn mx : option Q) (size : nat) (width : string -> option Q) (h1 h2 : hop).

Fixpoint hdata (h : hop) : list Q :=
  match h with
  | HNew _ _ => []
  | HUpd h v => hdata h ++ v
  | HRep h => hdata h
  | HAdd _ _ _ _ h1 h2 => hdata h1 ++ hdata h2
  end.

Section Histories.
  Variable est : string -> list Q -> nat.
  Variable np : nat -> list Q -> hist.

  Fixpoint hrun (h : hop) : result col :=
    match h with
    | HNew fl o => Ok (new_col fl o)
    | HUpd h v => bind (hrun h) (fun c => Ok (update est np c v))
    | HRep h => bind (hrun h) (fun c =>
                match best_histogram c with Ok (c', _) => Ok c' | Err _ => Ok c end)
    | HAdd mn mx size width h1 h2 =>
        bind (hrun h1) (fun c1 => bind (hrun h2) (fun c2 => merge mn mx size width c1 c2))
    end.

  (** Options make sense, merges are of profiles that both have seen values, and the bin widths after
      a merge give at least one bin. *)
  Fixpoint fine (h : hop) : Prop :=
    match h with
    | HNew _ o => opt_ok o
    | HUpd h _ => fine h
    | HRep h => fine h
    | HAdd mn mx size width h1 h2 =>
        fine h1 /\ fine h2 /\ hdata h1 <> [] /\ hdata h2 <> [] /\
        forall c1 c2 g1 g2 m, hrun h1 = Ok c1 -> hrun h2 = Ok c2 ->
          c_stored c1 = Some g1 -> c_stored c2 = Some g2 ->
          0 < bins_from_profile size (merged_hi mx g1 g2 - merged_lo mn g1 g2)%Q (width m)
    end.

  (** The last thing that happened to the data was a merge. *)
  Fixpoint just_merged (h : hop) : bool :=
    match h with
    | HNew _ _ => false
    | HUpd h [] => just_merged h
    | HUpd _ (_ :: _) => false
    | HRep h => just_merged h
    | HAdd _ _ _ _ _ _ => true
    end.

  Definition unready (c : col) : Prop :=
    c_selection c = None /\ forall m me, dget (c_methods c) m = Some me -> m_suggested me = None.

  Lemma unready_fails c n : inv c n -> unready c -> best_histogram c = Err KeyError.
  Proof.
    intros I (Hs & Hu). unfold best_histogram. rewrite Hs.
    pose proof (i_ne _ _ I) as Hne. destruct (dkeys (c_methods c)) as [|m r] eqn:Ek; [congruence|].
    cbn [best_loop]. unfold histogram_for_profile.
    destruct (dget_key (c_methods c) m) as (me & Em); [rewrite Ek; left; reflexivity|].
    rewrite Em, (Hu m me Em). reflexivity.
  Qed.

  Hypothesis Hest : est_ok est.
  Hypothesis Hnp : np_ok np.

  Lemma hrun_inv : forall h c, fine h -> hrun h = Ok c ->
    inv c (length (hdata h)) /\
    (just_merged h = false \/ c_user c = None -> ready c) /\
    (just_merged h = true -> c_user c <> None -> unready c).
  Proof.
    induction h as [fl o|h IH v|h IH|mn mx size width h1 IH1 h2 IH2]; intros c Hf Hr;
      cbn [fine hrun hdata] in *.
    - injection Hr as <-. destruct (new_col_inv fl o Hf) as (A & B).
      split; [exact A|]. split; [intros _; exact B|discriminate].
    - destruct (hrun h) as [c0|] eqn:E0; [|discriminate]. cbn [bind] in Hr. injection Hr as <-.
      destruct (IH c0 Hf eq_refl) as (A & B & C). destruct v as [|x v].
      + rewrite app_nil_r. cbn [just_merged]. split; [apply update_nil_inv; exact A|].
        split; [exact B|]. intros J U. destruct (C J U) as (_ & U'). split; [reflexivity|exact U'].
      + destruct (update_ok est np c0 _ (x :: v) Hest Hnp A) as (I' & R' & _); [discriminate|].
        rewrite app_length, Nat.add_comm. split; [exact I'|]. split; [intros _; exact R'|discriminate].
    - destruct (hrun h) as [c0|] eqn:E0; [|discriminate]. cbn [bind] in Hr.
      destruct (IH c0 Hf eq_refl) as (A & B & C). cbn [just_merged].
      assert (D : (just_merged h = false \/ c_user c0 = None) \/ (just_merged h = true /\ c_user c0 <> None)).
      { destruct (just_merged h); [|left; left; reflexivity].
        destruct (c_user c0); [right; split; [reflexivity|discriminate]|left; right; reflexivity]. }
      destruct D as [D|[J U]].
      + destruct (report_ok c0 _ A (B D)) as (c' & o & Eb & I' & R' & _ & _ & _ & Eu & _).
        rewrite Eb in Hr. injection Hr as <-. split; [exact I'|]. split; [intros _; exact R'|].
        intros J U. exfalso. destruct D as [D|D]; congruence.
      + rewrite (unready_fails c0 _ A (C J U)) in Hr. injection Hr as <-. auto.
    - destruct (hrun h1) as [c1|] eqn:E1; [|discriminate]. cbn [bind] in Hr.
      destruct (hrun h2) as [c2|] eqn:E2; [|discriminate]. cbn [bind] in Hr.
      destruct Hf as (F1 & F2 & N1 & N2 & W).
      destruct (IH1 c1 F1 eq_refl) as (A1 & _), (IH2 c2 F2 eq_refl) as (A2 & _).
      assert (L1 : length (hdata h1) <> 0) by (destruct (hdata h1); [congruence|discriminate]).
      assert (L2 : length (hdata h2) <> 0) by (destruct (hdata h2); [congruence|discriminate]).
      destruct (merge_spec mn mx size width c1 c2 _ _ c A1 A2 L1 L2 Hr)
        as (g1 & g2 & g & S1 & S2 & S & I' & Sel & _ & _ & _ & _ & _ & M).
      rewrite app_length. split; [exact I'|]. cbn [just_merged]. split.
      + intros [D|D]; [discriminate|]. intros m me Em. rewrite (M m me Em), D. cbn.
        eexists. split; [reflexivity|]. apply (W c1 c2 g1 g2 m eq_refl eq_refl S1 S2).
      + intros _ U. split; [exact Sel|]. intros m me Em. rewrite (M m me Em).
        destruct (c_user c); [reflexivity|congruence].
  Qed.
End Histories.

(** ** C90: the report can be made, and its histogram accounts for every value *)
Theorem C90_histogram_total : forall est np h c, est_ok est -> np_ok np -> fine est np h ->
  hrun est np h = Ok c -> hdata h <> [] ->
  (just_merged h = false \/ c_user c = None) ->
  exists c' g, best_histogram c = Ok (c', Some g) /\ wf_hist g /\ h_counts g <> [] /\
    zsum (h_counts g) = Z.of_nat (length (hdata h)).
Proof.
  intros est np h c He Hn Hf Hr Hd Hj.
  destruct (hrun_inv est np He Hn h c Hf Hr) as (I & R & _).
  destruct (report_ok c _ I (R Hj)) as (c' & o & Eb & _ & _ & G & Ne & _).
  assert (L : length (hdata h) <> 0) by (destruct (hdata h); [congruence|discriminate]).
  destruct o as [g|]; [|exfalso; apply (Ne L); reflexivity].
  exists c', g. split; [exact Eb|]. destruct G as (_ & A & B & C). auto.
Qed.
Print Assumptions C90_histogram_total.

(** Profiles with a number of bins set by the user, merged and not updated since, have no report. *)
Theorem C90_merged_counts_have_no_report : forall est np h c, est_ok est -> np_ok np -> fine est np h ->
  hrun est np h = Ok c -> just_merged h = true -> c_user c <> None ->
  best_histogram c = Err KeyError.
Proof.
  intros est np h c He Hn Hf Hr Hj Hu.
  destruct (hrun_inv est np He Hn h c Hf Hr) as (I & _ & U). exact (unready_fails c _ I (U Hj Hu)).
Qed.
Print Assumptions C90_merged_counts_have_no_report.

(** A merged profile has a number of bins set by the user exactly if both operands have one; it is
    the larger one. Two profiles of which exactly one has such a number cannot be merged. *)
Theorem C90_merged_user_count : forall mn mx size width c1 c2 n1 n2 c,
  inv c1 n1 -> inv c2 n2 -> n1 <> 0 -> n2 <> 0 -> merge mn mx size width c1 c2 = Ok c ->
  c_user c = match c_user c1, c_user c2 with Some a, Some b => Some (Nat.max a b) | _, _ => None end /\
  exists h, c_stored c = Some h /\
    length (h_counts h) = match c_user c with Some k => k | None => 1000 end.
Proof.
  intros mn mx size width c1 c2 n1 n2 c I1 I2 N1 N2 H.
  destruct (merge_spec _ _ _ _ _ _ _ _ _ I1 I2 N1 N2 H)
    as (g1 & g2 & g & _ & _ & S & _ & _ & _ & _ & _ & L & U & _).
  split; [exact U|]. exists g. split; [exact S|exact L].
Qed.
Print Assumptions C90_merged_user_count.

(** ** Which histogram is shown *)
(** The losses of the methods, in their order. *)
Definition losses (c : col) : list (string * Q) :=
  map (fun m => (m, loss_of c m)) (dkeys (c_methods c)).

Lemma losses_nonneg c n : inv c n -> ready c -> forall x, In x (losses c) -> (0 <= snd x)%Q.
Proof.
  intros I R x Hx. unfold losses in Hx. apply in_map_iff in Hx. destruct Hx as (m & <- & Hm). cbn [snd].
  destruct (hfp_ok c n m I R Hm) as (s & l & E & L & _). unfold loss_of. rewrite E. exact L.
Qed.

(** The method selected has the smallest loss exactly if no loss is zero or the last one is. *)
Theorem C90_choice : forall est np h c, est_ok est -> np_ok np -> fine est np h ->
  hrun est np h = Ok c -> (just_merged h = false \/ c_user c = None) -> c_selection c = None ->
  exists c' o m q ms, best_histogram c = Ok (c', o) /\ c_selection c' = Some m /\
    In (m, q) (losses c) /\ (exists me, dget (c_methods c') m = Some me /\ o = slot_value (c_stored c') (m_slot me) /\
       m_current me = q) /\
    (exists l d, losses c = l ++ [(ms, d)] /\
      ((forall x, In x (losses c) -> (q <= snd x)%Q) <->
       ((forall x, In x (losses c) -> ~ (snd x == 0)%Q) \/ (d == 0)%Q))).
Proof.
  intros est np h c He Hn Hf Hr Hj Hs.
  destruct (hrun_inv est np He Hn h c Hf Hr) as (I & R & _). specialize (R Hj).
  destruct (best_histogram_spec c _ I R Hs) as (ms & m & q & me & Ep & Hm & Eq & Em & Eb & Ek & Eg).
  fold (losses c) in Ep.
  assert (HIn : In (m, q) (losses c)) by (destruct (pick_In _ _ _ Ep) as [X|X]; [exact X|discriminate]).
  assert (Hnn := losses_nonneg c _ I R).
  destruct (@exists_last _ (losses c)) as (l & [md d] & El); [intro E; rewrite E in HIn; destruct HIn|].
  eexists _, _, m, q, md. split; [exact Eb|]. split; [reflexivity|]. split; [exact HIn|].
  split.
  { exists (entry_after c m me). cbn [with_methods c_methods c_stored]. rewrite Eg, Em.
    split; [reflexivity|]. split; [reflexivity|].
    destruct (hfp_ok c _ m I R Hm) as (s & l0 & E & _). unfold entry_after, loss_of in *. rewrite E in *.
    cbn. congruence. }
  exists l, d. split; [exact El|].
  destruct (pick_last l md d) as (x & Ex & Hx0).
  { intros x Hx. apply Hnn. rewrite El. apply in_or_app. left. exact Hx. }
  { apply (Hnn (md, d)). rewrite El. apply in_or_app. right. left. reflexivity. }
  rewrite <- El, Ep in Ex. injection Ex as <-. cbn [snd] in Hx0.
  split.
  - intro Hmin. destruct (Qeq_dec d 0) as [Z0|NZ]; [right; exact Z0|left].
    intros x Hx E. pose proof (Hmin x Hx) as Hq. pose proof (Hnn (m, q) HIn) as Hq0. cbn in Hq0.
    apply NZ. apply Hx0. lra.
  - intros [Hpos|Z0] x Hx.
    + assert (Hpos' : forall y, In y (losses c) -> (0 < snd y)%Q).
      { intros y Hy. pose proof (Hnn y Hy). pose proof (Hpos y Hy). lra. }
      destruct (losses c) as [|b r]; [destruct Hx|]. cbn [pick better option_map] in Ep.
      destruct (pick_positive r b Hpos') as (l1 & y & l2 & Py & Sy & B & A).
      rewrite Ep in Py. injection Py as <-. cbn [snd] in A, B.
      rewrite Sy in Hx. apply in_app_or in Hx. destruct Hx as [Hx|[<-|Hx]].
      * apply Qlt_le_weak, B, Hx.
      * cbn. lra.
      * apply A, Hx.
    + apply Hx0 in Z0. pose proof (Hnn x Hx). lra.
Qed.
Print Assumptions C90_choice.

(** If no loss is zero, it is the first of the methods with the smallest loss. *)
Theorem C90_choice_first : forall est np h c c' o, est_ok est -> np_ok np -> fine est np h ->
  hrun est np h = Ok c -> (just_merged h = false \/ c_user c = None) -> c_selection c = None ->
  (forall x, In x (losses c) -> ~ (snd x == 0)%Q) -> best_histogram c = Ok (c', o) ->
  exists l1 m q l2, c_selection c' = Some m /\ losses c = l1 ++ (m, q) :: l2 /\
    (forall x, In x l1 -> (q < snd x)%Q) /\ (forall x, In x l2 -> (q <= snd x)%Q).
Proof.
  intros est np h c c' o He Hn Hf Hr Hj Hs Hpos Hb.
  destruct (hrun_inv est np He Hn h c Hf Hr) as (I & R & _). specialize (R Hj).
  destruct (best_histogram_spec c _ I R Hs) as (ms & m & q & me & Ep & Hm & Eq & Em & Eb & Ek & Eg).
  rewrite Eb in Hb. injection Hb as <- _. fold (losses c) in Ep.
  assert (Hnn := losses_nonneg c _ I R).
  assert (Hpos' : forall y, In y (losses c) -> (0 < snd y)%Q).
  { intros y Hy. pose proof (Hnn y Hy). pose proof (Hpos y Hy). lra. }
  destruct (losses c) as [|b r]; [discriminate|]. cbn [pick better option_map] in Ep.
  destruct (pick_positive r b Hpos') as (l1 & y & l2 & Py & Sy & B & A).
  rewrite Ep in Py. injection Py as <-. exists l1, m, q, l2. auto.
Qed.
Print Assumptions C90_choice_first.

(** Asking again gives the same histogram and changes nothing. *)
Theorem C90_report_again : forall c c' o, best_histogram c = Ok (c', o) ->
  best_histogram c' = Ok (c', o).
Proof.
  intros c c' o H. unfold best_histogram in H |- *.
  destruct (c_selection c) as [m0|] eqn:E.
  - cbn [bind] in H. rewrite E in H. destruct (dget (c_methods c) m0) as [me|] eqn:Em; [|discriminate].
    injection H as <- <-. rewrite E. cbn [bind]. rewrite E, Em. reflexivity.
  - destruct (best_loop (dkeys (c_methods c)) c None) as [c1|] eqn:El; [|discriminate]. cbn [bind] in H.
    destruct (c_selection c1) as [m|] eqn:E1; [|discriminate].
    destruct (dget (c_methods c1) m) as [me|] eqn:Em; [|discriminate].
    injection H as <- <-. rewrite E1. cbn [bind]. rewrite E1, Em. reflexivity.
Qed.
Print Assumptions C90_report_again.

(** ** Number of bins *)
(** Right after an update, if no report was made before, the histogram shown has as many bins as the method chosen suggests: one if all values are equal,
    else the number set by the user, else the estimate of the method but at most 100000. It is the
    stored histogram or its rebinning between the same outer edges. *)
Definition unshared (c : col) : Prop :=
  forall m me, dget (c_methods c) m = Some me -> m_slot me <> Stored.

Fixpoint no_report (h : hop) : Prop :=
  match h with
  | HNew _ _ => True
  | HUpd h _ => no_report h
  | HRep _ => False
  | HAdd _ _ _ _ h1 h2 => no_report h1 /\ no_report h2
  end.

Lemma no_report_unshared est np : est_ok est -> np_ok np -> forall h c, fine est np h -> no_report h ->
  hrun est np h = Ok c -> unshared c /\ c_selection c = None.
Proof.
  intros He Hn. induction h as [fl o|h IH v|h IH|mn mx size width h1 IH1 h2 IH2]; intros c Hf Hno Hr;
    cbn [fine hrun no_report] in *.
  - injection Hr as <-. split; [|reflexivity]. intros m me E. unfold new_col in E. cbn [c_methods] in E.
    set (l := match o with BDefault => default_names | BMethod m => [m] | BMethods l => l
              | BCount _ => ["custom"%string] end) in E.
    change (new_methods l (Some min_bins)) with (init_methods (fun _ => Some min_bins) l) in E.
    rewrite (proj2 (proj2 (init_methods_spec (fun _ => Some min_bins) l)) m me E). discriminate.
  - destruct (hrun est np h) as [c0|] eqn:E0; [|discriminate]. cbn [bind] in Hr. injection Hr as <-.
    destruct (IH c0 Hf Hno eq_refl) as (U & S).
    destruct (hrun_inv est np He Hn h c0 Hf E0) as (I & _).
    destruct v as [|x v]; [split; [exact U|reflexivity]|].
    destruct (update_ok est np c0 _ (x :: v) He Hn I) as (_ & _ & _ & _ & Sel & _ & _ & _ & _ & G);
      [discriminate|]. split; [|exact Sel].
    intros m me E. rewrite G in E. destruct (dget (c_methods c0) m) as [m0|] eqn:Em; [|discriminate].
    pose proof (U m m0 Em) as Hm0. cbn [option_map] in E.
    destruct (all_equal _); injection E as <-; cbn [prepared m_slot];
      (destruct (m_slot m0); [discriminate|congruence]).
  - destruct Hno.
  - destruct (hrun est np h1) as [c1|] eqn:E1; [|discriminate]. cbn [bind] in Hr.
    destruct (hrun est np h2) as [c2|] eqn:E2; [|discriminate]. cbn [bind] in Hr.
    destruct Hf as (F1 & F2 & N1 & N2 & W).
    destruct (hrun_inv est np He Hn h1 c1 F1 E1) as (A1 & _), (hrun_inv est np He Hn h2 c2 F2 E2) as (A2 & _).
    assert (L1 : length (hdata h1) <> 0) by (destruct (hdata h1); [congruence|discriminate]).
    assert (L2 : length (hdata h2) <> 0) by (destruct (hdata h2); [congruence|discriminate]).
    destruct (merge_spec mn mx size width c1 c2 _ _ c A1 A2 L1 L2 Hr)
      as (g1 & g2 & g & _ & _ & _ & _ & Sel & _ & _ & _ & _ & _ & M).
    split; [|exact Sel]. intros m me E. rewrite (M m me E). discriminate.
Qed.

Lemma bins_after_update : forall est np c n v, est_ok est -> np_ok np -> inv c n -> unshared c -> v <> [] ->
  let vs := combined c v in
  exists c' g m st, best_histogram (update est np c v) = Ok (c', Some g) /\ c_selection c' = Some m /\
    In m (c_names c) /\
    c_stored c' = Some st /\ st = get_histogram (np (equal_bins est c vs)) vs /\
    length (h_counts g) = (if all_equal vs then 1
                           else match c_user c with
                                | Some k => k
                                | None => Nat.min (est m vs) max_bins
                                end) /\
    (g = st \/ exists e0 es, h_edges st = e0 :: es /\
       h_edges g = linspace e0 (last_q e0 (e0 :: es)) (length (h_counts g))).
Proof.
  intros est np c n v He Hnp I Hun Hv. cbv zeta.
  destruct (update_ok est np c n v He Hnp I Hv)
    as (I' & R' & S' & U' & Sel' & N' & F' & K' & L' & G').
  set (vs := combined c v) in *. set (st := get_histogram (np (equal_bins est c vs)) vs) in *.
  set (c1 := update est np c v) in *.
  destruct (best_histogram_spec c1 _ I' R' Sel') as (ms & m & q & me & Ep & Hm & Eq & Em & Eb & Ek & Eg).
  destruct (hfp_ok c1 _ m I' R' Hm) as (s & l & Eh & _ & _ & Hne).
  destruct (entry_after_slot c1 m me s l Eh) as (Esl & _ & _).
  assert (Hlen : length v + n <> 0) by (destruct v; [congruence|cbn; lia]).
  rewrite Esl in Eb. rewrite S' in Eb, Hne.
  destruct (slot_value (Some st) s) as [g|] eqn:Eg1; [|exfalso; exact (Hne Hlen eq_refl)].
  exists (with_methods c1 ms (Some m)), g, m, st.
  split; [exact Eb|]. split; [reflexivity|].
  split; [apply (i_keys _ _ I); rewrite <- K'; exact Hm|].
  split; [cbn; exact S'|]. split; [reflexivity|].
  (* the entry of m *)
  rewrite G' in Em. destruct (dget (c_methods c) m) as [m0|] eqn:Em0; [|discriminate].
  cbn [option_map] in Em. injection Em as Eme.
  pose proof (Hun m m0 Em0) as Hns.
  assert (Hvs : vs <> []) by (apply combined_ne; exact Hv).
  destruct (get_histogram_good np (equal_bins est c vs) vs Hnp (equal_bins_pos est c vs) Hvs) as (Hgood & Hl).
  fold st in Hgood, Hl.
  unfold histogram_for_profile in Eh. rewrite G', Em0, S' in Eh. cbn [option_map] in Eh.
  destruct (all_equal vs) eqn:Ea.
  - cbn [prepared m_suggested m_slot m_total] in Eh.
    destruct (m_slot m0) as [o0|]; [|congruence]. cbn [write_slot slot_value] in Eh.
    injection Eh as <- _. cbn in Eg1. injection Eg1 as <-. split; [exact Hl|left; reflexivity].
  - cbn [prepared m_suggested m_slot m_total] in Eh.
    destruct (m_slot m0) as [o0|]; [|congruence]. cbn [write_slot slot_value] in Eh.
    assert (Es : suggestion est c vs m = match c_user c with Some k => k | None => Nat.min (est m vs) max_bins end).
    { unfold suggestion, base_bins. pose proof (i_user _ _ I).
      destruct (c_user c) as [[|k]|]; [congruence|reflexivity|reflexivity]. }
    rewrite <- Es.
    destruct (Nat.eqb_spec (length (h_counts st)) (suggestion est c vs m)) as [E|E].
    + injection Eh as <- _. cbn in Eg1. injection Eg1 as <-. split; [exact E|left; reflexivity].
    + destruct (h_edges st) as [|e0 es] eqn:Ee; [discriminate|]. rewrite <- Ee in Eh.
      destruct (regenerate_ok e0 (last_q 0 (h_edges st)) (suggestion est c vs m) (c_float c1) st
                  (suggestion_pos est c vs m He) (proj1 Hgood)) as (h' & Er & _ & Hl' & _ & He').
      rewrite Er in Eh. cbn [bind] in Eh.
      destruct (regenerate_loss _ _ _ _ _) as [l'|] in Eh; [|discriminate]. cbn [bind] in Eh.
      injection Eh as <- _. cbn in Eg1. injection Eg1 as <-. split; [exact Hl'|]. right.
      exists e0, es. split; [reflexivity|]. rewrite He', Hl'. f_equal. rewrite Ee. reflexivity.
Qed.

Theorem C90_bins : forall est np h v c, est_ok est -> np_ok np -> fine est np h -> no_report h ->
  hrun est np h = Ok c -> v <> [] ->
  let vs := combined c v in
  exists c' g m st, best_histogram (update est np c v) = Ok (c', Some g) /\ c_selection c' = Some m /\
    In m (c_names c) /\
    c_stored c' = Some st /\ st = get_histogram (np (equal_bins est c vs)) vs /\
    ((forall x y, In x vs -> In y vs -> (x == y)%Q) -> length (h_counts g) = 1) /\
    ((exists x y, In x vs /\ In y vs /\ ~ (x == y)%Q) ->
       length (h_counts g) = match c_user c with
                             | Some k => k
                             | None => Nat.min (est m vs) (100 * 1000)
                             end) /\
    (g = st \/ exists e0 es, h_edges st = e0 :: es /\
       h_edges g = linspace e0 (last_q e0 (e0 :: es)) (length (h_counts g))).
Proof.
  intros est np h v c He Hn Hf Hno Hr Hv.
  destruct (hrun_inv est np He Hn h c Hf Hr) as (I & _).
  destruct (no_report_unshared est np He Hn h c Hf Hno Hr) as (U & _).
  intros vs. destruct (bins_after_update est np c _ v He Hn I U Hv) as (c' & g & m & st & E1 & E2 & E3 & E4 & E5 & E6 & E7). fold vs in E5, E6.
  exists c', g, m, st. refine (conj E1 (conj E2 (conj E3 (conj E4 (conj E5 (conj _ (conj _ E7))))))).
  - intros H. rewrite E6. assert (all_equal vs = true) as ->; [|reflexivity]. apply HistProps.all_equal_spec; [|exact H]. unfold vs, combined. destruct v; [congruence|]. destruct (c_stored c); discriminate.
  - intros (x & y & X & Y & NE). rewrite E6. destruct (all_equal vs) eqn:EA; [|reflexivity]. exfalso. apply NE. apply (proj1 (HistProps.all_equal_spec vs ltac:(intros Z; rewrite Z in X; destruct X)) EA); assumption.
Qed.
Print Assumptions C90_bins.

(** Right after a merge of profiles without a number of bins set by the user: as many bins as the
    width of the method chosen asks for, without an upper limit. *)
Theorem C90_bins_merged : forall est np h1 h2 mn mx size width c, est_ok est -> np_ok np ->
  let h := HAdd mn mx size width h1 h2 in
  fine est np h -> hrun est np h = Ok c -> c_user c = None ->
  exists c1 c2 g1 g2 c' g m, hrun est np h1 = Ok c1 /\ hrun est np h2 = Ok c2 /\
    c_stored c1 = Some g1 /\ c_stored c2 = Some g2 /\
    best_histogram c = Ok (c', Some g) /\ c_selection c' = Some m /\
    In m (c_names c1) /\ In m (c_names c2) /\
    length (h_counts g) = bins_from_profile size (merged_hi mx g1 g2 - merged_lo mn g1 g2)%Q (width m).
Proof.
  intros est np h1 h2 mn mx size width c He Hn h Hf Hr Hu.
  destruct (hrun_inv est np He Hn h c Hf Hr) as (I & R & _). specialize (R (or_intror Hu)).
  unfold h in Hf, Hr. cbn [fine hrun] in Hf, Hr.
  destruct (hrun est np h1) as [c1|] eqn:E1; [|discriminate]. cbn [bind] in Hr.
  destruct (hrun est np h2) as [c2|] eqn:E2; [|discriminate]. cbn [bind] in Hr.
  destruct Hf as (F1 & F2 & N1 & N2 & W).
  destruct (hrun_inv est np He Hn h1 c1 F1 E1) as (A1 & _), (hrun_inv est np He Hn h2 c2 F2 E2) as (A2 & _).
  assert (L1 : length (hdata h1) <> 0) by (destruct (hdata h1); [congruence|discriminate]).
  assert (L2 : length (hdata h2) <> 0) by (destruct (hdata h2); [congruence|discriminate]).
  destruct (merge_spec mn mx size width c1 c2 _ _ c A1 A2 L1 L2 Hr)
    as (g1 & g2 & st & S1 & S2 & S & I' & Sel & _ & _ & Nm & _ & _ & M).
  destruct (best_histogram_spec c _ I R Sel) as (ms & m & q & me & Ep & Hm & Eq & Em & Eb & Ek & Eg).
  destruct (hfp_ok c _ m I R Hm) as (s & l & Eh & _ & _ & Hne).
  destruct (entry_after_slot c m me s l Eh) as (Esl & _ & _).
  rewrite Esl, S in Eb. rewrite S in Hne.
  destruct (slot_value (Some st) s) as [g|] eqn:Eg1.
  2:{ exfalso. apply Hne; [|reflexivity]. unfold h. cbn [hdata]. rewrite app_length. lia. }
  exists c1, c2, g1, g2, (with_methods c ms (Some m)), g, m.
  repeat (split; [first [reflexivity|assumption]|]).
  pose proof (proj2 (i_keys _ _ I m) Hm) as Hin. apply Nm in Hin. destruct Hin as (Hi1 & Hi2).
  split; [exact Hi1|]. split; [exact Hi2|].
  pose proof (W c1 c2 g1 g2 m eq_refl eq_refl S1 S2) as Hpos.
  set (k := bins_from_profile _ _ _) in *.
  unfold histogram_for_profile in Eh. rewrite Em, (M m me Em), Hu, S in Eh. fold k in Eh.
  cbn [m_suggested m_slot slot_value] in Eh.
  pose proof (i_stored _ _ I) as Hst. rewrite S in Hst. destruct Hst as (_ & Hg).
  destruct (Nat.eqb_spec (length (h_counts st)) k) as [E|E].
  - injection Eh as <- _. cbn in Eg1. injection Eg1 as <-. exact E.
  - destruct (h_edges st) as [|e0 es] eqn:Ee; [discriminate|]. rewrite <- Ee in Eh.
    destruct (regenerate_ok e0 (last_q 0 (h_edges st)) k (c_float c) st Hpos (proj1 Hg))
      as (h' & Er & _ & Hl' & _ & He').
    rewrite Er in Eh. cbn [bind] in Eh.
    destruct (regenerate_loss _ _ _ _ _) as [l'|] in Eh; [|discriminate]. cbn [bind] in Eh.
    injection Eh as <- _. cbn in Eg1. injection Eg1 as <-. exact Hl'.
Qed.
Print Assumptions C90_bins_merged.

(** ** A number of bins set by the user *)
(** Updates and reports only, with that number of bins. *)
Fixpoint counted (n : nat) (h : hop) : Prop :=
  match h with
  | HNew _ o => o = BCount n
  | HUpd h _ => counted n h
  | HRep h => counted n h
  | HAdd _ _ _ _ _ _ => False
  end.

Definition shows_stored (n : nat) (c : col) : Prop :=
  c_user c = Some n /\
  forall st, c_stored c = Some st ->
    (length (h_counts st) = n \/ length (h_counts st) = 1) /\
    forall m me, dget (c_methods c) m = Some me ->
      match slot_value (c_stored c) (m_slot me) with
      | None => m_suggested me = Some (length (h_counts st))
      | Some g => g = st
      end.

Lemma shows_stored_report n c : shows_stored n c -> forall N, inv c N -> ready c ->
  forall c' o, best_histogram c = Ok (c', o) -> shows_stored n c' /\ o = c_stored c'.
Proof.
  intros (U & H) N I R c' o Hb. destruct (c_selection c) as [m|] eqn:Es.
  - unfold best_histogram in Hb. rewrite Es in Hb. cbn [bind] in Hb. rewrite Es in Hb.
    destruct (dget (c_methods c) m) as [me|] eqn:Em; [|discriminate]. injection Hb as <- <-.
    split; [split; assumption|].
    destruct (c_stored c) as [st|] eqn:S.
    + destruct (H st eq_refl) as (_ & H'). specialize (H' m me Em).
      destruct (i_sel _ _ I m Es) as (me' & Em' & Hv). rewrite Em in Em'. injection Em' as <-.
      rewrite S in Hv. pose proof (i_stored _ _ I) as Hst. rewrite S in Hst. destruct Hst as (HN & _).
      specialize (Hv HN). destruct (slot_value (Some st) (m_slot me)) as [g|]; [|congruence].
      rewrite H'. reflexivity.
    + pose proof (i_slot _ _ I m me Em) as Hsl. rewrite S in Hsl. pose proof (i_none _ _ I S) as HN.
      destruct (slot_value None (m_slot me)) as [g|]; [|reflexivity]. destruct Hsl as (X & _). congruence.
  - destruct (best_histogram_spec c N I R Es) as (ms & m & q & me & Ep & Hm & Eq & Em & Eb & Ek & Eg).
    rewrite Eb in Hb. injection Hb as <- <-. cbn [with_methods c_stored c_methods].
    assert (A : forall x mx, dget (c_methods c) x = Some mx ->
              slot_value (c_stored c) (m_slot (entry_after c x mx)) = c_stored c).
    { intros x mx Ex. assert (Hx := key_dget _ _ _ Ex).
      destruct (hfp_ok c N x I R Hx) as (s & l & E & _).
      destruct (entry_after_slot c x mx s l E) as (-> & _).
      unfold histogram_for_profile in E. rewrite Ex in E.
      destruct (m_suggested mx) as [k|] eqn:Ek'; [|discriminate].
      destruct (c_stored c) as [st|] eqn:S.
      - destruct (H st eq_refl) as (_ & H'). specialize (H' x mx Ex).
        destruct (slot_value (Some st) (m_slot mx)) as [g|] eqn:Ev.
        + injection E as <- _. rewrite Ev. f_equal. exact H'.
        + assert (k = length (h_counts st)) by congruence. subst k.
          rewrite Nat.eqb_refl in E. injection E as <- _. reflexivity.
      - pose proof (i_slot _ _ I x mx Ex) as Hsl. rewrite S in Hsl. pose proof (i_none _ _ I S) as HN.
        assert (Es' : m_slot mx = s) by (destruct (slot_value None (m_slot mx)); injection E; auto).
        rewrite <- Es'. destruct (slot_value None (m_slot mx)) as [g|]; [|reflexivity].
        destruct Hsl as (X & _). congruence. }
    split; [|apply A; exact Em].
    split; [exact U|]. cbn [with_methods c_stored c_methods]. intros st S. destruct (H st S) as (Hl & _).
    split; [exact Hl|]. intros x mx Ex. rewrite Eg in Ex.
    destruct (dget (c_methods c) x) as [m0|] eqn:E0; [|discriminate]. cbn in Ex. injection Ex as <-.
    rewrite (A x m0 E0), S. reflexivity.
Qed.

Lemma counted_shows est np n : est_ok est -> np_ok np -> n <> 0 -> forall h c, counted n h ->
  hrun est np h = Ok c -> fine est np h /\ just_merged h = false /\ shows_stored n c.
Proof.
  intros He Hn Hn0. induction h as [fl o|h IH v|h IH|mn mx size width h1 IH1 h2 IH2]; intros c Hc Hr;
    cbn [counted hrun fine] in *.
  - subst o. injection Hr as <-. split; [exact Hn0|]. split; [reflexivity|]. split; [reflexivity|]. discriminate.
  - destruct (hrun est np h) as [c0|] eqn:E0; [|discriminate]. cbn [bind] in Hr. injection Hr as <-.
    destruct (IH c0 Hc eq_refl) as (F & J & (U & S)). split; [exact F|].
    split; [cbn; destruct v; [exact J|reflexivity]|].
    destruct v as [|x v]; [split; [exact U|exact S]|].
    destruct (hrun_inv est np He Hn h c0 F E0) as (I & _).
    destruct (update_ok est np c0 _ (x :: v) He Hn I) as (_ & _ & S' & U' & _ & _ & _ & _ & _ & G);
      [discriminate|].
    set (vs := combined c0 (x :: v)) in *. set (st := get_histogram _ _) in *.
    assert (Eb : equal_bins est c0 vs = n /\ forall m, suggestion est c0 vs m = n).
    { unfold equal_bins, suggestion, base_bins. rewrite U. destruct n; [congruence|]. split; reflexivity. }
    destruct Eb as (Eb & Esg).
    assert (Hl : length (h_counts st) = if all_equal vs then 1 else n).
    { unfold st. rewrite Eb. apply get_histogram_good; [exact Hn|lia|apply combined_ne; discriminate]. }
    split; [congruence|]. intros st' Est. rewrite S' in Est. injection Est as <-.
    split; [destruct (all_equal vs); auto|].
    intros m me E. rewrite S'. rewrite G in E. destruct (dget (c_methods c0) m) as [m0|]; [|discriminate].
    cbn [option_map] in E. destruct (all_equal vs); injection E as <-; cbn [prepared m_slot m_suggested];
      destruct (m_slot m0); cbn; try reflexivity. rewrite Hl, Esg. reflexivity.
  - destruct (hrun est np h) as [c0|] eqn:E0; [|discriminate]. cbn [bind] in Hr.
    destruct (IH c0 Hc eq_refl) as (F & J & S). split; [exact F|]. split; [exact J|].
    destruct (hrun_inv est np He Hn h c0 F E0) as (I & R & _). specialize (R (or_introl J)).
    destruct (best_histogram c0) as [[c1 o]|] eqn:Eb; injection Hr as <-; [|exact S].
    exact (proj1 (shows_stored_report n c0 S _ I R c1 o Eb)).
  - destruct Hc.
Qed.

(** The report then always shows the stored histogram, with that number of bins or, if all values are
    equal, with one. *)
Theorem C90_user_count : forall est np n h c, est_ok est -> np_ok np -> n <> 0 -> counted n h ->
  hrun est np h = Ok c -> hdata h <> [] ->
  exists c' g, best_histogram c = Ok (c', Some g) /\ c_stored c = Some g /\
    (length (h_counts g) = n \/ length (h_counts g) = 1).
Proof.
  intros est np n h c He Hn Hn0 Hc Hr Hd.
  destruct (counted_shows est np n He Hn Hn0 h c Hc Hr) as (F & J & S).
  destruct (hrun_inv est np He Hn h c F Hr) as (I & R & _). specialize (R (or_introl J)).
  destruct (report_ok c _ I R) as (c' & o & Eb & _ & _ & _ & Ne & Est & _).
  destruct (shows_stored_report n c S _ I R c' o Eb) as ((_ & S') & Eo).
  assert (L : length (hdata h) <> 0) by (destruct (hdata h); [congruence|discriminate]).
  destruct o as [g|]; [|exfalso; apply (Ne L); reflexivity].
  exists c', g. split; [exact Eb|]. split; [congruence|]. apply S'. symmetry. exact Eo.
Qed.
Print Assumptions C90_user_count.

(** ** Reports and later data *)
(** A report leaves the stored histogram and everything computed from it as it is, also after later
    updates. *)
Theorem C90_report_keeps_data : forall est np h c c' o v, est_ok est -> np_ok np -> fine est np h ->
  hrun est np h = Ok c -> best_histogram c = Ok (c', o) ->
  c_stored c' = c_stored c /\ c_stored (update est np c' v) = c_stored (update est np c v) /\
  c_loss (update est np c' v) = c_loss (update est np c v).
Proof.
  intros est np h c c' o v He Hn Hf Hr Hb.
  destruct (hrun_inv est np He Hn h c Hf Hr) as (I & R & U).
  assert (Rd : ready c).
  { destruct (just_merged h) eqn:J; [|apply R; left; reflexivity].
    destruct (c_user c) as [k|] eqn:Eu; [|apply R; right; reflexivity].
    rewrite (unready_fails c _ I (U eq_refl ltac:(discriminate))) in Hb. discriminate. }
  destruct (report_ok c _ I Rd) as (c1 & o1 & Eb & I1 & _ & _ & _ & S1 & U1 & N1 & L1 & F1 & _ & _).
  rewrite Eb in Hb. injection Hb as <- <-.
  split; [exact S1|]. destruct v as [|x v]; [cbn; split; assumption|].
  destruct (update_ok est np c _ (x :: v) He Hn I) as (_ & _ & A & _ & _ & _ & _ & _ & B & _); [discriminate|].
  destruct (update_ok est np c1 _ (x :: v) He Hn I1) as (_ & _ & A' & _ & _ & _ & _ & _ & B' & _); [discriminate|].
  assert (Ec : combined c1 (x :: v) = combined c (x :: v)).
  { unfold combined, rnd. rewrite S1, F1. reflexivity. }
  assert (Ee : equal_bins est c1 (combined c1 (x :: v)) = equal_bins est c (combined c (x :: v))).
  { rewrite Ec. unfold equal_bins, suggestion, base_bins. rewrite U1, N1. reflexivity. }
  rewrite Ee, Ec in A', B'. split; [congruence|]. rewrite B, B', L1. reflexivity.
Qed.
Print Assumptions C90_report_keeps_data.

(** The first report does not influence the histogram shown after the next update, if no method
    suggests exactly as many bins as are stored. *)
Theorem C90_report_neutral : forall est np h c c' o v, est_ok est -> np_ok np -> fine est np h ->
  no_report h -> hrun est np h = Ok c -> best_histogram c = Ok (c', o) -> v <> [] ->
  (forall m me st, dget (c_methods c) m = Some me -> c_stored c = Some st ->
     m_suggested me <> Some (length (h_counts st))) ->
  exists a b g, best_histogram (update est np c v) = Ok (a, Some g) /\
    best_histogram (update est np c' v) = Ok (b, Some g).
Proof.
  intros est np h c c' o v He Hn Hf Hno Hr Hb Hv Hne.
  destruct (hrun_inv est np He Hn h c Hf Hr) as (I & R & U).
  assert (Rd : ready c).
  { destruct (just_merged h) eqn:J; [|apply R; left; reflexivity].
    destruct (c_user c) as [k|] eqn:Eu; [|apply R; right; reflexivity].
    rewrite (unready_fails c _ I (U eq_refl ltac:(discriminate))) in Hb. discriminate. }
  destruct (no_report_unshared est np He Hn h c Hf Hno Hr) as (Un & Sel).
  destruct (report_ok c _ I Rd) as (c1 & o1 & Eb & I1 & _ & _ & _ & S1 & U1 & N1 & L1 & F1 & K1 & _).
  rewrite Eb in Hb. injection Hb as <- <-.
  destruct (best_histogram_spec c _ I Rd Sel) as (ms & m & q & me & _ & _ & _ & _ & Eb' & _ & Eg).
  rewrite Eb in Eb'. injection Eb' as E1 _.
  assert (Un1 : unshared c1).
  { intros x mx Ex. rewrite E1 in Ex. cbn [with_methods c_methods] in Ex. rewrite Eg in Ex.
    destruct (dget (c_methods c) x) as [m0|] eqn:E0; [|discriminate]. cbn in Ex. injection Ex as <-.
    destruct (hfp_ok c _ x I Rd (key_dget _ _ _ E0)) as (s & l & E & _).
    destruct (entry_after_slot c x m0 s l E) as (-> & _).
    unfold histogram_for_profile in E. rewrite E0 in E.
    destruct (m_suggested m0) as [k|] eqn:Ek; [|discriminate].
    pose proof (Un x m0 E0) as Hs0.
    destruct (c_stored c) as [st|] eqn:S.
    - destruct (slot_value (Some st) (m_slot m0)); [injection E as <- _; exact Hs0|].
      destruct (Nat.eqb_spec (length (h_counts st)) k) as [El|El].
      + exfalso. apply (Hne x m0 st E0 eq_refl). congruence.
      + destruct (h_edges st); [discriminate|]. destruct (regenerate _ _ _ _ _); [|discriminate].
        cbn [bind] in E. destruct (regenerate_loss _ _ _ _ _); [|discriminate]. cbn [bind] in E.
        injection E as <- _. discriminate.
    - assert (m_slot m0 = s) as <- by (destruct (slot_value None (m_slot m0)); injection E; auto).
      exact Hs0. }
  destruct (update_ok est np c _ v He Hn I Hv) as (Ia & Ra & Sa & _ & Sla & _ & Fa & Ka & La & Ga).
  destruct (update_ok est np c1 _ v He Hn I1 Hv) as (Ib & Rb & Sb & _ & Slb & _ & Fb & Kb & Lb & Gb).
  assert (Ec : combined c1 v = combined c v).
  { unfold combined, rnd. rewrite S1, F1. reflexivity. }
  assert (Es : forall x, suggestion est c1 (combined c v) x = suggestion est c (combined c v) x).
  { intro x. unfold suggestion, base_bins. rewrite U1. reflexivity. }
  assert (Ee : equal_bins est c1 (combined c v) = equal_bins est c (combined c v)).
  { unfold equal_bins, suggestion, base_bins. rewrite U1, N1. reflexivity. }
  rewrite Ec, ?Ee in Sb, Lb, Gb. rewrite L1 in Lb. rewrite F1 in Fb. rewrite K1 in Kb.
  set (vs := combined c v) in *. set (st := get_histogram (np (equal_bins est c vs)) vs) in *.
  set (ca := update est np c v) in *. set (cb := update est np c1 v) in *.
  destruct (best_histogram_spec ca _ Ia Ra Sla) as (msa & ma & qa & mea & Pa & Ha & _ & Ema & Ba & _ & _).
  destruct (best_histogram_spec cb _ Ib Rb Slb) as (msb & mb & qb & meb & Pb & Hb & _ & Emb & Bb & _ & _).
  destruct (hfp_ok ca _ ma Ia Ra Ha) as (sa & la & Eha & _ & _ & Nea).
  destruct (hfp_ok cb _ mb Ib Rb Hb) as (sb & lb & Ehb & _ & _ & Neb).
  destruct (entry_after_slot ca ma mea sa la Eha) as (Esa & _).
  destruct (entry_after_slot cb mb meb sb lb Ehb) as (Esb & _).
  rewrite Esa, Sa in Ba. rewrite Esb, Sb in Bb. rewrite Sa in Nea. rewrite Sb in Neb.
  assert (Hlen : forall k, length v + k <> 0) by (destruct v; [congruence|cbn; lia]).
  assert (G1 : forall x, In x (dkeys (c_methods c)) ->
             exists m1 m2, dget (c_methods c) x = Some m1 /\ dget (c_methods c1) x = Some m2 /\
               (exists o1, m_slot m1 = Own o1) /\ (exists o2, m_slot m2 = Own o2)).
  { intros x Hx. destruct (dget_key _ _ Hx) as (m1 & Em1).
    rewrite <- K1 in Hx. destruct (dget_key _ _ Hx) as (m2 & Em2). exists m1, m2.
    split; [exact Em1|]. split; [exact Em2|].
    pose proof (Un x m1 Em1). pose proof (Un1 x m2 Em2).
    destruct (m_slot m1), (m_slot m2); try congruence. split; eexists; reflexivity. }
  destruct (all_equal vs) eqn:Ea.
  - (* all equal: every method shows the stored histogram *)
    assert (Xa : sa = Own (Some st)).
    { rewrite Ka in Ha. destruct (G1 ma Ha) as (m1 & m2 & E1' & _ & (o1' & So) & _).
      unfold histogram_for_profile in Eha. rewrite Ga, E1', Sa in Eha.
      cbn [option_map prepared m_suggested m_slot] in Eha. rewrite So in Eha.
      cbn [write_slot slot_value] in Eha. injection Eha as <- _. reflexivity. }
    assert (Xb : sb = Own (Some st)).
    { rewrite Kb in Hb. destruct (G1 mb Hb) as (m1 & m2 & _ & E2' & _ & (o2' & So)).
      unfold histogram_for_profile in Ehb. rewrite Gb, E2', Sb in Ehb.
      cbn [option_map prepared m_suggested m_slot] in Ehb. rewrite So in Ehb.
      cbn [write_slot slot_value] in Ehb. injection Ehb as <- _. reflexivity. }
    rewrite Xa in Ba. rewrite Xb in Bb. cbn [slot_value] in Ba, Bb. eexists _, _, st. split; [exact Ba|exact Bb].
  - assert (Hh : forall x, In x (dkeys (c_methods c)) ->
               histogram_for_profile cb x = histogram_for_profile ca x).
    { intros x Hx. destruct (G1 x Hx) as (m1 & m2 & E1' & E2' & (o1' & So1) & (o2' & So2)).
      unfold histogram_for_profile. rewrite Ga, Gb, E1', E2', Sa, Sb.
      cbn [option_map prepared m_suggested m_slot]. rewrite So1, So2. cbn [write_slot slot_value].
      rewrite Es, La, Lb, Fa, Fb. reflexivity. }
    assert (EL : map (fun x => (x, loss_of cb x)) (dkeys (c_methods cb)) =
                 map (fun x => (x, loss_of ca x)) (dkeys (c_methods ca))).
    { rewrite Ka, Kb. apply map_ext_in. intros x Hx. unfold loss_of. rewrite Hh by exact Hx. reflexivity. }
    rewrite EL, Pa in Pb. injection Pb as <- <-.
    rewrite Ka in Ha. rewrite (Hh ma Ha), Eha in Ehb. injection Ehb as <- <-.
    destruct (slot_value (Some st) sa) as [g|]; [|exfalso; apply (Nea (Hlen _)); reflexivity].
    eexists _, _, g. split; [exact Ba|exact Bb].
Qed.
Print Assumptions C90_report_neutral.

(** ** Merging with a profile without a histogram *)
(** The merged profile has no stored histogram. It has the methods of the operand that has one (the
    first if none has), but goes on with the default methods: if one of those is missing, all later
    updates leave it without a histogram. *)
Theorem C90_merge_with_empty : forall est np mn mx size width c1 c2,
  c_stored c1 = None \/ c_stored c2 = None ->
  let s := match c_stored c2 with None => c1 | Some _ => c2 end in
  exists c, merge mn mx size width c1 c2 = Ok c /\ c_stored c = None /\
    dkeys (c_methods c) = dkeys (c_methods s) /\
    (forall x, In x default_names -> ~ In x (dkeys (c_methods s)) ->
     forall batches, c_stored (fold_left (update est np) batches c) = None).
Proof.
  intros est np mn mx size width c1 c2 Hno s.
  assert (Keys : forall (f : string * meth -> meth) l, dkeys (map (fun p => (fst p, f p)) l) = dkeys l).
  { intros f l. unfold dkeys. rewrite map_map. reflexivity. }
  assert (Stuck : forall x batches c, In x default_names -> c_names c = default_names ->
            ~ In x (dkeys (c_methods c)) -> c_stored c = None ->
            c_stored (fold_left (update est np) batches c) = None).
  { intros x batches. induction batches as [|v r IH]; intros c Hx Hnm Hk Hs; cbn [fold_left]; [exact Hs|].
    destruct v as [|v0 v'].
    - apply IH; cbn [update c_names c_methods c_stored]; assumption.
    - cbn [update]. set (vs := combined c (v0 :: v')). set (g := get_histogram _ _).
      assert (Sf : forall sg o, snd (prepare sg o (c_names c) (c_methods c)) = false).
      { intros sg o. apply (prepare_fails sg o _ _ x); [rewrite Hnm; exact Hx|exact Hk]. }
      destruct (all_equal vs); rewrite Sf; apply IH; cbn [c_names c_methods c_stored];
        rewrite ?prepare_keys; assumption. }
  unfold merge, s. destruct (c_stored c1) as [h1|] eqn:S1, (c_stored c2) as [h2|] eqn:S2.
  - destruct Hno; discriminate.
  - eexists. split; [reflexivity|]. cbn [c_stored c_methods]. split; [reflexivity|].
    split; [apply Keys|]. intros x Hx Hk batches. apply (Stuck x); cbn [c_names c_methods c_stored]; try assumption; try reflexivity.
    rewrite Keys. exact Hk.
  - eexists. split; [reflexivity|]. cbn [c_stored c_methods]. split; [reflexivity|].
    split; [apply Keys|]. intros x Hx Hk batches. apply (Stuck x); cbn [c_names c_methods c_stored]; try assumption; try reflexivity.
    rewrite Keys. exact Hk.
  - eexists. split; [reflexivity|]. cbn [c_stored c_methods]. split; [reflexivity|].
    split; [apply Keys|]. intros x Hx Hk batches. apply (Stuck x); cbn [c_names c_methods c_stored]; try assumption; try reflexivity.
    rewrite Keys. exact Hk.
Qed.
Print Assumptions C90_merge_with_empty.
