(** Lemmas about the histogram of the report: states reached by updates, reports and merges. *)
From Coq Require Import QArith Qround.
From Verif Require Import PyCommon QFacts ListFacts HistModel HistProofs PyDict PyString RepHistModel RepHistProofs.
Local Delimit Scope string_scope with string.
Open Scope list_scope.
Local Open Scope nat_scope.

(** A histogram of [n] values. *)
Definition good (n : nat) (h : hist) : Prop :=
  wf_hist h /\ h_counts h <> [] /\ zsum (h_counts h) = Z.of_nat n.

Definition goodo (n : nat) (o : option hist) : Prop :=
  match o with None => True | Some g => n <> 0 /\ good n g end.

Record inv (c : col) (n : nat) : Prop := {
  i_keys : forall x, In x (c_names c) <-> In x (dkeys (c_methods c));
  i_nodup : NoDup (dkeys (c_methods c));
  i_ne : dkeys (c_methods c) <> [];
  i_stored : goodo n (c_stored c);
  i_none : c_stored c = None -> n = 0;
  i_slot : forall m me, dget (c_methods c) m = Some me -> goodo n (slot_value (c_stored c) (m_slot me));
  i_total : forall m me, dget (c_methods c) m = Some me -> (0 <= m_total me)%Q;
  i_loss : (0 <= c_loss c)%Q;
  i_user : c_user c <> Some 0;
  i_sel : forall m, c_selection c = Some m -> exists me, dget (c_methods c) m = Some me /\
            (n <> 0 -> slot_value (c_stored c) (m_slot me) <> None) }.

(** Every method has a suggested bin count. *)
Definition ready (c : col) : Prop :=
  forall m me, dget (c_methods c) m = Some me -> exists k, m_suggested me = Some k /\ 0 < k.

Lemma dget_key {V} (d : dict string V) x : In x (dkeys d) -> exists v, dget d x = Some v.
Proof.
  intro H. destruct (dget d x) as [v|] eqn:E; [exists v; reflexivity|].
  apply dget_None in E. contradiction.
Qed.

Lemma key_dget {V} (d : dict string V) x v : dget d x = Some v -> In x (dkeys d).
Proof.
  intro H. destruct (in_dec String.string_dec x (dkeys d)) as [I|N]; [exact I|].
  apply dget_None in N. congruence.
Qed.

Lemma last_q_same d d' l : l <> [] -> last_q d l = last_q d' l.
Proof. destruct l; [congruence|reflexivity]. Qed.

(** ** Reports *)
Lemma hfp_ok c n m : inv c n -> ready c -> In m (dkeys (c_methods c)) ->
  exists s l, histogram_for_profile c m = Ok (s, l) /\ (0 <= l)%Q /\ goodo n (slot_value (c_stored c) s) /\
    (n <> 0 -> slot_value (c_stored c) s <> None).
Proof.
  intros I R Hm. destruct (dget_key _ _ Hm) as (me & Em).
  destruct (R m me Em) as (k & Ek & Hk). unfold histogram_for_profile. rewrite Em, Ek.
  pose proof (i_slot _ _ I m me Em) as Hslot. pose proof (i_total _ _ I m me Em) as Ht.
  pose proof (i_stored _ _ I) as Hst. pose proof (i_loss _ _ I) as Hl.
  destruct (c_stored c) as [h|] eqn:Es.
  - destruct Hst as [Hn Hg].
    destruct (slot_value (Some h) (m_slot me)) as [g|] eqn:Ev.
    + exists (m_slot me), (m_total me). rewrite Ev. split; [reflexivity|]. split; [exact Ht|].
      split; [exact Hslot|]. discriminate.
    + destruct (Nat.eqb_spec (length (h_counts h)) k) as [E|E].
      * exists Stored, (c_loss c). split; [reflexivity|]. split; [exact Hl|]. cbn.
        split; [split; assumption|discriminate].
      * destruct (h_edges h) as [|e0 es] eqn:Ee.
        { exfalso. destruct Hg as [[Hw _] _]. rewrite Ee in Hw. cbn in Hw. lia. }
        rewrite <- Ee.
        destruct (regenerate_ok e0 (last_q 0 (h_edges h)) k (c_float c) h Hk (proj1 Hg))
          as (h' & -> & Hw' & Hl' & Hs' & _).
        destruct (regenerate_loss_ok e0 (last_q 0 (h_edges h)) k (c_float c) h Hk (proj1 Hg))
          as (l & -> & Hl0). cbn [bind].
        exists (Own (Some h')), l. split; [reflexivity|]. split; [exact Hl0|].
        cbn. split; [|discriminate].
        split; [exact Hn|]. split; [exact Hw'|]. split.
        { intro Hc. rewrite Hc in Hl'. cbn in Hl'. lia. }
        rewrite Hs'. apply Hg.
  - exists (m_slot me), (m_total me). split; [reflexivity|]. split; [exact Ht|]. split; [exact Hslot|].
    intro Hn. exfalso. apply Hn. apply (i_none _ _ I). exact Es.
Qed.

(** The report of a profile whose methods all have a suggestion and none is chosen yet. *)
Lemma best_histogram_spec c n : inv c n -> ready c -> c_selection c = None ->
  exists ms m q me,
    pick (map (fun x => (x, loss_of c x)) (dkeys (c_methods c))) None = Some (m, q) /\
    In m (dkeys (c_methods c)) /\ q = loss_of c m /\
    dget (c_methods c) m = Some me /\
    best_histogram c = Ok (with_methods c ms (Some m),
                           slot_value (c_stored c) (m_slot (entry_after c m me))) /\
    dkeys ms = dkeys (c_methods c) /\
    forall x, dget ms x = option_map (entry_after c x) (dget (c_methods c) x).
Proof.
  intros I R Hs.
  destruct (best_loop_spec (dkeys (c_methods c)) c None (i_nodup _ _ I)) as (ms & El & Ek & Eg).
  { intros m Hm. destruct (hfp_ok c n m I R Hm) as (s & l & E & _). exists s, l. exact E. }
  { exact Hs. }
  set (L := map (fun x => (x, loss_of c x)) (dkeys (c_methods c))) in *.
  destruct (pick L None) as [[m q]|] eqn:Ep.
  2:{ exfalso. apply (pick_some L None); [|exact Ep]. left. unfold L. intro H. apply map_eq_nil in H.
      apply (i_ne _ _ I). exact H. }
  assert (HIn : In (m, q) L) by (destruct (pick_In _ _ _ Ep) as [H|H]; [exact H|discriminate]).
  unfold L in HIn. apply in_map_iff in HIn. destruct HIn as (m' & E' & Hm'). injection E' as -> Eq.
  destruct (dget_key _ _ Hm') as (me & Em).
  assert (Eg' : forall x, dget ms x = option_map (entry_after c x) (dget (c_methods c) x)).
  { intro x. rewrite Eg. destruct (dget (c_methods c) x) as [mx|] eqn:Ex; [|reflexivity].
    assert (lmem (dkeys (c_methods c)) x = true) as -> by (apply lmem_In; eapply key_dget; exact Ex).
    reflexivity. }
  exists ms, m, q, me. split; [reflexivity|]. split; [exact Hm'|]. split; [symmetry; exact Eq|].
  split; [exact Em|]. split; [|split; [exact Ek|exact Eg']].
  unfold best_histogram. rewrite Hs. cbn [option_map] in El. rewrite El.
  cbn [bind with_methods c_selection c_methods c_stored option_map fst].
  rewrite Eg', Em. cbn [option_map]. reflexivity.
Qed.

Lemma entry_after_slot c m me s l : histogram_for_profile c m = Ok (s, l) ->
  m_slot (entry_after c m me) = s /\ m_suggested (entry_after c m me) = m_suggested me /\
  m_total (entry_after c m me) = (m_total me + l)%Q.
Proof. intro E. unfold entry_after. rewrite E. auto. Qed.

(** A report succeeds, shows a histogram of all values and keeps the invariants. *)
Lemma report_ok c n : inv c n -> ready c ->
  exists c' o, best_histogram c = Ok (c', o) /\ inv c' n /\ ready c' /\
    goodo n o /\ (n <> 0 -> o <> None) /\
    c_stored c' = c_stored c /\ c_user c' = c_user c /\ c_names c' = c_names c /\
    c_loss c' = c_loss c /\ c_float c' = c_float c /\ dkeys (c_methods c') = dkeys (c_methods c) /\
    (exists m, c_selection c' = Some m).
Proof.
  intros I R. destruct (c_selection c) as [m|] eqn:Es.
  - destruct (i_sel _ _ I m Es) as (me & Em & Hv).
    exists c, (slot_value (c_stored c) (m_slot me)).
    split; [unfold best_histogram; rewrite Es; cbn [bind]; rewrite Es, Em; reflexivity|].
    split; [exact I|]. split; [exact R|]. split; [exact (i_slot _ _ I m me Em)|].
    split; [exact Hv|]. repeat (split; [reflexivity|]). exists m. exact Es.
  - destruct (best_histogram_spec c n I R Es) as (ms & m & q & me & Ep & Hm & Eq & Em & Eb & Ek & Eg).
    destruct (hfp_ok c n m I R Hm) as (s & l & Eh & Hl & Hgo & Hne).
    destruct (entry_after_slot c m me s l Eh) as (Esl & Esu & Eto).
    exists (with_methods c ms (Some m)), (slot_value (c_stored c) (m_slot (entry_after c m me))).
    split; [exact Eb|].
    assert (G : forall x mx, dget ms x = Some mx -> exists m0 s0 l0,
              dget (c_methods c) x = Some m0 /\ mx = entry_after c x m0 /\
              histogram_for_profile c x = Ok (s0, l0) /\ (0 <= l0)%Q /\
              goodo n (slot_value (c_stored c) s0) /\ m_slot mx = s0 /\
              m_suggested mx = m_suggested m0 /\ m_total mx = (m_total m0 + l0)%Q).
    { intros x mx Ex. rewrite Eg in Ex. destruct (dget (c_methods c) x) as [m0|] eqn:E0; [|discriminate].
      cbn in Ex. injection Ex as <-. assert (Hx := key_dget _ _ _ E0).
      destruct (hfp_ok c n x I R Hx) as (s0 & l0 & E1 & L0 & G0 & _).
      destruct (entry_after_slot c x m0 s0 l0 E1) as (A & B & C).
      exists m0, s0, l0. auto 10. }
    split; [constructor; cbn [with_methods c_names c_methods c_stored c_loss c_user c_selection]|].
    + intro x. rewrite Ek. apply (i_keys _ _ I).
    + rewrite Ek. apply (i_nodup _ _ I).
    + rewrite Ek. apply (i_ne _ _ I).
    + apply (i_stored _ _ I).
    + apply (i_none _ _ I).
    + intros x mx Ex. destruct (G x mx Ex) as (m0 & s0 & l0 & _ & _ & _ & _ & G0 & -> & _). exact G0.
    + intros x mx Ex. destruct (G x mx Ex) as (m0 & s0 & l0 & E0 & _ & _ & L0 & _ & _ & _ & ->).
      pose proof (i_total _ _ I x m0 E0). lra.
    + apply (i_loss _ _ I).
    + apply (i_user _ _ I).
    + intros x Hx. injection Hx as <-. exists (entry_after c m me). rewrite Eg, Em. split; [reflexivity|].
      rewrite Esl. exact Hne.
    + split.
      { intros x mx Ex. destruct (G x mx Ex) as (m0 & s0 & l0 & E0 & _ & _ & _ & _ & _ & -> & _).
        exact (R x m0 E0). }
      rewrite Esl. split; [exact Hgo|]. split; [exact Hne|]. cbn [with_methods c_stored c_user c_names
        c_loss c_float c_methods c_selection]. repeat (split; [reflexivity|]).
      split; [exact Ek|]. exists m. reflexivity.
Qed.

(** ** New profiles *)
Definition init_methods (f : string -> option nat) (names : list string) : dict string meth :=
  fold_left (fun d m => dset d m (mkMeth 0 0 (f m) (Own None))) names [].

Lemma init_methods_spec f names :
  (forall x, In x names <-> In x (dkeys (init_methods f names))) /\
  NoDup (dkeys (init_methods f names)) /\
  (forall x me, dget (init_methods f names) x = Some me -> me = mkMeth 0 0 (f x) (Own None)).
Proof.
  assert (H : forall names d,
    (NoDup (dkeys d) -> NoDup (dkeys (fold_left (fun d m => dset d m (mkMeth 0 0 (f m) (Own None))) names d))) /\
    (forall x, In x (dkeys (fold_left (fun d m => dset d m (mkMeth 0 0 (f m) (Own None))) names d)) <->
               In x names \/ In x (dkeys d)) /\
    ((forall x me, dget d x = Some me -> me = mkMeth 0 0 (f x) (Own None)) ->
     forall x me, dget (fold_left (fun d m => dset d m (mkMeth 0 0 (f m) (Own None))) names d) x = Some me ->
     me = mkMeth 0 0 (f x) (Own None))).
  { clear names. induction names as [|y names IH]; intro d; cbn [fold_left].
    - split; [auto|]. split; [|auto]. intro x. cbn. tauto.
    - destruct (IH (dset d y (mkMeth 0 0 (f y) (Own None)))) as (A & B & C). split; [|split].
      + intro Hd. apply A. apply NoDup_dset. exact Hd.
      + intro x. rewrite B, In_dkeys_dset. cbn [In]. split; intuition congruence.
      + intros Hd x me Hx. apply (C) with (x := x); [|exact Hx].
        intros z mz Hz. rewrite dget_dset in Hz. destruct (PyDict.eqb y z) eqn:E.
        * apply seqb_eq in E. subst. congruence.
        * apply Hd. exact Hz. }
  destruct (H names []) as (A & B & C). split; [|split].
  - intro x. rewrite B. cbn. tauto.
  - apply A. constructor.
  - apply C. cbn. discriminate.
Qed.

Definition opt_ok (o : binopt) : Prop :=
  match o with BMethods l => l <> [] | BCount n => n <> 0 | _ => True end.

Lemma new_col_inv fl o : opt_ok o -> inv (new_col fl o) 0 /\ ready (new_col fl o).
Proof.
  intro Ho. unfold new_col.
  set (names := match o with BDefault => default_names | BMethod m => [m] | BMethods l => l
                | BCount _ => ["custom"%string] end).
  assert (Hne : names <> []).
  { unfold names. destruct o; try discriminate. exact Ho. }
  change (new_methods names (Some min_bins)) with (init_methods (fun _ => Some min_bins) names).
  destruct (init_methods_spec (fun _ => Some min_bins) names) as (A & B & C).
  split.
  - constructor; cbn [c_names c_methods c_stored c_loss c_user c_selection]; auto.
    + intro E. destruct names as [|x names]; [congruence|].
      pose proof (proj1 (A x) (or_introl eq_refl)) as H. rewrite E in H. destruct H.
    + exact I.
    + intros m me E. rewrite (C _ _ E). exact I.
    + intros m me E. rewrite (C _ _ E). cbn. lra.
    + lra.
    + destruct o; try discriminate. cbn in Ho. congruence.
    + discriminate.
  - intros m me E. cbn [c_methods] in E. rewrite (C _ _ E). exists min_bins. split; [reflexivity|].
    unfold min_bins. lia.
Qed.

(** ** Updates *)
Definition np_ok (np : nat -> list Q -> hist) : Prop := forall n l, 0 < n ->
  wf_hist (np n l) /\ zsum (h_counts (np n l)) = Z.of_nat (length l) /\ length (h_counts (np n l)) = n.
Definition est_ok (est : string -> list Q -> nat) : Prop := forall m l, 0 < est m l.

Lemma base_bins_pos c : 0 < base_bins c.
Proof. unfold base_bins, min_bins. destruct (c_user c) as [[|n]|]; lia. Qed.

Lemma suggestion_pos est c l m : est_ok est -> 0 < suggestion est c l m.
Proof.
  intro He. unfold suggestion. destruct (c_user c); [apply base_bins_pos|].
  specialize (He m l). unfold max_bins. lia.
Qed.

Lemma equal_bins_pos est c l : 0 < equal_bins est c l.
Proof.
  unfold equal_bins. pose proof (base_bins_pos c) as B. destruct (c_user c); [exact B|].
  revert B. generalize (base_bins c). induction (c_names c) as [|x r IH]; intros n Hn; cbn [fold_left]; [exact Hn|].
  apply IH. lia.
Qed.

Lemma get_histogram_good np n l : np_ok np -> 0 < n -> l <> [] ->
  good (length l) (get_histogram (np n) l) /\
  length (h_counts (get_histogram (np n) l)) = if all_equal l then 1 else n.
Proof.
  intros Hnp Hn Hl. unfold get_histogram, good. destruct l as [|x l]; [congruence|].
  destruct (all_equal (x :: l)) eqn:E.
  - split; [|reflexivity]. split; [split; [reflexivity|constructor; [lia|constructor]]|].
    split; [discriminate|]. unfold zsum. cbn. lia.
  - destruct (Hnp n (x :: l) Hn) as (A & B & C). split; [|exact C]. split; [exact A|]. split; [|exact B].
    intro H. rewrite H in C. cbn in C. lia.
Qed.

Lemma combined_length c n v : inv c n -> length (combined c v) = length v + n.
Proof.
  intro I. unfold combined. destruct (c_stored c) as [h|] eqn:E.
  - pose proof (i_stored _ _ I) as H. rewrite E in H. destruct H as (_ & (Hw & _ & Hs)).
    rewrite app_length. unfold histogram_to_array. rewrite map_length.
    pose proof (to_array_length (h_counts h) (h_edges h) (proj1 Hw) (proj2 Hw)). lia.
  - rewrite (i_none _ _ I E). lia.
Qed.

Lemma combined_ne c v : v <> [] -> combined c v <> [].
Proof. unfold combined. destruct (c_stored c), v; try congruence; discriminate. Qed.

Lemma update_ok est np c n v : est_ok est -> np_ok np -> inv c n -> v <> [] ->
  let vs := combined c v in
  let c' := update est np c v in
  let h := get_histogram (np (equal_bins est c vs)) vs in
  inv c' (length v + n) /\ ready c' /\ c_stored c' = Some h /\ c_user c' = c_user c /\
  c_selection c' = None /\ c_names c' = c_names c /\ c_float c' = c_float c /\
  dkeys (c_methods c') = dkeys (c_methods c) /\
  c_loss c' = (c_loss c + bin_error h v)%Q /\
  forall x, dget (c_methods c') x =
    option_map (if all_equal vs then prepared (fun _ => 1) (Some h) x
                else prepared (suggestion est c vs) None x) (dget (c_methods c) x).
Proof.
  intros He Hnp I Hv. cbv zeta. set (vs := combined c v). set (h := get_histogram _ _).
  assert (Hvs : vs <> []) by (apply combined_ne; exact Hv).
  assert (Hlen : length vs = length v + n) by (apply combined_length; exact I).
  assert (Hgood : good (length v + n) h).
  { rewrite <- Hlen. apply get_histogram_good; [exact Hnp|apply equal_bins_pos|exact Hvs]. }
  assert (Hn0 : length v + n <> 0) by (destruct v; [congruence|cbn; lia]).
  set (sg := if all_equal vs then (fun _ : string => 1) else suggestion est c vs).
  set (o := if all_equal vs then Some h else None).
  assert (Eupd : update est np c v =
    mkCol (c_float c) (c_names c) (c_user c) (fst (prepare sg o (c_names c) (c_methods c))) (Some h)
      (c_loss c + bin_error h v)%Q None).
  { destruct (prepare_spec sg o (c_names c) (c_methods c)) as (S & _).
    { intros x Hx. apply (i_keys _ _ I). exact Hx. }
    unfold update. destruct v as [|v0 v']; [congruence|].
    fold vs. fold h. unfold sg, o in *. destruct (all_equal vs); rewrite S; reflexivity. }
  rewrite Eupd. clear Eupd. cbn [c_stored c_user c_selection c_names c_float c_methods c_loss].
  destruct (prepare_spec sg o (c_names c) (c_methods c)) as (_ & Ks & G0).
  { intros x Hx. apply (i_keys _ _ I). exact Hx. }
  set (ms := fst (prepare sg o (c_names c) (c_methods c))) in *.
  assert (G : forall x, dget ms x = option_map (prepared sg o x) (dget (c_methods c) x)).
  { intro x. rewrite G0. destruct (dget (c_methods c) x) as [me|] eqn:E; [|reflexivity].
    assert (lmem (c_names c) x = true) as ->; [|reflexivity].
    apply lmem_In. apply (i_keys _ _ I). eapply key_dget. exact E. }
  split; [|split; [|repeat (split; [reflexivity|]); split; [exact Ks|split; [reflexivity|]]]].
  - constructor; cbn [c_stored c_user c_selection c_names c_float c_methods c_loss].
    + intro x. rewrite Ks. apply (i_keys _ _ I).
    + rewrite Ks. apply (i_nodup _ _ I).
    + rewrite Ks. apply (i_ne _ _ I).
    + split; assumption.
    + discriminate.
    + intros m me E. rewrite G in E. destruct (dget (c_methods c) m) as [m0|] eqn:E0; [|discriminate].
      cbn in E. injection E as <-. cbn [prepared m_slot]. unfold o.
      destruct (m_slot m0); cbn; [|split; assumption].
      destruct (all_equal vs); cbn; [split; assumption|exact Logic.I].
    + intros m me E. rewrite G in E. destruct (dget (c_methods c) m) as [m0|] eqn:E0; [|discriminate].
      cbn in E. injection E as <-. cbn. apply (i_total _ _ I m). exact E0.
    + pose proof (i_loss _ _ I). pose proof (bin_error_nonneg h v). lra.
    + apply (i_user _ _ I).
    + discriminate.
  - intros m me E. cbn [c_methods] in E. rewrite G in E.
    destruct (dget (c_methods c) m) as [m0|] eqn:E0; [|discriminate].
    cbn in E. injection E as <-. cbn. exists (sg m). split; [reflexivity|].
    unfold sg. destruct (all_equal vs); [lia|apply suggestion_pos; exact He].
  - intro x. rewrite G. unfold sg, o. destruct (all_equal vs); reflexivity.
Qed.

Lemma update_nil_inv est np c n : inv c n -> inv (update est np c []) n.
Proof.
  intro I. destruct I. constructor; cbn [update c_stored c_user c_selection c_names c_float c_methods c_loss]; auto.
  discriminate.
Qed.

(** ** Merges *)
Lemma merge_spec mn mx size width c1 c2 n1 n2 c : inv c1 n1 -> inv c2 n2 -> n1 <> 0 -> n2 <> 0 ->
  merge mn mx size width c1 c2 = Ok c ->
  exists h1 h2 h,
    c_stored c1 = Some h1 /\ c_stored c2 = Some h2 /\ c_stored c = Some h /\
    inv c (n1 + n2) /\ c_selection c = None /\ c_loss c = 0%Q /\ c_float c = c_float c1 /\
    (forall x, In x (c_names c) <-> In x (c_names c1) /\ In x (c_names c2)) /\
    length (h_counts h) = match c_user c with Some k => k | None => min_bins end /\
    c_user c = match c_user c1, c_user c2 with Some a, Some b => Some (Nat.max a b) | _, _ => None end /\
    forall x me, dget (c_methods c) x = Some me ->
      me = mkMeth 0 0 (match c_user c with
                       | None => Some (bins_from_profile size (merged_hi mx h1 h2 - merged_lo mn h1 h2)%Q (width x))
                       | Some _ => None
                       end) (Own None).
Proof.
  intros I1 I2 Hn1 Hn2 H. unfold merge in H.
  destruct (c_stored c1) as [h1|] eqn:S1; [|exfalso; apply Hn1, (i_none _ _ I1), S1].
  destruct (c_stored c2) as [h2|] eqn:S2; [|exfalso; apply Hn2, (i_none _ _ I2), S2].
  pose proof (i_stored _ _ I1) as G1. pose proof (i_stored _ _ I2) as G2.
  rewrite S1 in G1. rewrite S2 in G2. destruct G1 as [_ G1]. destruct G2 as [_ G2].
  set (names := filter (fun x => lmem (c_names c2) x) (c_names c1)) in H.
  assert (Hnames : forall x, In x names <-> In x (c_names c1) /\ In x (c_names c2)).
  { intro x. unfold names. rewrite filter_In, lmem_In. reflexivity. }
  destruct names as [|y names'] eqn:En; [discriminate|]. rewrite <- En in H, Hnames.
  clearbody names.
  set (user := if truthy (c_user c1) && truthy (c_user c2) then _ else None) in H.
  assert (Eu : user = match c_user c1, c_user c2 with Some a, Some b => Some (Nat.max a b) | _, _ => None end).
  { unfold user. pose proof (i_user _ _ I1). pose proof (i_user _ _ I2).
    destruct (c_user c1) as [[|a]|], (c_user c2) as [[|b]|]; try congruence; reflexivity. }
  assert (Hu0 : user <> Some 0).
  { rewrite Eu. pose proof (i_user _ _ I1). destruct (c_user c1) as [[|a]|], (c_user c2) as [b|]; try congruence.
    intro E. assert (Nat.max (S a) b = 0) by congruence. lia. }
  set (bins := match user with Some n => n | None => min_bins end) in H.
  assert (Hb : 0 < bins).
  { unfold bins, min_bins. destruct user as [[|k]|]; [congruence|lia|lia]. }
  destruct (merge_hists_ok (merged_lo mn h1 h2) (merged_hi mx h1 h2) bins h1 h2 Hb (proj1 G1) (proj1 G2))
    as (h & Eh & Hw & Hlen & Hsum & _).
  rewrite Eh in H. cbn [bind] in H. injection H as <-.
  set (f := fun m => match user with
              | Some _ => None
              | None => Some (bins_from_profile size (merged_hi mx h1 h2 - merged_lo mn h1 h2)%Q (width m))
              end).
  change (fold_left _ names []) with (init_methods f names).
  destruct (init_methods_spec f names) as (A & B & C).
  assert (Hg : good (n1 + n2) h).
  { split; [exact Hw|]. split; [intro E; rewrite E in Hlen; cbn in Hlen; lia|].
    rewrite Hsum. destruct G1 as (_ & _ & ->). destruct G2 as (_ & _ & ->). lia. }
  exists h1, h2, h. cbn [c_stored c_selection c_loss c_float c_names c_user c_methods].
  repeat (split; [reflexivity|]). split; [|repeat (split; [reflexivity|]); split; [exact Hnames|
    split; [exact Hlen|split; [exact Eu|]]]].
  - constructor; cbn [c_stored c_user c_selection c_names c_float c_methods c_loss]; auto.
    + intro E. assert (Hy : In y names) by (rewrite En; left; reflexivity).
      apply A in Hy. rewrite E in Hy. destruct Hy.
    + split; [lia|exact Hg].
    + discriminate.
    + intros m me E. rewrite (C _ _ E). exact I.
    + intros m me E. rewrite (C _ _ E). cbn. lra.
    + lra.
    + discriminate.
  - intros x me E. rewrite (C _ _ E). reflexivity.
Qed.
