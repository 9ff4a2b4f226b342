(** Properties of making profilers and of updating them. *)
From Coq Require Import ZArith.
From Coq Require String.
From Verif Require Import PyCommon PyDict PyString FactoryModel.
Local Delimit Scope string_scope with string.
Open Scope list_scope.
Local Open Scope nat_scope.

(** ** Vocabulary *)
(** Data in the form of a table, as a reader says it. *)
Definition tabular (s : source) : Prop :=
  match s with
  | SList | SSeries | SFrame => True
  | SReader (RCsv | RParquet) fmt => fmt = "dataframe"%string
  | SReader (RJson | RAvro) fmt => fmt = "dataframe"%string \/ fmt = "flattened_dataframe"%string
  | _ => False
  end.
Definition graphic (s : source) : Prop := match s with SGraph | SReader RGraph _ => True | _ => False end.

(** The part of the options that a profiler of a kind uses. *)
Definition part (k : ptype) (o : optarg) : option nat :=
  match o, k with
  | OProfiler rs _, PStructured => Some rs
  | OProfiler _ ru, PUnstructured => Some ru
  | OStructured r, PStructured => Some r
  | OUnstructured r, PUnstructured => Some r
  | _, _ => None
  end.

(** ** Kinds *)
(** Without a type given: a graph exactly for graphs, a table exactly for lists, series, data frames
    and readers that give data frames, text for texts and other readers, an error for None and
    anything else. *)
Theorem C94_kind : forall s,
  (kind_of None s = Ok PGraph <-> graphic s) /\
  (kind_of None s = Ok PStructured <-> tabular s) /\
  (kind_of None s = Ok PUnstructured <-> s = SStr \/ (is_reader s = true /\ ~ tabular s /\ ~ graphic s)) /\
  (forall e, kind_of None s = Err e <-> e = ValueError /\ (s = SNone \/ s = SOther)).
Proof.
  assert (B : forall (b : bool) (Pr : Prop), (b = true <-> Pr) -> forall x,
    (Ok (if b then PStructured else PUnstructured) = Ok PStructured <-> Pr) /\
    (Ok (if b then PStructured else PUnstructured) = Ok PUnstructured <-> ~ Pr) /\
    Ok (if b then PStructured else PUnstructured) <> Ok PGraph /\
    Ok (if b then PStructured else PUnstructured) <> Err x).
  { intros [] Pr H x; cbn iota; (split; [|split; [|split]]); try discriminate.
    - split; intro Z0; [apply H; reflexivity|reflexivity].
    - split; [discriminate|]. intro N. exfalso. apply N, H. reflexivity.
    - split; [discriminate|]. intro Z0. apply H in Z0. discriminate Z0.
    - split; [intros _ Z0; apply H in Z0; discriminate Z0|reflexivity]. }
  intro s. destruct s as [| | | | | |k fmt|].
  7:{ assert (C : k = RGraph \/ exists b Pr, is_structured k fmt = Ok b /\ (b = true <-> Pr) /\ (tabular (SReader k fmt) <-> Pr) /\ ~ graphic (SReader k fmt)).
      { destruct k; cbn [is_structured tabular graphic]; try (left; reflexivity); right.
        - exists (String.eqb fmt "dataframe"), (fmt = "dataframe"%string). split; [reflexivity|]. split; [apply String.eqb_eq|]. tauto.
        - exists (String.eqb fmt "dataframe"), (fmt = "dataframe"%string). split; [reflexivity|]. split; [apply String.eqb_eq|]. tauto.
        - exists (String.eqb fmt "dataframe" || String.eqb fmt "flattened_dataframe"), (fmt = "dataframe"%string \/ fmt = "flattened_dataframe"%string).
          split; [reflexivity|]. split; [rewrite orb_true_iff, !String.eqb_eq; tauto|tauto].
        - exists (String.eqb fmt "dataframe" || String.eqb fmt "flattened_dataframe"), (fmt = "dataframe"%string \/ fmt = "flattened_dataframe"%string).
          split; [reflexivity|]. split; [rewrite orb_true_iff, !String.eqb_eq; tauto|tauto].
        - exists false, False. split; [reflexivity|]. split; [split; [discriminate|contradiction]|tauto]. }
      destruct C as [->|(b & Pr & E & Hb & Ht & Hg)].
      - cbn. split; [tauto|]. split; [split; [discriminate|tauto]|]. split; [split; [discriminate|]|].
        + intros [H|(_ & _ & H)]; [discriminate H|tauto].
        + intro e. split; [discriminate|intros (_ & [H|H]); discriminate H].
      - assert (K : kind_of None (SReader k fmt) = Ok (if b then PStructured else PUnstructured)).
        { destruct k; cbn [kind_of]; try rewrite E; try reflexivity. cbn in E. discriminate E. }
        rewrite K, Ht. destruct (B b Pr Hb ValueError) as (B1 & B2 & B3 & _). rewrite B1, B2.
        split; [tauto|]. split; [tauto|]. split.
        + split; [intro H; right; auto|]. intros [H|(_ & H & _)]; [discriminate H|exact H].
        + intro e. split; [discriminate|]. intros (_ & [H|H]); discriminate H. }
  all: cbn [kind_of graphic tabular is_reader]; repeat split; try discriminate; try tauto; try (intros [H|(H & _)]; discriminate H);
    try (intros (_ & [H|H]); discriminate H); try congruence; try (intros (-> & _); reflexivity).
Qed.
Print Assumptions C94_kind.

(** With a type given it is that one whatever the data are, and an unknown one is an error. *)
Theorem C94_given : forall t s,
  kind_of (Some t) s = Ok PGraph <-> t = "graph"%string.
Proof.
  intros t s. cbn [kind_of].
  destruct (String.eqb t "graph") eqn:E1; [apply String.eqb_eq in E1; tauto|apply String.eqb_neq in E1].
  destruct (String.eqb t "structured"); [split; [discriminate|contradiction]|].
  destruct (String.eqb t "unstructured"); (split; [discriminate|contradiction]).
Qed.
Theorem C94_given_tables : forall t s,
  (kind_of (Some t) s = Ok PStructured <-> t = "structured"%string) /\
  (kind_of (Some t) s = Ok PUnstructured <-> t = "unstructured"%string) /\
  (forall e, kind_of (Some t) s = Err e <-> e = ValueError /\ ~ In t ["graph"; "structured"; "unstructured"]%string).
Proof.
  intros t s. cbn [kind_of In].
  destruct (String.eqb t "graph") eqn:E1; [apply String.eqb_eq in E1; subst|apply String.eqb_neq in E1].
  { repeat split; try discriminate. intros (_ & H). exfalso. apply H. auto. }
  destruct (String.eqb t "structured") eqn:E2; [apply String.eqb_eq in E2; subst|apply String.eqb_neq in E2].
  { repeat split; try discriminate. intros (_ & H). exfalso. apply H. auto. }
  destruct (String.eqb t "unstructured") eqn:E3; [apply String.eqb_eq in E3; subst|apply String.eqb_neq in E3].
  { repeat split; try discriminate. intros (_ & H). exfalso. apply H. auto. }
  split; [split; [discriminate|intro H; congruence]|]. split; [split; [discriminate|intro H; congruence]|].
  intro e. split; [|intros (-> & _); reflexivity]. intro H. injection H as <-. split; [reflexivity|].
  intros [H|[H|[H|[]]]]; congruence.
Qed.

Section Props.
  Context {L X P W : Type} (S0 U0 : X) (validate : sub L X -> result unit)
    (load : W -> ptype -> option string -> result L) (sample_size : profiler P -> data -> nat)
    (work : sub L X -> P -> data -> nat -> option Z -> P * option exn)
    (graph_work : P -> data -> P * option exn) (fresh : ptype -> P).

  Notation make := (make L X P S0 U0 validate W load sample_size work graph_work fresh).
  Notation make_table := (make_table L X P S0 U0 validate W load sample_size work fresh).
  Notation construct := (construct L X P validate W load sample_size work fresh).
  Notation update := (update L X P sample_size work).
  Notation sub_of := (sub_of L X).
  Notation choose := (choose L X S0 U0).
  Notation with_labeler := (with_labeler L X W load).

  (** ** Lemmas *)
  Lemma put_same h r s : r < length h -> nth_error (put L X h r s) r = Some s.
  Proof. revert r. induction h as [|x t IH]; intros [|r] H; cbn in *; try lia; [reflexivity|]. apply IH. lia. Qed.

  Lemma put_other h r s q : q <> r -> nth_error (put L X h r s) q = nth_error h q.
  Proof.
    revert r q. induction h as [|x t IH]; intros [|r] [|q] H; cbn; try reflexivity; try congruence.
    apply IH. congruence.
  Qed.

  Lemma put_length h r s : length (put L X h r s) = length h.
  Proof. revert r. induction h as [|x t IH]; intros [|r]; cbn; try reflexivity. rewrite IH. reflexivity. Qed.

  Lemma sub_length h r s : sub_of h r = Some s -> r < length h.
  Proof. intro H. apply nth_error_Some. unfold FactoryModel.sub_of in H. congruence. Qed.

  Definition default (k : ptype) : sub L X := mkSub L X true None None (match k with PStructured => S0 | _ => U0 end).

  Lemma choose_spec k h o : k <> PGraph ->
    choose k h o = match part k o with
                   | Some r => Ok (h, r)
                   | None => match o with OFalsy => Ok (h ++ [default k], length h) | _ => Err ValueError end
                   end.
  Proof. intro K. destruct o, k; try congruence; reflexivity. Qed.

  Lemma make_kind w h given d samples m o k : kind_of given (d_source d) = Ok k -> k <> PGraph ->
    make w h given d samples m o = make_table w k h d samples m o.
  Proof. intros K N. unfold FactoryModel.make. rewrite K. destruct k; congruence. Qed.

  (** The first update *)
  Definition fed (k : ptype) (s : sub L X) (p : profiler P) (d : data) (x : P) : Prop :=
    (d_source d = SNone /\ x = fresh k) \/
    (takes k (d_source d) = true /\ d_len d = Ok 0 /\ x = fresh k) \/
    (takes k (d_source d) = true /\ (exists n, d_len d = Ok (S n)) /\
      work s (fresh k) d (sample_size p d) (f_min_true P p) = (x, None)).

  Lemma update_first h r s k samples m d p' : sub_of h r = Some s ->
    let p := mkProf P k (Some r) samples m (fresh k) in
    update h p d None MNone = (p', None) <->
    exists x, p' = mkProf P k (Some r) samples m x /\ d_source d <> SNone /\ fed k s p d x.
  Proof.
    intros Hs p. unfold FactoryModel.update, fed. cbn [int_arg f_kind p].
    destruct (takes k (d_source d)) eqn:ET; cbn [negb].
    2:{ split; [discriminate|]. intros (x & _ & N & [(H & _)|[(H & _)|(H & _)]]); [contradiction|discriminate H..]. }
    assert (N : d_source d <> SNone) by (destruct (d_source d); [discriminate ET|discriminate..]).
    destruct (d_len d) as [[|n]|e] eqn:EL.
    - split.
      + intro H. injection H as <-. exists (fresh k). split; [reflexivity|]. split; [exact N|]. right. left. auto.
      + intros (x & -> & _ & [(H & _)|[(_ & _ & ->)|(_ & (n & H) & _)]]); [contradiction|reflexivity|discriminate H].
    - cbn [falsyZ f_opts p f_min_true]. rewrite Hs. cbn [f_profile p]. fold p.
      destruct (work s (fresh k) d (sample_size p d) m) as [x e] eqn:EW. split.
      + intro H. injection H as <- ->. exists x. split; [reflexivity|]. split; [exact N|]. right. right. split; [reflexivity|]. split; [exists n; reflexivity|reflexivity].
      + intros (x' & -> & _ & [(H & _)|[(_ & H & _)|(_ & _ & H)]]); [contradiction|discriminate H|]. injection H as <- ->. reflexivity.
    - split; [discriminate|]. intros (x & _ & _ & [(H & _)|[(_ & H & _)|(_ & (n & H) & _)]]); [contradiction|discriminate H..].
  Qed.

  Lemma construct_ok w k h r d samples m p : snd (construct w k h r d samples m) = Ok p <->
    exists m' s x, int_arg m = Ok m' /\ sub_of h r = Some s /\ validate s = Ok tt /\
      p = mkProf P k (Some r) samples m' x /\
      fed k (with_labeler w k s) (mkProf P k (Some r) samples m' (fresh k)) d x.
  Proof.
    unfold FactoryModel.construct. destruct (int_arg m) as [m'|e].
    2:{ split; [discriminate|]. intros (m' & s & x & H & _). discriminate H. }
    destruct (sub_of h r) as [s|] eqn:Es.
    2:{ split; [discriminate|]. intros (m0 & s & x & _ & H & _). discriminate H. }
    destruct (validate s) as [[]|e] eqn:EV.
    2:{ split; [discriminate|]. intros (m0 & s0 & x & _ & H & H' & _). injection H as <-. congruence. }
    cbv zeta. set (h2 := put L X h r (with_labeler w k s)).
    set (p0 := mkProf P k (Some r) samples m' (fresh k)).
    assert (H2 : sub_of h2 r = Some (with_labeler w k s)) by (apply put_same; eapply sub_length; exact Es).
    pose proof (update_first h2 r (with_labeler w k s) k samples m' d) as U. cbv zeta in U. fold p0 in U.
    assert (G : (exists m0 s0 x, Ok m' = Ok m0 /\ Some s = Some s0 /\ validate s0 = Ok tt /\
       p = mkProf P k (Some r) samples m0 x /\
       fed k (with_labeler w k s0) (mkProf P k (Some r) samples m0 (fresh k)) d x) <->
      exists x, p = mkProf P k (Some r) samples m' x /\ fed k (with_labeler w k s) p0 d x).
    { split.
      - intros (m0 & s0 & x & A & B & C & D & E). injection A as <-. injection B as <-. exists x. auto.
      - intros (x & D & E). exists m', s, x. auto. }
    rewrite G. clear G.
    assert (SN : d_source d = SNone \/ d_source d <> SNone) by (destruct (d_source d); auto; right; discriminate).
    destruct SN as [SN|SN].
    - rewrite SN. cbn [snd]. split.
      + intro H. injection H as <-. exists (fresh k). split; [reflexivity|]. left. auto.
      + intros (x & -> & [(_ & ->)|[(H & _)|(H & _)]]); [reflexivity|rewrite SN in H; discriminate H..].
    - match goal with |- snd ?b = _ <-> _ =>
        replace b with (match update h2 p0 d None MNone with (p', None) => (h2, Ok p') | (_, Some e) => (h2, Err e) end)
          by (destruct (d_source d); [congruence|reflexivity..]) end.
      specialize (U p H2). destruct (update h2 p0 d None MNone) as [p' [e|]] eqn:EU; cbn [snd].
      + split; [discriminate|]. intros (x & A & B). assert (Z0 : (p', Some e) = (p, @None exn)); [|discriminate Z0].
        apply U. exists x. auto.
      + split.
        * intro H. injection H as ->. destruct U as [U _]. destruct (U eq_refl) as (x & A & _ & B). exists x. auto.
        * intros (x & A & B). destruct U as [_ U].
          assert (Z0 : (p', @None exn) = (p, None)); [apply U; exists x; auto|]. injection Z0 as ->. reflexivity.
  Qed.

  (** ** Outcomes *)
  (** Options are the part for the kind of profiler of what is given, default ones if it is falsy;
      everything else, also options for the other kind, is an error. A profiler is made exactly if
      these options are valid, min_true_samples is a whole number or None, and the data are none, of
      a type that is taken and empty, or profiled without an error; texts of a reader are not taken
      for tables. *)
  Theorem C94_outcome : forall w h given d samples m o k p, kind_of given (d_source d) = Ok k -> k <> PGraph ->
    (snd (make w h given d samples m o) = Ok p <->
     text_to_table k (d_source d) = false /\
     exists r s m' x,
       (part k o = Some r /\ sub_of h r = Some s \/ o = OFalsy /\ r = length h /\ s = default k) /\
       validate s = Ok tt /\ int_arg m = Ok m' /\ p = mkProf P k (Some r) samples m' x /\
       fed k (with_labeler w k s) (mkProf P k (Some r) samples m' (fresh k)) d x).
  Proof.
    intros w h given d samples m o k p K NG. rewrite (make_kind w h given d samples m o k K NG).
    unfold FactoryModel.make_table. rewrite choose_spec by exact NG.
    assert (App : sub_of (h ++ [default k]) (length h) = Some (default k))
      by (unfold FactoryModel.sub_of; rewrite nth_error_app2, Nat.sub_diag by lia; reflexivity).
    destruct (part k o) as [r|] eqn:EP.
    - destruct (text_to_table k (d_source d)); [split; [discriminate|intros (H & _); discriminate H]|].
      rewrite construct_ok. split.
      + intros (m' & s & x & A & B & C & D & E). split; [reflexivity|]. exists r, s, m', x. auto 7.
      + intros (_ & r' & s & m' & x & [(A & B)|(A & _)] & C & D & E & F).
        * injection A as <-. exists m', s, x. auto.
        * subst o. discriminate EP.
    - assert (OF : o = OFalsy \/ o <> OFalsy) by (destruct o; auto; right; discriminate).
      destruct OF as [->|NF].
      + destruct (text_to_table k (d_source d)); [split; [discriminate|intros (H & _); discriminate H]|].
        rewrite construct_ok. split.
        * intros (m' & s & x & A & B & C & D & E). split; [reflexivity|]. rewrite App in B. injection B as <-.
          exists (length h), (default k), m', x. auto 8.
        * intros (_ & r' & s & m' & x & [(A & B)|(_ & -> & ->)] & C & D & E & F); [discriminate A|].
          exists m', (default k), x. rewrite App. auto 7.
      + destruct o; try congruence; cbn [snd]; (split; [discriminate|]);
          intros (_ & r0 & s0 & m' & x & [(A & _)|(A & _)] & _); congruence.
  Qed.

  (** Graphs: neither options, however invalid, nor sizes matter, and nothing is written to options. *)
  Theorem C94_graph : forall w h given d samples m o, kind_of given (d_source d) = Ok PGraph ->
    fst (make w h given d samples m o) = h /\
    forall p, snd (make w h given d samples m o) = Ok p <->
      graphic (d_source d) /\ exists x, p = mkProf P PGraph None None None x /\
        (d_len d = Ok 0 /\ x = fresh PGraph \/ (exists n, d_len d = Ok (S n)) /\ graph_work (fresh PGraph) d = (x, None)).
  Proof.
    intros w h given d samples m o K. unfold FactoryModel.make. rewrite K. unfold graph_update.
    set (p0 := mkProf P PGraph None None None (fresh PGraph)).
    assert (G : graphic (d_source d) \/ ~ graphic (d_source d)) by (destruct (d_source d) as [| | | | | |[] f|]; cbn; tauto).
    destruct G as [G|G].
    - replace (match d_source d with
               | SGraph | SReader RGraph _ =>
                   match d_len d with
                   | Ok 0 => (p0, None)
                   | Ok (S _) => let (x, e) := graph_work (f_profile P p0) d in (set_profile P p0 x, e)
                   | Err e => (p0, Some e)
                   end
               | _ => (p0, Some NotImplementedErr)
               end)
        with (match d_len d with
              | Ok 0 => (p0, None)
              | Ok (S _) => let (x, e) := graph_work (f_profile P p0) d in (set_profile P p0 x, e)
              | Err e => (p0, Some e)
              end) by (destruct (d_source d) as [| | | | | |[] f|]; cbn in G; tauto).
      destruct (d_len d) as [[|n]|e].
      + split; [reflexivity|]. intro p. cbn [snd]. split.
        * intro H. injection H as <-. split; [exact G|]. exists (fresh PGraph). auto.
        * intros (_ & x & -> & [(_ & ->)|((n & H) & _)]); [reflexivity|discriminate H].
      + cbn [f_profile p0]. destruct (graph_work (fresh PGraph) d) as [x [e|]] eqn:EW; cbn [fst snd]; (split; [reflexivity|]); intro p.
        * split; [discriminate|]. intros (_ & x' & _ & [(H & _)|(_ & H)]); discriminate H.
        * split.
          { intro H. injection H as <-. split; [exact G|]. exists x. split; [reflexivity|]. right. split; [exists n; reflexivity|reflexivity]. }
          { intros (_ & x' & -> & [(H & _)|(_ & H)]); [discriminate H|]. injection H as <-. reflexivity. }
      + split; [reflexivity|]. intro p. cbn [snd]. split; [discriminate|].
        intros (_ & x & _ & [(H & _)|((n & H) & _)]); discriminate H.
    - replace (match d_source d with
               | SGraph | SReader RGraph _ =>
                   match d_len d with
                   | Ok 0 => (p0, None)
                   | Ok (S _) => let (x, e) := graph_work (f_profile P p0) d in (set_profile P p0 x, e)
                   | Err e => (p0, Some e)
                   end
               | _ => (p0, Some NotImplementedErr)
               end)
        with (p0, Some NotImplementedErr) by (destruct (d_source d) as [| | | | | |[] f|]; cbn in G; tauto).
      split; [reflexivity|]. intro p. cbn [snd]. split; [discriminate|]. intros (H & _). contradiction.
  Qed.

  (** ** What becomes of options *)
  (** The change of an options object by a profiler that loads its labeler. *)
  Definition labeled (w : W) (k : ptype) (s s' : sub L X) : Prop :=
    s_rest _ _ s' = s_rest _ _ s /\ s_dirpath _ _ s' = s_dirpath _ _ s /\
    s_enabled _ _ s = true /\ s_labeler _ _ s = None /\
    match load w k (s_dirpath _ _ s) with
    | Ok l => s_enabled _ _ s' = true /\ s_labeler _ _ s' = Some l
    | Err _ => s_enabled _ _ s' = false /\ s_labeler _ _ s' = None
    end.

  Lemma with_labeler_cases w k s : with_labeler w k s = s \/ labeled w k s (with_labeler w k s).
  Proof.
    unfold FactoryModel.with_labeler, labeled. destruct s as [[] [l|] dp re]; cbn [s_enabled s_labeler s_dirpath s_rest]; auto.
    destruct (load w k dp) eqn:E; right; cbn [s_enabled s_labeler s_dirpath s_rest]; repeat split; reflexivity.
  Qed.

  Lemma construct_heap w k h r d samples m : exists s',
    fst (construct w k h r d samples m) = h \/
    exists s, sub_of h r = Some s /\ validate s = Ok tt /\ s' = with_labeler w k s /\
      fst (construct w k h r d samples m) = put L X h r s'.
  Proof.
    unfold FactoryModel.construct. destruct (int_arg m) as [m'|e]; [|exists (default k); left; reflexivity].
    destruct (sub_of h r) as [s|] eqn:Es; [|exists (default k); left; reflexivity].
    destruct (validate s) as [[]|e] eqn:EV; [|exists (default k); left; reflexivity].
    exists (with_labeler w k s). right. exists s. cbv zeta. split; [reflexivity|]. split; [exact EV|]. split; [reflexivity|].
    destruct (d_source d); try reflexivity;
      destruct (update _ _ d None MNone) as [p' [e|]]; reflexivity.
  Qed.

  (** Of the options that exist only the part in use is written to, and only if labeling is on, it
      has no labeler and it is valid: the labeler that is loaded, or that labeling is off if loading
      fails. *)
  Theorem C94_options : forall w h given d samples m o r s, sub_of h r = Some s ->
    exists s', sub_of (fst (make w h given d samples m o)) r = Some s' /\
      (s' = s \/ exists k, kind_of given (d_source d) = Ok k /\ part k o = Some r /\ validate s = Ok tt /\ labeled w k s s').
  Proof.
    intros w h given d samples m o r s Hs.
    destruct (kind_of given (d_source d)) as [k|e] eqn:K.
    2:{ exists s. unfold FactoryModel.make. rewrite K. auto. }
    assert (KG : k = PGraph \/ k <> PGraph) by (destruct k; auto; right; discriminate).
    destruct KG as [->|NG].
    { exists s. destruct (C94_graph w h given d samples m o K) as [-> _]. auto. }
    rewrite (make_kind w h given d samples m o k K NG). unfold FactoryModel.make_table. rewrite choose_spec by exact NG.
    assert (Main : forall h1 q, sub_of h1 r = Some s -> (q = r -> part k o = Some r) ->
      exists s', sub_of (fst (if text_to_table k (d_source d) then (h1, Err TypeError) else construct w k h1 q d samples m)) r = Some s' /\
      (s' = s \/ exists k', Ok k = Ok k' /\ part k' o = Some r /\ validate s = Ok tt /\ labeled w k' s s')).
    { intros h1 q H1 Hq. destruct (text_to_table k (d_source d)); [exists s; auto|].
      destruct (construct_heap w k h1 q d samples m) as (s' & [->|(s0 & E0 & EV & -> & ->)]); [exists s; auto|].
      destruct (Nat.eq_dec r q) as [->|N].
      - rewrite H1 in E0. injection E0 as <-. exists (with_labeler w k s). split; [apply put_same; eapply sub_length; exact H1|].
        destruct (with_labeler_cases w k s) as [->|C]; [auto|]. right. exists k. auto.
      - exists s. split; [unfold FactoryModel.sub_of; rewrite put_other by exact N; exact H1|]. auto. }
    destruct (part k o) as [q|] eqn:EP.
    - apply Main; [exact Hs|]. intros ->. reflexivity.
    - destruct o; try (exists s; split; [exact Hs|auto]; fail).
      apply Main.
      + unfold FactoryModel.sub_of. rewrite nth_error_app1; [exact Hs|]. eapply sub_length. exact Hs.
      + intro E. exfalso. apply sub_length in Hs. lia.
  Qed.

  (** Any number of profilers made, with any arguments and files. *)
  Inductive later (h : heap L X) : heap L X -> Prop :=
  | later_refl : later h h
  | later_make : forall h' w given d samples m o, later h h' -> later h (fst (make w h' given d samples m o)).

  (** An options object with a labeler, or with labeling off, stays as it is. *)
  Theorem C94_stays : forall h h' r s, later h h' -> sub_of h r = Some s ->
    (s_enabled _ _ s = false \/ s_labeler _ _ s <> None) -> sub_of h' r = Some s.
  Proof.
    intros h h' r s Hl Hs D. induction Hl as [|h' w given d samples m o Hl IH]; [exact Hs|].
    destruct (C94_options w h' given d samples m o r s IH) as (s' & E & [->|(k & _ & _ & _ & (_ & _ & A & B & _))]); [exact E|].
    exfalso. destruct D as [D|D]; congruence.
  Qed.

  (** So two profilers of a kind with the same options use the same labeler, or both none, whatever
      files were changed and whatever was made in between. *)
  Theorem C94_shared : forall w h given d samples m o p h' w' given' d' samples' m' p',
    snd (make w h given d samples m o) = Ok p ->
    later (fst (make w h given d samples m o)) h' ->
    snd (make w' h' given' d' samples' m' o) = Ok p' ->
    f_kind P p = f_kind P p' -> f_kind P p <> PGraph -> o <> OFalsy ->
    exists r s, f_opts P p = Some r /\ f_opts P p' = Some r /\
      sub_of (fst (make w h given d samples m o)) r = Some s /\
      sub_of (fst (make w' h' given' d' samples' m' o)) r = Some s.
  Proof.
    intros w h given d samples m o p h' w' given' d' samples' m' p' H1 Hl H2 EK NG NF.
    assert (KK : forall w h given d samples m p, snd (make w h given d samples m o) = Ok p -> f_kind P p <> PGraph ->
              exists k, kind_of given (d_source d) = Ok k /\ k <> PGraph /\ f_kind P p = k).
    { clear -NF. intros w h given d samples m p H N. destruct (kind_of given (d_source d)) as [k|e] eqn:K.
      2:{ unfold FactoryModel.make in H. rewrite K in H. discriminate H. }
      assert (KG : k = PGraph \/ k <> PGraph) by (destruct k; auto; right; discriminate).
      destruct KG as [->|NG].
      - apply (proj2 (C94_graph w h given d samples m o K)) in H. destruct H as (_ & x & -> & _). cbn in N. congruence.
      - exists k. split; [reflexivity|]. split; [exact NG|].
        apply (C94_outcome w h given d samples m o k p K NG) in H. destruct H as (_ & r & s & m' & x & _ & _ & _ & -> & _). reflexivity. }
    destruct (KK _ _ _ _ _ _ _ H1 NG) as (k & K1 & N1 & F1).
    destruct (KK _ _ _ _ _ _ _ H2 ltac:(congruence)) as (k2 & K2 & N2 & F2).
    assert (Ek : k2 = k) by congruence. rewrite Ek in K2, N2, F2. clear Ek k2.
    pose proof (proj1 (C94_outcome w h given d samples m o k p K1 N1) H1) as (_ & r & s & m1 & x & [(A1 & A2)|(A1 & _)] & B & C & D & E); [|contradiction].
    pose proof (proj1 (C94_outcome w' h' given' d' samples' m' o k p' K2 N2) H2) as (_ & r2 & s2 & m2 & x2 & [(A3 & A4)|(A3 & _)] & B2 & C2 & D2 & E2); [|contradiction].
    assert (r2 = r) by congruence. subst r2.
    assert (S1 : sub_of (fst (make w h given d samples m o)) r = Some (with_labeler w k s)).
    { rewrite (make_kind w h given d samples m o k K1 N1) in *. unfold FactoryModel.make_table in *. rewrite choose_spec in * by exact N1.
      rewrite A1 in *. destruct (text_to_table k (d_source d)); [discriminate H1|].
      unfold FactoryModel.construct. rewrite C, A2, B. cbv zeta.
      destruct (d_source d); try (apply put_same; eapply sub_length; exact A2);
        destruct (update _ _ d None MNone) as [q [e|]]; cbn [fst]; apply put_same; eapply sub_length; exact A2. }
    exists r, (with_labeler w k s). split; [rewrite D; reflexivity|]. split; [rewrite D2; reflexivity|]. split; [exact S1|].
    assert (Done : s_enabled _ _ (with_labeler w k s) = false \/ s_labeler _ _ (with_labeler w k s) <> None).
    { unfold FactoryModel.with_labeler. destruct s as [[] [l|] dp re]; cbn [s_enabled s_labeler s_dirpath s_rest]; try (right; discriminate); try (left; reflexivity).
      destruct (load w k dp); cbn [s_enabled s_labeler]; [right; discriminate|left; reflexivity]. }
    apply (C94_stays (fst (make w h given d samples m o)) _ r _); [|exact S1|exact Done].
    apply later_make. exact Hl.
  Qed.

  (** Without options every profiler has an object of its own, that none before has. *)
  Theorem C94_default : forall w h given d samples m p k, kind_of given (d_source d) = Ok k -> k <> PGraph ->
    snd (make w h given d samples m OFalsy) = Ok p -> f_opts P p = Some (length h) /\
    length (fst (make w h given d samples m OFalsy)) = S (length h).
  Proof.
    intros w h given d samples m p k K NG H.
    pose proof (proj1 (C94_outcome w h given d samples m OFalsy k p K NG) H) as (T & r & s & m' & x & [(A & _)|(_ & -> & ->)] & B & C & D & E).
    { destruct k; discriminate A. }
    split; [rewrite D; reflexivity|].
    rewrite (make_kind w h given d samples m OFalsy k K NG). unfold FactoryModel.make_table. rewrite choose_spec by exact NG.
    replace (part k OFalsy) with (@None nat) by (destruct k; reflexivity). rewrite T.
    destruct (construct_heap w k (h ++ [default k]) (length h) d samples m) as (s' & [->|(s0 & _ & _ & _ & ->)]);
      rewrite ?put_length, app_length; cbn [length]; lia.
  Qed.

  (** ** Updates *)
  (** An update is refused, and changes nothing, if min_true_samples is no whole number, the data are
      of another type, or reading them fails; empty data change nothing; otherwise the data are
      profiled with the size and number given, or those of the profiler if they are none or zero. *)
  Theorem C94_update : forall h p d size m r s, f_opts P p = Some r -> sub_of h r = Some s ->
    (m = MOther -> update h p d size m = (p, Some ValueError)) /\
    (m <> MOther -> takes (f_kind P p) (d_source d) = false -> update h p d size m = (p, Some TypeError)) /\
    (m <> MOther -> takes (f_kind P p) (d_source d) = true ->
       match d_len d with
       | Err e => update h p d size m = (p, Some e)
       | Ok 0 => update h p d size m = (p, None)
       | Ok (S _) =>
           let size' := match size with None | Some 0 => sample_size p d | Some n => n end in
           let m' := match m with MInt z => if (z =? 0)%Z then f_min_true P p else Some z | _ => f_min_true P p end in
           update h p d size m =
             (set_profile P p (fst (work s (f_profile P p) d size' m')), snd (work s (f_profile P p) d size' m'))
       end).
  Proof.
    intros h p d size m r s Ho Hs.
    assert (C : m <> MOther -> takes (f_kind P p) (d_source d) = true ->
       match d_len d with
       | Err e => update h p d size m = (p, Some e)
       | Ok 0 => update h p d size m = (p, None)
       | Ok (S _) =>
           let size' := match size with None | Some 0 => sample_size p d | Some n => n end in
           let m' := match m with MInt z => if (z =? 0)%Z then f_min_true P p else Some z | _ => f_min_true P p end in
           update h p d size m =
             (set_profile P p (fst (work s (f_profile P p) d size' m')), snd (work s (f_profile P p) d size' m'))
       end).
    { intros Hm Ht. unfold FactoryModel.update. destruct m as [|z|]; [| |congruence]; cbn [int_arg falsyZ]; rewrite Ht; cbn [negb];
        (destruct (d_len d) as [[|n]|e]; try reflexivity); rewrite Ho, Hs; cbv zeta.
      - destruct size as [[|q]|]; destruct (work s (f_profile P p) d _ _); reflexivity.
      - destruct (z =? 0)%Z; destruct size as [[|q]|]; destruct (work s (f_profile P p) d _ _); reflexivity. }
    split; [intros ->; reflexivity|]. split; [|exact C].
    intros Hm Ht. unfold FactoryModel.update. destruct m as [|z|]; [| |congruence]; cbn [int_arg]; rewrite Ht; reflexivity.
  Qed.

  (** Which data an update takes: files, lists, series and data frames, and texts for profilers of
      texts. *)
  Theorem C94_takes : forall k s, takes k s = true <->
    s = SList \/ s = SSeries \/ s = SFrame \/ (exists f t, s = SReader f t) \/ (s = SStr /\ k = PUnstructured).
  Proof.
    intros k s. split.
    - destruct s; try discriminate; auto; [destruct k; try discriminate; auto 6|]. intros _. do 3 right. left. eauto.
    - intros [->|[->|[->|[(f & t & ->)|(-> & ->)]]]]; reflexivity.
  Qed.

  (** Text files are refused by profilers of tables with a TypeError, all other data are not; a number
      of required values that is no whole number is a ValueError. *)
  Theorem C94_text_files : forall k s, text_to_table k s = true <-> k = PStructured /\ exists f, s = SReader RText f.
  Proof.
    intros k s. split.
    - destruct k; try discriminate. destruct s as [| | | | | |[] f|]; try discriminate. eauto.
    - intros (-> & f & ->). reflexivity.
  Qed.
  Theorem C94_refused : forall w h given d samples m o k, kind_of given (d_source d) = Ok k -> k <> PGraph ->
    o = OFalsy \/ part k o <> None ->
    (k = PStructured -> forall f, d_source d = SReader RText f -> snd (make w h given d samples m o) = Err TypeError) /\
    (m = MOther -> (k = PStructured -> forall f, d_source d <> SReader RText f) ->
       snd (make w h given d samples m o) = Err ValueError).
  Proof.
    intros w h given d samples m o k K NG HO. rewrite (make_kind w h given d samples m o k K NG).
    unfold FactoryModel.make_table.
    assert (exists h1 r, choose k h o = Ok (h1, r)) as (h1 & r & ->).
    { destruct HO as [->|HO]; [destruct k; cbn; eauto|]. destruct k; [congruence| |]; destruct o; cbn in HO |- *; try congruence; eauto. }
    split.
    - intros Ek f E. rewrite (proj2 (C94_text_files k (d_source d))); [reflexivity|eauto].
    - intros -> N. destruct (text_to_table k (d_source d)) eqn:T.
      + apply C94_text_files in T. destruct T as (Ek & f & T). exfalso. exact (N Ek f T).
      + reflexivity.
  Qed.
End Props.
Print Assumptions C94_takes.
Print Assumptions C94_text_files.
Print Assumptions C94_refused.
Print Assumptions C94_outcome.
Print Assumptions C94_graph.
Print Assumptions C94_options.
Print Assumptions C94_shared.
Print Assumptions C94_default.
Print Assumptions C94_update.

(** ** Refuted expectations *)
(** Labelers are numbers, files are there or not, a profile is the list of the numbers of rows and
    values required of the updates. *)
Definition ex_load (w : bool) (_ : ptype) (_ : option string) : result nat := if w then Ok 7 else Err GenericException.
Definition ex_work (s : sub nat unit) (p : list (nat * option Z)) (d : data) (n : nat) (m : option Z) : list (nat * option Z) * option exn :=
  match d_len d with Ok k => (p ++ [(k, m)], None) | Err e => (p, Some e) end.
Definition ex_valid (s : sub nat unit) : result unit := Ok tt.
Definition ex_make := make nat unit (list (nat * option Z)) tt tt ex_valid bool ex_load (fun _ _ => 5000) ex_work (fun p _ => (p, None)) (fun _ => []).
Definition ex_update := update nat unit (list (nat * option Z)) (fun _ _ => 5000) ex_work.
Definition ex_frame (n : nat) : data := mkData SFrame (Ok n).
Definition ex_opts : sub nat unit := mkSub nat unit true None None tt.

(** Labels are not computed although labeling is on in the options as the user made them and the
    labeler can be loaded: an earlier profiler could not load it. *)
Theorem C94_labels_refuted : ~ forall h0 h w given d samples m o p r s,
  later tt tt ex_valid ex_load (fun _ _ => 5000) ex_work (fun p _ => (p, None)) (fun _ => []) h0 h ->
  sub_of _ _ h0 r = Some s -> s_enabled _ _ s = true ->
  snd (ex_make w h given d samples m o) = Ok p -> f_opts _ p = Some r -> ex_load w (f_kind _ p) (s_dirpath _ _ s) = Ok 7 ->
  exists s', sub_of _ _ (fst (ex_make w h given d samples m o)) r = Some s' /\ s_enabled _ _ s' = true.
Proof.
  intro H.
  specialize (H [ex_opts] (fst (ex_make false [ex_opts] None (ex_frame 3) None (MInt 0) (OStructured 0))) true None (ex_frame 3) None (MInt 0) (OStructured 0)).
  edestruct (fun p => H p 0 ex_opts) as (s' & A & B).
  - apply later_make. apply later_refl.
  - reflexivity.
  - reflexivity.
  - vm_compute. reflexivity.
  - reflexivity.
  - reflexivity.
  - vm_compute in A. injection A as <-. discriminate B.
Qed.

(** A profiler that cannot be made leaves the options changed. *)
Theorem C94_failure_refuted : ~ forall w h given d samples m o e,
  snd (ex_make w h given d samples m o) = Err e -> fst (ex_make w h given d samples m o) = h.
Proof.
  intro H. specialize (H true [ex_opts] (Some "structured"%string) (mkData SStr (Ok 3)) None (MInt 0) (OStructured 0) TypeError eq_refl).
  vm_compute in H. discriminate H.
Qed.

(** Zero as the number of required values does not override that of the profiler. *)
Theorem C94_zero_refuted : ~ forall h p d z, (exists r s, f_opts _ p = Some r /\ sub_of nat unit h r = Some s) ->
  takes (f_kind _ p) (d_source d) = true -> d_len d = Ok 3 ->
  f_profile _ (fst (ex_update h p d None (MInt z))) = f_profile _ p ++ [(3, Some z)].
Proof.
  intro H. specialize (H [ex_opts] (mkProf _ PStructured (Some 0) None (Some 2%Z) []) (ex_frame 3) 0%Z).
  assert (A : exists r s, Some 0 = Some r /\ sub_of nat unit [ex_opts] r = Some s) by (exists 0, ex_opts; split; reflexivity).
  specialize (H A eq_refl eq_refl). vm_compute in H. discriminate H.
Qed.

(** A file in CSV gives a profiler of tables with the labeler loaded; lists of records of it one of
    texts; options for the other kind are refused; a graph is profiled whatever the options. *)
Example C94_example :
  let csv f := mkData (SReader RCsv f) (Ok 4) in
  (exists h p, ex_make true [ex_opts; ex_opts] None (csv "dataframe"%string) None (MInt 2) (OProfiler 0 1) = (h, Ok p) /\
     f_kind _ p = PStructured /\ f_profile _ p = [(4, Some 2%Z)] /\ f_opts _ p = Some 0 /\
     h = [mkSub nat unit true (Some 7) None tt; ex_opts] /\
     fst (ex_update h p (ex_frame 0) None (MInt 9)) = p /\
     f_profile _ (fst (ex_update h p (ex_frame 6) None (MInt 9))) = [(4, Some 2%Z); (6, Some 9%Z)] /\
     ex_update h p (mkData SStr (Ok 1)) None MNone = (p, Some TypeError)) /\
  (exists h p, ex_make false [ex_opts; ex_opts] None (csv "records"%string) None (MInt 2) (OProfiler 0 1) = (h, Ok p) /\
     f_kind _ p = PUnstructured /\ h = [ex_opts; mkSub nat unit false None None tt]) /\
  snd (ex_make true [ex_opts] None (csv "records"%string) None (MInt 2) (OStructured 0)) = Err ValueError /\
  (exists p, ex_make true [ex_opts] None (mkData SGraph (Ok 4)) None MOther OOther = ([ex_opts], Ok p)) /\
  snd (ex_make true [] None (mkData SNone (Ok 0)) None MNone OFalsy) = Err ValueError.
Proof.
  cbv zeta. split; [eexists; eexists; split; [vm_compute; reflexivity|]; repeat split; vm_compute; reflexivity|].
  split; [eexists; eexists; split; [vm_compute; reflexivity|]; repeat split; vm_compute; reflexivity|].
  split; [vm_compute; reflexivity|]. split; [eexists; vm_compute; reflexivity|]. vm_compute. reflexivity.
Qed.
