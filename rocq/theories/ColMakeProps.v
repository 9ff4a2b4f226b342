(** C112: which profiles a column has, and what failures do to them. *)
From Verif Require Import PyCommon PyDict PyString ListFacts ColMakeModel.
Import String.StringSyntax.
Local Delimit Scope string_scope with string.
Local Open Scope nat_scope.

Section Props.
  Context {P B : Type}.
  Variable make : kind -> result P.
  Variable step : kind -> P -> B -> P * option exn.
  Variable join : kind -> P -> P -> result P.
  Variable name_of : B -> option string.
  Variable size_of : B -> nat.
  Variable o : options.

  Notation column := (column P).
  Notation update := (update_column make step name_of size_of o).
  Notation add := (add_column join).

  (** All profiles of a column in the order in which they are updated and reported. *)
  Definition profiles (c : column) : list (kind * P) := flat_map snd (c_profiles c).
  Definition kinds (c : column) : list kind := map fst (profiles c).

  (** The kind is asked for by the options, and its constructor works. *)
  Definition made (k : kind) : bool :=
    match o with None => true | Some f => f k end && match make k with Ok _ => true | Err _ => false end.

  Definition all_kinds : list kind := [KDatetime; KInt; KFloat; KText; KOrder; KCategory; KLabeler].

  (** ** Creation *)

  Lemma create_spec ks t : create make o ks = Ok t ->
    map fst (fst t) = filter made ks /\ (forall k p, In (k, p) (fst t) -> make k = Ok p) /\
    (forall k, In k ks -> match o with None => true | Some f => f k end = true -> make k <> Err ValueError).
  Proof.
    revert t. induction ks as [|k r IH]; intros t E; cbn [create] in E.
    - injection E as <-. cbn. split; [reflexivity|]. split; [intros ? ? []|intros ? []].
    - cbn [filter]. unfold made at 1. unfold wanted in E. destruct (match o with None => true | Some f => f k end) eqn:W; cbn [andb].
      + destruct (make k) as [p|e] eqn:M.
        * destruct (create make o r) as [u|x]; cbn [bind] in E; [|discriminate]. injection E as <-. cbn [fst snd map]. destruct (IH u eq_refl) as (A & A' & A''). split; [f_equal; exact A|].
          split; [intros k' p' [H|H]; [injection H as <- <-; exact M|apply A'; exact H]|]. intros k' [<-|H] W'; [rewrite M; discriminate|apply A''; assumption].
        * destruct (warned e) eqn:WE; [|discriminate]. destruct (create make o r) as [u|x]; cbn [bind] in E; [|discriminate]. injection E as <-. cbn [fst snd]. destruct (IH u eq_refl) as (A & A' & A''). split; [exact A|].
          split; [exact A'|]. intros k' [<-|H] W'; [rewrite M; intros X; injection X as ->; discriminate WE|apply A''; assumption].
      + destruct (IH t E) as (A & A' & A''). split; [exact A|]. split; [exact A'|]. intros k' [<-|H] W'; [congruence|apply A''; assumption].
  Qed.

  Lemma create_error ks e : create make o ks = Err e -> e = ValueError /\ exists k, In k ks /\ match o with None => true | Some f => f k end = true /\ make k = Err ValueError.
  Proof.
    induction ks as [|k r IH]; cbn [create]; [discriminate|]. unfold wanted. destruct (match o with None => true | Some f => f k end) eqn:W.
    - destruct (make k) as [p|x] eqn:M.
      + destruct (create make o r) as [u|y]; cbn [bind]; [discriminate|]. intros E. injection E as ->. destruct (IH eq_refl) as (H & k' & I & H'). split; [exact H|]. exists k'. split; [right; exact I|exact H'].
      + destruct (warned x) eqn:WX.
        * destruct (create make o r) as [u|y]; cbn [bind]; [discriminate|]. intros E. injection E as ->. destruct (IH eq_refl) as (H & k' & I & H'). split; [exact H|]. exists k'. split; [right; exact I|exact H'].
        * intros E. injection E as ->. assert (e = ValueError) as -> by (destruct e; cbn in WX; congruence). split; [reflexivity|]. exists k. split; [left; reflexivity|]. split; [exact W|exact M].
    - intros E. destruct (IH E) as (H & k' & I & H'). split; [exact H|]. exists k'. split; [right; exact I|exact H'].
  Qed.

  (** ** Updates of the profiles in order *)

  (** How far an update got: the profiles before the one that raised are updated, the others are not. *)
  Inductive updated (b : B) : list (kind * P) -> list (kind * P) -> option exn -> Prop :=
  | updated_all l : (forall k p, In (k, p) l -> snd (step k p b) = None) ->
      updated b l (map (fun x => (fst x, fst (step (fst x) (snd x) b))) l) None
  | updated_part l k p r e : (forall k p, In (k, p) l -> snd (step k p b) = None) -> snd (step k p b) = Some e ->
      updated b (l ++ (k, p) :: r) (map (fun x => (fst x, fst (step (fst x) (snd x) b))) l ++ (k, fst (step k p b)) :: r) (Some e).

  Lemma updated_cons b k p l l' e : snd (step k p b) = None -> updated b l l' e -> updated b ((k, p) :: l) ((k, fst (step k p b)) :: l') e.
  Proof.
    intros S U. destruct U as [l H|l k' p' r e H H'].
    - refine (updated_all b ((k, p) :: l) _). intros k' p' [E|I]; [injection E as <- <-; exact S|apply H; exact I].
    - refine (updated_part b ((k, p) :: l) k' p' r e _ H'). intros k1 p1 [E|I]; [injection E as <- <-; exact S|apply H; exact I].
  Qed.

  Lemma updated_more b l l' r : updated b l l' None -> forall r' e, updated b r r' e -> updated b (l ++ r) (l' ++ r') e.
  Proof.
    intros U. inversion U as [l0 H E1 E2|]; subst. intros r' e R. clear U. revert H. induction l as [|[k p] l IH]; intros H; [exact R|]. cbn [app map fst snd].
    apply updated_cons; [apply H; left; reflexivity|]. apply IH. intros k' p' I. apply H. right. exact I.
  Qed.

  Lemma updated_stop b l l' e r : updated b l l' (Some e) -> updated b (l ++ r) (l' ++ r) (Some e).
  Proof. intros U. inversion U as [|l0 k p r0 e0 H H' E1 E2 E3]; subst. rewrite <- !app_assoc. cbn [app]. apply updated_part; assumption. Qed.

  Lemma update_all_spec b d : let '(d', e) := update_all step d b in updated b d d' e /\ map fst d' = map fst d.
  Proof.
    induction d as [|[k p] r IH]; cbn [update_all]; [split; [exact (updated_all b [] (fun _ _ (H : In _ []) => match H with end))|reflexivity]|].
    destruct (step k p b) as [p' [x|]] eqn:S.
    - split; [|reflexivity]. pose proof (updated_part b [] k p r x (fun _ _ (H : In _ []) => match H with end)) as U. rewrite S in U. exact (U eq_refl).
    - destruct (update_all step r b) as [r' e']. destruct IH as [U K]. split; [|cbn; f_equal; exact K]. pose proof (updated_cons b k p r r' e') as C. rewrite S in C. exact (C eq_refl U).
  Qed.

  Lemma next_run_spec b d : let '(d', e) := next_run step d b in updated b (flat_map snd d) (flat_map snd d') e /\ map fst d' = map fst d /\ map (fun x => map fst (snd x)) d' = map (fun x => map fst (snd x)) d.
  Proof.
    induction d as [|[c ps] r IH]; cbn [next_run]; [split; [exact (updated_all b [] (fun _ _ (H : In _ []) => match H with end))|split; reflexivity]|].
    pose proof (update_all_spec b ps) as U. destruct (update_all step ps b) as [ps' [x|]]; destruct U as [U K].
    - cbn [flat_map snd map fst]. split; [apply updated_stop; exact U|]. split; [reflexivity|f_equal; exact K].
    - destruct (next_run step r b) as [r' e']. destruct IH as (IH & K1 & K2). cbn [flat_map snd map fst]. split; [apply (updated_more b _ _ _ U); exact IH|]. split; [f_equal; exact K1|f_equal; [exact K|exact K2]].
  Qed.

  Lemma new_compiler_ok c b t : new_compiler make step o c b = Ok t ->
    exists d, map fst d = filter made (kinds_of c) /\ (forall k p, In (k, p) d -> make k = Ok p) /\ updated b d (fst t) None /\
      (forall k, In k (kinds_of c) -> match o with None => true | Some f => f k end = true -> make k <> Err ValueError).
  Proof.
    unfold new_compiler. destruct (create make o (kinds_of c)) as [u|e] eqn:E; cbn [bind]; [|discriminate]. pose proof (update_all_spec b (fst u)) as U.
    destruct (update_all step (fst u) b) as [d [x|]]; [discriminate|]. intros H. injection H as <-. destruct (create_spec _ _ E) as (A & A' & A''). exists (fst u). refine (conj A (conj A' (conj _ A''))). exact (proj1 U).
  Qed.

  Lemma filter_all : filter made all_kinds = filter made (kinds_of CTypes) ++ filter made (kinds_of CStats) ++ filter made (kinds_of CLabels).
  Proof. rewrite <- !filter_app. reflexivity. Qed.

  Lemma updated_keys b l l' e : updated b l l' e -> map fst l' = map fst l.
  Proof. intros U. destruct U as [l H|l k p r e H H']; rewrite ?map_app, map_map; cbn [fst map]; reflexivity. Qed.

  (** ** Theorems *)

  (** Before the first data a column has no profiles. The first update that works gives it exactly the
      profiles that the options ask for and whose constructors work, in a fixed order, each made new and
      then updated once. Constructors that fail only make a warning, unless it is a ValueError: then
      the update fails. *)
  Theorem C112_first c b c' : c_profiles c = [] -> update c b = (c', None) ->
    kinds c' = filter made all_kinds /\
    (forall k p', In (k, p') (profiles c') -> exists p, make k = Ok p /\ step k p b = (p', None)) /\
    c_size c' = c_size c + size_of b /\ c_name c' = match c_name c with Some x => Some x | None => name_of b end /\
    (forall k, match o with None => true | Some f => f k end = true -> make k <> Err ValueError).
  Proof.
    intros N E. unfold update_column in E. destruct (size_of b =? 0); [discriminate|]. unfold update_column_profilers in E. cbn [c_name c_size c_profiles] in E. rewrite N in E.
    destruct (name_fits name_of (c_name c) b); [|discriminate].
    assert (forall d' e, first_run make step o b = (d', e) -> e = None -> exists d, map fst d = filter made all_kinds /\ (forall k p, In (k, p) d -> make k = Ok p) /\ updated b d (flat_map snd d') None /\ (forall k, match o with None => true | Some f => f k end = true -> make k <> Err ValueError)) as F.
    { clear. intros d' e F ->. unfold first_run in F. destruct (new_compiler make step o CTypes b) as [[ty w1]|x1] eqn:E1; [|discriminate]. destruct (new_compiler make step o CStats b) as [[st w2]|x2] eqn:E2; [|discriminate].
      destruct (new_compiler_ok _ _ _ E1) as (d1 & K1 & M1 & U1 & V1). destruct (new_compiler_ok _ _ _ E2) as (d2 & K2 & M2 & U2 & V2). cbn [fst] in *. unfold wanted in F.
      destruct (match o with None => true | Some f => f KLabeler end) eqn:W.
      - destruct (new_compiler make step o CLabels b) as [[lb w3]|x3] eqn:E3; [|discriminate]. injection F as <-. destruct (new_compiler_ok _ _ _ E3) as (d3 & K3 & M3 & U3 & V3). cbn [fst] in *.
        exists (d1 ++ d2 ++ d3). rewrite filter_all, !map_app, K1, K2, K3. split; [reflexivity|]. split.
        + intros k p H. rewrite !in_app_iff in H. destruct H as [H|[H|H]]; auto.
        + split; [cbn [flat_map snd]; rewrite app_nil_r; apply (updated_more b _ _ _ U1); apply (updated_more b _ _ _ U2); exact U3|].
          intros k. destruct k; [apply V1; cbn; tauto|apply V1; cbn; tauto|apply V1; cbn; tauto|apply V1; cbn; tauto|apply V2; cbn; tauto|apply V2; cbn; tauto|apply V3; cbn; tauto].
      - injection F as <-. exists (d1 ++ d2). assert (filter made (kinds_of CLabels) = []) as FL by (cbn [kinds_of filter]; unfold made; rewrite W; reflexivity). rewrite filter_all, !map_app, K1, K2, FL, app_nil_r. split; [reflexivity|]. split.
        + intros k p H. rewrite !in_app_iff in H. destruct H as [H|H]; auto.
        + split; [cbn [flat_map snd]; rewrite app_nil_r; apply (updated_more b _ _ _ U1); exact U2|].
          intros k. destruct k; [apply V1; cbn; tauto|apply V1; cbn; tauto|apply V1; cbn; tauto|apply V1; cbn; tauto|apply V2; cbn; tauto|apply V2; cbn; tauto|congruence]. }
    destruct (first_run make step o b) as [d' e] eqn:EF. injection E as <- ->. destruct (F d' None eq_refl eq_refl) as (d & K & M & U & V). unfold kinds, profiles. cbn [c_profiles c_size c_name].
    split; [rewrite (updated_keys _ _ _ _ U); exact K|]. split; [|split; [reflexivity|]].
    - intros k p' H. remember (flat_map snd d') as fl eqn:Efl. clear Efl. inversion U as [l0 S E1 E2|]; subst. apply in_map_iff in H. destruct H as ([k0 p] & H & I). cbn [fst snd] in H. injection H as -> <-. exists p. split; [apply M; exact I|]. specialize (S k p I). destruct (step k p b) as [q x]. cbn in *. subst x. reflexivity.
    - split; [destruct (c_name c); reflexivity|exact V].
  Qed.

  (** If a constructor that is asked for raises a ValueError and no update of a profile raises, the update
      raises a ValueError. *)
  Theorem C112_value_error c b k : c_profiles c = [] -> c_name c = None \/ c_name c = name_of b -> 0 < size_of b ->
    match o with None => true | Some f => f k end = true -> make k = Err ValueError ->
    (forall k p, make k = Ok p -> snd (step k p b) = None) -> snd (update c b) = Some ValueError.
  Proof.
    intros N NM SZ W MK ST. unfold update_column. replace (size_of b =? 0) with false by (symmetry; apply Nat.eqb_neq; lia). unfold update_column_profilers. cbn [c_name c_size c_profiles].
    assert (name_fits name_of (c_name c) b = true) as ->. { unfold name_fits. destruct NM as [-> | ->]; [reflexivity|]. destruct (name_of b) as [x|]; [apply String.eqb_refl|reflexivity]. }
    rewrite N. assert (forall x e, new_compiler make step o x b = Err e -> e = ValueError) as NE.
    { intros x e. unfold new_compiler. destruct (create make o (kinds_of x)) as [u|y] eqn:E; cbn [bind].
      - pose proof (update_all_spec b (fst u)) as U. destruct (update_all step (fst u) b) as [d [z|]]; [|discriminate]. intros _. exfalso. destruct U as [U _]. inversion U as [|l k1 p1 r e1 H H' E1 E2 E3]; subst.
        destruct (create_spec _ _ E) as (_ & M & _). rewrite (ST k1 p1) in H'; [discriminate|]. apply M. rewrite <- E1. apply in_app_iff. right. left. reflexivity.
      - intros H. injection H as ->. apply (create_error _ _ E). }
    assert (forall x t, In k (kinds_of x) -> new_compiler make step o x b = Ok t -> False) as NO.
    { intros x t I E. destruct (new_compiler_ok _ _ _ E) as (d & _ & _ & _ & V). apply (V k I W MK). }
    assert (snd (first_run make step o b) = Some ValueError) as F.
    { unfold first_run. destruct (new_compiler make step o CTypes b) as [[ty w1]|x1] eqn:E1; [|cbn [snd]; f_equal; exact (NE _ _ E1)].
      destruct (new_compiler make step o CStats b) as [[st w2]|x2] eqn:E2; [|cbn [snd]; f_equal; exact (NE _ _ E2)].
      destruct k; try (exfalso; eapply NO; [|exact E1]; cbn; tauto); try (exfalso; eapply NO; [|exact E2]; cbn; tauto).
      unfold wanted. rewrite W. destruct (new_compiler make step o CLabels b) as [[lb w3]|x3] eqn:E3; [exfalso; eapply NO; [|exact E3]; cbn; tauto|]. cbn [snd]. f_equal. exact (NE _ _ E3). }
    destruct (first_run make step o b) as [d e]. exact F.
  Qed.

  (** Every further update by data of the same name: the kinds and their order stay; all profiles are
      updated if it works; if a profile raises, those before it are updated, those after it are not,
      and its own state is what it left. The rows are counted in either case. *)
  Theorem C112_next c b c' e : c_profiles c <> [] -> c_name c = None \/ c_name c = name_of b -> 0 < size_of b -> update c b = (c', e) ->
    updated b (profiles c) (profiles c') e /\ kinds c' = kinds c /\ dkeys (c_profiles c') = dkeys (c_profiles c) /\
    c_size c' = c_size c + size_of b /\ c_name c' = name_of b.
  Proof.
    intros N NM SZ E. unfold update_column in E. replace (size_of b =? 0) with false in E by (symmetry; apply Nat.eqb_neq; lia). unfold update_column_profilers in E. cbn [c_name c_size c_profiles] in E.
    assert (name_fits name_of (c_name c) b = true) as NF. { unfold name_fits. destruct NM as [->|NM]; [reflexivity|]. rewrite NM. destruct (name_of b) as [x|]; [apply String.eqb_refl|reflexivity]. }
    rewrite NF in E. destruct (c_profiles c) as [|x r] eqn:EC; [congruence|]. pose proof (next_run_spec b (x :: r)) as U. destruct (next_run step (x :: r) b) as [d' e']. injection E as <- <-. destruct U as (U & K1 & _).
    unfold kinds, profiles. rewrite EC. cbn [c_profiles c_size c_name]. refine (conj U (conj (updated_keys _ _ _ _ U) (conj K1 (conj eq_refl _)))).
    destruct NM as [->|NM]; [reflexivity|]. rewrite NM. destruct (name_of b); reflexivity.
  Qed.

  (** Data of another name are refused and change no profile, but their rows are counted. *)
  Theorem C112_name c b n : c_name c = Some n -> name_of b <> Some n -> 0 < size_of b ->
    update c b = (mkColumn (c_name c) (c_size c + size_of b) (c_profiles c), Some ValueError).
  Proof.
    intros N NB SZ. unfold update_column, update_column_profilers. cbn [c_name]. replace (size_of b =? 0) with false by (symmetry; apply Nat.eqb_neq; lia). unfold name_fits. rewrite N.
    destruct (name_of b) as [y|]; [|reflexivity]. destruct (String.eqb_spec n y) as [->|NE]; [congruence|]. reflexivity.
  Qed.

  (** A first update that fails leaves no profiles, so that the next one begins anew, unless it was the
      profile for labels that failed: then the others are kept, and none for labels is made later. *)
  Theorem C112_first_failed c b c' e : c_profiles c = [] -> 0 < size_of b -> c_name c = None -> update c b = (c', Some e) ->
    c_profiles c' = [] \/
    (kinds c' = filter made [KDatetime; KInt; KFloat; KText; KOrder; KCategory] /\ c_profiles c' <> [] /\
     forall bs, ~ In KLabeler (kinds (fold_left (fun c b => fst (update c b)) bs c'))).
  Proof.
    intros N SZ NM E. unfold update_column in E. replace (size_of b =? 0) with false in E by (symmetry; apply Nat.eqb_neq; lia). unfold update_column_profilers in E. cbn [c_name c_size c_profiles] in E. rewrite N, NM in E. cbn [name_fits] in E.
    destruct (first_run make step o b) as [d' x] eqn:F. injection E as <- ->. cbn [c_profiles]. unfold first_run in F.
    destruct (new_compiler make step o CTypes b) as [[ty w1]|x1] eqn:E1; [|injection F as <- _; left; reflexivity]. destruct (new_compiler make step o CStats b) as [[st w2]|x2] eqn:E2; [|injection F as <- _; left; reflexivity].
    destruct (wanted o KLabeler); [|discriminate]. destruct (new_compiler make step o CLabels b) as [[lb w3]|x3]; [discriminate|]. injection F as <- _. right.
    destruct (new_compiler_ok _ _ _ E1) as (d1 & K1 & _ & U1 & _). destruct (new_compiler_ok _ _ _ E2) as (d2 & K2 & _ & U2 & _). cbn [fst] in *. apply updated_keys in U1, U2.
    set (c0 := mkColumn (name_of b) (c_size c + size_of b) [(CTypes, ty); (CStats, st)]).
    assert (kinds c0 = filter made [KDatetime; KInt; KFloat; KText; KOrder; KCategory]) as KC.
    { unfold kinds, profiles. cbn [c0 c_profiles flat_map snd]. rewrite app_nil_r, map_app, U1, U2, K1, K2, <- filter_app. reflexivity. }
    split; [exact KC|]. split; [discriminate|].
    assert (forall bs c, c_profiles c <> [] -> ~ In KLabeler (kinds c) -> ~ In KLabeler (kinds (fold_left (fun c b => fst (update c b)) bs c))) as G.
    { clear. induction bs as [|b bs IH]; intros c N H; [exact H|]. cbn [fold_left]. apply IH; clear IH.
      - unfold update_column. destruct (size_of b =? 0); [exact N|]. unfold update_column_profilers. cbn [c_name c_size c_profiles]. destruct (name_fits name_of (c_name c) b); [|exact N].
        destruct (c_profiles c) as [|x r]; [congruence|]. pose proof (next_run_spec b (x :: r)) as U. destruct (next_run step (x :: r) b) as [d' e']. destruct U as (_ & K & _). cbn [fst c_profiles]. destruct d'; [discriminate K|discriminate].
      - unfold update_column. destruct (size_of b =? 0); [exact H|]. unfold update_column_profilers. cbn [c_name c_size c_profiles]. destruct (name_fits name_of (c_name c) b); [|exact H].
        destruct (c_profiles c) as [|x r] eqn:EC; [congruence|]. pose proof (next_run_spec b (x :: r)) as U. destruct (next_run step (x :: r) b) as [d' e']. destruct U as (U & _). apply updated_keys in U.
        unfold kinds, profiles in *. cbn [fst c_profiles]. rewrite U. rewrite EC in H. exact H. }
    intros bs. apply G; [discriminate|]. rewrite KC. intros H. apply filter_In in H. destruct H as [H _]. cbn in H. intuition discriminate.
  Qed.

  (** ** Histories *)

  (** The state of a profile after batches that all worked. *)
  Definition fed (k : kind) (p : P) (bs : list B) : P := fold_left (fun p b => fst (step k p b)) bs p.

  (** If all updates work, each profile of the column is the one that results from its constructor and
      the batches in order; none influences another. *)
  Theorem C112_history b bs : (forall i c', i <= length bs -> fold_left (fun c b => fst (update c b)) (firstn i (b :: bs)) new_column = c' -> forall b', nth_error (b :: bs) i = Some b' -> snd (update c' b') = None) ->
    let c := fold_left (fun c b => fst (update c b)) (b :: bs) new_column in
    kinds c = filter made all_kinds /\
    forall k p, In (k, p) (profiles c) -> exists p0, make k = Ok p0 /\ p = fed k p0 (b :: bs).
  Proof.
    assert (forall l (c : column), kinds c = filter made all_kinds -> c_profiles c <> [] -> (forall i b', nth_error l i = Some b' -> snd (update (fold_left (fun c b => fst (update c b)) (firstn i l) c) b') = None) ->
      let c' := fold_left (fun c b => fst (update c b)) l c in
      kinds c' = filter made all_kinds /\ profiles c' = map (fun x => (fst x, fed (fst x) (snd x) l)) (profiles c)) as G.
    { induction l as [|b1 l IH]; intros c K N H; cbn [fold_left fed].
      - split; [exact K|]. rewrite <- (map_id (profiles c)) at 1. apply map_ext. intros [k p]. reflexivity.
      - pose proof (H 0 b1 eq_refl) as H0. cbn [firstn fold_left] in H0. destruct (update c b1) as [c1 e1] eqn:E1. cbn [snd fst] in *. subst e1.
        assert (c_name c = None \/ c_name c = name_of b1) as NM.
        { unfold update_column in E1. destruct (size_of b1 =? 0); [discriminate|]. unfold update_column_profilers in E1. cbn [c_name] in E1. unfold name_fits in E1. destruct (c_name c) as [x|]; [right|left; reflexivity]. destruct (name_of b1) as [y|]; [|discriminate]. destruct (String.eqb_spec x y) as [->|]; [reflexivity|discriminate]. }
        assert (0 < size_of b1) as SZ. { unfold update_column in E1. destruct (Nat.eqb_spec (size_of b1) 0); [discriminate|lia]. }
        destruct (C112_next c b1 c1 None N NM SZ E1) as (U & K1 & D1 & _ & _).
        destruct (IH c1) as [A A'].
        + rewrite K1. exact K.
        + intros Z. rewrite Z in D1. destruct (c_profiles c); [congruence|discriminate].
        + intros i b' Hi. specialize (H (S i) b' Hi). cbn [firstn fold_left] in H. rewrite E1 in H. exact H.
        + split; [exact A|]. rewrite A'. inversion U as [l0 S EQ1 EQ2|]; subst. rewrite map_map. apply map_ext. intros [k p]. reflexivity. }
    intros H. assert (snd (update new_column b) = None) as H0. { exact (H 0 new_column ltac:(lia) eq_refl b eq_refl). }
    intros c. destruct (update new_column b) as [c1 e1] eqn:E1. cbn [snd] in H0. subst e1. destruct (C112_first new_column b c1 eq_refl E1) as (K & F & _ & _ & _).
    assert (c_profiles c1 <> []) as N.
    { unfold update_column in E1. destruct (size_of b =? 0); [discriminate|]. unfold update_column_profilers in E1. cbn in E1. unfold first_run in E1.
      destruct (new_compiler make step o CTypes b) as [[ty w1]|]; [|discriminate]. destruct (new_compiler make step o CStats b) as [[st w2]|]; [|discriminate]. destruct (wanted o KLabeler); [destruct (new_compiler make step o CLabels b) as [[lb w3]|]; [|discriminate]|]; injection E1 as <-; discriminate. }
    destruct (G bs c1 K N) as [A A'].
    - intros i b' Hi. assert (i < length bs) as LI by (apply nth_error_Some; congruence). specialize (H (S i) _ ltac:(lia) eq_refl b' Hi). cbn [firstn fold_left] in H. rewrite E1 in H. exact H.
    - unfold c. cbn [fold_left]. rewrite E1. cbn [fst]. split; [exact A|]. intros k p I. rewrite A' in I. apply in_map_iff in I. destruct I as ([k0 p1] & X & I). cbn [fst snd] in X. injection X as -> <-.
      destruct (F k p1 I) as (p0 & M & S). exists p0. split; [exact M|]. cbn [fed fold_left]. rewrite S. reflexivity.
  Qed.

  (** ** Merging *)

  Lemma join_all_spec a b t : join_all join a b = Ok t -> map fst t = map fst a /\ forall k p, In (k, p) t -> exists x y, In (k, x) a /\ dget b k = Some y /\ join k x y = Ok p.
  Proof.
    revert t. induction a as [|[k x] r IH]; intros t E; cbn [join_all] in E; [injection E as <-; split; [reflexivity|intros ? ? []]|].
    destruct (dget b k) as [y|] eqn:D; [|discriminate]. destruct (join k x y) as [z|] eqn:J; cbn [bind] in E; [|discriminate]. destruct (join_all join r b) as [u|]; cbn [bind] in E; [|discriminate]. injection E as <-.
    destruct (IH u eq_refl) as [A A']. split; [cbn; f_equal; exact A|]. intros k' p [H|H]; [injection H as <- <-; exists x, y; split; [left; reflexivity|split; assumption]|].
    destruct (A' k' p H) as (x' & y' & I & D' & J'). exists x', y'. split; [right; exact I|split; assumption].
  Qed.

  Lemma add_compilers_spec a b t : add_compilers join a b = Ok t ->
    map fst t = map fst a /\ map fst (flat_map snd t) = map fst (flat_map snd a) /\
    forall c k p, forall z, In (c, z) t -> In (k, p) z -> exists xs ys x y, In (c, xs) a /\ dget b c = Some ys /\ In (k, x) xs /\ dget ys k = Some y /\ join k x y = Ok p.
  Proof.
    revert t. induction a as [|[c xs] r IH]; intros t E; cbn [add_compilers] in E; [injection E as <-; split; [reflexivity|split; [reflexivity|intros ? ? ? ? []]]|].
    destruct (dget b c) as [ys|] eqn:D; [|discriminate]. unfold add_compiler in E. destruct (same_keys xs ys) eqn:SK; cbn [bind] in E; [|discriminate].
    destruct (join_all join xs ys) as [z|] eqn:J; cbn [bind] in E; [|discriminate]. destruct (add_compilers join r b) as [u|]; cbn [bind] in E; [|discriminate]. injection E as <-.
    destruct (IH u eq_refl) as (A & A' & A''). destruct (join_all_spec _ _ _ J) as [B1 B2]. split; [cbn; f_equal; exact A|]. split; [cbn [flat_map snd]; rewrite !map_app, B1, A'; reflexivity|].
    intros c' k p z' [H|H] I.
    - injection H as <- <-. destruct (B2 k p I) as (x & y & I' & D' & J'). exists xs, ys, x, y. split; [left; reflexivity|]. repeat (split; [assumption|]). assumption.
    - destruct (A'' c' k p z' H I) as (xs' & ys' & x & y & H1 & H2). exists xs', ys', x, y. split; [right; exact H1|exact H2].
  Qed.

  (** A merged column has the kinds of the first in its order, each merged from the profiles of both,
      and the rows of both; both must have the same name, the same kinds of profiles and rows. *)
  Theorem C112_merge a b c : add a b = Ok c ->
    kinds c = kinds a /\ c_size c = c_size a + c_size b /\ c_name c = c_name a /\ c_name a = c_name b /\
    (forall m z k p, In (m, z) (c_profiles c) -> In (k, p) z -> exists xs ys x y, In (m, xs) (c_profiles a) /\ dget (c_profiles b) m = Some ys /\ In (k, x) xs /\ dget ys k = Some y /\ join k x y = Ok p).
  Proof.
    unfold add_column. intros E. destruct (same_name (c_name a) (c_name b)) eqn:SN; [|discriminate]. destruct (same_keys (c_profiles a) (c_profiles b)); [|discriminate]. destruct ((c_size a =? 0) || (c_size b =? 0)); [discriminate|].
    destruct (add_compilers join (c_profiles a) (c_profiles b)) as [d|] eqn:D; cbn [bind] in E; [|discriminate]. injection E as <-. destruct (add_compilers_spec _ _ _ D) as (A & A' & A'').
    unfold kinds, profiles. cbn [c_profiles c_size c_name]. split; [exact A'|]. split; [reflexivity|]. split; [reflexivity|]. split.
    - unfold same_name in SN. destruct (c_name a) as [x|], (c_name b) as [y|]; try discriminate; [|reflexivity]. apply String.eqb_eq in SN. subst y. reflexivity.
    - intros m z k p. apply A''.
  Qed.

  (** When merging is refused: other names, other compilers, no rows; or other kinds in a compiler. *)
  Theorem C112_merge_refused a b :
    (c_name a <> c_name b -> add a b = Err ValueError) /\
    (c_name a = c_name b -> (exists m, In m (dkeys (c_profiles a)) /\ ~ In m (dkeys (c_profiles b)) \/ In m (dkeys (c_profiles b)) /\ ~ In m (dkeys (c_profiles a))) -> add a b = Err ValueError) /\
    (c_name a = c_name b -> (forall m, In m (dkeys (c_profiles a)) <-> In m (dkeys (c_profiles b))) -> c_size a = 0 \/ c_size b = 0 -> add a b = Err ZeroDivisionError) /\
    (forall m xs ys r k, c_profiles a = (m, xs) :: r -> dget (c_profiles b) m = Some ys -> (In k (dkeys xs) /\ ~ In k (dkeys ys) \/ In k (dkeys ys) /\ ~ In k (dkeys xs)) ->
       0 < c_size a -> 0 < c_size b -> add a b = Err ValueError).
  Proof.
    assert (forall K V (E : EqDecB K) (x y : dict K V), same_keys x y = true <-> (forall k, In k (dkeys x) <-> In k (dkeys y))) as SK.
    { intros K V E x y. unfold same_keys. rewrite andb_true_iff, !forallb_forall. split.
      - intros [H1 H2] k. split; intros I; apply dmem_true; auto.
      - intros H. split; intros k I; apply dmem_true, H; exact I. }
    assert (forall n, same_name n n = true) as SNR by (intros [x|]; [apply String.eqb_refl|reflexivity]).
    refine (conj _ (conj _ (conj _ _))).
    - intros H. unfold add_column. destruct (same_name (c_name a) (c_name b)) eqn:SN; [|reflexivity]. exfalso. apply H. unfold same_name in SN. destruct (c_name a), (c_name b); try discriminate; [|reflexivity]. apply String.eqb_eq in SN. congruence.
    - intros H (m & HM). unfold add_column. rewrite H, SNR. destruct (same_keys (c_profiles a) (c_profiles b)) eqn:S; [|reflexivity]. exfalso. pose proof (proj1 (SK _ _ _ _ _) S m). tauto.
    - intros H HM Z. unfold add_column. rewrite H, SNR. rewrite (proj2 (SK _ _ _ _ _) HM). destruct Z as [->| ->]; [reflexivity|]. rewrite orb_true_r. reflexivity.
    - intros m xs ys r k EA DB HK ZA ZB. unfold add_column. destruct (same_name (c_name a) (c_name b)); [|reflexivity]. destruct (same_keys (c_profiles a) (c_profiles b)); [|reflexivity].
      replace (c_size a =? 0) with false by (symmetry; apply Nat.eqb_neq; lia). replace (c_size b =? 0) with false by (symmetry; apply Nat.eqb_neq; lia). cbn [orb]. rewrite EA. cbn [add_compilers]. rewrite DB. unfold add_compiler.
      destruct (same_keys xs ys) eqn:S; [|reflexivity]. exfalso. pose proof (proj1 (SK _ _ _ _ _) S k). tauto.
  Qed.
End Props.

(** ** Refuted expectations *)

(** Batches are numbers of rows; an order profile raises at 7 rows, the labeler at 9. *)
Definition ex_make (k : kind) : result nat := match k with KFloat => Err TypeError | _ => Ok 0 end.
Definition ex_step (k : kind) (p b : nat) : nat * option exn :=
  match k with
  | KOrder => if b =? 7 then (p, Some TypeError) else (p + b, None)
  | KLabeler => if b =? 9 then (p, Some TypeError) else (p + b, None)
  | _ => (p + b, None)
  end.
Definition ex_name (_ : nat) : option string := Some "x"%string.
Definition ex_update := update_column ex_make ex_step ex_name (fun b => b) None.

(** A failed update leaves the profile as it was: the types have counted the rows, the categories not. *)
Theorem C112_atomic_refuted : exists c c', fst (ex_update new_column 3) = c /\ ex_update c 7 = (c', Some TypeError) /\
  profiles c = [(KDatetime, 3); (KInt, 3); (KText, 3); (KOrder, 3); (KCategory, 3); (KLabeler, 3)] /\
  profiles c' = [(KDatetime, 10); (KInt, 10); (KText, 10); (KOrder, 3); (KCategory, 3); (KLabeler, 3)] /\ c_size c' = 10.
Proof. eexists. eexists. split; [reflexivity|]. split; [vm_compute; reflexivity|]. split; [vm_compute; reflexivity|]. split; vm_compute; reflexivity. Qed.

(** A column that options ask to label gets a profile for labels: not after a first failure. *)
Theorem C112_labels_refuted : exists c c', ex_update new_column 9 = (c, Some TypeError) /\ ex_update c 3 = (c', None) /\
  kinds c' = [KDatetime; KInt; KText; KOrder; KCategory].
Proof. eexists. eexists. split; [vm_compute; reflexivity|]. split; vm_compute; reflexivity. Qed.

(** ** Example: what the options ask for, constructors that fail, a merge *)
Example C112_example :
  let o := Some (fun k => match k with KText | KLabeler => false | _ => true end) in
  let u := update_column ex_make ex_step ex_name (fun b => b) o in
  let '(c, e) := u (fst (u new_column 3)) 4 in
  e = None /\ profiles c = [(KDatetime, 7); (KInt, 7); (KOrder, 7); (KCategory, 7)] /\
  match add_column (fun _ x y => Ok (x + y)) c c with Ok m => profiles m = [(KDatetime, 14); (KInt, 14); (KOrder, 14); (KCategory, 14)] /\ c_size m = 14 | Err _ => False end /\
  add_column (fun _ x y => Ok (x + y)) c (fst (ex_update new_column 3)) = Err ValueError.
Proof. vm_compute. repeat split. Qed.

Print Assumptions C112_first.
Print Assumptions C112_value_error.
Print Assumptions C112_next.
Print Assumptions C112_name.
Print Assumptions C112_first_failed.
Print Assumptions C112_history.
Print Assumptions C112_merge.
Print Assumptions C112_merge_refused.
