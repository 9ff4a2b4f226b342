(** Properties of which cells count as null. *)
From Coq Require Import Arith List Bool Lia Ascii.
From Coq Require String.
From Verif Require Import PyCommon PyDict PyString NullCellModel.
Local Delimit Scope string_scope with string.
Import ListNotations.
Local Open Scope list_scope.

(** ** Vocabulary: what a regular expression matches *)
(** One character: a letter in either case, or for the dot anything but a line break. *)
Definition fits (i : item) (c : char) : Prop :=
  match i with
  | Lit d => lower_ascii c = lower_ascii d
  | Any => Ascii.nat_of_ascii c <> 10
  end.

Inductive lang : list piece -> list char -> Prop :=
| L_nil : lang [] []
| L_one : forall i c p s, fits i c -> lang p s -> lang ((i, false) :: p) (c :: s)
| L_skip : forall i p s, lang p s -> lang ((i, true) :: p) s
| L_more : forall i c p s, fits i c -> lang ((i, true) :: p) s -> lang ((i, true) :: p) (c :: s).

(** With or without a line break at the end. *)
Definition upto_break (P : list char -> Prop) (cell : string) : Prop :=
  P (chars cell) \/ exists s, chars cell = s ++ [newline] /\ P s.

(** Two texts that differ in the case of letters only. *)
Definition same_letters (a b : list char) : Prop := map lower_ascii a = map lower_ascii b.

Lemma item_fits i c : item_ok i c = true <-> fits i c.
Proof.
  destruct i as [d|]; cbn [item_ok fits]; [apply Ascii.eqb_eq|].
  rewrite negb_true_iff, Ascii.eqb_neq. unfold newline. split; intros H E; apply H.
  - rewrite <- E. symmetry. apply Ascii.ascii_nat_embedding.
  - rewrite E. reflexivity.
Qed.

Lemma full_lang p : forall s, full p s = true <-> lang p s.
Proof.
  induction p as [|[i [|]] p IH]; intro s.
  - cbn [full]. destruct s; split; intro H; try constructor; try discriminate; inversion H.
  - cbn [full]. induction s as [|c s IHs].
    + rewrite orb_false_r, IH. split; intro H; [constructor; exact H|]. inversion H; subst. assumption.
    + rewrite orb_true_iff, andb_true_iff, IHs, IH, item_fits. split.
      * intros [H|[H1 H2]]; [apply L_skip; exact H|apply L_more; assumption].
      * intro H. inversion H; subst; [left; assumption|right; split; assumption].
  - cbn [full]. destruct s as [|c s].
    + split; intro H; [discriminate|inversion H].
    + rewrite andb_true_iff, IH, item_fits. split; [intros [A B]; constructor; assumption|].
      intro H. inversion H; subst. split; assumption.
Qed.

Lemma chomp_spec s t : chomp s = Some t <-> s = t ++ [newline].
Proof.
  unfold chomp. split.
  - destruct (rev s) as [|c r] eqn:E; [discriminate|].
    destruct (Ascii.eqb_spec c newline) as [->|]; [|discriminate]. intro H. injection H as <-.
    rewrite <- (rev_involutive s), E. reflexivity.
  - intros ->. rewrite rev_app_distr. cbn [rev app]. rewrite Ascii.eqb_refl, rev_involutive. reflexivity.
Qed.

Lemma anchored_spec alts cell : anchored alts (chars cell) = true <->
  exists p, In p alts /\ upto_break (lang p) cell.
Proof.
  unfold anchored, upto_break. rewrite existsb_exists. split; intros (p & Hp & H); exists p; (split; [exact Hp|]).
  - apply orb_true_iff in H. destruct H as [H|H]; [left; apply full_lang; exact H|].
    destruct (chomp (chars cell)) as [s|] eqn:E; [|discriminate]. apply chomp_spec in E. right. exists s.
    split; [exact E|apply full_lang; exact H].
  - apply orb_true_iff. destruct H as [H|(s & E & H)]; [left; apply full_lang; exact H|]. right.
    apply chomp_spec in E. rewrite E. apply full_lang. exact H.
Qed.

(** ** Joining patterns *)
Lemma parse_shape s : (exists a l, parse s = Ok (a :: l)) \/ parse s = Err GenericException.
Proof.
  remember (length s) as n eqn:E. assert (L : length s <= n) by lia. clear E.
  revert s L. induction n as [n IH] using lt_wf_ind. intros s L.
  destruct s as [|c r]; [left; cbn; eauto|]. cbn [parse].
  assert (Hr : (exists a l, parse r = Ok (a :: l)) \/ parse r = Err GenericException).
  { apply (IH (length r)); cbn [length] in L; lia. }
  destruct (Ascii.eqb c "|"%char).
  { destruct Hr as [(a & l & ->)| ->]; cbn [bind]; [left; eauto|right; reflexivity]. }
  destruct (Ascii.eqb c "*"%char); [right; reflexivity|].
  destruct r as [|c' r']; [left; eauto|].
  destruct (Ascii.eqb c' "*"%char).
  - assert (Hr' : (exists a l, parse r' = Ok (a :: l)) \/ parse r' = Err GenericException).
    { apply (IH (length r')); cbn [length] in L; lia. }
    destruct Hr' as [(a & l & ->)| ->]; cbn [bind]; [left; eauto|right; reflexivity].
  - destruct Hr as [(a & l & ->)| ->]; cbn [bind]; [left; eauto|right; reflexivity].
Qed.

Lemma parse_or a b : parse (a ++ "|"%char :: b) =
  bind (parse a) (fun x => bind (parse b) (fun y => Ok (x ++ y))).
Proof.
  remember (length a) as n eqn:E. assert (L : length a <= n) by lia. clear E.
  revert a L. induction n as [n IH] using lt_wf_ind. intros a L.
  destruct a as [|c r].
  { cbn [app]. cbn [parse Ascii.eqb Bool.eqb]. destruct (parse b) as [y|e]; reflexivity. }
  assert (Hr : parse (r ++ "|"%char :: b) = bind (parse r) (fun x => bind (parse b) (fun y => Ok (x ++ y)))).
  { apply (IH (length r)); cbn [length] in L; lia. }
  cbn [app parse]. destruct (Ascii.eqb c "|"%char).
  { rewrite Hr. destruct (parse r) as [x|e]; [|reflexivity]. cbn [bind]. destruct (parse b); reflexivity. }
  destruct (Ascii.eqb c "*"%char); [reflexivity|].
  destruct r as [|c' r'].
  { cbn [app]. cbn [Ascii.eqb Bool.eqb].
    cbn [app] in Hr. rewrite Hr. cbn [parse bind]. destruct (parse b) as [y|e]; reflexivity. }
  cbn [app]. destruct (Ascii.eqb c' "*"%char) eqn:E'.
  - rewrite (IH (length r') ltac:(cbn [length] in L; lia) r' (Nat.le_refl _)).
    destruct (parse_shape r') as [(x & l & ->)| ->]; [|reflexivity]. cbn [bind]. destruct (parse b); reflexivity.
  - change (c' :: r' ++ "|"%char :: b) with ((c' :: r') ++ "|"%char :: b). rewrite Hr.
    destruct (parse_shape (c' :: r')) as [(x & l & ->)| ->]; [|reflexivity]. cbn [bind]. destruct (parse b); reflexivity.
Qed.

Lemma join_ok l : l <> [] -> (forall x, In x l -> exists a, parse x = Ok a) ->
  exists alts, parse (join l) = Ok alts /\
    forall p, In p alts <-> exists x a, In x l /\ parse x = Ok a /\ In p a.
Proof.
  induction l as [|x [|y r] IH]; [congruence| |]; intros _ H.
  - destruct (H x (or_introl eq_refl)) as (a & E). exists a. cbn [join]. split; [exact E|].
    intro p. split; [intro P; exists x, a; cbn; auto|]. intros (x' & a' & [<-|[]] & E' & P). congruence.
  - destruct (H x (or_introl eq_refl)) as (a & E).
    destruct IH as (alts & E1 & E2); [discriminate|intros z Hz; apply H; right; exact Hz|].
    exists (a ++ alts). change (join (x :: y :: r)) with (x ++ "|"%char :: join (y :: r)).
    rewrite parse_or, E, E1. split; [reflexivity|]. intro p. rewrite in_app_iff, E2. split.
    + intros [P|(z & b & Hz & Ez & P)]; [exists x, a; cbn; auto|exists z, b; split; [right; exact Hz|auto]].
    + intros (z & b & [<-|Hz] & Ez & P); [left; congruence|right; exists z, b; auto].
Qed.

Lemma join_err l x : In x l -> parse x = Err GenericException -> parse (join l) = Err GenericException.
Proof.
  induction l as [|y [|z r] IH]; [intros []| |]; intros Hx E.
  - destruct Hx as [->|[]]. exact E.
  - change (join (y :: z :: r)) with (y ++ "|"%char :: join (z :: r)). rewrite parse_or.
    destruct Hx as [->|Hx]; [rewrite E; reflexivity|]. rewrite (IH Hx E).
    destruct (parse_shape y) as [(a & b & ->)| ->]; reflexivity.
Qed.

(** ** C92 *)
(** The cells that are null are those that one of the patterns matches as a whole, in any case of
    letters, a line break at the end left aside. *)
Theorem C92_alternatives : forall f cells bs, dkeys f <> [] -> cells_null f cells = Ok bs ->
  Forall2 (fun cell b => b = true <->
    exists k alts p, In k (dkeys f) /\ parse (chars k) = Ok alts /\ In p alts /\ upto_break (lang p) cell) cells bs.
Proof.
  intros f cells bs Hne H. unfold cells_null in H.
  destruct (parse (join (map chars (dkeys f)))) as [alts|] eqn:E; [|discriminate]. cbn [bind] in H.
  injection H as <-.
  destruct (join_ok (map chars (dkeys f))) as (alts' & E1 & E2).
  { destruct (dkeys f); [congruence|discriminate]. }
  { intros x Hx. destruct (parse_shape x) as [(a & l & Ex)|Ex]; [eauto|].
    rewrite (join_err _ x Hx Ex) in E. discriminate. }
  rewrite E in E1. injection E1 as <-.
  induction cells as [|c r IH]; cbn [map]; constructor; [|exact IH].
  rewrite anchored_spec. split.
  - intros (p & Hp & Hc). apply E2 in Hp. destruct Hp as (x & a & Hx & Ex & Hp).
    apply in_map_iff in Hx. destruct Hx as (k & <- & Hk). exists k, a, p. auto.
  - intros (k & a & p & Hk & Ek & Hp & Hc). exists p. split; [|exact Hc]. apply E2. exists (chars k), a.
    split; [apply in_map; exact Hk|auto].
Qed.
Print Assumptions C92_alternatives.

(** One pattern that is no regular expression is an error for every table, also an empty one. *)
Theorem C92_error : forall f cells e, cells_null f cells = Err e <->
  e = GenericException /\ exists k, In k (dkeys f) /\ parse (chars k) = Err GenericException.
Proof.
  intros f cells e. unfold cells_null. split.
  - intro H. destruct (parse (join (map chars (dkeys f)))) as [alts|e'] eqn:E; [discriminate|]. cbn [bind] in H.
    injection H as <-.
    assert (Ee : e' = GenericException).
    { destruct (parse_shape (join (map chars (dkeys f)))) as [(a & l & X)|X]; rewrite X in E; congruence. }
    split; [exact Ee|].
    destruct (existsb (fun k => match parse (chars k) with Err _ => true | Ok _ => false end) (dkeys f)) eqn:B.
    + apply existsb_exists in B. destruct B as (k & Hk & Bk). exists k. split; [exact Hk|].
      destruct (parse_shape (chars k)) as [(a & l & X)|X]; rewrite X in *; [discriminate|reflexivity].
    + exfalso. destruct (dkeys f) as [|k0 ks] eqn:Ef; [cbn in E; discriminate|].
      destruct (join_ok (map chars (k0 :: ks))) as (alts & X & _); [discriminate| |congruence].
      intros x Hx. apply in_map_iff in Hx. destruct Hx as (k & <- & Hk).
      destruct (parse_shape (chars k)) as [(a & l & Y)|Y]; [eauto|]. exfalso.
      assert (T : existsb (fun k => match parse (chars k) with Err _ => true | Ok _ => false end) (k0 :: ks) = true).
      { apply existsb_exists. exists k. rewrite Y. auto. }
      congruence.
  - intros (-> & k & Hk & Ek). rewrite (join_err _ (chars k) (in_map chars _ _ Hk) Ek). reflexivity.
Qed.
Print Assumptions C92_error.

(** ** Words *)
Definition word (k : string) : Prop :=
  forall c, In c (chars k) -> c <> "|"%char /\ c <> "*"%char /\ c <> "."%char.

Lemma parse_word w : (forall c, In c w -> c <> "|"%char /\ c <> "*"%char /\ c <> "."%char) ->
  parse w = Ok [map (fun c => (Lit c, false)) w].
Proof.
  induction w as [|c r IH]; intro H; [reflexivity|]. cbn [parse map].
  destruct (H c (or_introl eq_refl)) as (A & B & C).
  rewrite (proj2 (Ascii.eqb_neq _ _) A), (proj2 (Ascii.eqb_neq _ _) B), (proj2 (Ascii.eqb_neq _ _) C).
  assert (IH' := IH (fun x Hx => H x (or_intror Hx))).
  destruct r as [|c' r']; [reflexivity|].
  destruct (H c' (or_intror (or_introl eq_refl))) as (_ & B' & _). rewrite (proj2 (Ascii.eqb_neq _ _) B').
  rewrite IH'. reflexivity.
Qed.

Lemma lang_word w : forall s, lang (map (fun c => (Lit c, false)) w) s <-> same_letters s w.
Proof.
  unfold same_letters. induction w as [|c w IH]; intro s; cbn [map].
  - split; intro H; [inversion H; reflexivity|]. destruct s; [constructor|discriminate].
  - split; intro H.
    + inversion H as [|? ? ? ? Hi Hl| |]; subst. cbn [fits] in Hi. cbn [map].
      f_equal; [exact Hi|]. apply IH. exact Hl.
    + destruct s as [|d s]; [discriminate|]. cbn [map] in H. injection H as A B. constructor.
      * exact A.
      * apply IH. exact B.
Qed.

(** Null values that are words (no star, dot or bar): null are exactly the cells with one of the
    words, in any case of letters. *)
Theorem C92_words : forall f cells, dkeys f <> [] -> (forall k, In k (dkeys f) -> word k) ->
  exists bs, cells_null f cells = Ok bs /\
    Forall2 (fun cell b => b = true <-> exists k, In k (dkeys f) /\ upto_break (fun s => same_letters s (chars k)) cell)
      cells bs.
Proof.
  intros f cells Hne Hw. destruct (cells_null f cells) as [bs|e] eqn:E.
  2:{ apply C92_error in E. destruct E as (_ & k & Hk & Ek). rewrite (parse_word _ (Hw k Hk)) in Ek. discriminate. }
  exists bs. split; [reflexivity|]. pose proof (C92_alternatives f cells bs Hne E) as H.
  clear E. induction H as [|c b cells bs Hb _ IH]; constructor; [|exact IH]. rewrite Hb.
  assert (L : forall k p, In k (dkeys f) -> parse (chars k) = Ok [p] -> forall s, lang p s <-> same_letters s (chars k)).
  { intros k p Hk Ep s. rewrite (parse_word _ (Hw k Hk)) in Ep. injection Ep as <-. apply lang_word. }
  split.
  - intros (k & alts & p & Hk & Ek & Hp & Hc). exists k. split; [exact Hk|].
    rewrite (parse_word _ (Hw k Hk)) in Ek. injection Ek as <-. destruct Hp as [<-|[]].
    unfold upto_break in *. destruct Hc as [Hc|(s & Es & Hc)].
    + left. apply lang_word. exact Hc.
    + right. exists s. split; [exact Es|]. apply lang_word. exact Hc.
  - intros (k & Hk & Hc). exists k. eexists _, _. split; [exact Hk|]. rewrite (parse_word _ (Hw k Hk)).
    split; [reflexivity|]. split; [left; reflexivity|]. unfold upto_break in *.
    destruct Hc as [Hc|(s & Es & Hc)].
    + left. apply lang_word. exact Hc.
    + right. exists s. split; [exact Es|]. apply lang_word. exact Hc.
Qed.
Print Assumptions C92_words.

(** ** The default null values *)
Lemma lower_fixed c d : In d [" "; "-"; "_"]%char -> lower_ascii c = lower_ascii d -> c = d.
Proof.
  intros H E. destruct c as [[] [] [] [] [] [] [] []];
    (destruct H as [<-|[<-|[<-|[]]]]; vm_compute in E; try discriminate E; reflexivity).
Qed.

Lemma lang_star d s : In d [" "; "-"; "_"]%char -> (lang [(Lit d, true)] s <-> exists n, s = repeat d n).
Proof.
  intro Hd. split.
  - intro H. remember [(Lit d, true)] as p eqn:Ep. induction H; try discriminate Ep.
    + injection Ep as -> ->. inversion H; subst. exists 0. reflexivity.
    + injection Ep as -> ->. destruct (IHlang eq_refl) as (n & ->). exists (S n). cbn [repeat]. f_equal.
      cbn [fits] in H. apply lower_fixed; assumption.
  - intros (n & ->). induction n as [|n IH]; cbn [repeat]; [apply L_skip; constructor|].
    apply L_more; [reflexivity|exact IH].
Qed.

Lemma lang_run d s : In d [" "; "-"; "_"]%char ->
  (lang [(Lit d, false); (Lit d, true)] s <-> exists n, s = repeat d (S n)).
Proof.
  intro Hd. split.
  - intro H. inversion H as [|? ? ? ? Hi Hl| |]; subst. cbn [fits] in Hi.
    apply lower_fixed in Hi; [|exact Hd]. subst. apply (lang_star d _ Hd) in Hl. destruct Hl as (n & ->).
    exists n. reflexivity.
  - intros (n & ->). cbn [repeat]. constructor; [reflexivity|].
    apply lang_star; [exact Hd|eauto].
Qed.

(** By default null are exactly: empty cells, "nan", "none" and "null" in any case of letters, and
    cells that consist of spaces, of hyphens or of underscores; each of them also with a line break
    at the end. *)
Definition default_null (s : list char) : Prop :=
  s = [] \/ (exists w, In w ["nan"; "none"; "null"]%string /\ same_letters s (chars w)) \/
  exists d n, In d [" "; "-"; "_"]%char /\ s = repeat d (S n).

Theorem C92_default : forall cells, exists bs, cells_null default_nulls cells = Ok bs /\
  Forall2 (fun cell b => b = true <-> upto_break default_null cell) cells bs.
Proof.
  intro cells. unfold cells_null.
  set (W := fun w => map (fun c => (Lit c, false)) (chars w) : list piece).
  set (R := fun d : char => [(Lit d, false); (Lit d, true)] : list piece).
  assert (E : parse (join (map chars (dkeys default_nulls))) =
    Ok [[]; W "nan"%string; W "none"%string; W "null"%string; R " "%char; R "-"%char; R "_"%char]) by (vm_compute; reflexivity).
  rewrite E. cbn [bind]. eexists. split; [reflexivity|].
  induction cells as [|c r IH]; cbn [map]; constructor; [|exact IH].
  rewrite anchored_spec.
  assert (K : forall s, (exists p, In p [[]; W "nan"%string; W "none"%string; W "null"%string; R " "%char; R "-"%char; R "_"%char] /\ lang p s)
                        <-> default_null s).
  { intro s. unfold default_null. split.
    - intros (p & Hp & Hl). cbn [In] in Hp.
      destruct Hp as [<-|[<-|[<-|[<-|[<-|[<-|[<-|[]]]]]]]].
      + left. inversion Hl. reflexivity.
      + right. left. exists "nan"%string. split; [cbn; auto|]. apply lang_word. exact Hl.
      + right. left. exists "none"%string. split; [cbn; auto|]. apply lang_word. exact Hl.
      + right. left. exists "null"%string. split; [cbn; auto|]. apply lang_word. exact Hl.
      + right. right. apply lang_run in Hl; [|cbn; auto]. destruct Hl as (n & ->). exists " "%char, n. cbn; auto.
      + right. right. apply lang_run in Hl; [|cbn; auto]. destruct Hl as (n & ->). exists "-"%char, n. cbn; auto.
      + right. right. apply lang_run in Hl; [|cbn; auto]. destruct Hl as (n & ->). exists "_"%char, n. cbn; auto.
    - intros [->|[(w & Hw & H)|(d & n & Hd & ->)]].
      + exists []. split; [left; reflexivity|constructor].
      + exists (W w). split; [|apply lang_word; exact H].
        destruct Hw as [<-|[<-|[<-|[]]]]; cbn [In]; tauto.
      + exists (R d). split; [|apply lang_run; [exact Hd|eauto]].
        destruct Hd as [<-|[<-|[<-|[]]]]; cbn [In]; tauto. }
  unfold upto_break. split.
  - intros (p & Hp & [Hl|(s & Es & Hl)]); [left; apply K; eauto|right; exists s; split; [exact Es|apply K; eauto]].
  - intros [H|(s & Es & H)]; apply K in H; destruct H as (p & Hp & Hl); exists p; (split; [exact Hp|]); [left|right]; eauto.
Qed.
Print Assumptions C92_default.

(** ** Flags and columns *)
(** Only which patterns are given matters, neither their flags nor their order. *)
Theorem C92_flags : forall f g cells bs, (forall k, In k (dkeys f) <-> In k (dkeys g)) ->
  cells_null f cells = Ok bs -> cells_null g cells = Ok bs.
Proof.
  intros f g cells bs HK H.
  destruct (cells_null g cells) as [bs'|e] eqn:Eg.
  2:{ exfalso. apply C92_error in Eg. destruct Eg as (_ & k & Hk & Ek).
      assert (X : cells_null f cells = Err GenericException).
      { apply C92_error. split; [reflexivity|]. exists k. split; [apply HK; exact Hk|exact Ek]. }
      congruence. }
  f_equal. destruct (dkeys f) as [|k0 ks] eqn:Ef.
  - assert (Eg0 : dkeys g = []).
    { destruct (dkeys g) as [|k r]; [reflexivity|]. exfalso. apply (proj2 (HK k)). left. reflexivity. }
    unfold cells_null in *. rewrite Ef in H. rewrite Eg0 in Eg. congruence.
  - assert (Nf : dkeys f <> []) by (rewrite Ef; discriminate).
    assert (Ng : dkeys g <> []).
    { intro X. rewrite X in HK. apply (proj1 (HK k0)). left. reflexivity. }
    pose proof (C92_alternatives f cells bs Nf H) as A. pose proof (C92_alternatives g cells bs' Ng Eg) as B.
    clear H Eg. revert bs' B. induction A as [|c b cells bs Hb _ IH]; intros bs' B; inversion B; subst; [reflexivity|].
    f_equal; [|apply IH; assumption]. apply Bool.eq_iff_eq_true. rewrite Hb, H1. rewrite Ef.
    split; intros (k & a & p & Hk & R); exists k, a, p; (split; [apply HK; exact Hk|exact R]).
Qed.
Print Assumptions C92_flags.

Lemma In_dkeys_dupdate (d e : flags) k : In k (dkeys (dupdate d e)) <-> In k (dkeys d) \/ In k (dkeys e).
Proof.
  unfold dupdate. revert d. induction e as [|[k' v] r IH]; intro d; cbn [fold_left].
  - cbn. tauto.
  - rewrite IH, In_dkeys_dset. cbn [fst snd dkeys map In]. fold (dkeys r). intuition congruence.
Qed.

(** The null values of a column extend the general ones; a table in another order adds those of the
    column whose position it takes, and a merged profile uses those of the position only. *)
Theorem C92_columns : forall o i pos k,
  let base := match o_nulls o with Some f => dkeys f | None => dkeys default_nulls end in
  (In k (dkeys (nulls_used o (Some i) pos)) <->
   In k base \/ In k (dkeys (of_column o i)) \/ In k (dkeys (of_column o pos))) /\
  (In k (dkeys (nulls_used o None pos)) <-> In k base \/ In k (dkeys (of_column o pos))).
Proof.
  intros o i pos k base. unfold nulls_used, own_nulls, base. rewrite !In_dkeys_dupdate.
  destruct (o_nulls o); tauto.
Qed.
Print Assumptions C92_columns.

(** ** Refuted expectations *)
(** A null value without the flag for case is not looked for as it is written. *)
Theorem C92_case_refuted : ~ forall f cells bs, dkeys f <> [] ->
  (forall k v, In (k, v) f -> v = 0 /\ word k) -> cells_null f cells = Ok bs ->
  Forall2 (fun cell b => b = true -> exists k, In k (dkeys f) /\ upto_break (eq (chars k)) cell) cells bs.
Proof.
  intro H. specialize (H [("NA", 0)]%string ["na"]%string [true] ltac:(discriminate)).
  assert (W : forall k v, In (k, v) [("NA"%string, 0)] -> v = 0 /\ word k).
  { intros k v [E|[]]. injection E as <- <-. split; [reflexivity|].
    intros c Hc. cbn in Hc. destruct Hc as [<-|[<-|[]]]; repeat split; discriminate. }
  specialize (H W ltac:(vm_compute; reflexivity)). inversion H as [|? ? ? ? Hb _]; subst. clear H.
  destruct (Hb eq_refl) as (k & [<-|[]] & [X|(s & X & E)]); [discriminate X|].
  rewrite <- E in X. vm_compute in X. discriminate X.
Qed.

(** Without any null value empty cells still count as null. *)
Theorem C92_none_refuted : ~ forall cells bs, cells_null [] cells = Ok bs -> Forall (eq false) bs.
Proof.
  intro H. specialize (H [""]%string [true] ltac:(vm_compute; reflexivity)). inversion H. discriminate.
Qed.
Theorem C92_none : forall cells, exists bs, cells_null [] cells = Ok bs /\
  Forall2 (fun cell b => b = true <-> upto_break (eq []) cell) cells bs.
Proof.
  intro cells. unfold cells_null. cbn [dkeys map join parse bind]. eexists. split; [reflexivity|].
  induction cells as [|c r IH]; cbn [map]; constructor; [|exact IH]. rewrite anchored_spec. unfold upto_break. split.
  - intros (p & [<-|[]] & [H|(s & E & H)]); [left; inversion H; reflexivity|right; exists s; inversion H; subst; auto].
  - intros H. exists []. split; [left; reflexivity|].
    destruct H as [H|(s & E & H)]; [left; rewrite <- H; constructor|right; exists s; rewrite <- H; split; [rewrite E, <- H; reflexivity|constructor]].
Qed.
Print Assumptions C92_none.

(** Adding a null value can make cells not null that were. *)
Theorem C92_more_refuted : ~ forall f k v cell, cells_null f [cell] = Ok [true] ->
  parse (chars k) <> Err GenericException -> cells_null (dset f k v) [cell] = Ok [true].
Proof.
  intro H. specialize (H [] "x"%string 0 ""%string ltac:(vm_compute; reflexivity) ltac:(vm_compute; discriminate)).
  vm_compute in H. discriminate H.
Qed.
Theorem C92_more : forall f k v cell, dkeys f <> [] -> cells_null f [cell] = Ok [true] ->
  parse (chars k) <> Err GenericException -> cells_null (dset f k v) [cell] = Ok [true].
Proof.
  intros f k v cell Hne H Hk.
  assert (Hne' : dkeys (dset f k v) <> []).
  { intro X. assert (K : In k (dkeys (dset f k v))) by (apply In_dkeys_dset; auto). rewrite X in K. destruct K. }
  destruct (cells_null (dset f k v) [cell]) as [bs|e] eqn:E.
  - pose proof (C92_alternatives _ _ _ Hne' E) as A. pose proof (C92_alternatives _ _ _ Hne H) as B.
    inversion A as [|? b ? bs' Hb T]; subst. inversion T; subst. inversion B as [|? ? ? ? Hb' _]; subst.
    destruct (proj1 Hb' eq_refl) as (k' & a & p & Hk' & R). f_equal. f_equal.
    apply Hb. exists k', a, p. split; [|exact R]. apply In_dkeys_dset. auto.
  - exfalso. apply C92_error in E. destruct E as (_ & k' & Hk' & Ek). apply In_dkeys_dset in Hk'.
    destruct Hk' as [Hk'|Hk'].
    + subst. contradiction.
    + assert (X : cells_null f [cell] = Err GenericException); [|congruence].
      apply C92_error. split; [reflexivity|]. exists k'. auto.
Qed.
Print Assumptions C92_more.

(** A null value is a regular expression: "n.a" also stands for other cells. *)
Theorem C92_literal_refuted : ~ forall k cell bs, cells_null [(k, 0)] [cell] = Ok bs ->
  bs = [true] -> upto_break (fun s => same_letters s (chars k)) cell.
Proof.
  intro H. specialize (H "n.a"%string "nba"%string [true] ltac:(vm_compute; reflexivity) eq_refl).
  destruct H as [H|(s & E & _)]; [vm_compute in H; discriminate H|].
  change (chars "nba"%string) with (["n"; "b"] ++ ["a"])%char in E. apply app_inj_tail in E. destruct E as [_ E].
  vm_compute in E. discriminate E.
Qed.

Example C92_example :
  cells_null default_nulls ["NaN"; "3"; ""; "   "; "--"; "-_"; "no"; "NULL"]%string =
    Ok [true; false; true; true; true; false; false; true] /\
  let o := mkOpts None (Some [(1, [("n/a"%string, 0)])]) in
  cells_null (nulls_used o (Some 1) 1) ["N/A"; "nan"; "x"]%string = Ok [true; true; false] /\
  cells_null (nulls_used o (Some 0) 0) ["N/A"; "nan"; "x"]%string = Ok [false; true; false].
Proof. vm_compute. repeat split; reflexivity. Qed.
