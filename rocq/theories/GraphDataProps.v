(** C79: graphs read from tables of edges *)
From Coq Require Import ZArith QArith Permutation Lia.
From Coq Require String Ascii.
From Verif Require Import PyCommon PyDict PyString ListFacts CmsProps SaveProps JsonSaveProps OptionsModel OptionsProps GraphModel GraphProps GraphDataModel.
Local Open Scope nat_scope.
Local Open Scope string_scope.
Local Open Scope list_scope.

(** Spec.  The node a text names: a number if it consists of digits, else the text. *)
Inductive digits : string -> nat -> Prop :=
| digits_one : forall c n, n <= 9 -> c = Ascii.ascii_of_nat (48 + n) -> digits (String.String c String.EmptyString) n
| digits_more : forall s c m n, digits s m -> n <= 9 -> c = Ascii.ascii_of_nat (48 + n) -> digits (String.append s (String.String c String.EmptyString)) (10 * m + n).
Definition names_node (s : string) (n : node) : Prop :=
  (exists k, digits s k /\ n = NInt k) \/ ((forall k, ~ digits s k) /\ s <> "" /\ n = NStr s).

Lemma digit_range : forall c, digit c = true -> exists n, n <= 9 /\ c = Ascii.ascii_of_nat (48 + n) /\ Ascii.nat_of_ascii c - 48 = n.
Proof.
  intros c H. unfold digit in H. apply andb_prop in H. destruct H as (H1 & H2). apply Nat.leb_le in H1, H2.
  exists (Ascii.nat_of_ascii c - 48). split; [lia|]. split; [|reflexivity]. replace (48 + (Ascii.nat_of_ascii c - 48)) with (Ascii.nat_of_ascii c) by lia.
  symmetry. apply Ascii.ascii_nat_embedding.
Qed.
Lemma digit_of : forall n, n <= 9 -> digit (Ascii.ascii_of_nat (48 + n)) = true /\ Ascii.nat_of_ascii (Ascii.ascii_of_nat (48 + n)) - 48 = n.
Proof. intros n H. unfold digit. rewrite Ascii.nat_ascii_embedding by lia. split; [apply andb_true_intro; split; apply Nat.leb_le; lia|lia]. Qed.
Lemma append_assoc : forall a b c, String.append (String.append a b) c = String.append a (String.append b c).
Proof. induction a as [|x a IH]; intros b c; cbn; [reflexivity|]. rewrite IH. reflexivity. Qed.
Lemma append_nil : forall a, String.append a "" = a.
Proof. induction a as [|x a IH]; cbn; [reflexivity|]. rewrite IH. reflexivity. Qed.
Lemma all_digits_app : forall a b, all_digits (String.append a b) = (all_digits a && all_digits b)%bool.
Proof. induction a as [|x a IH]; intros b; cbn; [reflexivity|]. rewrite IH, Bool.andb_assoc. reflexivity. Qed.
Lemma value_app : forall a b acc, value acc (String.append a b) = value (value acc a) b.
Proof. induction a as [|x a IH]; intros b acc; cbn; [reflexivity|]. apply IH. Qed.
Lemma digits_all : forall s k, digits s k -> all_digits s = true /\ value 0 s = k /\ s <> "".
Proof.
  intros s k H. induction H as [c n L ->|s c m n H IH L ->].
  - destruct (digit_of n L) as (D & V). cbn [all_digits value]. rewrite D, V. repeat split; discriminate || (cbn; lia).
  - destruct IH as (A & V & NE). destruct (digit_of n L) as (D & W). rewrite all_digits_app, value_app, A, V. cbn [all_digits value].
    rewrite D, W. repeat split. destruct s; discriminate.
Qed.
Lemma all_digits_digits : forall s, all_digits s = true -> forall p m, digits p m -> digits (String.append p s) (value m s).
Proof.
  induction s as [|c s IH]; intros H p m D.
  - rewrite append_nil. exact D.
  - cbn [all_digits] in H. apply andb_prop in H. destruct H as (H1 & H2). destruct (digit_range c H1) as (n & L & E & V). cbn [value]. rewrite V.
    change (String.String c s) with (String.append (String.String c String.EmptyString) s). rewrite <- append_assoc. apply IH; [exact H2|].
    apply digits_more; assumption.
Qed.
Lemma check_spec : forall s n, check_integer s = Ok n <-> names_node s n.
Proof.
  intros s n. unfold check_integer, names_node. destruct s as [|c s].
  - split; [discriminate|]. intros [(k & D & _) | (_ & X & _)]; [|congruence]. apply digits_all in D. destruct D as (_ & _ & X). congruence.
  - assert (A : all_digits (String.String c s) = true -> digits (String.String c s) (value 0 (String.String c s))).
    { cbn [all_digits value]. intros H. apply andb_prop in H. destruct H as (H1 & H2). destruct (digit_range c H1) as (d & L & E & V). rewrite V.
      apply (all_digits_digits s H2 (String.String c String.EmptyString) (10 * 0 + d)). apply digits_one; assumption. }
    destruct (all_digits (String.String c s)) eqn:D.
    + split.
      * intros H. injection H as <-. left. eexists. split; [apply A; reflexivity|reflexivity].
      * intros [(k & K & ->) | (X & _)]; [|exfalso; eapply X, A; reflexivity]. apply digits_all in K. destruct K as (_ & <- & _). reflexivity.
    + split.
      * intros H. injection H as <-. right. split; [|split; [discriminate|reflexivity]]. intros k K. apply digits_all in K. destruct K as (X & _). congruence.
      * intros [(k & K & ->) | (_ & _ & ->)]; [|reflexivity]. apply digits_all in K. destruct K as (X & _). congruence.
Qed.
Lemma names_fun : forall s n m, names_node s n -> names_node s m -> n = m.
Proof. intros s n m H1 H2. apply check_spec in H1, H2. congruence. Qed.

(** Columns by name: the first that has a keyword with a symbol before or after it *)
Definition mentions (keywords : list string) (name : string) : Prop :=
  exists k y s1 s2, In k keywords /\ In y ["_"; "."; "-"] /\
    (name = String.append s1 (String.append (String.append y k) s2) \/ name = String.append s1 (String.append (String.append k y) s2)).
Lemma has_keyword_spec : forall ks n, has_keyword ks n = true <-> mentions ks n.
Proof.
  intros ks n. unfold has_keyword, mentions. rewrite existsb_exists. split.
  - intros (k & I & H). apply existsb_exists in H. destruct H as (y & J & H). apply Bool.orb_prop in H.
    destruct H as [H | H]; apply contains_spec in H; destruct H as (s1 & s2 & E); exists k, y, s1, s2; auto.
  - intros (k & y & s1 & s2 & I & J & E). exists k. split; [exact I|]. apply existsb_exists. exists y. split; [exact J|]. apply Bool.orb_true_intro.
    destruct E as [E | E]; [left|right]; apply contains_spec; eauto.
Qed.
Theorem C79_columns : forall names keywords,
  (find_target names keywords = (-1)%Z /\ forall n, In n names -> ~ mentions keywords n) \/
  exists l1 n l2, names = l1 ++ n :: l2 /\ find_target names keywords = Z.of_nat (length l1) /\ mentions keywords n /\ forall m, In m l1 -> ~ mentions keywords m.
Proof.
  intros names keywords. unfold find_target.
  assert (G : forall i, (find_column keywords names i = (-1)%Z /\ forall n, In n names -> ~ mentions keywords n) \/
    exists l1 n l2, names = l1 ++ n :: l2 /\ find_column keywords names i = (i + Z.of_nat (length l1))%Z /\ mentions keywords n /\ forall m, In m l1 -> ~ mentions keywords m).
  { induction names as [|n names IH]; intros i; cbn [find_column].
    - left. split; [reflexivity|intros n []].
    - destruct (has_keyword keywords n) eqn:K.
      + right. exists [], n, names. split; [reflexivity|]. split; [cbn; lia|]. split; [apply has_keyword_spec, K|intros m []].
      + assert (NK : ~ mentions keywords n) by (intros X; apply has_keyword_spec in X; congruence).
        destruct (IH (i + 1)%Z) as [(E & H) | (l1 & x & l2 & -> & E & H1 & H2)].
        * left. split; [exact E|]. intros m [<- | I]; [exact NK|apply H, I].
        * right. exists (n :: l1), x, l2. split; [reflexivity|]. split; [cbn [length]; lia|]. split; [exact H1|]. intros m [<- | I]; [exact NK|apply H2, I]. }
  destruct (G 0%Z) as [H | H]; [left; exact H|right]. exact H.
Qed.
Theorem C79_match : forall names, (exists s d, match_columns names = Some (s, d)) <->
  (exists n, In n names /\ mentions ["source"; "src"; "origin"] n) /\ (exists n, In n names /\ mentions ["target"; "destination"; "dst"] n) /\
  (exists n, In n names /\ mentions ["node"] n).
Proof.
  intros names. unfold match_columns.
  assert (G : forall ks, ((0 <=? find_target names ks)%Z = true) <-> exists n, In n names /\ mentions ks n).
  { intros ks. destruct (C79_columns names ks) as [(-> & H) | (l1 & n & l2 & E & -> & H & _)].
    - split; [discriminate|]. intros (n & I & M). exfalso. apply (H n I M).
    - split; [|intros _; apply Z.leb_le; lia]. intros _. exists n. split; [rewrite E; apply in_or_app; right; left; reflexivity|exact H]. }
  rewrite <- !G. unfold source_words, target_words, graph_words. destruct (_ <=? _)%Z; cbn [andb].
  - destruct (_ <=? _)%Z; cbn [andb]; [|split; [intros (s & d & X); discriminate|intuition discriminate]].
    destruct (_ <=? _)%Z; [|split; [intros (s & d & X); discriminate|intuition discriminate]]. split; [auto|]. intros _. eauto.
  - split; [intros (s & d & X); discriminate|intuition discriminate].
Qed.

(** The ends are then the first columns that mention a source and a target. *)
Theorem C79_match_ends : forall names s d, match_columns names = Some (s, d) ->
  (exists l1 n l2, names = l1 ++ n :: l2 /\ s = Z.of_nat (length l1) /\ mentions ["source"; "src"; "origin"] n /\ forall m, In m l1 -> ~ mentions ["source"; "src"; "origin"] m) /\
  (exists l1 n l2, names = l1 ++ n :: l2 /\ d = Z.of_nat (length l1) /\ mentions ["target"; "destination"; "dst"] n /\ forall m, In m l1 -> ~ mentions ["target"; "destination"; "dst"] m).
Proof.
  intros names s d H. unfold match_columns in H. destruct (_ && _)%bool eqn:B in H; [|discriminate]. injection H as <- <-.
  apply andb_prop in B. destruct B as (B & _). apply andb_prop in B. destruct B as (B1 & B2). apply Z.leb_le in B1, B2. unfold source_words, target_words in *. split.
  - destruct (C79_columns names ["source"; "src"; "origin"]) as [(E & _) | (l1 & n & l2 & E & F & M)]; [lia|]. exists l1, n, l2. auto.
  - destruct (C79_columns names ["target"; "destination"; "dst"]) as [(E & _) | (l1 & n & l2 & E & F & M)]; [lia|]. exists l1, n, l2. auto.
Qed.

Lemma dupdate_keys : forall (e d : attrs), incl (dkeys e) (dkeys d) -> dkeys (dupdate d e) = dkeys d.
Proof.
  unfold dupdate. induction e as [|[k v] e IH]; intros d H; [reflexivity|]. cbn [fold_left fst snd].
  assert (E : dkeys (dset d k v) = dkeys d) by (apply dkeys_dset_in, H; left; reflexivity).
  rewrite IH; [exact E|]. rewrite E. intros x I. apply H. right. exact I.
Qed.
Lemma dupdate_same : forall (e d : attrs), NoDup (dkeys e) -> dkeys d = dkeys e -> dupdate d e = e.
Proof.
  intros e d ND K. apply dict_ext.
  - rewrite dupdate_keys; [exact K|]. rewrite K. apply incl_refl.
  - rewrite dupdate_keys; rewrite K; [exact ND|apply incl_refl].
  - intros k _. rewrite dget_dupdate by exact ND. destruct (dget e k) eqn:G; [reflexivity|]. apply dget_None. rewrite K. apply dget_None. exact G.
Qed.

Section Nx.
  Context {N : Type} {EN : EqDecB N}.
  Definition joined (u v : N) (e : edge N) : Prop := (fst (fst e) = u /\ snd (fst e) = v) \/ (fst (fst e) = v /\ snd (fst e) = u).
  Lemma same_pair_spec : forall u v e, same_pair u v (fst (fst e)) (snd (fst e)) = true <-> joined u v (e : edge N).
  Proof.
    intros u v ((a, b), x). unfold same_pair, joined. cbn [fst snd]. rewrite Bool.orb_true_iff, !Bool.andb_true_iff, !PyDict.eqb_eq. intuition congruence.
  Qed.
  Lemma put_edge_spec : forall es u v x,
    ((forall e, In e es -> ~ joined u v e) /\ put_edge es u v x = es ++ [(u, v, x)]) \/
    exists l1 e l2, es = l1 ++ e :: l2 /\ joined u v e /\ (forall e', In e' l1 -> ~ joined u v e') /\ put_edge es u v x = l1 ++ (fst e, dupdate (snd e) x) :: l2.
  Proof.
    induction es as [|e es IH]; intros u v x.
    - left. split; [intros e []|reflexivity].
    - destruct e as ((a, b), y). cbn [put_edge]. assert (S1 := same_pair_spec u v (a, b, y)). cbn [fst snd] in S1. destruct (same_pair u v a b).
      + right. exists [], (a, b, y), es. split; [reflexivity|]. split; [apply S1; reflexivity|]. split; [intros e' []|reflexivity].
      + assert (NJ : ~ joined u v (a, b, y)) by (intros X; apply S1 in X; discriminate).
        destruct (IH u v x) as [(H & ->) | (l1 & e & l2 & -> & J & H & ->)].
        * left. split; [|reflexivity]. intros e [<- | I]; [exact NJ|apply H, I].
        * right. exists ((a, b, y) :: l1), e, l2. split; [reflexivity|]. split; [exact J|]. split; [|reflexivity]. intros e' [<- | I]; [exact NJ|apply H, I].
  Qed.
  Lemma add_node_in : forall ns n m, In m (add_node ns n) <-> m = n \/ In m (ns : list N).
  Proof.
    intros ns n m. unfold add_node. destruct (lmem ns n) eqn:E.
    - apply lmem_In in E. split; [auto|]. intros [-> | H]; assumption.
    - rewrite in_app_iff. cbn. intuition congruence.
  Qed.
  Lemma add_node_nodup : forall ns n, NoDup (ns : list N) -> NoDup (add_node ns n).
  Proof. intros ns n H. unfold add_node. destruct (lmem ns n) eqn:E; [exact H|]. apply NoDup_snoc; [exact H|]. apply lmem_false. exact E. Qed.
End Nx.

Section Read.
  Variable to_float : string -> option Q.
  Hypothesis float_empty : to_float "" = None.
  Variable names : list string.
  Variable s d : nat.
  Hypothesis NN : NoDup names.
  Hypothesis Hs : s < length names.
  Hypothesis Hd : d < length names.
  Hypothesis Hsd : s <> d.

  Definition good_row (row : list string) : Prop := length row = length names /\ forall c, In c row -> exists q, to_float c = Some q.
  Definition ends (row : list string) (u v : node) : Prop :=
    exists a b, nth_error row s = Some a /\ nth_error row d = Some b /\ names_node a u /\ names_node b v.
  Definition joins (row : list string) (u v : node) : Prop := ends row u v \/ ends row v u.
  Definition row_attrs (row : list string) : attrs := combine names (map to_float row).

  Lemma cols : forall cells col acc (g : graph node), length names = col + length cells -> (forall c, In c cells -> exists q, to_float c = Some q) -> dkeys acc = firstn col names ->
    columns_of to_float (Some names) (Some (Z.of_nat s)) (Some (Z.of_nat d)) col (map Some cells) acc g =
    Ok (acc ++ combine (skipn col names) (map to_float cells), g).
  Proof. clear Hs Hd.
    induction cells as [|c cells IH]; intros col acc g L F K; cbn [map columns_of].
    - rewrite skipn_all2 by (cbn in L; lia). cbn. rewrite app_nil_r. reflexivity.
    - assert (T : (negb (is_index col (Some (Z.of_nat s))) || negb (is_index col (Some (Z.of_nat d))))%bool = true).
      { unfold is_index. destruct (Z.eqb_spec (Z.of_nat col) (Z.of_nat s)), (Z.eqb_spec (Z.of_nat col) (Z.of_nat d)); try reflexivity; [exfalso; lia|].
        cbn. destruct (col <=? 256); reflexivity. }
      rewrite T. destruct (F c (or_introl eq_refl)) as (q & Eq). rewrite Eq. cbn [length] in L.
      destruct (nth_error names col) as [n|] eqn:En; [|apply nth_error_None in En; lia].
      assert (SK : skipn col names = n :: skipn (col + 1) names).
      { clear -En. revert col En. induction names as [|x l IH]; intros [|k] En; try discriminate; cbn in *; [injection En as ->; reflexivity|]. apply IH, En. }
      assert (FK : firstn (col + 1) names = firstn col names ++ [n]).
      { clear -En. revert col En. induction names as [|x l IH]; intros [|k] En; try discriminate; cbn in *; [injection En as ->; reflexivity|]. rewrite IH by exact En. reflexivity. }
      assert (NI : ~ In n (dkeys acc)).
      { rewrite K. intros I. rewrite <- (firstn_skipn col names), SK in NN. apply NoDup_remove_2 in NN. apply NN. apply in_or_app. left. exact I. }
      rewrite dset_absent by exact NI. rewrite IH.
      + rewrite SK. cbn [combine]. rewrite <- app_assoc. cbn. rewrite <- Eq. reflexivity.
      + lia.
      + intros x I. apply F. right. exact I.
      + unfold dkeys in *. rewrite map_app, K, FK. reflexivity.
  Qed.
  Lemma at_end : forall row i, i < length row -> exists a, nth_error row i = Some a /\ at_index (map Some row) (Some (Z.of_nat i)) = Ok (Some a).
  Proof. clear Hs Hd Hsd.
    intros row i L. destruct (nth_error row i) as [a|] eqn:E; [|apply nth_error_None in E; lia]. exists a. split; [reflexivity|].
    unfold at_index. destruct (Z.ltb_spec (Z.of_nat i) 0); [lia|]. destruct (Z.ltb_spec (Z.of_nat i) 0); [lia|]. rewrite Nat2Z.id.
    rewrite nth_error_map, E. reflexivity.
  Qed.
  Lemma cell_node : forall row i, good_row row -> i < length names -> exists a n, nth_error row i = Some a /\ names_node a n /\
    bind (at_index (map Some row) (Some (Z.of_nat i))) check_cell = Ok n.
  Proof. clear Hs Hd Hsd.
    intros row i (L & F) Li. destruct (at_end row i) as (a & E & A); [lia|]. rewrite A. cbn [bind check_cell].
    assert (NE : a <> ""). { intros ->. destruct (F "") as (q & X); [eapply nth_error_In; eauto|]. congruence. }
    destruct (check_integer a) as [n|] eqn:C.
    - exists a, n. split; [exact E|]. split; [apply check_spec, C|reflexivity].
    - exfalso. unfold check_integer in C. destruct a; [congruence|]. destruct (all_digits _); discriminate.
  Qed.
  Lemma ends_fun : forall row u v u' v', ends row u v -> ends row u' v' -> u = u' /\ v = v'.
  Proof.
    intros row u v u' v' (a & b & A & B & U & V) (a' & b' & A' & B' & U' & V'). rewrite A in A'. rewrite B in B'. injection A' as <-. injection B' as <-.
    split; eapply names_fun; eauto.
  Qed.

  Definition made_of (rows : list (list string)) (g : graph node) : Prop :=
    NoDup (nodes g) /\ (forall n, In n (nodes g) <-> exists row m, In row rows /\ joins row n m) /\
    ForallOrdPairs (fun e e' => ~ joined (fst (fst e)) (snd (fst e)) e') (edges g) /\
    (forall row u v, In row rows -> ends row u v -> exists e, In e (edges g) /\ joined u v e) /\
    (forall u v a, In (u, v, a) (edges g) -> exists l1 row l2, rows = l1 ++ row :: l2 /\ joins row u v /\ (forall r, In r l2 -> ~ joins r u v) /\ a = row_attrs row).

  Lemma ordpairs_app : forall (A : Type) (R : A -> A -> Prop) l1 l2, ForallOrdPairs R l1 -> ForallOrdPairs R l2 ->
    (forall x y, In x l1 -> In y l2 -> R x y) -> ForallOrdPairs R (l1 ++ l2).
  Proof.
    intros A R. induction l1 as [|x l1 IH]; intros l2 H1 H2 H; [exact H2|]. inversion H1 as [|? ? F1 F2]; subst. cbn. constructor.
    - apply Forall_app. split; [exact F1|]. apply Forall_forall. intros y I. apply H; [left; reflexivity|exact I].
    - apply IH; auto. intros a b Ia Ib. apply H; [right; exact Ia|exact Ib].
  Qed.
  Lemma ordpairs_split : forall (A : Type) (R : A -> A -> Prop) l1 l2, ForallOrdPairs R (l1 ++ l2) -> ForallOrdPairs R l1 /\ ForallOrdPairs R l2 /\
    (forall x y, In x l1 -> In y l2 -> R x y).
  Proof.
    intros A R. induction l1 as [|x l1 IH]; intros l2 H; [repeat split; try constructor; [exact H|intros x y []]|]. cbn in H. inversion H as [|? ? F1 F2]; subst.
    destruct (IH _ F2) as (A1 & A2 & A3). apply Forall_app in F1. destruct F1 as (F1 & F3). rewrite Forall_forall in F3. repeat split; [constructor; assumption|exact A2|].
    intros a b [<- | Ia] Ib; auto.
  Qed.
  Lemma joined_sym : forall (u v : node) e, joined u v e -> joined v u e.
  Proof. unfold joined. tauto. Qed.
  Lemma joined_joins : forall row u0 v0 u v a, ends row u0 v0 -> joined u0 v0 (u, v, a) -> joins row u v.
  Proof. intros row u0 v0 u v a E [(<- & <-) | (<- & <-)]; cbn in *; [left|right]; assumption. Qed.
  Lemma joins_joined : forall row u0 v0 u v (a : attrs), ends row u0 v0 -> joins row u v -> joined u0 v0 (u, v, a).
  Proof. intros row u0 v0 u v a E [J | J]; destruct (ends_fun _ _ _ _ _ E J) as (-> & ->); [left|right]; cbn; auto. Qed.

  Lemma row_keys : forall row, good_row row -> dkeys (row_attrs row) = names.
  Proof.
    intros row (L & _). unfold row_attrs, dkeys. revert L. generalize names as ns. clear. intros ns. revert ns. induction row as [|c row IH]; intros [|n ns] L; try discriminate; [reflexivity|].
    cbn in *. f_equal. apply IH. lia.
  Qed.

  Lemma add_row : forall rows g row u0 v0, Forall good_row rows -> good_row row -> made_of rows g -> ends row u0 v0 ->
    made_of (rows ++ [row]) (add_edge g u0 v0 (row_attrs row)).
  Proof.
    intros rows g row u0 v0 GR G (N1 & N2 & N3 & N4 & N5) E. unfold add_edge, made_of. cbn [nodes edges].
    split; [apply add_node_nodup, add_node_nodup, N1|]. split; [|].
    { intros n. rewrite !add_node_in, N2. split.
      - intros [-> | [-> | (r & m & I & J)]].
        + exists row, u0. split; [apply in_or_app; right; left; reflexivity|right; exact E].
        + exists row, v0. split; [apply in_or_app; right; left; reflexivity|left; exact E].
        + exists r, m. split; [apply in_or_app; left; exact I|exact J].
      - intros (r & m & I & J). apply in_app_or in I. destruct I as [I | [<- | []]]; [right; right; eauto|].
        destruct J as [J | J]; destruct (ends_fun _ _ _ _ _ E J) as (-> & ->); auto. }
    assert (PE := put_edge_spec (edges g) u0 v0 (row_attrs row)).
    assert (OLD : forall u v a, In (u, v, a) (edges g) -> ~ joined u0 v0 (u, v, a) ->
      exists l1 r l2, rows ++ [row] = l1 ++ r :: l2 /\ joins r u v /\ (forall r', In r' l2 -> ~ joins r' u v) /\ a = row_attrs r).
    { intros u v a I NJ. destruct (N5 u v a I) as (l1 & r & l2 & -> & J & H & ->). exists l1, r, (l2 ++ [row]). split; [rewrite <- app_assoc; reflexivity|].
      split; [exact J|]. split; [|reflexivity]. intros r' I'. apply in_app_or in I'. destruct I' as [I' | [<- | []]]; [apply H, I'|].
      intros X. apply NJ. eapply joins_joined; eauto. }
    destruct PE as [(H & ->) | (l1 & e & l2 & Es & J & H & ->)].
    - split; [|split].
      + apply ordpairs_app; [exact N3|constructor; constructor|]. intros x y Ix [<- | []]. intros X. apply (H x Ix).
        destruct x as ((a, b), z). unfold joined in *. cbn in *. intuition congruence.
      + intros r u v I R. apply in_app_or in I. destruct I as [I | [<- | []]].
        * destruct (N4 r u v I R) as (e & Ie & Je). exists e. split; [apply in_or_app; left; exact Ie|exact Je].
        * exists (u0, v0, row_attrs row). split; [apply in_or_app; right; left; reflexivity|]. destruct (ends_fun _ _ _ _ _ E R) as (-> & ->). left. auto.
      + intros u v a I. apply in_app_or in I. destruct I as [I | [X | []]].
        * apply OLD; [exact I|apply H, I].
        * injection X as <- <- <-. exists rows, row, []. split; [reflexivity|]. split; [left; exact E|]. split; [intros r []|reflexivity].
    - destruct e as ((a, b), y). cbn [fst snd] in *.
      assert (Iy : In (a, b, y) (edges g)) by (rewrite Es; apply in_or_app; right; left; reflexivity).
      assert (Ky : dupdate y (row_attrs row) = row_attrs row).
      { apply dupdate_same; [rewrite row_keys by exact G; exact NN|]. destruct (N5 a b y Iy) as (k1 & r & k2 & Er & _ & _ & ->).
        rewrite !row_keys; [reflexivity|exact G|]. rewrite Forall_forall in GR. apply GR. rewrite Er. apply in_or_app. right. left. reflexivity. }
      rewrite Ky. rewrite Es in N3. destruct (ordpairs_split _ _ _ _ N3) as (O1 & O2 & O3). inversion O2 as [|? ? O4 O5]; subst.
      split; [|split].
      + apply ordpairs_app; [exact O1|constructor; [exact O4|exact O5]|]. intros x z Ix [<- | Iz].
        * assert (X := O3 x (a, b, y) Ix (or_introl eq_refl)). exact X.
        * apply O3; [exact Ix|right; exact Iz].
      + intros r u v I R. apply in_app_or in I. destruct I as [I | [<- | []]].
        * destruct (N4 r u v I R) as (e & Ie & Je). rewrite Es in Ie. apply in_app_or in Ie. destruct Ie as [Ie | [<- | Ie]].
          -- exists e. split; [apply in_or_app; left; exact Ie|exact Je].
          -- exists (a, b, row_attrs row). split; [apply in_or_app; right; left; reflexivity|exact Je].
          -- exists e. split; [apply in_or_app; right; right; exact Ie|exact Je].
        * exists (a, b, row_attrs row). split; [apply in_or_app; right; left; reflexivity|]. destruct (ends_fun _ _ _ _ _ E R) as (-> & ->). exact J.
      + assert (DJ : forall u v x, In (u, v, x) l2 -> ~ joined u0 v0 (u, v, x)).
        { intros u v x I X. rewrite Forall_forall in O4. apply (O4 _ I). unfold joined in *. cbn in *. intuition congruence. }
        intros u v x I. apply in_app_or in I. destruct I as [I | [X | I]].
        * apply OLD; [rewrite Es; apply in_or_app; left; exact I|apply H, I].
        * injection X as <- <- <-. exists rows, row, []. split; [reflexivity|]. split; [eapply joined_joins; [exact E|exact J]|]. split; [intros r []|reflexivity].
        * apply OLD; [rewrite Es; apply in_or_app; right; right; exact I|eapply DJ; exact I].
  Qed.

  Lemma read_rows_spec : forall rows done g, Forall good_row done -> Forall good_row rows -> made_of done g ->
    exists g', read_rows to_float (Some names) (Some (Z.of_nat s)) (Some (Z.of_nat d)) (map (map Some) rows) g = Ok g' /\ made_of (done ++ rows) g'.
  Proof.
    induction rows as [|row rows IH]; intros done g GD GR M; cbn [map read_rows].
    - exists g. rewrite app_nil_r. auto.
    - inversion GR as [|? ? G1 G2]; subst. rewrite (cols row 0 [] g); [|destruct G1; lia|apply G1|reflexivity]. cbn [bind fst snd].
      destruct (cell_node row s G1 Hs) as (a & u & Na & Ua & ->). destruct (cell_node row d G1 Hd) as (b & v & Nb & Vb & ->). cbn [bind].
      change ([] ++ combine (skipn 0 names) (map to_float row)) with (row_attrs row).
      destruct (IH (done ++ [row]) (add_edge g u v (row_attrs row))) as (g' & E & M').
      + apply Forall_app. split; [exact GD|constructor; [exact G1|constructor]].
      + exact G2.
      + apply add_row; try assumption. exists a, b. auto.
      + exists g'. split; [exact E|]. rewrite <- app_assoc in M'. exact M'.
  Qed.
End Read.

(** A table of numbers with a header, the columns of sources and destinations given or found by name: the nodes are those named in
    these two columns, each pair named in a row is joined by one edge, and the attributes of that edge are ALL columns of the last such row. *)
Theorem C79_graph : forall to_float names src dst s d rows, to_float "" = None -> NoDup names ->
  (src = Some (Z.of_nat s) \/ src = None /\ find_target names ["source"; "src"; "origin"] = Z.of_nat s) ->
  (dst = Some (Z.of_nat d) \/ dst = None /\ find_target names ["target"; "destination"; "dst"] = Z.of_nat d) ->
  s < length names -> d < length names -> s <> d -> Forall (good_row to_float names) rows ->
  exists g, read_graph to_float (Some names) src dst (map (map Some) rows) = Ok g /\ made_of to_float names s d rows g.
Proof.
  intros to_float names src dst s d rows FE NN S D Ls Ld SD GR. unfold read_graph.
  assert (E1 : locate src (Some names) source_words = Some (Z.of_nat s)) by (destruct S as [-> | (-> & X)]; [reflexivity|]; unfold locate, source_words; rewrite X; reflexivity).
  assert (E2 : locate dst (Some names) target_words = Some (Z.of_nat d)) by (destruct D as [-> | (-> & X)]; [reflexivity|]; unfold locate, target_words; rewrite X; reflexivity).
  rewrite E1, E2. destruct (read_rows_spec to_float FE names s d NN Ls Ld SD rows [] {| nodes := []; edges := [] |}) as (g & E & M).
  - constructor.
  - exact GR.
  - split; [constructor|]. split; [intros n; split; [intros []|intros (r & m & [] & _)]|]. split; [constructor|]. split; [intros r u v []|intros u v a []].
  - exists g. split; [exact E|exact M].
Qed.

(** Such a graph is one the profiler takes: every edge has every attribute, as a number. *)
Theorem C79_profiled : forall to_float names s d rows g, NoDup names -> Forall (good_row to_float names) rows -> made_of to_float names s d rows g ->
  wf g /\ uniform g.
Proof.
  intros to_float names s d rows g NN GR (N1 & N2 & N3 & N4 & N5).
  assert (K : forall u v a, In (u, v, a) (edges g) -> exists row u' v', In row rows /\ ends s d row u' v' /\ (u = u' /\ v = v' \/ u = v' /\ v = u') /\ a = row_attrs to_float names row).
  { intros u v a I. destruct (N5 u v a I) as (l1 & row & l2 & -> & J & _ & ->). destruct J as [J | J]; [exists row, u, v|exists row, v, u];
      (split; [apply in_or_app; right; left; reflexivity|]); auto. }
  split.
  - split; [exact N1|]. intros u v a I. destruct (K u v a I) as (row & u' & v' & Ir & E & X & ->). split; [|split].
    + apply N2. destruct X as [(-> & ->) | (-> & ->)]; [exists row, v'|exists row, u']; (split; [exact Ir|]); [left|right]; exact E.
    + apply N2. destruct X as [(-> & ->) | (-> & ->)]; [exists row, u'|exists row, v']; (split; [exact Ir|]); [right|left]; exact E.
    + rewrite row_keys; [exact NN|]. rewrite Forall_forall in GR. apply GR, Ir.
  - intros a e (e' & Ie' & Ia) Ie. rewrite Forall_forall in GR.
    assert (In a names).
    { destruct e' as ((u, v), x). destruct (K u v x Ie') as (row & u' & v' & Ir & _ & _ & ->). cbn [snd] in Ia. rewrite row_keys in Ia; [exact Ia|apply GR, Ir]. }
    destruct e as ((u, v), x). destruct (K u v x Ie) as (row & u' & v' & Ir & _ & _ & ->). cbn [snd]. destruct (GR row Ir) as (L & F). clear -H L F. unfold row_attrs.
    revert names H L. induction row as [|c row IH]; intros [|n names] I L; try discriminate; [destruct I|]. cbn [map combine dget].
    destruct (PyDict.eqb_spec n a) as [-> | NE].
    + destruct (F c (or_introl eq_refl)) as (q & ->). eauto.
    + destruct I as [-> | I]; [congruence|]. apply IH; [intros x J; apply F; right; exact J|exact I|cbn in L; lia].
Qed.

(** The names are the texts of the header row, without their spaces: for headers among the first 257 lines. *)
Fixpoint without_spaces (s : string) : string :=
  match s with
  | String.EmptyString => String.EmptyString
  | String.String c r => String.append (if Ascii.nat_of_ascii c =? 32 then "" else String.String c String.EmptyString) (without_spaces r)
  end.
Lemma remove_spaces_spec : forall s, remove_spaces s = without_spaces s.
Proof.
  induction s as [|c s IH]; [reflexivity|]. cbn [remove_spaces without_spaces]. rewrite IH.
  destruct (Ascii.eqb_spec c (Ascii.ascii_of_nat 32)) as [-> | N].
  - rewrite Ascii.nat_ascii_embedding by lia. reflexivity.
  - destruct (Nat.eqb_spec (Ascii.nat_of_ascii c) 32) as [E | _]; [|reflexivity]. exfalso. apply N. rewrite <- E. symmetry. apply Ascii.ascii_nat_embedding.
Qed.
Lemma row_at_spec : forall rows h i, i <= h -> h <= 256 -> row_at h i rows = nth (h - i) rows [].
Proof.
  induction rows as [|r rows IH]; intros h i L B; cbn [row_at]; [destruct (h - i); reflexivity|]. unfold same_object.
  destruct (Nat.eqb_spec i h) as [-> | NE].
  - rewrite Nat.sub_diag. destruct (Nat.leb_spec h 256); [reflexivity|lia].
  - cbn [andb]. rewrite IH by lia. replace (h - i) with (S (h - (i + 1))) by lia. reflexivity.
Qed.
Theorem C79_names : forall rows,
  csv_column_names None rows = [] /\
  (forall h row, h <= 256 -> nth_error rows h = Some row -> csv_column_names (Some h) rows = map without_spaces row) /\
  (forall h, nth_error rows h = None -> csv_column_names (Some h) rows = []).
Proof.
  intros rows. split; [reflexivity|]. split.
  - intros h row B E. unfold csv_column_names. rewrite row_at_spec by lia. rewrite Nat.sub_0_r, (nth_error_nth _ _ _ E). apply map_ext. apply remove_spaces_spec.
  - intros h E. apply nth_error_None in E. unfold csv_column_names.
    assert (G : forall l i, i + length l <= h -> row_at h i l = []).
    { induction l as [|r l IH]; intros i L; [reflexivity|]. cbn [row_at length] in *. unfold same_object. destruct (Nat.eqb_spec i h); [lia|]. cbn. apply IH. lia. }
    rewrite G by lia. reflexivity.
Qed.
(** A header further down is not found, though the row is there: [row_count is header]. *)
Theorem C79_names_refuted : forall rows h, 256 < h -> csv_column_names (Some h) rows = [].
Proof.
  intros rows h B. unfold csv_column_names.
  assert (G : forall l i, row_at h i l = []).
  { induction l as [|r l IH]; intros i; [reflexivity|]. cbn [row_at]. unfold same_object. destruct (Nat.eqb_spec i h) as [-> | _]; [destruct (Nat.leb_spec h 256); [lia|]|]; cbn; apply IH. }
  rewrite G. reflexivity.
Qed.

(** Nodes with names that are not numbers cannot be read when the columns have names: the columns of the ends are turned into numbers like
    the others. *)
Theorem C79_text_refuted : forall to_float names src dst s d rows row, s < length names -> s <> d -> src = Some (Z.of_nat s) -> dst = Some (Z.of_nat d) ->
  length row = length names -> (exists a, nth_error row s = Some a /\ to_float a = None) ->
  read_graph to_float (Some names) src dst (map Some row :: rows) = Err ValueError.
Proof.
  intros to_float names src dst s d rows row Ls SD -> -> L (a & A & F). unfold read_graph, locate. cbn [read_rows].
  assert (G : forall cells col acc g, col + length cells <= length names -> (exists k x, nth_error cells k = Some x /\ to_float x = None) ->
    columns_of to_float (Some names) (Some (Z.of_nat s)) (Some (Z.of_nat d)) col (map Some cells) acc g = Err ValueError).
  { induction cells as [|c cells IH]; intros col acc g B (k & x & Kx & Fx); [destruct k; discriminate|]. cbn [map columns_of length] in *.
    assert (T : (negb (is_index col (Some (Z.of_nat s))) || negb (is_index col (Some (Z.of_nat d))))%bool = true).
    { unfold is_index. destruct (Z.eqb_spec (Z.of_nat col) (Z.of_nat s)), (Z.eqb_spec (Z.of_nat col) (Z.of_nat d)); try reflexivity; [exfalso; lia|].
      cbn. destruct (col <=? 256); reflexivity. }
    rewrite T. destruct (to_float c) eqn:C; [|reflexivity]. destruct (nth_error names col) eqn:En; [|apply nth_error_None in En; lia].
    apply IH; [lia|]. destruct k as [|k]; [cbn in Kx; congruence|]. exists k, x. auto. }
  rewrite G; [reflexivity|lia|eauto].
Qed.

Definition decimal (s : string) : option Q :=
  match s with
  | String.EmptyString => None
  | String.String c r =>
      if Ascii.nat_of_ascii c =? 45 then if ((1 <=? String.length r) && all_digits r)%bool then Some (inject_Z (- Z.of_nat (value 0 r))) else None
      else if all_digits s then Some (inject_Z (Z.of_nat (value 0 s))) else None
  end.
(** The number of the source and that of the destination are attributes of the edge. *)
Theorem C79_ends_refuted : exists names src dst rows g, match_columns names = Some (src, dst) /\
  read_graph decimal (Some names) (Some src) (Some dst) rows = Ok g /\ edges g = [(NInt 7, NInt 9, [("node_source", Some 7%Q); ("node_target", Some 9%Q)])].
Proof. exists ["node_source"; "node_target"], 0%Z, 1%Z, [[Some "7"; Some "9"]]. eexists. vm_compute. repeat split. Qed.
(** A node with a negative number is a text, one with a positive number is a number: "-1" and "1" are of different types. *)
Theorem C79_negative_refuted : check_integer "-1" = Ok (NStr "-1") /\ check_integer "+1" = Ok (NStr "+1") /\ check_integer "1" = Ok (NInt 1).
Proof. repeat split; reflexivity. Qed.
(** Without a column that says it is the source, the last column is taken for it. *)
Theorem C79_last_refuted : forall to_float names dst d rows, NoDup names -> to_float "" = None -> find_target names source_words = (-1)%Z -> dst = Some (Z.of_nat d) ->
  d < length names - 1 -> Forall (good_row to_float names) rows -> length names <= 256 ->
  forall row, rows = [row] -> exists g u v, read_graph to_float (Some names) None dst (map (map Some) rows) = Ok g /\ ends (length names - 1) d row u v /\
    edges g = [(u, v, row_attrs to_float names row)].
Proof.
  intros to_float names dst d rows NN FE FT -> Ld GR LB row ->. inversion GR as [|? ? G _]; subst. unfold read_graph. unfold locate. rewrite FT. cbn [map read_rows].
  assert (C : columns_of to_float (Some names) (Some (-1)%Z) (Some (Z.of_nat d)) 0 (map Some row) [] {| nodes := []; edges := [] |} =
    columns_of to_float (Some names) (Some (Z.of_nat (length names))) (Some (Z.of_nat d)) 0 (map Some row) [] {| nodes := []; edges := [] |}).
  { assert (X : forall cells col acc g, col + length cells = length names ->
      columns_of to_float (Some names) (Some (-1)%Z) (Some (Z.of_nat d)) col (map Some cells) acc g = columns_of to_float (Some names) (Some (Z.of_nat (length names))) (Some (Z.of_nat d)) col (map Some cells) acc g).
    { induction cells as [|c cells IH]; intros col acc g B; [reflexivity|]. cbn [map columns_of length] in *.
      assert (Y : is_index col (Some (-1)%Z) = false) by (unfold is_index; destruct (Z.eqb_spec (Z.of_nat col) (-1)); [lia|reflexivity]).
      assert (Y' : is_index col (Some (Z.of_nat (length names))) = false) by (unfold is_index; destruct (Z.eqb_spec (Z.of_nat col) (Z.of_nat (length names))); [lia|reflexivity]).
      rewrite Y, Y'. cbn [negb orb]. destruct (to_float c); [|reflexivity]. destruct (nth_error names col); [|reflexivity]. apply IH. lia. }
    apply X. destruct G; lia. }
  rewrite C. destruct G as (GL & GF). assert (LD : length names <> d) by lia. rewrite (cols to_float names (length names) d NN LD row 0 []); [|cbn; lia|exact GF|reflexivity]. assert (G : good_row to_float names row) by (split; assumption). cbn [bind fst snd].
  destruct (cell_node to_float FE names row (length names - 1) G) as (a & u & Na & Ua & Eu); [lia|].
  destruct (cell_node to_float FE names row d G) as (b & v & Nb & Vb & Ev); [lia|].
  assert (E1 : at_index (map Some row) (Some (-1)%Z) = at_index (map Some row) (Some (Z.of_nat (length names - 1)))).
  { unfold at_index. destruct G as (L & _). rewrite map_length, L. cbn [Z.ltb Z.compare]. destruct (Z.ltb_spec (Z.of_nat (length names - 1)) 0); [lia|].
    replace (-1 + Z.of_nat (length names))%Z with (Z.of_nat (length names - 1)) by lia. reflexivity. }
  rewrite E1, Eu, Ev. cbn [bind read_rows]. eexists. exists u, v. split; [reflexivity|]. split; [exists a, b; auto|]. reflexivity.
Qed.
(** A column called just "source" or "target" is not taken for one, and one column may be taken for both ends. *)
Theorem C79_plain_refuted : match_columns ["source"; "target"; "node"] = None /\ match_columns ["node_source_target"; "weight"] = Some (0%Z, 0%Z).
Proof. split; reflexivity. Qed.
(** One empty cell and nothing is read. *)
Theorem C79_empty_refuted : exists names rows, match_columns names = Some (0%Z, 1%Z) /\
  read_graph decimal (Some names) (Some 0%Z) (Some 1%Z) [[Some "1"; Some "2"; Some "5"]] <> Err ValueError /\
  read_graph decimal (Some names) (Some 0%Z) (Some 1%Z) ([Some "1"; Some "2"; Some "5"] :: rows) = Err ValueError /\ rows = [[Some "2"; Some "3"; Some ""]].
Proof. exists ["node_src"; "node_dst"; "weight"], [[Some "2"; Some "3"; Some ""]]. repeat match goal with |- _ /\ _ => split end; try reflexivity. intros X. vm_compute in X. discriminate X. Qed.

Example C79_example :
  csv_column_names (Some 1) [["a graph"]; ["node_ src"; "node_dst"; "weight"]; ["1"; "2"; "5"]] = ["node_src"; "node_dst"; "weight"] /\
  match_columns ["node_src"; "node_dst"; "weight"] = Some (0%Z, 1%Z) /\
  read_graph decimal (Some ["node_src"; "node_dst"; "weight"]) None None (map (map Some) [["1"; "2"; "5"]; ["2"; "-3"; "6"]; ["2"; "1"; "8"]]) =
    Ok {| nodes := [NInt 1; NInt 2; NStr "-3"];
          edges := [(NInt 1, NInt 2, [("node_src", Some 2%Q); ("node_dst", Some 1%Q); ("weight", Some 8%Q)]);
                    (NInt 2, NStr "-3", [("node_src", Some 2%Q); ("node_dst", Some (-3)%Q); ("weight", Some 6%Q)])] |} /\
  read_graph decimal None (Some 0%Z) (Some 1%Z) (map (map Some) [["a"; "2"; "5"]; ["2"; "b"; "x"]]) =
    Ok {| nodes := [NStr "a"; NInt 2; NStr "b"]; edges := [(NStr "a", NInt 2, []); (NInt 2, NStr "b", [])] |} /\
  decimal "" = None /\ decimal "x" = None /\ decimal "-3" = Some (-3)%Q.
Proof. vm_compute. repeat split. Qed.
