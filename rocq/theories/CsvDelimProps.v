(** C84: the delimiter that is guessed *)
From Coq Require Import Ascii Lia.
From Coq Require String.
From Verif Require Import PyCommon PyDict PyString PyEq ListFacts TextModel ReadModel StructModel CsvModel CsvCells CsvHeaderProps CsvWordsProps CsvMatchProps.
Local Open Scope nat_scope.
Local Open Scope list_scope.

(** Splitting a line at the delimiters outside quotes and joining the cells gives the line. *)
Theorem C84_join : forall c q s, join [c] (cells [c] q s) = s.
Proof.
  intros c q. unfold cells. induction s as [|x s IH]; [reflexivity|]. cbn [cells_from]. rewrite at_delimiter_one. assert (NE := cells_ne c q 0 s).
  destruct (PyDict.eqb_spec c x) as [<- | N]; cbn [andb].
  - destruct (Nat.even (occ q s)); cbn [length Nat.sub].
    + destruct (cells_from [c] q 0 s) as [|w ws]; [contradiction|]. change (join [c] ([] :: w :: ws)) with ([] ++ [c] ++ join [c] (w :: ws)). rewrite IH. reflexivity.
    + destruct (cells_from [c] q 0 s) as [|w ws]; [contradiction|]. destruct ws; cbn [join] in *; rewrite <- IH; reflexivity.
  - destruct (cells_from [c] q 0 s) as [|w ws]; [contradiction|]. destruct ws; cbn [join] in *; rewrite <- IH; reflexivity.
Qed.
(** Joining fields, each in quotes or without delimiters and quotes, and splitting gives the fields. *)
Theorem C84_fields : forall c q fs, c <> q -> fs <> [] -> (forall f, In f fs -> plain c q f \/ quoted q f) -> cells [c] q (join [c] fs) = fs.
Proof. intros c q fs CQ NE H. apply cells_row; assumption. Qed.

(** ** Candidates *)
Definition often (s : text) (c : ascii) : nat := length (filter (fun x => Ascii.eqb x c) s).
Lemma firsts_in s : forall seen x, In x (firsts s seen) <-> In x s /\ ~ In x seen.
Proof.
  induction s as [|c s IH]; intros seen x; cbn [firsts]; [split; [intros []|intros [[] _]]|]. destruct (lmem seen c) eqn:E.
  - rewrite IH. apply lmem_In in E. split; [intros [I N]; split; [right; exact I|exact N]|]. intros [[<- | I] N]; [contradiction|auto].
  - cbn [In]. rewrite IH. assert (NE : ~ In c seen) by (apply lmem_false; exact E). split.
    + intros [<- | [I N]]; [split; [left; reflexivity|exact NE]|]. split; [right; exact I|]. intro J. apply N. right. exact J.
    + intros [[<- | I] N]; [left; reflexivity|]. destruct (Ascii.eqb_spec c x) as [<- | D]; [left; reflexivity|]. right. split; [exact I|]. intros [J | J]; contradiction.
Qed.
Lemma firsts_nodup s : forall seen, NoDup (firsts s seen).
Proof.
  induction s as [|c s IH]; intros seen; cbn [firsts]; [constructor|]. destruct (lmem seen c); [apply IH|]. constructor; [|apply IH]. intro I. apply firsts_in in I. apply I. left. reflexivity.
Qed.
Lemma insert_in count c l x : In x (insert_by count c l) <-> x = c \/ In x l.
Proof.
  induction l as [|y l IH]; cbn [insert_by]; [cbn; intuition congruence|]. destruct (count y <? count c); cbn [In]; [intuition congruence|]. rewrite IH. intuition congruence.
Qed.
Lemma insert_nodup count c l : NoDup l -> ~ In c l -> NoDup (insert_by count c l).
Proof.
  induction l as [|y l IH]; intros D N; cbn [insert_by]; [repeat constructor; intros []|]. destruct (count y <? count c); [constructor; assumption|]. inversion D; subst. constructor.
  - intro I. apply insert_in in I. destruct I as [-> | I]; [apply N; left; reflexivity|contradiction].
  - apply IH; [assumption|]. intro I. apply N. right. exact I.
Qed.
Fixpoint falling (count : ascii -> nat) (l : list ascii) : Prop := match l with [] => True | x :: r => (forall y, In y r -> count y <= count x) /\ falling count r end.
Lemma insert_falling count c l : falling count l -> falling count (insert_by count c l).
Proof.
  induction l as [|y l IH]; cbn [insert_by falling]; intros H; [split; [intros y []|exact I]|]. destruct H as [H1 H2]. destruct (Nat.ltb_spec (count y) (count c)) as [L | L]; cbn [falling].
  - split; [|split; assumption]. intros z [<- | J]; [lia|]. specialize (H1 z J). lia.
  - split; [|apply IH, H2]. intros z J. apply insert_in in J. destruct J as [-> | J]; [exact L|apply H1, J].
Qed.
Lemma sort_spec count l : forall acc, NoDup l -> NoDup acc -> (forall x, In x l -> ~ In x acc) -> falling count acc ->
  NoDup (sort_by count l acc) /\ falling count (sort_by count l acc) /\ forall x, In x (sort_by count l acc) <-> In x l \/ In x acc.
Proof.
  induction l as [|c l IH]; intros acc D1 D2 X F; cbn [sort_by]; [split; [exact D2|]; split; [exact F|]; intros x; split; [auto|intros [[] | J]; exact J]|].
  inversion D1; subst. destruct (IH (insert_by count c acc)) as (A & B & C); [assumption|apply insert_nodup; [exact D2|apply X; left; reflexivity]| |apply insert_falling, F|].
  - intros x J K. apply insert_in in K. destruct K as [-> | K]; [contradiction|]. apply (X x); [right; exact J|exact K].
  - split; [exact A|]. split; [exact B|]. intros x. rewrite C, insert_in. cbn [In]. intuition congruence.
Qed.
Lemma falling_filter count p l : falling count l -> falling count (filter p l).
Proof.
  induction l as [|x l IH]; cbn [filter falling]; [auto|]. intros [H1 H2]. destruct (p x); cbn [falling]; [|apply IH, H2]. split; [|apply IH, H2]. intros y J. apply filter_In in J. apply H1, J.
Qed.
Lemma falling_ext f g l : (forall x, f x = g x) -> falling f l -> falling g l.
Proof. intros E. induction l as [|x l IH]; cbn [falling]; [auto|]. intros [H1 H2]. split; [|apply IH, H2]. intros y J. rewrite <- !E. apply H1, J. Qed.
Definition special (c : ascii) : Prop := c = newline \/ c = dquote \/ c = squote \/ c = comma \/ c = tab.
Lemma vocabulary_spec s : NoDup (vocabulary s) /\ falling (often s) (vocabulary s) /\ forall c, In c (vocabulary s) <-> In c s /\ ~ special c.
Proof.
  unfold vocabulary. set (l := filter _ (firsts s [])). assert (D : NoDup l) by (apply NoDup_filter, firsts_nodup).
  destruct (sort_spec (fun c => occ c s) l [] D (NoDup_nil _)) as (A & B & C); [intros x _ []|exact I|]. split; [apply NoDup_filter, A|]. split.
  - apply falling_filter. eapply falling_ext; [|exact B]. intros x. apply occ_filter.
  - intros c. rewrite filter_In, C, Bool.negb_true_iff. unfold l. rewrite filter_In, firsts_in, Bool.negb_true_iff. cbn [In]. unfold special.
    rewrite !lmem_false. unfold preferred. cbn [In]. intuition congruence.
Qed.

Section Delimiter.
  Variable date : text -> bool.
  Variable number : text -> option bool.
  Variable upper : text -> bool.
  Variable alpha : ascii -> bool.
  Variable sniff : text -> list ascii -> option ascii.
  Variable pick : ascii -> nat -> nat.
  Let guess := guess_delimiter date number upper alpha sniff pick.
  Let ok := validated date number upper alpha pick.

  Lemma choose_in q s cs : forall best answer c, choose date number upper alpha pick q s cs best answer = Some c -> answer = Some c \/ In c cs /\ ok q s c <> None.
  Proof.
    induction cs as [|x cs IH]; intros best answer c H; cbn [choose] in H; [left; exact H|]. fold ok in H. destruct (ok q s x) as [n|] eqn:E.
    - destruct (best <? _); apply IH in H.
      + destruct H as [H | [I J]]; [injection H as <-; right; split; [left; reflexivity|congruence]|right; split; [right; exact I|exact J]].
      + destruct H as [H | [I J]]; [left; exact H|right; split; [right; exact I|exact J]].
    - apply IH in H. destruct H as [H | [I J]]; [left; exact H|right; split; [right; exact I|exact J]].
  Qed.

  (** What is guessed is comma, tab, or a character of the text than which fewer than twenty others are more frequent; never a quote or line end. *)
  Theorem C84_candidate : forall s c, fst (guess s) = Some c -> c = comma \/ c = tab \/
    (In c s /\ ~ special c /\ forall others, NoDup others -> (forall x, In x others -> ~ special x /\ often s c < often s x) -> length others < 20).
  Proof.
    intros s c H. unfold guess, guess_delimiter in H. cbn [fst] in H. apply choose_in in H. destruct H as [H | [I _]]; [discriminate|]. unfold candidates in I. apply in_app_or in I.
    destruct I as [[<- | [<- | []]] | I]; [auto|auto|]. right. right. destruct (vocabulary_spec s) as (D & F & V). split; [apply V; eapply In_firstn, I|]. split; [apply V; eapply In_firstn, I|].
    intros others DO H. destruct (In_nth_error _ _ I) as [i E]. assert (Li : i < length (firstn 20 (vocabulary s))) by (apply nth_error_Some; congruence). rewrite firstn_length in Li.
    assert (E2 : nth_error (vocabulary s) i = Some c).
    { rewrite <- (firstn_skipn 20 (vocabulary s)), nth_error_app1; [exact E|]. rewrite firstn_length. lia. }
    assert (IN : incl others (firstn i (vocabulary s))).
    { intros x J. destruct (H x J) as [NS L]. assert (IX : In x (vocabulary s)).
      { apply V. split; [|exact NS]. unfold often in L. destruct (in_dec Ascii.ascii_dec x s) as [Y | Y]; [exact Y|]. rewrite (filter_absent x s Y) in L. cbn in L. lia. }
      clear - F E2 L IX. revert i E2 F IX. induction (vocabulary s) as [|y l IH]; intros i E2 F IX; [destruct IX|]. cbn [falling] in F. destruct F as [F1 F2]. destruct i as [|i].
      - cbn in E2. injection E2 as ->. destruct IX as [<- | IX]; [lia|]. specialize (F1 x IX). lia.
      - cbn [firstn]. destruct IX as [<- | IX]; [left; reflexivity|]. right. apply IH; assumption. }
    apply NoDup_incl_length in IN; [|exact DO]. rewrite firstn_length in IN. lia.
  Qed.

  (** ** Shape of the rows *)
  Lemma check_rows_spec c q : forall rows first largest prior valid safe n v sf, check_rows date number upper alpha c q rows first largest prior valid safe = Some (n, v, sf) ->
    let rows' := match rows with r :: rest => if (length r <=? 1) && first then rest else rows | [] => [] end in
    (forall a r b, rows' = a ++ r :: b -> (forall r', In r' b -> outside c q r' <= outside c q r) /\ (forall p, prior = Some p -> 1 + outside c q r <= p)) /\
    (v = true -> valid = true \/ exists r, In r rows' /\ 0 < outside c q r) /\
    (largest <> 0 -> n = largest) /\ (largest = 0 -> forall r rest, rows' = r :: rest -> n = 1 + outside c q r).
  Proof.
    induction rows as [|row rows IH]; intros first largest prior valid safe n v sf H; cbn [check_rows] in H.
    - injection H as <- <- <-. cbn zeta. split; [intros [|a0 a] r b E; discriminate|]. split; [auto|]. split; [auto|]. intros _ r rest E. discriminate.
    - cbn zeta. destruct ((length row <=? 1) && first)%bool eqn:SK.
      + specialize (IH false largest prior valid safe n v sf H). cbn zeta in IH. assert (X : match rows with r :: rest => if ((length r <=? 1) && false)%bool then rest else rows | [] => [] end = rows) by (destruct rows as [|r rows]; [reflexivity|rewrite Bool.andb_false_r; reflexivity]).
        rewrite X in IH. exact IH.
      + set (cs := cells [c] q row) in *. assert (LC : length cs = 1 + outside c q row) by apply cells_count.
        set (pr := match prior with Some p => p | None => length cs end) in *. destruct (Nat.ltb_spec pr (length cs)) as [L | L]; [discriminate|].
        specialize (IH false _ _ _ _ n v sf H). cbn zeta in IH. assert (X : match rows with r :: rest => if ((length r <=? 1) && false)%bool then rest else rows | [] => [] end = rows) by (destruct rows as [|r rows']; [reflexivity|rewrite Bool.andb_false_r; reflexivity]).
        rewrite X in IH. clear X. destruct IH as (A & B & C & D). split; [|split; [|split]].
        * intros [|a0 a] r b E; cbn [app] in E; injection E as <- E.
          -- subst b. split.
             ++ intros r' J. apply in_split in J. destruct J as (x & y & J). destruct (A x r' y J) as [_ A2]. specialize (A2 _ eq_refl). lia.
             ++ intros p ->. unfold pr in L. lia.
          -- destruct (A a r b E) as [A1 A2]. split; [exact A1|]. intros p ->. specialize (A2 _ eq_refl). unfold pr in L. lia.
        * intros V. destruct (B V) as [B1 | (r & J & P)]; [|right; exists r; split; [right; exact J|exact P]]. apply Bool.orb_true_iff in B1. destruct B1 as [B1 | B1]; [left; exact B1|].
          right. exists row. split; [left; reflexivity|]. apply Nat.ltb_lt in B1. lia.
        * intros NZ. destruct (Nat.eqb_spec largest 0) as [Z | _]; [contradiction|]. apply C, NZ.
        * intros Z r rest E. injection E as <- _. rewrite Z in C. cbn [Nat.eqb] in C. rewrite <- LC. apply C. lia.
  Qed.
  Definition without_last (rows : list text) : list text := match rev rows with r :: rest => if length r <=? 1 then rev rest else rows | [] => [] end.
  Lemma validated_spec q s c n : ok q s c = Some n -> let rows := without_last (rows_looked_at pick c s) in
    (forall a r1 b r2 d, rows = a ++ r1 :: b ++ r2 :: d -> outside c q r1 <= outside c q r2) /\ (exists r, In r rows /\ 0 < outside c q r) /\
    (forall a r, rows = a ++ [r] -> n = 1 + outside c q r).
  Proof.
    unfold ok, validated. destruct (check_rows _ _ _ _ _ _ _ _ _ _ _ _) as [[[n' v] sf]|] eqn:E; [|discriminate]. destruct v; [|discriminate]. destruct sf; [|discriminate]. intros X. injection X as ->.
    apply check_rows_spec in E. cbn zeta in E. set (R := match rev _ with [] => _ | _ => _ end) in E. cbn zeta.
    assert (EQ : without_last (rows_looked_at pick c s) = rev R).
    { unfold without_last, R. destruct (rev (rows_looked_at pick c s)) as [|r rest] eqn:ER; [reflexivity|]. rewrite Bool.andb_true_r. destruct (length r <=? 1); [reflexivity|]. rewrite <- ER. symmetry. apply rev_involutive. }
    rewrite EQ. destruct E as (A & B & _ & D). split; [|split].
    - intros a r1 b r2 d E. assert (ER : R = rev d ++ r2 :: rev b ++ r1 :: rev a).
      { rewrite <- (rev_involutive R), E. rewrite rev_app_distr. cbn [rev]. rewrite rev_app_distr. cbn [rev]. rewrite <- !app_assoc. reflexivity. }
      destruct (A _ _ _ ER) as [A1 _]. apply A1. apply in_or_app. right. left. reflexivity.
    - destruct (B eq_refl) as [B1 | (r & I & P)]; [discriminate|]. exists r. split; [apply in_rev in I; exact I|exact P].
    - intros a r E. apply (D eq_refl r (rev a)). rewrite <- (rev_involutive R), E, rev_app_distr. reflexivity.
  Qed.
  (** In the rows looked at, a row has never more delimiters outside quotes than a row below; and some row has one. *)
  Theorem C84_shape : forall s c, fst (guess s) = Some c -> let q := snd (guess s) in let rows := without_last (rows_looked_at pick c s) in
    (forall a r1 b r2 d, rows = a ++ r1 :: b ++ r2 :: d -> outside c q r1 <= outside c q r2) /\ exists r, In r rows /\ 0 < outside c q r.
  Proof.
    intros s c H q rows. assert (H' := H). unfold guess, guess_delimiter in H'. cbn [fst] in H'. apply choose_in in H'. destruct H' as [H' | [_ H']]; [discriminate|].
    change (match sniff s (firstn 20 (vocabulary s)) with Some q => q | None => dquote end) with q in H'. destruct (ok q s c) as [n|] eqn:E; [|contradiction]. destruct (validated_spec q s c n E) as (A & B & _). split; assumption.
  Qed.
  (** All rows are looked at if there are at most 25. *)
  Theorem C84_rows : forall s c, length (split_at newline s) <= 25 -> rows_looked_at pick c s = split_at newline s.
  Proof. intros s c L. unfold rows_looked_at. destruct (Nat.ltb_spec 25 (length (split_at newline s))); [lia|reflexivity]. Qed.

  (** ** What is accepted, exactly *)
  Definition ctype_of := cell_type date number upper.
  (** A text or an empty cell *)
  Definition word_cell (x : text) : Prop := ctype_of x = CStr \/ ctype_of x = CNone.
  (** Two neighbours that are texts or empty, between letters or one blank; or a whole number beside a digit *)
  Definition clash (c : ascii) (q : ascii) (row : text) : Prop :=
    ((alpha c = true \/ (c = blank /\ outside c q row <= 1)) /\ exists a x y b, cells [c] q row = a ++ x :: y :: b /\ word_cell x /\ word_cell y) \/
    (ctype_of [c] = CInt /\ exists x, In x (cells [c] q row) /\ ctype_of x = CInt).
  Lemma wordy_iff x : wordy (ctype_of x) = true <-> word_cell x.
  Proof. unfold word_cell. destruct (ctype_of x); cbn; split; intros H; try discriminate; auto; destruct H; discriminate. Qed.
  Lemma cells_safe_false c n : forall row prior, cells_safe date number upper alpha c n prior row = false <->
    ((alpha c || (PyDict.eqb c blank && (n <=? 2)))%bool = true /\ ((prior = true /\ exists y b, row = y :: b /\ word_cell y) \/ exists a x y b, row = a ++ x :: y :: b /\ word_cell x /\ word_cell y)) \/
    (ctype_of [c] = CInt /\ exists x, In x row /\ ctype_of x = CInt).
  Proof.
    induction row as [|x row IH]; intros prior; cbn [cells_safe].
    - split; [discriminate|]. intros [[_ [(_ & y & b & E & _) | (a & x & y & b & E & _)]] | (_ & x & [] & _)]; [discriminate|destruct a; discriminate].
    - fold ctype_of. set (A := (alpha c || _)%bool). destruct (wordy (ctype_of x) && prior && A)%bool eqn:E1.
      + split; [intros _|reflexivity]. apply Bool.andb_true_iff in E1. destruct E1 as [E1 EA]. apply Bool.andb_true_iff in E1. destruct E1 as [EW EP]. left. split; [exact EA|]. left. split; [exact EP|]. exists x, row. split; [reflexivity|]. apply wordy_iff, EW.
      + destruct (PyDict.eqb_spec (ctype_of [c]) CInt) as [EC | EC]; [destruct (PyDict.eqb_spec (ctype_of x) CInt) as [EX | EX]|]; cbn [andb].
        * split; [intros _|reflexivity]. right. split; [exact EC|]. exists x. split; [left; reflexivity|exact EX].
        * rewrite IH. fold A. split.
          -- intros [[EA [(EP & y & b & -> & WY) | (a & u & y & b & -> & WU & WY)]] | (_ & y & I & EY)].
             ++ left. split; [exact EA|]. right. exists [], x, y, b. split; [reflexivity|]. split; [apply wordy_iff, EP|exact WY].
             ++ left. split; [exact EA|]. right. exists (x :: a), u, y, b. auto.
             ++ right. split; [exact EC|]. exists y. split; [right; exact I|exact EY].
          -- intros [[EA [(EP & y & b & E & WY) | (a & u & y & b & E & WU & WY)]] | (_ & y & I & EY)].
             ++ exfalso. injection E as <- <-. apply wordy_iff in WY. rewrite WY, EP, EA in E1. discriminate.
             ++ left. split; [exact EA|]. destruct a as [|a0 a]; cbn [app] in E; injection E as <- E.
                ** left. split; [apply wordy_iff, WU|]. exists y, b. auto.
                ** right. exists a, u, y, b. auto.
             ++ right. split; [exact EC|]. destruct I as [<- | I]; [congruence|]. exists y. auto.
        * rewrite IH. fold A. split.
          -- intros [[EA [(EP & y & b & -> & WY) | (a & u & y & b & -> & WU & WY)]] | (EI & _)]; [| |contradiction].
             ++ left. split; [exact EA|]. right. exists [], x, y, b. split; [reflexivity|]. split; [apply wordy_iff, EP|exact WY].
             ++ left. split; [exact EA|]. right. exists (x :: a), u, y, b. auto.
          -- intros [[EA [(EP & y & b & E & WY) | (a & u & y & b & E & WU & WY)]] | (EI & _)]; [| |contradiction].
             ++ exfalso. injection E as <- <-. apply wordy_iff in WY. rewrite WY, EP, EA in E1. discriminate.
             ++ left. split; [exact EA|]. destruct a as [|a0 a]; cbn [app] in E; injection E as <- E.
                ** left. split; [apply wordy_iff, WU|]. exists y, b. auto.
                ** right. exists a, u, y, b. auto.
  Qed.
  Lemma row_unsafe c q row : cells_safe date number upper alpha c (length (cells [c] q row)) false (cells [c] q row) = false <-> clash c q row.
  Proof.
    rewrite cells_safe_false. unfold clash. rewrite cells_count. split; (intros [[EA H] | H]; [left|right; exact H]).
    - apply Bool.orb_true_iff in EA. split.
      + destruct EA as [EA | EA]; [left; exact EA|]. apply Bool.andb_true_iff in EA. destruct EA as [EB EN]. right. apply Nat.leb_le in EN. destruct (PyDict.eqb_spec c blank); [|discriminate]. split; [assumption|lia].
      + destruct H as [[X _] | H]; [discriminate|exact H].
    - split; [|right; exact H]. apply Bool.orb_true_iff. destruct EA as [EA | [-> EN]]; [left; exact EA|]. right. apply Bool.andb_true_iff. split; [reflexivity|]. apply Nat.leb_le. lia.
  Qed.
  (** A loop from the bottom: from row to row, never more *)
  Fixpoint falls (c : ascii) (q : ascii) (prior : option nat) (rows : list text) : bool :=
    match rows with
    | [] => true
    | r :: rest => (match prior with None => true | Some p => 1 + outside c q r <=? p end && falls c q (Some (1 + outside c q r)) rest)%bool
    end.
  Lemma check_rows_exact c q : forall rows largest prior valid safe, check_rows date number upper alpha c q rows false largest prior valid safe =
    if falls c q prior rows then Some (if largest =? 0 then match rows with [] => 0 | r :: _ => 1 + outside c q r end else largest, (valid || existsb (fun r => 0 <? outside c q r) rows)%bool,
      (safe && forallb (fun r => cells_safe date number upper alpha c (length (cells [c] q r)) false (cells [c] q r)) rows)%bool) else None.
  Proof.
    induction rows as [|r rows IH]; intros largest prior valid safe; cbn [check_rows falls existsb forallb].
    - rewrite Bool.orb_false_r, Bool.andb_true_r. destruct (Nat.eqb_spec largest 0) as [-> | _]; reflexivity.
    - rewrite Bool.andb_false_r. rewrite !cells_count. set (m := 1 + outside c q r).
      assert (E : (match prior with Some p => p | None => m end <? m) = negb (match prior with None => true | Some p => m <=? p end)).
      { destruct prior as [p|]; [rewrite Nat.ltb_antisym; reflexivity|rewrite Nat.ltb_irrefl; reflexivity]. }
      rewrite E. destruct (match prior with None => true | Some p => m <=? p end); cbn [negb andb]; [|reflexivity].
      rewrite IH. destruct (falls c q (Some m) rows); [|reflexivity]. rewrite <- Bool.orb_assoc, <- Bool.andb_assoc. do 3 f_equal.
      + destruct (Nat.eqb_spec largest 0) as [-> | NZ]; [reflexivity|]. destruct (Nat.eqb_spec largest 0); [contradiction|reflexivity].
  Qed.
  Lemma falls_iff c q : forall rows prior, falls c q prior rows = true <->
    (forall a r1 b r2 d, rows = a ++ r1 :: b ++ r2 :: d -> outside c q r2 <= outside c q r1) /\ (forall p, prior = Some p -> forall r, In r rows -> 1 + outside c q r <= p).
  Proof.
    induction rows as [|r rows IH]; intros prior; cbn [falls].
    - split; [intros _; split; [intros [|? ?] ? ? ? ? E; discriminate|intros ? _ ? []]|reflexivity].
    - rewrite Bool.andb_true_iff, IH. split.
      + intros (P & A & B). specialize (B _ eq_refl). split.
        * intros a r1 b r2 d E. destruct a as [|a0 a]; cbn [app] in E; injection E as <- E; [|apply (A _ _ _ _ _ E)]. specialize (B r2). rewrite E in B. assert (1 + outside c q r2 <= 1 + outside c q r) by (apply B, in_or_app; right; left; reflexivity). lia.
        * intros p -> x [<- | I]; [apply Nat.leb_le, P|]. apply Nat.leb_le in P. specialize (B x I). lia.
      + intros (A & B). split; [|split].
        * destruct prior as [p|]; [|reflexivity]. apply Nat.leb_le. apply (B p eq_refl). left. reflexivity.
        * intros a r1 b r2 d E. apply (A (r :: a) r1 b r2 d). rewrite E. reflexivity.
        * intros p X x I. injection X as <-. apply in_split in I. destruct I as (b & d & ->). specialize (A [] r b x d eq_refl). lia.
  Qed.
  (** A character is accepted, with n columns, exactly if in the rows looked at (without a last one of at most one character) no row has more delimiters than a row below, some row has one, no row has clashing cells and the last has n cells. *)
  Theorem C84_accepted : forall q s c n, ok q s c = Some n <-> let rows := without_last (rows_looked_at pick c s) in
    (forall a r1 b r2 d, rows = a ++ r1 :: b ++ r2 :: d -> outside c q r1 <= outside c q r2) /\ (exists r, In r rows /\ 0 < outside c q r) /\
    (forall r, In r rows -> ~ clash c q r) /\ exists a r, rows = a ++ [r] /\ n = 1 + outside c q r.
  Proof.
    intros q s c n. cbn zeta. unfold ok, validated.
    assert (X : exists R, without_last (rows_looked_at pick c s) = rev R /\ check_rows date number upper alpha c q (rev (rows_looked_at pick c s)) true 0 None false true = check_rows date number upper alpha c q R false 0 None false true).
    { unfold without_last. destruct (rev (rows_looked_at pick c s)) as [|r rest] eqn:ER; [exists []; split; reflexivity|]. destruct (length r <=? 1) eqn:EL.
      - exists rest. split; [reflexivity|]. cbn [check_rows]. rewrite EL. reflexivity.
      - exists (r :: rest). split; [rewrite <- ER; symmetry; apply rev_involutive|]. cbn [check_rows]. rewrite EL. reflexivity. }
    destruct X as (R & -> & ->). rewrite check_rows_exact. cbn [Nat.eqb orb andb].
    assert (SP : forall a r1 b r2 d, rev R = a ++ r1 :: b ++ r2 :: d <-> R = rev d ++ r2 :: rev b ++ r1 :: rev a).
    { intros a r1 b r2 d. split; intros E.
      - rewrite <- (rev_involutive R), E. rewrite rev_app_distr. cbn [rev]. rewrite rev_app_distr. cbn [rev]. rewrite <- !app_assoc. reflexivity.
      - rewrite E. rewrite rev_app_distr. cbn [rev]. rewrite rev_app_distr. cbn [rev]. rewrite !rev_involutive, <- !app_assoc. reflexivity. }
    split.
    - destruct (falls c q None R) eqn:F; [|discriminate]. destruct (existsb _ R) eqn:EX; [|discriminate]. destruct (forallb _ R) eqn:FA; [|discriminate]. intros H. injection H as <-.
      apply falls_iff in F. destruct F as [F _]. rewrite existsb_exists in EX. destruct EX as (r & I & P). apply Nat.ltb_lt in P. rewrite forallb_forall in FA. repeat split.
      + intros a r1 b r2 d E. apply SP in E. apply (F _ _ _ _ _ E).
      + exists r. split; [apply in_rev in I; exact I|exact P].
      + intros x J C. apply in_rev in J. specialize (FA x J). apply row_unsafe in C. cbv beta in FA. congruence.
      + destruct R as [|r0 R]; [destruct I|]. exists (rev R), r0. split; reflexivity.
    - intros (A & (r & I & P) & C & a & r0 & E & ->).
      assert (F : falls c q None R = true).
      { apply falls_iff. split; [|discriminate]. intros a' r1 b r2 d E'. apply (A (rev d) r2 (rev b) r1 (rev a')). apply SP. rewrite !rev_involutive. exact E'. }
      assert (EX : existsb (fun r => 0 <? outside c q r) R = true) by (apply existsb_exists; exists r; split; [apply in_rev; exact I|apply Nat.ltb_lt, P]).
      assert (FA : forallb (fun r => cells_safe date number upper alpha c (length (cells [c] q r)) false (cells [c] q r)) R = true).
      { apply forallb_forall. intros x J. destruct (cells_safe _ _ _ _ _ _ _ _) eqn:EC; [reflexivity|]. exfalso. apply row_unsafe in EC. apply (C x); [apply in_rev in J; exact J|exact EC]. }
      rewrite F, EX, FA. assert (ER : R = r0 :: rev a) by (rewrite <- (rev_involutive R), E, rev_app_distr; reflexivity). rewrite ER. reflexivity.
  Qed.
  (** The guess is the first of the accepted candidates with the most columns, counted five times for comma and tab; there is none exactly if no candidate is accepted. *)
  Definition weight (c : ascii) (n : nat) : nat := if (Ascii.eqb c comma || Ascii.eqb c tab)%bool then 5 * n else n.
  Lemma weight_eq c n : (if lmem preferred c then 5 * n else n) = weight c n.
  Proof.
    unfold weight. destruct (lmem preferred c) eqn:E.
    - apply lmem_In in E. destruct E as [<- | [<- | []]]; reflexivity.
    - destruct (Ascii.eqb_spec c comma) as [-> | _]; [discriminate|]. destruct (Ascii.eqb_spec c tab) as [-> | _]; [discriminate|reflexivity].
  Qed.
  Lemma choose_exact q s : forall cs best answer c, choose date number upper alpha pick q s cs best answer = Some c <->
    (answer = Some c /\ forall x m, In x cs -> ok q s x = Some m -> weight x m <= best) \/
    exists a b n, cs = a ++ c :: b /\ ok q s c = Some n /\ best < weight c n /\ (forall x m, In x a -> ok q s x = Some m -> weight x m < weight c n) /\ (forall x m, In x b -> ok q s x = Some m -> weight x m <= weight c n).
  Proof.
    induction cs as [|x cs IH]; intros best answer c; cbn [choose].
    - split; [intros ->; left; split; [reflexivity|intros ? ? []]|]. intros [[-> _] | (a & b & n & E & _)]; [reflexivity|destruct a; discriminate].
    - fold ok. destruct (ok q s x) as [k|] eqn:EX.
      + rewrite weight_eq. destruct (Nat.ltb_spec best (weight x k)) as [L | L]; rewrite IH.
        * split.
          -- intros [[E H] | (a & b & n & -> & EC & W & HA & HB)].
             ++ injection E as ->. right. exists [], cs, k. split; [reflexivity|]. split; [exact EX|]. split; [exact L|]. split; [intros ? ? []|exact H].
             ++ right. exists (x :: a), b, n. split; [reflexivity|]. split; [exact EC|]. split; [lia|]. split; [|exact HB]. intros y m [<- | I] E; [|apply HA; assumption]. assert (m = k) by congruence. subst m. exact W.
          -- intros [[_ H] | (a & b & n & E & EC & W & HA & HB)]; [specialize (H x k (or_introl eq_refl) EX); lia|]. destruct a as [|a0 a]; cbn [app] in E; injection E as <- E.
             ++ left. split; [reflexivity|]. assert (n = k) by congruence. subst n. rewrite E. exact HB.
             ++ right. exists a, b, n. split; [exact E|]. split; [exact EC|]. split; [apply (HA x k (or_introl eq_refl) EX)|]. split; [intros y m I; apply HA; right; exact I|exact HB].
        * split.
          -- intros [[E H] | (a & b & n & -> & EC & W & HA & HB)].
             ++ left. split; [exact E|]. intros y m [<- | I] EY; [|apply H; assumption]. assert (m = k) by congruence. subst m. exact L.
             ++ right. exists (x :: a), b, n. split; [reflexivity|]. split; [exact EC|]. split; [exact W|]. split; [|exact HB]. intros y m [<- | I] E; [|apply HA; assumption]. assert (m = k) by congruence. subst m. lia.
          -- intros [[E H] | (a & b & n & E & EC & W & HA & HB)]; [left; split; [exact E|intros y m I; apply H; right; exact I]|]. destruct a as [|a0 a]; cbn [app] in E; injection E as <- E.
             ++ assert (n = k) by congruence. subst n. lia.
             ++ right. exists a, b, n. split; [exact E|]. split; [exact EC|]. split; [exact W|]. split; [intros y m I; apply HA; right; exact I|exact HB].
      + rewrite IH. split.
        * intros [[E H] | (a & b & n & -> & R)]; [left; split; [exact E|]; intros y m [<- | I] EY; [congruence|apply H; assumption]|]. right. exists (x :: a), b, n. destruct R as (EC & W & HA & HB). split; [reflexivity|]. split; [exact EC|]. split; [exact W|]. split; [|exact HB]. intros y m [<- | I] EY; [congruence|apply HA; assumption].
        * intros [[E H] | (a & b & n & E & EC & W & HA & HB)]; [left; split; [exact E|intros y m I; apply H; right; exact I]|]. destruct a as [|a0 a]; cbn [app] in E; injection E as <- E; [congruence|].
          right. exists a, b, n. split; [exact E|]. split; [exact EC|]. split; [exact W|]. split; [intros y m I; apply HA; right; exact I|exact HB].
  Qed.
  Theorem C84_best : forall s c, let q := snd (guess s) in fst (guess s) = Some c <->
    exists a b n, [comma; tab] ++ firstn 20 (vocabulary s) = a ++ c :: b /\ ok q s c = Some n /\
      (forall x m, In x a -> ok q s x = Some m -> weight x m < weight c n) /\ (forall x m, In x b -> ok q s x = Some m -> weight x m <= weight c n).
  Proof.
    intros s c q. unfold guess at 1, guess_delimiter. cbn [fst]. change (match sniff s (firstn 20 (vocabulary s)) with Some q => q | None => dquote end) with q. rewrite choose_exact. split.
    - intros [[E _] | (a & b & n & E & EC & _ & R)]; [discriminate|]. exists a, b, n. auto.
    - intros (a & b & n & E & EC & R). right. exists a, b, n. split; [exact E|]. split; [exact EC|]. split; [|exact R]. apply C84_accepted in EC. destruct EC as (_ & _ & _ & ? & ? & _ & ->). unfold weight. destruct (_ || _)%bool; lia.
  Qed.
  Theorem C84_none : forall s, let q := snd (guess s) in fst (guess s) = None <-> forall c, In c ([comma; tab] ++ firstn 20 (vocabulary s)) -> ok q s c = None.
  Proof.
    intros s q. split.
    - intros H c I. destruct (ok q s c) as [n|] eqn:E; [exfalso|reflexivity].
      assert (X : forall cs best answer, (exists c n, In c cs /\ ok q s c = Some n /\ best < weight c n) \/ answer <> None -> choose date number upper alpha pick q s cs best answer <> None).
      { clear. induction cs as [|x cs IH]; intros best answer H; cbn [choose]; [destruct H as [(c & n & [] & _) | H]; exact H|]. fold ok. destruct (ok q s x) as [k|] eqn:EX.
        - rewrite weight_eq. destruct (Nat.ltb_spec best (weight x k)); apply IH; [right; discriminate|]. destruct H as [(c & n & [<- | I] & E & L) | H]; [|left; exists c, n; auto|right; exact H]. assert (n = k) by congruence. subst n. lia.
        - apply IH. destruct H as [(c & n & [<- | I] & E & L) | H]; [congruence|left; exists c, n; auto|right; exact H]. }
      apply (X (candidates s) 0 None); [|exact H]. left. exists c, n. split; [exact I|]. split; [exact E|]. apply C84_accepted in E. destruct E as (_ & _ & _ & ? & ? & _ & ->). unfold weight. destruct (_ || _)%bool; lia.
    - intros H. destruct (fst (guess s)) as [c|] eqn:E; [|reflexivity]. apply C84_best in E. destruct E as (a & b & n & E & EC & _). rewrite H in EC; [discriminate|]. rewrite E. apply in_or_app. right. left. reflexivity.
  Qed.

  (** ** Tables *)
  Lemma cells_safe_comma n row prior : alpha comma = false -> number [comma] = None -> cells_safe date number upper alpha comma n prior row = true.
  Proof.
    intros HA HN. revert prior. induction row as [|f row IH]; intros prior; [reflexivity|]. cbn [cells_safe]. rewrite HA. change (PyDict.eqb comma blank) with false. cbn [orb andb]. rewrite Bool.andb_false_r.
    assert (X : PyDict.eqb (cell_type date number upper [comma]) CInt = false).
    { unfold cell_type. rewrite HN. destruct (upper [comma]); [reflexivity|]. destruct (date [comma]); reflexivity. }
    rewrite X. cbn [andb]. apply IH.
  Qed.
  Lemma check_rows_table q n : alpha comma = false -> number [comma] = None -> forall rows first prior valid largest, (forall r, In r rows -> 1 < length r /\ outside comma q r = n - 1) -> 1 < n ->
    prior = None \/ prior = Some n -> largest = 0 \/ largest = n ->
    check_rows date number upper alpha comma q rows first largest prior valid true = Some (match rows with [] => largest | _ => n end, (valid || match rows with [] => false | _ => true end)%bool, true).
  Proof.
    intros HA HN. induction rows as [|r rows IH]; intros first prior valid largest H N P LG; cbn [check_rows]; [rewrite Bool.orb_false_r; reflexivity|].
    destruct (H r (or_introl eq_refl)) as [L O]. destruct (Nat.leb_spec (length r) 1); [lia|]. cbn [andb]. assert (LC : length (cells [comma] q r) = n) by (rewrite cells_count, O; lia). rewrite LC.
    assert (EP : match prior with Some p => p | None => n end = n) by (destruct P as [-> | ->]; reflexivity). rewrite EP, Nat.ltb_irrefl, cells_safe_comma by assumption.
    assert (EL : (if largest =? 0 then n else largest) = n) by (destruct LG as [-> | ->]; [reflexivity|destruct (n =? 0); reflexivity]). rewrite EL. cbn [andb].
    rewrite (IH false (Some n) _ n); [|intros x I; apply H; right; exact I|exact N|right; reflexivity|right; reflexivity].
    destruct (Nat.ltb_spec 1 n); [|lia]. rewrite !Bool.orb_true_r. cbn [orb]. destruct rows; reflexivity.
  Qed.
  Lemma choose_stays q s cs best answer : (forall c m, In c cs -> ok q s c = Some m -> (if lmem preferred c then 5 * m else m) <= best) -> choose date number upper alpha pick q s cs best answer = answer.
  Proof.
    revert best answer. induction cs as [|c cs IH]; intros best answer H; [reflexivity|]. cbn [choose]. fold ok. destruct (ok q s c) as [m|] eqn:E.
    - specialize (H c m (or_introl eq_refl) E) as Hc. destruct (Nat.ltb_spec best (if lmem preferred c then 5 * m else m)); [lia|]. apply IH. intros x k I. apply H. right. exact I.
    - apply IH. intros x k I. apply H. right. exact I.
  Qed.
  (** A table of n columns and at most 25 rows is taken to be delimited by commas, unless in its last row some other character gives more than 5 n columns, or tab more than n. *)
  Theorem C84_comma : forall rows row n, alpha comma = false -> number [comma] = None -> let s := table comma (rows ++ [row]) in let q := snd (guess s) in
    comma <> q -> good_table comma q (rows ++ [row]) -> 1 < n -> (forall r, In r (rows ++ [row]) -> length r = n /\ concat r <> []) -> length rows < 25 ->
    (forall c, c <> comma -> 1 + outside c q (join [comma] row) <= if Ascii.eqb c tab then n else 5 * n) -> fst (guess s) = Some comma.
  Proof.
    intros rows row n HA HN s q CQ G N H LR HO.
    assert (LN : split_at newline s = map (join [comma]) (rows ++ [row])) by (apply (table_lines comma q); [discriminate|exact G]).
    assert (RL : forall c, rows_looked_at pick c s = map (join [comma]) (rows ++ [row])).
    { intros c. rewrite C84_rows; [exact LN|]. rewrite LN, map_length, app_length. cbn [length]. rewrite Nat.add_1_r. exact LR. }
    assert (RP : forall r, In r (map (join [comma]) (rows ++ [row])) -> 1 < length r /\ outside comma q r = n - 1).
    { intros r I. apply in_map_iff in I. destruct I as (fs & <- & I). destruct (H fs I) as [LF NE]. split.
      - assert (LJ : forall fs : list text, length (join [comma] fs) = length (concat fs) + (length fs - 1)).
        { clear. induction fs as [|f fs IH]; [reflexivity|]. destruct fs as [|g fs]; [cbn [join concat length]; rewrite app_nil_r; lia|].
          change (join [comma] (f :: g :: fs)) with (f ++ comma :: join [comma] (g :: fs)). cbn [concat] in *. rewrite !app_length in *. cbn [length] in *. rewrite IH. lia. }
        rewrite LJ, LF. destruct (concat fs); [contradiction|]. cbn [length]. lia.
      - assert (X := cells_count comma q (join [comma] fs)). rewrite cells_row in X; [lia|exact CQ|apply G, I|]. intros f J. apply G with (row := fs); assumption. }
    assert (WL : forall c, without_last (rows_looked_at pick c s) = map (join [comma]) rows ++ [join [comma] row]).
    { intros c. rewrite RL. rewrite map_app. cbn [map]. unfold without_last. rewrite rev_app_distr. cbn [rev app]. destruct (Nat.leb_spec (length (join [comma] row)) 1) as [B | B]; [|reflexivity].
      destruct (RP (join [comma] row)) as [X _]; [apply in_map, in_or_app; right; left; reflexivity|]. lia. }
    assert (VC : ok q s comma = Some n).
    { unfold ok, validated. rewrite RL. rewrite (check_rows_table q n HA HN); [|intros r I; apply in_rev in I; apply RP, I|exact N|left; reflexivity|left; reflexivity].
      rewrite map_app, rev_app_distr. cbn [map rev app orb]. reflexivity. }
    unfold guess at 1, guess_delimiter. cbn [fst]. change (match sniff s (firstn 20 (vocabulary s)) with Some q => q | None => dquote end) with q. unfold candidates. cbn [app preferred choose]. fold ok. rewrite VC.
    change (lmem preferred comma) with true. cbv iota. destruct (Nat.ltb_spec 0 (5 * n)); [|lia].
    assert (W : forall c m, c <> comma -> ok q s c = Some m -> (if lmem preferred c then 5 * m else m) <= 5 * n).
    { intros c m NC E. destruct (validated_spec q s c m E) as (_ & _ & V). rewrite (V _ _ (WL c)). specialize (HO c NC). destruct (Ascii.eqb_spec c tab) as [ET | NT].
      - assert (PT : lmem preferred c = true) by (rewrite ET; reflexivity). rewrite PT. cbv iota. lia.
      - destruct (lmem preferred c) eqn:P; [|lia]. apply lmem_In in P. destruct P as [P | [P | []]]; congruence. }
    assert (NV : forall c, In c (firstn 20 (vocabulary s)) -> c <> comma).
    { intros c I E. apply In_firstn in I. destruct (vocabulary_spec s) as (_ & _ & V). apply V in I. destruct I as [_ I]. apply I. unfold special. auto. }
    destruct (ok q s tab) as [m|] eqn:ET.
    - assert (X := W tab m ltac:(discriminate) ET). change (lmem preferred tab) with true in *. cbv iota in *. destruct (Nat.ltb_spec (5 * n) (5 * m)); [lia|]. apply choose_stays. intros c k I E. apply W; [apply NV, I|exact E].
    - apply choose_stays. intros c k I E. apply W; [apply NV, I|exact E].
  Qed.
End Delimiter.

(** ** What users expect and does not hold *)
Definition ex_alpha (c : ascii) : bool := is_upper c || is_lower c.
Definition ex_delimiter (pick : ascii -> nat -> nat) := guess_delimiter ex_date ex_number ex_upper ex_alpha (fun _ _ => None) pick.
(** The delimiter of the same text may depend on chance: if a row with fewer columns is drawn again, it stands at the bottom. *)
Theorem C84_random_refuted : ~ forall s pick pick', fst (ex_delimiter pick s) = fst (ex_delimiter pick' s).
Proof.
  intros H. specialize (H (L (T "title" :: repeat (T "a,b") 34)) (fun _ _ => 0) (fun _ _ => 1)). vm_compute in H. discriminate H.
Qed.
(** Rows below the 25th are not looked at: the delimiter need not occur there. *)
Theorem C84_late_refuted : forall pick, fst (ex_delimiter pick (L (repeat (T "a,b") 25 ++ [T "1;2;3"]))) = Some comma.
Proof. intros pick. vm_compute. reflexivity. Qed.
(** A table delimited by commas is taken to be delimited by blanks if its cells have many words. *)
Theorem C84_blanks_refuted : forall pick, fst (ex_delimiter pick (L (repeat (T "it was a day like any other in the old town,said he") 6))) = Some blank.
Proof. intros pick. vm_compute. reflexivity. Qed.
Example C84_example : cells [comma] dquote (T "a,""b,c"",d") = [T "a"; T """b,c"""; T "d"] /\
  ex_delimiter (fun _ n => n) (L [T "name,age"; T "ann,30"; T "bob,41"]) = (Some comma, dquote) /\ ex_delimiter (fun _ n => n) (L [T "name;age"; T "ann;30"; T "bob;41"]) = (Some (ascii_of_nat 59), dquote) /\
  fst (ex_delimiter (fun _ n => n) (L [T "alone"; T "here"])) = None.
Proof. vm_compute. auto. Qed.
(** A letter between numbers is accepted, between texts not; a digit beside a number not. *)
Example C84_example2 : fst (ex_delimiter (fun _ n => n) (L [T "10a20"; T "30a40"; T "50a60"])) = Some (ascii_of_nat 97) /\
  fst (ex_delimiter (fun _ n => n) (L [T "xay"; T "zaw"; T "uav"])) = None /\ fst (ex_delimiter (fun _ n => n) (L [T "718"; T "719"; T "715"])) = None.
Proof. vm_compute. auto. Qed.
