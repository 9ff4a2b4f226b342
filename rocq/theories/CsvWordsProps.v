(** C82, continued: tables of words *)
From Coq Require Import Ascii Lia.
From Coq Require String.
From Verif Require Import PyCommon PyDict PyString PyEq ListFacts TextModel ReadModel StructModel CsvModel CsvCells CsvHeaderProps.
Local Open Scope nat_scope.
Local Open Scope list_scope.

(** The number of words of a cell: one more than the blanks between its ends *)
Definition words_of (f : text) : nat := match strip f with [] => 0 | t => 1 + length (filter (fun x => PyDict.eqb x blank) t) end.
Lemma split_at_length c s : length (split_at c s) = 1 + length (filter (fun x => PyDict.eqb x c) s).
Proof.
  induction s as [|x s IH]; [reflexivity|]. cbn [split_at filter]. destruct (PyDict.eqb x c); cbn [length]; [rewrite IH; reflexivity|].
  destruct (split_at c s); cbn [length] in *; lia.
Qed.
Lemma words_words_of f : words f = words_of f.
Proof. unfold words, words_of. destruct (strip f); [reflexivity|apply split_at_length]. Qed.

Definition column (j : nat) (rows : list (list text)) : list nat := map (fun row => words_of (nth j row [])) rows.

Lemma add_row_nth i row : forall sts j, length row = length sts ->
  nth_error (add_row i row sts) j = match nth_error sts j with Some st => Some (add_stats i (words (nth j row [])) (Some st)) | None => None end.
Proof.
  induction row as [|f row IH]; intros [|st sts] j L; try discriminate; cbn [add_row].
  - destruct j; reflexivity.
  - destruct j as [|j]; [reflexivity|]. cbn [nth_error nth]. apply IH. cbn in L. lia.
Qed.
Lemma add_row_length i row : forall sts, length row = length sts -> length (add_row i row sts) = length sts.
Proof. induction row as [|f row IH]; intros [|st sts] L; try discriminate; [reflexivity|]. cbn [add_row length]. rewrite IH; cbn in L; lia. Qed.
Lemma add_row_new i row : forall j, nth_error (add_row i row []) j = match nth_error row j with Some f => Some (add_stats i (words f) None) | None => None end.
Proof. induction row as [|f row IH]; intros j; cbn [add_row]; [destruct j; reflexivity|]. destruct j as [|j]; [reflexivity|]. cbn [nth_error]. apply IH. Qed.
Lemma add_row_new_length i row : length (add_row i row []) = length row.
Proof. induction row as [|f row IH]; [reflexivity|]. cbn [add_row length]. rewrite IH. reflexivity. Qed.

Lemma fold_max_ge l : forall a, a <= fold_left Nat.max l a /\ (forall x, In x l -> x <= fold_left Nat.max l a) /\ (fold_left Nat.max l a = a \/ In (fold_left Nat.max l a) l).
Proof.
  induction l as [|x l IH]; intros a; cbn [fold_left]; [split; [lia|]; split; [intros x []|left; reflexivity]|]. destruct (IH (Nat.max a x)) as (H1 & H2 & H3). split; [lia|]. split.
  - intros y [<- | I]; [lia|apply H2, I].
  - destruct H3 as [-> | I]; [|right; right; exact I]. destruct (Nat.max_dec a x) as [-> | ->]; [left; reflexivity|right; left; reflexivity].
Qed.
Lemma fold_min_le l : forall a, fold_left Nat.min l a <= a /\ (forall x, In x l -> fold_left Nat.min l a <= x) /\ (fold_left Nat.min l a = a \/ In (fold_left Nat.min l a) l).
Proof.
  induction l as [|x l IH]; intros a; cbn [fold_left]; [split; [lia|]; split; [intros x []|left; reflexivity]|]. destruct (IH (Nat.min a x)) as (H1 & H2 & H3). split; [lia|]. split.
  - intros y [<- | I]; [lia|apply H2, I].
  - destruct H3 as [-> | I]; [|right; right; exact I]. destruct (Nat.min_dec a x) as [-> | ->]; [left; reflexivity|right; left; reflexivity].
Qed.

Lemma col_stats_spec rows : forall i sts, (forall row, In row rows -> length row = length sts) ->
  length (col_stats i rows sts) = length sts /\
  forall j st, nth_error sts j = Some st -> s_first st = Some 0 -> exists st', nth_error (col_stats i rows sts) j = Some st' /\ s_first st' = Some 0 /\
    s_max st' = fold_left Nat.max (column j rows) (s_max st) /\ s_min st' = fold_left Nat.min (column j rows) (s_min st).
Proof.
  induction rows as [|row rows IH]; intros i sts H; cbn [col_stats].
  - split; [reflexivity|]. intros j st E F. exists st. auto.
  - assert (L := H row (or_introl eq_refl)). assert (L2 := add_row_length i row sts L).
    destruct (IH (i + 1) (add_row i row sts)) as [IH1 IH2]; [intros r I; rewrite L2; apply H; right; exact I|]. split; [congruence|].
    intros j st E F. specialize (IH2 j). rewrite (add_row_nth i row sts j L), E in IH2. destruct (IH2 _ eq_refl) as (st' & E' & F' & M1 & M2).
    + cbn. rewrite F. reflexivity.
    + exists st'. split; [exact E'|]. split; [exact F'|]. rewrite M1, M2. cbn [column map fold_left add_stats s_max s_min]. rewrite words_words_of.
      split; f_equal; match goal with |- context [?a <? ?b] => destruct (Nat.ltb_spec a b) end; symmetry; first [apply Nat.max_r; apply Nat.lt_le_incl; assumption | apply Nat.max_l; assumption | apply Nat.min_r; apply Nat.lt_le_incl; assumption | apply Nat.min_l; assumption].
Qed.

Lemma last_first_all sts : forall n, (forall st, In st sts -> s_first st = Some 0) -> last_first sts 0 n = (0, n + length sts).
Proof.
  induction sts as [|st sts IH]; intros n H; cbn [last_first length]; [rewrite Nat.add_0_r; reflexivity|]. rewrite (H st (or_introl eq_refl)). cbn [Nat.ltb Nat.leb Nat.eqb].
  rewrite IH by (intros x I; apply H; right; exact I). f_equal. lia.
Qed.

Section Words.
  Variable date : text -> bool.
  Variable number : text -> option bool.
  Variable upper : text -> bool.
  Let kind (f : text) : ctype := cell_type date number upper (strip f).
  Let guess := guess_header date number upper.

  (** If all cells are words, the first row is the header if the numbers of words of two cells of a column differ by two or more, and there is none otherwise. *)
  Theorem C82_words : forall c q n rows, c <> q -> c <> newline -> good_table c q rows -> (forall row, In row rows -> length row = n /\ forall f, In f row -> kind f = CStr) ->
    (guess (table c rows) (Some [c]) (Some q) = Some 0 /\ exists j r1 r2, j < n /\ In r1 rows /\ In r2 rows /\ words_of (nth j r1 []) + 2 <= words_of (nth j r2 [])) \/
    (guess (table c rows) (Some [c]) (Some q) = None /\ forall j r1 r2, j < n -> In r1 rows -> In r2 rows -> words_of (nth j r2 []) <= words_of (nth j r1 []) + 1).
  Proof.
    intros c q n rows CQ N G H. destruct rows as [|row0 rows]; [destruct G as [G _]; contradiction|].
    assert (NP : 0 < n). { destruct (H row0 (or_introl eq_refl)) as [<- _]. destruct G as [_ G]. destruct (G row0 (or_introl eq_refl)) as [X _]. destruct row0; [contradiction|cbn; lia]. }
    assert (NE : table c (row0 :: rows) <> []).
    { apply (table_ne date number upper c q); [exact G|]. destruct row0 as [|f row0]; [destruct (H [] (or_introl eq_refl)) as [X _]; cbn in X; lia|].
      exists (f :: row0), f. split; [left; reflexivity|]. split; [left; reflexivity|]. fold (kind f). destruct (H _ (or_introl eq_refl)) as [_ X]. rewrite (X f (or_introl eq_refl)). discriminate. }
    unfold guess, guess_header. destruct (table c (row0 :: rows)) as [|x s] eqn:Es; [contradiction|]. rewrite <- Es. clear NE x s Es.
    change (types_of date number upper [c] q (table c (row0 :: rows))) with (kinds date number upper c q (table c (row0 :: rows))).
    rewrite (kinds_table date number upper c q _ CQ N G). fold kind. rewrite (table_cells c q _ CQ N G).
    set (K := map (map kind) (row0 :: rows)).
    assert (KS : forall r t, In r K -> In t r -> t = CStr).
    { intros r t I J. apply in_map_iff in I. destruct I as (row & <- & I). apply in_map_iff in J. destruct J as (f & <- & J). apply (proj2 (H row I) f J). }
    assert (KL : forall r, In r K -> length r = n) by (intros r I; apply in_map_iff in I; destruct I as (row & <- & I); rewrite map_length; apply (H row I)).
    assert (O : forallb (fun row => forallb wordy row) K = true).
    { apply forallb_forall. intros r I. apply forallb_forall. intros t J. rewrite (KS r t I J). reflexivity. }
    rewrite O. destruct (loop_kinds K) as (answer & change & prior & E & I). rewrite E. destruct I as [_ IC _].
    assert (C : change = false).
    { apply Bool.not_true_iff_false. intro T. apply IC in T. destruct T as (a & r & b & EK & D).
      assert (R : forall r, In r K -> r = repeat CStr n).
      { intros r0 I. rewrite <- (KL r0 I). assert (X := KS r0). clear - X I. assert (Y : forall t, In t r0 -> t = CStr) by (intros t J; apply (X t I J)). clear X I.
        induction r0 as [|t r0 IH]; [reflexivity|]. cbn [length repeat]. rewrite (Y t (or_introl eq_refl)) at 1. f_equal. apply IH. intros u J. apply Y. right. exact J. }
      assert (r = repeat CStr n) as -> by (apply R; rewrite EK; apply in_or_app; right; left; reflexivity).
      assert (P : forall r, In r a -> r = repeat CStr n) by (intros r I; apply R; rewrite EK; apply in_or_app; left; exact I).
      assert (AB : above a (repeat CStr n) = repeat CStr n).
      { unfold above. assert (X : forall l x, (forall r, In r l -> r = repeat CStr n) -> x = repeat CStr n -> fold_left (fun p r => if has_data r then r else p) l x = repeat CStr n).
        { induction l as [|r l IH]; intros x Hl Hx; [exact Hx|]. cbn [fold_left]. apply IH; [intros y I; apply Hl; right; exact I|]. destruct (has_data r); [apply Hl; left; reflexivity|exact Hx]. }
        apply X; [exact P|]. destruct a as [|p a]; [reflexivity|]. apply P. left. reflexivity. }
      unfold different in D. rewrite AB in D. destruct (_ || _)%bool; [lia|]. rewrite unlikes_self in D. lia. }
    rewrite C. cbn [col_stats]. destruct (H row0 (or_introl eq_refl)) as [L0 K0].
    assert (LN : length (add_row 0 row0 []) = n) by (rewrite add_row_new_length; exact L0).
    destruct (col_stats_spec rows (0 + 1) (add_row 0 row0 [])) as [CL CS]; [intros row I; rewrite LN; apply H; right; exact I|].
    set (sts := col_stats (0 + 1) rows (add_row 0 row0 [])) in *.
    assert (S : forall j, j < n -> exists st, nth_error sts j = Some st /\ s_first st = Some 0 /\
      s_max st = fold_left Nat.max (column j rows) (words_of (nth j row0 [])) /\ s_min st = fold_left Nat.min (column j rows) (words_of (nth j row0 []))).
    { intros j J. assert (W := add_row_new 0 row0 j). destruct (nth_error row0 j) as [f|] eqn:Ef; [|apply nth_error_None in Ef; lia].
      rewrite (nth_error_nth row0 j [] Ef). destruct (CS j _ W) as (st' & E1 & E2 & E3 & E4).
      - cbn [add_stats s_first]. rewrite words_words_of. assert (X := K0 f (nth_error_In _ _ Ef)). unfold words_of. unfold kind in X. destruct (strip f); [discriminate X|reflexivity].
      - exists st'. split; [exact E1|]. split; [exact E2|]. rewrite E3, E4. cbn [add_stats s_max s_min]. rewrite Nat.ltb_irrefl, words_words_of. auto. }
    assert (F : forall st, In st sts -> s_first st = Some 0).
    { intros st I. apply In_nth_error in I. destruct I as [j J]. destruct (S j) as (st' & E1 & E2 & _); [rewrite <- LN, <- CL; apply nth_error_Some; congruence|]. congruence. }
    rewrite (last_first_all sts 0 F). rewrite CL, LN. cbn [Nat.add].
    assert (HN : n / 2 <? n = true) by (apply Nat.ltb_lt, Nat.div_lt; lia). rewrite HN, Bool.andb_true_r.
    assert (COL : forall j r, j < n -> In r (row0 :: rows) -> fold_left Nat.min (column j rows) (words_of (nth j row0 [])) <= words_of (nth j r []) <= fold_left Nat.max (column j rows) (words_of (nth j row0 []))).
    { intros j r J I. destruct (fold_max_ge (column j rows) (words_of (nth j row0 []))) as (A1 & A2 & _). destruct (fold_min_le (column j rows) (words_of (nth j row0 []))) as (B1 & B2 & _).
      destruct I as [<- | I]; [lia|]. assert (Y : In (words_of (nth j r [])) (column j rows)) by (unfold column; apply in_map_iff; eauto). specialize (A2 _ Y). specialize (B2 _ Y). lia. }
    assert (ATT : forall j, exists r1 r2, In r1 (row0 :: rows) /\ In r2 (row0 :: rows) /\ words_of (nth j r1 []) = fold_left Nat.min (column j rows) (words_of (nth j row0 [])) /\
      words_of (nth j r2 []) = fold_left Nat.max (column j rows) (words_of (nth j row0 []))).
    { intros j. destruct (fold_max_ge (column j rows) (words_of (nth j row0 []))) as (_ & _ & A). destruct (fold_min_le (column j rows) (words_of (nth j row0 []))) as (_ & _ & B).
      assert (X2 : exists r2, In r2 (row0 :: rows) /\ words_of (nth j r2 []) = fold_left Nat.max (column j rows) (words_of (nth j row0 []))).
      { destruct A as [A | A]; [exists row0; split; [left; reflexivity|congruence]|]. unfold column in A at 2. apply in_map_iff in A. destruct A as (r & A & I). exists r. split; [right; exact I|exact A]. }
      assert (X1 : exists r1, In r1 (row0 :: rows) /\ words_of (nth j r1 []) = fold_left Nat.min (column j rows) (words_of (nth j row0 []))).
      { destruct B as [B | B]; [exists row0; split; [left; reflexivity|congruence]|]. unfold column in B at 2. apply in_map_iff in B. destruct B as (r & B & I). exists r. split; [right; exact I|exact B]. }
      destruct X1 as (r1 & I1 & E1), X2 as (r2 & I2 & E2). exists r1, r2. auto. }
    destruct (existsb (fun st => 1 <? s_max st - s_min st) sts) eqn:V.
    - left. split; [reflexivity|]. apply existsb_exists in V. destruct V as (st & I & V). apply Nat.ltb_lt in V. apply In_nth_error in I. destruct I as [j J].
      assert (JN : j < n) by (rewrite <- LN, <- CL; apply nth_error_Some; congruence). destruct (S j JN) as (st' & E1 & _ & E3 & E4). assert (st' = st) as -> by congruence.
      destruct (ATT j) as (r1 & r2 & I1 & I2 & W1 & W2). exists j, r1, r2. repeat split; try assumption. lia.
    - right. split; [reflexivity|]. intros j r1 r2 JN I1 I2. destruct (S j JN) as (st & E1 & _ & E3 & E4).
      assert (NV : (1 <? s_max st - s_min st) = false).
      { apply Bool.not_true_iff_false. intro T. apply Bool.not_true_iff_false in V. apply V, existsb_exists. exists st. split; [eapply nth_error_In, E1|exact T]. }
      apply Nat.ltb_ge in NV. assert (X := COL j r1 JN I1). assert (Y := COL j r2 JN I2). lia.
  Qed.
End Words.

(** ** Examples: digits are whole numbers, capital letters are in upper case *)
Definition T (s : String.string) : text := String.list_ascii_of_string s.
Arguments T s%string_scope.
Definition is_digit (c : ascii) : bool := let n := nat_of_ascii c in (48 <=? n) && (n <=? 57).
Definition ex_number (t : text) : option bool := match t with [] => None | _ => if forallb is_digit t then Some true else None end.
Definition ex_upper (t : text) : bool := existsb is_upper t && negb (existsb is_lower t).
Definition ex_date (t : text) : bool := false.
Definition ex_guess := guess_header ex_date ex_number ex_upper.

(** A table with a row of names is read with the first row of data as the header if it has eleven columns and one of numbers. *)
Definition wide_names : list text := [T "a"; T "b"; T "c"; T "d"; T "e"; T "f"; T "g"; T "h"; T "i"; T "j"; T "number"].
Definition wide_row (n : String.string) : list text := [T "u"; T "v"; T "w"; T "x"; T "y"; T "z"; T "u"; T "v"; T "w"; T "x"; T n].
Arguments wide_row n%string_scope.
Theorem C82_wide_refuted : ~ forall names first rest, good_table comma dquote (names :: first :: rest) ->
  (forall f, In f names -> cell_type ex_date ex_number ex_upper f = CStr) -> (exists f, In f first /\ cell_type ex_date ex_number ex_upper f = CInt) ->
  (forall row, In row (first :: rest) -> length row = length names) ->
  ex_guess (table comma (names :: first :: rest)) (Some [comma]) (Some dquote) = Some 0.
Proof.
  intros H. specialize (H wide_names (wide_row "1") [wide_row "2"; wide_row "3"]).
  assert (X : ex_guess (table comma [wide_names; wide_row "1"; wide_row "2"; wide_row "3"]) (Some [comma]) (Some dquote) = Some 0).
  { apply H.
    - split; [discriminate|]. intros row I. split; [destruct I as [<- | [<- | [<- | [<- | []]]]]; discriminate|]. intros f J.
      assert (P : forall f, existsb (fun x => Ascii.eqb x comma || Ascii.eqb x dquote || Ascii.eqb x newline)%bool f = false -> (plain comma dquote f \/ quoted dquote f) /\ ~ In newline f).
      { intros g Hg. assert (Q : forall y, In y g -> (Ascii.eqb y comma || Ascii.eqb y dquote || Ascii.eqb y newline)%bool = false).
        { intros y Iy. apply Bool.not_true_iff_false. intro Ty. apply Bool.not_true_iff_false in Hg. apply Hg, existsb_exists. eauto. }
        split; [left; split|]; intro Iy; specialize (Q _ Iy); vm_compute in Q; discriminate. }
      apply P. revert f J. apply Forall_forall. destruct I as [<- | [<- | [<- | [<- | []]]]]; repeat constructor.
    - apply Forall_forall. repeat constructor.
    - exists (T "1"). split; [|reflexivity]. cbn. auto 15.
    - intros row [<- | [<- | [<- | []]]]; reflexivity. }
  vm_compute in X. discriminate X.
Qed.
(** Names above words are not found if the cells have about as many words. *)
Theorem C82_names_refuted : ex_guess (table comma [[T "name"; T "town"]; [T "ann"; T "paris"]; [T "bob"; T "rome"]]) (Some [comma]) (Some dquote) = None.
Proof. reflexivity. Qed.
(** Words without names have a header if some cell has more words. *)
Theorem C82_data_refuted : ex_guess (table comma [[T "ann"; T "paris"]; [T "bob"; T "rome"]; [T "cleo of egypt"; T "oslo"]]) (Some [comma]) (Some dquote) = Some 0.
Proof. reflexivity. Qed.
(** Names in capital letters above words are found, unlike others. *)
Example C82_example :
  ex_guess (table comma [[T "name"; T "age"]; [T "ann"; T "30"]; [T "bob"; T "41"]]) (Some [comma]) (Some dquote) = Some 0 /\
  ex_guess (table comma [[T "a report"]; [T ""]; [T "name"; T "age"]; [T "ann"; T "30"]; [T "bob"; T "41"]]) (Some [comma]) (Some dquote) = Some 2 /\
  ex_guess (table comma [[T "NAME"; T "TOWN"]; [T "ann"; T "paris"]; [T "bob"; T "rome"]]) (Some [comma]) (Some dquote) = Some 0 /\
  ex_guess (table comma [[T "1"; T "2"]; [T "3"; T "4"]]) (Some [comma]) (Some dquote) = None.
Proof. repeat split. Qed.
