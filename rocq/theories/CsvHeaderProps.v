(** C82: the row with the names of the columns *)
From Coq Require Import Ascii Lia.
From Verif Require Import PyCommon PyDict PyString PyEq ListFacts TextModel ReadModel StructModel CsvModel CsvCells.
Local Open Scope nat_scope.
Local Open Scope list_scope.

(** What a row is compared with: the last row above that is not empty (the first row if there is none) *)
Definition has_data (row : list ctype) : bool := existsb (fun t => negb (ctype_eqb t CNone)) row.
Definition above (pre : list (list ctype)) (row : list ctype) : list ctype := fold_left (fun p r => if has_data r then r else p) pre (hd row pre).
Definition number_of (p : ctype -> bool) (row : list ctype) : nat := length (filter p row).
Definition is_type (t u : ctype) : bool := ctype_eqb u t.
Definition full (row : list ctype) : nat := number_of (fun t => negb (is_type CNone t)) row.
(** In how many places a row differs from another; a place that the other does not have differs *)
Definition unlike (row other : list ctype) (p : nat) : bool :=
  match nth_error row p, nth_error other p with Some a, Some b => negb (ctype_eqb a b) | _, _ => true end.
Definition unlikes (row other : list ctype) : nat := length (filter (unlike row other) (seq 0 (length row))).
(** A row with no data, or with more data than the other has cells, counts as no different. *)
Definition different (pre : list (list ctype)) (row : list ctype) : nat :=
  if (full row =? 0) || (length (above pre row) <? full row) then 0 else unlikes row (above pre row).
(** A row that may be the header: more than nine tenths are words or empty, fewer than half are empty, fewer than a tenth differ; no row above
    has more data, and none differs. *)
Definition header_like (pre : list (list ctype)) (row : list ctype) : Prop :=
  9 * length row < 10 * (number_of (is_type CStr) row + number_of (is_type CUp) row + number_of (is_type CNone) row) /\
  2 * number_of (is_type CNone) row < length row /\ 10 * different pre row < length row /\
  (forall r, In r pre -> full r <= full row) /\ (forall a r b, pre = a ++ r :: b -> different a r = 0).

Lemma occ_number t row : occ t row = number_of (is_type t) row.
Proof.
  unfold number_of, is_type. induction row as [|u row IH]; [reflexivity|]. cbn [occ filter]. change (PyDict.eqb u t) with (ctype_eqb u t).
  destruct (ctype_eqb u t); cbn [length]; lia.
Qed.
Lemma filled_full row : filled row = full row.
Proof.
  unfold filled, full. rewrite occ_number. unfold number_of. induction row as [|u row IH]; [reflexivity|]. cbn [filter length].
  assert (L : length (filter (is_type CNone) row) <= length row) by (clear; induction row as [|v row IHr]; cbn; [lia|]; destruct (is_type CNone v); cbn; lia). destruct (is_type CNone u); cbn [negb length] in *; lia.
Qed.
Lemma has_data_full row : has_data row = (0 <? full row).
Proof.
  unfold has_data, full, number_of. induction row as [|u row IH]; [reflexivity|]. cbn [existsb filter]. unfold is_type at 1. destruct (ctype_eqb u CNone); cbn [negb orb].
  - exact IH.
  - reflexivity.
Qed.
Lemma row_diff_unlikes row : forall pot, occ true (row_diff row pot) = unlikes row pot.
Proof.
  unfold unlikes. induction row as [|t row IH]; intros pot; [reflexivity|]. cbn [length seq row_diff]. rewrite <- seq_shift. cbn [filter].
  assert (M : forall pot', length (filter (unlike (t :: row) pot') (map S (seq 0 (length row)))) = length (filter (unlike row (tl pot')) (seq 0 (length row)))).
  { intros pot'. generalize (seq 0 (length row)). induction l as [|x l IHl]; [reflexivity|]. cbn [map filter].
    assert (E : unlike (t :: row) pot' (S x) = unlike row (tl pot') x).
    { unfold unlike. cbn [nth_error]. destruct pot' as [|u pot']; cbn [nth_error tl]; [assert (nth_error (@nil ctype) x = None) as -> by (destruct x; reflexivity); reflexivity|reflexivity]. }
    rewrite E. destruct (unlike row (tl pot') x); cbn [length]; rewrite IHl; reflexivity. }
  destruct pot as [|u pot]; cbn [occ].
  - unfold unlike at 1. cbn [nth_error length]. rewrite IH. specialize (M []). cbn [tl] in M. rewrite M. reflexivity.
  - unfold unlike at 1. cbn [nth_error]. rewrite IH. change (PyDict.eqb t u) with (ctype_eqb t u). specialize (M (u :: pot)). cbn [tl] in M. destruct (ctype_eqb t u); cbn; rewrite M; reflexivity.
Qed.
Lemma occ_repeat_false n : occ true (repeat false n) = 0.
Proof. induction n as [|n IH]; [reflexivity|]. cbn [repeat occ]. exact IH. Qed.

Lemma above_snoc pre row next : pre <> [] -> above (pre ++ [row]) next = if has_data row then row else above pre row.
Proof.
  intros NE. unfold above. destruct pre as [|p pre]; [contradiction|]. rewrite fold_left_app. cbn [fold_left app hd]. reflexivity.
Qed.

Record inv (pre : list (list ctype)) (prior : nat) (change : bool) (answer : option nat) : Prop := {
  i_prior : (forall r, In r pre -> full r <= prior) /\ (prior = 0 \/ exists r, In r pre /\ full r = prior);
  i_change : change = true <-> exists a r b, pre = a ++ r :: b /\ 0 < different a r;
  i_answer : match answer with
             | None => forall a r b, pre = a ++ r :: b -> ~ header_like a r
             | Some i => (exists a r b, pre = a ++ r :: b /\ length a = i /\ header_like a r) /\ forall a r b, pre = a ++ r :: b -> i < length a -> ~ header_like a r
             end }.

Lemma snoc_split {A} (pre : list A) x a r b : pre ++ [x] = a ++ r :: b -> (exists b', pre = a ++ r :: b' /\ b = b' ++ [x]) \/ (a = pre /\ r = x /\ b = []).
Proof.
  intros E. destruct b as [|z b _] using rev_ind.
  - apply app_inj_tail in E. destruct E as [-> ->]. right. auto.
  - rewrite app_comm_cons, app_assoc in E. apply app_inj_tail in E. destruct E as [-> ->]. left. exists b. auto.
Qed.

Lemma loop_inv rows : forall pre pot prior change answer, inv pre prior change answer ->
  (forall row rest, rows = row :: rest -> pot = above pre row) ->
  exists prior' answer' change', last_header rows (differences pot rows) (length pre) prior change answer = (answer', change') /\ inv (pre ++ rows) prior' change' answer'.
Proof.
  induction rows as [|row rows IH]; intros pre pot prior change answer I HP.
  - exists prior, answer, change. rewrite app_nil_r. split; [reflexivity|exact I].
  - specialize (HP row rows eq_refl). cbn [differences last_header]. rewrite filled_full. set (diff := if ((length pot <? full row) || (full row =? 0))%bool then repeat false (length row) else row_diff row pot).
    assert (D : occ true diff = different pre row).
    { unfold diff, different. rewrite <- HP. rewrite Bool.orb_comm. destruct ((full row =? 0) || (length pot <? full row))%bool; [apply occ_repeat_false|apply row_diff_unlikes]. }
    rewrite D. clear diff D. rewrite !occ_number.
    set (good := ((9 * length row <? _) && _ && _)%bool). set (inc := ((prior <=? full row) && _)%bool).
    set (ans := if (good && inc && negb change)%bool then Some (length pre) else answer). set (ch := (change || _)%bool). set (pr := if inc then full row else prior).
    assert (Dpos : 0 < different pre row -> 0 < full row).
    { unfold different. destruct (Nat.eqb_spec (full row) 0); cbn [orb]; [lia|]. lia. }
    assert (HL : (good && inc && negb change)%bool = true <-> header_like pre row).
    { unfold good, inc, header_like. rewrite !Bool.andb_true_iff, !Nat.ltb_lt, Nat.leb_le, Bool.negb_true_iff. destruct (i_prior _ _ _ _ I) as [P1 P2]. split.
      - intros [[[[G1 G2] G3] [F1 F2]] C]. repeat split; try assumption.
        + intros r J. specialize (P1 r J). lia.
        + intros a r b E. destruct (Nat.eq_0_gt_0_cases (different a r)) as [Z | Z]; [exact Z|].
          exfalso. assert (change = true) by (apply (i_change _ _ _ _ I); eauto). congruence.
      - intros (G1 & G2 & G3 & G4 & G5). repeat split; try assumption.
        + destruct P2 as [-> | (r & J & <-)]; [lia|apply G4, J].
        + unfold full. unfold number_of in *. assert (L : length (filter (is_type CNone) row) + length (filter (fun t => negb (is_type CNone t)) row) = length row)
            by (clear; induction row as [|t row IHr]; [reflexivity|]; cbn [filter]; destruct (is_type CNone t); cbn [negb length] in *; lia). lia.
        + destruct change; [|reflexivity]. destruct (proj1 (i_change _ _ _ _ I) eq_refl) as (a & r & b & E & Z). rewrite (G5 a r b E) in Z. lia. }
    assert (I' : inv (pre ++ [row]) pr ch ans).
    { split.
      - unfold pr, inc. destruct (i_prior _ _ _ _ I) as [P1 P2]. destruct (Nat.leb_spec prior (full row)); cbn [andb].
        + destruct (Nat.ltb_spec 0 (full row)).
          * split; [|right; exists row; split; [apply in_or_app; right; left; reflexivity|reflexivity]]. intros r J. apply in_app_or in J. destruct J as [J | [<- | []]]; [specialize (P1 r J); lia|lia].
          * split; [|left; lia]. intros r J. apply in_app_or in J. destruct J as [J | [<- | []]]; [apply P1, J|lia].
        + split; [|destruct P2 as [-> | (r & J & <-)]; [left; reflexivity|right; exists r; split; [apply in_or_app; left; exact J|reflexivity]]].
          intros r J. apply in_app_or in J. destruct J as [J | [<- | []]]; [apply P1, J|lia].
      - unfold ch. rewrite Bool.orb_true_iff, Bool.andb_true_iff, !Nat.ltb_lt, (i_change _ _ _ _ I). split.
        + intros [(a & r & b & -> & Z) | [Z _]].
          * exists a, r, (b ++ [row]). rewrite <- app_assoc. auto.
          * exists pre, row, []. auto.
        + intros (a & r & b & E & Z). apply snoc_split in E. destruct E as [(b' & E & _) | (-> & -> & _)]; [left; eauto|right; auto].
      - unfold ans. destruct ((good && inc && negb change)%bool) eqn:G.
        + split; [exists pre, row, []; split; [reflexivity|]; split; [reflexivity|apply HL; reflexivity]|].
          intros a r b E L. apply snoc_split in E. destruct E as [(b' & -> & _) | (-> & _ & _)]; [rewrite app_length in L; cbn in L; lia|lia].
        + assert (NH : ~ header_like pre row) by (rewrite <- HL; discriminate). assert (A := i_answer _ _ _ _ I). destruct answer as [i|].
          * destruct A as [(a & r & b & E & L & H) A]. split.
            -- exists a, r, (b ++ [row]). split; [rewrite E, <- app_assoc; reflexivity|auto].
            -- intros a' r' b' E' L'. apply snoc_split in E'. destruct E' as [(b2 & E2 & _) | (-> & -> & _)]; [eapply A; eassumption|exact NH].
          * intros a r b E. apply snoc_split in E. destruct E as [(b2 & E2 & _) | (-> & -> & _)]; [eapply A; eassumption|exact NH]. }
    assert (HP' : forall r rest, rows = r :: rest -> (if 0 <? full row then row else pot) = above (pre ++ [row]) r).
    { intros r rest _. rewrite HP, <- has_data_full. destruct pre as [|p pre].
      - unfold above. cbn [app fold_left hd]. destruct (has_data row); reflexivity.
      - rewrite above_snoc by discriminate. reflexivity. }
    destruct (IH (pre ++ [row]) _ pr ch ans I' HP') as (prior' & answer' & change' & E & J). rewrite app_length in E. cbn [length] in E.
    rewrite <- app_assoc in J. exists prior', answer', change'. split; [|exact J].
    destruct (Nat.eqb_spec (length row) 0) as [Z | Z]; [|exact E]. apply length_zero_iff_nil in Z. subst row.
    assert (A1 : ans = answer) by reflexivity. assert (A2 : pr = prior) by (unfold pr, inc; destruct (prior <=? full []); reflexivity).
    assert (A3 : ch = change) by (unfold ch; destruct change; reflexivity). rewrite A1, A2, A3 in E. exact E.
Qed.

Section Header.
  Variable date : text -> bool.
  Variable number : text -> option bool.
  Variable upper : text -> bool.
  Let kind (f : text) : ctype := cell_type date number upper (strip f).
  Let guess := guess_header date number upper.

  (** The types of the cells of a text *)
  Definition kinds (c q : ascii) (s : text) : list (list ctype) := map (fun line => map kind (cells [c] q line)) (split_at newline s).
  Lemma loop_kinds (types : list (list ctype)) : exists answer change prior, last_header types (differences (hd [] types) types) 0 0 false None = (answer, change) /\ inv types prior change answer.
  Proof.
    assert (I : inv [] 0 false None).
    { split.
      - split; [intros r []|left; reflexivity].
      - split; [discriminate|]. intros (a & r & b & E & _). destruct a; discriminate.
      - intros a r b E. destruct a; discriminate. }
    destruct (loop_inv types [] (hd [] types) 0 false None I) as (prior & answer & change & E & J).
    - intros row rest ->. reflexivity.
    - eauto 6.
  Qed.

  (** Unless all cells are words or empty, the header is the last row that may be the header, if some row differs. *)
  Theorem C82_exact : forall c q s i, s <> [] -> (exists row t, In row (kinds c q s) /\ In t row /\ t <> CStr /\ t <> CNone) ->
    (guess s (Some [c]) (Some q) = Some i <->
     (exists pre row post, kinds c q s = pre ++ row :: post /\ length pre = i /\ header_like pre row) /\
     (forall pre row post, kinds c q s = pre ++ row :: post -> i < length pre -> ~ header_like pre row) /\
     (exists pre row post, kinds c q s = pre ++ row :: post /\ 0 < different pre row)).
  Proof.
    intros c q s i NE (row & t & J1 & J2 & T1 & T2). unfold guess, guess_header. destruct s as [|x s]; [contradiction|]. set (s' := x :: s) in *. unfold types_of.
    fold kind. fold (kinds c q s'). set (K := kinds c q s') in *.
    assert (O : forallb (fun row => forallb wordy row) K = false).
    { apply Bool.not_true_iff_false. intro F. rewrite forallb_forall in F. specialize (F row J1). rewrite forallb_forall in F. specialize (F t J2). destruct t; try discriminate; congruence. }
    rewrite O. destruct (loop_kinds K) as (answer & change & prior & E & I). rewrite E. destruct I as [_ IC IA]. split.
    - intros H. destruct change; [|discriminate]. subst answer. destruct IA as [A1 A2]. split; [exact A1|]. split; [exact A2|]. apply IC. reflexivity.
    - intros ((pre & r & post & E1 & L & H) & A & Ch). assert (change = true) as -> by (apply IC; exact Ch). destruct answer as [j|].
      + destruct IA as [(pre' & r' & post' & E1' & L' & H') A']. destruct (Nat.lt_trichotomy i j) as [Lt | [-> | Lt]]; [|reflexivity|].
        * exfalso. apply (A pre' r' post' E1'); [lia|exact H'].
        * exfalso. apply (A' pre r post E1); [lia|exact H].
      + exfalso. apply (IA pre r post E1). exact H.
  Qed.
  Theorem C82_empty : forall d q, guess [] d q = None.
  Proof. reflexivity. Qed.
  (** Without a delimiter or quote, comma and double quote are taken. *)
  Theorem C82_defaults : forall s q, guess s None q = guess s (Some [comma]) q /\ (forall d, guess s d None = guess s d (Some dquote)).
  Proof. intros s q. split; [|intros d]; destruct s; reflexivity. Qed.

  Lemma kinds_table c q rows : c <> q -> c <> newline -> good_table c q rows -> kinds c q (table c rows) = map (map kind) rows.
  Proof. intros CQ N G. rewrite <- (table_cells c q rows CQ N G) at 2. unfold kinds. rewrite map_map. reflexivity. Qed.
  Lemma unlikes_self row : unlikes row row = 0.
  Proof.
    unfold unlikes. assert (H : forall l, (forall p, In p l -> p < length row) -> length (filter (unlike row row) l) = 0).
    { induction l as [|p l IH]; intros H; [reflexivity|]. cbn [filter]. unfold unlike at 1. destruct (nth_error row p) as [t|] eqn:E.
      - destruct t; cbn; apply IH; intros y I; apply H; right; exact I.
      - apply nth_error_None in E. specialize (H p (or_introl eq_refl)). lia. }
    apply H. intros p I. apply in_seq in I. lia.
  Qed.
  Lemma different_first row : different [] row = 0.
  Proof. unfold different, above. cbn [fold_left hd]. destruct (_ || _)%bool; [reflexivity|apply unlikes_self]. Qed.
  Lemma number_all p row : (forall t, In t row -> p t = true) -> number_of p row = length row.
  Proof. unfold number_of. induction row as [|t row IH]; intros H; [reflexivity|]. cbn [filter]. rewrite (H t (or_introl eq_refl)). cbn [length]. rewrite IH; [reflexivity|]. intros u I. apply H. right. exact I. Qed.
  Lemma number_none p row : (forall t, In t row -> p t = false) -> number_of p row = 0.
  Proof. unfold number_of. induction row as [|t row IH]; intros H; [reflexivity|]. cbn [filter]. rewrite (H t (or_introl eq_refl)). apply IH. intros u I. apply H. right. exact I. Qed.
  Lemma full_le row : full row <= length row.
  Proof. unfold full, number_of. induction row as [|t row IH]; cbn; [lia|]. destruct (negb _); cbn; lia. Qed.

  Lemma table_ne c q rows : good_table c q rows -> (exists row f, In row rows /\ In f row /\ kind f <> CNone) -> table c rows <> [].
  Proof.
    intros _ (row & f & I & J & K) E. unfold table in E.
    assert (Z : forall ls, join [newline] ls = [] -> forall l, In l ls -> l = []).
    { induction ls as [|l ls IH]; intros H m M; [destruct M|]. destruct ls as [|l2 ls]; cbn [join] in H.
      - destruct M as [<- | []]. exact H.
      - apply app_eq_nil in H. destruct H as [_ H]. discriminate. }
    assert (F : join [c] row = []) by (apply (Z _ E); apply in_map, I).
    assert (f = []) as ->.
    { clear - F J. destruct row as [|g row]; [destruct J|]. destruct row as [|h row]; cbn [join] in F.
      - destruct J as [<- | []]. exact F.
      - apply app_eq_nil in F. destruct F as [_ F]. discriminate. }
    apply K. reflexivity.
  Qed.

  (** A row of names above a row of as many cells of which at least a tenth, and at least one, is of another type: the names are the header, whatever follows. *)
  Theorem C82_typical : forall c q names first rest, c <> q -> c <> newline -> good_table c q (names :: first :: rest) ->
    (forall f, In f names -> kind f = CStr \/ kind f = CUp) -> length first = length names ->
    (exists f, In f first /\ kind f <> CStr /\ kind f <> CNone) ->
    let m := unlikes (map kind first) (map kind names) in 0 < m -> length names <= 10 * m ->
    guess (table c (names :: first :: rest)) (Some [c]) (Some q) = Some 0.
  Proof.
    intros c q names first rest CQ N G HN L (f & F1 & F2 & F3) m Hm H10.
    assert (NE : table c (names :: first :: rest) <> []) by (apply (table_ne c q); [exact G|]; exists first, f; split; [right; left; reflexivity|]; split; assumption).
    assert (K := kinds_table c q _ CQ N G). cbn [map] in K.
    apply C82_exact; [exact NE| |].
    { exists (map kind first), (kind f). rewrite K. split; [right; left; reflexivity|]. split; [apply in_map, F1|auto]. }
    rewrite K.
    assert (NP : 0 < length names) by (destruct G as [_ G]; destruct names; [exfalso; apply (proj1 (G _ (or_introl eq_refl))); reflexivity|cbn; lia]).
    assert (W : number_of (is_type CStr) (map kind names) + number_of (is_type CUp) (map kind names) = length names).
    { clear - HN. unfold number_of. induction names as [|x names IH]; [reflexivity|]. cbn [map filter]. destruct (HN x (or_introl eq_refl)) as [E | E]; rewrite E; cbn [is_type ctype_eqb length] in *;
        rewrite <- IH by (intros y I; apply HN; right; exact I); lia. }
    assert (Z : number_of (is_type CNone) (map kind names) = 0).
    { apply number_none. intros t I. apply in_map_iff in I. destruct I as (x & <- & I). destruct (HN x I) as [E | E]; rewrite E; reflexivity. }
    assert (FN : full (map kind names) = length names).
    { unfold full. rewrite number_all; [apply map_length|]. intros t I. apply in_map_iff in I. destruct I as (x & <- & I). destruct (HN x I) as [E | E]; rewrite E; reflexivity. }
    assert (HD : has_data (map kind names) = true) by (rewrite has_data_full, FN; apply Nat.ltb_lt; exact NP).
    assert (AB : above [map kind names] (map kind first) = map kind names) by (unfold above; cbn [fold_left hd]; rewrite HD; reflexivity).
    assert (D : different [map kind names] (map kind first) = m).
    { unfold different. rewrite AB, map_length. destruct (Nat.eqb_spec (full (map kind first)) 0) as [Z0 | Z0].
      - exfalso. assert (has_data (map kind first) = false) as HF by (rewrite has_data_full, Z0; reflexivity). apply Bool.not_true_iff_false in HF. apply HF. unfold has_data. apply existsb_exists.
        exists (kind f). split; [apply in_map, F1|]. destruct (kind f); try reflexivity; congruence.
      - cbn [orb]. assert (FL := full_le (map kind first)). rewrite map_length in FL. destruct (Nat.ltb_spec (length names) (full (map kind first))); [lia|]. reflexivity. }
    split; [|split].
    - exists [], (map kind names), (map kind first :: map (map kind) rest). split; [reflexivity|]. split; [reflexivity|]. unfold header_like. rewrite map_length, different_first.
      repeat match goal with |- _ /\ _ => split end; try lia; [intros r []|intros a r b E; destruct a; discriminate].
    - intros pre row post E Lp (_ & _ & H3 & _ & H5). destruct pre as [|p0 pre]; [cbn in Lp; lia|]. injection E as <- E. destruct pre as [|p1 pre].
      + injection E as <- _. rewrite D, map_length in H3. lia.
      + injection E as <- _. specialize (H5 [map kind names] (map kind first) pre eq_refl). lia.
    - exists [map kind names], (map kind first), (map (map kind) rest). split; [reflexivity|]. rewrite D. exact Hm.
  Qed.

  (** In wide tables with few numbers the first row of data is taken for the header. *)
  Theorem C82_wide : forall c q names first rest, c <> q -> c <> newline -> good_table c q (names :: first :: rest) ->
    (forall f, In f names -> kind f = CStr) -> length first = length names -> (forall f, In f first -> kind f <> CNone) ->
    (exists f, In f first /\ kind f <> CStr) -> 10 * unlikes (map kind first) (map kind names) < length names ->
    10 * number_of (fun t => negb (is_type CStr t) && negb (is_type CUp t))%bool (map kind first) < length names -> 0 < unlikes (map kind first) (map kind names) ->
    guess (table c (names :: first :: rest)) (Some [c]) (Some q) = Some 1.
  Proof.
    intros c q names first rest CQ N G HN L NF (f & F1 & F2) H10 HW Hm.
    assert (F3 := NF f F1).
    assert (NE : table c (names :: first :: rest) <> []) by (apply (table_ne c q); [exact G|]; exists first, f; split; [right; left; reflexivity|]; split; assumption).
    assert (K := kinds_table c q _ CQ N G). cbn [map] in K.
    apply C82_exact; [exact NE| |].
    { exists (map kind first), (kind f). rewrite K. split; [right; left; reflexivity|]. split; [apply in_map, F1|auto]. }
    rewrite K.
    assert (FN : full (map kind names) = length names).
    { unfold full. rewrite number_all; [apply map_length|]. intros t I. apply in_map_iff in I. destruct I as (x & <- & I). rewrite (HN x I). reflexivity. }
    assert (FF : full (map kind first) = length first).
    { unfold full. rewrite number_all; [apply map_length|]. intros t I. apply in_map_iff in I. destruct I as (x & <- & I). specialize (NF x I). destruct (kind x); try reflexivity; congruence. }
    assert (NP : 0 < length names) by (rewrite <- L; destruct first; [destruct F1|cbn; lia]).
    assert (HD : has_data (map kind names) = true) by (rewrite has_data_full, FN; apply Nat.ltb_lt; exact NP).
    assert (AB : above [map kind names] (map kind first) = map kind names) by (unfold above; cbn [fold_left hd]; rewrite HD; reflexivity).
    assert (D : different [map kind names] (map kind first) = unlikes (map kind first) (map kind names)).
    { unfold different. rewrite AB, map_length, FF, L. rewrite Nat.ltb_irrefl, Bool.orb_false_r. destruct (Nat.eqb_spec (length names) 0); [lia|reflexivity]. }
    assert (W : number_of (is_type CStr) (map kind first) + number_of (is_type CUp) (map kind first) + number_of (fun t => negb (is_type CStr t) && negb (is_type CUp t))%bool (map kind first) = length names).
    { rewrite <- L. clear. unfold number_of. induction first as [|x first IH]; [reflexivity|]. cbn [map filter]. destruct (kind x); cbn [is_type ctype_eqb length negb andb] in *; lia. }
    split; [|split].
    - exists [map kind names], (map kind first), (map (map kind) rest). split; [reflexivity|]. split; [reflexivity|]. unfold header_like. rewrite D, map_length, L.
      assert (Z : number_of (is_type CNone) (map kind first) = 0).
      { apply number_none. intros t I. apply in_map_iff in I. destruct I as (x & <- & I). specialize (NF x I). destruct (kind x); try reflexivity; congruence. }
      repeat match goal with |- _ /\ _ => split end; try lia.
      + intros r [<- | []]. lia.
      + intros a r b E. destruct a as [|a0 a]; [injection E as <- <-; apply different_first|]. destruct a; discriminate.
    - intros pre row post E Lp (_ & _ & H3 & _ & H5). destruct pre as [|p0 pre]; [cbn in Lp; lia|]. injection E as <- E. destruct pre as [|p1 pre]; [cbn in Lp; lia|].
      injection E as <- _. specialize (H5 [map kind names] (map kind first) pre eq_refl). lia.
    - exists [map kind names], (map kind first), (map (map kind) rest). split; [reflexivity|]. rewrite D. exact Hm.
  Qed.

  (** Rows that are all alike have no header. *)
  Theorem C82_alike : forall c q rows ts, c <> q -> c <> newline -> good_table c q rows -> (forall row, In row rows -> map kind row = ts) ->
    (exists t, In t ts /\ t <> CStr /\ t <> CNone) -> guess (table c rows) (Some [c]) (Some q) = None.
  Proof.
    intros c q rows ts CQ N G H (t & T1 & T2 & T3). assert (K := kinds_table c q _ CQ N G). destruct rows as [|row0 rows]; [destruct G as [G _]; contradiction|].
    assert (R0 := H row0 (or_introl eq_refl)).
    assert (T0 : In t (map kind row0)) by (rewrite R0; exact T1). apply in_map_iff in T0. destruct T0 as (f & Ef & If).
    assert (NE : table c (row0 :: rows) <> []) by (apply (table_ne c q); [exact G|]; exists row0, f; split; [left; reflexivity|]; split; [exact If|congruence]).
    destruct (guess (table c (row0 :: rows)) (Some [c]) (Some q)) as [i|] eqn:E; [|reflexivity]. exfalso. apply C82_exact in E; [|exact NE|].
    - rewrite K in E. destruct E as (_ & _ & pre & row & post & E & D).
      assert (A : forall r, In r (map (map kind) (row0 :: rows)) -> r = ts) by (intros r I; apply in_map_iff in I; destruct I as (x & <- & I); apply H, I).
      assert (row = ts) as -> by (apply A; rewrite E; apply in_or_app; right; left; reflexivity).
      assert (P : forall r, In r pre -> r = ts) by (intros r I; apply A; rewrite E; apply in_or_app; left; exact I).
      assert (AB : above pre ts = ts).
      { unfold above. assert (X : forall l x, (forall r, In r l -> r = ts) -> x = ts -> fold_left (fun p r => if has_data r then r else p) l x = ts).
        { induction l as [|r l IH]; intros x Hl Hx; [exact Hx|]. cbn [fold_left]. apply IH; [intros y I; apply Hl; right; exact I|]. destruct (has_data r); [apply Hl; left; reflexivity|exact Hx]. }
        apply X; [exact P|]. destruct pre as [|p pre]; [reflexivity|]. apply P. left. reflexivity. }
      unfold different in D. rewrite AB in D. destruct (_ || _)%bool; [lia|]. rewrite unlikes_self in D. lia.
    - exists ts, t. split; [|auto]. rewrite K. cbn [map]. left. exact R0.
  Qed.
End Header.
