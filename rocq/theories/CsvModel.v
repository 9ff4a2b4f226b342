(** Model of how delimited files are recognised: data_readers/csv_data.py, _guess_delimiter_and_quotechar (183-344),
    _guess_header_row (346-539), the treatment of delimiters at the ends of lines in _load_data_from_file (589-604), is_match (626-733);
    data_readers/data_utils.py, detect_cell_type (679-709), get_delimiter_regex (712-739).

    Texts are lists of ASCII characters.  What dateutil, [float], [isupper] say of a cell are parameters, so is what csv.Sniffer takes
    for the quote and what random.choices draws.  A quote is one character; a delimiter that is given is not empty.  The thresholds of
    the header are the default ones; quotients of counts are compared exactly. *)
From Coq Require Import Ascii.
From Verif Require Import PyCommon PyDict PyString PyEq TextModel ReadModel.
Local Open Scope nat_scope.
Local Open Scope list_scope.

Definition newline : ascii := ascii_of_nat 10.
Definition tab : ascii := ascii_of_nat 9.
Definition blank : ascii := ascii_of_nat 32.
Definition dquote : ascii := ascii_of_nat 34.
Definition squote : ascii := ascii_of_nat 39.
Definition comma : ascii := ascii_of_nat 44.

(** [s.split("\n")], [s.split(" ")] *)
Fixpoint split_at (c : ascii) (s : text) : list text :=
  match s with
  | [] => [[]]
  | x :: r => if eqb x c then [] :: split_at c r else match split_at c r with w :: ws => (x :: w) :: ws | [] => [[x]] end
  end.
(** [str.rstrip], [str.strip] *)
Fixpoint lstrip (s : text) : text := match s with [] => [] | c :: r => if is_space c then lstrip r else s end.
Definition rstrip (s : text) : text := rev (lstrip (rev s)).
Definition strip (s : text) : text := rstrip (lstrip s).

(** get_delimiter_regex: the delimiter, followed by an even number of quotes up to the end *)
Definition at_delimiter (d : text) (q : ascii) (s : text) : bool :=
  starts d s && Nat.even (occ q (skipn (length d) s)).
(** [re.split]: [skip] is what is left of the delimiter just found *)
Fixpoint cells_from (d : text) (q : ascii) (skip : nat) (s : text) : list text :=
  match s with
  | [] => [[]]
  | x :: r =>
      match skip with
      | S k => cells_from d q k r
      | 0 => if at_delimiter d q s then [] :: cells_from d q (length d - 1) r
             else match cells_from d q 0 r with w :: ws => (x :: w) :: ws | [] => [[x]] end
      end
  end.
Definition cells (d : text) (q : ascii) (s : text) : list text := cells_from d q 0 s.

Inductive ctype := CStr | CNone | CDate | CFloat | CInt | CUp.
Definition ctype_eqb (a b : ctype) : bool :=
  match a, b with CStr, CStr | CNone, CNone | CDate, CDate | CFloat, CFloat | CInt, CInt | CUp, CUp => true | _, _ => false end.
Global Program Instance EqDecB_ctype : EqDecB ctype := {| eqb := ctype_eqb |}.
Next Obligation. destruct x, y; cbn; constructor; congruence. Qed.

Section Csv.
  Variable date : text -> bool.            (* dateutil accepts it *)
  Variable number : text -> option bool.   (* float accepts it; whether the value is whole *)
  Variable upper : text -> bool.           (* str.isupper *)
  Variable alpha : ascii -> bool.          (* str.isalpha *)
  Variable sniff : text -> list ascii -> option ascii.

  (** detect_cell_type *)
  Definition cell_type (c : text) : ctype :=
    match c with
    | [] => CNone
    | _ => let t := if date c then CDate else CStr in
           let t := match number c with Some true => CInt | Some false => CFloat | None => t end in
           if upper c then CUp else t
    end.

  (** ** Delimiter *)
  Section Delimiter.
    Variable pick : ascii -> nat -> nat.   (* which of the first rows random.choices draws *)

    (** [Counter]: characters in the order of their first occurrence; [sorted] by count, the largest first, is stable *)
    Fixpoint firsts (s : text) (seen : list ascii) : list ascii :=
      match s with [] => [] | c :: r => if lmem seen c then firsts r seen else c :: firsts r (c :: seen) end.
    Fixpoint insert_by (count : ascii -> nat) (c : ascii) (l : list ascii) : list ascii :=
      match l with [] => [c] | x :: r => if count x <? count c then c :: l else x :: insert_by count c r end.
    Fixpoint sort_by (count : ascii -> nat) (l acc : list ascii) : list ascii :=
      match l with [] => acc | c :: r => sort_by count r (insert_by count c acc) end.
    Definition preferred : list ascii := [comma; tab].
    Definition vocabulary (s : text) : list ascii :=
      filter (fun c => negb (lmem preferred c))
        (sort_by (fun c => occ c s) (filter (fun c => negb (lmem [newline; dquote; squote] c)) (firsts s [])) []).

    (** The rows looked at: all of up to 25, or the first 25 and some of them again *)
    Definition rows_looked_at (c : ascii) (s : text) : list text :=
      let rows := split_at newline s in
      if 25 <? length rows
      then let k := Nat.min ((length rows - 25) / 10) 1000 in
           firstn 25 rows ++ map (fun i => nth (pick c i mod 25) rows []) (seq 0 k)
      else rows.

    (** The loop over the cells of a row: whether the types are fine *)
    Definition wordy (t : ctype) : bool := match t with CStr | CNone => true | _ => false end.
    Fixpoint cells_safe (c : ascii) (n : nat) (prior : bool) (row : list text) : bool :=
      match row with
      | [] => true
      | x :: r =>
          let t := cell_type x in
          if wordy t && prior && (alpha c || (eqb c blank && (n <=? 2))) then false
          else if eqb (cell_type [c]) CInt && eqb t CInt then false
          else cells_safe c n (wordy t) r
      end.
    (** The loop over the rows, from the last; the state is (largest, prior, valid, safe) *)
    Fixpoint check_rows (c : ascii) (q : ascii) (rows : list text) (first : bool) (largest : nat) (prior : option nat) (valid safe : bool)
        : option (nat * bool * bool) :=
      match rows with
      | [] => Some (largest, valid, safe)
      | row :: above =>
          if (length row <=? 1) && first then check_rows c q above false largest prior valid safe
          else
            let cs := cells [c] q row in
            let n := length cs in
            let prior := match prior with None => n | Some p => p end in
            let largest := if largest =? 0 then n else largest in
            if prior <? n then None
            else check_rows c q above false largest (Some n) (valid || (1 <? n)) (safe && cells_safe c n false cs)
      end.
    Definition validated (q : ascii) (s : text) (c : ascii) : option nat :=
      match check_rows c q (rev (rows_looked_at c s)) true 0 None false true with
      | Some (n, true, true) => Some n
      | _ => None
      end.
    (** The last loop: the first of the largest weights *)
    Fixpoint choose (q : ascii) (s : text) (cs : list ascii) (best : nat) (answer : option ascii) : option ascii :=
      match cs with
      | [] => answer
      | c :: r =>
          match validated q s c with
          | None => choose q s r best answer
          | Some n => let w := if lmem preferred c then 5 * n else n in
                      if best <? w then choose q s r w (Some c) else choose q s r best answer
          end
      end.
    Definition candidates (s : text) : list ascii := preferred ++ firstn 20 (vocabulary s).
    Definition guess_delimiter (s : text) : option ascii * ascii :=
      let q := match sniff s (firstn 20 (vocabulary s)) with Some q => q | None => dquote end in
      (choose q s (candidates s) 0 None, q).
  End Delimiter.

  (** ** Header *)
  Definition types_of (d : text) (q : ascii) (s : text) : list (list ctype) :=
    map (fun row => map (fun c => cell_type (strip c)) (cells d q row)) (split_at newline s).
  Definition filled (row : list ctype) : nat := length row - occ CNone row.
  Fixpoint row_diff (row pot : list ctype) : list bool :=
    match row with
    | [] => []
    | t :: r => match pot with [] => true :: row_diff r [] | u :: p => negb (eqb t u) :: row_diff r p end
    end.
  Fixpoint differences (pot : list ctype) (rows : list (list ctype)) : list (list bool) :=
    match rows with
    | [] => []
    | row :: r =>
        let n := filled row in
        (if (length pot <? n) || (n =? 0) then repeat false (length row) else row_diff row pot)
        :: differences (if 0 <? n then row else pot) r
    end.
  (** The loop over the rows: [prior] is the number of filled cells so far, [change] whether a difference was met *)
  Fixpoint last_header (rows : list (list ctype)) (diffs : list (list bool)) (i prior : nat) (change : bool) (answer : option nat)
      : option nat * bool :=
    match rows, diffs with
    | row :: rows, diff :: diffs =>
        let n := length row in
        if n =? 0 then last_header rows diffs (i + 1) prior change answer
        else
          let different := occ true diff in
          let f := filled row in
          let increase := (prior <=? f) && (0 <? f) in
          let good := (9 * n <? 10 * (occ CStr row + occ CUp row + occ CNone row)) && (2 * occ CNone row <? n) && (10 * different <? n) in
          let answer := if good && increase && negb change then Some i else answer in
          last_header rows diffs (i + 1) (if increase then f else prior) (change || ((0 <? different) && (0 <? f))) answer
    | _, _ => (answer, change)
    end.

  (** Numbers of words: largest, least, first row with a value *)
  Record stats := { s_max : nat; s_min : nat; s_first : option nat }.
  Definition words (c : text) : nat := match strip c with [] => 0 | t => length (split_at blank t) end.
  Definition add_stats (i : nat) (w : nat) (st : option stats) : stats :=
    let st := match st with Some st => st | None => {| s_max := w; s_min := w; s_first := None |} end in
    {| s_max := if s_max st <? w then w else s_max st;
       s_min := if w <? s_min st then w else s_min st;
       s_first := match s_first st with Some k => Some k | None => if 0 <? w then Some i else None end |}.
  Fixpoint add_row (i : nat) (row : list text) (sts : list stats) : list stats :=
    match row with
    | [] => sts
    | c :: r => match sts with
                | st :: sts => add_stats i (words c) (Some st) :: add_row i r sts
                | [] => add_stats i (words c) None :: add_row i r []
                end
    end.
  Fixpoint col_stats (i : nat) (rows : list (list text)) (sts : list stats) : list stats :=
    match rows with [] => sts | row :: r => col_stats (i + 1) r (add_row i row sts) end.
  Fixpoint last_first (sts : list stats) (row count : nat) : nat * nat :=
    match sts with
    | [] => (row, count)
    | st :: r =>
        match s_first st with
        | Some k => if row <? k then last_first r k 1 else if k =? row then last_first r row (count + 1) else last_first r row count
        | None => last_first r row count
        end
    end.
  Definition guess_header (s : text) (delimiter : option text) (quote : option ascii) : option nat :=
    match s with
    | [] => None
    | _ =>
        let d := match delimiter with Some (x :: r) => x :: r | _ => [comma] end in
        let q := match quote with Some q => q | None => dquote end in
        let types := types_of d q s in
        let only_string := forallb (fun row => forallb wordy row) types in
        let '(answer, change) := last_header types (differences (hd [] types) types) 0 0 false None in
        let answer := if change then answer else None in
        if only_string then
          let sts := col_stats 0 (map (cells d q) (split_at newline s)) [] in
          let variance := existsb (fun st => 1 <? s_max st - s_min st) sts in
          let '(row, count) := last_first sts 0 0 in
          if variance && (length sts / 2 <? count) then Some row else answer
        else answer
    end.

  (** ** Recognition *)
  (** The loop over the lines: number of lines, of empty lines, lines by count of delimiters *)
  Fixpoint count_lines (counter : text -> nat) (lines : list text) (line empty : nat) (counts : dict nat nat) : nat * nat * dict nat nat :=
    match lines with
    | [] => (line, empty, counts)
    | l :: r =>
        let line := line + 1 in
        if length l <=? 1 then count_lines counter r line (empty + 1) counts
        else
          let k := counter l in
          let counts := dset counts k (match dget counts k with Some n => n | None => 0 end + 1) in
          if 1000 <=? line then (line, empty, counts) else count_lines counter r line empty counts
    end.
  (** [len(str(n)) - 1] *)
  Fixpoint digits_less_one (fuel n : nat) : nat :=
    match fuel with 0 => 0 | S f => if n <? 10 then 0 else S (digits_less_one f (n / 10)) end.
  Definition deviation (lines : nat) : nat := 2 ^ digits_less_one lines lines.
  (** [argmax]: the first of the largest *)
  Fixpoint most_common (counts : dict nat nat) (best : nat * nat) : nat * nat :=
    match counts with [] => best | (k, n) :: r => most_common r (if snd best <? n then (k, n) else best) end.
  Definition delimiters_in (delimiter : option text) (q : ascii) (line : text) : nat :=
    match delimiter with
    | Some d => length (cells d q line) - 1
    | None => length (cells [blank] q (rstrip line)) - 1
    end.
  (** The part of is_match after delimiter, quote and header are known *)
  Definition consistent (s : text) (delimiter : option text) (quote : option ascii) (header : option nat) : bool :=
    let q := match quote with Some q => q | None => dquote end in
    let lines := skipn (match header with Some h => h | None => 0 end) (split_at newline s) in
    let '(line, empty, counts) := count_lines (delimiters_in delimiter q) lines 0 0 [] in
    let active := line - empty in
    if active <=? 3 then false
    else
      match counts with
      | [] => false
      | first :: rest =>
          let '(value, times) := most_common rest first in
          ((0 <? value) || match delimiter with None => true | Some _ => false end) && (active <=? times + deviation line)
      end.

  Inductive header_option := HAuto | HNone | HRow (n : nat).
  Record found := { f_delimiter : option text; f_quote : option ascii; f_header : option nat }.
  (** is_match on the beginning of the file, with the options given; [None] if it is no match, or the options for reading *)
  Definition is_match (pick : ascii -> nat -> nat) (other_format : bool) (s : text) (delimiter : option text) (quote : option ascii) (header : header_option)
      : option found :=
    if other_format then None
    else
      let given := match delimiter with Some (_ :: _) => true | _ => false end in
      let auto := match header with HAuto => true | _ => false end in
      let '(delimiter, quote) :=
        if given then (delimiter, quote)
        else let '(d, q) := guess_delimiter pick s in (match d with Some c => Some [c] | None => None end, Some q) in
      let header := match header with HAuto => guess_header s delimiter quote | HNone => None | HRow n => Some n end in
      if consistent s delimiter quote header then Some {| f_delimiter := delimiter; f_quote := quote; f_header := header |} else None.

  (** _load_data_from_file: delimiters that only end lines are none; [line.strip()[-1]] *)
  Fixpoint occurrences (d : text) (skip : nat) (s : text) : nat :=
    match s with
    | [] => 0
    | _ :: r => match skip with S k => occurrences d k r | 0 => if starts d s then S (occurrences d (length d - 1) r) else occurrences d 0 r end
    end.
  Fixpoint trailing (d : text) (lines : list text) (read last : nat) : result (nat * nat) :=
    match lines with
    | [] => Ok (read, last)
    | l :: r =>
        match l with
        | [] => trailing d r read last
        | _ =>
            if occurrences d 0 l =? 1
            then match rev (strip l) with
                 | [] => Err IndexError
                 | c :: _ => trailing d r (read + 1) (if list_eqb [c] d then last + 1 else last)
                 end
            else trailing d r (read + 1) last
        end
    end.
  Definition delimiter_for_reading (s : text) (d : text) : result (option text) :=
    match s with
    | [] => Ok (Some d)
    | _ => match trailing d (split_at newline s) 0 0 with
           | Err e => Err e
           | Ok (read, last) => Ok (if last =? read then None else Some d)
           end
    end.
End Csv.
