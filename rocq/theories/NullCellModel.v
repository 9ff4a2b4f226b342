(** Model of which cells of a column count as null.
    Source: dataprofiler/profilers/profile_builder.py, StructuredColProfiler.__init__ (lines 102-122),
    clean_data_and_get_base_stats (lines 576-631), StructuredProfiler._update_profile_from_chunk
    (lines 2981-2999).

    Texts are ASCII. Of regular expressions: literal characters, the dot, the star after one of them
    and alternatives; other constructs are outside the model ([plain] below). Flags are numbers;
    [re.IGNORECASE] is 2. *)
From Coq Require Import Arith List Bool Ascii.
From Coq Require String.
From Verif Require Import PyCommon PyDict PyString.
Local Delimit Scope string_scope with string.
Import ListNotations.
Local Open Scope list_scope.

Notation char := Ascii.ascii.

Definition newline : char := Ascii.ascii_of_nat 10.

(** ** Regular expressions *)
Inductive item := Lit (c : char) | Any.
(** An item, and whether a star follows. *)
Definition piece : Type := item * bool.

(** Characters with a meaning of their own that is not modelled. *)
Definition special (c : char) : bool :=
  existsb (Ascii.eqb c) ["\"; "^"; "$"; "+"; "?"; "("; ")"; "["; "]"; "{"]%char.

(** [sre_parse]: a star needs something to repeat, and two of them are an error. *)
Fixpoint parse (s : list char) : result (list (list piece)) :=
  match s with
  | [] => Ok [[]]
  | c :: r =>
      if Ascii.eqb c "|"%char then bind (parse r) (fun alts => Ok ([] :: alts))
      else if Ascii.eqb c "*"%char then Err GenericException
      else
        let i := if Ascii.eqb c "."%char then Any else Lit c in
        match r with
        | c' :: r' =>
            if Ascii.eqb c' "*"%char
            then bind (parse r') (fun alts =>
                   match alts with a :: l => Ok (((i, true) :: a) :: l) | [] => Ok [[(i, true)]] end)
            else bind (parse r) (fun alts =>
                   match alts with a :: l => Ok (((i, false) :: a) :: l) | [] => Ok [[(i, false)]] end)
        | [] => Ok [[(i, false)]]
        end
  end.

(** One character under [re.IGNORECASE]; the dot does not match a line break. *)
Definition item_ok (i : item) (c : char) : bool :=
  match i with
  | Lit d => Ascii.eqb (lower_ascii c) (lower_ascii d)
  | Any => negb (Ascii.eqb c newline)
  end.

(** Whether the whole of a text can be matched. *)
Fixpoint full (p : list piece) (s : list char) {struct p} : bool :=
  match p with
  | [] => match s with [] => true | _ => false end
  | (i, false) :: p' => match s with c :: s' => item_ok i c && full p' s' | [] => false end
  | (i, true) :: p' =>
      (fix star (s : list char) : bool :=
         full p' s || match s with c :: s' => item_ok i c && star s' | [] => false end) s
  end.

(** [$] holds at the end and before a line break at the end. *)
Definition chomp (s : list char) : option (list char) :=
  match rev s with
  | c :: r => if Ascii.eqb c newline then Some (rev r) else None
  | [] => None
  end.

(** [re.match("^(?:...)$", cell, re.IGNORECASE)] for the alternatives in the parentheses. *)
Definition anchored (alts : list (list piece)) (cell : list char) : bool :=
  existsb (fun p => full p cell || match chomp cell with Some s => full p s | None => false end) alts.

(** ** Null values of a column *)
Definition flags := dict string nat.

Definition ignorecase : nat := 2.

(** Lines 103-113 *)
Definition default_nulls : flags :=
  [("", 0); ("nan", ignorecase); ("none", ignorecase); ("null", ignorecase);
   ("  *", 0); ("--*", 0); ("__*", 0)]%string.

(** The options null_values and column_null_values *)
Record opts := mkOpts { o_nulls : option flags; o_columns : option (dict nat flags) }.

(** [self.options.column_null_values.get(i, {})] *)
Definition of_column (o : opts) (i : nat) : flags :=
  match o_columns o with
  | Some d => match dget d i with Some f => f | None => [] end
  | None => []
  end.

(** StructuredColProfiler.__init__ (lines 102-122): [index] is the position in the first table, none
    for a merged profile (line 219). *)
Definition own_nulls (o : opts) (index : option nat) : flags :=
  let base := match o_nulls o with Some f => f | None => default_nulls end in
  match index with Some i => dupdate base (of_column o i) | None => base end.

(** Lines 2985-2989: [pos] is the position in the table at hand *)
Definition nulls_used (o : opts) (index : option nat) (pos : nat) : flags :=
  dupdate (own_nulls o index) (of_column o pos).

(** ["|".join(...)] *)
Fixpoint join (l : list (list char)) : list char :=
  match l with
  | [] => []
  | [x] => x
  | x :: r => x ++ "|"%char :: join r
  end.

Definition chars (s : string) : list char := String.list_ascii_of_string s.

(** Lines 619-631: which of the cells of a table are null *)
Definition cells_null (f : flags) (cells : list string) : result (list bool) :=
  bind (parse (join (map chars (dkeys f)))) (fun alts =>
  Ok (map (fun c => anchored alts (chars c)) cells)).
