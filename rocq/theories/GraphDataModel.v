(** Model of reading a graph from a table of edges: data_readers/graph_data.py, _find_target_string_in_column (83-110),
    csv_column_names (112-141), is_match (143-191, the part after CSVData.is_match), _format_data_networkx (230-285, the part after
    the delimiter and header are known), check_integer (300-308).

    The table is the list of rows as read by pandas: rows of the same length of cells, which are texts without surrounding blanks
    ([None] for None).  [to_float] is Python's [float] on texts, on exact numbers.  Digits are those of ASCII.  A graph of networkx is
    as in GraphModel, edges in the order in which they were added.  Two whole numbers are the same object if they are equal and at
    most 256 (CPython). *)
From Coq Require Import ZArith QArith.
From Coq Require String Ascii.
From Verif Require Import PyCommon PyDict PyString OptionsModel GraphModel.
Local Open Scope nat_scope.
Local Open Scope string_scope.
Local Open Scope list_scope.

Inductive node := NInt (n : nat) | NStr (s : string).
Definition node_eqb (a b : node) : bool :=
  match a, b with NInt n, NInt m => n =? m | NStr s, NStr t => String.eqb s t | _, _ => false end.
Global Program Instance EqDecB_node : EqDecB node := {| eqb := node_eqb |}.
Next Obligation.
  destruct x as [n|s], y as [m|t]; cbn; try (constructor; congruence).
  - destruct (Nat.eqb_spec n m) as [-> | H]; constructor; congruence.
  - destruct (String.eqb_spec s t) as [-> | H]; constructor; congruence.
Qed.

(** [s.isdigit()] for a text that is not empty, and [int(s)] *)
Definition digit (c : Ascii.ascii) : bool := let n := Ascii.nat_of_ascii c in (48 <=? n) && (n <=? 57).
Fixpoint all_digits (s : string) : bool :=
  match s with String.EmptyString => true | String.String c r => digit c && all_digits r end.
Fixpoint value (acc : nat) (s : string) : nat :=
  match s with String.EmptyString => acc | String.String c r => value (10 * acc + (Ascii.nat_of_ascii c - 48)) r end.
(** check_integer: [string[0] == ("-", "+")] compares a text with a pair and is never true *)
Definition check_integer (s : string) : result node :=
  match s with
  | String.EmptyString => Err IndexError
  | _ => if all_digits s then Ok (NInt (value 0 s)) else Ok (NStr s)
  end.

(** [append_start_word in name or append_end_word in name] for some keyword and symbol *)
Definition has_keyword (keywords : list string) (name : string) : bool :=
  existsb (fun k => existsb (fun y => contains (String.append y k) name || contains (String.append k y) name) ["_"; "."; "-"]) keywords.
Fixpoint find_column (keywords names : list string) (i : Z) : Z :=
  match names with [] => (-1)%Z | n :: r => if has_keyword keywords n then i else find_column keywords r (i + 1) end.
Definition find_target (names keywords : list string) : Z := find_column keywords names 0.

Definition same_object (a b : nat) : bool := (a =? b) && (a <=? 256).
Fixpoint remove_spaces (s : string) : string :=
  match s with
  | String.EmptyString => s
  | String.String c r => if Ascii.eqb c (Ascii.ascii_of_nat 32) then remove_spaces r else String.String c (remove_spaces r)
  end.
Fixpoint row_at (header i : nat) (rows : list (list string)) : list string :=
  match rows with [] => [] | r :: rest => if same_object i header then r else row_at header (i + 1) rest end.
Definition csv_column_names (header : option nat) (rows : list (list string)) : list string :=
  match header with None => [] | Some h => map remove_spaces (row_at h 0 rows) end.

Definition source_words : list string := ["source"; "src"; "origin"].
Definition target_words : list string := ["target"; "destination"; "dst"].
Definition graph_words : list string := ["node"].
(** is_match with the default keywords: the columns of sources and destinations *)
Definition match_columns (names : list string) : option (Z * Z) :=
  let s := find_target names source_words in
  let d := find_target names target_words in
  let g := find_target names graph_words in
  if ((0 <=? d)%Z && (0 <=? s)%Z && (0 <=? g)%Z)%bool then Some (s, d) else None.

(** networkx: add_node, add_edge *)
Section Nx.
  Context {N : Type} {EN : EqDecB N}.
  Definition add_node (ns : list N) (n : N) : list N := if lmem ns n then ns else ns ++ [n].
  Definition same_pair (u v a b : N) : bool := ((eqb u a && eqb v b) || (eqb u b && eqb v a))%bool.
  Fixpoint put_edge (es : list (edge N)) (u v : N) (x : attrs) : list (edge N) :=
    match es with
    | [] => [(u, v, x)]
    | (a, b, y) :: r => if same_pair u v a b then (a, b, dupdate y x) :: r else (a, b, y) :: put_edge r u v x
    end.
  Definition add_edge (g : graph N) (u v : N) (x : attrs) : graph N :=
    {| nodes := add_node (add_node (nodes g) u) v; edges := put_edge (edges g) u v x |}.
End Nx.

Section Read.
  Variable to_float : string -> option Q.
  Definition cell := option string.

  (** [row[i]] for an index that may be None or negative *)
  Definition at_index (row : list cell) (i : option Z) : result cell :=
    match i with
    | None => Err TypeError
    | Some z =>
        let k := (if z <? 0 then z + Z.of_nat (length row) else z)%Z in
        if (k <? 0)%Z then Err IndexError else match nth_error row (Z.to_nat k) with Some c => Ok c | None => Err IndexError end
    end.
  Definition check_cell (c : cell) : result node := match c with None => Err TypeError | Some s => check_integer s end.
  Definition is_index (column : nat) (i : option Z) : bool :=
    match i with Some z => ((Z.of_nat column =? z)%Z && (column <=? 256))%bool | None => false end.

  (** The loop over the columns of a row *)
  Fixpoint columns_of (names : option (list string)) (src dst : option Z) (column : nat) (cells : list cell) (acc : attrs) (g : graph node)
      : result (attrs * graph node) :=
    match cells with
    | [] => Ok (acc, g)
    | None :: r => columns_of names src dst (column + 1) r acc g
    | Some s :: r =>
        match names, (negb (is_index column src) || negb (is_index column dst))%bool with
        | Some ns, true =>
            match to_float s with
            | None => Err ValueError
            | Some q =>
                match nth_error ns column with
                | None => Err IndexError
                | Some n => columns_of names src dst (column + 1) r (dset acc n (Some q)) g
                end
            end
        | _, _ =>
            if (is_index column src || is_index column dst)%bool
            then bind (check_integer s) (fun n => columns_of names src dst (column + 1) r acc {| nodes := add_node (nodes g) n; edges := edges g |})
            else columns_of names src dst (column + 1) r acc g
        end
    end.
  (** The loop over the rows *)
  Fixpoint read_rows (names : option (list string)) (src dst : option Z) (rows : list (list cell)) (g : graph node) : result (graph node) :=
    match rows with
    | [] => Ok g
    | row :: rest =>
        bind (columns_of names src dst 0 row [] g) (fun ag =>
        bind (bind (at_index row src) check_cell) (fun u =>
        bind (bind (at_index row dst) check_cell) (fun v =>
        read_rows names src dst rest (add_edge (snd ag) u v (fst ag)))))
    end.
  (** _format_data_networkx: columns not given are looked for among the names *)
  Definition locate (given : option Z) (names : option (list string)) (words : list string) : option Z :=
    match given, names with None, Some ns => Some (find_target ns words) | _, _ => given end.
  Definition read_graph (names : option (list string)) (src dst : option Z) (rows : list (list cell)) : result (graph node) :=
    read_rows names (locate src names source_words) (locate dst names target_words) rows {| nodes := []; edges := [] |}.
End Read.
