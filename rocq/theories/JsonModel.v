(** Reading JSON and text: data_readers/json_data.py, data_utils.py (read_json), structured_mixins.py, text_data.py,
    parquet_data.py and avro_data.py.

    Keys are lists of characters of an arbitrary type; values other than dictionaries and lists are of an arbitrary
    type.  The JSON parser and pandas are not modelled: parsing is an arbitrary function, and a table is the list of
    its rows. *)
From Verif Require Import PyCommon PyDict PyEq.
Local Open Scope nat_scope.

(** ** Lines of JSON *)
Section Lines.
  Context {Line Obj : Type}.
  Variable parse : Line -> option Obj.   (* [json.loads] and [unicode_to_str]; [None] for a [ValueError] *)
  Variable falsy : Line -> bool.         (* the empty line *)

  (** The loop of read_json, data_utils.py 252-271: [k] is the number of lines read *)
  Fixpoint read_loop (gen : list Line) (lines : list Obj) (k : nat) : list Obj * nat :=
    match gen with
    | [] => (lines, k)
    | l :: r => if falsy l then (lines, k)
                else read_loop r (match parse l with Some o => lines ++ [o] | None => lines end) (S k)
    end.

  (** read_json, 223-275 *)
  Definition read_json (gen : list Line) : result (list Obj) :=
    let (lines, k) := read_loop gen [] 0 in
    match lines with [] => if 0 <? k then Err ValueError else Ok lines | _ => Ok lines end.
End Lines.

(** ** Cutting data into lines *)
Section Cut.
  Context {A : Type}.

  (** [data[i*n : (i+1)*n] for i in range((len(data) + n - 1) // n)]; [n = 0] divides by 0 *)
  Definition cut (n : nat) (data : list A) : result (list (list A)) :=
    if n =? 0 then Err ZeroDivisionError
    else Ok (map (fun i => slice data (i * n) ((i + 1) * n)) (seq 0 ((length data + n - 1) / n))).

  (** TextData._get_data_as_text, text_data.py 86-101 *)
  Definition text_lines (per_line : nat) (data : list A) : result (list (list A)) :=
    cut (Nat.min (Nat.max (length data) 1) per_line) data.

  (** JSONData._get_data_as_json, json_data.py 300-311, and parquet_data.py 125-128: [n] times the same iterator is
      zipped, which gives whole groups only *)
  Definition zip_lines (per_line : nat) (data : list A) : list (list A) :=
    let n := Nat.min (length data) per_line in
    map (fun i => slice data (i * n) ((i + 1) * n)) (seq 0 (length data / n)).

  (** [sep.join(l)] *)
  Fixpoint join (sep : list A) (l : list (list A)) : list A :=
    match l with [] => [] | [x] => x | x :: r => x ++ sep ++ join sep r end.
End Cut.

(** SpreadSheetDataMixin._get_data_as_records, structured_mixins.py 72-83 *)
Definition record_lines {A} (newline : list A) (per_line : nat) (data : list (list A)) : result (list (list A)) :=
  bind (cut (Nat.min (length data) per_line) data) (fun groups => Ok (map (join newline) groups)).

(** ** Flattening and nesting *)
Inductive json (A V : Type) : Type :=
| JVal (v : V)
| JDict (d : list (list A * json A V))
| JList (l : list (json A V)).
Arguments JVal {A V} v.
Arguments JDict {A V} d.
Arguments JList {A V} l.

Section Json.
  Context {A V : Type} {EA : EqDecB A}.
  Notation key := (list A).
  Notation json := (json A V).
  Variable sep : list A.   (* _key_separator, not empty *)

  Definition is_dict (j : json) : bool := match j with JDict _ => true | _ => false end.
  Definition is_value (j : json) : bool := match j with JVal _ => true | _ => false end.

  Definition ends_with_sep (p : key) : bool := eqb (skipn (length p - length sep) p) sep.

  (** 125-126: [path[-len(sep):] != sep] *)
  Definition open_path (path : key) : key :=
    match path with [] => [] | _ => if ends_with_sep path then path else path ++ sep end.

  (** [path[:-len(sep)]] *)
  Definition close_path (path : key) : key := firstn (length path - length sep) path.

  (** JSONData._find_data, json_data.py 115-149; the one-item dictionaries are pairs *)
  Fixpoint find_data (j : json) (path : key) : list (key * json) :=
    let path := open_path path in
    match j with
    | JDict d =>
        (fix over (d : list (key * json)) : list (key * json) :=
           match d with
           | [] => []
           | (k, x) :: r => (if is_value x then [(path ++ k, x)] else find_data x (path ++ k)) ++ over r
           end) d
    | JList l =>
        if forallb is_dict l
        then (fix over (l : list json) : list (key * json) :=
                match l with [] => [] | x :: r => find_data x path ++ over r end) l
        else [(close_path path, j)]
    | JVal _ => [(close_path path, j)]
    end.

  (** JSONData._coalesce_dicts, 151-170 *)
  Fixpoint place {X} (item : key * X) (rows : list (dict key X)) : list (dict key X) :=
    match rows with
    | [] => [[item]]
    | d :: r => if dmem d (fst item) then d :: place item r else dset d (fst item) (snd item) :: r
    end.
  Definition coalesce {X} (items : list (key * X)) : list (dict key X) :=
    fold_left (fun rows item => place item rows) items [[]].

  (** The non-payload part of _get_data_as_flattened_dataframe, 216-226 *)
  Definition flatten (d : list (key * json)) (skip : option key) : list (dict key json) :=
    coalesce (concat (map (fun kv => if match skip with Some s => eqb (fst kv) s | None => false end then [] else find_data (snd kv) (fst kv)) d)).

  (** 209-214: the payload with the most rows; [payloads] are the payload keys found with their number of rows *)
  Definition select_payload (payloads : list (key * nat)) : option key :=
    snd (fold_left (fun best p => if fst best <? snd p then (snd p, Some (fst p)) else best) payloads (0, None)).
End Json.

Section Nest.
  Context {A V : Type} {EA : EqDecB A}.
  Notation key := (list A).
  Notation json := (json A V).
  Variable dot : A.              (* separator, always one character here *)
  Variable is_null : V -> bool.  (* [None], [nan] or "nan" *)

  (** [key.split(separator, 1)] *)
  Fixpoint split_first (k : key) : option (key * key) :=
    match k with
    | [] => None
    | c :: r => if eqb c dot then Some ([], r)
                else match split_first r with Some (a, b) => Some (c :: a, b) | None => None end
    end.

  (** JSONData._convert_flat_to_nested_cols, json_data.py 332-365.  [fuel] bounds the depth of the recursion, which
      removes a separator each time. *)
  Fixpoint nest (fuel : nat) (d : dict key json) : result (dict key json) :=
    match fuel with
    | 0 => Err RuntimeErr
    | S f =>
        fold_left (fun acc k =>
          bind acc (fun d =>
          match split_first k with
          | None => Ok d
          | Some (a, b) =>
              match dget d k with
              | None => Err KeyError
              | Some x =>
                  match match dget d a with
                        | None => Ok []
                        | Some (JVal v) => if is_null v then Ok [] else Err TypeError
                        | Some (JList _) => Err TypeError
                        | Some (JDict dd) => Ok dd
                        end with
                  | Err e => Err e
                  | Ok nv => bind (nest f (dset nv b x)) (fun nv' => Ok (dset (ddel d k) a (JDict nv')))
                  end
              end
          end)) (dkeys d) (Ok d)
    end.

  (** Enough for all keys *)
  Definition convert (d : dict key json) : result (dict key json) := nest (S (List.list_max (map (@length A) (dkeys d)))) d.
End Nest.

(** ** Keys of AVRO records *)
Section Avro.
  Context {A V : Type} {EA : EqDecB A}.
  Notation key := (list A).

  (** The nested keys: [KLeaf] is 1 *)
  Inductive keys := KLeaf | KDict (d : list (key * keys)).

  (** AVROData._get_nested_key, avro_data.py 105-131; [key in 1] is a [TypeError].  Lists are values. *)
  Fixpoint nested_key (j : json A V) (nk : keys) : result keys :=
    match j with
    | JDict line =>
        (fix over (line : list (key * json A V)) (nk : keys) : result keys :=
           match line with
           | [] => Ok nk
           | (k, x) :: r =>
               match nk with
               | KLeaf => Err TypeError
               | KDict d =>
                   bind (match dget d k with
                         | Some old => if is_dict x then bind (nested_key x old) (fun n => Ok (KDict (dset d k n))) else Ok nk
                         | None => if is_dict x then bind (nested_key x (KDict [])) (fun n => Ok (KDict (dset d k n)))
                                   else Ok (KDict (dset d k KLeaf))
                         end) (over r)
               end
           end) line nk
    | _ => Err AttributeError
    end.

  (** _get_nested_keys_from_dicts, 134-149 *)
  Definition nested_keys (lines : list (json A V)) : result keys :=
    fold_left (fun acc l => bind acc (nested_key l)) lines (Ok (KDict [])).
End Avro.
