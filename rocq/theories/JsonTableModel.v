(** * Tables from JSON

    data_readers/data_utils.py json_to_dataframe (124-163); data_readers/json_data.py
    _get_data_as_df (313-330), _load_data_from_file (260-281) and the test of is_match
    (368-422).

    Of pandas: json_normalize without further arguments and DataFrame of a list.
    What [astype(str)] makes of the cells in the end is left out, as it depends on
    the types found in the whole column.  Numbers with a fraction are given by their texts.
    unicode_to_str changes nothing, since lone surrogates are left out. *)
From Coq Require Import List Arith Bool ZArith Lia.
Import ListNotations.
From Coq Require String.
From Verif Require Import PyCommon PyDict PyString.
Local Open Scope string_scope.
Local Open Scope nat_scope.

Inductive json :=
| JNull | JBool (b : bool) | JInt (z : Z) | JFloat (t : string) | JStr (s : string)
| JList (l : list json) | JObj (d : list (string * json)).

Definition is_obj (v : json) : bool := match v with JObj _ => true | _ => false end.

(** isinstance(x, type(first)) *)
Definition same_type (first x : json) : bool :=
  match first, x with
  | JNull, JNull | JBool _, JBool _ | JInt _, JInt _ | JInt _, JBool _ | JFloat _, JFloat _
  | JStr _, JStr _ | JList _, JList _ | JObj _, JObj _ => true
  | _, _ => false
  end.

(** ** json_normalize *)
Definition longer (key k : string) : string := if PyDict.eqb key "" then k else String.append key (String.append "." k).

(** _normalise_json of pandas: the values that are no objects under their joined keys *)
Fixpoint normalise (v : json) (key : string) (acc : dict string json) : dict string json :=
  match v with
  | JObj d =>
      (fix go d acc :=
         match d with
         | [] => acc
         | (k, x) :: r => go r (normalise x (longer key k) acc)
         end) d acc
  | _ => dset acc key v
  end.

(** _normalise_json_ordered of pandas: keys without an object first *)
Definition normalise_ordered (d : list (string * json)) : dict string json :=
  dupdate (filter (fun e => negb (is_obj (snd e))) d)
    (normalise (JObj (filter (fun e => is_obj (snd e)) d)) "" []).

(** ** Tables *)
(** Names of columns: texts, or positions for rows that are lists *)
Inductive cname := CKey (s : string) | CPos (n : nat).
Definition cname_eqb (a b : cname) : bool :=
  match a, b with CKey s, CKey t => PyDict.eqb s t | CPos m, CPos n => m =? n | _, _ => false end.

(** Rows of cells that may be missing *)
Record frame := mkFrame { f_cols : list cname; f_rows : list (list (option json)) }.

(** The keys of the records in the order of their first appearance *)
Definition keys_of (recs : list (list (string * json))) : list string :=
  fold_left (fun ks r => fold_left (fun ks e => if lmem ks (fst e) then ks else ks ++ [fst e]) r ks) recs [].

Definition frame_of_dicts (recs : list (list (string * json))) : frame :=
  let ks := keys_of recs in
  mkFrame (map CKey ks) (map (fun r => map (fun k => dget r k) ks) recs).

Definition obj_of (v : json) : list (string * json) := match v with JObj d => d | _ => [] end.
Definition list_of (v : json) : list json := match v with JList l => l | _ => [] end.

Definition frame_of_lists (rows : list (list json)) : frame :=
  let w := list_max (map (@length json) rows) in
  mkFrame (map CPos (seq 0 w)) (map (fun r => map (fun i => nth_error r i) (seq 0 w)) rows).

(** [df[selected_columns]] *)
Definition position (cols : list cname) (c : cname) : option nat :=
  (fix go i l := match l with
                 | [] => None
                 | x :: r => if cname_eqb x c then Some i else go (S i) r
                 end) 0 cols.
Fixpoint all_some {A} (l : list (option A)) : option (list A) :=
  match l with
  | [] => Some []
  | Some x :: r => match all_some r with Some s => Some (x :: s) | None => None end
  | None :: _ => None
  end.
Definition select (f : frame) (sel : list string) : result frame :=
  match sel with
  | [] => Ok f
  | _ =>
      match all_some (map (fun s => position (f_cols f) (CKey s)) sel) with
      | None => Err KeyError
      | Some ps => Ok (mkFrame (map CKey sel) (map (fun r => map (fun i => nth i r None) ps) (f_rows f)))
      end
  end.

(** json_to_dataframe, 124-163, before [astype(str)].  [plain] tells dictionaries
    from ordered dictionaries. *)
Definition to_frame (plain : bool) (lines : list json) (sel : list string) : result frame :=
  match lines with
  | [] => Ok (mkFrame [] [])
  | first :: _ =>
      if forallb (same_type first) lines then
        select
          (match first with
           | JObj _ => if plain then frame_of_dicts (map (fun v => normalise_ordered (obj_of v)) lines)
                       else frame_of_dicts (map obj_of lines)
           | JList _ => frame_of_lists (map list_of lines)
           | _ => mkFrame [CPos 0] (map (fun v => [Some v]) lines)
           end) sel
      else Err ValueError
  end.

(** ** Files *)
(** A line as read: not to be decoded, or a text with ":" or "[" in it or not, and
    what json.loads makes of it *)
Inductive line := LBad | LText (mark : bool) (value : option json).

(** A file: the value of the whole as one document, if it is one, and its lines *)
Record file := mkFile { whole_doc : option json; file_lines : list line }.

(** 397-417: counts of valid lines and of lines; [None] for False *)
Fixpoint scan (k : nat) (ls : list line) (valid total : nat) : option (nat * nat) :=
  match k with
  | 0 => Some (valid, total)
  | S k' =>
      match ls with
      | [] => Some (valid, S total)
      | LBad :: _ => None
      | LText mark v :: r =>
          scan k' r (if mark && match v with Some _ => true | None => false end then S valid else valid) (S total)
      end
  end.

(** is_match, 368-422 *)
Definition is_match (f : file) : bool :=
  match whole_doc f with
  | Some _ => true
  | None =>
      match scan 1000 (file_lines f) 0 0 with
      | None => false
      | Some (valid, total) => total <=? 2 * valid
      end
  end.

(** read_json (C51), for lines of a file: never empty before the end; a line that is
    not to be decoded is an error *)
Definition read_lines (ls : list line) : result (list json) :=
  let vs := flat_map (fun l => match l with LText _ (Some v) => [v] | _ => [] end) ls in
  if existsb (fun l => match l with LBad => true | _ => false end) ls then Err ValueError
  else match vs, ls with
       | [], _ :: _ => Err ValueError
       | _, _ => Ok vs
       end.

(** What is loaded, and whether its dictionaries are plain *)
Definition load (f : file) : result (bool * json) :=
  match whole_doc f with
  | Some v => Ok (true, v)
  | None => match read_lines (file_lines f) with Ok vs => Ok (false, JList vs) | Err e => Err e end
  end.

(** _get_data_as_df, 313-330, with [len] of other values *)
Definition as_df (plain : bool) (v : json) (sel : list string) : result frame :=
  match v with
  | JObj _ => to_frame plain [v] sel
  | JList l => to_frame plain l sel
  | JStr s => if PyDict.eqb s "" then Ok (mkFrame [] []) else Err ValueError
  | _ => Err TypeError
  end.

Definition file_frame (f : file) (sel : list string) : result frame :=
  match load f with Ok (plain, v) => as_df plain v sel | Err e => Err e end.
