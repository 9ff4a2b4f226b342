(** * Data handed to labelers

    labelers/base_data_labeler.py: _check_and_return_valid_data_format (155-188),
    the data of predict (276-325); labelers/data_labelers.py:
    train_structured_labeler (17-74).

    A table has columns with a name, a type of numpy and values.  Whole numbers
    become floats exactly, without rounding.  [zstr], [fstr] and [nstr] are [str]
    of whole numbers, of floats and of names of columns that are no texts.  Names
    on several levels are left out.  Components and training are as in CnnModel
    and FitModel. *)
From Coq Require Import QArith List Arith Bool ZArith Lia.
Import ListNotations.
From Verif Require Import PyCommon PyDict PyString LabelModel CnnModel FitModel.
Local Open Scope string_scope.
Local Open Scope nat_scope.

Inductive dtype := DInt | DFloat | DBool | DObj.
(** [VObj s]: another object, of which [s] is the text *)
Inductive value := VInt (z : Z) | VFloat (q : Q) | VNan | VBool (b : bool) | VObj (s : string).
Inductive name := NStr (s : string) | NOther (k : nat).

Record column := mkCol { col_name : name; col_type : dtype; col_vals : list value }.
Definition table := list column.

Definition dtype_eqb (a b : dtype) : bool :=
  match a, b with DInt, DInt | DFloat, DFloat | DBool, DBool | DObj, DObj => true | _, _ => false end.

(** The type of one array for columns of these types: numpy's common type *)
Definition common (ts : list dtype) : dtype :=
  match ts with
  | [] => DObj
  | t :: r =>
      if forallb (dtype_eqb t) r then t
      else if forallb (fun u => dtype_eqb u DInt || dtype_eqb u DFloat) ts then DFloat
      else DObj
  end.

Definition as_type (t : dtype) (v : value) : value :=
  match t, v with DFloat, VInt z => VFloat (inject_Z z) | _, _ => v end.

Definition table_type (t : table) : dtype := common (map col_type t).

(** ** Data to predict *)
(** Lists in lists of values *)
Inductive nested := Leaf (v : value) | Node (l : list nested).

(** What the two lists begin with in common *)
Fixpoint prefix (a b : list nat) : list nat :=
  match a, b with
  | x :: r, y :: s => if x =? y then x :: prefix r s else []
  | _, _ => []
  end.

(** The shape that [np.array(l, dtype="object")] finds: as many dimensions as all
    parts have in common *)
Fixpoint dims (x : nested) : list nat :=
  match x with
  | Leaf _ => []
  | Node l => length l :: match map dims l with [] => [] | d :: r => fold_left prefix r d end
  end.

(** [np.reshape(..., -1)]: what stands at depth [k], in order *)
Fixpoint level (k : nat) (x : nested) : list nested :=
  match k with
  | 0 => [x]
  | S j => match x with Node l => flat_map (level j) l | Leaf _ => [x] end
  end.

Definition flat_list (l : list nested) : list nested := level (length (dims (Node l))) (Node l).

(** The rows of a table as an array, [data.values] *)
Definition table_rows (n : nat) (t : table) : list (list value) :=
  map (fun r => flat_map (fun c => match nth_error (col_vals c) r with Some v => [as_type (table_type t) v] | None => [] end) t)
    (seq 0 n).

(** The types of data that 172-183 tells apart; an array of numpy is given by its rows *)
Inductive pdata :=
| PList (l : list nested)
| PSeries (l : list value)
| PFrame (n : nat) (t : table)
| PArray (rows : list (list value))
| PReader (d : pdata)
| POther.

(** 155-188 with fit_or_predict="predict"; the data of a reader is looked at once *)
Definition plain_format (d : pdata) : result (list nested) :=
  match d with
  | PList l => Ok (flat_list l)
  | PSeries l => Ok (map Leaf l)
  | PFrame n t => Ok (map Leaf (concat (table_rows n t)))
  | PArray rows => Ok (map Leaf (concat rows))
  | PReader _ | POther => Err TypeError
  end.
Definition predict_format (d : pdata) : result (list nested) :=
  match d with PReader d' => plain_format d' | _ => plain_format d end.

(** ** Training on a table *)
Section Train.
Variable zstr : Z -> string.
Variable fstr : Q -> string.
Variable nstr : nat -> string.

Definition str_value (v : value) : string :=
  match v with
  | VInt z => zstr z
  | VFloat q => fstr q
  | VNan => "nan"
  | VBool true => "True"
  | VBool false => "False"
  | VObj s => s
  end.
Definition str_name (n : name) : string := match n with NStr s => s | NOther k => nstr k end.

(** [data.reset_index(drop=True).melt()] and [astype(str)], 53-55: the cells column
    by column, in one array, each with the name of its column *)
Definition melt (t : table) : list (string * string) :=
  flat_map (fun c => map (fun v => (str_value (as_type (table_type t) v), str_name (col_name c))) (col_vals c)) t.

(** [unique()] of pandas: in the order of first appearance *)
Fixpoint uniq (l : list string) : list string :=
  match l with
  | [] => []
  | x :: r => x :: filter (fun y => negb (PyDict.eqb x y)) (uniq r)
  end.

Variable W D R : Type.
Notation St := (cnn * W)%type.
Variable prep : St -> list string * list string -> D.
Variable mfit : St -> D -> option D -> St * result R.
Variable mismatch : St -> bool.
(** Pandas from version 2 refuses a column with the name [value] in melt *)
Variable strict_melt : bool.
(** What os.access(..., os.W_OK) says, and saving (C97) *)
Variable writable : string -> bool.
Variable save : St -> string -> option exn.

Definition put_labels (s : St) (l : list string) : St * option exn :=
  let (m, e) := cnn_set (fst s) (MList l) in ((m, snd s), e).
Definition keep (s : St) : St * option exn := (s, None).

(** The argument data: a table, a reader of a table, a reader of something else
    (without reset_index), a reader of text, or of another type *)
Inductive tdata := TFrame (t : table) | TReader (t : table) | TReaderOther | TText | TOther.
(** default_label: false as a truth value, a text, or something else *)
Inductive darg := DNone | DText (s : string) | DWrong.
(** save_dirpath *)
Inductive sarg := SNone | SText (s : string) | SWrong.

Definition table_of (d : tdata) : result table :=
  match d with
  | TFrame t | TReader t => Ok t
  | TReaderOther => Err AttributeError
  | TText | TOther => Err TypeError
  end.

(** 62-67: set_params of the three components accepts texts only *)
Definition put_default (s : St) (d : darg) : result St :=
  match d with
  | DNone => Ok s
  | DText l => if PyDict.eqb l "" then Ok s else Ok (mkCnn (c_map (fst s)) l (c_net (fst s)), snd s)
  | DWrong => Err ValueError
  end.

(** 17-74.  [s0] is the labeler loaded in 57-59.  The result has the labeler, or
    the error, and the directory where a labeler was saved. *)
Definition train (s0 : St) (d : tdata) (default : darg) (dir : sarg) (epochs : nat)
    (p0 : list nat) (ps : nat -> list nat) : result St * option string :=
  match d with
  | TText | TOther => (Err TypeError, None)
  | _ =>
      match dir with
      | SWrong => (Err TypeError, None)
      | _ =>
          if match dir with SText p => negb (writable p) | _ => false end then (Err ValueError, None)
          else match table_of d with
          | Err e => (Err e, None)
          | Ok t =>
              if strict_melt && existsb (fun c => match col_name c with NStr s => PyDict.eqb s "value" | _ => false end) t
              then (Err ValueError, None)
              else
                let x := map fst (melt t) in
                let y := map snd (melt t) in
                match put_default s0 default with
                | Err e => (Err e, None)
                | Ok s1 =>
                    match fit string string D St R (list string) prep mfit put_labels keep mismatch
                            s1 (Some x) (Some y) (1 # 5) (Some (uniq y)) false epochs false p0 ps with
                    | (_, Err e) => (Err e, None)
                    | (s2, Ok _) =>
                        match dir with
                        | SText p =>
                            if PyDict.eqb p "" then (Ok s2, None)
                            else match save s2 p with
                                 | Some e => (Err e, None)
                                 | None => (Ok s2, Some p)
                                 end
                        | _ => (Ok s2, None)
                        end
                    end
                end
          end
      end
  end.

End Train.
