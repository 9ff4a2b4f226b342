(** Model of validators/base_validators.py: is_in_range (12-25), is_in_list (28-38), Validator.__init__ (44-49), validate (51-136),
    get (138-147).

    A value is seen only through Python's [float]: an exact number, NaN, or an exception.  A data frame is a dictionary of columns, each a
    list of cells with the label of their row in the index; names of columns are distinct.  What stands below "range" or "list" is a
    dictionary with "start" and "end" (missing or not: their [float] is an exception or not), or a list of numbers and texts.  A dask
    data frame computes to the same cells in the same order. *)
From Coq Require Import ZArith QArith.
From Verif Require Import PyCommon PyDict PyString.
Local Open Scope nat_scope.
Local Open Scope string_scope.
Local Open Scope list_scope.

Inductive num := Num (q : Q) | NaN.
Definition le (a b : num) : bool := match a, b with Num p, Num q => Qle_bool p q | _, _ => false end.
(** [float(x)]: [None] for an exception *)
Definition pyfloat := option num.
Inductive item := INum (x : num) | IText (s : string).
Inductive rule := RRange (start stop : pyfloat) | RList (items : list item).

(** [float(config["start"]) <= float(x) <= float(config["end"])]: the end is looked at only if the first comparison holds *)
Definition is_in_range (x : pyfloat) (r : rule) : result bool :=
  match r with
  | RList _ => Err TypeError
  | RRange s e =>
      match s, x with
      | Some a, Some b => if le a b then match e with Some c => Ok (le b c) | None => Err TypeError end else Ok false
      | _, _ => Err TypeError
      end
  end.
(** [float(x) in config]: no text equals a number, nor does NaN; the keys of a dictionary are texts *)
Definition equals (b : num) (i : item) : bool := match b, i with Num p, INum (Num q) => Qeq_bool p q | _, _ => false end.
Definition is_in_list (x : pyfloat) (r : rule) : result bool :=
  match x with
  | None => Err ValueError
  | Some b => match r with RList l => Ok (existsb (equals b) l) | RRange _ _ => Ok false end
  end.

Definition column := list (Z * pyfloat).
Record config := { known : option (dict string (dict string rule)); df_type : option string; others : bool }.
(** What is reported for a rule: [None] is the empty dictionary put there first *)
Definition report := dict string (dict string (option (list Z))).
Record validator := { last_config : option config; validation_run : bool; validation_report : report }.
Definition new_validator : validator := {| last_config := None; validation_run := false; validation_report := [] |}.

(** The results of all cells, or the first exception *)
Fixpoint apply_all (f : pyfloat -> result bool) (c : column) : result (list (Z * bool)) :=
  match c with
  | [] => Ok []
  | (i, x) :: r => bind (f x) (fun b => bind (apply_all f r) (fun l => Ok ((i, b) :: l)))
  end.
Fixpoint positions (i : nat) (l : list (Z * bool)) : list Z :=
  match l with [] => [] | (_, b) :: r => if b then Z.of_nat i :: positions (i + 1) r else positions (i + 1) r end.
Definition labels (l : list (Z * bool)) : list Z := map fst (filter snd l).

Definition get_rule (rep : report) (k : string) : dict string (option (list Z)) := match dget rep k with Some d => d | None => [] end.
(** [self.validation_report[iter_key][sub_key] = x] *)
Definition put (rep : report) (k sub : string) (x : option (list Z)) : report := dset rep k (dset (get_rule rep k) sub x).

Definition run_rule (df : string) (k : string) (c : column) (rep : report) (sub : string) (r : rule) : report * option exn :=
  let rep1 := put rep k sub None in
  if negb (lmem ["range"; "list"] sub) then (rep1, Some TypeError) else
  let f := fun x => if String.eqb sub "range" then is_in_range x r else is_in_list x r in
  if String.eqb df "dask" then
    match apply_all f c with Err e => (rep1, Some e) | Ok l => (put rep1 k sub (Some (positions 0 l)), None) end
  else if String.eqb df "pandas" then
    match apply_all f c with Err e => (rep1, Some e) | Ok l => (put rep1 k sub (Some (labels l)), None) end
  else (rep1, Some ValueError).
Fixpoint run_rules (df : string) (k : string) (c : column) (rep : report) (rs : dict string rule) : report * option exn :=
  match rs with
  | [] => (rep, None)
  | (sub, r) :: rest =>
      match run_rule df k c rep sub r with (rep', Some e) => (rep', Some e) | (rep', None) => run_rules df k c rep' rest end
  end.
Fixpoint run_columns (df : string) (data : dict string column) (rep : report) (ks : dict string (dict string rule)) : report * option exn :=
  match ks with
  | [] => (rep, None)
  | (k, rs) :: rest =>
      let rep1 := dset rep k [] in
      match dget data k with
      | None => (rep1, Some KeyError)
      | Some c => match run_rules df k c rep1 rs with (rep', Some e) => (rep', Some e) | (rep', None) => run_columns df data rep' rest end
      end
  end.
Definition validate (v : validator) (data : dict string column) (cfg : config) : validator * option exn :=
  match known cfg, df_type cfg, others cfg with
  | None, None, false => (v, Some ValueError)
  | _, _, _ =>
      let ks := match known cfg with Some d => d | None => [] end in
      if existsb (fun kv => length (snd kv) <? 1) ks then (v, Some Warning) else
      let df := lower_string (match df_type cfg with Some s => s | None => "" end) in
      let '(rep, e) := run_columns df data (validation_report v) ks in
      ({| last_config := Some cfg; validation_run := match e with None => true | Some _ => validation_run v end; validation_report := rep |}, e)
  end.
Definition get (v : validator) : result report := if validation_run v then Ok (validation_report v) else Err Warning.
