(** Model of labels for columns by their names: labelers/column_name_model.py, ColumnNameModel.__init__ (30-51), _validate_parameters
    (55-140), _compare_negative (150-169), _model (184-208), predict (210-275); base_model.py, BaseModel.set_params (188-194);
    data_processing.py, ColumnNameModelPostprocessor.process (2260-2267, returns what the model returns).

    [score] is the scorer of rapidfuzz (token_sort_ratio, of the texts in lower case).  Its scores are exact numbers, and no score is
    NaN.  Parameters are a dictionary of Python values; values of other types are [VOther] (hashable, no list, dictionary, text, number or
    None, and true).  Strings are of ASCII. *)
From Coq Require Import ZArith QArith.
From Verif Require Import PyCommon PyDict PyString.
Local Open Scope nat_scope.
Local Open Scope string_scope.
Local Open Scope list_scope.

Inductive pv := VNone | VBool (b : bool) | VInt (z : Z) | VStr (s : string) | VList (l : list pv) | VDict (d : list (string * pv)) | VOther.
Definition params := dict string pv.
Definition index {V} (d : dict string V) (k : string) : result V := match dget d k with Some v => Ok v | None => Err KeyError end.
(** [bool(v)] *)
Definition truth (v : pv) : bool :=
  match v with
  | VNone => false | VBool b => b | VInt z => negb (z =? 0)%Z | VStr s => negb (String.eqb s "") | VList l => negb (length l =? 0)
  | VDict d => negb (length d =? 0) | VOther => true
  end.
Definition hashable (v : pv) : bool := match v with VList _ | VDict _ => false | _ => true end.
Definition is_text (s : string) (v : pv) : bool := match v with VStr t => String.eqb s t | _ => false end.

(** [set(parameters["true_positive_dict"][0].values())], as a list *)
Definition first_values (v : pv) : result (list pv) :=
  match v with
  | VList (VDict d :: _) => if forallb hashable (map snd d) then Ok (map snd d) else Err TypeError
  | VList (_ :: _) => Err AttributeError
  | VList [] => Err IndexError
  | VDict _ => Err KeyError
  | VStr _ => Err AttributeError
  | _ => Err TypeError
  end.
(** [labels > keys]: all keys are among the labels, and some label is no key *)
Definition strict_superset (labels : list pv) (keys : list string) : bool :=
  (forallb (fun k => existsb (is_text k) labels) keys && existsb (fun v => negb (existsb (fun k => is_text k v) keys)) labels)%bool.

(** [value[0].keys()] of a list *)
Definition first_keys (l : list pv) : result (list string) :=
  match l with [] => Err IndexError | VDict d :: _ => Ok (map fst d) | _ :: _ => Err AttributeError end.
Definition is_dict (v : pv) : bool := match v with VDict _ => true | _ => false end.
(** [isinstance(value, int)] *)
Definition is_int (v : pv) : bool := match v with VInt _ | VBool _ => true | _ => false end.
Definition is_none (v : pv) : bool := match v with VNone => true | _ => false end.
(** The conditions of the loop: whether an error is added.  [andr]: and *)
Definition andr (a : bool) (b : result bool) : result bool := if a then b else Ok false.
Definition orr (a : bool) (b : result bool) : result bool := if a then Ok true else b.
Definition bad_false_positive (ps : params) (v : pv) : result bool :=
  andr (negb (is_none v))
    (bind (match v with VList l => bind (first_keys l) (fun ks => Ok (negb (lmem ks "attribute"))) | _ => Ok true end) (fun b =>
     andr b (bind (index ps "negative_threshold_config") (fun n => Ok (negb (is_none n)))))).
Definition bad_true_positive (v : pv) : result bool :=
  match v with
  | VList l =>
      match l with
      | [] => Err IndexError
      | x :: _ => if is_dict x then Ok false else bind (first_keys l) (fun ks => Ok (negb (lmem ks "attribute") && negb (lmem ks "label"))%bool)
      end
  | _ => Ok true
  end.
Definition accepted : list string :=
  ["false_positive_dict"; "include_label"; "negative_threshold_config"; "positive_threshold_config"; "true_positive_dict"].
(** The first condition of the chain that holds adds an error *)
Definition bad_param (ps : params) (k : string) (v : pv) : result bool :=
  if String.eqb k "false_positive_dict" then bad_false_positive ps v
  else if String.eqb k "true_positive_dict" then bad_true_positive v
  else if String.eqb k "include_label" then Ok (match v with VBool _ => false | _ => true end)
  else if String.eqb k "negative_threshold_config" then
    andr (negb (is_int v)) (bind (index ps "false_positive_dict") (fun f => Ok (negb (is_none f))))
  else if String.eqb k "positive_threshold_config" then Ok (is_none v || negb (is_int v))%bool
  else Ok (negb (lmem accepted k)).
Fixpoint any_bad (ps : params) (l : list (string * pv)) : result bool :=
  match l with
  | [] => Ok false
  | (k, v) :: r => bind (bad_param ps k v) (fun b => bind (any_bad ps r) (fun c => Ok (b || c)%bool))
  end.
(** [None] for parameters that pass, else the exception *)
Definition validate (labels : list string) (ps : params) : option exn :=
  match bind (index ps "true_positive_dict") (fun t =>
        bind (if truth t then bind (first_values t) (fun vs => Ok (strict_superset vs labels)) else Ok false) (fun b =>
        bind (any_bad ps ps) (fun c => Ok (b || c)%bool))) with
  | Err e => Some e
  | Ok true => Some ValueError
  | Ok false => None
  end.
Definition setdefault (ps : params) (k : string) (v : pv) : params := if dmem ps k then ps else dset ps k v.
(** __init__: the parameters of the model, or the exception *)
Definition new_model (labels : list string) (ps : params) : result params :=
  let ps := setdefault (setdefault (setdefault (setdefault (setdefault ps "false_positive_dict" VNone) "true_positive_dict" VNone)
              "include_label" (VBool true)) "negative_threshold_config" VNone) "positive_threshold_config" VNone in
  match validate labels ps with Some e => Err e | None => Ok ps end.
(** set_params: the parameters given are validated on their own *)
Definition set_params (labels : list string) (ps new : params) : params * option exn :=
  match validate labels new with Some e => (ps, Some e) | None => (dupdate ps new, None) end.

Section Predict.
  Variable score : string -> string -> Q.
  (** An entry of the lists: {"attribute": ..., "label": ...} *)
  Record entry := { attribute : option string; label : option string }.
  Fixpoint attributes (l : list entry) : result (list string) :=
    match l with
    | [] => Ok []
    | e :: r => match attribute e with None => Err KeyError | Some a => bind (attributes r) (fun l => Ok (a :: l)) end
    end.
  (** np.max, and argmax: the first *)
  Fixpoint best (i : nat) (b : nat * Q) (l : list Q) : nat * Q :=
    match l with [] => b | q :: r => best (i + 1) (if Qle_bool q (snd b) then b else (i, q)) r end.
  Definition row_of (name : string) (l : list string) : list Q := map (fun a => score (lower_string name) (lower_string a)) l.
  Definition max_of (l : list Q) : result (nat * Q) := match l with [] => Err ValueError | q :: r => Ok (best 1 (0, q) r) end.
  (** _model: for each name the greatest score, and where it is first *)
  Fixpoint outputs (names attrs : list string) : result (list (nat * Q)) :=
    match names with
    | [] => Ok []
    | n :: r => bind (max_of (row_of n attrs)) (fun b => bind (outputs r attrs) (fun l => Ok (b :: l)))
    end.
  Definition model (names : list string) (es : list entry) : result (list (nat * Q)) := bind (attributes es) (outputs names).
  Fixpoint keep_below (t : Q) (names : list string) (out : list (nat * Q)) : list string :=
    match names, out with n :: r, o :: s => if Qle_bool t (snd o) then keep_below t r s else n :: keep_below t r s | _, _ => [] end.
  (** The loop of predict: labels and confidences *)
  Fixpoint choose (include_label : bool) (t : Q) (es : list entry) (out : list (nat * Q)) : result (list (string * Q)) :=
    match out with
    | [] => Ok []
    | (i, q) :: r =>
        if Qle_bool q t then choose include_label t es r else
        if negb include_label then Err IndexError else
        match nth_error es i with
        | None => Err IndexError
        | Some e => match label e with None => Err KeyError | Some l => bind (choose include_label t es r) (fun p => Ok ((l, q) :: p)) end
        end
    end.
  Record settings := { false_positives : list entry; true_positives : list entry; include_label : bool; negative : Q; positive : Q }.
  Definition predict (s : settings) (names : list string) : result (list (string * Q)) :=
    bind (match false_positives s with [] => Ok names | fp => bind (model names fp) (fun out => Ok (keep_below (negative s) names out)) end) (fun data =>
    bind (model data (true_positives s)) (fun out => choose (include_label s) (positive s) (true_positives s) out)).
End Predict.
