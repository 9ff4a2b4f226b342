(** * Labelers saved to a directory and loaded from it

    base_data_labeler.py: __eq__ (55-77), set_preprocessor and set_postprocessor
    (327-372), _load_parameters (449-512), _load_model (514-538),
    _load_preprocessor (540-569), _load_postprocessor (571-602),
    _load_data_labeler (604-628), _save_* and save_to_disk (684-757);
    data_processing.py: registry, equality, load_from_disk and _save_processor of
    BaseDataProcessor (48-80, 134-156), __eq__ and _save_processor of
    StructCharPostprocessor (1577-1598, 1852-1865), _save_processor of
    RegexPostProcessor (2060-2073) and StructRegexPostProcessor (2150-2165);
    base_model.py: __eq__ and registry (67-93), set_label_mapping (231-248),
    get_class (151-159); regex_model.py (267-306), column_name_model.py (277-316),
    character_level_cnn_model.py (__eq__ 245-265, save and load 391-453).

    Simplifications: a JSON value is its text (tuples, which come back as lists,
    are left out); the state of a random generator and the weights of a network
    are numbers; what constructors accept is a parameter, and so is a default label
    that is missing in the labels; the weights are those of the network after
    save_to_disk has constructed it if need be; random_state of the postprocessors
    that save it is a generator; a StructRegexPostProcessor is described by the
    generator of the processor inside; errors of opening and reading files are
    [GenericException].  CharLoadTFModel, whose parameters lose the path of the
    model, is left out. *)
From Coq Require Import List Arith Bool.
From Coq Require String.
Import ListNotations.
From Verif Require Import PyCommon PyString PyDict.
Local Open Scope nat_scope.
Local Delimit Scope string_scope with string.

(** ** Labelers *)
(** The value of a parameter: JSON, a random.Random object (its identity and its
    state), or another object that JSON cannot hold, such as a numpy array. *)
Inductive pval := PJson (text : string) | PRandom (id state : nat) | POther (id : nat).

(** A processor: class and _parameters *)
Record comp := mkComp { c_class : string; c_params : dict string pval }.

(** A label is a text or a number (set_label_mapping checks neither) *)
Inductive label := LStr (s : string) | LInt (n : nat).

Record model := mkModel
  { m_class : string; m_params : dict string pval; m_labels : dict label nat; m_weights : option nat }.

Record labeler := mkLab { l_pre : comp; l_model : model; l_post : comp }.

(** [==] of parameters: random.Random compares by identity *)
Definition pval_eqb (a b : pval) : bool :=
  match a, b with
  | PJson s, PJson t => String.eqb s t
  | PRandom i _, PRandom j _ => i =? j
  | POther i, POther j => i =? j
  | _, _ => false
  end.

(** [==] of dicts *)
Definition dict_eqb {V} (veq : V -> V -> bool) (a b : dict string V) : bool :=
  (length a =? length b)
  && forallb (fun kv => match dget b (fst kv) with Some v => veq (snd kv) v | None => false end) a.

Definition label_eqb (a b : label) : bool :=
  match a, b with
  | LStr s, LStr t => String.eqb s t
  | LInt n, LInt m => n =? m
  | _, _ => false
  end.

Definition lget (d : dict label nat) (k : label) : option nat :=
  match find (fun kv => label_eqb (fst kv) k) d with Some kv => Some (snd kv) | None => None end.

Definition labels_eqb (a b : dict label nat) : bool :=
  (length a =? length b)
  && forallb (fun kv => match lget b (fst kv) with Some v => snd kv =? v | None => false end) a.

(** What is compared of the parameters: data_processing.py 61-80 all, but
    StructCharPostprocessor (1577-1598) not its generator *)
Definition compared (c : string) (ps : dict string pval) : dict string pval :=
  if String.eqb c "StructCharPostprocessor"
  then filter (fun kv => negb (String.eqb (fst kv) "random_state")) ps
  else ps.

Definition comp_eqb (a b : comp) : bool :=
  String.eqb (c_class a) (c_class b)
  && dict_eqb pval_eqb (compared (c_class a) (c_params a)) (compared (c_class b) (c_params b)).

(** base_model.py 67-87; CharacterLevelCnnModel (245-265) compares no classes.
    Weights are never compared. *)
Definition model_eqb (a b : model) : bool :=
  (String.eqb (m_class a) "CharacterLevelCnnModel" || String.eqb (m_class a) (m_class b))
  && dict_eqb pval_eqb (m_params a) (m_params b)
  && labels_eqb (m_labels a) (m_labels b).

(** base_data_labeler.py 56-77 *)
Definition labeler_eqb (a b : labeler) : bool :=
  comp_eqb (l_pre a) (l_pre b) && model_eqb (l_model a) (l_model b) && comp_eqb (l_post a) (l_post b).

(** ** Files *)
Inductive file (A : Type) := Absent | Broken | Content (a : A).
Arguments Absent {A}. Arguments Broken {A}. Arguments Content {A} a.

(** A value in a file: JSON, or the state of a generator *)
Inductive jval := JText (text : string) | JState (state : nat).

Record dir := mkDir
  { f_names : file (string * string * string);
    f_mparams : file (dict string jval);
    f_labels : file (dict string nat);
    f_weights : file nat;
    f_pre : file (dict string jval);
    f_post : file (dict string jval) }.

Definition empty_dir : dir := mkDir Absent Absent Absent Absent Absent Absent.
Definition disk := dict string dir.

(** The classes whose random_state is saved as its state *)
Definition has_state (c : string) : bool :=
  String.eqb c "RegexPostProcessor" || String.eqb c "StructRegexPostProcessor"
  || String.eqb c "StructCharPostprocessor".

(** json.dump: None for a TypeError *)
Definition dump_value (stateful : bool) (key : string) (v : pval) : option jval :=
  match v with
  | PJson s => Some (JText s)
  | PRandom _ st => if stateful && String.eqb key "random_state" then Some (JState st) else None
  | POther _ => None
  end.

Fixpoint dump (stateful : bool) (ps : dict string pval) : option (dict string jval) :=
  match ps with
  | [] => Some []
  | (k, v) :: r =>
      match dump_value stateful k v, dump stateful r with
      | Some j, Some l => Some ((k, j) :: l)
      | _, _ => None
      end
  end.

Section Disk.
(** The text of a number as a key in JSON *)
Variable show : nat -> string.

Definition key_text (l : label) : string := match l with LStr s => s | LInt n => show n end.

(** The dict read from the keys and values written: the last of equal keys counts *)
Definition dump_labels (m : dict label nat) : dict string nat :=
  fold_left (fun d kv => dset d (key_text (fst kv)) (snd kv)) m [].

Definition set_names f x := mkDir (Content x) (f_mparams f) (f_labels f) (f_weights f) (f_pre f) (f_post f).
Definition set_mparams f x := mkDir (f_names f) x (f_labels f) (f_weights f) (f_pre f) (f_post f).
Definition set_labels f x := mkDir (f_names f) (f_mparams f) (Content x) (f_weights f) (f_pre f) (f_post f).
Definition set_weights f x := mkDir (f_names f) (f_mparams f) (f_labels f) (Content x) (f_pre f) (f_post f).
Definition set_pre f x := mkDir (f_names f) (f_mparams f) (f_labels f) (f_weights f) x (f_post f).
Definition set_post f x := mkDir (f_names f) (f_mparams f) (f_labels f) (f_weights f) (f_pre f) x.

(** A file opened for writing and json.dump into it: broken after an error *)
Definition written {A} (x : option A) : file A := match x with Some a => Content a | None => Broken end.

(** _save_data_labeler: names of classes, model, preprocessor, postprocessor *)
Definition save_files (l : labeler) (f : dir) : dir * option exn :=
  let f1 := set_names f (m_class (l_model l), c_class (l_pre l), c_class (l_post l)) in
  let mp := dump false (m_params (l_model l)) in
  let f2 := set_mparams f1 (written mp) in
  match mp with
  | None => (f2, Some TypeError)
  | Some _ =>
      let f3 := set_labels f2 (dump_labels (m_labels (l_model l))) in
      let f4 := match m_weights (l_model l) with Some w => set_weights f3 w | None => f3 end in
      let pp := dump (has_state (c_class (l_pre l))) (c_params (l_pre l)) in
      let f5 := set_pre f4 (written pp) in
      match pp with
      | None => (f5, Some TypeError)
      | Some _ =>
          let qp := dump (has_state (c_class (l_post l))) (c_params (l_post l)) in
          let f6 := set_post f5 (written qp) in
          (f6, match qp with None => Some TypeError | Some _ => None end)
      end
  end.

(** save_to_disk: the first file cannot be opened in a directory that is not there
    (RegexModel would make it, but later) *)
Definition save (l : labeler) (d : string) (k : disk) : disk * option exn :=
  match dget k d with
  | None => (k, Some GenericException)
  | Some f => let (f', e) := save_files l f in (dset k d f', e)
  end.

(** ** Loading *)
Inductive kind := KPre | KPost.

(** Registered classes by their names in lower case: processors with their kind,
    models with whether they have weights *)
Record registry := mkReg { r_procs : dict string (string * kind); r_models : dict string (string * bool) }.

(** _register_subclass, base_model.py 89-93: a class whose name is the same in lower
    case replaces the one before *)
Definition register_model (reg : registry) (name : string) (weights : bool) : registry :=
  mkReg (r_procs reg) (dset (r_models reg) (lower_string name) (name, weights)).

(** An entry of load_options: absent, of a wrong type, or an object of a class *)
Inductive opt (A : Type) := OAbsent | OBad | OClass (a : A).
Arguments OAbsent {A}. Arguments OBad {A}. Arguments OClass {A} a.
Record options := mkOpts { o_model : opt (string * bool); o_pre : opt (string * kind); o_post : opt (string * kind) }.

(** What the constructor of a class accepts *)
Variable valid : string -> dict string jval -> bool.

Definition read {A} (f : file A) : result A :=
  match f with Content a => Ok a | _ => Err GenericException end.

Definition undump (c : string) (id : nat) (ps : dict string jval) : dict string pval :=
  map (fun kv => (fst kv,
         match snd kv with
         | JText s => PJson s
         | JState st => if has_state c then PRandom id st else POther id
         end)) ps.

(** base_data_labeler.py 468-511: type, then name *)
Definition check_opt {A} (o : opt (string * A)) (name : string) : option exn :=
  match o with
  | OAbsent => None
  | OBad => Some TypeError
  | OClass (n, _) => if String.eqb n name then None else Some ValueError
  end.

(** Class from the options or the registry, by the name in the file *)
Definition find_class {A} (o : opt (string * A)) (reg : dict string (string * A)) (name : string)
    : result (string * A) :=
  match o with
  | OClass c => Ok c
  | _ => match dget reg (lower_string name) with Some c => Ok c | None => Err ValueError end
  end.

Definition load_model (f : dir) (c : string * bool) : result model :=
  bind (read (f_mparams f)) (fun ps =>
  bind (read (f_labels f)) (fun ls =>
  bind (if snd c then bind (read (f_weights f)) (fun w => Ok (Some w)) else Ok None) (fun w =>
  if valid (fst c) ps then
    match ls with
    | [] => Err TypeError
    | _ => Ok (mkModel (fst c) (undump (fst c) 0 ps) (map (fun kv => (LStr (fst kv), snd kv)) ls) w)
    end
  else Err ValueError))).

(** load_from_disk of a processor reads the file of its own kind; then
    set_preprocessor or set_postprocessor checks the kind *)
Definition load_comp (f : dir) (want : kind) (c : string * kind) (id : nat) : result comp :=
  bind (read (match snd c with KPre => f_pre f | KPost => f_post f end)) (fun ps =>
  if valid (fst c) ps then
    match want, snd c with
    | KPre, KPre | KPost, KPost => Ok (mkComp (fst c) (undump (fst c) id ps))
    | _, _ => Err TypeError
    end
  else Err ValueError).

(** _load_data_labeler; [id] is the identity of the next new object *)
Definition load_files (reg : registry) (o : options) (f : dir) (id : nat) : result labeler :=
  bind (read (f_names f)) (fun names =>
  let '(nm, npre, npost) := names in
  match check_opt (o_model o) nm, check_opt (o_pre o) npre, check_opt (o_post o) npost with
  | Some e, _, _ | None, Some e, _ | None, None, Some e => Err e
  | None, None, None =>
      bind (bind (find_class (o_model o) (r_models reg) nm) (load_model f)) (fun m =>
      bind (bind (find_class (o_pre o) (r_procs reg) npre) (fun c => load_comp f KPre c id)) (fun p =>
      bind (bind (find_class (o_post o) (r_procs reg) npost) (fun c => load_comp f KPost c (S id))) (fun q =>
      Ok (mkLab p m q))))
  end).

Definition load (reg : registry) (o : options) (d : string) (k : disk) (id : nat) : result labeler :=
  match dget k d with
  | None => Err GenericException
  | Some f => load_files reg o f id
  end.

Definition no_options : options := mkOpts OAbsent OAbsent OAbsent.

End Disk.

Arguments OAbsent {A}. Arguments OBad {A}. Arguments OClass {A} a.
