(** * How labelers are made, and what they share

    labelers/base_data_labeler.py __init__ (28-54), __eq__ (56-77), set_preprocessor
    (327-342), set_model (344-356), set_postprocessor (358-373), _load_model (514-538),
    _load_preprocessor (540-569), _load_postprocessor (571-602), _load_data_labeler
    (604-628), load_from_library (630-642), load_from_disk (644-657),
    load_with_components (659-682; trainable 896-919), set_model of trainable labelers
    (882-894); labelers/data_labelers.py DataLabeler (89-198); what is saved of a labeler
    in JSON, profilers/json_encoder.py (58-67), and how it is loaded again,
    profilers/profiler_utils.py reload_labeler_from_options_or_get_new (853-909).

    Components are objects; a labeler holds references to them.  What is in a component
    (parameters, labels, weights) is of any type.  Files are not changed here (C97). *)
From Coq Require Import List Arith Bool Lia.
Import ListNotations.
From Verif Require Import PyCommon PyString.
Import String.StringSyntax.
Local Delimit Scope string_scope with string.
Local Open Scope nat_scope.

(** What a thing is: a preprocessor, a model (with a method [fit] or without), a
    postprocessor, or something else (that may have a method [fit]) *)
Inductive sort := SPre | SModel (fit : bool) | SPost | SOther (fit : bool).

Inductive lclass := CBase | CStructured | CUnstructured | CTrainable | CCustom | CCustomTrainable.

Inductive path_arg := PNone | PText (s : string) | POther.

Inductive part := Pre | Mod | Post.

Section Share.
  (** [S]: what is in a component.  [disk d]: the three things that loading from
      directory [d] makes, in the order of loading (model, preprocessor,
      postprocessor), or the exception of loading (load_options not given).
      [lib name] is [os.path.join(default_labeler_dir, name)]. *)
  Context {S : Type} (disk : string -> result ((sort * S) * (sort * S) * (sort * S))) (lib : string -> string).

  Record labeler := mkLab { l_class : lclass; l_loc : option string; l_pre : option nat; l_model : option nat; l_post : option nat }.

  (* [l_loc] is [_default_model_loc]: of the class, or set by load_from_library *)

  (** All components and labelers there are; references are positions *)
  Record heap := mkHeap { h_comps : list (sort * S); h_labs : list labeler }.

  Definition trainable_class (c : lclass) : bool :=
    match c with CTrainable | CCustomTrainable => true | _ => false end.

  Definition default_loc (c : lclass) : option string :=
    match c with
    | CStructured => Some "structured_model"%string
    | CUnstructured => Some "unstructured_model"%string
    | _ => None
    end.

  (** The checks of the three setters, in a labeler of class [c] *)
  Definition check_pre (s : sort) : option exn := match s with SPre => None | _ => Some TypeError end.
  Definition check_post (s : sort) : option exn := match s with SPost => None | _ => Some TypeError end.
  Definition check_model (c : lclass) (s : sort) : option exn :=
    let base := match s with SModel _ => None | _ => Some TypeError end in
    if trainable_class c then
      match s with
      | SModel true | SOther true => base
      | _ => Some ValueError
      end
    else base.

  (** Where the labeler object comes to be: it is put at the end *)
  Definition put (l : labeler) (h : heap) : result nat * heap :=
    (Ok (length (h_labs h)), mkHeap (h_comps h) (h_labs h ++ [l])).

  (** _load_data_labeler, 604-628: new objects; they are garbage if a check fails *)
  Definition load (c : lclass) (d : string) (h : heap) : result nat * heap :=
    match disk d with
    | Err e => (Err e, h)
    | Ok (m, p, q) =>
        match check_model c (fst m), check_pre (fst p), check_post (fst q) with
        | Some e, _, _ => (Err e, h)
        | None, Some e, _ => (Err e, h)
        | None, None, Some e => (Err e, h)
        | None, None, None =>
            let n := length (h_comps h) in
            put (mkLab c (default_loc c) (Some (n + 1)) (Some n) (Some (n + 2)))
                (mkHeap (h_comps h ++ [m; p; q]) (h_labs h))
        end
    end.

  (** BaseDataLabeler.__init__, 28-54 *)
  Definition init (c : lclass) (dirpath : path_arg) (h : heap) : result nat * heap :=
    match dirpath with
    | POther => (Err ValueError, h)
    | PNone =>
        match default_loc c with
        | Some loc => load c (lib loc) h
        | None => put (mkLab c (default_loc c) None None None) h
        end
    | PText d =>
        if String.eqb d "" && match default_loc c with None => true | Some _ => false end
        then put (mkLab c (default_loc c) None None None) h
        else load c d h
    end.

  (** DataLabeler.__new__, data_labelers.py 97-130 *)
  Definition class_of (labeler_type : string) : option lclass :=
    if String.eqb labeler_type "structured" then Some CStructured
    else if String.eqb labeler_type "unstructured" then Some CUnstructured
    else None.
  Definition make (labeler_type : string) (dirpath : path_arg) (trainable : bool) (h : heap)
    : result nat * heap :=
    match class_of labeler_type with
    | None => (Err ValueError, h)
    | Some c =>
        if trainable then
          init CTrainable
            (match dirpath, default_loc c with
             | PNone, Some loc => PText (lib loc)
             | d, _ => d
             end) h
        else init c dirpath h
    end.

  (** DataLabeler.load_from_library, data_labelers.py 132-149 *)
  Definition library_name (name : string) : string :=
    if String.eqb name "structured" then "structured_model"%string
    else if String.eqb name "unstructured" then "unstructured_model"%string
    else name.
  Fixpoint replace {A} (l : list A) (i : nat) (x : A) : list A :=
    match l, i with
    | [], _ => []
    | _ :: r, 0 => x :: r
    | y :: r, Datatypes.S i' => y :: replace r i' x
    end.
  Definition from_library (name : string) (trainable : bool) (h : heap) : result nat * heap :=
    match init (if trainable then CTrainable else CBase) (PText (lib (library_name name))) h with
    | (Ok n, h') =>
        match nth_error (h_labs h') n with
        | Some l =>
            (Ok n, mkHeap (h_comps h') (replace (h_labs h') n
               (mkLab (l_class l) (Some (library_name name)) (l_pre l) (l_model l) (l_post l))))
        | None => (Ok n, h')
        end
    | r => r
    end.

  (** DataLabeler.load_from_disk, data_labelers.py 151-171 *)
  Definition from_disk (dirpath : path_arg) (trainable : bool) (h : heap) : result nat * heap :=
    init (if trainable then CTrainable else CBase) dirpath h.

  (** DataLabeler.load_with_components, data_labelers.py 172-198; base_data_labeler.py
      678-682 and 915-919: preprocessor, model, postprocessor.  An object that is not
      there stands for something else. *)
  Definition sort_of (h : heap) (i : nat) : sort :=
    match nth_error (h_comps h) i with Some (s, _) => s | None => SOther false end.
  Definition with_components (p m q : nat) (trainable : bool) (h : heap) : result nat * heap :=
    let c := if trainable then CCustomTrainable else CCustom in
    match check_pre (sort_of h p), check_model c (sort_of h m), check_post (sort_of h q) with
    | Some e, _, _ => (Err e, h)
    | None, Some e, _ => (Err e, h)
    | None, None, Some e => (Err e, h)
    | None, None, None => put (mkLab c None (Some p) (Some m) (Some q)) h
    end.

  Definition the_part (l : labeler) (x : part) : option nat :=
    match x with Pre => l_pre l | Mod => l_model l | Post => l_post l end.
  Definition with_part (l : labeler) (x : part) (i : nat) : labeler :=
    match x with
    | Pre => mkLab (l_class l) (l_loc l) (Some i) (l_model l) (l_post l)
    | Mod => mkLab (l_class l) (l_loc l) (l_pre l) (Some i) (l_post l)
    | Post => mkLab (l_class l) (l_loc l) (l_pre l) (l_model l) (Some i)
    end.
  Definition check_part (c : lclass) (x : part) (s : sort) : option exn :=
    match x with Pre => check_pre s | Mod => check_model c s | Post => check_post s end.

  (** set_preprocessor, set_model and set_postprocessor of labeler [n] *)
  Definition set_part (n : nat) (x : part) (i : nat) (h : heap) : result nat * heap :=
    match nth_error (h_labs h) n with
    | None => (Err AttributeError, h)
    | Some l =>
        match check_part (l_class l) x (sort_of h i) with
        | Some e => (Err e, h)
        | None => (Ok n, mkHeap (h_comps h) (replace (h_labs h) n (with_part l x i)))
        end
    end.

  (** A change of a component through a labeler: set_params, add_label, set_labels and
      fit end in calls of methods of [self._preprocessor], [self._model] or
      [self._postprocessor], which change the object *)
  Definition change (n : nat) (x : part) (f : S -> S) (h : heap) : result nat * heap :=
    match nth_error (h_labs h) n with
    | None => (Err AttributeError, h)
    | Some l =>
        match the_part l x with
        | None => (Err AttributeError, h)
        | Some i =>
            match nth_error (h_comps h) i with
            | None => (Err AttributeError, h)
            | Some (s, v) => (Ok n, mkHeap (replace (h_comps h) i (s, f v)) (h_labs h))
            end
        end
    end.

  (** What a user does.  [NewComponent]: makes a component of their own. *)
  Inductive command :=
  | NewComponent (s : sort) (v : S)
  | Make (labeler_type : string) (dirpath : path_arg) (trainable : bool)
  | FromLibrary (name : string) (trainable : bool)
  | FromDisk (dirpath : path_arg) (trainable : bool)
  | WithComponents (p m q : nat) (trainable : bool)
  | SetPart (n : nat) (x : part) (i : nat)
  | Change (n : nat) (x : part) (f : S -> S).

  Definition exec (c : command) (h : heap) : result nat * heap :=
    match c with
    | NewComponent s v => (Ok (length (h_comps h)), mkHeap (h_comps h ++ [(s, v)]) (h_labs h))
    | Make t d b => make t d b h
    | FromLibrary s b => from_library s b h
    | FromDisk d b => from_disk d b h
    | WithComponents p m q b => with_components p m q b h
    | SetPart n x i => set_part n x i h
    | Change n x f => change n x f h
    end.

  Fixpoint run (cs : list command) (h : heap) : heap :=
    match cs with [] => h | c :: r => run r (snd (exec c h)) end.

  Definition empty : heap := mkHeap [] [].

  (** What labeler [n] has as part [x] *)
  Definition view (h : heap) (n : nat) (x : part) : option (sort * S) :=
    match nth_error (h_labs h) n with
    | Some l => match the_part l x with Some i => nth_error (h_comps h) i | None => None end
    | None => None
    end.

  (** __eq__, 56-77, for labelers; [same] compares two components *)
  Definition part_eqb (same : sort * S -> sort * S -> bool) (a b : option (sort * S)) : bool :=
    match a, b with
    | Some u, Some v => same u v
    | None, None => true
    | _, _ => false
    end.
  Definition lab_eqb (same : sort * S -> sort * S -> bool) (h : heap) (n m : nat) : bool :=
    negb (negb (part_eqb same (view h n Pre) (view h m Pre))
          || negb (part_eqb same (view h n Mod) (view h m Mod))
          || negb (part_eqb same (view h n Post) (view h m Post))).

  (** ** A labeler saved in JSON (json_encoder.py 58-67): the name of a labeler of the
      library *)
  Definition saved_as (h : heap) (n : nat) : result string :=
    match nth_error (h_labs h) n with
    | None => Err AttributeError
    | Some l => match l_loc l with None => Err ValueError | Some s => Ok s end
    end.

  (** The labelers known while a profile is loaded: config["DataLabelerOptions"]
      ["from_library"] and config["DataLabelerColumn"]["from_library"] *)
  Record known := mkKnown { k_options : list (string * nat); k_column : list (string * nat) }.
  Fixpoint find (d : list (string * nat)) (s : string) : option nat :=
    match d with
    | [] => None
    | (t, n) :: r => if String.eqb t s then Some n else find r s
    end.
  Definition add (d : list (string * nat)) (s : string) (n : nat) : list (string * nat) :=
    match find d s with Some _ => d | None => d ++ [(s, n)] end.

  (** reload_labeler_from_options_or_get_new, 853-909, for an entry "from_library";
      [None] is no config *)
  Definition reload (s : string) (config : option known) (h : heap)
    : result nat * option known * heap :=
    let found :=
      match config with
      | None => None
      | Some k => match find (k_options k) s with Some n => Some n | None => find (k_column k) s end
      end in
    let '(r, h') := match found with Some n => (Ok n, h) | None => from_library s false h end in
    match r with
    | Err e => (Err e, config, h')
    | Ok n =>
        (Ok n,
         match config with
         | None => None
         | Some k => Some (mkKnown (add (k_options k) s n) (add (k_column k) s n))
         end, h')
    end.
End Share.
