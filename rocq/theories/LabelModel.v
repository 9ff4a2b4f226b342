(** Labels of a model and parameters of a labeler: labelers/base_model.py (label mapping) and
    labelers/base_data_labeler.py (set_params, check_pipeline).

    Label numbers are natural numbers; label names are strings.  Parameter names and values are of
    arbitrary types with equality. *)
From Verif Require Import PyCommon PyDict PyString.
Local Open Scope string_scope.
Local Open Scope nat_scope.

(** An argument that should be a string *)
Inductive arg := AStr (s : string) | ANone | AOther.

(** [dict(zip(labels, list(range(start_index, start_index + len(labels)))))], base_model.py 137-143 *)
Definition number_labels (start : nat) (labels : list string) : dict string nat :=
  fold_left (fun d kv => dset d (fst kv) (snd kv)) (combine labels (seq start (length labels))) [].

(** set_label_mapping, 231-248.  [zero] is requires_zero_mapping; the result is the new mapping. *)
Inductive mapping_arg := MList (l : list string) | MDict (d : dict string nat) | MOther.

Definition set_label_mapping (zero : bool) (a : mapping_arg) : result (dict string nat) :=
  match a with
  | MOther | MList [] | MDict [] => Err TypeError
  | MList l => Ok (number_labels (if zero then 0 else 1) l)
  | MDict d => Ok d
  end.

(** add_label, 196-227.  A label that exists already yields a warning and no change. *)
Definition add_label (m : dict string nat) (label same_as : arg) : result (dict string nat) :=
  match label with
  | ANone | AOther => Err TypeError
  | AStr l =>
      if eqb l "" then Err TypeError
      else if dmem m l then Ok m
      else match same_as with
           | AOther => Err TypeError
           | AStr s =>
               if negb (eqb s "") && negb (dmem m s) then Err ValueError
               else Ok (dset m l (match dget m s with Some v => v | None => S (list_max (dvals m)) end))
           | ANone => Ok (dset m l (S (list_max (dvals m))))
           end
  end.

(** reverse_label_mapping, 102-108 *)
Definition reverse_mapping (m : dict string nat) : dict nat string := fold_left (fun d kv => dset d (snd kv) (fst kv)) m [].

(** [sorted(..., key=lambda item: item[0])]; the keys are distinct *)
Fixpoint insert_by (kv : nat * string) (l : list (nat * string)) : list (nat * string) :=
  match l with
  | [] => [kv]
  | x :: r => if fst kv <=? fst x then kv :: x :: r else x :: insert_by kv r
  end.

Definition sort_by (l : list (nat * string)) : list (nat * string) := fold_right insert_by [] l.

(** labels, 111-123 *)
Definition labels (m : dict string nat) : list string := map snd (sort_by (reverse_mapping m)).

(** num_labels, 146-149 *)
Definition num_labels (m : dict string nat) : nat := S (list_max (dvals m)).

(** Calls on one model; a call that fails leaves the mapping as it is *)
Inductive call := CSet (a : mapping_arg) | CAdd (label same_as : arg).

Definition exec (zero : bool) (m : dict string nat) (c : call) : dict string nat :=
  match (match c with CSet a => set_label_mapping zero a | CAdd l s => add_label m l s end) with
  | Ok m' => m'
  | Err _ => m
  end.

(** * Parameters of a labeler *)
Inductive part := Pre | Mod | Post.

Section Pipeline.
  Context {K V : Type} {EK : EqDecB K} {EV : EqDecB V}.
  Notation params := (dict K V).

  (** What _validate_parameters accepts, for each component; it may depend on the stored parameters. *)
  Variable valid : part -> params -> params -> bool.

  (** A labeler: a missing component is [None] *)
  Record labeler := mkLabeler { l_pre : option params; l_mod : option params; l_post : option params }.

  Definition get_part (p : part) (lb : labeler) : option params :=
    match p with Pre => l_pre lb | Mod => l_mod lb | Post => l_post lb end.

  Definition put_part (p : part) (lb : labeler) (st : params) : labeler :=
    match p with
    | Pre => mkLabeler (Some st) (l_mod lb) (l_post lb)
    | Mod => mkLabeler (l_pre lb) (Some st) (l_post lb)
    | Post => mkLabeler (l_pre lb) (l_mod lb) (Some st)
    end.

  (** set_params of a component: BaseModel 188-194, BaseDataProcessor (data_processing.py) 121-127 *)
  Definition set_component (p : part) (st kwargs : params) : result params :=
    if valid p st kwargs then Ok (dupdate st kwargs) else Err ValueError.

  Definition part_eqb (p q : part) : bool :=
    match p, q with Pre, Pre | Mod, Mod | Post, Post => true | _, _ => false end.

  (** The request: a dictionary from component names to parameters; [None] stands for another key *)
  Definition request := list (option part * params).

  Fixpoint asked (r : request) (p : part) : option params :=
    match r with
    | [] => None
    | (Some q, kw) :: r' => if part_eqb q p then Some kw else asked r' p
    | (None, _) :: r' => asked r' p
    end.

  (** One of the three conditional calls, 240-245 *)
  Definition set_one (p : part) (r : request) (lb : labeler) : labeler * option exn :=
    match get_part p lb, asked r p with
    | Some st, Some kw =>
        match set_component p st kw with Ok st' => (put_part p lb st', None) | Err x => (lb, Some x) end
    | _, _ => (lb, None)
    end.

  (** get_parameter_overlap_mismatches, 391-408 *)
  Definition mismatches (a b : params) : list K :=
    map fst (filter (fun kv => match dget b (fst kv) with Some w => negb (eqb (snd kv) w) | None => false end) a).

  (** check_pipeline, 375-447: the messages, or the exception of a missing component *)
  Definition check_pipeline (skip_post : bool) (lb : labeler) : result (list (part * part * K)) :=
    match l_mod lb, l_pre lb with
    | Some mo, Some pr =>
        let ms := map (fun k => (Mod, Pre, k)) (mismatches mo pr) in
        if skip_post then Ok ms
        else match l_post lb with
             | None => Err AttributeError
             | Some po => Ok (ms ++ map (fun k => (Mod, Post, k)) (mismatches mo po) ++ map (fun k => (Pre, Post, k)) (mismatches pr po))
             end
    | _, _ => Err AttributeError
    end.

  (** set_params, 190-249.  The labeler after the call and the outcome: the mismatches it warns about,
      or an exception. *)
  Definition set_params (lb : labeler) (r : request) : labeler * result (list (part * part * K)) :=
    if match r with [] => true | _ => existsb (fun e => match fst e with None => true | Some _ => false end) r end
    then (lb, Err ValueError)
    else if existsb (fun p => match get_part p lb, asked r p with None, Some _ => true | _, _ => false end) [Pre; Mod; Post]
    then (lb, Err ValueError)
    else
      let (lb1, e1) := set_one Pre r lb in
      match e1 with Some x => (lb1, Err x) | None =>
      let (lb2, e2) := set_one Mod r lb1 in
      match e2 with Some x => (lb2, Err x) | None =>
      let (lb3, e3) := set_one Post r lb2 in
      match e3 with Some x => (lb3, Err x) | None =>
      (lb3, check_pipeline (match l_post lb3 with None => true | Some _ => false end) lb3)
      end end end.
End Pipeline.
Arguments labeler K V : clear implicits.
