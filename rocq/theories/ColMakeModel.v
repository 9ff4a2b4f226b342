(** Which profiles a column has, and what failures do to them: profilers/profile_builder.py
    (StructuredColProfiler.update_column_profilers 144-191, __add__ 193-254, update_profile 478-518),
    profilers/column_profile_compilers.py (BaseCompiler.__init__ 39-57, _create_profile 74-112,
    __add__ 114-145, update_profile 163-187 without a pool), profilers/profiler_utils.py
    (warn_on_profile 143-164) and profilers/profiler_options.py (StructuredOptions.enabled_profiles
    1491-1503).

    What the profiles of the single kinds do is an oracle: [make k] is the constructor of kind [k],
    [step k p b] the update of a profile by a batch: the state of the object afterwards and, if it
    raised, the exception (the object may then be changed in part). Options are none or an object of
    the class StructuredOptions. Updates through a pool are in PoolModel. *)
From Verif Require Import PyCommon PyDict PyString.
Import String.StringSyntax.
Local Delimit Scope string_scope with string.

(** The kinds of profiles of a column *)
Inductive kind := KDatetime | KInt | KFloat | KText | KOrder | KCategory | KLabeler.

Definition kind_eqb (a b : kind) : bool :=
  match a, b with
  | KDatetime, KDatetime | KInt, KInt | KFloat, KFloat | KText, KText | KOrder, KOrder
  | KCategory, KCategory | KLabeler, KLabeler => true
  | _, _ => false
  end.
Global Program Instance EqDecB_kind : EqDecB kind := {| PyDict.eqb := kind_eqb |}.
Next Obligation. destruct x, y; constructor; congruence. Defined.

(** The compilers and their [_profilers] (column_profile_compilers.py 261-266, 375-378, 420) *)
Inductive compiler := CTypes | CStats | CLabels.
Definition compiler_eqb (a b : compiler) : bool :=
  match a, b with CTypes, CTypes | CStats, CStats | CLabels, CLabels => true | _, _ => false end.
Global Program Instance EqDecB_compiler : EqDecB compiler := {| PyDict.eqb := compiler_eqb |}.
Next Obligation. destruct x, y; constructor; congruence. Defined.

Definition kinds_of (c : compiler) : list kind :=
  match c with
  | CTypes => [KDatetime; KInt; KFloat; KText]
  | CStats => [KOrder; KCategory]
  | CLabels => [KLabeler]
  end.

Section Column.
  Context {P B : Type}.
  Variable make : kind -> result P.
  Variable step : kind -> P -> B -> P * option exn.
  Variable join : kind -> P -> P -> result P.        (* [+] of two profiles of a kind *)
  Variable name_of : B -> option string.             (* [df_series.name] *)
  Variable size_of : B -> nat.                       (* rows looked at, [base_stats["sample_size"]] *)

  (** [options]: none, or for each kind whether it is enabled *)
  Definition options := option (kind -> bool).

  (** [enabled_profiles is None or profiler.type in enabled_profiles] (column_profile_compilers.py
      90-98, profiler_options.py 1491-1503) *)
  Definition wanted (o : options) (k : kind) : bool := match o with None => true | Some f => f k end.

  (** warn_on_profile: a ValueError is raised again, anything else is a warning *)
  Definition warned (e : exn) : bool := match e with ValueError => false | _ => true end.

  (** _create_profile 74-109: the profiles and the kinds warned about *)
  Fixpoint create (o : options) (ks : list kind) : result (dict kind P * list kind) :=
    match ks with
    | [] => Ok ([], [])
    | k :: r =>
        if wanted o k then
          match make k with
          | Ok p => bind (create o r) (fun t => Ok ((k, p) :: fst t, snd t))
          | Err e => if warned e then bind (create o r) (fun t => Ok (fst t, k :: snd t)) else Err e
          end
        else create o r
    end.

  (** BaseCompiler.update_profile without a pool (183-187): the profiles in order; an exception ends
      the loop, the later ones are as before *)
  Fixpoint update_all (d : dict kind P) (b : B) : dict kind P * option exn :=
    match d with
    | [] => ([], None)
    | (k, p) :: r =>
        let '(p', e) := step k p b in
        match e with
        | Some x => ((k, p') :: r, Some x)
        | None => let '(r', e') := update_all r b in ((k, p') :: r', e')
        end
    end.

  (** BaseCompiler.__init__ with data: create and update (112) *)
  Definition new_compiler (o : options) (c : compiler) (b : B) : result (dict kind P * list kind) :=
    bind (create o (kinds_of c)) (fun t =>
      let '(d, e) := update_all (fst t) b in
      match e with Some x => Err x | None => Ok (d, snd t) end).

  Record column := mkColumn {
    c_name : option string;
    c_size : nat;                              (* sample_size *)
    c_profiles : dict compiler (dict kind P)   (* profiles; empty before the first data *)
  }.
  Definition new_column : column := mkColumn None 0 [].

  (** The first run of update_column_profilers (163-185): the attribute is set after both compilers
      are made, the one for labels is added afterwards *)
  Definition first_run (o : options) (b : B) : dict compiler (dict kind P) * option exn :=
    match new_compiler o CTypes b with
    | Err e => ([], Some e)
    | Ok (ty, _) =>
        match new_compiler o CStats b with
        | Err e => ([], Some e)
        | Ok (st, _) =>
            if wanted o KLabeler then
              match new_compiler o CLabels b with
              | Err e => ([(CTypes, ty); (CStats, st)], Some e)
              | Ok (lb, _) => ([(CTypes, ty); (CStats, st); (CLabels, lb)], None)
              end
            else ([(CTypes, ty); (CStats, st)], None)
        end
    end.

  (** Later runs (186-191) *)
  Fixpoint next_run (d : dict compiler (dict kind P)) (b : B) : dict compiler (dict kind P) * option exn :=
    match d with
    | [] => ([], None)
    | (c, ps) :: r =>
        let '(ps', e) := update_all ps b in
        match e with
        | Some x => ((c, ps') :: r, Some x)
        | None => let '(r', e') := next_run r b in ((c, ps') :: r', e')
        end
    end.

  (** [self.name is None] / [self.name != df.name] (155-162) *)
  Definition name_fits (n : option string) (b : B) : bool :=
    match n with
    | None => true
    | Some x => match name_of b with Some y => String.eqb x y | None => false end
    end.

  (** update_column_profilers 144-191 *)
  Definition update_column_profilers (o : options) (c : column) (b : B) : column * option exn :=
    if name_fits (c_name c) b then
      let n := match c_name c with None => name_of b | Some x => Some x end in
      let '(d, e) := match c_profiles c with [] => first_run o b | _ => next_run (c_profiles c) b end in
      (mkColumn n (c_size c) d, e)
    else (c, Some ValueError).

  (** update_profile 478-518: the base statistics come first; their share of nulls is a division by the
      number of rows looked at (435) *)
  Definition update_column (o : options) (c : column) (b : B) : column * option exn :=
    if size_of b =? 0 then (c, Some ZeroDivisionError)
    else update_column_profilers o (mkColumn (c_name c) (c_size c + size_of b) (c_profiles c)) b.

  (** [set(a) == set(b)] *)
  Definition same_keys {K V} {E : EqDecB K} (a b : dict K V) : bool :=
    forallb (fun k => dmem b k) (dkeys a) && forallb (fun k => dmem a k) (dkeys b).

  (** BaseCompiler.__add__ 114-145, compilers of one class and name *)
  Fixpoint join_all (a b : dict kind P) : result (dict kind P) :=
    match a with
    | [] => Ok []
    | (k, p) :: r =>
        match dget b k with
        | Some q => bind (join k p q) (fun x => bind (join_all r b) (fun t => Ok ((k, x) :: t)))
        | None => Err KeyError
        end
    end.
  Definition add_compiler (a b : dict kind P) : result (dict kind P) :=
    if same_keys a b then join_all a b else Err ValueError.

  (** StructuredColProfiler.__add__ 193-254, with _update_base_stats of both (430-435) *)
  Fixpoint add_compilers (a b : dict compiler (dict kind P)) : result (dict compiler (dict kind P)) :=
    match a with
    | [] => Ok []
    | (c, x) :: r =>
        match dget b c with
        | Some y => bind (add_compiler x y) (fun z => bind (add_compilers r b) (fun t => Ok ((c, z) :: t)))
        | None => Err KeyError
        end
    end.
  Definition same_name (a b : option string) : bool :=
    match a, b with Some x, Some y => String.eqb x y | None, None => true | _, _ => false end.
  Definition add_column (a b : column) : result column :=
    if same_name (c_name a) (c_name b) then
      if same_keys (c_profiles a) (c_profiles b) then
        if (c_size a =? 0) || (c_size b =? 0) then Err ZeroDivisionError else
        bind (add_compilers (c_profiles a) (c_profiles b)) (fun d => Ok (mkColumn (c_name a) (c_size a + c_size b) d))
      else Err ValueError
    else Err ValueError.
End Column.
Arguments column P : clear implicits.
