(** Model of updating profiles through a pool of processes: profilers/column_profile_compilers.py, BaseCompiler.update_profile
    (163-222), profilers/profile_builder.py, StructuredProfiler._update_profile_from_chunk (2862-3020), and
    profilers/profiler_utils.py, suggest_pool_size and generate_pool (208-281).

    Updating a profile and cleaning a column are functions of their arguments that may raise: a worker computes them on a copy,
    so the profiles of the main process stay as they were.  What goes wrong with processes (the pool refuses a task, a worker
    or its result is lost) is given by arbitrary predicates.  Results are collected in the order of submission, so when a
    worker finishes does not matter. *)
From Coq Require Import ZArith QArith Qround.
From Verif Require Import PyCommon PyDict.
Local Open Scope nat_scope.

(** ** The profiles of a column *)
Section Compiler.
  Context {K V B : Type} {E : EqDecB K}.
  (** [profile.update(df_series)]: every class of profiles returns self *)
  Variable update : V -> B -> result V.

  Record slot := mkSlot { s_safe : bool; s_val : V }.

  (** 182-185: a single process *)
  Fixpoint update_each (d : dict K slot) (b : B) : result (dict K slot) :=
    match d with
    | [] => Ok []
    | (k, s) :: r => bind (update (s_val s) b) (fun v => bind (update_each r b) (fun rest => Ok ((k, mkSlot (s_safe s) v) :: rest)))
    end.

  (** The pool: [refuse k] if apply_async raises, [fail k] if get raises though the update does not *)
  Record schedule := mkSched { refuse : K -> bool; fail : K -> bool }.

  (** 187-203: the profiles, those to update in this process, the tasks of the pool with the profiles they start from *)
  Fixpoint submit (s : schedule) (d : dict K slot) : dict K slot * list K * dict K V :=
    match d with
    | [] => ([], [], [])
    | (k, p) :: r =>
        let '(rest, single, multi) := submit s r in
        if s_safe p then
          if refuse s k then ((k, mkSlot false (s_val p)) :: rest, k :: single, multi)
          else ((k, p) :: rest, single, (k, s_val p) :: multi)
        else ((k, p) :: rest, k :: single, multi)
    end.
  (** 205-207 and 219-221 *)
  Fixpoint update_singly (ks : list K) (d : dict K slot) (b : B) : result (dict K slot) :=
    match ks with
    | [] => Ok d
    | k :: r =>
        match dget d k with
        | Some p => bind (update (s_val p) b) (fun v => update_singly r (dset d k (mkSlot (s_safe p) v)) b)
        | None => Err KeyError
        end
    end.
  (** 209-217: the returned profile is a copy of the one submitted, which was thread safe *)
  Fixpoint collect (s : schedule) (multi : dict K V) (d : dict K slot) (b : B) : dict K slot * list K :=
    match multi with
    | [] => (d, [])
    | (k, v) :: r =>
        match update v b, fail s k with
        | Ok v', false => collect s r (dset d k (mkSlot true v')) b
        | _, _ =>
            let d := match dget d k with Some p => dset d k (mkSlot false (s_val p)) | None => d end in
            let '(d, single) := collect s r d b in (d, k :: single)
        end
    end.
  (** update_profile *)
  Definition update_profile (pool : option schedule) (d : dict K slot) (b : B) : result (dict K slot) :=
    match pool with
    | None => update_each d b
    | Some s =>
        let '(d, single, multi) := submit s d in
        bind (update_singly single d b) (fun d =>
          let '(d, single) := collect s multi d b in
          update_singly single d b)
    end.
End Compiler.
Arguments slot V : clear implicits.
Arguments schedule K : clear implicits.

(** ** The columns of a table *)
Section Table.
  (** Profile of a column, column of a batch, cleaned column, base statistics *)
  Context {P C S T : Type}.
  (** clean_data_and_get_base_stats *)
  Variable clean : C -> result (S * T).
  (** _update_base_stats: the profile after it, and the exception if it raises half way *)
  Variable base : P -> T -> P * option exn.
  (** update_column_profilers; the pool used for it is that of [update_profile] *)
  Variable profilers : P -> S -> result P.

  Fixpoint set_nth (l : list P) (i : nat) (x : P) : list P :=
    match l, i with [], _ => [] | _ :: r, 0 => x :: r | y :: r, Datatypes.S i => y :: set_nth r i x end.

  Record tstate := mkT { t_profiles : list P; t_clean : dict nat S }.
  (** 2936-2957 and 2962-2990: one column in this process; [idx] is the place of its profile *)
  Definition one_column (st : tstate) (idx : nat) (c : C) : result tstate :=
    bind (clean c) (fun r =>
      let st := mkT (t_profiles st) (dset (t_clean st) idx (fst r)) in
      match nth_error (t_profiles st) idx with
      | None => Err IndexError
      | Some p => match base p (snd r) with
                  | (p', None) => Ok (mkT (set_nth (t_profiles st) idx p') (t_clean st))
                  | (_, Some e) => Err e
                  end
      end).
  Fixpoint columns_singly (cols : list (nat * C)) (st : tstate) : result tstate :=
    match cols with [] => Ok st | (i, c) :: r => bind (one_column st i c) (columns_singly r) end.

  (** 2888-2917: tasks of the pool and columns it refused; a column is [(place of its profile, data)] *)
  Definition split_columns (s : schedule nat) (cols : list (nat * C)) : list (nat * C) * list (nat * C) :=
    (filter (fun x => negb (refuse s (fst x))) cols, filter (fun x => refuse s (fst x)) cols).
  (** 2919-2931 *)
  Fixpoint collect_columns (s : schedule nat) (tasks : list (nat * C)) (st : tstate) : tstate * list (nat * C) :=
    match tasks with
    | [] => (st, [])
    | (i, c) :: r =>
        match clean c, fail s i with
        | Ok (x, t), false =>
            let st1 := mkT (t_profiles st) (dset (t_clean st) i x) in
            match nth_error (t_profiles st1) i with
            | None => let '(st2, single) := collect_columns s r st1 in (st2, (i, c) :: single)
            | Some p =>
                let st2 := mkT (set_nth (t_profiles st1) i (fst (base p t))) (t_clean st1) in
                match snd (base p t) with
                | None => collect_columns s r st2
                | Some _ => let '(st3, single) := collect_columns s r st2 in (st3, (i, c) :: single)
                end
            end
        | _, _ => let '(st2, single) := collect_columns s r st in (st2, (i, c) :: single)
        end
    end.
  (** 2877-2990; [order] is the order of a set of column numbers *)
  Definition clean_table (pool : option (schedule nat)) (order : list (nat * C) -> list (nat * C)) (cols : list (nat * C)) (ps : list P) : result tstate :=
    let st := mkT ps [] in
    match pool with
    | None => columns_singly cols st
    | Some s =>
        let '(tasks, refused) := split_columns s cols in
        let '(st, failed) := collect_columns s tasks st in
        columns_singly (order (refused ++ failed)) st
    end.
  (** 2999-3004 *)
  Fixpoint profile_columns (xs : list (nat * S)) (ps : list P) : result (list P) :=
    match xs with
    | [] => Ok ps
    | (i, x) :: r => match nth_error ps i with
                     | Some p => bind (profilers p x) (fun p' => profile_columns r (set_nth ps i p'))
                     | None => Err IndexError
                     end
    end.
  (** The profiles and the order of the cleaned columns, with which correlations and null replication metrics are computed *)
  Definition update_table (pool : option (schedule nat)) (order : list (nat * C) -> list (nat * C)) (cols : list (nat * C)) (ps : list P) : result (list P * list nat) :=
    bind (clean_table pool order cols ps) (fun st => bind (profile_columns (t_clean st) (t_profiles st)) (fun ps => Ok (ps, dkeys (t_clean st)))).
End Table.

(** ** The number of processes *)
(** suggest_pool_size, 219-242: bytes of the data, bytes of memory available, processors *)
Definition pool_size (data available : Q) (cpus cols : nat) : Z :=
  let qmin a b := if Qle_bool b a then b else a in
  let mem := (data * 50 / (available / 1000000))%Q in
  let cpu := (inject_Z (Z.of_nat cpus) - 1)%Q in
  let size := qmin (qmin mem cpu) (inject_Z (Z.of_nat cols)) in
  if Qle_bool 0 size then Qfloor size else Qceiling size.
(** generate_pool, 264-281: with a given largest size, that one is taken *)
Definition processes (limit : option Z) (data available : Q) (cpus cols : nat) : option Z :=
  let size := match limit with Some n => n | None => pool_size data available cpus cols end in
  if (2 <? size)%Z then Some size else None.
