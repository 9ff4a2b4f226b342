(** * Seeds: which random choices they govern

    set_seed (dataprofiler/__init__.py 26-30), get_random_number_generator
    (rng_utils.py 10-19) and the places where the library makes a random choice:
    shuffle_in_chunks (profilers/profiler_utils.py 94-140), the sample of a column's
    values (profilers/profile_builder.py 662-674), reservoir
    (data_readers/data_utils.py 315-343), [random.sample] for the samples of merged
    columns (profile_builder.py 249), of merged text profiles (1311), of text profiles
    (1531) and of Parquet files (data_utils.py 506), and [np.random.permutation] for
    batches (data_readers/base_data.py 157) and for training
    (labelers/base_data_labeler.py 824, 857).

    The generators themselves are arbitrary functions of their state.  A generator of
    [default_rng] is used in one call only and then dropped, so what a call draws is a
    function of the generator and of the call's arguments. *)
From Coq Require Import List Arith Bool ZArith Lia Ascii.
Import ListNotations.
From Verif Require Import PyCommon NumTextModel SamplingModel.
Local Open Scope nat_scope.

(** [int] of a text (rng_utils.py 16): blanks around it, a sign, digits with single
    underscores between them.  Texts are ASCII; the limit that newer Pythons put on
    the number of digits is left out. *)
Definition py_int (l : text) : option Z :=
  let '(neg, r) := sign (strip l) in
  match digits r with
  | ((_ :: _) as ds, []) => Some (if neg then (- number_of ds)%Z else number_of ds)
  | _ => None
  end.

(** The argument of [set_seed]: None, an integer (a bool is one), or anything else *)
Inductive seed_arg := ANone | AInt (z : Z) | AOther.

Section Seeds.
  (** [Gen]: generators of numpy; [Py], [Np]: states of the global generators of the
      modules random and numpy.random.
      [seeded z] is [default_rng(z)] for [z >= 0]; [fresh i] is [default_rng(None)] made
      from the [i]-th piece of entropy taken from the operating system.
      [ints g n c j] is the number drawn for position [j] by the calls
      [rng.integers(lower_bound_list, data_length)] of shuffle_in_chunks;
      [choice g n k] the positions that [rng.choice] of [n] values gives;
      [rounds g k t] what round [t] of reservoir draws;
      [sample s n k] is [random.sample] of [n] things; [perm s n] is
      [np.random.permutation(n)]. *)
  Context {Gen Py Np : Type} (seeded : Z -> Gen) (fresh : nat -> Gen)
          (ints : Gen -> nat -> nat -> nat -> nat)
          (choice : Gen -> nat -> nat -> list nat)
          (rounds : Gen -> nat -> nat -> rdraw)
          (sample : Py -> nat -> nat -> list nat * Py)
          (perm : Np -> nat -> list nat * Np).

  (** The process: settings._seed (settings.py 2), the environment variable
      DATAPROFILER_SEED, how much entropy has been taken, and the global generators *)
  Record world := mkWorld {
    w_seed : option Z;
    w_env : option text;
    w_entropy : nat;
    w_py : Py;
    w_np : Np
  }.

  (** [np.random.default_rng(seed)]; a negative seed raises ValueError *)
  Definition default_rng (seed : option Z) (w : world) : result Gen * world :=
    match seed with
    | None =>
        (Ok (fresh (w_entropy w)),
         mkWorld (w_seed w) (w_env w) (S (w_entropy w)) (w_py w) (w_np w))
    | Some z => if (z <? 0)%Z then (Err ValueError, w) else (Ok (seeded z), w)
    end.

  (** get_random_number_generator (rng_utils.py 10-19); the bool tells whether it
      warns "Seed should be an integer" *)
  Definition get_rng (w : world) : result (Gen * bool) * world :=
    let '(r, w1) := default_rng (w_seed w) w in
    match r with
    | Err e => (Err e, w1)
    | Ok rng =>
        match w_env w1, w_seed w1 with
        | Some t, None =>
            match py_int t with
            | Some z =>
                let '(r2, w2) := default_rng (Some z) w1 in
                match r2 with
                | Ok rng2 => (Ok (rng2, false), w2)
                | Err ValueError => (Ok (rng, true), w2)
                | Err e => (Err e, w2)
                end
            | None => (Ok (rng, true), w1)
            end
        | _, _ => (Ok (rng, false), w1)
        end
    end.

  (** set_seed (__init__.py 26-30) *)
  Definition set_seed (a : seed_arg) (w : world) : result unit * world :=
    let put s := (Ok tt, mkWorld s (w_env w) (w_entropy w) (w_py w) (w_np w)) in
    match a with
    | ANone => put None
    | AInt z => if (z <? 0)%Z then (Err ValueError, w) else put (Some z)
    | AOther => (Err ValueError, w)
    end.

  (** What happens in a process.
      [Rows n c]: the rows of a column of [n] that are looked at, [c] at a time
      (shuffle_in_chunks).  [Shown n]: the positions of the at most 5 among [n] values
      that a column's sample shows.  [Lines n k]: the numbers of the [k] lines taken
      from a file of [n] (reservoir).  [Sampled n k]: [random.sample].  [Order n]:
      [np.random.permutation].  [SetEnv]: the environment variable is changed.
      [SeedPy], [SeedNp]: the user seeds the global generators. *)
  Inductive command :=
  | SetSeed (a : seed_arg)
  | SetEnv (t : option text)
  | SeedPy (s : Py)
  | SeedNp (s : Np)
  | Rows (n c : nat)
  | Shown (n : nat)
  | Lines (n k : nat)
  | Sampled (n k : nat)
  | Order (n : nat).

  Inductive outcome :=
  | Done
  | Raised (e : exn)
  | Chunks (l : list (list nat)) (warned : bool)
  | Positions (l : list nat) (warned : bool)
  | Taken (l : option (result (list nat))) (warned : bool).

  Definition with_rng (w : world) (f : Gen -> bool -> outcome) : outcome * world :=
    match get_rng w with
    | (Ok (g, b), w') => (f g b, w')
    | (Err e, w') => (Raised e, w')
    end.

  Definition step (c : command) (w : world) : outcome * world :=
    match c with
    | SetSeed a =>
        match set_seed a w with
        | (Ok _, w') => (Done, w')
        | (Err e, w') => (Raised e, w')
        end
    | SetEnv t => (Done, mkWorld (w_seed w) t (w_entropy w) (w_py w) (w_np w))
    | SeedPy s => (Done, mkWorld (w_seed w) (w_env w) (w_entropy w) s (w_np w))
    | SeedNp s => (Done, mkWorld (w_seed w) (w_env w) (w_entropy w) (w_py w) s)
    | Rows n c =>
        (* the generator is made after the test for nothing to do (109-112) *)
        if Nat.eqb n 0 || Nat.eqb c 0 then (Chunks [] false, w)
        else with_rng w (fun g b => Chunks (shuffle_in_chunks (ints g n c) n c) b)
    | Shown n => with_rng w (fun g b => Positions (choice g n (Nat.min n 5)) b)
    | Lines n k =>
        (* [1 / sample_nrows] comes before the generator (data_utils.py 320-322) *)
        if Nat.eqb k 0 then (Raised ZeroDivisionError, w)
        else with_rng w (fun g b => Taken (reservoir n (rounds g k) (seq 0 n) k) b)
    | Sampled n k =>
        let '(l, s) := sample (w_py w) n k in
        (Positions l false, mkWorld (w_seed w) (w_env w) (w_entropy w) s (w_np w))
    | Order n =>
        let '(l, s) := perm (w_np w) n in
        (Positions l false, mkWorld (w_seed w) (w_env w) (w_entropy w) (w_py w) s)
    end.

  (** A run: the outcomes, and the process at the end *)
  Fixpoint run (cs : list command) (w : world) : list outcome * world :=
    match cs with
    | [] => ([], w)
    | c :: r =>
        let '(o, w1) := step c w in
        let '(os, w2) := run r w1 in
        (o :: os, w2)
    end.
End Seeds.
