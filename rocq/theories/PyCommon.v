(** Shared vocabulary: Python slices, ranges, dictionaries and results.

    These are meanings of Python built-ins, not code of the repository. *)
From Coq Require Export List Arith ZArith Lia Bool.
Export ListNotations.

(** Result of a Python call: a value, or an exception (its class only). *)
Inductive exn :=
| ValueError | TypeError | KeyError | IndexError | AttributeError
| ZeroDivisionError | NotImplementedErr | RuntimeErr | Warning | GenericException.

Inductive result (A : Type) :=
| Ok (a : A)
| Err (e : exn).
Arguments Ok {A} a.
Arguments Err {A} e.

Definition bind {A B} (r : result A) (f : A -> result B) : result B :=
  match r with Ok a => f a | Err e => Err e end.

(** [l[a:b]] for [0 <= a]. *)
Definition slice {A} (l : list A) (a b : nat) : list A := firstn (b - a) (skipn a l).

(** [math.ceil(n / c)] for a positive [c]; Python divides as floats, which is
    exact for the sizes at hand (below 2^53). *)
Definition ceil_div (n c : nat) : nat := (n + c - 1) / c.

(** [range(0, n, c)] for a positive [c]. *)
Definition range_step (n c : nat) : list nat := map (fun i => i * c) (seq 0 (ceil_div n c)).
