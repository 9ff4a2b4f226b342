(** Models of the sampling and chunking helpers. *)
From Verif Require Import PyCommon.

(** ** KeyDict (profilers/profiler_utils.py:60-71)
    A dictionary whose missing keys read as themselves ([__missing__] returns the
    key and does not store it). *)
Definition keydict := list (nat * nat).

Fixpoint kd_get (d : keydict) (k : nat) : nat :=
  match d with
  | [] => k
  | (k', v) :: r => if Nat.eqb k' k then v else kd_get r k
  end.

Definition kd_set (d : keydict) (k v : nat) : keydict := (k, v) :: d.

(** One step of the inner loop, profiler_utils.py:128-138.
    [indices[j], indices[k] = indices[k], indices[j]]: the right-hand side is
    evaluated first, then the two assignments are made from left to right;
    then [values[count] = indices[j]]. *)
Definition shuffle_swap (d : keydict) (j k : nat) : keydict :=
  let rk := kd_get d k in
  let rj := kd_get d j in
  kd_set (kd_set d j rk) k rj.

(** The inner loop over [count], profiler_utils.py:128-138. [draw j] is the
    random number drawn for the global position [j]
    ([random_list = rng.integers(lower_bound_list, data_length)],
    profiler_utils.py:124-125, so that [j <= draw j < data_length]). *)
Fixpoint shuffle_chunk (draw : nat -> nat) (d : keydict) (j size : nat)
  : keydict * nat * list nat :=
  match size with
  | 0 => (d, j, [])
  | S size' =>
      let d' := shuffle_swap d j (draw j) in
      let v := kd_get d' j in
      let '(d2, j2, vs) := shuffle_chunk draw d' (S j) size' in
      (d2, j2, v :: vs)
  end.

(** The outer loop over chunks, profiler_utils.py:117-140. *)
Fixpoint shuffle_loop (draw : nat -> nat) (n c : nat) (chunk_inds : list nat)
  (d : keydict) (j : nat) : list (list nat) :=
  match chunk_inds with
  | [] => []
  | ci :: r =>
      let true_chunk_size := Nat.min c (n - c * ci) in
      let '(d', j', vs) := shuffle_chunk draw d j true_chunk_size in
      vs :: shuffle_loop draw n c r d' j'
  end.

(** shuffle_in_chunks (profilers/profiler_utils.py:94-140): all chunks the
    generator yields, in order. *)
Definition shuffle_in_chunks (draw : nat -> nat) (n c : nat) : list (list nat) :=
  if Nat.eqb n 0 || Nat.eqb c 0 then []
  else shuffle_loop draw n c (seq 0 (Nat.max (ceil_div n c) 1)) [] 0.

(** partition (profilers/profiler_utils.py:167-177).
    [range(0, len, 0)] raises ValueError. *)
Definition partition {A} (data : list A) (chunk_size : nat) : result (list (list A)) :=
  if Nat.eqb chunk_size 0 then Err ValueError
  else Ok (map (fun idx => slice data idx (idx + chunk_size))
               (range_step (length data) chunk_size)).

(** BaseData.get_batch_generator (data_readers/base_data.py:152-162).
    [perm] is the result of [np.random.permutation(data_length)].
    [data[k]] on a bad index raises IndexError; it cannot happen for a permutation
    but the branch is kept ([nth_error]). *)
Fixpoint gather {A} (data : list A) (ks : list nat) : result (list A) :=
  match ks with
  | [] => Ok []
  | k :: r =>
      match nth_error data k with
      | None => Err IndexError
      | Some x => bind (gather data r) (fun xs => Ok (x :: xs))
      end
  end.

Fixpoint batches_from {A} (data : list A) (perm : list nat) (b : nat) (starts : list nat)
  : result (list (list A)) :=
  match starts with
  | [] => Ok []
  | i :: r =>
      bind (gather data (slice perm i (i + b))) (fun x =>
      bind (batches_from data perm b r) (fun xs => Ok (x :: xs)))
  end.

Definition get_batch_generator {A} (data : list A) (perm : list nat) (batch_size : nat)
  : result (list (list A)) :=
  if Nat.eqb batch_size 0 then Err ValueError
  else batches_from data perm batch_size (range_step (length data) batch_size).

(** ** reservoir (data_readers/data_utils.py:279-343)

    [values] is a growing list, [indices] a dictionary from the slots
    [0..len-1] to positions in [values]. Each round of the loop draws [W] and either stops
    because [W == 1.0] ([DStop]), or computes a number of lines to skip and a
    slot to evict ([DTake skip remove_index]). [rng.integers(0, sample_nrows)]
    gives [remove_index < sample_nrows]. The float computations of [W] and
    [skip] are not modelled: the draws are arbitrary. (A draw of exactly 0.0
    raises a math domain error in the code, data_utils.py:331; that outcome
    has no result and is not part of the model.) *)
Inductive rdraw := DStop | DTake (skip remove_index : nat).

(** [values[i] = x] for an existing index. *)
Fixpoint list_set {A} (l : list A) (i : nat) (x : A) : list A :=
  match l, i with
  | [], _ => []
  | _ :: r, 0 => x :: r
  | y :: r, S i' => y :: list_set r i' x
  end.

(** The [while True] loop, data_utils.py:324-340. [next(islice(iterator, skip, skip+1))]
    drops [skip] lines and returns the next, or stops. [fuel] bounds the number of
    rounds; every round consumes a line, so [S (length rest)] is enough, and running
    out of fuel is reported as [None]. [dummy] is [str(None)]. *)
Fixpoint reservoir_loop {A} (dummy : A) (draws : nat -> rdraw) (fuel t : nat)
  (rest values : list A) (indices : list nat) : option (result (list A * list nat)) :=
  match fuel with
  | 0 => None
  | S fuel' =>
      match draws t with
      | DStop => Some (Ok (values, indices))
      | DTake skip r =>
          match skipn skip rest with
          | [] => Some (Ok (values, indices))
          | newval :: rest' =>
              match nth_error indices r with
              | None => Some (Err KeyError)
              | Some p =>
                  if p <? length values
                  then reservoir_loop dummy draws fuel' (S t) rest'
                         (list_set values p dummy ++ [newval])
                         (list_set indices r (length values))
                  else Some (Err IndexError)
              end
          end
      end
  end.

(** reservoir (data_readers/data_utils.py:315-343). [sample_nrows = 0] divides by zero
    at line 320. The dictionary [indices] has exactly the keys [0..len(values)-1] and
    is represented by the list of its values. *)
Definition reservoir {A} (dummy : A) (draws : nat -> rdraw) (file : list A) (k : nat)
  : option (result (list A)) :=
  let values := firstn k file in
  let rest := skipn k file in
  let indices := seq 0 (length values) in
  if Nat.eqb k 0 then Some (Err ZeroDivisionError)
  else
    match reservoir_loop dummy draws (S (length rest)) 0 rest values indices with
    | None => None
    | Some (Err e) => Some (Err e)
    | Some (Ok (values', indices')) => Some (gather values' indices')
    end.

(** ** TextData._get_data_as_text (data_readers/text_data.py:86-101)
    The loaded data is a string or a list; only the first list element is
    checked, and ["".join] raises TypeError on a later element which is no
    string. A falsy non-string (the empty list) passes the check. Characters are of
    an arbitrary type. [samples_per_line] is the option; 0 divides by zero. *)
Inductive tcell (C : Type) := TStr (s : list C) | TOther.
Arguments TStr {C} s.
Arguments TOther {C}.
Inductive tdata (C : Type) := DStr (s : list C) | DList (l : list (tcell C)).
Arguments DStr {C} s.
Arguments DList {C} l.

Fixpoint join_cells {C} (l : list (tcell C)) : result (list C) :=
  match l with
  | [] => Ok []
  | TStr s :: r => bind (join_cells r) (fun t => Ok (s ++ t))
  | TOther :: _ => Err TypeError
  end.

Definition get_data_as_text {C} (samples_per_line_opt : nat) (data : tdata C)
  : result (list (list C)) :=
  let joined :=
    match data with
    | DStr s => Ok s
    | DList [] => Ok []
    | DList (TStr s :: r) => join_cells (TStr s :: r)
    | DList (TOther :: _) => Err ValueError
    end in
  bind joined (fun text =>
  let spl := Nat.min (Nat.max (length text) 1) samples_per_line_opt in
  if Nat.eqb spl 0 then Err ZeroDivisionError
  else Ok (map (fun i => slice text (i * spl) ((i + 1) * spl))
               (seq 0 ((length text + spl - 1) / spl)))).

(** ** chunk / merge / merge_profile_list (profilers/profiler_utils.py:790-850)
    [plus] is the profile addition, which may raise. The removal and restoring of
    data labelers around the loop (lines 841-842, 849) is not modelled. *)
Section MergeList.
  Context {A : Type} (plus : A -> A -> result A).

  (** chunk(lst, 2) followed by starmap(merge, ...), lines 790-802, 805-821, 846-847:
      pairs are merged, an odd last element is passed through by [merge] with one argument.
      [starmap] returns the results in order and re-raises an exception of any task. *)
  Fixpoint merge_round (l : list A) : result (list A) :=
    match l with
    | [] => Ok []
    | [x] => Ok [x]
    | x :: y :: r =>
        bind (plus x y) (fun z => bind (merge_round r) (fun zs => Ok (z :: zs)))
    end.

  (** The while loop, lines 844-847; out of fuel is [None]. *)
  Fixpoint merge_loop (fuel : nat) (l : list A) : option (result A) :=
    match l with
    | [] => Some (Err IndexError)
    | [x] => Some (Ok x)
    | _ =>
        match fuel with
        | 0 => None
        | S fuel' =>
            match merge_round l with
            | Err e => Some (Err e)
            | Ok l' => merge_loop fuel' l'
            end
        end
    end.

  Definition merge_profile_list (l : list A) : option (result A) := merge_loop (length l) l.
End MergeList.
