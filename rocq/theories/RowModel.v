(** Duplicate and unique rows: profilers/profile_builder.py, StructuredProfiler.

    The profiler keeps a [hashed_row_object]: a dictionary of row hashes, or a HyperLogLog sketch.  It
    is an object with identity, so profiles live in a world with a heap, and a program is a list of
    commands.  Schemas are the subject of SchemaModel; here all frames have the same columns. *)
From Coq Require Import QArith.
From Verif Require Import PyCommon PyDict NullModel.
Local Open Scope nat_scope.

(** hashing_method *)
Inductive hashing := Full | Hll.

(** options.row_statistics.is_enabled, .unique_count.is_enabled, .unique_count.hashing_method *)
Record opts := mkOpts { o_rows : bool; o_unique : bool; o_method : hashing }.

Definition hashing_eqb (a b : hashing) : bool := match a, b with Full, Full | Hll, Hll => true | _, _ => false end.

Section Rows.
  Context {R H : Type} {EH : EqDecB H}.
  (** pd.util.hash_pandas_object of one row *)
  Variable hash : R -> H.
  (** HyperLogLog: number of registers, register and rank of a record (its JSON text), cardinality. *)
  Variable registers : nat.
  Variable register : R -> nat.
  Variable rank : R -> nat.
  Variable cardinality : list nat -> nat.

  Inductive obj := ODict (keys : list H) | OHll (regs : list nat).

  (** HyperLogLog.add: the register keeps the larger rank. *)
  Fixpoint bump (regs : list nat) (i v : nat) : list nat :=
    match regs, i with
    | [], _ => []
    | x :: regs', 0 => Nat.max x v :: regs'
    | x :: regs', S i' => x :: bump regs' i' v
    end.

  Definition hll_add (regs : list nat) (r : R) : list nat := bump regs (register r) (rank r).

  (** HyperLogLog.merge *)
  Fixpoint hll_merge (a b : list nat) : list nat :=
    match a, b with
    | x :: a', y :: b' => Nat.max x y :: hll_merge a' b'
    | _, _ => a
    end.

  (** batch_size, profile_builder.py:2234 *)
  Definition hll_chunk : nat := 2048.

  (** profile_builder.py:2233-2247: the records of batches of 2048 rows *)
  Fixpoint hll_batches (inds : list nat) (data : list R) (regs : list nat) : list nat :=
    match inds with
    | [] => regs
    | b :: rest =>
        let start := b * hll_chunk in
        if length data <=? start then regs
        else hll_batches rest data
               (fold_left hll_add (slice data start (Nat.min ((b + 1) * hll_chunk) (length data))) regs)
    end.

  (** _update_row_statistics, profile_builder.py:2215-2247: unique count *)
  Definition feed (o : obj) (data : list R) : obj :=
    match o with
    | ODict d => ODict (supdate d (map hash data))
    | OHll regs => OHll (hll_batches (seq 0 (length data / hll_chunk + 1)) data regs)
    end.

  (** A profile: options, total_samples, reference to the hashed_row_object. *)
  Record prof := mkProf { p_opts : opts; p_total : nat; p_ref : nat }.

  Record world := mkWorld { heap : list obj; profs : list prof }.

  Definition new_obj (o : opts) : obj :=
    match o_method o with Full => ODict [] | Hll => OHll (repeat 0 registers) end.

  Fixpoint set_nth {X} (l : list X) (i : nat) (x : X) : list X :=
    match l, i with
    | [], _ => []
    | _ :: l', 0 => x :: l'
    | y :: l', S i' => y :: set_nth l' i' x
    end.

  Inductive cmd :=
  | New (o : opts)             (* Profiler(None, options=o) *)
  | Upd (i : nat) (data : list R) (* p_i.update_profile(data) *)
  | Add (i j : nat).           (* p_k = p_i + p_j *)

  (** StructuredProfiler.__init__, 1632-1687 *)
  Definition do_new (w : world) (o : opts) : world :=
    mkWorld (heap w ++ [new_obj o]) (profs w ++ [mkProf o 0 (length (heap w))]).

  (** update_profile, 939-997 (an empty data set is ignored) and _update_profile_from_chunk, 3023-3031 *)
  Definition do_upd (w : world) (i : nat) (data : list R) : world :=
    match nth_error (profs w) i with
    | None => w
    | Some p =>
        match data with
        | [] => w
        | _ =>
            let p' := mkProf (p_opts p) (p_total p + length data) (p_ref p) in
            let h' :=
              if o_rows (p_opts p) && o_unique (p_opts p)
              then match nth_error (heap w) (p_ref p) with
                   | Some ob => set_nth (heap w) (p_ref p) (feed ob data)
                   | None => heap w
                   end
              else heap w in
            mkWorld h' (set_nth (profs w) i p')
        end
    end.

  (** _add_error_checks, 1689-1769: non-empty schemas, same options *)
  Definition add_check (a b : prof) : bool :=
    negb (p_total a =? 0) && negb (p_total b =? 0) &&
    Bool.eqb (o_rows (p_opts a)) (o_rows (p_opts b)) && Bool.eqb (o_unique (p_opts a)) (o_unique (p_opts b)) &&
    hashing_eqb (o_method (p_opts a)) (o_method (p_opts b)).

  (** __add__, 768-807 and 1771-1811 *)
  Definition do_add (w : world) (i j : nat) : world * option exn :=
    match nth_error (profs w) i, nth_error (profs w) j with
    | Some a, Some b =>
        if negb (add_check a b) then (w, Some ValueError)
        else
          let w1 := mkWorld (heap w ++ [new_obj (p_opts a)]) (profs w) in
          let k := length (heap w) in
          let total := p_total a + p_total b in
          if o_rows (p_opts a) && o_unique (p_opts a) then
            match nth_error (heap w1) (p_ref a), nth_error (heap w1) (p_ref b), nth_error (heap w1) k with
            | Some (ODict d1), Some (ODict d2), Some (ODict d) =>
                (mkWorld (set_nth (heap w1) k (ODict (supdate (supdate d d1) d2)))
                         (profs w ++ [mkProf (p_opts a) total k]), None)
            | Some (OHll r1), Some (OHll r2), _ =>
                (mkWorld (set_nth (heap w1) (p_ref a) (OHll (hll_merge r1 r2)))
                         (profs w ++ [mkProf (p_opts a) total (p_ref a)]), None)
            | _, _, _ => (mkWorld (heap w1) (profs w ++ [mkProf (p_opts a) total k]), None)
            end
          else (mkWorld (heap w1) (profs w ++ [mkProf (p_opts a) total k]), None)
    | _, _ => (w, Some KeyError)
    end.

  Definition exec (w : world) (c : cmd) : world :=
    match c with
    | New o => do_new w o
    | Upd i data => do_upd w i data
    | Add i j => fst (do_add w i j)
    end.

  Definition run (cs : list cmd) : world := fold_left exec cs (mkWorld [] []).

  (** _get_duplicate_row_count, 2185-2199 *)
  Definition duplicate_row_count (w : world) (p : prof) : option Z :=
    if negb (o_rows (p_opts p)) || negb (o_unique (p_opts p)) then None
    else match nth_error (heap w) (p_ref p) with
         | Some (ODict d) => Some (Z.of_nat (p_total p) - Z.of_nat (length d))%Z
         | Some (OHll r) => Some (Z.max 0 (Z.of_nat (p_total p) - Z.of_nat (cardinality r)))
         | None => Some 0%Z
         end.

  (** _get_unique_row_ratio, 2146-2159 *)
  Definition unique_row_ratio (w : world) (p : prof) : option Q :=
    if negb (o_rows (p_opts p)) || negb (o_unique (p_opts p)) then None
    else if p_total p =? 0 then Some 0%Q
    else match nth_error (heap w) (p_ref p) with
         | Some (ODict d) => Some (inject_Z (Z.of_nat (length d)) / inject_Z (Z.of_nat (p_total p)))%Q
         | Some (OHll r) => Some (inject_Z (Z.of_nat (cardinality r)) / inject_Z (Z.of_nat (p_total p)))%Q
         | None => Some 0%Q
         end.
End Rows.

Arguments cmd R : clear implicits.
Arguments obj H : clear implicits.
Arguments world H : clear implicits.
