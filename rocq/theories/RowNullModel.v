(** Rows with nulls: profilers/profile_builder.py, StructuredProfiler._update_row_statistics.

    The columns are those of NullModel, extended by the shift of the last overlapping batch and the size
    of the last batch.  Column [j] of the data belongs to column [j] of the profile (see SchemaModel
    for the mapping).  Integer labels; adding a shift to other labels is not modelled. *)
From Coq Require Import QArith.
From Verif Require Import PyCommon PyDict NullModel.
Local Open Scope nat_scope.

Section RowNull.
  Context {C : Type} {EC : EqDecB C}.
  Variable is_null : C -> bool.
  Variable order : list label -> list label.
  (** Cells are looked up by column; the default is never used for rows of the right width. *)
  Variable dflt : C.

  (** StructuredColProfiler: base statistics, _index_shift, _last_batch_size *)
  Record colx := mkColx { x_col : col C; x_shift : option Z; x_last : option nat }.

  Definition new_colx : colx := mkColx new_col None None.

  (** _update_base_stats, 430-476.  The shift is set on overlap and never cleared. *)
  Definition update_colx (s : colx) (b : base C) : result colx :=
    bind (update_base (x_col s) b) (fun c =>
      Ok (mkColx c
            (if overlap (c_ids (x_col s)) (b_ids b)
             then match c_ids (x_col s) with Some (_, hi) => Some (hi + 1)%Z | None => None end
             else x_shift s)
            (Some (b_size b)))).

  (** __add__, 193-254 *)
  Definition add_colx (a b : colx) : result colx :=
    bind (update_colx new_colx (as_base (x_col a))) (fun m => update_colx m (as_base (x_col b))).

  (** A batch: rows with labels; how they are sampled (the chunks are shared by all columns). *)
  Record frame := mkFrame {
    f_width : nat;
    f_rows : list (label * list C);
    f_sample : nat;
    f_min_true : nat;
    f_chunks : list (list nat)
  }.

  Definition cell (j : nat) (r : label * list C) : label * C := (fst r, nth j (snd r) dflt).

  Definition column (f : frame) (j : nat) : batch C :=
    mkBatch (map (cell j) (f_rows f)) (f_sample f) (f_min_true f) (f_chunks f).

  Record prof := mkProf { p_cols : list colx; p_has : nat; p_is : nat }.

  Definition new_prof : prof := mkProf [] 0 0.

  Fixpoint mapM {X Y} (g : X -> result Y) (l : list X) : result (list Y) :=
    match l with
    | [] => Ok []
    | x :: l' => bind (g x) (fun y => bind (mapM g l') (fun ys => Ok (y :: ys)))
    end.

  (** [set.union( *null_type_dict.values())], intersected with the labels of the sampled rows, 2256-2279 *)
  Definition col_nulls (selected : option (list label)) (s : colx) : list label :=
    let all := supdate [] (concat (dvals (c_index (x_col s)))) in
    match selected with
    | None => all
    | Some ls =>
        let ls := match x_shift s with None => ls | Some z => map (shift_label z) ls end in
        filter (fun x => lmem ls x) all
    end.

  (** 2281-2288: intersection and union over the columns *)
  Definition combine_nulls (ls : list (list label)) : list label * list label :=
    match ls with
    | [] => ([], [])
    | l :: rest => fold_left (fun acc l => (filter (fun x => lmem l x) (fst acc), supdate (snd acc) l)) rest (l, l)
    end.

  (** _min_sampled_from_batch, 1960-1969 *)
  Definition min_sampled (cols : list colx) : nat :=
    match flat_map (fun s => match x_last s with Some n => [n] | None => [] end) cols with
    | [] => 0
    | n :: ns => fold_left Nat.min ns n
    end.

  (** _update_row_statistics, 2249-2297: null counts.  [ids]: None, or the positions in sampling order. *)
  Definition update_rows (p : prof) (rows : list (label * list C)) (ids : option (list nat)) : prof :=
    match ids with
    | None =>
        let '(n, h) := combine_nulls (map (col_nulls None) (p_cols p)) in
        mkProf (p_cols p) (length h) (length n)
    | Some ids =>
        let sel := flat_map (fun i => match nth_error rows i with Some r => [fst r] | None => [] end)
                     (firstn (min_sampled (p_cols p)) ids) in
        let '(n, h) := combine_nulls (map (col_nulls (Some sel)) (p_cols p)) in
        mkProf (p_cols p) (p_has p + length h) (p_is p + length n)
    end.

  (** _update_profile_from_chunk, 2789-3038: base statistics of the columns, then the row statistics;
      positions are passed unless min_true_samples is 0. *)
  Definition update (p : prof) (f : frame) : result prof :=
    let cols := match p_cols p with [] => repeat new_colx (f_width f) | l => l end in
    bind (mapM (fun js => update_colx (snd js) (snd (clean_batch is_null order (column f (fst js)))))
               (combine (seq 0 (length cols)) cols)) (fun cols' =>
    Ok (update_rows (mkProf cols' (p_has p) (p_is p)) (f_rows f)
          (if f_min_true f =? 0 then None else Some (concat (f_chunks f))))).

  (** __add__, 1771-1828.  Both profiles must have columns, equally many. *)
  Definition add (a b : prof) : result prof :=
    if (length (p_cols a) =? 0) || negb (length (p_cols a) =? length (p_cols b)) then Err ValueError
    else bind (mapM (fun xy => add_colx (fst xy) (snd xy)) (combine (p_cols a) (p_cols b))) (fun cols =>
         Ok (mkProf cols (p_has a + p_has b) (p_is a + p_is b))).

  (** _min_col_samples_used, 1950-1957 *)
  Definition min_samples_used (p : prof) : nat :=
    match map (fun s => c_size (x_col s)) (p_cols p) with
    | [] => 0
    | n :: ns => fold_left Nat.min ns n
    end.

  (** _get_row_has_null_ratio and _get_row_is_null_ratio, 2161-2171 *)
  Definition has_null_ratio (p : prof) : Q :=
    if min_samples_used p =? 0 then 0 else (inject_Z (Z.of_nat (p_has p)) / inject_Z (Z.of_nat (min_samples_used p)))%Q.
  Definition is_null_ratio (p : prof) : Q :=
    if min_samples_used p =? 0 then 0 else (inject_Z (Z.of_nat (p_is p)) / inject_Z (Z.of_nat (min_samples_used p)))%Q.

  Inductive hist := HNew | HUpd (h : hist) (f : frame) | HAdd (h1 h2 : hist).

  Fixpoint run (h : hist) : result prof :=
    match h with
    | HNew => Ok new_prof
    | HUpd h f => bind (run h) (fun p => update p f)
    | HAdd h1 h2 => bind (run h1) (fun a => bind (run h2) (fun b => add a b))
    end.
End RowNull.

Arguments frame C : clear implicits.
Arguments hist C : clear implicits.
Arguments colx C : clear implicits.
Arguments prof C : clear implicits.
