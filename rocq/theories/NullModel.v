(** Nulls and row labels of a column: profilers/profile_builder.py, StructuredColProfiler.

    Cells are strings [C] (after [df_series.apply(str)]); the null regular expression is an arbitrary
    predicate on cells.  Row labels are integers or something else.  The random [sample] of values is
    not modelled. *)
From Coq Require Import QArith.
From Verif Require Import PyCommon PyDict.
Local Open Scope Z_scope.

(** An index label: a Python int, or anything else. *)
Inductive label := LI (z : Z) | LO (n : nat).

Definition label_eqb (a b : label) : bool :=
  match a, b with
  | LI x, LI y => Z.eqb x y
  | LO x, LO y => Nat.eqb x y
  | _, _ => false
  end.

Global Program Instance EqDecB_label : EqDecB label := {| eqb := label_eqb |}.
Next Obligation.
  destruct x as [x|x], y as [y|y]; cbn; try (constructor; discriminate).
  - destruct (Z.eqb_spec x y); constructor; congruence.
  - destruct (Nat.eqb_spec x y); constructor; congruence.
Defined.

(** [x + shift]; other labels are never shifted, see [overlap] *)
Definition shift_label (s : Z) (l : label) : label :=
  match l with LI z => LI (z + s) | LO n => LO n end.

(** Sets as lists: [set.update] *)
Definition sadd {X} {E : EqDecB X} (s : list X) (x : X) : list X := if lmem s x then s else s ++ [x].
Definition supdate {X} {E : EqDecB X} (s xs : list X) : list X := fold_left sadd xs s.

Section Null.
  Context {C : Type} {EC : EqDecB C}.
  (** [re.match("^(?:...)$", cell, IGNORECASE)] *)
  Variable is_null : C -> bool.
  (** The order in which Python lists a set of labels, or [sorted]: profile_builder.py:646-650 *)
  Variable order : list label -> list label.

  Definition rows := list (label * C).

  (** [min(index)], [max(index)] of integers; None when a label is no int, profile_builder.py:590-600 *)
  Fixpoint int_bounds (r : rows) : option (Z * Z) :=
    match r with
    | [] => None
    | [(LI z, _)] => Some (z, z)
    | (LI z, _) :: r' =>
        match int_bounds r' with
        | Some (lo, hi) => Some (Z.min z lo, Z.max z hi)
        | None => None
        end
    | (LO _, _) :: _ => None
    end.

  (** base_stats, profile_builder.py:664-674 *)
  Record base := mkBase {
    b_size : nat;
    b_nulls : Z;
    b_types : dict C (list label);
    b_ids : option (Z * Z)
  }.

  (** [na_columns.setdefault(cell, list()).append(index)] over the matching rows *)
  Definition na_add (d : dict C (list label)) (x : label * C) : dict C (list label) :=
    dset d (snd x) ((match dget d (snd x) with Some l => l | None => [] end) ++ [fst x]).

  (** The loop of profile_builder.py:623-643; [df_series.iloc[ids]] *)
  Fixpoint clean_loop (r : rows) (sample_size min_true : nat) (chunks : list (list nat))
    (total : nat) (trues : list label) (na : dict C (list label)) : nat * list label * dict C (list label) :=
    match chunks with
    | [] => (total, trues, na)
    | ids :: rest =>
        let total := (total + length ids)%nat in
        let sub := flat_map (fun i => match nth_error r i with Some x => [x] | None => [] end) ids in
        let trues := supdate trues (map fst (filter (fun x => negb (is_null (snd x))) sub)) in
        let na := fold_left na_add (filter (fun x => is_null (snd x)) sub) na in
        if ((min_true <=? length trues) && (sample_size <=? total))%nat then (total, trues, na)
        else clean_loop r sample_size min_true rest total trues na
    end.

  (** clean_data_and_get_base_stats, profile_builder.py:536-676: the cleaned series and the base
      statistics.  [chunks] is what shuffle_in_chunks or partition yields. *)
  Definition clean (r : rows) (sample_size min_true : nat) (chunks : list (list nat)) : rows * base :=
    match r with
    | [] => ([], mkBase 0 0 [] None)
    | _ =>
        let '(total, trues, na) := clean_loop r sample_size min_true chunks 0 [] [] in
        let labels := order trues in
        (flat_map (fun l => filter (fun x => eqb (fst x) l) r) labels,
         mkBase total (Z.of_nat total - Z.of_nat (length labels)) na (int_bounds r))
    end.

  (** profiler_utils.overlap, 284-288 *)
  Definition overlap (x y : option (Z * Z)) : bool :=
    match x, y with
    | Some (x1, x2), Some (y1, y2) =>
        ((y1 <=? x1) && (x1 <=? y2)) || ((y1 <=? x2) && (x2 <=? y2))
        || ((x1 <=? y1) && (y1 <=? x2)) || ((x1 <=? y2) && (y2 <=? x2))
    | _, _ => false
    end.

  (** StructuredColProfiler: sample_size, null_count, null_ratio, null_types, null_types_index,
      _min_id and _max_id *)
  Record col := mkCol {
    c_size : nat;
    c_nulls : Z;
    c_ratio : option Q;
    c_types : list C;
    c_index : dict C (list label);
    c_ids : option (Z * Z)
  }.

  Definition new_col : col := mkCol 0 0 None [] [] None.

  (** [self.null_types_index.setdefault(null_type, set()).update(null_rows)] *)
  Definition index_add (d : dict C (list label)) (p : C * list label) : dict C (list label) :=
    dset d (fst p) (supdate (match dget d (fst p) with Some l => l | None => [] end) (snd p)).

  (** _update_base_stats, profile_builder.py:430-476 *)
  Definition update_base (s : col) (b : base) : result col :=
    if (b_size b =? 0)%nat then Err ZeroDivisionError
    else
      let ov := overlap (c_ids s) (b_ids b) in
      let shift := match c_ids s with Some (_, hi) => hi + 1 | None => 0 end in
      let ids := if ov then match b_ids b with Some (lo, hi) => Some (lo + shift, hi + shift) | None => None end
                 else b_ids b in
      let nti := if ov then map (fun p => (fst p, map (shift_label shift) (snd p))) (b_types b) else b_types b in
      Ok (mkCol
        (c_size s + b_size b)
        (c_nulls s + b_nulls b)
        (Some (inject_Z (b_nulls b) / inject_Z (Z.of_nat (b_size b)))%Q)
        (supdate (c_types s) (dkeys (b_types b)))
        (fold_left index_add nti (c_index s))
        (match c_ids s, ids with
         | None, _ => ids
         | Some _, None => c_ids s
         | Some (lo, hi), Some (lo', hi') => Some (Z.min lo lo', Z.max hi hi')
         end)).

  (** A batch: its rows and how they are sampled. *)
  Record batch := mkBatch { t_rows : rows; t_sample : nat; t_min_true : nat; t_chunks : list (list nat) }.

  Definition clean_batch (t : batch) : rows * base :=
    clean (t_rows t) (t_sample t) (t_min_true t) (t_chunks t).

  (** update_profile, 478-517 (base statistics part) *)
  Definition update (s : col) (t : batch) : result col := update_base s (snd (clean_batch t)).

  Definition as_base (s : col) : base := mkBase (c_size s) (c_nulls s) (c_index s) (c_ids s).

  (** __add__, 193-254 (base statistics part) *)
  Definition add (a b : col) : result col :=
    bind (update_base new_col (as_base a)) (fun m => update_base m (as_base b)).

  Inductive hist := HNew | HUpd (h : hist) (t : batch) | HAdd (h1 h2 : hist).

  Fixpoint run (h : hist) : result col :=
    match h with
    | HNew => Ok new_col
    | HUpd h t => bind (run h) (fun s => update s t)
    | HAdd h1 h2 => bind (run h1) (fun a => bind (run h2) (fun b => add a b))
    end.
End Null.

Arguments rows C : clear implicits.
Arguments batch C : clear implicits.
Arguments hist C : clear implicits.
Arguments base C : clear implicits.
Arguments col C : clear implicits.
