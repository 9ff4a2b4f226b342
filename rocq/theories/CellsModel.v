(** * From the cells of a column to its numbers

    profilers/profile_builder.py, StructuredColProfiler: update_profile (478-517) with
    clean_data_and_get_base_stats (536-676), _update_base_stats (430-476) and
    update_column_profilers (144-191), and __add__ (193-254), put together from
    the models of nulls of a column (NullModel), of null cells (NullCellModel), of cells
    that are numbers (NumTextModel) and of numeric columns (NumericModel): the profiles of
    the column as integers and as floats get the cells that are not null, in the order of
    the cleaned series (int_column_profile.py 151-179, float_column_profile.py 433-462).

    Texts are ASCII.  The statistics of cells that are NaN or infinite are outside
    NumericModel; the theorems exclude such cells for the column of floats. *)
From Coq Require Import List Arith Bool ZArith QArith Qpower Ascii.
From Coq Require String.
Import ListNotations.
From Verif Require Import PyCommon PyDict PyString.
From Verif Require NullModel NullCellModel NumTextModel NumericModel.
Local Open Scope list_scope.

(** float() of [m * 10 ^ e], the nearest number of double precision; none if it is infinite *)
Definition double (neg : bool) (m e : Z) : option Q :=
  if Z.eqb m 0 then Some 0%Q
  else
    let f := NumTextModel.frac m e in
    match NumTextModel.to_double (fst f) (snd f) with
    | Some (k, x) => Some (inject_Z (if neg then - k else k) * Qpower 2 x)%Q
    | None => None
    end.

(** [astype(float)] (numerical_column_stats.py 1754) of a cell; none also for NaN *)
Definition value (s : string) : option Q :=
  match NumTextModel.parse (NullCellModel.chars s) with
  | Some (NumTextModel.PNum neg m e) => double neg m e
  | _ => None
  end.

(** [df_series[is_each_row_int]] or [df_series[is_each_row_float]] as numbers *)
Definition as_number (is_number : list ascii -> bool) (s : string) : option Q :=
  if is_number (NullCellModel.chars s) then value s else None.

Record column := mkColumn {
  k_base : NullModel.col string;
  k_ints : NumericModel.num;
  k_floats : NumericModel.num }.

Definition new_column (bias : bool) : column :=
  mkColumn NullModel.new_col (NumericModel.num_new bias) (NumericModel.num_new bias).

Section Column.
  (** The null values of the column *)
  Variable nulls : NullCellModel.flags.
  (** The order in which a set of labels is listed *)
  Variable order : list NullModel.label -> list NullModel.label.

  Definition update_column (s : column) (t : NullModel.batch string) : result column :=
    bind (NullCellModel.parse (NullCellModel.join (map NullCellModel.chars (dkeys nulls)))) (fun alts =>
    let r := NullModel.clean_batch (fun c => NullCellModel.anchored alts (NullCellModel.chars c)) order t in
    bind (NullModel.update_base (k_base s) (snd r)) (fun base =>
    let cells := map snd (fst r) in
    Ok (mkColumn base
          (NumericModel.update (k_ints s) (map (as_number NumTextModel.is_int) cells))
          (NumericModel.update (k_floats s) (map (as_number NumTextModel.is_float) cells))))).

  Definition add_column (a b : column) : result column :=
    bind (NullModel.add (k_base a) (k_base b)) (fun base =>
    Ok (mkColumn base (NumericModel.add (k_ints a) (k_ints b)) (NumericModel.add (k_floats a) (k_floats b)))).

  Inductive history := New (bias : bool) | Upd (h : history) (t : NullModel.batch string) | Add (h1 h2 : history).

  Fixpoint run (h : history) : result column :=
    match h with
    | New bias => Ok (new_column bias)
    | Upd h t => bind (run h) (fun s => update_column s t)
    | Add h1 h2 => bind (run h1) (fun a => bind (run h2) (fun b => add_column a b))
    end.
End Column.
