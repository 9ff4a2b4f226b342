(** * Text columns and categories of the cells of a column

    profilers/text_column_profile.py, TextColumn: __init__ (26-43), __add__ (45-69), _update_vocab
    (133-154), _update_helper (156-171) and update (173-199), with _combine_unique_sets
    (profiler_utils.py 74-91); and how the cells of a column get there and to the categorical profile
    (profile_builder.py, StructuredColProfiler, see CellsModel).

    The statistics of lengths are all switched on or all off (is_numeric_stats_enabled), and so is the
    vocabulary.  The type of the profile ("string" or "text") is in TypeModel.  Texts are ASCII. *)
From Coq Require Import List Arith Bool ZArith QArith Ascii.
From Coq Require String.
Import ListNotations.
From Verif Require Import PyCommon PyDict PyString QFacts.
From Verif Require NullModel NullCellModel NumericModel CategoricalModel.
Local Open Scope list_scope.
Local Open Scope nat_scope.

Record text := mkText {
  x_num : NumericModel.num;
  x_numeric : bool;           (* the calculations of NumericStatsMixin are not empty *)
  x_vocab_on : bool;          (* "vocab" in __calculations *)
  x_vocab : list ascii
}.

Definition new_text (bias numeric vocab_on : bool) : text :=
  mkText (NumericModel.num_new bias) numeric vocab_on [].

(** A set of characters *)
Definition distinct (l : list ascii) : list ascii := nodup ascii_dec l.

(** _update_column_base_properties alone: sample_size and match_count, base_column_profilers.py 205 *)
Definition count_only (s : NumericModel.num) (n : nat) : NumericModel.num :=
  NumericModel.mkNum (NumericModel.nm_sample s + n) (NumericModel.nm_match s + n)
    (NumericModel.nm_min s) (NumericModel.nm_max s) (NumericModel.nm_sum s) (NumericModel.nm_var s)
    (NumericModel.nm_zeros s) (NumericModel.nm_negs s) (NumericModel.nm_bias s).

(** merged without calculations: what a new profile has, but for the counts *)
Definition counts_merged (a b : NumericModel.num) : NumericModel.num :=
  NumericModel.mkNum (NumericModel.nm_sample a + NumericModel.nm_sample b)
    (NumericModel.nm_match a + NumericModel.nm_match b) None None 0%Q None 0 0
    (NumericModel.nm_bias a && NumericModel.nm_bias b).

Section Text.
  (** The order in which Python lists a set of characters *)
  Variable listed : list ascii -> list ascii.

  (** profiler_utils.py 74-91 *)
  Definition combine_unique_sets (a b : list ascii) : list ascii :=
    match a, b with
    | [], [] => []
    | [], _ => listed (distinct b)
    | _, [] => listed (distinct a)
    | _, _ => listed (distinct (a ++ b))
    end.

  Definition update_text (s : text) (batch : list string) : text :=
    if length batch =? 0 then s
    else
      mkText
        (if x_numeric s
         then NumericModel.update (x_num s) (map (fun c => Some (Qn (length (NullCellModel.chars c)))) batch)
         else count_only (x_num s) (length batch))
        (x_numeric s) (x_vocab_on s)
        (if x_vocab_on s
         then combine_unique_sets (x_vocab s) (distinct (flat_map NullCellModel.chars batch))
         else x_vocab s).

  Definition add_text (a b : text) : text :=
    let numeric := x_numeric a && x_numeric b in
    let on := x_vocab_on a && x_vocab_on b in
    mkText
      (if numeric then NumericModel.add (x_num a) (x_num b) else counts_merged (x_num a) (x_num b))
      numeric on
      (if on then combine_unique_sets (x_vocab a) (distinct (x_vocab b)) else []).

  (** ** Columns *)
  Variable nulls : NullCellModel.flags.
  Variable order : list NullModel.label -> list NullModel.label.
  Variable value_counts : list string -> dict string nat.

  Record column := mkColumn {
    t_base : NullModel.col string;
    t_text : text;
    t_cats : CategoricalModel.cat string }.

  Definition new_column (bias numeric vocab_on : bool) (name : option string) (idx topk maxn : option nat) (ratio : option Q) :=
    mkColumn NullModel.new_col (new_text bias numeric vocab_on) (CategoricalModel.cat_new name idx topk maxn ratio).

  Definition update_column (s : column) (t : NullModel.batch string) : result column :=
    bind (NullCellModel.parse (NullCellModel.join (map NullCellModel.chars (dkeys nulls)))) (fun alts =>
    let r := NullModel.clean_batch (fun c => NullCellModel.anchored alts (NullCellModel.chars c)) order t in
    bind (NullModel.update_base (t_base s) (snd r)) (fun base =>
    let cells := map snd (fst r) in
    Ok (mkColumn base (update_text (t_text s) cells) (CategoricalModel.update value_counts (t_cats s) cells)))).

  Definition add_column (a b : column) : result column :=
    bind (NullModel.add (t_base a) (t_base b)) (fun base =>
    bind (CategoricalModel.add (t_cats a) (t_cats b)) (fun cats =>
    Ok (mkColumn base (add_text (t_text a) (t_text b)) cats))).

  Inductive history :=
  | New (bias numeric vocab_on : bool) (name : option string) (idx topk maxn : option nat) (ratio : option Q)
  | Upd (h : history) (t : NullModel.batch string)
  | Add (h1 h2 : history).

  Fixpoint run (h : history) : result column :=
    match h with
    | New bias numeric vocab_on name idx topk maxn ratio => Ok (new_column bias numeric vocab_on name idx topk maxn ratio)
    | Upd h t => bind (run h) (fun s => update_column s t)
    | Add h1 h2 => bind (run h1) (fun a => bind (run h2) (fun b => add_column a b))
    end.
End Text.
