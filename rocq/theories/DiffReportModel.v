(** Model of the differences of columns and of tables: profilers/profile_builder.py (StructuredColProfiler.diff, 256-337;
    StructuredProfiler.diff, 1858-1939; BaseProfiler.diff, 809-841), profilers/column_profile_compilers.py (diff, 147-161, 319-366,
    394-413, 440-465), and the methods diff of numerical_column_stats.py (480-536), float_column_profile.py (125-145),
    text_column_profile.py (101-118), datetime_column_profile.py (183-205), categorical_column_profile.py (245-333),
    order_column_profile.py (353-369), data_labeler_column_profile.py (359-392).

    The values that are compared are given; the functions that compare them are those of [DiffModel], the tests (t-test C74, psi C49,
    chi-squared C73) are parameters.  Names of columns, categories, labels and the like are atoms.  Sets of names of profiles are
    gone through in the order of insertion; their entries have different keys.  Not modelled: the preparation of the report that
    options ask for (C40, C70). *)
From Coq Require Import ZArith QArith.
From Verif Require Import PyCommon PyDict PyString PyEq DiffModel SchemaModel PsiModel.
Local Open Scope nat_scope.
Local Open Scope string_scope.
Local Open Scope list_scope.

Inductive atom := AStr (s : string) | AInt (z : Z).
Definition atom_eqb (a b : atom) : bool :=
  match a, b with AStr s, AStr t => String.eqb s t | AInt x, AInt y => Z.eqb x y | _, _ => false end.
Global Program Instance EqDecB_atom : EqDecB atom := {| PyDict.eqb := atom_eqb |}.
Next Obligation.
  destruct x as [s|x], y as [t|y]; cbn; try (constructor; congruence).
  - destruct (String.eqb_spec s t); constructor; congruence.
  - destruct (Z.eqb_spec x y); constructor; congruence.
Qed.

Notation val := (DiffModel.val atom atom).
Notation out := (DiffModel.out atom atom).
(** What is in a report of differences: a difference, the result of a test, a name, nothing, a dictionary *)
Inductive tree := TNone | TOut (o : out) | TTest (n : nat) | TName (a : atom) | TNode (d : list (string * tree)).

(** recursive_dict_update, profiler_utils.py 42-57 *)
Fixpoint rdu (d : dict string tree) (u : tree) {struct u} : dict string tree :=
  match u with
  | TNode l =>
      (fix go (d : dict string tree) (l : list (string * tree)) {struct l} :=
         match l with
         | [] => d
         | (k, v) :: r =>
             let w := match dget d k, v with Some (TNode e), TNode _ => TNode (rdu e v) | _, _ => v end in
             go (dset d k w) r
         end) d l
  | _ => d
  end.

(** A dictionary whose entries are computed one after the other *)
Fixpoint collect (l : list (string * result out)) : result (dict string tree) :=
  match l with
  | [] => Ok []
  | (k, r) :: l => bind r (fun o => bind (collect l) (fun d => Ok ((k, TOut o) :: d)))
  end.

(** ** Profiles of a column *)
Inductive kind := KDate | KInt | KFloat | KText.
Definition kind_name (k : kind) : string :=
  match k with KDate => "datetime" | KInt => "int" | KFloat => "float" | KText => "text" end.
Definition kind_eqb (a b : kind) : bool :=
  match a, b with KDate, KDate | KInt, KInt | KFloat, KFloat | KText, KText => true | _, _ => false end.
(** [data_type_ratio] (None without samples), statistics by name, entries of the precision of floats by name *)
Record prim := mkPrim { p_kind : kind; p_ratio : option Q; p_val : string -> val; p_prec : string -> val }.
(** [is_match], statistics by name, counts of the categories *)
Record cat := mkCat { c_match : bool; c_val : string -> val; c_counts : dict atom Z }.
(** sample_size, the labels (data_label split at bars), averages and representation *)
Record lab := mkLab { l_size : nat; l_labels : list atom; l_avg : option (list (atom * val)); l_rep : option (list (atom * val)) }.
(** [f_label]: None without data_label_profile; Some None if that holds no profile.  [f_base]: sample_size, null_count and
    null_ratio *)
Record col := mkCol
  { f_name : atom; f_base : string -> val; f_null_types : list atom; f_null_index : list (atom * val);
    f_prims : list prim; f_order : option val; f_cat : option cat; f_label : option (option lab) }.

Section Diff.
  Variables ttest psi : prim -> prim -> nat.
  Variable chi2 : cat -> cat -> nat.
  Variable cat_psi : cat -> cat -> option nat.      (* None: there is no category *)
  Variable order : list atom -> list atom.          (* the order in which a set of categories is gone through *)
  Variable by_count : dict atom Z -> dict atom Z.   (* most frequent first *)

  Definition numbers (p q : prim) (shown name : string) : string * result out := (shown, diff_numbers (p_val p name) (p_val q name)).

  (** NumericStatsMixin.diff *)
  Definition numeric_diff (p q : prim) : result (dict string tree) :=
    bind (collect
      [numbers p q "min" "min"; numbers p q "max" "max"; numbers p q "sum" "sum"; numbers p q "mean" "mean";
       numbers p q "median" "median"; ("mode", diff_lists (p_val p "mode") (p_val q "mode"));
       numbers p q "median_absolute_deviation" "median_abs_deviation"; numbers p q "variance" "variance";
       numbers p q "stddev" "stddev"])
      (fun d => Ok (d ++ [("t-test", TTest (ttest p q)); ("psi", TTest (psi p q))])).

  Definition precision_keys : list string := ["min"; "max"; "mean"; "var"; "std"; "sample_size"; "margin_of_error"; "confidence_level"].
  (** The methods diff of the four types *)
  Definition prim_diff (p q : prim) : result (dict string tree) :=
    match p_kind p with
    | KInt => numeric_diff p q
    | KFloat =>
        bind (numeric_diff p q) (fun d =>
        bind (collect (map (fun k => (k, diff_numbers (p_prec p k) (p_prec q k))) precision_keys)) (fun e =>
        Ok (dset d "precision" (TNode (ddel e "confidence_level")))))
    | KText =>
        bind (numeric_diff p q) (fun d =>
        bind (diff_lists (p_val p "vocab") (p_val q "vocab")) (fun o => Ok (dset (ddel d "psi") "vocab" (TOut o))))
    | KDate =>
        collect [("min", diff_dates (p_val p "min") (p_val q "min")); ("max", diff_dates (p_val p "max") (p_val q "max"));
                 ("format", diff_lists (p_val p "format") (p_val q "format"))]
    end.

  Definition find_kind (k : kind) (l : list prim) : option prim := find (fun p => kind_eqb (p_kind p) k) l.
  Definition ratio_val (p : prim) : val := match p_ratio p with Some q => VNum (Some q) | None => VNone end.
  (** selected_data_type, 303-317 *)
  Definition selected (l : list prim) : option prim :=
    find (fun p => match p_ratio p with Some q => Qeq_bool q 1 | None => false end) l.
  Definition selected_name (l : list prim) : val := match selected l with Some p => VStr (kind_name (p_kind p)) | None => VNone end.

  (** 332-345: entries of the profiles of the first, then of those only in the second *)
  Definition representation (a b : list prim) : list (string * result out) :=
    map (fun p => (kind_name (p_kind p),
                   match find_kind (p_kind p) b with
                   | Some q => diff_numbers (ratio_val p) (ratio_val q)
                   | None => Ok (OPair (ratio_val p) VNone)
                   end)) a ++
    map (fun q => (kind_name (p_kind q), Ok (OPair VNone (ratio_val q))))
        (filter (fun q => match find_kind (p_kind q) a with Some _ => false | None => true end) b).

  (** ColumnPrimitiveTypeProfileCompiler.diff, 319-366 *)
  Definition type_diff (a b : list prim) : result (dict string tree) :=
    bind (collect (representation a b)) (fun rep =>
    let d := match rep with [] => [] | _ => [("data_type_representation", TNode rep)] end in
    match selected a, selected b with
    | None, None => Ok d
    | Some p, Some q =>
        if kind_eqb (p_kind p) (p_kind q)
        then bind (prim_diff p q) (fun s => Ok (d ++ [("data_type", TOut Unchanged); ("statistics", TNode s)]))
        else Ok (d ++ [("data_type", TOut (OPair (selected_name a) (selected_name b)))])
    | _, _ => Ok (d ++ [("data_type", TOut (OPair (selected_name a) (selected_name b)))])
    end).

  (** CategoricalColumn.diff, 245-333 *)
  Definition counts_val (d : dict atom Z) : list (atom * val) := map (fun kv => (fst kv, VNum (Some (inject_Z (snd kv))))) d.
  Definition cat_diff (a b : cat) : result (dict string tree) :=
    bind (diff_strings (VBool (c_match a)) (VBool (c_match b)) : result out) (fun m =>
    bind (collect [("unique_count", diff_numbers (c_val a "unique_count") (c_val b "unique_count"));
                   ("unique_ratio", diff_numbers (c_val a "unique_ratio") (c_val b "unique_ratio"))]) (fun s =>
    if (c_match a && c_match b)%bool then
      bind (collect [("categories", diff_lists (c_val a "categories") (c_val b "categories"));
                     ("gini_impurity", diff_numbers (c_val a "gini_impurity") (c_val b "gini_impurity"));
                     ("unalikeability", diff_numbers (c_val a "unalikeability") (c_val b "unalikeability"))]) (fun t =>
      let keys := order (distinct (dkeys (c_counts a) ++ dkeys (c_counts b))) in
      bind (diff_dicts (Some (counts_val (fill keys (by_count (c_counts a))))) (Some (counts_val (fill keys (by_count (c_counts b)))))) (fun n =>
      Ok [("categorical", TOut m);
          ("statistics", TNode (s ++ [("chi2-test", TTest (chi2 a b))] ++ t ++
                                match cat_psi a b with Some x => [("psi", TTest x)] | None => [] end ++ [("categorical_count", TOut n)]))]))
    else Ok [("categorical", TOut m); ("statistics", TNode s)])).

  (** ColumnStatsProfileCompiler.diff, 394-413 *)
  Definition stats_diff (o1 o2 : option val) (c1 c2 : option cat) : result (dict string tree) :=
    bind (match o1, o2 with
          | Some x, Some y => bind (diff_strings x y) (fun o => Ok [("order", TOut o)])
          | _, _ => Ok []
          end) (fun d =>
    bind (match c1, c2 with Some x, Some y => cat_diff x y | _, _ => Ok [] end) (fun e => Ok (dupdate d e))).

  (** ColumnDataLabelerCompiler.diff, 439-464, with DataLabelerColumn.diff *)
  Definition labels_val (l : lab) : val := if l_size l =? 0 then VNone else VList (l_labels l).
  Definition label_diff (l1 l2 : option lab) : result (dict string tree) :=
    match l1, l2 with
    | Some x, Some y =>
        bind (diff_lists (labels_val x) (labels_val y)) (fun o =>
        bind (collect [("avg_predictions", diff_dicts (l_avg x) (l_avg y)); ("label_representation", diff_dicts (l_rep x) (l_rep y))]) (fun s =>
        Ok [("statistics", TNode s); ("data_label", TOut o)]))
    | _, _ => Ok []
    end.

  (** StructuredColProfiler.diff, 256-337 *)
  Definition has_label (c : col) : bool := match f_label c with Some _ => true | None => false end.
  Definition col_diff (a b : col) : result (dict string tree) :=
    bind (type_diff (f_prims a) (f_prims b)) (fun t =>
    bind (stats_diff (f_order a) (f_order b) (f_cat a) (f_cat b)) (fun s =>
    bind (match f_label a, f_label b with Some x, Some y => label_diff x y | _, _ => Ok [] end) (fun l =>
    let u := rdu (rdu (rdu [] (TNode t)) (TNode s)) (TNode l) in
    let u := dset u "column_name" (TName (f_name a)) in
    match dget u "statistics" with
    | Some (TNode st) =>
        bind (collect [("sample_size", diff_numbers (f_base a "sample_size") (f_base b "sample_size"));
                       ("null_count", diff_numbers (f_base a "null_count") (f_base b "null_count"));
                       ("null_ratio", diff_numbers (f_base a "null_ratio") (f_base b "null_ratio"));
                       ("null_types", diff_lists (VList (f_null_types a)) (VList (f_null_types b)));
                       ("null_types_index", diff_parts (Some (f_null_index a)) (Some (f_null_index b)))]) (fun base =>
        let st := dupdate st base in
        bind (match dget u "data_type" with
              | Some _ => match dget u "data_type_representation" with
                          | Some r => Ok (dset st "data_type_representation" r) | None => Err KeyError end
              | None => Ok st
              end) (fun st =>
        let u := dset u "statistics" (TNode st) in
        let keys := ["column_name"; "data_type"] ++ (if (has_label a && has_label b)%bool then ["data_label"] else []) ++
                    ["categorical"; "order"; "statistics"] in
        Ok (map (fun k => (k, match dget u k with Some v => v | None => TNone end)) keys)))
    | Some _ => Err AttributeError
    | None => Err KeyError
    end))).

  (** ** Tables *)
  (** [g_val]: file_type, encoding, samples_used, row_count, row_has_null_ratio, row_is_null_ratio, unique_row_ratio,
      duplicate_row_count *)
  Record table := mkTable
    { g_val : string -> val; g_corr : option (list (list (option Q))); g_chi2 : option (list (list (option Q))); g_cols : list col }.
  Record table_diff := mkDiff
    { d_global : dict string tree; d_corr : option (option (list (list (option Q)))); d_chi2 : option (option (list (list (option Q))));
      d_schema : out; d_columns : list (dict string tree) }.

  Definition schema_of (l : list col) : schema atom := build_schema (fun k => k) (map f_name l).
  Definition schema_val (s : schema atom) : list (atom * val) :=
    map (fun kv => (fst kv, VList (map (fun i => AInt (Z.of_nat i)) (snd kv)))) s.
  (** [==] of dictionaries with lists of positions *)
  Definition schema_eqb (s t : schema atom) : bool :=
    ((length s =? length t) &&
     forallb (fun kv => match dget t (fst kv) with Some l => PyDict.eqb l (snd kv) | None => false end) s)%bool.

  (** [for i in range(len(self._profile))]: an index beyond the other's columns is an IndexError *)
  Fixpoint diff_columns (l m : list col) : result (list (dict string tree)) :=
    match l with
    | [] => Ok []
    | c :: l => match m with
                | [] => Err IndexError
                | e :: m => bind (col_diff c e) (fun d => bind (diff_columns l m) (fun r => Ok (d :: r)))
                end
    end.

  (** StructuredProfiler.diff, 1858-1939 *)
  Definition diff_tables (a b : table) : result table_diff :=
    let num n := (n, diff_numbers (g_val a n) (g_val b n)) in
    bind (collect
      [("file_type", diff_strings (g_val a "file_type") (g_val b "file_type")); ("encoding", diff_strings (g_val a "encoding") (g_val b "encoding"));
       num "samples_used";
       ("column_count", diff_numbers (VNum (Some (inject_Z (Z.of_nat (length (g_cols a))))))
                                     (VNum (Some (inject_Z (Z.of_nat (length (g_cols b)))))));
       num "row_count"; num "row_has_null_ratio"; num "row_is_null_ratio"; num "unique_row_ratio"; num "duplicate_row_count"]) (fun g =>
    let s := schema_of (g_cols a) in
    let t := schema_of (g_cols b) in
    bind (diff_parts (Some (schema_val s)) (Some (schema_val t))) (fun sch =>
    bind (if schema_eqb s t then diff_columns (g_cols a) (g_cols b) else Ok []) (fun cols =>
    Ok (mkDiff g (diff_matrices (g_corr a) (g_corr b)) (diff_matrices (g_chi2 a) (g_chi2 b)) sch cols)))).
End Diff.
