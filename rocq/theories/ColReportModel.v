(** Model of the report of a column, and of its flag remove_disabled_flag: profilers/profile_builder.py,
    StructuredColProfiler.report (339-394); profilers/column_profile_compilers.py, the methods report (269-296, 381-392, 423-437,
    478-489); profilers/profiler_utils.py, recursive_dict_update (42-57); the properties profile and methods report of
    int_column_profile.py (65-73), float_column_profile.py (147-160, 197-222), text_column_profile.py (71-99),
    datetime_column_profile.py (122-132, 160-169), order_column_profile.py (307-315, 345-351),
    categorical_column_profile.py (335-345, 366-396), data_labeler_column_profile.py (299-308, 347-357),
    numerical_column_stats.py (368-393); unstructured_text_profile.py (632-665); graph_profiler.py (83-100, 153-182).

    A report is a tree; [Leaf] stands for any value that is no dictionary.  The dictionary [times] of a profile is put into the
    report itself, not a copy: [Ref a] is the dictionary at address [a].  It maps names to numbers.  The other values of a
    profile are given. *)
From Coq Require Import ZArith QArith.
From Verif Require Import PyCommon PyDict PyString.
Local Open Scope nat_scope.
Local Open Scope string_scope.
Local Open Scope list_scope.

Inductive tree := TNone | TStr (s : string) | TNum (q : Q) | Leaf (n : nat) | Node (d : list (string * tree)) | Ref (a : nat).
Definition heap := nat -> dict string Q.
Definition write (h : heap) (a : nat) (d : dict string Q) : heap := fun b => if a =? b then d else h b.
Definition leaves (d : dict string Q) : list (string * tree) := map (fun kv => (fst kv, TNum (snd kv))) d.

(** recursive_dict_update(d, update_d).  A dictionary [times] only meets another such. *)
Fixpoint rdu (h : heap) (d : dict string tree) (u : tree) {struct u} : heap * dict string tree :=
  match u with
  | Node l =>
      (fix go (h : heap) (d : dict string tree) (l : list (string * tree)) {struct l} :=
         match l with
         | [] => (h, d)
         | (k, v) :: r =>
             let '(h', w) :=
               match dget d k with
               | Some (Node e) =>
                   match v with
                   | Node _ => let '(h', e') := rdu h e v in (h', Node e')
                   | Ref b => (h, Node (dupdate e (leaves (h b))))
                   | _ => (h, v)
                   end
               | Some (Ref a) => match v with Ref b => (write h a (dupdate (h a) (h b)), Ref a) | _ => (h, v) end
               | _ => (h, v)
               end in
             go h' (dset d k w) r
         end) h d l
  | _ => (h, d)
  end.

(** The profiles of a column *)
Inductive kind := KDate | KInt | KFloat | KText.
Definition kind_name (k : kind) : string :=
  match k with KDate => "datetime" | KInt => "int" | KFloat => "float" | KText => "text" end.
(** [data_type_ratio] (None without samples), the calculations that are switched on (those of NumericStatsMixin and the class's
    own: "precision" of floats, "vocab" of texts; only the class's own are looked at), the values of the statistics, [times] *)
Record prim := mkPrim { p_kind : kind; p_ratio : option Q; p_calcs : list string; p_val : string -> tree; p_times : nat }.
(** [is_match], values, [times] *)
Record cat := mkCat { c_match : bool; c_val : string -> tree; c_times : nat }.
Record lab := mkLab { l_val : string -> tree; l_times : nat }.
Record order := mkOrder { o_val : tree; o_times : nat }.
(** [f_label]: None without data_label_profile; Some None if that holds no profile *)
Record col := mkCol
  { f_name : tree; f_sample : tree; f_base : string -> tree; f_prims : list prim; f_order : option order; f_cat : option cat;
    f_label : option (option lab) }.

Definition values (f : string -> tree) (ks : list string) : dict string tree := map (fun k => (k, f k)) ks.

(** NumericStatsMixin.profile, and the profiles of the four types *)
Definition numeric_keys : list string :=
  ["min"; "max"; "mode"; "median"; "sum"; "mean"; "variance"; "stddev"; "skewness"; "kurtosis"; "histogram"; "quantiles";
   "median_abs_deviation"; "num_zeros"; "num_negatives"].
Definition prim_profile (p : prim) : dict string tree :=
  let numeric := values (p_val p) numeric_keys ++ [("times", Ref (p_times p))] in
  match p_kind p with
  | KInt => numeric
  | KFloat => dset numeric "precision" (p_val p "precision")
  | KText => dset (ddel (ddel numeric "num_zeros") "num_negatives") "vocab" (p_val p "vocab")
  | KDate => [("min", p_val p "min"); ("max", p_val p "max"); ("histogram", TNone); ("format", p_val p "format"); ("times", Ref (p_times p))]
  end.
(** [for profile_key in profile_keys: if profile_key in keep and profile_key in calculations: continue; profile.pop(profile_key)] *)
Definition pop_all (keep : list string) (calcs : list string) (d : dict string tree) : dict string tree :=
  fold_left (fun d k => if (lmem keep k && lmem calcs k)%bool then d else ddel d k) (dkeys d) d.
Definition prim_report (flag : bool) (p : prim) : dict string tree :=
  let d := prim_profile p in
  match p_kind p, flag with
  | KFloat, true => pop_all ["precision"] (p_calcs p) d
  | KText, true => pop_all ["vocab"] (p_calcs p) d
  | _, _ => d
  end.
Definition cat_report (c : cat) : dict string tree :=
  [("categorical", c_val c "categorical");
   ("statistics", Node (values (c_val c) (["unique_count"; "unique_ratio"] ++
      if c_match c then ["categories"; "gini_impurity"; "unalikeability"; "categorical_count"] else [])));
   ("times", Ref (c_times c))].
Definition order_report (o : order) : dict string tree := [("order", o_val o); ("times", Ref (o_times o))].

(** ColumnPrimitiveTypeProfileCompiler.report *)
Definition matches (p : prim) : bool := match p_ratio p with Some q => Qeq_bool q 1 | None => false end.
Definition type_report (flag : bool) (ps : list prim) : dict string tree :=
  fst (fold_left (fun (s : dict string tree * bool) p =>
    let '(d, found) := s in
    let '(d, found) :=
      if (negb found && matches p)%bool
      then (dupdate d [("data_type", TStr (kind_name (p_kind p))); ("statistics", Node (prim_report flag p))], true)
      else (d, found) in
    let rep := match dget d "data_type_representation" with Some (Node r) => r | _ => [] end in
    (dset d "data_type_representation" (Node (dset rep (kind_name (p_kind p)) (match p_ratio p with Some q => TNum q | None => TNone end))), found))
    ps ([("data_type_representation", Node []); ("data_type", TNone); ("statistics", Node [])], false)).
(** ColumnStatsProfileCompiler.report *)
Definition stats_report (o : option order) (c : option cat) : dict string tree :=
  dupdate (dupdate [] (match o with Some o => order_report o | None => [] end)) (match c with Some c => cat_report c | None => [] end).
(** ColumnDataLabelerCompiler.report *)
Definition label_report (l : option lab) : dict string tree :=
  match l with
  | None => [("data_label", TNone); ("statistics", Node [])]
  | Some l =>
      [("data_label", l_val l "data_label");
       ("statistics", Node [("avg_predictions", l_val l "avg_predictions"); ("data_label_representation", l_val l "data_label_representation");
                            ("times", Ref (l_times l))])]
  end.

(** StructuredColProfiler.report *)
Definition col_report (flag : bool) (h : heap) (c : col) : heap * result (dict string tree) :=
  let '(h, u) := rdu h [] (Node (type_report flag (f_prims c))) in
  let '(h, u) := rdu h u (Node (stats_report (f_order c) (f_cat c))) in
  let '(h, u) := match f_label c with None => (h, u) | Some l => rdu h u (Node (label_report l)) end in
  let u := dupdate u [("column_name", f_name c); ("samples", f_sample c)] in
  match dget u "statistics" with
  | Some (Node s) =>
      let s := dupdate s (values (f_base c) ["sample_size"; "null_count"; "null_types"; "null_types_index"]) in
      let s := match dget u "data_type", dget u "data_type_representation" with
               | None, _ | Some TNone, _ => s
               | _, Some r => dset s "data_type_representation" r
               | _, None => s
               end in
      let u := dset u "statistics" (Node s) in
      let order := ["column_name"; "data_type"] ++ (match f_label c with None => [] | Some _ => ["data_label"] end) ++
                   ["categorical"; "order"; "samples"; "statistics"] in
      (h, Ok (map (fun k => (k, match dget u k with Some v => v | None => TNone end)) order))
  | Some _ => (h, Err AttributeError)
  | None => (h, Err KeyError)
  end.

(** The report as read: references replaced by what they hold *)
Fixpoint resolve (h : heap) (t : tree) : tree :=
  match t with
  | Node d => Node (map (fun kv => (fst kv, resolve h (snd kv))) d)
  | Ref a => Node (leaves (h a))
  | _ => t
  end.

(** TextProfiler.report *)
Definition text_report (flag : bool) (calcs : list string) (val : string -> tree) (times : nat) : dict string tree :=
  let d := values val ["vocab"; "vocab_count"; "words"; "word_count"] ++ [("times", Ref times)] in
  if flag then pop_all ["vocab"; "words"] calcs d else d.
(** GraphProfiler.report *)
Definition graph_keys : list string :=
  ["num_nodes"; "num_edges"; "categorical_attributes"; "continuous_attributes"; "avg_node_degree"; "global_max_component_size";
   "continuous_distribution"; "categorical_distribution"].
Definition graph_report (flag : bool) (calcs : list string) (val : string -> tree) (times : nat) : dict string tree :=
  let d := values val graph_keys ++ [("times", Ref times)] in
  if flag then pop_all graph_keys calcs d else d.
