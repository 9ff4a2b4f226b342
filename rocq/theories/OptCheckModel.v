(** Model of the validation of options: profilers/profiler_options.py, the methods _validate_helper of BooleanOption (196-210),
    HistogramAndQuantilesOption (238-276), ModeOption (293-311), NumericalOptions (484-579), PrecisionOptions (651-676),
    FloatOptions (720-733), TextOptions (781-809), CategoricalOptions (961-1032), CorrelationOptions (1051-1072),
    HyperLogLogOptions (1092-1116), UniqueCountOptions (1135-1157), RowStatisticsOptions (1185-1207), DataLabelerOptions (1266-1310),
    TextProfilerOptions (1373-1424), StructuredOptions (1505-1623), UnstructuredOptions (1650-1681), ProfilerOptions (1742-1777).

    [g] gives the values of the attributes of an option object by name, [sub n g] those of its attribute [n].  The classes of the
    option objects are those made by the constructors ([set] does not change them, C76), so that the tests of classes pass and
    are left out.  Warnings are left out.  An error is the name of the option it is about, and a text. *)
From Coq Require Import ZArith QArith.
From Verif Require Import PyCommon PyDict PyString OptionsModel OptionsProps.
Local Open Scope nat_scope.
Local Open Scope string_scope.
Local Open Scope list_scope.

Definition access := list string -> val.
Definition sub (n : string) (g : access) : access := fun p => g (n :: p).
Definition err := (list string * string)%type.
Definition when (b : bool) (path : list string) (msg : string) : list err := if b then [(path, msg)] else [].

(** Truth of a value *)
Definition truthy (v : val) : bool :=
  match v with
  | VNone => false | VBool b => b | VInt z => negb (z =? 0)%Z | VFloat q => negb (Qeq_bool q 0)
  | VStr s => negb (String.eqb s "") | VList l => match l with [] => false | _ => true end
  | VDict d => match d with [] => false | _ => true end | VFlag n => negb (n =? 0) | _ => true
  end.
Definition is_none (v : val) : bool := match v with VNone => true | _ => false end.
Definition is_bool (v : val) : bool := match v with VBool _ => true | _ => false end.
(** [isinstance(v, int)]: Booleans are integers; flags too *)
Definition as_int (v : val) : option Z :=
  match v with VInt z => Some z | VBool true => Some 1%Z | VBool false => Some 0%Z | VFlag n => Some (Z.of_nat n) | _ => None end.
Definition is_str (v : val) : bool := match v with VStr _ => true | _ => false end.
(** [v is not None and (not isinstance(v, int) or v < least)] *)
Definition bad_int (least : Z) (v : val) : bool :=
  (negb (is_none v) && match as_int v with Some z => (z <? least)%Z | None => true end)%bool.
(** [v is not None and (not isinstance(v, float) or v < 0 or v > 1.0)] *)
Definition bad_ratio (v : val) : bool :=
  (negb (is_none v) && match v with VFloat q => (negb (Qle_bool 0 q) || negb (Qle_bool q 1))%bool | _ => true end)%bool.
Definition number (v : val) : option Q := match v with VFloat q => Some q | _ => option_map inject_Z (as_int v) end.
Definition bad_strings (v : val) : bool :=
  (negb (is_none v) && match v with VList l => negb (forallb is_str l) | _ => true end)%bool.
(** [isinstance(value, re.RegexFlag) or value == 0] *)
Definition flag_ok (v : val) : bool :=
  match v with VFlag _ => true | VFloat q => Qeq_bool q 0 | _ => match as_int v with Some z => (z =? 0)%Z | None => false end end.
Definition nulls_ok (v : val) : bool := match v with VDict d => forallb (fun kv => is_str (fst kv) && flag_ok (snd kv))%bool d | _ => false end.
Definition column_nulls_ok (v : val) : bool :=
  match v with
  | VDict d => forallb (fun kv => match as_int (fst kv) with Some _ => nulls_ok (snd kv) | None => false end) d
  | _ => false
  end.

Definition boolean_errs (path : list string) (g : access) : list err := when (negb (is_bool (g ["is_enabled"]))) path "is_enabled must be a Boolean".
Definition methods : list string := ["auto"; "fd"; "doane"; "scott"; "rice"; "sturges"; "sqrt"].
Definition bad_bins (v : val) : bool :=
  match v with
  | VNone => false
  | VStr s => negb (lmem methods s)
  | VList l => match l with [] => true | _ => negb (forallb (fun x => match x with VStr s => lmem methods s | _ => false end) l) end
  | _ => match as_int v with Some z => (z <? 1)%Z | None => true end
  end.
Definition hist_errs (path : list string) (g : access) : list err :=
  boolean_errs path g ++ when (bad_bins (g ["bin_count_or_method"])) path "bin_count_or_method" ++
  when (bad_int 1 (g ["num_quantiles"])) path "num_quantiles".
Definition mode_errs (path : list string) (g : access) : list err :=
  boolean_errs path g ++ when (bad_int 1 (g ["top_k_modes"])) path "top_k_modes".

Definition numeric_errs (path : list string) (g : access) : list err :=
  let on n := truthy (g [n; "is_enabled"]) in
  boolean_errs path g ++
  flat_map (fun n =>
    if String.eqb n "histogram_and_quantiles" then hist_errs (path ++ [n]) (sub n g)
    else if String.eqb n "mode" then mode_errs (path ++ [n]) (sub n g) else boolean_errs (path ++ [n]) (sub n g))
    ["histogram_and_quantiles"; "min"; "max"; "sum"; "mode"; "median"; "variance"; "skewness"; "kurtosis"; "median_abs_deviation";
     "bias_correction"; "num_zeros"; "num_negatives"] ++
  when (negb (on "sum") && on "variance") path "sum for variance" ++
  when ((negb (on "sum") || negb (on "variance")) && on "skewness") path "sum and variance for skewness" ++
  when ((negb (on "sum") || negb (on "variance") || negb (on "skewness")) && on "kurtosis") path "sum, variance and skewness for kurtosis" ++
  when (negb (on "histogram_and_quantiles") && on "median_abs_deviation") path "histogram for median absolute deviation" ++
  when (negb (on "histogram_and_quantiles") && on "mode") path "histogram for mode" ++
  when (negb (on "histogram_and_quantiles") && on "median") path "histogram for median".

Definition precision_errs (path : list string) (g : access) : list err :=
  let r := g ["sample_ratio"] in
  boolean_errs path g ++
  when (negb (is_none r) && match number r with Some _ => false | None => true end) path "sample_ratio must be a float" ++
  when (match number r with Some q => negb (Qle_bool 0 q) || negb (Qle_bool q 1) | None => false end)%bool path "sample_ratio between 0 and 1".
Definition float_errs (path : list string) (g : access) : list err :=
  numeric_errs path g ++ precision_errs (path ++ ["precision"]) (sub "precision" g).
Definition text_errs (path : list string) (g : access) : list err :=
  numeric_errs path g ++ boolean_errs (path ++ ["vocab"]) (sub "vocab" g) ++
  when (truthy (g ["num_zeros"; "is_enabled"])) path "num_zeros should always be disabled" ++
  when (truthy (g ["num_negatives"; "is_enabled"])) path "num_negatives should always be disabled".

Definition category_errs (path : list string) (g : access) : list err :=
  boolean_errs path g ++ when (bad_int 1 (g ["top_k_categories"])) path "top_k_categories" ++
  when (bad_int 0 (g ["max_sample_size_to_check_stop_condition"])) path "max_sample_size_to_check_stop_condition" ++
  when (bad_ratio (g ["stop_condition_unique_value_ratio"])) path "stop_condition_unique_value_ratio" ++
  when (xorb (is_none (g ["max_sample_size_to_check_stop_condition"])) (is_none (g ["stop_condition_unique_value_ratio"]))) path "both or none" ++
  when (bad_ratio (g ["cms_confidence"])) path "cms_confidence" ++
  when (bad_ratio (g ["cms_relative_error"])) path "cms_relative_error" ++
  when (truthy (g ["cms"]) && match as_int (g ["cms_max_num_heavy_hitters"]) with Some _ => false | None => true end) path "cms_max_num_heavy_hitters".
Definition correlation_errs (path : list string) (g : access) : list err :=
  boolean_errs path g ++
  when (negb (is_none (g ["columns"])) &&
        match g ["columns"] with VList l => (length l <=? 1) || negb (forallb is_str l) | _ => true end)%bool path "columns".
Definition hll_errs (path : list string) (g : access) : list err :=
  when (match as_int (g ["register_count"]) with Some z => (z <=? 0)%Z | None => true end) path "register_count" ++
  when (match as_int (g ["seed"]) with Some _ => false | None => true end) path "seed".
Definition unique_errs (path : list string) (g : access) : list err :=
  boolean_errs path g ++
  when (match g ["hashing_method"] with VStr s => negb (lmem ["full"; "hll"] s) | _ => true end) path "hashing_method" ++
  hll_errs (path ++ ["hll"]) (sub "hll" g).
(** The errors of the attributes are collected, but [super()._validate_helper] is returned. *)
Definition rows_errs (path : list string) (g : access) : list err :=
  let errors := boolean_errs path g ++ unique_errs (path ++ ["unique_counts"]) (sub "unique_count" g) ++
                boolean_errs (path ++ ["null_count"]) (sub "null_count" g) in
  boolean_errs path g.
Definition labeler_errs (path : list string) (g : access) : list err :=
  boolean_errs path g ++
  when (negb (is_none (g ["data_labeler_dirpath"])) && negb (is_str (g ["data_labeler_dirpath"]))) path "data_labeler_dirpath" ++
  when (negb (is_none (g ["data_labeler_object"])) && match g ["data_labeler_object"] with VLabeler _ => false | _ => true end) path "data_labeler_object" ++
  when (bad_int 1 (g ["max_sample_size"])) path "max_sample_size".
Definition text_profiler_errs (path : list string) (g : access) : list err :=
  boolean_errs path g ++ when (negb (is_bool (g ["is_case_sensitive"]))) path "is_case_sensitive" ++
  when (bad_strings (g ["stop_words"])) path "stop_words" ++ when (bad_int 1 (g ["top_k_chars"])) path "top_k_chars" ++
  when (bad_int 1 (g ["top_k_words"])) path "top_k_words".

Definition structured_errs (path : list string) (g : access) : list err :=
  let r := g ["sampling_ratio"] in
  boolean_errs (path ++ ["multiprocess"]) (sub "multiprocess" g) ++ numeric_errs (path ++ ["int"]) (sub "int" g) ++
  float_errs (path ++ ["float"]) (sub "float" g) ++ boolean_errs (path ++ ["datetime"]) (sub "datetime" g) ++
  text_errs (path ++ ["text"]) (sub "text" g) ++ boolean_errs (path ++ ["order"]) (sub "order" g) ++
  category_errs (path ++ ["category"]) (sub "category" g) ++ labeler_errs (path ++ ["data_labeler"]) (sub "data_labeler" g) ++
  correlation_errs (path ++ ["correlation"]) (sub "correlation" g) ++
  boolean_errs (path ++ ["chi2_homogeneity"]) (sub "chi2_homogeneity" g) ++
  boolean_errs (path ++ ["null_replication_metrics"]) (sub "null_replication_metrics" g) ++
  rows_errs (path ++ ["row_statistics"]) (sub "row_statistics" g) ++
  when (negb (is_none (g ["null_values"])) && negb (nulls_ok (g ["null_values"]))) path "null_values" ++
  when (negb (is_none (g ["column_null_values"])) && negb (column_nulls_ok (g ["column_null_values"]))) path "column_null_values" ++
  when (is_none r) path "sampling_ratio may not be None" ++
  when (negb (is_none r) && match number r with Some _ => false | None => true end) path "sampling_ratio must be a number" ++
  when (match number r with Some q => negb (negb (Qle_bool q 0) && Qle_bool q 1) | None => false end)%bool path "sampling_ratio" ++
  when (negb (truthy (g ["category"; "is_enabled"])) && truthy (g ["chi2_homogeneity"; "is_enabled"])) path "categories for chi-squared".
Definition unstructured_errs (path : list string) (g : access) : list err :=
  text_profiler_errs (path ++ ["text"]) (sub "text" g) ++ labeler_errs (path ++ ["data_labeler"]) (sub "data_labeler" g).
Definition profiler_errs (g : access) : list err :=
  structured_errs ["ProfilerOptions"; "structured_options"] (sub "structured_options" g) ++
  unstructured_errs ["ProfilerOptions"; "unstructured_options"] (sub "unstructured_options" g).

(** ProfilerOptions.validate *)
Definition validate (o : opt) : list err := profiler_errs (fun p => match get o p with Some v => v | None => VNone end).
