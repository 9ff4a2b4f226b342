(** Model of saving profiles as JSON and loading them again: profilers/json_encoder.py, profilers/json_decoder.py, and the methods
    load_from_dict of profilers/profile_builder.py (397-423, 890-915, 2110-2144), base_column_profilers.py (251-287),
    column_profile_compilers.py (224-252), categorical_column_profile.py (347-363), order_column_profile.py (317-342),
    data_labeler_column_profile.py (310-345), datetime_column_profile.py (134-157), int_column_profile.py (75-92),
    float_column_profile.py (162-194), text_column_profile.py (200-215), profiler_options.py (150-170, 1306-1333), and
    numerical_column_stats.py, _reformat_numeric_stats_types_on_serialized_profiles (428-478).

    Python values are trees; numpy's integers and floating-point numbers are not told apart from Python's, a defaultdict or
    OrderedDict not from a dict.  An object is its class and its attributes; all of them are in the file, so that nothing is left of
    what the constructor sets.  Every attribute named in a dictionary of calculations is one of the class's methods.  Values kept by an
    order profile as numbers are numbers.  A labeler of the library is loaded back as itself. *)
From Coq Require Import ZArith QArith.
From Verif Require Import PyCommon PyDict PyString.
Local Open Scope nat_scope.
Local Open Scope string_scope.
Local Open Scope list_scope.

Inductive py :=
  | PNone | PBool (b : bool) | PInt (z : Z) | PFlag (z : Z)   (* re.RegexFlag *)
  | PFlt (q : option Q)                                       (* None: NaN *)
  | PStr (s : string) | PTime (s : string)                    (* a timestamp, by its isoformat *)
  | PFun (s : string)                                         (* a function or type, by its name *)
  | PLab (loc : option string)                                (* a data labeler, by _default_model_loc *)
  | PAlien                                                    (* anything else: a HyperLogLog, a count-min sketch *)
  | PList (l : list py) | PSet (l : list py) | PArr (l : list py)
  | PDict (d : list (py * py)) | PObj (c : string) (a : list (string * py)).

Inductive json :=
  | JNull | JBool (b : bool) | JInt (z : Z) | JFlt (q : option Q) | JStr (s : string) | JList (l : list json)
  | JObj (d : list (string * json)).

Section MapM.
  Context {A B : Type}.
  Variable f : A -> result B.
  Fixpoint mapM (l : list A) : result (list B) :=
    match l with [] => Ok [] | x :: r => bind (f x) (fun y => bind (mapM r) (fun t => Ok (y :: t))) end.
End MapM.

(** Of equal keys json.load keeps the last value (at the place of the first) *)
Definition dedup {K V} {E : EqDecB K} (l : list (K * V)) : dict K V := fold_left (fun d kv => dset d (fst kv) (snd kv)) l [].

Section Json.
  (** [str] of an integer, [int] of a string (None: ValueError), [repr] of a float *)
  Variable dec : Z -> string.
  Variable parse : string -> option Z.
  Variable frepr : option Q -> string.

  (** The keys of json.dump *)
  Definition key_of (k : py) : result string :=
    match k with
    | PStr s => Ok s
    | PInt z | PFlag z => Ok (dec z)
    | PFlt q => Ok (frepr q)
    | PBool b => Ok (if b then "true" else "false")
    | PNone => Ok "null"
    | _ => Err TypeError
    end.

  (** json.dump with ProfileEncoder.default (json_encoder.py 22-70), read back by json.load *)
  Fixpoint enc (v : py) : result json :=
    match v with
    | PNone => Ok JNull
    | PBool b => Ok (JBool b)
    | PInt z | PFlag z => Ok (JInt z)
    | PFlt q => Ok (JFlt q)
    | PStr s | PTime s | PFun s => Ok (JStr s)
    | PLab (Some s) => Ok (JObj [("from_library", JStr s)])
    | PLab None => Err ValueError
    | PAlien => Err TypeError
    | PList l | PSet l | PArr l => bind (mapM enc l) (fun x => Ok (JList x))
    | PDict d =>
        bind (mapM (fun kv => bind (key_of (fst kv)) (fun k => bind (enc (snd kv)) (fun x => Ok (k, x)))) d)
          (fun x => Ok (JObj (dedup x)))
    | PObj c a =>
        if String.eqb c "UnstructuredProfiler" then Err NotImplementedErr
        else bind (mapM (fun kv => bind (enc (snd kv)) (fun x => Ok (fst kv, x))) a)
               (fun x => Ok (JObj [("class", JStr c); ("data", JObj (dedup x))]))
    end.

  (** What json.load gives *)
  Fixpoint plain (j : json) : py :=
    match j with
    | JNull => PNone
    | JBool b => PBool b
    | JInt z => PInt z
    | JFlt q => PFlt q
    | JStr s => PStr s
    | JList l => PList (map plain l)
    | JObj d => PDict (map (fun kx => (PStr (fst kx), plain (snd kx))) d)
    end.

  (** How load_from_dict treats an attribute *)
  Inductive conv :=
    | CPlain          (* as json.load gives it *)
    | CArr            (* np.array unless None *)
    | CSets           (* a set for every key *)
    | CInts           (* keys by [int] *)
    | CIntsOpt        (* keys by [int] unless None *)
    | CNames          (* keys by [int] if that works for all *)
    | CTime           (* pd.Timestamp unless None *)
    | CFlags          (* re.RegexFlag unless 0 *)
    | CHist           (* arrays below "histogram" *)
    | CHists          (* ... for every key *)
    | CFuns           (* a method for every key *)
    | CStore          (* str or np.float64 *)
    | CLab.           (* reload_labeler_from_options_or_get_new, profiler_utils.py 853-909 *)

  Definition to_arr (j : json) : result py :=
    match j with JNull => Ok PNone | JList l => Ok (PArr (map plain l)) | _ => Err TypeError end.
  Definition over {B} (f : string -> json -> result B) (d : list (string * json)) : result (list B) :=
    mapM (fun kx => f (fst kx) (snd kx)) d.
  Definition to_ints (d : list (string * json)) : result (list (Z * py)) :=
    bind (over (fun k x => match parse k with Some z => Ok (z, plain x) | None => Err ValueError end) d) (fun l => Ok (dedup l)).
  Definition int_dict (l : list (Z * py)) : py := PDict (map (fun zv => (PInt (fst zv), snd zv)) l).
  Definition to_hist (j : json) : result py :=
    match j with
    | JObj d =>
        bind (over (fun k x =>
          if String.eqb k "histogram" then
            match x with
            | JObj h => bind (over (fun k' y => bind (to_arr y) (fun v => Ok (PStr k', v))) h) (fun h' => Ok (PStr k, PDict h'))
            | _ => Err AttributeError
            end
          else Ok (PStr k, plain x)) d) (fun d' => Ok (PDict d'))
    | _ => Err TypeError
    end.

  Definition convert (c : conv) (j : json) : result py :=
    match c, j with
    | CPlain, _ => Ok (plain j)
    | CArr, _ => to_arr j
    | CSets, JObj d =>
        bind (over (fun k x => match x with JList l => Ok (PStr k, PSet (map plain l)) | _ => Err TypeError end) d)
          (fun d' => Ok (PDict d'))
    | CInts, JObj d => bind (to_ints d) (fun l => Ok (int_dict l))
    | CIntsOpt, JNull => Ok PNone
    | CIntsOpt, JObj d => bind (to_ints d) (fun l => Ok (int_dict l))
    | CNames, JObj d => match to_ints d with Ok l => Ok (int_dict l) | Err _ => Ok (plain j) end
    | CTime, JNull => Ok PNone
    | CTime, JStr s => Ok (PTime s)
    | CFlags, JObj d =>
        bind (over (fun k x => match x with
                               | JInt z => Ok (PStr k, if Z.eqb z 0 then PInt 0 else PFlag z)
                               | _ => Err ValueError
                               end) d) (fun d' => Ok (PDict d'))
    | CHist, _ => to_hist j
    | CHists, JObj d => bind (over (fun k x => bind (to_hist x) (fun v => Ok (PStr k, v))) d) (fun d' => Ok (PDict d'))
    | CFuns, JObj d =>
        bind (over (fun k x => match x with JStr s => Ok (PStr k, PFun s) | _ => Err TypeError end) d) (fun d' => Ok (PDict d'))
    | CStore, JStr s => Ok (PFun (if String.eqb s "str" then "str" else "float64"))
    | CStore, _ => Ok (PFun "float64")
    | CLab, JNull => Ok PNone
    | CLab, JObj [("from_library", JStr s)] => Ok (PLab (Some s))
    | _, _ => Err TypeError
    end.

  (** ** Profiles of a column *)
  Definition profile_classes : list string :=
    ["CategoricalColumn"; "FloatColumn"; "IntColumn"; "DateTimeColumn"; "OrderColumn"; "DataLabelerColumn"; "TextColumn"].
  (** [if "__calculations" in attr] *)
  Definition calculations : list string :=
    ["_NumericStatsMixin__calculations"; "_IntColumn__calculations"; "_FloatColumn__calculations"; "_TextColumn__calculations";
     "_DateTimeColumn__calculations"; "_OrderColumn__calculations"; "_CategoricalColumn__calculations"; "_DataLabelerColumn__calculations"].
  Definition numeric_class (c : string) : bool := lmem ["IntColumn"; "FloatColumn"; "TextColumn"] c.
  Definition profile_conv (c k : string) : conv :=
    if lmem calculations k then CFuns
    else if (numeric_class c && String.eqb k "_stored_histogram")%bool then CHist
    else if (numeric_class c && String.eqb k "histogram_methods")%bool then CHists
    else if (String.eqb c "DateTimeColumn" && lmem ["_dt_obj_min"; "_dt_obj_max"] k)%bool then CTime
    else if (String.eqb c "OrderColumn" && String.eqb k "_data_store_type")%bool then CStore
    else if (String.eqb c "DataLabelerColumn" && String.eqb k "data_labeler")%bool then CLab
    else if (String.eqb c "DataLabelerColumn" && String.eqb k "_reverse_label_mapping")%bool then CIntsOpt
    else if (String.eqb c "DataLabelerColumn" && String.eqb k "_sum_predictions")%bool then CArr
    else CPlain.

  (** [load_...(serialized_json)]: the class must be one of those known *)
  Definition load_object (known : list string) (f : string -> string -> json -> result py) (j : json) : result py :=
    match j with
    | JObj [("class", JStr c); ("data", JObj a)] =>
        if lmem known c then bind (over (fun k x => bind (f c k x) (fun v => Ok (k, v))) a) (fun a' => Ok (PObj c a'))
        else Err ValueError
    | _ => Err KeyError
    end.
  Definition load_profile (j : json) : result py := load_object profile_classes (fun c k x => convert (profile_conv c k) x) j.

  (** ** Compilers *)
  Definition compiler_types (c : string) : list string :=
    if String.eqb c "ColumnPrimitiveTypeProfileCompiler" then ["datetime"; "int"; "float"; "text"]
    else if String.eqb c "ColumnStatsProfileCompiler" then ["order"; "category"]
    else ["data_labeler"].
  Definition compiler_classes : list string :=
    ["ColumnDataLabelerCompiler"; "ColumnPrimitiveTypeProfileCompiler"; "ColumnStatsProfileCompiler"].
  Definition load_compiler (j : json) : result py :=
    load_object compiler_classes (fun c k x =>
      if String.eqb k "_profiles" then
        match x with
        | JObj d =>
            bind (over (fun t y => bind (load_profile y) (fun v => Ok (t, v))) d) (fun d' =>
            Ok (PDict (flat_map (fun t => match dget d' t with Some v => [(PStr t, v)] | None => [] end) (compiler_types c))))
        | _ => Err AttributeError
        end
      else Ok (plain x)) j.

  (** ** Options *)
  Definition option_classes : list string :=
    ["BooleanOption"; "HistogramAndQuantilesOption"; "ModeOption"; "BaseInspectorOptions"; "NumericalOptions"; "IntOptions";
     "PrecisionOptions"; "FloatOptions"; "TextOptions"; "DateTimeOptions"; "OrderOptions"; "CategoricalOptions"; "CorrelationOptions";
     "UniqueCountOptions"; "HyperLogLogOptions"; "RowStatisticsOptions"; "DataLabelerOptions"; "TextProfilerOptions";
     "StructuredOptions"; "UnstructuredOptions"; "ProfilerOptions"].
  Definition is_labeler_attr (c k : string) : bool := (String.eqb c "DataLabelerOptions" && String.eqb k "data_labeler_object")%bool.
  (** [isinstance(value, dict) and "class" in value] *)
  Definition has_class (j : json) : bool := match j with JObj d => dmem d "class" | _ => false end.
  Fixpoint load_option (j : json) : result py :=
    match j with
    | JObj [("class", JStr c); ("data", JObj a)] =>
        if lmem option_classes c then
          bind (mapM (fun kx =>
            bind (if is_labeler_attr c (fst kx) then convert CLab (snd kx)
                  else if has_class (snd kx) then load_option (snd kx) else Ok (plain (snd kx)))
              (fun v => Ok (fst kx, v))) a) (fun a' => Ok (PObj c a'))
        else Err ValueError
    | JObj _ => Err ValueError   (* value["class"] is no class known, or value["data"] is missing *)
    | _ => Err TypeError
    end.

  (** StructuredOptions._validate_helper, profiler_options.py 1552-1585; the other options are not looked at *)
  Definition flag_ok (v : py) : bool :=
    match v with
    | PFlag _ => true
    | PInt z => Z.eqb z 0
    | PBool b => negb b
    | PFlt (Some q) => Qeq_bool q 0
    | _ => false
    end.
  Definition null_dict_ok (v : py) : bool :=
    match v with
    | PDict d => forallb (fun kv => match fst kv with PStr _ => flag_ok (snd kv) | _ => false end) d
    | _ => false
    end.
  Definition validate_nulls (o : py) : result unit :=
    match o with
    | PObj _ a =>
        let ok1 := match dget a "null_values" with None | Some PNone => true | Some v => null_dict_ok v end in
        let ok2 := match dget a "column_null_values" with
                   | None | Some PNone => true
                   | Some (PDict d) =>
                       forallb (fun kv => match fst kv with PInt _ | PBool _ => null_dict_ok (snd kv) | _ => false end) d
                   | Some _ => false
                   end in
        if (ok1 && ok2)%bool then Ok tt else Err ValueError
    | _ => Err AttributeError
    end.

  (** ** A column *)
  Definition load_column (j : json) : result py :=
    load_object ["StructuredColProfiler"] (fun _ k x =>
      if String.eqb k "profiles" then
        match x with
        | JObj d => bind (over (fun t y => bind (load_compiler y) (fun v => Ok (PStr t, v))) d) (fun d' => Ok (PDict d'))
        | _ => Err AttributeError
        end
      else if String.eqb k "options" then match x with JNull => Ok PNone | _ => load_option x end
      else if String.eqb k "_null_values" then convert CFlags x
      else if String.eqb k "null_types_index" then convert CSets x
      else Ok (plain x)) j.

  (** ** The profiler: load_profiler, StructuredProfiler.load_from_dict.  The constructor validates the options. *)
  Definition profiler_attr (k : string) (x : json) : result py :=
    if lmem ["chi2_matrix"; "correlation_matrix"] k then convert CArr x
    else if String.eqb k "_col_name_to_idx" then convert CNames x
    else if String.eqb k "hashed_row_object" then convert CInts x
    else if String.eqb k "options" then bind (load_option x) (fun o => bind (validate_nulls o) (fun _ => Ok o))
    else if String.eqb k "_profile" then
      match x with JList l => bind (mapM load_column l) (fun l' => Ok (PList l')) | _ => Err TypeError end
    else Ok (plain x).
  Definition load (j : json) : result py := load_object ["StructuredProfiler"] (fun _ k x => profiler_attr k x) j.

  (** [save(path, "json")] and then [load(path)] *)
  Definition reload (p : py) : result py := bind (enc p) load.
End Json.
