(** Model of setting options: profilers/profiler_options.py, BaseOption._set_helper (37-100), BaseOption.set (103-117),
    NumericalOptions.is_numeric_stats_enabled and properties (407-478), TextOptions.is_numeric_stats_enabled (811-860),
    ProfilerOptions (1684-1829), and the defaults of the option classes.

    An option object is a class with attributes in the order of [__dict__]; an attribute is a value ([Val]) or an option object.
    Names of options are given by their components between dots: [option.split(".", 1)] takes one component at a time.
    Not modelled: values that are themselves option objects given to [set]. *)
From Coq Require Import ZArith QArith.
From Verif Require Import PyCommon PyDict PyString.
Local Open Scope nat_scope.
Local Open Scope string_scope.
Local Open Scope list_scope.

Inductive val :=
| VNone | VBool (b : bool) | VInt (z : Z) | VFloat (q : Q) | VStr (s : string) | VFlag (n : nat) | VLabeler (n : nat)
| VList (l : list val) | VDict (d : list (val * val)) | VOther (n : nat).

Inductive cls :=
| CBoolean | CHist | CMode | CInt | CFloat | CText | CPrecision | CDateTime | COrder | CCategory | CCorrelation | CHll | CUnique
| CRows | CLabeler | CTextProfiler | CStructured | CUnstructured | CProfiler.

Inductive opt := Val (v : val) | Opt (c : cls) (a : list (string * opt)).

Definition numeric (c : cls) : bool := match c with CInt | CFloat | CText => true | _ => false end.
(** The statistics that is_numeric_stats_enabled stands for *)
Definition stat_names (c : cls) : list string :=
  match c with
  | CText => ["min"; "max"; "mode"; "median"; "sum"; "variance"; "skewness"; "kurtosis"; "median_abs_deviation"; "histogram_and_quantiles"]
  | _ => ["min"; "max"; "mode"; "median"; "sum"; "variance"; "skewness"; "kurtosis"; "median_abs_deviation"; "num_zeros"; "num_negatives";
          "histogram_and_quantiles"]
  end.
(** [option_name in self.properties] *)
Definition is_virtual (c : cls) (n : string) : bool := (numeric c && String.eqb n "is_numeric_stats_enabled")%bool.
Definition has (c : cls) (a : dict string opt) (n : string) : bool := (dmem a n || is_virtual c n)%bool.

(** [self.min.is_enabled = value] and so on *)
Fixpoint set_stats (names : list string) (a : dict string opt) (v : val) : dict string opt * option exn :=
  match names with
  | [] => (a, None)
  | n :: r =>
      match dget a n with
      | Some (Opt c s) => set_stats r (dset a n (Opt c (dset s "is_enabled" (Val v)))) v
      | _ => (a, Some AttributeError)
      end
  end.

(** The component looked for, what follows it, and whether a star precedes it *)
Definition target (key : list string) : result (bool * string * list string) :=
  match key with
  | [] => Err IndexError
  | n :: rest =>
      if String.eqb n "*"
      then match rest with [] => Err IndexError | m :: rest' => Ok (true, m, rest') end
      else Ok (false, n, rest)
  end.

(** [f] on the attribute of that name; [f] on all attributes that are option objects, up to the first error *)
Section Walk.
  Variable f : opt -> opt * option exn.
  Fixpoint at_name (n : string) (l : list (string * opt)) : list (string * opt) * option exn :=
    match l with
    | [] => ([], None)
    | (k, s) :: r =>
        if String.eqb k n then let '(s', e) := f s in ((k, s') :: r, e)
        else let '(r', e) := at_name n r in ((k, s) :: r', e)
    end.
  Fixpoint descend (l : list (string * opt)) : list (string * opt) * option exn :=
    match l with
    | [] => ([], None)
    | (k, s) :: r =>
        match s with
        | Val _ => let '(r', e) := descend r in ((k, s) :: r', e)
        | Opt _ _ =>
            let '(s', e) := f s in
            match e with
            | Some _ => ((k, s') :: r, e)
            | None => let '(r', e') := descend r in ((k, s') :: r', e')
            end
        end
    end.
End Walk.

(** BaseOption._set_helper for one option: the options afterwards (also after an error), and the error if any *)
Fixpoint set_key (o : opt) (key : list string) (v : val) {struct o} : opt * option exn :=
  match o with
  | Val _ => (o, None)
  | Opt c a =>
      match target key with
      | Err e => (o, Some e)
      | Ok (star, n, rest) =>
          if has c a n
          then match dget a n with
               | Some (Opt _ _) =>
                   match rest with
                   | [] => (o, Some IndexError)
                   | _ => let '(a', e) := at_name (fun s => set_key s rest v) n a in (Opt c a', e)
                   end
               | _ =>
                   match rest with
                   | _ :: _ => (o, Some AttributeError)
                   | [] =>
                       if is_virtual c n
                       then let '(a', e) := set_stats (stat_names c) a v in (Opt c a', e)
                       else (Opt c (dset a n (Val v)), None)
                   end
               end
          else if (star || match rest with [] => false | _ => true end)%bool
          then let '(a', e) := descend (fun s => set_key s key v) a in (Opt c a', e)
          else (o, Some AttributeError)
      end
  end.

(** BaseOption.set: the options one after the other *)
Fixpoint set_all (o : opt) (kvs : list (list string * val)) : opt * option exn :=
  match kvs with
  | [] => (o, None)
  | (k, v) :: r => match set_key o k v with (o', None) => set_all o' r | (o', Some e) => (o', Some e) end
  end.

(** ProfilerOptions.set.  [overlap_opt in opt] looks for a piece of text. *)
Fixpoint joined (key : list string) : string :=
  match key with [] => "" | [n] => n | n :: r => String.append n (String.append "." (joined r)) end.
Fixpoint is_prefix (p s : string) : bool :=
  match p, s with
  | String.EmptyString, _ => true
  | String.String a p', String.String b s' => (Ascii.eqb a b && is_prefix p' s')%bool
  | _, _ => false
  end.
Fixpoint contains (p s : string) : bool :=
  (is_prefix p s || match s with String.String _ s' => contains p s' | String.EmptyString => false end)%bool.
Definition overlaps (key : list string) : bool :=
  existsb (fun p => contains p (joined key)) ["data_labeler_object"; "data_labeler_dirpath"; "text.is_enabled"; "text.vocab"].
Definition specified (key : list string) : bool :=
  match key with n :: _ => lmem ["*"; "structured_options"; "unstructured_options"] n | [] => false end.
Definition profiler_set (o : opt) (kvs : list (list string * val)) : opt * option exn :=
  if existsb (fun kv => (negb (specified (fst kv)) && overlaps (fst kv))%bool) kvs then (o, Some ValueError) else set_all o kvs.

(** The defaults *)
Definition on : opt := Opt CBoolean [("is_enabled", Val (VBool true))].
Definition off : opt := Opt CBoolean [("is_enabled", Val (VBool false))].
Definition numeric_defaults : list (string * opt) :=
  [("min", on); ("max", on); ("mode", Opt CMode [("top_k_modes", Val (VInt 5)); ("is_enabled", Val (VBool true))]); ("median", on);
   ("sum", on); ("variance", on); ("skewness", on); ("kurtosis", on); ("median_abs_deviation", on); ("num_zeros", on);
   ("num_negatives", on);
   ("histogram_and_quantiles",
     Opt CHist [("bin_count_or_method", Val (VStr "auto")); ("num_quantiles", Val (VInt 1000)); ("is_enabled", Val (VBool true))]);
   ("bias_correction", on); ("is_enabled", Val (VBool true))].
Definition int_default : opt := Opt CInt numeric_defaults.
Definition float_default : opt :=
  Opt CFloat (numeric_defaults ++ [("precision", Opt CPrecision [("sample_ratio", Val VNone); ("is_enabled", Val (VBool true))])]).
Definition text_default : opt :=
  Opt CText (dset (dset (numeric_defaults ++ [("vocab", on)]) "num_zeros" off) "num_negatives" off).
Definition category_default : opt :=
  Opt CCategory
    [("is_enabled", Val (VBool true)); ("top_k_categories", Val VNone); ("max_sample_size_to_check_stop_condition", Val VNone);
     ("stop_condition_unique_value_ratio", Val VNone); ("cms", Val (VBool false)); ("cms_confidence", Val (VFloat (95 # 100)));
     ("cms_relative_error", Val (VFloat (1 # 100))); ("cms_max_num_heavy_hitters", Val (VInt 5000))].
Definition labeler_default : opt :=
  Opt CLabeler
    [("is_enabled", Val (VBool true)); ("data_labeler_dirpath", Val VNone); ("max_sample_size", Val VNone);
     ("data_labeler_object", Val VNone)].
Definition rows_default : opt :=
  Opt CRows
    [("is_enabled", Val (VBool true));
     ("unique_count", Opt CUnique [("is_enabled", Val (VBool true)); ("hashing_method", Val (VStr "full"));
                                   ("hll", Opt CHll [("seed", Val (VInt 0)); ("register_count", Val (VInt 15))])]);
     ("null_count", on)].
Definition structured_default : opt :=
  Opt CStructured
    [("multiprocess", on); ("int", int_default); ("float", float_default);
     ("datetime", Opt CDateTime [("is_enabled", Val (VBool true))]); ("text", text_default);
     ("order", Opt COrder [("is_enabled", Val (VBool true))]); ("category", category_default); ("data_labeler", labeler_default);
     ("correlation", Opt CCorrelation [("is_enabled", Val (VBool false)); ("columns", Val VNone)]); ("chi2_homogeneity", on);
     ("null_replication_metrics", off); ("row_statistics", rows_default); ("null_values", Val VNone);
     ("column_null_values", Val VNone); ("sampling_ratio", Val (VFloat (2 # 10)))].
Definition unstructured_default : opt :=
  Opt CUnstructured
    [("text", Opt CTextProfiler
       [("is_enabled", Val (VBool true)); ("is_case_sensitive", Val (VBool true)); ("stop_words", Val VNone);
        ("top_k_chars", Val VNone); ("top_k_words", Val VNone); ("vocab", on); ("words", on)]);
     ("data_labeler", labeler_default)].
Definition profiler_default : opt :=
  Opt CProfiler [("structured_options", structured_default); ("unstructured_options", unstructured_default); ("presets", Val VNone)].

(** The presets; an unknown name is refused (plugins are not modelled). *)
Definition presets (name : string) : result (list (list (list string * val))) :=
  if String.eqb name "complete" then Ok [[(["*"; "is_enabled"], VBool true)]]
  else if String.eqb name "data_types"
  then Ok [[(["*"; "is_enabled"], VBool false)]; [(["*"; "data_labeler"; "is_enabled"], VBool true)]]
  else if String.eqb name "numeric_stats_disabled"
  then Ok [[(["*"; "int"; "is_numeric_stats_enabled"], VBool false)]; [(["*"; "float"; "is_numeric_stats_enabled"], VBool false)];
           [(["structured_options"; "text"; "is_numeric_stats_enabled"], VBool false)]]
  else if String.eqb name "lower_memory_sketching"
  then Ok [[(["row_statistics"; "unique_count"; "hashing_method"], VStr "hll")];
           [(["structured_options"; "category"; "max_sample_size_to_check_stop_condition"], VInt 5000)];
           [(["structured_options"; "category"; "stop_condition_unique_value_ratio"], VFloat (5 # 10))]]
  else Err ValueError.
Definition run_preset (name : string) : result opt :=
  match presets name with
  | Err e => Err e
  | Ok l =>
      fold_left (fun r kvs => match r with Err e => Err e | Ok o => match profiler_set o kvs with (o', None) => Ok o' | (_, Some e) => Err e end end)
        l (Ok (match profiler_default with Opt c a => Opt c (dset a "presets" (Val (VStr name))) | x => x end))
  end.
