(** Model of saving profiles as pickles and loading them again: profilers/profile_builder.py, BaseProfiler.__init__ (686-758),
    UnstructuredProfiler.__init__ (1242-1280), StructuredProfiler.__init__ (1632-1687), _remove_data_labelers (999-1054),
    _restore_data_labelers (1056-1110), _pkl_save_helper (1112-1138), load (1169-1232), UnstructuredProfiler.save (1593-1622),
    StructuredProfiler.save (3041-3072), report (2054-2107); profilers/graph_profiler.py, save and load (531-576).

    A profiler is its class, its attributes (name to value), its options, and what its [_profile] holds.  Of the values only
    None, numbers and empty containers are told apart; [VDat n] stands for any other value, with [n] naming it.  The data
    labelers are kept apart from the attribute "_profile", one for each column (or one for the profile of a text), since saving takes
    them out and loading puts others in.  A pickled value is loaded back as an equal value (the contract of pickle).  What
    loading a JSON file gives is an arbitrary function; whether the file can be opened for writing is an input. *)
From Coq Require Import ZArith QArith.
From Verif Require Import PyCommon PyDict PyString SizeModel.
Local Open Scope nat_scope.
Local Open Scope string_scope.
Local Open Scope list_scope.

Inductive cls := Structured | Unstructured.
Inductive val := VNone | VNum (q : Q) | VEmpty | VDat (n : nat).

(** A data labeler: the placeholder (an empty BaseDataLabeler), one loaded from disk (the default one of the class, or the one in a
    directory), or an object made by the user. *)
Inductive labeler := Placeholder | FromDisk (c : cls) (dir : option nat) | Custom (n : nat).

(** The options: data_labeler.is_enabled, .data_labeler_object, .data_labeler_dirpath, null_replication_metrics.is_enabled,
    sampling_ratio, and all others. *)
Record opts := mkOpts
  { o_enabled : bool; o_labeler : option labeler; o_dir : option nat; o_nullrep : bool; o_ratio : Q; o_rest : val }.

(** The place of the data labeler in the profile of a column: no compiler for labels (or, of a text, no profile yet), a compiler
    without "data_labeler", or one with the labeler (which may be None). *)
Inductive cell := NoCompiler | NoLabeler | Lab (l : option labeler).

(** [p_shape]: whether [_profile] is a list of columns (Structured) or the compiler of a text; it is the class of the profiler
    unless a file was loaded by the wrong class. *)
Record prof := mkProf { p_cls : cls; p_attrs : dict string val; p_opts : opts; p_shape : cls; p_cells : list cell }.

Definition getattr (p : prof) (k : string) : result val :=
  match dget (p_attrs p) k with Some v => Ok v | None => Err AttributeError end.
Definition setattr (p : prof) (k : string) (v : val) : prof :=
  mkProf (p_cls p) (dset (p_attrs p) k v) (p_opts p) (p_shape p) (p_cells p).
Definition set_opts (p : prof) (o : opts) : prof := mkProf (p_cls p) (p_attrs p) o (p_shape p) (p_cells p).
Definition set_cells (p : prof) (c : list cell) : prof := mkProf (p_cls p) (p_attrs p) (p_opts p) (p_shape p) c.
Definition set_labeler (o : opts) (l : option labeler) : opts :=
  mkOpts (o_enabled o) l (o_dir o) (o_nullrep o) (o_ratio o) (o_rest o).
Definition set_enabled (o : opts) (b : bool) : opts :=
  mkOpts b (o_labeler o) (o_dir o) (o_nullrep o) (o_ratio o) (o_rest o).

(** The options made by [StructuredOptions()] and [UnstructuredOptions()] with the labeler switched off as in load, 1227-1228 *)
Definition load_options : opts := mkOpts false None None false (1 # 5) VEmpty.

(** The attributes set by the constructors, 726-738, 1272-1275, 1666-1678 *)
Definition base_attrs (per_update min_true : val) (ratio : Q) : dict string val :=
  [("encoding", VNone); ("file_type", VNone); ("_samples_per_update", per_update); ("_min_true_samples", min_true);
   ("total_samples", VNum 0); ("times", VEmpty); ("_sampling_ratio", VNum ratio); ("_min_sample_size", VNum 5000)].
Definition new_attrs (c : cls) (per_update min_true : val) (ratio : Q) : dict string val :=
  match c with
  | Structured =>
      base_attrs per_update min_true ratio ++
      [("row_has_null_count", VNum 0); ("row_is_null_count", VNum 0); ("hashed_row_object", VEmpty); ("_profile", VEmpty);
       ("_col_name_to_idx", VEmpty); ("correlation_matrix", VNone); ("chi2_matrix", VNone); ("_null_replication_metrics", VNone)]
  | Unstructured =>
      base_attrs per_update min_true (1 # 5) ++
      [("_empty_line_count", VNum 0); ("memory_size", VNum 0); ("sample", VEmpty); ("_profile", VNone)]
  end.

(** What [save] writes, 1604-1616 and 3053-3067, without the options (written as well). *)
Definition saved_names (c : cls) : list string :=
  match c with
  | Structured =>
      ["total_samples"; "encoding"; "file_type"; "row_has_null_count"; "row_is_null_count"; "hashed_row_object";
       "_samples_per_update"; "_min_true_samples"; "chi2_matrix"; "_profile"; "_col_name_to_idx"; "times"]
  | Unstructured =>
      ["total_samples"; "sample"; "encoding"; "file_type"; "_samples_per_update"; "_min_true_samples"; "_empty_line_count";
       "memory_size"; "_profile"; "times"]
  end.
Definition class_name (c : cls) : string := match c with Structured => "StructuredProfiler" | Unstructured => "UnstructuredProfiler" end.

(** A file: a pickled dictionary (its "profiler_class" if it has one, its values, and its options with the labelers if it has
    them: the file of a graph profile has neither), a JSON text, or anything else. *)
Inductive file :=
  | FPickle (c : option string) (d : dict string val) (o : option (opts * cls * list cell))
  | FJson (n : nat)
  | FOther.

Section Disk.
  (** [DataLabeler(labeler_type, dirpath)]: None if it raises *)
  Variable disk : cls -> option nat -> option labeler.
  (** [load_profiler(json.load(f))] *)
  Variable from_json : nat -> result prof.

  (** The constructors; without data *)
  Definition new (c : cls) (per_update min_true : val) (o : opts) : prof :=
    let o' := match o_enabled o, o_labeler o with
              | true, None => match disk c (o_dir o) with Some l => set_labeler o (Some l) | None => set_enabled o false end
              | _, _ => o
              end in
    mkProf c (new_attrs c per_update min_true (o_ratio o)) o' c (match c with Structured => [] | Unstructured => [NoCompiler] end).

  (** _remove_data_labelers: the loop, 1035-1053 *)
  Fixpoint remove_cells (use : bool) (lab : option labeler) (cs : list cell) : list cell * result (option labeler) :=
    match cs with
    | [] => ([], Ok lab)
    | NoCompiler :: r => let '(r', x) := remove_cells use lab r in (NoCompiler :: r', x)
    | NoLabeler :: r =>
        match use, lab with
        | true, None => (NoLabeler :: r, Err KeyError)
        | _, _ => let '(r', x) := remove_cells use lab r in (NoLabeler :: r', x)
        end
    | Lab l :: r =>
        let lab' := match use, lab with true, None => l | _, _ => lab end in
        let '(r', x) := remove_cells use lab' r in (Lab (Some Placeholder) :: r', x)
    end.
  Definition remove (p : prof) : prof * result (option labeler) :=
    let o := p_opts p in
    let lab := if o_enabled o then o_labeler o else None in
    let o' := match lab with Some _ => set_labeler o (Some Placeholder) | None => o end in
    let '(cs, x) := remove_cells (o_enabled o) lab (p_cells p) in
    (set_cells (set_opts p o') cs, x).

  (** _restore_data_labelers: the loop, 1095-1110 *)
  Fixpoint restore_cells (c : cls) (lab : option labeler) (cs : list cell) : list cell * result unit :=
    match cs with
    | [] => ([], Ok tt)
    | NoCompiler :: r => (NoCompiler :: r, Err (match c with Structured => KeyError | Unstructured => AttributeError end))
    | NoLabeler :: r => (NoLabeler :: r, Err KeyError)
    | Lab _ :: r => let '(r', x) := restore_cells c lab r in (Lab lab :: r', x)
    end.
  (** The profiler's class decides how [_profile] is read: a list of columns read as the profile of a text has no attribute
      [_profiles]; the profile of a text cannot be iterated over. *)
  Definition restore (p : prof) (lab : option labeler) : prof * result unit :=
    let o := p_opts p in
    let use := o_enabled o in
    let lab' := match lab with Some l => Some l | None => if use then disk (p_cls p) (o_dir o) else None end in
    let o' := if use then set_labeler (match lab' with Some _ => o | None => set_enabled o false end) lab' else o in
    let p' := set_opts p o' in
    match p_cls p, p_shape p with
    | Structured, Unstructured => (p', Err TypeError)
    | Unstructured, Structured => if use then (p', Err AttributeError) else (p', Ok tt)
    | c, _ =>
        if use then let '(cs, x) := restore_cells c lab' (p_cells p) in (set_cells p' cs, x)
        else (p', Ok tt)
    end.

  (** The values [save] reads *)
  Fixpoint collect (p : prof) (ks : list string) : result (dict string val) :=
    match ks with
    | [] => Ok []
    | k :: r => bind (getattr p k) (fun v => bind (collect p r) (fun d => Ok ((k, v) :: d)))
    end.

  (** [save(filepath, save_method)]; [opens]: the file can be opened and written.  It gives the profiler afterwards, the file if
      one is written, and the outcome. *)
  Definition save (p : prof) (method : string) (opens : bool) : prof * option file * result unit :=
    let m := lower_string method in
    if String.eqb m "pickle" then
      match collect p (saved_names (p_cls p)) with
      | Err e => (p, None, Err e)
      | Ok d =>
          match remove p with
          | (p1, Err e) => (p1, None, Err e)
          | (p1, Ok lab) =>
              if opens then
                let '(p2, x) := restore p1 lab in
                (p2, Some (FPickle (Some (class_name (p_cls p))) d (Some (p_opts p1, p_shape p1, p_cells p1))), x)
              else (p1, None, Err GenericException)
          end
      end
    else if String.eqb m "json" then (p, None, Err NotImplementedErr)  (* JSON: not modelled here *)
    else (p, None, Err ValueError).

  (** load, 1205-1220: the class *)
  Definition load_class (called : option cls) (c : option string) (d : dict string val) : result cls :=
    match called with
    | Some x => Ok x
    | None =>
        match c with
        | Some s => if String.eqb s "StructuredProfiler" then Ok Structured
                    else if String.eqb s "UnstructuredProfiler" then Ok Unstructured else Err ValueError
        | None => Ok (if dmem d "_empty_line_count" then Unstructured else Structured)
        end
    end.

  (** load; [called]: the class it is called on (None: BaseProfiler, as in [Profiler.load]) *)
  Definition load (called : option cls) (method : option string) (f : file) : result prof :=
    let m := option_map lower_string method in
    let valid := match m with None => true | Some s => String.eqb s "pickle" || String.eqb s "json" end%bool in
    let json := match m with Some s => String.eqb s "json" | None => false end in
    if negb valid then Err ValueError else
    match json, f with
    | false, FPickle c d o =>
        bind (load_class called c d) (fun cl =>
        let p := fold_left (fun p kv => setattr p (fst kv) (snd kv)) d (new cl VNone (VNum 0) load_options) in
        let p := match o with
                 | Some (o', sh, cs) => mkProf (p_cls p) (p_attrs p) o' sh cs
                 | None => p
                 end in
        let '(p', x) := restore p None in bind x (fun _ => Ok p'))
    | _, FJson n => from_json n      (* also with "pickle": the return in the finally clause drops the ValueError *)
    | _, _ => Err ValueError         (* json.load cannot read it *)
    end.
End Disk.

(** GraphProfiler: the attributes set by its constructor (graph_profiler.py 41-56), and what its save writes *)
Definition graph_names : list string :=
  ["sample_size"; "times"; "_attributes"; "_num_nodes"; "_num_edges"; "_categorical_attributes"; "_continuous_attributes";
   "_avg_node_degree"; "_global_max_component_size"; "_continuous_distribution"; "_categorical_distribution"; "metadata"].
Definition new_graph : dict string val :=
  [("sample_size", VNum 0); ("times", VEmpty); ("_attributes", VNone); ("_num_nodes", VNone); ("_num_edges", VNone);
   ("_categorical_attributes", VNone); ("_continuous_attributes", VNone); ("_avg_node_degree", VNone);
   ("_global_max_component_size", VNone); ("_continuous_distribution", VNone); ("_categorical_distribution", VNone);
   ("metadata", VEmpty)].
Fixpoint graph_collect (g : dict string val) (ks : list string) : result (dict string val) :=
  match ks with
  | [] => Ok []
  | k :: r => match dget g k with
              | Some v => bind (graph_collect g r) (fun d => Ok ((k, v) :: d))
              | None => Err AttributeError
              end
  end.
Definition graph_save (g : dict string val) : result file := bind (graph_collect g graph_names) (fun d => Ok (FPickle None d None)).
Definition graph_load (f : file) : result (dict string val) :=
  match f with
  | FPickle _ d _ => Ok (fold_left (fun g kv => dset g (fst kv) (snd kv)) d new_graph)
  | _ => Err GenericException
  end.

(** StructuredProfiler.report, 2054-2107: what of the profiler it shows.  The ratios of rows are functions of the attributes
    shown; the report of a column is a function of its profile and of its labeler.  With null_replication_metrics enabled, 
    [i in self._null_replication_metrics] raises TypeError if they are None. *)
Definition shown_names : list string :=
  ["total_samples"; "row_has_null_count"; "row_is_null_count"; "hashed_row_object"; "file_type"; "encoding"; "correlation_matrix";
   "chi2_matrix"; "times"; "_profile"].
Record report_of := mkReport { r_values : list (result val); r_nullrep : option (result val); r_cells : list cell }.
Definition report (p : prof) : result report_of :=
  let m := getattr p "_null_replication_metrics" in
  let r := mkReport (map (getattr p) shown_names) (if o_nullrep (p_opts p) then Some m else None) (p_cells p) in
  match o_nullrep (p_opts p), p_cells p, m with
  | true, _ :: _, Ok VNone => Err TypeError
  | _, _, _ => Ok r
  end.

(** _get_sample_size with the attributes of the profiler (SizeModel.get_sample_size); the ratio and the least size are numbers *)
Definition rows_sampled (p : prof) (rows : nat) : result nat :=
  match getattr p "_samples_per_update", getattr p "_min_sample_size", getattr p "_sampling_ratio" with
  | Ok s, Ok (VNum m), Ok (VNum r) =>
      Ok (get_sample_size (match s with VNum q => Some (Z.to_nat (Qnum q)) | _ => None end) (Z.to_nat (Qnum m)) r rows)
  | _, _, _ => Err TypeError
  end.
