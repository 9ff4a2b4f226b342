(** Model of making profilers and of updating them: the kind of profiler, the options it uses, the
    labeler it loads, and which data it takes.
    Source: dataprofiler/profilers/profile_builder.py, graph_profiler.py; data_readers/*.py.

    Objects with options are references into a heap, as the profiler keeps the object it is given and
    writes into it. What profiling does with data, loading labelers, validation of options (C77) and
    the sample size (C48) are parameters. Subclasses of the profilers are left out. *)
From Coq Require Import ZArith.
From Coq Require String.
From Verif Require Import PyCommon PyDict PyString.
Local Delimit Scope string_scope with string.
Open Scope list_scope.
Local Open Scope nat_scope.

(** ** Data *)
Inductive reader := RCsv | RParquet | RJson | RAvro | RText | RGraph.

(** What is given as data; a reader with its data_format. *)
Inductive source :=
| SNone | SStr | SList | SSeries | SFrame | SGraph
| SReader (k : reader) (fmt : string)
| SOther.

(** Data, and [len(data)] (or [len(data.data)] of a reader, which reads the file and may fail). *)
Record data := mkData { d_source : source; d_len : result nat }.

Definition is_reader (s : source) : bool := match s with SReader _ _ => true | _ => false end.

(** is_structured (csv_data.py 125-127, parquet_data.py 93-95, json_data.py 111-113 - also for
    AVROData -, text_data.py 73-75, base_data.py 101-103 for GraphData) *)
Definition is_structured (k : reader) (fmt : string) : result bool :=
  match k with
  | RCsv | RParquet => Ok (String.eqb fmt "dataframe")
  | RJson | RAvro => Ok (String.eqb fmt "dataframe" || String.eqb fmt "flattened_dataframe")
  | RText => Ok false
  | RGraph => Err NotImplementedErr
  end.

(** ** Kinds of profilers *)
Inductive ptype := PGraph | PStructured | PUnstructured.

(** Profiler.__new__ (lines 3104-3142) up to the constructors *)
Definition kind_of (given : option string) (s : source) : result ptype :=
  match given with
  | None =>
      match s with
      | SReader RGraph _ | SGraph => Ok PGraph
      | SReader k fmt => bind (is_structured k fmt) (fun b => Ok (if b then PStructured else PUnstructured))
      | SStr => Ok PUnstructured
      | SList | SFrame | SSeries => Ok PStructured
      | SNone | SOther => Err ValueError
      end
  | Some t =>
      if String.eqb t "graph" then Ok PGraph
      else if String.eqb t "structured" then Ok PStructured
      else if String.eqb t "unstructured" then Ok PUnstructured
      else Err ValueError
  end.

(** ** Options *)
Section Profilers.
  Variable L : Type.              (* labelers *)
  Variable X : Type.              (* the other options *)
  Variable P : Type.              (* what a profile holds *)
  Variable S0 U0 : X.             (* defaults of the other options *)

  (** StructuredOptions or UnstructuredOptions *)
  Record sub := mkSub { s_enabled : bool; s_labeler : option L; s_dirpath : option string; s_rest : X }.

  Definition heap := list sub.

  (** The argument options: something falsy, ProfilerOptions (with references to its two parts),
      one of the parts, or anything else. *)
  Inductive optarg := OFalsy | OProfiler (rs ru : nat) | OStructured (r : nat) | OUnstructured (r : nat) | OOther.

  (** A profiler: its kind, the reference to its options (none for graphs), the two sizes and the
      profile. *)
  Record profiler := mkProf {
    f_kind : ptype;
    f_opts : option nat;
    f_samples : option nat;
    f_min_true : option Z;
    f_profile : P }.

  (** min_true_samples: None, a whole number, or something else *)
  Inductive marg := MNone | MInt (z : Z) | MOther.

  Variable validate : sub -> result unit.
  (** DataLabeler(labeler_type, dirpath); files may change in between, so the heap of files is the
      first argument. *)
  Variable W : Type.
  Variable load : W -> ptype -> option string -> result L.
  (** _get_sample_size (C48) *)
  Variable sample_size : profiler -> data -> nat.
  (** _update_profile_from_chunk, and GraphProfiler.update after its checks; an exception may leave
      a profile that is changed. *)
  Variable work : sub -> P -> data -> nat -> option Z -> P * option exn.
  Variable graph_work : P -> data -> P * option exn.
  Variable fresh : ptype -> P.

  Definition sub_of (h : heap) (r : nat) : option sub := nth_error h r.

  Fixpoint put (h : heap) (r : nat) (s : sub) : heap :=
    match h, r with
    | [], _ => []
    | _ :: t, 0 => s :: t
    | x :: t, S r' => x :: put t r' s
    end.

  (** Lines 1264-1271 and 1654-1661 *)
  Definition choose (k : ptype) (h : heap) (o : optarg) : result (heap * nat) :=
    match o, k with
    | OFalsy, PStructured => Ok (h ++ [mkSub true None None S0], length h)
    | OFalsy, _ => Ok (h ++ [mkSub true None None U0], length h)
    | OProfiler rs _, PStructured => Ok (h, rs)
    | OProfiler _ ru, _ => Ok (h, ru)
    | OStructured r, PStructured => Ok (h, r)
    | OUnstructured r, PUnstructured => Ok (h, r)
    | _, _ => Err ValueError
    end.

  (** Lines 739-757 *)
  Definition with_labeler (w : W) (k : ptype) (s : sub) : sub :=
    match s_enabled s, s_labeler s with
    | true, None =>
        match load w k (s_dirpath s) with
        | Ok l => mkSub true (Some l) (s_dirpath s) (s_rest s)
        | Err _ => mkSub false None (s_dirpath s) (s_rest s)
        end
    | _, _ => s
    end.

  Definition int_arg (m : marg) : result (option Z) :=
    match m with MNone => Ok None | MInt z => Ok (Some z) | MOther => Err ValueError end.

  (** _allowed_external_data_types (lines 1240 and 1630) and the reader *)
  Definition takes (k : ptype) (s : source) : bool :=
    match s with
    | SReader _ _ | SList | SSeries | SFrame => true
    | SStr => match k with PUnstructured => true | _ => false end
    | _ => false
    end.

  Definition set_profile (p : profiler) (x : P) : profiler :=
    mkProf (f_kind p) (f_opts p) (f_samples p) (f_min_true p) x.

  (** [not x] for an integer or None *)
  Definition falsyZ (z : option Z) : bool := match z with None => true | Some z => (z =? 0)%Z end.

  (** update_profile (lines 939-997): the profiler afterwards, and an exception if one is raised *)
  Definition update (h : heap) (p : profiler) (d : data) (size : option nat) (m : marg) : profiler * option exn :=
    match int_arg m with
    | Err e => (p, Some e)
    | Ok m =>
        if negb (takes (f_kind p) (d_source d)) then (p, Some TypeError)
        else
          match d_len d with
          | Err e => (p, Some e)
          | Ok 0 => (p, None)
          | Ok (S _) =>
              let m' := if falsyZ m then f_min_true p else m in
              let size' := match size with Some (S n) => S n | _ => sample_size p d end in
              match f_opts p with
              | None => (p, Some AttributeError)
              | Some r =>
                  match sub_of h r with
                  | None => (p, Some AttributeError)
                  | Some s => let (x, e) := work s (f_profile p) d size' m' in (set_profile p x, e)
                  end
              end
          end
    end.

  (** GraphProfiler.update (graph_profiler.py 195-224) *)
  Definition graph_update (p : profiler) (d : data) : profiler * option exn :=
    match d_source d with
    | SGraph | SReader RGraph _ =>
        match d_len d with
        | Err e => (p, Some e)
        | Ok 0 => (p, None)
        | Ok (S _) => let (x, e) := graph_work (f_profile p) d in (set_profile p x, e)
        end
    | _ => (p, Some NotImplementedErr)
    end.

  (** Line 1663 *)
  Definition text_to_table (k : ptype) (s : source) : bool :=
    match k, s with PStructured, SReader RText _ => true | _, _ => false end.

  (** The profiler with the options at [r] (lines 708-757, and 1280-1281 or 1686-1687): the heap
      afterwards, and the profiler or the exception *)
  Definition construct (w : W) (k : ptype) (h : heap) (r : nat) (d : data) (samples : option nat) (m : marg)
      : heap * result profiler :=
    match int_arg m, sub_of h r with
    | Err e, _ => (h, Err e)
    | Ok _, None => (h, Err AttributeError)
    | Ok m', Some s =>
        match validate s with
        | Err e => (h, Err e)
        | Ok _ =>
            let h2 := put h r (with_labeler w k s) in
            let p := mkProf k (Some r) samples m' (fresh k) in
            match d_source d with
            | SNone => (h2, Ok p)
            | _ =>
                match update h2 p d None MNone with
                | (p', None) => (h2, Ok p')
                | (_, Some e) => (h2, Err e)
                end
            end
        end
    end.

  (** StructuredProfiler.__init__ and UnstructuredProfiler.__init__ (lines 1242-1281, 1632-1687) *)
  Definition make_table (w : W) (k : ptype) (h : heap) (d : data) (samples : option nat) (m : marg) (o : optarg)
      : heap * result profiler :=
    match choose k h o with
    | Err e => (h, Err e)
    | Ok (h1, r) =>
        if text_to_table k (d_source d) then (h1, Err TypeError)
        else construct w k h1 r d samples m
    end.

  (** Profiler.__new__ (lines 3078-3142) *)
  Definition make (w : W) (h : heap) (given : option string) (d : data) (samples : option nat) (m : marg) (o : optarg)
      : heap * result profiler :=
    match kind_of given (d_source d) with
    | Err e => (h, Err e)
    | Ok PGraph =>
        match graph_update (mkProf PGraph None None None (fresh PGraph)) d with
        | (p, None) => (h, Ok p)
        | (_, Some e) => (h, Err e)
        end
    | Ok k => make_table w k h d samples m o
    end.
End Profilers.
