(** Profiles of free text as a whole: profilers/profile_builder.py, UnstructuredProfiler (1235-1620), BaseProfiler
    (678-806, 939-995), and profilers/column_profile_compilers.py, UnstructuredCompiler.

    A line is a [T]; [blank] is the match of the regular expression for white space, [bytes] the number of bytes of a
    line, [chars] its length.  Row labels are integers; they are unique or not.  The statistics of the lines themselves
    are modelled elsewhere; here the compiler keeps the lines it was given, batch by batch.  Not modelled: the labeler
    that is loaded, times, file type and encoding (SizeModel), errors of single profiles. *)
From Coq Require Import ZArith QArith String.
From Verif Require Import PyCommon PyDict SamplingModel SizeModel NullModel.
Local Open Scope nat_scope.

(** [sorted] of a list of integers *)
Fixpoint insertZ (x : Z) (l : list Z) : list Z :=
  match l with [] => [x] | y :: r => if (x <=? y)%Z then x :: l else y :: insertZ x r end.
Definition sortZ (l : list Z) : list Z := fold_right insertZ [] l.

Inductive warning := WEmpty | WSubsample (size : nat).

Section Text.
  Context {T N : Type} {ET : EqDecB T} {EN : EqDecB N}.
  Variable blank : T -> bool.
  Variable bytes chars : T -> nat.
  (** [random.sample(l, min(len(l), 5))] *)
  Variable pick5 : list T -> list T.

  (** Data of the accepted types.  A data frame has the labels of its rows and named columns. *)
  Inductive udata :=
  | UStr (t : T)
  | UList (l : list T)
  | USeries (name : option N) (rows : list (Z * T))
  | UFrame (labels : list Z) (cols : list (N * list T)).

  (** [len(data)]: of a string the number of its characters *)
  Definition ulen (d : udata) : nat :=
    match d with UStr t => chars t | UList l => length l | USeries _ r => length r | UFrame ls _ => length ls end.

  (** [pd.Series(data)] labels the rows from 0 *)
  Definition numbered (l : list T) : list (Z * T) := combine (map Z.of_nat (seq 0 (length l))) l.

  (** _update_profile_from_chunk, 1537-1568: the name and the rows of the one column *)
  Definition column_of (d : udata) : result (option N * list (Z * T)) :=
    match d with
    | UStr t => Ok (None, numbered [t])
    | UList l => Ok (None, numbered l)
    | USeries n r => Ok (n, r)
    | UFrame ls cols =>
        match cols with
        | [] => Err IndexError
        | [(n, c)] => Ok (Some n, combine ls c)
        | _ => Err ValueError
        end
    end.

  (** [data.iloc[ids]] *)
  Definition iloc (r : list (Z * T)) (ids : list nat) : list (Z * T) :=
    flat_map (fun i => match nth_error r i with Some x => [x] | None => [] end) ids.

  (** The loop of _clean_data_and_get_base_stats, 1492-1517: lines examined and labels of lines that are not blank *)
  Fixpoint examine (r : list (Z * T)) (size min_true : nat) (chunks : list (list nat)) (total : nat) (labels : list Z) : nat * list Z :=
    match chunks with
    | [] => (total, labels)
    | ids :: rest =>
        let total := total + length ids in
        let labels := supdate labels (map fst (filter (fun x => negb (blank (snd x))) (iloc r ids))) in
        if (min_true <=? length labels) && (size <=? total) then (total, labels) else examine r size min_true rest total labels
    end.

  (** base_stats of 1482-1533; the memory in bytes, get_memory_size (profiler_utils.py 668-688) divides by 1024 twice *)
  Record ubase := mkUBase { b_total : nat; b_empty : Z; b_sample : list T; b_memory : nat }.

  (** [data.loc[labels]]: for each label the rows with the label *)
  Definition loc (r : list (Z * T)) (labels : list Z) : list (Z * T) := flat_map (fun l => filter (fun x => eqb (fst x) l) r) labels.

  (** _clean_data_and_get_base_stats, 1449-1535: the lines to profile and the base statistics *)
  Definition clean_text (draw : nat -> nat) (r : list (Z * T)) (size min_true : nat) : list T * ubase :=
    let '(total, labels) := examine r size min_true (shuffle_in_chunks draw (length r) size) 0 [] in
    let kept := map snd (loc r (sortZ labels)) in
    (kept, mkUBase total (Z.of_nat total - Z.of_nat (length labels)) (pick5 kept) (list_sum (map (fun x => bytes (snd x)) r))).

  (** UnstructuredCompiler: its name, the types of its profiles and the lines they were given *)
  Record comp := mkComp { k_name : option N; k_profiles : list string; k_given : list (list T) }.

  (** UnstructuredProfiler.  [u_profiles]: the profiles its options enable. *)
  Record uprof := mkU {
    u_per_update : option nat;
    u_min_true : option nat;
    u_ratio : Q;
    u_profiles : list string;
    u_total : nat;
    u_empty : Z;
    u_memory : nat;
    u_sample : list T;
    u_comp : option comp
  }.

  (** __init__, 686-758 and 1242-1281, without data *)
  Definition new_u (per_update min_true : option nat) (ratio : Q) (profiles : list string) : uprof :=
    mkU per_update min_true ratio profiles 0 0 0 [] None.

  (** _update_base_stats, 1359-1370 *)
  Definition with_base (u : uprof) (b : ubase) : uprof :=
    mkU (u_per_update u) (u_min_true u) (u_ratio u) (u_profiles u) (u_total u + b_total b) (u_empty u + b_empty b)
        (u_memory u + b_memory b) (b_sample b) (u_comp u).

  (** BaseCompiler.__init__ 39-59 and update_profile 145-174 *)
  Definition give (name : option N) (profiles : list string) (c : option comp) (lines : list T) : comp :=
    match c with
    | None => mkComp name profiles [lines]
    | Some c => mkComp (k_name c) (k_profiles c) (k_given c ++ [lines])
    end.

  (** update_profile, 939-995, and _update_profile_from_chunk, 1537-1591: the profile afterwards, the exception, warnings *)
  Definition update_u (draw : nat -> nat) (u : uprof) (d : udata) (size min_true : option nat) : uprof * option exn * list warning :=
    if ulen d =? 0 then (u, None, [WEmpty])
    else
      let mt := match min_true with Some (S k) => S k | _ => match u_min_true u with Some k => k | None => 0 end end in
      let ss := update_sample_size size (u_per_update u) 5000 (u_ratio u) (ulen d) in
      match column_of d with
      | Err e => (u, Some e, [])
      | Ok (name, r) =>
          let '(kept, b) := clean_text draw r ss mt in
          let u1 := with_base u b in
          let c := give name (u_profiles u) (u_comp u) kept in
          (mkU (u_per_update u1) (u_min_true u1) (u_ratio u1) (u_profiles u1) (u_total u1) (u_empty u1) (u_memory u1) (u_sample u1) (Some c),
           None, if ss <? length kept then [WSubsample ss] else [])
      end.

  Definition same_set (a b : list string) : bool := forallb (lmem b) a && forallb (lmem a) b.

  Definition name_eqb (a b : option N) : bool :=
    match a, b with Some x, Some y => eqb x y | None, None => true | _, _ => false end.

  (** BaseCompiler.__add__, 114-145; a profile that has no compiler yet has None there, which nothing can be added to *)
  Definition add_comp (a b : option comp) : result comp :=
    match a, b with
    | Some x, Some y =>
        if negb (name_eqb (k_name x) (k_name y)) then Err ValueError
        else if negb (same_set (k_profiles x) (k_profiles y)) then Err ValueError
        else Ok (mkComp (k_name x) (k_profiles x) (k_given x ++ k_given y))
    | _, _ => Err TypeError
    end.

  (** __add__, 1292-1316 and 768-806 *)
  Definition add_u (a b : uprof) : result uprof :=
    bind (add_comp (u_comp a) (u_comp b)) (fun c =>
    Ok (mkU (u_per_update a) (u_min_true a) (u_ratio a) (u_profiles a) (u_total a + u_total b) (u_empty a + u_empty b)
            (u_memory a + u_memory b) (pick5 (supdate [] (u_sample a ++ u_sample b))) (Some c))).

  (** report, 1381-1428: samples_used, empty_line_count, memory_size (here in bytes) and the lines of the statistics *)
  Record ureport := mkUR { r_samples_used : nat; r_empty_line_count : Z; r_memory : nat; r_lines : list (list T) }.
  Definition report_u (u : uprof) : result ureport :=
    match u_comp u with
    | None => Err AttributeError
    | Some c => Ok (mkUR (u_total u) (u_empty u) (u_memory u) (k_given c))
    end.
End Text.
