(** * Tables profiled with different options and merged, reloaded and updated

    Which merges of two profiles of tables are allowed, and which of the
    profiled batches the statistics over several columns (correlations,
    chi-squared tests, null replication metrics) of the result speak of.

    What is computed from the rows is the subject of other files (correlations
    C22, null replication metrics C41, rows with nulls C63, chi-squared tests
    C73, matching of schemas C18).  Here a statistic is represented by the list
    of the batches whose rows went into it, and what decides whether a statistic
    exists at all is given by parameters:

    - [brows], [bblank], [bnull]: number of rows of a batch, number of its rows
      that are null in every column, whether it has a null cell at all;
    - [bcols]: its column names; [sch] whether two schemas match
      (profile_builder.py _get_and_validate_schema_mapping and the check of
      names of StructuredColProfiler.__add__, C18);
    - [bcorr]: whether the correlations of a batch exist, which may depend on the
      batches before (types of the columns; _get_correlation returns None with
      fewer than two numeric columns, profile_builder.py 2286-2353);
    - [compat]: whether two matrices have the same columns, at least two
      (profile_builder.py 2397-2404).

    Not modelled: sampling, times, file types and encodings (C72), columns of
    dates or without type with null replication metrics (C41), errors of single
    column statistics. *)
From Coq Require Import List Arith Bool Lia.
Import ListNotations.
From Verif Require Import PyCommon PyString PyDict.
Local Open Scope nat_scope.
Local Delimit Scope string_scope with string.

(** How rows are counted for uniqueness: profile_options.py UniqueCountOptions,
    hashing_method "full" or "hll", with HyperLogLogOptions seed and
    register_count. *)
Inductive hashing := HFull | HHll.

(** The options of a table that matter here (profile_options.py
    StructuredOptions).  [o_kinds] are the names of all profiles of a column
    that the options enable (compilers and their profiles). *)
Record topts := mkTopts
  { o_rows : bool; o_unique : bool; o_nulls : bool;
    o_hash : hashing; o_seed : nat; o_regs : nat;
    o_corr : bool; o_chi2 : bool; o_nrm : bool;
    o_kinds : list string }.

Definition hashing_eqb (a b : hashing) : bool :=
  match a, b with HFull, HFull => true | HHll, HHll => true | _, _ => false end.

Definition is_hll (a : hashing) : bool :=
  match a with HHll => true | HFull => false end.

(** [set(a) == set(b)] (profile_builder.py 209; column_profile_compilers.py 131) *)
Definition same_set (a b : list string) : bool :=
  forallb (fun x => lmem b x) a && forallb (fun x => lmem a x) b.

Section Tables.
Variable B : Type.
Variable brows bblank : B -> nat.
Variable bnull : B -> bool.
Variable bcols : B -> list string.
Variable sch : list string -> list string -> bool.
Variable bcorr : list B -> B -> bool.
Variable compat : list B -> list B -> bool.

(** The profile of a table: [taken] the batches that the column profiles took
    in, [corr], [chi2], [nrm] the attributes correlation_matrix, chi2_matrix and
    _null_replication_metrics (None at first, profile_builder.py 1665-1674). *)
Record prof := mkProf
  { opts : topts; cols : list string; size : nat; blank : nat;
    taken : list B;
    corr : option (list B); chi2 : option (list B); nrm : option (list B) }.

(** StructuredProfiler.__init__ without data, profile_builder.py 1631-1687 *)
Definition fresh (o : topts) : prof := mkProf o [] 0 0 [] None None None.

(** _merge_correlation_helper with the batch, profile_builder.py 2520-2527 and
    2356-2378: a matrix that is None gives way to the other one *)
Definition upd_corr (m : option (list B)) (past : list B) (b : B) : option (list B) :=
  match m, bcorr past b with
  | None, true => Some [b]
  | None, false => None
  | Some l, true => Some (l ++ [b])
  | Some l, false => Some l
  end.

(** _update_null_replication_metrics: class sums of the batch are added to the
    class sums so far; a fresh dict if there was none, profile_builder.py
    2620-2650 *)
Definition upd_nrm (m : option (list B)) (b : B) : option (list B) :=
  match m with None => Some [b] | Some l => Some (l ++ [b]) end.

(** update_profile with a batch: empty data is not profiled (profile_builder.py
    979-983), a schema that does not match is refused (2820-2823), then columns,
    correlations, chi-squared tests, number of rows, row statistics and null
    replication metrics (3018-3039) *)
Definition update (p : prof) (b : B) : result prof :=
  if brows b =? 0 then Ok p
  else if negb (match cols p with [] => true | _ => sch (cols p) (bcols b) end)
  then Err ValueError
  else Ok (mkProf (opts p)
             (match cols p with [] => bcols b | _ => cols p end)
             (size p + brows b)
             (if o_rows (opts p) && o_nulls (opts p) then blank p + bblank b else blank p)
             (taken p ++ [b])
             (if o_corr (opts p) then upd_corr (corr p) (taken p) b else corr p)
             (if o_chi2 (opts p) then Some (taken p ++ [b]) else chi2 p)
             (if o_nrm (opts p) then upd_nrm (nrm p) b else nrm p)).

(** StructuredProfiler._add_error_checks, profile_builder.py 1689-1769.  The
    schemas are compared strictly: both tables must have columns. *)
Definition checks (p q : prof) : option exn :=
  if match cols p with [] => true | _ => false end then Some ValueError
  else if match cols q with [] => true | _ => false end then Some ValueError
  else if negb (sch (cols p) (cols q)) then Some ValueError
  else if negb (Bool.eqb (o_rows (opts p)) (o_rows (opts q))) then Some ValueError
  else if negb (Bool.eqb (o_unique (opts p)) (o_unique (opts q))) then Some ValueError
  else if negb (Bool.eqb (o_nulls (opts p)) (o_nulls (opts q))) then Some ValueError
  else if negb (hashing_eqb (o_hash (opts p)) (o_hash (opts q))) then Some ValueError
  else if is_hll (o_hash (opts p)) && negb (o_seed (opts p) =? o_seed (opts q))
  then Some ValueError
  else if is_hll (o_hash (opts p)) && negb (o_regs (opts p) =? o_regs (opts q))
  then Some ValueError
  else None.

(** The rows that are not null in every column: total_samples -
    row_is_null_count, profile_builder.py 2389-2390 and 1836-1837 *)
Definition filled (p : prof) : nat := size p - blank p.

(** _merge_correlation, profile_builder.py 2379-2439 *)
Definition merge_corr (p q : prof) : option (list B) :=
  if filled p =? 0 then corr q
  else if filled q =? 0 then corr p
  else match corr p, corr q with
       | Some a, Some b => if compat a b then Some (a ++ b) else None
       | _, _ => None
       end.

(** chi2 of the merged profile, profile_builder.py 1824-1842: computed anew from
    the merged columns *)
Definition merge_chi2 (p q : prof) : option (list B) :=
  if filled p =? 0 then chi2 q
  else if filled q =? 0 then chi2 p
  else match chi2 p, chi2 q with
       | Some _, Some _ => Some (taken p ++ taken q)
       | _, _ => None
       end.

(** _merge_null_replication_metrics, profile_builder.py 2689-2783: for a column
    with a null, [col_id in None] raises TypeError if one side has no metrics *)
Definition merge_nrm (p q : prof) : result (option (list B)) :=
  if existsb bnull (taken p ++ taken q)
  then match nrm p, nrm q with
       | Some a, Some b => Ok (Some (a ++ b))
       | _, _ => Err TypeError
       end
  else Ok (Some (taken p ++ taken q)).

(** BaseProfiler.__add__ and StructuredProfiler.__add__, profile_builder.py
    768-807 and 1771-1853.  The new profile has the options of the left one; each
    pair of columns must have the same profiles (192-213). *)
Definition merge (p q : prof) : result prof :=
  match checks p q with
  | Some e => Err e
  | None =>
    if negb (same_set (o_kinds (opts p)) (o_kinds (opts q))) then Err ValueError
    else
      let c := if o_corr (opts p) && o_corr (opts q) then merge_corr p q else None in
      let x := if o_chi2 (opts p) && o_chi2 (opts q) then merge_chi2 p q else None in
      let bl := if o_rows (opts p) && o_rows (opts q) then blank p + blank q else 0 in
      if o_nrm (opts p) && o_nrm (opts q)
      then match merge_nrm p q with
           | Err e => Err e
           | Ok n => Ok (mkProf (opts p) (cols p) (size p + size q) bl
                                (taken p ++ taken q) c x n)
           end
      else Ok (mkProf (opts p) (cols p) (size p + size q) bl
                      (taken p ++ taken q) c x None)
  end.

(** StructuredProfiler.save with pickle and load: neither correlation_matrix nor
    _null_replication_metrics is among what is saved, profile_builder.py
    3052-3068 *)
Definition reload (p : prof) : prof :=
  mkProf (opts p) (cols p) (size p) (blank p) (taken p) None (chi2 p) None.

(** What report shows, profile_builder.py 2054-2108: the loop over the columns
    asks [i in self._null_replication_metrics] if the metrics are enabled *)
Record trep := mkTrep
  { r_rows : nat; r_cols : list string; r_columns_of : list B;
    r_corr : option (list B); r_chi2 : option (list B); r_nrm : option (list B) }.

Definition report (p : prof) : result trep :=
  if o_nrm (opts p)
     && match cols p with [] => false | _ => true end
     && match nrm p with None => true | Some _ => false end
  then Err TypeError
  else Ok (mkTrep (size p) (cols p) (taken p) (corr p) (chi2 p)
             (if o_nrm (opts p) then nrm p else None)).

(** What a user can do *)
Inductive hist :=
| HNew (o : topts)
| HUpd (h : hist) (b : B)
| HAdd (h1 h2 : hist)
| HReload (h : hist).

Fixpoint run (h : hist) : result prof :=
  match h with
  | HNew o => Ok (fresh o)
  | HUpd h b => bind (run h) (fun p => update p b)
  | HAdd h1 h2 => bind (run h1) (fun p => bind (run h2) (fun q => merge p q))
  | HReload h => bind (run h) (fun p => Ok (reload p))
  end.

End Tables.

Arguments fresh {B}. Arguments mkProf {B}.
Arguments opts {B}. Arguments cols {B}. Arguments size {B}. Arguments blank {B}.
Arguments taken {B}. Arguments corr {B}. Arguments chi2 {B}. Arguments nrm {B}.
Arguments HNew {B}. Arguments HUpd {B}. Arguments HAdd {B}. Arguments HReload {B}.
Arguments report {B}. Arguments reload {B}. Arguments filled {B}.
Arguments r_rows {B}. Arguments r_cols {B}. Arguments r_columns_of {B}.
Arguments r_corr {B}. Arguments r_chi2 {B}. Arguments r_nrm {B}.
