(** The times of a profile: what [method_timeit] records and what merges make of it.

    Every profile has a dictionary [times], which is part of its report. Methods decorated by
    [method_timeit] add the time they took to the entry of their name. The clock is an oracle:
    [clock i] is the i-th reading of [time.time()]. Profiles are numbered objects. What a method
    does besides calling other decorated methods is not modelled here. *)
From Coq Require Import QArith.
From Verif Require Import PyCommon QFacts PyDict PyString.
Import String.StringSyntax.
Local Delimit Scope string_scope with string.
Local Open Scope nat_scope.

(** What happens to times. A call of a decorated method [name] of an object: the decorated calls it
    makes, whether it raises by itself at its end, and whether it catches what is raised inside
    (as [_get_histogram_and_quantiles] does, numerical_column_stats.py 1930-1946). A merge sets the
    times of a new profile from those of two others. *)
Inductive action :=
| Timed (self : nat) (name : string) (inner : list action) (raises catches : bool)
| Merge (into first second : nat).

Section Times.
  Variable clock : nat -> Q.

  Record state := mkState {
    readings : nat;                       (* how often the clock was read *)
    times_of : nat -> dict string Q       (* the attribute times of each object *)
  }.

  (** [self.times[name] += d] on a [defaultdict(float)] (profiler_utils.py 713; made in
      base_column_profilers.py 43) *)
  Definition add_time (d : dict string Q) (name : string) (t : Q) : dict string Q :=
    dset d name ((match dget d name with Some v => v | None => 0 end) + t)%Q.

  (** add_nested_dictionaries (profiler_utils.py 291-320) for values that are numbers *)
  Definition add_times (first second : dict string Q) : dict string Q :=
    let merged :=
      fold_left (fun m kv =>
        dset m (fst kv) (match dget second (fst kv) with Some v => (snd kv + v)%Q | None => snd kv end))
        first [] in
    fold_left (fun m kv => if dmem first (fst kv) then m else dset m (fst kv) (snd kv)) second merged.

  Definition set_times (f : nat -> dict string Q) (o : nat) (d : dict string Q) : nat -> dict string Q :=
    fun x => if x =? o then d else f x.

  (** The wrapper of method_timeit (profiler_utils.py 703-716): the clock is read, the method is
      called, the clock is read again and the difference is added; if the method raises, neither
      the second reading nor the addition happens. *)
  Fixpoint exec (a : action) (s : state) : state * bool :=
    match a with
    | Timed o name inner raises catches =>
        let ts := clock (readings s) in
        let '(s1, ok) :=
          (fix go (l : list action) (s : state) : state * bool :=
             match l with
             | [] => (s, true)
             | b :: r => let '(s', ok) := exec b s in if ok then go r s' else (s', false)
             end) inner (mkState (S (readings s)) (times_of s)) in
        if (ok || catches) && negb raises
        then
          let te := clock (readings s1) in
          (mkState (S (readings s1))
             (set_times (times_of s1) o (add_time (times_of s1 o) name (te - ts)%Q)), true)
        else (s1, false)
    | Merge m x y => (mkState (readings s) (set_times (times_of s) m (add_times (times_of s x) (times_of s y))), true)
    end.

  Fixpoint exec_all (l : list action) (s : state) : state * bool :=
    match l with
    | [] => (s, true)
    | b :: r => let '(s', ok) := exec b s in if ok then exec_all r s' else (s', false)
    end.
End Times.

(** * What profiles do *)

Definition call (o : nat) (name : string) : action := Timed o name [] false false.

(** The statistics of a numeric column in the order of [__calculations]
    (numerical_column_stats.py 118-128) *)
Definition numeric_names : list string :=
  ["min"; "max"; "sum"; "variance"; "skewness"; "kurtosis"; "histogram_and_quantiles"; "num_zeros"; "num_negatives"]%string.

(** NumericStatsMixin._update_helper (numerical_column_stats.py 1734-1763): one call for each
    statistic that is switched on, unless the batch has no numbers *)
Definition numeric_update (o : nat) (on : list string) (numbers : nat) : list action :=
  if numbers =? 0 then [] else map (call o) on.

(** [__add__] of IntColumn (int_column_profile.py 58-59), FloatColumn (float_column_profile.py
    82-83) and TextColumn (text_column_profile.py 61-62): times are merged in
    BaseColumnProfiler._add_helper (base_column_profilers.py 176); then the histograms are merged
    by a decorated method of the new profile (numerical_column_stats.py 145, 345-347) *)
Definition numeric_merge (m a b : nat) (histograms : bool) : list action :=
  Merge m a b :: (if histograms then [call m "histogram_and_quantiles"%string] else []).

(** OrderColumn._update_order (order_column_profile.py 415-462) and update (476-499) *)
Definition order_update (o : nat) (random : bool) (rows : nat) : list action :=
  if rows =? 0 then [] else if random then [] else [call o "order"%string; call o "order"%string].

(** OrderColumn.__add__ (order_column_profile.py 264-305): [_merge_order] is called on the first
    operand, before the times are merged *)
Definition order_merge (m a b : nat) : list action := [call a "order"%string; Merge m a b].

(** CategoricalColumn._update_categories (categorical_column_profile.py 607-658) and update (672-697): with a
    sketch two decorated methods of the same name (495, 524) are called inside *)
Definition categories_update (o : nat) (sketch stopped : bool) (rows : nat) : list action :=
  if (rows =? 0) || stopped then []
  else [Timed o "categories"%string (if sketch then [call o "categories"%string; call o "categories"%string] else []) false false].

(** CategoricalColumn.__add__ (categorical_column_profile.py 89-131): the sketches are merged by a
    decorated method of the first operand, after the times are merged *)
Definition categories_merge (m a b : nat) (sketches : bool) : list action :=
  Merge m a b :: (if sketches then [call a "categories"%string] else []).

(** StructuredProfiler.__add__ (profile_builder.py 1770-1827) for the times of the table: merged in
    BaseProfiler.__add__ (803-805); then correlations are merged by a decorated method of the first
    operand (1826-1827, 2379). The columns have their own times. *)
Definition table_merge (m a b : nat) (correlation : bool) : list action :=
  Merge m a b :: (if correlation then [call a "correlation"%string] else []).

(** * Histories of a numeric column *)

(** A new column with the statistics that are switched on, an update by a batch with so many
    numbers, a merge of two columns. *)
Inductive history :=
| New (on : list string)
| Update (h : history) (numbers : nat)
| Merged (a b : history).

Section Run.
  Variable clock : nat -> Q.

  (** The statistics switched on after the history; [_merge_calculations]
      (base_column_profilers.py 124-148) keeps those switched on in both. *)
  Fixpoint switched (h : history) : list string :=
    match h with
    | New on => on
    | Update h _ => switched h
    | Merged a b => filter (fun n => lmem (switched a) n && lmem (switched b) n) numeric_names
    end.

  (** Whether there is a stored histogram ([_has_histogram], numerical_column_stats.py 141-143):
      after numbers were seen with histograms switched on; merging keeps it only if both have one
      (345-353). Failures of histograms are left out. *)
  Fixpoint has_histogram (h : history) : bool :=
    match h with
    | New _ => false
    | Update h n => has_histogram h || (negb (n =? 0) && lmem (switched h) "histogram_and_quantiles"%string)
    | Merged a b => lmem (switched (Merged a b)) "histogram_and_quantiles"%string && has_histogram a && has_histogram b
    end.

  (** The times after the history and the number of clock readings; the objects are the column
      itself (0) or the merged column (0) and its operands (1, 2). *)
  Fixpoint run (h : history) (i : nat) : dict string Q * nat :=
    match h with
    | New _ => ([], i)
    | Update h n =>
        let '(d, i1) := run h i in
        let '(s, _) := exec_all clock (numeric_update 0 (switched h) n) (mkState i1 (fun _ => d)) in
        (times_of s 0, readings s)
    | Merged a b =>
        let '(da, i1) := run a i in
        let '(db, i2) := run b i1 in
        let histograms := lmem (switched (Merged a b)) "histogram_and_quantiles"%string && has_histogram a && has_histogram b in
        let '(s, _) := exec_all clock (numeric_merge 0 1 2 histograms)
                         (mkState i2 (fun o => if o =? 1 then da else if o =? 2 then db else [])) in
        (times_of s 0, readings s)
    end.
End Run.
