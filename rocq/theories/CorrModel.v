(** Model of the correlation matrix of structured profiles: profilers/profile_builder.py 2299-2550.

    Floats are the real numbers of the standard library; [None] is nan or an infinity.  A table has [k] columns; which of
    them are numeric does not change, and no cell of a numeric column is other than a number or null.  Cells of other
    columns are [Some 0] or null.  All rows are profiled (fewer than the least sample size), row statistics are enabled,
    correlations are requested for all columns.  The clipping of [np.corrcoef] to [-1, 1] changes nothing. *)
From Coq Require Import Reals.
From Verif Require Import PyCommon MomentModel.
Local Open Scope R_scope.

(** A row: the cell of every column; a matrix: the entry of every pair of columns *)
Definition row := nat -> option R.
Definition mat := nat -> nat -> option R.

Definition is_some {X} (o : option X) : bool := match o with Some _ => true | None => false end.

(** The non-null values of a column *)
Definition values (i : nat) (rows : list row) : list R := flat_map (fun r => match r i with Some x => [x] | None => [] end) rows.

Record prof := mkProf { p_total : nat; p_null : nat; p_cols : nat -> col; p_corr : option mat }.

Section Table.
Variable k : nat.
Variable numeric : nat -> bool.

Definition all_cols : list nat := seq 0 k.
Definition num_cols : list nat := filter numeric all_cols.

Definition has_value (cols : list nat) (r : row) : bool := existsb (fun i => is_some (r i)) cols.

(** _get_correlation_dependent_properties with a batch, 2476-2488 *)
Definition batch_mean (rows : list row) (i : nat) : option R :=
  if numeric i then match values i rows with [] => None | l => Some (rsum l / INR (length l)) end else None.
Definition batch_std (rows : list row) (i : nat) : option R :=
  if numeric i then
    match np_var (values i rows) with
    | None => None
    | Some v => let n := length (values i rows) in if (n <=? 1)%nat then None else Some (sqrt (v * INR n / (INR n - 1)))
    end
  else None.

(** _get_correlation, 2313-2329: the rows with a value in a numeric column, nulls replaced by the mean of the batch *)
Definition frame (rows : list row) : list row := filter (has_value num_cols) rows.
Definition imputed (rows : list row) (i : nat) : list R :=
  map (fun r => match r i with Some x => x | None => match batch_mean rows i with Some m => m | None => 0 end end) (frame rows).

(** 2331-2341: the standard deviations of the batch with its nulls replaced *)
Definition adjusted_std (rows : list row) (i : nat) : option R :=
  let len := length (frame rows) in
  if existsb (fun i => if numeric i then negb (len =? length (values i rows))%nat else true) all_cols
  then match batch_std rows i with
       | None => None
       | Some s => if (len <=? 1)%nat then None else Some (sqrt (s ^ 2 * (INR (length (values i rows)) - 1) / (INR len - 1)))
       end
  else batch_std rows i.

(** [np.corrcoef] of two columns: their covariance over the product of their standard deviations, all with [n - 1] *)
Definition corrcoef (xs ys : list R) : option R :=
  let n := INR (length xs) in
  if (length xs <=? 1)%nat then None
  else
    let mx := rsum xs / n in
    let my := rsum ys / n in
    let cov := rsum (map (fun p => (fst p - mx) * (snd p - my)) (combine xs ys)) / (n - 1) in
    let sx := sqrt (rsum (map (fun x => (x - mx) ^ 2) xs) / (n - 1)) in
    let sy := sqrt (rsum (map (fun y => (y - my) ^ 2) ys) / (n - 1)) in
    if Req_EM_T (sx * sy) 0 then None else Some (cov / sx / sy).

(** 2343-2353 *)
Definition batch_corr (rows : list row) : mat := fun i j =>
  if numeric i && numeric j then corrcoef (imputed rows i) (imputed rows j) else None.

(** _merge_correlation_helper, 2523-2550 *)
Definition helper (c1 : option mat) (m1 s1 : nat -> option R) (n1 : nat) (c2 : option mat) (m2 s2 : nat -> option R) (n2 : nat) : option mat :=
  match c1, c2 with
  | None, _ => c2
  | _, None => c1
  | Some a1, Some a2 =>
      if (k =? 0)%nat then c2
      else Some (fun i j =>
        match a1 i j, a2 i j, (s1 i, s1 j), (s2 i, s2 j), (m1 i, m1 j), (m2 i, m2 j) with
        | Some r1, Some r2, (Some s1i, Some s1j), (Some s2i, Some s2j), (Some m1i, Some m1j), (Some m2i, Some m2j) =>
            let x := INR n1 in let y := INR n2 in let n := x + y in
            let cov1 := r1 * (s1i * s1j) in
            let cov2 := r2 * (s2i * s2j) in
            let cov := (cov1 * (x - 1) + cov2 * (y - 1) + (m1i - m2i) * (m1j - m2j) * (x * y) / n) / (n - 1) in
            let M2i := (x - 1) * s1i ^ 2 + (y - 1) * s2i ^ 2 + (m2i - m1i) ^ 2 * x * y / n in
            let M2j := (x - 1) * s1j ^ 2 + (y - 1) * s2j ^ 2 + (m2j - m1j) ^ 2 * x * y / n in
            let std := sqrt (M2i / (n - 1)) * sqrt (M2j / (n - 1)) in
            if Req_EM_T std 0 then None else Some (cov / std)
        | _, _, _, _, _, _ => None
        end)
  end.

(** Rows that are not null in all columns: [total_samples - row_is_null_count] *)
Definition p_rows (p : prof) : nat := p_total p - p_null p.

(** _get_correlation_dependent_properties without a batch, 2465-2475 *)
Definition prev_mean (p : prof) (i : nat) : option R := if numeric i then Some (mean (p_cols p i)) else None.
Definition prev_std (p : prof) (i : nat) : option R :=
  if numeric i then
    match c_var (p_cols p i) with
    | None => None
    | Some v => if (p_rows p =? 1)%nat then None else Some (sqrt (v * INR (c_n (p_cols p i)) / (INR (p_rows p) - 1)))
    end
  else None.

Definition new_prof (bias : bool) : prof := mkProf 0 0 (fun _ => new bias) None.

(** update_profile 939-997 (nothing is done for an empty data set), _update_profile_from_chunk 2857-3030 and
    _update_correlation 2356-2377; what was known before the batch is taken before the columns are updated *)
Definition update_prof (p : prof) (rows : list row) : prof :=
  match rows with
  | [] => p
  | _ =>
      mkProf (p_total p + length rows) (p_null p + length (filter (fun r => negb (has_value all_cols r)) rows))
        (fun i => if numeric i then update (p_cols p i) (values i rows) else p_cols p i)
        (helper (p_corr p) (prev_mean p) (prev_std p) (p_rows p)
                (Some (batch_corr rows)) (batch_mean rows) (adjusted_std rows) (length (frame rows)))
  end.

(** The reported stddev of a column: the square root of the variance, corrected if so requested;
    numerical_column_stats.py 569-583 and 883-896 *)
Definition variance (c : col) : option R :=
  if negb (c_bias c) then c_var c
  else match c_var c with
       | None => None
       | Some v => if (c_n c <? 2)%nat then None else let n := INR (c_n c) in Some (n / (n - 1) * v)
       end.
Definition stddev (c : col) : option R := match variance c with None => None | Some v => Some (sqrt v) end.

(** Columns of the matrix that are not nan throughout, 2400-2401 *)
Definition known_cols (m : mat) : list nat := filter (fun j => existsb (fun i => is_some (m i j)) all_cols) all_cols.

Fixpoint same_ids (a b : list nat) : bool :=
  match a, b with [], [] => true | x :: a, y :: b => (x =? y)%nat && same_ids a b | _, _ => false end.

(** _merge_correlation, 2380-2439.  Means and standard deviations are collected for the known columns only, the matrices
    are whole: numpy refuses to multiply them unless all columns are known. *)
Definition merge_correlation (p q : prof) : result (option mat) :=
  let n1 := p_rows p in
  let n2 := p_rows q in
  if (n1 =? 0)%nat then Ok (p_corr q)
  else if (n2 =? 0)%nat then Ok (p_corr p)
  else match p_corr p, p_corr q with
  | Some a, Some b =>
      let ids1 := known_cols a in
      let ids2 := known_cols b in
      if negb (length ids1 =? length ids2)%nat || (length ids1 <=? 1)%nat then Ok None
      else if negb (same_ids ids1 ids2) then Ok None
      else if (length ids1 =? k)%nat then
        Ok (helper (p_corr p) (fun i => Some (mean (p_cols p i))) (fun i => stddev (p_cols p i)) n1
                   (p_corr q) (fun i => Some (mean (p_cols q i))) (fun i => stddev (p_cols q i)) n2)
      else Err ValueError
  | _, _ => Ok None
  end.

(** __add__, 1771-1850 and 768-805: column [i] of the first profile is merged with column [f i] of the second; the
    correlations do not use [f] *)
Definition add_prof (f : nat -> nat) (p q : prof) : result prof :=
  bind (merge_correlation p q) (fun c =>
  Ok (mkProf (p_total p + p_total q) (p_null p + p_null q) (fun i => add (p_cols p i) (p_cols q (f i))) c)).

Inductive chist := CNew (bias : bool) | CUpd (h : chist) (rows : list row) | CAdd (f : nat -> nat) (h1 h2 : chist).

Fixpoint crun (h : chist) : result prof :=
  match h with
  | CNew b => Ok (new_prof b)
  | CUpd h rows => bind (crun h) (fun p => Ok (update_prof p rows))
  | CAdd f h1 h2 => bind (crun h1) (fun p => bind (crun h2) (fun q => add_prof f p q))
  end.
End Table.
