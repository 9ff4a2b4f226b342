(** Model of the null replication metrics of a table: profilers/profile_builder.py, _update_null_replication_metrics
    (2589-2687) and _merge_null_replication_metrics (2689-2787), with what they use of the columns (numbers of nulls and
    rows, row labels of nulls and their shift, 441-476, sums of values).

    Labels of rows are integers and differ within a batch; all rows are sampled; all columns have the same row labels, so
    the bounds of the labels and their shift are kept once.  A value has a number (if it can be read as one), is a date or
    not, and has a length; numbers are exact. *)
From Coq Require Import ZArith QArith.
From Verif Require Import QFacts PyCommon PyDict.
Local Open Scope nat_scope.

Record val := mkVal { v_num : option Q; v_date : bool; v_len : nat }.
(** None is a null *)
Definition cell := option val.
Definition rowt := (Z * list cell)%type.
Definition cell_at (r : rowt) (j : nat) : cell := nth j (snd r) None.
Definition is_null (r : rowt) (j : nat) : bool := match cell_at r j with None => true | Some _ => false end.

Record colst := mkColst { k_nulls : nat; k_size : nat; k_index : list Z; k_vals : list val }.
Record metric := mkMetric {
  m_prior : Q * Q;                               (* class_prior: not null, null *)
  m_sum : list (option Q) * list Q;              (* class_sum; None is nan *)
  m_mean : list (option Q) * list Q }.           (* class_mean *)
Record prof := mkProf { p_cols : list colst; p_ids : option (Z * Z); p_shift : option Z; p_metrics : dict nat metric }.
Definition new_prof (ncols : nat) : prof := mkProf (repeat (mkColst 0 0 [] []) ncols) None None [].

Definition nullb (r : rowt) (j : nat) (f : rowt -> Z) : list Z := if is_null r j then [f r] else [].
(** min and max of the labels *)
Fixpoint bounds (rows : list rowt) : option (Z * Z) :=
  match rows with
  | [] => None
  | (z, _) :: r => match bounds r with Some (lo, hi) => Some (Z.min z lo, Z.max z hi) | None => Some (z, z) end
  end.
(** profiler_utils.overlap, 284-288 *)
Definition overlap (x y : option (Z * Z)) : bool :=
  match x, y with
  | Some (x1, x2), Some (y1, y2) =>
      (((y1 <=? x1) && (x1 <=? y2)) || ((y1 <=? x2) && (x2 <=? y2)) || ((x1 <=? y1) && (y1 <=? x2)) || ((x1 <=? y2) && (y2 <=? x2)))%Z
  | _, _ => false
  end.
Definition join_ids (x y : option (Z * Z)) : option (Z * Z) :=
  match x, y with
  | None, _ => y
  | Some _, None => x
  | Some (lo, hi), Some (lo', hi') => Some (Z.min lo lo', Z.max hi hi')
  end.
Definition shift_ids (s : Z) (x : option (Z * Z)) : option (Z * Z) := match x with Some (lo, hi) => Some (lo + s, hi + s)%Z | None => None end.
(** [self._max_id + 1] *)
Definition next_label (x : option (Z * Z)) : Z := match x with Some (_, hi) => (hi + 1)%Z | None => 0%Z end.

(** _update_base_stats, 430-476, and the values of the column *)
Definition update_col (shift : Z) (rows : list rowt) (j : nat) (c : colst) : colst :=
  mkColst (k_nulls c + length (filter (fun r => is_null r j) rows)) (k_size c + length rows)
          (k_index c ++ flat_map (fun r => nullb r j (fun r => fst r + shift)%Z) rows)
          (k_vals c ++ flat_map (fun r => match cell_at r j with Some v => [v] | None => [] end) rows).

Definition mapi {A B} (f : nat -> A -> B) (l : list A) : list B := map (fun p => f (fst p) (snd p)) (combine (seq 0 (length l)) l).

(** The sum of the selected data type: numbers, or lengths of texts; none without values *)
Definition all_dates (l : list val) : bool := forallb v_date l.
Definition all_numbers (l : list val) : bool := forallb (fun v => match v_num v with Some _ => true | None => false end) l.
Definition number (v : val) : Q := match v_num v with Some q => q | None => 0%Q end.
Definition type_sum (l : list val) : Q :=
  if all_numbers l then qsum (map number l) else qsum (map (fun v => Qn (v_len v)) l).
(** 2611-2618: nan for columns of dates and columns without values *)
Definition col_sum (c : colst) : option Q :=
  match k_vals c with [] => None | l => if all_dates l then None else Some (type_sum l) end.

Definition minus (a : option Q) (b : Q) : option Q := match a with Some x => Some (x - b)%Q | None => None end.
Definition divide (a : option Q) (n : nat) : option Q := match a with Some x => Some (x / Qn n)%Q | None => None end.
(** [np.delete(total_row_sum, col_id)] *)
Definition delete_at {A} (i : nat) (l : list A) : list A := firstn i l ++ skipn (S i) l.
Definition qadd (a b : list Q) : list Q := map (fun p => (fst p + snd p)%Q) (combine a b).

(** 2662-2687 and 2762-2785: the metrics of a column *)
Definition make_metric (ncols nulls size : nat) (total : list (option Q)) (i : nat) (sum_null : list Q) : metric :=
  let true_count := size - nulls in
  let prior := (Qn true_count / Qn size, Qn nulls / Qn size)%Q in
  let sum_not := map (fun p => minus (fst p) (snd p)) (combine (delete_at i total) sum_null) in
  let nans := repeat None (ncols - 1) in
  mkMetric prior (if true_count =? 0 then nans else sum_not, sum_null)
           (if true_count =? 0 then nans else map (fun s => divide s true_count) sum_not, map (fun s => s / Qn nulls)%Q sum_null).

(** 2636-2652: the sums over the rows of the batch whose label belongs to a null of the column; rows with only nulls are not
    among the clean samples; [order] is the order of the columns of the batch *)
Definition batch_sums (order : list nat) (rows : list rowt) (null_indices : list Z) (i : nat) : list Q :=
  let present := filter (fun r => existsb (fun j => negb (is_null r j)) order) rows in
  let chosen := filter (fun r => existsb (Z.eqb (fst r)) null_indices) present in
  map (fun j => qsum (map (fun r => match cell_at r j with Some v => number v | None => 0%Q end) chosen)) (filter (fun j => negb (j =? i)) order).

(** _update_null_replication_metrics *)
Definition update_metric (order : list nat) (rows : list rowt) (shift : option Z) (cols : list colst) (d : dict nat metric) (i : nat) (c : colst) : dict nat metric :=
  if k_nulls c =? 0 then d
  else
    let null_indices := match shift with Some s => filter (fun z => 0 <=? z)%Z (map (fun z => z - s)%Z (k_index c)) | None => k_index c end in
    let sums := batch_sums order rows null_indices i in
    let sums := match dget d i with Some m => qadd sums (snd (m_sum m)) | None => sums end in
    dset d i (make_metric (length cols) (k_nulls c) (k_size c) (map col_sum cols) i sums).

(** The update of a table with a batch: base statistics, then metrics *)
Definition update_prof (p : prof) (order : list nat) (rows : list rowt) : prof :=
  match rows with
  | [] => p
  | _ =>
      let ids := bounds rows in
      let ov := overlap (p_ids p) ids in
      let s := if ov then next_label (p_ids p) else 0%Z in
      let shift := if ov then Some s else p_shift p in
      let cols := mapi (update_col s rows) (p_cols p) in
      let metrics := fold_left (fun d ic => update_metric order rows shift cols d (fst ic) (snd ic)) (combine (seq 0 (length cols)) cols) (p_metrics p) in
      mkProf cols (join_ids (p_ids p) (shift_ids s ids)) shift metrics
  end.

(** With correlations enabled, _get_correlation (2319-2328) has removed the columns which are not numbers from the samples of
    the batch before the metrics are computed (3006-3023).  Arrays of different lengths can only be subtracted if one of them
    has length 1; this case is not modelled (None). *)
Definition numeric_col (c : colst) : bool := match k_vals c with [] => false | l => negb (all_dates l) && all_numbers l end.
Definition update_with_correlation (p : prof) (rows : list rowt) : option (result prof) :=
  let cols := p_cols (update_prof p [] rows) in
  let order := filter (fun j => numeric_col (nth j cols (mkColst 0 0 [] []))) (seq 0 (length cols)) in
  let lengths := map (fun ic => length (filter (fun j => negb (j =? fst ic)) order)) (filter (fun ic => negb (k_nulls (snd ic) =? 0)) (combine (seq 0 (length cols)) cols)) in
  if forallb (fun n => n =? length cols - 1) lengths then Some (Ok (update_prof p order rows))
  else if existsb (fun n => negb (n =? length cols - 1) && negb (n =? 1)) lengths && negb (length cols - 1 =? 1) then Some (Err ValueError)
  else None.

(** StructuredColProfiler.__add__, 219-250: the labels of the second one are shifted if the ranges overlap *)
Definition add_col (s : Z) (a b : colst) : colst :=
  mkColst (k_nulls a + k_nulls b) (k_size a + k_size b) (k_index a ++ map (fun z => z + s)%Z (k_index b)) (k_vals a ++ k_vals b).

(** 2706-2724: the sum of a column, with an error for columns of dates, which have no sum *)
Definition merge_sum (c : colst) : result (option Q) :=
  match k_vals c with [] => Ok None | l => if all_dates l then Err AttributeError else Ok (Some (type_sum l)) end.
Fixpoint merge_sums (l : list colst) : result (list (option Q)) :=
  match l with [] => Ok [] | c :: r => bind (merge_sum c) (fun s => bind (merge_sums r) (fun rest => Ok (s :: rest))) end.
Definition plus (a b : option Q) : option Q := match a, b with Some x, Some y => Some (x + y)%Q | _, _ => None end.

(** _merge_null_replication_metrics: columns by position *)
Definition merge_metric (a b : prof) (total : list (option Q)) (d : dict nat metric) (i : nat) (ca cb : colst) : dict nat metric :=
  let nulls := k_nulls ca + k_nulls cb in
  if nulls =? 0 then d
  else
    let zeros := repeat 0%Q (length (p_cols a) - 1) in
    let add s m := match m with Some m => qadd s (snd (m_sum m)) | None => s end in
    let sums := add (add zeros (dget (p_metrics a) i)) (dget (p_metrics b) i) in
    dset d i (make_metric (length (p_cols a)) nulls (k_size ca + k_size cb) total i sums).

(** StructuredProfiler.__add__, 1771-1856: [perm] gives the columns of the second table by their names *)
Definition add_prof (a b : prof) (perm : list nat) : result prof :=
  if existsb (fun c => k_size c =? 0) (p_cols a ++ p_cols b) then Err ZeroDivisionError
  else
    let ov := overlap (p_ids a) (p_ids b) in
    let s := if ov then next_label (p_ids a) else 0%Z in
    let cols := map (fun p => add_col s (fst p) (nth (snd p) (p_cols b) (mkColst 0 0 [] []))) (combine (p_cols a) perm) in
    bind (merge_sums (p_cols a)) (fun sa =>
    bind (merge_sums (p_cols b)) (fun sb =>
      let total := map (fun p => plus (fst p) (snd p)) (combine sa sb) in
      let metrics := fold_left (fun d x => merge_metric a b total d (fst x) (fst (snd x)) (snd (snd x)))
                               (combine (seq 0 (length (p_cols a))) (combine (p_cols a) (p_cols b))) [] in
      Ok (mkProf cols (join_ids (p_ids a) (shift_ids s (p_ids b))) (if ov then Some s else None) metrics))).
