(** Model of the numeric column statistics (finite values).
    Source: dataprofiler/profilers/numerical_column_stats.py, int_column_profile.py,
    float_column_profile.py, base_column_profilers.py.
    Floats are rationals; nan is [None]. Times, metadata and _batch_history are left out.
    All statistics are enabled. *)
From Verif Require Import PyCommon QFacts.
Open Scope nat_scope.

(** State (numerical_column_stats.py:56-70, base_column_profilers.py:32-46 and 316-328). *)
Record num := mkNum {
  nm_sample : nat;            (* sample_size *)
  nm_match : nat;             (* match_count *)
  nm_min : option Q;          (* min *)
  nm_max : option Q;          (* max *)
  nm_sum : Q;                 (* sum *)
  nm_var : option Q;          (* _biased_variance, None for nan *)
  nm_zeros : nat;             (* num_zeros *)
  nm_negs : nat;              (* num_negatives *)
  nm_bias : bool              (* bias_correction *)
}.

Definition num_new (bias : bool) : num := mkNum 0 0 None None 0%Q None 0 0 bias.

(** mean (lines 538-543) *)
Definition mean (s : num) : Q :=
  if nm_match s =? 0 then 0%Q else (nm_sum s / Qn (nm_match s))%Q.

(** _get_min (lines 1765-1774): [not self.min] holds for None and for 0. *)
Definition get_min (cur : option Q) (min_value : Q) : Q :=
  match cur with
  | None => min_value
  | Some m => if Qeq_bool m 0 then min_value else pymin m min_value
  end.

(** _get_max (lines 1776-1785) *)
Definition get_max (cur : option Q) (max_value : Q) : Q :=
  match cur with
  | None => max_value
  | Some m => if Qeq_bool m 0 then max_value else pymax m max_value
  end.

(** _merge_biased_variance (lines 842-880) *)
Definition merge_biased_variance (n1 : nat) (v1 : option Q) (m1 : Q)
    (n2 : nat) (v2 : option Q) (m2 : Q) : option Q :=
  if n1 <? 1 then v2
  else if n2 <? 1 then v1
  else match v1, v2 with
  | Some v1, Some v2 =>
      let delta := (m2 - m1)%Q in
      let m_curr := (v1 * Qn n1)%Q in
      let m_batch := (v2 * Qn n2)%Q in
      let M2 := (m_curr + m_batch + delta * delta * Qn n1 * Qn n2 / (Qn n1 + Qn n2))%Q in
      Some (M2 / (Qn n1 + Qn n2))%Q
  | _, _ => None
  end.

(** _correct_bias_variance (lines 882-896), variance (lines 569-576) *)
Definition correct_bias_variance (n : nat) (v : option Q) : option Q :=
  if n <? 2 then None
  else match v with
       | Some v => Some (Qn n / (Qn n - 1) * v)%Q
       | None => None
       end.
Definition variance (s : num) : option Q :=
  if negb (nm_bias s) then nm_var s else correct_bias_variance (nm_match s) (nm_var s).

(** NumericStatsMixin._update_helper (lines 1734-1763) with _get_min, _get_max, _get_sum
    (1787-1807), _get_variance (1809-1837), _get_num_zeros (1948-1968) and
    _get_num_negatives (1970-1990): the statistics of the rows of the column's type. The mean
    used for the variance is the one before the batch; match_count is still the old one. *)
Definition update_stats (s : num) (x : Q) (l : list Q) : num :=
  let batch := x :: l in
  let sum_value := qsum batch in
  let var :=
    match nm_var s with
    | None => if 0 <? nm_match s then None      (* nan with matches: return *)
              else merge_biased_variance (nm_match s) None (mean s)
                     (length batch) (Some (qvar batch)) (sum_value / Qn (length batch))
    | Some v => merge_biased_variance (nm_match s) (Some v) (mean s)
                  (length batch) (Some (qvar batch)) (sum_value / Qn (length batch))
    end in
  mkNum (nm_sample s) (nm_match s)
    (Some (get_min (nm_min s) (list_min x l)))
    (Some (get_max (nm_max s) (list_max x l)))
    (nm_sum s + sum_value)%Q var
    (nm_zeros s + length (filter (fun q => Qeq_bool q 0) batch))
    (nm_negs s + length (filter (fun q => negb (Qle_bool 0 q)) batch))
    (nm_bias s).

(** The rows of the batch which are of the column's type ([None]: the cell is not). *)
Definition matched (batch : list (option Q)) : list Q :=
  flat_map (fun c => match c with Some q => [q] | None => [] end) batch.

(** update of IntColumn (int_column_profile.py:151-179) and FloatColumn
    (float_column_profile.py:433-462): stats of the matching rows unless there are none (line
    1743), then sample size and match count. *)
Definition update (s : num) (batch : list (option Q)) : num :=
  match batch with
  | [] => s
  | _ :: _ =>
      let s' := match matched batch with
                | [] => s
                | x :: l => update_stats s x l
                end in
      mkNum (nm_sample s' + length batch) (nm_match s' + length (matched batch))
        (nm_min s') (nm_max s') (nm_sum s') (nm_var s') (nm_zeros s') (nm_negs s') (nm_bias s')
  end.

(** Merge of optional extrema in _add_helper (lines 306-319). *)
Definition merge_opt (f : Q -> Q -> Q) (a b : option Q) : option Q :=
  match a, b with
  | Some x, Some y => Some (f x y)
  | _, None => a
  | None, _ => b
  end.

(** NumericStatsMixin._add_helper (lines 266-345) and
    BaseColumnPrimitiveTypeProfiler._add_helper (base_column_profilers.py:326-339). The
    checks of name and index are in CategoricalModel ([add_index], [name_eqb]). *)
Definition add (a b : num) : num :=
  mkNum (nm_sample a + nm_sample b) (nm_match a + nm_match b)
    (merge_opt pymin (nm_min a) (nm_min b))
    (merge_opt pymax (nm_max a) (nm_max b))
    (nm_sum a + nm_sum b)%Q
    (merge_biased_variance (nm_match a) (nm_var a) (mean a) (nm_match b) (nm_var b) (mean b))
    (nm_zeros a + nm_zeros b) (nm_negs a + nm_negs b)
    (negb (negb (nm_bias a) || negb (nm_bias b))).

(** data_type_ratio (int_column_profile.py:103-113, float_column_profile.py:264-274) *)
Definition data_type_ratio (s : num) : option Q :=
  if negb (nm_sample s =? 0) then Some (Qn (nm_match s) / Qn (nm_sample s))%Q else None.

(** ** Precision of float columns *)
(** [_precision] once set (float_column_profile.py:44-52). *)
Record prec := mkPrec {
  pr_min : Q; pr_max : Q; pr_sum : Q; pr_mean : Q; pr_var : option Q; pr_n : nat }.

(** _get_float_precision (lines 276-322): statistics of the numbers of significant figures of
    the sampled cells. The sampling and the regular expression are outside: [x :: l] are
    the lengths after them. *)
Definition get_float_precision (x : Q) (l : list Q) : prec :=
  mkPrec (list_min x l) (list_max x l) (qsum (x :: l))
    (qsum (x :: l) / Qn (length (x :: l))) (Some (qvar (x :: l))) (length (x :: l)).

(** _update_precision (lines 343-395): note that sample_size is advanced before
    _merge_biased_variance reads it. *)
Definition update_precision (s : option prec) (batch : list Q) : option prec :=
  match batch with
  | [] => s
  | x :: l =>
      let sub := get_float_precision x l in
      match s with
      | None => Some sub
      | Some p =>
          let n := pr_n p + pr_n sub in
          let sum := (pr_sum p + pr_sum sub)%Q in
          Some (mkPrec (pymin (pr_min p) (pr_min sub)) (pymax (pr_max p) (pr_max sub)) sum
            (sum / Qn n)
            (merge_biased_variance n (pr_var p) (pr_mean p) (pr_n sub) (pr_var sub) (pr_mean sub))
            n)
      end
  end.

(** The precision part of FloatColumn.__add__ (lines 90-122). *)
Definition add_precision (a b : option prec) : option prec :=
  match a, b with
  | None, _ => b
  | Some _, None => a
  | Some p, Some q =>
      let n := pr_n p + pr_n q in
      let sum := (pr_sum p + pr_sum q)%Q in
      Some (mkPrec (pymin (pr_min p) (pr_min q)) (pymax (pr_max p) (pr_max q)) sum (sum / Qn n)
        (merge_biased_variance (pr_n p) (pr_var p) (pr_mean p) (pr_n q) (pr_var q) (pr_mean q)) n)
  end.
