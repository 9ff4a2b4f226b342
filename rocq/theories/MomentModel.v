(** Model of the skewness and kurtosis of numeric columns: profilers/numerical_column_stats.py and profiler_utils.py.

    Floats are the real numbers of the standard library; nan is [None].  Values are finite and all statistics enabled.
    [np.power(x, 1.5)] is [sqrt (x^3)], which is the same for [0 <= x]. *)
From Coq Require Import Reals.
From Verif Require Import PyCommon.
Local Open Scope R_scope.

(** [sum] of a series *)
Definition rsum (l : list R) : R := fold_right Rplus 0 l.

(** [0 if np.abs(x) < 1e-14 else x] *)
Definition tiny : R := / 10 ^ 14.
Definition cut_tiny (x : R) : R := if Rlt_dec (Rabs x) tiny then 0 else x.

(** biased_skew, profiler_utils.py 323-357 *)
Definition biased_skew (l : list R) : option R :=
  match l with
  | [] => None
  | _ =>
      let n := INR (length l) in
      let mean := rsum l / n in
      let M2 := cut_tiny (rsum (map (fun x => (x - mean) ^ 2) l)) in
      let M3 := cut_tiny (rsum (map (fun x => (x - mean) ^ 2 * (x - mean)) l)) in
      Some (if Req_EM_T M2 0 then 0 else sqrt n * M3 / sqrt (M2 ^ 3))
  end.

(** biased_kurt, 361-396 *)
Definition biased_kurt (l : list R) : option R :=
  match l with
  | [] => None
  | _ =>
      let n := INR (length l) in
      let mean := rsum l / n in
      let M2 := cut_tiny (rsum (map (fun x => (x - mean) ^ 2) l)) in
      let M4 := cut_tiny (rsum (map (fun x => (x - mean) ^ 2 * (x - mean) ^ 2) l)) in
      Some (if Req_EM_T M2 0 then -3 else n * M4 / M2 ^ 2 - 3)
  end.

(** [np.var] of a batch that is not empty *)
Definition np_var (l : list R) : option R :=
  match l with
  | [] => None
  | _ => let n := INR (length l) in let mean := rsum l / n in Some (rsum (map (fun x => (x - mean) ^ 2) l) / n)
  end.

Record col := mkCol { c_n : nat; c_sum : R; c_var : option R; c_skew : option R; c_kurt : option R; c_bias : bool }.

Definition mean (c : col) : R := if (c_n c =? 0)%nat then 0 else c_sum c / INR (c_n c).

Definition new (bias : bool) : col := mkCol 0 0 None None None bias.

(** _merge_biased_variance, numerical_column_stats.py 842-880 *)
Definition merge_variance (n1 : nat) (v1 : option R) (mean1 : R) (n2 : nat) (v2 : option R) (mean2 : R) : option R :=
  if (n1 <? 1)%nat then v2
  else if (n2 <? 1)%nat then v1
  else match v1, v2 with
  | Some v1, Some v2 =>
      let a := INR n1 in let b := INR n2 in
      let delta := mean2 - mean1 in
      let M2 := v1 * a + v2 * b + delta ^ 2 * a * b / (a + b) in
      Some (M2 / (a + b))
  | _, _ => None
  end.

(** [if not M2], 936 and 1021: the sum of squares about the mean of both chunks *)
Definition merged_M2 (a b v1 v2 delta : R) : R := a * v1 + b * v2 + delta ^ 2 * a * b / (a + b).

(** The terms computed from the skewness, 939-940 and 1024-1025 *)
Definition third (s a M2 : R) : R := s * sqrt (M2 ^ 3) / sqrt a.

(** _merge_biased_skewness, 898-953; variances are nan only if the skewness is *)
Definition merge_skewness (n1 : nat) (s1 v1 : option R) (mean1 : R) (n2 : nat) (s2 v2 : option R) (mean2 : R) : option R :=
  if (n1 <? 1)%nat then s2
  else if (n2 <? 1)%nat then s1
  else match s1, s2, v1, v2 with
  | Some s1, Some s2, Some v1, Some v2 =>
      let a := INR n1 in let b := INR n2 in
      let delta := mean2 - mean1 in
      let N := a + b in
      let M2_1 := a * v1 in
      let M2_2 := b * v2 in
      let M2 := merged_M2 a b v1 v2 delta in
      if Req_EM_T M2 0 then Some 0
      else
        let first_term := third s1 a M2_1 + third s2 b M2_2 in
        let second_term := delta ^ 3 * a * b * (a - b) / N ^ 2 in
        let third_term := 3 * delta * (a * M2_2 - b * M2_1) / N in
        let M3 := first_term + second_term + third_term in
        Some (sqrt N * M3 / sqrt (M2 ^ 3))
  | _, _, _, _ => None
  end.

(** _merge_biased_kurtosis, 983-1052 *)
Definition merge_kurtosis (n1 : nat) (k1 s1 v1 : option R) (mean1 : R) (n2 : nat) (k2 s2 v2 : option R) (mean2 : R) : option R :=
  if (n1 <? 1)%nat then k2
  else if (n2 <? 1)%nat then k1
  else match k1, k2, (s1, s2), (v1, v2) with
  | Some k1, Some k2, (Some s1, Some s2), (Some v1, Some v2) =>
      let a := INR n1 in let b := INR n2 in
      let delta := mean2 - mean1 in
      let N := a + b in
      let M2_1 := a * v1 in
      let M2_2 := b * v2 in
      let M2 := merged_M2 a b v1 v2 delta in
      if Req_EM_T M2 0 then Some 0
      else
        let M3_1 := third s1 a M2_1 in
        let M3_2 := third s2 b M2_2 in
        let M4_1 := (k1 + 3) * M2_1 ^ 2 / a in
        let M4_2 := (k2 + 3) * M2_2 ^ 2 / b in
        let first_term := M4_1 + M4_2 in
        let second_term := delta ^ 4 * (a * b * (a ^ 2 - a * b + b ^ 2)) / N ^ 3 in
        let third_term := 6 * delta ^ 2 * (a ^ 2 * M2_2 + b ^ 2 * M2_1) / N ^ 2 in
        let fourth_term := 4 * delta * (a * M3_2 - b * M3_1) / N in
        let M4 := first_term + second_term + third_term + fourth_term in
        Some (N * M4 / M2 ^ 2 - 3)
  | _, _, _, _ => None
  end.

(** _update_helper, 1734-1763, with _get_sum, _get_variance (1811-1837), _get_skewness (1840-1881) and _get_kurtosis
    (1884-1928): what the columns held before the batch is merged with the statistics of the batch; nothing more is
    computed once a statistic is nan *)
Definition keep {X} (c : col) (old : option X) (merged : option X) : option X :=
  match old with None => if (0 <? c_n c)%nat then None else merged | Some _ => merged end.

Definition update (c : col) (batch : list R) : col :=
  match batch with
  | [] => c
  | _ =>
      let n := length batch in
      let m := rsum batch / INR n in
      mkCol (c_n c + n) (c_sum c + rsum batch)
        (keep c (c_var c) (merge_variance (c_n c) (c_var c) (mean c) n (np_var batch) m))
        (keep c (c_skew c) (merge_skewness (c_n c) (c_skew c) (c_var c) (mean c) n (biased_skew batch) (np_var batch) m))
        (keep c (c_kurt c) (merge_kurtosis (c_n c) (c_kurt c) (c_skew c) (c_var c) (mean c) n (biased_kurt batch) (biased_skew batch) (np_var batch) m))
        (c_bias c)
  end.

(** _add_helper, 266-345 *)
Definition add (x y : col) : col :=
  mkCol (c_n x + c_n y) (c_sum x + c_sum y)
    (merge_variance (c_n x) (c_var x) (mean x) (c_n y) (c_var y) (mean y))
    (merge_skewness (c_n x) (c_skew x) (c_var x) (mean x) (c_n y) (c_skew y) (c_var y) (mean y))
    (merge_kurtosis (c_n x) (c_kurt x) (c_skew x) (c_var x) (mean x) (c_n y) (c_kurt y) (c_skew y) (c_var y) (mean y))
    (c_bias x && c_bias y).

(** _correct_bias_skewness, 955-981, and skewness, 585-592 *)
Definition skewness (c : col) : option R :=
  if negb (c_bias c) then c_skew c
  else match c_skew c with
       | None => None
       | Some g => if (c_n c <? 3)%nat then None
                   else let n := INR (c_n c) in Some (sqrt (n * (n - 1)) * g / (n - 2))
       end.

(** _correct_bias_kurtosis, 1054-1080, and kurtosis, 594-601 *)
Definition kurtosis (c : col) : option R :=
  if negb (c_bias c) then c_kurt c
  else match c_kurt c with
       | None => None
       | Some g => if (c_n c <? 4)%nat then None
                   else let n := INR (c_n c) in Some ((n - 1) / ((n - 2) * (n - 3)) * ((n + 1) * (g + 3) - 3 * (n - 1)))
       end.

Inductive hist := HNew (bias : bool) | HUpd (h : hist) (batch : list R) | HAdd (h1 h2 : hist).

Fixpoint run (h : hist) : col :=
  match h with
  | HNew b => new b
  | HUpd h batch => update (run h) batch
  | HAdd h1 h2 => add (run h1) (run h2)
  end.
