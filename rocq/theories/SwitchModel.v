(** Model of numeric columns of which some statistics are switched off, and of their merging.
    Source: dataprofiler/profilers/numerical_column_stats.py, base_column_profilers.py.

    On top of NumericModel (exact rationals, finite values). Skewness, kurtosis and the histogram are
    left out of the statistics; the switches of what is read from the histogram are kept. *)
From Verif Require Import PyCommon QFacts NumericModel.
Open Scope nat_scope.

Inductive stat := SMin | SMax | SSum | SVar | SZeros | SNegs.

Definition stat_eqb (a b : stat) : bool :=
  match a, b with
  | SMin, SMin | SMax, SMax | SSum, SSum | SVar, SVar | SZeros, SZeros | SNegs, SNegs => true
  | _, _ => false
  end.

(** The keys of [__calculations], in their order (lines 118-128) *)
Definition all_stats : list stat := [SMin; SMax; SSum; SVar; SZeros; SNegs].

(** NumericalOptions *)
Record nopts := mkNopts {
  o_on : stat -> bool;       (* is_prop_enabled *)
  o_bias : bool;
  o_top : nat;               (* mode.top_k_modes *)
  o_median : bool;
  o_mode : bool;
  o_mad : bool;              (* median_abs_deviation *)
  o_quantiles : nat          (* histogram_and_quantiles.num_quantiles *)
}.

Record ncol := mkNcol {
  n_num : num;
  n_calcs : list stat;
  n_top : nat;
  n_median : bool;
  n_mode : bool;
  n_mad : bool;
  n_quantiles : nat }.

(** _filter_properties_w_options (base_column_profilers.py 81-95) *)
Definition filter_calcs (on : stat -> bool) (l : list stat) : list stat := filter on l.

(** __init__ with options (lines 56-128) *)
Definition new (o : nopts) : ncol :=
  mkNcol (num_new (o_bias o)) (filter_calcs (o_on o) all_stats) (o_top o) (o_median o) (o_mode o) (o_mad o)
    (o_quantiles o).

(** __init__ without options *)
Definition blank : ncol := mkNcol (num_new true) all_stats 5 true true true 1000.

(** One calculation on a batch [x :: l] (_get_min .. _get_num_negatives, lines 1765-1990). [pmean] is
    the mean before the batch; the result also has subset_properties["sum"]. *)
Definition calc (pmean : Q) (x : Q) (l : list Q) (st : stat) (a : num * option Q) : result (num * option Q) :=
  let '(s, sub) := a in
  let batch := x :: l in
  match st with
  | SMin => Ok (mkNum (nm_sample s) (nm_match s) (Some (get_min (nm_min s) (list_min x l))) (nm_max s) (nm_sum s)
                  (nm_var s) (nm_zeros s) (nm_negs s) (nm_bias s), sub)
  | SMax => Ok (mkNum (nm_sample s) (nm_match s) (nm_min s) (Some (get_max (nm_max s) (list_max x l))) (nm_sum s)
                  (nm_var s) (nm_zeros s) (nm_negs s) (nm_bias s), sub)
  | SSum => Ok (mkNum (nm_sample s) (nm_match s) (nm_min s) (nm_max s) (nm_sum s + qsum batch)%Q
                  (nm_var s) (nm_zeros s) (nm_negs s) (nm_bias s), Some (qsum batch))
  | SVar =>
      match nm_var s, 0 <? nm_match s with
      | None, true => Ok a
      | v, _ =>
          match sub with
          | None => Err KeyError
          | Some sum_value =>
              Ok (mkNum (nm_sample s) (nm_match s) (nm_min s) (nm_max s) (nm_sum s)
                    (merge_biased_variance (nm_match s) v pmean (length batch) (Some (qvar batch))
                       (sum_value / Qn (length batch)))
                    (nm_zeros s) (nm_negs s) (nm_bias s), sub)
          end
      end
  | SZeros => Ok (mkNum (nm_sample s) (nm_match s) (nm_min s) (nm_max s) (nm_sum s) (nm_var s)
                    (nm_zeros s + length (filter (fun q => Qeq_bool q 0) batch)) (nm_negs s) (nm_bias s), sub)
  | SNegs => Ok (mkNum (nm_sample s) (nm_match s) (nm_min s) (nm_max s) (nm_sum s) (nm_var s) (nm_zeros s)
                   (nm_negs s + length (filter (fun q => negb (Qle_bool 0 q)) batch)) (nm_bias s), sub)
  end.

(** _perform_property_calcs (base_column_profilers.py 98-122) *)
Fixpoint calcs (pmean : Q) (x : Q) (l : list Q) (todo : list stat) (a : num * option Q) : result (num * option Q) :=
  match todo with
  | [] => Ok a
  | st :: r => bind (calc pmean x l st a) (calcs pmean x l r)
  end.

Definition with_num (c : ncol) (s : num) : ncol :=
  mkNcol s (n_calcs c) (n_top c) (n_median c) (n_mode c) (n_mad c) (n_quantiles c).

(** update of IntColumn and FloatColumn with _update_helper (lines 1734-1763) *)
Definition update (c : ncol) (batch : list (option Q)) : result ncol :=
  match batch with
  | [] => Ok c
  | _ :: _ =>
      let s := n_num c in
      bind (match matched batch with
            | [] => Ok s
            | x :: l => bind (calcs (mean s) x l (n_calcs c) (s, None)) (fun a => Ok (fst a))
            end) (fun s' =>
      Ok (with_num c (mkNum (nm_sample s' + length batch) (nm_match s' + length (matched batch))
            (nm_min s') (nm_max s') (nm_sum s') (nm_var s') (nm_zeros s') (nm_negs s') (nm_bias s'))))
  end.

Definition has (st : stat) (l : list stat) : bool := existsb (stat_eqb st) l.

(** _merge_calculations (base_column_profilers.py 124-148) on a profile with all statistics *)
Definition merge_calcs (merged c1 c2 : list stat) : list stat :=
  filter (fun st => has st c1 && has st c2) merged.

(** _add_helper (lines 266-361) into a profile made without options (int_column_profile.py 46-71,
    float_column_profile.py 60-125) *)
Definition add (a b : ncol) : ncol :=
  let s1 := n_num a in
  let s2 := n_num b in
  let m := n_num blank in
  let cs := merge_calcs (n_calcs blank) (n_calcs a) (n_calcs b) in
  mkNcol
    (mkNum (nm_sample s1 + nm_sample s2) (nm_match s1 + nm_match s2)
       (if has SMin cs then merge_opt pymin (nm_min s1) (nm_min s2) else nm_min m)
       (if has SMax cs then merge_opt pymax (nm_max s1) (nm_max s2) else nm_max m)
       (if has SSum cs then (nm_sum s1 + nm_sum s2)%Q else nm_sum m)
       (if has SVar cs
        then merge_biased_variance (nm_match s1) (nm_var s1) (mean s1) (nm_match s2) (nm_var s2) (mean s2)
        else nm_var m)
       (if has SZeros cs then nm_zeros s1 + nm_zeros s2 else nm_zeros m)
       (if has SNegs cs then nm_negs s1 + nm_negs s2 else nm_negs m)
       (negb (negb (nm_bias s1) || negb (nm_bias s2))))
    cs
    (Nat.max (n_top a) (n_top b))
    (n_median a && n_median b) (n_mode a && n_mode b) (n_mad a && n_mad b)
    (n_quantiles blank).
