(** Model of the t-test in differences of numeric columns: profilers/numerical_column_stats.py (_perform_t_test, 603-665).

    Numbers are exact reals; [None] for nan. The distribution function of scipy is the variable [cdf]. *)
From Coq Require Import Reals Arith.
From Verif Require Import PyCommon.
Local Open Scope nat_scope.

Record ttest := mkT {
  t_stat : option R;
  t_cons_deg : option R; t_cons_p : option R;
  t_welch_deg : option R; t_welch_p : option R }.
Definition no_ttest : ttest := mkT None None None None None.

(** [not var] of a number; nan is true *)
Definition is_zero (v : R) : bool := if Req_EM_T v 0 then true else false.

Section TTest.
  (** [scipy.stats.t(deg_of_free).cdf(t)] *)
  Variable cdf : R -> R -> R.

  Definition t_test (mean1 var1 : option R) (n1 : nat) (mean2 var2 : option R) (n2 : nat) : ttest :=
    if (n1 <=? 1) || (n2 <=? 1) then no_ttest
    else
      match mean1, var1, mean2, var2 with
      | Some mean1, Some var1, Some mean2, Some var2 =>
          if is_zero var1 && is_zero var2 then no_ttest
          else
            let s_delta := (var1 / INR n1 + var2 / INR n2)%R in
            let t := ((mean1 - mean2) / sqrt s_delta)%R in
            let conservative := (INR (Nat.min n1 n2) - 1)%R in
            let welch := (s_delta ^ 2 / ((var1 / INR n1) ^ 2 / (INR n1 - 1) + (var2 / INR n2) ^ 2 / (INR n2 - 1)))%R in
            mkT (Some t)
              (Some conservative) (Some ((1 - cdf conservative (Rabs t)) * 2)%R)
              (Some welch) (Some ((1 - cdf welch (Rabs t)) * 2)%R)
      | _, _, _, _ => no_ttest
      end.
End TTest.
