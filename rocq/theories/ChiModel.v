(** Model of the chi-squared test for homogeneity: profilers/profiler_utils.py (perform_chi_squared_test_for_homogeneity) and
    the matrix of its p-values in profilers/profile_builder.py (_update_chi2 and the merging of profiles).

    Numbers are exact. The distribution function of scipy is the variable [cdf]. *)
From Coq Require Import ZArith QArith.
From Verif Require Import QFacts PyCommon PyDict CategoricalModel.
Local Open Scope nat_scope.

(** A statistic: a number or infinity *)
Inductive stat := Finite (q : Q) | Infinite.

Section Chi.
  Context {K : Type} {E : EqDecB K}.
  (** [scipy.stats.chi2(deg_of_free).cdf(statistic)] *)
  Variable cdf : nat -> Q -> Q.

  Record chi := mkChi { chi_stat : option stat; chi_deg : option nat; chi_p : option Q }.

  (** [categories.get(cat, 0)] *)
  Definition cget (d : dict K nat) (k : K) : nat := match dget d k with Some c => c | None => 0 end.
  (** 774-779: one category *)
  Definition chi_step (c1 : dict K nat) (n1 : nat) (c2 : dict K nat) (n2 : nat) (acc : Q) (kv : K * nat) : Q :=
    let total := n1 + n2 in
    let expected1 := (Qn n1 * Qn (snd kv) / Qn total)%Q in
    let expected2 := (Qn n2 * Qn (snd kv) / Qn total)%Q in
    let acc := (acc + (Qn (cget c1 (fst kv)) - expected1) * (Qn (cget c1 (fst kv)) - expected1) / expected1)%Q in
    (acc + (Qn (cget c2 (fst kv)) - expected2) * (Qn (cget c2 (fst kv)) - expected2) / expected2)%Q.
  (** perform_chi_squared_test_for_homogeneity, 723-787 *)
  Definition chi_test (c1 : dict K nat) (n1 : nat) (c2 : dict K nat) (n2 : nat) : chi :=
    let counts := add_nested_dictionaries c1 c2 in
    if length counts <=? 1 then mkChi None None None
    else
      let deg := length counts - 1 in
      if (n1 =? 0) || (n2 =? 0) || existsb (fun kv => snd kv =? 0) counts then mkChi (Some Infinite) (Some deg) (Some 0%Q)
      else
        let s := fold_left (chi_step c1 n1 c2 n2) counts 0%Q in
        mkChi (Some (Finite s)) (Some deg) (Some (1 - cdf deg s)%Q).

  (** ** The matrix *)
  Record ccol := mkCcol { cc_match : bool; cc_counts : dict K nat; cc_n : nat }.
  (** An array of numbers, [None] for nan *)
  Definition matrix := nat -> nat -> option Q.
  Definition nan_matrix : matrix := fun _ _ => None.
  Definition mset (m : matrix) (i j : nat) (v : option Q) : matrix := fun a b => if (a =? i) && (b =? j) then v else m a b.
  Definition col_test (a b : ccol) : chi := chi_test (cc_counts a) (cc_n a) (cc_counts b) (cc_n b).
  (** _update_chi2, 2568-2587: the loop over j *)
  Definition chi_entry (cols : list ccol) (i : nat) (a : ccol) (m : matrix) (j : nat) : matrix :=
    if i =? j then mset m i j (Some 1%Q)
    else
      match nth_error cols j with
      | Some b =>
          if cc_match b then let p := chi_p (col_test a b) in mset (mset m i j p) j i p
          else m
      | None => m
      end.
  Definition chi_row (cols : list ccol) (m : matrix) (i : nat) : matrix :=
    match nth_error cols i with
    | Some a => if cc_match a then fold_left (chi_entry cols i a) (seq i (length cols - i)) m else m
    | None => m
    end.
  (** _update_chi2, 2552-2587 *)
  Definition update_chi2 (cols : list ccol) : matrix := fold_left (chi_row cols) (seq 0 (length cols)) nan_matrix.

  (** __add__ of profiles, 1829-1846; [n1], [n2]: the rows of each table that are not all null; [cols]: the merged columns *)
  Definition merge_chi2 (n1 n2 : nat) (m1 m2 : option matrix) (cols : list ccol) : option matrix :=
    if n1 =? 0 then m2
    else if n2 =? 0 then m1
    else match m1, m2 with
         | Some _, Some _ => Some (update_chi2 cols)
         | _, _ => None
         end.
End Chi.
