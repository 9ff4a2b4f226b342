(** Model of the population stability index in differences of columns: profilers/numerical_column_stats.py
    (_preprocess_for_calculate_psi, _calculate_psi) and profilers/categorical_column_profile.py (diff and
    _preprocess_for_categorical_psi_calculation).

    Edges are exact rationals, shares and logarithms exact reals. Histograms with counts are taken to belong to columns with
    at least one value, so that the counts of values divided by are positive. *)
From Coq Require Import ZArith QArith Reals.
From Verif Require Import QFacts PyCommon PyDict HistModel.
Local Open Scope nat_scope.

(** ** Numbers *)
(** The share of a bin, [bin_count / match_count], 795-798 *)
Definition rshare (c n : Z) : R := (IZR c / IZR n)%R.
(** One bin, 799-806. Where one share is 0 the logarithm is infinite, the product is +inf, and it is not added; where both
    are 0 the bin is skipped; where they are equal 0 is not added. *)
Definition psi_term (n1 n2 c d : Z) : R :=
  if (c =? 0)%Z || (d =? 0)%Z then 0%R
  else ((rshare d n2 - rshare c n1) * ln (rshare d n2 / rshare c n1))%R.
(** 793-808: the bins of self with those of the other at the same positions *)
Fixpoint psi_loop (n1 n2 : Z) (a b : list Z) : result R :=
  match a, b with
  | [], _ => Ok 0%R
  | _ :: _, [] => Err IndexError
  | c :: a, d :: b => bind (psi_loop n1 n2 a b) (fun r => Ok (psi_term n1 n2 c d + r)%R)
  end.

(** [np.array_equal] *)
Fixpoint array_equal (a b : list Q) : bool :=
  match a, b with
  | [], [] => true
  | x :: a, y :: b => Qeq_bool x y && array_equal a b
  | _, _ => false
  end.
Definition psi_bins : nat := 10.
(** _preprocess_for_calculate_psi, 667-749: [Ok None] where all values are the same *)
Definition psi_prepare (is_float : bool) (h1 h2 : hist) : result (option (hist * hist)) :=
  let lo := pymin (nth 0 (h_edges h1) 0%Q) (nth 0 (h_edges h2) 0%Q) in
  let hi := pymax (last (h_edges h1) 0%Q) (last (h_edges h2) 0%Q) in
  if Qeq_bool lo hi then Ok None
  else
    bind (if length (h_counts h1) =? psi_bins then Ok h1 else regenerate lo hi psi_bins is_float h1) (fun a =>
    bind (if array_equal (h_edges h2) (h_edges h1) then Ok h2 else regenerate lo hi psi_bins is_float h2) (fun b =>
    Ok (Some (a, b)))).
(** _calculate_psi, 751-808; [None] as a histogram: there is none; [Ok None]: no value, with a warning *)
Definition psi (is_float : bool) (n1 : Z) (h1 : option hist) (n2 : Z) (h2 : option hist) : result (option R) :=
  match h1, h2 with
  | Some h1, Some h2 =>
      bind (psi_prepare is_float h1 h2) (fun p =>
      match p with
      | None => Ok (Some 0%R)
      | Some (a, b) => bind (psi_loop n1 n2 (h_counts a) (h_counts b)) (fun v => Ok (Some v))
      end)
  | _, _ => Ok None
  end.

(** ** Categories *)
Section Categories.
  Context {K : Type} {E : EqDecB K}.
  (** the order in which a set of categories is gone through *)
  Variable order : list K -> list K.
  (** [dict(sorted(categories.items(), key=itemgetter(1), reverse=True))]; only its effect on the order is left open *)
  Variable by_count : dict K Z -> dict K Z.

  (** 451-456 for one of the two dictionaries *)
  Definition fill (keys : list K) (d : dict K Z) : dict K Z :=
    fold_left (fun d k => match dget d k with Some c => dset d k c | None => dset d k 0%Z end) keys d.
  (** 316-324; [x] is the dictionary gone through, [a] and [b] those looked up *)
  Fixpoint cat_loop (n1 n2 : Z) (keys : list K) (a b : dict K Z) (total : R) : result R :=
    match keys with
    | [] => Ok total
    | k :: r =>
        match dget a k, dget b k with
        | Some c, Some d =>
            if (n1 =? 0)%Z || (n2 =? 0)%Z then Err ZeroDivisionError
            else cat_loop n1 n2 r a b (total + psi_term n1 n2 c d)%R
        | _, _ => Err KeyError
        end
    end.
  (** 298-324; [Ok None]: no value is set, as there is no category *)
  Definition cat_psi (n1 : Z) (c1 : dict K Z) (n2 : Z) (c2 : dict K Z) : result (option R) :=
    let keys := order (distinct (dkeys c1 ++ dkeys c2)) in
    let a := fill keys (by_count c1) in
    let b := fill keys (by_count c2) in
    bind (cat_loop n1 n2 (dkeys a) a b 0%R) (fun v => Ok (match a with [] => None | _ => Some v end)).
End Categories.
