(** Model of profilers/helpers/report_helpers.py 9-38: the quantiles shown in a report. *)
From Coq Require Import ZArith SpecFloat.
From Verif Require Import PyCommon.
Local Open Scope Z_scope.

(** The position [math.ceil((ind + 1) * quant_multiplier) - 1] with [quant_multiplier = n1 / groups], once with exact
    fractions and once with the double precision numbers of the standard library's specification *)
Definition exact_index (n1 groups ind : Z) : Z := ((ind + 1) * n1 + groups - 1) / groups - 1.

Definition to_float (n : Z) : spec_float := binary_normalize 53 1024 n 0 false.
Definition float_ceil (f : spec_float) : Z :=
  match f with
  | S754_finite false m e => if 0 <=? e then Z.pos m * 2 ^ e else (Z.pos m + 2 ^ (- e) - 1) / 2 ^ (- e)
  | S754_finite true m e => if 0 <=? e then - (Z.pos m * 2 ^ e) else - (Z.pos m / 2 ^ (- e))
  | _ => 0
  end.
Definition float_index (n1 groups ind : Z) : Z :=
  float_ceil (SFmul 53 1024 (to_float (ind + 1)) (SFdiv 53 1024 (to_float n1) (to_float groups))) - 1.

(** Indexing a list; positions are never negative here *)
Definition at_index {X} (l : list X) (i : Z) : result X :=
  match nth_error l (Z.to_nat i) with Some x => Ok x | None => Err IndexError end.

Fixpoint collect {X Y} (f : X -> result Y) (l : list X) : result (list Y) :=
  match l with
  | [] => Ok []
  | x :: r => bind (f x) (fun y => bind (collect f r) (fun ys => Ok (y :: ys)))
  end.

(** calculate_quantiles, 9-38; [None] is a group number that is not given, and the result is the dictionary of the
    values for the keys 0, 1, ... *)
Definition calculate_quantiles (index : Z -> Z -> Z -> Z) {X} (groups : option Z) (quantiles : list X) : result (list X) :=
  let n1 := Z.of_nat (length quantiles) + 1 in
  let g := match groups with Some g => if (0 <? g) && (g <=? n1) then g else 4 | None => 4 end in
  collect (fun ind => at_index quantiles (index n1 g (Z.of_nat ind))) (seq 0 (Z.to_nat (g - 1))).
