(** * The score that labelers are trained by

    labelers/labeler_utils.py, class FBetaScore: __init__ (317-367), update_state
    (369-399), result (401-424).

    Numbers are exact.  A row has for every class a true value and a value predicted,
    and a weight if weights are given.  Rows have as many values as there are classes. *)
From Coq Require Import QArith Qabs List Arith Bool Lia.
Import ListNotations.
From Verif Require Import PyCommon QFacts.
Local Open Scope nat_scope.

Inductive average := ANone | AMicro | AMacro | AWeighted.
(** Arguments: an average or another value, floats or values of other types *)
Inductive avg_arg := AvgOk (a : average) | AvgOther.
Inductive float_arg := FFloat (q : Q) | FOther.

Record metric := mkMetric { m_classes : nat; m_average : average; m_beta : Q; m_threshold : option Q }.

(** 330-346 *)
Definition make (classes : nat) (avg : avg_arg) (beta : float_arg) (threshold : option float_arg) : result metric :=
  match avg with
  | AvgOther => Err ValueError
  | AvgOk a =>
      match beta with
      | FOther => Err TypeError
      | FFloat b =>
          if Qle_bool b 0 then Err ValueError
          else match threshold with
               | None => Ok (mkMetric classes a b None)
               | Some FOther => Err TypeError
               | Some (FFloat t) =>
                   if negb (Qle_bool t 1) || Qle_bool t 0 then Err ValueError
                   else Ok (mkMetric classes a b (Some t))
               end
      end
  end.

Record row := mkRow { r_true : nat -> Q; r_pred : nat -> Q; r_weight : option Q }.

(** tf.reduce_max over the classes *)
Definition qmax (a b : Q) : Q := if Qle_bool a b then b else a.
Definition row_max (n : nat) (p : nat -> Q) : Q := fold_left (fun m c => qmax m (p c)) (seq 1 (n - 1)) (p 0).

(** 376-382: what counts as predicted *)
Definition hit (m : metric) (p : nat -> Q) (c : nat) : Q :=
  match m_threshold m with
  | None =>
      if Qle_bool (row_max (m_classes m) p) (p c) && negb (Qle_bool (Qabs (p c)) (1 # 1000000000000)) then 1 else 0
  | Some t => if Qle_bool (p c) t then 0 else 1
  end.

(** 387-390 *)
Definition weigh (w : option Q) (v : Q) : Q := match w with Some x => (v * x)%Q | None => v end.

(** The sum over all rows, and over all classes for micro averages: one number for
    each class, or the number 0 of one *)
Definition reduce (m : metric) (rows : list row) (f : row -> nat -> Q) (c : nat) : Q :=
  match m_average m with
  | AMicro => qsum (map (fun r => qsum (map (fun d => weigh (r_weight r) (f r d)) (seq 0 (m_classes m)))) rows)
  | _ => qsum (map (fun r => weigh (r_weight r) (f r c)) rows)
  end.

Record state := mkState { tp : nat -> Q; fp : nat -> Q; fn : nat -> Q; wi : nat -> Q }.
Definition zero : state := mkState (fun _ => 0%Q) (fun _ => 0%Q) (fun _ => 0%Q) (fun _ => 0%Q).

(** 392-399 *)
Definition update (m : metric) (s : state) (rows : list row) : state :=
  mkState
    (fun c => tp s c + reduce m rows (fun r d => hit m (r_pred r) d * r_true r d) c)%Q
    (fun c => fp s c + reduce m rows (fun r d => hit m (r_pred r) d * (1 - r_true r d)) c)%Q
    (fun c => fn s c + reduce m rows (fun r d => (1 - hit m (r_pred r) d) * r_true r d) c)%Q
    (fun c => wi s c + reduce m rows (fun r d => r_true r d) c)%Q.

Definition run (m : metric) (batches : list (list row)) : state := fold_left (update m) batches zero.

(** tf.math.divide_no_nan *)
Definition divide (a b : Q) : Q := if Qeq_bool b 0 then 0%Q else (a / b)%Q.

(** 403-413 *)
Definition f_class (m : metric) (s : state) (c : nat) : Q :=
  let p := divide (tp s c) (tp s c + fp s c) in
  let r := divide (tp s c) (tp s c + fn s c) in
  let b2 := (m_beta m * m_beta m)%Q in
  (divide (p * r) (b2 * p + r) * (1 + b2))%Q.

(** 403-424: one number, or one for each class *)
Definition score (m : metric) (s : state) : list Q :=
  match m_average m with
  | ANone => map (f_class m s) (seq 0 (m_classes m))
  | AMicro => [f_class m s 0]
  | AMacro => [qmean (map (f_class m s) (seq 0 (m_classes m)))]
  | AWeighted =>
      let total := qsum (map (wi s) (seq 0 (m_classes m))) in
      [qsum (map (fun c => f_class m s c * divide (wi s c) total)%Q (seq 0 (m_classes m)))]
  end.
