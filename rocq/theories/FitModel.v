(** * Training a labeler: which samples train and which validate

    base_data_labeler.py TrainableDataLabeler.fit (lines 763-880).

    The model and the preprocessor are parameters: [mfit] one epoch of the model,
    [prep] the preprocessor with the labels of the model at that time, which reads
    a part of the samples and of their labels.  Both may change or fail; what the
    preprocessor raises is raised while the model reads its data.  Permutations of
    numpy.random are inputs.  Numbers are exact, so the product of the number of
    samples and the share of the training data is not rounded.  Conversion of the
    data to arrays is in _check_and_return_valid_data_format: here data are lists
    of rows, or [None] for data of a type that is refused. *)
From Coq Require Import QArith Qround List Arith Bool ZArith Lia.
Import ListNotations.
From Verif Require Import PyCommon.
Local Open Scope nat_scope.

(** [x[inds]] for an array of positions *)
Definition take_at {A : Type} (x : list A) (inds : list nat) : list A :=
  flat_map (fun i => match nth_error x i with Some a => [a] | None => [] end) inds.

(** [max(1, int(num_samples * (1 - validation_split)))], line 832 *)
Definition cv_split (n : nat) (vs : Q) : nat :=
  Nat.max 1 (Z.to_nat (Qfloor (inject_Z (Z.of_nat n) * (1 - vs))%Q)).

Section Fit.
Variable X Y D St R L : Type.
Variable prep : St -> list X * list Y -> D.
Variable mfit : St -> D -> option D -> St * result R.
Variable set_labels : St -> L -> St * option exn.
Variable reset_weights : St -> St * option exn.
(** check_pipeline finds parameters that differ (C45) *)
Variable mismatch : St -> bool.

(** Lines 839-848 and 870-879: None without validation split or with fewer than
    two samples to train *)
Definition cv_part (vs : Q) (k : nat) (x : list X) (y : list Y) : option (list X * list Y) :=
  if Qeq_bool vs 0 || (k <? 2) then None else Some (skipn k x, skipn k y).

(** Lines 850-880: the epochs from number [i] on; the last one shuffles nothing.
    [x] and [y] are the shuffled samples. *)
Fixpoint epochs_from (vs : Q) (k : nat) (x : list X) (y : list Y) (ps : nat -> list nat)
    (left i : nat) (s : St) (train : D) (cv : option D) : St * result (list R) :=
  match left with
  | 0 => (s, Ok [])
  | S rest =>
      match mfit s train cv with
      | (s1, Err e) => (s1, Err e)
      | (s1, Ok r) =>
          let after :=
            match rest with
            | 0 => (s1, Ok [])
            | S _ =>
                epochs_from vs k x y ps rest (S i) s1
                  (prep s1 (take_at x (ps i), take_at y (ps i)))
                  (option_map (prep s1) (cv_part vs k x y))
            end in
          match after with
          | (s2, Ok l) => (s2, Ok (r :: l))
          | (s2, Err e) => (s2, Err e)
          end
      end
  end.

(** Lines 800-880 *)
Definition fit (s : St) (xa : option (list X)) (ya : option (list Y)) (vs : Q)
    (labels : option L) (reset : bool) (epochs : nat) (error_on_mismatch : bool)
    (p0 : list nat) (ps : nat -> list nat) : St * result (list R) :=
  match xa, ya with
  | None, _ | _, None => (s, Err TypeError)
  | Some x, Some y =>
      let n := length x in
      if (n =? 0) || (length y =? 0) then (s, Err ValueError)
      else if negb (n =? length y) then (s, Err ValueError)
      else if negb (Qle_bool 0 vs) || Qle_bool 1 vs then (s, Err ValueError)
      else if mismatch s && error_on_mismatch then (s, Err RuntimeErr)
      else
        match (match labels with Some l => set_labels s l | None => (s, None) end) with
        | (s1, Some e) => (s1, Err e)
        | (s1, None) =>
            match (if reset then reset_weights s1 else (s1, None)) with
            | (s2, Some e) => (s2, Err e)
            | (s2, None) =>
                let x' := take_at x p0 in
                let y' := take_at y p0 in
                let k := cv_split n vs in
                epochs_from vs k x' y' ps epochs 0 s2
                  (prep s2 (firstn k x', firstn k y'))
                  (option_map (prep s2) (cv_part vs k x' y'))
            end
        end
  end.

End Fit.
