(** * The median absolute deviation of a histogram

    profilers/numerical_column_stats.py median_abs_deviation (1649-1721), after
    _fold_histogram (1592-1647, in HistModel).  Numbers are exact; [None] is NaN. *)
From Verif Require Import PyCommon QFacts HistModel.
Open Scope nat_scope.

(** itertools.chain over itertools.zip_longest of [a] and [b], without the fillers (1696-1702) *)
Fixpoint interleave (a b : list Q) : list Q :=
  match a with
  | [] => b
  | x :: r => match b with [] => a | y :: s => x :: y :: interleave r s end
  end.

(** 1705-1707: an edge stays if it is more than 1e-14 beyond the one before it in the
    list, whether that one stays or not *)
Definition gap : Q := 1 # 100000000000000.
Fixpoint thin (prev : Q) (l : list Q) : list Q :=
  match l with
  | [] => []
  | x :: r => if Qle_bool (x - prev) gap then thin x r else x :: thin x r
  end.

(** 1692-1721, for the two folded parts (counts, edges) *)
Definition superimpose (pos neg : list Q * list Q) : result Q :=
  match nth_error (snd pos) 1, nth_error (snd neg) 1 with
  | Some p1, Some n1 =>
      match tl (if Qle_bool p1 n1 then interleave (snd pos) (snd neg)
                else interleave (snd neg) (snd pos)) with
      | [] => Err IndexError
      | e0 :: r =>
          let es := e0 :: thin e0 r in
          let fs := map (fun e => (interp (combine (snd pos) (cumsum 0 (0%Q :: fst pos))) e
                                   + interp (combine (snd neg) (cumsum 0 (0%Q :: fst neg))) e)%Q) es in
          let near := map snd (filter (fun p => negb (Qle_bool (1 # 10000000000) (qabs (fst p - (1 # 2)))))
                                      (combine fs es)) in
          Ok (if 1 <? length near then qmean near else interp (combine fs es) (1 # 2))
      end
  | _, _ => Err IndexError
  end.

(** 1677-1721: the deviation from [median] *)
Definition deviation (h : hist) (median : Q) : result Q :=
  bind (fold_histogram h median) (fun r =>
  match fst (fst r), fst (snd r) with
  | [], _ | _, [] => Ok 0%Q
  | _, _ => superimpose (fst r) (snd r)
  end).

(** 1649-1721: the median is that of the histogram whether medians are enabled or not *)
Definition median_abs_deviation (enabled : bool) (h : option hist) : result (option Q) :=
  match h with
  | Some h => if enabled then bind (deviation h (get_percentile h 50)) (fun m => Ok (Some m)) else Ok None
  | None => Ok None
  end.
