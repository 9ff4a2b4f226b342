(** Model of the histograms of numeric columns.
    Source: dataprofiler/profilers/numerical_column_stats.py.
    Edges are rationals, counts integers. The loss values, which only choose between binning
    methods, are left out. *)
From Verif Require Import PyCommon QFacts.
From Coq Require Import Qround.
Open Scope nat_scope.

(** Python [round]: to the nearest integer, ties to even. *)
Definition round_half_even (q : Q) : Z :=
  let f := Qfloor q in
  let r := (q - inject_Z f)%Q in
  if negb (Qle_bool (1 # 2) r) then f
  else if negb (Qle_bool r (1 # 2)) then (f + 1)%Z
  else if Z.even f then f else (f + 1)%Z.

(** [a[i] += c] for an array. *)
Fixpoint add_at (a : list Z) (i : nat) (c : Z) : result (list Z) :=
  match a, i with
  | [], _ => Err IndexError
  | x :: r, 0 => Ok ((x + c)%Z :: r)
  | x :: r, S i => bind (add_at r i c) (fun r' => Ok (x :: r'))
  end.

(** The while loop of _assimilate_histogram (lines 1436-1441). [fuel] bounds the number of
    rounds; running out of it is an error, which the theorems exclude. *)
Fixpoint advance (fuel : nat) (dedges : list Q) (num : nat) (b0 : Q) (new : nat) : result nat :=
  match nth_error dedges (new + 1) with
  | None => Err IndexError
  | Some e =>
      if Qle_bool e b0 && (new <? num - 1)
      then match fuel with 0 => Err RuntimeErr | S f => advance f dedges num b0 (S new) end
      else Ok new
  end.

(** The body of the for loop (lines 1430-1475) for a source bin [b0, b1] with count [c]:
    new cursor and counts. *)
Definition assimilate_bin (dedges : list Q) (num : nat) (new : nat) (dcounts : list Z)
    (c : Z) (b0 b1 : Q) : result (nat * list Z) :=
  if (c =? 0)%Z then Ok (new, dcounts)
  else
    bind (advance num dedges num b0 new) (fun new =>
    match nth_error dedges (new + 1) with
    | None => Err IndexError
    | Some e1 =>
        if negb (Qle_bool e1 b1) || (new =? num - 1)
        then bind (add_at dcounts new c) (fun d => Ok (new, d))
        else if negb (Qle_bool e1 b0)
        then
          if Qeq_bool (b1 - b0) 0 then Err ZeroDivisionError
          else
            let left := round_half_even (inject_Z c * ((e1 - b0) / (b1 - b0))) in
            bind (add_at dcounts new left) (fun d =>
            bind (add_at d (new + 1) (c - left)%Z) (fun d => Ok (S new, d)))
        else Ok (new, dcounts)
    end).

(** _assimilate_histogram (lines 1399-1482) *)
Fixpoint assimilate (dedges : list Q) (num : nat) (new : nat) (dcounts : list Z)
    (fcounts : list Z) (fedges : list Q) : result (list Z) :=
  match fcounts with
  | [] => Ok dcounts
  | c :: cs =>
      match fedges with
      | b0 :: ((b1 :: _) as rest) =>
          bind (assimilate_bin dedges num new dcounts c b0 b1) (fun nd =>
          assimilate dedges num (fst nd) (snd nd) cs rest)
      | _ => if (c =? 0)%Z then Ok dcounts else Err IndexError
      end
  end.

(** [np.linspace(a, b, n + 1)] *)
Definition linspace (a b : Q) (n : nat) : list Q :=
  map (fun i => (a + Qn i * ((b - a) / Qn n))%Q) (seq 0 (n + 1)).

Definition zeros (n : nat) : list Z := repeat 0%Z n.

Record hist := mkHist { h_counts : list Z; h_edges : list Q }.

(** The binning part of _add_helper_merge_profile_histograms (lines 199-248): [lo], [hi] are
    the new outer edges and [bins] the bin count. *)
Definition merge_hists (lo hi : Q) (bins : nat) (h1 h2 : hist) : result hist :=
  let edges := linspace lo hi bins in
  bind (assimilate edges bins 0 (zeros bins) (h_counts h1) (h_edges h1)) (fun d =>
  bind (assimilate edges bins 0 d (h_counts h2) (h_edges h2)) (fun d =>
  Ok (mkHist d edges))).

(** _regenerate_histogram (lines 1368-1397); [lo], [hi] are the outer edges of the histogram or
    those of the options; [is_float] says whether the edges are rounded first. *)
Definition regenerate (lo hi : Q) (bins : nat) (is_float : bool) (h : hist) : result hist :=
  let edges := linspace lo hi bins in
  let from := if is_float then h_edges h
              else map (fun e => inject_Z (round_half_even e)) (h_edges h) in
  bind (assimilate edges bins 0 (zeros bins) (h_counts h) from) (fun d => Ok (mkHist d edges)).

(** ** Streaming *)
Section Streaming.
  (** [np.histogram(values, bins=n)] with the bin count chosen by the binning methods: any
      function; what is used of it is the hypothesis [np_histogram_ok] of the theorems. *)
  Variable np_histogram : list Q -> hist.

  (** _get_histogram (lines 1267-1320); the test is len(np.unique(values)) == 1. *)
  Definition all_equal (l : list Q) : bool :=
    match l with [] => false | x :: r => forallb (fun y => Qeq_bool y x) r end.
  Definition get_histogram (values : list Q) : hist :=
    match values with
    | x :: _ => if all_equal values
                then mkHist [Z.of_nat (length values)] [x; x]
                else np_histogram values
    | [] => np_histogram values
    end.

  (** _histogram_to_array (lines 1241-1265): left edges of the bins but the last, then the last
      bin half on its left and half on its right edge; [rnd] is [np.round] for integer columns
      and the identity for float columns. Bins with negative counts repeat nothing. *)
  Fixpoint to_array_left (counts : list Z) (edges : list Q) : list Q :=
    match counts, edges with
    | [c], e0 :: e1 :: _ =>
        repeat e0 (Z.to_nat (Z.quot c 2)) ++ repeat e1 (Z.to_nat (c - Z.quot c 2))
    | c :: cs, e0 :: es => repeat e0 (Z.to_nat c) ++ to_array_left cs es
    | _, _ => []
    end.
  Definition histogram_to_array (rnd : Q -> Q) (h : hist) : list Q :=
    map rnd (to_array_left (h_counts h) (h_edges h)).

  (** _update_histogram (lines 1330-1366) for finite values. *)
  Definition update_histogram (rnd : Q -> Q) (s : option hist) (values : list Q) : option hist :=
    match values with
    | [] => s
    | _ :: _ =>
        match s with
        | Some h => Some (get_histogram (values ++ histogram_to_array rnd h))
        | None => Some (get_histogram values)
        end
    end.

  (** The histogram part of _add_helper (lines 347-355): the stored histogram of the merged
      profile. *)
  Definition add_histogram (lo hi : Q) (bins : nat) (a b : option hist) : result (option hist) :=
    match a, b with
    | Some h1, Some h2 => bind (merge_hists lo hi bins h1 h2) (fun h => Ok (Some h))
    | _, _ => Ok None
    end.
End Streaming.

(** ** Percentiles *)
Fixpoint cumsum (acc : Q) (l : list Q) : list Q :=
  match l with [] => [] | x :: r => (acc + x)%Q :: cumsum (acc + x)%Q r end.

Definition zsum (l : list Z) : Z := fold_right Z.add 0%Z l.

(** [np.interp(x, xp, fp)] for non-decreasing [xp]: the last point not right of [x] and the
    following one. [x0 <= x] here. *)
Fixpoint interp_from (x0 f0 : Q) (pts : list (Q * Q)) (x : Q) : Q :=
  match pts with
  | [] => f0
  | (x1, f1) :: r =>
      if Qle_bool x1 x then interp_from x1 f1 r x
      else (f0 + (f1 - f0) / (x1 - x0) * (x - x0))%Q
  end.
Definition interp (pts : list (Q * Q)) (x : Q) : Q :=
  match pts with
  | [] => 0%Q
  | (x0, f0) :: r => if Qle_bool x0 x then interp_from x0 f0 r x else f0
  end.

Definition qabs (q : Q) : Q := if Qle_bool 0 q then q else (- q)%Q.

(** The edges averaged for the median (lines 1573-1576): right edges of the bins whose
    cumulative share is within 1e-10 of 0.5. *)
Definition median_edges (cum : list Q) (edges : list Q) : list Q :=
  map snd (filter (fun p => negb (Qle_bool (1 # 10000000000) (qabs (fst p - (1 # 2)))))
                  (combine cum (tl edges))).
Definition median_value (cum edges : list Q) : option Q :=
  let es := median_edges cum edges in
  if 1 <? length es then Some (qmean es) else None.

(** _get_percentile (lines 1553-1589), for one percentage. *)
Definition shares (counts : list Z) : list Q :=
  map (fun c => (inject_Z c / inject_Z (zsum counts))%Q) counts.
Definition eps : Q := 1 # 1000000000000000.
Definition bump (counts : list Z) (cum : list Q) : list Q :=
  map (fun p => if (fst p =? 0)%Z then (snd p + eps)%Q else snd p) (combine counts cum).
Definition get_percentile (h : hist) (p : Q) : Q :=
  let cum := cumsum 0 (shares (h_counts h)) in
  let xp := 0%Q :: bump (h_counts h) cum in
  let q := interp (combine xp (h_edges h)) (p / 100) in
  match median_value cum (h_edges h) with
  | Some m => if negb (Qeq_bool m 0) && Qeq_bool p 50 then m else q
  | None => q
  end.

(** _get_quantiles (lines 1723-1732): the inner points of linspace(0, 100, n + 1). *)
Definition get_quantiles (h : hist) (n : nat) : list Q :=
  map (fun i => get_percentile h (Qn i * (100 / Qn n))) (seq 1 (n - 1)).

(** ** Mode *)
(** _estimate_mode_from_histogram (lines 1082-1114): indices of the largest bins, at most
    [top_k] of them, then their midpoints. *)
Fixpoint mode_loop (top_k : nat) (counts : list Z) (i : nat) (cur_max : Z) (idxs : list nat) : list nat :=
  match counts with
  | [] => idxs
  | c :: r =>
      if (cur_max <? c)%Z then mode_loop top_k r (S i) c [i]
      else if ((c =? cur_max)%Z && (length idxs <? top_k))%bool
           then mode_loop top_k r (S i) cur_max (idxs ++ [i])
           else mode_loop top_k r (S i) cur_max idxs
  end.

Fixpoint last_q (d : Q) (l : list Q) : Q := match l with [] => d | x :: r => last_q x r end.

(** The midpoints (lines 1111-1114); [None] stands for an index error. *)
Definition midpoint (edges : list Q) (i : nat) : option Q :=
  match nth_error edges i, nth_error edges (i + 1) with
  | Some a, Some b => Some ((a + b) / 2)%Q
  | _, _ => None
  end.
Definition estimate_mode (top_k : nat) (h : hist) : list (option Q) :=
  map (midpoint (h_edges h)) (mode_loop top_k (h_counts h) 0 (-1) []).

(** ** Folding, used by the median absolute deviation *)
(** Lines 1612-1616: the index of the first positive edge. *)
Fixpoint first_positive (i : nat) (edges : list Q) : option nat :=
  match edges with
  | [] => None
  | e :: r => if Qle_bool e 0 then first_positive (S i) r else Some i
  end.

(** _fold_histogram (lines 1592-1647): counts and edges of the part right of [value] and of the
    part left of it. An index of 0, where the code reads the last bin through the index -1, is
    kept apart as an error: it arises only for a value left of every edge. *)
Definition fold_histogram (h : hist) (value : Q) : result ((list Q * list Q) * (list Q * list Q)) :=
  let n := shares (h_counts h) in
  let edges := map (fun e => (e - value)%Q) (h_edges h) in
  match first_positive 0 edges with
  | None => Ok (([], []), (n, edges))
  | Some 0 => Err RuntimeErr
  | Some 1 => Ok ((n, edges), ([], []))
  | Some (S i) =>
      match nth_error n i, nth_error edges (S i), nth_error edges i with
      | Some c, Some e1, Some e0 =>
          let part := (c * (e1 / (e1 - e0)))%Q in
          let pos := (part :: skipn (S i) n, 0%Q :: skipn (S i) edges) in
          let neg_counts := (c - part)%Q :: rev (firstn i n) in
          let neg_edges := 0%Q :: map Qopp (rev (firstn (S i) edges)) in
          if Qeq_bool e0 0 then Ok (pos, (tl neg_counts, tl neg_edges))
          else Ok (pos, (neg_counts, neg_edges))
      | _, _, _ => Err IndexError
      end
  end.

(** The early exit of median_abs_deviation (lines 1678-1688): [Some 0] where the code returns 0.0
    without looking at the folded parts, [None] where it goes on. *)
Definition mad_early_exit (h : hist) (median : Q) : result (option Q) :=
  bind (fold_histogram h median) (fun r =>
  match fst (fst r), fst (snd r) with
  | [], _ | _, [] => Ok (Some 0%Q)
  | _, _ => Ok None
  end).
