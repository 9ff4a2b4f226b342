(** Model of the histogram that the report of a numeric column shows: the bin counts that the
    binning methods suggest, the losses, the choice between the methods, and what merging makes of
    them.
    Source: dataprofiler/profilers/numerical_column_stats.py and histogram_utils.py.

    Numbers are exact. numpy's bin estimators and [np.histogram] are arguments. The histogram dicts
    of the methods are values, with one exception: [Stored] stands for the very object that is also
    the stored histogram (line 1520 hands it out). The sharing of the methods of an operand by a
    merged profile (lines 350 and 353) is not followed. *)
From Coq Require Import QArith Qround.
From Coq Require String.
From Verif Require Import PyCommon QFacts HistModel PyDict PyString.
Local Delimit Scope string_scope with string.
Open Scope list_scope.
Local Open Scope nat_scope.

(** ** Losses *)
(** The loss added for one source bin (lines 1430-1475), for the cursor before it. *)
Definition sqr (q : Q) : Q := (q * q)%Q.
Definition bin_loss (dedges : list Q) (num new : nat) (c : Z) (b0 b1 : Q) : result Q :=
  if (c =? 0)%Z then Ok 0%Q
  else
    bind (advance num dedges num b0 new) (fun new =>
    match nth_error dedges new, nth_error dedges (new + 1) with
    | Some e0, Some e1 =>
        if negb (Qle_bool e1 b1) || (new =? num - 1)
        then Ok (sqr (((e1 + e0) - (b1 + b0)) / 2) * inject_Z c)%Q
        else if negb (Qle_bool e1 b0)
        then
          match nth_error dedges (new + 2) with
          | None => Err IndexError
          | Some e2 =>
              let left := round_half_even (inject_Z c * ((e1 - b0) / (b1 - b0))) in
              Ok (sqr (((e1 + e0) - (b1 + b0)) / 2) * inject_Z left +
                  sqr (((e2 + e1) - (b1 + b0)) / 2) * inject_Z (c - left))%Q
          end
        else Ok 0%Q
    | _, _ => Err IndexError
    end).

(** The loss returned by _assimilate_histogram (lines 1428-1482). *)
Fixpoint assimilate_loss (dedges : list Q) (num new : nat) (dcounts : list Z)
    (fcounts : list Z) (fedges : list Q) : result Q :=
  match fcounts with
  | [] => Ok 0%Q
  | c :: cs =>
      match fedges with
      | b0 :: ((b1 :: _) as rest) =>
          bind (assimilate_bin dedges num new dcounts c b0 b1) (fun nd =>
          bind (bin_loss dedges num new c b0 b1) (fun l =>
          bind (assimilate_loss dedges num (fst nd) (snd nd) cs rest) (fun r =>
          Ok (l + r)%Q)))
      | _ => if (c =? 0)%Z then Ok 0%Q else Err IndexError
      end
  end.

(** The second value of _regenerate_histogram (lines 1368-1397). *)
Definition regenerate_loss (lo hi : Q) (bins : nat) (is_float : bool) (h : hist) : result Q :=
  let from := if is_float then h_edges h
              else map (fun e => inject_Z (round_half_even e)) (h_edges h) in
  assimilate_loss (linspace lo hi bins) bins 0 (zeros bins) (h_counts h) from.

(** [np.digitize(v, edges)] with the last edge infinite: the number of the other edges not right of
    [v]. An index of 0 makes [bin_edges[inds - 1]] the last edge. *)
Definition bin_mid (edges : list Q) (v : Q) : Q :=
  let i := length (filter (fun e => Qle_bool e v) (removelast edges)) in
  match i with
  | 0 => ((nth 0 edges 0 + last_q 0 edges) / 2)%Q
  | S j => ((nth i edges 0 + nth j edges 0) / 2)%Q
  end.

(** _histogram_bin_error (lines 1145-1173) *)
Definition bin_error (h : hist) (values : list Q) : Q :=
  fold_right (fun v acc => (sqr (v - bin_mid (h_edges h) v) + acc)%Q) 0%Q values.

(** ** State *)
(** The dict under "histogram" of a binning method: its own (with no counts yet, or with counts), or
    the object of the stored histogram. *)
Inductive slot := Own (h : option hist) | Stored.

(** An entry of [histogram_methods]; [m_suggested = None]: no key "suggested_bin_count". *)
Record meth := mkMeth { m_total : Q; m_current : Q; m_suggested : option nat; m_slot : slot }.

(** A numeric column profile, as far as the histogram is concerned. [c_loss] is
    [_stored_histogram["total_loss"]]; [c_float] says whether it is a FloatColumn. *)
Record col := mkCol {
  c_float : bool;
  c_names : list string;
  c_user : option nat;
  c_methods : dict string meth;
  c_stored : option hist;
  c_loss : Q;
  c_selection : option string }.

(** Lines 68-69 *)
Definition min_bins : nat := 1000.
Definition max_bins : nat := 100 * 1000.

(** Lines 70-78 *)
Definition default_names : list string :=
  ["auto"; "fd"; "doane"; "scott"; "rice"; "sturges"; "sqrt"]%string.

(** The option bin_count_or_method: not given, a method, a list of methods or a count. *)
Inductive binopt := BDefault | BMethod (m : string) | BMethods (l : list string) | BCount (n : nat).

(** Lines 110-116 *)
Definition new_methods (names : list string) (sugg : option nat) : dict string meth :=
  fold_left (fun d m => dset d m (mkMeth 0 0 sugg (Own None))) names [].

(** NumericStatsMixin.__init__ (lines 68-118) *)
Definition new_col (is_float : bool) (o : binopt) : col :=
  let names := match o with
               | BDefault => default_names
               | BMethod m => [m]
               | BMethods l => l
               | BCount _ => ["custom"%string]
               end in
  let user := match o with BCount n => Some n | _ => None end in
  mkCol is_float names user (new_methods names (Some min_bins)) None 0 None.

(** What a method's dict holds. *)
Definition slot_value (stored : option hist) (s : slot) : option hist :=
  match s with Own h => h | Stored => stored end.

(** Writing counts and edges into a method's dict. If it is the stored object, the stored histogram
    is written, which the caller overwrites right afterwards (lines 1324-1325, 1359-1360). *)
Definition write_slot (s : slot) (h : option hist) : slot :=
  match s with Own _ => Own h | Stored => Stored end.

Section Updates.
  (** numpy's estimate of the bin count of a method for given values
      (histogram_utils._get_bin_edges) and [np.histogram(values, bins=n)]. *)
  Variable estimate : string -> list Q -> nat.
  Variable np_histogram : nat -> list Q -> hist.

  (** The suggested bin counts and the number of stored bins of _get_histogram (lines 1294-1311)
      for values that are not all equal. *)
  Definition base_bins (c : col) : nat :=
    match c_user c with Some (S n) => S n | _ => min_bins end.
  Definition suggestion (c : col) (values : list Q) (m : string) : nat :=
    match c_user c with
    | None => Nat.min (estimate m values) max_bins
    | Some _ => base_bins c
    end.
  Definition equal_bins (c : col) (values : list Q) : nat :=
    match c_user c with
    | None => fold_left (fun n m => Nat.max n (suggestion c values m)) (c_names c) (base_bins c)
    | Some _ => base_bins c
    end.

  (** The loops over the method names in _get_histogram (lines 1286-1291 and 1303-1318); [false]
      if a name is not among the methods (KeyError). *)
  Fixpoint prepare (sugg : string -> nat) (h : option hist) (names : list string)
      (ms : dict string meth) : dict string meth * bool :=
    match names with
    | [] => (ms, true)
    | x :: r =>
        match dget ms x with
        | None => (ms, false)
        | Some me =>
            prepare sugg h r
              (dset ms x (mkMeth (m_total me) (m_current me) (Some (sugg x)) (write_slot (m_slot me) h)))
        end
    end.

  (** [np.round] of the values of the stored histogram, for columns that are not FloatColumn. *)
  Definition rnd (c : col) (q : Q) : Q := if c_float c then q else inject_Z (round_half_even q).

  (** The values _get_histogram is given (lines 1320-1322 and 1355-1358). *)
  Definition combined (c : col) (values : list Q) : list Q :=
    match c_stored c with
    | Some h => values ++ histogram_to_array (rnd c) h
    | None => values
    end.

  (** _get_histogram_and_quantiles (lines 1930-1946) with _update_histogram (lines 1349-1366), for
      the finite values of a batch: an exception is caught and leaves the rest as it was. *)
  Definition update (c : col) (values : list Q) : col :=
    match values with
    | [] => mkCol (c_float c) (c_names c) (c_user c) (c_methods c) (c_stored c) (c_loss c) None
    | _ :: _ =>
        let vs := combined c values in
        let h := get_histogram (np_histogram (equal_bins c vs)) vs in
        let r := if all_equal vs
                 then prepare (fun _ => 1) (Some h) (c_names c) (c_methods c)
                 else prepare (suggestion c vs) None (c_names c) (c_methods c) in
        if snd r
        then mkCol (c_float c) (c_names c) (c_user c) (fst r) (Some h)
               (c_loss c + bin_error h values)%Q None
        else mkCol (c_float c) (c_names c) (c_user c) (fst r) (c_stored c) (c_loss c) (c_selection c)
    end.
End Updates.

(** ** Report *)
(** _histogram_for_profile (lines 1486-1528): the dict and its loss. *)
Definition histogram_for_profile (c : col) (m : string) : result (slot * Q) :=
  match dget (c_methods c) m with
  | None => Err KeyError
  | Some me =>
      match m_suggested me with
      | None => Err KeyError
      | Some k =>
          match c_stored c, slot_value (c_stored c) (m_slot me) with
          | Some h, None =>
              if length (h_counts h) =? k then Ok (Stored, c_loss c)
              else
                match h_edges h with
                | [] => Err IndexError
                | e0 :: _ =>
                    let e1 := last_q 0 (h_edges h) in
                    bind (regenerate e0 e1 k (c_float c) h) (fun h' =>
                    bind (regenerate_loss e0 e1 k (c_float c) h) (fun l =>
                    Ok (Own (Some h'), l)))
                end
          | _, _ => Ok (m_slot me, m_total me)
          end
      end
  end.

Definition with_methods (c : col) (ms : dict string meth) (sel : option string) : col :=
  mkCol (c_float c) (c_names c) (c_user c) ms (c_stored c) (c_loss c) sel.

(** The loop of _get_best_histogram_for_profile (lines 1542-1549). *)
Fixpoint best_loop (ms : list string) (c : col) (best : option Q) : result col :=
  match ms with
  | [] => Ok c
  | m :: r =>
      bind (histogram_for_profile c m) (fun hl =>
      match dget (c_methods c) m with
      | None => Err KeyError
      | Some me =>
          let me' := mkMeth (m_total me + snd hl)%Q (snd hl) (m_suggested me) (fst hl) in
          let better := match best with
                        | None => true
                        | Some b => Qeq_bool b 0 || negb (Qle_bool b (snd hl))
                        end in
          let c' := with_methods c (dset (c_methods c) m me')
                      (if better then Some m else c_selection c) in
          best_loop r c' (if better then Some (snd hl) else best)
      end)
  end.

(** _get_best_histogram_for_profile (lines 1533-1551): the histogram, and the profile afterwards. *)
Definition best_histogram (c : col) : result (col * option hist) :=
  bind (match c_selection c with
        | Some _ => Ok c
        | None => best_loop (dkeys (c_methods c)) c None
        end) (fun c' =>
  match c_selection c' with
  | None => Err KeyError
  | Some m =>
      match dget (c_methods c') m with
      | None => Err KeyError
      | Some me => Ok (c', slot_value (c_stored c') (m_slot me))
      end
  end).

(** ** Merging *)
(** histogram_utils._calculate_bins_from_profile (lines 316-350); [size] is the number of values,
    [width] the bin width by the method, [None] if it is not a number. *)
Definition bins_from_profile (size : nat) (ptp : Q) (width : option Q) : nat :=
  if size =? 0 then 1
  else
    match width with
    | None => 1
    | Some w => if Qeq_bool w 0 then 1 else Z.to_nat (Qceiling (ptp / w))
    end.

Definition truthy (o : option nat) : bool := match o with Some (S _) => true | _ => false end.

Definition qmin (a b : Q) : Q := if Qle_bool a b then a else b.
Definition qmax (a b : Q) : Q := if Qle_bool a b then b else a.

(** The outer edges of the merged histogram (lines 199-217): the minimum [mn] and the maximum [mx] of
    the merged profile, if they are computed. *)
Definition merged_lo (mn : option Q) (h1 h2 : hist) : Q :=
  match mn with
  | Some a => a
  | None => qmin (nth 0 (h_edges h1) 0%Q) (nth 0 (h_edges h2) 0%Q)
  end.
Definition merged_hi (mx : option Q) (h1 h2 : hist) : Q :=
  match mx with
  | Some b => b
  | None => qmax (last_q 0 (h_edges h1)) (last_q 0 (h_edges h2))
  end.

(** The histogram part of _add_helper (lines 346-355) with _add_helper_merge_profile_histograms
    (lines 147-264). [size] is the number of values of the merged profile and [width] gives the bin
    widths by its statistics. *)
Definition merge (mn mx : option Q) (size : nat) (width : string -> option Q) (c1 c2 : col)
    : result col :=
  match c_stored c1, c_stored c2 with
  | Some h1, Some h2 =>
      let names := filter (fun x => lmem (c_names c2) x) (c_names c1) in
      match names with
      | [] => Err ValueError
      | _ :: _ =>
          let user := if truthy (c_user c1) && truthy (c_user c2)
                      then match c_user c1, c_user c2 with
                           | Some a, Some b => Some (Nat.max a b)
                           | _, _ => None
                           end
                      else None in
          let bins := match user with Some n => n | None => min_bins end in
          let lo := merged_lo mn h1 h2 in
          let hi := merged_hi mx h1 h2 in
          bind (merge_hists lo hi bins h1 h2) (fun h =>
          let sugg m := match user with
                        | None => Some (bins_from_profile size (hi - lo)%Q (width m))
                        | Some _ => None
                        end in
          Ok (mkCol (c_float c1) names user
                (fold_left (fun d m => dset d m (mkMeth 0 0 (sugg m) (Own None))) names [])
                (Some h) 0 None))
      end
  | _, None => Ok (mkCol (c_float c1) default_names None
                     (map (fun p => (fst p, mkMeth (m_total (snd p)) (m_current (snd p)) (m_suggested (snd p))
                                              (Own (slot_value (c_stored c1) (m_slot (snd p))))))
                          (c_methods c1)) None 0 None)
  | None, Some _ => Ok (mkCol (c_float c1) default_names None
                     (map (fun p => (fst p, mkMeth (m_total (snd p)) (m_current (snd p)) (m_suggested (snd p))
                                              (Own (slot_value (c_stored c2) (m_slot (snd p))))))
                          (c_methods c2)) None 0 None)
  end.
