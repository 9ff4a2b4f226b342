(** Differences of report values: profilers/profiler_utils.py, find_diff_of_*, 417-665.

    Numbers are exact rationals or NaN; dates are points in time counted in microseconds, printing them
    is not modelled.  Elements of lists are hashable values of any type; a set is a list without
    repetition whose order is unspecified.  A list is compared with a list or None only: the code
    also iterates over a string or dictionary in that place, which its documentation excludes. *)
From Coq Require Import QArith.
From Verif Require Import PyCommon PyDict PyString PyEq.
Local Open Scope nat_scope.

Section Diff.
  Context {K E : Type} {EK : EqDecB K} {EE : EqDecB E}.

  (** Values of a report.  [VNum None] is NaN. *)
  Inductive val :=
  | VNone | VNum (n : option Q) | VBool (b : bool) | VStr (s : string) | VDate (t : Z)
  | VList (l : list E) | VDict (d : list (K * val)).

  (** What the functions return. *)
  Inductive out :=
  | Unchanged                                    (* "unchanged" *)
  | OPair (a b : val)                            (* [stat1, stat2] *)
  | ONum (n : option Q)                          (* stat1 - stat2 *)
  | ODates (a b : option Z)                      (* [printed stat1, printed stat2] *)
  | ODelta (neg : bool) (z : Z)                  (* "+" or "-" and the absolute time difference *)
  | OLists (a shared b : list E)
  | ODict (d : list (K * out))
  | OParts (a : list (K * val)) (shared : list (K * out)) (b : list (K * val)).

  Definition num_of (v : val) : option (option Q) :=
    match v with
    | VNum n => Some n
    | VBool b => Some (Some (if b then 1 else 0)%Q)
    | _ => None
    end.

  (** Python's == for the values compared with it. *)
  Definition py_eq (a b : val) : bool :=
    match num_of a, num_of b with
    | Some (Some x), Some (Some y) => Qeq_bool x y
    | Some _, Some _ => false
    | _, _ =>
        match a, b with
        | VNone, VNone => true
        | VStr s, VStr t => eqb s t
        | VDate s, VDate t => Z.eqb s t
        | _, _ => false
        end
    end.

  Definition nsub (a b : option Q) : option Q :=
    match a, b with Some x, Some y => Some (x - y)%Q | _, _ => None end.

  (** find_diff_of_numbers, 429-448 *)
  Definition diff_numbers (a b : val) : result out :=
    match a, b with
    | VNone, VNone => Ok Unchanged
    | VNone, _ | _, VNone => Ok (OPair a b)
    | _, _ =>
        if py_eq a b then Ok Unchanged
        else match num_of a, num_of b with
             | Some x, Some y => Ok (ONum (nsub x y))
             | _, _ => Err TypeError
             end
    end.

  (** find_diff_of_strings_and_bools, 451-468 *)
  Definition diff_strings (a b : val) : result out :=
    if py_eq a b then Ok Unchanged else Ok (OPair a b).

  (** find_diff_of_dates, 507-540 *)
  Definition diff_dates (a b : val) : result out :=
    match a, b with
    | VNone, VNone => Ok Unchanged
    | VNone, VDate t => Ok (ODates None (Some t))
    | VDate s, VNone => Ok (ODates (Some s) None)
    | VDate s, VDate t => if Z.eqb s t then Ok Unchanged else Ok (ODelta (s - t <? 0)%Z (Z.abs (s - t)))
    | _, _ => Err TypeError
    end.

  (** list.remove *)
  Fixpoint lremove (x : E) (l : list E) : list E :=
    match l with [] => [] | y :: r => if eqb x y then r else y :: lremove x r end.

  (** The loop at 499-502: shared elements, remaining second list. *)
  Definition share_step (acc : list E * list E) (x : E) : list E * list E :=
    if lmem (snd acc) x then (fst acc ++ [x], lremove x (snd acc)) else acc.

  (** set(stat1) != set(stat2) or len(stat1) != len(stat2), 495 *)
  Definition same_set (l l' : list E) : bool := forallb (lmem l') l && forallb (lmem l) l'.

  (** find_diff_of_lists_and_sets, 471-504, for two lists *)
  Definition diff_two_lists (l l' : list E) : out :=
    if negb (same_set l l') || negb (length l =? length l') then
      let '(shared, rest) := fold_left share_step l ([], l') in
      OLists (fold_left (fun acc x => lremove x acc) shared l) shared rest
    else Unchanged.

  Definition diff_lists (a b : val) : result out :=
    match a, b with
    | VNone, VNone => Ok Unchanged
    | VNone, VList _ | VList _, VNone => Ok (OPair a b)
    | VList l, VList l' => Ok (diff_two_lists l l')
    | _, _ => Err TypeError
    end.

  (** dict.get(key, None) *)
  Definition get_or_none (d : list (K * val)) (k : K) : val := match dget d k with Some v => v | None => VNone end.

  (** The loop over the first dictionary, 568-579, for a difference [f] of values. *)
  Definition entries (f : val -> val -> result out) (d2 : list (K * val)) : list (K * val) -> list (K * out) -> result (list (K * out)) :=
    fix go d1 acc :=
      match d1 with
      | [] => Ok acc
      | (k, v) :: r => bind (f v (get_or_none d2 k)) (fun o => go r (dset acc k o))
      end.

  (** 582-584: keys only in the second. *)
  Definition add_missing (d2 : list (K * val)) (acc : list (K * out)) : list (K * out) :=
    fold_left (fun acc kv => if dmem acc (fst kv) then acc else dset acc (fst kv) (OPair VNone (snd kv))) d2 acc.

  Definition finish (d : list (K * out)) : out := match d with [] => Unchanged | _ => ODict d end.

  (** One entry of find_diff_of_dicts, 568-579 *)
  Fixpoint diff_val (v1 v2 : val) : result out :=
    match v1 with
    | VList _ => diff_lists v1 v2
    | VDate _ => diff_dates v1 v2
    | VStr _ => diff_strings v1 v2
    | VDict d1 =>
        match v2 with
        | VDict d2 => bind (entries diff_val d2 d1 []) (fun acc => Ok (finish (add_missing d2 acc)))
        | _ => diff_numbers v1 v2
        end
    | _ => diff_numbers v1 v2
    end.

  (** find_diff_of_dicts, 543-585; [None] is treated as an empty dictionary *)
  Definition or_empty (d : option (list (K * val))) : list (K * val) := match d with Some d => d | None => [] end.
  Definition diff_dicts (d1 d2 : option (list (K * val))) : result out :=
    diff_val (VDict (or_empty d1)) (VDict (or_empty d2)).

  (** find_diff_of_dicts_with_diff_keys, 622-665 *)
  Definition shared_entries (f : val -> val -> result out) (d2 : list (K * val)) :
    list (K * val) -> list (K * val) * list (K * out) -> result (list (K * val) * list (K * out)) :=
    fix go d1 acc :=
      match d1 with
      | [] => Ok acc
      | (k, v) :: r =>
          match dget d2 k with
          | Some v2 => bind (f v v2) (fun o => go r (fst acc, dset (snd acc) k o))
          | None => go r (dset (fst acc) k v, snd acc)
          end
      end.

  Definition only_second (d1 d2 : list (K * val)) : list (K * val) :=
    fold_left (fun acc kv => if dmem d1 (fst kv) then acc else dset acc (fst kv) (snd kv)) d2 [].

  Definition finish_parts (a : list (K * val)) (s : list (K * out)) (b : list (K * val)) : out :=
    match a, s, b with [], [], [] => Unchanged | _, _, _ => OParts a s b end.

  Fixpoint parts_val (v1 v2 : val) : result out :=
    match v1 with
    | VList _ => diff_lists v1 v2
    | VDate _ => diff_dates v1 v2
    | VStr _ | VBool _ => diff_strings v1 v2
    | VDict d1 =>
        match v2 with
        | VDict d2 =>
            bind (shared_entries parts_val d2 d1 ([], [])) (fun acc => Ok (finish_parts (fst acc) (snd acc) (only_second d1 d2)))
        | _ => diff_numbers v1 v2
        end
    | _ => diff_numbers v1 v2
    end.

  Definition diff_parts (d1 d2 : option (list (K * val))) : result out :=
    parts_val (VDict (or_empty d1)) (VDict (or_empty d2)).
End Diff.

Arguments val K E : clear implicits.
Arguments out K E : clear implicits.

(** find_diff_of_matrices, 588-611: entries are numbers or NaN.  None: no answer (a matrix is missing or
    the shapes differ); the inner option is None for "unchanged". *)
Definition shape (m : list (list (option Q))) : list nat := map (@length (option Q)) m.

Definition msub (a b : list (list (option Q))) : list (list (option Q)) :=
  map (fun rr => map (fun xy => nsub (fst xy) (snd xy)) (combine (fst rr) (snd rr))) (combine a b).

Definition zero_or_nan (x : option Q) : bool := match x with Some q => Qeq_bool q 0 | None => true end.

Definition diff_matrices (a b : option (list (list (option Q)))) : option (option (list (list (option Q)))) :=
  match a, b with
  | Some a, Some b =>
      if eqb (shape a) (shape b)
      then let d := msub a b in Some (if forallb (forallb zero_or_nan) d then None else Some d)
      else None
  | _, _ => None
  end.
