(** Model of profilers/datetime_column_profile.py: which values of a column are dates, their formats, the earliest and the
    latest one.

    The parsing of dates ([datetime.strptime] after the removal of day suffixes, 202-240) is an arbitrary partial
    function to points in time, which are integers.  The random sample drawn from a batch is an argument.  Column names
    and time measurements are left out. *)
From Coq Require Import ZArith.
From Verif Require Import PyCommon PyDict.
Local Open Scope nat_scope.

Section Dates.
  Context {C F : Type} {E : EqDecB F}.
  (** _date_formats, 26-43 *)
  Variable formats : list F.
  (** _validate_datetime after _replace_day_suffix, 207-242 *)
  Variable parse : F -> C -> option Z.
  (** ["%b" in date_format], 275 *)
  Variable short_month : F -> bool.
  (** [x.month == 5], 276-277 *)
  Variable may : Z -> bool.

  Record found := mkFound {
    fd_formats : list F;            (* activated_date_formats *)
    fd_min : option (C * Z);        (* min_value, min_value_obj *)
    fd_max : option (C * Z);        (* max_value, max_value_obj *)
    fd_match : nat }.               (* is_row_datetime.sum() *)

  (** [np.argmin], [np.argmax]: the first smallest, the first largest *)
  Fixpoint first_min (l : list (C * Z)) : option (C * Z) :=
    match l with
    | [] => None
    | x :: r => match first_min r with Some y => if (snd x <=? snd y)%Z then Some x else Some y | None => Some x end
    end.
  Fixpoint first_max (l : list (C * Z)) : option (C * Z) :=
    match l with
    | [] => None
    | x :: r => match first_max r with Some y => if (snd y <=? snd x)%Z then Some x else Some y | None => Some x end
    end.
  (** 297-306; the initial [datetime.max] and [datetime.min] are [None] *)
  Definition smaller (old new : option (C * Z)) : option (C * Z) :=
    match old, new with
    | Some o, Some n => if (snd n <? snd o)%Z then Some n else Some o
    | None, _ => new
    | _, None => old
    end.
  Definition larger (old new : option (C * Z)) : option (C * Z) :=
    match old, new with
    | Some o, Some n => if (snd o <? snd n)%Z then Some n else Some o
    | None, _ => new
    | _, None => old
    end.

  (** 263-273: the values with a date in the format *)
  Definition valid (f : F) (rows : list C) : list (C * Z) :=
    flat_map (fun c => match parse f c with Some t => [(c, t)] | None => [] end) rows.

  (** 260-325: the loop over the formats; [rows] are the values not recognised so far *)
  Fixpoint date_loop (fs : list F) (rows : list C) (acc : found) : found :=
    match fs with
    | [] => acc
    | f :: fs =>
        match rows with
        | [] => acc
        | _ =>
            let dates := valid f rows in
            (* 275-280: only dates in May, which could be meant by the long format *)
            let dropped := short_month f && match dates with [] => false | _ => true end && forallb (fun d => may (snd d)) dates in
            let dates := if dropped then [] else dates in
            let rest := if dropped then rows else filter (fun c => match parse f c with None => true | Some _ => false end) rows in
            date_loop fs rest
              (mkFound (if length rest <? length rows then fd_formats acc ++ [f] else fd_formats acc)
                       (smaller (fd_min acc) (first_min dates)) (larger (fd_max acc) (first_max dates))
                       (fd_match acc + length dates))
        end
    end.

  (** _get_datetime_profile, 244-345 *)
  Definition datetime_profile (rows : list C) : found := date_loop formats rows (mkFound [] None None 0).

  (** _is_subset_datetime_column, 347-365; the sample has at most 50 values *)
  Definition is_subset_datetime (rows sample : list C) : bool :=
    match rows with [] => false | _ => negb (10 * fd_match (datetime_profile sample) <? length sample) end.

  (** DateTimeColumn *)
  Record dcol := mkDate {
    dt_formats : list F;
    dt_min : option (C * Z);        (* min, _dt_obj_min *)
    dt_max : option (C * Z);
    dt_match : nat;
    dt_n : nat }.
  Definition new_date : dcol := mkDate [] None None 0 0.

  (** [_combine_unique_sets], profiler_utils.py 74-91; the order of the result is arbitrary *)
  Definition combine (a b : list F) : list F := distinct (a ++ b).

  (** 373-417 for the minimum; an update compares strictly *)
  Definition update_min (old new : option (C * Z)) : option (C * Z) := smaller old new.
  Definition update_max (old new : option (C * Z)) : option (C * Z) := larger old new.

  (** update, 428-451 *)
  Definition date_update (s : dcol) (batch sample : list C) : dcol :=
    match batch with
    | [] => s
    | _ =>
        if is_subset_datetime batch sample then
          let p := datetime_profile batch in
          mkDate (match fd_formats p with [] => dt_formats s | fs => combine (dt_formats s) fs end)
                 (update_min (dt_min s) (fd_min p)) (update_max (dt_max s) (fd_max p))
                 (dt_match s + fd_match p) (dt_n s + length batch)
        else mkDate (dt_formats s) (dt_min s) (dt_max s) (dt_match s) (dt_n s + length batch)
    end.

  (** __add__, 78-120: of equal points in time the one of the second profile *)
  Definition merge_min (a b : option (C * Z)) : option (C * Z) :=
    match a, b with
    | None, _ => b
    | Some _, None => a
    | Some x, Some y => if (snd x <? snd y)%Z then a else b
    end.
  Definition merge_max (a b : option (C * Z)) : option (C * Z) :=
    match a, b with
    | None, _ => b
    | Some _, None => a
    | Some x, Some y => if (snd y <? snd x)%Z then a else b
    end.
  Definition date_add (a b : dcol) : dcol :=
    mkDate (combine (dt_formats a) (dt_formats b)) (merge_min (dt_min a) (dt_min b)) (merge_max (dt_max a) (dt_max b))
           (dt_match a + dt_match b) (dt_n a + dt_n b).
End Dates.
