(** Matching columns by name: profilers/profile_builder.py, StructuredProfiler.

    Column names are [K]; [lower] is [str.lower] on strings and the identity on integers.  A column
    profile is reduced to its name and what it is given. *)
From Verif Require Import PyCommon PyDict.

Section Schema.
  Context {K A : Type} {EK : EqDecB K}.
  Variable lower : K -> K.

  (** [_col_name_to_idx]: name to positions *)
  Definition schema := dict K (list nat).

  (** [mapping_given[col].append(col_idx)] on a defaultdict(list) *)
  Definition dappend (d : schema) (k : K) (i : nat) : schema :=
    dset d k (match dget d k with Some l => l ++ [i] | None => [i] end).

  (** profile_builder.py:2811-2818, from position [i] on *)
  Fixpoint build_from (i : nat) (cols : list K) (d : schema) : schema :=
    match cols with
    | [] => d
    | c :: r => build_from (S i) r (dappend d (lower c) i)
    end.
  Definition build_schema (cols : list K) : schema := build_from 0 cols [].

  (** profile_builder.py:2034-2041 *)
  Fixpoint zip_loop (dup : bool) (l1 l2 : list nat) (m : dict nat nat) : result (dict nat nat) :=
    match l1, l2 with
    | i :: r1, j :: r2 =>
        if dup && negb (i =? j) then Err ValueError
        else zip_loop dup r1 r2 (dset m i j)
    | _, _ => Ok m
    end.

  (** profile_builder.py:2018-2041; [schema1[key]] of a missing key is [] (defaultdict) *)
  Fixpoint key_loop (keys : list K) (s1 s2 : schema) (m : dict nat nat) : result (dict nat nat) :=
    match keys with
    | [] => Ok m
    | key :: r =>
        let k := lower key in
        match dget s2 k with
        | None => Err ValueError
        | Some l2 =>
            let l1 := match dget s1 k with Some l => l | None => [] end in
            if negb (length l1 =? length l2) then Err ValueError
            else bind (zip_loop (1 <? length l1) l1 l2 m) (fun m' => key_loop r s1 s2 m')
        end
    end.

  (** _get_and_validate_schema_mapping, profile_builder.py:1972-2043 *)
  Definition get_mapping (s1 s2 : schema) (strict : bool) : result (dict nat nat) :=
    let n1 := length s1 in
    let n2 := length s2 in
    if (0 <? n1) && negb (n1 =? n2) && (0 <? n2) then Err ValueError
    else if strict && ((n1 =? 0) || (n2 =? 0)) then Err ValueError
    else if negb strict && (n2 =? 0) then
      Ok (map (fun i => (i, i)) (concat (dvals s1)))
    else key_loop (dkeys s1) s1 s2 [].

  (** A StructuredColProfiler: name; the [column_index] it was created with (None in a merged
      profile, profile_builder.py:219-225); batches whose base statistics (null counts, sample sizes)
      it has taken in, each with the column positions whose configured null values were applied;
      batches given to its statistics. *)
  Record colp := mkColp {
    c_name : option K;
    c_index : option nat;
    c_base : list (list nat * list A);
    c_stats : list (list A)
  }.
  Definition new_colp (i : nat) : colp := mkColp None (Some i) [] [].

  (** A StructuredProfiler. *)
  Record prof := mkProf { p_schema : schema; p_cols : list colp }.
  Definition new_prof : prof := mkProf [] [].

  (** [self._profile[p]] is changed by [f] *)
  Fixpoint change (l : list colp) (p : nat) (f : colp -> result colp) : result (list colp) :=
    match l, p with
    | [], _ => Err IndexError
    | c :: r, 0 => bind (f c) (fun c' => Ok (c' :: r))
    | c :: r, S p => bind (change r p f) (fun r' => Ok (c :: r'))
    end.

  (** The null values used: those the column profile was created with, which include
      [options.column_null_values[column_index]] (profile_builder.py:107-122), updated with
      [options.column_null_values[col_idx]] for the position in the batch (2987-2989). *)
  Definition take_base (i : nat) (cells : list A) (c : colp) : result colp :=
    let used := match c_index c with Some p => [p; i] | None => [i] end in
    Ok (mkColp (c_name c) (c_index c) (c_base c ++ [(used, cells)]) (c_stats c)).

  (** update_column_profilers, profile_builder.py:144-190: the first name is kept, a different name
      is an error *)
  Definition take_stats (name : K) (cells : list A) (c : colp) : result colp :=
    match c_name c with
    | None => Ok (mkColp (Some name) (c_index c) (c_base c) (c_stats c ++ [cells]))
    | Some n => if eqb n name then Ok (mkColp (c_name c) (c_index c) (c_base c) (c_stats c ++ [cells]))
                else Err ValueError
    end.

  (** First loop over the columns of the data, profile_builder.py:2978-3000 (the pool at 2907-2976
      visits the same columns); [col_idx_to_prof_idx[col_idx]] *)
  Fixpoint feed (m : dict nat nat) (i : nat) (data : list (K * list A)) (l : list colp) :
    result (list colp) :=
    match data with
    | [] => Ok l
    | (_, cells) :: r =>
        match dget m i with
        | None => Err KeyError
        | Some p => bind (change l p (take_base i cells)) (fun l' => feed m (S i) r l')
        end
    end.

  (** Second loop, profile_builder.py:3012-3015, over the same columns in the same order.  An
      exception leaves the columns before it changed, so the list comes with the exception. *)
  Fixpoint stats (m : dict nat nat) (i : nat) (data : list (K * list A)) (l : list colp) :
    list colp * option exn :=
    match data with
    | [] => (l, None)
    | (name, cells) :: r =>
        match dget m i with
        | None => (l, Some KeyError)
        | Some p =>
            match change l p (take_stats name cells) with
            | Err e => (l, Some e)
            | Ok l' => stats m (S i) r l'
            end
        end
    end.

  (** _update_profile_from_chunk, profile_builder.py:2789-3015: the state afterwards and the
      exception raised, if any *)
  Definition update (s : prof) (data : list (K * list A)) : prof * option exn :=
    let given := build_schema (map fst data) in
    match get_mapping given (p_schema s) false with
    | Err e => (s, Some e)
    | Ok m =>
        let s' := if length (p_cols s) =? 0
                  then mkProf given (map new_colp (seq 0 (length data))) else s in
        match feed m 0 data (p_cols s') with
        | Err e => (s', Some e)
        | Ok l => let '(l', x) := stats m 0 data l in (mkProf (p_schema s') l', x)
        end
    end.

  (** StructuredColProfiler.__add__, profile_builder.py:193-254 *)
  Definition add_colp (a b : colp) : result colp :=
    match c_name a, c_name b with
    | Some n, Some n' =>
        if eqb n n' then Ok (mkColp (Some n) None (c_base a ++ c_base b) (c_stats a ++ c_stats b))
        else Err ValueError
    | None, None => Ok (mkColp None None (c_base a ++ c_base b) (c_stats a ++ c_stats b))
    | _, _ => Err ValueError
    end.

  (** [self._profile[idx] + other._profile[self_to_other_idx[idx]]] for all idx *)
  Fixpoint merge_cols (m : dict nat nat) (i : nat) (c1 c2 : list colp) : result (list colp) :=
    match c1 with
    | [] => Ok []
    | x :: r =>
        match dget m i with
        | None => Err KeyError
        | Some j =>
            match nth_error c2 j with
            | None => Err IndexError
            | Some y => bind (add_colp x y) (fun z =>
                        bind (merge_cols m (S i) r c2) (fun r' => Ok (z :: r')))
            end
        end
    end.

  (** __add__, profile_builder.py:1771-1823, after the strict check of 1697-1700 *)
  Definition add (s1 s2 : prof) : result prof :=
    bind (get_mapping (p_schema s1) (p_schema s2) true) (fun _ =>
    bind (get_mapping (p_schema s1) (p_schema s2) false) (fun m =>
    bind (merge_cols m 0 (p_cols s1) (p_cols s2)) (fun l => Ok (mkProf (p_schema s1) l)))).

  Inductive hist :=
  | HNew
  | HUpd (h : hist) (data : list (K * list A))
  | HAdd (h1 h2 : hist).

  Fixpoint run (h : hist) : result prof :=
    match h with
    | HNew => Ok new_prof
    | HUpd h d => bind (run h) (fun s => match update s d with
                                         | (s', None) => Ok s'
                                         | (_, Some e) => Err e
                                         end)
    | HAdd h1 h2 => bind (run h1) (fun s1 => bind (run h2) (fun s2 => add s1 s2))
    end.
End Schema.

Arguments schema K : clear implicits.
Arguments colp K A : clear implicits.
Arguments prof K A : clear implicits.
Arguments hist K A : clear implicits.
