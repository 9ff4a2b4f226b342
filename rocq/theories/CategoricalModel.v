(** Model of the categorical column profile (full counting mode).
    Source: dataprofiler/profilers/categorical_column_profile.py. *)
From Verif Require Import PyCommon PyDict.
From Coq Require Import QArith.
From Coq Require String.
Notation string := String.string.
Open Scope nat_scope.

Definition Qnat (n : nat) : Q := inject_Z (Z.of_nat n).

Section Categorical.
  Context {K : Type} {EK : EqDecB K}.

  (** add_nested_dictionaries (profilers/profiler_utils.py:291-320) for values which are
      numbers (the recursion into nested dictionaries is the same function one
      level down and is not needed for counts). Keys of the first dictionary first, in
      order; then the new keys of the second. *)
  Definition add_nested_dictionaries (first second : dict K nat) : dict K nat :=
    let merged1 :=
      fold_left (fun m kv =>
        dset m (fst kv)
          (match dget second (fst kv) with
           | Some v2 => snd kv + v2
           | None => snd kv
           end)) first [] in
    fold_left (fun m kv => if dmem first (fst kv) then m else dset m (fst kv) (snd kv))
      second merged1.

  (** State of a CategoricalColumn (categorical_column_profile.py:36-66 and
      base_column_profilers.py:32-46). [cat_index] is [col_index] ([None] for nan).
      Times and metadata are not modelled. The sketch mode ([cms]) is in CmsModel. *)
  Record cat := mkCat {
    cat_name : option string;
    cat_index : option nat;
    cat_n : nat;                        (* sample_size *)
    cat_cats : dict K nat;              (* _categories *)
    cat_topk : option nat;              (* _top_k_categories *)
    cat_maxn : option nat;              (* max_sample_size_to_check_stop_condition *)
    cat_ratio : option Q;               (* stop_condition_unique_value_ratio *)
    cat_stopped : bool;                 (* _stop_condition_is_met *)
    cat_stop_ratio : option Q;          (* _stopped_at_unique_ratio *)
    cat_stop_count : option nat         (* _stopped_at_unique_count *)
  }.

  (** CategoricalColumn.__init__ (lines 36-72): [topk], [maxn], [ratio] come from the options. *)
  Definition cat_new (name : option string) (idx : option nat)
    (topk maxn : option nat) (ratio : option Q) : cat :=
    mkCat name idx 0 [] topk maxn ratio false None None.

  (** unique_ratio (lines 404-412); [None] only for a stopped profile without stored ratio. *)
  Definition unique_ratio (s : cat) : option Q :=
    if cat_stopped s then cat_stop_ratio s
    else if negb (cat_n s =? 0)
    then Some (Qnat (length (dkeys (cat_cats s))) / Qnat (cat_n s))%Q
    else Some 0%Q.

  (** unique_count (lines 414-420) *)
  Definition unique_count (s : cat) : option nat :=
    if cat_stopped s then cat_stop_count s else Some (length (dkeys (cat_cats s))).

  (** _check_stop_condition_is_met (lines 458-475) *)
  Definition check_stop (s : cat) (size : nat) (ratio : Q) : bool :=
    match cat_maxn s, cat_ratio s with
    | Some m, Some r => (m <=? size) && Qle_bool r ratio
    | _, _ => false
    end.

  (** is_match (lines 422-437), with the class constants 10 and 0.2 (lines 30-34) *)
  Definition is_match (s : cat) : bool :=
    if cat_stopped s then false
    else
      let unique := length (cat_cats s) in
      if unique <=? 10 then true
      else if negb (cat_n s =? 0)
           then match unique_ratio s with
                | Some q => Qle_bool q (1 # 5)
                | None => false
                end
           else false.

  Section Update.
    (** [df_series.value_counts(dropna=False).to_dict()]: an arbitrary function; its meaning is
        the hypothesis [value_counts_ok] of the theorems (any key order). *)
    Variable value_counts : list K -> dict K nat.

    (** _update_categories, full mode (lines 644-652), with _update_stop_condition
        (lines 477-493) inlined. *)
    Definition update_categories (s : cat) (batch : list K) : cat :=
      let cats := add_nested_dictionaries (cat_cats s) (value_counts batch) in
      let merged_unique_count := length cats in
      let merged_sample_size := cat_n s + length batch in
      let merged_unique_ratio := (Qnat merged_unique_count / Qnat merged_sample_size)%Q in
      let stop := check_stop s merged_sample_size merged_unique_ratio in
      mkCat (cat_name s) (cat_index s) (cat_n s) (if stop then [] else cats)
        (cat_topk s) (cat_maxn s) (cat_ratio s) stop
        (if stop then Some merged_unique_ratio else cat_stop_ratio s)
        (if stop then Some merged_unique_count else cat_stop_count s).

    (** update (lines 672-697) with _update_helper/_update_column_base_properties
        (line 670, base_column_profilers.py:205): the sample size is increased after the
        categories. *)
    Definition update (s : cat) (batch : list K) : cat :=
      if (length batch =? 0) || cat_stopped s then s
      else
        let s' := update_categories s batch in
        mkCat (cat_name s') (cat_index s') (cat_n s' + length batch) (cat_cats s')
          (cat_topk s') (cat_maxn s') (cat_ratio s') (cat_stopped s')
          (cat_stop_ratio s') (cat_stop_count s').
  End Update.

  (** BaseColumnProfiler._add_helper (base_column_profilers.py:150-178): index and name checks.
      The merged profile starts with [col_index] nan (class default). *)
  Definition add_index (i1 i2 : option nat) : result (option nat) :=
    match i1, i2 with
    | None, None => Ok None
    | Some a, Some b => if a =? b then Ok (Some a) else Err ValueError
    | _, _ => Err ValueError
    end.

  Definition name_eqb (n1 n2 : option string) : bool :=
    match n1, n2 with
    | None, None => true
    | Some a, Some b => String.eqb a b
    | _, _ => false
    end.

  (** __add__ (lines 89-194) when neither profile uses a sketch. *)
  Definition add (s1 s2 : cat) : result cat :=
    bind (add_index (cat_index s1) (cat_index s2)) (fun idx =>
    if negb (name_eqb (cat_name s1) (cat_name s2)) then Err ValueError
    else
      let n := cat_n s1 + cat_n s2 in
      if negb (cat_stopped s1 || cat_stopped s2) then
        let cats := add_nested_dictionaries (cat_cats s1) (cat_cats s2) in
        match unique_ratio s1, unique_ratio s2 with
        | Some r1, Some r2 =>
            let p1 := (Qnat (cat_n s1) * r1)%Q in
            let p2 := (Qnat (cat_n s2) * r2)%Q in
            let lt := negb (Qle_bool p2 p1) in
            let maxn := if lt then cat_maxn s1 else cat_maxn s2 in
            let ratio := if lt then cat_ratio s1 else cat_ratio s2 in
            let m := mkCat (cat_name s1) idx n cats None maxn ratio false None None in
            match unique_ratio m with
            | Some ur =>
                if check_stop m n ur
                then Ok (mkCat (cat_name s1) idx n [] None maxn ratio true
                           (Some ur) (unique_count m))
                else Ok m
            | None => Err TypeError
            end
        | _, _ => Err TypeError
        end
      else
        let big := if cat_n s2 <? cat_n s1 then s1 else s2 in
        Ok (mkCat (cat_name s1) idx (cat_n big) [] None None None true
              (unique_ratio big) (unique_count big))).

  (** gini_impurity (lines 196-217) *)
  Definition gini_impurity (s : cat) : option Q :=
    if cat_n s =? 0 then None
    else Some (fold_left (fun acc kv =>
           (acc + (Qnat (snd kv) / Qnat (cat_n s)) * (1 - Qnat (snd kv) / Qnat (cat_n s)))%Q)
           (cat_cats s) 0%Q).

  (** unalikeability (lines 219-243); counts are integers, hence [Z] (the difference could be
      negative for an inconsistent profile). *)
  Definition unalikeability (s : cat) : option Q :=
    if cat_n s =? 0 then None
    else if cat_n s =? 1 then Some 0%Q
    else
      let sum := fold_left (fun acc kv =>
        (acc + (Z.of_nat (cat_n s) - Z.of_nat (snd kv)) * Z.of_nat (snd kv))%Z) (cat_cats s) 0%Z in
      Some (inject_Z sum / inject_Z (Z.of_nat (cat_n s) * Z.of_nat (cat_n s) - Z.of_nat (cat_n s)))%Q.

  (** The [categorical_count] entry of [profile] (lines 385-391): categories sorted by count,
      descending and stable, cut to the first [top_k]. *)
  Fixpoint insert_desc (kv : K * nat) (l : list (K * nat)) : list (K * nat) :=
    match l with
    | [] => [kv]
    | kv' :: r => if snd kv <? snd kv' then kv' :: insert_desc kv r else kv :: l
    end.
  Definition sort_desc (l : list (K * nat)) : list (K * nat) := fold_right insert_desc [] l.
  Definition categorical_count (s : cat) : list (K * nat) :=
    match cat_topk s with
    | None => sort_desc (cat_cats s)
    | Some k => firstn k (sort_desc (cat_cats s))
    end.
End Categorical.
Arguments cat K : clear implicits.
