(** Categorical columns counted with a count-min sketch: profilers/categorical_column_profile.py with the option
    [cms].

    The sketch of the library datasketches is modelled as a table of counts: one row per hash function, whose
    values are arbitrary.  Sizes the library refuses are left out; [cms_max_num_heavy_hitters] is not negative.
    Thresholds are compared as exact numbers.  Names, times and the other options are left out. *)
From Verif Require Import PyCommon PyDict CategoricalModel.
Local Open Scope nat_scope.

Section Cms.
  Context {K : Type} {EK : EqDecB K}.
  Variable hash : nat -> K -> nat.   (* hash function number i *)

  (** ** datasketches.count_min_sketch *)
  Record sketch := mkSketch { sk_hashes : nat; sk_buckets : nat; sk_cell : nat -> nat -> nat }.

  Definition bucket (s : sketch) (i : nat) (v : K) : nat := hash i v mod sk_buckets s.

  (** [count_min_sketch(num_hashes, num_buckets)]; both are [None] in a merged profile *)
  Definition new_sketch (cfg : option (nat * nat)) : result sketch :=
    match cfg with
    | None => Err TypeError
    | Some (d, w) => Ok (mkSketch d w (fun _ _ => 0))
    end.

  (** [update(v)] *)
  Definition sk_update (s : sketch) (v : K) : sketch :=
    mkSketch (sk_hashes s) (sk_buckets s) (fun i b => sk_cell s i b + if b =? bucket s i v then 1 else 0).

  (** [get_estimate(v)]: the least of the counts *)
  Definition estimate (s : sketch) (v : K) : nat :=
    fold_left Nat.min (map (fun i => sk_cell s i (bucket s i v)) (seq 1 (sk_hashes s - 1))) (sk_cell s 0 (bucket s 0 v)).

  (** [s.merge(t)]: a [ValueError] if the sizes differ *)
  Definition sk_merge (s t : sketch) : result sketch :=
    if (sk_hashes s =? sk_hashes t) && (sk_buckets s =? sk_buckets t)
    then Ok (mkSketch (sk_hashes s) (sk_buckets s) (fun i b => sk_cell s i b + sk_cell t i b))
    else Err ValueError.

  (** ** The profile *)
  Record col := mkCol { c_cfg : option (nat * nat); c_cms : sketch; c_cats : dict K nat; c_n : nat; c_max : nat }.

  (** __init__, 62-87 *)
  Definition new (d w max : nat) : col := mkCol (Some (d, w)) (mkSketch d w (fun _ _ => 0)) [] 0 max.

  (** The loop of _get_categories_cms, 508-520; [old] is the sketch of the profile *)
  Fixpoint hitters (old : sketch) (n len max : nat) (vs : list K) (st : sketch * dict K nat * dict K nat) : sketch * dict K nat * dict K nat :=
    match vs with
    | [] => st
    | v :: r =>
        let '(cms, heavy, missing) := st in
        let cms' := sk_update cms v in
        let i_count := estimate cms' v in
        let i_total := i_count + estimate old v in
        hitters old n len max r
          (if len / max <=? i_count then (cms', dset heavy v i_count, ddel missing v)
           else if (n + len) / max <=? i_total then (cms', ddel heavy v, dset missing v i_total)
           else (cms', heavy, missing))
    end.

  (** _merge_categories_cms, 525-594.  The handler calls the caught exception, which is a [TypeError]. *)
  Definition recollect (a b : dict K nat) (s : sketch) : dict K nat :=
    fold_left (fun d k => if dmem b k then d else dset d k (estimate s k)) (dkeys a) b.

  Definition merge_cms (cfg : option (nat * nat)) (cms1 : sketch) (heavy1 : dict K nat) (len1 : nat) (missing : dict K nat)
    (cms2 : sketch) (heavy2 : dict K nat) (len2 max : nat) : result (sketch * dict K nat) :=
    bind (new_sketch cfg) (fun s0 =>
    match bind (sk_merge s0 cms1) (fun s1 => sk_merge s1 cms2) with
    | Err _ => Err TypeError
    | Ok cms3 =>
        let h2 := recollect heavy1 heavy2 cms2 in
        let h1 := recollect h2 heavy1 cms1 in
        let cats := dupdate (add_nested_dictionaries h2 h1) missing in
        if (max =? 0) && (0 <? length cats) then Err ZeroDivisionError
        else Ok (cms3, filter (fun kv => negb (snd kv * max <? len1 + len2)) cats)
    end).

  (** update, 672-697, with _update_categories, 628-650 *)
  Definition update (c : col) (vs : list K) : result col :=
    match vs with
    | [] => Ok c
    | _ =>
        let len := length vs in
        bind (new_sketch (c_cfg c)) (fun s0 =>
        if c_max c =? 0 then Err ZeroDivisionError
        else
          let '(cms, heavy, missing) := hitters (c_cms c) (c_n c) len (c_max c) vs (s0, [], []) in
          bind (merge_cms (c_cfg c) cms heavy len missing (c_cms c) (c_cats c) (c_n c) (c_max c)) (fun r =>
          Ok (mkCol (c_cfg c) (fst r) (snd r) (c_n c + len) (c_max c))))
    end.

  (** __add__, 89-133: the sizes are not passed on *)
  Definition merge (a b : col) : result col :=
    let max := Nat.min (c_max a) (c_max b) in
    bind (merge_cms (c_cfg a) (c_cms a) (c_cats a) (c_n a) [] (c_cms b) (c_cats b) (c_n b) max) (fun r =>
    Ok (mkCol None (fst r) (snd r) (c_n a + c_n b) max)).

  Inductive hist := HNew (d w max : nat) | HUpd (h : hist) (vs : list K) | HAdd (h1 h2 : hist).

  Fixpoint run (h : hist) : result col :=
    match h with
    | HNew d w max => Ok (new d w max)
    | HUpd h vs => bind (run h) (fun c => update c vs)
    | HAdd h1 h2 => bind (run h1) (fun a => bind (run h2) (fun b => merge a b))
    end.
End Cms.
Arguments hist : clear implicits.
Arguments HNew {_} _ _ _.
Arguments HUpd {_} _ _.
Arguments HAdd {_} _ _.
