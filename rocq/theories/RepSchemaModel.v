(** The schema of a report: profilers/profile_builder.py (StructuredProfiler.report 2092-2094, diff 1912-1926),
    profilers/profiler_utils.py (find_diff_of_dicts_with_diff_keys 614-665) and profilers/helpers/report_helpers.py
    (_clean_profile_schema 67-86, the part of _prepare_report about schemas 203-214).

    Names of columns are texts, whole numbers, None, or other objects, which are equal only to themselves and have a text.
    A number may be one of numpy (int64), which Python finds equal to its own: the flag beside the positions says of which
    kind the key is, the first one of a dictionary stays.  The differences of shared positions are left as they are given. *)
From Verif Require Import PyCommon PyDict PyString.
Local Open Scope nat_scope.

Inductive key := KText (s : string) | KNum (z : Z) | KNone | KOther (id : nat) (printed : string).
Definition key_eqb (a b : key) : bool :=
  match a, b with
  | KText s, KText t => String.eqb s t
  | KNum x, KNum y => Z.eqb x y
  | KNone, KNone => true
  | KOther i s, KOther j t => (i =? j) && String.eqb s t
  | _, _ => false
  end.
Global Program Instance EqDecB_key : EqDecB key := {| PyDict.eqb := key_eqb |}.
Next Obligation.
  destruct x as [s|z| |i s], y as [t|w| |j t]; cbn; try (constructor; congruence).
  - destruct (String.eqb_spec s t); constructor; congruence.
  - destruct (Z.eqb_spec z w); constructor; congruence.
  - destruct (Nat.eqb_spec i j); cbn; [|constructor; congruence]. destruct (String.eqb_spec s t); constructor; congruence.
Qed.

Section Schema.
  Context {P : Type}.
  (** of numpy or not, and what belongs to the name *)
  Definition schema := list (key * (bool * P)).

  (** _clean_profile_schema 67-86 *)
  Definition clean_key (k : key) : key := match k with KOther _ s => KText s | _ => k end.
  Definition clean (d : schema) : schema :=
    fold_left (fun acc e => dset acc (clean_key (fst e)) (false, snd (snd e))) d [].
End Schema.

(** report 2092-2094: [schema[name].append(i)]; a name and whether it is a number of numpy *)
Definition add_position (d : @schema (list nat)) (i : nat) (name : key * bool) : @schema (list nat) :=
  match dget d (fst name) with
  | Some (np, l) => dset d (fst name) (np, l ++ [i])
  | None => dset d (fst name) (snd name, [i])
  end.
Definition build (names : list (key * bool)) : @schema (list nat) :=
  fold_left (fun d e => add_position d (fst e) (snd e)) (combine (seq 0 (length names)) names) [].

(** Formats of a report; Compact has become Pretty before the schema is looked at *)
Inductive format := Plain | Pretty | Compact | Serializable | Flat.
Definition cleans (f : format) : bool := match f with Pretty | Compact | Serializable => true | _ => false end.
Definition report_schema (f : format) (names : list (key * bool)) : @schema (list nat) :=
  if cleans f then clean (build names) else build names.

(** The schema of a difference: positions of names in one only, or in both *)
Inductive sdiff := Same | Parts (first : @schema (list nat)) (shared : @schema (list nat * list nat)) (second : @schema (list nat)).
Definition diff_schema (a b : list (key * bool)) : sdiff :=
  let a := build a in
  let b := build b in
  let d1 := filter (fun e => negb (dmem b (fst e))) a in
  let d := flat_map (fun e => match dget b (fst e) with Some (_, l) => [(fst e, (fst (snd e), (snd (snd e), l)))] | None => [] end) a in
  let d2 := filter (fun e => negb (dmem a (fst e))) b in
  match d1, d, d2 with [], [], [] => Same | _, _, _ => Parts d1 d d2 end.
(** A text has no keys *)
Definition prepare_diff (f : format) (d : sdiff) : result sdiff :=
  if cleans f then match d with Same => Err AttributeError | Parts x y z => Ok (Parts (clean x) (clean y) (clean z)) end else Ok d.
