(** Model of parts of profilers/profile_builder.py: how many rows are sampled, and the file properties of a profile. *)
From Coq Require Import ZArith QArith Qround.
From Verif Require Import PyCommon PyDict PyString.
Local Open Scope nat_scope.

(** BaseProfiler._get_sample_size, 843-858.  [per_update] is _samples_per_update (0 counts as not given); the product of
    ratio and length is exact. *)
Definition get_sample_size (per_update : option nat) (min_size : nat) (ratio : Q) (len : nat) : nat :=
  match per_update with
  | Some (S k) => S k
  | _ => if len <=? min_size then len else Nat.max (Z.to_nat (Qfloor (ratio * (Z.of_nat len # 1)))) min_size
  end.

(** StructuredColProfiler._get_sample_size, 519-531 *)
Definition column_sample_size (min_size : nat) (ratio : Q) (len : nat) : nat := get_sample_size None min_size ratio len.

(** update_profile, 984-987: a sample size given by the caller, unless it is 0 *)
Definition update_sample_size (given : option nat) (per_update : option nat) (min_size : nat) (ratio : Q) (len : nat) : nat :=
  match given with Some (S k) => S k | _ => get_sample_size per_update min_size ratio len end.

(** ProfilerOptions._validate_helper, profiler_options.py 1587-1610 *)
Definition valid_ratio (ratio : Q) : bool := match Qcompare 0 ratio with Lt => Qle_bool ratio 1 | _ => false end.

(** StructuredColProfiler.__add__, 219-224 *)
Definition Qmax' (a b : Q) : Q := if Qle_bool a b then b else a.
Definition merged_column_size (min1 min2 : nat) (ratio1 ratio2 : Q) (len : nat) : nat :=
  column_sample_size (Nat.max min1 min2) (Qmax' ratio1 ratio2) len.

(** The file properties: encoding, file_type, total_samples *)
Local Open Scope string_scope.
Record props := mkProps { f_encoding : option string; f_type : option string; f_total : nat }.
Definition new_props : props := mkProps None None 0.

(** A data set: its length, its encoding (none for data frames) and its type *)
Record source := mkSource { s_len : nat; s_encoding : option string; s_type : string }.

(** update_profile, 939-995; the samples are counted for tables (3028) *)
Definition update_props (p : props) (s : source) : props :=
  if s_len s =? 0 then p
  else mkProps (match s_encoding s with Some e => Some e | None => f_encoding p end) (Some (s_type s)) (f_total p + s_len s).

Definition opt_eqb (a b : option string) : bool :=
  match a, b with Some x, Some y => String.eqb x y | None, None => true | _, _ => false end.

(** __add__, 785-803 *)
Definition add_props (a b : props) : props :=
  mkProps (if opt_eqb (f_encoding a) (f_encoding b) then f_encoding a else Some "multiple files")
          (if opt_eqb (f_type a) (f_type b) then f_type a else Some "multiple files")
          (f_total a + f_total b).
