(** Model of the bin widths computed from a profile, used for the histogram of merged profiles.
    Source: dataprofiler/profilers/histogram_utils.py.

    Numbers are real; [None] stands for NaN. Overflow is not modelled. *)
From Coq Require Import Reals ZArith.
From Verif Require Import PyCommon PyString.
From Coq Require String.
Local Delimit Scope string_scope with string.
Local Open Scope R_scope.

(** What the functions read of a profile: the number of values (lines 53-66), minimum and maximum
    (lines 21-50), the distance of the quartiles of the stored histogram, standard deviation and
    biased skewness. *)
Record pstats := mkStats {
  s_size : nat;
  s_min : R;
  s_max : R;
  s_iqr : R;
  s_std : option R;
  s_skew : option R }.

(** [np.log2] *)
Definition log2R (x : R) : R := ln x / ln 2.

(** _ptp (lines 69-82) *)
Definition ptp (s : pstats) : R := s_max s - s_min s.

Definition size (s : pstats) : R := INR (s_size s).

(** _calc_doane_bin_width_from_profile (lines 85-111) *)
Definition doane (s : pstats) : option R :=
  if (2 <? s_size s)%nat
  then
    let sg1 := sqrt (6 * (size s - 2) / ((size s + 1) * (size s + 3))) in
    match s_std s with
    | None => Some 0
    | Some sigma =>
        if Rlt_dec 0 sigma
        then match s_skew s with
             | None => None
             | Some g1 => Some (ptp s / (1 + log2R (size s) + log2R (1 + Rabs g1 / sg1)))
             end
        else Some 0
    end
  else Some 0.

(** _calc_rice_bin_width_from_profile (lines 114-130) *)
Definition rice (s : pstats) : option R := Some (ptp s / (2 * Rpower (size s) (1 / 3))).

(** _calc_sturges_bin_width_from_profile (lines 133-149) *)
Definition sturges (s : pstats) : option R := Some (ptp s / (log2R (size s) + 1)).

(** _calc_sqrt_bin_width_from_profile (lines 152-168) *)
Definition sqrt_width (s : pstats) : option R := Some (ptp s / sqrt (size s)).

(** _calc_fd_bin_width_from_profile (lines 171-186) *)
Definition fd (s : pstats) : option R := Some (2 * s_iqr s * Rpower (size s) (- 1 / 3)).

(** _calc_auto_bin_width_from_profile (lines 189-207) *)
Definition auto (s : pstats) : option R :=
  match fd s, sturges s with
  | Some f, Some t => if Req_EM_T f 0 then Some t else Some (Rmin f t)
  | _, _ => None
  end.

(** _calc_scott_bin_width_from_profile (lines 210-225) *)
Definition scott (s : pstats) : option R :=
  match s_std s with
  | None => None
  | Some sd => Some (Rpower (24 * Rpower PI (1 / 2) / size s) (1 / 3) * sd)
  end.

(** _hist_bin_width_selectors_for_profile (lines 228-236) *)
Definition selector (m : string) : option (pstats -> option R) :=
  if String.eqb m "auto" then Some auto
  else if String.eqb m "doane" then Some doane
  else if String.eqb m "fd" then Some fd
  else if String.eqb m "rice" then Some rice
  else if String.eqb m "scott" then Some scott
  else if String.eqb m "sqrt" then Some sqrt_width
  else if String.eqb m "sturges" then Some sturges
  else None.

(** [np.ceil] *)
Definition Rceil (x : R) : Z := (- Int_part (- x))%Z.

(** The number of bins for a width (lines 343-350) *)
Definition bins_of_width (s : pstats) (w : option R) : Z :=
  match w with
  | None => 1
  | Some w => if Req_EM_T w 0 then 1%Z else Rceil (ptp s / w)
  end.

(** _calculate_bins_from_profile (lines 316-350) *)
Definition calculate_bins (s : pstats) (m : string) : result Z :=
  match selector m with
  | None => Err ValueError
  | Some f => Ok (if (s_size s =? 0)%nat then 1%Z else bins_of_width s (f s))
  end.
