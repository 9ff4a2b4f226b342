(** * Which cells are numbers

    profilers/numerical_column_stats.py is_float (2004-2022) and is_int (2025-2044),
    used for every cell by FloatColumn._is_each_row_float (float_column_profile.py
    325-341) and IntColumn._is_each_row_int (int_column_profile.py 116-135), whose
    counts are the match counts of update.

    [float] of a text is modelled: the texts it accepts, and the number of IEEE
    double precision that is nearest to the decimal number, ties to even.  Texts are
    ASCII. *)
From Coq Require Import List Arith Bool ZArith Lia Ascii.
Import ListNotations.
From Verif Require Import PyCommon.
Local Open Scope Z_scope.

Notation text := (list ascii).

(** ** The texts that [float] accepts *)
Definition code (c : ascii) : Z := Z.of_nat (nat_of_ascii c).
Definition is_space (c : ascii) : bool := (code c =? 32) || ((9 <=? code c) && (code c <=? 13)).
Definition is_digit (c : ascii) : bool := (48 <=? code c) && (code c <=? 57).
Definition digit_of (c : ascii) : Z := code c - 48.
Definition is_char (n : Z) (c : ascii) : bool := code c =? n.

Fixpoint lstrip (l : text) : text :=
  match l with c :: r => if is_space c then lstrip r else l | [] => [] end.
Definition strip (l : text) : text := rev (lstrip (rev (lstrip l))).

(** The digits a text begins with; an underscore may stand between two of them *)
Fixpoint digits (l : text) : list Z * text :=
  match l with
  | [] => ([], [])
  | c :: r =>
      if is_digit c then
        match r with
        | u :: r2 =>
            if is_char 95 u then
              match r2 with
              | c2 :: _ =>
                  if is_digit c2
                  then let '(ds, rest) := digits r2 in (digit_of c :: ds, rest)
                  else ([digit_of c], r)
              | [] => ([digit_of c], r)
              end
            else let '(ds, rest) := digits r in (digit_of c :: ds, rest)
        | [] => ([digit_of c], [])
        end
      else ([], l)
  end.

Definition number_of (ds : list Z) : Z := fold_left (fun a d => 10 * a + d) ds 0.

(** A sign, and whether it is a minus *)
Definition sign (l : text) : bool * text :=
  match l with
  | c :: r => if is_char 45 c then (true, r) else if is_char 43 c then (false, r) else (false, l)
  | [] => (false, [])
  end.

(** The part from e or E on, as a whole number; 0 if there is none *)
Definition exponent (l : text) : option Z :=
  match l with
  | [] => Some 0
  | c :: r =>
      if is_char 101 c || is_char 69 c then
        let '(neg, r1) := sign r in
        match digits r1 with
        | (d :: ds, []) => Some (if neg then - number_of (d :: ds) else number_of (d :: ds))
        | _ => None
        end
      else None
  end.

(** Digits, a point, digits, an exponent: the number is [m * 10 ^ e] *)
Definition numeral (l : text) : option (Z * Z) :=
  let '(a, r) := digits l in
  let '(b, r2) := match r with
                  | c :: r1 => if is_char 46 c then digits r1 else ([], r)
                  | [] => ([], r)
                  end in
  match a ++ b with
  | [] => None
  | ds => match exponent r2 with
          | Some x => Some (number_of ds, x - Z.of_nat (length b))
          | None => None
          end
  end.

Definition lower_char (c : ascii) : ascii :=
  if (65 <=? code c) && (code c <=? 90) then ascii_of_nat (nat_of_ascii c + 32) else c.
Definition text_eqb (a b : text) : bool := if list_eq_dec ascii_dec a b then true else false.

Inductive parsed := PNan | PInf | PNum (neg : bool) (m e : Z).

Definition chars (l : list nat) : text := map ascii_of_nat l.
Definition t_nan : text := chars [110; 97; 110]%nat.
Definition t_inf : text := chars [105; 110; 102]%nat.
Definition t_infinity : text := chars [105; 110; 102; 105; 110; 105; 116; 121]%nat.

Definition parse (l : text) : option parsed :=
  let '(neg, r) := sign (strip l) in
  let low := map lower_char r in
  if text_eqb low t_nan then Some PNan
  else if text_eqb low t_inf || text_eqb low t_infinity then Some PInf
  else match numeral r with
       | Some (m, e) => Some (PNum neg m e)
       | None => None
       end.

(** ** The nearest number of double precision *)
(** [n / d], rounded to a whole number, ties to even *)
Definition round_div (n d : Z) : Z :=
  let q := n / d in
  let r := n mod d in
  match Z.compare (2 * r) d with
  | Lt => q
  | Gt => q + 1
  | Eq => if Z.even q then q else q + 1
  end.

(** Numbers are [n / d] with positive [n] and [d].  Their exponent is such that
    the whole number before it has 53 binary digits, but not below -1074. *)
Definition up (e : Z) : Z := 2 ^ Z.max 0 e.

Definition fexp (n d : Z) : Z :=
  let l := Z.log2 n - Z.log2 d in
  Z.max (if n * up (- l) <? d * up l then l - 53 else l - 52) (-1074).

(** The result is [m * 2 ^ e], or [None] for infinity *)
Definition to_double (n d : Z) : option (Z * Z) :=
  let e := fexp n d in
  let m := round_div (n * up (- e)) (d * up e) in
  if (0 <=? e) && (2 ^ 1024 <=? m * 2 ^ e) then None else Some (m, e).

Definition whole (m e : Z) : bool := (0 <=? e) || (m mod 2 ^ (- e) =? 0).

(** [m * 10 ^ e] as a fraction *)
Definition frac (m e : Z) : Z * Z := if 0 <=? e then (m * 10 ^ e, 1) else (m, 10 ^ (- e)).

(** ** is_float and is_int *)
Definition is_float (l : text) : bool := match parse l with Some _ => true | None => false end.

(** int() of infinity is an OverflowError and of nan a ValueError *)
Definition is_int (l : text) : bool :=
  match parse l with
  | Some (PNum _ m e) =>
      if m =? 0 then true
      else match to_double (fst (frac m e)) (snd (frac m e)) with
           | Some (k, x) => whole k x
           | None => false
           end
  | _ => false
  end.

(** match_count of an update *)
Definition count (f : text -> bool) (column : list text) : nat := length (filter f column).
