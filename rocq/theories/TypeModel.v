(** Model of the selection of a data type for a column: profilers/column_profile_compilers.py (BaseCompiler and
    ColumnPrimitiveTypeProfileCompiler) with the counts of the four column types (int_column_profile.py 104-172,
    float_column_profile.py 265-275 and 430-470, text_column_profile.py 121-195, datetime_column_profile.py).

    What is a number is given by two arbitrary predicates; statistics other than the longest text are left out; column
    names are equal. *)
From Coq Require Import ZArith QArith.
From Verif Require Import PyCommon PyDict PyString DateModel.
Local Open Scope nat_scope.
Local Open Scope string_scope.
Local Open Scope list_scope.

(** The keys of the profiles *)
Inductive kind := KDate | KInt | KFloat | KText.
Definition kind_eqb (a b : kind) : bool :=
  match a, b with KDate, KDate | KInt, KInt | KFloat, KFloat | KText, KText => true | _, _ => false end.
Lemma kind_eqb_spec a b : reflect (a = b) (kind_eqb a b).
Proof. destruct a, b; constructor; congruence. Qed.
Global Instance EqDecB_kind : EqDecB kind := {| eqb := kind_eqb; eqb_spec := kind_eqb_spec |}.
Definition kind_name (k : kind) : string :=
  match k with KDate => "datetime" | KInt => "int" | KFloat => "float" | KText => "text" end.

(** _profilers, 263-268 *)
Definition profilers : list kind := [KDate; KInt; KFloat; KText].

Section Types.
  Context {C F : Type} {E : EqDecB F}.
  Variable formats : list F.
  Variable parse : F -> C -> option Z.
  Variable short_month : F -> bool.
  Variable may : Z -> bool.
  (** NumericStatsMixin.is_int, is_float *)
  Variables is_int is_float : C -> bool.
  (** [len] of a text *)
  Variable len : C -> nat.
  (** Whether the text profile records the longest text (option text.max) *)
  Variable max_enabled : bool.

  Inductive prof :=
  | PDate (d : @dcol C F)
  | PCount (m n : nat)                                          (* IntColumn and FloatColumn: match_count, sample_size *)
  | PText (n : nat) (longest : option nat) (type : string).

  (** BaseCompiler._create_profile, 75-112: the enabled profiles in order *)
  Definition new_prof (k : kind) : prof :=
    match k with KDate => PDate new_date | KInt | KFloat => PCount 0 0 | KText => PText 0 None (kind_name KText) end.
  Definition new_compiler (enabled : kind -> bool) : dict kind prof := map (fun k => (k, new_prof k)) (filter enabled profilers).

  Fixpoint longest (l : list C) : option nat :=
    match l with [] => None | c :: r => match longest r with Some m => Some (Nat.max (len c) m) | None => Some (len c) end end.
  Definition omax (a b : option nat) : option nat :=
    match a, b with Some x, Some y => Some (Nat.max x y) | None, _ => b | _, None => a end.
  (** text_column_profile.py 170-171 *)
  Definition text_type (m : option nat) (type : string) : string :=
    match m with Some (S k) => if S k <=? 255 then "string" else "text" | _ => type end.

  (** update of a profile; [sample] is what the datetime profile samples from the batch *)
  Definition update_prof (k : kind) (p : prof) (batch sample : list C) : prof :=
    match batch with
    | [] => p
    | _ =>
        match p with
        | PDate d => PDate (date_update formats parse short_month may d batch sample)
        | PCount m n => PCount (m + length (filter (match k with KInt => is_int | _ => is_float end) batch)) (n + length batch)
        | PText n mx ty => let mx := if max_enabled then omax mx (longest batch) else mx in PText (n + length batch) mx (text_type mx ty)
        end
    end.

  (** BaseCompiler.update_profile without a pool, 175-182 *)
  Definition update_compiler (c : dict kind prof) (batch sample : list C) : dict kind prof :=
    map (fun e => (fst e, update_prof (fst e) (snd e) batch sample)) c.

  (** the [__add__] of the profiles; a merged text profile has the type of the class, text_column_profile.py 60-70 *)
  Definition add_prof (p q : prof) : result prof :=
    match p, q with
    | PDate a, PDate b => Ok (PDate (date_add a b))
    | PCount m n, PCount m' n' => Ok (PCount (m + m') (n + n'))
    | PText n mx _, PText n' mx' _ => Ok (PText (n + n') (omax mx mx') (kind_name KText))
    | _, _ => Err TypeError
    end.

  (** [set(self._profiles) != set(other._profiles)] *)
  Definition same_keys (a b : dict kind prof) : bool :=
    forallb (fun k => dmem b k) (dkeys a) && forallb (fun k => dmem a k) (dkeys b).
  (** BaseCompiler.__add__, 114-145 *)
  Definition add_compiler (a b : dict kind prof) : result (dict kind prof) :=
    if same_keys a b then
      (fix over (l : dict kind prof) : result (dict kind prof) :=
         match l with
         | [] => Ok []
         | (k, p) :: r =>
             match dget b k with
             | Some q => bind (add_prof p q) (fun pq => bind (over r) (fun rest => Ok ((k, pq) :: rest)))
             | None => Err KeyError
             end
         end) a
    else Err ValueError.

  (** data_type_ratio *)
  Definition ratio (p : prof) : option Q :=
    match p with
    | PDate d => match dt_n d with 0 => None | S k => Some (Z.of_nat (dt_match d) # Pos.of_succ_nat k) end
    | PCount m n => match n with 0 => None | S k => Some (Z.of_nat m # Pos.of_succ_nat k) end
    | PText n _ _ => match n with 0 => None | S _ => Some 1%Q end
    end.
  Definition full (p : prof) : bool := match ratio p with Some q => Qeq_bool q 1 | None => false end.

  (** selected_data_type, 303-317 *)
  Fixpoint selected (c : dict kind prof) : option kind :=
    match c with
    | [] => None
    | (k, p) :: r => if full p then Some k else selected r
    end.

  (** profiler.type *)
  Definition type_of (k : kind) (p : prof) : string := match p with PText _ _ ty => ty | _ => kind_name k end.
  (** report, 269-296: data_type and data_type_representation *)
  Fixpoint reported (c : dict kind prof) : option string :=
    match c with
    | [] => None
    | (k, p) :: r => if full p then Some (type_of k p) else reported r
    end.
  Definition representation (c : dict kind prof) : dict string (option Q) :=
    fold_left (fun d e => dset d (type_of (fst e) (snd e)) (ratio (snd e))) c [].
End Types.
