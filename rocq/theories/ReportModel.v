(** Model of profilers/helpers/report_helpers.py 41-273: flattened reports and omitted keys.

    Keys are strings or integers.  The formatting of the values is not modelled (output format None, compact without
    its shortening of values). *)
From Coq Require Import ZArith DecimalString DecimalZ.
From Verif Require Import PyCommon PyDict PyString.

Local Open Scope string_scope.
Local Open Scope list_scope.
Infix "+++" := String.append (at level 60, right associativity).

Inductive key := KStr (s : string) | KInt (z : Z).

Definition key_eqb (a b : key) : bool :=
  match a, b with KStr s, KStr t => String.eqb s t | KInt x, KInt y => Z.eqb x y | _, _ => false end.
Lemma key_eqb_spec a b : reflect (a = b) (key_eqb a b).
Proof.
  destruct a as [s|x], b as [t|y]; cbn [key_eqb]; try (constructor; congruence).
  - destruct (String.eqb_spec s t); constructor; congruence.
  - destruct (Z.eqb_spec x y); constructor; congruence.
Qed.
Global Instance EqDecB_key : EqDecB key := {| eqb := key_eqb; eqb_spec := key_eqb_spec |}.

(** [str(key)] *)
Definition show_key (k : key) : string :=
  match k with KStr s => s | KInt z => NilZero.string_of_int (Z.to_int z) end.

(** [bool(key)] *)
Definition truthy (k : key) : bool :=
  match k with KStr s => negb (String.eqb s "") | KInt z => negb (Z.eqb z 0) end.

Definition us : Ascii.ascii := Ascii.ascii_of_nat 95.
Definition dot : Ascii.ascii := Ascii.ascii_of_nat 46.
(** [.replace(" ", "_")] *)
Fixpoint under (s : string) : string :=
  match s with
  | String.EmptyString => String.EmptyString
  | String.String c r => String.String (if Ascii.eqb c (Ascii.ascii_of_nat 32) then us else c) (under r)
  end.

Section Flat.
  Context {V : Type}.
  Inductive tree := Leaf (v : V) | Node (d : list (key * tree)).

  Variable sep : string.

  Definition prefix (k k' : key) : key :=
    if truthy k then KStr (under (show_key k) +++ sep +++ show_key k') else k'.

  (** flat_dict, 40-64: a dictionary comprehension over the flattened values *)
  Fixpoint flat (t : tree) (k : key) : dict key V :=
    match t with
    | Leaf v => [(k, v)]
    | Node d =>
        (fix over (d : list (key * tree)) (acc : dict key V) : dict key V :=
           match d with
           | [] => acc
           | (kk, vv) :: r => over r (fold_left (fun acc e => dset acc (prefix k (fst e)) (snd e)) (flat vv kk) acc)
           end) d []
    end.
End Flat.
Arguments tree : clear implicits.

Definition flat_dict {V} (sep : string) (d : list (key * tree V)) : dict key V := flat sep (Node d) (KStr "").

(** ** Omitted keys *)

(** [s.split(".", 1)]: what is before and after the first dot, if any *)
Fixpoint split1 (s : string) : option (string * string) :=
  match s with
  | String.EmptyString => None
  | String.String c r =>
      if Ascii.eqb c dot then Some (String.EmptyString, r)
      else match split1 r with Some (a, b) => Some (String.String c a, b) | None => None end
  end.

Section Report.
  Context {V : Type}.
  (** [str] of a value, used for the names of columns *)
  Variable show : V -> string.

  (** Values: dictionaries, lists, anything else, and the None put for an omitted column *)
  Inductive rval := VOne (v : V) | VNone | VDict (d : list (key * rval)) | VList (l : list rval).

  Definition in_omit (omit : list string) (s : string) : bool := existsb (String.eqb s) omit.
  Definition key_omitted (omit : list string) (k : key) : bool := match k with KStr s => in_omit omit s | KInt _ => false end.

  (** 229-241: the omitted keys of the next layer *)
  Definition next_omit (k : key) (omit : list string) : list string :=
    flat_map (fun o =>
      match split1 o with
      | None => []
      | Some (prior, next) =>
          if String.eqb next "" then []
          else if String.eqb prior "*" || eqb k (KStr prior) then [next] else []
      end) omit.

  (** 173 *)
  Definition col_name (d : list (key * rval)) : string :=
    match dget d (KStr "column_name") with Some (VOne v) => show v | _ => "None" end.

  (** 178-202: [None] if the column is omitted, else the omitted keys in it *)
  Fixpoint column_omit (name : string) (omit : list string) (acc : list string) : result (option (list string)) :=
    match omit with
    | [] => Ok (Some acc)
    | o :: omit =>
        if String.eqb o ("*." +++ name) || String.eqb o "data_stats.*" || String.eqb o ("data_stats." +++ name) then Ok None
        else match split1 o with
             | None => column_omit name omit acc
             | Some (prior, next) =>
                 if String.eqb prior "data_stats" || String.eqb prior "*" then
                   let first := match split1 next with Some (a, _) => a | None => next end in
                   if String.eqb first "*" || String.eqb first name
                   then match split1 next with Some (_, b) => column_omit name omit (acc ++ [b]) | None => Err IndexError end
                   else column_omit name omit acc
                 else column_omit name omit acc
             end
    end.

  (** _prepare_report, 91-273, without the formatting of values *)
  Fixpoint prepare (r : rval) (omit : list string) : result rval :=
    match r with
    | VDict d =>
        bind ((fix over (d : list (key * rval)) (acc : list (key * rval)) : result (list (key * rval)) :=
          match d with
          | [] => Ok acc
          | (k, v) :: rest =>
              if key_omitted omit k then over rest acc
              else if in_omit omit "*" then over rest acc
              else
                match v with
                | VList cols =>
                    if eqb k (KStr "data_stats") then
                      bind ((fix columns (cols : list rval) (acc : list rval) : result (list rval) :=
                        match cols with
                        | [] => Ok acc
                        | cv :: cols =>
                            match cv with
                            | VDict c =>
                            bind (column_omit (col_name c) omit []) (fun o =>
                            match o with
                            | None => columns cols (acc ++ [VNone])
                            | Some omit' => bind (prepare cv omit') (fun c' => columns cols (acc ++ [c']))
                            end)
                            | _ => Err AttributeError
                            end
                        end) cols [])
                      (fun cols' => over rest (dset acc k (VList cols')))
                    else over rest (dset acc k v)
                | VDict _ =>
                    if eqb k (KStr "profile_schema") then over rest (dset acc k v)
                    else bind (prepare v (next_omit k omit)) (fun v' => over rest (dset acc k v'))
                | _ => over rest (dset acc k v)
                end
          end) d [])
        (fun d' => Ok (VDict d'))
    | _ => Ok r
    end.

  (** 127-138: [omit_keys.extend(...)] changes the list of the caller, the second component *)
  Definition compact_keys : list string :=
    ["data_stats.*.statistics.times"; "data_stats.*.statistics.avg_predictions";
     "data_stats.*.statistics.data_label_representation"; "data_stats.*.statistics.null_types_index";
     "data_stats.*.statistics.histogram"].
  Definition prepare_report (compact : bool) (r : rval) (omit : list string) : result rval * list string :=
    let omit := if compact then omit ++ compact_keys else omit in (prepare r omit, omit).
End Report.
Arguments rval : clear implicits.
