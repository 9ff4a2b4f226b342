(** * Tables read in part

    data_readers/data_utils.py: rsample (346-367), read_csv_df (370-441),
    sample_parquet (498-518), read_parquet_df (541-567); csv_data.py 177-180 for the
    number of rows asked for.

    Texts are lists of characters, with line feeds only as ends of lines.  Of pandas:
    reading of records by read_csv with one character as delimiter, quotes doubled
    inside of quotes, no escapes and no comments.  Types of columns, selected
    columns and how records of different lengths are put together are left out.
    Draws of random numbers are arbitrary, as in SamplingModel. *)
From Coq Require Import List Arith Bool Lia Ascii.
Import ListNotations.
From Coq Require String.
From Verif Require Import PyCommon SamplingModel.
Local Open Scope nat_scope.

Definition text := list ascii.
Definition nl : ascii := "010"%char.
Definition quote : ascii := "034"%char.
Definition is_nl (c : ascii) : bool := Ascii.eqb c nl.

(** The lines of a file, each with its line feed except perhaps the last *)
Fixpoint lines (t : text) : list text :=
  match t with
  | [] => []
  | c :: r =>
      if is_nl c then [c] :: lines r
      else match lines r with
           | [] => [[c]]
           | l :: ls => (c :: l) :: ls
           end
  end.

(** 366: [i if (i[-1] == "\n") else i + "\n"] *)
Definition ends_nl (l : text) : bool := match rev l with c :: _ => is_nl c | [] => false end.
Definition end_line (l : text) : text := if ends_nl l then l else l ++ [nl].

(** str(None), put where a line was removed *)
Definition none_text : text := ["N"; "o"; "n"; "e"]%char.

(** rsample, 346-367: the text that is read instead of the file, and the new header;
    [next] on a file that has ended is an error *)
Definition rsample (draws : nat -> rdraw) (t : text) (k : nat) (header : option nat)
  : option (result (text * option nat)) :=
  let ls := lines t in
  match header with
  | None =>
      match reservoir none_text draws ls k with
      | Some (Ok out) => Some (Ok (concat (map end_line out), None))
      | Some (Err e) => Some (Err e)
      | None => None
      end
  | Some h =>
      match nth_error ls h with
      | None => Some (Err GenericException)
      | Some hl =>
          match reservoir none_text draws (skipn (S h) ls) k with
          | Some (Ok out) => Some (Ok (concat (map end_line (hl :: out)), Some 0))
          | Some (Err e) => Some (Err e)
          | None => None
          end
      end
  end.

(** ** read_csv *)
(** Where the parser is: at the start of a field, in a field, inside of quotes, and
    after a quote inside of quotes *)
Inductive state := SStart | SField | SQuoted | SQuote.

Section Csv.
Variable delim : ascii.

Variable skip : bool. (** skip_blank_lines *)

Definition blank (c : ascii) : bool := (Ascii.eqb c " " || Ascii.eqb c "009") && negb (Ascii.eqb c delim).

(** [fields]: the fields before, in reverse; [cur]: the field so far, in reverse;
    [begun]: the line has begun; [only]: there are only blanks in it.  The end inside
    of quotes is an error. *)
Definition end_record (fields : list text) (cur : text) (only : bool) : list (list text) :=
  if skip && only then [] else [rev (rev cur :: fields)].

Fixpoint parse (s : state) (fields : list text) (cur : text) (begun only : bool) (t : text)
  : result (list (list text)) :=
  match t with
  | [] =>
      match s with
      | SQuoted => Err ValueError
      | _ => Ok (if begun then end_record fields cur only else [])
      end
  | c :: r =>
      match s with
      | SQuoted =>
          if Ascii.eqb c quote then parse SQuote fields cur true false r
          else parse SQuoted fields (c :: cur) true false r
      | _ =>
          if is_nl c then
            bind (parse SStart [] [] false true r) (fun rs => Ok (end_record fields cur only ++ rs))
          else if Ascii.eqb c delim then parse SStart (rev cur :: fields) [] true false r
          else if Ascii.eqb c quote then
            match s with
            | SStart => parse SQuoted fields cur true false r
            | SQuote => parse SQuoted fields (c :: cur) true false r
            | _ => parse SField fields (c :: cur) true false r
            end
          else parse SField fields (c :: cur) true (only && blank c) r
      end
  end.

Definition records (t : text) : result (list (list text)) := parse SStart [] [] false true t.
End Csv.

(** pd.read_csv: the record with the names and the records after it; blank lines are
    kept if there is a header, 405-407; without any record there is an error *)
Definition read (delim : ascii) (t : text) (header : option nat) : result (option (list text) * list (list text)) :=
  match header with
  | None => bind (records delim true t) (fun rs => match rs with [] => Err ValueError | _ => Ok (None, rs) end)
  | Some h =>
      bind (records delim false t) (fun rs =>
        match nth_error rs h with
        | None => Err ValueError
        | Some hr => Ok (Some hr, skipn (S h) rs)
        end)
  end.

(** read_csv_df, 370-441; [k = None] if no number of rows is given *)
Definition read_csv_df (delim : ascii) (draws : nat -> rdraw) (t : text) (k : option nat) (header : option nat)
  : option (result (option (list text) * list (list text))) :=
  match k with
  | Some (S k') =>
      match rsample draws t (S k') header with
      | Some (Ok (u, h)) => Some (read delim u h)
      | Some (Err e) => Some (Err e)
      | None => None
      end
  | _ => Some (read delim t header)
  end.

(** ** Parquet *)
Section Parquet.
Variable R : Type.
(** A file: its groups of rows.  A table: rows with their labels. *)
Definition ptable := list (nat * R).

Definition labelled (l : list R) : ptable := combine (seq 0 (length l)) l.

(** [table.filter(mask)] *)
Definition masked (mask : list bool) (l : list R) : list R :=
  map snd (filter fst (combine mask l)).

(** [sample_index[ids] = True] *)
Definition mask_of (n : nat) (ids : list nat) : list bool :=
  map (fun i => existsb (Nat.eqb i) ids) (seq 0 n).

(** sample_parquet, 498-511; [ids] is what random.sample draws *)
Definition sample_parquet (groups : list (list R)) (k : nat) (ids : list nat) : ptable :=
  let rows := concat groups in
  let mask := if k <? length rows then mask_of (length rows) ids else repeat true (length rows) in
  labelled (masked mask rows).

(** read_parquet_df, 541-567: group by group, each with labels from 0 *)
Definition read_parquet (groups : list (list R)) (k : option nat) (ids : list nat) : ptable :=
  match k with
  | None => fold_left (fun data g => data ++ labelled g) groups []
  | Some k => sample_parquet groups k ids
  end.
End Parquet.
