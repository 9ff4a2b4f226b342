(** * The encoding of a file and the text that is read with it

    data_readers/data_utils.py detect_file_encoding (590-676) and
    read_text_as_list_of_strs (570-587), data_readers/base_data.py file_encoding
    (105-137), data_readers/text_data.py _load_data (76-84).

    A file is a list of bytes, numbers 0 to 255; a text is a list of code points.
    Parameters: chardet's detector as a state machine, what charset_normalizer finds,
    and the decoders of Python's codecs.  The file is given by a path, or is a BytesIO
    at its beginning. *)
From Coq Require Import List Arith Bool ZArith Lia.
Import ListNotations.
From Verif Require Import PyCommon PyString.
Import String.StringSyntax.
Local Delimit Scope string_scope with string.
Local Open Scope nat_scope.

Notation bytes := (list Z).
Notation chars := (list Z).

(** ** Universal newlines: what [open(..., "r")] makes of line ends *)
Definition LF : Z := 10%Z.
Definition CR : Z := 13%Z.

Fixpoint translate (t : chars) : chars :=
  match t with
  | [] => []
  | c :: r =>
      if (c =? CR)%Z then
        LF :: match r with
              | d :: r' => if (d =? LF)%Z then translate r' else translate r
              | [] => []
              end
      else c :: translate r
  end.

(** [list(input_file)]: the lines with their ends *)
Fixpoint lines_of (t : chars) : list chars :=
  match t with
  | [] => []
  | c :: r =>
      if (c =? LF)%Z then [c] :: lines_of r
      else match lines_of r with
           | [] => [[c]]
           | l :: ls => (c :: l) :: ls
           end
  end.

(** ** The decoder of UTF-8, byte by byte
    [Need n lo hi cp]: [n] more bytes are needed, the next one between [lo] and [hi],
    [cp] is the part of the code point read so far. *)
Inductive ustate := Start | Need (n : nat) (lo hi cp : Z).

Definition ustep (s : ustate) (b : Z) : option (ustate * chars) :=
  (match s with
  | Start =>
      if (0 <=? b) && (b <=? 127) then Some (Start, [b])
      else if (194 <=? b) && (b <=? 223) then Some (Need 1 128 191 (b - 192), [])
      else if b =? 224 then Some (Need 2 160 191 0, [])
      else if b =? 237 then Some (Need 2 128 159 13, [])
      else if (225 <=? b) && (b <=? 239) then Some (Need 2 128 191 (b - 224), [])
      else if b =? 240 then Some (Need 3 144 191 0, [])
      else if (241 <=? b) && (b <=? 243) then Some (Need 3 128 191 (b - 240), [])
      else if b =? 244 then Some (Need 3 128 143 4, [])
      else None
  | Need n lo hi cp =>
      if (lo <=? b) && (b <=? hi) then
        let cp' := cp * 64 + (b - 128) in
        match n with
        | S (S m) => Some (Need (S m) 128 191 cp', [])
        | _ => Some (Start, [cp'])
        end
      else None
  end)%Z.

Fixpoint urun (s : ustate) (b : bytes) : option (ustate * chars) :=
  match b with
  | [] => Some (s, [])
  | x :: r =>
      match ustep s x with
      | None => None
      | Some (s', out) =>
          match urun s' r with
          | None => None
          | Some (s'', out') => Some (s'', out ++ out')
          end
      end
  end.

(** [final] is false for a part of a file: a character that is not complete is kept *)
Definition utf8 (b : bytes) (final : bool) : option chars :=
  match urun Start b with
  | Some (Start, out) => Some out
  | Some (Need _ _ _ _, out) => if final then None else Some out
  | None => None
  end.

Section Encoding.
  (** chardet: [feed] and [close]; [None] is no encoding *)
  Context {D : Type} (d_new : D) (d_feed : D -> bytes -> D) (d_close : D -> option string).
  (** charset_normalizer, if it is installed: the encoding of [from_bytes(raw, steps,
      chunk_size, ...).best()], [Ok None] for no result; it may raise *)
  Context (normalizer : option (bytes -> nat -> nat -> result (option string))).
  (** [dec e b final]: the decoder of codec [e]; [None] is an error, also for an unknown
      codec *)
  Context (dec : string -> bytes -> bool -> option chars).
  (** The number of characters of the test, 1024 * 1024 (625), and the number of bytes
      that a text file reads at a time, 8192 *)
  Context (limit chunk : nat).

  (** The loop of lines 606-611: chunks of [size] bytes, at most [most] *)
  Fixpoint feed_all (most size : nat) (f : bytes) (d : D) : D :=
    match most with
    | 0 => d
    | S m =>
        match firstn size f with
        | [] => d
        | c => feed_all m size (skipn size f) (d_feed d c)
        end
    end.

  (** [_decode_is_valid], 620-627.  [read(limit)] decodes [chunk] bytes at a time until
      there are enough characters; at the end of the file the decoder is finished.  (A
      carriage return at the end of a part counts as a character.) *)
  Fixpoint head_loop (fuel : nat) (e : string) (f : bytes) (pos : nat) (got : chars) : bool :=
    match fuel with
    | 0 => false
    | S fuel' =>
        if limit <=? length (translate got) then true
        else if length f <=? pos then
          match dec e f true with Some _ => true | None => false end
        else
          match dec e (firstn (pos + chunk) f) false with
          | None => false
          | Some cs => head_loop fuel' e f (pos + chunk) cs
          end
    end.
  Definition head_ok (e : string) (f : bytes) : bool := head_loop (S (S (length f))) e f 0 [].

  Definition is_empty (s : string) : bool := String.eqb s "".

  (** Lines 612-617 *)
  Definition first_guess (r : option string) : string :=
    match r with
    | None => "utf-8"%string
    | Some e =>
        if is_empty e || String.eqb (lower_string e) "ascii"
           || String.eqb (lower_string e) "windows-1254"
        then "utf-8"%string else e
    end.

  (** Lines 629-669; [if best_result: encoding = best_result.encoding] *)
  Definition second_guess (n : bytes -> nat -> nat -> result (option string))
    (most size : nat) (f : bytes) (e0 : string) : string :=
    match n (firstn (100 * 100) f) 5 512 with
    | Err _ => e0
    | Ok r1 =>
        let e1 := match r1 with Some e => e | None => e0 end in
        if head_ok e1 f then e1
        else match n (firstn (most * size) f) most size with
             | Err _ => e1
             | Ok r2 => match r2 with Some e => e | None => e1 end
             end
    end.

  (** detect_file_encoding *)
  Definition detect (f : bytes) (size most : nat) : string :=
    let e0 := first_guess (d_close (feed_all most size f d_new)) in
    let e := if head_ok e0 f then e0
             else match normalizer with
                  | Some n => second_guess n most size f e0
                  | None => e0
                  end in
    lower_string (if is_empty e then "utf-8"%string else e).

  (** read_text_as_list_of_strs; an error of the decoder is a ValueError (an unknown
      codec is a LookupError in the code) *)
  Definition read_lines (f : bytes) (encoding : option string) : result (list chars) :=
    let e := match encoding with Some e => e | None => detect f 1024 20 end in
    match dec e f true with
    | Some t => Ok (lines_of (translate t))
    | None => Err ValueError
    end.

  (** ** The encoding of a reader
      [r_enc] is [_file_encoding]; [r_file] tells where the data is from: a path or a
      BytesIO with these bytes, or neither (a StringIO, or data in memory). *)
  Record reader := mkReader { r_enc : option string; r_file : option bytes }.

  (** What the system says: [locale.getpreferredencoding], which may raise, and
      [sys.getfilesystemencoding] *)
  Context (preferred : result string) (filesystem : string).

  Definition system_encoding : string :=
    let e := match preferred with Ok e => e | Err _ => filesystem end in
    if String.eqb (lower_string e) "ansi_x3.4-1968" || String.eqb (lower_string e) "ascii"
    then "utf-8"%string else e.

  (** file_encoding, base_data.py 105-125 *)
  Definition get_encoding (r : reader) : string * reader :=
    let ask :=
      let e := match r_file r with
               | Some f => detect f 1024 20
               | None => system_encoding
               end in
      (e, mkReader (Some e) (r_file r)) in
    match r_enc r with
    | Some e => if is_empty e then ask else (e, r)
    | None => ask
    end.

  (** The setter, base_data.py 127-137; [None] is a value that is no text or empty *)
  Definition set_encoding (r : reader) (v : option string) : option exn * reader :=
    match v with
    | None => (Some ValueError, r)
    | Some e =>
        if is_empty e
           || negb (existsb (String.eqb (lower_string e)) ["ascii"; "utf-8"; "utf-16"; "utf-32"]%string)
        then (Some ValueError, r)
        else (None, mkReader (Some e) (r_file r))
    end.

  (** TextData._load_data for a file, text_data.py 76-84 *)
  Definition load_text (r : reader) (f : bytes) : result (list chars) * reader :=
    let '(e, r') := get_encoding r in (read_lines f (Some e), r').
End Encoding.
