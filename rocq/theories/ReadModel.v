(** Model of reading the beginning of a file and of the handler of paths and buffers
    (dataprofiler/data_readers/data_utils.py, filepath_or_buffer.py).

    Simplifications: a file is the list of its characters after decoding and newline translation, so that [read(n)]
    returns the next [n] characters (all that are left if fewer); numbers are natural. *)
From Verif Require Import PyCommon PyDict PyEq.
Local Open Scope nat_scope.

Section Find.
  Context {A : Type} {EA : EqDecB A}.

  (** Whether [q] is a prefix of [s] *)
  Fixpoint starts (q s : list A) : bool :=
    match q, s with
    | [], _ => true
    | a :: q', b :: s' => eqb a b && starts q' s'
    | _, [] => false
    end.

  (** Number of leading elements equal to [a] *)
  Fixpoint leading (a : A) (s : list A) : nat := match s with b :: r => if eqb b a then S (leading a r) else 0 | [] => 0 end.

  (** [re.finditer], data_utils.py 772-775: the positions of the matches of the escaped query, followed by a plus sign
      (which binds to the last character) if [ignore].  [skip] is what is left of the current match. *)
  Fixpoint scan (q : list A) (ignore : bool) (s : list A) (pos skip : nat) : list nat :=
    match s with
    | [] => []
    | a :: r =>
        match skip with
        | S k => scan q ignore r (S pos) k
        | 0 => if starts q s
               then let rest := skipn (length q) s in
                    let m := length q + (if ignore then match rev q with l :: _ => leading l rest | [] => 0 end else 0) in
                    pos :: scan q ignore r (S pos) (m - 1)
               else scan q ignore r (S pos) 0
        end
    end.

  (** find_nth_loc, 742-790.  The first component is -1 without string, query or number; this is [None]. *)
  Definition find_nth_loc (s q : list A) (n : nat) (ignore : bool) : option nat * nat :=
    match s, q, n with
    | [], _, _ | _, [], _ | _, _, 0 => (None, 0)
    | _, _, _ =>
        let occ := scan q ignore s 0 0 in
        match nth_error occ (n - 1) with
        | Some idx => (Some idx, n)
        | None => (Some (length s), length occ)
        end
    end.

  Variable newline : A.

  (** Body of the loop of load_as_str_from_file, 824-858: one chunk.  The inner loop runs once at most: it ends at the
      end of the chunk or when there are enough lines. *)
  Definition chunk_step (max_lines : nat) (data : list A) (total : nat) (chunk : list A) : list A * nat :=
    if (0 <? length chunk - 1) && (total <? max_lines) then
      match find_nth_loc chunk [newline] (max_lines - total) true with
      | (Some loc, occ) => (data ++ firstn loc chunk, total + occ)
      | (None, occ) => (data ++ firstn (length chunk - 1) chunk, total + occ)
      end
    else (data, total).

  Fixpoint load_loop (iterations size max_lines : nat) (file data : list A) (total : nat) : list A :=
    match iterations with
    | 0 => data
    | S it =>
        match firstn size file with
        | [] => data
        | chunk =>
            let '(data, total) := chunk_step max_lines data total chunk in
            if max_lines <=? total then data else load_loop it size max_lines (skipn size file) data total
        end
    end.

  (** load_as_str_from_file, 793-860; a step of 0 is a [ValueError] of [range] *)
  Definition load_as_str (file : list A) (max_lines max_bytes chunk_size : nat) : result (list A) :=
    let size := Nat.min max_bytes chunk_size in
    if size =? 0 then Err ValueError
    else Ok (load_loop ((max_bytes + size - 1) / size) size max_lines file [] 0).
End Find.

(** ** Handler of paths and buffers *)

(** What a handler may hold: a path, a text or byte buffer, a wrapper of the byte buffer, an open file, anything else *)
Inductive held := HPath | HText | HBytes | HWrapper | HFile | HOther.

(** The stream given by the caller or opened: position, whether it is closed; for a byte buffer whether a text wrapper
    owns it; number of files that are open. *)
Record world := { w_pos : nat; w_closed : bool; w_owned : bool; w_open_files : nat }.

Record handler := { h_held : held; h_text_mode : bool; h_seek : option nat; h_wrapped : bool }.

(** FileOrBufferHandler.__init__, filepath_or_buffer.py 29-59 *)
Definition new_handler (x : held) (text_mode : bool) (seek : option nat) : handler :=
  {| h_held := x; h_text_mode := text_mode; h_seek := seek; h_wrapped := false |}.

Section Handler.
  Variable seek_ok : held -> nat -> bool.   (* whether the stream accepts the offset with the given reference point *)
  Variable openable : bool.                 (* whether the path can be opened *)

  (** The part of __enter__ before seeking, 61-80 *)
  Definition acquire (h : handler) (w : world) : result (handler * world) :=
    match h_held h with
    | HPath => if openable
               then Ok ({| h_held := HFile; h_text_mode := h_text_mode h; h_seek := h_seek h; h_wrapped := h_wrapped h |},
                        {| w_pos := 0; w_closed := false; w_owned := w_owned w; w_open_files := S (w_open_files w) |})
               else Err GenericException
    | HBytes => if h_text_mode h
                then Ok ({| h_held := HWrapper; h_text_mode := true; h_seek := h_seek h; h_wrapped := true |},
                         {| w_pos := w_pos w; w_closed := w_closed w; w_owned := true; w_open_files := w_open_files w |})
                else Ok (h, w)
    | HText => Ok (h, w)
    | _ => Err AttributeError
    end.

  (** __enter__, 61-85, with the error if there is one; what was acquired is kept then *)
  Definition enter (h : handler) (w : world) : handler * world * option exn :=
    match acquire h w with
    | Err e => (h, w, Some e)
    | Ok (h', w') =>
        match h_seek h' with
        | None => (h', w', None)
        | Some o => if seek_ok (h_held h') o
                    then (h', {| w_pos := o; w_closed := w_closed w'; w_owned := w_owned w'; w_open_files := w_open_files w' |}, None)
                    else (h', w', Some ValueError)
        end
    end.

  (** __exit__, 87-104 *)
  Definition exit (h : handler) (w : world) : handler * world :=
    let '(h, w) := if h_wrapped h
                   then ({| h_held := HBytes; h_text_mode := h_text_mode h; h_seek := h_seek h; h_wrapped := h_wrapped h |},
                         {| w_pos := w_pos w; w_closed := w_closed w; w_owned := false; w_open_files := w_open_files w |})
                   else (h, w) in
    match h_held h with
    | HText | HBytes => (h, {| w_pos := 0; w_closed := w_closed w; w_owned := w_owned w; w_open_files := w_open_files w |})
    | _ => (h, {| w_pos := w_pos w; w_closed := true; w_owned := w_owned w; w_open_files := w_open_files w - 1 |})
    end.

  (** The body of a [with] statement moves the position and does not close the stream; it may raise. *)
  Definition use (h : handler) (w : world) (body : nat -> nat) : handler * world * option exn :=
    match enter h w with
    | (h', w', Some e) => (h', w', Some e)
    | (h', w', None) =>
        let '(h'', w'') := exit h' {| w_pos := body (w_pos w'); w_closed := w_closed w'; w_owned := w_owned w'; w_open_files := w_open_files w' |} in
        (h'', w'', None)
    end.

  (** Several uses, until one fails *)
  Fixpoint uses (h : handler) (w : world) (bodies : list (nat -> nat)) : handler * world * option exn :=
    match bodies with
    | [] => (h, w, None)
    | b :: r => match use h w b with (h', w', None) => uses h' w' r | res => res end
    end.
End Handler.
