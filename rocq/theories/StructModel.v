(** Model of labeled samples joined to one text: labelers/data_processing.py, StructCharPreprocessor.convert_to_unstructured_format
    (1405-1440) and the conversion of entities to labels of characters in CharPreprocessor._process_batch_helper (474-482).

    Characters are of any type; labels are texts.  Samples are texts (of other types [len] would raise).  Slices are clipped to the
    length, as in Python. *)
From Verif Require Import PyCommon PyDict PyString.
Local Open Scope nat_scope.
Local Open Scope string_scope.
Local Open Scope list_scope.

Section Struct.
  Context {C : Type}.
  (** [separator.join(data)] *)
  Fixpoint join (sep : list C) (data : list (list C)) : list C :=
    match data with [] => [] | [x] => x | x :: r => x ++ sep ++ join sep r end.
  Definition entity := (nat * nat * string)%type.
  (** The loop over samples and labels (zip: up to the shorter) *)
  Fixpoint entities (default : string) (text_len sep_len start : nat) (data : list (list C)) (labels : list string) : list entity :=
    match data, labels with
    | x :: data, l :: labels =>
        let mine := if String.eqb l default then [] else [(start, start + length x, l)] in
        let start := start + (length x + sep_len) in
        mine ++ (if start <? text_len then [(start - sep_len, start, "PAD")] else []) ++ entities default text_len sep_len start data labels
    | _, _ => []
    end.
  Definition convert (sep : list C) (default : string) (data : list (list C)) (labels : option (list string)) : list C * option (list entity) :=
    let text := join sep data in
    (text, match labels with None => None | Some ls => Some (entities default (length text) (length sep) 0 data ls) end).

  (** [label_buffer[start:end] = n] *)
  Fixpoint assign (start stop n : nat) (i : nat) (buffer : list nat) : list nat :=
    match buffer with [] => [] | x :: r => (if ((start <=? i) && (i <? stop))%bool then n else x) :: assign start stop n (i + 1) r end.
  Fixpoint fill (mapping : dict string nat) (es : list entity) (buffer : list nat) : result (list nat) :=
    match es with
    | [] => Ok buffer
    | (s, e, l) :: r => match dget mapping l with None => Err KeyError | Some n => fill mapping r (assign s e n 0 buffer) end
    end.
  Definition label_buffer (mapping : dict string nat) (default : string) (text : list C) (es : list entity) : result (list nat) :=
    match dget mapping default with None => Err KeyError | Some n => fill mapping es (repeat n (length text)) end.
End Struct.
