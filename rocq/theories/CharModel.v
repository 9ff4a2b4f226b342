(** Cutting and joining texts into model inputs and cutting the predictions back:
    labelers/data_processing.py, CharPreprocessor._process_batch_helper and
    CharPostprocessor.match_sentence_lengths.

    Characters are of any type [C]; which of them separate words is a predicate.  A text is a list of
    characters with their labels (without labels, [L] is [unit]).  Either all texts have labels or none.
    [flatten_split] is an exact number. *)
From Coq Require Import QArith List Lia.
From Verif Require Import PyCommon.
Import ListNotations.
Local Open Scope nat_scope.

Section Char.
  Context {C L : Type}.

  (** The parameters of the preprocessor and of one call of [process]. *)
  Record params := mkParams {
    p_max : nat;                 (* max_length *)
    p_sep : list C;              (* flatten_separator *)
    p_split : Q;                 (* flatten_split *)
    p_at_max : bool;             (* is_separate_at_max_len *)
    p_default : L;               (* label_mapping[default_label] *)
    p_pad : L;                   (* label_mapping[pad_label] *)
    p_batch : nat;               (* batch_size *)
    p_break : C -> bool          (* the default [separators] of _find_nearest_sentence_break_before_ind *)
  }.
  Variable P : params.

  Definition sep_len : nat := length (p_sep P).

  (** [np.full(sample_len, default)] and [label_buffer[start:end] = label_index] for every given span,
      482-489; starts and ends are not negative. *)
  Definition set_span (row : list L) (s : nat * nat * L) : list L :=
    let '(b, e, l) := s in
    map (fun p => if (b <=? fst p) && (fst p <? e) then l else snd p) (combine (seq 0 (length row)) row).
  Definition label_row (n : nat) (spans : list (nat * nat * L)) : list L :=
    fold_left set_span spans (repeat (p_default P) n).

  (** _find_nearest_sentence_break_before_ind, 376-404.  Indices are counted from [min_ind], where
      [rest] begins; 0 when there is no break. *)
  Fixpoint nearest (rest : list (C * L)) (n : nat) : nat :=
    match n with
    | 0 => 0
    | S m => match nth_error rest n with
             | Some (c, _) => if p_break P c then n else nearest rest m
             | None => nearest rest m
             end
    end.

  (** The local variables: completed batches, the current batch, flattened_sample,
      flattened_sample_len, flattened_entities, flatten_count, non_flatten_count. *)
  Definition sample := (list C * list L)%type.
  Record st := mkSt {
    s_done : list (list sample);
    s_batch : list sample;
    s_flat : list (list (C * L));
    s_len : nat;
    s_ents : list L;
    s_fc : nat;
    s_nfc : nat
  }.
  Definition init : st := mkSt [] [] [] 0 [] 0 0.

  (** [flatten_separator.join(flattened_sample)] *)
  Fixpoint join (ps : list (list C)) : list C :=
    match ps with
    | [] => []
    | [p] => p
    | p :: r => p ++ p_sep P ++ join r
    end.

  (** Append a sample and yield the batch when it is full, 640-649. *)
  Definition emit (x : sample) (s : st) : st :=
    let b := s_batch s ++ [x] in
    if length b =? p_batch P
    then mkSt (s_done s ++ [b]) [] (s_flat s) (s_len s) (s_ents s) (s_fc s) (s_nfc s)
    else mkSt (s_done s) b (s_flat s) (s_len s) (s_ents s) (s_fc s) (s_nfc s).

  (** [curr_flatten_split > flatten_split or not flatten_split], 499-502 *)
  Definition no_flatten (s : st) : bool :=
    negb (Qle_bool (inject_Z (Z.of_nat (s_fc s)) / inject_Z (Z.of_nat (Nat.max 1 (s_fc s + s_nfc s)))) (p_split P))
    || Qeq_bool (p_split P) 0.

  (** [l[:-k]]; [l[:-0]] is empty *)
  Definition drop_last {X} (k : nat) (l : list X) : list X :=
    match k with 0 => [] | S _ => firstn (length l - k) l end.

  (** 503-545: the text is not flattened.  Returns the new state and what is left of the text. *)
  Definition step_plain (s : st) (rest : list (C * L)) : st * list (C * L) :=
    let k := if negb (p_at_max P) && (p_max P <? length rest)
             then let b := nearest rest (p_max P) in
                  if b =? 0 then p_max P - s_len s else b
             else p_max P in
    let piece := firstn k rest in
    let pad_len := Nat.max (p_max P - k) (p_max P - length rest) in
    let s1 := emit (map fst piece, map snd piece ++ repeat (p_pad P) pad_len) s in
    (mkSt (s_done s1) (s_batch s1) (s_flat s1) (s_len s1) (s_ents s1) (s_fc s1) (S (s_nfc s1)), skipn k rest).

  (** 547-638: the text is added to the flattened sample. *)
  Definition step_flat (s : st) (rest : list (C * L)) : st * list (C * L) :=
    let more := 0 <? s_len s in
    let len1 := if more then s_len s + sep_len else s_len s in
    let ents1 := if more then s_ents s ++ repeat (p_default P) sep_len else s_ents s in
    let n := p_max P - len1 in
    let '(k, len2, ents2, force) :=
      if negb (p_at_max P) && (n <? length rest)
      then let b := nearest rest n in
           if b =? 0
           then if 0 <? len1 then (0, len1 - sep_len, drop_last sep_len ents1, true)
                else (n, len1, ents1, false)
           else (b, len1, ents1, false)
      else (n, len1, ents1, false) in
    let piece := firstn k rest in
    let flat3 := if k =? 0 then s_flat s else s_flat s ++ [piece] in
    let len3 := if k =? 0 then len2 else len2 + length piece in
    let ents3 := ents2 ++ map snd piece in
    let rest' := skipn k rest in
    if (p_max P - sep_len <=? len3) || force
    then let s1 := emit (join (map (map fst) flat3), ents3 ++ repeat (p_pad P) (p_max P - len3)) s in
         (mkSt (s_done s1) (s_batch s1) [] 0 [] (S (s_fc s)) (s_nfc s), rest')
    else (mkSt (s_done s) (s_batch s) flat3 len3 ents3 (s_fc s) (s_nfc s), rest').

  (** One iteration of the [while] loop, 493-649 *)
  Definition step (s : st) (rest : list (C * L)) : st * list (C * L) :=
    if no_flatten s then step_plain s rest else step_flat s rest.

  (** The [while] loop; the fuel given by [text] is shown to suffice in CharProofs. *)
  Fixpoint loop (fuel : nat) (s : st) (rest : list (C * L)) : option st :=
    match rest with
    | [] => Some s
    | _ => match fuel with
           | 0 => None
           | S f => let '(s', rest') := step s rest in loop f s' rest'
           end
    end.
  Definition text (s : st) (t : list (C * L)) : option st := loop (2 * length t + 1) s t.

  Fixpoint texts (s : st) (data : list (list (C * L))) : option st :=
    match data with
    | [] => Some s
    | t :: r => match text s t with Some s' => texts s' r | None => None end
    end.

  (** 651-669: what is left of the flattened sample, and the last batch if it is not empty. *)
  Definition finish (s : st) : list (list sample) :=
    let b := match s_flat s with
             | [] => s_batch s
             | _ => s_batch s ++ [(join (map (map fst) (s_flat s)), s_ents s ++ repeat (p_pad P) (p_max P - s_len s))]
             end in
    match b with [] => s_done s | _ => s_done s ++ [b] end.

  (** _process_batch_helper, 406-669: the batches.  [None] stands for a loop that does not end. *)
  Definition process (data : list (list (C * L))) : result (option (list (list sample))) :=
    if p_max P <=? sep_len then Err ValueError
    else Ok (option_map finish (texts init data)).
End Char.

(** match_sentence_lengths, 1196-1270.  [buf] is the concatenation of all predictions, [ends] is
    buffer_add_inds.  Confidences are treated in the same way as predictions. *)
Section Match.
  Context {X : Type}.

  Fixpoint cumsum (acc : nat) (ls : list nat) : list nat :=
    match ls with [] => [] | n :: r => (acc + n) :: cumsum (acc + n) r end.

  (** [while buffer_add_inds and buffer_add_inds[0] <= result_ind: curr = buffer_add_inds.pop(0)] *)
  Fixpoint pop (cur : nat) (ends : list nat) (ind : nat) : nat * list nat :=
    match ends with
    | [] => (cur, [])
    | e :: r => if e <=? ind then pop e r ind else (cur, e :: r)
    end.

  Fixpoint match_loop (slen : nat) (buf : list X) (lens : list nat) (ind : nat) (ends : list nat) : list (list X) :=
    match lens with
    | [] => []
    | 0 :: r => [] :: match_loop slen buf r ind ends
    | n :: r =>
        let out := firstn n (skipn ind buf) in
        let ind1 := ind + n in
        let '(ind2, ends2) :=
          match ends with
          | [] => (ind1, [])
          | e0 :: _ =>
              let '(cur, ends') := pop e0 ends ind1 in
              if (cur <? ind1) || (ind1 + slen <? cur) then (ind1 + slen, ends') else (ind1, ends')
          end in
        out :: match_loop slen buf r ind2 ends2
    end.

  Definition match_sentence_lengths (slen : nat) (lens : list nat) (results : list (list X)) : list (list X) :=
    match_loop slen (concat results) lens 0 (cumsum 0 (map (@length X) results)).
End Match.
