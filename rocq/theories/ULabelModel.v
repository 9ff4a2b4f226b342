(** Label counts of free text: profilers/unstructured_labeler_profile.py (UnstructuredLabelerProfile).

    Characters and label names are of arbitrary types.  The predictions of the labeler and the spans made of
    them are arguments (they are the subject of C30, C31 and C50).  Both profiles of a merge use the same
    labeler.  Times and metadata are left out. *)
From Coq Require Import QArith.
From Verif Require Import PyCommon PyDict.
Local Open Scope nat_scope.

Section ULabel.
  Context {C L : Type} {EL : EqDecB L}.
  Variable sep : C -> bool.               (* membership in [self.separators], line 61 *)
  Variable unknown : L.                   (* "UNKNOWN" *)
  Variable name : nat -> option L.        (* reverse_label_mapping *)

  Definition span := (nat * nat * L)%type.

  (** A text with the labels predicted for its characters and the spans of entities *)
  Record sample := mkSample { s_text : list C; s_pred : list nat; s_spans : list span }.

  Definition counts := dict L Z.

  (** [defaultdict(int)]: [d[l]] and [d[l] += z] *)
  Definition zget (d : counts) (l : L) : Z := match dget d l with Some z => z | None => 0%Z end.
  Definition zadd (d : counts) (l : L) (z : Z) : counts := dset d l (zget d l + z)%Z.
  Definition zsum (d : counts) : Z := fold_left (fun a kv => (a + snd kv)%Z) d 0%Z.

  Record state := mkState { u_word : counts; u_true : counts; u_post : counts; u_chars : Z; u_words : Z }.

  Definition new : state := mkState [] [] [] 0 0.

  (** One pass over background characters, 331-341 and 346-353: [open] is [begin_word_idx != -1], [n] the number of
      words found *)
  Fixpoint scan (opened : bool) (cs : list C) (n : nat) : bool * nat :=
    match cs with
    | [] => (opened, n)
    | c :: r =>
        if opened then (if sep c then scan false r (S n) else scan true r n)
        else scan (negb (sep c)) r n
    end.

  (** The words of one text, 323-353; [text[index]] is out of range if a span starts behind the text *)
  Fixpoint text_words (text : list C) (index : nat) (opened : bool) (n : nat) (spans : list span) : result nat :=
    match spans with
    | [] => Ok (snd (scan opened (skipn index text) n))
    | (b, e, _) :: r =>
        if (length text <? b) && (index <? b) then Err IndexError
        else let (o, n') := scan opened (slice text index b) n in text_words text e o n' r
    end.

  (** _update_word_label_counts, 310-363.  A word is added at once in the code; here after each text.  The
      counter of "UNKNOWN" is created by the first word. *)
  Fixpoint background_words (d : counts) (samples : list sample) : result counts :=
    match samples with
    | [] => Ok d
    | s :: r => bind (text_words (s_text s) 0 false 0 (s_spans s)) (fun n =>
                background_words (if n =? 0 then d else zadd d unknown (Z.of_nat n)) r)
    end.

  Definition update_words (d : counts) (samples : list sample) : result counts :=
    bind (background_words d samples) (fun d1 =>
    Ok (fold_left (fun d sp => zadd d (snd sp) 1) (concat (map s_spans samples)) d1)).

  (** _update_true_char_label_counts, 262-278 *)
  Fixpoint update_true (d : counts) (pred : list nat) : result counts :=
    match pred with
    | [] => Ok d
    | p :: r => match name p with None => Err KeyError | Some l => update_true (zadd d l 1) r end
    end.

  (** _update_postprocess_char_label_counts, 280-308, for one text *)
  Fixpoint update_post (d : counts) (len index : nat) (spans : list span) : counts :=
    match spans with
    | [] => zadd d unknown (Z.of_nat len - Z.of_nat index)
    | (b, e, l) :: r => update_post (zadd (zadd d unknown (Z.of_nat b - Z.of_nat index)) l (Z.of_nat e - Z.of_nat b)) len e r
    end.

  (** update, 191-199, and _update_helper, 158-189 *)
  Definition update (st : state) (samples : list sample) : result state :=
    match samples with
    | [] => Ok st
    | _ =>
        bind (update_words (u_word st) samples) (fun w =>
        bind (update_true (u_true st) (concat (map s_pred samples))) (fun t =>
        Ok (mkState w t
              (fold_left (fun d s => update_post d (length (s_text s)) 0 (s_spans s)) samples (u_post st))
              (u_chars st + Z.of_nat (length (concat (map s_pred samples))))
              (zsum w))))
    end.

  (** add_nested_dictionaries (profiler_utils.py 291-320) on one level *)
  Definition add_counts (a b : counts) : counts :=
    map (fun kv => (fst kv, match dget b (fst kv) with Some z => (snd kv + z)%Z | None => snd kv end)) a ++
    filter (fun kv => negb (dmem a (fst kv))) b.

  (** __add__, 64-103 *)
  Definition merge (a b : state) : state :=
    mkState (add_counts (u_word a) (u_word b)) (add_counts (u_true a) (u_true b)) (add_counts (u_post a) (u_post b))
            (u_chars a + u_chars b) (u_words a + u_words b).

  (** _get_percentages, 221-245 *)
  Definition percentages (total : Z) (d : counts) : dict L Q :=
    if (0 <? total)%Z then map (fun kv => (fst kv, (inject_Z (snd kv) / inject_Z total)%Q)) d else [].

  Inductive hist := HNew | HUpd (h : hist) (samples : list sample) | HAdd (h1 h2 : hist).

  Fixpoint run (h : hist) : result state :=
    match h with
    | HNew => Ok new
    | HUpd h s => bind (run h) (fun st => update st s)
    | HAdd h1 h2 => bind (run h1) (fun a => bind (run h2) (fun b => Ok (merge a b)))
    end.
End ULabel.
Arguments hist C L : clear implicits.
Arguments sample C L : clear implicits.
Arguments state L : clear implicits.
