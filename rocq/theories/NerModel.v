(** From character predictions to words and entity spans: labelers/data_processing.py,
    CharPostprocessor._word_level_argmax and convert_to_NER_format.

    Labels are numbers, label names and characters are of any type with equality.  Predictions and
    texts have the same length. *)
From Coq Require Import QArith.
From Verif Require Import PyCommon PyDict RowModel.
Local Open Scope nat_scope.

Section Ner.
  Context {N : Type} {EN : EqDecB N}.

  (** [{v: k for k, v in label_mapping.items()}], 1152 *)
  Definition reverse (m : dict N nat) : dict nat N := fold_left (fun d kv => dset d (snd kv) (fst kv)) m [].

  Definition lookup (rev : dict nat N) (v : nat) : result N :=
    match dget rev v with Some n => Ok n | None => Err KeyError end.

  (** The loop over one sample, 1160-1188.  [begin] is begin_idx ([None] for -1) with the label there,
      [i] the index of the next label, [cur] is curr_label. *)
  Fixpoint ner_loop (rev : dict nat N) (pad bg : nat) (rest : list nat) (i : nat) (begin : option (nat * nat)) (cur : nat)
    : result (list (nat * nat * N)) :=
    match rest with
    | [] => match begin with
            | Some (b, _) => bind (lookup rev cur) (fun n => Ok [(b, i, n)])
            | None => Ok []
            end
    | l :: r =>
        match begin with
        | Some (b, v) =>
            if l =? v then ner_loop rev pad bg r (S i) begin l
            else bind (lookup rev v) (fun n =>
                 bind (ner_loop rev pad bg r (S i) (if (l =? pad) || (l =? bg) then None else Some (i, l)) l) (fun out =>
                 Ok ((b, i, n) :: out)))
        | None => ner_loop rev pad bg r (S i) (if (l =? pad) || (l =? bg) then None else Some (i, l)) l
        end
    end.

  Definition ner_sample (rev : dict nat N) (pad bg : nat) (sample : list nat) : result (list (nat * nat * N)) :=
    ner_loop rev pad bg sample 0 None 0.

  (** convert_to_NER_format, 1131-1193; [label_mapping[...]] fails for unknown names. *)
  Definition convert_to_ner (m : dict N nat) (default pad : N) (predictions : list (list nat))
    : result (list (list (nat * nat * N))) :=
    match dget m default, dget m pad with
    | Some bg, Some p =>
        fold_right (fun s acc => bind (ner_sample (reverse m) p bg s) (fun o => bind acc (fun r => Ok (o :: r)))) (Ok []) predictions
    | _, _ => Err KeyError
    end.
End Ner.

Section Words.
  Context {C : Type}.
  Variable is_sep : C -> bool.       (* the parameter [separators] *)
  Variable bg : nat.                 (* label_mapping[default_label] *)
  Variable pct : Q.                  (* word_level_min_percent *)

  (** [if label not in label_count: label_count[label] = 0] and [label_count[label] += 1], 1079-1083 *)
  Definition count_label (d : dict nat nat) (l : nat) : dict nat nat :=
    dset d l (S (match dget d l with Some c => c | None => 0 end)).

  (** 1087-1101 *)
  Definition dominate (d : dict nat nat) : nat :=
    let total := list_sum (dvals d) in
    fst (fold_left (fun acc kv =>
           if Qle_bool pct (inject_Z (Z.of_nat (snd kv)) / inject_Z (Z.of_nat (Nat.max total 1))) && (snd acc <? snd kv)
           then kv else acc) d (bg, 1)).

  (** [for i in range(start_idx, idx): entities_in_sample[i] = dominate_label], 1104-1105 *)
  Definition fill (ents : list nat) (start idx v : nat) : list nat :=
    fold_left (fun e i => set_nth e i v) (seq start (idx - start)) ents.

  (** The loop over one sample, 1071-1125; [n] is the length of the text. *)
  Fixpoint words_loop (n : nat) (rest : list C) (idx start : nat) (counts : dict nat nat) (ents : list nat) : list nat :=
    match rest with
    | [] => ents
    | c :: r =>
        let is_end := (idx =? n - 1) && (0 <? start) in
        let counts1 := if is_sep c then counts else count_label counts (nth idx ents 0) in
        if is_sep c || is_end
        then let dom := dominate counts1 in
             let ents1 := fill ents start idx dom in
             let ents2 := if (dom =? bg) && (0 <? start) && negb (nth idx ents1 0 =? nth (start - 1) ents1 0)
                          then set_nth (set_nth ents1 (start - 1) bg) idx bg
                          else ents1 in
             words_loop n r (S idx) (S idx) [(bg, 0)] ents2
        else words_loop n r (S idx) start counts1 ents
    end.

  (** _word_level_argmax for one text *)
  Definition word_level (text : list C) (preds : list nat) : list nat :=
    words_loop (length text) text 0 0 [(bg, 0)] preds.
End Words.
