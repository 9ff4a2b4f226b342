(** Free-text profiles: profilers/unstructured_text_profile.py (TextProfiler).

    Texts are lists of ASCII characters: [str.lower], [str.islower], [str.split] and [str.strip] are modelled on
    these.  The name, the times and the metadata are left out.  Counts are natural numbers. *)
From Coq Require Import Ascii.
From Verif Require Import PyCommon PyDict PyString PyEq CategoricalModel.
Local Open Scope nat_scope.

Global Program Instance EqDecB_ascii : EqDecB ascii := {| eqb := Ascii.eqb |}.
Next Obligation. apply Ascii.eqb_spec. Qed.

Definition text := list ascii.

(** ** Characters *)
Definition is_upper (c : ascii) : bool := let n := nat_of_ascii c in (65 <=? n) && (n <=? 90).
Definition is_lower (c : ascii) : bool := let n := nat_of_ascii c in (97 <=? n) && (n <=? 122).

(** What [str.split] without argument separates at: tab, line feed, vertical tab, form feed, return, the four
    separators 28-31, and blank *)
Definition is_space (c : ascii) : bool :=
  let n := nat_of_ascii c in ((9 <=? n) && (n <=? 13)) || ((28 <=? n) && (n <=? 32)).

(** [string.punctuation] *)
Definition is_punct (c : ascii) : bool :=
  let n := nat_of_ascii c in
  ((33 <=? n) && (n <=? 47)) || ((58 <=? n) && (n <=? 64)) || ((91 <=? n) && (n <=? 96)) || ((123 <=? n) && (n <=? 126)).

(** [str.lower], [str.islower]: at least one cased character, and all cased characters are in lower case *)
Definition lower (t : text) : text := map lower_ascii t.
Definition islower (t : text) : bool := existsb is_lower t && negb (existsb is_upper t).

(** [str.split()] *)
Fixpoint split (t : text) : list text :=
  match t with
  | [] => []
  | c :: r =>
      if is_space c then split r
      else match r with
           | [] => [[c]]
           | d :: _ => if is_space d then [c] :: split r
                       else match split r with w :: ws => (c :: w) :: ws | [] => [[c]] end
           end
  end.

(** [str.strip(string.punctuation)] *)
Fixpoint drop_punct (t : text) : text :=
  match t with [] => [] | c :: r => if is_punct c then drop_punct r else t end.
Definition strip (t : text) : text := rev (drop_punct (rev (drop_punct t))).

(** ** collections.Counter *)
Section Counter.
  Context {K : Type} {EK : EqDecB K}.

  Definition count (d : dict K nat) (k : K) : nat := match dget d k with Some c => c | None => 0 end.

  (** [d.update({k: c})], [d[k] += c] *)
  Definition add_count (d : dict K nat) (k : K) (c : nat) : dict K nat := dset d k (count d k + c).

  (** [Counter(l)] *)
  Definition counter (l : list K) : dict K nat := fold_left (fun d k => add_count d k 1) l [].

  (** [a += b]: add all, then keep what is positive *)
  Definition iadd (a b : dict K nat) : dict K nat :=
    filter (fun kv => 0 <? snd kv) (fold_left (fun d kv => add_count d (fst kv) (snd kv)) b a).

  (** [a + b]: the keys of [a] with the sums, then those only in [b]; only positive counts *)
  Definition plus (a b : dict K nat) : dict K nat :=
    filter (fun kv => 0 <? snd kv) (map (fun kv => (fst kv, snd kv + count b (fst kv))) a) ++
    filter (fun kv => negb (dmem a (fst kv)) && (0 <? snd kv)) b.

  (** [dict(d.most_common(top))] *)
  Definition most_common (d : dict K nat) (top : option nat) : list (K * nat) :=
    match top with None => sort_desc d | Some k => firstn k (sort_desc d) end.
End Counter.

(** ** The profile *)
Record options := mkOptions {
  o_vocab : bool; o_words : bool;        (* enabled calculations *)
  o_case : bool; o_stop : option (list text);
  o_top_chars : option nat; o_top_words : option nat }.

Record profile := mkProfile {
  p_vocab_on : bool; p_words_on : bool;
  p_case : bool; p_stop : list text;     (* the set of stop words, without duplicates *)
  p_top_chars : option nat; p_top_words : option nat;
  p_vocab : dict ascii nat; p_words : dict text nat; p_size : nat }.

Section Profile.
  Variable default_stop : list text.     (* lines 45-449 *)

  (** __init__, 22-470 *)
  Definition new (o : options) : profile :=
    mkProfile (o_vocab o) (o_words o) (o_case o)
              (match o_stop o with Some l => distinct l | None => default_stop end)
              (o_top_chars o) (o_top_words o) [] [] 0.

  (** _update_vocab, 668-688 *)
  Definition update_vocab (p : profile) (rows : list text) : dict ascii nat := iadd (p_vocab p) (counter (concat rows)).

  (** _update_words, 691-721 *)
  Definition tokens (case : bool) (row : text) : list text := map strip (split (if case then row else lower row)).

  Definition update_words (p : profile) (rows : list text) : dict text nat :=
    fold_left (fun d wc =>
      if negb (match fst wc with [] => true | _ => false end) && negb (lmem (p_stop p) (lower (fst wc)))
      then add_count d (fst wc) (snd wc) else d)
      (counter (concat (map (tokens (p_case p)) rows))) (p_words p).

  (** update, 736-761 *)
  Definition update (p : profile) (rows : list text) : profile :=
    match rows with
    | [] => p
    | _ => mkProfile (p_vocab_on p) (p_words_on p) (p_case p) (p_stop p) (p_top_chars p) (p_top_words p)
             (if p_vocab_on p then update_vocab p rows else p_vocab p)
             (if p_words_on p then update_words p rows else p_words p)
             (p_size p + length rows)
    end.

  (** _merge_words, 490-515: the union of the stop words and the merged words *)
  Definition union_stop (a b : list text) : list text := a ++ filter (fun w => negb (lmem a w)) b.

  Definition lower_words (d : dict text nat) : dict text nat :=
    fold_left (fun acc wc => if islower (fst wc) then acc else add_count (ddel acc (fst wc)) (lower (fst wc)) (snd wc)) d d.

  Definition merge_words (a b : profile) : dict text nat :=
    let d := plus (p_words a) (p_words b) in
    let stop := union_stop (p_stop a) (p_stop b) in
    let d1 := if length stop =? length (p_stop a) then d
              else fold_left (fun acc w => if lmem stop (lower w) then ddel acc w else acc) (dkeys d) d in
    if Bool.eqb (p_case a) (p_case b) then d1 else lower_words d1.

  (** [if self._top_k and other._top_k: max(...)], 558-564; 0 is false *)
  Definition merge_top (a b : option nat) : option nat :=
    match a, b with
    | Some (S _ as x), Some (S _ as y) => Some (Nat.max x y)
    | _, _ => None
    end.

  (** __add__, 517-579.  The merged profile is created without options. *)
  Definition merge (a b : profile) : profile :=
    let vo := p_vocab_on a && p_vocab_on b in
    let wo := p_words_on a && p_words_on b in
    mkProfile vo wo (p_case a && p_case b)
      (if wo then union_stop (p_stop a) (p_stop b) else default_stop)
      (merge_top (p_top_chars a) (p_top_chars b)) (merge_top (p_top_words a) (p_top_words b))
      (if vo then plus (p_vocab a) (p_vocab b) else [])
      (if wo then merge_words a b else [])
      (p_size a + p_size b).

  (** profile, 651-664: vocab, vocab_count, words, word_count *)
  Definition report (p : profile) : list ascii * list (ascii * nat) * list text * list (text * nat) :=
    (dkeys (p_vocab p), most_common (p_vocab p) (p_top_chars p), dkeys (p_words p), most_common (p_words p) (p_top_words p)).

  (** Profiles obtained by creating, updating and merging *)
  Inductive hist := HNew (o : options) | HUpd (h : hist) (rows : list text) | HAdd (h1 h2 : hist).

  Fixpoint run (h : hist) : profile :=
    match h with
    | HNew o => new o
    | HUpd h rows => update (run h) rows
    | HAdd h1 h2 => merge (run h1) (run h2)
    end.
End Profile.
