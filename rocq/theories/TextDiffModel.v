(** Differences of profiles of free text: profilers/unstructured_text_profile.py (TextProfiler.diff 581-630),
    profilers/unstructured_labeler_profile.py (diff 115-150), profilers/column_profile_compilers.py
    (BaseCompiler.diff 147-161, UnstructuredCompiler.diff 491-515) and profilers/profile_builder.py
    (BaseProfiler.diff 809-841, UnstructuredProfiler.diff 1318-1357).

    Both profilers are of the class UnstructuredProfiler. The options of the difference (format and omitted
    keys) are C40 and C70. The memory size is given. *)
From Coq Require Import QArith Ascii.
From Verif Require Import PyCommon QFacts PyDict PyString PyEq DiffModel TextModel.
Local Open Scope nat_scope.

Section Counts.
  Context {K : Type}.
  (** The counts of a dictionary are numbers *)
  Definition vals (d : list (K * nat)) : list (K * val K K) := map (fun kv => (fst kv, VNum (Some (Qn (snd kv))))) d.
End Counts.

(** [{k.lower(): v for k, v in d.items()}] *)
Definition lower_keys (d : list (text * nat)) : list (text * nat) :=
  fold_left (fun acc kv => dset acc (lower (fst kv)) (snd kv)) d [].

Record text_diff := mkTextDiff {
  d_vocab : out ascii ascii; d_vocab_count : out ascii ascii;
  d_words : out text text; d_word_count : out text text }.

(** TextProfiler.diff 581-630; the numbers of the most common are those of the first *)
Definition diff_texts (a b : profile) : result text_diff :=
  let wa := dkeys (p_words a) in
  let ca := most_common (p_words a) (p_top_words a) in
  let wb := dkeys (p_words b) in
  let cb := most_common (p_words b) (p_top_words a) in
  let la := p_case a && negb (p_case b) in
  let lb := negb (p_case a) && p_case b in
  let wa := if la then map lower wa else wa in
  let ca := if la then lower_keys ca else ca in
  let wb := if lb then map lower wb else wb in
  let cb := if lb then lower_keys cb else cb in
  bind (diff_parts (Some (vals (most_common (p_vocab a) (p_top_chars a)))) (Some (vals (most_common (p_vocab b) (p_top_chars a))))) (fun vc =>
  bind (diff_parts (Some (vals ca)) (Some (vals cb))) (fun wc =>
  Ok (mkTextDiff (diff_two_lists (dkeys (p_vocab a)) (dkeys (p_vocab b))) vc (diff_two_lists wa wb) wc))).

(** Labels of characters and words: counts and shares for three levels *)
Inductive level := LWord | LTrueChar | LPostChar.
Record labels := mkLabels { l_counts : level -> dict string Z; l_shares : level -> dict string Q }.

(** UnstructuredLabelerProfile.diff 115-150: shares before counts, level by level *)
Definition numbers {A} (f : A -> Q) (d : dict string A) : list (string * val string string) := map (fun kv => (fst kv, VNum (Some (f (snd kv))))) d.
Definition diff_level (a b : labels) (l : level) : result (out string string * out string string) :=
  bind (diff_dicts (Some (numbers (fun q => q) (l_shares a l))) (Some (numbers (fun q => q) (l_shares b l)))) (fun s =>
  bind (diff_dicts (Some (numbers inject_Z (l_counts a l))) (Some (numbers inject_Z (l_counts b l)))) (fun c => Ok (c, s))).
Fixpoint diff_levels (a b : labels) (ls : list level) : result (list (level * (out string string * out string string))) :=
  match ls with [] => Ok [] | l :: r => bind (diff_level a b l) (fun x => bind (diff_levels a b r) (fun t => Ok ((l, x) :: t))) end.
Definition diff_labels (a b : labels) := diff_levels a b [LWord; LTrueChar; LPostChar].

(** The compiler: the profiles that are enabled *)
Record compiled := mkCompiled { k_labels : option labels; k_text : option profile }.
Record data_diff := mkDataDiff {
  dd_labels : option (list (level * (out string string * out string string))); (* "data_label" *)
  dd_text : option text_diff }.                                                (* "statistics" *)

(** UnstructuredCompiler.diff 491-515 *)
Definition diff_compiled (a b : compiled) : result data_diff :=
  bind (match k_labels a, k_labels b with Some x, Some y => bind (diff_labels x y) (fun d => Ok (Some d)) | _, _ => Ok None end) (fun l =>
  bind (match k_text a, k_text b with Some x, Some y => bind (diff_texts x y) (fun d => Ok (Some d)) | _, _ => Ok None end) (fun t =>
  Ok (mkDataDiff l t))).

(** The profiler; [u_profile] is None before the first data (profile_builder.py 727, 1588-1589) *)
Record profiler := mkProfiler {
  u_type : option string; u_encoding : option string; u_samples : nat; u_empty : nat; u_memory : Q; u_profile : option compiled }.
Record whole_diff := mkWholeDiff {
  g_type : out string string; g_encoding : out string string; g_samples : out string string; g_empty : out string string; g_memory : out string string;
  g_data : data_diff }.

Definition word_val (s : option string) : val string string := match s with Some s => VStr s | None => VNone end.
Definition count_val (n : nat) : val string string := VNum (Some (Qn n)).

(** UnstructuredProfiler.diff 1318-1357. Without a profile [self._profile.diff] has no attribute; a second one without fails the test
    for its class (155) *)
Definition diff_profilers (a b : profiler) : result whole_diff :=
  bind (diff_strings (word_val (u_type a)) (word_val (u_type b))) (fun ft =>
  bind (diff_strings (word_val (u_encoding a)) (word_val (u_encoding b))) (fun en =>
  bind (diff_numbers (count_val (u_samples a)) (count_val (u_samples b))) (fun sa =>
  bind (diff_numbers (count_val (u_empty a)) (count_val (u_empty b))) (fun em =>
  bind (diff_numbers (VNum (Some (u_memory a))) (VNum (Some (u_memory b)))) (fun me =>
  match u_profile a, u_profile b with
  | None, _ => Err AttributeError
  | Some _, None => Err TypeError
  | Some x, Some y => bind (diff_compiled x y) (fun d => Ok (mkWholeDiff ft en sa em me d))
  end))))).
