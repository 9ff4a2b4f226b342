(** Properties C35 (reading the beginning of a file) and C46 (handling paths and buffers). *)
From Verif Require Import PyCommon PyDict PyEq ListFacts ReadModel.
Local Open Scope nat_scope.

Section Load.
  Context {A : Type} {EA : EqDecB A}.
  Variable c : A.

  (** Number of runs of [c]; [prev]: the element before is [c] *)
  Fixpoint runs (prev : bool) (s : list A) : nat :=
    match s with
    | [] => 0
    | a :: r => if PyDict.eqb a c then (if prev then 0 else 1) + runs true r else runs false r
    end.
  Fixpoint number (s : list A) : nat := match s with [] => 0 | a :: r => (if PyDict.eqb a c then 1 else 0) + number r end.

  (** Positions where runs start *)
  Fixpoint run_starts (prev : bool) (s : list A) (pos : nat) : list nat :=
    match s with
    | [] => []
    | a :: r => if PyDict.eqb a c then (if prev then [] else [pos]) ++ run_starts true r (S pos) else run_starts false r (S pos)
    end.
  Fixpoint places (s : list A) (pos : nat) : list nat :=
    match s with [] => [] | a :: r => (if PyDict.eqb a c then [pos] else []) ++ places r (S pos) end.

  Lemma scan_runs s : forall (pos : nat) (prev : bool), scan [c] true s pos (if prev then leading c s else 0) = run_starts prev s pos.
  Proof.
    induction s as [|a s IH]; intros pos prev; cbn [scan run_starts]; [destruct prev; reflexivity|]. cbn [leading]. destruct (PyDict.eqb_spec a c) as [->|N].
    - destruct prev; [apply (IH (S pos) true)|]. cbn [starts]. rewrite eqb_refl. cbn [andb length skipn rev app]. f_equal. rewrite <- (IH (S pos) true). f_equal. lia.
    - destruct prev; cbn [starts]; (replace (PyDict.eqb c a) with false by (destruct (PyDict.eqb_spec c a); [exfalso; apply N; congruence|reflexivity])); cbn [andb]; apply (IH (S pos) false).
  Qed.

  Lemma scan_places s : forall pos, scan [c] false s pos 0 = places s pos.
  Proof.
    induction s as [|a s IH]; intro pos; cbn [scan places]; [reflexivity|]. cbn [starts]. destruct (PyDict.eqb_spec a c) as [->|N].
    - rewrite eqb_refl. cbn [andb length Nat.add Nat.sub app]. f_equal. apply IH.
    - replace (PyDict.eqb c a) with false by (destruct (PyDict.eqb_spec c a); [exfalso; apply N; congruence|reflexivity]). apply IH.
  Qed.

  Lemma run_starts_length s : forall prev pos, length (run_starts prev s pos) = runs prev s.
  Proof. induction s as [|a s IH]; intros prev pos; cbn [run_starts runs]; [reflexivity|]. destruct (PyDict.eqb a c); [|apply IH]. rewrite app_length, IH. destruct prev; reflexivity. Qed.
  Lemma places_length s : forall pos, length (places s pos) = number s.
  Proof. induction s as [|a s IH]; intros pos; cbn [places number]; [reflexivity|]. rewrite app_length, IH. destruct (PyDict.eqb a c); reflexivity. Qed.

  Lemma run_starts_nth s : forall prev pos m i, nth_error (run_starts prev s pos) m = Some i ->
    exists j, i = pos + j /\ nth_error s j = Some c /\ (if j =? 0 then prev = false else nth_error s (j - 1) <> Some c) /\ runs prev (firstn j s) = m.
  Proof.
    induction s as [|a s IH]; intros prev pos m i H; cbn [run_starts] in H; [destruct m; discriminate|]. destruct (PyDict.eqb_spec a c) as [->|N].
    - destruct prev; cbn [app] in H.
      + destruct (IH true (S pos) m i H) as (j & -> & H1 & H2 & H3). exists (S j). split; [lia|]. split; [exact H1|]. cbn [Nat.eqb]. split.
        * destruct (Nat.eqb_spec j 0) as [->|]; [discriminate|]. replace (S j - 1) with (S (j - 1)) by lia. exact H2.
        * cbn [firstn runs]. rewrite eqb_refl. exact H3.
      + destruct m as [|m]; cbn [nth_error] in H.
        * injection H as <-. exists 0. split; [lia|]. split; [reflexivity|]. split; reflexivity.
        * destruct (IH true (S pos) m i H) as (j & -> & H1 & H2 & H3). exists (S j). split; [lia|]. split; [exact H1|]. cbn [Nat.eqb]. split.
          -- destruct (Nat.eqb_spec j 0) as [->|]; [discriminate|]. replace (S j - 1) with (S (j - 1)) by lia. exact H2.
          -- cbn [firstn runs]. rewrite eqb_refl. cbn [Nat.add]. rewrite H3. reflexivity.
    - destruct (IH false (S pos) m i H) as (j & -> & H1 & H2 & H3). exists (S j). split; [lia|]. split; [exact H1|]. cbn [Nat.eqb]. split.
      + destruct (Nat.eqb_spec j 0) as [->|]; [cbn; congruence|]. replace (S j - 1) with (S (j - 1)) by lia. exact H2.
      + cbn [firstn runs]. destruct (PyDict.eqb_spec a c); [contradiction|]. exact H3.
  Qed.

  Lemma places_nth s : forall pos m i, nth_error (places s pos) m = Some i -> exists j, i = pos + j /\ nth_error s j = Some c /\ number (firstn j s) = m.
  Proof.
    induction s as [|a s IH]; intros pos m i H; cbn [places] in H; [destruct m; discriminate|]. destruct (PyDict.eqb_spec a c) as [->|N]; cbn [app] in H.
    - destruct m as [|m]; cbn [nth_error] in H.
      + injection H as <-. exists 0. split; [lia|]. split; reflexivity.
      + destruct (IH (S pos) m i H) as (j & -> & H1 & H3). exists (S j). split; [lia|]. split; [exact H1|]. cbn [firstn number]. rewrite eqb_refl, H3. reflexivity.
    - destruct (IH (S pos) m i H) as (j & -> & H1 & H3). exists (S j). split; [lia|]. split; [exact H1|]. cbn [firstn number]. destruct (PyDict.eqb_spec a c); [contradiction|]. exact H3.
  Qed.

  (** The position found for a character is that of the n-th run (or, not ignoring consecutive ones, the n-th occurrence)
      if there are so many, else the end; with it comes the number found. *)
  Theorem C35_find s n (ignore : bool) : s <> [] -> 0 < n -> exists i k, find_nth_loc s [c] n ignore = (Some i, k) /\
    ((k = n /\ nth_error s i = Some c /\
      if ignore then (i = 0 \/ nth_error s (i - 1) <> Some c) /\ runs false (firstn i s) = n - 1 else number (firstn i s) = n - 1) \/
     (k < n /\ i = length s /\ k = if ignore then runs false s else number s)).
  Proof.
    intros Hs Hn. unfold find_nth_loc. destruct s as [|a s]; [contradiction|]. destruct n as [|n]; [lia|]. set (s0 := a :: s). replace (S n - 1) with n by lia. destruct ignore.
    - rewrite (scan_runs s0 0 false). destruct (nth_error (run_starts false s0 0) n) as [i|] eqn:E.
      + exists i, (S n). split; [reflexivity|]. left. split; [reflexivity|]. destruct (run_starts_nth s0 false 0 n i E) as (j & -> & H1 & H2 & H3). cbn [Nat.add]. split; [exact H1|]. split; [|lia]. destruct (Nat.eqb_spec j 0); [left; assumption|right; exact H2].
      + exists (length s0), (length (run_starts false s0 0)). split; [reflexivity|]. right. apply nth_error_None in E. split; [lia|]. split; [reflexivity|apply run_starts_length].
    - rewrite (scan_places s0 0). destruct (nth_error (places s0 0) n) as [i|] eqn:E.
      + exists i, (S n). split; [reflexivity|]. left. split; [reflexivity|]. destruct (places_nth s0 0 n i E) as (j & -> & H1 & H3). cbn [Nat.add]. split; [exact H1|]. exact H3.
      + exists (length s0), (length (places s0 0)). split; [reflexivity|]. right. apply nth_error_None in E. split; [lia|]. split; [reflexivity|apply places_length].
  Qed.

  Theorem C35_find_nothing s q n ignore : s = [] \/ q = [] \/ n = 0 -> find_nth_loc s q n ignore = (None, 0).
  Proof. intros [-> | [-> | ->]]; unfold find_nth_loc; [reflexivity|destruct s; reflexivity|destruct s, q; reflexivity]. Qed.

  Lemma runs_app s1 : forall s2 b, runs b (s1 ++ s2) <= runs b s1 + runs false s2.
  Proof.
    induction s1 as [|a s1 IH]; intros s2 b; cbn [app runs Nat.add].
    - destruct s2 as [|x s2]; cbn [runs]; [lia|]. destruct (PyDict.eqb x c), b; lia.
    - destruct (PyDict.eqb a c); [|apply IH]. pose proof (IH s2 true). destruct b; lia.
  Qed.
  Lemma runs_number s : forall b, runs b s <= number s.
  Proof. induction s as [|a s IH]; intro b; cbn [runs number]; [lia|]. destruct (PyDict.eqb a c); [|cbn [Nat.add]; apply IH]. specialize (IH true). destruct b; lia. Qed.
  Lemma number_app s1 s2 : number (s1 ++ s2) = number s1 + number s2.
  Proof. induction s1 as [|a s1 IH]; cbn [app number]; [reflexivity|]. rewrite IH. lia. Qed.

  Lemma chunk_step_spec ml data total chunk : 2 <= length chunk -> total < ml -> exists d2 rest t2, chunk_step c ml data total chunk = (data ++ d2, t2) /\ chunk = d2 ++ rest /\
    ((t2 = ml /\ (exists r, rest = c :: r) /\ total + S (runs false d2) = ml) \/ (t2 < ml /\ rest = [] /\ t2 = total + runs false d2)).
  Proof.
    intros Hl Ht. unfold chunk_step. destruct (Nat.ltb_spec 0 (length chunk - 1)); [|lia]. destruct (Nat.ltb_spec total ml); [|lia]. cbn [andb].
    destruct (C35_find chunk (ml - total) true ltac:(intros ->; cbn in Hl; lia) ltac:(lia)) as (i & k & E & H1). rewrite E.
    exists (firstn i chunk), (skipn i chunk), (total + k). split; [reflexivity|]. split; [symmetry; apply firstn_skipn|]. destruct H1 as [(-> & H2 & _ & H3)|(Hk & -> & ->)].
    - left. split; [lia|]. split; [|lia]. apply nth_error_split in H2. destruct H2 as (l1 & l2 & -> & <-). exists l2. rewrite skipn_app, skipn_all, Nat.sub_diag. reflexivity.
    - right. split; [lia|]. rewrite firstn_all, skipn_all. split; reflexivity.
  Qed.

  Lemma load_loop_spec it size ml : 2 <= size -> forall file data total, total < ml -> exists d2 rest, load_loop c it size ml file data total = data ++ d2 /\ file = d2 ++ rest /\
    total + runs false d2 < ml /\ length d2 <= it * size /\
    (rest = [] \/ ((exists r, rest = c :: r) /\ ml <= total + S (number d2)) \/ (length rest = 1 /\ length file mod size = 1) \/ it * size <= length d2).
  Proof.
    intro Hs. induction it as [|it IH]; intros file data total Ht; cbn [load_loop].
    - exists [], file. rewrite app_nil_r. split; [reflexivity|]. split; [reflexivity|]. cbn. split; [lia|]. split; [lia|]. right. right. right. lia.
    - destruct (firstn size file) as [|a ch] eqn:Ec.
      { exists [], []. rewrite app_nil_r. split; [reflexivity|]. destruct file as [|x file]; [|destruct size; [lia|discriminate]]. split; [reflexivity|]. cbn. split; [lia|]. split; [lia|left; reflexivity]. }
      rewrite <- Ec. assert (Hfile : file = firstn size file ++ skipn size file) by (symmetry; apply firstn_skipn).
      destruct (Nat.lt_ge_cases (length (firstn size file)) 2) as [Hshort|Hlong].
      + assert (length file = 1) as L1. { rewrite firstn_length in Hshort. apply (f_equal (@length A)) in Ec. rewrite firstn_length in Ec. cbn in Ec. lia. }
        assert (chunk_step c ml data total (firstn size file) = (data, total)) as ->. { unfold chunk_step. destruct (Nat.ltb_spec 0 (length (firstn size file) - 1)); [lia|]. reflexivity. }
        destruct (Nat.leb_spec ml total); [lia|]. exists [], file. rewrite app_nil_r.
        assert (skipn size file = []) as -> by (apply skipn_all2; lia).
        split; [destruct it; cbn [load_loop]; [reflexivity|]; rewrite firstn_nil; reflexivity|]. split; [reflexivity|]. cbn [runs length]. split; [lia|]. split; [lia|]. right. right. left. split; [exact L1|]. rewrite L1. apply Nat.mod_small. lia.
      + destruct (chunk_step_spec ml data total (firstn size file) Hlong Ht) as (d2 & rest & t2 & -> & Ed & [(-> & (r & ->) & Hr)|(Ht2 & -> & Hr)]).
        * rewrite Nat.leb_refl. exists d2, (c :: r ++ skipn size file). split; [reflexivity|]. split; [rewrite Hfile at 1; rewrite Ed, <- app_assoc; reflexivity|]. split; [lia|].
          assert (length d2 <= size) as Ld. { apply (f_equal (@length A)) in Ed. rewrite app_length, firstn_length in Ed. lia. }
          split; [nia|]. right. left. split; [eauto|]. pose proof (runs_number d2 false). lia.
        * rewrite app_nil_r in Ed. subst d2. destruct (Nat.leb_spec ml t2); [lia|]. destruct (IH (skipn size file) (data ++ firstn size file) t2 Ht2) as (d3 & rest & E & Ef & Hruns & Hlen & Hcases).
          exists (firstn size file ++ d3), rest. rewrite E. split; [rewrite <- app_assoc; reflexivity|]. split; [rewrite <- app_assoc, <- Ef; exact Hfile|].
          pose proof (runs_app (firstn size file) d3 false). split; [lia|]. rewrite app_length. pose proof (firstn_le_length size file). assert (length (firstn size file) <= size) by (rewrite firstn_length; lia). split; [lia|].
          destruct Hcases as [->|[[Hr2 Hn]|[[Hr2 Hm]|Hfull]]].
          -- left. reflexivity.
          -- right. left. split; [exact Hr2|]. rewrite number_app. pose proof (runs_number (firstn size file) false). lia.
          -- right. right. left. split; [exact Hr2|]. rewrite skipn_length in Hm. assert (size <= length file). { destruct (Nat.lt_ge_cases (length file) size); [|assumption]. replace (length file - size) with 0 in Hm by lia. rewrite Nat.mod_0_l in Hm by lia. discriminate. }
             replace (length file) with (length file - size + 1 * size) by lia. rewrite Nat.mod_add by lia. exact Hm.
          -- destruct (Nat.lt_ge_cases (length file) size) as [Hl|Hl].
             ++ left. rewrite skipn_all2 in Ef by lia. symmetry in Ef. apply app_eq_nil in Ef. apply Ef.
             ++ right. right. right. rewrite firstn_length. lia.
  Qed.

  Lemma ceil_ge a n : 0 < n -> a <= (a + n - 1) / n * n /\ (a + n - 1) / n * n < a + n.
  Proof. intro H. pose proof (Nat.mul_div_le (a + n - 1) n ltac:(lia)). pose proof (Nat.mul_succ_div_gt (a + n - 1) n ltac:(lia)). nia. Qed.

  (** What is read is the beginning of the file; it has fewer line ends than asked for; it is less than a chunk longer
      than the limit; and it ends with the file, before a line end, at the limit, or before the last character. *)
  Theorem C35_load file max_lines max_bytes chunk : 2 <= Nat.min max_bytes chunk -> 0 < max_lines ->
    exists data rest, load_as_str c file max_lines max_bytes chunk = Ok data /\ file = data ++ rest /\ runs false data < max_lines /\
      length data < max_bytes + Nat.min max_bytes chunk /\
      (rest = [] \/ (exists r, rest = c :: r) \/ max_bytes <= length data \/ length rest = 1).
  Proof.
    intros Hs Hm. unfold load_as_str. destruct (Nat.eqb_spec (Nat.min max_bytes chunk) 0); [lia|]. set (size := Nat.min max_bytes chunk) in *.
    destruct (load_loop_spec ((max_bytes + size - 1) / size) size max_lines Hs file [] 0 Hm) as (d2 & rest & -> & Ef & Hr & Hl & Hc). cbn [app]. destruct (ceil_ge max_bytes size ltac:(lia)) as [C1 C2].
    exists d2, rest. split; [reflexivity|]. split; [exact Ef|]. split; [exact Hr|]. split; [lia|]. destruct Hc as [H|[[H _]|[[H _]|H]]]; [left; exact H|right; left; exact H|right; right; right; exact H|right; right; left; lia].
  Qed.

  (** If neither limit is reached the whole file is read, unless the last chunk is a single character. *)
  Theorem C35_load_all file max_lines max_bytes chunk : 2 <= Nat.min max_bytes chunk -> number file < max_lines -> length file <= max_bytes ->
    length file mod Nat.min max_bytes chunk <> 1 -> load_as_str c file max_lines max_bytes chunk = Ok file.
  Proof.
    intros Hs Hm Hb Hmod. unfold load_as_str. destruct (Nat.eqb_spec (Nat.min max_bytes chunk) 0); [lia|]. set (size := Nat.min max_bytes chunk) in *.
    destruct (load_loop_spec ((max_bytes + size - 1) / size) size max_lines Hs file [] 0 ltac:(lia)) as (d2 & rest & -> & Ef & Hr & Hl & Hc). cbn [app]. destruct (ceil_ge max_bytes size ltac:(lia)) as [C1 C2]. f_equal.
    destruct Hc as [->|[[[r ->] H]|[[_ H]|H]]].
    - rewrite app_nil_r in Ef. symmetry. exact Ef.
    - exfalso. rewrite Ef, number_app in Hm. cbn [number] in Hm. rewrite eqb_refl in Hm. lia.
    - contradiction.
    - assert (length file = length d2 + length rest) as L by (rewrite Ef, app_length; reflexivity). destruct rest as [|x rest]; [rewrite app_nil_r in Ef; symmetry; exact Ef|]. cbn [length] in L. lia.
  Qed.

  (** The limit holds if the chunks divide it (as they do by default). *)
  Theorem C35_limit file max_lines max_bytes chunk data : 2 <= Nat.min max_bytes chunk -> 0 < max_lines -> max_bytes mod Nat.min max_bytes chunk = 0 ->
    load_as_str c file max_lines max_bytes chunk = Ok data -> length data <= max_bytes.
  Proof.
    intros Hs Hm Hd. unfold load_as_str. destruct (Nat.eqb_spec (Nat.min max_bytes chunk) 0); [lia|]. set (size := Nat.min max_bytes chunk) in *. intro E. injection E as <-.
    destruct (load_loop_spec ((max_bytes + size - 1) / size) size max_lines Hs file [] 0 Hm) as (d2 & rest & -> & Ef & Hr & Hl & Hc). cbn [app].
    apply Nat.mod_divides in Hd; [|lia]. destruct Hd as [q Hq]. destruct (ceil_ge max_bytes size ltac:(lia)) as [C1 C2].
    set (k := (max_bytes + size - 1) / size) in *. assert (k < S q) as Hk by (apply (Nat.mul_lt_mono_pos_r size); [lia|]; cbn [Nat.mul]; lia).
    assert (k * size <= q * size) by (apply Nat.mul_le_mono_r; lia). lia.
  Qed.
End Load.

Example C35_example : load_as_str 0 [1; 2; 0; 0; 3; 0; 4; 5; 0; 6] 3 100 4 = Ok [1; 2; 0; 0; 3; 0; 4; 5] /\ find_nth_loc [1; 0; 0; 2; 0] [0] 2 true = (Some 4, 2).
Proof. split; vm_compute; reflexivity. Qed.

(** A user expects no more to be read than the limit.  Whole chunks are read. *)
Theorem C35_limit_refuted : ~ (forall (file : list nat) max_lines max_bytes chunk data, 2 <= chunk -> load_as_str 0 file max_lines max_bytes chunk = Ok data -> length data <= max_bytes).
Proof. intro H. specialize (H [1; 2; 3; 4] 10 3 2 [1; 2; 3; 4] ltac:(lia) eq_refl). cbn in H. lia. Qed.

(** A user expects a file within the limits to be read as a whole.  The last character is dropped if it is alone in its
    chunk. *)
Theorem C35_whole_file_refuted : ~ (forall (file : list nat) max_lines max_bytes chunk, 2 <= chunk -> length file <= max_bytes -> length file < max_lines -> load_as_str 0 file max_lines max_bytes chunk = Ok file).
Proof. intro H. specialize (H [1; 2; 3] 10 10 2 ltac:(lia) ltac:(cbn; lia) ltac:(cbn; lia)). discriminate. Qed.

(** A user expects what is read not to depend on the chunk size.  A run of line ends across chunks is counted twice. *)
Theorem C35_chunk_size_refuted : ~ (forall (file : list nat) max_lines max_bytes c1 c2, length file <= c1 <= max_bytes -> length file mod c2 <> 1 -> 2 <= c2 <= c1 -> load_as_str 0 file max_lines max_bytes c1 = load_as_str 0 file max_lines max_bytes c2).
Proof. intro H. specialize (H [1; 2; 0; 0; 3; 4] 2 100 100 3 ltac:(cbn; lia) ltac:(cbn; lia) ltac:(lia)). discriminate. Qed.

(** A user expects consecutive matches of a longer query to be counted once.  Only the last character is repeated. *)
Theorem C35_consecutive_refuted : ~ (forall (q : list nat) m, q <> [] -> 0 < m -> snd (find_nth_loc (concat (repeat q m)) q 10 true) = 1).
Proof. intro H. specialize (H [1; 2] 2 ltac:(discriminate) ltac:(lia)). discriminate. Qed.

(** ** C46 *)
Section Handler.
  Variable seek_ok : held -> nat -> bool.
  Variable openable : bool.
  Notation use := (use seek_ok openable).
  Notation uses := (uses seek_ok openable).
  Notation enter := (enter seek_ok openable).

  (** A handler is only entered for a path, a text buffer or a byte buffer. *)
  Theorem C46_other x tm sk w : x <> HPath -> x <> HText -> x <> HBytes -> snd (enter (new_handler x tm sk) w) = Some AttributeError.
  Proof. intros. destruct x; try contradiction; reflexivity. Qed.

  (** After any number of uses that succeed, a buffer is open, at its start, and free of wrappers; no file is opened.
      Whether a use succeeds depends on the offset only. *)
  Theorem C46_buffer x tm sk w bodies : x = HText \/ x = HBytes -> w_closed w = false -> w_owned w = false ->
    let '(h, w', err) := uses (new_handler x tm sk) w bodies in
    (err = None -> h_held h = x /\ w_closed w' = false /\ w_owned w' = false /\ w_open_files w' = w_open_files w /\ (bodies <> [] -> w_pos w' = 0)) /\
    (err <> None -> exists o, sk = Some o /\ seek_ok (if tm then match x with HBytes => HWrapper | y => y end else x) o = false).
  Proof.
    intros Hx Hc Ho.
    assert (forall wr, wr = false \/ (x = HBytes /\ tm = true) -> let '(h, w', err) := uses {| h_held := x; h_text_mode := tm; h_seek := sk; h_wrapped := wr |} w bodies in
      (err = None -> h_held h = x /\ w_closed w' = false /\ w_owned w' = false /\ w_open_files w' = w_open_files w /\ (bodies <> [] -> w_pos w' = 0)) /\
      (err <> None -> exists o, sk = Some o /\ seek_ok (if tm then match x with HBytes => HWrapper | y => y end else x) o = false)) as G.
    2:{ apply (G false). left. reflexivity. }
    revert w Hc Ho. induction bodies as [|b bodies IH]; intros w Hc Ho wr Hwr; cbn [ReadModel.uses].
    - split; [intros _; split; [reflexivity|]; split; [exact Hc|]; split; [exact Ho|]; split; [reflexivity|intro N; exfalso; apply N; reflexivity]|intro N; exfalso; apply N; reflexivity].
    - assert ((exists o, sk = Some o /\ seek_ok (if tm then match x with HBytes => HWrapper | y => y end else x) o = false /\ exists h' w', use {| h_held := x; h_text_mode := tm; h_seek := sk; h_wrapped := wr |} w b = (h', w', Some ValueError)) \/
        exists wr', (wr' = false \/ (x = HBytes /\ tm = true)) /\ use {| h_held := x; h_text_mode := tm; h_seek := sk; h_wrapped := wr |} w b =
          ({| h_held := x; h_text_mode := tm; h_seek := sk; h_wrapped := wr' |}, {| w_pos := 0; w_closed := false; w_owned := false; w_open_files := w_open_files w |}, None)) as [(o & E1 & E2 & h' & w' & Eu)|(wr' & Hwr' & Eu)].
      { unfold ReadModel.use, ReadModel.enter, acquire. cbn [h_held h_text_mode h_seek h_wrapped]. destruct Hx as [-> | ->].
        - destruct Hwr as [->|[Hwr _]]; [|discriminate]. destruct sk as [o|].
          + cbn [h_held h_seek]. destruct (seek_ok HText o) eqn:Es.
            * right. exists false. split; [left; reflexivity|]. unfold exit. cbn. rewrite Hc, Ho. reflexivity.
            * left. exists o. split; [reflexivity|]. split; [destruct tm; exact Es|]. eauto.
          + right. exists false. split; [left; reflexivity|]. unfold exit. cbn. rewrite Hc, Ho. reflexivity.
        - destruct tm.
          + cbn [h_held h_seek]. destruct sk as [o|].
            * destruct (seek_ok HWrapper o) eqn:Es.
              -- right. exists true. split; [right; split; reflexivity|]. unfold exit. cbn. rewrite Hc. reflexivity.
              -- left. exists o. split; [reflexivity|]. split; [exact Es|]. eauto.
            * right. exists true. split; [right; split; reflexivity|]. unfold exit. cbn. rewrite Hc. reflexivity.
          + destruct Hwr as [->|[_ Hwr]]; [|discriminate]. cbn [h_held h_seek]. destruct sk as [o|].
            * destruct (seek_ok HBytes o) eqn:Es.
              -- right. exists false. split; [left; reflexivity|]. unfold exit. cbn. rewrite Hc, Ho. reflexivity.
              -- left. exists o. split; [reflexivity|]. split; [exact Es|]. eauto.
            * right. exists false. split; [left; reflexivity|]. unfold exit. cbn. rewrite Hc, Ho. reflexivity. }
      + rewrite Eu. split; [discriminate|]. intros _. exists o. split; assumption.
      + rewrite Eu. specialize (IH {| w_pos := 0; w_closed := false; w_owned := false; w_open_files := w_open_files w |} eq_refl eq_refl wr' Hwr').
        destruct (uses {| h_held := x; h_text_mode := tm; h_seek := sk; h_wrapped := wr' |} {| w_pos := 0; w_closed := false; w_owned := false; w_open_files := w_open_files w |} bodies) as [[h w'] err] eqn:Er.
        destruct IH as [I1 I2]. split; [|exact I2]. intro En. destruct (I1 En) as (J1 & J2 & J3 & J4 & J5). split; [exact J1|]. split; [exact J2|]. split; [exact J3|]. split; [exact J4|]. intros _.
        destruct bodies as [|b' bodies]; [cbn in Er; injection Er as <- <- <-; reflexivity|apply J5; discriminate].
  Qed.

  (** A file opened from a path is closed after use. *)
  Theorem C46_path tm sk w body h w' : use (new_handler HPath tm sk) w body = (h, w', None) -> w_open_files w' = w_open_files w /\ w_closed w' = true.
  Proof.
    unfold ReadModel.use, ReadModel.enter, acquire, new_handler. cbn [h_held h_text_mode h_seek h_wrapped]. destruct openable; [|discriminate]. cbn [h_seek h_held].
    destruct sk as [o|]; [destruct (seek_ok HFile o); [|discriminate]|]; unfold exit; cbn; intro E; injection E as <- <-; cbn; split; try reflexivity; lia.
  Qed.

  (** A path that cannot be opened is an error, and nothing is open then. *)
  Theorem C46_unopenable tm sk w body : openable = false -> exists h e, use (new_handler HPath tm sk) w body = (h, w, Some e).
  Proof. intros E. unfold ReadModel.use, ReadModel.enter, acquire, new_handler. cbn [h_held]. rewrite E. eauto. Qed.

End Handler.

Definition start : world := {| w_pos := 5; w_closed := false; w_owned := false; w_open_files := 0 |}.
Example C46_example : let '(h, w, err) := uses (fun _ _ => true) true (new_handler HBytes true (Some 2)) start [S; fun n => n + 7] in
  h_held h = HBytes /\ w = {| w_pos := 0; w_closed := false; w_owned := false; w_open_files := 0 |} /\ err = None.
Proof. repeat split. Qed.

(** A user expects a handler to be usable again.  One that was made for a path holds the closed file after its use. *)
Theorem C46_used_again_refuted :
  ~ (forall x b1 b2, x = HPath \/ x = HText \/ x = HBytes -> snd (uses (fun _ _ => true) true (new_handler x true None) start [b1; b2]) = None).
Proof. intro H. specialize (H HPath S S (or_introl eq_refl)). discriminate. Qed.

(** A user expects the position of a buffer that is only read to be as before.  It is set to the start. *)
Theorem C46_position_refuted : ~ (forall x b, x = HText \/ x = HBytes -> w_pos (snd (fst (uses (fun _ _ => true) true (new_handler x true None) start [b]))) = w_pos start).
Proof. intro H. specialize (H HText S (or_introl eq_refl)). discriminate. Qed.

(** A user expects nothing to be left open if entering fails.  A file with an invalid offset stays open, and a byte buffer
    keeps its wrapper (which closes the buffer when it is collected). *)
Theorem C46_failure_cleans_up_refuted :
  ~ (forall x sk b h w e, uses (fun _ _ => false) true (new_handler x true sk) start [b] = (h, w, Some e) -> w_open_files w = 0 /\ w_owned w = false).
Proof. intro H. specialize (H HPath (Some 9) S _ _ _ eq_refl). destruct H as [H _]. discriminate. Qed.

Print Assumptions C35_find.
Print Assumptions C35_load.
Print Assumptions C35_load_all.
Print Assumptions C35_limit.
Print Assumptions C46_buffer.
Print Assumptions C46_path.
