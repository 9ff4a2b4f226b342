(** Properties C28 (counts of characters and words of free text) and C29 (merging free-text profiles). *)
From Coq Require Import Ascii Permutation.
From Coq Require String.
Delimit Scope string_scope with string.
From Verif Require Import PyCommon PyDict PyString PyEq CategoricalModel CategoricalProofs TextModel TextProofs.
Local Open Scope nat_scope.

(** ** Words of a text *)

Definition punctuation : list ascii := String.list_ascii_of_string "!""#$%&'()*+,-./:;<=>?@[\]^_`{|}~"%string.
Definition capitals : list ascii := String.list_ascii_of_string "ABCDEFGHIJKLMNOPQRSTUVWXYZ"%string.
Definition small_letters : list ascii := String.list_ascii_of_string "abcdefghijklmnopqrstuvwxyz"%string.

(** White space, punctuation and lower case are those of Python. *)
Theorem C28_character_classes :
  (forall c, is_space c = true <-> In (nat_of_ascii c) [9; 10; 11; 12; 13; 28; 29; 30; 31; 32]) /\
  (forall c, is_punct c = true <-> In c punctuation) /\
  lower capitals = small_letters /\ (forall c, ~ In c capitals -> lower [c] = [c]).
Proof.
  assert (forall (P : ascii -> bool) l, forallb (fun c => Bool.eqb (P c) (lmem l c)) (map ascii_of_nat (seq 0 256)) = true -> forall c, P c = true <-> In c l) as A.
  { intros P l H c. pose proof (all_ascii _ H c) as E. apply eqb_prop in E. rewrite E. apply lmem_In. }
  split; [|split; [|split]].
  - intro c. assert (Bool.eqb (is_space c) (lmem [9; 10; 11; 12; 13; 28; 29; 30; 31; 32] (nat_of_ascii c)) = true) as E.
    { revert c. apply all_ascii. vm_compute. reflexivity. }
    apply eqb_prop in E. rewrite E. apply lmem_In.
  - apply A. vm_compute. reflexivity.
  - vm_compute. reflexivity.
  - intros c H. apply lmem_false in H. assert (implb (negb (lmem capitals c)) (Ascii.eqb (lower_ascii c) c) = true) as E.
    { clear H. revert c. apply all_ascii. vm_compute. reflexivity. }
    rewrite H in E. apply Ascii.eqb_eq in E. cbn. rewrite E. reflexivity.
Qed.

(** [ws] are the maximal runs of characters other than white space in [t], in order. *)
Inductive splits : text -> list text -> Prop :=
| splits_nil s : (forall c, In c s -> is_space c = true) -> splits s []
| splits_cons s w t ws :
    (forall c, In c s -> is_space c = true) -> w <> [] -> (forall c, In c w -> is_space c = false) ->
    (t = [] \/ exists c t', t = c :: t' /\ is_space c = true) -> splits t ws -> splits (s ++ w ++ t) (w :: ws).

Lemma splits_space c t ws : is_space c = true -> splits t ws -> splits (c :: t) ws.
Proof.
  intros Hc H. destruct H as [s Hs|s w t ws Hs].
  - apply splits_nil. intros x [<-|Hx]; auto.
  - change (c :: s ++ w ++ t) with ((c :: s) ++ w ++ t). apply splits_cons; auto. intros x [<-|Hx]; auto.
Qed.

Lemma split_spaces s t : (forall c, In c s -> is_space c = true) -> split (s ++ t) = split t.
Proof.
  induction s as [|c s IH]; intro H; [reflexivity|]. cbn [app split]. rewrite (H c (or_introl eq_refl)). apply IH. intros x Hx. apply H. right. exact Hx.
Qed.

Lemma split_word w t : w <> [] -> (forall c, In c w -> is_space c = false) -> (t = [] \/ exists c t', t = c :: t' /\ is_space c = true) ->
  split (w ++ t) = w :: split t.
Proof.
  intros Hne Hw Ht. induction w as [|c w IH]; [congruence|]. destruct w as [|d w].
  - cbn [app split]. rewrite (Hw c (or_introl eq_refl)). destruct Ht as [->|(x & t' & -> & Hx)]; [reflexivity|]. rewrite Hx. reflexivity.
  - change ((c :: d :: w) ++ t) with (c :: (d :: w) ++ t). cbn [split]. rewrite (Hw c (or_introl eq_refl)). cbn [app].
    assert (is_space d = false) as Hd by (apply Hw; right; left; reflexivity). rewrite Hd.
    cbn [app] in IH. rewrite IH; [reflexivity|discriminate|]. intros x Hx. apply Hw. right. exact Hx.
Qed.

Lemma splits_inv dt w ws : splits dt (w :: ws) -> exists s t, dt = s ++ w ++ t /\ (forall c, In c s -> is_space c = true) /\ w <> [] /\
  (forall c, In c w -> is_space c = false) /\ (t = [] \/ exists c t', t = c :: t' /\ is_space c = true) /\ splits t ws.
Proof. intro H. inversion H; subst. eauto 10. Qed.

(** A text is split at white space into its maximal runs of other characters. *)
Theorem C28_split t ws : splits t ws <-> split t = ws.
Proof.
  split.
  - intro H. induction H as [s Hs|s w t ws Hs Hne Hw Ht H IH].
    + rewrite <- (app_nil_r s), split_spaces by exact Hs. reflexivity.
    + rewrite split_spaces, split_word, IH by assumption. reflexivity.
  - intros <-. induction t as [|c t IH]; [apply splits_nil; intros c []|]. cbn [split]. destruct (is_space c) eqn:E; [apply splits_space; assumption|].
    assert (forall x, In x [c] -> is_space x = false) as Hc by (intros x [<-|[]]; exact E). destruct t as [|d t].
    + apply (splits_cons [] [c] [] []); [intros x []|discriminate|exact Hc|left; reflexivity|apply splits_nil; intros x []].
    + destruct (is_space d) eqn:Ed.
      * apply (splits_cons [] [c] (d :: t)); [intros x []|discriminate|exact Hc|right; eauto|exact IH].
      * destruct (split (d :: t)) as [|w ws] eqn:Es.
        { exfalso. inversion IH as [s Hs|]; subst. rewrite (Hs d (or_introl eq_refl)) in Ed. discriminate. }
        apply splits_inv in IH. destruct IH as (s & t' & Hd & Hs & Hne & Hw & Ht & H). rewrite Hd. destruct s as [|x s].
        { cbn [app] in *. change (c :: w ++ t') with ([] ++ (c :: w) ++ t'). apply splits_cons; auto; [discriminate|]. intros x [<-|Hx]; auto. }
        { cbn [app] in Hd. injection Hd as -> _. rewrite (Hs x (or_introl eq_refl)) in Ed. discriminate. }
Qed.

Lemma drop_punct_spec t : exists p, t = p ++ drop_punct t /\ (forall c, In c p -> is_punct c = true) /\ forall c r, drop_punct t = c :: r -> is_punct c = false.
Proof.
  induction t as [|c t (p & H1 & H2 & H3)]; [exists []; cbn; repeat split; [intros ? []|discriminate]|]. cbn [drop_punct]. destruct (is_punct c) eqn:E.
  - exists (c :: p). cbn [app]. rewrite <- H1. split; [reflexivity|]. split; [|exact H3]. intros x [<-|Hx]; auto.
  - exists []. split; [reflexivity|]. split; [intros ? []|]. intros x r H. injection H as <- _. exact E.
Qed.

(** Stripping removes the punctuation at both ends of a word and nothing else. *)
Theorem C28_strip t : exists p q, t = p ++ strip t ++ q /\
  (forall c, In c p \/ In c q -> is_punct c = true) /\
  (forall c r, strip t = c :: r -> is_punct c = false) /\ (forall c r, strip t = r ++ [c] -> is_punct c = false).
Proof.
  destruct (drop_punct_spec t) as (p & H1 & H2 & H3). destruct (drop_punct_spec (rev (drop_punct t))) as (q & G1 & G2 & G3).
  exists p, (rev q). assert (drop_punct t = strip t ++ rev q) as E.
  { apply (f_equal (@rev ascii)) in G1. rewrite rev_involutive, rev_app_distr in G1. exact G1. }
  split; [rewrite H1 at 1; rewrite E; reflexivity|]. split; [intros c [H|H]; [apply H2; exact H|apply G2; apply in_rev; exact H]|]. split.
  - intros c r H. apply (H3 c (r ++ rev q)). rewrite E, H. reflexivity.
  - intros c r H. apply (G3 c (rev r)). unfold strip in H. apply (f_equal (@rev ascii)) in H. rewrite rev_involutive, rev_app_distr in H. exact H.
Qed.

(** The words of a text: its runs without white space, stripped of punctuation *)
Definition words (row : text) : list text := map strip (split row).

Lemma split_lower t : split (lower t) = map lower (split t).
Proof.
  induction t as [|c t IH]; [reflexivity|]. unfold lower in *. cbn [map split]. rewrite lower_space. destruct (is_space c); [exact IH|].
  destruct t as [|d t]; [reflexivity|]. cbn [map] in *. rewrite lower_space. destruct (is_space d) eqn:E; [rewrite IH; reflexivity|]. rewrite IH.
  destruct (split (d :: t)); reflexivity.
Qed.

Lemma drop_lower t : drop_punct (lower t) = lower (drop_punct t).
Proof. induction t as [|c t IH]; [reflexivity|]. unfold lower in *. cbn [map drop_punct]. rewrite lower_punct. destruct (is_punct c); [exact IH|reflexivity]. Qed.

Lemma strip_lower t : strip (lower t) = lower (strip t).
Proof. unfold strip. rewrite drop_lower. unfold lower at 1. rewrite <- map_rev. fold (lower (rev (drop_punct t))). rewrite drop_lower. unfold lower. rewrite map_rev. reflexivity. Qed.

Lemma tokens_words cs row : tokens cs row = if cs then words row else map lower (words row).
Proof.
  unfold tokens, words. destruct cs; [reflexivity|]. rewrite split_lower, !map_map. apply map_ext. apply strip_lower.
Qed.

(** ** Counts of a profile *)
Section Profiles.
  Variable default_stop : list text.
  Notation run := (run default_stop).

  (** All texts a profile has been given *)
  Fixpoint all_rows (h : hist) : list text :=
    match h with
    | HNew _ => []
    | HUpd h rows => all_rows h ++ rows
    | HAdd h1 h2 => all_rows h1 ++ all_rows h2
    end.

  (** Whatever the updates and merges, the sample size is the number of texts. *)
  Theorem C28_sample_size h : p_size (run h) = length (all_rows h).
  Proof.
    induction h as [o|h IH rows|h1 IH1 h2 IH2]; cbn [TextModel.run all_rows]; [reflexivity| |].
    - unfold update. destruct rows; [rewrite app_nil_r; exact IH|]. cbn [p_size]. rewrite app_length, IH. reflexivity.
    - cbn [merge p_size]. rewrite app_length, IH1, IH2. reflexivity.
  Qed.

  (** The characters are listed in order of first occurrence, each with its number of occurrences in all
      texts, whatever the other options of the merged profiles. *)
  Theorem C28_characters h : p_vocab_on (run h) = true ->
    dkeys (p_vocab (run h)) = firsts (concat (all_rows h)) /\
    forall c, count (p_vocab (run h)) c = occ c (concat (all_rows h)).
  Proof.
    change (p_vocab_on (run h) = true -> counts_of (p_vocab (run h)) (concat (all_rows h))).
    induction h as [o|h IH rows|h1 IH1 h2 IH2]; cbn [TextModel.run all_rows]; [intros _; split; reflexivity| |].
    - unfold update. destruct rows as [|r rows]; [rewrite app_nil_r; exact IH|]. cbn [p_vocab_on p_vocab]. intro H. rewrite H, concat_app.
      apply iadd_counts; [apply IH; exact H|]. apply counter_counts.
    - unfold merge. cbn [p_vocab_on p_vocab]. intro H. rewrite H. apply andb_true_iff in H. destruct H as [H1 H2]. rewrite concat_app.
      apply plus_counts; auto.
  Qed.

  (** Every profile the history starts from has these options *)
  Fixpoint uniform (cs : bool) (stop : option (list text)) (h : hist) : Prop :=
    match h with
    | HNew o => o_case o = cs /\ o_stop o = stop
    | HUpd h _ => uniform cs stop h
    | HAdd h1 h2 => uniform cs stop h1 /\ uniform cs stop h2
    end.

  Definition stop_set (stop : option (list text)) : list text := match stop with Some l => distinct l | None => default_stop end.

  Lemma union_same s : union_stop s s = s.
  Proof.
    unfold union_stop. assert (filter (fun w => negb (lmem s w)) s = []) as ->; [|apply app_nil_r].
    assert (forall l, (forall x, In x l -> lmem s x = true) -> filter (fun w => negb (lmem s w)) l = []) as A.
    { induction l as [|x l IH]; intro H; [reflexivity|]. cbn [filter]. rewrite (H x (or_introl eq_refl)). apply IH. intros y Hy. apply H. right. exact Hy. }
    apply A. intros x Hx. apply lmem_In. exact Hx.
  Qed.

  Lemma counts_filter (f : text -> bool) d l : counts_of d l -> counts_of (filter (fun kv => f (fst kv)) d) (filter f l).
  Proof.
    intros [H1 H2]. split; [rewrite dkeys_filter, H1, firsts_filter; reflexivity|]. intro k. rewrite count_filter, H2. clear.
    induction l as [|x l IH]; cbn [filter occ]; [destruct (f k); reflexivity|]. destruct (f x) eqn:E; cbn [occ]; destruct (PyDict.eqb_spec x k) as [->|]; try rewrite E in *.
    - rewrite <- IH. reflexivity.
    - exact IH.
    - exact IH.
    - cbn [Nat.add]. exact IH.
  Qed.

  (** If all have the same case sensitivity and stop words, then the words are listed in order of first
      occurrence, each with its number of occurrences among the words of all texts, in lower case unless the
      profile is case sensitive; empty words, and words whose lower case is a stop word, are left out. *)
  Theorem C28_words cs stop h : uniform cs stop h -> p_words_on (run h) = true ->
    let all := concat (map (fun row => if cs then words row else map lower (words row)) (all_rows h)) in
    let kept := filter (fun w => negb (PyDict.eqb w []) && negb (lmem (stop_set stop) (lower w))) all in
    dkeys (p_words (run h)) = firsts kept /\ (forall w, count (p_words (run h)) w = occ w kept).
  Proof.
    intros Hu Hon. cbn zeta.
    rewrite (map_ext _ (tokens cs) ltac:(intro; symmetry; apply tokens_words)).
    rewrite (filter_ext _ (keep (stop_set stop))) by (intros [|x w]; reflexivity).
    assert (p_case (run h) = cs /\ (p_words_on (run h) = true -> p_stop (run h) = stop_set stop /\
      counts_of (p_words (run h)) (filter (keep (stop_set stop)) (concat (map (tokens cs) (all_rows h)))))) as [_ A]; [|destruct (A Hon) as [_ B]; exact B].
    clear Hon. induction h as [o|h IH rows|h1 IH1 h2 IH2]; cbn [TextModel.run all_rows uniform] in *.
    - destruct Hu as [H1 H2]. unfold new. cbn [p_case p_stop p_words]. rewrite H1, H2. split; [reflexivity|]. intros _. split; [reflexivity|split; reflexivity].
    - destruct (IH Hu) as [Ec IHw]. unfold update. destruct rows as [|r rows]; [rewrite app_nil_r; auto|]. cbn [p_case p_words_on p_stop p_words]. split; [exact Ec|].
      intro H. destruct (IHw H) as [Es Ew]. split; [exact Es|]. rewrite H, update_words_eq, Ec, Es. rewrite map_app, concat_app, filter_app.
      set (m := concat (map (tokens cs) (r :: rows))). pose proof (counts_filter (keep (stop_set stop)) _ _ (counter_counts m)) as Hm.
      pose proof (iadd_counts _ _ _ _ Ew Hm) as Hi. unfold iadd in Hi. rewrite filter_all in Hi; [exact Hi|]. intros [k c] Hin.
      apply Nat.ltb_lt. cbn [snd]. revert k c Hin. apply fold_add_pos; [exact (counts_pos _ _ Ew)|exact (counts_pos _ _ Hm)].
    - destruct Hu as [U1 U2]. destruct (IH1 U1) as [C1 W1], (IH2 U2) as [C2 W2]. unfold merge. cbn [p_case p_words_on p_stop p_words].
      rewrite C1, C2. split; [destruct cs; reflexivity|]. intro H. rewrite H. apply andb_true_iff in H. destruct H as [O1 O2].
      destruct (W1 O1) as [S1 K1], (W2 O2) as [S2 K2]. rewrite S1, S2, union_same. split; [reflexivity|].
      unfold merge_words. rewrite S1, S2, union_same, Nat.eqb_refl, C1, C2, eqb_reflx. rewrite map_app, concat_app, filter_app. apply plus_counts; assumption.
  Qed.

  (** The reported counts are the largest ones, in decreasing order. *)
  Theorem C28_most_common {K} {EK : EqDecB K} (d : dict K nat) top : exists rest,
    Permutation (most_common d top ++ rest) d /\
    (forall i j kv kv', i < j -> nth_error (most_common d top) i = Some kv -> nth_error (most_common d top) j = Some kv' -> snd kv' <= snd kv) /\
    (forall kv kv', In kv (most_common d top) -> In kv' rest -> snd kv' <= snd kv) /\
    length (most_common d top) = match top with None => length d | Some k => Nat.min k (length d) end.
  Proof.
    set (k := match top with None => length (sort_desc d) | Some k => k end).
    assert (most_common d top = firstn k (sort_desc d)) as -> by (unfold most_common, k; destruct top; [reflexivity|symmetry; apply firstn_all]).
    exists (skipn k (sort_desc d)). pose proof (sort_desc_sorted d) as Hs. pose proof (sort_desc_perm d) as Hp. rewrite firstn_skipn.
    split; [exact Hp|]. rewrite <- (firstn_skipn k (sort_desc d)) in Hs. split; [|split].
    - assert (desc (firstn k (sort_desc d))) as Hd.
      { revert Hs. generalize (skipn k (sort_desc d)). generalize (firstn k (sort_desc d)). clear. intros l m. induction l as [|x l IH]; intro H; [constructor|].
        inversion H as [|? ? H1 H2]; subst. constructor; [intros y Hy; apply H1; apply in_or_app; auto|apply IH; exact H2]. }
      clear - Hd. induction Hd as [|x l Hx Hl IH]; intros i j kv kv' Hij Hi Hj; [destruct i; discriminate|]. destruct j as [|j]; [lia|]. cbn in Hj. destruct i as [|i].
      + injection Hi as <-. apply Hx. apply (nth_error_In _ _ Hj).
      + apply (IH i j); [lia|exact Hi|exact Hj].
    - intros kv kv' H1 H2. exact (desc_app_le _ _ Hs kv kv' H1 H2).
    - rewrite firstn_length, <- (Permutation_length Hp). unfold k. destruct top; [reflexivity|apply Nat.min_id].
  Qed.

  (** ** Merging *)
  Definition is_stop (a b : profile) (w : text) : bool := lmem (p_stop a) (lower w) || lmem (p_stop b) (lower w).
  (** The second profile has stop words the first one has not *)
  Definition grows (a b : profile) : bool := existsb (fun s => negb (lmem (p_stop a) s)) (p_stop b).

  Lemma grows_length a b : negb (length (union_stop (p_stop a) (p_stop b)) =? length (p_stop a)) = grows a b.
  Proof.
    unfold union_stop, grows. rewrite app_length. generalize (p_stop a) as s. intro s. induction (p_stop b) as [|x l IH]; cbn [filter existsb].
    - cbn [length]. rewrite Nat.add_0_r, Nat.eqb_refl. reflexivity.
    - destruct (negb (lmem s x)); cbn [length orb]; [|exact IH]. destruct (Nat.eqb_spec (length s + S (length (filter (fun w => negb (lmem s w)) l))) (length s)); [lia|reflexivity].
  Qed.

  Lemma union_mem a b w : lmem (union_stop (p_stop a) (p_stop b)) (lower w) = is_stop a b w.
  Proof.
    unfold is_stop, union_stop. destruct (lmem (_ ++ _) _) eqn:E.
    - apply lmem_In in E. apply in_app_or in E. symmetry. apply orb_true_iff. destruct E as [E|E]; [left; apply lmem_In; exact E|].
      apply filter_In in E. right. apply lmem_In. tauto.
    - apply lmem_false in E. symmetry. apply orb_false_iff. rewrite in_app_iff in E. assert (~ In (lower w) (p_stop a)) as H by tauto. split; apply lmem_false; [exact H|].
      intro H'. apply E. right. apply filter_In. split; [exact H'|]. apply negb_true_iff. apply lmem_false. exact H.
  Qed.

  Lemma merge_words_eq a b : ok a -> ok b ->
    merge_words a b = let d := plus (p_words a) (p_words b) in
      let d1 := if grows a b then filter (fun kv => negb (is_stop a b (fst kv))) d else d in
      if Bool.eqb (p_case a) (p_case b) then d1 else lower_words d1.
  Proof.
    intros [Na Pa] [Nb Pb]. unfold merge_words. cbn zeta. rewrite <- grows_length. destruct (_ =? _); cbn [negb]; [reflexivity|].
    rewrite (fold_del_keys (fun w => lmem (union_stop (p_stop a) (p_stop b)) (lower w))) by (apply nodup_plus; assumption).
    assert (filter (fun kv : text * nat => negb (lmem (union_stop (p_stop a) (p_stop b)) (lower (fst kv)))) (plus (p_words a) (p_words b)) =
            filter (fun kv => negb (is_stop a b (fst kv))) (plus (p_words a) (p_words b))) as -> by (apply filter_ext; intros [k c]; rewrite union_mem; reflexivity).
    reflexivity.
  Qed.

  (** The count of a word in a merged profile is the sum of its counts, except that stop words are
      removed if the second profile has stop words unknown to the first one.  Words are put in lower case if
      the profiles differ in case sensitivity. *)
  Theorem C29_counts ha hb w : let a := run ha in let b := run hb in
    p_words_on a = true -> p_words_on b = true ->
    count (p_words (run (HAdd ha hb))) w =
    if grows a b && is_stop a b w then 0
    else if Bool.eqb (p_case a) (p_case b) then count (p_words a) w + count (p_words b) w
    else if PyDict.eqb (lower w) w
    then total (fun w' => PyDict.eqb (lower w') w) (p_words a) + total (fun w' => PyDict.eqb (lower w') w) (p_words b)
    else 0.
  Proof.
    cbn zeta. intros Ha Hb. cbn [TextModel.run]. unfold merge at 1. cbn [p_words]. rewrite Ha, Hb. cbn [andb].
    pose proof (run_ok default_stop ha) as Oa. pose proof (run_ok default_stop hb) as Ob. rewrite merge_words_eq by assumption. cbn zeta.
    destruct Oa as [Na Pa], Ob as [Nb Pb]. set (a := run ha) in *. set (b := run hb) in *. clearbody a b. destruct (Bool.eqb (p_case a) (p_case b)).
    - destruct (grows a b); cbn [andb]; [rewrite (count_filter (fun w => negb (is_stop a b w))); destruct (is_stop a b w); cbn [negb]; [reflexivity|]|]; apply plus_count; assumption.
    - assert (NoDup (dkeys (if grows a b then filter (fun kv => negb (is_stop a b (fst kv))) (plus (p_words a) (p_words b)) else plus (p_words a) (p_words b)))) as N1.
      { destruct (grows a b); [rewrite (dkeys_filter (fun w => negb (is_stop a b w))); apply NoDup_filter|]; apply nodup_plus; assumption. }
      rewrite lower_words_count by exact N1. destruct (PyDict.eqb_spec (lower w) w) as [E|N]; [|destruct (_ && _); reflexivity].
      destruct (grows a b); cbn [andb]; [|apply total_plus; assumption]. rewrite (total_filter (fun w' => PyDict.eqb (lower w') w) (fun w' => negb (is_stop a b w'))).
      assert (forall w', PyDict.eqb (lower w') w && negb (is_stop a b w') = if is_stop a b w then false else PyDict.eqb (lower w') w) as A.
      { intro w'. destruct (PyDict.eqb_spec (lower w') w) as [E'|]; cbn [andb]; [|destruct (is_stop a b w); reflexivity].
        assert (is_stop a b w' = is_stop a b w) as -> by (unfold is_stop; rewrite E', E; reflexivity). destruct (is_stop a b w); reflexivity. }
      rewrite (total_ext _ _ _ A). destruct (is_stop a b w); [apply total_none; reflexivity|]. exact (total_plus (fun w' => PyDict.eqb (lower w') w) _ _ Pa Pb Na Nb).
  Qed.

  (** Case sensitivity, numbers of reported words and characters, and stop words of a merged profile *)
  Theorem C29_settings ha hb : let a := run ha in let b := run hb in let m := run (HAdd ha hb) in
    (p_case m = true <-> p_case a = true /\ p_case b = true) /\
    (p_words_on m = true <-> p_words_on a = true /\ p_words_on b = true) /\
    (p_words_on m = true -> forall s, In s (p_stop m) <-> In s (p_stop a) \/ In s (p_stop b)) /\
    (forall k, p_top_words m = Some k <-> exists i j, p_top_words a = Some (S i) /\ p_top_words b = Some (S j) /\ k = Nat.max (S i) (S j)) /\
    (forall k, p_top_chars m = Some k <-> exists i j, p_top_chars a = Some (S i) /\ p_top_chars b = Some (S j) /\ k = Nat.max (S i) (S j)).
  Proof.
    cbn zeta. cbn [TextModel.run]. unfold merge. cbn [p_case p_words_on p_stop p_top_words p_top_chars]. rewrite !andb_true_iff. split; [reflexivity|]. split; [reflexivity|].
    assert (forall x y k, merge_top x y = Some k <-> exists i j, x = Some (S i) /\ y = Some (S j) /\ k = Nat.max (S i) (S j)) as T.
    { intros x y k. unfold merge_top. split.
      - destruct x as [[|i]|]; try discriminate. destruct y as [[|j]|]; try discriminate. intro H. injection H as <-. exists i, j. auto.
      - intros (i & j & -> & -> & ->). reflexivity. }
    split; [|split; intro k; apply T]. intros [H1 H2] s. rewrite H1, H2. cbn [andb]. unfold union_stop. rewrite in_app_iff, filter_In, negb_true_iff, lmem_false.
    destruct (lmem (p_stop (run ha)) s) eqn:E; [apply lmem_In in E; tauto|apply lmem_false in E; tauto].
  Qed.

  (** No merge of the history has a first profile whose stop words include all those of the second one and more. *)
  Fixpoint balanced (h : hist) : Prop :=
    match h with
    | HNew _ => True
    | HUpd h _ => balanced h
    | HAdd h1 h2 => balanced h1 /\ balanced h2 /\ p_words_on (run h1) = true /\ p_words_on (run h2) = true /\
        ((forall s, In s (p_stop (run h2)) -> In s (p_stop (run h1))) -> forall s, In s (p_stop (run h1)) -> In s (p_stop (run h2)))
    end.

  Lemma grows_spec a b : grows a b = false <-> (forall s, In s (p_stop b) -> In s (p_stop a)).
  Proof.
    unfold grows. split.
    - intros H s Hs. apply lmem_In. destruct (lmem (p_stop a) s) eqn:E; [reflexivity|]. assert (existsb (fun s => negb (lmem (p_stop a) s)) (p_stop b) = true); [|congruence].
      apply existsb_exists. exists s. rewrite E. auto.
    - intro H. destruct (existsb _ _) eqn:E; [|reflexivity]. apply existsb_exists in E. destruct E as (s & Hs & Hn). apply H in Hs. apply lmem_In in Hs. rewrite Hs in Hn. discriminate.
  Qed.

  (** Then no reported word is (in lower case) a stop word of the profile. *)
  Theorem C29_no_stop_words h w : balanced h -> In w (dkeys (p_words (run h))) -> ~ In (lower w) (p_stop (run h)).
  Proof.
    intros Hb Hw. apply count_pos in Hw; [|apply (run_ok default_stop h)]. revert w Hw. induction h as [o|h IH rows|h1 IH1 h2 IH2]; intros w Hw.
    - cbn in Hw. lia.
    - cbn [TextModel.run] in *. unfold update in *. destruct rows as [|r rows]; [apply IH; assumption|]. cbn [p_words p_stop] in *.
      destruct (p_words_on (run h)); [|apply IH; assumption]. rewrite update_words_eq, fold_add in Hw.
      destruct (lmem (p_stop (run h)) (lower w)) eqn:E; [|apply lmem_false; exact E]. exfalso.
      assert (0 < count (p_words (run h)) w -> False) as Hc by (intro H; apply (IH Hb w H); apply lmem_In; exact E).
      assert (filter (fun kv : text * nat => PyDict.eqb (fst kv) w) (filter (fun wc => keep (p_stop (run h)) (fst wc)) (counter (concat (map (tokens (p_case (run h))) (r :: rows))))) = []) as Hz.
      { rewrite filter_filter. clear Hw. induction (counter _) as [|[k c] l IHl]; [reflexivity|]. cbn [filter fst]. destruct (PyDict.eqb_spec k w) as [->|]; [|rewrite andb_false_r; exact IHl].
        unfold keep at 1. rewrite E. cbn [negb]. rewrite andb_false_r. exact IHl. }
      rewrite Hz in Hw. cbn in Hw. apply Hc. lia.
    - cbn [balanced] in Hb. destruct Hb as (B1 & B2 & O1 & O2 & Hs). rewrite (C29_counts h1 h2 w O1 O2) in Hw.
      destruct (C29_settings h1 h2) as (_ & Hon & Hst & _). cbn zeta in *. intro Hi. apply (Hst (proj2 Hon (conj O1 O2))) in Hi.
      set (a := run h1) in *. set (b := run h2) in *. assert (is_stop a b w = true) as Ei.
      { unfold is_stop. apply orb_true_iff. destruct Hi as [Hi|Hi]; [left|right]; apply lmem_In; exact Hi. }
      rewrite Ei, andb_true_r in Hw. destruct (grows a b) eqn:Eg; [lia|]. rewrite grows_spec in Eg. specialize (Hs Eg).
      assert (forall x, lower x = lower w -> count (p_words a) x = 0 /\ count (p_words b) x = 0) as Z.
      { intros x Ex. split.
        - destruct (Nat.eq_dec (count (p_words a) x) 0) as [|N]; [assumption|]. exfalso. apply (IH1 B1 x); [lia|]. rewrite Ex. destruct Hi as [Hi|Hi]; [exact Hi|apply Eg; exact Hi].
        - destruct (Nat.eq_dec (count (p_words b) x) 0) as [|N]; [assumption|]. exfalso. apply (IH2 B2 x); [lia|]. rewrite Ex. destruct Hi as [Hi|Hi]; [apply Hs; exact Hi|exact Hi]. }
      destruct (Bool.eqb (p_case a) (p_case b)); [destruct (Z w eq_refl); lia|]. destruct (PyDict.eqb_spec (lower w) w) as [E|]; [|lia].
      assert (forall d, NoDup (dkeys d) -> (forall x, lower x = lower w -> count d x = 0) -> total (fun w' => PyDict.eqb (lower w') w) d = 0) as T.
      { intros d Hn Hd. unfold total. assert (forall l : dict text nat, incl l d -> list_sum (map snd (filter (fun kv => PyDict.eqb (lower (fst kv)) w) l)) = 0) as A; [|apply A, incl_refl].
        induction l as [|[x c] l IHl]; intro Hl; [reflexivity|]. cbn [filter fst]. assert (incl l d) as Hl' by (intros y Hy; apply Hl; right; exact Hy).
        destruct (PyDict.eqb_spec (lower x) w) as [Ex|]; [|apply IHl; exact Hl']. cbn [map snd]. change (list_sum (c :: ?m)) with (c + list_sum m). rewrite (IHl Hl').
        rewrite <- (count_In d x c Hn (Hl (x, c) (or_introl eq_refl))), Hd by congruence. reflexivity. }
      rewrite (T (p_words a)), (T (p_words b)) in Hw; [lia|apply (run_ok default_stop h2)|intros x Hx; apply Z; exact Hx|apply (run_ok default_stop h1)|intros x Hx; apply Z; exact Hx].
  Qed.

  (** Merging in the other order gives the same counts, unless the stop words of one profile include all
      those of the other one and more. *)
  Theorem C29_commutative ha hb w : let a := run ha in let b := run hb in
    p_words_on a = true -> p_words_on b = true ->
    ((forall s, In s (p_stop b) -> In s (p_stop a)) <-> (forall s, In s (p_stop a) -> In s (p_stop b))) ->
    count (p_words (run (HAdd ha hb))) w = count (p_words (run (HAdd hb ha))) w.
  Proof.
    cbn zeta. intros Ha Hb Hs. rewrite (C29_counts ha hb w Ha Hb), (C29_counts hb ha w Hb Ha). set (a := run ha) in *. set (b := run hb) in *.
    assert (grows a b = grows b a) as ->.
    { pose proof (grows_spec a b) as G1. pose proof (grows_spec b a) as G2. destruct (grows a b), (grows b a); try reflexivity; exfalso.
      - assert (true = false) by (apply G1, Hs, G2; reflexivity). discriminate.
      - assert (true = false) by (apply G2, Hs, G1; reflexivity). discriminate. }
    assert (is_stop a b w = is_stop b a w) as -> by (unfold is_stop; apply orb_comm).
    assert (Bool.eqb (p_case a) (p_case b) = Bool.eqb (p_case b) (p_case a)) as -> by (destruct (p_case a), (p_case b); reflexivity).
    destruct (_ && _); [reflexivity|]. destruct (Bool.eqb _ _); [lia|]. destruct (PyDict.eqb _ _); [lia|reflexivity].
  Qed.

  (** Merging profiles that differ in case sensitivity yields words in lower case only. *)
  Theorem C29_lower_case ha hb w : p_words_on (run ha) = true -> p_words_on (run hb) = true -> p_case (run ha) <> p_case (run hb) ->
    In w (dkeys (p_words (run (HAdd ha hb)))) -> lower w = w.
  Proof.
    intros Ha Hb Hc Hw. apply count_pos in Hw; [|apply (run_ok default_stop (HAdd ha hb))]. rewrite (C29_counts ha hb w Ha Hb) in Hw.
    destruct (_ && _); [lia|]. destruct (Bool.eqb _ _) eqn:E; [apply eqb_prop in E; congruence|]. destruct (PyDict.eqb_spec (lower w) w) as [E'|]; [exact E'|lia].
  Qed.
End Profiles.

Local Open Scope string_scope.
Local Open Scope nat_scope.
Notation t s := (String.list_ascii_of_string s).
Definition plain (cs : bool) (stop : list string) : options := mkOptions true true cs (Some (map String.list_ascii_of_string stop)) None None.

Example C28_words_example : words (String.list_ascii_of_string "It's ""here"", here!") = map String.list_ascii_of_string ["It's"; "here"; "here"].
Proof. reflexivity. Qed.

Example C28_example :
  p_words (run [] (HAdd (HUpd (HNew (plain false ["the"])) [t "The cat, the dog."]) (HUpd (HNew (plain false ["the"])) [t "A Cat!"]))) =
    [(t "cat", 2); (t "dog", 1); (t "a", 1)].
Proof. vm_compute. reflexivity. Qed.

Example C29_example :
  p_words (run [] (HAdd (HUpd (HNew (plain true ["the"])) [t "The cat, a Dog."]) (HUpd (HNew (plain false ["a"])) [t "The Cat!"]))) =
    [(t "cat", 2); (t "dog", 1)].
Proof. vm_compute. reflexivity. Qed.

(** A user expects a word given as a stop word not to be counted.  A stop word with a capital letter has no effect. *)
Theorem C28_given_stop_words_refuted :
  ~ (forall default cs l rows w, In w l -> ~ In w (dkeys (p_words (run default (HUpd (HNew (mkOptions true true cs (Some l) None None)) rows))))).
Proof. intro H. apply (H [] true [t "NASA"] [t "NASA"] (t "NASA")); [left; reflexivity|]. vm_compute. left. reflexivity. Qed.

(** A user expects a merged profile not to report its stop words.  If the first profile has all stop words of
    the second one and more, then words of the second one that are stop words are reported. *)
Theorem C29_no_stop_words_refuted :
  ~ (forall default ha hb w, p_words_on (run default ha) = true -> p_words_on (run default hb) = true ->
       In w (dkeys (p_words (run default (HAdd ha hb)))) -> ~ In (lower w) (p_stop (run default (HAdd ha hb)))).
Proof.
  intro H. apply (H [] (HNew (plain true ["the"])) (HUpd (HNew (plain true [])) [t "the"]) (t "the")); vm_compute; auto.
Qed.

(** A user expects the result of merging not to depend on the order of the profiles. *)
Theorem C29_commutative_refuted :
  ~ (forall default ha hb w, p_words_on (run default ha) = true -> p_words_on (run default hb) = true ->
       count (p_words (run default (HAdd ha hb))) w = count (p_words (run default (HAdd hb ha))) w).
Proof.
  intro H. specialize (H [] (HNew (plain true ["the"])) (HUpd (HNew (plain true [])) [t "the"]) (t "the") eq_refl eq_refl). vm_compute in H. discriminate.
Qed.

Print Assumptions C28_split.
Print Assumptions C28_strip.
Print Assumptions C28_characters.
Print Assumptions C28_words.
Print Assumptions C28_most_common.
Print Assumptions C29_counts.
Print Assumptions C29_settings.
Print Assumptions C29_no_stop_words.
Print Assumptions C29_commutative.
Print Assumptions C29_lower_case.
