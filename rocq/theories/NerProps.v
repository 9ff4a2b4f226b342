(** C30: entity spans are exactly the maximal labelled runs.  C50: word-level relabelling. *)
From Coq Require Import QArith.
From Verif Require Import PyCommon PyDict ListFacts RowModel RowProofs NerModel NerProofs NerProofs2.
Local Open Scope nat_scope.

Section C30.
  Context {N : Type} {EN : EqDecB N}.
  Variables (m : dict N nat) (default pad : N) (bg p : nat).
  Hypothesis Hkeys : NoDup (dkeys m).
  Hypothesis Hbg : dget m default = Some bg.
  Hypothesis Hpad : dget m pad = Some p.

  Lemma fold_samples preds :
    match convert_to_ner m default pad preds with
    | Ok outs => Forall2 (fun s o => spans (reverse m) p bg s 0 o) preds outs
    | Err x => x = KeyError /\ exists s v, In s preds /\ In v s /\ v <> p /\ v <> bg /\ ~ In v (dvals m)
    end.
  Proof.
    unfold convert_to_ner. rewrite Hbg, Hpad. induction preds as [|s preds IH]; cbn [fold_right]; [constructor|].
    pose proof (ner_sample_spec (reverse m) p bg s) as H. destruct (ner_sample (reverse m) p bg s) as [o|x]; cbn [bind].
    - destruct (fold_right _ _ preds) as [outs|x]; cbn [bind].
      + constructor; assumption.
      + destruct IH as (E & s' & v & Hi & R). split; [exact E|]. exists s', v. split; [right; exact Hi|exact R].
    - destruct H as (E & k & v & Hv & [H1 H2] & H3). split; [exact E|]. exists s, v. split; [left; reflexivity|].
      split; [apply (nth_error_In _ _ Hv)|]. split; [exact H1|]. split; [exact H2|]. apply reverse_total. exact H3.
  Qed.

  (** Every span is a maximal run of one label that is neither pad nor background, under the name of that
      label; every character with such a label is in a span; spans are listed in order and do not
      overlap. *)
  Theorem C30_spans preds outs : convert_to_ner m default pad preds = Ok outs ->
    Forall2 (fun s out =>
      (forall b e n, In (b, e, n) out ->
         exists v, dget m n = Some v /\ v <> p /\ v <> bg /\ b < e <= length s /\
           (forall i, b <= i < e -> nth_error s i = Some v) /\
           (0 < b -> nth_error s (b - 1) <> Some v) /\ nth_error s e <> Some v) /\
      (forall i v, nth_error s i = Some v -> v <> p -> v <> bg -> exists b e n, In (b, e, n) out /\ b <= i < e) /\
      (forall pre b e n b' e' n' post, out = pre ++ (b, e, n) :: (b', e', n') :: post -> e <= b' /\ (e = b' -> n <> n')))
      preds outs.
  Proof.
    intro E. pose proof (fold_samples preds) as H. rewrite E in H. clear E.
    induction H as [|s out preds outs Sp _ IH]; constructor; [|exact IH].
    destruct (spans_entities _ _ _ _ _ _ Sp) as [S1 S2]. split; [|split].
    - intros b e n Hi. destruct (S1 b e n Hi) as (v & _ & (R1 & R2 & R3 & R4) & [V1 V2] & G). exists v.
      split; [apply dget_In; [exact Hkeys|apply reverse_spec; exact G]|]. repeat split; auto; lia.
    - intros i v Hv V1 V2. apply (S2 i v); [lia|exact Hv|split; assumption].
    - intros pre b e n b' e' n' post Eo. split; [apply (spans_ordered _ _ _ _ _ _ Sp _ _ _ _ _ _ _ _ Eo)|].
      intros -> Hn. subst n'.
      destruct (S1 b b' n) as (v & _ & (R1 & R2 & R3 & R4) & _ & G1); [rewrite Eo; apply in_or_app; right; left; reflexivity|].
      destruct (S1 b' e' n) as (v' & _ & (R1' & R2' & R3' & R4') & _ & G2); [rewrite Eo; apply in_or_app; right; right; left; reflexivity|].
      apply reverse_spec in G1, G2. apply (dget_In _ _ _ Hkeys) in G1, G2. rewrite G1 in G2. injection G2 as <-.
      apply R4. apply R2'. lia.
  Qed.

  (** The conversion fails only for a label without a name. *)
  Theorem C30_succeeds preds :
    (exists outs, convert_to_ner m default pad preds = Ok outs) <->
    (forall s v, In s preds -> In v s -> v <> p -> v <> bg -> exists n, dget m n = Some v).
  Proof.
    pose proof (fold_samples preds) as H. destruct (convert_to_ner m default pad preds) as [outs|x].
    - split; [|intros _; exists outs; reflexivity]. intros _ s v Hs Hv V1 V2.
      apply In_nth_error in Hs. destruct Hs as [k Hk].
      assert (Ho : exists o, spans (reverse m) p bg s 0 o).
      { clear Hv. revert k Hk. induction H as [|s0 o preds outs Sp _ IH]; intros k Hk; [destruct k; discriminate|].
        destruct k as [|k]; [injection Hk as <-; exists o; exact Sp|apply (IH k Hk)]. }
      destruct Ho as (o & Sp). apply In_nth_error in Hv. destruct Hv as [i Hi].
      destruct (spans_entities _ _ _ _ _ _ Sp) as [S1 S2]. destruct (S2 i v) as (b & e & n & Hin & Hbe); [lia|exact Hi|split; assumption|].
      destruct (S1 b e n Hin) as (w & _ & (_ & R2 & _) & _ & G). rewrite (R2 i Hbe) in Hi. injection Hi as ->.
      exists n. apply dget_In; [exact Hkeys|apply reverse_spec; exact G].
    - split; [intros [outs E]; discriminate|]. intro K. exfalso. destruct H as (_ & s & v & Hs & Hv & V1 & V2 & Nv).
      destruct (K s v Hs Hv V1 V2) as [n G]. apply Nv. apply dget_Some_In in G. apply (in_map snd) in G. exact G.
  Qed.
End C30.

Example C30_example :
  convert_to_ner [(10, 0); (11, 1); (12, 2); (13, 3)] 11 10 [[1; 2; 2; 3; 1; 3]; [0; 0]; [2]]
  = Ok [[(1, 3, 12); (3, 4, 13); (5, 6, 13)]; []; [(0, 1, 12)]].
Proof. vm_compute. reflexivity. Qed.

(** * C50 *)
Section C50.
  Context {C : Type}.
  Variable is_sep : C -> bool.
  Variable bg : nat.
  Variable pct : Q.
  Variable text : list C.
  Variable preds : list nat.
  Hypothesis Hlen : length preds = length text.
  Notation out := (word_level is_sep bg pct text preds).

  (** As many labels as characters. *)
  Theorem C50_length : length out = length text.
  Proof. apply (r_len _ _ _ _ _ _ (word_level_ok is_sep bg pct text preds Hlen)). Qed.

  (** Every word that is followed by a separator gets one label: the most frequent of the labels that
      occur at least twice and with at least the required share, or the background label. *)
  Theorem C50_words b e : word is_sep text b e -> sep_at is_sep text e ->
    exists l, dominant bg pct (slice preds b e) l /\ forall i, b <= i < e -> nth_error out i = Some l.
  Proof. apply (r_word _ _ _ _ _ _ (word_level_ok is_sep bg pct text preds Hlen)). Qed.

  (** A separator keeps its label or becomes background. *)
  Theorem C50_separators j : sep_at is_sep text j ->
    nth_error out j = nth_error preds j \/ nth_error out j = Some bg.
  Proof. apply (r_sep _ _ _ _ _ _ (word_level_ok is_sep bg pct text preds Hlen)). Qed.

  (** The last word, when the text does not end in a separator: all characters but the last get the
      word's label. *)
  Theorem C50_last_word b : 0 < b < length text -> word is_sep text b (length text) ->
    (exists l, dominant bg pct (slice preds b (length text)) l /\
       forall i, b <= i < length text - 1 -> nth_error out i = Some l) /\
    (nth_error out (length text - 1) = nth_error preds (length text - 1) \/ nth_error out (length text - 1) = Some bg).
  Proof. apply (r_last _ _ _ _ _ _ (word_level_ok is_sep bg pct text preds Hlen)). Qed.

  (** A text of one word is not relabelled. *)
  Theorem C50_one_word : (forall i, ~ sep_at is_sep text i) -> out = preds.
  Proof.
    intro H. apply (r_one _ _ _ _ _ _ (word_level_ok is_sep bg pct text preds Hlen)).
    split; [lia|]. split; [left; reflexivity|]. intros i _. apply H.
  Qed.
End C50.

(** Words end at character 0; label 1 is the background. *)
Example C50_example :
  word_level (Nat.eqb 0) 1 (1#2) [5; 6; 7; 0; 5; 0; 8; 8; 8] [2; 2; 3; 1; 2; 2; 1; 4; 4]
  = [2; 2; 2; 1; 1; 1; 4; 4; 4].
Proof. vm_compute. reflexivity. Qed.

(** The last character of a text is left out when its word is relabelled. *)
Theorem C50_last_character_refuted :
  ~ forall (text preds : list nat) b l, length preds = length text -> b < length text ->
      word (Nat.eqb 0) text b (length text) -> dominant 1 (3#4) (slice preds b (length text)) l ->
      forall i, b <= i < length text -> nth_error (word_level (Nat.eqb 0) 1 (3#4) text preds) i = Some l.
Proof.
  intro H. specialize (H [5; 0; 5; 5; 5; 5] [1; 1; 2; 2; 2; 3] 2 2 eq_refl).
  assert (K : nth_error (word_level (Nat.eqb 0) 1 (3 # 4) [5; 0; 5; 5; 5; 5] [1; 1; 2; 2; 2; 3]) 5 = Some 2).
  { apply H.
    - cbn. lia.
    - split; [cbn; lia|]. split; [right; exists 0; split; reflexivity|]. intros i Hi (c & E & S). cbn in Hi.
      assert (i = 2 \/ i = 3 \/ i = 4 \/ i = 5) as [->|[->|[->| ->]]] by lia; cbn in E; injection E as <-; discriminate.
    - assert (Z : forall l', eligible (3#4) [2; 2; 2; 3] l' -> l' = 2).
      { intros l' [Ho _]. cbn [occ] in Ho.
        destruct (Nat.eq_dec l' 2) as [|N2]; [assumption|].
        replace (eqb 2 l') with false in Ho by (symmetry; apply eqb_neq; congruence). destruct (eqb 3 l'); cbn in Ho; lia. }
      cbn [slice length skipn firstn Nat.sub]. left. split; [split; [vm_compute; lia|vm_compute; discriminate]|]. split.
      + intros l' Hl. rewrite (Z l' Hl). lia.
      + exists [1], [2; 2; 3]. split; [reflexivity|]. intros l' [<-|[]] He. apply Z in He. discriminate.
    - cbn. lia. }
  vm_compute in K. discriminate.
Qed.

(** A word all of whose characters have the same label does not always keep it: a word of one letter
    becomes background. *)
Theorem C50_unanimous_word_refuted :
  ~ forall (text preds : list nat) b e l, length preds = length text ->
      word (Nat.eqb 0) text b e -> sep_at (Nat.eqb 0) text e ->
      (forall i, b <= i < e -> nth_error preds i = Some l) ->
      forall i, b <= i < e -> nth_error (word_level (Nat.eqb 0) 1 (3#4) text preds) i = Some l.
Proof.
  intro H. specialize (H [5; 0] [2; 1] 0 1 2 eq_refl).
  assert (K : nth_error (word_level (Nat.eqb 0) 1 (3 # 4) [5; 0] [2; 1]) 0 = Some 2).
  { apply H.
    - split; [cbn; lia|]. split; [left; reflexivity|]. intros i Hi (c & E & S). replace i with 0 in E by lia. cbn in E. injection E as <-. discriminate.
    - exists 0. split; reflexivity.
    - intros i Hi. replace i with 0 by lia. reflexivity.
    - lia. }
  vm_compute in K. discriminate.
Qed.

Print Assumptions C30_spans.
Print Assumptions C30_succeeds.
Print Assumptions C50_length.
Print Assumptions C50_words.
Print Assumptions C50_separators.
Print Assumptions C50_last_word.
Print Assumptions C50_one_word.
Print Assumptions C50_last_character_refuted.
Print Assumptions C50_unanimous_word_refuted.
