(** C81: labels for columns by their names *)
From Coq Require Import ZArith QArith Lia.
From Verif Require Import PyCommon PyDict PyString ListFacts CmsProps ColNameModel.
Local Open Scope nat_scope.
Local Open Scope string_scope.
Local Open Scope list_scope.

Section Predict.
  Variable score : string -> string -> Q.
  (** How well an entry fits a name; capital letters do not matter *)
  Definition fit (e : entry) (n : string) (q : Q) : Prop := exists a, attribute e = Some a /\ q = score (lower_string n) (lower_string a).
  (** A name is labeled if no false positive reaches the negative threshold and some true positive exceeds the positive one *)
  Definition wanted (s : settings) (n : string) : Prop :=
    (forall e q, In e (false_positives s) -> fit e n q -> (q < negative s)%Q) /\ exists e q, In e (true_positives s) /\ fit e n q /\ (positive s < q)%Q.
  (** ... by the first of the entries that fit best *)
  Definition labeled (s : settings) (n : string) (l : string) (q : Q) : Prop :=
    exists l1 e l2, true_positives s = l1 ++ e :: l2 /\ label e = Some l /\ fit e n q /\
      (forall e' q', In e' l1 -> fit e' n q' -> (q' < q)%Q) /\ (forall e' q', In e' l2 -> fit e' n q' -> (q' <= q)%Q).
  Inductive answers (s : settings) : list string -> list (string * Q) -> Prop :=
  | answers_nil : answers s [] []
  | answers_skip : forall n r p, ~ wanted s n -> answers s r p -> answers s (n :: r) p
  | answers_label : forall n r p l q, wanted s n -> labeled s n l q -> answers s r p -> answers s (n :: r) ((l, q) :: p).
  Definition complete (l : list entry) : Prop := forall e, In e l -> attribute e <> None /\ label e <> None.

  Lemma Qle_bool_false : forall a b, Qle_bool a b = false <-> (b < a)%Q.
  Proof.
    intros a b. split.
    - intros H. destruct (Qlt_le_dec b a) as [X|X]; [exact X|]. apply Qle_bool_iff in X. congruence.
    - intros H. destruct (Qle_bool a b) eqn:E; [|reflexivity]. apply Qle_bool_iff in E. exfalso. apply (Qlt_not_le _ _ H E).
  Qed.
  Lemma best_spec : forall l i b, exists j q, best i b l = (j, q) /\
    (forall k x, nth_error l k = Some x -> (x <= q)%Q) /\ (snd b <= q)%Q /\
    ((j, q) = b /\ (forall x, In x l -> (x <= q)%Q) \/ exists k, nth_error l k = Some q /\ j = i + k /\ (snd b < q)%Q /\ forall k' x, k' < k -> nth_error l k' = Some x -> (x < q)%Q).
  Proof.
    induction l as [|x l IH]; intros i b; cbn [best].
    - exists (fst b), (snd b). destruct b. split; [reflexivity|]. split; [intros [|k] x H; discriminate|]. split; [apply Qle_refl|]. left. split; [reflexivity|intros x []].
    - destruct (Qle_bool x (snd b)) eqn:E.
      + apply Qle_bool_iff in E. destruct (IH (i + 1) b) as (j & q & -> & H1 & H2 & H3). exists j, q. split; [reflexivity|].
        split; [intros [|k] y H; [cbn in H; injection H as <-; eapply Qle_trans; eauto|apply (H1 k y H)]|]. split; [exact H2|].
        destruct H3 as [(Eb & H3) | (k & K1 & K2 & K3 & K4)].
        * left. split; [exact Eb|]. intros y [<- | I]; [eapply Qle_trans; eauto|apply H3, I].
        * right. exists (S k). split; [exact K1|]. split; [lia|]. split; [exact K3|]. intros [|k'] y L H; [cbn in H; injection H as <-; eapply Qle_lt_trans; eauto|apply (K4 k' y); [lia|exact H]].
      + apply Qle_bool_false in E. destruct (IH (i + 1) (i, x)) as (j & q & -> & H1 & H2 & H3). cbn [snd] in *. exists j, q. split; [reflexivity|].
        split; [intros [|k] y H; [cbn in H; injection H as <-; exact H2|apply (H1 k y H)]|]. split; [apply Qlt_le_weak; eapply Qlt_le_trans; eauto|]. right.
        destruct H3 as [(Eb & H3) | (k & K1 & K2 & K3 & K4)].
        * injection Eb as -> ->. exists 0. split; [reflexivity|]. split; [lia|]. split; [exact E|]. intros k' y L; lia.
        * exists (S k). split; [exact K1|]. split; [lia|]. split; [eapply Qlt_trans; eauto|]. intros [|k'] y L H; [cbn in H; injection H as <-; exact K3|apply (K4 k' y); [lia|exact H]].
  Qed.
  Lemma max_of_spec : forall l, l <> [] -> exists j q, max_of l = Ok (j, q) /\ nth_error l j = Some q /\ (forall x, In x l -> (x <= q)%Q) /\
    forall k x, k < j -> nth_error l k = Some x -> (x < q)%Q.
  Proof.
    intros [|x l] N; [congruence|]. cbn [max_of]. destruct (best_spec l 1 (0, x)) as (j & q & E & H1 & H2 & H3). cbn [snd] in *. rewrite E. exists j, q. split; [reflexivity|].
    assert (A : forall y, In y (x :: l) -> (y <= q)%Q) by (intros y [<- | I]; [exact H2|apply In_nth_error in I; destruct I as (k & I); apply (H1 k y I)]).
    destruct H3 as [(Eb & _) | (k & K1 & -> & K3 & K4)].
    - injection Eb as -> ->. split; [reflexivity|]. split; [exact A|]. intros k y L; lia.
    - split; [exact K1|]. split; [exact A|]. intros [|k'] y L H; [cbn in H; injection H as <-; exact K3|]. apply (K4 k' y); [lia|exact H].
  Qed.
  Lemma attributes_spec : forall es, (forall e, In e es -> attribute e <> None) -> exists l, attributes es = Ok l /\ map Some l = map attribute es.
  Proof.
    induction es as [|e es IH]; intros H; cbn; [exists []; auto|]. destruct (attribute e) as [a|] eqn:E; [|exfalso; apply (H e (or_introl eq_refl) E)].
    destruct IH as (l & -> & M); [intros e' I; apply H; right; exact I|]. exists (a :: l). cbn. rewrite M. auto.
  Qed.
  (** One name *)
  Lemma one : forall es l n, map Some l = map attribute es -> es <> [] -> exists j q l1 e l2, max_of (row_of score n l) = Ok (j, q) /\ es = l1 ++ e :: l2 /\ j = length l1 /\
    nth_error es j = Some e /\ fit e n q /\ (forall e' q', In e' es -> fit e' n q' -> (q' <= q)%Q) /\ (forall e' q', In e' l1 -> fit e' n q' -> (q' < q)%Q).
  Proof.
    intros es l n M NE. assert (L : length l = length es) by (rewrite <- (map_length Some), M, map_length; reflexivity).
    destruct (max_of_spec (row_of score n l)) as (j & q & E & N & A & B).
    { intros X. apply (f_equal (@length Q)) in X. unfold row_of in X. rewrite map_length, L in X. destruct es; [congruence|discriminate]. }
    assert (R : forall k e a, nth_error es k = Some e -> attribute e = Some a -> nth_error l k = Some a).
    { intros k e a H1 H2. assert (X : nth_error (map Some l) k = Some (Some a)) by (rewrite M, nth_error_map, H1; cbn; congruence).
      rewrite nth_error_map in X. destruct (nth_error l k); [cbn in X; congruence|discriminate]. }
    assert (Lj : j < length es).
    { assert (X : j < length (row_of score n l)) by (apply nth_error_Some; congruence). unfold row_of in X. rewrite map_length in X. lia. }
    destruct (nth_error es j) as [e|] eqn:Ee; [|apply nth_error_None in Ee; lia].
    destruct (nth_error_split es j Ee) as (l1 & l2 & Es & Lj1). exists j, q, l1, e, l2. split; [exact E|]. split; [exact Es|]. split; [congruence|]. split; [exact Ee|].
    split; [|split].
    - unfold row_of in N. rewrite nth_error_map in N. destruct (nth_error l j) as [a|] eqn:La; [|discriminate]. cbn in N. injection N as N. exists a. split; [|congruence].
      assert (X : nth_error (map attribute es) j = Some (Some a)) by (rewrite <- M, nth_error_map, La; reflexivity). rewrite nth_error_map, Ee in X. cbn in X. congruence.
    - intros e' q' I (a & Ha & ->). apply In_nth_error in I. destruct I as (k & I). apply A. unfold row_of. apply in_map_iff. exists a. split; [reflexivity|].
      eapply nth_error_In. apply (R k e' a I Ha).
    - intros e' q' I (a & Ha & ->). apply In_nth_error in I. destruct I as (k & I).
      assert (Lk : k < length l1) by (apply nth_error_Some; congruence).
      assert (I' : nth_error es k = Some e') by (rewrite Es, nth_error_app1 by exact Lk; exact I).
      apply (B k); [lia|]. unfold row_of. rewrite nth_error_map, (R k e' a I' Ha). reflexivity.
  Qed.

  Lemma outputs_ok : forall l names, l <> [] -> exists out, outputs score names l = Ok out /\ length out = length names /\
    Forall2 (fun n o => max_of (row_of score n l) = Ok o) names out.
  Proof.
    intros l. induction names as [|n names IH]; intros NE; cbn [outputs]; [exists []; repeat split; constructor|].
    destruct (max_of_spec (row_of score n l)) as (j & q & E & _); [intros X; apply NE; unfold row_of in X; destruct l; [reflexivity|discriminate]|].
    rewrite E. cbn [bind]. destruct IH as (out & -> & Lo & F); [exact NE|]. cbn [bind]. exists ((j, q) :: out). split; [reflexivity|]. split; [cbn; congruence|]. constructor; assumption.
  Qed.
  Lemma positive_spec : forall s l data out, map Some l = map attribute (true_positives s) -> true_positives s <> [] -> complete (true_positives s) -> include_label s = true ->
    Forall2 (fun n o => max_of (row_of score n l) = Ok o) data out ->
    exists p, choose (include_label s) (positive s) (true_positives s) out = Ok p /\
      (forall names, (exists keep, data = filter keep names /\ forall n, In n names -> (keep n = true <-> forall e q, In e (false_positives s) -> fit e n q -> (q < negative s)%Q)) ->
        answers s names p).
  Proof.
    intros s l data out M NE CP IL F. rewrite IL. induction F as [|n o data out Ho F IH]; cbn [choose].
    - exists []. split; [reflexivity|]. intros names (keep & E & K). revert E. induction names as [|m names IHn]; intros E; [constructor|]. cbn in E.
      destruct (keep m) eqn:Km; [discriminate|]. apply answers_skip; [intros (W & _); apply K in W; [congruence|left; reflexivity]|].
      apply IHn; [intros x I; apply K; right; exact I|exact E].
    - destruct IH as (p & Ep & Hp). destruct (one _ _ n M NE) as (j & q & l1 & e & l2 & E1 & Es & Lj & Nj & Fe & A & B). rewrite E1 in Ho. injection Ho as <-.
      destruct (CP e) as (_ & Le); [rewrite Es; apply in_or_app; right; left; reflexivity|]. destruct (label e) as [lb|] eqn:El; [|congruence].
      assert (SKIP : forall m names, ~ (forall e q, In e (false_positives s) -> fit e m q -> (q < negative s)%Q) -> forall p, answers s names p -> answers s (m :: names) p).
      { intros m names W p' H. apply answers_skip; [intros (X & _); contradiction|exact H]. }
      destruct (Qle_bool q (positive s)) eqn:T.
      + exists p. split; [exact Ep|]. intros names (keep & E & K). revert E. induction names as [|m names IHn]; intros E; [discriminate|]. cbn in E.
        destruct (keep m) eqn:Km.
        * injection E as <- E. apply answers_skip; [|apply Hp; exists keep; split; [exact E|intros x I; apply K; right; exact I]].
          intros (_ & e' & q' & Ie & Fe' & Lt). apply Qle_bool_iff in T. apply (Qlt_not_le _ _ Lt). eapply Qle_trans; [apply (A e' q' Ie Fe')|exact T].
        * apply SKIP; [intros W; apply K in W; [congruence|left; reflexivity]|]. apply IHn; [intros x I; apply K; right; exact I|exact E].
      + cbn [negb]. rewrite Nj, El, Ep. cbn [bind]. exists ((lb, q) :: p). split; [reflexivity|]. apply Qle_bool_false in T.
        intros names (keep & E & K). revert E. induction names as [|m names IHn]; intros E; [discriminate|]. cbn in E.
        destruct (keep m) eqn:Km.
        * injection E as <- E. apply answers_label.
          -- split; [apply K; [left; reflexivity|exact Km]|]. exists e, q. split; [rewrite Es; apply in_or_app; right; left; reflexivity|]. split; assumption.
          -- exists l1, e, l2. split; [exact Es|]. split; [exact El|]. split; [exact Fe|]. split; [exact B|]. intros e' q' I H. apply (A e' q'); [rewrite Es; apply in_or_app; right; right; exact I|exact H].
          -- apply Hp. exists keep. split; [exact E|intros x I; apply K; right; exact I].
        * apply SKIP; [intros W; apply K in W; [congruence|left; reflexivity]|]. apply IHn; [intros x I; apply K; right; exact I|exact E].
  Qed.
  Lemma keep_spec : forall t es l names out, map Some l = map attribute es -> es <> [] -> Forall2 (fun n o => max_of (row_of score n l) = Ok o) names out ->
    exists keep, keep_below t names out = filter keep names /\ forall n, In n names -> (keep n = true <-> forall e q, In e es -> fit e n q -> (q < t)%Q).
  Proof.
    intros t es l names out M NE F. exists (fun n => match max_of (row_of score n l) with Ok o => negb (Qle_bool t (snd o)) | Err _ => false end). split.
    - induction F as [|n o names out Ho F IH]; [reflexivity|]. cbn [keep_below filter]. rewrite Ho. rewrite IH. destruct (Qle_bool t (snd o)); reflexivity.
    - intros n _. destruct (one _ _ n M NE) as (j & q & l1 & e & l2 & -> & Es & _ & _ & Fe & A & _). cbn [snd]. rewrite Bool.negb_true_iff, Qle_bool_false. split.
      + intros H e' q' I X. eapply Qle_lt_trans; [apply (A e' q' I X)|exact H].
      + intros H. apply (H e q); [rewrite Es; apply in_or_app; right; left; reflexivity|exact Fe].
  Qed.

  (** The labels, with their scores: for the names to be labeled, in order, the label of the first entry that fits best. *)
  Theorem C81_predict : forall s names, include_label s = true -> true_positives s <> [] -> complete (true_positives s) ->
    (forall e, In e (false_positives s) -> attribute e <> None) -> exists p, predict score s names = Ok p /\ answers s names p.
  Proof.
    intros s names IL NE CT CF. destruct (attributes_spec (true_positives s)) as (l & El & Ml); [intros e I; apply CT, I|].
    assert (NL : l <> []) by (intros ->; destruct (true_positives s); [congruence|discriminate]).
    assert (FIN : forall data, (exists keep, data = filter keep names /\ forall n, In n names -> (keep n = true <-> forall e q, In e (false_positives s) -> fit e n q -> (q < negative s)%Q)) ->
      exists p, bind (model score data (true_positives s)) (fun out => choose (include_label s) (positive s) (true_positives s) out) = Ok p /\ answers s names p).
    { intros data K. unfold model. rewrite El. cbn [bind]. destruct (outputs_ok l data NL) as (out & -> & _ & F). cbn [bind].
      destruct (positive_spec s l data out Ml NE CT IL F) as (p & -> & H). exists p. split; [reflexivity|]. apply H, K. }
    unfold predict. destruct (false_positives s) as [|e0 fp] eqn:EF.
    - cbn [bind]. apply FIN. exists (fun _ => true). split; [clear; induction names as [|n r IH]; [reflexivity|cbn; congruence]|]. intros n _. rewrite ?EF. split; [intros _ e q []|reflexivity].
    - rewrite <- EF in *. destruct (attributes_spec (false_positives s) CF) as (lf & E2 & M2). unfold model at 1. rewrite E2. cbn [bind].
      assert (NF : false_positives s <> []) by (rewrite EF; discriminate).
      assert (NLF : lf <> []) by (intros ->; rewrite EF in M2; discriminate).
      destruct (outputs_ok lf names NLF) as (out & -> & _ & F). cbn [bind]. apply FIN. apply (keep_spec _ _ _ _ _ M2 NF F).
  Qed.
  (** There is one such answer, and it is at most as long as the list of names. *)
  Theorem C81_answers : forall s names p, answers s names p -> length p <= length names /\ (length p = length names <-> forall n, In n names -> wanted s n).
  Proof.
    intros s names p A. induction A as [|n r p W A (L & I)|n r p l q W B A (L & I)]; cbn.
    - split; [lia|]. split; [intros _ n []|reflexivity].
    - split; [lia|]. split; [lia|]. intros H. exfalso. apply W. apply H. left. reflexivity.
    - split; [lia|]. split; [intros E n' [<- | J]; [exact W|apply I; [lia|exact J]]|]. intros H. f_equal. apply I. intros n' J. apply H. right. exact J.
  Qed.
  (** Capital letters in names do not matter. *)
  Theorem C81_case : forall s names names', map lower_string names = map lower_string names' -> predict score s names = predict score s names'.
  Proof.
    intros s names names' E.
    assert (O : forall l a b, map lower_string a = map lower_string b -> outputs score a l = outputs score b l).
    { intros l. induction a as [|x a IH]; intros [|y b] H; try discriminate; [reflexivity|]. cbn in H. injection H as H1 H2. cbn [outputs]. unfold row_of. rewrite H1, (IH b H2). reflexivity. }
    assert (K : forall t out a b, map lower_string a = map lower_string b -> map lower_string (keep_below t a out) = map lower_string (keep_below t b out)).
    { intros t. induction out as [|o out IH]; intros [|x a] [|y b] H; try discriminate; try reflexivity. cbn in H. injection H as H1 H2. cbn [keep_below].
      destruct (Qle_bool t (snd o)); [apply IH, H2|]. cbn. rewrite H1, (IH _ _ H2). reflexivity. }
    unfold predict, model.
    assert (G : forall d1 d2, (match d1, d2 with Ok a, Ok b => map lower_string a = map lower_string b | Err x, Err y => x = y | _, _ => False end) ->
      bind d1 (fun data => bind (bind (attributes (true_positives s)) (outputs score data)) (fun out => choose (include_label s) (positive s) (true_positives s) out)) =
      bind d2 (fun data => bind (bind (attributes (true_positives s)) (outputs score data)) (fun out => choose (include_label s) (positive s) (true_positives s) out))).
    { intros [a|x] [b|y] H; cbn; try contradiction; [|congruence]. destruct (attributes (true_positives s)) as [l|]; [|reflexivity]. cbn. rewrite (O l a b H). reflexivity. }
    apply G. destruct (false_positives s) as [|e fp]; [exact E|]. destruct (attributes (e :: fp)) as [l|]; [|reflexivity]. cbn [bind]. rewrite (O l names names' E).
    destruct (outputs score names' l) as [out|]; [|reflexivity]. cbn [bind]. apply K, E.
  Qed.
End Predict.

(** Which parameters are accepted *)
Definition whole_or_flag (v : pv) : Prop := (exists z, v = VInt z) \/ exists b, v = VBool b.
Definition plain (v : pv) : Prop := (forall l, v <> VList l) /\ forall d, v <> VDict d.
Definition acceptable (labels : list string) (ps : params) : Prop :=
  (exists d r, dget ps "true_positive_dict" = Some (VList (VDict d :: r)) /\ (forall k v, In (k, v) d -> plain v) /\
     ~ ((forall x, In x labels -> exists k, In (k, VStr x) d) /\ exists k v, In (k, v) d /\ forall x, In x labels -> v <> VStr x)) /\
  (forall v, dget ps "false_positive_dict" = Some v -> v = VNone \/ exists d r, v = VList (VDict d :: r) /\ In "attribute" (map fst d)) /\
  (forall v, dget ps "negative_threshold_config" = Some v -> whole_or_flag v \/ dget ps "false_positive_dict" = Some VNone) /\
  (forall v, dget ps "include_label" = Some v -> exists b, v = VBool b) /\
  (forall v, dget ps "positive_threshold_config" = Some v -> whole_or_flag v) /\
  (forall k, In k (dkeys ps) -> In k ["false_positive_dict"; "include_label"; "negative_threshold_config"; "positive_threshold_config"; "true_positive_dict"]).

Lemma is_int_spec : forall v, is_int v = true <-> whole_or_flag v.
Proof. intros v. unfold whole_or_flag. destruct v; cbn; split; eauto; try discriminate; intros [(z & E) | (z & E)]; discriminate. Qed.
Lemma any_bad_false : forall ps l, any_bad ps l = Ok false <-> forall k v, In (k, v) l -> bad_param ps k v = Ok false.
Proof.
  intros ps. induction l as [|(k, v) l IH]; cbn [any_bad]; [split; [intros _ k v []|reflexivity]|].
  destruct (bad_param ps k v) as [b|e] eqn:B; cbn [bind].
  - split.
    + intros H. destruct (any_bad ps l) as [c|]; [|discriminate]. cbn in H. injection H as H. apply Bool.orb_false_iff in H. destruct H as (-> & ->).
      intros k' v' [E | I]; [injection E as <- <-; exact B|]. apply (proj1 IH eq_refl k' v' I).
    + intros H. assert (B' := H k v (or_introl eq_refl)). rewrite B in B'. injection B' as ->. rewrite (proj2 IH); [reflexivity|]. intros k' v' I. apply H. right. exact I.
  - split; [discriminate|]. intros H. specialize (H k v (or_introl eq_refl)). congruence.
Qed.
Lemma superset_spec : forall (d : list (string * pv)) labels, strict_superset (map snd d) labels = true <->
  (forall x, In x labels -> exists k, In (k, VStr x) d) /\ exists k v, In (k, v) d /\ forall x, In x labels -> v <> VStr x.
Proof.
  intros d labels. unfold strict_superset. rewrite Bool.andb_true_iff, forallb_forall, existsb_exists.
  assert (T : forall s v, is_text s v = true <-> v = VStr s).
  { intros s v. destruct v; cbn; try (split; discriminate). destruct (String.eqb_spec s s0); split; congruence. }
  split.
  - intros (H1 & v & I & H2). split.
    + intros x Ix. specialize (H1 x Ix). apply existsb_exists in H1. destruct H1 as (w & Iw & Tw). apply T in Tw. subst w. apply in_map_iff in Iw. destruct Iw as ((k, w) & E & Iw). cbn in E. subst w. eauto.
    + apply in_map_iff in I. destruct I as ((k, w) & E & Iw). cbn in E. subst w. exists k, v. split; [exact Iw|]. intros x Ix ->. rewrite Bool.negb_true_iff in H2.
      apply (proj2 (Bool.not_true_iff_false _) H2). apply existsb_exists. exists x. split; [exact Ix|apply T; reflexivity].
  - intros (H1 & k & v & I & H2). split.
    + intros x Ix. destruct (H1 x Ix) as (k' & Ik). apply existsb_exists. exists (VStr x). split; [apply in_map_iff; exists (k', VStr x); auto|apply T; reflexivity].
    + exists v. split; [apply in_map_iff; exists (k, v); auto|]. rewrite Bool.negb_true_iff. apply Bool.not_true_iff_false. intros E. apply existsb_exists in E.
      destruct E as (x & Ix & Tx). apply T in Tx. apply (H2 x Ix Tx).
Qed.
Lemma hashable_spec : forall d : list (string * pv), forallb hashable (map snd d) = true <-> forall k v, In (k, v) d -> plain v.
Proof.
  intros d. rewrite forallb_forall. split.
  - intros H k v I. specialize (H v (in_map snd _ _ I)). unfold plain. split; intros x ->; discriminate.
  - intros H v I. apply in_map_iff in I. destruct I as ((k, w) & E & I). cbn in E. subst w. destruct (H k v I) as (A & B). destruct v; try reflexivity; [destruct (A l eq_refl)|destruct (B d0 eq_refl)].
Qed.

Theorem C81_valid : forall labels ps, NoDup (dkeys ps) -> (validate labels ps = None <-> acceptable labels ps).
Proof.
  intros labels ps ND.
  assert (BT : forall v, bad_true_positive v = Ok false <-> exists d r, v = VList (VDict d :: r)).
  { intros v. unfold bad_true_positive. destruct v as [| | | |l| |]; try (split; [discriminate|intros (d9 & r & E); discriminate]).
    destruct l as [|x l]; [split; [discriminate|intros (d & r & E); discriminate]|]. destruct x; cbn; split; try discriminate; try (intros (d' & r & E); discriminate); eauto. }
  assert (BF : forall v, bad_false_positive ps v = Ok false ->
     v = VNone \/ (exists d r, v = VList (VDict d :: r) /\ In "attribute" (map fst d)) \/ (v <> VNone /\ dget ps "negative_threshold_config" = Some VNone)).
  { intros v H. unfold bad_false_positive in H. destruct v as [| | | |l| |]; cbn [is_none negb andr bind] in H; [auto| | | | | |].
    all: try (right; right; split; [discriminate|]; unfold index in H; destruct (dget ps "negative_threshold_config") as [n|]; [|discriminate]; cbn in H; destruct n; try discriminate; reflexivity).
    destruct l as [|x l]; [discriminate|]. cbn [first_keys] in H. destruct x; try discriminate. cbn [bind] in H.
    destruct (lmem (map fst d) "attribute") eqn:Lm; cbn [negb andr] in H.
    - right. left. exists d, l. split; [reflexivity|apply lmem_In, Lm].
    - right. right. split; [discriminate|]. unfold index in H. destruct (dget ps "negative_threshold_config") as [n|]; [|discriminate]. cbn in H. destruct n; try discriminate. reflexivity. }
  assert (BN : forall v, dget ps "negative_threshold_config" = Some v -> bad_param ps "negative_threshold_config" v = Ok false <-> whole_or_flag v \/ dget ps "false_positive_dict" = Some VNone).
  { intros v G. unfold bad_param. cbn [String.eqb Ascii.eqb Bool.eqb]. rewrite <- is_int_spec. destruct (is_int v); cbn [negb andr]; [tauto|]. unfold index. destruct (dget ps "false_positive_dict") as [f|]; [|split; [discriminate|intros [X|X]; discriminate]].
    cbn. destruct f; cbn; split; try discriminate; auto; intros [X | X]; try discriminate. }
  unfold validate, index. split.
  - intros H. destruct (dget ps "true_positive_dict") as [t|] eqn:Gt; [|discriminate]. cbn [bind] in H.
    destruct (if truth t then _ else _) as [b|e] eqn:E1 in H; [|discriminate]. cbn [bind] in H. destruct (any_bad ps ps) as [c|] eqn:E2; [|discriminate]. cbn [bind] in H.
    destruct b, c; try discriminate. clear H. assert (A := proj1 (any_bad_false ps ps) E2).
    assert (AG : forall k v, dget ps k = Some v -> bad_param ps k v = Ok false) by (intros k v G; apply A, dget_Some_In, G).
    assert (N1 : forall v, dget ps "negative_threshold_config" = Some v -> whole_or_flag v \/ dget ps "false_positive_dict" = Some VNone).
    { intros v G. apply (proj1 (BN v G)), AG, G. }
    unfold acceptable. split; [|split; [|split; [exact N1|split; [|split]]]].
    + assert (X := AG _ _ Gt). cbn in X. apply BT in X. destruct X as (d & r & ->). exists d, r. split; [exact Gt|]. cbn [truth length Nat.eqb negb first_values] in E1.
      destruct (forallb hashable (map snd d)) eqn:HH; [|discriminate]. split; [apply hashable_spec, HH|]. cbn [bind] in E1. injection E1 as E1. intros X. apply superset_spec in X. congruence.
    + intros v G. assert (X := AG _ _ G). apply BF in X. destruct X as [X | [X | (X & Y)]]; [auto|auto|]. exfalso. destruct (N1 _ Y) as [[(z & W) | (z & W)] | W]; congruence.
    + intros v G. assert (X := AG _ _ G). cbn in X. destruct v; try discriminate. eauto.
    + intros v G. assert (X := AG _ _ G). cbn in X. apply is_int_spec. destruct v; try discriminate; reflexivity.
    + intros k I. apply in_map_iff in I. destruct I as ((k', v) & E & I). cbn in E. subst k'. assert (X := A k v I). unfold bad_param in X.
      destruct (String.eqb_spec k "false_positive_dict") as [-> | ?]; [cbn; auto 10|]. destruct (String.eqb_spec k "true_positive_dict") as [-> | ?]; [cbn; auto 10|].
      destruct (String.eqb_spec k "include_label") as [-> | ?]; [cbn; auto 10|]. destruct (String.eqb_spec k "negative_threshold_config") as [-> | ?]; [cbn; auto 10|].
      destruct (String.eqb_spec k "positive_threshold_config") as [-> | ?]; [cbn; auto 10|]. assert (X9 : lmem accepted k = true) by (destruct (lmem accepted k); [reflexivity|discriminate X]). apply lmem_In in X9. exact X9.
  - intros ((d & r & Gt & Hh & NS) & HF & HN & HI & HP & HK). rewrite Gt. cbn [bind truth length Nat.eqb negb first_values].
    rewrite (proj2 (hashable_spec d) Hh). cbn [bind]. destruct (strict_superset (map snd d) labels) eqn:SS; [exfalso; apply NS, superset_spec, SS|].
    assert (A : any_bad ps ps = Ok false).
    { apply any_bad_false. intros k v I. assert (G : dget ps k = Some v) by (apply dget_In; assumption).
      assert (Ik := HK k (in_map fst _ _ I)). cbn in Ik. destruct Ik as [<- | [<- | [<- | [<- | [<- | []]]]]].
      - cbn. destruct (HF v G) as [-> | (d' & r' & -> & Ia)]; [reflexivity|]. unfold bad_false_positive. cbn [is_none negb andr first_keys bind]. apply lmem_In in Ia. rewrite Ia. reflexivity.
      - cbn. destruct (HI v G) as (b & ->). reflexivity.
      - apply (proj2 (BN v G)), HN, G.
      - cbn. assert (X := HP v G). apply is_int_spec in X. destruct v; try discriminate X; reflexivity.
      - cbn. apply BT. rewrite Gt in G. injection G as <-. eauto. }
    rewrite A. reflexivity.
Qed.
(** A model is made exactly from parameters that are acceptable together with the defaults. *)
Definition defaults : list (string * pv) :=
  [("false_positive_dict", VNone); ("true_positive_dict", VNone); ("include_label", VBool true); ("negative_threshold_config", VNone); ("positive_threshold_config", VNone)].
Lemma dget_setdefault : forall ps k v k', dget (setdefault ps k v) k' = match dget ps k' with Some x => Some x | None => if PyDict.eqb k k' then Some v else None end.
Proof.
  intros ps k v k'. unfold setdefault. destruct (dmem ps k) eqn:M.
  - destruct (dget ps k') eqn:G; [reflexivity|]. destruct (PyDict.eqb_spec k k') as [-> | N]; [|reflexivity]. apply dget_None in G. apply dmem_true in M. contradiction.
  - rewrite dget_dset. destruct (PyDict.eqb_spec k k') as [-> | N]; [|destruct (dget ps k'); reflexivity]. apply dmem_false in M. apply dget_None in M. rewrite M. reflexivity.
Qed.
Lemma NoDup_setdefault : forall ps k v, NoDup (dkeys ps) -> NoDup (dkeys (setdefault ps k v)).
Proof. intros ps k v H. unfold setdefault. destruct (dmem ps k); [exact H|apply NoDup_dset, H]. Qed.
Theorem C81_new : forall labels ps ps', NoDup (dkeys ps) -> new_model labels ps = Ok ps' ->
  acceptable labels ps' /\ forall k, dget ps' k = match dget ps k with Some v => Some v | None => dget defaults k end.
Proof.
  intros labels ps ps' ND H. unfold new_model in H. cbv zeta in H. match type of H with context [validate labels ?p] => set (q := p) in * end.
  destruct (validate labels q) eqn:V; [discriminate|]. injection H as <-. split.
  - apply C81_valid; [|exact V]. unfold q. repeat apply NoDup_setdefault. exact ND.
  - intros k. unfold q. rewrite !dget_setdefault. destruct (dget ps k); [reflexivity|]. cbn [defaults dget].
    repeat match goal with |- context [PyDict.eqb ?a k] => destruct (PyDict.eqb a k); [reflexivity|] end. reflexivity.
Qed.
Theorem C81_set : forall labels ps new ps', NoDup (dkeys new) -> set_params labels ps new = (ps', None) ->
  acceptable labels new /\ forall k, dget ps' k = match dget new k with Some v => Some v | None => dget ps k end.
Proof.
  intros labels ps new ps' ND H. unfold set_params in H. destruct (validate labels new) eqn:V; [discriminate|]. injection H as <-.
  split; [apply C81_valid; assumption|]. intros k. rewrite dget_dupdate by exact ND. reflexivity.
Qed.

(** Without parameters no model can be made, though all have defaults. *)
Theorem C81_default_refuted : forall labels, new_model labels [] = Err ValueError.
Proof. reflexivity. Qed.
(** No parameter can be set unless the true positives are given again. *)
Theorem C81_set_refuted : forall labels ps new, ~ In "true_positive_dict" (dkeys new) -> set_params labels ps new = (ps, Some KeyError).
Proof. intros labels ps new H. unfold set_params, validate, index. apply dget_None in H. rewrite H. reflexivity. Qed.

Definition entry_of (a l : string) : pv := VDict [("attribute", VStr a); ("label", VStr l)].
Definition with_true (l : list pv) : params := [("true_positive_dict", VList l); ("positive_threshold_config", VInt 85)].
Definition accepts (labels : list string) (ps : params) : bool := match new_model labels ps with Ok _ => true | Err _ => false end.
(** Labels need not be among those of the model; and one label that is the only one of the model is rejected. *)
Theorem C81_labels_refuted :
  (exists labels ps, accepts labels ps = true /\ dget ps "true_positive_dict" = Some (VList [entry_of "zip" "elsewhere"]) /\ ~ In "elsewhere" labels) /\
  new_model ["ssn"] (with_true [entry_of "social" "ssn"]) = Err ValueError.
Proof.
  split; [|reflexivity]. exists ["ssn"; "name"], (with_true [entry_of "zip" "elsewhere"]). split; [reflexivity|]. split; [reflexivity|]. cbn. intuition discriminate.
Qed.
(** Entries without attribute or label are accepted, and numbers that are not whole are not accepted as thresholds. *)
Theorem C81_entries_refuted : accepts ["a"; "b"] (with_true [VDict []]) = true /\ accepts ["a"; "b"] (with_true [entry_of "x" "a"; VNone]) = true /\
  new_model ["a"; "b"] [("true_positive_dict", VList [entry_of "x" "a"]); ("positive_threshold_config", VOther)] = Err ValueError /\
  accepts ["a"; "b"] [("true_positive_dict", VList [entry_of "x" "a"]); ("positive_threshold_config", VBool true)] = true.
Proof. repeat split. Qed.

Definition same (a b : string) : Q := if String.eqb a b then 100 else 0.
Definition known_names : settings :=
  {| false_positives := [{| attribute := Some "role"; label := None |}]; true_positives := [{| attribute := Some "ssn"; label := Some "SSN" |}; {| attribute := Some "zip"; label := Some "ADDRESS" |}];
     include_label := true; negative := 50; positive := 85 |}.
(** The answers do not tell which names they belong to: two lists of two names with different labels have the same answer. *)
Theorem C81_aligned_refuted : predict same known_names ["zip"; "other"] = predict same known_names ["other"; "zip"] /\
  predict same known_names ["zip"; "other"] = Ok [("ADDRESS", 100%Q)].
Proof. split; reflexivity. Qed.
(** Without labels any prediction raises as soon as one name exceeds the threshold. *)
Theorem C81_include_refuted : forall score s names n, include_label s = false -> false_positives s = [] -> In n names ->
  (exists e q, In e (true_positives s) /\ fit score e n q /\ (positive s < q)%Q) -> (forall e, In e (true_positives s) -> attribute e <> None) ->
  predict score s names = Err IndexError.
Proof.
  intros score s names n IL NF I (e & q & Ie & Fe & Lt) CT. unfold predict. rewrite NF. cbn [bind]. destruct (attributes_spec (true_positives s) CT) as (l & El & Ml). unfold model. rewrite El. cbn [bind].
  assert (NE : true_positives s <> []) by (intros X; rewrite X in Ie; destruct Ie). assert (NL : l <> []) by (intros ->; destruct (true_positives s); [congruence|discriminate]).
  destruct (outputs_ok score l names NL) as (out & -> & _ & F). cbn [bind]. rewrite IL. induction F as [|m o names out Ho F IH]; [destruct I|]. cbn [choose]. destruct o as (j, q').
  destruct (Qle_bool q' (positive s)) eqn:T; [|reflexivity]. destruct I as [-> | I]; [|apply IH, I]. exfalso.
  destruct (one score _ _ n Ml NE) as (j' & q0 & l1 & e' & l2 & E1 & _ & _ & _ & _ & A & _). rewrite E1 in Ho. injection Ho as <- <-.
  apply Qle_bool_iff in T. apply (Qlt_not_le _ _ Lt). eapply Qle_trans; [apply (A e q Ie Fe)|exact T].
Qed.

Example C81_example :
  predict same known_names ["SSN"; "Role"; "zip"; "x"] = Ok [("SSN", 100%Q); ("ADDRESS", 100%Q)] /\
  accepts ["ssn"; "name"] (with_true [entry_of "ssn" "ssn"]) = true /\
  snd (set_params ["ssn"; "name"] [] [("include_label", VBool false)]) = Some KeyError /\
  snd (set_params ["ssn"; "name"] [] (with_true [entry_of "ssn" "ssn"])) = None.
Proof. repeat split. Qed.
