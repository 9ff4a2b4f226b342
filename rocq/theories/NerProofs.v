(** Lemmas about NerModel. *)
From Coq Require Import QArith.
From Verif Require Import PyCommon PyDict ListFacts RowModel RowProofs NerModel.
Local Open Scope nat_scope.

(** * Spans *)
Section Spans.
  Context {N : Type} {EN : EqDecB N}.
  Variables (rev : dict nat N) (pad bg : nat).

  Definition entity (v : nat) : Prop := v <> pad /\ v <> bg.

  (** [run_of s b e v]: the characters from [b] to before [e] are a maximal run of label [v]. *)
  Definition run_of (s : list nat) (b e v : nat) : Prop :=
    b < e <= length s /\ (forall i, b <= i < e -> nth_error s i = Some v) /\
    (0 < b -> nth_error s (b - 1) <> Some v) /\ nth_error s e <> Some v.

  (** [spans s i out]: [out] lists the entity runs beginning at or after [i]. *)
  Inductive spans (s : list nat) : nat -> list (nat * nat * N) -> Prop :=
  | Sp_nil i : (forall k v, i <= k -> nth_error s k = Some v -> ~ entity v) -> spans s i []
  | Sp_cons i b e v n out : i <= b -> (forall k w, i <= k < b -> nth_error s k = Some w -> ~ entity w) ->
      run_of s b e v -> entity v -> dget rev v = Some n -> spans s e out -> spans s i ((b, e, n) :: out).

  Lemma entity_dec l : ((l =? pad) || (l =? bg) = false) <-> entity l.
  Proof.
    unfold entity. rewrite Bool.orb_false_iff, !Nat.eqb_neq. tauto.
  Qed.

  Lemma entity_dec' l : ((l =? pad) || (l =? bg) = true) <-> ~ entity l.
  Proof.
    rewrite <- entity_dec. destruct ((l =? pad) || (l =? bg)); split; congruence.
  Qed.

  Lemma spans_skip s i out : spans s (S i) out -> (forall v, nth_error s i = Some v -> ~ entity v) -> spans s i out.
  Proof.
    intros H Hi. inversion H as [j Hn|j b e v n out' Hb Hn R Ev G Sp]; subst.
    - constructor. intros k v Hk E. destruct (Nat.eq_dec k i) as [->|]; [apply Hi; exact E|apply (Hn k); [lia|exact E]].
    - econstructor; try eassumption; [lia|]. intros k w Hk E.
      destruct (Nat.eq_dec k i) as [->|]; [apply Hi; exact E|apply (Hn k); [lia|exact E]].
  Qed.

  (** Where the loop stands: nothing begun, or a run begun at [b]. *)
  Definition at_begin (s : list nat) (i : nat) (begin : option (nat * nat)) (cur : nat) : Prop :=
    match begin with
    | None => True
    | Some (b, v) => b < i /\ (forall k, b <= k < i -> nth_error s k = Some v) /\
                     (0 < b -> nth_error s (b - 1) <> Some v) /\ entity v /\ cur = v
    end.

  Lemma ner_loop_spec s rest : forall i begin cur,
    skipn i s = rest -> i <= length s -> at_begin s i begin cur ->
    (begin = None -> 0 < i -> forall v, nth_error s (i - 1) = Some v -> ~ entity v) ->
    match ner_loop rev pad bg rest i begin cur with
    | Ok out => spans s (match begin with Some (b, _) => b | None => i end) out
    | Err x => x = KeyError /\ exists k v, (match begin with Some (b, _) => b | None => i end) <= k /\
                 nth_error s k = Some v /\ entity v /\ dget rev v = None
    end.
  Proof.
    induction rest as [|l r IH]; intros i begin cur Hs Hi Ab Hp; cbn [ner_loop].
    - assert (Li : length s = i).
      { assert (length (skipn i s) = 0) by (rewrite Hs; reflexivity). rewrite skipn_length in H. lia. }
      destruct begin as [[b v]|].
      + destruct Ab as (Hb & Hr & Hpr & Ev & ->). unfold lookup. destruct (dget rev v) as [n|] eqn:G; cbn.
        * econstructor; try eassumption; [lia|intros; lia| |].
          -- split; [lia|]. split; [exact Hr|]. split; [exact Hpr|].
             replace (nth_error s i) with (@None nat); [discriminate|]. symmetry. apply nth_error_None. lia.
          -- constructor. intros k w Hk E. exfalso. assert (nth_error s k <> None) by congruence. apply nth_error_Some in H. lia.
        * split; [reflexivity|]. exists b, v. split; [lia|]. split; [apply Hr; lia|]. auto.
      + constructor. intros k w Hk E. exfalso. assert (nth_error s k <> None) by congruence. apply nth_error_Some in H. lia.
    - assert (El : nth_error s i = Some l).
      { rewrite <- (firstn_skipn i s), Hs. rewrite nth_error_app2 by (rewrite firstn_length; lia).
        rewrite firstn_length, Nat.min_l by lia. rewrite Nat.sub_diag. reflexivity. }
      assert (Hi' : i < length s) by (apply nth_error_Some; congruence).
      assert (Hs' : skipn (S i) s = r).
      { replace (S i) with (i + 1) by lia. rewrite <- ListFacts.skipn_skipn, Hs. reflexivity. }
      destruct begin as [[b v]|].
      + destruct Ab as (Hb & Hr & Hpr & Ev & Hc). destruct (l =? v) eqn:Elv.
        * apply Nat.eqb_eq in Elv. subst l. apply (IH (S i) (Some (b, v)) v Hs'); [lia| |discriminate].
          split; [lia|]. split; [|auto]. intros k Hk. destruct (Nat.eq_dec k i) as [->|]; [exact El|apply Hr; lia].
        * apply Nat.eqb_neq in Elv. unfold lookup. destruct (dget rev v) as [n|] eqn:G; cbn [bind].
          2:{ split; [reflexivity|]. exists b, v. split; [lia|]. split; [apply Hr; lia|]. auto. }
          assert (Rn : run_of s b i v).
          { split; [lia|]. split; [exact Hr|]. split; [exact Hpr|]. rewrite El. congruence. }
          set (bn := if (l =? pad) || (l =? bg) then None else Some (i, l)).
          assert (Ab' : at_begin s (S i) bn l).
          { unfold bn. destruct ((l =? pad) || (l =? bg)) eqn:B; [exact I|]. apply entity_dec in B.
            split; [lia|]. split; [intros k Hk; replace k with i by lia; exact El|]. split; [|auto].
            intros _. rewrite (Hr (i - 1)) by lia. congruence. }
          assert (Hp' : bn = None -> 0 < S i -> forall w, nth_error s (S i - 1) = Some w -> ~ entity w).
          { intros Hbn _ w Ew. replace (S i - 1) with i in Ew by lia. rewrite El in Ew. injection Ew as <-.
            apply entity_dec'. unfold bn in Hbn. destruct ((l =? pad) || (l =? bg)); [reflexivity|discriminate]. }
          specialize (IH (S i) bn l Hs' Hi' Ab' Hp'). destruct (ner_loop rev pad bg r (S i) bn l) as [out|x]; cbn [bind].
          -- econstructor; try eassumption; [lia|intros; lia|].
             unfold bn in *. destruct ((l =? pad) || (l =? bg)) eqn:B; [|exact IH].
             apply spans_skip; [exact IH|]. intros w Ew. rewrite El in Ew. injection Ew as <-. apply entity_dec'. exact B.
          -- destruct IH as (-> & k & w & Hk & R). split; [reflexivity|]. exists k, w. split; [|exact R].
             unfold bn in Hk. destruct ((l =? pad) || (l =? bg)); lia.
      + set (bn := if (l =? pad) || (l =? bg) then None else Some (i, l)).
        assert (Ab' : at_begin s (S i) bn l).
        { unfold bn. destruct ((l =? pad) || (l =? bg)) eqn:B; [exact I|]. apply entity_dec in B.
          split; [lia|]. split; [intros k Hk; replace k with i by lia; exact El|]. split; [|auto].
          intros Hi0 E. apply (Hp eq_refl Hi0 l E). exact B. }
        assert (Hp' : bn = None -> 0 < S i -> forall w, nth_error s (S i - 1) = Some w -> ~ entity w).
        { intros Hbn _ w Ew. replace (S i - 1) with i in Ew by lia. rewrite El in Ew. injection Ew as <-.
          apply entity_dec'. unfold bn in Hbn. destruct ((l =? pad) || (l =? bg)); [reflexivity|discriminate]. }
        specialize (IH (S i) bn l Hs' Hi' Ab' Hp'). destruct (ner_loop rev pad bg r (S i) bn l) as [out|x].
        * unfold bn in *. destruct ((l =? pad) || (l =? bg)) eqn:B; [|exact IH].
          apply spans_skip; [exact IH|]. intros w Ew. rewrite El in Ew. injection Ew as <-. apply entity_dec'. exact B.
        * destruct IH as (-> & k & w & Hk & R). split; [reflexivity|]. exists k, w. split; [|exact R].
          unfold bn in Hk. destruct ((l =? pad) || (l =? bg)); lia.
  Qed.

  Lemma ner_sample_spec s :
    match ner_sample rev pad bg s with
    | Ok out => spans s 0 out
    | Err x => x = KeyError /\ exists k v, nth_error s k = Some v /\ entity v /\ dget rev v = None
    end.
  Proof.
    pose proof (ner_loop_spec s s 0 None 0 eq_refl (Nat.le_0_l _) I) as H. unfold ner_sample.
    destruct (ner_loop rev pad bg s 0 None 0) as [out|x].
    - apply H. intros _ H0. lia.
    - destruct H as (-> & k & v & _ & R); [intros _ H0; lia|]. split; [reflexivity|]. exists k, v. exact R.
  Qed.

  Lemma spans_entities s i out : spans s i out ->
    (forall b e n, In (b, e, n) out -> exists v, i <= b /\ run_of s b e v /\ entity v /\ dget rev v = Some n) /\
    (forall k v, i <= k -> nth_error s k = Some v -> entity v -> exists b e n, In (b, e, n) out /\ b <= k < e).
  Proof.
    induction 1 as [i Hn|i b e v n out Hb Hn R Ev G Sp [IH1 IH2]].
    - split; [intros ? ? ? []|]. intros k v Hk E Ev. exfalso. apply (Hn k v Hk E Ev).
    - destruct R as (R1 & R2 & R3 & R4). split.
      + intros b' e' n' [Hi|Hi].
        * injection Hi as <- <- <-. exists v. repeat split; auto; try lia; apply Ev.
        * destruct (IH1 _ _ _ Hi) as (v' & H1 & H2). exists v'. split; [lia|exact H2].
      + intros k w Hk E Ew. destruct (Nat.lt_ge_cases k b) as [Hkb|Hkb]; [exfalso; apply (Hn k w); auto|].
        destruct (Nat.lt_ge_cases k e) as [Hke|Hke].
        * exists b, e, n. split; [left; reflexivity|lia].
        * destruct (IH2 k w Hke E Ew) as (b' & e' & n' & H1 & H2). exists b', e', n'. split; [right; exact H1|exact H2].
  Qed.

  (** Neighbours in the list are ordered and disjoint. *)
  Lemma spans_ordered s i out : spans s i out -> forall pre b e n b' e' n' post,
    out = pre ++ (b, e, n) :: (b', e', n') :: post -> e <= b'.
  Proof.
    induction 1 as [i Hn|i b0 e0 v n0 out Hb Hn R Ev G Sp IH]; intros pre b e n b' e' n' post E.
    - destruct pre; discriminate.
    - destruct pre as [|x pre]; cbn in E.
      + injection E as -> -> -> E. subst out. inversion Sp; subst. assumption.
      + injection E as _ E. apply (IH _ _ _ _ _ _ _ _ E).
  Qed.
End Spans.

Section Reverse.
  Context {N : Type} {EN : EqDecB N}.

  Lemma reverse_spec (m : dict N nat) v n : dget (reverse m) v = Some n -> In (n, v) m.
  Proof.
    unfold reverse. assert (G : forall d, dget (fold_left (fun (d : dict nat N) kv => dset d (snd kv) (fst kv)) m d) v = Some n ->
      In (n, v) m \/ dget d v = Some n).
    { induction m as [|[k w] m IH]; intros d; cbn [fold_left]; [auto|]. intro H. apply IH in H. destruct H as [H|H]; [left; right; exact H|].
      cbn [fst snd] in H. rewrite dget_dset in H. destruct (eqb_spec w v) as [->|]; [|auto]. injection H as ->. left. left. reflexivity. }
    intro H. apply G in H. destruct H as [H|H]; [exact H|discriminate].
  Qed.

  Lemma reverse_total (m : dict N nat) v : dget (reverse m) v = None <-> ~ In v (dvals m).
  Proof.
    unfold reverse. assert (G : forall d : dict nat N, dget (fold_left (fun (d : dict nat N) kv => dset d (snd kv) (fst kv)) m d) v = None <->
      ~ In v (dvals m) /\ dget d v = None).
    { induction m as [|[k w] m IH]; intros d; cbn [fold_left]; [cbn; tauto|]. rewrite IH. cbn [fst snd]. rewrite dget_dset.
      change (dvals ((k, w) :: m)) with (w :: dvals m). cbn [In].
      destruct (eqb_spec w v) as [->|]; [|tauto]. split; [intros [_ H]; discriminate|]. intros [H _]. exfalso. apply H. left. reflexivity. }
    rewrite G. cbn. tauto.
  Qed.
End Reverse.
