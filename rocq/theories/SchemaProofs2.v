(** What each column of a table profile receives over its history. *)
From Verif Require Import PyCommon PyDict ListFacts SchemaModel SchemaProofs.

Section Schema.
  Context {K A : Type} {EK : EqDecB K}.
  Variable lower : K -> K.
  Hypothesis lower_idem : forall k, lower (lower k) = lower k.

  Notation low := (map lower).
  Notation data := (list (K * list A)).

  (** ** One loop for both passes over the columns *)

  Fixpoint go (step : nat -> K * list A -> colp K A -> result (colp K A)) (m : dict nat nat) (i : nat)
    (d : data) (l : list (colp K A)) : result (list (colp K A)) :=
    match d with
    | [] => Ok l
    | x :: r =>
        match dget m i with
        | None => Err KeyError
        | Some p => bind (change l p (step i x)) (fun l' => go step m (S i) r l')
        end
    end.

  Definition bstep (i : nat) (x : K * list A) := take_base (K := K) i (snd x).
  Definition sstep (i : nat) (x : K * list A) := take_stats (fst x) (snd x).

  Lemma feed_go : forall (d : data) m i l, feed m i d l = go bstep m i d l.
  Proof.
    induction d as [|[n c] d IH]; intros m i l; cbn [feed go]; [reflexivity|].
    destruct (dget m i); [|reflexivity]. unfold bstep at 1. cbn [snd].
    destruct (change l n0 (take_base i c)); cbn [bind]; [apply IH|reflexivity].
  Qed.

  Lemma stats_go : forall (d : data) m i l,
    match go sstep m i d l with
    | Ok l' => stats m i d l = (l', None)
    | Err e => exists l', stats m i d l = (l', Some e)
    end.
  Proof.
    induction d as [|[n c] d IH]; intros m i l; cbn [stats go]; [reflexivity|].
    destruct (dget m i) as [p|]; [|eauto]. unfold sstep at 1. cbn [fst snd].
    destruct (change l p (take_stats n c)); cbn [bind]; [apply IH|eauto].
  Qed.

  Lemma change_spec : forall (l : list (colp K A)) p f l', change l p f = Ok l' ->
    length l' = length l /\
    forall q, match nth_error l q with
              | None => nth_error l' q = None
              | Some c => exists c', nth_error l' q = Some c' /\ (if q =? p then f c = Ok c' else c' = c)
              end.
  Proof.
    induction l as [|c l IH]; intros p f l' H; [discriminate|]. destruct p as [|p]; cbn [change] in H.
    - destruct (f c) as [c'|] eqn:F; [|discriminate]. injection H as <-. split; [reflexivity|].
      intros [|q]; cbn; [eauto|]. destruct (nth_error l q); eauto.
    - destruct (change l p f) as [r|] eqn:F; [|discriminate]. injection H as <-.
      destruct (IH _ _ _ F) as [L S]. split; [cbn; congruence|]. intros [|q]; cbn; [eauto|]. apply S.
  Qed.

  Lemma change_ok : forall (l : list (colp K A)) p f c c', nth_error l p = Some c -> f c = Ok c' ->
    exists l', change l p f = Ok l'.
  Proof.
    induction l as [|x l IH]; intros [|p] f c c' H F; try discriminate; cbn [change].
    - cbn in H. injection H as ->. rewrite F. cbn. eauto.
    - cbn in H. destruct (IH _ _ _ _ H F) as [l' ->]. cbn. eauto.
  Qed.

  Definition inj (m : dict nat nat) : Prop :=
    forall i i' p, dget m i = Some p -> dget m i' = Some p -> i = i'.

  Lemma go_spec step m : inj m -> forall (d : data) i l l', go step m i d l = Ok l' ->
    length l' = length l /\
    forall p c', nth_error l' p = Some c' -> exists c, nth_error l p = Some c /\
      ((exists x e, nth_error d x = Some e /\ dget m (i + x) = Some p /\ step (i + x) e c = Ok c') \/
       ((forall x e, nth_error d x = Some e -> dget m (i + x) <> Some p) /\ c' = c)).
  Proof.
    intro Hinj. induction d as [|x d IH]; intros i l l' H; cbn [go] in H.
    - injection H as <-. split; [reflexivity|]. intros p c' Hp. exists c'. split; [exact Hp|]. right.
      split; [|reflexivity]. intros y e Hy. destruct y; discriminate.
    - destruct (dget m i) as [p0|] eqn:D; [|discriminate].
      destruct (change l p0 (step i x)) as [l1|] eqn:C; [|discriminate]. cbn [bind] in H.
      destruct (change_spec _ _ _ _ C) as [L1 S1]. destruct (IH _ _ _ H) as [L2 S2].
      split; [congruence|]. intros p c' Hp. destruct (S2 p c' Hp) as [c1 [H1 R]].
      specialize (S1 p). destruct (nth_error l p) as [c|] eqn:E; [|congruence].
      destruct S1 as [c1' [H1' S1]]. rewrite H1 in H1'. injection H1' as <-. exists c. split; [reflexivity|].
      destruct (Nat.eqb_spec p p0) as [->|N].
      + left. exists 0, x. rewrite Nat.add_0_r. split; [reflexivity|]. split; [exact D|].
        destruct R as [[y [e [Hy [Dy _]]]]|[_ ->]]; [|exact S1].
        exfalso. pose proof (Hinj _ _ _ D Dy). lia.
      + subst c1. destruct R as [[y [e [Hy [Dy Sy]]]]|[Hn ->]].
        * left. exists (S y), e. replace (i + S y) with (S i + y) by lia. auto.
        * right. split; [|reflexivity]. intros [|y] e Hy.
          -- rewrite Nat.add_0_r, D. congruence.
          -- replace (i + S y) with (S i + y) by lia. eapply Hn. exact Hy.
  Qed.

  Lemma go_ok step m : inj m -> forall (d : data) i l,
    (forall x e, nth_error d x = Some e -> exists p c c', dget m (i + x) = Some p /\ nth_error l p = Some c /\
       step (i + x) e c = Ok c') ->
    exists l', go step m i d l = Ok l'.
  Proof.
    intro Hinj. induction d as [|x d IH]; intros i l H; cbn [go]; [eauto|].
    destruct (H 0 x eq_refl) as [p [c [c' [D [Hp S]]]]]. rewrite Nat.add_0_r in D, S. rewrite D.
    destruct (change_ok _ _ _ _ _ Hp S) as [l1 C]. rewrite C. cbn [bind]. apply IH.
    intros y e Hy. destruct (H (Datatypes.S y) e Hy) as [q [cq [cq' [Dq [Hq Sq]]]]].
    replace (i + Datatypes.S y) with (Datatypes.S i + y) in * by lia.
    exists q, cq, cq'. split; [exact Dq|]. split; [|exact Sq].
    destruct (change_spec _ _ _ _ C) as [_ S1]. specialize (S1 q). rewrite Hq in S1.
    destruct S1 as [c1 [H1 R]]. destruct (Nat.eqb_spec q p) as [->|N].
    - pose proof (Hinj _ _ _ D Dq). lia.
    - subst. exact H1.
  Qed.

  Lemma change_err : forall (l : list (colp K A)) p f e, p < length l -> change l p f = Err e ->
    exists c, nth_error l p = Some c /\ f c = Err e.
  Proof.
    induction l as [|x l IH]; intros [|p] f e L H; cbn in L; try lia; cbn [change] in H.
    - destruct (f x) eqn:F; [discriminate|]. injection H as <-. cbn. eauto.
    - destruct (change l p f) eqn:F; [discriminate|]. injection H as <-. cbn. apply IH; [lia|exact F].
  Qed.

  Lemma go_err step m (P : exn -> Prop) : (forall i x c e, step i x c = Err e -> P e) -> forall (d : data) i l e,
    (forall x, x < length d -> exists p, dget m (i + x) = Some p /\ p < length l) ->
    go step m i d l = Err e -> P e.
  Proof.
    intro HP. induction d as [|x d IH]; intros i l e H G; cbn [go] in G; [discriminate|].
    destruct (H 0) as [p [D L]]; [cbn; lia|]. rewrite Nat.add_0_r in D. rewrite D in G.
    destruct (change l p (step i x)) as [l1|e1] eqn:C; cbn [bind] in G.
    - apply (IH _ _ _) with (2 := G). intros y Hy. destruct (H (S y)) as [q [Dq Lq]]; [cbn; lia|].
      exists q. replace (i + S y) with (S i + y) in Dq by lia. split; [exact Dq|].
      rewrite (proj1 (change_spec _ _ _ _ C)). exact Lq.
    - injection G as <-. destruct (change_err _ _ _ _ L C) as [c [_ F]]. eapply HP; exact F.
  Qed.

  (** ** Invariant: what the columns have received from the batches [bs] *)

  Record colok (names : list K) (bs : list data) (i : nat) (n : K) (c : colp K A) : Prop := mkColok {
    ok_name : c_name c = match bs with [] => None | _ => Some n end;
    ok_index : forall q, c_index c = Some q -> q = i;
    ok_stats : Forall2 (fun b cells => exists j, pairs (low (map fst b)) (low names) j i /\ nth_error b j = Some (n, cells))
                 bs (c_stats c);
    ok_base : map snd (c_base c) = c_stats c;
    ok_used : Forall2 (fun b used => exists j, pairs (low (map fst b)) (low names) j i /\ (used = [j] \/ exists q, used = [q; j] /\
                 q < length names /\ (q = i \/ exists b', In b' bs /\ pairs (low (map fst b')) (low names) q i)))
                 bs (map fst (c_base c))
  }.

  Record inv (names : list K) (bs : list data) (s : prof K A) : Prop := mkInv {
    inv_schema : p_schema s = build_schema lower names;
    inv_length : length (p_cols s) = length names;
    inv_compat : forall b, In b bs -> compat (low (map fst b)) (low names);
    inv_cols : forall i n c, nth_error names i = Some n -> nth_error (p_cols s) i = Some c -> colok names bs i n c
  }.

  Lemma inv_new : inv [] [] (new_prof (K := K) (A := A)).
  Proof. constructor; try reflexivity; [intros b []|]. intros [|i] n c H; discriminate. Qed.

  Lemma nth_error_map_seq {B} (f : nat -> B) : forall n s i, nth_error (map f (seq s n)) i = if i <? n then Some (f (s + i)) else None.
  Proof.
    induction n as [|n IH]; intros s i; cbn [seq map]; [destruct i; reflexivity|].
    destruct i as [|i]; cbn [nth_error]; [rewrite Nat.add_0_r; reflexivity|]. rewrite IH.
    replace (S s + i) with (s + S i) by lia. reflexivity.
  Qed.

  Lemma inv_fresh (d : data) :
    inv (map fst d) [] (mkProf (build_schema lower (map fst d)) (map (new_colp (K := K) (A := A)) (seq 0 (length d)))).
  Proof.
    constructor; cbn [p_schema p_cols].
    - reflexivity.
    - rewrite !map_length, seq_length. reflexivity.
    - intros b [].
    - intros i n c _ Hc. rewrite nth_error_map_seq in Hc. destruct (i <? length d); [|discriminate].
      injection Hc as <-. constructor; cbn; try constructor. intros q H. injection H as <-. reflexivity.
  Qed.

  Lemma Forall2_snoc {X Y} (R : X -> Y -> Prop) xs ys x y :
    Forall2 R xs ys -> R x y -> Forall2 R (xs ++ [x]) (ys ++ [y]).
  Proof. intros H Hx. apply Forall2_app; [exact H|]. constructor; [exact Hx|constructor]. Qed.

  Lemma Forall2_imp {X Y} (R S : X -> Y -> Prop) xs ys :
    (forall x y, In x xs -> R x y -> S x y) -> Forall2 R xs ys -> Forall2 S xs ys.
  Proof.
    intros H F. induction F as [|x y xs ys Hx F IH]; [constructor|]. constructor.
    - apply H; [cbn; auto|exact Hx].
    - apply IH. intros; apply H; [cbn; auto|assumption].
  Qed.

  Lemma colok_step names bs i n c x cells n' c1 c2 (d : data) :
    colok names bs i n c ->
    i < length names ->
    pairs (low (map fst d)) (low names) x i ->
    nth_error d x = Some (n', cells) ->
    (bs = [] -> n' = n) ->
    take_base x cells c = Ok c1 -> take_stats n' cells c1 = Ok c2 ->
    colok names (bs ++ [d]) i n c2 /\ n' = n.
  Proof.
    intros [N I S B U] Hi P Hx Hn Hb Hs. unfold take_base in Hb. injection Hb as <-.
    unfold take_stats in Hs. cbn [c_name c_index c_base c_stats] in Hs.
    assert (X : n' = n /\ c2 = mkColp (Some n) (c_index c) (c_base c ++ [(match c_index c with Some p => [p; x] | None => [x] end, cells)])
        (c_stats c ++ [cells])).
    { rewrite N in Hs. destruct bs as [|b bs].
      - rewrite (Hn eq_refl) in *. injection Hs as <-. auto.
      - destruct (eqb_spec n n') as [<-|Q]; [|discriminate]. injection Hs as <-. auto. }
    destruct X as [-> ->]. split; [|reflexivity]. constructor; cbn [c_name c_index c_base c_stats].
    - destruct bs; reflexivity.
    - exact I.
    - apply Forall2_snoc; [exact S|]. exists x. auto.
    - rewrite map_app, B. reflexivity.
    - rewrite map_app. apply Forall2_snoc.
      + revert U. apply Forall2_imp. intros b used _ [j [Pj Q]]. exists j. split; [exact Pj|].
        destruct Q as [Q|[q [Q1 [Q0 [Q2|[b' [Q2 Q3]]]]]]]; [auto|right; exists q; auto|].
        right. exists q. split; [exact Q1|]. split; [exact Q0|]. right. exists b'. rewrite in_app_iff. auto.
      + cbn [fst]. exists x. split; [exact P|]. destruct (c_index c) as [q|]; [|auto].
        right. exists q. rewrite (I q eq_refl). auto.
  Qed.

  Lemma mapping_inj l1 l2 m : compat (K := K) l1 l2 -> (forall i j, dget m i = Some j <-> pairs l1 l2 i j) -> inj m.
  Proof.
    intros C H i i' p Hi Hi'. apply H in Hi, Hi'. eapply pairs_inj; eassumption.
  Qed.

  Lemma inv_step names bs sch cols (d : data) m l1 l2 :
    inv names bs (mkProf sch cols) ->
    compat (low (map fst d)) (low names) ->
    (forall i j, dget m i = Some j <-> pairs (low (map fst d)) (low names) i j) ->
    (bs = [] -> names = map fst d) ->
    feed m 0 d cols = Ok l1 -> go sstep m 0 d l1 = Ok l2 ->
    inv names (bs ++ [d]) (mkProf sch l2) /\
    (forall x i, pairs (low (map fst d)) (low names) x i -> nth_error (map fst d) x = nth_error names i).
  Proof.
    intros [IS IL IC IK] C M Hn Hf Hs. cbn [p_schema p_cols] in *.
    pose proof (mapping_inj _ _ _ C M) as Hinj. rewrite feed_go in Hf.
    destruct (go_spec _ _ Hinj _ _ _ _ Hf) as [L1 S1]. destruct (go_spec _ _ Hinj _ _ _ _ Hs) as [L2 S2].
    assert (Main : forall i n c, nth_error names i = Some n -> nth_error l2 i = Some c ->
              colok names (bs ++ [d]) i n c /\ forall x, pairs (low (map fst d)) (low names) x i -> nth_error (map fst d) x = Some n).
    { intros i n c2 Hi Hc2. destruct (S2 _ _ Hc2) as [c1 [Hc1 R2]]. destruct (S1 _ _ Hc1) as [c [Hc R1]].
      assert (Pi : exists x, pairs (low (map fst d)) (low names) x i).
      { destruct (pairs_exists (low names) (low (map fst d)) i (lower n)) as [x Px].
        - apply compat_sym. exact C.
        - apply map_nth_error. exact Hi.
        - exists x. apply pairs_sym; [apply compat_sym; exact C|exact Px]. }
      destruct Pi as [x Px]. pose proof (proj2 (M _ _) Px) as Dx.
      assert (Lx : exists e, nth_error d x = Some e).
      { destruct Px as [k [Px _]]. rewrite !nth_error_map in Px. destruct (nth_error d x); [eauto|discriminate]. }
      destruct Lx as [[n' cells] Ex].
      destruct R1 as [[x1 [e1 [E1 [D1 T1]]]]|[Q _]]; [|exfalso; eapply Q; [exact Ex|exact Dx]].
      destruct R2 as [[x2 [e2 [E2 [D2 T2]]]]|[Q _]]; [|exfalso; eapply Q; [exact Ex|exact Dx]].
      rewrite Nat.add_0_l in D1, D2, T1, T2.
      assert (x1 = x) by (eapply Hinj; [exact D1|exact Dx]). assert (x2 = x) by (eapply Hinj; [exact D2|exact Dx]). subst x1 x2.
      rewrite Ex in E1, E2. injection E1 as <-. injection E2 as <-. unfold bstep in T1. unfold sstep in T2. cbn [fst snd] in T1, T2.
      destruct (colok_step names bs i n c x cells n' c1 c2 d) as [Z1 Z2]; try assumption.
      - apply IK; assumption.
      - apply nth_error_Some. congruence.
      - intro Eb. specialize (Hn Eb). subst names. apply pairs_self in Px. destruct Px as [-> _].
        rewrite nth_error_map, Ex in Hi. cbn in Hi. congruence.
      - split; [exact Z1|]. intros y Py. assert (y = x) by (eapply pairs_inj; eassumption). subst y.
        rewrite nth_error_map, Ex. cbn. congruence. }
    split.
    - constructor; cbn [p_schema p_cols].
      + exact IS.
      + congruence.
      + intros b Hb. apply in_app_iff in Hb. destruct Hb as [Hb|[<-|[]]]; [apply IC; exact Hb|exact C].
      + intros i n c Hi Hc. apply Main; assumption.
    - intros x i P. destruct P as [k [Hx [Hi Hd]]]. rewrite nth_error_map in Hi.
      destruct (nth_error names i) as [n|] eqn:En; [|discriminate].
      assert (Li : i < length l2) by (rewrite L2, L1, IL; apply nth_error_Some; congruence).
      apply nth_error_Some in Li. destruct (nth_error l2 i) as [c|] eqn:Ec; [|congruence].
      apply (Main i n c En Ec). exists k. split; [exact Hx|]. split; [|exact Hd]. rewrite nth_error_map, En. exact Hi.
  Qed.

  (** ** update *)

  (** The columns of the data pair with columns of exactly the same name. *)
  Definition same_names (ds names : list K) : Prop :=
    forall x i, pairs (low ds) (low names) x i -> nth_error ds x = nth_error names i.

  Lemma feed_total names bs sch cols (d : data) m :
    inv names bs (mkProf sch cols) ->
    compat (low (map fst d)) (low names) ->
    (forall i j, dget m i = Some j <-> pairs (low (map fst d)) (low names) i j) ->
    exists l1, feed m 0 d cols = Ok l1.
  Proof.
    intros [IS IL IC IK] C M. cbn [p_schema p_cols] in *. rewrite feed_go. apply go_ok; [eapply mapping_inj; eassumption|].
    intros x e Hx. destruct (pairs_exists _ _ x (lower (fst e)) C) as [p P]; [rewrite !nth_error_map, Hx; reflexivity|].
    assert (Lp : p < length cols).
    { rewrite IL. destruct P as [k [_ [P _]]]. rewrite <- (map_length lower). apply nth_error_Some. congruence. }
    apply nth_error_Some in Lp. destruct (nth_error cols p) as [c|] eqn:Ec; [|congruence].
    exists p, c. eexists. split; [apply M; exact P|]. split; [exact Ec|]. reflexivity.
  Qed.

  Lemma stats_total names bs sch cols (d : data) m l1 :
    inv names bs (mkProf sch cols) ->
    compat (low (map fst d)) (low names) ->
    (forall i j, dget m i = Some j <-> pairs (low (map fst d)) (low names) i j) ->
    feed m 0 d cols = Ok l1 ->
    same_names (map fst d) names ->
    exists l2, go sstep m 0 d l1 = Ok l2.
  Proof.
    intros [IS IL IC IK] C M Hf SN. cbn [p_schema p_cols] in *.
    pose proof (mapping_inj _ _ _ C M) as Hinj. apply go_ok; [exact Hinj|].
    rewrite feed_go in Hf. destruct (go_spec _ _ Hinj _ _ _ _ Hf) as [L1 S1].
    intros x [n' cells] Hx. destruct (pairs_exists _ _ x (lower n') C) as [p P]; [rewrite !nth_error_map, Hx; reflexivity|].
    assert (Lp : p < length l1).
    { rewrite L1, IL. destruct P as [k [_ [P _]]]. rewrite <- (map_length lower). apply nth_error_Some. congruence. }
    apply nth_error_Some in Lp. destruct (nth_error l1 p) as [c1|] eqn:Ec1; [|congruence].
    destruct (S1 _ _ Ec1) as [c [Ec R]].
    pose proof (SN _ _ P) as Eq. rewrite nth_error_map, Hx in Eq. cbn in Eq. symmetry in Eq.
    pose proof (IK _ _ _ Eq Ec) as [N _ _ _ _].
    assert (N1 : c_name c1 = c_name c).
    { destruct R as [[y [e [_ [_ T]]]]|[_ ->]]; [|reflexivity]. unfold bstep, take_base in T. injection T as <-. reflexivity. }
    exists p, c1. unfold sstep, take_stats. cbn [fst snd]. rewrite N1, N.
    destruct bs; [|rewrite eqb_refl]; eexists; (split; [apply M; exact P|]); (split; [exact Ec1|reflexivity]).
  Qed.

  Lemma stats_err names bs sch cols (d : data) m l1 e :
    inv names bs (mkProf sch cols) ->
    compat (low (map fst d)) (low names) ->
    (forall i j, dget m i = Some j <-> pairs (low (map fst d)) (low names) i j) ->
    feed m 0 d cols = Ok l1 ->
    go sstep m 0 d l1 = Err e -> e = ValueError.
  Proof.
    intros [IS IL IC IK] C M Hf. cbn [p_schema p_cols] in *. rewrite feed_go in Hf.
    pose proof (mapping_inj _ _ _ C M) as Hinj. destruct (go_spec _ _ Hinj _ _ _ _ Hf) as [L1 _].
    apply (go_err sstep m (fun e => e = ValueError)).
    - intros i x c e0. unfold sstep, take_stats. destruct (c_name c) as [n|]; [|discriminate].
      destruct (eqb n (fst x)); congruence.
    - intros x Lx. apply nth_error_Some in Lx. destruct (nth_error d x) as [[n' cells]|] eqn:Hx; [|congruence].
      destruct (pairs_exists _ _ x (lower n') C) as [p P]; [rewrite !nth_error_map, Hx; reflexivity|].
      exists p. split; [apply M; exact P|]. rewrite L1, IL. destruct P as [k [_ [P _]]].
      rewrite <- (map_length lower). apply nth_error_Some. congruence.
  Qed.

  (** The names under which a history of batches is profiled: those of its first batch. *)
  Definition first_names (bs : list data) : list K := match bs with [] => [] | b :: _ => map fst b end.

  (** Batches without columns leave no trace. *)
  Definition present (d : data) : list data := match d with [] => [] | _ => [d] end.

  Fixpoint batches (h : hist K A) : list data :=
    match h with
    | HNew => []
    | HUpd h d => batches h ++ present d
    | HAdd h1 h2 => batches h1 ++ batches h2
    end.

  Definition ginv (bs : list data) (s : prof K A) : Prop :=
    inv (first_names bs) bs s /\ forall b, In b bs -> b <> [].

  Lemma first_names_ne bs : (forall b : data, In b bs -> b <> []) -> bs <> [] -> first_names bs <> [].
  Proof.
    intros H N. destruct bs as [|b bs]; [congruence|]. cbn. specialize (H b (or_introl eq_refl)). destruct b; cbn; congruence.
  Qed.

  Lemma prof_eta (s : prof K A) : mkProf (p_schema s) (p_cols s) = s.
  Proof. destruct s; reflexivity. Qed.

  (** Complete description of [update]. *)
  Lemma update_spec bs s (d : data) : ginv bs s ->
    match update lower s d with
    | (s', None) => ginv (bs ++ present d) s' /\
        (bs <> [] -> d <> [] -> compat (low (map fst d)) (low (first_names bs)) /\ same_names (map fst d) (first_names bs))
    | (s', Some e) => e = ValueError /\ bs <> [] /\ d <> [] /\
        ((~ compat (low (map fst d)) (low (first_names bs)) /\ s' = s) \/
         (compat (low (map fst d)) (low (first_names bs)) /\ ~ same_names (map fst d) (first_names bs)))
    end.
  Proof.
    intros [I NE]. destruct d as [|x0 d0].
    - (* no columns *)
      unfold update. cbn [map]. destruct bs as [|b bs].
      + destruct I as [IS IL _ _]. cbn [first_names] in IS, IL. destruct s as [sch cols]. cbn [p_schema p_cols] in *.
        subst sch. apply length_zero_iff_nil in IL. subst cols. cbn. split; [|congruence].
        split; [exact inv_new|intros b []].
      + assert (Z : length (p_schema s) <> 0).
        { destruct I as [IS _ _ _]. rewrite IS. intro Z. apply schema_empty in Z.
          apply (first_names_ne (b :: bs)); [exact NE|congruence|exact Z]. }
        assert (Z' : length (p_cols s) <> 0).
        { destruct I as [_ IL _ _]. rewrite IL. intro Z'. apply length_zero_iff_nil in Z'.
          apply (first_names_ne (b :: bs)); [exact NE|congruence|exact Z']. }
        unfold get_mapping. cbn [build_schema build_from length Nat.ltb Nat.leb andb negb].
        apply Nat.eqb_neq in Z, Z'. rewrite Z, Z'. cbn [dkeys map key_loop feed stats].
        rewrite prof_eta. split; [|congruence]. cbn [present]. rewrite app_nil_r. split; [exact I|exact NE].
    - set (d := x0 :: d0). assert (Nd : d <> []) by (unfold d; discriminate). cbn [present]. fold d.
      assert (Nd' : map fst d <> []) by (unfold d; discriminate).
      destruct bs as [|b bs].
      + (* first batch *)
        destruct I as [IS IL _ _]. cbn [first_names] in IS, IL. destruct s as [sch cols]. cbn [p_schema p_cols] in *.
        subst sch. apply length_zero_iff_nil in IL. subst cols. unfold update. cbn [p_schema p_cols length Nat.eqb].
        change (build_schema lower []) with (@nil (K * list nat)). destruct (mapping_fresh lower (map fst d) 0 0) as [-> _].
        set (m := map (fun i => (i, i)) (concat (dvals (build_schema lower (map fst d))))).
        assert (M : forall i j, dget m i = Some j <-> pairs (low (map fst d)) (low (map fst d)) i j).
        { intros i j. rewrite pairs_self. apply mapping_fresh. }
        pose proof (inv_fresh d) as F. pose proof (compat_refl (low (map fst d))) as C.
        destruct (feed_total _ _ _ _ _ _ F C M) as [l1 E1]. rewrite E1.
        assert (SN : same_names (map fst d) (map fst d)).
        { intros x i P. apply pairs_self in P. destruct P as [-> _]. reflexivity. }
        destruct (stats_total _ _ _ _ _ _ _ F C M E1 SN) as [l2 E2].
        pose proof (stats_go d m 0 l1) as SG. rewrite E2 in SG. rewrite SG.
        change (present d) with [d]. cbn [app]. split; [|congruence]. split.
        * destruct (inv_step _ _ _ _ _ _ _ _ F C M (fun _ => eq_refl) E1 E2) as [R _]. exact R.
        * intros b [<-|[]]. exact Nd.
      + (* later batch *)
        set (bs' := b :: bs) in *. assert (Nb : bs' <> []) by (unfold bs'; discriminate).
        pose proof (first_names_ne bs' NE Nb) as Nn.
        assert (FN : first_names (bs' ++ [d]) = first_names bs') by reflexivity.
        destruct s as [sch cols]. unfold update. cbn [p_schema p_cols].
        assert (IS : sch = build_schema lower (first_names bs')) by (destruct I as [IS _ _ _]; exact IS).
        assert (Z' : length cols =? 0 = false).
        { apply Nat.eqb_neq. destruct I as [_ IL _ _]. cbn in IL. rewrite IL. intro Z'. apply length_zero_iff_nil in Z'.
          contradiction. }
        rewrite Z'. cbn [p_schema p_cols].
        destruct (get_mapping lower (build_schema lower (map fst d)) sch false) as [m|e] eqn:G.
        * rewrite IS in G. pose proof (mapping_compat lower lower_idem _ _ _ _ Nd' Nn G) as C.
          destruct (mapping_ok lower lower_idem _ _ false Nd' Nn C) as [m' [G' M]].
          rewrite G in G'. injection G' as <-.
          destruct (feed_total _ _ _ _ _ _ I C M) as [l1 E1]. rewrite E1.
          pose proof (stats_go d m 0 l1) as SG. destruct (go sstep m 0 d l1) as [l2|e] eqn:E2.
          -- rewrite SG. destruct (inv_step _ _ _ _ _ _ _ _ I C M (fun E => False_ind _ (Nb E)) E1 E2) as [R SN].
             split; [|auto]. unfold ginv. change (present d) with [d]. rewrite FN. split; [exact R|].
             intros y Hy. apply in_app_iff in Hy. destruct Hy as [Hy|[<-|[]]]; [apply NE; exact Hy|exact Nd].
          -- destruct SG as [l' SG]. rewrite SG. split; [eapply stats_err; eassumption|].
             split; [exact Nb|]. split; [exact Nd|]. right. split; [exact C|]. intro SN.
             destruct (stats_total _ _ _ _ _ _ _ I C M E1 SN) as [l2 E2']. congruence.
        * rewrite IS in G. split; [eapply mapping_err; exact G|]. split; [exact Nb|]. split; [exact Nd|]. left.
          split; [|reflexivity]. intro C. destruct (mapping_ok lower lower_idem _ _ false Nd' Nn C) as [m' [G' _]]. congruence.
  Qed.

  (** ** Merging *)

  Lemma merge_cols_spec m (c2 : list (colp K A)) : forall c1 i l, merge_cols m i c1 c2 = Ok l ->
    length l = length c1 /\
    forall x z, nth_error l x = Some z -> exists a j b, nth_error c1 x = Some a /\ dget m (i + x) = Some j /\
      nth_error c2 j = Some b /\ add_colp a b = Ok z.
  Proof.
    induction c1 as [|a c1 IH]; intros i l H; cbn [merge_cols] in H.
    - injection H as <-. split; [reflexivity|]. intros [|x] z Hz; discriminate.
    - destruct (dget m i) as [j|] eqn:D; [|discriminate]. destruct (nth_error c2 j) as [b|] eqn:E; [|discriminate].
      destruct (add_colp a b) as [z0|] eqn:Z; [|discriminate]. cbn [bind] in H.
      destruct (merge_cols m (S i) c1 c2) as [l'|] eqn:R; [|discriminate]. cbn [bind] in H. injection H as <-.
      destruct (IH _ _ R) as [L S1]. split; [cbn; congruence|]. intros [|x] z Hz; cbn in Hz.
      + injection Hz as <-. exists a, j, b. rewrite Nat.add_0_r. auto.
      + destruct (S1 _ _ Hz) as [a' [j' [b' [H1 [H2 [H3 H4]]]]]]. exists a', j', b'. cbn [nth_error].
        replace (i + S x) with (S i + x) by lia. auto.
  Qed.

  Lemma merge_cols_ok m (c2 : list (colp K A)) : forall c1 i,
    (forall x a, nth_error c1 x = Some a -> exists j b z, dget m (i + x) = Some j /\ nth_error c2 j = Some b /\ add_colp a b = Ok z) ->
    exists l, merge_cols m i c1 c2 = Ok l.
  Proof.
    induction c1 as [|a c1 IH]; intros i H; cbn [merge_cols]; [eauto|].
    destruct (H 0 a eq_refl) as [j [b [z [D [E Z]]]]]. rewrite Nat.add_0_r in D. rewrite D, E, Z. cbn [bind].
    destruct (IH (S i)) as [l R].
    - intros x a' Hx. destruct (H (S x) a' Hx) as [j' [b' [z' [D' [E' Z']]]]].
      replace (i + S x) with (S i + x) in D' by lia. eauto 10.
    - rewrite R. cbn. eauto.
  Qed.

  Lemma merge_cols_err m (c2 : list (colp K A)) : forall c1 i e,
    (forall x, x < length c1 -> exists j, dget m (i + x) = Some j /\ j < length c2) ->
    merge_cols m i c1 c2 = Err e -> e = ValueError.
  Proof.
    induction c1 as [|a c1 IH]; intros i e H G; cbn [merge_cols] in G; [discriminate|].
    destruct (H 0) as [j [D L]]; [cbn; lia|]. rewrite Nat.add_0_r in D. rewrite D in G. apply nth_error_Some in L.
    destruct (nth_error c2 j) as [b|]; [|congruence].
    destruct (add_colp a b) as [z|e'] eqn:Z; cbn [bind] in G.
    - destruct (merge_cols m (S i) c1 c2) eqn:R; cbn [bind] in G; [discriminate|]. injection G as <-.
      apply (IH (S i)); [|exact R]. intros x Hx. destruct (H (S x)) as [j' [D' L']]; [cbn; lia|].
      exists j'. replace (i + S x) with (S i + x) in D' by lia. auto.
    - injection G as <-. unfold add_colp in Z. destruct (c_name a), (c_name b); try destruct (eqb _ _); congruence.
  Qed.

  Lemma add_spec bs1 s1 bs2 s2 : ginv bs1 s1 -> ginv bs2 s2 ->
    match add lower s1 s2 with
    | Ok s => ginv (bs1 ++ bs2) s /\ bs1 <> [] /\ bs2 <> [] /\
        compat (low (first_names bs1)) (low (first_names bs2)) /\ same_names (first_names bs1) (first_names bs2)
    | Err e => e = ValueError /\
        (bs1 = [] \/ bs2 = [] \/ ~ compat (low (first_names bs1)) (low (first_names bs2)) \/
         ~ same_names (first_names bs1) (first_names bs2))
    end.
  Proof.
    intros [I1 NE1] [I2 NE2]. pose proof I1 as [IS1 IL1 IC1 IK1]. pose proof I2 as [IS2 IL2 IC2 IK2].
    unfold add. rewrite IS1, IS2.
    assert (Empty : bs1 = [] \/ bs2 = [] \/ bs1 <> [] /\ bs2 <> []) by (destruct bs1, bs2; intuition congruence).
    destruct Empty as [E|[E|[N1 N2]]].
    - subst bs1. cbn [first_names]. rewrite mapping_strict_empty by auto. cbn. auto.
    - subst bs2. cbn [first_names]. rewrite mapping_strict_empty by auto. cbn. auto.
    - pose proof (first_names_ne _ NE1 N1) as Q1. pose proof (first_names_ne _ NE2 N2) as Q2.
      destruct (get_mapping lower (build_schema lower (first_names bs1)) (build_schema lower (first_names bs2)) true) as [m0|e] eqn:G0.
      2:{ cbn [bind]. split; [eapply mapping_err; exact G0|]. right. right. left. intro C.
          destruct (mapping_ok lower lower_idem _ _ true Q1 Q2 C) as [m' [G' _]]. congruence. }
      cbn [bind]. pose proof (mapping_compat lower lower_idem _ _ _ _ Q1 Q2 G0) as C.
      destruct (mapping_ok lower lower_idem _ _ false Q1 Q2 C) as [m [G M]]. rewrite G. cbn [bind].
      destruct (merge_cols m 0 (p_cols s1) (p_cols s2)) as [l|e] eqn:R; cbn [bind].
      + destruct (merge_cols_spec _ _ _ _ _ R) as [L S].
        assert (Main : forall i n z, nth_error (first_names bs1) i = Some n -> nth_error l i = Some z ->
          colok (first_names bs1) (bs1 ++ bs2) i n z /\
          forall j, pairs (low (first_names bs1)) (low (first_names bs2)) i j -> nth_error (first_names bs2) j = Some n).
        { intros i n z Hi Hz. destruct (S _ _ Hz) as [a [j [b [Ha [D [Hb Add]]]]]]. rewrite Nat.add_0_l in D.
          apply M in D. pose proof (IK1 _ _ _ Hi Ha) as [Na Ia Sa Ba Ua].
          assert (Hj : exists n', nth_error (first_names bs2) j = Some n').
          { destruct D as [k [_ [D _]]]. rewrite nth_error_map in D. destruct (nth_error (first_names bs2) j); [eauto|discriminate]. }
          destruct Hj as [n' Hj]. pose proof (IK2 _ _ _ Hj Hb) as [Nb Ib Sb Bb Ub].
          unfold add_colp in Add. destruct bs1 as [|b1 bs1]; [congruence|]. destruct bs2 as [|b2 bs2]; [congruence|].
          rewrite Na, Nb in Add. destruct (eqb_spec n n') as [Eq|Q]; [subst n'|discriminate]. injection Add as <-.
          set (B1 := b1 :: bs1) in *. set (B2 := b2 :: bs2) in *.
          assert (Tr : forall b' q, In b' B2 -> pairs (low (map fst b')) (low (first_names B2)) q j ->
                       pairs (low (map fst b')) (low (first_names B1)) q i).
          { intros b' q Hb' P. eapply pairs_trans; [apply IC2; exact Hb'|exact P|]. apply pairs_sym; assumption. }
          split.
          - constructor; cbn [c_name c_index c_base c_stats].
            + reflexivity.
            + discriminate.
            + apply Forall2_app; [exact Sa|]. revert Sb. apply Forall2_imp. intros b' cells Hb' [q [P E]].
              exists q. split; [apply Tr; assumption|exact E].
            + rewrite map_app, Ba, Bb. reflexivity.
            + rewrite map_app. apply Forall2_app.
              * revert Ua. apply Forall2_imp. intros b' used _ [q [P [E|[q' [E [L' [E'|[b'' [H1 H2]]]]]]]]]; exists q; (split; [exact P|]).
                -- auto.
                -- right. exists q'. auto.
                -- right. exists q'. split; [exact E|]. split; [exact L'|]. right. exists b''. rewrite in_app_iff. auto.
              * assert (LL : length (first_names B2) = length (first_names B1)).
                { apply compat_length in C. rewrite !map_length in C. auto. }
                revert Ub. apply Forall2_imp. intros b' used Hb' [q [P E]]. exists q.
                split; [apply Tr; assumption|]. destruct E as [E|[q' [E [L' E']]]]; [auto|]. right. exists q'.
                split; [exact E|]. split; [lia|]. right.
                destruct E' as [->|[b'' [H1 H2]]].
                -- (* created at position j of the first batch of the second history *)
                   exists b2. split; [apply in_app_iff; right; cbn; auto|]. apply Tr; [cbn; auto|].
                   cbn [first_names B2]. apply pairs_self. split; [reflexivity|]. apply nth_error_Some. cbn in Hj. congruence.
                -- exists b''. split; [apply in_app_iff; auto|]. apply Tr; assumption.
          - intros j' P. assert (j' = j) by (eapply pairs_fun; eassumption). subst j'. exact Hj. }
        split.
        * assert (FN : first_names (bs1 ++ bs2) = first_names bs1) by (destruct bs1; [congruence|reflexivity]).
          split; [rewrite FN|intros b Hb; apply in_app_iff in Hb; destruct Hb; auto].
          constructor; cbn [p_schema p_cols].
          -- reflexivity.
          -- congruence.
          -- intros b Hb. apply in_app_iff in Hb. destruct Hb as [Hb|Hb]; [apply IC1; exact Hb|].
             eapply compat_trans; [apply IC2; exact Hb|]. apply compat_sym. exact C.
          -- intros i n c Hi Hc. apply Main; assumption.
        * split; [exact N1|]. split; [exact N2|]. split; [exact C|]. intros x i P. pose proof P as [k [Hx _]].
          rewrite nth_error_map in Hx. destruct (nth_error (first_names bs1) x) as [n|] eqn:En; [|discriminate].
          assert (Li : x < length l) by (rewrite L, IL1; apply nth_error_Some; congruence).
          apply nth_error_Some in Li. destruct (nth_error l x) as [c|] eqn:Ec; [|congruence].
          symmetry. apply (Main x n c En Ec). exact P.
      + split.
        * eapply merge_cols_err; [|exact R]. intros x Hx. rewrite IL1 in Hx. apply nth_error_Some in Hx.
          destruct (nth_error (first_names bs1) x) as [n|] eqn:En; [|congruence].
          destruct (pairs_exists _ _ x (lower n) C) as [j P]; [rewrite nth_error_map, En; reflexivity|].
          exists j. split; [apply M; exact P|]. rewrite IL2. destruct P as [k [_ [P _]]].
          rewrite <- (map_length lower). apply nth_error_Some. congruence.
        * right. right. right. intro SN. destruct (merge_cols_ok m (p_cols s2) (p_cols s1) 0) as [l E]; [|congruence].
          intros x a Ha. assert (Lx : x < length (first_names bs1)) by (rewrite <- IL1; apply nth_error_Some; congruence).
          apply nth_error_Some in Lx. destruct (nth_error (first_names bs1) x) as [n|] eqn:En; [|congruence].
          destruct (pairs_exists _ _ x (lower n) C) as [j P]; [rewrite nth_error_map, En; reflexivity|].
          pose proof (SN _ _ P) as Eq. rewrite En in Eq. symmetry in Eq.
          assert (Lj : j < length (p_cols s2)) by (rewrite IL2; apply nth_error_Some; congruence).
          apply nth_error_Some in Lj. destruct (nth_error (p_cols s2) j) as [b|] eqn:Eb; [|congruence].
          destruct (IK1 _ _ _ En Ha) as [Na _ _ _ _]. destruct (IK2 _ _ _ Eq Eb) as [Nb _ _ _ _].
          exists j, b. unfold add_colp. rewrite Na, Nb. destruct bs1; [congruence|]. destruct bs2; [congruence|].
          rewrite eqb_refl. eexists. split; [apply M; exact P|]. split; [exact Eb|reflexivity].
  Qed.

  Lemma run_ginv : forall h s, run lower h = Ok s -> ginv (batches h) s.
  Proof.
    induction h as [|h IH d|h1 IH1 h2 IH2]; intros s H; cbn [run batches] in *.
    - injection H as <-. split; [exact inv_new|intros b []].
    - destruct (run lower h) as [s0|]; [|discriminate]. cbn [bind] in H. pose proof (update_spec _ _ d (IH _ eq_refl)) as U.
      destruct (update lower s0 d) as [s' [e|]]; [discriminate|]. injection H as <-. apply U.
    - destruct (run lower h1) as [s1|]; [|discriminate]. destruct (run lower h2) as [s2|]; [|discriminate]. cbn [bind] in H.
      pose proof (add_spec _ _ _ _ (IH1 _ eq_refl) (IH2 _ eq_refl)) as U. rewrite H in U. apply U.
  Qed.
End Schema.
