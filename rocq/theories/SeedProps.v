(** * Properties of seeds *)
From Coq Require Import List Arith Bool ZArith Lia Ascii Permutation.
Import ListNotations.
From Verif Require Import PyCommon NumTextModel NumTextProps SamplingModel SamplingProofs SeedModel.
Local Open Scope nat_scope.

(** ** What the history of a process says about the seed *)

(** A text is the whole number [z]: blanks, a sign, digits with single underscores *)
Definition whole_text (l : text) (z : Z) : Prop :=
  exists neg b ds, body l neg b /\ digs b ds /\ z = (if neg then - value ds else value ds)%Z.

Section History.
  Context {Py Np : Type}.
  Notation command := (@SeedModel.command Py Np).

  (** The seed that the last successful call of set_seed left *)
  Inductive chosen : list command -> option Z -> Prop :=
  | chosen_start : chosen [] None
  | chosen_none h s : chosen h s -> chosen (h ++ [SetSeed ANone]) None
  | chosen_int h s z : chosen h s -> (0 <= z)%Z -> chosen (h ++ [SetSeed (AInt z)]) (Some z)
  | chosen_bad h s a : chosen h s -> (a = AOther \/ exists z, a = AInt z /\ (z < 0)%Z) ->
      chosen (h ++ [SetSeed a]) s
  | chosen_keep h s c : chosen h s -> (forall a, c <> SetSeed a) -> chosen (h ++ [c]) s.

  (** The text of the environment variable, [e] at the start *)
  Inductive variable_is (e : option text) : list command -> option text -> Prop :=
  | var_start : variable_is e [] e
  | var_set h t t' : variable_is e h t -> variable_is e (h ++ [SetEnv t']) t'
  | var_keep h t c : variable_is e h t -> (forall t', c <> SetEnv t') ->
      variable_is e (h ++ [c]) t.

  (** The seed in force after history [h] in a process that starts with variable [e] *)
  Definition in_force (e : option text) (h : list command) (s : Z) : Prop :=
    chosen h (Some s) \/
    (chosen h None /\ (0 <= s)%Z /\ exists t, variable_is e h (Some t) /\ whole_text t s).

  (** Choices that take their generator from the seed *)
  Definition by_seed (c : command) : Prop :=
    (exists n k, c = Rows n k) \/ (exists n, c = Shown n) \/ (exists n k, c = Lines n k).
End History.

Lemma py_int_iff l z : py_int l = Some z <-> whole_text l z.
Proof.
  unfold py_int, whole_text. split.
  - destruct (sign (strip l)) as [neg r] eqn:E. destruct (digits r) as [ds rest] eqn:D.
    destruct ds as [|d ds]; [discriminate|]. destruct rest; [|discriminate].
    intros H. injection H as <-.
    destruct (digits_sound' _ _ _ D) as [[S _]|(x & -> & S)]; [discriminate S|].
    rewrite app_nil_r in E. exists neg, (codes x), (d :: ds).
    split; [apply body_sound; exact E|]. split; [exact S|]. rewrite number_value. reflexivity.
  - intros (neg & b & ds & B & D & ->). destruct (digs_first _ _ D) as (k & r & Eb & Hk).
    destruct (body_complete _ _ _ k r B Eb) as (y & E & Ey); [lia|lia| |].
    + eapply digs_chars; exact D.
    + rewrite E. pose proof (digits_complete _ _ D y [] Ey I) as X. rewrite app_nil_r in X.
      rewrite X. destruct ds as [|d ds]; [destruct (digs_some _ _ D); reflexivity|].
      rewrite number_value. reflexivity.
Qed.

Section Seeds.
  Context {Gen Py Np : Type} (seeded : Z -> Gen) (fresh : nat -> Gen)
          (ints : Gen -> nat -> nat -> nat -> nat)
          (choice : Gen -> nat -> nat -> list nat)
          (rounds : Gen -> nat -> nat -> rdraw)
          (sample : Py -> nat -> nat -> list nat * Py)
          (perm : Np -> nat -> list nat * Np).
  Notation command := (@SeedModel.command Py Np).
  Notation world := (@SeedModel.world Py Np).
  Notation get_rng := (@SeedModel.get_rng Gen Py Np seeded fresh).
  Notation step := (@SeedModel.step Gen Py Np seeded fresh ints choice rounds sample perm).
  Notation run := (@SeedModel.run Gen Py Np seeded fresh ints choice rounds sample perm).

  (** The outcome of [c] after history [h] in a process that started as [w] *)
  Definition after (w : world) (h : list command) (c : command) : outcome :=
    fst (step c (snd (run h w))).

  (** What [c] gives with generator [g] *)
  Definition drawn (g : Gen) (b : bool) (c : command) : outcome :=
    match c with
    | Rows n k => Chunks (shuffle_in_chunks (ints g n k) n k) b
    | Shown n => Positions (choice g n (Nat.min n 5)) b
    | Lines n k => Taken (reservoir n (rounds g k) (seq 0 n) k) b
    | _ => Done
    end.

  (** The choices for which a generator is needed at all *)
  Definition draws (c : command) : Prop :=
    (exists n k, c = Rows n k /\ n <> 0 /\ k <> 0) \/ (exists n, c = Shown n) \/
    (exists n k, c = Lines n k /\ k <> 0).

  (** *** Runs *)
  Lemma run_app h1 : forall h2 w, run (h1 ++ h2) w =
    (fst (run h1 w) ++ fst (run h2 (snd (run h1 w))), snd (run h2 (snd (run h1 w)))).
  Proof.
    induction h1 as [|c h1 IH]; intros h2 w; cbn [SeedModel.run app].
    - cbn. destruct (run h2 w). reflexivity.
    - destruct (step c w) as [o w1]. rewrite IH. destruct (run h1 w1) as [os w2]. reflexivity.
  Qed.

  Lemma run_one h c w : snd (run (h ++ [c]) w) = snd (step c (snd (run h w))).
  Proof.
    rewrite run_app. cbn [SeedModel.run fst snd]. destruct (step c (snd (run h w))). reflexivity.
  Qed.

  Lemma get_rng_frame (w : world) : w_seed (snd (get_rng w)) = w_seed w /\
    w_env (snd (get_rng w)) = w_env w /\ w_py (snd (get_rng w)) = w_py w /\
    w_np (snd (get_rng w)) = w_np w /\ w_entropy w <= w_entropy (snd (get_rng w)).
  Proof.
    unfold SeedModel.get_rng. destruct (w_seed w) as [z|] eqn:E; cbn [default_rng].
    - destruct (z <? 0)%Z; cbn; [rewrite ?E; auto 6|].
      destruct (w_env w) eqn:V; rewrite ?E; cbn; rewrite ?E, ?V; auto 6.
    - cbn [w_env w_seed]. rewrite E. destruct (w_env w) as [t|] eqn:V; [|cbn; rewrite ?E, ?V; auto 6].
      destruct (py_int t) as [z|]; [|cbn; rewrite ?E, ?V; auto 6].
      destruct (z <? 0)%Z; cbn; rewrite ?E, ?V; auto 6.
  Qed.

  Lemma with_rng_world w f : snd (@with_rng Gen Py Np seeded fresh w f) = snd (get_rng w).
  Proof. unfold with_rng. destruct (get_rng w) as [[[g b]|e] w']; reflexivity. Qed.

  Lemma step_frame c w :
    (forall a, c <> SetSeed a) -> w_seed (snd (step c w)) = w_seed w.
  Proof.
    intros N. destruct c; cbn [SeedModel.step]; try reflexivity.
    - destruct (N a eq_refl).
    - destruct (_ || _); [reflexivity|]. rewrite with_rng_world. apply get_rng_frame.
    - rewrite with_rng_world. apply get_rng_frame.
    - destruct (k =? 0); [reflexivity|]. rewrite with_rng_world. apply get_rng_frame.
    - destruct (sample (w_py w) n k). reflexivity.
    - destruct (perm (w_np w) n). reflexivity.
  Qed.

  Lemma step_env c w :
    (forall t, c <> SetEnv t) -> w_env (snd (step c w)) = w_env w.
  Proof.
    intros N. destruct c; cbn [SeedModel.step]; try reflexivity.
    - destruct a as [|z|]; cbn; try reflexivity. destruct (z <? 0)%Z; reflexivity.
    - destruct (N t eq_refl).
    - destruct (_ || _); [reflexivity|]. rewrite with_rng_world. apply get_rng_frame.
    - rewrite with_rng_world. apply get_rng_frame.
    - destruct (k =? 0); [reflexivity|]. rewrite with_rng_world. apply get_rng_frame.
    - destruct (sample (w_py w) n k). reflexivity.
    - destruct (perm (w_np w) n). reflexivity.
  Qed.

  Lemma step_entropy c w : w_entropy w <= w_entropy (snd (step c w)).
  Proof.
    destruct c; cbn [SeedModel.step]; try (cbn; lia).
    - destruct a as [|z|]; cbn; try lia. destruct (z <? 0)%Z; cbn; lia.
    - destruct (_ || _); [cbn; lia|]. rewrite with_rng_world. apply get_rng_frame.
    - rewrite with_rng_world. apply get_rng_frame.
    - destruct (k =? 0); [cbn; lia|]. rewrite with_rng_world. apply get_rng_frame.
    - destruct (sample (w_py w) n k). cbn. lia.
    - destruct (perm (w_np w) n). cbn. lia.
  Qed.

  Lemma run_entropy h : forall w, w_entropy w <= w_entropy (snd (run h w)).
  Proof.
    induction h as [|c h IH]; intros w; cbn [SeedModel.run snd]; [lia|].
    pose proof (step_entropy c w) as E. destruct (step c w) as [o w1]. cbn [snd] in E.
    specialize (IH w1). destruct (run h w1) as [os w2]. cbn [snd] in *. lia.
  Qed.

  Lemma chosen_sound h s : chosen h s -> forall w, w_seed w = None -> w_seed (snd (run h w)) = s.
  Proof.
    induction 1 as [|h s H IH|h s z H IH Z|h s a H IH B|h s c H IH N]; intros w E;
      rewrite ?run_one; cbn [SeedModel.step].
    - exact E.
    - reflexivity.
    - cbn. destruct (z <? 0)%Z eqn:L; [apply Z.ltb_lt in L; lia|]. reflexivity.
    - destruct B as [->|(z & -> & L)]; cbn; [apply IH, E|].
      apply Z.ltb_lt in L. rewrite L. apply IH, E.
    - rewrite step_frame by exact N. apply IH, E.
  Qed.

  Lemma variable_sound e h t : variable_is e h t -> forall w, w_env w = e ->
    w_env (snd (run h w)) = t.
  Proof.
    induction 1 as [|h t t' H IH|h t c H IH N]; intros w E; rewrite ?run_one.
    - exact E.
    - reflexivity.
    - rewrite step_env by exact N. apply IH, E.
  Qed.

  Lemma chosen_total (h : list command) : exists s, chosen h s.
  Proof.
    induction h as [|c h (s & IH)] using rev_ind; [exists None; constructor|].
    destruct c; try (exists s; apply chosen_keep; [exact IH|discriminate]).
    destruct a as [|z|].
    - exists None. eapply chosen_none. exact IH.
    - destruct (Z.ltb_spec z 0).
      + exists s. apply chosen_bad; [exact IH|]. right. eauto.
      + exists (Some z). eapply chosen_int; eauto.
    - exists s. apply chosen_bad; auto.
  Qed.

  Lemma chosen_nonneg (h : list command) s : chosen h s -> forall z, s = Some z -> (0 <= z)%Z.
  Proof. induction 1; intros z' E; try discriminate; eauto. injection E as <-. assumption. Qed.

  Lemma chosen_more (h r : list command) s : chosen h s -> (forall a, ~ In (SetSeed a) r) -> chosen (h ++ r) s.
  Proof.
    intros H. induction r as [|c r IH] using rev_ind; intros N; [rewrite app_nil_r; exact H|].
    rewrite app_assoc. apply chosen_keep.
    - apply IH. intros a I. apply (N a), in_or_app. auto.
    - intros a ->. apply (N a), in_or_app. right. left. reflexivity.
  Qed.

  Lemma variable_more (h r : list command) e t : variable_is e h t ->
    (forall a, ~ In (SetEnv a) r) -> variable_is e (h ++ r) t.
  Proof.
    intros H. induction r as [|c r IH] using rev_ind; intros N; [rewrite app_nil_r; exact H|].
    rewrite app_assoc. apply var_keep.
    - apply IH. intros a I. apply (N a), in_or_app. auto.
    - intros a ->. apply (N a), in_or_app. right. left. reflexivity.
  Qed.

  (** *** One choice *)
  Lemma step_draws c w : draws c -> step c w =
    match get_rng w with
    | (Ok (g, b), w') => (drawn g b c, w')
    | (Err e, w') => (Raised e, w')
    end.
  Proof.
    intros [(n & k & -> & Hn & Hk)|[(n & ->)|(n & k & -> & Hk)]]; cbn [SeedModel.step].
    - rewrite (proj2 (Nat.eqb_neq n 0) Hn), (proj2 (Nat.eqb_neq k 0) Hk). reflexivity.
    - reflexivity.
    - rewrite (proj2 (Nat.eqb_neq k 0) Hk). reflexivity.
  Qed.

  Lemma by_seed_cases (c : command) : by_seed c -> draws c \/ exists o, forall w, step c w = (o, w).
  Proof.
    intros [(n & k & ->)|[(n & ->)|(n & k & ->)]].
    - destruct (Nat.eq_dec n 0) as [->|Hn]; [right; exists (Chunks [] false); reflexivity|].
      destruct (Nat.eq_dec k 0) as [->|Hk].
      + right. exists (Chunks [] false). intros w. cbn [SeedModel.step]. rewrite orb_true_r. reflexivity.
      + left. left. eauto 6.
    - left. right. left. eauto.
    - destruct (Nat.eq_dec k 0) as [->|Hk].
      + right. exists (Raised ZeroDivisionError). reflexivity.
      + left. right. right. eauto.
  Qed.

  Definition force (w : world) (s : Z) : Prop :=
    (0 <= s)%Z /\
    (w_seed w = Some s \/
     (w_seed w = None /\ exists t, w_env w = Some t /\ py_int t = Some s)).

  Lemma force_rng w s : force w s -> exists w', get_rng w = (Ok (seeded s, false), w').
  Proof.
    intros (P & [E|(E & t & V & I)]); unfold SeedModel.get_rng; rewrite E; cbn [default_rng].
    - destruct (s <? 0)%Z eqn:L; [apply Z.ltb_lt in L; lia|]. rewrite E.
      destruct (w_env w); eexists; reflexivity.
    - cbn [w_env w_seed]. rewrite V, E, I.
      destruct (s <? 0)%Z eqn:L; [apply Z.ltb_lt in L; lia|]. eexists; reflexivity.
  Qed.

  Lemma in_force_sound e h s : in_force e h s -> forall w, w_seed w = None -> w_env w = e ->
    force (snd (run h w)) s.
  Proof.
    intros [H|(H & P & t & V & W)] w E Ee.
    - split; [exact (chosen_nonneg _ _ H s eq_refl)|]. left. apply (chosen_sound _ _ H w E).
    - split; [exact P|]. right. split; [apply (chosen_sound _ _ H w E)|].
      exists t. split; [apply (variable_sound _ _ _ V w Ee)|]. apply py_int_iff, W.
  Qed.

  Lemma drawn_by_seed e h s w c : in_force e h s -> w_seed w = None -> w_env w = e -> draws c ->
    after w h c = drawn (seeded s) false c.
  Proof.
    intros H E Ee D. unfold after. rewrite (step_draws _ _ D).
    destruct (force_rng _ _ (in_force_sound _ _ _ H w E Ee)) as (w' & ->). reflexivity.
  Qed.

  (** ** C105 *)

  (** The choices that follow the seed depend on the seed and on what is asked for, and
      on nothing else: neither on the process, nor on what was done in it before. *)
  Theorem C105_repeat : forall w1 w2 h1 h2 s c,
    w_seed w1 = None -> w_seed w2 = None ->
    in_force (w_env w1) h1 s -> in_force (w_env w2) h2 s -> by_seed c ->
    after w1 h1 c = after w2 h2 c /\
    (draws c -> after w1 h1 c = drawn (seeded s) false c).
  Proof.
    intros w1 w2 h1 h2 s c E1 E2 H1 H2 B. split.
    - destruct (by_seed_cases c B) as [D|(o & Ho)].
      + rewrite (drawn_by_seed _ _ _ _ _ H1 E1 eq_refl D), (drawn_by_seed _ _ _ _ _ H2 E2 eq_refl D).
        reflexivity.
      + unfold after. rewrite !Ho. reflexivity.
    - intros D. apply (drawn_by_seed _ _ _ _ _ H1 E1 eq_refl D).
  Qed.

  (** After a successful [set_seed(s)] the seed [s] is in force until set_seed is called
      again, whatever the environment variable says. *)
  Theorem C105_set_seed : forall e (h r : list command) s, (0 <= s)%Z ->
    (forall a, ~ In (SetSeed a) r) ->
    in_force e (h ++ SetSeed (AInt s) :: r) s.
  Proof.
    intros e h r s P N. left. destruct (chosen_total h) as (s0 & H0).
    change (SetSeed (AInt s) :: r) with ([SetSeed (AInt s)] ++ r). rewrite app_assoc.
    apply chosen_more; [|exact N]. eapply chosen_int; eauto.
  Qed.

  (** Without set_seed, or after [set_seed(None)], the variable decides. *)
  Theorem C105_variable : forall (h : list command) s t, (0 <= s)%Z -> whole_text t s ->
    (forall a, ~ In (SetSeed a) h) -> (forall a, ~ In (SetEnv a) h) ->
    in_force (Some t) h s /\
    (forall h0 e, in_force e (h0 ++ SetEnv (Some t) :: SetSeed ANone :: h) s).
  Proof.
    intros h s t P W N1 N2. split.
    - right. split; [apply (chosen_more [] h None); [constructor|exact N1]|]. split; [exact P|].
      exists t. split; [|exact W]. apply (variable_more [] h); [constructor|exact N2].
    - intros h0 e. right. destruct (chosen_total (h0 ++ [SetEnv (Some t)])) as (s0 & H0).
      assert (V0 : exists t0, variable_is e h0 t0).
      { clear -Py Np. induction h0 as [|c h0 (t0 & IH)] using rev_ind; [exists e; constructor|].
        destruct c; try (exists t0; apply var_keep; [exact IH|discriminate]).
        exists t. eapply var_set. exact IH. }
      destruct V0 as (t0 & V0).
      replace (h0 ++ SetEnv (Some t) :: SetSeed ANone :: h)
        with (((h0 ++ [SetEnv (Some t)]) ++ [SetSeed ANone]) ++ h) by (rewrite <- !app_assoc; reflexivity).
      split; [|split; [exact P|]].
      + apply chosen_more; [|exact N1]. eapply chosen_none. exact H0.
      + exists t. split; [|exact W]. apply variable_more; [|exact N2].
        apply var_keep; [|discriminate]. eapply var_set. exact V0.
  Qed.

  (** What set_seed accepts; a refused call changes nothing. *)
  Theorem C105_accepts : forall w a,
    (fst (step (SetSeed a) w) = Done <-> a = ANone \/ exists z, a = AInt z /\ (0 <= z)%Z) /\
    (fst (step (SetSeed a) w) <> Done -> step (SetSeed a) w = (Raised ValueError, w)).
  Proof.
    intros w a. destruct a as [|z|]; cbn.
    - split; [split; auto|]. intros N. destruct (N eq_refl).
    - destruct (Z.ltb_spec z 0) as [L|L]; cbn.
      + split; [|reflexivity]. split; [discriminate|]. intros [X|(z' & X & Y)]; [discriminate X|].
        injection X as <-. lia.
      + split; [|intros N; destruct (N eq_refl)]. split; [eauto|reflexivity].
    - split; [|reflexivity]. split; [discriminate|]. intros [X|(z' & X & _)]; discriminate X.
  Qed.

  (** Where there is nothing to choose no generator is made. *)
  Theorem C105_nothing : forall w n,
    step (Rows 0 n) w = (Chunks [] false, w) /\ step (Rows n 0) w = (Chunks [] false, w) /\
    step (Lines n 0) w = (Raised ZeroDivisionError, w).
  Proof.
    intros w n. split; [reflexivity|]. split; [|reflexivity]. cbn [SeedModel.step].
    rewrite orb_true_r. reflexivity.
  Qed.

  (** With no seed in force every choice takes a generator of its own: what two choices
      of one process draw comes from different pieces of entropy.  A warning is given
      exactly if the variable is set. *)
  Theorem C105_unseeded : forall w h1 h2 c1 c2, w_seed w = None -> draws c1 -> draws c2 ->
    chosen h1 None -> chosen (h1 ++ c1 :: h2) None ->
    (forall s, ~ in_force (w_env w) h1 s) -> (forall s, ~ in_force (w_env w) (h1 ++ c1 :: h2) s) ->
    exists i j b1 b2, i < j /\
      after w h1 c1 = drawn (fresh i) b1 c1 /\
      after w (h1 ++ c1 :: h2) c2 = drawn (fresh j) b2 c2 /\
      (b1 = true <-> exists t, variable_is (w_env w) h1 (Some t)) /\
      (b2 = true <-> exists t, variable_is (w_env w) (h1 ++ c1 :: h2) (Some t)).
  Proof.
    intros w h1 h2 c1 c2 E D1 D2 K1 K2 N1 N2.
    assert (VT : forall h : list command, exists t, variable_is (w_env w) h t).
    { clear -Py Np. intros h0.
      induction h0 as [|c h0 (t0 & IH)] using rev_ind; [exists (w_env w); constructor|].
      destruct c; try (exists t0; apply var_keep; [exact IH|discriminate]).
      exists t. eapply var_set. exact IH. }
    assert (VF : forall (h : list command) t t', variable_is (w_env w) h t ->
                 variable_is (w_env w) h t' -> t = t').
    { intros h t t' A B. rewrite <- (variable_sound _ _ _ A w eq_refl).
      apply (variable_sound _ _ _ B w eq_refl). }
    assert (G : forall h, chosen h None -> (forall s, ~ in_force (w_env w) h s) ->
      exists b, get_rng (snd (run h w)) =
        (Ok (fresh (w_entropy (snd (run h w))), b),
         mkWorld None (w_env (snd (run h w))) (S (w_entropy (snd (run h w))))
           (w_py (snd (run h w))) (w_np (snd (run h w)))) /\
      (b = true <-> exists t, variable_is (w_env w) h (Some t))).
    { intros h K N. pose proof (chosen_sound _ _ K w E) as S0. destruct (VT h) as (t0 & V0).
      pose proof (variable_sound _ _ _ V0 w eq_refl) as EV.
      unfold SeedModel.get_rng. rewrite S0. cbn [default_rng w_env w_seed]. rewrite S0, EV.
      destruct t0 as [t|].
      - exists true. split; [|split; [intros _; eauto|reflexivity]].
        destruct (py_int t) as [z|] eqn:I; [|reflexivity].
        destruct (Z.ltb_spec z 0) as [L|L]; [reflexivity|].
        destruct (N z). right. split; [exact K|]. split; [exact L|].
        exists t. split; [exact V0|]. apply py_int_iff, I.
      - exists false. split; [reflexivity|]. split; [discriminate|]. intros (t & V).
        discriminate (VF _ _ _ V0 V). }
    destruct (G h1 K1 N1) as (b1 & R1 & W1). destruct (G _ K2 N2) as (b2 & R2 & W2).
    exists (w_entropy (snd (run h1 w))), (w_entropy (snd (run (h1 ++ c1 :: h2) w))), b1, b2.
    split; [|split; [|split; [|split]]]; [| | |exact W1|exact W2].
    - rewrite run_app. cbn [snd SeedModel.run]. rewrite (step_draws _ _ D1), R1.
      match goal with |- context [run h2 ?x] => pose proof (run_entropy h2 x) as M; destruct (run h2 x) end.
      cbn [snd w_entropy] in *. lia.
    - unfold after. rewrite (step_draws _ _ D1), R1. reflexivity.
    - unfold after. rewrite (step_draws _ _ D2), R2. reflexivity.
  Qed.

  (** A process in which the library and both global generators have been given seeds
      is determined altogether. *)
  Theorem C105_all : forall w1 w2 s p q r, (0 <= s)%Z -> ~ In (SetSeed ANone) r ->
    fst (run (SetSeed (AInt s) :: SeedPy p :: SeedNp q :: r) w1)
    = fst (run (SetSeed (AInt s) :: SeedPy p :: SeedNp q :: r) w2).
  Proof.
    intros w1 w2 s p q r P N.
    assert (G : forall r s u v, (0 <= s)%Z -> ~ In (SetSeed ANone) r ->
      w_seed u = Some s -> w_seed v = Some s -> w_py u = w_py v -> w_np u = w_np v ->
      fst (run r u) = fst (run r v)).
    { clear. induction r as [|c r IH]; intros s u v P N U V Y X; [reflexivity|].
      assert (N' : ~ In (SetSeed ANone) r) by (intros I; apply N; right; exact I).
      assert (S : fst (step c u) = fst (step c v) /\
        (exists s', (0 <= s')%Z /\ w_seed (snd (step c u)) = Some s' /\ w_seed (snd (step c v)) = Some s') /\
        w_py (snd (step c u)) = w_py (snd (step c v)) /\
        w_np (snd (step c u)) = w_np (snd (step c v))).
      { assert (Dr : draws c -> fst (step c u) = fst (step c v) /\
          (exists s', (0 <= s')%Z /\ w_seed (snd (step c u)) = Some s' /\ w_seed (snd (step c v)) = Some s') /\
          w_py (snd (step c u)) = w_py (snd (step c v)) /\
          w_np (snd (step c u)) = w_np (snd (step c v))).
        { intros D. rewrite !(step_draws _ _ D).
          destruct (force_rng u s (conj P (or_introl U))) as (u' & Ru).
          destruct (force_rng v s (conj P (or_introl V))) as (v' & Rv).
          pose proof (get_rng_frame u) as Fu. pose proof (get_rng_frame v) as Fv.
          rewrite Ru in Fu. rewrite Rv in Fv. cbn [snd] in Fu, Fv. rewrite Ru, Rv. cbn [fst snd].
          destruct Fu as (F1 & _ & F2 & F3 & _). destruct Fv as (F4 & _ & F5 & F6 & _).
          split; [reflexivity|]. split; [exists s; repeat split; congruence|]. split; congruence. }
        assert (Sa : forall o, step c u = (o, u) -> step c v = (o, v) ->
          fst (step c u) = fst (step c v) /\
          (exists s', (0 <= s')%Z /\ w_seed (snd (step c u)) = Some s' /\ w_seed (snd (step c v)) = Some s') /\
          w_py (snd (step c u)) = w_py (snd (step c v)) /\
          w_np (snd (step c u)) = w_np (snd (step c v))).
        { intros o -> ->. cbn. split; [reflexivity|]. split; [exists s; auto|]. auto. }
        destruct c.
        - destruct a as [|z|].
          + destruct N. left. reflexivity.
          + destruct (Z.ltb_spec z 0) as [L|L].
            * apply (Sa (Raised ValueError)); cbn; apply Z.ltb_lt in L; rewrite L; reflexivity.
            * cbn. destruct (Z.ltb_spec z 0); [lia|]. cbn. split; [reflexivity|].
              split; [exists z; auto|]. auto.
          + apply (Sa (Raised ValueError)); reflexivity.
        - cbn. split; [reflexivity|]. split; [exists s; auto|]. auto.
        - cbn. split; [reflexivity|]. split; [exists s; auto|]. auto.
        - cbn. split; [reflexivity|]. split; [exists s; auto|]. auto.
        - destruct (by_seed_cases (Rows n c)) as [D|(o & Ho)]; [left; eauto|exact (Dr D)|].
          apply (Sa o); apply Ho.
        - apply Dr. right. left. eauto.
        - destruct (by_seed_cases (Lines n k)) as [D|(o & Ho)]; [right; right; eauto|exact (Dr D)|].
          apply (Sa o); apply Ho.
        - cbn [SeedModel.step]. rewrite Y. destruct (sample (w_py v) n k). cbn. split; [reflexivity|].
          split; [exists s; auto|]. auto.
        - cbn [SeedModel.step]. rewrite X. destruct (perm (w_np v) n). cbn. split; [reflexivity|].
          split; [exists s; auto|]. auto. }
      destruct S as (So & (s' & P' & Su & Sv) & Sy & Sx). cbn [SeedModel.run].
      destruct (step c u) as [o1 u']. destruct (step c v) as [o2 v']. cbn [fst snd] in *.
      specialize (IH s' u' v' P' N' Su Sv Sy Sx).
      destruct (run r u') as [os1 u2]. destruct (run r v') as [os2 v2]. cbn [fst] in *. congruence. }
    cbn [SeedModel.run step set_seed]. destruct (Z.ltb_spec s 0); [lia|].
    cbn [w_env w_seed w_entropy w_np w_py].
    match goal with |- context [run r ?a] => match goal with |- context [run r ?b] =>
      lazymatch a with b => fail | _ =>
        pose proof (G r s a b P N eq_refl eq_refl eq_refl eq_refl) as X;
        destruct (run r a); destruct (run r b) end end end.
    cbn [fst] in *. congruence.
  Qed.

  (** Updates with as many rows look at the same positions: with a seed no second
      update of [n] rows can look at other positions than the first. *)
  Theorem C105_other_rows_refuted :
    ~ (exists w h1 h2 s n c, w_seed w = None /\ (0 <= s)%Z /\
         (forall a, ~ In (SetSeed a) h1) /\ (forall a, ~ In (SetSeed a) h2) /\
         after w (SetSeed (AInt s) :: h1) (Rows n c)
         <> after w (SetSeed (AInt s) :: h1 ++ Rows n c :: h2) (Rows n c)).
  Proof.
    intros (w & h1 & h2 & s & n & c & E & P & N1 & N2 & X). apply X.
    apply (C105_repeat w w _ _ s); try exact E.
    - apply (C105_set_seed _ [] h1); assumption.
    - apply (C105_set_seed _ [] (h1 ++ Rows n c :: h2)); [exact P|]. intros a I.
      apply in_app_or in I. destruct I as [I|[I|I]]; [apply (N1 a I)|discriminate I|apply (N2 a I)].
    - left. eauto.
  Qed.
End Seeds.
Print Assumptions C105_repeat.
Print Assumptions C105_set_seed.
Print Assumptions C105_variable.
Print Assumptions C105_accepts.
Print Assumptions C105_nothing.
Print Assumptions C105_unseeded.
Print Assumptions C105_all.
Print Assumptions C105_other_rows_refuted.

(** ** Choices that do not follow the seed *)
Definition k_ints (g : nat) (n c j : nat) : nat := j + (g + j) mod (n - j).
Definition k_choice (g n k : nat) : list nat := firstn k (skipn (g mod n) (seq 0 n) ++ seq 0 (g mod n)).
Definition k_rounds (g k t : nat) : rdraw := if t <? 2 then DTake (g mod 3) ((g + t) mod k) else DStop.
Definition k_sample (s n k : nat) : list nat * nat := (k_choice s n k, S s).
Definition k_perm (s n : nat) : list nat * nat := (k_choice s n n, S s).
Notation k_after := (@after nat nat nat Z.to_nat (fun i => 100 + i) k_ints k_choice k_rounds k_sample k_perm).
Notation k_run := (@run nat nat nat Z.to_nat (fun i => 100 + i) k_ints k_choice k_rounds k_sample k_perm).
Definition k_world (e : option text) (p q : nat) : @world nat nat := mkWorld None e 0 p q.

(** The samples of merged columns, of text profiles and of Parquet files. *)
Theorem C105_sample_refuted :
  ~ (forall (Gen Py Np : Type) seeded fresh ints choice rounds sample perm
       (w1 w2 : @world Py Np) h1 h2 s n k, w_seed w1 = None -> w_seed w2 = None ->
       in_force (w_env w1) h1 s -> in_force (w_env w2) h2 s ->
       @after Gen Py Np seeded fresh ints choice rounds sample perm w1 h1 (Sampled n k)
       = @after Gen Py Np seeded fresh ints choice rounds sample perm w2 h2 (Sampled n k)).
Proof.
  intros H.
  specialize (H nat nat nat Z.to_nat (fun i => 100 + i) k_ints k_choice k_rounds k_sample k_perm
    (k_world None 0 0) (k_world None 1 0) [SetSeed (AInt 7)] [SetSeed (AInt 7)] 7%Z 6 2
    eq_refl eq_refl).
  assert (F : in_force None [@SetSeed nat nat (AInt 7)] 7).
  { apply (C105_set_seed None [] []); [lia|]. intros a []. }
  specialize (H F F). vm_compute in H. discriminate H.
Qed.
Print Assumptions C105_sample_refuted.

(** The batches of a reader and the order of the training samples; even two calls in
    one process. *)
Theorem C105_order_refuted :
  ~ (forall (Gen Py Np : Type) seeded fresh ints choice rounds sample perm
       (w : @world Py Np) h1 h2 s n, w_seed w = None ->
       in_force (w_env w) h1 s -> in_force (w_env w) h2 s ->
       @after Gen Py Np seeded fresh ints choice rounds sample perm w h1 (Order n)
       = @after Gen Py Np seeded fresh ints choice rounds sample perm w h2 (Order n)).
Proof.
  intros H.
  specialize (H nat nat nat Z.to_nat (fun i => 100 + i) k_ints k_choice k_rounds k_sample k_perm
    (k_world None 0 0) [SetSeed (AInt 7)] [SetSeed (AInt 7); Order 6] 7%Z 6 eq_refl).
  assert (F : in_force None [@SetSeed nat nat (AInt 7)] 7).
  { apply (C105_set_seed None [] []); [lia|]. intros a []. }
  assert (F2 : in_force None [@SetSeed nat nat (AInt 7); Order 6] 7).
  { apply (C105_set_seed None [] [Order 6]); [lia|]. intros a [X|[]]. discriminate X. }
  specialize (H F F2). vm_compute in H. discriminate H.
Qed.
Print Assumptions C105_order_refuted.

(** ** Examples *)
Definition t_42 : text := chars [32; 43; 52; 95; 50; 10].  (* " +4_2\n" *)
Definition t_neg : text := chars [45; 49].                 (* "-1" *)

Example C105_example_texts :
  whole_text t_42 42 /\ whole_text t_neg (-1) /\
  (forall z, ~ whole_text (chars [52; 95; 95; 50]) z) /\ (forall z, ~ whole_text [] z) /\
  (forall z, ~ whole_text (chars [52; 46; 48]) z).
Proof.
  split; [apply py_int_iff; reflexivity|]. split; [apply py_int_iff; reflexivity|].
  repeat split; intros z W; apply py_int_iff in W; discriminate W.
Qed.

Example C105_example :
  fst (k_run [Rows 5 2; SetSeed (AInt (-3)); Rows 5 2; SetSeed (AInt 7); Rows 5 2; Shown 7;
              Order 3; Rows 5 2; Shown 7; Lines 6 2; SetSeed ANone; Rows 0 2; Shown 3]
             (k_world (Some t_neg) 0 0))
  = [Chunks [[0; 2]; [1; 4]; [3]] true; Raised ValueError; Chunks [[1; 3]; [0; 2]; [4]] true;
     Done; Chunks [[2; 1]; [0; 3]; [4]] false; Positions [0; 1; 2; 3; 4] false;
     Positions [0; 1; 2] false; Chunks [[2; 1]; [0; 3]; [4]] false;
     Positions [0; 1; 2; 3; 4] false; Taken (Some (Ok [5; 3])) false; Done; Chunks [] false;
     Positions [0; 1; 2] true] /\
  k_after (k_world (Some t_42) 0 0) [] (Shown 9)
  = k_after (k_world None 5 5) [Order 4; SetSeed (AInt 42); Rows 9 9] (Shown 9) /\
  k_after (k_world (Some t_42) 0 0) [] (Shown 9) = Positions [6; 7; 8; 0; 1] false /\
  draws (@Rows nat nat 5 2) /\ by_seed (@Lines nat nat 6 2).
Proof.
  repeat split; try (vm_compute; reflexivity).
  - left. exists 5, 2. auto.
  - right. right. eauto.
Qed.
