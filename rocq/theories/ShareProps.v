(** * C107: how labelers are made and what they share *)
From Coq Require Import List Arith Bool Lia.
Import ListNotations.
From Verif Require Import PyCommon PyString ShareModel.
Import String.StringSyntax.
Local Delimit Scope string_scope with string.
Local Open Scope nat_scope.

Lemma library_name_idem t : library_name (library_name t) = library_name t.
Proof.
  unfold library_name. destruct (String.eqb t "structured"%string) eqn:A; [reflexivity|].
  destruct (String.eqb t "unstructured"%string) eqn:B; [reflexivity|]. rewrite A, B. reflexivity.
Qed.

Section Props.
  Context {S : Type} (disk : string -> result ((sort * S) * (sort * S) * (sort * S))) (lib : string -> string).

  Notation heap := (@heap S).
  Notation exec := (exec disk lib).
  Notation run := (run disk lib).
  Notation view := (@view S).

  (** Labeler [n] holds the object [i] as part [x] *)
  Definition holds (h : heap) (n : nat) (x : part) (i : nat) : Prop :=
    exists l, nth_error (h_labs h) n = Some l /\ the_part l x = Some i.

  (** Labeler [n] is of class [c] and has the three parts stored in directory [d] *)
  Definition has (h : heap) (n : nat) (c : lclass) (d : string) : Prop :=
    (exists l, nth_error (h_labs h) n = Some l /\ l_class l = c) /\
    exists m p q, disk d = Ok (m, p, q) /\
      view h n Mod = Some m /\ view h n Pre = Some p /\ view h n Post = Some q.

  (** ** Facts about lists *)
  Lemma length_replace {A} (l : list A) i x : length (replace l i x) = length l.
  Proof. revert i; induction l as [|y r IH]; intros [|i]; cbn; auto. Qed.

  Lemma nth_replace {A} (l : list A) i j x :
    nth_error (replace l i x) j =
    if Nat.eqb i j then match nth_error l j with Some _ => Some x | None => None end else nth_error l j.
  Proof.
    revert i j; induction l as [|y r IH]; intros [|i] [|j]; cbn [replace nth_error Nat.eqb]; auto.
    - destruct (Nat.eqb i j); reflexivity.
  Qed.

  Lemma nth_end {A} (l : list A) x : nth_error (l ++ [x]) (length l) = Some x.
  Proof. rewrite nth_error_app2, Nat.sub_diag by lia. reflexivity. Qed.

  Lemma nth_app_l {A} (l r : list A) n x : nth_error l n = Some x -> nth_error (l ++ r) n = Some x.
  Proof.
    intros H. rewrite nth_error_app1; auto. apply nth_error_Some. congruence.
  Qed.

  (** ** What the makers do to the heap *)
  Definition grown (h h' : heap) (n : nat) (l : labeler) (new : list (sort * S)) : Prop :=
    n = length (h_labs h) /\ h_labs h' = h_labs h ++ [l] /\ h_comps h' = h_comps h ++ new.

  Lemma load_spec c d h r h' :
    load disk c d h = (r, h') ->
    match r with
    | Err e => h' = h
    | Ok n => exists m p q, disk d = Ok (m, p, q) /\
        check_model c (fst m) = None /\ fst p = SPre /\ fst q = SPost /\
        grown h h' n (mkLab c (default_loc c) (Some (length (h_comps h) + 1)) (Some (length (h_comps h)))
                        (Some (length (h_comps h) + 2))) [m; p; q]
    end.
  Proof.
    unfold load. destruct (disk d) as [[[m p] q]|e].
    - destruct (check_model c (fst m)) as [e1|] eqn:E1; [intros [= <- <-]; reflexivity|].
      destruct (check_pre (fst p)) as [e2|] eqn:E2; [intros [= <- <-]; reflexivity|].
      destruct (check_post (fst q)) as [e3|] eqn:E3; [intros [= <- <-]; reflexivity|].
      unfold put. cbn [h_labs h_comps]. intros [= <- <-].
      exists m, p, q. split; [reflexivity|]. split; [assumption|].
      split; [destruct (fst p); cbn in E2; congruence|].
      split; [destruct (fst q); cbn in E3; congruence|].
      repeat split; reflexivity.
    - intros [= <- <-]; reflexivity.
  Qed.

  Lemma init_spec c a h r h' :
    init disk lib c a h = (r, h') ->
    match r with
    | Err e => h' = h
    | Ok n =>
        ((a = PNone \/ a = PText ""%string) /\ default_loc c = None /\
         grown h h' n (mkLab c None None None None) []) \/
        exists d m p q, (a = PText d \/ a = PNone /\ exists loc, default_loc c = Some loc /\ d = lib loc) /\
          disk d = Ok (m, p, q) /\
          check_model c (fst m) = None /\ fst p = SPre /\ fst q = SPost /\
          grown h h' n (mkLab c (default_loc c) (Some (length (h_comps h) + 1)) (Some (length (h_comps h)))
                          (Some (length (h_comps h) + 2))) [m; p; q]
    end.
  Proof.
    unfold init. destruct a as [|d|].
    - destruct (default_loc c) as [loc|] eqn:D; intros H.
      + apply load_spec in H. destruct r as [n|e]; auto. right.
        destruct H as (m & p & q & H). rewrite D in H. exists (lib loc), m, p, q.
        split; [right; split; [reflexivity|]; exists loc; auto|]. exact H.
      + unfold put in H. injection H as <- <-. left. split; [auto|]. split; [reflexivity|].
        repeat split; cbn; try reflexivity. symmetry; apply app_nil_r.
    - destruct (String.eqb d ""%string && match default_loc c with None => true | Some _ => false end) eqn:E; intros H.
      + apply andb_true_iff in E. destruct E as [E1 E2]. apply String.eqb_eq in E1. subst d.
        destruct (default_loc c) eqn:D; [discriminate|].
        unfold put in H. injection H as <- <-. left. split; [auto|]. split; [reflexivity|].
        repeat split; cbn; try reflexivity. symmetry; apply app_nil_r.
      + apply load_spec in H. destruct r as [n|e]; auto. right.
        destruct H as (m & p & q & H). exists d, m, p, q. split; [auto|]. exact H.
    - intros [= <- <-]. reflexivity.
  Qed.

  Lemma put_at_end (l l' : labeler) (ls : list labeler) :
    replace (ls ++ [l]) (length ls) l' = ls ++ [l'].
  Proof. induction ls as [|y r IH]; cbn; [reflexivity|]. f_equal. exact IH. Qed.

  Lemma library_spec s b h r h' :
    from_library disk lib s b h = (r, h') ->
    let c := if b then CTrainable else CBase in
    match r with
    | Err e => h' = h
    | Ok n =>
        (lib (library_name s) = ""%string /\
         grown h h' n (mkLab c (Some (library_name s)) None None None) []) \/
        exists m p q, disk (lib (library_name s)) = Ok (m, p, q) /\
          check_model c (fst m) = None /\ fst p = SPre /\ fst q = SPost /\
          grown h h' n (mkLab c (Some (library_name s)) (Some (length (h_comps h) + 1)) (Some (length (h_comps h)))
                          (Some (length (h_comps h) + 2))) [m; p; q]
    end.
  Proof.
    unfold from_library. cbv zeta. set (c := if b then CTrainable else CBase).
    destruct (init disk lib c (PText (lib (library_name s))) h) as [r1 h1] eqn:E.
    apply init_spec in E. destruct r1 as [n|e].
    - assert (K : forall l new, grown h h1 n l new ->
                 match nth_error (h_labs h1) n with
                 | Some l0 => (Ok n, mkHeap (h_comps h1) (replace (h_labs h1) n
                       (mkLab (l_class l0) (Some (library_name s)) (l_pre l0) (l_model l0) (l_post l0))))
                 | None => (Ok n, h1) end = (r, h') ->
                 r = Ok n /\ grown h h' n (mkLab (l_class l) (Some (library_name s)) (l_pre l) (l_model l) (l_post l)) new).
      { intros l new (G1 & G2 & G3) H. rewrite G2 in H. subst n. rewrite nth_end in H.
        rewrite put_at_end in H. injection H as <- <-. split; [reflexivity|].
        repeat split. cbn. exact G3. }
      intros H. destruct E as [(A & D & G)|(d & m & p & q & A & D & M & P & Q & G)].
      + destruct (K _ _ G H) as [-> G']. left. split; [|exact G'].
        destruct A as [A|A]; [discriminate|]. injection A as A. exact A.
      + destruct (K _ _ G H) as [-> G']. right. exists m, p, q.
        assert (d = lib (library_name s)) by (destruct A as [A|[A _]]; [congruence|discriminate]).
        subst d. split; [exact D|]. split; [exact M|]. split; [exact P|]. split; [exact Q|]. exact G'.
    - intros [= <- <-]. exact E.
  Qed.

  (** Every maker appends one labeler; its parts are new, or given *)
  Definition good_parts (h : heap) (l : labeler) : Prop :=
    (forall i, l_pre l = Some i -> sort_of h i = SPre) /\
    (forall i, l_post l = Some i -> sort_of h i = SPost) /\
    (forall i, l_model l = Some i -> exists f, sort_of h i = SModel f /\
       (trainable_class (l_class l) = true -> f = true)).

  Lemma check_model_sort c s : check_model c s = None ->
    exists f, s = SModel f /\ (trainable_class c = true -> f = true).
  Proof.
    unfold check_model. destruct (trainable_class c), s as [|[]| |[]]; try discriminate;
      intros _; eexists; (split; [reflexivity|]); auto; discriminate.
  Qed.

  Lemma sort_of_new (h h' : heap) new j x :
    h_comps h' = h_comps h ++ new -> nth_error new j = Some x -> sort_of h' (length (h_comps h) + j) = fst x.
  Proof.
    intros E N. unfold sort_of. rewrite E, nth_error_app2 by lia.
    replace (length (h_comps h) + j - length (h_comps h)) with j by lia. rewrite N. destruct x; reflexivity.
  Qed.

  Lemma good_new (h h' : heap) c loc m p q :
    h_comps h' = h_comps h ++ [m; p; q] ->
    check_model c (fst m) = None -> fst p = SPre -> fst q = SPost ->
    good_parts h' (mkLab c loc (Some (length (h_comps h) + 1)) (Some (length (h_comps h)))
                          (Some (length (h_comps h) + 2))).
  Proof.
    intros E M P Q. repeat split; cbn; intros i [= <-].
    - rewrite (sort_of_new h h' _ 1 p E); auto.
    - rewrite (sort_of_new h h' _ 2 q E); auto.
    - apply check_model_sort in M. replace (length (h_comps h)) with (length (h_comps h) + 0) by lia.
      rewrite (sort_of_new h h' _ 0 m E); auto.
  Qed.

  Definition fresh_or (h : heap) (l : labeler) (given : nat -> Prop) : Prop :=
    forall x i, the_part l x = Some i -> length (h_comps h) <= i \/ given i.

  Definition given (c : @command S) (i : nat) : Prop :=
    match c with
    | WithComponents p m q _ => i = p \/ i = m \/ i = q
    | SetPart _ _ j => i = j
    | _ => False
    end.

  Definition maker (c : @command S) : bool :=
    match c with Make _ _ _ | FromLibrary _ _ | FromDisk _ _ | WithComponents _ _ _ _ => true | _ => false end.

  Lemma sort_of_lt (h : heap) i s : sort_of h i = s -> s <> SOther false -> i < length (h_comps h).
  Proof.
    unfold sort_of. intros H N. apply nth_error_Some. intros K. rewrite K in H. congruence.
  Qed.

  Lemma maker_spec c h r h' : maker c = true -> exec c h = (r, h') ->
    match r with
    | Err _ => h' = h
    | Ok n => exists l new, grown h h' n l new /\ good_parts h' l /\ fresh_or h l (given c)
    end.
  Proof.
    assert (I : forall cl a r h', init disk lib cl a h = (r, h') ->
              match r with
              | Err _ => h' = h
              | Ok n => exists l new, grown h h' n l new /\ good_parts h' l /\ fresh_or h l (given c)
              end).
    { intros cl a r0 h0 H. apply init_spec in H. destruct r0 as [n|e]; auto.
      destruct H as [(_ & _ & G)|(d & m & p & q & _ & _ & M & P & Q & G)].
      - eexists; eexists; split; [exact G|]. split.
        + repeat split; cbn; discriminate.
        + intros [] i; cbn; discriminate.
      - eexists; eexists; split; [exact G|]. split.
        + destruct G as (_ & _ & G). eapply good_new; eauto.
        + intros [] i; cbn; intros [= <-]; left; lia. }
    intros MK H. destruct c as [s v|t d b|s b|d b|p m q b|n x i|n x f]; try discriminate; cbn [ShareModel.exec] in H.
    - unfold make in H. destruct (class_of t); [|injection H as <- <-; reflexivity].
      destruct b; eapply I; exact H.
    - apply library_spec in H. destruct r as [n|e]; auto.
      destruct H as [(_ & G)|(m & p & q & _ & M & P & Q & G)].
      + eexists; eexists; split; [exact G|]. split.
        * repeat split; cbn; discriminate.
        * intros [] i; cbn; discriminate.
      + eexists; eexists; split; [exact G|]. split.
        * destruct G as (_ & _ & G). eapply good_new; eauto.
        * intros [] i; cbn; intros [= <-]; left; lia.
    - eapply I; exact H.
    - unfold with_components in H. set (c := if b then CCustomTrainable else CCustom) in H.
      destruct (check_pre (sort_of h p)) as [e1|] eqn:E1; [injection H as <- <-; reflexivity|].
      destruct (check_model c (sort_of h m)) as [e2|] eqn:E2; [injection H as <- <-; reflexivity|].
      destruct (check_post (sort_of h q)) as [e3|] eqn:E3; [injection H as <- <-; reflexivity|].
      unfold put in H. injection H as <- <-. exists (mkLab c None (Some p) (Some m) (Some q)), [].
      split; [repeat split; cbn; symmetry; apply app_nil_r|]. split.
      + unfold good_parts. cbn [l_pre l_model l_post l_class]. unfold sort_of. cbn [h_comps].
        fold (sort_of h). repeat split; intros i [= <-].
        * unfold sort_of in E1. destruct (nth_error (h_comps h) p) as [[[] ?]|]; cbn in E1; try discriminate; reflexivity.
        * unfold sort_of in E3. destruct (nth_error (h_comps h) q) as [[[] ?]|]; cbn in E3; try discriminate; reflexivity.
        * apply check_model_sort in E2. exact E2.
      + intros [] i; cbn; intros [= <-]; auto.
  Qed.

  (** ** A call that fails changes nothing *)
  Theorem C107_fails : forall c h e h', exec c h = (Err e, h') -> h' = h.
  Proof.
    intros c h e h' H. destruct (maker c) eqn:MK; [exact (maker_spec c h _ _ MK H)|].
    destruct c as [s v|t d b|s b|d b|p m q b|n x i|n x f]; try discriminate; cbn [ShareModel.exec] in H.
    - unfold set_part in H. destruct (nth_error (h_labs h) n) as [l|]; [|congruence].
      destruct (check_part (l_class l) x (sort_of h i)); congruence.
    - unfold change in H. destruct (nth_error (h_labs h) n) as [l|]; [|congruence].
      destruct (the_part l x) as [i|]; [|congruence].
      destruct (nth_error (h_comps h) i) as [[s v]|]; congruence.
  Qed.

  Lemma view_grown h h' n l new : grown h h' n l new ->
    (forall k x i, holds h k x i -> i < length (h_comps h)) ->
    forall k x, k < length (h_labs h) -> view h' k x = view h k x.
  Proof.
    intros (G1 & G2 & G3) W k x K. unfold ShareModel.view. rewrite G2, nth_error_app1 by exact K.
    destruct (nth_error (h_labs h) k) as [l0|] eqn:E; [|reflexivity].
    destruct (the_part l0 x) as [i|] eqn:P; [|reflexivity].
    rewrite G3, nth_error_app1; [reflexivity|]. apply (W k x i). exists l0; auto.
  Qed.

  (** ** What is true after any sequence of calls *)
  Definition sound (h : heap) : Prop :=
    (forall k x i, holds h k x i -> i < length (h_comps h)) /\
    (forall k l, nth_error (h_labs h) k = Some l -> good_parts h l).

  Lemma sort_of_app (h h' : heap) new i : h_comps h' = h_comps h ++ new ->
    i < length (h_comps h) -> sort_of h' i = sort_of h i.
  Proof. intros E L. unfold sort_of. rewrite E, nth_error_app1 by exact L. reflexivity. Qed.

  Lemma good_lt (h : heap) l x i : good_parts h l -> the_part l x = Some i -> i < length (h_comps h).
  Proof.
    intros (A & B & C) H. destruct x; cbn in H.
    - eapply sort_of_lt; [apply A; exact H|discriminate].
    - destruct (C i H) as (f & E & _). eapply sort_of_lt; [exact E|discriminate].
    - eapply sort_of_lt; [apply B; exact H|discriminate].
  Qed.

  Lemma good_grow (h h' : heap) new l : h_comps h' = h_comps h ++ new -> good_parts h l -> good_parts h' l.
  Proof.
    intros E G. pose proof (good_lt h l) as L. destruct G as (A & B & C). repeat split; intros i H.
    - rewrite (sort_of_app h h' new i E); auto. apply (L Pre i); [repeat split; assumption|exact H].
    - rewrite (sort_of_app h h' new i E); auto. apply (L Post i); [repeat split; assumption|exact H].
    - rewrite (sort_of_app h h' new i E); auto. apply (L Mod i); [repeat split; assumption|exact H].
  Qed.

  Lemma sound_intro (h : heap) : (forall k l, nth_error (h_labs h) k = Some l -> good_parts h l) -> sound h.
  Proof.
    intros G. split; [|exact G]. intros k x i (l & E & P). exact (good_lt h l x i (G k l E) P).
  Qed.

  Lemma sound_exec c h : sound h -> sound (snd (exec c h)).
  Proof.
    intros SD. destruct (exec c h) as [[n|e] h'] eqn:H; [|apply C107_fails in H; subst; exact SD].
    cbn [snd]. destruct SD as [W G]. apply sound_intro. intros k l0 K.
    destruct (maker c) eqn:MK.
    - pose proof (maker_spec c h _ _ MK H) as (l & new & (G1 & G2 & G3) & GP & _).
      rewrite G2 in K. destruct (Nat.lt_ge_cases k (length (h_labs h))) as [L|L].
      + rewrite nth_error_app1 in K by exact L. eapply good_grow; [exact G3|]. eapply G; exact K.
      + rewrite nth_error_app2 in K by exact L.
        destruct (k - length (h_labs h)) as [|j]; cbn in K; [injection K as <-; exact GP|destruct j; discriminate].
    - destruct c as [s v|t d b|s b|d b|p m q b|n0 x i|n0 x f]; try discriminate; cbn [ShareModel.exec] in H.
      + injection H as <- <-. cbn [h_labs] in K. eapply good_grow; [cbn; reflexivity|]. eapply G; exact K.
      + unfold set_part in H. destruct (nth_error (h_labs h) n0) as [l|] eqn:E; [|congruence].
        destruct (check_part (l_class l) x (sort_of h i)) eqn:CK; [congruence|]. injection H as <- <-.
        cbn [h_labs] in K. rewrite nth_replace in K. destruct (Nat.eqb n0 k) eqn:EK.
        * destruct (nth_error (h_labs h) k); [|discriminate]. injection K as <-.
          destruct (G n0 l E) as (A & B & C).
          destruct x; cbn [check_part] in CK; repeat split; cbn [with_part l_pre l_model l_post l_class];
            intros j J; try (apply (A j J)); try (apply (B j J)); try (apply (C j J)); injection J as <-; unfold sort_of in *; cbn [h_comps].
          -- destruct (match nth_error (h_comps h) i with Some (s, _) => s | None => SOther false end); cbn in CK; congruence.
          -- apply check_model_sort in CK. exact CK.
          -- destruct (match nth_error (h_comps h) i with Some (s, _) => s | None => SOther false end); cbn in CK; congruence.
        * apply (G k l0 K).
      + unfold change in H. destruct (nth_error (h_labs h) n0) as [l|] eqn:E; [|congruence].
        destruct (the_part l x) as [i|]; [|congruence].
        destruct (nth_error (h_comps h) i) as [[s v]|] eqn:EI; [|congruence]. injection H as <- <-.
        cbn [h_labs] in K. assert (SO : forall j, sort_of (mkHeap (replace (h_comps h) i (s, f v)) (h_labs h)) j = sort_of h j).
        { intros j. unfold sort_of. cbn [h_comps]. rewrite nth_replace. destruct (Nat.eqb i j) eqn:EJ; [|reflexivity].
          apply Nat.eqb_eq in EJ. subst j. rewrite EI. reflexivity. }
        destruct (G k l0 K) as (A & B & C). repeat split; intros j J; rewrite SO; auto.
  Qed.

  Lemma run_snoc cs c h : run (cs ++ [c]) h = snd (exec c (run cs h)).
  Proof. revert h; induction cs as [|a r IH]; intros h; cbn [app ShareModel.run]; auto. Qed.

  Lemma sound_run cs h : sound h -> sound (run cs h).
  Proof. revert h; induction cs as [|c r IH]; intros h SD; cbn [ShareModel.run]; auto using sound_exec. Qed.

  Lemma sound_empty : sound empty.
  Proof. apply sound_intro. intros [|k] l; discriminate. Qed.

  (** ** The parts of a labeler are always of the right kind *)
  Theorem C107_kinds : forall cs n, let h := run cs empty in
    (forall s v, view h n Pre = Some (s, v) -> s = SPre) /\
    (forall s v, view h n Post = Some (s, v) -> s = SPost) /\
    (forall s v, view h n Mod = Some (s, v) -> exists f, s = SModel f /\
       forall l, nth_error (h_labs h) n = Some l -> trainable_class (l_class l) = true -> f = true).
  Proof.
    intros cs n h. destruct (sound_run cs empty sound_empty) as [W G]. fold h in W, G.
    unfold ShareModel.view. destruct (nth_error (h_labs h) n) as [l|] eqn:E; [|repeat split; intros; discriminate].
    destruct (G n l E) as (A & B & C). unfold sort_of in *.
    repeat split; intros s v H; cbn [the_part] in H.
    - destruct (l_pre l) as [i|]; [|discriminate]. specialize (A i eq_refl). rewrite H in A. exact A.
    - destruct (l_post l) as [i|]; [|discriminate]. specialize (B i eq_refl). rewrite H in B. exact B.
    - destruct (l_model l) as [i|]; [|discriminate]. destruct (C i eq_refl) as (f & F & T). rewrite H in F.
      exists f. split; [exact F|]. intros l1 [= <-]. exact T.
  Qed.

  (** ** What each way of making a labeler gives *)
  Lemma has_grown h h' n c loc m p q d : disk d = Ok (m, p, q) ->
    grown h h' n (mkLab c loc (Some (length (h_comps h) + 1)) (Some (length (h_comps h)))
                          (Some (length (h_comps h) + 2))) [m; p; q] ->
    has h' n c d /\ saved_as h' n = match loc with Some s => Ok s | None => Err ValueError end.
  Proof.
    intros D (G1 & G2 & G3). subst n.
    assert (E : nth_error (h_labs h') (length (h_labs h)) = Some (mkLab c loc (Some (length (h_comps h) + 1)) (Some (length (h_comps h)))
                          (Some (length (h_comps h) + 2)))) by (rewrite G2; apply nth_end).
    assert (NN : forall j x, nth_error [m; p; q] j = Some x -> nth_error (h_comps h') (length (h_comps h) + j) = Some x).
    { intros j x N. rewrite G3, nth_error_app2 by lia.
      replace (length (h_comps h) + j - length (h_comps h)) with j by lia. exact N. }
    split; [split|].
    - eexists; split; [exact E|reflexivity].
    - exists m, p, q. split; [exact D|]. unfold ShareModel.view. rewrite E. cbn [the_part l_pre l_model l_post].
      split; [|split].
      + rewrite <- (NN 0 m eq_refl). f_equal. lia.
      + apply (NN 1 p eq_refl).
      + apply (NN 2 q eq_refl).
    - unfold saved_as. rewrite E. reflexivity.
  Qed.

  Definition model_dir (t : string) : string :=
    if String.eqb t "structured"%string then "structured_model"%string else "unstructured_model"%string.

  Theorem C107_made : forall h, (forall s, lib s <> ""%string) ->
    (* DataLabeler(t, dirpath, trainable) *)
    (forall t a b n h', exec (Make t a b) h = (Ok n, h') ->
       (t = "structured"%string \/ t = "unstructured"%string) /\ a <> POther /\
       forall d, (a = PNone /\ d = lib (model_dir t)) \/ (a = PText d /\ d <> ""%string) ->
       has h' n (if b then CTrainable else if String.eqb t "structured"%string then CStructured else CUnstructured) d /\
       saved_as h' n = if b then Err ValueError else Ok (model_dir t)) /\
    (* load_from_library(name, trainable) *)
    (forall s b n h', exec (FromLibrary s b) h = (Ok n, h') ->
       has h' n (if b then CTrainable else CBase) (lib (library_name s)) /\ saved_as h' n = Ok (library_name s)) /\
    (* load_from_disk(dirpath, trainable) *)
    (forall d b n h', d <> ""%string -> exec (FromDisk (PText d) b) h = (Ok n, h') ->
       has h' n (if b then CTrainable else CBase) d /\ saved_as h' n = Err ValueError) /\
    (* load_with_components *)
    (forall p m q b n h', exec (WithComponents p m q b) h = (Ok n, h') ->
       holds h' n Pre p /\ holds h' n Mod m /\ holds h' n Post q /\ saved_as h' n = Err ValueError).
  Proof.
    intros h L. assert (I : forall c a n h', init disk lib c a h = (Ok n, h') ->
      a <> POther /\
      forall d, (a = PNone /\ exists loc, default_loc c = Some loc /\ d = lib loc) \/ (a = PText d /\ d <> ""%string) ->
      has h' n c d /\ saved_as h' n = match default_loc c with Some s => Ok s | None => Err ValueError end).
    { intros c a n h' H. split; [intros ->; discriminate|]. apply init_spec in H. intros d A.
      destruct H as [(B & D & G)|(d' & m & p & q & B & D & M & P & Q & G)].
      - destruct A as [(-> & loc & E & _)|[-> N]]; [congruence|]. destruct B as [B|B]; congruence.
      - assert (d' = d).
        { destruct A as [(-> & loc & E & ->)|[-> N]].
          - destruct B as [B|(_ & loc' & E' & ->)]; [discriminate|]. congruence.
          - destruct B as [B|(B & _)]; [|discriminate]. congruence. }
        subst d'. exact (has_grown _ _ _ _ _ _ _ _ _ D G). }
    refine (conj _ (conj _ (conj _ _))).
    - intros t a b n h' H. cbn [ShareModel.exec] in H.
      assert (T : t = "structured"%string \/ t = "unstructured"%string).
      { unfold make, class_of in H.
        destruct (String.eqb t "structured"%string) eqn:E1; [left; apply String.eqb_eq; exact E1|].
        destruct (String.eqb t "unstructured"%string) eqn:E2; [right; apply String.eqb_eq; exact E2|discriminate]. }
      split; [exact T|]. split.
      { intros ->. unfold make in H. destruct (class_of t) as [c|]; [|discriminate]. destruct b; discriminate. }
      intros d A.
      destruct T as [-> | ->]; unfold make, class_of in H; cbn in H; unfold model_dir in *; cbn in A |- *;
        destruct b; apply I in H; destruct H as [_ H]; apply H;
        (destruct A as [[-> ->]|[-> N]]; [|right; split; [reflexivity|exact N]]); cbn;
        first [left; split; [reflexivity|]; eexists; split; reflexivity | right; split; [reflexivity|apply L]].
    - intros s b n h' H. cbn [ShareModel.exec] in H. apply library_spec in H.
      destruct H as [(E & _)|(m & p & q & D & _ & _ & _ & G)]; [elim (L _ E)|].
      exact (has_grown _ _ _ _ _ _ _ _ _ D G).
    - intros d b n h' N H. cbn [ShareModel.exec] in H. unfold from_disk in H. apply I in H. destruct H as [_ H].
      destruct (H d (or_intror (conj eq_refl N))) as [H1 H2]. split; [exact H1|]. rewrite H2. destruct b; reflexivity.
    - intros p m q b n h'. cbn [ShareModel.exec]; unfold with_components.
      destruct (check_pre (sort_of h p)); [discriminate|].
      destruct (check_model _ (sort_of h m)); [discriminate|].
      destruct (check_post (sort_of h q)); [discriminate|].
      unfold put. intros [= <- <-]. unfold holds, saved_as; cbn [h_labs]; rewrite nth_end.
      split; [|split; [|split]]; [eexists; split; reflexivity..|reflexivity].
  Qed.

  (** ** Which calls are accepted *)
  Theorem C107_types : forall h,
    (forall p m q b,
       (exists n h', exec (WithComponents p m q b) h = (Ok n, h')) <->
       sort_of h p = SPre /\ (exists f, sort_of h m = SModel f /\ (b = true -> f = true)) /\ sort_of h q = SPost) /\
    (forall n l x i, nth_error (h_labs h) n = Some l ->
       fst (exec (SetPart n x i) h) =
       match x, sort_of h i with
       | Pre, SPre => Ok n
       | Post, SPost => Ok n
       | Mod, SModel f => if trainable_class (l_class l) && negb f then Err ValueError else Ok n
       | Mod, SOther true => Err TypeError
       | Mod, _ => if trainable_class (l_class l) then Err ValueError else Err TypeError
       | _, _ => Err TypeError
       end).
  Proof.
    intros h. split.
    - intros p m q b. cbn [ShareModel.exec]. unfold with_components. split.
      + intros (n & h' & H). destruct (check_pre (sort_of h p)) eqn:E1; [discriminate|].
        destruct (check_model _ (sort_of h m)) eqn:E2; [discriminate|].
        destruct (check_post (sort_of h q)) eqn:E3; [discriminate|]. split; [|split].
        * destruct (sort_of h p); cbn in E1; congruence.
        * apply check_model_sort in E2. destruct E2 as (f & F & T). exists f. split; [exact F|].
          intros ->. apply T. reflexivity.
        * destruct (sort_of h q); cbn in E3; congruence.
      + intros (-> & (f & -> & T) & ->). cbn [check_pre check_post]. unfold check_model.
        destruct b; cbn [trainable_class]; [rewrite (T eq_refl)|]; unfold put; eauto.
    - intros n l x i E. cbn [ShareModel.exec]. unfold set_part. rewrite E. unfold check_part.
      destruct x, (sort_of h i) as [|[]| |[]]; cbn [check_pre check_post]; unfold check_model;
        destruct (trainable_class (l_class l)); reflexivity.
  Qed.

  (** ** Making labelers and components changes no labeler there was *)
  Theorem C107_others : forall cs c n x, let h := run cs empty in
    (forall m y f, c <> Change m y f) -> (forall m y i, c <> SetPart m y i) ->
    n < length (h_labs h) -> view (snd (exec c h)) n x = view h n x /\ saved_as (snd (exec c h)) n = saved_as h n.
  Proof.
    intros cs c n x h C1 C2 L. pose proof (sound_run cs empty sound_empty) as SD. fold h in SD.
    destruct (exec c h) as [[k|e] h'] eqn:H; [|apply C107_fails in H; subst h'; split; reflexivity]. cbn [snd].
    destruct (maker c) eqn:MK.
    - pose proof (maker_spec c h _ _ MK H) as (l & new & G & _). split.
      + eapply view_grown; [exact G|exact (proj1 SD)|exact L].
      + destruct G as (_ & G & _). unfold saved_as. rewrite G, nth_error_app1 by exact L. reflexivity.
    - destruct c as [s v|t d b|s b|d b|p m q b|m y i|m y f]; try discriminate.
      + cbn [ShareModel.exec] in H. injection H as <- <-. split; [|reflexivity]. unfold ShareModel.view. cbn [h_labs h_comps].
        destruct (nth_error (h_labs h) n) as [l|] eqn:E; [|reflexivity].
        destruct (the_part l x) as [i|] eqn:P; [|reflexivity].
        rewrite nth_error_app1; [reflexivity|]. apply (proj1 SD n x i). exists l; auto.
      + elim (C2 m y i eq_refl).
      + elim (C1 m y f eq_refl).
  Qed.

  (** ** A change through a labeler is seen by exactly those that hold the object *)
  Theorem C107_change : forall h n x f k h', exec (Change n x f) h = (Ok k, h') ->
    exists i, holds h n x i /\
    forall m y,
      (holds h m y i -> view h' m y = match view h m y with Some (s, v) => Some (s, f v) | None => None end) /\
      (~ holds h m y i -> view h' m y = view h m y).
  Proof.
    intros h n x f k h' H. cbn [ShareModel.exec] in H. unfold change in H.
    destruct (nth_error (h_labs h) n) as [l|] eqn:E; [|discriminate].
    destruct (the_part l x) as [i|] eqn:P; [|discriminate].
    destruct (nth_error (h_comps h) i) as [[s v]|] eqn:EI; [|discriminate]. injection H as <- <-.
    exists i. split; [exists l; auto|]. intros m y. split.
    - intros (l' & E' & P'). unfold ShareModel.view. cbn [h_labs h_comps]. rewrite E', P', nth_replace, Nat.eqb_refl, EI.
      reflexivity.
    - intros N. unfold ShareModel.view. cbn [h_labs h_comps]. destruct (nth_error (h_labs h) m) as [l'|] eqn:E'; [|reflexivity].
      destruct (the_part l' y) as [j|] eqn:P'; [|reflexivity]. rewrite nth_replace.
      destruct (Nat.eqb i j) eqn:EJ; [|reflexivity]. apply Nat.eqb_eq in EJ. subst j. elim N. exists l'; auto.
  Qed.

  (** A part that is set is the object itself; nothing else changes *)
  Theorem C107_set : forall h n x i k h', exec (SetPart n x i) h = (Ok k, h') ->
    holds h' n x i /\ h_comps h' = h_comps h /\
    forall m y j, (m <> n \/ y <> x) -> (holds h' m y j <-> holds h m y j).
  Proof.
    intros h n x i k h' H. cbn [ShareModel.exec] in H. unfold set_part in H.
    destruct (nth_error (h_labs h) n) as [l|] eqn:E; [|discriminate].
    destruct (check_part (l_class l) x (sort_of h i)); [discriminate|]. injection H as <- <-.
    assert (N : nth_error (replace (h_labs h) n (with_part l x i)) n = Some (with_part l x i))
      by (rewrite nth_replace, Nat.eqb_refl, E; reflexivity).
    split; [|split; [reflexivity|]].
    - eexists; split; [exact N|]. destruct x; reflexivity.
    - intros m y j D. unfold holds. cbn [h_labs]. rewrite nth_replace. destruct (Nat.eqb n m) eqn:EN; [|reflexivity].
      apply Nat.eqb_eq in EN. subst m. destruct D as [D|D]; [congruence|]. rewrite E.
      split; intros (l' & [= <-] & P); eexists; (split; [reflexivity|]);
        destruct x, y; cbn in *; congruence.
  Qed.

  (** ** Labelers share nothing, unless a component of one is given to another *)
  Definition unshared (h : heap) : Prop :=
    forall n m x y i, holds h n x i -> holds h m y i -> n = m.

  (** The components given in a call belong to no labeler *)
  Definition lone (c : @command S) (h : heap) : Prop :=
    forall i, given c i -> forall n x, ~ holds h n x i.
  Fixpoint lone_run (cs : list (@command S)) (h : heap) : Prop :=
    match cs with [] => True | c :: r => lone c h /\ lone_run r (snd (exec c h)) end.

  Lemma unshared_exec c h : sound h -> unshared h -> lone c h -> unshared (snd (exec c h)).
  Proof.
    intros SD U LN. destruct (exec c h) as [[k|e] h'] eqn:H; [|apply C107_fails in H; subst; exact U]. cbn [snd].
    destruct (maker c) eqn:MK.
    - pose proof (maker_spec c h _ _ MK H) as (l & new & (G1 & G2 & G3) & _ & F).
      assert (K : forall n x i, holds h' n x i -> (n < length (h_labs h) /\ holds h n x i) \/
                   (n = length (h_labs h) /\ the_part l x = Some i)).
      { intros n x i (l' & E & P). rewrite G2 in E. destruct (Nat.lt_ge_cases n (length (h_labs h))) as [L|L].
        - rewrite nth_error_app1 in E by exact L. left. split; [exact L|]. exists l'; auto.
        - rewrite nth_error_app2 in E by exact L. destruct (n - length (h_labs h)) as [|j] eqn:J.
          + cbn in E. injection E as <-. right. split; [lia|exact P].
          + destruct j; discriminate. }
      assert (N : forall n x i y, holds h n x i -> the_part l y = Some i -> False).
      { intros n x i y HH P. destruct (F y i P) as [B|B].
        - pose proof (proj1 SD n x i HH). lia.
        - exact (LN i B n x HH). }
      intros n m x y i A B. destruct (K _ _ _ A) as [(_ & A')|(A1 & A2)], (K _ _ _ B) as [(_ & B')|(B1 & B2)].
      + exact (U n m x y i A' B').
      + elim (N _ _ _ _ A' B2).
      + elim (N _ _ _ _ B' A2).
      + congruence.
    - destruct c as [s v|t d b|s b|d b|p m q b|n0 x i|n0 x f]; try discriminate; cbn [ShareModel.exec] in H.
      + injection H as <- <-. intros n m x y i A B. exact (U n m x y i A B).
      + unfold set_part in H. destruct (nth_error (h_labs h) n0) as [l|] eqn:E; [|congruence].
        destruct (check_part (l_class l) x (sort_of h i)); [congruence|]. injection H as <- <-.
        assert (K : forall n y j, holds (mkHeap (h_comps h) (replace (h_labs h) n0 (with_part l x i))) n y j ->
                     (n = n0 /\ j = i) \/ holds h n y j).
        { intros n y j (l' & E' & P). cbn [h_labs] in E'. rewrite nth_replace in E'. destruct (Nat.eqb n0 n) eqn:EN.
          - apply Nat.eqb_eq in EN. subst n. rewrite E in E'. injection E' as <-.
            destruct x, y; cbn in P; try (injection P as <-; left; split; reflexivity); right; exists l; auto.
          - right. exists l'; auto. }
        intros n m y z j A B. destruct (K _ _ _ A) as [[A1 A2]|A'], (K _ _ _ B) as [[B1 B2]|B'].
        * congruence.
        * subst. elim (LN i eq_refl m z B').
        * subst. elim (LN i eq_refl n y A').
        * exact (U n m y z j A' B').
      + unfold change in H. destruct (nth_error (h_labs h) n0) as [l|]; [|congruence].
        destruct (the_part l x) as [i|]; [|congruence].
        destruct (nth_error (h_comps h) i) as [[s v]|]; [|congruence]. injection H as <- <-.
        intros n m y z j A B. exact (U n m y z j A B).
  Qed.

  Lemma unshared_run cs h : sound h -> unshared h -> lone_run cs h -> unshared (run cs h).
  Proof.
    revert h; induction cs as [|c r IH]; intros h SD U L; cbn [ShareModel.run]; [exact U|].
    destruct L as [L1 L2]. apply IH; auto using sound_exec, unshared_exec.
  Qed.

  Theorem C107_apart : forall cs n x f m y, lone_run cs empty -> n <> m ->
    let h := run cs empty in view (snd (exec (Change n x f) h)) m y = view h m y.
  Proof.
    intros cs n x f m y L N h.
    assert (U : unshared h).
    { apply unshared_run; [exact sound_empty| |exact L]. intros a b s t i (l & E & _). destruct a; discriminate. }
    destruct (exec (Change n x f) h) as [[k|e] h'] eqn:H; [|apply C107_fails in H; subst; reflexivity]. cbn [snd].
    destruct (C107_change _ _ _ _ _ _ H) as (i & HI & K). apply (K m y). intros B. apply N. exact (U n m x y i HI B).
  Qed.

  (** In particular: labelers that are loaded, from the library or from disk, never share *)
  Theorem C107_loaded_apart : forall cs n x f m y,
    (forall c, In c cs -> match c with WithComponents _ _ _ _ | SetPart _ _ _ => False | _ => True end) ->
    n <> m -> let h := run cs empty in view (snd (exec (Change n x f) h)) m y = view h m y.
  Proof.
    intros cs n x f m y A N. apply C107_apart; [|exact N].
    generalize (@empty S). induction cs as [|c r IH]; intros h; cbn [lone_run]; [exact I|]. split.
    - specialize (A c (or_introl eq_refl)). intros i G. destruct c; cbn in G; contradiction.
    - apply IH. intros c' I'. apply A. right; exact I'.
  Qed.

  (** ** The labeler of a kind is the one of the library *)
  Theorem C107_same : forall cs t b b' n h1 k h2, (forall s, lib s <> ""%string) ->
    let h := run cs empty in
    exec (Make t PNone b) h = (Ok n, h1) -> exec (FromLibrary t b') h1 = (Ok k, h2) ->
    n <> k /\ (forall x, view h2 n x = view h2 k x /\ view h2 n x <> None) /\
    (forall same, (forall u, same u u = true) -> lab_eqb same h2 n k = true).
  Proof.
    intros cs t b b' n h1 k h2 L h H1 H2. pose proof (sound_run cs empty sound_empty) as SD. fold h in SD.
    pose proof (sound_exec (Make t PNone b) h SD) as SD1. rewrite H1 in SD1. cbn [snd] in SD1.
    destruct (C107_made h L) as (M1 & _). destruct (M1 _ _ _ _ _ H1) as (T & _ & M1').
    destruct (M1' (lib (model_dir t)) (or_introl (conj eq_refl eq_refl))) as ((_ & m & p & q & D & V1 & V2 & V3) & _).
    destruct (C107_made h1 L) as (_ & M2 & _). destruct (M2 _ _ _ _ H2) as ((_ & m' & p' & q' & D' & W1 & W2 & W3) & _).
    assert (N : library_name t = model_dir t).
    { destruct T as [-> | ->]; reflexivity. }
    rewrite N, D in D'. injection D' as <- <- <-.
    pose proof (maker_spec (Make t PNone b) h _ _ eq_refl H1) as (l1 & new1 & (A1 & A2 & A3) & _).
    pose proof (maker_spec (FromLibrary t b') h1 _ _ eq_refl H2) as (l2 & new2 & G2 & _).
    assert (LN : n < length (h_labs h1)) by (rewrite A2, app_length; cbn; lia).
    pose proof (view_grown _ _ _ _ _ G2 (proj1 SD1)) as VG.
    assert (V : forall x, view h2 n x = view h2 k x /\ view h2 n x <> None).
    { intros x. rewrite (VG n x LN). destruct x; rewrite ?V1, ?V2, ?V3, ?W1, ?W2, ?W3; split; congruence. }
    split; [|split; [exact V|]].
    - destruct G2 as (G2 & _). lia.
    - intros same R. unfold lab_eqb.
      assert (P : forall x, part_eqb same (view h2 n x) (view h2 k x) = true).
      { intros x. destruct (V x) as [E _]. rewrite E. unfold part_eqb. destruct (view h2 k x); auto. }
      rewrite !P. reflexivity.
  Qed.

  (** ** Equality of labelers *)
  Theorem C107_equal : forall same (h : heap) n m,
    lab_eqb same h n m = true <->
    forall x, match view h n x, view h m x with
              | Some u, Some v => same u v = true
              | None, None => True
              | _, _ => False
              end.
  Proof.
    intros same h n m. unfold lab_eqb. rewrite negb_true_iff, !orb_false_iff, !negb_false_iff.
    assert (P : forall a b, part_eqb same a b = true <->
       match a, b with Some u, Some v => same u v = true | None, None => True | _, _ => False end).
    { intros [u|] [v|]; cbn; split; auto; try discriminate; contradiction. }
    rewrite !P. split.
    - intros [[A B] C] []; assumption.
    - intros A. repeat split; [apply (A Pre)|apply (A Mod)|apply (A Post)].
  Qed.

  (** ** What is saved of a labeler is fixed when it is made *)
  Theorem C107_saved : forall h n x f i m,
    saved_as (snd (exec (Change m x f) h)) n = saved_as h n /\
    saved_as (snd (exec (SetPart m x i) h)) n = saved_as h n.
  Proof.
    intros h n x f i m. cbn [ShareModel.exec]. split.
    - unfold change. destruct (nth_error (h_labs h) m) as [l|]; [|reflexivity].
      destruct (the_part l x) as [j|]; [|reflexivity]. destruct (nth_error (h_comps h) j) as [[s v]|]; reflexivity.
    - unfold set_part. destruct (nth_error (h_labs h) m) as [l|] eqn:E; [|reflexivity].
      destruct (check_part (l_class l) x (sort_of h i)); [reflexivity|]. cbn [snd]. unfold saved_as. cbn [h_labs].
      rewrite nth_replace. destruct (Nat.eqb m n) eqn:EN; [|reflexivity]. apply Nat.eqb_eq in EN. subst n. rewrite E.
      destruct x; reflexivity.
  Qed.

  (** ** Loading a saved labeler: the one of the library, once for each name *)
  Lemma find_add d s n t : find (add d s n) t =
    match find d t with Some k => Some k | None => if String.eqb s t then Some n else None end.
  Proof.
    unfold add. destruct (find d s) as [k|] eqn:E.
    - destruct (find d t) eqn:T; [reflexivity|]. destruct (String.eqb s t) eqn:ST; [|reflexivity].
      apply String.eqb_eq in ST. subst t. congruence.
    - induction d as [|[u j] r IH]; cbn [app find]; [reflexivity|]. cbn [find] in E.
      destruct (String.eqb u s) eqn:US; [discriminate|]. destruct (String.eqb u t); [reflexivity|]. exact (IH E).
  Qed.

  Definition known_as (k : known) (s : string) : option nat :=
    match find (k_options k) s with Some n => Some n | None => find (k_column k) s end.

  Theorem C107_reload : forall s h,
    (* without a config it is load_from_library *)
    reload disk lib s None h = (let '(r, h') := exec (FromLibrary s false) h in (r, None, h')) /\
    forall k r config h', reload disk lib s (Some k) h = (r, config, h') ->
    match known_as k s with
    | Some n => r = Ok n /\ h' = h
    | None => (r, h') = exec (FromLibrary s false) h
    end /\
    match r with
    | Err _ => config = Some k
    | Ok n => exists k', config = Some k' /\
        (* what was known stays known; the labeler is known from now on *)
        (forall t, known_as k' t = match known_as k t with Some j => Some j
                                   | None => if String.eqb s t then Some n else None end) /\
        reload disk lib s (Some k') h' = (Ok n, Some k', h')
    end.
  Proof.
    intros s h. split.
    - unfold reload. cbn [ShareModel.exec]. destruct (from_library disk lib s false h) as [[n|e] h']; reflexivity.
    - intros k r config h' H. unfold reload in H. fold (known_as k s) in H. cbn [ShareModel.exec].
      assert (K : forall n, (known_as k s = Some n \/ known_as k s = None) ->
        (forall t, known_as (mkKnown (add (k_options k) s n) (add (k_column k) s n)) t =
           match known_as k t with Some j => Some j | None => if String.eqb s t then Some n else None end) /\
        forall h0, reload disk lib s (Some (mkKnown (add (k_options k) s n) (add (k_column k) s n))) h0 =
          (Ok n, Some (mkKnown (add (k_options k) s n) (add (k_column k) s n)), h0)).
      { intros n KN.
        assert (A : forall t, known_as (mkKnown (add (k_options k) s n) (add (k_column k) s n)) t =
           match known_as k t with Some j => Some j | None => if String.eqb s t then Some n else None end).
        { intros t. unfold known_as in *. cbn [k_options k_column]. rewrite !find_add.
          destruct (find (k_options k) t) eqn:F1; [reflexivity|].
          destruct (String.eqb s t) eqn:ST; [|destruct (find (k_column k) t); reflexivity].
          apply String.eqb_eq in ST. subst t. rewrite F1 in KN.
          destruct (find (k_column k) s); [|reflexivity]. destruct KN as [KN|KN]; congruence. }
        split; [exact A|]. intros h0. unfold reload. fold (known_as (mkKnown (add (k_options k) s n) (add (k_column k) s n)) s).
        rewrite A, String.eqb_refl.
        assert (B : forall d, add (add d s n) s n = add d s n).
        { intros d. unfold add at 1. rewrite find_add, String.eqb_refl. destruct (find d s); reflexivity. }
        cbn [k_options k_column]. destruct KN as [-> | ->]; rewrite !B; reflexivity. }
      destruct (known_as k s) as [n|] eqn:KN.
      + injection H as <- <- <-. split; [auto|]. eexists; split; [reflexivity|].
        destruct (K n (or_introl eq_refl)) as [K1 K2]. split; [exact K1|apply K2].
      + destruct (from_library disk lib s false h) as [[n|e] h1]; injection H as <- <- <-; (split; [reflexivity|]); [|reflexivity].
        eexists; split; [reflexivity|]. destruct (K n (or_intror eq_refl)) as [K1 K2]. split; [exact K1|apply K2].
  Qed.

  (** A labeler from the library that was not changed comes back with the same parts *)
  Theorem C107_comes_back : forall cs s b n h1 k h2 name, (forall s, lib s <> ""%string) ->
    let h := run cs empty in
    exec (FromLibrary s b) h = (Ok n, h1) -> saved_as h1 n = Ok name ->
    reload disk lib name None h1 = (Ok k, None, h2) ->
    n <> k /\ forall x, view h2 k x = view h1 n x /\ view h2 n x = view h1 n x /\ view h2 k x <> None.
  Proof.
    intros cs s b n h1 k h2 name L h H1 SV H2. pose proof (sound_run cs empty sound_empty) as SD. fold h in SD.
    pose proof (sound_exec (FromLibrary s b) h SD) as SD1. rewrite H1 in SD1. cbn [snd] in SD1.
    destruct (C107_made h L) as (_ & M & _). destruct (M _ _ _ _ H1) as ((_ & m & p & q & D & V1 & V2 & V3) & SV').
    rewrite SV in SV'. injection SV' as ->.
    rewrite (proj1 (C107_reload _ _)) in H2.
    destruct (exec (FromLibrary (library_name s) false) h1) as [r h2'] eqn:H3. injection H2 as -> ->.
    destruct (C107_made h1 L) as (_ & M2 & _). destruct (M2 _ _ _ _ H3) as ((_ & m' & p' & q' & D' & W1 & W2 & W3) & _).
    rewrite library_name_idem, D in D'. injection D' as <- <- <-.
    pose proof (maker_spec (FromLibrary s b) h _ _ eq_refl H1) as (l1 & new1 & (A1 & A2 & A3) & _).
    pose proof (maker_spec (FromLibrary (library_name s) false) h1 _ _ eq_refl H3) as (l2 & new2 & G2 & _).
    assert (LN : n < length (h_labs h1)) by (rewrite A2, app_length; cbn; lia).
    split; [destruct G2 as (G2 & _); lia|]. intros x.
    rewrite (view_grown _ _ _ _ _ G2 (proj1 SD1) n x LN).
    destruct x; rewrite ?V1, ?V2, ?V3, ?W1, ?W2, ?W3; repeat split; congruence.
  Qed.
End Props.

(** ** What is not so *)

(** The disk of the examples: a directory holds parts with the number of its letters *)
Definition disk0 (d : string) : result ((sort * nat) * (sort * nat) * (sort * nat)) :=
  if String.eqb d "missing"%string then Err GenericException
  else Ok ((SModel (negb (String.eqb d "fixed"%string)), String.length d), (SPre, String.length d), (SPost, String.length d)).
Definition lib0 (s : string) : string := String.append "lib/"%string s.

(** Labelers are not independent: two with a component in common *)
Theorem C107_independent_refuted :
  exists cs n x f m y, n <> m /\
    let h := run disk0 lib0 cs empty in
    nth_error (h_labs h) n <> None /\ nth_error (h_labs h) m <> None /\
    view (snd (exec disk0 lib0 (Change n x f) h)) m y <> view h m y.
Proof.
  exists [NewComponent SPre 1; NewComponent (SModel true) 2; NewComponent SPost 3;
          WithComponents 0 1 2 true; WithComponents 0 1 2 false], 0, Mod, (fun v => v + 10), 1, Mod.
  split; [discriminate|]. vm_compute. repeat split; discriminate.
Qed.

(** The one that a JSON file gives back is not always the one that was saved: not if it
    was made with a directory of one's own ... *)
Theorem C107_own_directory_refuted :
  exists d n h1 name k h2, d <> ""%string /\
    exec disk0 lib0 (Make "structured"%string (PText d) false) empty = (Ok n, h1) /\
    saved_as h1 n = Ok name /\ reload disk0 lib0 name None h1 = (Ok k, None, h2) /\
    forall x, view h2 k x <> view h1 n x.
Proof.
  exists "own"%string. do 5 eexists. split; [discriminate|]. split; [vm_compute; reflexivity|].
  split; [vm_compute; reflexivity|]. split; [vm_compute; reflexivity|]. intros []; vm_compute; discriminate.
Qed.

(** ... nor if it was changed or trained *)
Theorem C107_changed_refuted :
  exists s n h1 f j h2 name k h3,
    exec disk0 lib0 (FromLibrary s true) empty = (Ok n, h1) /\
    exec disk0 lib0 (Change n Mod f) h1 = (Ok j, h2) /\
    saved_as h2 n = Ok name /\ reload disk0 lib0 name None h2 = (Ok k, None, h3) /\
    view h3 k Mod <> view h2 n Mod.
Proof.
  exists "structured"%string. do 2 eexists. exists (fun v => v + 1). do 5 eexists.
  split; [vm_compute; reflexivity|]. split; [vm_compute; reflexivity|]. split; [vm_compute; reflexivity|].
  split; [vm_compute; reflexivity|]. vm_compute. discriminate.
Qed.

(** load_from_disk of nothing does not fail: it gives a labeler without parts *)
Theorem C107_nothing_refuted :
  forall (S : Type) (disk : string -> result ((sort * S) * (sort * S) * (sort * S))) lib b (h : @heap S) a,
    a = PNone \/ a = PText ""%string ->
    exists n h', exec disk lib (FromDisk a b) h = (Ok n, h') /\ forall x, view h' n x = None.
Proof.
  intros S disk lib b h a A.
  exists (length (h_labs h)),
    (mkHeap (h_comps h) (h_labs h ++ [mkLab (if b then CTrainable else CBase) None None None None])). split.
  - cbn [exec]; unfold from_disk, init; destruct A as [-> | ->], b; reflexivity.
  - intros x; unfold view; cbn [h_labs]; rewrite nth_end; destruct x; reflexivity.
Qed.

(** The labeler of a kind and the one of the library are not of one class *)
Theorem C107_class_refuted :
  exists n h1 k h2 l l', exec disk0 lib0 (Make "structured"%string PNone false) empty = (Ok n, h1) /\
    exec disk0 lib0 (FromLibrary "structured"%string false) h1 = (Ok k, h2) /\
    nth_error (h_labs h2) n = Some l /\ nth_error (h_labs h2) k = Some l' /\ l_class l <> l_class l'.
Proof.
  do 6 eexists. split; [vm_compute; reflexivity|]. split; [vm_compute; reflexivity|].
  split; [vm_compute; reflexivity|]. split; [vm_compute; reflexivity|]. discriminate.
Qed.

(** ** A longer example *)
Example C107_example :
  let h := run disk0 lib0
    [Make "structured"%string PNone false; FromLibrary "structured"%string false; FromDisk (PText "mine"%string) true;
     NewComponent SPre 7; SetPart 0 Pre 9; Change 0 Pre (fun v => v + 1); Change 1 Mod (fun v => v * 2)] empty in
  view h 0 Pre = Some (SPre, 8) /\
  view h 1 Pre = Some (SPre, 20) /\
  view h 1 Mod = Some (SModel true, 40) /\
  view h 0 Mod = Some (SModel true, 20) /\
  view h 2 Mod = Some (SModel true, 4) /\
  saved_as h 0 = Ok "structured_model"%string /\ saved_as h 2 = Err ValueError /\
  fst (exec disk0 lib0 (FromDisk (PText "fixed"%string) true) h) = Err ValueError /\
  fst (exec disk0 lib0 (FromDisk (PText "missing"%string) true) h) = Err GenericException /\
  fst (exec disk0 lib0 (Make "text"%string PNone false) h) = Err ValueError /\
  fst (exec disk0 lib0 (SetPart 0 Pre 0) h) = Err TypeError.
Proof. vm_compute. repeat split. Qed.
