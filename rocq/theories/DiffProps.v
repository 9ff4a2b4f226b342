(** Properties of differences between reports (C24, C25). *)
From Coq Require Import QArith Permutation.
From Verif Require Import PyCommon ListFacts PyDict PyString PyEq DiffModel DiffProofs.
Local Open Scope nat_scope.

Section Props.
  (** Keys and list elements are of any types with decidable equality. *)
  Context {K E : Type} {EK : EqDecB K} {EE : EqDecB E}.
  Notation val := (val K E).
  Notation out := (out K E).
  Notation num x := (VNum (Some x) : val).

  (** C24. Two numbers: unchanged if equal, otherwise first minus second, which is not zero. *)
  Theorem C24_numbers : forall x y : Q,
    ((x == y)%Q -> diff_numbers (num x) (num y) = Ok Unchanged) /\
    (~ (x == y)%Q -> exists d, diff_numbers (num x) (num y) = Ok (ONum (Some d)) /\ (d == x - y)%Q /\ ~ (d == 0)%Q).
  Proof.
    intros x y. unfold diff_numbers, py_eq. cbn [num_of]. split; intro H.
    - apply Qeq_bool_iff in H. rewrite H. reflexivity.
    - destruct (Qeq_bool x y) eqn:Eq; [apply Qeq_bool_iff in Eq; contradiction|]. cbn. exists (x - y)%Q.
      split; [reflexivity|]. split; [reflexivity|]. intro Z. apply H. rewrite <- (Qplus_0_l y), <- Z. ring.
  Qed.

  (** C24. Swapping the reports negates the difference. *)
  Theorem C24_numbers_swap : forall x y d : Q, diff_numbers (num x) (num y) = Ok (ONum (Some d)) ->
    exists e, diff_numbers (num y) (num x) = Ok (ONum (Some e)) /\ (e == - d)%Q.
  Proof.
    intros x y d H. destruct (C24_numbers x y) as [H1 H2]. destruct (C24_numbers y x) as [_ G2].
    destruct (Qeq_dec x y) as [Eq|N]; [rewrite (H1 Eq) in H; discriminate|]. destruct (H2 N) as [d' [Ed [Hd _]]].
    rewrite Ed in H. injection H as <-. destruct (G2 (fun Eq => N (Qeq_sym _ _ Eq))) as [e [Ee [He _]]].
    exists e. split; [exact Ee|]. rewrite He, Hd. ring.
  Qed.

  (** C24. A statistic missing in both reports is unchanged; missing in one, both are given. *)
  Theorem C24_missing : forall v : val, v <> VNone ->
    diff_numbers VNone VNone = Ok (Unchanged : out) /\ diff_strings VNone VNone = Ok (Unchanged : out) /\
    diff_dates VNone VNone = Ok (Unchanged : out) /\ diff_lists VNone VNone = Ok (Unchanged : out) /\
    diff_numbers v VNone = Ok (OPair v VNone) /\ diff_numbers VNone v = Ok (OPair VNone v) /\
    diff_strings v VNone = Ok (OPair v VNone) /\ diff_strings VNone v = Ok (OPair VNone v) /\
    (forall t, diff_dates (VDate t) VNone = Ok (ODates (Some t) None : out)) /\
    (forall t, diff_dates VNone (VDate t) = Ok (ODates None (Some t) : out)) /\
    (forall l, diff_lists (VList l) VNone = Ok (OPair (VList l) VNone : out)) /\
    (forall l, diff_lists VNone (VList l) = Ok (OPair VNone (VList l) : out)).
  Proof.
    intros v N. destruct v as [ |[x|]|x|s|t|l|d]; try congruence; cbn; repeat split.
  Qed.

  (** C24. Strings (and booleans): unchanged exactly when equal, otherwise both are given. *)
  Theorem C24_strings : forall s t : string,
    diff_strings (VStr s) (VStr t) = Ok (if String.string_dec s t then Unchanged : out else OPair (VStr s) (VStr t)).
  Proof.
    intros s t. unfold diff_strings, py_eq. cbn [num_of]. destruct (String.string_dec s t) as [->|N]; [rewrite eqb_refl; reflexivity|].
    apply eqb_neq in N. rewrite N. reflexivity.
  Qed.

  Theorem C24_bools : forall a b : bool,
    diff_strings (VBool a) (VBool b) = Ok (if bool_dec a b then Unchanged : out else OPair (VBool a) (VBool b)).
  Proof. intros [] []; reflexivity. Qed.

  (** C24. Where numbers are compared, True is 1 and False is 0. *)
  Theorem C24_bool_numbers : forall a b : bool,
    diff_numbers (VBool a) (VBool b) = Ok (if bool_dec a b then Unchanged : out else ONum (Some (if a then 1 else -1))%Q) /\
    (forall x, (if a then x == 1 else x == 0)%Q -> diff_numbers (VBool a) (VNum (Some x)) = Ok (Unchanged : out) /\ diff_numbers (VNum (Some x)) (VBool a) = Ok (Unchanged : out)) /\
    (forall x, ~ (if a then x == 1 else x == 0)%Q -> exists y z, diff_numbers (VBool a) (VNum (Some x)) = Ok (ONum (Some y) : out) /\ diff_numbers (VNum (Some x)) (VBool a) = Ok (ONum (Some z) : out) /\
       (y == (if a then 1 - x else - x))%Q /\ (z == - y)%Q).
  Proof.
    intros a b. split; [destruct a, b; reflexivity|]. split.
    - intros x H. unfold diff_numbers, py_eq. cbn [num_of]. assert (Qeq_bool (if a then 1 else 0) x = true /\ Qeq_bool x (if a then 1 else 0) = true) as [-> ->]; [|split; reflexivity].
      split; apply Qeq_bool_iff; destruct a; rewrite H; reflexivity.
    - intros x H. unfold diff_numbers, py_eq. cbn [num_of]. assert (Qeq_bool (if a then 1 else 0) x = false /\ Qeq_bool x (if a then 1 else 0) = false) as [-> ->].
      { split; (match goal with |- ?e = false => destruct e eqn:Hq end; [|reflexivity]); apply Qeq_bool_iff in Hq; exfalso; apply H; destruct a; rewrite Hq || rewrite <- Hq; reflexivity. }
      cbn [nsub]. do 2 eexists. split; [reflexivity|]. split; [reflexivity|]. split; destruct a; ring.
  Qed.

  (** C24. Dates: the sign is + when the first is later, and the time between them is given; swapping
      changes the sign only. *)
  Theorem C24_dates : forall s t : Z, exists neg z,
    diff_dates (VDate s) (VDate t) = Ok (if Z.eq_dec s t then Unchanged : out else ODelta neg z) /\
    diff_dates (VDate t) (VDate s) = Ok (if Z.eq_dec s t then Unchanged : out else ODelta (negb neg) z) /\
    (s <> t -> (0 < z)%Z /\ (if neg then (s = t - z)%Z else (s = t + z)%Z)).
  Proof.
    intros s t. exists (s - t <? 0)%Z, (Z.abs (s - t)). cbn [diff_dates].
    destruct (Z.eq_dec s t) as [->|N].
    - rewrite Z.eqb_refl. repeat split; congruence.
    - destruct (Z.eqb_spec s t); [contradiction|]. destruct (Z.eqb_spec t s); [congruence|].
      split; [reflexivity|]. split.
      + do 2 f_equal; [|lia]. destruct (Z.ltb_spec (t - s) 0), (Z.ltb_spec (s - t) 0); cbn; lia.
      + intros _. destruct (Z.ltb_spec (s - t) 0); lia.
  Qed.

  (** C25. Two lists: the shared elements are the common part, counted with repetition, what is listed
      for each side is the rest of it, so the sides have nothing in common. *)
  Theorem C25_lists : forall (l l' a sh b : list E), diff_two_lists (K:=K) l l' = OLists a sh b ->
    forall x, occ x sh = Nat.min (occ x l) (occ x l') /\ occ x a + occ x sh = occ x l /\ occ x b + occ x sh = occ x l' /\
      ~ (In x a /\ In x b).
  Proof.
    intros l l' a sh b H x. unfold diff_two_lists in H. destruct (_ || _); [|discriminate].
    pose proof (share_spec x l [] l') as S. destruct (fold_left share_step l ([], l')) as [sh' r']. injection H as <- <- <-.
    destruct S as [S1 S2]. cbn in S1. pose proof (occ_remove_all x sh' l) as S3.
    split; [exact S1|]. split; [lia|]. split; [lia|]. intros [I1 I2]. apply occ_pos in I1. apply occ_pos in I2. lia.
  Qed.

  (** C25. Lists are unchanged exactly when they have the same elements and the same length. *)
  Theorem C25_lists_unchanged : forall l l' : list E,
    diff_two_lists (K:=K) l l' = Unchanged <-> (forall x, In x l <-> In x l') /\ length l = length l'.
  Proof. intros l l'. apply diff_two_lists_unchanged. Qed.

  (** C25. Sets (no repetitions, any order): unchanged exactly when equal; otherwise only-first, shared and
      only-second elements. *)
  Theorem C25_sets : forall l l' : list E, NoDup l -> NoDup l' ->
    (Permutation l l' /\ diff_two_lists (K:=K) l l' = Unchanged) \/
    (~ Permutation l l' /\ exists a sh b, diff_two_lists (K:=K) l l' = OLists a sh b /\ NoDup a /\ NoDup sh /\ NoDup b /\
       forall x, (In x a <-> In x l /\ ~ In x l') /\ (In x sh <-> In x l /\ In x l') /\ (In x b <-> In x l' /\ ~ In x l)).
  Proof.
    intros l l' N1 N2. pose proof (list_clean_iff (K:=K) l l' N1 N2) as C. rewrite clean_two_lists in C.
    destruct (diff_two_lists (K:=K) l l') as [ |u w|n|u w|ng z|a sh b|d|u s w] eqn:Ed; try (unfold diff_two_lists in Ed;
      destruct (negb (same_set l l') || negb (length l =? length l')); try discriminate;
      destruct (fold_left share_step l ([], l')); discriminate).
    - left. split; [apply C|]; reflexivity.
    - right. split; [intro P; apply C in P; discriminate|]. exists a, sh, b. split; [reflexivity|].
      pose proof (C25_lists l l' a sh b Ed) as S.
      assert (O : forall m : list E, NoDup m -> forall x, occ x m <= 1).
      { intros m Nm x. induction Nm as [|y m Ny Nm IH]; [cbn; lia|]. cbn. destruct (eqb_spec y x) as [->|Nx]; [|lia].
        assert (occ x m = 0) by (destruct (occ x m) eqn:Z; [reflexivity|]; exfalso; apply Ny; apply occ_pos; lia). lia. }
      assert (O' : forall m : list E, (forall x, occ x m <= 1) -> NoDup m).
      { induction m as [|y m IH]; intro Hm; [constructor|]. constructor.
        - intro I. apply occ_pos in I. specialize (Hm y). cbn in Hm. rewrite eqb_refl in Hm. lia.
        - apply IH. intro x. specialize (Hm x). cbn in Hm. lia. }
      split; [apply O'; intro x; destruct (S x) as [_ [S2 _]]; specialize (O l N1 x); lia|].
      split; [apply O'; intro x; destruct (S x) as [_ [S2 _]]; specialize (O l N1 x); lia|].
      split; [apply O'; intro x; destruct (S x) as [_ [_ [S3 _]]]; specialize (O l' N2 x); lia|].
      intro x. destruct (S x) as [S1 [S2 [S3 _]]]. pose proof (O l N1 x). pose proof (O l' N2 x).
      rewrite <- !occ_pos. lia.
  Qed.

  (** C25. Dictionaries, find_diff_of_dicts: one entry per key of either, first those of the first; for a
      shared key the difference of the values, for a key of the second only the pair of None and its
      value, for a key of the first only the difference from None. *)
  Theorem C25_dict_entries : forall (d1 d2 : list (K * val)) o, NoDup (dkeys d1) -> NoDup (dkeys d2) ->
    diff_dicts (Some d1) (Some d2) = Ok o ->
    (d1 = [] /\ d2 = [] /\ o = Unchanged) \/
    exists d, o = ODict d /\ dkeys d = dkeys d1 ++ filter (fun k => negb (lmem (dkeys d1) k)) (dkeys d2) /\
      forall k, match dget d1 k, dget d2 k with
                | Some v, None => exists x, dget d k = Some x /\ diff_val v VNone = Ok x
                | Some v, Some w => exists x, dget d k = Some x /\ diff_val v w = Ok x
                | None, Some w => dget d k = Some (OPair VNone w)
                | None, None => dget d k = None
                end.
  Proof. intros d1 d2 o N1 N2 H. apply diff_dict_entries; assumption. Qed.

  (** C25. If neither contains None, NaN or lists with repetitions: every entry, at every depth, is
      unchanged exactly when the dictionaries are equal. *)
  Theorem C25_dict_unchanged : forall (d1 d2 : list (K * val)) o, wf (VDict d1) -> wf (VDict d2) ->
    present (VDict d1) -> present (VDict d2) -> diff_dicts (Some d1) (Some d2) = Ok o -> (clean o <-> same (VDict d1) (VDict d2)).
  Proof. intros d1 d2 o W1 W2 P1 P2 H. exact (clean_iff (VDict d1) (VDict d2) o W1 W2 P1 P2 H). Qed.

  (** C25. Values of the same kind can be compared; a report compared with itself is unchanged. *)
  Theorem C25_dict_succeeds : forall d1 d2 : list (K * val), kin (VDict d1) (VDict d2) ->
    exists o, diff_dicts (Some d1) (Some d2) = Ok o.
  Proof. intros d1 d2 H. exact (diff_val_ok (VDict d1) (VDict d2) H). Qed.

  Theorem C25_dict_self : forall d : list (K * val), wf (VDict d) -> present (VDict d) ->
    exists o, diff_dicts (Some d) (Some d) = Ok o /\ clean o.
  Proof.
    intros d W P. destruct (diff_val_ok (VDict d) (VDict d) (kin_refl _ W)) as [o Ho]. exists o. split; [exact Ho|].
    apply (clean_iff (VDict d) (VDict d) o W W P P Ho). apply same_refl. exact W.
  Qed.

  (** C25. find_diff_of_dicts_with_diff_keys: the keys are split into those of the first only, the shared
      and those of the second only, each with its value or the difference. *)
  Theorem C25_parts : forall (d1 d2 : list (K * val)) o, NoDup (dkeys d1) -> NoDup (dkeys d2) ->
    diff_parts (Some d1) (Some d2) = Ok o ->
    (d1 = [] /\ d2 = [] /\ o = Unchanged) \/
    exists a s b, o = OParts a s b /\
      a = filter (fun kv => negb (dmem d2 (fst kv))) d1 /\ b = filter (fun kv => negb (dmem d1 (fst kv))) d2 /\
      Forall2 (fun kv ko => fst kv = fst ko /\ exists w, dget d2 (fst kv) = Some w /\ parts_val (snd kv) w = Ok (snd ko))
        (filter (fun kv => dmem d2 (fst kv)) d1) s.
  Proof.
    intros d1 d2 o N1 N2 H. unfold diff_parts in H. cbn [or_empty parts_val] in H.
    destruct (shared_entries parts_val d2 d1 ([], [])) as [acc|] eqn:Ee; cbn [bind] in H; [|discriminate].
    destruct (shared_spec _ d2 d1 ([], []) acc N1 (fun _ _ => conj (fun i => i) (fun i => i)) Ee) as [new [E1 [E2 F]]].
    cbn [fst snd app] in E1, E2. rewrite E1, E2, only_second_spec in H by exact N2. clear Ee E1 E2 acc.
    destruct d1 as [|kv1 d1]; [destruct d2 as [|kv2 d2]|].
    - left. cbn in F. inversion F; subst. cbn in H. injection H as <-. auto.
    - right. cbn in F, H. inversion F; subst. cbn in H. injection H as <-. do 3 eexists. split; [reflexivity|]. auto.
    - right. exists (filter (fun kv => negb (dmem d2 (fst kv))) (kv1 :: d1)), new, (filter (fun kv => negb (dmem (kv1 :: d1) (fst kv))) d2).
      split; [|auto]. cbn [filter] in F, H |- *. destruct (dmem d2 (fst kv1)) eqn:Em; cbn [negb] in H |- *; unfold finish_parts in H.
      + inversion F; subst. injection H as <-. destruct (filter (fun kv => negb (dmem d2 (fst kv))) d1); reflexivity.
      + injection H as <-. reflexivity.
  Qed.

  Theorem C25_parts_unchanged : forall (d1 d2 : list (K * val)) o, wf (VDict d1) -> wf (VDict d2) ->
    diff_parts (Some d1) (Some d2) = Ok o -> (clean o <-> same (VDict d1) (VDict d2)).
  Proof. intros d1 d2 o W1 W2 H. exact (parts_clean_iff (VDict d1) (VDict d2) o W1 W2 H). Qed.
End Props.

(** C25. Matrices of the same shape are unchanged exactly when all entries agree where both are numbers,
    and otherwise the entrywise difference is given; different shapes give no answer. *)
Definition entry (m : list (list (option Q))) (i j : nat) : option (option Q) :=
  match nth_error m i with Some r => nth_error r j | None => None end.

Lemma nth_error_combine_both {X Y} : forall (l : list X) (l' : list Y) j,
  nth_error (combine l l') j = match nth_error l j, nth_error l' j with Some x, Some y => Some (x, y) | _, _ => None end.
Proof.
  induction l as [|x l IH]; intros [|y l'] [|j]; cbn; try reflexivity.
  - destruct (nth_error l j); reflexivity.
  - apply IH.
Qed.

Lemma entry_msub a b i j : shape a = shape b ->
  entry (msub a b) i j = match entry a i j, entry b i j with Some x, Some y => Some (nsub x y) | _, _ => None end.
Proof.
  intro S. unfold entry, msub. rewrite nth_error_map, nth_error_combine_both.
  destruct (nth_error a i) as [r|]; [|reflexivity]. destruct (nth_error b i) as [r'|]; [|destruct (nth_error r j); reflexivity].
  cbn [option_map fst snd]. rewrite nth_error_map, nth_error_combine_both.
  destruct (nth_error r j); [|reflexivity]. destruct (nth_error r' j); reflexivity.
Qed.

Theorem C25_matrices : forall a b : list (list (option Q)),
  (shape a <> shape b -> diff_matrices (Some a) (Some b) = None) /\
  (shape a = shape b -> exists r, diff_matrices (Some a) (Some b) = Some r /\
     (r = None <-> forall i j x y, entry a i j = Some (Some x) -> entry b i j = Some (Some y) -> (x == y)%Q) /\
     (forall d, r = Some d -> forall i j, entry d i j =
        match entry a i j, entry b i j with Some (Some x), Some (Some y) => Some (Some (x - y)%Q) | Some _, Some _ => Some None | _, _ => None end)).
Proof.
  intros a b. unfold diff_matrices. split; intro S.
  - destruct (eqb_spec (shape a) (shape b)); [contradiction|reflexivity].
  - destruct (eqb_spec (shape a) (shape b)); [|contradiction]. cbn. eexists. split; [reflexivity|]. split.
    + assert (A : forallb (forallb zero_or_nan) (msub a b) = true <->
                  forall i j x y, entry a i j = Some (Some x) -> entry b i j = Some (Some y) -> (x == y)%Q).
      { rewrite forallb_forall. split.
        - intros H i j x y Ea Eb. pose proof (entry_msub a b i j S) as Em. rewrite Ea, Eb in Em. cbn in Em. unfold entry in Em.
          destruct (nth_error (msub a b) i) as [r|] eqn:Er; [|discriminate]. specialize (H r (nth_error_In _ _ Er)).
          rewrite forallb_forall in H. specialize (H _ (nth_error_In _ _ Em)). cbn in H. apply Qeq_bool_iff in H.
          rewrite <- (Qplus_0_l y), <- H. ring.
        - intros H r Ir. apply forallb_forall. intros z Iz. apply In_nth_error in Ir. destruct Ir as [i Er].
          apply In_nth_error in Iz. destruct Iz as [j Ez]. pose proof (entry_msub a b i j S) as Em. unfold entry in Em at 1.
          rewrite Er, Ez in Em. destruct (entry a i j) as [[x|]|] eqn:Ea, (entry b i j) as [[y|]|] eqn:Eb; try discriminate;
            injection Em as ->; cbn; try reflexivity. apply Qeq_bool_iff. rewrite (H i j x y Ea Eb). ring. }
      destruct (forallb (forallb zero_or_nan) (msub a b)); split; intro H; try discriminate; try reflexivity.
      * apply A. reflexivity.
      * apply A in H. discriminate.
    + intros d Hd i j. destruct (forallb (forallb zero_or_nan) (msub a b)); [discriminate|]. injection Hd as <-.
      rewrite entry_msub by exact S. destruct (entry a i j) as [[x|]|], (entry b i j) as [[y|]|]; reflexivity.
Qed.

(** *** Examples and findings *)
Local Open Scope string_scope.
Local Open Scope nat_scope.
Notation wval := (val nat nat).

Example C25_example :
  diff_dicts (Some [(1, VNum (Some 3%Q)); (2, VList [1; 2; 2]); (3, VDict [(7, VStr "a")]); (4, VStr "x")])
             (Some [(3, VDict [(7, VStr "b")]); (1, VNum (Some 1%Q)); (2, VList [2; 5]); (9, VDate 4)] : option (list (nat * wval))) =
  Ok (ODict [(1, ONum (Some (3 - 1)%Q)); (2, OLists [1; 2] [2] [5]); (3, ODict [(7, OPair (VStr "a") (VStr "b"))]);
             (4, OPair (VStr "x") VNone); (9, OPair VNone (VDate 4))]).
Proof. reflexivity. Qed.

Example C25_parts_example :
  diff_parts (Some [(1, VNum (Some 3%Q)); (2, VBool true); (4, VStr "x")])
             (Some [(2, VBool false); (9, VNone)] : option (list (nat * wval))) =
  Ok (OParts [(1, VNum (Some 3%Q)); (4, VStr "x")] [(2, OPair (VBool true) (VBool false))] [(9, VNone)]).
Proof. reflexivity. Qed.

(** C24 (finding). A statistic that is NaN (the variance of a single value) compared with itself is
    reported as changed, by NaN. *)
Theorem C24_self_unchanged_refuted : ~ forall v : wval, num_of v <> None -> diff_numbers v v = Ok Unchanged.
Proof. intro H. specialize (H (VNum None)). cbn in H. assert (Some (@None Q) <> None) by discriminate. specialize (H H0). discriminate. Qed.

(** C25 (finding). Lists with the same elements and length are reported unchanged although elements occur
    with different frequencies. *)
Theorem C25_list_unchanged_is_equal_refuted :
  ~ forall l l' : list nat, diff_two_lists (K:=nat) l l' = Unchanged -> Permutation l l'.
Proof.
  intro H. specialize (H [1; 1; 2] [1; 2; 2] eq_refl). 
  assert (E : forall m m' : list nat, Permutation m m' -> occ 1 m = occ 1 m').
  { induction 1; cbn; try lia. }
  apply E in H. vm_compute in H. discriminate.
Qed.

(** C25 (finding). A key whose value is None in the first report and which is missing in the second is
    reported as unchanged; the other way round it is reported as a change from None to None. *)
Theorem C25_missing_key_unchanged_refuted :
  ~ forall (d1 d2 : list (nat * wval)) o, wf (VDict d1) -> wf (VDict d2) -> diff_dicts (Some d1) (Some d2) = Ok o ->
      clean o -> same (VDict d1) (VDict d2).
Proof.
  intro H. specialize (H [(1, VNone)] [] (ODict [(1, Unchanged)])). cbn in H. apply H; auto.
  all: split; auto; constructor; auto; constructor.
Qed.

Theorem C25_dict_symmetric_refuted :
  ~ forall (d1 d2 : list (nat * wval)) o o', diff_dicts (Some d1) (Some d2) = Ok o -> diff_dicts (Some d2) (Some d1) = Ok o' ->
      clean o -> clean o'.
Proof. intro H. exact (proj1 (H [(1, VNone)] [] _ _ eq_refl eq_refl (conj I I))). Qed.

Print Assumptions C24_numbers.
Print Assumptions C24_numbers_swap.
Print Assumptions C24_missing.
Print Assumptions C24_strings.
Print Assumptions C24_bools.
Print Assumptions C24_bool_numbers.
Print Assumptions C24_dates.
Print Assumptions C25_lists.
Print Assumptions C25_lists_unchanged.
Print Assumptions C25_sets.
Print Assumptions C25_dict_entries.
Print Assumptions C25_dict_unchanged.
Print Assumptions C25_dict_succeeds.
Print Assumptions C25_dict_self.
Print Assumptions C25_parts.
Print Assumptions C25_parts_unchanged.
Print Assumptions C25_matrices.
Print Assumptions C24_self_unchanged_refuted.
Print Assumptions C25_list_unchanged_is_equal_refuted.
Print Assumptions C25_missing_key_unchanged_refuted.
Print Assumptions C25_dict_symmetric_refuted.
