(** * C96: training a labeler *)
From Coq Require Import QArith Qround List Arith Bool ZArith Lia Permutation Lqa.
Import ListNotations.
From Verif Require Import PyCommon FitModel.
Local Open Scope nat_scope.

(** ** Taking positions *)
Lemma take_at_app {A} (x : list A) a b : take_at x (a ++ b) = take_at x a ++ take_at x b.
Proof. unfold take_at. apply flat_map_app. Qed.

Lemma take_at_length {A} (x : list A) p :
  (forall i, In i p -> i < length x) -> length (take_at x p) = length p.
Proof.
  induction p as [|i p IH]; intro H; [reflexivity|]. cbn [take_at flat_map length].
  rewrite app_length. fold (take_at x p). rewrite IH; [|intros j Hj; apply H; right; exact Hj].
  destruct (nth_error x i) eqn:E; [reflexivity|].
  apply nth_error_None in E. specialize (H i (or_introl eq_refl)). lia.
Qed.

Lemma nth_error_combine {A C} (x : list A) (y : list C) i :
  nth_error (combine x y) i =
  match nth_error x i, nth_error y i with Some a, Some c => Some (a, c) | _, _ => None end.
Proof.
  revert y i. induction x as [|a x IH]; intros y i.
  - cbn [combine]. destruct i; reflexivity.
  - destruct y as [|c y].
    + cbn [combine]. destruct i; cbn; [reflexivity|]. destruct (nth_error x i); reflexivity.
    + destruct i; cbn; [reflexivity | apply IH].
Qed.

Lemma take_at_combine {A C} (x : list A) (y : list C) p :
  length x = length y -> combine (take_at x p) (take_at y p) = take_at (combine x y) p.
Proof.
  intro L. induction p as [|i p IH]; [reflexivity|].
  cbn [take_at flat_map]. fold (take_at x p). fold (take_at y p). fold (take_at (combine x y) p).
  rewrite nth_error_combine.
  destruct (nth_error x i) eqn:E1; destruct (nth_error y i) eqn:E2; cbn.
  - rewrite IH. reflexivity.
  - exfalso. apply nth_error_None in E2. assert (nth_error x i <> None) by congruence.
    apply nth_error_Some in H. lia.
  - exfalso. apply nth_error_None in E1. assert (nth_error y i <> None) by congruence.
    apply nth_error_Some in H. lia.
  - exact IH.
Qed.

Lemma take_at_seq {A} (x pre : list A) : take_at (pre ++ x) (seq (length pre) (length x)) = x.
Proof.
  revert pre. induction x as [|a x IH]; intro pre; [reflexivity|].
  cbn [length seq take_at flat_map].
  rewrite nth_error_app2, Nat.sub_diag; [|lia]. cbn [nth_error app]. f_equal.
  specialize (IH (pre ++ [a])). rewrite <- app_assoc, app_length in IH. cbn [app length] in IH.
  rewrite Nat.add_1_r in IH. exact IH.
Qed.

Lemma take_at_perm {A} (x : list A) p q : Permutation p q -> Permutation (take_at x p) (take_at x q).
Proof. intro H. unfold take_at. apply Permutation_flat_map, H. Qed.

Lemma take_at_all {A} (x : list A) p :
  Permutation p (seq 0 (length x)) -> Permutation (take_at x p) x.
Proof.
  intro H. apply take_at_perm with (x := x) in H. pose proof (take_at_seq x []) as S.
  cbn [app length] in S. rewrite S in H. exact H.
Qed.

Lemma take_at_firstn {A} (x : list A) p k :
  k <= length x -> Permutation p (seq 0 k) -> Permutation (take_at x p) (firstn k x).
Proof.
  intros Hk H. apply take_at_perm with (x := x) in H.
  assert (E : take_at x (seq 0 k) = firstn k x).
  { rewrite <- (firstn_skipn k x) at 1.
    assert (L : length (firstn k x) = k) by (apply firstn_length_le; exact Hk).
    assert (G : forall (a b : list A), take_at (a ++ b) (seq 0 (length a)) = a).
    { clear. intros a b. assert (K : forall c pre, take_at (pre ++ c ++ b) (seq (length pre) (length c)) = c).
      { intros c. induction c as [|z c IH]; intro pre; [reflexivity|].
        cbn [length seq take_at flat_map].
        rewrite nth_error_app2, Nat.sub_diag; [|lia]. cbn [nth_error app]. f_equal.
        specialize (IH (pre ++ [z])). rewrite <- app_assoc, app_length in IH. cbn [app length] in IH.
        rewrite Nat.add_1_r in IH. exact IH. }
      exact (K a []). }
    specialize (G (firstn k x) (skipn k x)). rewrite L in G. exact G. }
  rewrite E in H. exact H.
Qed.

Lemma combine_firstn' {A C} (x : list A) (y : list C) k :
  combine (firstn k x) (firstn k y) = firstn k (combine x y).
Proof. symmetry. apply combine_firstn. Qed.

Lemma combine_skipn' {A C} (x : list A) (y : list C) k :
  length x = length y -> combine (skipn k x) (skipn k y) = skipn k (combine x y).
Proof.
  revert x y. induction k as [|k IH]; intros x y L; [reflexivity|].
  destruct x as [|a x]; destruct y as [|c y]; try discriminate L; [reflexivity|].
  cbn. apply IH. injection L as L. exact L.
Qed.

(** ** The number of samples to train *)
Lemma cv_split_pos n vs : 1 <= cv_split n vs.
Proof. unfold cv_split. lia. Qed.

Lemma cv_split_le n vs : n <> 0 -> (0 <= vs)%Q -> cv_split n vs <= n.
Proof.
  intros Hn Hv. unfold cv_split. apply Nat.max_lub; [lia|].
  assert (H : (Qfloor (inject_Z (Z.of_nat n) * (1 - vs)) <= Z.of_nat n)%Z).
  { rewrite <- (Qfloor_Z (Z.of_nat n)) at 2. apply Qfloor_resp_le.
    assert (0 <= inject_Z (Z.of_nat n))%Q by (change 0%Q with (inject_Z 0); rewrite <- Zle_Qle; lia).
    nra. }
  lia.
Qed.

Lemma cv_split_zero n vs : n <> 0 -> (vs == 0)%Q -> cv_split n vs = n.
Proof.
  intros Hn Hv. unfold cv_split.
  assert (E : Qfloor (inject_Z (Z.of_nat n) * (1 - vs)) = Z.of_nat n).
  { rewrite <- (Qfloor_Z (Z.of_nat n)) at 2. apply Qfloor_comp. rewrite Hv. ring. }
  rewrite E, Nat2Z.id. lia.
Qed.

Lemma cv_split_less n vs : 2 <= n -> (0 < vs)%Q -> cv_split n vs < n.
Proof.
  intros Hn Hv. unfold cv_split. apply Nat.max_lub_lt; [lia|].
  assert (H : (Qfloor (inject_Z (Z.of_nat n) * (1 - vs)) < Z.of_nat n)%Z).
  { rewrite Zlt_Qlt. eapply Qle_lt_trans; [apply Qfloor_le|].
    assert (0 < inject_Z (Z.of_nat n))%Q by (change 0%Q with (inject_Z 0); rewrite <- Zlt_Qlt; lia).
    nra. }
  lia.
Qed.

Section Fit.
Variable X Y D St R L : Type.
Variable prep : St -> list X * list Y -> D.
Variable mfit : St -> D -> option D -> St * result R.
Variable set_labels : St -> L -> St * option exn.
Variable reset_weights : St -> St * option exn.
Variable mismatch : St -> bool.
Notation fit := (fit X Y D St R L prep mfit set_labels reset_weights mismatch).

Definition round := ((list X * list Y) * option (list X * list Y))%type.
Definition pairs (p : list X * list Y) : list (X * Y) := combine (fst p) (snd p).

(** The model trained on given data, one round after the other, until it fails *)
Fixpoint play (rounds : list round) (s : St) : St * result (list R) :=
  match rounds with
  | [] => (s, Ok [])
  | (t, v) :: rest =>
      match mfit s (prep s t) (option_map (prep s) v) with
      | (s1, Err e) => (s1, Err e)
      | (s1, Ok r) =>
          match play rest s1 with
          | (s2, Ok l) => (s2, Ok (r :: l))
          | (s2, Err e) => (s2, Err e)
          end
      end
  end.

(** What a call must satisfy to reach the model *)
Definition valid (s : St) (x : list X) (y : list Y) (vs : Q) (strict : bool) : Prop :=
  x <> [] /\ length x = length y /\ (0 <= vs)%Q /\ (vs < 1)%Q /\ (mismatch s = true -> strict = false).

Lemma epochs_play vs k x y ps left : forall i s t,
  exists later : list round,
    length later = pred left
    /\ (forall r, In r later -> exists j, i <= j /\ j < i + pred left /\
          r = ((take_at x (ps j), take_at y (ps j)), cv_part X Y vs k x y))
    /\ epochs_from X Y D St R prep mfit vs k x y ps left i s (prep s t) (option_map (prep s) (cv_part X Y vs k x y))
       = play (match left with 0 => [] | S _ => (t, cv_part X Y vs k x y) :: later end) s.
Proof.
  induction left as [|rest IH]; intros i s t.
  - exists (@nil round). split; [reflexivity|]. split; [intros r H; contradiction H | reflexivity].
  - destruct rest as [|rest'].
    + exists (@nil round). split; [reflexivity|]. split; [intros r H; contradiction H|].
      cbn [epochs_from play]. destruct (mfit s (prep s t) (option_map (prep s) (cv_part X Y vs k x y))) as [s1 [r|e]]; reflexivity.
    + destruct (mfit s (prep s t) (option_map (prep s) (cv_part X Y vs k x y))) as [s1 q] eqn:E.
      destruct (IH (S i) s1 (take_at x (ps i), take_at y (ps i))) as (later & L1 & L2 & L3).
      exists (((take_at x (ps i), take_at y (ps i)), cv_part X Y vs k x y) :: later).
      split; [cbn; cbn in L1; lia|]. split.
      * intros r [H|H].
        -- exists i. cbn. split; [lia|]. split; [lia | symmetry; exact H].
        -- destruct (L2 r H) as (j & J1 & J2 & J3). exists j. cbn in *. split; [lia|]. split; [lia | exact J3].
      * cbn [epochs_from play] in *. rewrite E. destruct q as [r|e]; [|reflexivity].
        cbn [epochs_from play] in L3. rewrite L3. reflexivity.
Qed.

(** ** What the model is given *)
(** A valid call, after labels are set and weights reset, trains one round per
    epoch.  There is one division of the samples with their labels into a part to
    train and a rest, of which the first has max(1, int(n(1-split))) samples; every
    round trains on exactly the first part in some order, each sample with its own
    label, and validates on the rest - or not at all without a split or with a
    single sample to train. *)
Theorem C96_rounds s x y vs labels (reset : bool) epochs strict p0 ps s1 s2 :
  valid s x y vs strict ->
  (match labels with Some l => set_labels s l | None => (s, None) end) = (s1, None) ->
  (if reset then reset_weights s1 else (s1, None)) = (s2, None) ->
  Permutation p0 (seq 0 (length x)) ->
  (forall i, Permutation (ps i) (seq 0 (cv_split (length x) vs))) ->
  exists rounds train rest,
    fit s (Some x) (Some y) vs labels reset epochs strict p0 ps = play rounds s2
    /\ length rounds = epochs
    /\ Permutation (train ++ rest) (combine x y)
    /\ length train = cv_split (length x) vs
    /\ (forall t v, In (t, v) rounds ->
          Permutation (pairs t) train
          /\ length (fst t) = length train /\ length (snd t) = length train
          /\ match v with
             | None => (vs == 0)%Q \/ length train < 2
             | Some w => pairs w = rest /\ length (fst w) = length rest /\ length (snd w) = length rest
                         /\ ~ (vs == 0)%Q /\ 2 <= length train
             end).
Proof.
  intros (V1 & V2 & V3 & V4 & V5) H1 H2 P0 Ps.
  set (n := length x). set (k := cv_split n vs).
  set (x' := take_at x p0). set (y' := take_at y p0).
  assert (Hn : n <> 0). { unfold n. destruct x; [contradiction V1; reflexivity | discriminate]. }
  assert (Kn : k <= n) by (apply cv_split_le; assumption).
  assert (In0 : forall i, In i p0 -> i < n).
  { intros i Hi. apply (Permutation_in _ P0) in Hi. apply in_seq in Hi. fold n in Hi. lia. }
  assert (Lp : length p0 = n) by (rewrite (Permutation_length P0), seq_length; reflexivity).
  assert (Lx : length x' = n) by (unfold x'; rewrite take_at_length; [exact Lp | exact In0]).
  assert (Ly : length y' = n).
  { unfold y'. rewrite take_at_length; [exact Lp|]. intros i Hi. rewrite <- V2. apply In0, Hi. }
  destruct (epochs_play vs k x' y' ps epochs 0 s2 (firstn k x', firstn k y')) as (later & L1 & L2 & L3).
  exists (match epochs with 0 => [] | S _ => ((firstn k x', firstn k y'), cv_part X Y vs k x' y') :: later end).
  exists (firstn k (combine x' y')), (skipn k (combine x' y')).
  assert (Lc : length (combine x' y') = n) by (rewrite combine_length; lia).
  assert (Lt : length (firstn k (combine x' y')) = k) by (apply firstn_length_le; lia).
  assert (Lr : length (skipn k (combine x' y')) = n - k) by (rewrite skipn_length; lia).
  split; [|split; [|split; [|split]]].
  - unfold FitModel.fit. fold n.
    assert (E0 : (n =? 0) = false) by (apply Nat.eqb_neq; exact Hn).
    assert (E1 : (length y =? 0) = false) by (rewrite <- V2; exact E0).
    assert (E2 : (n =? length y) = true) by (apply Nat.eqb_eq; exact V2).
    assert (E3 : Qle_bool 0 vs = true) by (apply Qle_bool_iff; exact V3).
    assert (E4 : Qle_bool 1 vs = false).
    { destruct (Qle_bool 1 vs) eqn:E; [|reflexivity]. apply Qle_bool_iff in E.
      exfalso. apply (Qlt_not_le _ _ V4 E). }
    assert (E5 : mismatch s && strict = false).
    { destruct (mismatch s); [rewrite V5; reflexivity | reflexivity]. }
    rewrite E0, E1, E2, E3, E4, E5, H1, H2. cbn [orb negb].
    exact L3.
  - destruct epochs; cbn [length]; [reflexivity|]. rewrite L1. reflexivity.
  - rewrite firstn_skipn. unfold x', y'. rewrite take_at_combine; [|exact V2].
    apply take_at_all. rewrite combine_length, <- V2, Nat.min_id. exact P0.
  - exact Lt.
  - rewrite Lt, Lr.
    assert (Cv : forall v, v = cv_part X Y vs k x' y' ->
       match v with
       | None => (vs == 0)%Q \/ k < 2
       | Some w => pairs w = skipn k (combine x' y') /\ length (fst w) = n - k /\ length (snd w) = n - k
                   /\ ~ (vs == 0)%Q /\ 2 <= k
       end).
    { intros v Hv. unfold cv_part in Hv.
      destruct (Qeq_bool vs 0) eqn:E1; cbn [orb] in Hv.
      - subst v. left. apply Qeq_bool_iff. exact E1.
      - destruct (k <? 2) eqn:E2; subst v.
        + right. apply Nat.ltb_lt. exact E2.
        + cbn [pairs fst snd]. unfold pairs. cbn [fst snd].
          split; [apply combine_skipn'; lia|]. rewrite !skipn_length.
          split; [lia|]. split; [lia|]. split; [apply Qeq_bool_neq; exact E1 | apply Nat.ltb_ge; exact E2]. }
    intros t v Hin.
    assert (Hc : (t, v) = ((firstn k x', firstn k y'), cv_part X Y vs k x' y') \/ In (t, v) later).
    { destruct epochs; [contradiction Hin|]. destruct Hin as [H|H]; [left; symmetry; exact H | right; exact H]. }
    destruct Hc as [Hc|Hc].
    + injection Hc as -> ->. unfold pairs. cbn [fst snd]. rewrite combine_firstn'.
      split; [apply Permutation_refl|].
      split; [apply firstn_length_le; lia|]. split; [apply firstn_length_le; lia|].
      apply Cv. reflexivity.
    + destruct (L2 _ Hc) as (j & _ & _ & J). injection J as -> ->.
      assert (Ij : forall i, In i (ps j) -> i < n).
      { intros i Hi. apply (Permutation_in _ (Ps j)) in Hi. apply in_seq in Hi. fold n k in Hi. lia. }
      assert (Lj : length (ps j) = k) by (rewrite (Permutation_length (Ps j)), seq_length; reflexivity).
      unfold pairs. cbn [fst snd].
      split; [|split; [|split]].
      * rewrite take_at_combine; [|lia]. apply take_at_firstn; [lia | exact (Ps j)].
      * rewrite take_at_length; [exact Lj|]. intros i Hi. rewrite Lx. apply Ij, Hi.
      * rewrite take_at_length; [exact Lj|]. intros i Hi. rewrite Ly. apply Ij, Hi.
      * apply Cv. reflexivity.
Qed.

(** ** How many samples train *)
(** All of them without a validation split; otherwise at least one and, of two or
    more, not all. *)
Theorem C96_sizes n vs :
  n <> 0 -> (0 <= vs)%Q ->
  1 <= cv_split n vs <= n
  /\ ((vs == 0)%Q -> cv_split n vs = n)
  /\ ((0 < vs)%Q -> 2 <= n -> cv_split n vs < n)
  /\ (2 <= cv_split n vs ->
      (inject_Z (Z.of_nat (cv_split n vs)) <= inject_Z (Z.of_nat n) * (1 - vs))%Q
      /\ (inject_Z (Z.of_nat n) * (1 - vs) < inject_Z (Z.of_nat (S (cv_split n vs))))%Q).
Proof.
  intros Hn Hv. split; [split; [apply cv_split_pos | apply cv_split_le; assumption]|].
  split; [apply cv_split_zero, Hn|]. split; [intros H1 H2; apply cv_split_less; assumption|].
  intro H.
  assert (E : Z.of_nat (cv_split n vs) = Qfloor (inject_Z (Z.of_nat n) * (1 - vs))).
  { unfold cv_split in *. lia. }
  rewrite Nat2Z.inj_succ, E. split; [apply Qfloor_le|].
  replace (Z.succ (Qfloor (inject_Z (Z.of_nat n) * (1 - vs)))) with (Qfloor (inject_Z (Z.of_nat n) * (1 - vs)) + 1)%Z by lia.
  apply Qlt_floor.
Qed.

(** Every sample trains or validates in a call that trains two samples or has no
    split. *)
Theorem C96_all s x y vs labels (reset : bool) epochs strict p0 ps s1 s2 :
  valid s x y vs strict ->
  (match labels with Some l => set_labels s l | None => (s, None) end) = (s1, None) ->
  (if reset then reset_weights s1 else (s1, None)) = (s2, None) ->
  Permutation p0 (seq 0 (length x)) ->
  (forall i, Permutation (ps i) (seq 0 (cv_split (length x) vs))) ->
  (vs == 0)%Q \/ 2 <= cv_split (length x) vs \/ length x = 1 ->
  exists rounds,
    fit s (Some x) (Some y) vs labels reset epochs strict p0 ps = play rounds s2
    /\ length rounds = epochs
    /\ forall t v, In (t, v) rounds ->
         Permutation (pairs t ++ match v with Some w => pairs w | None => [] end) (combine x y).
Proof.
  intros V H1 H2 P0 Ps C.
  destruct (C96_rounds s x y vs labels reset epochs strict p0 ps s1 s2 V H1 H2 P0 Ps)
    as (rounds & train & rest & F1 & F2 & F3 & F4 & F5).
  exists rounds. split; [exact F1|]. split; [exact F2|].
  intros t v Hin. destruct (F5 t v Hin) as (G1 & _ & _ & G2).
  destruct V as (V1 & V2 & V3 & _).
  assert (Hn : length x <> 0) by (destruct x; [contradiction V1; reflexivity | discriminate]).
  assert (Len : length train + length rest = length x).
  { rewrite <- app_length, (Permutation_length F3), combine_length, <- V2. apply Nat.min_id. }
  destruct v as [w|].
  - destruct G2 as (G2 & _). rewrite G2. eapply Permutation_trans; [|exact F3].
    apply Permutation_app_tail, G1.
  - rewrite app_nil_r.
    assert (rest = []).
    { assert (length rest = 0); [|destruct rest; [reflexivity | discriminate]].
      destruct G2 as [G2|G2].
      - rewrite (cv_split_zero _ vs Hn G2) in F4. lia.
      - destruct C as [C|[C|C]].
        + rewrite (cv_split_zero _ vs Hn C) in F4. lia.
        + lia.
        + pose proof (cv_split_pos (length x) vs). lia. }
    subst rest. rewrite app_nil_r in F3. eapply Permutation_trans; [exact G1 | exact F3].
Qed.

(** ** Errors *)
(** Calls that are not valid raise an error before anything is changed: TypeError
    for data of other types, RuntimeError for parameters that differ if asked for,
    ValueError otherwise. *)
Theorem C96_invalid s xa ya vs labels reset epochs strict p0 ps :
  (forall x y, xa = Some x -> ya = Some y -> ~ valid s x y vs strict) ->
  fit s xa ya vs labels reset epochs strict p0 ps =
  (s, Err (match xa, ya with
           | Some x, Some y =>
               if negb (length x =? length y) || (length x =? 0) || negb (Qle_bool 0 vs) || Qle_bool 1 vs
               then ValueError else RuntimeErr
           | _, _ => TypeError
           end)).
Proof.
  intro H. unfold FitModel.fit. destruct xa as [x|]; [|reflexivity]. destruct ya as [y|]; [|reflexivity].
  specialize (H x y eq_refl eq_refl).
  destruct (length x =? length y) eqn:E2.
  2:{ destruct (length x =? 0); destruct (length y =? 0); reflexivity. }
  apply Nat.eqb_eq in E2. rewrite <- E2. cbn [negb orb].
  destruct (length x =? 0) eqn:E0; [reflexivity|]. cbn [orb negb].
  destruct (Qle_bool 0 vs) eqn:E3; cbn [negb orb]; [|reflexivity].
  destruct (Qle_bool 1 vs) eqn:E4; [reflexivity|].
  destruct (mismatch s) eqn:E5; destruct strict eqn:E6; cbn [andb]; [reflexivity| | |];
    exfalso; apply H; (split; [intro K; subst x; discriminate E0|]); (split; [exact E2|]);
    (split; [apply Qle_bool_iff; exact E3|]);
    (split; [apply Qnot_le_lt; intro K; apply Qle_bool_iff in K; rewrite K in E4; discriminate E4|]);
    intro K; try reflexivity; rewrite E5 in K; discriminate K.
Qed.

(** Without epochs nothing is trained, but labels are set and weights reset. *)
Theorem C96_no_epochs s x y vs labels (reset : bool) strict p0 ps s1 s2 :
  valid s x y vs strict ->
  (match labels with Some l => set_labels s l | None => (s, None) end) = (s1, None) ->
  (if reset then reset_weights s1 else (s1, None)) = (s2, None) ->
  fit s (Some x) (Some y) vs labels reset 0 strict p0 ps = (s2, Ok []).
Proof.
  intros (V1 & V2 & V3 & V4 & V5) H1 H2. unfold FitModel.fit.
  assert (E0 : (length x =? 0) = false) by (apply Nat.eqb_neq; destruct x; [contradiction V1; reflexivity | discriminate]).
  rewrite <- V2, E0, Nat.eqb_refl, (proj2 (Qle_bool_iff 0 vs) V3). cbn [orb negb].
  assert (E4 : Qle_bool 1 vs = false).
  { destruct (Qle_bool 1 vs) eqn:E; [|reflexivity]. apply Qle_bool_iff in E.
    exfalso. apply (Qlt_not_le _ _ V4 E). }
  assert (E5 : mismatch s && strict = false).
  { destruct (mismatch s); [rewrite V5; reflexivity | reflexivity]. }
  rewrite E4, E5, H1, H2. reflexivity.
Qed.

End Fit.

(** ** Examples and refuted expectations.  The model notes what it is given and
    fails for data with label 9; labels are replaced as asked. *)
Definition ex_state := (nat * list ((list nat * list nat) * option (list nat * list nat)))%type.
Definition ex_fit :=
  fit nat nat (list nat * list nat) ex_state nat nat
    (fun _ p => p)
    (fun s t v => ((fst s, snd s ++ [(t, v)]),
                   if existsb (Nat.eqb 9) (snd t) then Err KeyError else Ok (length (fst t))))
    (fun s l => ((l, snd s), None))
    (fun s => (s, None)) (fun _ => false).

(** A sample may be used neither to train nor to validate: with a single sample to
    train there is no validation, and all others are left out. *)
Theorem C96_unused_refuted :
  ~ (forall x y vs epochs p0 ps,
       valid nat nat ex_state (fun _ => false) (0, []) x y vs false ->
       Permutation p0 (seq 0 (length x)) ->
       (forall i, Permutation (ps i) (seq 0 (cv_split (length x) vs))) ->
       epochs <> 0 ->
       forall a, In a x ->
       exists t v, In (t, v) (snd (fst (ex_fit (0, []) (Some x) (Some y) vs None false epochs false p0 ps)))
         /\ (In a (fst t) \/ exists w, v = Some w /\ In a (fst w))).
Proof.
  intro H.
  specialize (H [1; 2; 3] [4; 5; 6] (1 # 2)%Q 2 [0; 1; 2] (fun _ => [0])).
  assert (V : valid nat nat ex_state (fun _ => false) (0, []) [1; 2; 3] [4; 5; 6] (1 # 2)%Q false).
  { split; [discriminate|]. split; [reflexivity|]. split; [discriminate|]. split; [reflexivity|]. intro K. discriminate K. }
  specialize (H V (Permutation_refl _) (fun _ => Permutation_refl _)).
  specialize (H ltac:(discriminate) 2 (or_intror (or_introl eq_refl))).
  destruct H as (t & v & Hin & Ha). vm_compute in Hin.
  destruct Hin as [Hin|[Hin|[]]]; injection Hin as <- <-.
  - destruct Ha as [[Ha|[]]|(w & Hw & _)]; [discriminate Ha | discriminate Hw].
  - destruct Ha as [[Ha|[]]|(w & Hw & _)]; [discriminate Ha | discriminate Hw].
Qed.

(** A call that fails may leave the labeler with other labels. *)
Theorem C96_failure_refuted :
  ~ (forall s x y vs labels epochs p0 ps e s',
       ex_fit s (Some x) (Some y) vs labels false epochs false p0 ps = (s', Err e) -> fst s' = fst s).
Proof.
  intro H.
  specialize (H (0, []) [1; 2] [4; 9] 0%Q (Some 5) 1 [0; 1] (fun _ => []) KeyError
                (5, [(([1; 2], [4; 9]), None)])).
  assert (E : ex_fit (0, []) (Some [1; 2]) (Some [4; 9]) 0%Q (Some 5) false 1 false [0; 1] (fun _ => [])
              = ((5, [(([1; 2], [4; 9]), None)]), Err KeyError)) by (vm_compute; reflexivity).
  specialize (H E). discriminate H.
Qed.

(** Five samples with a fifth to validate, two epochs: four train, shuffled anew
    for the second epoch, and the fifth validates both times. *)
Example C96_example :
  ex_fit (0, []) (Some [1; 2; 3; 4; 5]) (Some [10; 20; 30; 40; 50]) (1 # 5)%Q None false 2 false
    [4; 2; 0; 1; 3] (fun _ => [3; 0; 1; 2])
  = ((0, [(([5; 3; 1; 2], [50; 30; 10; 20]), Some ([4], [40]));
          (([2; 5; 3; 1], [20; 50; 30; 10]), Some ([4], [40]))]), Ok [4; 4])
  /\ snd (ex_fit (0, []) (Some [1; 2]) (Some [1]) (1 # 5)%Q None false 2 false [] (fun _ => [])) = Err ValueError
  /\ snd (ex_fit (0, []) (Some [1; 2]) (Some [1; 2]) 1%Q None false 2 false [] (fun _ => [])) = Err ValueError.
Proof. vm_compute. repeat split; reflexivity. Qed.
