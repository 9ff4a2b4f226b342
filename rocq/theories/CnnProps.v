(** C98: the labels and the predictions of the character model. *)
From Coq Require Import QArith List Arith Bool Lia.
Import ListNotations.
From Verif Require Import PyCommon PyDict PyString ListFacts LabelModel LabelProps CnnModel CharModel CharProofs CharProofs2 CharProps.
Local Open Scope string_scope.
Local Open Scope nat_scope.

(** ** Labels *)
Lemma nth_error_combine_seq {A} (l : list A) : forall s i x,
  nth_error l i = Some x -> nth_error (combine l (seq s (length l))) i = Some (x, s + i).
Proof.
  induction l as [|a l IH]; intros s [|i] x H; cbn in *; try discriminate H.
  - injection H as ->. rewrite Nat.add_0_r. reflexivity.
  - rewrite (IH (S s) i x H). f_equal. f_equal. lia.
Qed.

(** Distinct labels without PAD, given as a list: PAD has the number zero and the
    others are numbered from one in their order.  The default label has to be one
    of them, or PAD. *)
Theorem C98_list m l :
  NoDup l -> ~ In "PAD" l ->
  (In (c_default m) l \/ c_default m = "PAD" ->
   exists d, cnn_set m (MList l) = (mkCnn d (c_default m) (c_net m), None)
     /\ dget d "PAD" = Some 0
     /\ (forall i x, nth_error l i = Some x -> dget d x = Some (S i))
     /\ num_labels d = S (length l))
  /\ (~ In (c_default m) l -> c_default m <> "PAD" -> cnn_set m (MList l) = (m, Some ValueError)).
Proof.
  intros ND NP.
  assert (E : lmem l "PAD" = false).
  { destruct (lmem l "PAD") eqn:B; [|reflexivity]. apply lmem_In in B. contradiction. }
  assert (ND2 : NoDup ("PAD" :: l)) by (constructor; assumption).
  split.
  - intro H. unfold cnn_set. rewrite E.
    assert (B : lmem ("PAD" :: l) (c_default m) = true).
    { apply lmem_In. destruct H as [H|H]; [right; exact H|left; symmetry; exact H]. }
    rewrite B. cbn [set_label_mapping]. rewrite (number_labels_distinct 0 _ ND2).
    exists (numbered 0 ("PAD" :: l)). split; [reflexivity|].
    assert (G : forall i x, nth_error ("PAD" :: l) i = Some x -> dget (numbered 0 ("PAD" :: l)) x = Some i).
    { intros i x Hx. apply dget_In.
      - rewrite numbered_keys. exact ND2.
      - unfold numbered. apply nth_error_In with (n := i).
        rewrite (nth_error_combine_seq _ 0 i x Hx). reflexivity. }
    split; [apply (G 0); reflexivity|]. split; [intros i x Hx; apply (G (S i)); exact Hx|].
    unfold num_labels. rewrite numbered_vals. cbn [length]. rewrite max_seq. reflexivity.
  - intros H1 H2. unfold cnn_set. rewrite E.
    destruct (lmem ("PAD" :: l) (c_default m)) eqn:B; [|reflexivity].
    apply lmem_In in B. destruct B as [B|B]; [symmetry in B|]; contradiction.
Qed.

(** A dictionary is accepted when it gives PAD the number zero, or has neither PAD
    nor the number zero, and the default label is one of its labels or PAD.  Then
    its labels keep their numbers and PAD is added with zero. *)
Definition pad_fits (d : dict string nat) : Prop :=
  dget d "PAD" = Some 0 \/ (dget d "PAD" = None /\ forall k, dget d k <> Some 0).

Lemma zero_in_vals (d : dict string nat) : NoDup (dkeys d) ->
  (lmem (dvals d) 0 = true <-> exists k, dget d k = Some 0).
Proof.
  intro ND. rewrite lmem_In. unfold dvals. rewrite in_map_iff. split.
  - intros ([k v] & E & H). cbn in E. subst v. exists k. apply dget_In; assumption.
  - intros (k & H). exists (k, 0). split; [reflexivity|]. apply dget_Some_In. exact H.
Qed.

Theorem C98_dict m d : NoDup (dkeys d) ->
  (pad_fits d -> dget d (c_default m) <> None \/ c_default m = "PAD" ->
   exists d', cnn_set m (MDict d) = (mkCnn d' (c_default m) (c_net m), None)
     /\ dget d' "PAD" = Some 0 /\ (forall k, k <> "PAD" -> dget d' k = dget d k))
  /\ (~ pad_fits d \/ (dget d (c_default m) = None /\ c_default m <> "PAD") ->
     cnn_set m (MDict d) = (m, Some ValueError)).
Proof.
  intro ND. unfold cnn_set.
  assert (M : dmem d "PAD" = match dget d "PAD" with Some _ => true | None => false end) by reflexivity.
  rewrite M. split.
  - intros PF HD. destruct PF as [E|[E Z]].
    + rewrite E. cbv iota. rewrite E. assert (B : dmem d (c_default m) = true).
      { unfold dmem. destruct HD as [H|H]; [destruct (dget d (c_default m)); [reflexivity|contradiction]|rewrite H, E; reflexivity]. }
      rewrite B. destruct d as [|kv d]; [discriminate E|]. cbn [set_label_mapping].
      exists (kv :: d). split; [reflexivity|]. split; [exact E|reflexivity].
    + rewrite E. destruct (lmem (dvals d) 0) eqn:L.
      { apply (zero_in_vals d ND) in L. destruct L as [k L]. destruct (Z k L). }
      rewrite dget_dset, (proj2 (PyDict.eqb_eq "PAD" "PAD") eq_refl).
      assert (B : dmem (dset d "PAD" 0) (c_default m) = true).
      { unfold dmem. rewrite dget_dset. destruct (PyDict.eqb "PAD" (c_default m)) eqn:Q; [reflexivity|].
        destruct HD as [H|H]; [destruct (dget d (c_default m)); [reflexivity|contradiction]|].
        rewrite H in Q. rewrite (proj2 (PyDict.eqb_eq "PAD" "PAD") eq_refl) in Q. discriminate Q. }
      rewrite B. exists (dset d "PAD" 0).
      assert (N : set_label_mapping true (MDict (dset d "PAD" 0)) = Ok (dset d "PAD" 0)).
      { destruct (dset d "PAD" 0) as [|kv r] eqn:Q; [|reflexivity].
        assert (C : dget (dset d "PAD" 0) "PAD" = Some 0) by (rewrite dget_dset, (proj2 (PyDict.eqb_eq "PAD" "PAD") eq_refl); reflexivity).
        rewrite Q in C. discriminate C. }
      rewrite N. split; [reflexivity|]. split.
      * rewrite dget_dset, (proj2 (PyDict.eqb_eq "PAD" "PAD") eq_refl). reflexivity.
      * intros k Hk. rewrite dget_dset. destruct (PyDict.eqb "PAD" k) eqn:Q; [|reflexivity].
        apply (proj1 (PyDict.eqb_eq _ _)) in Q. subst k. contradiction.
  - intro H. destruct (dget d "PAD") as [n|] eqn:E.
    + rewrite E. destruct n as [|n]; [|reflexivity].
      assert (B : dmem d (c_default m) = false).
      { destruct H as [H|[H _]]; [destruct H; left; exact E|]. unfold dmem. rewrite H. reflexivity. }
      rewrite B. reflexivity.
    + destruct (lmem (dvals d) 0) eqn:L.
      * rewrite E. reflexivity.
      * rewrite dget_dset, (proj2 (PyDict.eqb_eq "PAD" "PAD") eq_refl).
        destruct H as [H|[H1 H2]].
        { destruct H. right. split; [exact E|]. intros k Hk.
          assert (C : lmem (dvals d) 0 = true) by (apply zero_in_vals; [exact ND|exists k; exact Hk]). congruence. }
        assert (B : dmem (dset d "PAD" 0) (c_default m) = false).
        { unfold dmem. rewrite dget_dset, H1. destruct (PyDict.eqb "PAD" (c_default m)) eqn:Q; [|reflexivity].
          apply (proj1 (PyDict.eqb_eq _ _)) in Q. symmetry in Q. contradiction. }
        rewrite B. reflexivity.
Qed.

(** Exactly which labels are accepted; what is neither a list nor a dictionary is a
    TypeError, everything else that is refused a ValueError. *)
Theorem C98_accepts m a :
  (snd (cnn_set m a) = None <->
     (exists l, a = MList l /\ (In (c_default m) l \/ c_default m = "PAD")) \/
     (exists d, a = MDict d /\
        ((dget d "PAD" = Some 0 /\ In (c_default m) (dkeys d)) \/
         (~ In "PAD" (dkeys d) /\ ~ In 0 (dvals d) /\
          (In (c_default m) (dkeys d) \/ c_default m = "PAD"))))) /\
  (a = MOther -> cnn_set m a = (m, Some TypeError)) /\
  (a <> MOther -> snd (cnn_set m a) <> None -> cnn_set m a = (m, Some ValueError)).
Proof.
  assert (PL : forall l x, lmem l x = true -> set_label_mapping true (MList l) = Ok (number_labels 0 l)).
  { intros [|y l] x H; [discriminate H|reflexivity]. }
  assert (PD : forall (d : dict string nat) k, dmem d k = true -> set_label_mapping true (MDict d) = Ok d).
  { intros [|y l] x H; [discriminate H|reflexivity]. }
  destruct a as [l|d|]; cbn [cnn_set].
  - set (l' := if lmem l "PAD" then l else "PAD" :: l).
    assert (I : In (c_default m) l' <-> In (c_default m) l \/ c_default m = "PAD").
    { unfold l'. destruct (lmem l "PAD") eqn:E.
      - apply lmem_In in E. split; [auto|]. intros [H|H]; [exact H|rewrite H; exact E].
      - cbn. split; intros [H|H]; auto. }
    destruct (lmem l' (c_default m)) eqn:E.
    + rewrite (PL _ _ E). cbn [snd]. apply lmem_In in E. rewrite I in E.
      split; [|split; [discriminate|intros _ H; destruct (H eq_refl)]].
      split; [intros _; left; eauto|reflexivity].
    + cbn [snd]. split; [|split; [discriminate|reflexivity]].
      split; [discriminate|]. intros [(l0 & X & Y)|(d & X & _)]; [|discriminate X].
      injection X as <-. rewrite <- I in Y. apply lmem_In in Y. congruence.
  - set (d' := if dmem d "PAD" then d else if lmem (dvals d) 0 then d else dset d "PAD" 0).
    assert (I : (dget d' "PAD" = Some 0 /\ dmem d' (c_default m) = true) <->
        ((dget d "PAD" = Some 0 /\ In (c_default m) (dkeys d)) \/
         (~ In "PAD" (dkeys d) /\ ~ In 0 (dvals d) /\
          (In (c_default m) (dkeys d) \/ c_default m = "PAD")))).
    { unfold d'. destruct (dmem d "PAD") eqn:E1.
      - apply dmem_true in E1. rewrite dmem_true. tauto.
      - apply dmem_false in E1. destruct (lmem (dvals d) 0) eqn:E2.
        + apply lmem_In in E2. rewrite dmem_true. split; [auto|]. tauto.
        + apply lmem_false in E2. rewrite dget_dset, PyDict.eqb_refl, dmem_true, In_dkeys_dset.
          apply dget_None in E1. split.
          * intros [_ H]. right. split; [apply dget_None, E1|]. split; [exact E2|]. intuition.
          * intros [[H _]|(_ & _ & H)]; [congruence|]. intuition. }
    destruct (dget d' "PAD") as [[|p]|] eqn:G.
    + destruct (dmem d' (c_default m)) eqn:E.
      * rewrite (PD _ _ E). cbn [snd]. pose proof (proj1 I (conj eq_refl eq_refl)) as J.
        split; [|split; [discriminate|intros _ H; destruct (H eq_refl)]].
        split; [intros _; right; eauto|reflexivity].
      * cbn [snd]. split; [|split; [discriminate|reflexivity]].
        split; [discriminate|]. intros [(l0 & X & _)|(d0 & X & Y)]; [discriminate X|].
        injection X as <-. apply I in Y. destruct Y as [_ Y]. discriminate Y.
    + cbn [snd]. split; [|split; [discriminate|reflexivity]].
      split; [discriminate|]. intros [(l0 & X & _)|(d0 & X & Y)]; [discriminate X|].
      injection X as <-. apply I in Y. destruct Y as [Y _]. discriminate Y.
    + cbn [snd]. split; [|split; [discriminate|reflexivity]].
      split; [discriminate|]. intros [(l0 & X & _)|(d0 & X & Y)]; [discriminate X|].
      injection X as <-. apply I in Y. destruct Y as [Y _]. discriminate Y.
  - split; [|split; [reflexivity|intros H; destruct (H eq_refl)]].
    split; [discriminate|]. intros [(l0 & X & _)|(d0 & X & _)]; discriminate X.
Qed.
Print Assumptions C98_accepts.


(** A call that fails changes nothing. *)
Theorem C98_failed m c m' e : kexec m c = (m', Some e) -> m' = m.
Proof.
  destruct c as [a|l s|d| | |]; cbn [kexec].
  - unfold cnn_set. destruct a as [l|d|]; [| |intro H; injection H as <- _; reflexivity].
    + destruct (lmem _ (c_default m)); [|intro H; injection H as <- _; reflexivity].
      destruct (set_label_mapping true _); intro H; [discriminate H|injection H as <- _; reflexivity].
    + destruct (dget _ "PAD") as [[|n]|]; try (intro H; injection H as <- _; reflexivity).
      destruct (dmem _ (c_default m)); [|intro H; injection H as <- _; reflexivity].
      destruct (set_label_mapping true _); intro H; [discriminate H|injection H as <- _; reflexivity].
  - destruct (add_label _ l s); intro H; [discriminate H|injection H as <- _; reflexivity].
  - discriminate.
  - unfold cnn_fit, need_to_reconstruct, build. destruct (c_net m) as [[n d]|]; destruct (dget (c_map m) (c_default m)) as [i|];
      try (intro H; injection H as <- _; reflexivity); try discriminate.
    destruct (negb (num_labels (c_map m) =? n) || negb (i =? d)); discriminate.
  - unfold cnn_fit, need_to_reconstruct, build. destruct (c_net m) as [[n d]|]; destruct (dget (c_map m) (c_default m)) as [i|];
      try (intro H; injection H as <- _; reflexivity); try discriminate.
    destruct (negb (num_labels (c_map m) =? n) || negb (i =? d)); discriminate.
  - unfold build. destruct (dget (c_map m) (c_default m)); intro H; [discriminate H|injection H as <- _; reflexivity].
Qed.

(** Training, saving and resetting succeed when the default label has a number. *)
Definition builds (c : kcall) : Prop := c = KFit \/ c = KSave \/ c = KReset.

Lemma builds_net m c m' : builds c -> kexec m c = (m', None) ->
  c_map m' = c_map m /\ c_default m' = c_default m /\
  exists i, dget (c_map m) (c_default m) = Some i /\ c_net m' = Some (num_labels (c_map m), i).
Proof.
  intros B. assert (K : cnn_fit m = (m', None) \/ build m = (m', None) ->
    c_map m' = c_map m /\ c_default m' = c_default m /\
    exists i, dget (c_map m) (c_default m) = Some i /\ c_net m' = Some (num_labels (c_map m), i)).
  { assert (Kb : build m = (m', None) -> c_map m' = c_map m /\ c_default m' = c_default m /\
      exists i, dget (c_map m) (c_default m) = Some i /\ c_net m' = Some (num_labels (c_map m), i)).
    { unfold build. destruct (dget (c_map m) (c_default m)) as [i|]; [|discriminate].
      intro H. injection H as <-. cbn. eauto. }
    intros [H|H]; [|exact (Kb H)]. unfold cnn_fit in H. destruct (c_net m) as [[n d]|] eqn:N; [|exact (Kb H)].
    unfold need_to_reconstruct in H. rewrite N in H. destruct (dget (c_map m) (c_default m)) as [i|] eqn:G; [|discriminate H].
    destruct (negb (num_labels (c_map m) =? n) || negb (i =? d)) eqn:C; [destruct (Kb H) as (K1 & K2 & j & K3 & K4); split; [exact K1|]; split; [exact K2|]; exists j; split; assumption|].
    injection H as <-. apply orb_false_iff in C. destruct C as [C1 C2].
    apply negb_false_iff, Nat.eqb_eq in C1. apply negb_false_iff, Nat.eqb_eq in C2. subst n d.
    split; [reflexivity|]. split; [reflexivity|]. exists i. split; [reflexivity|exact N]. }
  intro H. apply K. destruct B as [-> |[-> | ->]]; cbn [kexec] in H; [left|left|right]; exact H.
Qed.

Theorem C98_builds m c : builds c ->
  (dget (c_map m) (c_default m) <> None -> exists m', kexec m c = (m', None) /\ may_predict m' = Ok tt)
  /\ (dget (c_map m) (c_default m) = None -> kexec m c = (m, Some KeyError)).
Proof.
  intro B. split.
  - intro H. assert (E : exists m', kexec m c = (m', None)).
    { destruct (dget (c_map m) (c_default m)) as [i|] eqn:G; [|contradiction].
      assert (Eb : exists m', build m = (m', None)) by (unfold build; rewrite G; eauto).
      assert (Ef : exists m', cnn_fit m = (m', None)).
      { unfold cnn_fit, need_to_reconstruct. destruct (c_net m) as [[n d]|]; [|exact Eb]. rewrite G.
        destruct (negb (num_labels (c_map m) =? n) || negb (i =? d)); [exact Eb|eauto]. }
      destruct B as [-> |[-> | ->]]; [exact Ef|exact Ef|exact Eb]. }
    destruct E as [m' E]. exists m'. split; [exact E|].
    destruct (builds_net m c m' B E) as (K1 & K2 & i & K3 & K4).
    unfold may_predict, need_to_reconstruct. rewrite K4, K1, K2, K3, !Nat.eqb_refl. reflexivity.
  - intro G. assert (Eb : build m = (m, Some KeyError)) by (unfold build; rewrite G; reflexivity).
    assert (Ef : cnn_fit m = (m, Some KeyError)).
    { unfold cnn_fit, need_to_reconstruct. destruct (c_net m) as [[n d]|]; [|exact Eb]. rewrite G. reflexivity. }
    destruct B as [-> |[-> | ->]]; [exact Ef|exact Ef|exact Eb].
Qed.

Lemma other_net m c : ~ builds c -> c_net (fst (kexec m c)) = c_net m.
Proof.
  intro B. destruct c as [a|l s|d| | |]; cbn [kexec].
  - unfold cnn_set. destruct a as [l|d|]; [| |reflexivity].
    + destruct (lmem _ (c_default m)); [|reflexivity]. destruct (set_label_mapping true _); reflexivity.
    + destruct (dget _ "PAD") as [[|n]|]; try reflexivity.
      destruct (dmem _ (c_default m)); [|reflexivity]. destruct (set_label_mapping true _); reflexivity.
  - destruct (add_label _ l s); reflexivity.
  - reflexivity.
  - destruct B. left. reflexivity.
  - destruct B. right. left. reflexivity.
  - destruct B. right. right. reflexivity.
Qed.

(** After the labels are changed in whatever way, predictions are made just when
    there are as many label numbers as when the net was last built, and the default
    label has the number that the default label had then. *)
Theorem C98_refused m c m1 cs :
  builds c -> kexec m c = (m1, None) -> (forall x, In x cs -> ~ builds x) ->
  let m2 := krun m1 cs in
  may_predict m2 =
  match dget (c_map m2) (c_default m2) with
  | None => Err KeyError
  | Some i => if (num_labels (c_map m2) =? num_labels (c_map m1))
                 && (match dget (c_map m1) (c_default m1) with Some j => i =? j | None => false end)
              then Ok tt else Err RuntimeErr
  end.
Proof.
  intros B E H m2. destruct (builds_net m c m1 B E) as (K1 & K2 & i & K3 & K4).
  assert (N : c_net m2 = c_net m1).
  { subst m2. clear E K1 K2 K3 K4. revert m1. induction cs as [|x cs IH]; intro m1; [reflexivity|].
    cbn [krun fold_left]. change (c_net (krun (fst (kexec m1 x)) cs) = c_net m1).
    rewrite IH; [|intros y Hy; apply H; right; exact Hy]. apply other_net, H. left. reflexivity. }
  unfold may_predict, need_to_reconstruct. rewrite N, K4, K1, K2, K3.
  destruct (dget (c_map m2) (c_default m2)) as [j|]; [|reflexivity].
  destruct (num_labels (c_map m2) =? num_labels (c_map m)); [|reflexivity].
  destruct (j =? i); reflexivity.
Qed.

(** Without a net nothing is predicted. *)
Theorem C98_no_net m cs : c_net m = None -> (forall x, In x cs -> ~ builds x) ->
  may_predict (krun m cs) = Err ValueError.
Proof.
  intros E H. assert (N : c_net (krun m cs) = None).
  { revert m E. induction cs as [|x cs IH]; intros m E; [exact E|].
    cbn [krun fold_left]. apply IH; [intros y Hy; apply H; right; exact Hy|].
    rewrite other_net; [exact E|]. apply H. left. reflexivity. }
  unfold may_predict. rewrite N. reflexivity.
Qed.

(** ** Predictions *)
Section Predict.
Variable T P F : Type.
Variable tlen : T -> nat.
Variable zp : list P.
Variable zf : list F.
Variable net : list T -> list (list P).
Variable netc : list T -> list (list F).
Hypothesis net_rows : forall b, length (net b) = length b.
Hypothesis netc_rows : forall b, length (netc b) = length b.
Notation predict := (CnnModel.predict T P F tlen zp zf net netc).

(** All batches but the last have [bs] samples, the last one at most *)
Definition sized {A : Type} (bs : nat) (data : list (list A)) : Prop :=
  forall i b, nth_error data i = Some b -> length b <= bs /\ (S i < length data -> length b = bs).

Lemma sized_tl {A} bs b (r : list (list A)) : sized bs (b :: r) -> sized bs r.
Proof. intros H i x Hx. destruct (H (S i) x Hx) as [K1 K2]. split; [exact K1|]. intro. apply K2. cbn. lia. Qed.

Lemma assign_at {A} (rows new : list A) z m : length new <= m ->
  assign (rows ++ repeat z m) (length rows) new = Ok ((rows ++ new) ++ repeat z (m - length new)).
Proof.
  intro H. unfold assign. rewrite app_length, repeat_length.
  replace (length rows + m - length rows) with m by lia.
  rewrite Nat.min_l by lia. rewrite Nat.eqb_refl. f_equal.
  rewrite firstn_app, Nat.sub_diag, firstn_all, firstn_O, app_nil_r, <- !app_assoc. f_equal. f_equal.
  rewrite skipn_app. rewrite skipn_all2 by lia. cbn [app].
  replace (length rows + length new - length rows) with (length new) by lia.
  rewrite <- (firstn_skipn (length new) (repeat z m)) at 1.
  assert (G : forall k n, skipn k (repeat z n) = repeat z (n - k)).
  { clear. induction k as [|k IH]; intros [|n]; cbn; try reflexivity. apply IH. }
  rewrite firstn_skipn. apply G.
Qed.

(** The arrays hold the rows for the samples so far, then zeros *)
Definition holds (show : bool) (bs : nat) (a : arrays P F) (rows : list (list P)) (lens : list nat) (confs : list (list F)) : Prop :=
  exists m m' c,
    a_pred P F a = rows ++ repeat zp m /\ a_len P F a = lens ++ repeat 0 m /\
    (show = true -> a_conf P F a = confs ++ repeat zf m' /\ length confs = length rows) /\ m <= m' /\
    length lens = length rows /\ length rows + m = S c * bs.

Lemma grow_holds show bs a rows lens confs k :
  holds show bs a rows lens confs -> length rows = k * bs ->
  holds show bs (grow P F zp zf show a (k * bs)) rows lens confs
  /\ k * bs < length (a_pred P F (grow P F zp zf show a (k * bs))) \/ bs = 0.
Proof.
  intros (m & m' & c & Hp & Hl & Hc & Hm & Ll & Lr) Hk.
  destruct (Nat.eq_dec bs 0) as [Z|Z]; [right; exact Z|left].
  unfold grow. destruct (length (a_pred P F a) <=? k * bs) eqn:E.
  - apply Nat.leb_le in E. rewrite Hp, app_length, repeat_length in E. assert (m = 0) by lia. subst m.
    cbn [repeat] in Hp, Hl. rewrite app_nil_r in Hp, Hl.
    assert (LP : length (a_pred P F a) = k * bs) by (rewrite Hp; exact Hk).
    assert (LL : length (a_len P F a) = k * bs) by (rewrite Hl, Ll; exact Hk).
    split.
    + exists (k * bs), (m' + (k * bs + k * bs)), (2 * c + 1). cbn [a_pred a_len a_conf].
      rewrite !app_length, !repeat_length, LP, LL, Hp, Hl. split; [reflexivity|]. split; [reflexivity|].
      split.
      * intro S. destruct (Hc S) as [Hc1 Hc2]. rewrite S. split; [|exact Hc2]. rewrite Hc1, <- app_assoc, !repeat_app. reflexivity.
      * split; [lia|]. split; [exact Ll|]. nia.
    + cbn [a_pred]. rewrite app_length, repeat_length, LP. destruct k; nia.
  - apply Nat.leb_gt in E. split; [|exact E]. exists m, m', c. auto 10.
Qed.

Lemma step_holds show bs a rows lens confs k b :
  bs <> 0 -> holds show bs a rows lens confs -> length rows = k * bs -> length b <= bs ->
  exists a', batch_step T P F tlen zp zf net netc show bs k a b = Ok (a', k * bs + length b)
    /\ holds show bs a' (rows ++ net b) (lens ++ map tlen b) (confs ++ netc b).
Proof.
  intros Z H Hk Hb. destruct (grow_holds _ _ _ _ _ _ k H Hk) as [[G L]|W]; [|contradiction].
  unfold batch_step. set (a1 := grow P F zp zf show a (k * bs)) in *.
  destruct G as (m & m' & c & Hp & Hl & Hc & Hm & Ll & Lr).
  rewrite Hp, app_length, repeat_length in L.
  assert (Mb : bs <= m).
  { assert (k * bs < S c * bs) by lia. assert (k < S c) by nia. nia. }
  assert (A1 : assign (a_pred P F a1) (k * bs) (net b) = Ok ((rows ++ net b) ++ repeat zp (m - length (net b)))).
  { rewrite Hp, <- Hk. apply assign_at. rewrite net_rows. lia. }
  assert (A2 : assign (a_len P F a1) (k * bs) (map tlen b) = Ok ((lens ++ map tlen b) ++ repeat 0 (m - length (map tlen b)))).
  { rewrite Hl. replace (k * bs) with (length lens) by lia. apply assign_at. rewrite map_length. lia. }
  destruct show.
  - destruct (Hc eq_refl) as [Hc1 Hc2].
    assert (A3 : assign (a_conf P F a1) (k * bs) (netc b) = Ok ((confs ++ netc b) ++ repeat zf (m' - length (netc b)))).
    { rewrite Hc1. replace (k * bs) with (length confs) by lia. apply assign_at. rewrite netc_rows. lia. }
    rewrite A3, A1, A2. eexists. split; [reflexivity|].
    exists (m - length b), (m' - length b), c. cbn [a_pred a_len a_conf].
    rewrite !app_length, map_length, net_rows, netc_rows.
    split; [reflexivity|]. split; [reflexivity|]. split; [intros _; split; [reflexivity|lia]|]. lia.
  - rewrite A1, A2. eexists. split; [reflexivity|].
    exists (m - length b), (m' - length b), c. cbn [a_pred a_len a_conf].
    rewrite !app_length, map_length, net_rows.
    split; [reflexivity|]. split; [reflexivity|]. split; [discriminate|]. lia.
Qed.

Lemma loop_holds show bs data : bs <> 0 -> forall k a rows lens confs,
  holds show bs a rows lens confs -> length rows = k * bs -> sized bs data ->
  exists a', batch_loop T P F tlen zp zf net netc show bs k a (length rows) data
             = Ok (a', length rows + length (concat data))
    /\ holds show bs a' (rows ++ concat (map net data)) (lens ++ map tlen (concat data)) (confs ++ concat (map netc data)).
Proof.
  intro Z. induction data as [|b r IH]; intros k a rows lens confs H Hk Sz.
  - exists a. cbn. rewrite !app_nil_r, Nat.add_0_r. split; [reflexivity|exact H].
  - destruct (Sz 0 b eq_refl) as [Lb Fb].
    destruct (step_holds show bs a rows lens confs k b Z H Hk Lb) as (a1 & E & H1).
    cbn [batch_loop]. rewrite E.
    destruct r as [|b2 r].
    + cbn [batch_loop map concat]. exists a1. rewrite !app_nil_r. rewrite Hk. split; [reflexivity|exact H1].
    + assert (Eb : length b = bs) by (apply Fb; cbn; lia).
      destruct (IH (S k) a1 (rows ++ net b) (lens ++ map tlen b) (confs ++ netc b) H1) as (a2 & E2 & H2).
      * rewrite app_length, net_rows. lia.
      * exact (sized_tl _ _ _ Sz).
      * exists a2. rewrite app_length, net_rows in E2. replace (k * bs + length b) with (length rows + length b) by lia.
        split.
        -- rewrite E2. f_equal. f_equal. cbn [concat]. rewrite !app_length. lia.
        -- cbn [map concat] in *. rewrite !map_app in *. rewrite <- !app_assoc in H2. exact H2.
Qed.

Lemma cut_rows {A} (rows : list (list A)) : forall (lens : list nat) t1 t2,
  length lens = length rows ->
  cut (lens ++ t1) (rows ++ t2) (length rows)
  = map (fun p => IRow (firstn (fst p) (snd p))) (combine lens rows).
Proof.
  induction rows as [|r rows IH]; intros [|n lens] t1 t2 L; try discriminate L; [reflexivity|].
  injection L as L. specialize (IH lens t1 t2 L). unfold cut in *. cbn [length seq map combine app].
  f_equal. rewrite <- seq_shift, map_map. cbn [nth_error nth].
  rewrite <- IH. apply map_ext_in. intros i Hi. apply in_seq in Hi.
  destruct (nth_error (lens ++ t1) i) eqn:E; [reflexivity|].
  apply nth_error_None in E. rewrite app_length in E. lia.
Qed.

(** Every sample gets one list of predictions, in the order of the samples: the row
    the net gave for it, cut to its length.  So for the confidences.  Nothing
    depends on the size of the batches. *)
Theorem C98_order m data bs show :
  may_predict m = Ok tt -> bs <> 0 -> sized bs data ->
  predict m data bs show =
  Ok (map (fun p => IRow (firstn (tlen (fst p)) (snd p))) (combine (concat data) (concat (map net data))),
      if show then Some (map (fun p => IRow (firstn (tlen (fst p)) (snd p))) (combine (concat data) (concat (map netc data))))
      else None).
Proof.
  intros M Z Sz. unfold CnnModel.predict. rewrite M.
  set (a0 := mkArr P F (repeat zp bs) (repeat 0 bs) (if show then repeat zf bs else [])).
  assert (H0 : holds show bs a0 [] [] []).
  { exists bs, bs, 0. cbn. split; [reflexivity|]. split; [reflexivity|].
    split; [intros ->; split; reflexivity|]. lia. }
  destruct (loop_holds show bs data Z 0 a0 [] [] [] H0 eq_refl Sz) as (a & E & H).
  cbn [length Nat.add] in E. rewrite E. cbn [app] in H.
  destruct H as (k & k' & c & Hp & Hl & Hc & Hk & Ll & Lr).
  assert (LN : length (concat (map net data)) = length (concat data)).
  { clear -net_rows. induction data as [|b r IH]; [reflexivity|]. cbn. rewrite !app_length, net_rows, IH. reflexivity. }
  assert (G : forall A (rows : list (list A)), combine (map tlen (concat data)) rows
                = map (fun p => (tlen (fst p), snd p)) (combine (concat data) rows)).
  { clear. intros A. induction (concat data) as [|x l IH]; intros [|r rows]; cbn; try reflexivity. f_equal. apply IH. }
  f_equal. f_equal.
  - rewrite Hp, Hl, <- LN, cut_rows; [|rewrite map_length, LN; reflexivity]. rewrite G, map_map. reflexivity.
  - destruct show; [|reflexivity]. destruct (Hc eq_refl) as [Hc1 Hc2]. f_equal.
    rewrite Hc1, Hl, <- LN, <- Hc2, cut_rows; [|rewrite map_length, Hc2, LN; reflexivity]. rewrite G, map_map. reflexivity.
Qed.

End Predict.

(** ** From texts to predictions *)
Section Texts.
Context {C L : Type}.
Variable Q : @params C L.

Definition full_st (s : @st C L) : Prop :=
  Forall (fun b => length b = p_batch Q) (s_done s) /\ length (s_batch s) < p_batch Q.

Lemma emit_full x s : full_st s -> full_st (emit Q x s).
Proof.
  intros [F B]. unfold emit. destruct (length (s_batch s ++ [x]) =? p_batch Q) eqn:E.
  - apply Nat.eqb_eq in E. split; cbn [s_done s_batch].
    + apply Forall_app. split; [exact F|]. constructor; [exact E|constructor].
    + cbn. lia.
  - apply Nat.eqb_neq in E. split; cbn [s_done s_batch]; [exact F|].
    rewrite app_length in *. cbn in *. lia.
Qed.

Lemma step_full s rest : full_st s -> full_st (fst (step Q s rest)).
Proof.
  intro H. unfold step. destruct (no_flatten Q s).
  - unfold step_plain. cbn [fst]. apply (emit_full _ s H).
  - unfold step_flat. destruct (if negb (p_at_max Q) && _ then _ else _) as [[[k len2] ents2] force].
    destruct ((_ <=? _) || force); cbn [fst].
    + apply (emit_full _ s H).
    + exact H.
Qed.

Lemma loop_full fuel : forall s rest s', full_st s -> loop Q fuel s rest = Some s' -> full_st s'.
Proof.
  induction fuel as [|f IH]; intros s rest s' H E.
  - destruct rest; [|discriminate E]. injection E as <-. exact H.
  - destruct rest as [|x r]; [injection E as <-; exact H|]. cbn [loop] in E.
    pose proof (step_full s (x :: r) H) as K. destruct (step Q s (x :: r)) as [s1 r1]. exact (IH s1 r1 s' K E).
Qed.

Lemma texts_full data : forall s s', full_st s -> texts Q s data = Some s' -> full_st s'.
Proof.
  induction data as [|t r IH]; intros s s' H E; [injection E as <-; exact H|].
  cbn [texts] in E. destruct (text Q s t) as [s1|] eqn:E1; [|discriminate E].
  apply (IH s1 s'); [|exact E]. exact (loop_full _ _ _ _ H E1).
Qed.

(** The batches that texts are cut and joined into have the given size, except
    that the last one may be smaller. *)
Theorem C98_batches data batches : p_batch Q <> 0 ->
  process Q data = Ok (Some batches) -> sized (p_batch Q) batches.
Proof.
  intros Z E. unfold process in E. destruct (p_max Q <=? sep_len Q); [discriminate E|].
  injection E as E. destruct (texts Q init data) as [s|] eqn:T; [|discriminate E]. injection E as <-.
  assert (F : full_st s).
  { apply (texts_full data init s); [|exact T]. split; [constructor|cbn; lia]. }
  destruct F as [F B].
  assert (G : forall last : list sample, length last <= p_batch Q -> sized (p_batch Q) (s_done s ++ [last])).
  { intros last Ll i b Hb. destruct (Nat.lt_ge_cases i (length (s_done s))) as [Hi|Hi].
    - rewrite nth_error_app1 in Hb by exact Hi. apply nth_error_In in Hb.
      rewrite Forall_forall in F. rewrite (F b Hb). split; [lia|reflexivity].
    - rewrite nth_error_app2 in Hb by exact Hi. rewrite app_length. cbn [length].
      destruct (i - length (s_done s)) as [|j] eqn:D; [|destruct j; discriminate Hb].
      injection Hb as <-. split; [exact Ll|]. intro. lia. }
  assert (G0 : sized (p_batch Q) (s_done s)).
  { intros i b Hb. apply nth_error_In in Hb. rewrite Forall_forall in F. rewrite (F b Hb). split; [lia|reflexivity]. }
  unfold finish. destruct (s_flat s) as [|fl fls].
  - destruct (s_batch s) as [|x r] eqn:E; [exact G0|]. apply G. cbn in *. lia.
  - destruct (s_batch s ++ _) as [|x r] eqn:E; [exact G0|]. apply G. rewrite <- E, app_length. cbn. lia.
Qed.

(** The whole way: texts are cut and joined, the net predicts batch by batch, and
    the predictions are cut back.  If the rows of the net are as long as an input
    may be, every text gets one prediction for every character, and it is the one
    that the net made at the place where the character stands. *)
Theorem C98_texts {P F : Type} (zp : list P) (zf : list F)
    (net : list sample -> list (list P)) (netc : list sample -> list (list F)) (m : cnn) data batches show :
  (forall b, length (net b) = length b) -> (forall b, length (netc b) = length b) ->
  (forall b row, In row (net b) -> p_max Q <= length row) ->
  p_batch Q <> 0 -> may_predict m = Ok tt ->
  process Q data = Ok (Some batches) ->
  exists (rows : list (list P)) confs gaps gaps',
    CnnModel.predict (@sample C L) P F (fun x => length (fst x)) zp zf net netc m batches (p_batch Q) show
      = Ok (map IRow rows, confs)
    /\ rows = map (fun p => firstn (length (fst (fst p))) (snd p)) (combine (concat batches) (concat (map net batches)))
    /\ let back := match_sentence_lengths (length (p_sep Q)) (map (@length (C * L)) data) rows in
       Forall2 (fun t o => length o = length t) data back /\
       Forall (fun g => g = [] \/ g = p_sep Q) gaps /\
       Forall2 (fun g g' => length g' = length g) gaps gaps' /\
       concat (map fst (concat batches)) = weave (map (map fst) data) gaps /\
       concat rows = weave back gaps'.
Proof.
  intros N1 N2 W Z M E.
  pose proof (C98_order (@sample C L) P F (fun x => length (fst x)) zp zf net netc N1 N2 m batches (p_batch Q) show M Z (C98_batches data batches Z E)) as O.
  set (rows := map (fun p => firstn (length (fst (fst p))) (snd p)) (combine (concat batches) (concat (map net batches)))).
  assert (Hsl : length (p_sep Q) < p_max Q).
  { unfold process in E. destruct (p_max Q <=? sep_len Q) eqn:B; [discriminate E|]. apply Nat.leb_gt in B. exact B. }
  destruct (C31_inputs Q data Hsl) as (bs' & _ & E' & Sm & _). rewrite E in E'. injection E' as <-.
  assert (FR : Forall2 (fun x r => length r = length (fst x)) (concat batches) rows).
  { unfold rows. clear -N1 W Sm.
    assert (LN : length (concat (map net batches)) = length (concat batches)).
    { clear -N1. induction batches as [|b r IH]; [reflexivity|]. cbn. rewrite !app_length, N1, IH. reflexivity. }
    assert (LW : forall row, In row (concat (map net batches)) -> p_max Q <= length row).
    { intros row H. apply in_concat in H. destruct H as (l & Hl & H). apply in_map_iff in Hl.
      destruct Hl as (b & <- & _). exact (W b row H). }
    revert LN LW. generalize (concat (map net batches)) as out.
    induction Sm as [|x l [H1 H2] Sm IH]; intros [|o out] LN LW; try discriminate LN; constructor.
    - cbn [fst snd]. apply firstn_length_le. specialize (LW o (or_introl eq_refl)). lia.
    - apply IH; [injection LN as LN; exact LN|]. intros row H. apply LW. right. exact H. }
  destruct (C31_round_trip Q data rows batches E FR) as (gaps & gaps' & K).
  eexists rows, _, gaps, gaps'. split.
  - rewrite O. unfold rows. rewrite map_map. reflexivity.
  - split; [reflexivity|exact K].
Qed.
End Texts.

(** ** What a user may expect and does not get *)

(** New names for the same numbers are not noticed: predictions of the old net are
    given under the new names, without any training. *)
Theorem C98_renamed_refuted :
  exists m m1 a m2,
    kexec m KFit = (m1, None) /\ kexec m1 (KSet a) = (m2, None) /\ may_predict m2 = Ok tt /\
    dget (c_map m1) "EMAIL" = Some 2 /\ dget (c_map m2) "EMAIL" = None /\ dget (c_map m2) "PHONE" = Some 2.
Proof.
  exists (mkCnn [("PAD", 0); ("UNKNOWN", 1); ("EMAIL", 2)] "UNKNOWN" None).
  eexists. exists (MDict [("PAD", 0); ("UNKNOWN", 1); ("PHONE", 2)]). eexists.
  repeat split; vm_compute; reflexivity.
Qed.

(** PAD gets another number than zero when it stands in a list at another place
    than the first, although dictionaries are refused for that. *)
Theorem C98_pad_refuted :
  exists m l m1,
    cnn_set m (MList l) = (m1, None) /\ dget (c_map m1) "PAD" = Some 1 /\
    cnn_set m (MDict (c_map m1)) = (m, Some ValueError).
Proof.
  exists (mkCnn [] "UNKNOWN" None). exists ["UNKNOWN"; "PAD"]. eexists.
  repeat split; vm_compute; reflexivity.
Qed.

(** A default label that is no label is accepted, and then neither training nor
    predicting nor saving works. *)
Theorem C98_default_refuted m d : dget (c_map m) d = None -> c_net m <> None ->
  exists m1, kexec m (KDefault d) = (m1, None) /\ may_predict m1 = Err KeyError /\
    kexec m1 KFit = (m1, Some KeyError) /\ kexec m1 KSave = (m1, Some KeyError).
Proof.
  intros H N. eexists. split; [reflexivity|].
  unfold may_predict, kexec, cnn_fit, need_to_reconstruct. cbn [c_net c_map c_default].
  destruct (c_net m) as [[n i]|]; [|contradiction]. rewrite H. auto.
Qed.

(** After a label was added predictions are refused until the model is trained; but
    saving the model is enough. *)
Theorem C98_saved_refuted :
  exists m m1 m2,
    kexec m (KAdd (AStr "EMAIL") ANone) = (m1, None) /\ may_predict m1 = Err RuntimeErr /\
    kexec m1 KSave = (m2, None) /\ may_predict m2 = Ok tt.
Proof.
  exists (mkCnn [("PAD", 0); ("UNKNOWN", 1)] "UNKNOWN" (Some (2, 1))). eexists. eexists.
  repeat split; vm_compute; reflexivity.
Qed.

(** With a smaller batch before the last one there are more lists of predictions
    than samples. *)
Definition ex_net (b : list (list nat)) : list (list nat) := map (fun t => map (Nat.add 100) t ++ [0; 0]) b.
Definition ex_cnn : cnn := mkCnn [("PAD", 0); ("UNKNOWN", 1)] "UNKNOWN" (Some (2, 1)).

Theorem C98_short_batch_refuted :
  CnnModel.predict (list nat) nat nat (@length nat) [0] [0] ex_net ex_net ex_cnn [[[1]]; [[2]; [3]]] 2 false
  = Ok ([IRow [101]; IRow []; IRow [102]; IRow [103]], None).
Proof. vm_compute. reflexivity. Qed.

Example C98_example :
  CnnModel.predict (list nat) nat nat (@length nat) [0] [0] ex_net ex_net ex_cnn
    [[[1; 2]; [3]]; [[4]; [5]]; [[6]; [7; 8; 9]]; [[10]]] 2 true
  = Ok ([IRow [101; 102]; IRow [103]; IRow [104]; IRow [105]; IRow [106]; IRow [107; 108; 109]; IRow [110]],
        Some [IRow [101; 102]; IRow [103]; IRow [104]; IRow [105]; IRow [106]; IRow [107; 108; 109]; IRow [110]])
  /\ cnn_set ex_cnn (MList ["UNKNOWN"; "EMAIL"])
     = (mkCnn [("PAD", 0); ("UNKNOWN", 1); ("EMAIL", 2)] "UNKNOWN" (Some (2, 1)), None)
  /\ may_predict (fst (cnn_set ex_cnn (MList ["UNKNOWN"; "EMAIL"]))) = Err RuntimeErr
  /\ cnn_set ex_cnn (MList ["EMAIL"]) = (ex_cnn, Some ValueError).
Proof. vm_compute. repeat split; reflexivity. Qed.
