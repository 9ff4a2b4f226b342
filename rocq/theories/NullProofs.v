(** Lemmas about nulls and row labels. *)
From Coq Require Import QArith Permutation.
From Verif Require Import PyCommon PyDict ListFacts NullModel.
Local Open Scope nat_scope.

(** ** Sets as lists *)
Section Sets.
  Context {X : Type} {E : EqDecB X}.

  Lemma supdate_In : forall xs (s : list X) x, In x (supdate s xs) <-> In x s \/ In x xs.
  Proof.
    unfold supdate. induction xs as [|y xs IH]; intros s x; cbn [fold_left In]; [tauto|].
    rewrite IH. unfold sadd. destruct (lmem s y) eqn:M.
    - apply lmem_In in M. intuition; subst; auto.
    - rewrite in_app_iff. cbn [In]. intuition.
  Qed.

  Lemma supdate_NoDup : forall xs (s : list X), NoDup s -> NoDup (supdate s xs).
  Proof.
    unfold supdate. induction xs as [|y xs IH]; intros s H; cbn [fold_left]; [exact H|]. apply IH.
    unfold sadd. destruct (lmem s y) eqn:M; [exact H|]. apply NoDup_snoc; [exact H|]. apply lmem_false. exact M.
  Qed.

  Lemma supdate_app : forall xs ys (s : list X), supdate s (xs ++ ys) = supdate (supdate s xs) ys.
  Proof. intros. unfold supdate. apply fold_left_app. Qed.

  Lemma supdate_fresh : forall xs (s : list X), NoDup (s ++ xs) -> supdate s xs = s ++ xs.
  Proof.
    unfold supdate. induction xs as [|y xs IH]; intros s H; cbn [fold_left]; [rewrite app_nil_r; reflexivity|].
    unfold sadd at 2. assert (M : lmem s y = false).
    { apply lmem_false. intro I. apply NoDup_remove_2 in H. apply H. apply in_app_iff. auto. }
    rewrite M, IH; rewrite <- app_assoc; [reflexivity|exact H].
  Qed.
End Sets.

Section Null.
  Context {C : Type} {EC : EqDecB C}.
  Variable is_null : C -> bool.
  Variable order : list label -> list label.
  Hypothesis order_perm : forall l, Permutation (order l) l.

  Notation rows := (rows C).
  Notation nullrow := (fun x : label * C => is_null (snd x)).
  Notation truerow := (fun x : label * C => negb (is_null (snd x))).

  (** Rows at the given positions. *)
  Definition pick (r : rows) (ids : list nat) : rows :=
    flat_map (fun i => match nth_error r i with Some x => [x] | None => [] end) ids.

  Lemma pick_app r a b : pick r (a ++ b) = pick r a ++ pick r b.
  Proof. unfold pick. apply flat_map_app. Qed.

  Lemma pick_length r ids : Forall (fun i => i < length r) ids -> length (pick r ids) = length ids.
  Proof.
    induction 1 as [|i ids Hi H IH]; [reflexivity|]. cbn. apply nth_error_Some in Hi.
    destruct (nth_error r i); [cbn; f_equal; exact IH|congruence].
  Qed.

  Lemma pick_In r ids x : In x (pick r ids) <-> exists i, In i ids /\ nth_error r i = Some x.
  Proof.
    unfold pick. rewrite in_flat_map. split.
    - intros [i [Hi Hx]]. exists i. split; [exact Hi|]. destruct (nth_error r i); [|destruct Hx].
      destruct Hx as [->|[]]. reflexivity.
    - intros [i [Hi Hx]]. exists i. split; [exact Hi|]. rewrite Hx. cbn. auto.
  Qed.

  Lemma NoDup_nth_fst (r : rows) i j x y : NoDup (map fst r) ->
    nth_error r i = Some x -> nth_error r j = Some y -> fst x = fst y -> i = j.
  Proof.
    intros H Hi Hj E. rewrite NoDup_nth_error in H. apply H.
    - rewrite map_length. apply nth_error_Some. congruence.
    - rewrite !nth_error_map, Hi, Hj. cbn. congruence.
  Qed.

  Lemma pick_NoDup r ids : NoDup (map fst r) -> NoDup ids -> NoDup (map fst (pick r ids)).
  Proof.
    intros Hr. induction 1 as [|i ids Hi H IH]; [constructor|]. cbn [pick flat_map].
    destruct (nth_error r i) as [x|] eqn:Ex; [|exact IH]. cbn [app map]. constructor; [|exact IH].
    intro I. apply in_map_iff in I. destruct I as [y [Ey Iy]]. apply pick_In in Iy. destruct Iy as [j [Hj Jy]].
    apply Hi. replace i with j; [exact Hj|]. exact (NoDup_nth_fst r j i y x Hr Jy Ex Ey).
  Qed.

  (** ** The sampling loop *)

  Lemma na_get : forall (l : rows) d c,
    dget (fold_left na_add l d) c =
      match dget d c, map fst (filter (fun x => eqb (snd x) c) l) with
      | None, [] => None
      | None, ls => Some ls
      | Some l0, ls => Some (l0 ++ ls)
      end.
  Proof.
    induction l as [|[lb x] l IH]; intros d c; cbn [fold_left filter map].
    - destruct (dget d c); [rewrite app_nil_r|]; reflexivity.
    - rewrite IH. unfold na_add at 1. cbn [fst snd]. rewrite dget_dset. destruct (eqb_spec x c) as [->|N].
      + cbn [map fst]. destruct (dget d c); [rewrite <- app_assoc|]; reflexivity.
      + reflexivity.
  Qed.

  Lemma na_keys_NoDup : forall (l : rows) d, NoDup (dkeys d) -> NoDup (dkeys (fold_left na_add l d)).
  Proof.
    induction l as [|x l IH]; intros d H; cbn [fold_left]; [exact H|]. apply IH. apply NoDup_dset. exact H.
  Qed.

  (** Enough rows after the given ones. *)
  Definition enough (sample_size min_true : nat) (ex : rows) : Prop :=
    min_true <= length (filter truerow ex) /\ sample_size <= length ex.

  (** [ex] are the rows examined: the shortest sequence of chunks, at least one, with enough rows, or
      all. *)
  Definition examined (t : batch C) (ex : rows) : Prop :=
    exists k, k <= length (t_chunks t) /\ ex = pick (t_rows t) (concat (firstn k (t_chunks t))) /\
      (forall k', 0 < k' < k -> ~ enough (t_sample t) (t_min_true t) (pick (t_rows t) (concat (firstn k' (t_chunks t))))) /\
      (k = length (t_chunks t) \/ 0 < k /\ enough (t_sample t) (t_min_true t) ex).

  (** What shuffle_in_chunks and partition yield: no position twice, none out of range. *)
  Definition valid_chunks (n : nat) (chunks : list (list nat)) : Prop :=
    NoDup (concat chunks) /\ Forall (fun i => i < n) (concat chunks).

  Lemma filter_NoDup_fst (r : rows) p : NoDup (map fst r) -> NoDup (map fst (filter p r)).
  Proof.
    induction r as [|x r IH]; cbn [filter map]; intro H; [constructor|]. inversion H as [|? ? Hx Hr]; subst.
    destruct (p x); [|auto]. cbn [map]. constructor; [|auto]. intro I. apply Hx.
    apply in_map_iff in I. destruct I as [y [<- Iy]]. apply filter_In in Iy. apply in_map. tauto.
  Qed.

  Lemma clean_loop_spec r ss mt : NoDup (map fst r) -> forall chunks done,
    valid_chunks (length r) (done :: chunks) ->
    exists k, k <= length chunks /\
      let ex := pick r (done ++ concat (firstn k chunks)) in
      clean_loop is_null r ss mt chunks (length (pick r done)) (map fst (filter truerow (pick r done)))
        (fold_left na_add (filter nullrow (pick r done)) []) =
        (length ex, map fst (filter truerow ex), fold_left na_add (filter nullrow ex) []) /\
      (forall k', 0 < k' < k -> ~ enough ss mt (pick r (done ++ concat (firstn k' chunks)))) /\
      (k = length chunks \/ 0 < k /\ enough ss mt ex).
  Proof.
    intro Hr. induction chunks as [|ids chunks IH]; intros done [V1 V2]; cbn [clean_loop].
    - exists 0. split; [cbn; lia|]. cbv zeta. cbn [firstn concat]. rewrite app_nil_r. split; [reflexivity|].
      split; [intros; lia|]. auto.
    - cbn [concat] in V1, V2.
      assert (V : valid_chunks (length r) ((done ++ ids) :: chunks)).
      { split; cbn [concat]; rewrite <- app_assoc; assumption. }
      assert (Len : length (pick r done) + length ids = length (pick r (done ++ ids))).
      { rewrite pick_app, app_length. f_equal. symmetry. apply pick_length.
        apply Forall_app in V2. destruct V2 as [_ V2]. apply Forall_app in V2. tauto. }
      fold (pick r ids). rewrite Len.
      assert (Nd : NoDup (map fst (pick r (done ++ ids)))).
      { apply pick_NoDup; [exact Hr|]. rewrite app_assoc in V1. apply NoDup_app_l in V1. exact V1. }
      assert (Tr : supdate (map fst (filter truerow (pick r done))) (map fst (filter truerow (pick r ids))) =
                   map fst (filter truerow (pick r (done ++ ids)))).
      { rewrite pick_app, filter_app, map_app. apply supdate_fresh. rewrite <- map_app, <- filter_app, <- pick_app.
        apply filter_NoDup_fst. exact Nd. }
      rewrite Tr.
      assert (Na : fold_left na_add (filter nullrow (pick r ids)) (fold_left na_add (filter nullrow (pick r done)) []) =
                   fold_left na_add (filter nullrow (pick r (done ++ ids))) []).
      { rewrite pick_app, filter_app, fold_left_app. reflexivity. }
      rewrite Na. cbv zeta.
      destruct ((mt <=? length (map fst (filter truerow (pick r (done ++ ids))))) && (ss <=? length (pick r (done ++ ids)))) eqn:B.
      + exists 1. split; [cbn; lia|]. cbn [firstn concat]. rewrite app_nil_r. split; [reflexivity|].
        split; [intros; lia|]. right. split; [lia|]. apply andb_true_iff in B. rewrite map_length in B.
        destruct B as [B1 B2]. apply Nat.leb_le in B1, B2. split; assumption.
      + destruct (IH (done ++ ids) V) as [k [Lk [Ek [Mk Sk]]]]. exists (S k). split; [cbn; lia|].
        cbn [firstn concat]. rewrite app_assoc. split; [exact Ek|]. split.
        * intros k' Hk'. destruct k' as [|k']; [lia|]. cbn [firstn concat]. rewrite app_assoc.
          destruct k' as [|k'].
          -- cbn [firstn concat]. rewrite app_nil_r. intros [B1 B2]. apply andb_false_iff in B. rewrite map_length in B.
             destruct B as [B|B]; apply Nat.leb_gt in B; lia.
          -- apply Mk. lia.
        * destruct Sk as [->|[S1 S2]]; [auto|]. right. split; [lia|exact S2].
  Qed.

  Lemma loc_perm (r ex : rows) : NoDup (map fst r) -> (forall x, In x ex -> In x r) -> 
    forall ls, Permutation ls (map fst ex) -> Permutation (flat_map (fun l => filter (fun x => eqb (fst x) l) r) ls) ex.
  Proof.
    intros Hr Sub ls P.
    assert (One : forall x, In x r -> filter (fun y => eqb (fst y) (fst x)) r = [x]).
    { clear - Hr. induction r as [|y r IH]; intros x I; [destruct I|]. cbn [map] in Hr. inversion Hr as [|? ? Hy Hr']; subst.
      cbn [filter]. destruct I as [->|I].
      - rewrite eqb_refl. f_equal. clear - Hy. induction r as [|z r IH]; [reflexivity|]. cbn [filter].
        cbn [map In] in Hy. destruct (eqb_spec (fst z) (fst x)) as [E|N]; [exfalso; auto|]. apply IH. tauto.
      - destruct (eqb_spec (fst y) (fst x)) as [E|N]; [|apply IH; assumption].
        exfalso. apply Hy. rewrite E. apply in_map. exact I. }
    assert (Base : flat_map (fun l => filter (fun x => eqb (fst x) l) r) (map fst ex) = ex).
    { clear P. induction ex as [|x ex IH]; [reflexivity|]. cbn [map flat_map]. rewrite One by (apply Sub; cbn; auto).
      rewrite IH by (intros y Hy; apply Sub; cbn; auto). reflexivity. }
    eapply Permutation_trans; [apply Permutation_flat_map; exact P|]. rewrite Base. reflexivity.
  Qed.

  (** ** Base statistics of a batch *)

  Definition count_null (ex : rows) : nat := length (filter nullrow ex).

  Lemma count_split ex : count_null ex + length (filter truerow ex) = length ex.
  Proof.
    unfold count_null. induction ex as [|x ex IH]; cbn; [reflexivity|]. destruct (is_null (snd x)); cbn; lia.
  Qed.

  Lemma clean_spec (t : batch C) :
    t_rows t <> [] -> NoDup (map fst (t_rows t)) -> valid_chunks (length (t_rows t)) (t_chunks t) ->
    exists ex, examined t ex /\
      let '(cleaned, b) := clean_batch is_null order t in
      Permutation cleaned (filter truerow ex) /\
      b_size b = length ex /\ b_nulls b = Z.of_nat (count_null ex) /\
      b_types b = fold_left na_add (filter nullrow ex) [] /\ b_ids b = int_bounds (t_rows t).
  Proof.
    intros Hn Hr Hv. unfold clean_batch, clean. destruct (t_rows t) as [|r0 rr] eqn:Er; [congruence|].
    set (r := r0 :: rr) in *.
    destruct (clean_loop_spec r (t_sample t) (t_min_true t) Hr (t_chunks t) [] Hv) as [k [Lk [Ek [Mk Sk]]]].
    cbn [app pick flat_map filter map fold_left length] in Ek, Mk, Sk. fold (pick r (concat (firstn k (t_chunks t)))) in Ek, Sk.
    set (ex := pick r (concat (firstn k (t_chunks t)))) in *. exists ex. split.
    - exists k. rewrite Er. fold r. split; [exact Lk|]. split; [reflexivity|]. split; [exact Mk|exact Sk].
    - rewrite Ek. cbn [b_size b_nulls b_types b_ids].
      split; [|split; [reflexivity|split; [|split; reflexivity]]].
      + apply loc_perm; [exact Hr| |apply order_perm].
        intros x Hx. apply filter_In in Hx. destruct Hx as [Hx _]. apply pick_In in Hx. destruct Hx as [i [_ Hi]].
        eapply nth_error_In. exact Hi.
      + rewrite (Permutation_length (order_perm _)), map_length. pose proof (count_split ex). lia.
  Qed.
End Null.
