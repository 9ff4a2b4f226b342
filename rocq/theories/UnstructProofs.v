(** Lemmas on the cleaning of free text. *)
From Coq Require Import ZArith QArith String Permutation Sorted.
From Verif Require Import PyCommon PyDict SamplingModel SamplingProps SizeModel NullModel NullProofs ListFacts UnstructModel.
Local Open Scope nat_scope.

Definition at_pos {A} (l : list A) (ids : list nat) : list A :=
  flat_map (fun i => match nth_error l i with Some x => [x] | None => [] end) ids.

Lemma at_pos_app {A} (l : list A) a b : at_pos l (a ++ b) = at_pos l a ++ at_pos l b.
Proof. unfold at_pos. apply flat_map_app. Qed.

Lemma at_pos_map {A B} (f : A -> B) l ids : at_pos (map f l) ids = map f (at_pos l ids).
Proof.
  unfold at_pos. induction ids as [|i ids IH]; [reflexivity|]. cbn [flat_map]. rewrite map_app, IH, nth_error_map. f_equal.
  destruct (nth_error l i); reflexivity.
Qed.

Lemma at_pos_length {A} (l : list A) ids : Forall (fun i => i < length l) ids -> length (at_pos l ids) = length ids.
Proof.
  unfold at_pos. induction 1 as [|i ids H _ IH]; [reflexivity|]. cbn [flat_map length]. rewrite app_length, IH.
  destruct (nth_error l i) eqn:E; [reflexivity|]. apply nth_error_None in E. lia.
Qed.

Lemma at_pos_In {A} (l : list A) ids x : In x (at_pos l ids) <-> exists i, In i ids /\ nth_error l i = Some x.
Proof.
  unfold at_pos. rewrite in_flat_map. split; intros [i [I H]]; exists i; (split; [exact I|]).
  - destruct (nth_error l i); [destruct H as [->|[]]; reflexivity|destruct H].
  - rewrite H. left. reflexivity.
Qed.

Lemma at_pos_seq {A} (l : list A) : forall s pre, length pre = s -> at_pos (pre ++ l) (seq s (length l)) = l.
Proof.
  induction l as [|x l IH]; intros s pre H; [reflexivity|]. cbn [length seq]. unfold at_pos. cbn [flat_map].
  rewrite nth_error_app2 by lia. rewrite H, Nat.sub_diag. cbn [nth_error app]. f_equal.
  specialize (IH (S s) (pre ++ [x])). rewrite <- app_assoc in IH. apply IH. rewrite app_length. cbn. lia.
Qed.

Lemma at_pos_all {A} (l : list A) : at_pos l (seq 0 (length l)) = l.
Proof. exact (at_pos_seq l 0 [] eq_refl). Qed.

Lemma at_pos_NoDup {A} (l : list A) ids : NoDup l -> NoDup ids -> NoDup (at_pos l ids).
Proof.
  intros L. induction 1 as [|i ids N _ IH]; [constructor|]. unfold at_pos. cbn [flat_map]. fold (at_pos l ids).
  destruct (nth_error l i) as [x|] eqn:E; [|exact IH]. cbn [app]. constructor; [|exact IH]. intros I.
  apply at_pos_In in I. destruct I as [j [J E']]. apply N.
  assert (i = j); [|subst; exact J].
  apply (proj1 (NoDup_nth_error l) L); [apply nth_error_Some; congruence|congruence].
Qed.

Lemma chunks_firstn {A} c (b : bool) (r : nat) : r < c -> forall (chunks : list (list A)) q k,
  map (@length A) chunks = repeat c q ++ (if b then [] else [r]) -> k <= length chunks ->
  concat (firstn k chunks) = firstn (k * c) (concat chunks).
Proof.
  intros R. induction chunks as [|x l IH]; intros q k H K.
  - assert (k = 0) by (cbn in K; lia). subst. reflexivity.
  - destruct k as [|k]; [reflexivity|]. cbn [firstn concat]. destruct q as [|q].
    + destruct b; [discriminate H|]. cbn in H. injection H as H1 H2. destruct l; [|discriminate H2].
      destruct k; [|cbn in K; lia]. cbn [firstn concat]. rewrite !app_nil_r, firstn_all2; [reflexivity|]. cbn [Nat.mul]. lia.
    + cbn [repeat map app] in H. injection H as H1 H2. rewrite firstn_app, (firstn_all2 x) by (cbn [Nat.mul]; lia). f_equal.
      rewrite (IH q k H2) by (cbn in K; lia). f_equal. cbn [Nat.mul]. lia.
Qed.

Lemma chunks_count {A} c q (b : bool) (r : nat) (chunks : list (list A)) : map (@length A) chunks = repeat c q ++ (if b then [] else [r]) ->
  length (concat chunks) = q * c + (if b then 0 else r).
Proof.
  revert q. induction chunks as [|x l IH]; intros q H.
  - destruct q; destruct b; try discriminate H; reflexivity.
  - cbn [concat]. rewrite app_length. destruct q as [|q].
    + destruct b; [discriminate H|]. cbn in H. injection H as H1 H2. destruct l; [|discriminate H2]. cbn. lia.
    + cbn [repeat map app] in H. injection H as H1 H2. rewrite (IH q H2). lia.
Qed.

(** ** Sorting *)
Lemma insertZ_perm x l : Permutation (insertZ x l) (x :: l).
Proof.
  induction l as [|y l IH]; cbn [insertZ]; [reflexivity|]. destruct (x <=? y)%Z; [reflexivity|].
  rewrite IH. apply perm_swap.
Qed.
Lemma sortZ_perm l : Permutation (sortZ l) l.
Proof. induction l as [|x l IH]; [reflexivity|]. cbn [sortZ fold_right]. rewrite insertZ_perm. fold (sortZ l). rewrite IH. reflexivity. Qed.

Lemma insertZ_sorted x l : StronglySorted Z.le l -> StronglySorted Z.le (insertZ x l).
Proof.
  induction 1 as [|y l S IH F]; cbn [insertZ]; [repeat constructor|]. destruct (Z.leb_spec x y) as [L|L].
  - constructor; [constructor; assumption|]. constructor; [exact L|]. eapply Forall_impl; [|exact F]. cbn. intros; lia.
  - constructor; [exact IH|]. apply Forall_forall. intros z I. apply (Permutation_in _ (insertZ_perm x l)) in I.
    destruct I as [<-|I]; [lia|]. rewrite Forall_forall in F. auto.
Qed.
Lemma sortZ_sorted l : StronglySorted Z.le (sortZ l).
Proof. induction l as [|x l IH]; [constructor|]. apply insertZ_sorted, IH. Qed.

Lemma sorted_strict l : NoDup l -> StronglySorted Z.le l -> StronglySorted Z.lt l.
Proof.
  intros D. induction 1 as [|x l S IH F]; [constructor|]. inversion D; subst. constructor; [apply IH; assumption|].
  apply Forall_forall. intros y I. rewrite Forall_forall in F. specialize (F y I).
  assert (x <> y) by (intros ->; contradiction). lia.
Qed.

Lemma sorted_same : forall l1 l2, StronglySorted Z.lt l1 -> StronglySorted Z.lt l2 -> (forall x, In x l1 <-> In x l2) -> l1 = l2.
Proof.
  induction l1 as [|x l1 IH]; intros l2 S1 S2 E.
  - destruct l2 as [|y l2]; [reflexivity|]. exfalso. apply (proj2 (E y)). left. reflexivity.
  - destruct l2 as [|y l2]; [exfalso; apply (proj1 (E x)); left; reflexivity|].
    inversion S1 as [|? ? S1' F1]; inversion S2 as [|? ? S2' F2]; subst. rewrite Forall_forall in F1, F2.
    assert (x = y).
    { destruct (proj1 (E x) (or_introl eq_refl)) as [->|I]; [reflexivity|].
      destruct (proj2 (E y) (or_introl eq_refl)) as [->|J]; [reflexivity|]. specialize (F1 _ J). specialize (F2 _ I). lia. }
    subst y. f_equal. apply IH; try assumption. intros z. split; intros I.
    + destruct (proj1 (E z) (or_intror I)) as [<-|J]; [|exact J]. specialize (F1 _ I). lia.
    + destruct (proj2 (E z) (or_intror I)) as [<-|J]; [|exact J]. specialize (F2 _ I). lia.
Qed.

Lemma filter_indexed {A} (p : A -> bool) l : forall s, filter p l = map snd (filter (fun x => p (snd x)) (combine (seq s (length l)) l)).
Proof.
  induction l as [|x l IH]; intros s; [reflexivity|]. cbn [length seq combine filter snd]. rewrite (IH (S s)).
  destruct (p x); reflexivity.
Qed.

Lemma combine_seq_nth {A} (l : list A) : forall s i x, In (i, x) (combine (seq s (length l)) l) -> s <= i /\ nth_error l (i - s) = Some x.
Proof.
  induction l as [|y l IH]; intros s i x I; [destruct I|]. cbn [length seq combine In] in I. destruct I as [E|I].
  - injection E as -> ->. rewrite Nat.sub_diag. split; [lia|reflexivity].
  - apply IH in I. destruct I as [L H]. split; [lia|]. replace (i - s) with (S (i - S s)) by lia. exact H.
Qed.

Lemma combine_map_snd {A B} (f : A -> B) l : forall s, combine (seq s (length l)) (map f l) = map (fun x => (fst x, f (snd x))) (combine (seq s (length l)) l).
Proof. induction l as [|x l IH]; intros s; [reflexivity|]. cbn [length seq map combine fst snd]. f_equal. apply IH. Qed.

Lemma filter_map {A B} (f : A -> B) p l : filter p (map f l) = map f (filter (fun x => p (f x)) l).
Proof. induction l as [|x l IH]; [reflexivity|]. cbn [map filter]. rewrite IH. destruct (p (f x)); reflexivity. Qed.

Lemma NoDup_fst_filter {A B} (p : A * B -> bool) r : NoDup (map fst r) -> NoDup (map fst (filter p r)).
Proof.
  induction r as [|x r IH]; cbn [filter map]; intro H; [constructor|]. inversion H as [|? ? Hx Hr]; subst.
  destruct (p x); [|auto]. cbn [map]. constructor; [|auto]. intro I. apply Hx.
  apply in_map_iff in I. destruct I as [y [<- Iy]]. apply filter_In in Iy. apply in_map. tauto.
Qed.

Lemma filter_sorted {B} (p : Z * B -> bool) r : StronglySorted Z.lt (map fst r) -> StronglySorted Z.lt (map fst (filter p r)).
Proof.
  induction r as [|x r IH]; cbn [filter map]; intro H; [constructor|]. inversion H as [|? ? Hr Hx]; subst.
  destruct (p x); [|auto]. cbn [map]. constructor; [auto|]. rewrite Forall_forall in *. intros z I. apply Hx.
  apply in_map_iff in I. destruct I as [y [<- Iy]]. apply filter_In in Iy. apply in_map. tauto.
Qed.

Lemma sorted_NoDup l : StronglySorted Z.lt l -> NoDup l.
Proof. induction 1 as [|x l S IH F]; constructor; [|exact IH]. intros I. rewrite Forall_forall in F. specialize (F _ I). lia. Qed.

Section Clean.
  Context {T : Type}.
  Variable blank : T -> bool.
  Variable bytes : T -> nat.
  Variable pick5 : list T -> list T.
  Definition word (t : T) : bool := negb (blank t).
  Definition wrow (x : Z * T) : bool := negb (blank (snd x)).

  Lemma wrow_lines (r : list (Z * T)) : map snd (filter wrow r) = filter word (map snd r).
  Proof. unfold wrow, word. rewrite filter_map. reflexivity. Qed.

  Definition enough (size mt : nat) (ex : list (Z * T)) : Prop := mt <= length (filter wrow ex) /\ size <= length ex.

  Lemma examine_spec (r : list (Z * T)) size mt : NoDup (map fst r) -> forall chunks done,
    NoDup (done ++ concat chunks) -> Forall (fun i => i < length r) (done ++ concat chunks) ->
    exists k, k <= length chunks /\
      (let ex := at_pos r (done ++ concat (firstn k chunks)) in
       examine blank r size mt chunks (length done) (map fst (filter wrow (at_pos r done))) = (length (done ++ concat (firstn k chunks)), map fst (filter wrow ex)) /\
       (k = length chunks \/ 0 < k /\ enough size mt ex)) /\
      (forall k', 0 < k' < k -> ~ enough size mt (at_pos r (done ++ concat (firstn k' chunks)))).
  Proof.
    intros L. induction chunks as [|ids chunks IH]; intros done D R; cbn [examine].
    - exists 0. split; [cbn; lia|]. cbn [firstn concat]. rewrite app_nil_r. cbv zeta. split; [split; [reflexivity|left; reflexivity]|]. intros; lia.
    - cbn [concat] in D, R. rewrite app_assoc in D, R.
      assert (E : supdate (map fst (filter wrow (at_pos r done))) (map fst (filter (fun x => negb (blank (snd x))) (iloc r ids))) =
                  map fst (filter wrow (at_pos r (done ++ ids)))).
      { rewrite at_pos_app, filter_app, map_app. apply supdate_fresh. rewrite <- map_app. change (iloc r ids) with (at_pos r ids).
        change (fun x : Z * T => negb (blank (snd x))) with wrow. rewrite <- filter_app, <- at_pos_app.
        apply NoDup_fst_filter. rewrite <- at_pos_map. apply at_pos_NoDup; [exact L|]. eapply NoDup_app_l; exact D. }
      rewrite E. rewrite <- app_length. clear E.
      assert (Ln : length (at_pos r (done ++ ids)) = length (done ++ ids)).
      { apply at_pos_length. apply Forall_app in R. tauto. }
      cbv zeta.
      destruct ((mt <=? length (map fst (filter wrow (at_pos r (done ++ ids))))) && (size <=? length (done ++ ids))) eqn:B.
      + exists 1. cbn [firstn concat length]. rewrite app_nil_r. split; [lia|]. split; [|intros; lia]. split; [reflexivity|]. right. split; [lia|].
        apply andb_true_iff in B. destruct B as [B1 B2]. apply Nat.leb_le in B1, B2. rewrite map_length in B1. split; lia.
      + destruct (IH (done ++ ids) D R) as [k [K [[Ek Sk] Mk]]]. exists (S k). cbn [firstn concat length]. rewrite app_assoc. split; [lia|]. split.
        * split; [exact Ek|]. destruct Sk as [->|[S1 S2]]; [left; reflexivity|right; split; [lia|exact S2]].
        * intros k' Hk. destruct k' as [|k']; [lia|]. cbn [firstn concat]. rewrite app_assoc. destruct k' as [|k'].
          -- cbn [firstn concat]. rewrite app_nil_r. intros [B1 B2]. rewrite Ln in B2. apply andb_false_iff in B. rewrite map_length in B.
             destruct B as [B|B]; apply Nat.leb_gt in B; lia.
          -- apply Mk. lia.
  Qed.

  Lemma loc_one (r : list (Z * T)) : NoDup (map fst r) -> forall x, In x r -> filter (fun y => PyDict.eqb (fst y) (fst x)) r = [x].
  Proof.
    induction r as [|y r IH]; intros Hr x I; [destruct I|]. cbn [map] in Hr. inversion Hr as [|? ? Hy Hr']; subst.
    cbn [filter]. destruct I as [->|I].
    - rewrite eqb_refl. f_equal. clear - Hy. induction r as [|z r IH]; [reflexivity|]. cbn [filter].
      cbn [map In] in Hy. destruct (eqb_spec (fst z) (fst x)) as [E|N]; [exfalso; auto|]. apply IH. tauto.
    - destruct (eqb_spec (fst y) (fst x)) as [E|N]; [|apply IH; assumption].
      exfalso. apply Hy. rewrite E. apply in_map. exact I.
  Qed.

  Lemma loc_map (r : list (Z * T)) ex : NoDup (map fst r) -> (forall x, In x ex -> In x r) -> loc r (map fst ex) = ex.
  Proof.
    intros L. induction ex as [|x ex IH]; intros S; [reflexivity|]. unfold loc. cbn [map flat_map]. rewrite loc_one; [|exact L|apply S; left; reflexivity].
    cbn [app]. f_equal. apply IH. intros y I. apply S. right. exact I.
  Qed.

  Lemma loc_perm (r : list (Z * T)) ex ls : NoDup (map fst r) -> (forall x, In x ex -> In x r) -> Permutation ls (map fst ex) -> Permutation (loc r ls) ex.
  Proof.
    intros L S P. transitivity (loc r (map fst ex)); [|rewrite (loc_map r ex L S); reflexivity]. unfold loc. apply Permutation_flat_map. exact P.
  Qed.

  Lemma loc_sorted (r : list (Z * T)) ls : StronglySorted Z.lt (map fst r) -> NoDup ls -> (forall l, In l ls -> In l (map fst r)) ->
    loc r (sortZ ls) = filter (fun x => lmem ls (fst x)) r.
  Proof.
    intros S D I. rewrite <- (loc_map r (filter (fun x => lmem ls (fst x)) r)); [|apply sorted_NoDup, S|intros x H; apply filter_In in H; tauto].
    f_equal. apply sorted_same.
    - apply sorted_strict; [|apply sortZ_sorted]. eapply Permutation_NoDup; [apply Permutation_sym, sortZ_perm|exact D].
    - apply filter_sorted, S.
    - intros x. split; intros H.
      + apply (Permutation_in _ (sortZ_perm ls)) in H. pose proof (I _ H) as J. apply in_map_iff in J. destruct J as [y [<- J]].
        apply in_map. apply filter_In. split; [exact J|]. apply lmem_In. exact H.
      + apply (Permutation_in _ (Permutation_sym (sortZ_perm ls))). apply in_map_iff in H. destruct H as [y [<- H]]. apply filter_In in H. apply lmem_In. apply H.
  Qed.

  Lemma word_count l : length (filter word l) + length (filter blank l) = length l.
  Proof. unfold word. induction l as [|x l IH]; [reflexivity|]. cbn [filter]. destruct (blank x); cbn [negb length]; lia. Qed.

  (** ** Cleaning *)
  Lemma clean_spec draw (r : list (Z * T)) size mt kept b :
    NoDup (map fst r) -> 0 < size -> (forall j, j < length r -> j <= draw j < length r) ->
    clean_text blank bytes pick5 draw r size mt = (kept, b) ->
    exists order m, Permutation order (seq 0 (length r)) /\ m <= length r /\
      (let ex := at_pos (map snd r) (firstn m order) in
       b_total b = m /\ b_empty b = Z.of_nat (length (filter blank ex)) /\ Permutation kept (filter word ex) /\
       (StronglySorted Z.lt (map fst r) ->
          kept = map snd (filter (fun x => word (snd x) && lmem (firstn m order) (fst x)) (combine (seq 0 (length r)) (map snd r)))) /\
       (m = length r \/ (exists j, 0 < j /\ m = j * size) /\ mt <= length (filter word ex))) /\
      (forall j, 0 < j -> j * size < m -> length (filter word (at_pos (map snd r) (firstn (j * size) order))) < mt) /\
      b_sample b = pick5 kept /\ b_memory b = list_sum (map bytes (map snd r)).
  Proof.
    intros L Hz D. unfold clean_text. destruct (C01_shuffle_is_permutation (length r) size draw Hz D) as [P C].
    set (chunks := shuffle_in_chunks draw (length r) size) in *. clearbody chunks. set (n := length r) in *.
    assert (Q : concat chunks = concat chunks) by reflexivity.
    assert (ND : NoDup ([] ++ concat chunks)). { cbn [app]. eapply Permutation_NoDup; [apply Permutation_sym; exact P|apply seq_NoDup]. }
    assert (FR : Forall (fun i => i < length r) ([] ++ concat chunks)).
    { apply Forall_forall. intros i I. cbn [app] in I. apply (Permutation_in _ P) in I. apply in_seq in I. fold n. lia. }
    destruct (examine_spec r size mt L chunks [] ND FR) as [k [K [[E S] M]]].
    cbn [app] in E, S, M, ND, FR. change (length (@nil nat)) with 0 in E. change (map fst (filter wrow (at_pos r []))) with (@nil Z) in E.
    rewrite E. clear E. cbv zeta beta iota.
    assert (RM : n mod size < size) by (apply Nat.mod_upper_bound; lia).
    pose proof (chunks_firstn size (n mod size =? 0) (n mod size) RM chunks (n / size)) as CF.
    assert (F : forall k', k' <= length chunks -> concat (firstn k' chunks) = firstn (k' * size) (concat chunks)) by (intros; apply CF; assumption).
    assert (Ord : length (concat chunks) = n). { rewrite (Permutation_length P), seq_length. reflexivity. }
    set (order := concat chunks) in *.
    intros E. injection E as <- <-. cbn [b_total b_empty b_sample b_memory].
    exists order, (length (concat (firstn k chunks))). split; [exact P|].
    assert (Lm : concat (firstn k chunks) = firstn (length (concat (firstn k chunks))) order).
    { rewrite (F k K) at 1. rewrite (F k K). rewrite firstn_length. destruct (Nat.le_ge_cases (k * size) (length order)) as [H|H].
      - rewrite Nat.min_l by exact H. reflexivity.
      - rewrite Nat.min_r by exact H. rewrite !firstn_all2 by lia. reflexivity. }
    set (ids := concat (firstn k chunks)) in *. set (m := length ids) in *.
    assert (Le : m <= n). { rewrite <- Ord. unfold m. rewrite Lm. rewrite firstn_length. lia. }
    split; [exact Le|]. rewrite <- Lm. cbv zeta.
    assert (IR : Forall (fun i => i < length r) ids). { rewrite Lm. apply Forall_forall. intros i I. rewrite Forall_forall in FR. apply FR. eapply In_firstn; exact I. }
    assert (LA : length (at_pos (map snd r) ids) = m). { apply at_pos_length. rewrite map_length. exact IR. }
    assert (LW : length (filter wrow (at_pos r ids)) = length (filter word (at_pos (map snd r) ids))).
    { rewrite at_pos_map, <- wrow_lines, map_length. reflexivity. }
    assert (Sub : forall x, In x (filter wrow (at_pos r ids)) -> In x r).
    { intros x I. apply filter_In in I. destruct I as [I _]. apply at_pos_In in I. destruct I as [i [_ I]]. eapply nth_error_In; exact I. }
    assert (NI : NoDup ids). { rewrite Lm. eapply NoDup_app_l. rewrite firstn_skipn. exact ND. }
    split; [|split; [|split; [reflexivity|]]].
    - split; [reflexivity|]. split; [|split; [|split]].
      + rewrite map_length, LW. pose proof (word_count (at_pos (map snd r) ids)) as W. rewrite LA in W. lia.
      + rewrite at_pos_map, <- wrow_lines. apply Permutation_map. apply loc_perm; [exact L|exact Sub|apply sortZ_perm].
      + intros SS. rewrite loc_sorted; [|exact SS|apply NoDup_fst_filter; rewrite <- at_pos_map; apply at_pos_NoDup; assumption|].
        2:{ intros l I. apply in_map_iff in I. destruct I as [x [<- I]]. apply in_map, Sub, I. }
        rewrite (filter_indexed _ r 0). rewrite map_map. fold n. unfold n. rewrite combine_map_snd, filter_map, map_map. cbn [fst snd].
        apply (f_equal (map _)). apply filter_ext_in. intros [i x] I. cbn [fst snd]. apply combine_seq_nth in I. destruct I as [_ I]. rewrite Nat.sub_0_r in I.
        apply Bool.eq_iff_eq_true. rewrite andb_true_iff, !lmem_In. split.
        * intros H. apply in_map_iff in H. destruct H as [y [Ey H]]. apply filter_In in H. destruct H as [H W]. apply at_pos_In in H. destruct H as [j [J H]].
          assert (i = j).
          { apply (proj1 (NoDup_nth_error (map fst r)) L); [rewrite map_length; apply nth_error_Some; congruence|].
            rewrite !nth_error_map, I, H. cbn. congruence. }
          subst j. rewrite I in H. injection H as ->. split; assumption.
        * intros [W J]. apply in_map_iff. exists x. split; [reflexivity|]. apply filter_In. split; [|exact W]. apply at_pos_In. exists i. split; assumption.
      + destruct S as [->|[K0 [S1 S2]]].
        * left. unfold m, ids. rewrite firstn_all. exact Ord.
        * destruct (Nat.le_ge_cases (k * size) n) as [H|H].
          -- right. split; [|rewrite <- LW; exact S1]. exists k. split; [exact K0|]. unfold m. unfold ids. rewrite (F k K), firstn_length. lia.
          -- left. unfold m, ids. rewrite (F k K), firstn_length. lia.
    - intros j J0 Jm. assert (Jk : j < k).
      { destruct (Nat.lt_ge_cases j k) as [H|H]; [exact H|]. exfalso. assert (m <= k * size) by (unfold m, ids; rewrite (F k K), firstn_length; lia).
        assert (k * size <= j * size) by (apply Nat.mul_le_mono_r; exact H). lia. }
      specialize (M j (conj J0 Jk)). rewrite (F j) in M by lia. unfold enough in M.
      assert (LJ : length (at_pos r (firstn (j * size) order)) = j * size).
      { rewrite at_pos_length; [rewrite firstn_length; lia|]. apply Forall_forall. intros i I. rewrite Forall_forall in FR. apply FR. eapply In_firstn; exact I. }
      rewrite LJ in M. rewrite at_pos_map, <- wrow_lines, map_length.
      destruct (Nat.lt_ge_cases (length (filter wrow (at_pos r (firstn (j * size) order)))) mt) as [H|H]; [exact H|]. exfalso. apply M. split; [exact H|].
      destruct j; [lia|]. cbn [Nat.mul]. lia.
    - rewrite map_map. reflexivity.
  Qed.
End Clean.
