From Verif Require Import PyCommon ListFacts SamplingModel.
From Coq Require Import Permutation.

(** ** shuffle_in_chunks *)

Section Shuffle.
  Variable n : nat.

  Definition kd_inv (d : keydict) : Prop :=
    (forall a, a < n -> kd_get d a < n) /\
    (forall a b, a < n -> b < n -> kd_get d a = kd_get d b -> a = b).

  Lemma kd_inv_nil : kd_inv [].
  Proof. split; cbn; auto. Qed.

  Lemma kd_get_swap d j k a :
    kd_get (shuffle_swap d j k) a =
    if Nat.eqb k a then kd_get d j else if Nat.eqb j a then kd_get d k else kd_get d a.
  Proof. reflexivity. Qed.

  Lemma kd_inv_swap d j k : j < n -> k < n -> kd_inv d -> kd_inv (shuffle_swap d j k).
  Proof.
    intros Hj Hk [Hr Hi]. split.
    - intros a Ha. rewrite kd_get_swap.
      destruct (Nat.eqb_spec k a); [auto|]. destruct (Nat.eqb_spec j a); auto.
    - intros a b Ha Hb. rewrite !kd_get_swap.
      destruct (Nat.eqb_spec k a); destruct (Nat.eqb_spec k b);
        try destruct (Nat.eqb_spec j a); try destruct (Nat.eqb_spec j b);
        intro E; subst; auto; apply Hi in E; auto; subst; congruence.
  Qed.

  Section Draw.
  Variable draw : nat -> nat.
  Hypothesis Hdraw : forall j, j < n -> j <= draw j < n.

  Lemma shuffle_chunk_spec size : forall d j d2 j2 vs,
    j + size <= n -> kd_inv d ->
    shuffle_chunk draw d j size = (d2, j2, vs) ->
    kd_inv d2 /\ j2 = j + size /\ (forall i, i < j -> kd_get d2 i = kd_get d i)
    /\ vs = map (kd_get d2) (seq j size).
  Proof.
    induction size as [|size IH]; intros d j d2 j2 vs Hle Hd E; cbn [shuffle_chunk] in E.
    - inversion E; subst. repeat split; auto; try apply Hd. 
    - destruct (shuffle_chunk draw (shuffle_swap d j (draw j)) (S j) size) as [[d3 j3] vs3] eqn:E3.
      inversion E; subst d3 j3 vs; clear E.
      apply IH in E3; [|lia|apply kd_inv_swap; auto; [lia|apply Hdraw; lia]].
      destruct E3 as (Hd2 & Hj2 & Hpre & Hvs).
      assert (Hdj : j <= draw j < n) by (apply Hdraw; lia).
      split; [exact Hd2|]. split; [lia|]. split.
      + intros i Hi. rewrite Hpre by lia. rewrite kd_get_swap.
        destruct (Nat.eqb_spec (draw j) i); [lia|].
        destruct (Nat.eqb_spec j i); [lia|reflexivity].
      + cbn [seq map]. rewrite Hpre by lia. rewrite Hvs. reflexivity.
  Qed.

  Lemma shuffle_loop_spec c : 0 < c -> forall m ci d j,
    j = c * ci -> (c * (ci + m) <= n + c - 1) -> j <= n -> kd_inv d ->
    exists d2, kd_inv d2 /\ (forall i, i < j -> kd_get d2 i = kd_get d i) /\
      concat (shuffle_loop draw n c (seq ci m) d j)
        = map (kd_get d2) (seq j (Nat.min (n - j) (c * m))) /\
      map (@length nat) (shuffle_loop draw n c (seq ci m) d j)
        = map (fun i => Nat.min c (n - c * i)) (seq ci m).
  Proof.
    intros Hc m. induction m as [|m IH]; intros ci d j Hj Hb Hjn Hd.
    - exists d. split; [exact Hd|]. split; [auto|]. split; [|reflexivity].
      rewrite Nat.mul_0_r, Nat.min_0_r. reflexivity.
    - cbn [seq shuffle_loop].
      destruct (shuffle_chunk draw d j (Nat.min c (n - c * ci))) as [[d2 j2] vs] eqn:E.
      apply shuffle_chunk_spec in E; [|lia|exact Hd].
      destruct E as (Hd2 & Hj2 & Hpre & Hvs).
      assert (Hj2n : j2 <= n) by lia.
      destruct (le_lt_dec c (n - c * ci)) as [Hfull|Hlast].
      + rewrite Nat.min_l in * by lia.
        destruct (IH (S ci) d2 j2) as (d3 & Hd3 & Hpre3 & Hcat & Hlen);
          [lia|lia|lia|exact Hd2|].
        exists d3. split; [exact Hd3|]. split.
        { intros i Hi. rewrite Hpre3 by lia. apply Hpre. exact Hi. }
        split.
        * cbn [concat]. rewrite Hcat, Hvs.
          replace (Nat.min (n - j) (c * S m)) with (c + Nat.min (n - j2) (c * m))
            by (rewrite Nat.mul_succ_r; lia).
          rewrite seq_app, map_app. subst j2. f_equal.
          apply map_ext_in. intros i Hi. apply in_seq in Hi. symmetry. apply Hpre3. lia.
        * cbn [map]. rewrite Hlen. f_equal.
          rewrite Hvs, map_length, seq_length. lia.
      + assert (m = 0) as -> by nia.
        cbn [seq shuffle_loop concat map]. exists d2. split; [exact Hd2|]. split; [exact Hpre|].
        rewrite app_nil_r. split.
        * rewrite Hvs. f_equal. f_equal. lia.
        * f_equal. rewrite Hvs, map_length, seq_length. reflexivity.
  Qed.

  Lemma ceil_div_mul_bounds m c : 0 < c -> m <= c * ceil_div m c <= m + c - 1.
  Proof.
    intro Hc. unfold ceil_div.
    pose proof (Nat.div_mod (m + c - 1) c ltac:(lia)) as H.
    pose proof (Nat.mod_upper_bound (m + c - 1) c ltac:(lia)). lia.
  Qed.

  Lemma ceil_div_pos m c : 0 < c -> 0 < m -> 0 < ceil_div m c.
  Proof. intros Hc Hm. pose proof (ceil_div_mul_bounds m c Hc). nia. Qed.

  Lemma shuffle_in_chunks_state c : 0 < c -> exists d,
    kd_inv d /\ concat (shuffle_in_chunks draw n c) = map (kd_get d) (seq 0 n) /\
    map (@length nat) (shuffle_in_chunks draw n c) = chunk_sizes n c.
  Proof.
    intro Hc. unfold shuffle_in_chunks.
    destruct (Nat.eqb_spec n 0) as [Hn|Hn]; cbn [orb].
    - exists []. split; [apply kd_inv_nil|]. rewrite Hn. split; [reflexivity|].
      rewrite chunk_sizes_0 by exact Hc. reflexivity.
    - destruct (Nat.eqb_spec c 0) as [?|_]; [lia|].
      pose proof (ceil_div_mul_bounds n c Hc). pose proof (ceil_div_pos n c Hc).
      rewrite Nat.max_l by lia.
      destruct (shuffle_loop_spec c Hc (ceil_div n c) 0 [] 0)
        as (d & Hd & _ & Hcat & Hlen); [lia|cbn [plus]; lia|lia|apply kd_inv_nil|].
      exists d. split; [exact Hd|]. split.
      + rewrite Hcat. f_equal. f_equal. lia.
      + rewrite Hlen. apply chunk_sizes_seq. exact Hc.
  Qed.
  End Draw.

  Lemma kd_inv_permutation d : kd_inv d -> Permutation (map (kd_get d) (seq 0 n)) (seq 0 n).
  Proof.
    intros [Hr Hi]. apply NoDup_Permutation_bis.
    - apply NoDup_map_inj; [|apply seq_NoDup].
      intros x y Hx Hy. apply in_seq in Hx, Hy. apply Hi; lia.
    - rewrite map_length. lia.
    - intros x Hx. apply in_map_iff in Hx. destruct Hx as (y & <- & Hy).
      apply in_seq in Hy. apply in_seq. specialize (Hr y). lia.
  Qed.
End Shuffle.

Lemma shuffle_permutation n c draw :
  0 < c -> (forall j, j < n -> j <= draw j < n) ->
  Permutation (concat (shuffle_in_chunks draw n c)) (seq 0 n) /\
  map (@length nat) (shuffle_in_chunks draw n c) = chunk_sizes n c.
Proof.
  intros Hc Hd. destruct (shuffle_in_chunks_state n draw Hd c Hc) as (d & Hinv & Hcat & Hlen).
  split; [|exact Hlen]. rewrite Hcat. apply kd_inv_permutation. exact Hinv.
Qed.

(** Different draws give different orders: together with the permutation property this
    makes the map from draws to orders a bijection, i.e. uniform draws give a uniform
    permutation. *)
Section ShuffleInj.
  Variables (n : nat) (d1 d2 : nat -> nat).
  Hypothesis H1 : forall j, j < n -> j <= d1 j < n.
  Hypothesis H2 : forall j, j < n -> j <= d2 j < n.

  Lemma shuffle_chunk_inj size : forall d j dA jA vsA dB jB vsB,
    j + size <= n -> kd_inv n d ->
    shuffle_chunk d1 d j size = (dA, jA, vsA) ->
    shuffle_chunk d2 d j size = (dB, jB, vsB) ->
    vsA = vsB ->
    dA = dB /\ jA = jB /\ (forall i, j <= i < j + size -> d1 i = d2 i).
  Proof.
    induction size as [|size IH]; intros d j dA jA vsA dB jB vsB Hle Hd EA EB EV;
      cbn [shuffle_chunk] in EA, EB.
    - inversion EA; inversion EB; subst. split; [reflexivity|]. split; [reflexivity|]. lia.
    - destruct (shuffle_chunk d1 (shuffle_swap d j (d1 j)) (S j) size) as [[dA3 jA3] vA3] eqn:EA3.
      destruct (shuffle_chunk d2 (shuffle_swap d j (d2 j)) (S j) size) as [[dB3 jB3] vB3] eqn:EB3.
      assert (EvA : kd_get (shuffle_swap d j (d1 j)) j :: vA3 = vsA) by congruence.
      assert (EvB : kd_get (shuffle_swap d j (d2 j)) j :: vB3 = vsB) by congruence.
      assert (dA3 = dA) by congruence. assert (jA3 = jA) by congruence.
      assert (dB3 = dB) by congruence. assert (jB3 = jB) by congruence.
      clear EA EB. subst dA3 jA3 dB3 jB3. rewrite <- EvB, <- EvA in EV. clear EvA EvB.
      assert (Hj1 := H1 j ltac:(lia)). assert (Hj2 := H2 j ltac:(lia)).
      injection EV as Hv Hvs.
      change (kd_get (shuffle_swap d j (d1 j)) j = kd_get (shuffle_swap d j (d2 j)) j) in Hv.
      assert (E : d1 j = d2 j).
      { rewrite !kd_get_swap in Hv. destruct Hd as [_ Hi].
        destruct (Nat.eqb_spec (d1 j) j) as [E1|E1]; destruct (Nat.eqb_spec (d2 j) j) as [E2|E2];
          rewrite ?Nat.eqb_refl in Hv; try congruence;
          apply Hi in Hv; lia. }
      rewrite <- E in EB3.
      specialize (IH (shuffle_swap d j (d1 j)) (S j) dA jA vA3 dB jB vB3).
      destruct IH as (-> & -> & Hrest); auto; [lia|apply kd_inv_swap; auto; lia|].
      split; [reflexivity|]. split; [reflexivity|].
      intros i Hi. destruct (Nat.eq_dec i j) as [->|]; [exact E|]. apply Hrest. lia.
  Qed.

  Lemma shuffle_loop_inj c : 0 < c -> forall m ci d j,
    j = c * ci -> (c * (ci + m) <= n + c - 1) -> j <= n -> kd_inv n d ->
    shuffle_loop d1 n c (seq ci m) d j = shuffle_loop d2 n c (seq ci m) d j ->
    forall i, j <= i < Nat.min n (j + c * m) -> d1 i = d2 i.
  Proof.
    intros Hc m. induction m as [|m IH]; intros ci d j Hj Hb Hjn Hd E i Hi; [lia|].
    cbn [seq shuffle_loop] in E.
    destruct (shuffle_chunk d1 d j (Nat.min c (n - c * ci))) as [[dA jA] vA] eqn:EA.
    destruct (shuffle_chunk d2 d j (Nat.min c (n - c * ci))) as [[dB jB] vB] eqn:EB.
    injection E as Ev Erest. subst vB.
    assert (Hsz : j + Nat.min c (n - c * ci) <= n) by lia.
    pose proof (shuffle_chunk_inj _ _ _ _ _ _ _ _ _ Hsz Hd EA EB eq_refl) as (E1 & E2 & Hsame).
    subst dB jB.
    destruct (shuffle_chunk_spec n d1 H1 _ _ _ _ _ _ Hsz Hd EA) as (HdA & HjA & _).
    destruct (le_lt_dec c (n - c * ci)) as [Hfull|Hlast].
    - rewrite Nat.min_l in * by lia.
      destruct (lt_dec i (j + c)); [apply Hsame; lia|].
      apply (IH (S ci) dA jA); try lia; auto. 
    - apply Hsame. rewrite Nat.min_r by lia. lia.
  Qed.
End ShuffleInj.

Lemma shuffle_injective n c d1 d2 :
  0 < c -> (forall j, j < n -> j <= d1 j < n) -> (forall j, j < n -> j <= d2 j < n) ->
  concat (shuffle_in_chunks d1 n c) = concat (shuffle_in_chunks d2 n c) ->
  forall j, j < n -> d1 j = d2 j.
Proof.
  intros Hc H1 H2 E j Hj.
  assert (Hlen : map (@length nat) (shuffle_in_chunks d1 n c)
                 = map (@length nat) (shuffle_in_chunks d2 n c)).
  { rewrite (proj2 (shuffle_permutation n c d1 Hc H1)).
    rewrite (proj2 (shuffle_permutation n c d2 Hc H2)). reflexivity. }
  assert (Heq : shuffle_in_chunks d1 n c = shuffle_in_chunks d2 n c).
  { revert E Hlen.
    generalize (shuffle_in_chunks d1 n c) as l1, (shuffle_in_chunks d2 n c) as l2.
    induction l1 as [|a l1 IH]; intros [|b l2] E Hl; try discriminate; [reflexivity|].
    cbn in E, Hl. injection Hl as Ha Hl'.
    destruct (app_inv_len _ _ _ _ Ha E) as [-> E']. f_equal. auto. }
  unfold shuffle_in_chunks in Heq.
  destruct (Nat.eqb_spec n 0) as [?|Hn]; [lia|]. destruct (Nat.eqb_spec c 0) as [?|_]; [lia|].
  cbn [orb] in Heq.
  pose proof (ceil_div_mul_bounds n c Hc). pose proof (ceil_div_pos n c Hc ltac:(lia)).
  rewrite Nat.max_l in Heq by lia.
  eapply (shuffle_loop_inj n d1 d2 H1 H2 c Hc (ceil_div n c) 0 [] 0); eauto; try lia.
  apply kd_inv_nil.
Qed.

(** ** partition and get_batch_generator *)

Lemma range_step_slices {A} (l : list A) c :
  map (fun idx => slice l idx (idx + c)) (range_step (length l) c)
  = map (fun i => slice l (i * c) ((i + 1) * c)) (seq 0 (ceil_div (length l) c)).
Proof.
  unfold range_step. rewrite map_map. apply map_ext. intro i. f_equal. lia.
Qed.

Lemma partition_spec {A} (data : list A) c : 0 < c ->
  exists parts, partition data c = Ok parts /\ concat parts = data /\
    map (@length A) parts = chunk_sizes (length data) c.
Proof.
  intro Hc. unfold partition. destruct (Nat.eqb_spec c 0); [lia|].
  eexists. split; [reflexivity|]. rewrite range_step_slices.
  split; [apply slices_concat|apply slices_lengths]; exact Hc.
Qed.

Lemma gather_ok {A} (data : list A) ks :
  Forall (fun k => k < length data) ks ->
  exists out, gather data ks = Ok out /\ Forall2 (fun k x => nth_error data k = Some x) ks out.
Proof.
  induction 1 as [|k ks Hk _ (out & E & HF)]; cbn.
  - eexists; split; [reflexivity|constructor].
  - destruct (nth_error data k) as [x|] eqn:Ex.
    + rewrite E. cbn. eexists; split; [reflexivity|]. constructor; assumption.
    + apply nth_error_None in Ex. lia.
Qed.

Lemma gather_Forall2 {A} (data : list A) ks out :
  gather data ks = Ok out -> Forall2 (fun k x => nth_error data k = Some x) ks out.
Proof.
  revert out. induction ks as [|k ks IH]; intros out E; cbn in E.
  - injection E as <-. constructor.
  - destruct (nth_error data k) as [x|] eqn:Ex; [|discriminate].
    destruct (gather data ks) as [xs|] eqn:Exs; [|discriminate]. cbn in E.
    injection E as <-. constructor; auto.
Qed.

Lemma Forall2_nth_error_map {A} (data : list A) (d : A) ks out :
  Forall2 (fun k x => nth_error data k = Some x) ks out -> out = map (fun k => nth k data d) ks.
Proof.
  induction 1 as [|k x ks out H _ IH]; [reflexivity|]. cbn. rewrite IH. f_equal.
  symmetry. apply nth_error_nth. exact H.
Qed.

Lemma map_nth_seq {A} (data : list A) (d : A) :
  map (fun k => nth k data d) (seq 0 (length data)) = data.
Proof.
  induction data as [|x data IH]; [reflexivity|].
  cbn [length seq map nth]. f_equal. rewrite <- seq_shift, map_map. cbn. exact IH.
Qed.

Lemma gather_perm {A} (data : list A) ks out :
  Permutation ks (seq 0 (length data)) -> gather data ks = Ok out -> Permutation out data.
Proof.
  intros HP HG. destruct data as [|d data].
  - cbn in HP. apply Permutation_sym, Permutation_nil in HP. subst.
    cbn in HG. injection HG as <-. constructor.
  - apply gather_Forall2 in HG. rewrite (Forall2_nth_error_map _ d _ _ HG).
    apply (Permutation_map (fun k => nth k (d :: data) d)) in HP.
    rewrite map_nth_seq in HP. exact HP.
Qed.

Lemma batches_from_spec {A} (data : list A) perm b starts :
  Forall (fun k => k < length data) perm ->
  exists bs, batches_from data perm b starts = Ok bs /\
    Forall2 (fun i x => gather data (slice perm i (i + b)) = Ok x) starts bs.
Proof.
  intro HP. induction starts as [|i starts (bs & E & HF)]; cbn.
  - eexists; split; [reflexivity|constructor].
  - destruct (gather_ok data (slice perm i (i + b))) as (out & Eo & _).
    { apply Forall_forall. intros x Hx. rewrite Forall_forall in HP. apply HP.
      unfold slice in Hx.
      rewrite <- (firstn_skipn i perm). apply in_or_app. right.
      rewrite <- (firstn_skipn (i + b - i) (skipn i perm)). apply in_or_app. left. exact Hx. }
    rewrite Eo. cbn. rewrite E. cbn. eexists; split; [reflexivity|]. constructor; assumption.
Qed.

Lemma gather_app {A} (data : list A) k1 k2 x1 x2 :
  gather data k1 = Ok x1 -> gather data k2 = Ok x2 -> gather data (k1 ++ k2) = Ok (x1 ++ x2).
Proof.
  revert x1. induction k1 as [|k k1 IH]; intros x1 E1 E2; cbn in E1 |- *.
  - injection E1 as <-. exact E2.
  - destruct (nth_error data k); [|discriminate].
    destruct (gather data k1) as [y|]; [|discriminate]. cbn in E1. injection E1 as <-.
    rewrite (IH y eq_refl E2). reflexivity.
Qed.

Lemma gather_concat {A} (data : list A) kss bs :
  Forall2 (fun ks x => gather data ks = Ok x) kss bs -> gather data (concat kss) = Ok (concat bs).
Proof.
  induction 1 as [|ks x kss bs H _ IH]; [reflexivity|]. cbn. apply gather_app; assumption.
Qed.

Lemma gather_length {A} (data : list A) ks x : gather data ks = Ok x -> length x = length ks.
Proof. intro H. apply gather_Forall2 in H. symmetry. eapply Forall2_length. exact H. Qed.

Lemma batch_generator_spec {A} (data : list A) perm b :
  0 < b -> Permutation perm (seq 0 (length data)) ->
  exists bs, get_batch_generator data perm b = Ok bs /\ Permutation (concat bs) data /\
    Forall2 (fun k x => nth_error data k = Some x) perm (concat bs) /\
    map (@length A) bs = chunk_sizes (length data) b.
Proof.
  intros Hb HP. unfold get_batch_generator. destruct (Nat.eqb_spec b 0); [lia|].
  assert (HF : Forall (fun k => k < length data) perm).
  { apply Forall_forall. intros x Hx. apply (Permutation_in _ HP) in Hx. apply in_seq in Hx. lia. }
  destruct (batches_from_spec data perm b (range_step (length data) b) HF) as (bs & E & H2).
  exists bs. split; [exact E|].
  assert (Hlen : length perm = length data).
  { rewrite (Permutation_length HP). apply seq_length. }
  assert (H3 : Forall2 (fun ks x => gather data ks = Ok x)
            (map (fun idx => slice perm idx (idx + b)) (range_step (length perm) b)) bs).
  { rewrite Hlen. clear - H2. induction H2; cbn; constructor; assumption. }
  rewrite range_step_slices in H3.
  pose proof (gather_concat _ _ _ H3) as H4. rewrite slices_concat in H4 by exact Hb.
  split; [eapply gather_perm; eassumption|].
  split; [apply gather_Forall2; exact H4|].
  rewrite <- Hlen. rewrite <- slices_lengths by exact Hb.
  clear - H3. induction H3; cbn; [reflexivity|]. f_equal; [|assumption].
  eapply gather_length. eassumption.
Qed.

(** ** TextData._get_data_as_text *)

(** The full text of loaded text data, [None] when an element is not a string. *)
Fixpoint text_of_cells {C} (l : list (tcell C)) : option (list C) :=
  match l with
  | [] => Some []
  | TOther :: _ => None
  | TStr s :: r => match text_of_cells r with Some t => Some (s ++ t) | None => None end
  end.

Definition text_of {C} (d : tdata C) : option (list C) :=
  match d with DStr s => Some s | DList l => text_of_cells l end.

Lemma join_cells_text {C} (l : list (tcell C)) :
  match text_of_cells l with
  | Some t => join_cells l = Ok t
  | None => exists e, join_cells l = Err e
  end.
Proof.
  induction l as [|[s|] l IH]; cbn; [reflexivity| |eauto].
  destruct (text_of_cells l) as [t|].
  - rewrite IH. reflexivity.
  - destruct IH as [e ->]. cbn. eauto.
Qed.

Lemma get_data_as_text_spec {C} spl (d : tdata C) t :
  0 < spl -> text_of d = Some t ->
  exists ls, get_data_as_text spl d = Ok ls /\ concat ls = t /\
    map (@length C) ls = chunk_sizes (length t) spl.
Proof.
  intros Hs Ht.
  assert (Hj : forall r, (match d with
    | DStr s => Ok s
    | DList [] => Ok []
    | DList (TStr s :: r) => join_cells (TStr s :: r)
    | DList (TOther :: _) => Err ValueError
    end) = r -> r = Ok t).
  { intros r <-. destruct d as [s|l]; cbn [text_of] in Ht; [congruence|].
    destruct l as [|[s|] l]; [cbn in Ht; congruence| |discriminate].
    pose proof (join_cells_text (TStr s :: l)) as H. rewrite Ht in H. exact H. }
  unfold get_data_as_text. rewrite (Hj _ eq_refl). cbn [bind].
  set (s := Nat.min (Nat.max (length t) 1) spl).
  assert (Hs' : 0 < s) by (unfold s; lia).
  destruct (Nat.eqb_spec s 0); [lia|].
  eexists. split; [reflexivity|].
  fold (ceil_div (length t) s). rewrite slices_concat, slices_lengths by exact Hs'.
  split; [reflexivity|].
  destruct (Nat.eq_dec (length t) 0) as [E|E].
  - rewrite E, !chunk_sizes_0 by lia. reflexivity.
  - destruct (le_lt_dec spl (length t)).
    + assert (s = spl) as -> by (unfold s; lia). reflexivity.
    + assert (s = length t) as -> by (unfold s; lia).
      rewrite chunk_sizes_step, Nat.sub_diag, chunk_sizes_0 by lia.
      rewrite chunk_sizes_small by lia. reflexivity.
Qed.

Lemma get_data_as_text_error {C} spl (d : tdata C) :
  text_of d = None -> exists e, get_data_as_text spl d = Err e.
Proof.
  destruct d as [s|[|[s|] l]]; cbn [text_of]; intro H; try discriminate.
  - pose proof (join_cells_text (TStr s :: l)) as Hj. rewrite H in Hj. destruct Hj as [e He].
    exists e. unfold get_data_as_text. rewrite He. reflexivity.
  - eexists. reflexivity.
Qed.

(** ** reservoir *)

Section Reservoir.
  Context {A : Type} (dummy : A) (draws : nat -> rdraw) (file : list A) (k : nat).
  Hypothesis Hdraws : forall t s r, draws t = DTake s r -> r < k.

  Lemma list_set_length {B} (l : list B) i x : length (list_set l i x) = length l.
  Proof. revert i. induction l as [|y l IH]; intros [|i]; cbn; auto. Qed.

  Lemma nth_error_list_set {B} (l : list B) i x j :
    nth_error (list_set l i x) j =
    if Nat.eqb i j then (if j <? length l then Some x else None) else nth_error l j.
  Proof.
    revert i j. induction l as [|y l IH]; intros i j.
    - assert (E : (if j <? @length B [] then Some x else None) = None)
        by (destruct (Nat.ltb_spec j (@length B [])); [cbn in *; lia|reflexivity]).
      rewrite E.
      destruct i, j; cbn; try destruct (_ =? _); reflexivity.
    - destruct i as [|i], j as [|j]; cbn [list_set nth_error Nat.eqb]; try reflexivity.
      rewrite IH. reflexivity.
  Qed.

  Definition rinv (consumed : nat) (rest values : list A) (indices pos : list nat) : Prop :=
    rest = skipn consumed file /\
    length indices = Nat.min k (length file) /\ length pos = length indices /\
    (rest <> [] -> k <= length file) /\
    NoDup indices /\ (forall s p, nth_error indices s = Some p -> p < length values) /\
    NoDup pos /\ (forall s q, nth_error pos s = Some q -> q < consumed /\ q < length file) /\
    (forall s p q, nth_error indices s = Some p -> nth_error pos s = Some q ->
       nth_error values p = nth_error file q).

  Lemma NoDup_list_set {B} (l : list B) i x : NoDup l -> ~ In x l -> NoDup (list_set l i x).
  Proof.
    revert i. induction l as [|y l IH]; intros i Hn Hx; [destruct i; constructor|].
    inversion Hn as [|? ? Hy Hl]; subst. cbn in Hx.
    destruct i as [|i]; cbn; constructor; auto.
    - intro Hin. apply In_nth_error in Hin. destruct Hin as [m Hm].
      rewrite nth_error_list_set in Hm. destruct (Nat.eqb_spec i m) as [->|].
      + destruct (m <? length l); [|discriminate]. injection Hm as <-. tauto.
      + apply nth_error_In in Hm. contradiction.
  Qed.

  Lemma reservoir_loop_spec fuel : forall t rest values indices consumed pos,
    length rest < fuel -> rinv consumed rest values indices pos ->
    exists values' indices' consumed' rest' pos',
      reservoir_loop dummy draws fuel t rest values indices = Some (Ok (values', indices')) /\
      rinv consumed' rest' values' indices' pos'.
  Proof.
    induction fuel as [|fuel IH]; intros t rest values indices consumed pos Hf Hinv; [lia|].
    cbn [reservoir_loop]. destruct (draws t) as [|s r] eqn:Ed; [eauto 10|].
    destruct (skipn s rest) as [|newval rest'] eqn:Es; [eauto 10|].
    destruct Hinv as (Hrest & Hli & Hlp & Hk & Hnd & Hlt & Hndp & Hp & Hv).
    assert (Hne : rest <> []) by (intro; subst; rewrite H, skipn_nil in Es; discriminate).
    specialize (Hk Hne). pose proof (Hdraws _ _ _ Ed) as Hr.
    assert (Hri : r < length indices) by lia.
    destruct (nth_error indices r) as [p|] eqn:Er; [|apply nth_error_None in Er; lia].
    pose proof (Hlt _ _ Er) as Hpv.
    destruct (Nat.ltb_spec p (length values)) as [_|]; [|lia].
    assert (Hc : newval :: rest' = skipn (consumed + s) file)
      by (rewrite <- Es, Hrest, skipn_skipn; reflexivity).
    assert (Hnew : nth_error file (consumed + s) = Some newval).
    { rewrite <- (firstn_skipn (consumed + s) file), <- Hc.
      assert (length (firstn (consumed + s) file) = consumed + s) as El.
      { apply firstn_length_le. destruct (le_lt_dec (consumed + s) (length file)); auto.
        rewrite skipn_all2 in Hc by lia. discriminate. }
      rewrite nth_error_app2 by lia. rewrite El, Nat.sub_diag. reflexivity. }
    assert (Hlen : consumed + s < length file) by (apply nth_error_Some; congruence).
    apply (IH (S t) rest' _ _ (S (consumed + s)) (list_set pos r (consumed + s))).
    - apply (f_equal (@length A)) in Es. rewrite skipn_length in Es. cbn in Es. lia.
    - repeat split.
      + change rest' with (skipn 1 (newval :: rest')). rewrite Hc, skipn_skipn. f_equal. lia.
      + rewrite list_set_length. exact Hli.
      + rewrite !list_set_length. exact Hlp.
      + intros _. exact Hk.
      + apply NoDup_list_set; [exact Hnd|]. intro Hin. apply In_nth_error in Hin.
        destruct Hin as [m Hm]. apply Hlt in Hm. lia.
      + intros s0 p0. rewrite nth_error_list_set, app_length, list_set_length. cbn [length].
        destruct (Nat.eqb_spec r s0).
        * destruct (s0 <? length indices); [|discriminate]. intro E. injection E as <-. lia.
        * intro E. apply Hlt in E. lia.
      + apply NoDup_list_set; [exact Hndp|]. intro Hin. apply In_nth_error in Hin.
        destruct Hin as [m Hm]. apply Hp in Hm. lia.
      + rewrite nth_error_list_set in H. destruct (Nat.eqb_spec r s0).
        * destruct (s0 <? length pos); [|discriminate]. injection H as <-. lia.
        * apply Hp in H. lia.
      + rewrite nth_error_list_set in H. destruct (Nat.eqb_spec r s0).
        * destruct (s0 <? length pos); [|discriminate]. injection H as <-. lia.
        * apply Hp in H. lia.
      + intros s0 p0 q0. rewrite !nth_error_list_set.
        destruct (Nat.eqb_spec r s0) as [->|Hne0].
        * destruct (s0 <? length indices); [|discriminate].
          destruct (s0 <? length pos); [|discriminate].
          intros E1 E2. injection E1 as <-. injection E2 as <-.
          rewrite nth_error_app2 by (rewrite list_set_length; lia).
          rewrite list_set_length, Nat.sub_diag. cbn. symmetry. exact Hnew.
        * intros E1 E2. pose proof (Hlt _ _ E1).
          rewrite nth_error_app1 by (rewrite list_set_length; lia).
          rewrite nth_error_list_set.
          destruct (Nat.eqb_spec p p0) as [->|].
          -- exfalso. apply Hne0.
             apply (proj1 (NoDup_nth_error indices) Hnd); [exact Hri|congruence].
          -- eapply Hv; eassumption.
  Qed.

  Lemma rinv_init : rinv (Nat.min k (length file)) (skipn k file) (firstn k file)
    (seq 0 (length (firstn k file))) (seq 0 (Nat.min k (length file))).
  Proof.
    assert (El : length (firstn k file) = Nat.min k (length file)) by apply firstn_length.
    rewrite El. repeat split; rewrite ?seq_length; auto.
    - destruct (le_lt_dec k (length file)).
      + rewrite Nat.min_l by lia. reflexivity.
      + rewrite !skipn_all2 by lia. reflexivity.
    - intro Hne. destruct (le_lt_dec k (length file)); auto.
      exfalso. apply Hne. apply skipn_all2. lia.
    - apply seq_NoDup.
    - intros s p E. assert (In p (seq 0 (Nat.min k (length file)))) as Hin
        by (eapply nth_error_In; eassumption). apply in_seq in Hin. lia.
    - apply seq_NoDup.
    - assert (In q (seq 0 (Nat.min k (length file)))) as Hin
        by (eapply nth_error_In; eassumption). apply in_seq in Hin. lia.
    - assert (In q (seq 0 (Nat.min k (length file)))) as Hin
        by (eapply nth_error_In; eassumption). apply in_seq in Hin. lia.
    - intros s p q E1 E2. rewrite E1 in E2. injection E2 as <-.
      assert (In p (seq 0 (Nat.min k (length file)))) as Hin
        by (eapply nth_error_In; eassumption). apply in_seq in Hin.
      rewrite <- (firstn_skipn k file) at 2. rewrite nth_error_app1 by lia. reflexivity.
  Qed.

  Lemma gather_rinv (values : list A) indices pos :
    length pos = length indices ->
    (forall s p, nth_error indices s = Some p -> p < length values) ->
    (forall s p q, nth_error indices s = Some p -> nth_error pos s = Some q ->
       nth_error values p = nth_error file q) ->
    exists out, gather values indices = Ok out /\
      Forall2 (fun q x => nth_error file q = Some x) pos out.
  Proof.
    revert pos. induction indices as [|p indices IH]; intros [|q pos] Hl Hlt Hv; try discriminate.
    - exists []. split; [reflexivity|constructor].
    - pose proof (Hlt 0 p eq_refl) as Hp. cbn [gather].
      destruct (nth_error values p) as [x|] eqn:Ex; [|apply nth_error_None in Ex; lia].
      destruct (IH pos) as (out & E & HF); [cbn in Hl; lia| | |].
      + intros s. apply (Hlt (S s)).
      + intros s. apply (Hv (S s)).
      + rewrite E. cbn. eexists; split; [reflexivity|]. constructor; [|exact HF].
        rewrite <- Ex. symmetry. apply (Hv 0 p q); reflexivity.
  Qed.

  Lemma reservoir_spec : 0 < k ->
    exists out pos, reservoir dummy draws file k = Some (Ok out) /\
      length out = Nat.min k (length file) /\ NoDup pos /\
      Forall2 (fun q x => nth_error file q = Some x) pos out.
  Proof.
    intro Hk. unfold reservoir. destruct (Nat.eqb_spec k 0); [lia|].
    destruct (reservoir_loop_spec (S (length (skipn k file))) 0 _ _ _ _ _
                ltac:(constructor) rinv_init)
      as (values' & indices' & consumed' & rest' & pos' & E & Hinv).
    rewrite E. destruct Hinv as (_ & Hli & Hlp & _ & _ & Hlt & Hndp & _ & Hv).
    destruct (gather_rinv values' indices' pos' Hlp Hlt Hv) as (out & Eo & HF).
    exists out, pos'. rewrite Eo. repeat split; auto.
    rewrite <- Hli, <- Hlp. symmetry. eapply Forall2_length. exact HF.
  Qed.

  Lemma reservoir_all : 0 < k -> length file <= k -> reservoir dummy draws file k = Some (Ok file).
  Proof.
    intros Hk Hl. unfold reservoir. destruct (Nat.eqb_spec k 0); [lia|].
    rewrite skipn_all2, firstn_all2 by exact Hl. cbn [length reservoir_loop].
    assert (Hg : gather file (seq 0 (length file)) = Ok file).
    { clear. destruct (gather_ok file (seq 0 (length file))) as (out & E & HF).
      - apply Forall_forall. intros x Hx. apply in_seq in Hx. lia.
      - rewrite E. f_equal. destruct file as [|d f]; [inversion HF; reflexivity|].
        rewrite (Forall2_nth_error_map _ d _ _ HF). apply map_nth_seq. }
    destruct (draws 0) as [|s r]; [rewrite Hg; reflexivity|].
    rewrite skipn_nil. rewrite Hg. reflexivity.
  Qed.
End Reservoir.

(** ** merge_profile_list *)

(** Specification: binary merge trees. *)
Inductive tree (A : Type) := Leaf (a : A) | Node (l r : tree A).
Arguments Leaf {A} a.
Arguments Node {A} l r.

Fixpoint leaves {A} (t : tree A) : list A :=
  match t with Leaf a => [a] | Node l r => leaves l ++ leaves r end.
Fixpoint depth {A} (t : tree A) : nat :=
  match t with Leaf _ => 0 | Node l r => S (Nat.max (depth l) (depth r)) end.
Fixpoint eval {A} (plus : A -> A -> result A) (t : tree A) : result A :=
  match t with
  | Leaf a => Ok a
  | Node l r => bind (eval plus l) (fun x => bind (eval plus r) (fun y => plus x y))
  end.

Section MergeListProofs.
  Context {A : Type} (plus : A -> A -> result A).

  Lemma list_ind2 {B} (P : list B -> Prop) :
    P [] -> (forall x, P [x]) -> (forall x y r, P r -> P (x :: y :: r)) -> forall l, P l.
  Proof.
    intros H0 H1 H2. fix IH 1. intros [|x [|y r]]; [exact H0|apply H1|apply H2, IH].
  Qed.

  (** Pair up a list of trees. *)
  Fixpoint pair_trees (ts : list (tree A)) : list (tree A) :=
    match ts with
    | t1 :: t2 :: r => Node t1 t2 :: pair_trees r
    | _ => ts
    end.

  Lemma pair_trees_leaves ts : concat (map leaves (pair_trees ts)) = concat (map leaves ts).
  Proof.
    induction ts using list_ind2; cbn; auto. rewrite IHts, app_assoc. reflexivity.
  Qed.

  Lemma pair_trees_length ts : length (pair_trees ts) = (length ts + 1) / 2.
  Proof.
    induction ts using list_ind2; cbn [pair_trees length]; auto.
    rewrite IHts. replace (S (S (length ts)) + 1) with (length ts + 1 + 1 * 2) by lia.
    rewrite Nat.div_add by lia. lia.
  Qed.

  Lemma pair_trees_depth m ts :
    Forall (fun t => depth t <= m) ts -> Forall (fun t => depth t <= S m) (pair_trees ts).
  Proof.
    induction ts using list_ind2; cbn [pair_trees]; intro H; auto.
    - inversion H; subst. constructor; auto.
    - inversion H as [|? ? H1 H2]; subst. inversion H2 as [|? ? H3 H4]; subst.
      constructor; [cbn; lia|auto].
  Qed.

  (** A round on values corresponds to pairing on trees. *)
  Lemma merge_round_trees ts xs :
    Forall2 (fun t x => eval plus t = Ok x) ts xs ->
    match merge_round plus xs with
    | Ok ys => Forall2 (fun t y => eval plus t = Ok y) (pair_trees ts) ys
    | Err e => exists x y, In (Err e) [plus x y]
    end.
  Proof.
    revert xs. induction ts using list_ind2; intros xs HF.
    - inversion HF; subst. cbn. constructor.
    - inversion HF as [|? ? ? ? H1 H2]; subst. inversion H2; subst. cbn. constructor; auto.
    - inversion HF as [|? x0 ? ? H1 H2]; subst. inversion H2 as [|? y0 ? xs' H3 H4]; subst.
      cbn [merge_round bind]. destruct (plus x0 y0) as [z|e] eqn:Ez; cbn [bind].
      + specialize (IHts _ H4). destruct (merge_round plus xs') as [zs|e]; cbn [bind].
        * cbn [pair_trees]. constructor; [|exact IHts]. cbn. rewrite H1, H3. cbn. exact Ez.
        * exact IHts.
      + exists x0, y0. rewrite Ez. left. reflexivity.
  Qed.

  Lemma half_lt n : 2 <= n -> (n + 1) / 2 < n.
  Proof. intro H. apply Nat.div_lt_upper_bound; lia. Qed.

  Lemma log2_up_half n : 2 <= n -> Nat.log2_up n = S (Nat.log2_up ((n + 1) / 2)).
  Proof.
    intro H. 
    assert (Hh : 1 <= (n + 1) / 2) by (apply Nat.div_le_lower_bound; lia).
    destruct (Nat.eq_dec n 2) as [->|]; [reflexivity|].
    assert (Hh2 : 2 <= (n + 1) / 2) by (apply Nat.div_le_lower_bound; lia).
    pose proof (Nat.log2_up_spec ((n + 1) / 2) ltac:(lia)) as [Ha Hb].
    set (m := Nat.log2_up ((n + 1) / 2)) in *.
    pose proof (Nat.div_mod (n + 1) 2 ltac:(lia)) as Hdm.
    pose proof (Nat.mod_upper_bound (n + 1) 2 ltac:(lia)) as Hmb.
    assert (1 <= m) by (unfold m; apply Nat.log2_up_pos; lia).
    apply Nat.log2_up_unique; [lia|].
    replace (Nat.pred (S m)) with m by lia.
    destruct m as [|m']; [lia|]. cbn [Nat.pred] in Ha.
    rewrite Nat.pow_succ_r' in *. rewrite (Nat.pow_succ_r' 2 (S m')).
    rewrite Nat.pow_succ_r' in *. lia.
  Qed.

  Lemma merge_loop_trees fuel : forall ts xs m,
    Forall2 (fun t x => eval plus t = Ok x) ts xs -> Forall (fun t => depth t <= m) ts ->
    length xs <= fuel -> xs <> [] ->
    match merge_loop plus fuel xs with
    | None => False
    | Some (Ok r) => exists t, leaves t = concat (map leaves ts) /\ eval plus t = Ok r
        /\ depth t <= m + Nat.log2_up (length xs)
    | Some (Err e) => exists x y, plus x y = Err e
    end.
  Proof.
    induction fuel as [|fuel IH]; intros ts xs m HF HD Hl Hne.
    - destruct xs; [congruence|cbn in Hl; lia].
    - destruct xs as [|x [|y xs]]; [congruence| |].
      + cbn [merge_loop]. inversion HF as [|t ? ? ? H1 H2]; subst. inversion H2; subst.
        exists t. cbn. rewrite app_nil_r. inversion HD; subst. repeat split; auto. lia.
      + cbn [merge_loop]. pose proof (merge_round_trees _ _ HF) as Hr.
        destruct (merge_round plus (x :: y :: xs)) as [ys|e] eqn:Er.
        * pose proof (pair_trees_depth m ts HD) as HD'.
          assert (Hlen : length ys = (length (x :: y :: xs) + 1) / 2).
          { rewrite <- (Forall2_length Hr), pair_trees_length, (Forall2_length HF). reflexivity. }
          assert (Hlt : length ys < length (x :: y :: xs)).
          { rewrite Hlen. apply half_lt. cbn. lia. }
          specialize (IH (pair_trees ts) ys (S m) Hr HD').
          assert (Hys : ys <> []).
          { intro. subst. cbn [length] in Hlen.
            assert (1 <= (S (S (length xs)) + 1) / 2) by (apply Nat.div_le_lower_bound; lia). lia. }
          specialize (IH ltac:(lia) Hys).
          destruct (merge_loop plus fuel ys) as [[r|e]|]; auto.
          destruct IH as (t & E1 & E2 & E3). exists t. rewrite E1, pair_trees_leaves.
          repeat split; auto. rewrite log2_up_half by (cbn; lia). rewrite <- Hlen. lia.
        * destruct Hr as (a & b & [E|[]]). eauto.
  Qed.

  Lemma merge_profile_list_tree l : l <> [] ->
    match merge_profile_list plus l with
    | None => False
    | Some (Ok r) => exists t, leaves t = l /\ eval plus t = Ok r
        /\ depth t <= Nat.log2_up (length l)
    | Some (Err e) => exists x y, plus x y = Err e
    end.
  Proof.
    intro Hne. unfold merge_profile_list.
    pose proof (merge_loop_trees (length l) (map Leaf l) l 0) as H.
    assert (E : concat (map leaves (map (@Leaf A) l)) = l).
    { clear. induction l; cbn; [reflexivity|]. f_equal. exact IHl. }
    rewrite E in H. apply H; auto.
    - clear. induction l; cbn; constructor; auto.
    - apply Forall_forall. intros t Ht. apply in_map_iff in Ht. destruct Ht as (a & <- & _). auto.
  Qed.
End MergeListProofs.

(** For an associative, total merge the tree evaluates to the left fold. *)
Lemma eval_assoc {A} (f : A -> A -> A) (t : tree A) :
  (forall x y z, f x (f y z) = f (f x y) z) ->
  forall x r, leaves t = x :: r -> eval (fun a b => Ok (f a b)) t = Ok (fold_left f r x).
Proof.
  intros Hf.
  assert (Hfold : forall r x y, fold_left f r (f x y) = f x (fold_left f r y)).
  { induction r as [|z r IH]; intros x y; [reflexivity|]. cbn. rewrite <- Hf. apply IH. }
  induction t as [a|l IHl r0 IHr]; intros x r E.
  - cbn in E. injection E as <- <-. reflexivity.
  - cbn in E. cbn [eval].
    assert (G : forall t : tree A, leaves t <> []).
    { clear. induction t; cbn; [discriminate|]. intro H. apply app_eq_nil in H. tauto. }
    destruct (leaves l) as [|a la] eqn:El.
    + exfalso. exact (G _ El).
    + destruct (leaves r0) as [|b lb] eqn:Er.
      * exfalso. exact (G _ Er).
      * rewrite (IHl _ _ eq_refl), (IHr _ _ eq_refl). cbn [bind].
        cbn in E. injection E as <- <-. rewrite fold_left_app. cbn [fold_left].
        f_equal. rewrite Hfold. reflexivity.
Qed.

Lemma merge_profile_list_fold {A} (f : A -> A -> A) x r :
  (forall x y z, f x (f y z) = f (f x y) z) ->
  merge_profile_list (fun a b => Ok (f a b)) (x :: r) = Some (Ok (fold_left f r x)).
Proof.
  intro Hf. pose proof (merge_profile_list_tree (fun a b => Ok (f a b)) (x :: r)) as H.
  specialize (H ltac:(discriminate)).
  destruct (merge_profile_list _ (x :: r)) as [[v|e]|]; [| |contradiction].
  - destruct H as (t & El & Ev & _). rewrite (eval_assoc f t Hf x r El) in Ev. congruence.
  - destruct H as (a & b & E). discriminate.
Qed.
