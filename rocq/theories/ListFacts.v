(** General list lemmas used by several proof files. *)
From Verif Require Import PyCommon.
From Coq Require Import Permutation.

(** Specification of the sizes of consecutive chunks of [n] items: full chunks, then the
    remainder if there is one. *)
Definition chunk_sizes (n c : nat) : list nat :=
  repeat c (n / c) ++ (if n mod c =? 0 then [] else [n mod c]).

Lemma ceil_div_0 c : 0 < c -> ceil_div 0 c = 0.
Proof. intro H. unfold ceil_div. apply Nat.div_small. lia. Qed.

Lemma ceil_div_step n c : 0 < c -> 0 < n -> ceil_div n c = S (ceil_div (n - c) c).
Proof.
  intros Hc Hn. unfold ceil_div.
  destruct (le_lt_dec c n) as [H|H].
  - replace (n + c - 1) with ((n - c + c - 1) + 1 * c) by lia.
    rewrite Nat.div_add by lia. lia.
  - replace (n - c) with 0 by lia.
    rewrite (Nat.div_small (0 + c - 1)) by lia.
    symmetry. apply (Nat.div_unique _ _ _ (n - 1)); lia.
Qed.

Lemma chunk_sizes_0 c : 0 < c -> chunk_sizes 0 c = [].
Proof.
  intro H. unfold chunk_sizes. rewrite Nat.div_0_l, Nat.mod_0_l by lia. reflexivity.
Qed.

Lemma chunk_sizes_small n c : 0 < n -> n < c -> chunk_sizes n c = [n].
Proof.
  intros H1 H2. unfold chunk_sizes. rewrite Nat.div_small, Nat.mod_small by lia.
  destruct (Nat.eqb_spec n 0); [lia|reflexivity].
Qed.

Lemma chunk_sizes_step n c : 0 < c -> c <= n -> chunk_sizes n c = c :: chunk_sizes (n - c) c.
Proof.
  intros Hc H. unfold chunk_sizes.
  assert (E1 : n / c = S ((n - c) / c)).
  { replace n with ((n - c) + 1 * c) at 1 by lia. rewrite Nat.div_add by lia. lia. }
  assert (E2 : n mod c = (n - c) mod c).
  { replace n with ((n - c) + 1 * c) at 1 by lia. apply Nat.mod_add. lia. }
  rewrite E1, E2. reflexivity.
Qed.

Lemma map_seq_shift {A} (f : nat -> A) s m :
  map f (seq (S s) m) = map (fun i => f (S i)) (seq s m).
Proof. rewrite <- seq_shift, map_map. reflexivity. Qed.

Lemma chunk_sizes_seq c : 0 < c -> forall n,
  map (fun i => Nat.min c (n - c * i)) (seq 0 (ceil_div n c)) = chunk_sizes n c.
Proof.
  intros Hc n. induction n as [n IH] using lt_wf_ind.
  destruct (Nat.eq_dec n 0) as [->|Hn].
  - rewrite ceil_div_0, chunk_sizes_0 by lia. reflexivity.
  - rewrite ceil_div_step by lia. cbn [seq map].
    rewrite map_seq_shift.
    rewrite (map_ext _ (fun i => Nat.min c ((n - c) - c * i))).
    2:{ intro i. f_equal. rewrite Nat.mul_succ_r. lia. }
    rewrite IH by lia.
    rewrite Nat.mul_0_r, Nat.sub_0_r.
    destruct (le_lt_dec c n) as [H|H].
    + rewrite (chunk_sizes_step n) by lia. f_equal. lia.
    + rewrite (chunk_sizes_small n) by lia.
      replace (n - c) with 0 by lia. rewrite chunk_sizes_0 by lia. f_equal. lia.
Qed.

Lemma skipn_skipn {A} (a b : nat) (l : list A) : skipn a (skipn b l) = skipn (b + a) l.
Proof.
  revert l. induction b as [|b IH]; intro l; [reflexivity|].
  destruct l as [|x l]; [rewrite !skipn_nil; reflexivity|]. cbn. apply IH.
Qed.

Lemma skipn_slice {A} (l : list A) c a b : slice (skipn c l) a b = slice l (c + a) (c + b).
Proof.
  unfold slice. rewrite skipn_skipn. f_equal. lia.
Qed.

Lemma slices_concat {A} (c : nat) : 0 < c -> forall (l : list A),
  concat (map (fun i => slice l (i * c) ((i + 1) * c)) (seq 0 (ceil_div (length l) c))) = l.
Proof.
  intros Hc l. remember (length l) as n eqn:Hn. revert l Hn.
  induction n as [n IH] using lt_wf_ind. intros l Hn.
  destruct (Nat.eq_dec n 0) as [->|Hn0].
  - rewrite ceil_div_0 by lia. destruct l; [reflexivity|discriminate].
  - rewrite ceil_div_step by lia. cbn [seq map concat].
    rewrite map_seq_shift.
    rewrite (map_ext _ (fun i => slice (skipn c l) (i * c) ((i + 1) * c))).
    2:{ intro i. rewrite skipn_slice. f_equal; cbn; lia. }
    rewrite IH with (l := skipn c l); [|lia|rewrite skipn_length; lia].
    unfold slice. rewrite Nat.mul_0_l. cbn [skipn].
    replace ((0 + 1) * c - 0) with c by lia. apply firstn_skipn.
Qed.

Lemma slice_length {A} (l : list A) a b : length (slice l a b) = Nat.min (b - a) (length l - a).
Proof. unfold slice. rewrite firstn_length, skipn_length. reflexivity. Qed.

Lemma slices_lengths {A} (c : nat) (l : list A) : 0 < c ->
  map (@length A) (map (fun i => slice l (i * c) ((i + 1) * c)) (seq 0 (ceil_div (length l) c)))
  = chunk_sizes (length l) c.
Proof.
  intro Hc. rewrite map_map, <- chunk_sizes_seq by lia. apply map_ext. intro i.
  rewrite slice_length. f_equal; [lia|]. rewrite (Nat.mul_comm c). reflexivity.
Qed.

Lemma chunk_sizes_bounds n c : 0 < c -> Forall (fun s => 0 < s <= c) (chunk_sizes n c).
Proof.
  intro Hc. unfold chunk_sizes. apply Forall_app. split.
  - apply Forall_forall. intros x Hx. apply repeat_spec in Hx. lia.
  - destruct (Nat.eqb_spec (n mod c) 0) as [E|E]; constructor; [|constructor].
    pose proof (Nat.mod_upper_bound n c). lia.
Qed.

Lemma NoDup_map_inj {A B} (f : A -> B) l :
  (forall x y, In x l -> In y l -> f x = f y -> x = y) -> NoDup l -> NoDup (map f l).
Proof.
  induction l as [|a l IH]; intros Hf Hl; [constructor|].
  inversion Hl as [|? ? H1 H2]; subst. cbn. constructor.
  - rewrite in_map_iff. intros (y & E & Hy).
    apply Hf in E; [subst; contradiction|right; assumption|left; reflexivity].
  - apply IH; [|assumption]. intros; apply Hf; try right; assumption.
Qed.

Lemma nth_error_seq n s i : i < n -> nth_error (seq s n) i = Some (s + i).
Proof.
  revert s i. induction n as [|n IH]; intros s i H; [lia|].
  destruct i as [|i]; cbn; [f_equal; lia|]. rewrite IH by lia. f_equal. lia.
Qed.

Lemma firstn_seq k n : firstn k (seq 0 n) = seq 0 (Nat.min k n).
Proof.
  assert (H : forall s k n, firstn k (seq s n) = seq s (Nat.min k n)).
  { clear. intros s k. revert s. induction k as [|k IH]; intros s n; [reflexivity|].
    destruct n as [|n]; [reflexivity|]. cbn. rewrite IH. reflexivity. }
  apply H.
Qed.

Lemma app_inv_len {A} (a b x y : list A) : length a = length b -> a ++ x = b ++ y -> a = b /\ x = y.
Proof.
  revert b. induction a as [|h a IH]; intros [|k b] Hl E; try discriminate; [auto|].
  cbn in *. injection E as -> E. injection Hl as Hl. destruct (IH b Hl E) as [-> ->]. auto.
Qed.

Lemma Forall2_length {A B} (R : A -> B -> Prop) l1 l2 : Forall2 R l1 l2 -> length l1 = length l2.
Proof. induction 1; cbn; congruence. Qed.
Arguments Forall2_length {A B R l1 l2}.

Lemma NoDup_app_l {A} (l1 l2 : list A) : NoDup (l1 ++ l2) -> NoDup l1.
Proof.
  induction l1 as [|x l1 IH]; cbn; intro H; [constructor|].
  inversion H as [|? ? Hx Hl]; subst. constructor; [|auto].
  intro Hi. apply Hx. apply in_or_app. auto.
Qed.

Lemma NoDup_app_r {A} (l1 l2 : list A) : NoDup (l1 ++ l2) -> NoDup l2.
Proof. induction l1 as [|x l1 IH]; cbn; intro H; [exact H|]. inversion H; auto. Qed.

Lemma In_firstn {A} (x : A) k l : In x (firstn k l) -> In x l.
Proof. intro H. rewrite <- (firstn_skipn k l). apply in_or_app. left. exact H. Qed.
Lemma In_skipn {A} (x : A) k l : In x (skipn k l) -> In x l.
Proof. intro H. rewrite <- (firstn_skipn k l). apply in_or_app. right. exact H. Qed.
