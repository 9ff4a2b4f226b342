(** Proofs about confusion matrices and scores. *)
From Coq Require Import QArith Lqa.
From Verif Require Import PyCommon PyDict PyString ListFacts QFacts ConfModel.
Local Open Scope nat_scope.

(** ** Counting *)
Definition cnt {X} (f : X -> bool) (l : list X) : nat := length (filter f l).

Lemma cnt_cons {X} (f : X -> bool) x l : cnt f (x :: l) = (if f x then 1 else 0) + cnt f l.
Proof. unfold cnt. cbn [filter]. destruct (f x); reflexivity. Qed.

Lemma cnt_app {X} (f : X -> bool) a b : cnt f (a ++ b) = cnt f a + cnt f b.
Proof. unfold cnt. rewrite filter_app, app_length. reflexivity. Qed.

Lemma cnt_ext {X} (f g : X -> bool) l : (forall x, f x = g x) -> cnt f l = cnt g l.
Proof. intro H. unfold cnt. rewrite (filter_ext f g H). reflexivity. Qed.

Lemma cnt_le {X} (f g : X -> bool) l : (forall x, f x = true -> g x = true) -> cnt f l <= cnt g l.
Proof.
  intro H. induction l as [|x l IH]; [apply Nat.le_refl|]. rewrite !cnt_cons. specialize (H x). destruct (f x); [rewrite H by reflexivity; lia|].
  destruct (g x); lia.
Qed.

Lemma cnt_true {X} (l : list X) : cnt (fun _ => true) l = length l.
Proof. induction l as [|x l IH]; [reflexivity|]. rewrite cnt_cons, IH. reflexivity. Qed.

Lemma cnt_false {X} (l : list X) : cnt (fun _ => false) l = 0.
Proof. induction l as [|x l IH]; [reflexivity|]. rewrite cnt_cons, IH. reflexivity. Qed.

Lemma cnt_split {X} (f g h : X -> bool) l : (forall x, (if h x then 1 else 0) = (if f x then 1 else 0) + (if g x then 1 else 0)) -> cnt h l = cnt f l + cnt g l.
Proof. intro H. induction l as [|x l IH]; [reflexivity|]. rewrite !cnt_cons, H, IH. lia. Qed.

Lemma sum_to_add n f g : sum_to n (fun j => f j + g j) = sum_to n f + sum_to n g.
Proof.
  unfold sum_to. induction (seq 0 n) as [|x l IH]; [reflexivity|]. cbn [map]. change (list_sum (?a :: ?l)) with (a + list_sum l). rewrite IH. lia.
Qed.

Lemma sum_to_ext n f g : (forall j, j < n -> f j = g j) -> sum_to n f = sum_to n g.
Proof. intro H. unfold sum_to. f_equal. apply map_ext_in. intros j Hj. apply in_seq in Hj. apply H. lia. Qed.

Lemma sum_to_zero n : sum_to n (fun _ => 0) = 0.
Proof. unfold sum_to. induction (seq 0 n) as [|x l IH]; [reflexivity|]. exact IH. Qed.

Lemma sum_to_single n x v : x < n -> sum_to n (fun j => if x =? j then v else 0) = v.
Proof.
  intro H. unfold sum_to. replace n with (x + S (n - S x)) by lia. rewrite seq_app, map_app, list_sum_app. cbn [seq map plus].
  rewrite Nat.eqb_refl. change (list_sum (v :: ?l)) with (v + list_sum l).
  assert (forall s k, (forall j, In j (seq s k) -> j <> x) -> list_sum (map (fun j => if x =? j then v else 0) (seq s k)) = 0) as Z.
  { intros s k. revert s. induction k as [|k IH]; intros s Hs; [reflexivity|]. cbn [seq map]. change (list_sum (?a :: ?l)) with (a + list_sum l).
    destruct (Nat.eqb_spec x s) as [E|_]; [exfalso; apply (Hs s); [left; reflexivity|congruence]|]. rewrite IH; [reflexivity|].
    intros j Hj. apply Hs. right. exact Hj. }
  rewrite !Z; [lia| |]; intros j Hj; apply in_seq in Hj; lia.
Qed.

(** Counting by value of a key *)
Lemma sum_by_key {X} (n : nat) (key : X -> nat) (f : nat -> X -> bool) l : (forall x, In x l -> key x < n) ->
  sum_to n (fun j => cnt (fun x => f j x && (key x =? j)) l) = cnt (fun x => f (key x) x) l.
Proof.
  induction l as [|x l IH]; intro H; [apply sum_to_zero|]. rewrite cnt_cons, <- IH by (intros y Hy; apply H; right; exact Hy).
  rewrite (sum_to_ext _ _ (fun j => (if key x =? j then (if f (key x) x then 1 else 0) else 0) + cnt (fun x => f j x && (key x =? j)) l)).
  - rewrite sum_to_add, sum_to_single; [reflexivity|apply H; left; reflexivity].
  - intros j _. rewrite cnt_cons. f_equal. destruct (Nat.eqb_spec (key x) j) as [->|]; [rewrite andb_true_r; reflexivity|rewrite andb_false_r; reflexivity].
Qed.

Section Pairs.
  Variables (n : nat) (ps : list (nat * nat)).
  Hypothesis Hps : forall p, In p ps -> fst p < n /\ snd p < n.
  Notation c := (fun i j => count_pair i j ps).

  Lemma count_cnt i j : count_pair i j ps = cnt (fun p => (fst p =? i) && (snd p =? j)) ps.
  Proof. reflexivity. Qed.

  Lemma tp_spec i : i < n -> tp (mcm_of n c i) = cnt (fun p => (fst p =? i) && (snd p =? i)) ps.
  Proof.
    intro Hi. cbn [tp mcm_of]. rewrite (sum_to_ext _ _ (fun j => if i =? j then count_pair i i ps else 0)) by (intros j _; destruct (Nat.eqb_spec i j) as [->|]; reflexivity).
    rewrite (sum_to_single n i _ Hi). reflexivity.
  Qed.

  Lemma fn_spec i : fn (mcm_of n c i) = cnt (fun p => (fst p =? i) && negb (snd p =? i)) ps.
  Proof.
    cbn [fn mcm_of].
    rewrite (sum_to_ext _ _ (fun j => cnt (fun p => ((fst p =? i) && negb (i =? j)) && (snd p =? j)) ps)).
    - rewrite (sum_by_key n snd (fun j p => (fst p =? i) && negb (i =? j))) by (intros p Hp; apply Hps; exact Hp).
      apply cnt_ext. intro p. rewrite (Nat.eqb_sym i). reflexivity.
    - intros j _. destruct (Nat.eqb_spec i j) as [E|E]; cbn [negb].
      + symmetry. rewrite (cnt_ext _ (fun _ => false)); [apply cnt_false|]. intro p. rewrite andb_false_r. reflexivity.
      + rewrite count_cnt. apply cnt_ext. intro p. rewrite andb_true_r. reflexivity.
  Qed.

  Lemma fp_spec i : fp (mcm_of n c i) = cnt (fun p => negb (fst p =? i) && (snd p =? i)) ps.
  Proof.
    cbn [fp mcm_of].
    rewrite (sum_to_ext _ _ (fun j => cnt (fun p => ((snd p =? i) && negb (i =? j)) && (fst p =? j)) ps)).
    - rewrite (sum_by_key n fst (fun j p => (snd p =? i) && negb (i =? j))) by (intros p Hp; apply Hps; exact Hp).
      apply cnt_ext. intro p. rewrite (Nat.eqb_sym i). apply andb_comm.
    - intros j _. destruct (Nat.eqb_spec i j) as [E|E]; cbn [negb].
      + symmetry. rewrite (cnt_ext _ (fun _ => false)); [apply cnt_false|]. intro p. rewrite andb_false_r. reflexivity.
      + rewrite count_cnt. apply cnt_ext. intro p. rewrite andb_true_r. apply andb_comm.
  Qed.

  Lemma row_sum i : sum_to n (c i) = cnt (fun p => fst p =? i) ps.
  Proof.
    rewrite (sum_to_ext _ _ (fun j => cnt (fun p => (fst p =? i) && (snd p =? j)) ps)) by (intros; apply count_cnt).
    apply (sum_by_key n snd (fun j p => fst p =? i)). intros p Hp. apply Hps. exact Hp.
  Qed.

  Lemma total_spec : sum_to n (fun a => sum_to n (c a)) = length ps.
  Proof.
    rewrite (sum_to_ext _ _ (fun a => cnt (fun p => true && (fst p =? a)) ps)) by (intros; apply row_sum).
    rewrite (sum_by_key n fst (fun _ _ => true)) by (intros p Hp; apply Hps; exact Hp). apply cnt_true.
  Qed.

  Lemma tn_spec i : i < n -> tn (mcm_of n c i) = Z.of_nat (cnt (fun p => negb (fst p =? i) && negb (snd p =? i)) ps).
  Proof.
    intro Hi. pose proof (tp_spec i Hi) as H1. pose proof (fn_spec i) as H2. pose proof (fp_spec i) as H3. pose proof total_spec as H4.
    cbn [tp fn fp tn mcm_of] in *. rewrite H1, H2, H3, H4. rewrite <- (cnt_true ps).
    rewrite (cnt_split (fun p => fst p =? i) (fun p => negb (fst p =? i)) (fun _ => true)) by (intro p; destruct (fst p =? i); reflexivity).
    rewrite (cnt_split (fun p => (fst p =? i) && (snd p =? i)) (fun p => (fst p =? i) && negb (snd p =? i)) (fun p => fst p =? i)) by (intro p; destruct (fst p =? i), (snd p =? i); reflexivity).
    rewrite (cnt_split (fun p => negb (fst p =? i) && (snd p =? i)) (fun p => negb (fst p =? i) && negb (snd p =? i)) (fun p => negb (fst p =? i))) by (intro p; destruct (fst p =? i), (snd p =? i); reflexivity).
    lia.
  Qed.

  Lemma support_spec i : i < n -> support (mcm_of n c i) = cnt (fun p => fst p =? i) ps.
  Proof.
    intro Hi. unfold support. rewrite tp_spec by exact Hi. rewrite fn_spec. symmetry. apply cnt_split. intro p. destruct (fst p =? i), (snd p =? i); reflexivity.
  Qed.

  Lemma predicted_spec i : i < n -> tp (mcm_of n c i) + fp (mcm_of n c i) = cnt (fun p => snd p =? i) ps.
  Proof.
    intro Hi. rewrite tp_spec by exact Hi. rewrite fp_spec. symmetry. apply cnt_split. intro p. destruct (fst p =? i), (snd p =? i); reflexivity.
  Qed.
End Pairs.

(** ** Batches *)
Lemma firstn_combine {X Y} k (a : list X) (b : list Y) : combine (firstn k a) (firstn k b) = firstn k (combine a b).
Proof. revert a b. induction k as [|k IH]; intros [|x a] [|y b]; cbn; try reflexivity. f_equal. apply IH. Qed.

Lemma skipn_combine {X Y} k (a : list X) (b : list Y) : combine (skipn k a) (skipn k b) = skipn k (combine a b).
Proof.
  revert a b. induction k as [|k IH]; intros [|x a] [|y b]; cbn [skipn combine]; try reflexivity; [|apply IH].
  destruct (skipn k a); reflexivity.
Qed.

Lemma count_pair_app i j a b : count_pair i j (a ++ b) = count_pair i j a + count_pair i j b.
Proof. apply cnt_app. Qed.

Lemma coo_inv n t p c : coo n t p = Ok c ->
  length t = length p /\ (forall x, In x (t ++ p) -> x < n) /\ forall i j, c i j = count_pair i j (combine t p).
Proof.
  unfold coo. destruct (Nat.eqb_spec (length t) (length p)) as [E|E]; cbn [negb]; [|discriminate].
  destruct (existsb _ (t ++ p)) eqn:Ex; [discriminate|]. intro H. injection H as <-. split; [exact E|]. split; [|reflexivity].
  intros x Hx. destruct (Nat.lt_ge_cases x n) as [|Hge]; [assumption|]. exfalso.
  assert (existsb (fun x => n <=? x) (t ++ p) = true); [|congruence]. apply existsb_exists. exists x. split; [exact Hx|]. apply Nat.leb_le. exact Hge.
Qed.

Lemma coo_ok n t p : length t = length p -> (forall x, In x (t ++ p) -> x < n) -> exists c, coo n t p = Ok c.
Proof.
  intros E H. unfold coo. rewrite E, Nat.eqb_refl. cbn [negb]. destruct (existsb _ (t ++ p)) eqn:Ex; [|eauto]. exfalso.
  apply existsb_exists in Ex. destruct Ex as (x & H1 & H2). apply Nat.leb_le in H2. specialize (H x H1). lia.
Qed.

Lemma slice_batch {X} (l : list X) bs b : slice l (bs * b) ((b + 1) * bs) = firstn bs (skipn (bs * b) l).
Proof. unfold slice. f_equal. lia. Qed.

Lemma skipn_batch {X} (l : list X) bs b : skipn bs (skipn (bs * b) l) = skipn (bs * S b) l.
Proof. rewrite skipn_skipn. f_equal. lia. Qed.

Lemma firstn_plus {X} a b (l : list X) : firstn (a + b) l = firstn a l ++ firstn b (skipn a l).
Proof. revert l. induction a as [|a IH]; intros [|x l]; cbn; try reflexivity; [rewrite firstn_nil; reflexivity|]. f_equal. apply IH. Qed.

Lemma conf_loop_inv n bs t p : forall k b acc c, conf_loop n bs t p k b acc = Ok c ->
  length (firstn (bs * k) (skipn (bs * b) t)) = length (firstn (bs * k) (skipn (bs * b) p)) /\
  (forall x, In x (firstn (bs * k) (skipn (bs * b) t)) \/ In x (firstn (bs * k) (skipn (bs * b) p)) -> x < n) /\
  forall i j, c i j = acc i j + count_pair i j (firstn (bs * k) (skipn (bs * b) (combine t p))).
Proof.
  induction k as [|k IH]; intros b acc c H; cbn [conf_loop] in H.
  - injection H as <-. rewrite Nat.mul_0_r. cbn [firstn]. split; [reflexivity|]. split; [intros x [[]|[]]|]. intros i j. cbn. lia.
  - rewrite !slice_batch in H. destruct (coo n _ _) as [c1|] eqn:Ec; cbn [bind] in H; [|discriminate].
    destruct (coo_inv _ _ _ _ Ec) as (L1 & B1 & C1). destruct (IH _ _ _ H) as (L2 & B2 & C2).
    replace (bs * S k) with (bs + bs * k) by lia. rewrite !firstn_plus, !skipn_batch, !app_length. split; [lia|]. split.
    + intros x. rewrite !in_app_iff. intros [[Hx|Hx]|[Hx|Hx]].
      * apply B1. apply in_or_app. auto.
      * apply B2. auto.
      * apply B1. apply in_or_app. auto.
      * apply B2. auto.
    + intros i j. rewrite C2, C1, firstn_combine, skipn_combine, count_pair_app. lia.
Qed.

Lemma conf_loop_ok n bs t p : length t = length p -> (forall x, In x (t ++ p) -> x < n) ->
  forall k b acc, exists c, conf_loop n bs t p k b acc = Ok c.
Proof.
  intros E H. induction k as [|k IH]; intros b acc; cbn [conf_loop]; [eauto|]. rewrite !slice_batch.
  destruct (coo_ok n (firstn bs (skipn (bs * b) t)) (firstn bs (skipn (bs * b) p))) as [c ->].
  - rewrite !firstn_length, !skipn_length, E. reflexivity.
  - intros x Hx. apply H. rewrite in_app_iff in *. destruct Hx as [Hx|Hx]; apply In_firstn, In_skipn in Hx; auto.
  - cbn [bind]. apply IH.
Qed.

Lemma pad_rows_inv L rows padded : pad_rows L rows = Ok padded ->
  Forall2 (fun r r' => length r <= L /\ r' = r ++ repeat 0 (L - length r)) rows padded.
Proof.
  revert padded. induction rows as [|r rows IH]; intros padded H; cbn [pad_rows] in H; [injection H as <-; constructor|].
  unfold pad_row in H. destruct (Nat.ltb_spec L (length r)); cbn [bind] in H; [discriminate|].
  destruct (pad_rows L rows) as [rs'|]; cbn [bind] in H; [|discriminate]. injection H as <-. constructor; [auto|apply IH; reflexivity].
Qed.

Lemma pad_rows_ok L rows : (forall r, In r rows -> length r <= L) -> pad_rows L rows = Ok (map (fun r => r ++ repeat 0 (L - length r)) rows).
Proof.
  induction rows as [|r rows IH]; intro H; cbn [pad_rows map]; [reflexivity|]. unfold pad_row.
  destruct (Nat.ltb_spec L (length r)) as [Hl|_]; [specialize (H r (or_introl eq_refl)); lia|]. cbn [bind].
  rewrite IH by (intros x Hx; apply H; right; exact Hx). reflexivity.
Qed.

(** The confusion matrix counts pairs of all positions *)
Lemma confusion_inv limit n pred true_ c : confusion limit n pred true_ = Ok c ->
  exists p0 rest padded, pred = p0 :: rest /\ pad_rows (length p0) true_ = Ok padded /\
    length (concat padded) = length (concat pred) /\ 0 < length (concat padded) /\
    (forall p, In p (combine (concat padded) (concat pred)) -> fst p < n /\ snd p < n) /\
    forall i j, c i j = count_pair i j (combine (concat padded) (concat pred)).
Proof.
  unfold confusion. destruct pred as [|p0 rest]; [discriminate|]. set (pr := p0 :: rest). destruct (pad_rows (length p0) true_) as [padded|] eqn:Ep; cbn [bind]; [|discriminate].
  destruct (Nat.eqb_spec (Nat.min limit (length (concat padded))) 0) as [|Hbs]; [discriminate|].
  set (bs := Nat.min limit (length (concat padded))) in *. set (t := concat padded) in *. set (p := concat pr) in *. intro H.
  destruct (conf_loop_inv _ _ _ _ _ _ _ _ H) as (H1 & H2 & H3). rewrite Nat.mul_0_r in *. cbn [skipn] in *.
  assert (length t < bs * (length t / bs + 1)) as Hlt.
  { pose proof (Nat.mul_succ_div_gt (length t) bs Hbs). lia. }
  set (K := bs * (length t / bs + 1)) in *. clearbody K.
  assert (length t = length p) as Hlen.
  { rewrite !firstn_length in H1. lia. }
  rewrite !(firstn_all2 t), !(firstn_all2 p) in * by lia. exists p0, rest, padded. fold pr. fold t. fold p.
  split; [reflexivity|]. split; [exact Ep|]. split; [exact Hlen|]. split; [unfold bs in Hbs; lia|]. split.
  - intros [x y] Hp. pose proof (in_combine_l _ _ _ _ Hp) as Hx. pose proof (in_combine_r _ _ _ _ Hp) as Hy. cbn [fst snd]. split; apply H2; auto.
  - intros i j. rewrite H3. cbn [plus]. rewrite firstn_all2; [reflexivity|]. rewrite combine_length. lia.
Qed.

(** ** Scores *)
Lemma prf_divide_range a b : a <= b -> (0 <= prf_divide a b <= 1)%Q.
Proof.
  intro H. unfold prf_divide. destruct (Nat.eqb_spec b 0) as [|Hb]; [split; discriminate|]. assert (0 < Qn b)%Q as Hp by (apply Qn_pos; lia). split.
  - apply Qle_shift_div_l; [exact Hp|]. rewrite Qmult_0_l. apply Qn_nonneg.
  - apply Qle_shift_div_r; [exact Hp|]. rewrite Qmult_1_l. apply Qn_le. exact H.
Qed.

Lemma f_score_bounds b p r lo hi : (0 < b)%Q -> (0 <= lo)%Q -> (lo <= p <= hi)%Q -> (lo <= r <= hi)%Q -> (lo <= f_score b p r <= hi)%Q.
Proof.
  intros Hb Hlo [Hp1 Hp2] [Hr1 Hr2]. unfold f_score. destruct (Qeq_bool (b * p + r) 0) eqn:E.
  - apply Qeq_bool_iff in E. assert (0 <= b * p)%Q as Hbp by (apply Qmult_le_0_compat; lra). assert (r == 0)%Q as Hr by lra.
    setoid_replace ((1 + b) * p * r / 1)%Q with 0%Q by (rewrite Hr; field). split; lra.
  - assert (0 <= b * p)%Q as Hbp by (apply Qmult_le_0_compat; lra).
    assert (0 < b * p + r)%Q as Hd. { apply Qeq_bool_false in E. destruct (Qlt_le_dec 0 (b * p + r)) as [|Hle]; [assumption|]. exfalso. apply E. lra. }
    split.
    + apply Qle_shift_div_l; [exact Hd|]. assert (0 <= p)%Q by lra. assert (0 <= r)%Q by lra.
      assert (0 <= p * (r - lo))%Q as A1 by (apply Qmult_le_0_compat; lra). assert (0 <= r * (p - lo))%Q as A2 by (apply Qmult_le_0_compat; lra).
      assert (0 <= b * (p * (r - lo)))%Q as A3 by (apply Qmult_le_0_compat; lra). lra.
    + apply Qle_shift_div_r; [exact Hd|]. assert (0 <= p)%Q by lra. assert (0 <= r)%Q by lra.
      assert (0 <= p * (hi - r))%Q as A1 by (apply Qmult_le_0_compat; lra). assert (0 <= r * (hi - p))%Q as A2 by (apply Qmult_le_0_compat; lra).
      assert (0 <= b * (p * (hi - r)))%Q as A3 by (apply Qmult_le_0_compat; lra). lra.
Qed.

Lemma f_score_same b p : (0 < b)%Q -> (0 <= p)%Q -> (f_score b p p == p)%Q.
Proof.
  intros Hb Hp. apply Qle_antisym; apply (f_score_bounds b p p p p); try assumption; split; apply Qle_refl.
Qed.

Lemma prf_divide_zero b : (prf_divide 0 b == 0)%Q.
Proof. unfold prf_divide. destruct (b =? 0); [reflexivity|]. change (Qn 0) with 0%Q. unfold Qdiv. apply Qmult_0_l. Qed.

(** F1 in terms of counts *)
Lemma f1_counts t p a : t <= p -> t <= a -> (f_score 1 (prf_divide t p) (prf_divide t a) * Qn (p + a) == Qn (2 * t))%Q.
Proof.
  intros Hp Ha. destruct (Nat.eq_dec t 0) as [->|Ht].
  - unfold f_score. destruct (Qeq_bool (1 * prf_divide 0 p + prf_divide 0 a) 0) eqn:E.
    + rewrite (prf_divide_zero p). unfold Qdiv. change (Qn (2 * 0)) with 0%Q. ring.
    + exfalso. apply Qeq_bool_false in E. apply E. rewrite (prf_divide_zero p), (prf_divide_zero a). reflexivity.
  - unfold prf_divide. destruct (Nat.eqb_spec p 0); [lia|]. destruct (Nat.eqb_spec a 0); [lia|].
    assert (0 < Qn t)%Q as T by (apply Qn_pos; lia). assert (0 < Qn p)%Q as P by (apply Qn_pos; lia). assert (0 < Qn a)%Q as A by (apply Qn_pos; lia).
    unfold f_score. destruct (Qeq_bool (1 * (Qn t / Qn p) + Qn t / Qn a) 0) eqn:E.
    + exfalso. apply Qeq_bool_iff in E. assert (0 < Qn t / Qn p)%Q by (apply Qlt_shift_div_l; lra). assert (0 < Qn t / Qn a)%Q by (apply Qlt_shift_div_l; lra). lra.
    + rewrite Qn_plus, Qn_mult. change (Qn 2) with 2%Q.
      assert (0 < Qn t * (Qn a + Qn p))%Q as D by (apply Qmult_lt_0_compat; lra). field. repeat split; lra.
Qed.

Lemma qsum_le {X} (f g : X -> Q) l : (forall x, In x l -> (f x <= g x)%Q) -> (qsum (map f l) <= qsum (map g l))%Q.
Proof.
  induction l as [|x l IH]; intro H; cbn [map]; [apply Qle_refl|]. rewrite !qsum_cons. apply Qplus_le_compat; [apply H; left; reflexivity|].
  apply IH. intros y Hy. apply H. right. exact Hy.
Qed.

Lemma qsum_const {X} (c : Q) (l : list X) : (qsum (map (fun _ => c) l) == c * Qn (length l))%Q.
Proof.
  induction l as [|x l IH]; cbn [map length]; [change (qsum []) with 0%Q; change (Qn 0) with 0%Q; ring|]. rewrite qsum_cons, IH, Qn_S. ring.
Qed.

Lemma qsum_ext' {X} (f g : X -> Q) l : (forall x, In x l -> (f x == g x)%Q) -> (qsum (map f l) == qsum (map g l))%Q.
Proof. intro H. apply Qle_antisym; apply qsum_le; intros x Hx; rewrite (H x Hx); apply Qle_refl. Qed.

Lemma qsum_filter {X} (f : X -> Q) (g : X -> bool) l : (forall x, In x l -> g x = false -> (f x == 0)%Q) ->
  (qsum (map f l) == qsum (map f (filter g l)))%Q.
Proof.
  induction l as [|x l IH]; intro H; cbn [map filter]; [reflexivity|]. rewrite qsum_cons, IH by (intros y Hy; apply H; right; exact Hy).
  destruct (g x) eqn:E; cbn [map]; [rewrite qsum_cons; reflexivity|]. rewrite (H x (or_introl eq_refl) E). ring.
Qed.
