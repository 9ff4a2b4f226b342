(** C44: confusion matrix, precision, recall, F score, accuracy. *)
From Coq Require Import QArith Lqa.
From Verif Require Import PyCommon PyDict PyString ListFacts QFacts ConfModel ConfProofs.
Local Open Scope nat_scope.

(** Number of pairs (true label, predicted label) with a property *)
Notation number f ps := (length (filter f ps)).

Lemma combine_concat {X Y} L (a : list (list X)) (b : list (list Y)) :
  (forall x, In x a -> length x = L) -> (forall y, In y b -> length y = L) -> length a = length b ->
  combine (concat a) (concat b) = concat (map (fun xy => combine (fst xy) (snd xy)) (combine a b)).
Proof.
  revert b. induction a as [|x a IH]; intros [|y b] Ha Hb Hl; cbn in Hl; try discriminate; [reflexivity|]. cbn [concat combine map fst snd].
  rewrite <- IH; [|intros z Hz; apply Ha; right; exact Hz|intros z Hz; apply Hb; right; exact Hz|lia].
  assert (length x = length y) as E by (rewrite (Ha x (or_introl eq_refl)), (Hb y (or_introl eq_refl)); reflexivity).
  clear - E. revert y E. induction x as [|u x IH]; intros [|v y] E; cbn in E; try discriminate; [reflexivity|]. cbn. f_equal. apply IH. lia.
Qed.

Lemma concat_length {X} L (a : list (list X)) : (forall x, In x a -> length x = L) -> length (concat a) = length a * L.
Proof.
  induction a as [|x a IH]; intro H; [reflexivity|]. cbn [concat length]. rewrite app_length, (H x (or_introl eq_refl)), IH; [lia|].
  intros y Hy. apply H. right. exact Hy.
Qed.

(** If all predictions have the same length, the entry of the matrix at a true and a predicted label is the
    number of positions with these labels, where true labels are continued with 0; it does not depend on the
    size of the batches. *)
Theorem C44_matrix limit n pred true_ L c : (forall p, In p pred -> length p = L) -> confusion limit n pred true_ = Ok c ->
  length true_ = length pred /\
  forall i j, c i j = list_sum (map (fun tp => number (fun x => (fst x =? i) && (snd x =? j)) (combine (fst tp ++ repeat 0 (L - length (fst tp))) (snd tp)))
                                    (combine true_ pred)).
Proof.
  intros HL H. destruct (confusion_inv _ _ _ _ _ H) as (p0 & rest & padded & -> & Hpad & Hlen & Hpos & _ & Hc).
  assert (length p0 = L) as E0 by (apply HL; left; reflexivity). rewrite E0 in Hpad. set (pr := p0 :: rest) in *. clearbody pr. apply pad_rows_inv in Hpad.
  assert (forall r, In r padded -> length r = L) as HP.
  { clear - Hpad. induction Hpad as [|r r' rows padded [H1 ->] F IH]; [intros r []|]. intros x [<-|Hx]; [|apply IH; exact Hx].
    rewrite app_length, repeat_length. lia. }
  rewrite (concat_length L _ HP) in *. rewrite (concat_length L _ HL) in *.
  assert (length padded = length pr) as El by nia.
  assert (length true_ = length padded) as Et by apply (Forall2_length Hpad). split; [lia|].
  intros i j. rewrite Hc, (combine_concat L) by (try assumption).
  assert (padded = map (fun r => r ++ repeat 0 (L - length r)) true_) as ->.
  { clear - Hpad. induction Hpad as [|r r' rows padded [H1 ->] F IH]; [reflexivity|]. cbn [map]. f_equal. exact IH. }
  clear. revert pr. induction true_ as [|t ts IH]; intros [|p pr]; cbn [map combine concat fst snd]; try reflexivity.
  change (list_sum (?a :: ?l)) with (a + list_sum l). rewrite count_pair_app, IH. reflexivity.
Qed.

(** It is computed whenever the rows fit and all labels are below the number of labels. *)
Theorem C44_matrix_exists limit n pred true_ L : 0 < limit -> 0 < n -> 0 < L -> pred <> [] -> length true_ = length pred ->
  (forall p, In p pred -> length p = L) -> (forall t, In t true_ -> length t <= L) ->
  (forall r x, In r pred \/ In r true_ -> In x r -> x < n) ->
  exists c, confusion limit n pred true_ = Ok c.
Proof.
  intros Hl Hn HL Hne Hlen Hp Ht Hx. unfold confusion. destruct pred as [|p0 rest]; [congruence|]. rewrite (Hp p0 (or_introl eq_refl)).
  set (pr := p0 :: rest) in *. assert (pr <> []) as Hpr by discriminate. clearbody pr.
  rewrite pad_rows_ok by exact Ht. cbn [bind]. set (padded := map (fun r => r ++ repeat 0 (L - length r)) true_).
  assert (forall r, In r padded -> length r = L) as HP.
  { intros r Hr. unfold padded in Hr. apply in_map_iff in Hr. destruct Hr as (r0 & <- & Hr). rewrite app_length, repeat_length. specialize (Ht r0 Hr). lia. }
  assert (length padded = length pr) as El by (unfold padded; rewrite map_length; exact Hlen).
  assert (0 < length pr) as Hpos by (destruct pr; [congruence|cbn; lia]).
  assert (0 < length (concat padded)) as Hc by (rewrite (concat_length L _ HP); nia).
  destruct (Nat.eqb_spec (Nat.min limit (length (concat padded))) 0); [lia|]. apply conf_loop_ok.
  - rewrite (concat_length L _ HP), (concat_length L _ Hp). lia.
  - intros x Hin. apply in_app_or in Hin. destruct Hin as [Hin|Hin]; apply in_concat in Hin; destruct Hin as (r & Hr & Hxr).
    + unfold padded in Hr. apply in_map_iff in Hr. destruct Hr as (r0 & <- & Hr). apply in_app_or in Hxr. destruct Hxr as [Hxr|Hxr].
      * apply (Hx r0); auto.
      * apply repeat_spec in Hxr. lia.
    + apply (Hx r); auto.
Qed.

Example C44_matrix_example :
  exists c, confusion 3 3 [[1; 2; 0]; [2; 2; 1]] [[1; 2]; [2; 1; 1]] = Ok c /\
    map (fun i => map (c i) [0; 1; 2]) [0; 1; 2] = [[1; 0; 0]; [0; 2; 1]; [0; 0; 2]].
Proof. eexists. split; [reflexivity|]. vm_compute. reflexivity. Qed.

(** A user expects the matrix to compare labels of the same positions.  If the predictions have different
    lengths that add up, positions of different texts are compared. *)
Theorem C44_same_positions_refuted :
  ~ (forall limit n pred true_ c, confusion limit n pred true_ = Ok c -> Forall2 (fun t p => exists rest, p = t ++ rest) true_ pred ->
       forall i j, i <> 0 -> i <> j -> c i j = 0).
Proof.
  intro H. destruct (confusion 100 4 [[1; 2]; [3]; [1; 2; 3]] [[1; 2]; [3]; [1; 2]]) as [c|x] eqn:E; [|vm_compute in E; discriminate].
  specialize (H _ _ _ _ _ E). assert (c 1 2 = 1) as Ec by (vm_compute in E; injection E as <-; vm_compute; reflexivity).
  rewrite (H ltac:(repeat constructor; [exists []|exists []|exists [3]]; reflexivity) 1 2) in Ec; discriminate.
Qed.

Lemma filter_length_le {A} (f : A -> bool) l : length (filter f l) <= length l.
Proof. induction l as [|x l IH]; [reflexivity|]. cbn [filter]. destruct (f x); cbn [length]; lia. Qed.

(** ** Counts per label *)
Section Counts.
  Variables (n : nat) (ps : list (nat * nat)).
  Hypothesis Hps : forall p, In p ps -> fst p < n /\ snd p < n.
  Notation c := (fun i j => number (fun x => (fst x =? i) && (snd x =? j)) ps).

  (** True and false positives and negatives of a label are the numbers of pairs of the four kinds. *)
  Theorem C44_counts i : i < n ->
    tp (mcm_of n c i) = number (fun p => (fst p =? i) && (snd p =? i)) ps /\
    fn (mcm_of n c i) = number (fun p => (fst p =? i) && negb (snd p =? i)) ps /\
    fp (mcm_of n c i) = number (fun p => negb (fst p =? i) && (snd p =? i)) ps /\
    tn (mcm_of n c i) = Z.of_nat (number (fun p => negb (fst p =? i) && negb (snd p =? i)) ps).
  Proof.
    intro Hi. split; [apply (tp_spec n ps i Hi)|]. split; [apply (fn_spec n ps Hps)|]. split; [apply (fp_spec n ps Hps)|]. apply (tn_spec n ps Hps i Hi).
  Qed.

  Notation hits i := (number (fun p => (fst p =? i) && (snd p =? i)) ps).
  Notation actual i := (number (fun p => fst p =? i) ps).
  Notation predicted i := (number (fun p => snd p =? i) ps).

  Lemma class_scores_pairs b2 i : i < n -> class_scores b2 (mcm_of n c i) = scores_of b2 (hits i) (predicted i) (actual i).
  Proof.
    intro Hi. unfold class_scores. pose proof (predicted_spec n ps Hps i Hi) as H1. pose proof (support_spec n ps Hps i Hi) as H2. unfold support in H2.
    pose proof (tp_spec n ps i Hi) as H3. unfold cnt in *. unfold count_pair in *. rewrite H1, H2, H3. reflexivity.
  Qed.

  Lemma hits_actual i : hits i <= actual i.
  Proof. apply (cnt_le (fun p : nat * nat => (fst p =? i) && (snd p =? i)) (fun p => fst p =? i)). intros x H. apply andb_true_iff in H. tauto. Qed.
  Lemma hits_predicted i : hits i <= predicted i.
  Proof. apply (cnt_le (fun p : nat * nat => (fst p =? i) && (snd p =? i)) (fun p => snd p =? i)). intros x H. apply andb_true_iff in H. tauto. Qed.

  Lemma divide_spec a b : (b = 0 -> (prf_divide a b == 0)%Q) /\ (prf_divide a b * Qn b == if b =? 0 then 0 else Qn a)%Q.
  Proof.
    unfold prf_divide. destruct (Nat.eqb_spec b 0) as [->|H]; [split; [reflexivity|ring]|]. split; [congruence|].
    rewrite Qmult_comm. apply Qmult_div_r. apply Qn_neq. lia.
  Qed.

  (** Precision is the share of hits among the predictions of the label, recall their share among its true
      occurrences, both 0 if there are none; the F score lies between them, and F1 is twice the number of hits
      divided by the number of predictions and occurrences. *)
  Theorem C44_scores beta labels out : (0 < beta)%Q -> prf beta ANoAverage n c labels = Ok out ->
    Forall2 (fun i o => exists s, o = Some s /\
      (s_p s * Qn (predicted i) == Qn (hits i))%Q /\ (predicted i = 0%nat -> (s_p s == 0)%Q) /\
      (s_r s * Qn (actual i) == Qn (hits i))%Q /\ (actual i = 0%nat -> (s_r s == 0)%Q) /\
      (0 <= s_p s <= 1)%Q /\ (0 <= s_r s <= 1)%Q /\
      (s_p s <= s_r s -> s_p s <= s_f s <= s_r s)%Q /\ (s_r s <= s_p s -> s_r s <= s_f s <= s_p s)%Q /\
      (beta == 1 -> s_f s * Qn (predicted i + actual i)%nat == Qn (2 * hits i)%nat)%Q) labels out.
  Proof.
    intro Hb. unfold prf. destruct (Qle_bool beta 0) eqn:E; [apply Qle_bool_iff in E; lra|]. clear E.
    destruct (existsb _ labels) eqn:Ex; [discriminate|]. intro H. injection H as <-. unfold prf_none. rewrite !map_map.
    assert (forall i, In i labels -> i < n) as Hin.
    { intros i Hi. destruct (Nat.lt_ge_cases i n) as [|Hge]; [assumption|]. exfalso.
      assert (existsb (fun l => n <=? l) labels = true); [|congruence]. apply existsb_exists. exists i. split; [exact Hi|]. apply Nat.leb_le. exact Hge. }
    clear Ex. induction labels as [|i labels IH]; cbn [map]; constructor; [|apply IH; intros j Hj; apply Hin; right; exact Hj].
    specialize (Hin i (or_introl eq_refl)). rewrite (class_scores_pairs (beta * beta) i Hin). eexists. split; [reflexivity|]. unfold scores_of. cbn [s_p s_r s_f].
    pose proof (hits_actual i) as H1. pose proof (hits_predicted i) as H2. set (h := hits i) in *. set (a := actual i) in *. set (p := predicted i) in *. clearbody h a p.
    destruct (divide_spec h p) as [D1 D2]. destruct (divide_spec h a) as [D3 D4].
    split. { rewrite D2. destruct (Nat.eqb_spec p 0) as [->|]; [|reflexivity]. replace h with 0 by lia. reflexivity. }
    split; [exact D1|].
    split. { rewrite D4. destruct (Nat.eqb_spec a 0) as [->|]; [|reflexivity]. replace h with 0 by lia. reflexivity. }
    split; [exact D3|]. pose proof (prf_divide_range h p H2) as R1. pose proof (prf_divide_range h a H1) as R2.
    split; [exact R1|]. split; [exact R2|]. assert (0 < beta * beta)%Q as Hbb by (apply Qmult_lt_0_compat; exact Hb).
    split; [intro Hle; apply f_score_bounds; lra|]. split; [intro Hle; apply f_score_bounds; lra|].
    intro E1. rewrite <- (f1_counts h p a H2 H1). apply Qmult_comp; [|reflexivity]. unfold f_score. 
    assert (beta * beta == 1)%Q as E2 by (rewrite E1; reflexivity).
    destruct (Qeq_bool (beta * beta * prf_divide h p + prf_divide h a) 0) eqn:B1; destruct (Qeq_bool (1 * prf_divide h p + prf_divide h a) 0) eqn:B2.
    - rewrite E2. reflexivity.
    - exfalso. apply Qeq_bool_iff in B1. apply Qeq_bool_false in B2. apply B2. rewrite <- B1, E2. reflexivity.
    - exfalso. apply Qeq_bool_iff in B2. apply Qeq_bool_false in B1. apply B1. rewrite <- B2, E2. reflexivity.
    - rewrite E2. reflexivity.
  Qed.

  Lemma sum_map_seq (f : nat -> nat) : list_sum (map f (seq 0 n)) = sum_to n f.
  Proof. reflexivity. Qed.

  Lemma correct_sum : sum_to n (fun i => hits i) = number (fun p => fst p =? snd p) ps.
  Proof.
    pose proof (sum_by_key n fst (fun j p => snd p =? j) ps ltac:(intros p Hp; apply Hps; exact Hp)) as H. unfold cnt in H.
    rewrite (sum_to_ext _ _ (fun j => length (filter (fun x => (snd x =? j) && (fst x =? j)) ps))); [rewrite H; apply (cnt_ext (fun p : nat * nat => snd p =? fst p)); intro p; apply Nat.eqb_sym|].
    intros j _. apply (cnt_ext (fun p : nat * nat => (fst p =? j) && (snd p =? j))). intro p. apply andb_comm.
  Qed.

  Lemma actual_sum : sum_to n (fun i => actual i) = length ps.
  Proof. rewrite <- (cnt_true ps). apply (sum_by_key n fst (fun _ _ => true)). intros p Hp. apply Hps. exact Hp. Qed.
  Lemma predicted_sum : sum_to n (fun i => predicted i) = length ps.
  Proof. rewrite <- (cnt_true ps). apply (sum_by_key n snd (fun _ _ => true)). intros p Hp. apply Hps. exact Hp. Qed.

  Lemma sums_all : list_sum (map tp (map (mcm_of n c) (seq 0 n))) = number (fun p => fst p =? snd p) ps /\
    list_sum (map (fun m => tp m + fp m) (map (mcm_of n c) (seq 0 n))) = length ps /\
    list_sum (map (fun m => tp m + fn m) (map (mcm_of n c) (seq 0 n))) = length ps.
  Proof.
    rewrite !map_map. split; [|split].
    - rewrite <- correct_sum. apply sum_to_ext. intros i Hi. apply (tp_spec n ps i Hi).
    - rewrite <- predicted_sum. apply sum_to_ext. intros i Hi. apply (predicted_spec n ps Hps i Hi).
    - rewrite <- actual_sum. apply sum_to_ext. intros i Hi. apply (support_spec n ps Hps i Hi).
  Qed.

  (** With all labels, the micro averages of precision, recall and F score are the accuracy. *)
  Theorem C44_accuracy beta out : (0 < beta)%Q -> prf beta AMicro n c (seq 0 n) = Ok out ->
    exists s, out = [Some s] /\ (s_r s == s_p s)%Q /\ (s_f s == s_p s)%Q /\
      (s_p s * Qn (length ps) == Qn (number (fun p => (fst p =? snd p)%nat) ps))%Q.
  Proof.
    intro Hb. unfold prf. destruct (Qle_bool beta 0); [discriminate|]. destruct (existsb _ _); [discriminate|]. intro H. injection H as <-.
    unfold prf_micro. destruct sums_all as (-> & -> & ->). eexists. split; [reflexivity|]. unfold scores_of. cbn [s_p s_r s_f].
    assert (number (fun p => fst p =? snd p) ps <= length ps) as Hle by apply (filter_length_le _ ps).
    split; [reflexivity|]. split; [apply f_score_same; [apply Qmult_lt_0_compat; exact Hb|apply prf_divide_range; exact Hle]|].
    destruct (divide_spec (number (fun p => fst p =? snd p) ps) (length ps)) as [_ D]. rewrite D.
    destruct (Nat.eqb_spec (length ps) 0) as [E|]; [|reflexivity]. replace (number (fun p => fst p =? snd p) ps) with 0 by lia. reflexivity.
  Qed.

  (** With all labels, the average of recall weighted by support is the accuracy. *)
  Theorem C44_weighted_recall beta out : prf beta AWeighted n c (seq 0 n) = Ok out ->
    exists s, out = [Some s] /\ (s_r s * Qn (length ps) == Qn (number (fun p => (fst p =? snd p)%nat) ps))%Q.
  Proof.
    unfold prf. destruct (Qle_bool beta 0); [discriminate|]. destruct (existsb _ _); [discriminate|]. intro H. injection H as <-.
    destruct sums_all as (H1 & H2 & H3). unfold prf_weighted. change (map support (map (mcm_of n c) (seq 0 n))) with (map (fun m => tp m + fn m) (map (mcm_of n c) (seq 0 n))).
    rewrite H3. assert (number (fun p => fst p =? snd p) ps <= length ps) as Hle by apply (filter_length_le _ ps).
    destruct (Nat.eqb_spec (length ps) 0) as [E|E].
    - eexists. split; [reflexivity|]. cbn [s_r]. replace (number (fun p => fst p =? snd p) ps) with 0 by lia. rewrite Qmult_0_l. reflexivity.
    - eexists. split; [reflexivity|]. cbn [s_r]. unfold wmean. rewrite H3, <- H1. rewrite Qmult_comm, Qmult_div_r by (apply Qn_neq; lia).
      unfold prf_none. generalize (map (mcm_of n c) (seq 0 n)). clear. intro ms. induction ms as [|m ms IH]; [reflexivity|].
      cbn [map combine]. rewrite qsum_cons, IH. change (list_sum (?a :: ?l)) with (a + list_sum l). rewrite Qn_plus. apply Qplus_comp; [|reflexivity].
      cbn [fst snd]. unfold class_scores, scores_of. cbn [s_r]. rewrite Qmult_comm. destruct (divide_spec (tp m) (tp m + fn m)) as [_ D]. rewrite D.
      destruct (Nat.eqb_spec (tp m + fn m) 0) as [E|]; [|reflexivity]. replace (tp m) with 0 by lia. reflexivity.
  Qed.
End Counts.

Example C44_scores_example :
  prf 1 ANoAverage 3 (fun i j => nth j (nth i [[1; 0; 0]; [0; 2; 1]; [0; 0; 2]] []) 0) [1; 2] =
    Ok [Some (mkScores (2 / 2) (2 / 3) (f_score 1 (2 / 2) (2 / 3))); Some (mkScores (2 / 3) (2 / 2) (f_score 1 (2 / 3) (2 / 2)))].
Proof. vm_compute. reflexivity. Qed.

(** ** The score returned for a set of predictions *)
Lemma mcm_ext n c c' i : (forall a b, c a b = c' a b) -> mcm_of n c i = mcm_of n c' i.
Proof.
  intro H. unfold mcm_of. rewrite (sum_to_ext n (fun j => if i =? j then c i j else 0) (fun j => if i =? j then c' i j else 0)) by (intros; rewrite H; reflexivity).
  rewrite (sum_to_ext n (fun j => if i =? j then 0 else c i j) (fun j => if i =? j then 0 else c' i j)) by (intros; rewrite H; reflexivity).
  rewrite (sum_to_ext n (fun j => if i =? j then 0 else c j i) (fun j => if i =? j then 0 else c' j i)) by (intros; rewrite H; reflexivity).
  rewrite (sum_to_ext n (fun a => sum_to n (c a)) (fun a => sum_to n (c' a))) by (intros a _; apply sum_to_ext; intros; apply H). reflexivity.
Qed.

Lemma rows_distinct names sup : NoDup names -> length names = length sup ->
  fold_left (fun d kv => dset d (fst kv) (snd kv)) (combine names sup) [] = combine names sup :> dict string nat.
Proof.
  intros Hn Hl. assert (dkeys (combine names sup) = names) as Hk.
  { unfold dkeys. revert sup Hl. clear. induction names as [|x names IH]; intros [|y sup] H; cbn in H; try discriminate; [reflexivity|]. cbn. f_equal. apply IH. lia. }
  rewrite <- Hk in Hn. revert Hn. generalize (combine names sup). clear. intros d H.
  assert (forall e : dict string nat, NoDup (dkeys e ++ dkeys d) -> fold_left (fun d kv => dset d (fst kv) (snd kv)) d e = e ++ d) as A.
  { clear H. induction d as [|[k v] d IH]; intros e He; cbn [fold_left]; [symmetry; apply app_nil_r|]. cbn [fst snd].
    assert (dset e k v = e ++ [(k, v)]) as ->.
    { cbn [dkeys map fst] in He. apply NoDup_remove_2 in He. rewrite in_app_iff in He. assert (~ In k (dkeys e)) as Hk by tauto. clear - Hk.
      induction e as [|[k' v'] e IH]; [reflexivity|]. cbn [dset app]. cbn [dkeys map fst In] in Hk. destruct (PyDict.eqb_spec k' k); [tauto|]. f_equal. apply IH. tauto. }
    rewrite IH; [rewrite <- app_assoc; reflexivity|]. unfold dkeys in *. rewrite map_app, <- app_assoc. exact He. }
  rewrite A; [reflexivity|exact H].
Qed.

Lemma supported_count names sup : length names = length sup -> (forall x, In x names -> ~ In x reserved) ->
  supported (combine names sup) = length (filter (fun s => negb (s =? 0)) sup).
Proof.
  unfold supported. revert sup. induction names as [|x names IH]; intros [|s sup] Hl Hr; cbn in Hl; try discriminate; [reflexivity|]. cbn [combine filter fst snd].
  assert (lmem reserved x = false) as -> by (apply lmem_false; apply Hr; left; reflexivity). cbn [negb andb].
  specialize (IH sup ltac:(lia) ltac:(intros y Hy; apply Hr; right; exact Hy)). destruct (negb (s =? 0)); cbn [length]; rewrite IH; reflexivity.
Qed.

(** F1 of a label from the pairs of true and predicted labels *)
Definition F1 (ps : list (nat * nat)) (l : nat) : Q :=
  prf_divide (2 * number (fun p => (fst p =? l)%nat && (snd p =? l)%nat) ps)
             (number (fun p => (snd p =? l)%nat) ps + number (fun p => (fst p =? l)%nat) ps).

Lemma F1_range ps l : (0 <= F1 ps l <= 1)%Q.
Proof. apply prf_divide_range. pose proof (hits_actual ps l). pose proof (hits_predicted ps l). lia. Qed.

Local Open Scope string_scope.
Local Open Scope nat_scope.
(** The score is the mean of F1 over the labels that are not omitted and occur among the true labels, with
    true and predicted labels compared at all positions; it lies between 0 and 1, and is no number (NaN) if no such label
    occurs. *)
Theorem C44_score show limit n pred true_ L omitted rev score :
  (forall p, In p pred -> length p = L) ->
  let names := map snd (filter (fun x => negb (lmem omitted (snd x))) rev) in
  NoDup names -> (forall x, In x names -> ~ In x ["accuracy"; "macro avg"; "weighted avg"; "micro avg"]) ->
  evaluate show limit n pred true_ omitted (Some rev) = Ok score ->
  let ps := concat (map (fun tp => combine (fst tp ++ repeat 0 (L - length (fst tp))) (snd tp)) (combine true_ pred)) in
  let occurring := filter (fun l => negb (number (fun p => fst p =? l) ps =? 0))
                     (map fst (filter (fun x => negb (lmem omitted (snd x))) rev)) in
  match score with
  | None => occurring = []
  | Some q => occurring <> [] /\ (q * Qn (length occurring) == qsum (map (F1 ps) occurring))%Q /\ (0 <= q <= 1)%Q
  end.
Proof.
  intros HL names Hnd Hres H. cbn zeta. subst names. change (filter (fun x => negb (lmem omitted (snd x))) rev) with (kept_labels omitted rev) in Hnd, Hres.
  change ["accuracy"; "macro avg"; "weighted avg"; "micro avg"] with reserved in Hres. unfold evaluate in H. destruct (confusion limit n pred true_) as [c|] eqn:Ec; cbn [bind] in H; [|discriminate].
  destruct (confusion_inv _ _ _ _ _ Ec) as (p0 & rest & padded & -> & Hpad & Hlen & Hpos & Hb & Hc).
  assert (length p0 = L) as E0 by (apply HL; left; reflexivity). rewrite E0 in Hpad. set (pr := p0 :: rest) in *. clearbody pr. apply pad_rows_inv in Hpad.
  assert (forall r, In r padded -> length r = L) as HP.
  { clear - Hpad. induction Hpad as [|r r' rows padded [H1 ->] F IH]; [intros r []|]. intros x [<-|Hx]; [|apply IH; exact Hx].
    rewrite app_length, repeat_length. lia. }
  assert (length padded = length pr) as El by (rewrite (concat_length L _ HP), (concat_length L _ HL) in *; nia).
  set (ps := concat (map (fun tp => combine (fst tp ++ repeat 0 (L - length (fst tp))) (snd tp)) (combine true_ pr))).
  assert (combine (concat padded) (concat pr) = ps) as Eps.
  { rewrite (combine_concat L) by assumption. unfold ps. f_equal.
    assert (padded = map (fun r => r ++ repeat 0 (L - length r)) true_) as ->.
    { clear - Hpad. induction Hpad as [|r r' rows padded [H1 ->] F IH]; [reflexivity|]. cbn [map]. f_equal. exact IH. }
    clear. revert pr. induction true_ as [|t ts IH]; intros [|p pr]; cbn [map combine fst snd]; try reflexivity. f_equal. apply IH. }
  rewrite Eps in *. clearbody ps. clear - Hnd Hres H Hb Hc.
  set (kept := kept_labels omitted rev) in *. fold (kept_labels omitted rev). fold kept. clearbody kept.
  set (idx := map fst kept) in *. destruct (existsb (fun l => n <=? l) idx) eqn:Ex; [discriminate|]. destruct (Nat.eqb_spec (length idx) 0) as [|Hne]; [discriminate|].
  assert (forall i, In i idx -> i < n) as Hin.
  { intros i Hi. destruct (Nat.lt_ge_cases i n) as [|Hge]; [assumption|]. exfalso.
    assert (existsb (fun l => n <=? l) idx = true); [|congruence]. apply existsb_exists. exists i. split; [exact Hi|]. apply Nat.leb_le. exact Hge. }
  clear Ex.
  rewrite (map_ext (mcm_of n c) (mcm_of n (fun i j => count_pair i j ps))) in H by (intro i; apply mcm_ext; exact Hc).
  set (ms := map (mcm_of n (fun i j => count_pair i j ps)) idx) in *.
  assert (map support ms = map (fun l => number (fun p => fst p =? l) ps) idx) as Hsup.
  { unfold ms. rewrite map_map. apply map_ext_in. intros i Hi. apply (support_spec n ps Hb i (Hin i Hi)). }
  assert (length (map snd kept) = length (map support ms)) as Hlk by (unfold ms, idx; rewrite !map_length; reflexivity).
  unfold report_rows in H. rewrite (rows_distinct _ _ Hnd Hlk), (supported_count _ _ Hlk Hres), Hsup in H.
  set (occurring := filter (fun l => negb (number (fun p => fst p =? l) ps =? 0)) idx).
  assert (length (filter (fun s => negb (s =? 0)) (map (fun l => number (fun p => fst p =? l) ps) idx)) = length occurring) as Ho.
  { unfold occurring. clear. induction idx as [|i idx IH]; [reflexivity|]. cbn [map filter]. destruct (negb _); cbn [length]; rewrite IH; reflexivity. }
  rewrite Ho in H. destruct (prf_macro 1 ms) as [sc|] eqn:Em.
  2:{ unfold prf_macro in Em. destruct ms eqn:Ems; [|discriminate]. exfalso. apply Hne. unfold ms in Ems. destruct idx; [reflexivity|discriminate]. }
  destruct (Nat.eqb_spec (length occurring) 0) as [Hz|Hz].
  { injection H as <-. destruct occurring; [reflexivity|discriminate]. }
  injection H as <-. split; [intros E; apply Hz; rewrite E; reflexivity|].
  assert (s_f sc = qmean (map s_f (prf_none 1 ms))) as Hsf.
  { unfold prf_macro in Em. destruct ms; [discriminate|]. injection Em as <-. reflexivity. }
  assert (map s_f (prf_none 1 ms) = map (fun i => s_f (scores_of 1 (number (fun p => (fst p =? i) && (snd p =? i)) ps) (number (fun p => snd p =? i) ps) (number (fun p => fst p =? i) ps))) idx) as Hf.
  { unfold prf_none, ms. rewrite !map_map. apply map_ext_in. intros i Hi. rewrite <- (class_scores_pairs n ps Hb 1 i (Hin i Hi)). reflexivity. }
  assert (0 < length idx) as Hidx by lia. assert (length (map snd kept) = length idx) as Hki by (unfold idx; rewrite !map_length; reflexivity).
  set (f := fun i => s_f (scores_of 1 (number (fun p => (fst p =? i) && (snd p =? i)) ps) (number (fun p => snd p =? i) ps) (number (fun p => fst p =? i) ps))) in *.
  assert (forall i, (f i == F1 ps i)%Q) as HfF.
  { intro i. unfold f, scores_of, F1. cbn [s_f]. pose proof (hits_actual ps i) as Ha. pose proof (hits_predicted ps i) as Hp.
    set (h := number (fun p => (fst p =? i) && (snd p =? i)) ps) in *. set (a := number (fun p => fst p =? i) ps) in *. set (p := number (fun p => snd p =? i) ps) in *.
    clearbody h a p. pose proof (f1_counts h p a Hp Ha) as F. unfold prf_divide at 3. destruct (Nat.eqb_spec (p + a) 0) as [Z|Z].
    - assert (p = 0 /\ a = 0 /\ h = 0) as (-> & -> & ->) by lia. reflexivity.
    - apply (Qmult_inj_r _ _ (Qn (p + a))); [apply Qn_neq; lia|]. rewrite F. unfold Qdiv. field. apply Qn_neq. lia. }
  assert (qsum (map f idx) == qsum (map (F1 ps) occurring))%Q as Hsum.
  { unfold occurring. rewrite (qsum_ext' f (F1 ps) idx) by (intros i _; apply HfF). apply qsum_filter. intros i _ Hi. apply negb_false_iff, Nat.eqb_eq in Hi.
    unfold F1. pose proof (hits_actual ps i) as Ha. replace (2 * number (fun p => (fst p =? i) && (snd p =? i)) ps) with 0 by lia. apply prf_divide_zero. }
  assert (s_f sc * (Qn (length (map snd kept)) / Qn (length occurring)) * Qn (length occurring) == qsum (map (F1 ps) occurring))%Q as Hq.
  { rewrite <- Hsum, Hsf, Hf, Hki. rewrite <- (qmean_sum (map f idx)) by (rewrite map_length; exact Hidx). rewrite map_length. field. apply Qn_neq. lia. }
  split; [exact Hq|]. assert (0 < Qn (length occurring))%Q as Hop by (apply Qn_pos; lia).
  assert (0 <= qsum (map (F1 ps) occurring) <= Qn (length occurring))%Q as [B1 B2].
  { split.
    - rewrite <- (Qmult_0_l (Qn (length occurring))), <- (qsum_const 0 occurring). apply qsum_le. intros i _. apply F1_range.
    - rewrite <- (Qmult_1_l (Qn (length occurring))), <- (qsum_const 1 occurring). apply qsum_le. intros i _. apply F1_range. }
  set (q := (s_f sc * (Qn (length (map snd kept)) / Qn (length occurring)))%Q) in *. split.
  - apply (Qmult_le_r _ _ (Qn (length occurring)) Hop). rewrite Hq, Qmult_0_l. exact B1.
  - apply (Qmult_le_r _ _ (Qn (length occurring)) Hop). rewrite Hq, Qmult_1_l. exact B2.
Qed.

Local Open Scope string_scope.
Local Open Scope nat_scope.

(** Label 2 has one hit among two predictions and one occurrence, label 3 does not occur. *)
Example C44_score_example :
  evaluate (fun _ => "") 100 4 [[1; 2; 2]] [[1; 2]] ["PAD"] (Some [(0, "PAD"); (1, "A"); (2, "B"); (3, "C")]) = Ok (Some (10 / 12)%Q) \/
  exists q, evaluate (fun _ => "") 100 4 [[1; 2; 2]] [[1; 2]] ["PAD"] (Some [(0, "PAD"); (1, "A"); (2, "B"); (3, "C")]) = Ok (Some q) /\ (q == 5 / 6)%Q.
Proof. right. eexists. split; [reflexivity|]. vm_compute. reflexivity. Qed.

(** The scores of labels, however they are averaged, need a positive weight of recall and labels within the matrix *)
Theorem C44_scores_exist beta avg n c labels :
  ((beta <= 0)%Q -> prf beta avg n c labels = Err ValueError) /\
  ((0 < beta)%Q -> (exists l, In l labels /\ n <= l) -> prf beta avg n c labels = Err IndexError) /\
  ((0 < beta)%Q -> (forall l, In l labels -> l < n) -> exists out, prf beta avg n c labels = Ok out).
Proof.
  unfold prf. split; [|split].
  - intro H. apply Qle_bool_iff in H. rewrite H. reflexivity.
  - intros H (l & Hl & Hn). destruct (Qle_bool beta 0) eqn:E; [apply Qle_bool_iff in E; exfalso; exact (Qlt_not_le _ _ H E)|].
    assert (existsb (fun l => n <=? l) labels = true) as ->; [|reflexivity]. apply existsb_exists. exists l. split; [exact Hl|]. apply Nat.leb_le. exact Hn.
  - intros H Hl. destruct (Qle_bool beta 0) eqn:E; [apply Qle_bool_iff in E; exfalso; exact (Qlt_not_le _ _ H E)|].
    destruct (existsb (fun l => n <=? l) labels) eqn:X; [|eexists; reflexivity]. apply existsb_exists in X. destruct X as (l & Hin & Hn). apply Nat.leb_le in Hn. specialize (Hl l Hin). lia.
Qed.
Example C44_scores_exist_ex : prf 1 AMacro 2 (fun _ _ => 1) [0; 2] = Err IndexError /\ prf 0 AMicro 2 (fun _ _ => 1) [0; 1] = Err ValueError.
Proof. split; reflexivity. Qed.

(** A user expects perfect predictions to score 1.  Without names of the labels the score is 0. *)
Theorem C44_perfect_predictions_refuted :
  ~ (forall show limit n pred rev q, evaluate show limit n pred pred [] rev = Ok (Some q) -> (q == 1)%Q).
Proof. intro H. specialize (H (fun _ => "") 100 2 [[1; 1]] None 0%Q eq_refl). discriminate. Qed.

(** A user expects a score of at most 1.  Labels with the same name are counted once, and the score doubles. *)
Theorem C44_score_at_most_one_refuted :
  ~ (forall show limit n pred true_ rev q, evaluate show limit n pred true_ [] (Some rev) = Ok (Some q) -> (q <= 1)%Q).
Proof.
  intro H. destruct (evaluate (fun _ => "") 100 3 [[1; 2]] [[1; 2]] [] (Some [(1, "A"); (2, "A")])) as [[q|]|x] eqn:E; [|vm_compute in E; discriminate|vm_compute in E; discriminate].
  specialize (H _ _ _ _ _ _ _ E). vm_compute in E. injection E as <-. vm_compute in H. congruence.
Qed.

Print Assumptions C44_matrix.
Print Assumptions C44_counts.
Print Assumptions C44_scores.
Print Assumptions C44_accuracy.
Print Assumptions C44_weighted_recall.
Print Assumptions C44_score.
Print Assumptions C44_scores_exist.
