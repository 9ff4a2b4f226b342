(** Property C22: the correlation matrix of streamed and merged profiles. *)
From Coq Require Import Reals Lra.
From Verif Require Import PyCommon MomentModel MomentProps CorrModel.
Local Open Scope R_scope.

(** ** What is expected *)

(** All rows; the columns of the second of two merged profiles are put in the order of the first *)
Fixpoint rows (h : chist) : list row :=
  match h with CNew _ => [] | CUpd h b => rows h ++ b | CAdd f h1 h2 => rows h1 ++ map (fun r i => r (f i)) (rows h2) end.

(** Pearson's correlation of pairs of numbers *)
Definition avg_of (f : R * R -> R) (ps : list (R * R)) : R := rsum (map f ps) / INR (length ps).
Definition co (f g : R * R -> R) (ps : list (R * R)) : R := rsum (map (fun p => (f p - avg_of f ps) * (g p - avg_of g ps)) ps).
Definition pearson (ps : list (R * R)) : R := co fst snd ps / (sqrt (co fst fst ps) * sqrt (co snd snd ps)).

(** The pairs of the rows in which both columns have a value *)
Definition pairs (i j : nat) (l : list row) : list (R * R) :=
  flat_map (fun r => match r i, r j with Some x, Some y => [(x, y)] | _, _ => [] end) l.

Section Table.
Variable k : nat.
Variable numeric : nat -> bool.

(** Rows without nulls *)
Definition complete (l : list row) : Prop := forall r i, In r l -> (i < k)%nat -> exists x, r i = Some x.

(** At least two different values in every numeric column *)
Definition varied (l : list row) : Prop :=
  forall i, (i < k)%nat -> numeric i = true -> exists x y, In x (values i l) /\ In y (values i l) /\ x <> y.

(** Bias correction requested for all profiles *)
Fixpoint all_corrected (h : chist) : bool :=
  match h with CNew b => b | CUpd h _ => all_corrected h | CAdd _ h1 h2 => all_corrected h1 && all_corrected h2 end.

Fixpoint fair (h : chist) : Prop :=
  match h with
  | CNew _ => True
  | CUpd h b => fair h /\ (b = [] \/ complete b /\ varied b)
  | CAdd f h1 h2 => fair h1 /\ fair h2 /\ (forall i, (i < k)%nat -> f i = i /\ numeric i = true) /\ (2 <= k)%nat /\
                    all_corrected h1 = true /\ all_corrected h2 = true
  end.

(** ** Sums *)
Lemma rsum_ext {A} (f g : A -> R) l : (forall a, In a l -> f a = g a) -> rsum (map f l) = rsum (map g l).
Proof. intro H. f_equal. apply map_ext_in. exact H. Qed.

Definition S (f : R * R -> R) (ps : list (R * R)) : R := rsum (map f ps).
Lemma S_app f l1 l2 : S f (l1 ++ l2) = S f l1 + S f l2.
Proof. unfold S. rewrite map_app. apply rsum_app. Qed.

Lemma co_about f g a b ps : rsum (map (fun p => (f p - a) * (g p - b)) ps) = S (fun p => f p * g p) ps - a * S g ps - b * S f ps + INR (length ps) * a * b.
Proof. unfold S. induction ps as [|p ps IH]; [cbn; ring|]. cbn [map rsum fold_right length]. unfold rsum in *. rewrite IH, S_INR. ring. Qed.

Lemma co_app f g l1 l2 : l1 <> [] -> l2 <> [] ->
  co f g (l1 ++ l2) = co f g l1 + co f g l2 + (avg_of f l1 - avg_of f l2) * (avg_of g l1 - avg_of g l2) * (INR (length l1) * INR (length l2)) / (INR (length l1) + INR (length l2)).
Proof.
  intros N1 N2. unfold co. rewrite !co_about. unfold avg_of. fold (S f l1) (S f l2) (S g l1) (S g l2) (S f (l1 ++ l2)) (S g (l1 ++ l2)).
  rewrite !S_app, app_length, plus_INR.
  assert (0 < INR (length l1)) by (apply lt_0_INR; destruct l1; [contradiction|cbn; lia]).
  assert (0 < INR (length l2)) by (apply lt_0_INR; destruct l2; [contradiction|cbn; lia]).
  field. repeat split; lra.
Qed.

(** ** Complete rows *)
Definition cell (r : row) (i : nat) : R := match r i with Some x => x | None => 0 end.

Lemma values_complete l i : complete l -> (i < k)%nat -> values i l = map (fun r => cell r i) l.
Proof.
  intros H Hi. unfold values. induction l as [|r l IH]; [reflexivity|]. cbn [flat_map map]. destruct (H r i (or_introl eq_refl) Hi) as [x E]. unfold cell at 1. rewrite E. cbn [app].
  f_equal. apply IH. intros r' i' Hr. apply H. right. exact Hr.
Qed.
Lemma pairs_complete l i j : complete l -> (i < k)%nat -> (j < k)%nat -> pairs i j l = map (fun r => (cell r i, cell r j)) l.
Proof.
  intros H Hi Hj. unfold pairs. induction l as [|r l IH]; [reflexivity|]. cbn [flat_map map]. destruct (H r i (or_introl eq_refl) Hi) as [x E]. destruct (H r j (or_introl eq_refl) Hj) as [y E2].
  unfold cell at 1 2. rewrite E, E2. cbn [app]. f_equal. apply IH. intros r' i' Hr. apply H. right. exact Hr.
Qed.
Lemma complete_app l1 l2 : complete l1 -> complete l2 -> complete (l1 ++ l2).
Proof. intros H1 H2 r i Hr. apply in_app_or in Hr as [?|?]; [apply H1|apply H2]; assumption. Qed.

Lemma moment2_co l i j : complete l -> (i < k)%nat -> (j < k)%nat -> moment 2 (values i l) = co fst fst (pairs i j l).
Proof.
  intros H Hi Hj. rewrite values_complete, pairs_complete by assumption. unfold moment, co, avg, num, avg_of. rewrite !map_map, !map_length. cbn [fst]. apply rsum_ext. intros. ring.
Qed.
Lemma moment2_co2 l i j : complete l -> (i < k)%nat -> (j < k)%nat -> moment 2 (values j l) = co snd snd (pairs i j l).
Proof.
  intros H Hi Hj. rewrite values_complete, pairs_complete by assumption. unfold moment, co, avg, num, avg_of. rewrite !map_map, !map_length. cbn [snd]. apply rsum_ext. intros. ring.
Qed.

Lemma varied_pos l i : varied l -> (i < k)%nat -> numeric i = true -> 0 < moment 2 (values i l).
Proof.
  intros H Hi Hn. destruct (H i Hi Hn) as (x & y & Hx & Hy & Hxy). pose proof (moment2_nonneg (values i l)). destruct (Req_dec (moment 2 (values i l)) 0) as [E|E]; [|lra].
  exfalso. apply Hxy. rewrite (moment2_zero _ E x Hx), (moment2_zero _ E y Hy). reflexivity.
Qed.
Lemma varied_length l i : complete l -> varied l -> (i < k)%nat -> numeric i = true -> (2 <= length l)%nat.
Proof.
  intros Hc H Hi Hn. destruct (H i Hi Hn) as (x & y & Hx & Hy & Hxy). rewrite values_complete in Hx, Hy by assumption.
  destruct l as [|a [|b l]]; cbn in *; try lia; try tauto. exfalso. apply Hxy. destruct Hx as [<-|[]]. destruct Hy as [<-|[]]. reflexivity.
Qed.

(** ** The columns *)
Record colgood (c : col) (l : list R) : Prop := {
  cg_n : c_n c = length l;
  cg_sum : c_sum c = rsum l;
  cg_var : c_var c = match l with [] => None | _ => Some (moment 2 l / num l) end }.

Lemma merge_var_good l1 l2 : l1 <> [] -> l2 <> [] ->
  merge_variance (length l1) (Some (moment 2 l1 / num l1)) (avg l1) (length l2) (Some (moment 2 l2 / num l2)) (avg l2) = Some (moment 2 (l1 ++ l2) / num (l1 ++ l2)).
Proof.
  intros N1 N2. unfold merge_variance. replace ((length l1 <? 1)%nat) with false by (destruct l1; [contradiction|reflexivity]). replace ((length l2 <? 1)%nat) with false by (destruct l2; [contradiction|reflexivity]).
  cbv zeta. fold (num l1) (num l2). pose proof (num_pos l1 N1). pose proof (num_pos l2 N2). f_equal. rewrite moment2_app, num_app by assumption. field. repeat split; lra.
Qed.

Lemma colgood_mean c l : colgood c l -> l <> [] -> mean c = avg l.
Proof. intros [En Es _] H. unfold mean, avg, num. rewrite En, Es. destruct l; [contradiction|reflexivity]. Qed.

Lemma np_var_spec l : l <> [] -> np_var l = Some (moment 2 l / num l).
Proof. destruct l; [contradiction|reflexivity]. Qed.

Lemma colgood_update c l b : colgood c l -> colgood (update c b) (l ++ b).
Proof.
  intros G. destruct b as [|y b]; [rewrite app_nil_r; exact G|]. pose proof (colgood_mean c l G) as M. destruct G as [En Es Ev]. set (b' := y :: b) in *. assert (b' <> []) as Nb by discriminate.
  split.
  - change (c_n (update c b')) with (c_n c + length b')%nat. rewrite app_length, En. reflexivity.
  - change (c_sum (update c b')) with (c_sum c + rsum b'). rewrite rsum_app, Es. reflexivity.
  - change (c_var (update c b')) with (keep c (c_var c) (merge_variance (c_n c) (c_var c) (mean c) (length b') (np_var b') (avg b'))).
    rewrite En, Ev, np_var_spec by assumption. destruct l as [|x l].
    + unfold keep. rewrite En. cbn [length Nat.ltb Nat.leb app]. reflexivity.
    + rewrite M by discriminate. cbn [keep]. rewrite merge_var_good by discriminate. reflexivity.
Qed.
Lemma colgood_add c d l1 l2 : colgood c l1 -> colgood d l2 -> colgood (add c d) (l1 ++ l2).
Proof.
  intros G1 G2. pose proof (colgood_mean c l1 G1) as M1. pose proof (colgood_mean d l2 G2) as M2. destruct G1 as [En Es Ev]. destruct G2 as [En2 Es2 Ev2]. split; cbn [add c_n c_sum c_var].
  - rewrite app_length. lia.
  - rewrite rsum_app, Es, Es2. reflexivity.
  - rewrite En, En2, Ev, Ev2. destruct l1 as [|x l1]; [reflexivity|]. destruct l2 as [|y l2].
    + rewrite app_nil_r. reflexivity.
    + rewrite M1, M2 by discriminate. apply merge_var_good; discriminate.
Qed.

(** ** Correlations *)
Lemma pairs_length l i j : complete l -> (i < k)%nat -> (j < k)%nat -> length (pairs i j l) = length l.
Proof. intros. rewrite pairs_complete, map_length by assumption. reflexivity. Qed.

(** One entry of the merged matrix *)
Lemma sqrt_div2 m n : 0 < m -> 0 < n -> sqrt (m / n) = sqrt m / sqrt n.
Proof. intros. apply sqrt_div_alt. assumption. Qed.

Lemma entry_merge (p1 p2 : list (R * R)) : (2 <= length p1)%nat -> (2 <= length p2)%nat ->
  0 < co fst fst p1 -> 0 < co snd snd p1 -> 0 < co fst fst p2 -> 0 < co snd snd p2 ->
  let x := INR (length p1) in let y := INR (length p2) in let n := x + y in
  let s1i := sqrt (co fst fst p1 / (x - 1)) in let s1j := sqrt (co snd snd p1 / (x - 1)) in
  let s2i := sqrt (co fst fst p2 / (y - 1)) in let s2j := sqrt (co snd snd p2 / (y - 1)) in
  let m1i := avg_of fst p1 in let m1j := avg_of snd p1 in let m2i := avg_of fst p2 in let m2j := avg_of snd p2 in
  let cov := (pearson p1 * (s1i * s1j) * (x - 1) + pearson p2 * (s2i * s2j) * (y - 1) + (m1i - m2i) * (m1j - m2j) * (x * y) / n) / (n - 1) in
  let M2i := (x - 1) * s1i ^ 2 + (y - 1) * s2i ^ 2 + (m2i - m1i) ^ 2 * x * y / n in
  let M2j := (x - 1) * s1j ^ 2 + (y - 1) * s2j ^ 2 + (m2j - m1j) ^ 2 * x * y / n in
  let std := sqrt (M2i / (n - 1)) * sqrt (M2j / (n - 1)) in
  std <> 0 /\ cov / std = pearson (p1 ++ p2).
Proof.
  intros L1 L2 A1 B1 A2 B2. cbv zeta.
  assert (p1 <> []) as N1 by (destruct p1; [cbn in L1; lia|discriminate]). assert (p2 <> []) as N2 by (destruct p2; [cbn in L2; lia|discriminate]).
  pose proof (co_app fst snd p1 p2 N1 N2) as C. pose proof (co_app fst fst p1 p2 N1 N2) as CI. pose proof (co_app snd snd p1 p2 N1 N2) as CJ.
  set (x := INR (length p1)) in *. set (y := INR (length p2)) in *.
  assert (2 <= x) as X by (unfold x; apply le_INR in L1; cbn in L1; lra). assert (2 <= y) as Y by (unfold y; apply le_INR in L2; cbn in L2; lra).
  assert (forall m n, 0 < m -> 0 < n -> n * sqrt (m / n) ^ 2 = m) as SQ. { intros m n Hm Hn. rewrite pow2_sqrt; [field; lra|]. apply Rlt_le, Rdiv_lt_0_compat; assumption. }
  rewrite !SQ by lra.
  replace (co fst fst p1 + co fst fst p2 + (avg_of fst p2 - avg_of fst p1) ^ 2 * x * y / (x + y)) with (co fst fst (p1 ++ p2)) by (rewrite CI; field; lra).
  replace (co snd snd p1 + co snd snd p2 + (avg_of snd p2 - avg_of snd p1) ^ 2 * x * y / (x + y)) with (co snd snd (p1 ++ p2)) by (rewrite CJ; field; lra).
  assert (forall a b : R, 0 <= a * b * (x * y) / (x + y) \/ a <> b) as SQN. { intros a b. destruct (Req_dec a b) as [<-|]; [left|right; assumption]. apply Rle_mult_inv_pos; [|lra]. apply Rmult_le_pos; [nra|nra]. }
  assert (0 < co fst fst (p1 ++ p2)) as AI. { rewrite CI. destruct (SQN (avg_of fst p1 - avg_of fst p2) (avg_of fst p1 - avg_of fst p2)); [lra|tauto]. }
  assert (0 < co snd snd (p1 ++ p2)) as AJ. { rewrite CJ. destruct (SQN (avg_of snd p1 - avg_of snd p2) (avg_of snd p1 - avg_of snd p2)); [lra|tauto]. }
  assert (forall p a b n, p = co fst snd p1 \/ p = co fst snd p2 -> 0 < a -> 0 < b -> 0 < n -> p / (sqrt a * sqrt b) * (sqrt (a / n) * sqrt (b / n)) * n = p) as COV.
  { intros p a b n _ Ha Hb Hn. rewrite !sqrt_div2 by assumption. pose proof (sqrt_lt_R0 a Ha). pose proof (sqrt_lt_R0 b Hb). pose proof (sqrt_lt_R0 n Hn). rewrite <- (sqrt_sqrt n) at 3 by lra. field. repeat split; lra. }
  unfold pearson at 1 2. rewrite !COV by (auto; lra). rewrite <- C.
  rewrite !sqrt_div2 by lra. pose proof (sqrt_lt_R0 _ AI). pose proof (sqrt_lt_R0 _ AJ). assert (0 < sqrt (x + y - 1)) as P by (apply sqrt_lt_R0; lra).
  split.
  - apply Rgt_not_eq. apply Rmult_lt_0_compat; apply Rdiv_lt_0_compat; assumption.
  - unfold pearson. rewrite <- (sqrt_sqrt (x + y - 1)) at 1 by lra. field. repeat split; lra.
Qed.

(** The state of a profile after some complete and varied rows *)
Record pgood (p : prof) (l : list row) : Prop := {
  pg_complete : complete l;
  pg_rows : p_rows p = length l;
  pg_null : p_null p = 0%nat;
  pg_cols : forall i, (i < k)%nat -> numeric i = true -> colgood (p_cols p i) (values i l);
  pg_varied : l <> [] -> varied l;
  pg_corr : match l with
            | [] => p_corr p = None
            | _ => exists m, p_corr p = Some m /\ forall i j, (i < k)%nat -> (j < k)%nat ->
                     m i j = if numeric i && numeric j then Some (pearson (pairs i j l)) else None
            end }.

Lemma values_app i l1 l2 : values i (l1 ++ l2) = values i l1 ++ values i l2.
Proof. apply flat_map_app. Qed.
Lemma pairs_app i j l1 l2 : pairs i j (l1 ++ l2) = pairs i j l1 ++ pairs i j l2.
Proof. apply flat_map_app. Qed.

Lemma varied_app l1 l2 : varied l1 -> varied (l1 ++ l2).
Proof. intros H i Hi Hn. destruct (H i Hi Hn) as (x & y & Hx & Hy & N). exists x, y. rewrite values_app. repeat split; [apply in_or_app; left; assumption..|assumption]. Qed.

Lemma frame_complete b i : complete b -> (i < k)%nat -> numeric i = true -> frame k numeric b = b.
Proof.
  intros Hc Hi Hn. unfold frame. assert (forall r, In r b -> has_value (num_cols k numeric) r = true) as H.
  { intros r Hr. unfold has_value. apply existsb_exists. exists i. split; [unfold num_cols; apply filter_In; split; [apply in_seq; lia|assumption]|]. destruct (Hc r i Hr Hi) as [x ->]. reflexivity. }
  revert H. clear. induction b as [|r b IH]; intro H; [reflexivity|]. cbn [filter]. rewrite (H r (or_introl eq_refl)). f_equal. apply IH. intros r' Hr. apply H. right. exact Hr.
Qed.

Lemma imputed_complete b i : complete b -> (i < k)%nat -> numeric i = true -> imputed k numeric b i = values i b.
Proof.
  intros Hc Hi Hn. unfold imputed. rewrite (frame_complete b i Hc Hi Hn), (values_complete b i Hc Hi). apply map_ext_in. intros r Hr. unfold cell. destruct (Hc r i Hr Hi) as [x ->]. reflexivity.
Qed.

Lemma combine_map {X Y Z} (f : X -> Y) (g : X -> Z) l : combine (map f l) (map g l) = map (fun x => (f x, g x)) l.
Proof. induction l as [|a l IH]; [reflexivity|]. cbn. rewrite IH. reflexivity. Qed.

Lemma batch_corr_good b i j : complete b -> varied b -> (i < k)%nat -> (j < k)%nat ->
  batch_corr k numeric b i j = if numeric i && numeric j then Some (pearson (pairs i j b)) else None.
Proof.
  intros Hc Hv Hi Hj. unfold batch_corr. destruct (numeric i) eqn:Ni; [|reflexivity]. destruct (numeric j) eqn:Nj; [|reflexivity]. cbn [andb].
  rewrite !imputed_complete by assumption. pose proof (varied_length b i Hc Hv Hi Ni) as L. pose proof (varied_pos b i Hv Hi Ni) as Pi. pose proof (varied_pos b j Hv Hj Nj) as Pj.
  assert (length (values i b) = length b) as Li by (rewrite values_complete, map_length by assumption; reflexivity).
  assert (length (values j b) = length b) as Lj by (rewrite values_complete, map_length by assumption; reflexivity).
  unfold corrcoef. rewrite Li. replace ((length b <=? 1)%nat) with false by (symmetry; apply Nat.leb_gt; lia). cbv zeta.
  assert (combine (values i b) (values j b) = pairs i j b) as ->. { rewrite !values_complete, pairs_complete by assumption. apply combine_map. }
  change (rsum (map (fun x => (x - rsum (values i b) / INR (length b)) ^ 2) (values i b))) with (rsum (map (fun x => (x - rsum (values i b) / INR (length b)) ^ 2) (values i b))).
  assert (rsum (map (fun x => (x - rsum (values i b) / INR (length b)) ^ 2) (values i b)) = moment 2 (values i b)) as -> by (unfold moment, avg, num; rewrite Li; reflexivity).
  assert (rsum (map (fun x => (x - rsum (values j b) / INR (length b)) ^ 2) (values j b)) = moment 2 (values j b)) as -> by (unfold moment, avg, num; rewrite Lj; reflexivity).
  assert (rsum (map (fun p => (fst p - rsum (values i b) / INR (length b)) * (snd p - rsum (values j b) / INR (length b))) (pairs i j b)) = co fst snd (pairs i j b)) as ->.
  { unfold co, avg_of. rewrite pairs_length by assumption. rewrite !values_complete, pairs_complete by assumption. rewrite !map_map. reflexivity. }
  assert (2 <= INR (length b)) as LR by (apply le_INR in L; cbn in L; lra).
  rewrite !sqrt_div2 by lra. pose proof (sqrt_lt_R0 _ Pi). pose proof (sqrt_lt_R0 _ Pj). assert (0 < sqrt (INR (length b) - 1)) as P by (apply sqrt_lt_R0; lra).
  destruct (Req_EM_T _ 0) as [E|_].
  - exfalso. revert E. apply Rgt_not_eq. apply Rmult_lt_0_compat; apply Rdiv_lt_0_compat; assumption.
  - f_equal. unfold pearson. rewrite <- (moment2_co b i j), <- (moment2_co2 b i j) by assumption. rewrite <- (sqrt_sqrt (INR (length b) - 1)) at 1 by lra. field. repeat split; lra.
Qed.

Lemma batch_std_good b i : complete b -> varied b -> (i < k)%nat -> numeric i = true ->
  batch_std numeric b i = Some (sqrt (moment 2 (values i b) / (INR (length b) - 1))).
Proof.
  intros Hc Hv Hi Hn. pose proof (varied_length b i Hc Hv Hi Hn) as L. unfold batch_std. rewrite Hn.
  assert (length (values i b) = length b) as Li by (rewrite values_complete, map_length by assumption; reflexivity).
  rewrite np_var_spec by (intro E; rewrite E in Li; cbn in Li; lia). cbv zeta. rewrite Li. replace ((length b <=? 1)%nat) with false by (symmetry; apply Nat.leb_gt; lia).
  do 2 f_equal. unfold num. rewrite Li. assert (2 <= INR (length b)) by (apply le_INR in L; cbn in L; lra). field. split; lra.
Qed.

Lemma adjusted_std_good b i : complete b -> varied b -> (i < k)%nat -> numeric i = true ->
  adjusted_std k numeric b i = Some (sqrt (moment 2 (values i b) / (INR (length b) - 1))).
Proof.
  intros Hc Hv Hi Hn. pose proof (varied_length b i Hc Hv Hi Hn) as L. unfold adjusted_std. rewrite (frame_complete b i) by assumption. cbv zeta. rewrite (batch_std_good b i) by assumption.
  destruct (existsb _ _); [|reflexivity]. replace ((length b <=? 1)%nat) with false by (symmetry; apply Nat.leb_gt; lia). do 2 f_equal.
  assert (length (values i b) = length b) as -> by (rewrite values_complete, map_length by assumption; reflexivity).
  assert (2 <= INR (length b)) by (apply le_INR in L; cbn in L; lra). pose proof (varied_pos b i Hv Hi Hn). rewrite pow2_sqrt by (apply Rlt_le, Rdiv_lt_0_compat; lra). field. lra.
Qed.

Lemma batch_mean_good b i : b <> [] -> complete b -> (i < k)%nat -> numeric i = true -> batch_mean numeric b i = Some (avg (values i b)).
Proof.
  intros Nb Hc Hi Hn. unfold batch_mean. rewrite Hn. destruct (values i b) eqn:E; [|reflexivity]. rewrite values_complete in E by assumption. apply map_eq_nil in E. contradiction.
Qed.

Lemma avg_pairs l i j : complete l -> (i < k)%nat -> (j < k)%nat -> avg (values i l) = avg_of fst (pairs i j l) /\ avg (values j l) = avg_of snd (pairs i j l).
Proof. intros. rewrite !values_complete, pairs_complete by assumption. unfold avg, num, avg_of. rewrite !map_map, !map_length. split; reflexivity. Qed.

(** Merging the matrices, given the statistics of both sides *)
Lemma helper_good a1 a2 m1 m2 s1 s2 l1 l2 :
  complete l1 -> complete l2 -> varied l1 -> varied l2 -> l1 <> [] -> l2 <> [] ->
  (forall i j, (i < k)%nat -> (j < k)%nat -> a1 i j = if numeric i && numeric j then Some (pearson (pairs i j l1)) else None) ->
  (forall i j, (i < k)%nat -> (j < k)%nat -> a2 i j = if numeric i && numeric j then Some (pearson (pairs i j l2)) else None) ->
  (forall i, (i < k)%nat -> numeric i = true -> m1 i = Some (avg (values i l1)) /\ m2 i = Some (avg (values i l2))) ->
  (forall i, (i < k)%nat -> numeric i = true -> s1 i = Some (sqrt (moment 2 (values i l1) / (INR (length l1) - 1))) /\ s2 i = Some (sqrt (moment 2 (values i l2) / (INR (length l2) - 1)))) ->
  forall n2, (n2 = length l2 \/ forall i, (i < k)%nat -> numeric i = false) ->
  exists m, helper k (Some a1) m1 s1 (length l1) (Some a2) m2 s2 n2 = Some m /\ forall i j, (i < k)%nat -> (j < k)%nat ->
    m i j = if numeric i && numeric j then Some (pearson (pairs i j (l1 ++ l2))) else None.
Proof.
  intros C1 C2 V1 V2 N1 N2 A1 A2 HM HS n2 Hn2. unfold helper. destruct (k =? 0)%nat eqn:K.
  - apply Nat.eqb_eq in K. exists a2. split; [reflexivity|]. intros; lia.
  - eexists. split; [reflexivity|]. cbv beta. intros i j Hi Hj. rewrite A1, A2 by assumption.
    destruct (numeric i) eqn:Ni; [|reflexivity]. destruct (numeric j) eqn:Nj; [|reflexivity]. cbn [andb].
    assert (n2 = length l2) as ->. { destruct Hn2 as [E|E]; [exact E|]. rewrite (E i Hi) in Ni. discriminate. }
    destruct (HM i Hi Ni) as [-> ->]. destruct (HM j Hj Nj) as [-> ->]. destruct (HS i Hi Ni) as [-> ->]. destruct (HS j Hj Nj) as [-> ->].
    destruct (avg_pairs l1 i j C1 Hi Hj) as [-> ->]. destruct (avg_pairs l2 i j C2 Hi Hj) as [-> ->].
    pose proof (varied_pos l1 i V1 Hi Ni) as P1. pose proof (varied_pos l1 j V1 Hj Nj) as P2. pose proof (varied_pos l2 i V2 Hi Ni) as P3. pose proof (varied_pos l2 j V2 Hj Nj) as P4.
    rewrite (moment2_co l1 i j), (moment2_co2 l1 i j), (moment2_co l2 i j), (moment2_co2 l2 i j) in * by assumption.
    pose proof (varied_length l1 i C1 V1 Hi Ni) as L1. pose proof (varied_length l2 i C2 V2 Hi Ni) as L2.
    rewrite <- (pairs_length l1 i j), <- (pairs_length l2 i j) in * by assumption.
    pose proof (entry_merge (pairs i j l1) (pairs i j l2) L1 L2 P1 P2 P3 P4) as E. cbv zeta in E. destruct E as [E1 E2]. cbv zeta.
    rewrite pairs_app. destruct (Req_EM_T _ 0) as [Z|_]; [contradiction|]. f_equal. exact E2.
Qed.

Lemma null_complete b : complete b -> (0 < k)%nat -> filter (fun r => negb (has_value (all_cols k) r)) b = [].
Proof.
  intros Hc Hk. induction b as [|r b IH]; [reflexivity|]. cbn [filter]. assert (has_value (all_cols k) r = true) as ->.
  { unfold has_value. apply existsb_exists. exists 0%nat. split; [apply in_seq; lia|]. destruct (Hc r 0%nat (or_introl eq_refl) Hk) as [x ->]. reflexivity. }
  cbn [negb]. apply IH. intros r' i Hr. apply Hc. right. exact Hr.
Qed.

Lemma update_good p l b : (0 < k)%nat -> pgood p l -> b = [] \/ complete b /\ varied b -> pgood (update_prof k numeric p b) (l ++ b).
Proof.
  intros Hk G [->|[Hc Hv]]; [rewrite app_nil_r; exact G|]. destruct b as [|r b]; [rewrite app_nil_r; exact G|]. set (b' := r :: b) in *. assert (b' <> []) as Nb by discriminate.
  destruct G as [GC GR GN GCols GV GCorr].
  assert (update_prof k numeric p b' = mkProf (p_total p + length b') (p_null p + length (filter (fun r => negb (has_value (all_cols k) r)) b'))
        (fun i => if numeric i then update (p_cols p i) (values i b') else p_cols p i)
        (helper k (p_corr p) (prev_mean numeric p) (prev_std numeric p) (p_rows p) (Some (batch_corr k numeric b')) (batch_mean numeric b') (adjusted_std k numeric b') (length (frame k numeric b')))) as -> by reflexivity.
  rewrite null_complete by assumption.
  split.
  - apply complete_app; assumption.
  - unfold p_rows in *. cbn [p_total p_null length]. rewrite app_length. lia.
  - cbn [p_null length]. lia.
  - intros i Hi Hn. cbn [p_cols]. rewrite Hn, values_app. apply colgood_update. apply GCols; assumption.
  - intros _. destruct l as [|a l]; [exact Hv|]. apply varied_app. apply GV. discriminate.
  - cbn [p_corr]. destruct l as [|a l].
    + cbn [app]. unfold b'. rewrite GCorr. cbn [helper]. eexists. split; [reflexivity|]. intros i j Hi Hj. apply batch_corr_good; assumption.
    + destruct GCorr as (m & Em & Hm). cbn [app]. rewrite Em, GR. set (l' := a :: l) in *. assert (l' <> []) as Nl by discriminate. specialize (GV Nl).
      assert (length (frame k numeric b') = length b' \/ (forall i, (i < k)%nat -> numeric i = false)) as HF.
      { destruct (existsb numeric (seq 0 k)) eqn:E.
        - apply existsb_exists in E as (i & Hi & Ni). apply in_seq in Hi. left. rewrite (frame_complete b' i) by (assumption || lia). reflexivity.
        - right. intros i Hi. destruct (numeric i) eqn:Ni; [|reflexivity]. assert (existsb numeric (seq 0 k) = true) by (apply existsb_exists; exists i; split; [apply in_seq; lia|exact Ni]). congruence. }
      change (a :: l ++ b') with (l' ++ b').
      apply (helper_good m (batch_corr k numeric b') (prev_mean numeric p) (batch_mean numeric b') (prev_std numeric p) (adjusted_std k numeric b') l' b'); try assumption.
      * intros i j Hi Hj. apply batch_corr_good; assumption.
      * intros i Hi Hn. split; [|apply batch_mean_good; assumption]. unfold prev_mean. rewrite Hn. f_equal. apply colgood_mean; [apply GCols; assumption|].
        rewrite values_complete by assumption. discriminate.
      * intros i Hi Hn. split; [|apply adjusted_std_good; assumption]. unfold prev_std. rewrite Hn. destruct (GCols i Hi Hn) as [En Es Ev]. rewrite Ev, En, GR.
        pose proof (varied_length l' i GC GV Hi Hn) as L. assert (length (values i l') = length l') as Li by (rewrite values_complete, map_length by assumption; reflexivity).
        destruct (values i l') eqn:Ev2; [cbn in Li; lia|]. rewrite <- Ev2 in *. replace ((length l' =? 1)%nat) with false by (symmetry; apply Nat.eqb_neq; lia).
        do 2 f_equal. unfold num. rewrite Li. assert (2 <= INR (length l')) by (replace 2 with (INR 2) by (cbn; ring); apply le_INR; exact L). field. split; lra.
Qed.

Lemma same_ids_refl l : same_ids l l = true.
Proof. induction l as [|x l IH]; [reflexivity|]. cbn. rewrite Nat.eqb_refl. exact IH. Qed.

Lemma filter_all {X} (f : X -> bool) L : (forall x, In x L -> f x = true) -> filter f L = L.
Proof. induction L as [|x L IH]; intro H; [reflexivity|]. cbn [filter]. rewrite (H x (or_introl eq_refl)). f_equal. apply IH. intros y Hy. apply H. right. exact Hy. Qed.

Lemma known_all m l : (forall i, (i < k)%nat -> numeric i = true) ->
  (forall i j, (i < k)%nat -> (j < k)%nat -> m i j = if numeric i && numeric j then Some (pearson (pairs i j l)) else None) -> known_cols k m = seq 0 k.
Proof.
  intros Hn Hm. unfold known_cols, all_cols. assert (forall j, In j (seq 0 k) -> existsb (fun i => is_some (m i j)) (seq 0 k) = true) as H.
  { intros j Hj. apply existsb_exists. exists j. split; [exact Hj|]. apply in_seq in Hj. rewrite Hm, Hn by lia. reflexivity. }
  apply filter_all. exact H.
Qed.

Lemma stddev_good c l : colgood c l -> c_bias c = true -> (2 <= length l)%nat -> stddev c = Some (sqrt (moment 2 l / (INR (length l) - 1))).
Proof.
  intros [En Es Ev] Hb L. unfold stddev, variance. rewrite Hb, Ev, En. cbn [negb]. destruct l as [|x l]; [cbn in L; lia|]. replace ((length (x :: l) <? 2)%nat) with false by (symmetry; apply Nat.ltb_ge; lia).
  cbv zeta. do 2 f_equal. assert (2 <= INR (length (x :: l))) by (replace 2 with (INR 2) by (cbn; ring); apply le_INR; exact L). unfold num. field. lra.
Qed.

Lemma add_good f p q l1 l2 : pgood p l1 -> pgood q l2 ->
  (forall i, (i < k)%nat -> f i = i /\ numeric i = true) -> (2 <= k)%nat ->
  (forall i, c_bias (p_cols p i) = true) -> (forall i, c_bias (p_cols q i) = true) ->
  exists s, add_prof k f p q = Ok s /\ pgood s (l1 ++ map (fun r i => r (f i)) l2).
Proof.
  intros G1 G2 Hf Hk B1 B2. destruct G1 as [C1 R1 N1 Co1 V1 X1]. destruct G2 as [C2 R2 N2 Co2 V2 X2].
  assert (forall i, (i < k)%nat -> numeric i = true) as Hn by (intros i Hi; apply Hf; exact Hi).
  assert (forall i, (i < k)%nat -> values i (map (fun r i => r (f i)) l2) = values i l2) as HV2. { intros i Hi. unfold values. clear -Hf Hi. induction l2 as [|r l IH]; [reflexivity|]. cbn [map flat_map]. rewrite IH. destruct (Hf i Hi) as [-> _]. reflexivity. }
  assert (forall i j, (i < k)%nat -> (j < k)%nat -> pairs i j (map (fun r i => r (f i)) l2) = pairs i j l2) as HP2.
  { intros i j Hi Hj. unfold pairs. clear -Hf Hi Hj. induction l2 as [|r l IH]; [reflexivity|]. cbn [map flat_map]. rewrite IH. destruct (Hf i Hi) as [-> _]. destruct (Hf j Hj) as [-> _]. reflexivity. }
  assert (complete (map (fun r i => r (f i)) l2)) as C2'. { intros r i Hr Hi. apply in_map_iff in Hr as (r' & <- & Hr'). destruct (Hf i Hi) as [-> _]. apply C2; assumption. }
  assert (exists c, merge_correlation k p q = Ok c /\ match l1 ++ l2 with [] => c = None | _ => exists m, c = Some m /\ forall i j, (i < k)%nat -> (j < k)%nat ->
                     m i j = if numeric i && numeric j then Some (pearson (pairs i j (l1 ++ l2))) else None end) as (c & Ec & Hc).
  { unfold merge_correlation. cbv zeta. rewrite R1, R2. destruct l1 as [|a1 l1].
    { cbn [length Nat.eqb app]. eexists. split; [reflexivity|]. exact X2. }
    destruct l2 as [|a2 l2].
    { rewrite app_nil_r. cbn [length Nat.eqb]. eexists. split; [reflexivity|]. exact X1. }
    cbn [length Nat.eqb]. destruct X1 as (m1 & E1 & M1). destruct X2 as (m2 & E2 & M2). rewrite E1, E2. rewrite (known_all m1 (a1 :: l1)), (known_all m2 (a2 :: l2)) by assumption.
    rewrite seq_length, Nat.eqb_refl, same_ids_refl. replace ((k <=? 1)%nat) with false by (symmetry; apply Nat.leb_gt; lia). cbn [negb orb].
    eexists. split; [reflexivity|]. change (Datatypes.S (length l1)) with (length (a1 :: l1)). change (Datatypes.S (length l2)) with (length (a2 :: l2)). set (q1 := a1 :: l1) in *. set (q2 := a2 :: l2) in *. assert (q1 <> []) as Q1 by discriminate. assert (q2 <> []) as Q2 by discriminate.
    assert (forall i, (i < k)%nat -> length (values i q1) = length q1 /\ length (values i q2) = length q2) as HL by (intros i Hi; split; rewrite values_complete, map_length by assumption; reflexivity).
    destruct (helper_good m1 m2 (fun i => Some (mean (p_cols p i))) (fun i => Some (mean (p_cols q i))) (fun i => stddev (p_cols p i)) (fun i => stddev (p_cols q i)) q1 q2 C1 C2 (V1 Q1) (V2 Q2) Q1 Q2 M1 M2) with (n2 := length q2) as (m & Em & Hm).
    - intros i Hi Ni. destruct (HL i Hi) as [H1 H2]. rewrite (colgood_mean (p_cols p i) (values i q1)), (colgood_mean (p_cols q i) (values i q2)); [split; reflexivity|auto|intro E; rewrite E in H2; discriminate|auto|intro E; rewrite E in H1; discriminate].
    - intros i Hi Ni. destruct (HL i Hi) as [H1 H2]. pose proof (varied_length q1 i C1 (V1 Q1) Hi Ni). pose proof (varied_length q2 i C2 (V2 Q2) Hi Ni).
      rewrite (stddev_good (p_cols p i) (values i q1)), (stddev_good (p_cols q i) (values i q2)) by (auto || lia). rewrite H1, H2. split; reflexivity.
    - left. reflexivity.
    - exists m. split; [exact Em|exact Hm]. }
  unfold add_prof. rewrite Ec. cbn [bind]. eexists. split; [reflexivity|]. split; cbn [p_total p_null p_cols p_corr].
  - apply complete_app; assumption.
  - unfold p_rows in *. cbn [p_total p_null]. rewrite app_length, map_length. change (nat -> option R) with row. lia.
  - lia.
  - intros i Hi Ni. destruct (Hf i Hi) as [-> _]. rewrite values_app, HV2 by assumption. apply colgood_add; auto.
  - intros HN i Hi Ni. destruct l1 as [|a1 l1].
    + destruct l2 as [|a2 l2]; [contradiction|]. cbn [app]. rewrite HV2 by assumption. apply V2; [discriminate|assumption..].
    + refine (varied_app _ _ _ i Hi Ni). apply V1. discriminate.
  - destruct l1 as [|a1 l1]; destruct l2 as [|a2 l2]; cbn [app map] in *; try exact Hc.
    + destruct Hc as (m & -> & Hm). exists m. split; [reflexivity|]. intros i j Hi Hj. rewrite Hm by assumption. change ((fun i => a2 (f i)) :: map (fun (r : nat -> option R) i => r (f i)) l2) with (map (fun (r : nat -> option R) i => r (f i)) (a2 :: l2)). rewrite HP2 by assumption. reflexivity.
    + destruct Hc as (m & -> & Hm). exists m. split; [reflexivity|]. intros i j Hi Hj. rewrite Hm by assumption.
      change (a1 :: l1 ++ a2 :: l2) with ((a1 :: l1) ++ (a2 :: l2)). change (a1 :: l1 ++ (fun i => a2 (f i)) :: map (fun (r : nat -> option R) i => r (f i)) l2) with ((a1 :: l1) ++ map (fun (r : nat -> option R) i => r (f i)) (a2 :: l2)).
      rewrite !pairs_app, HP2 by assumption. reflexivity.
Qed.

Lemma crun_good h : (0 < k)%nat -> fair h -> exists p, crun k numeric h = Ok p /\ pgood p (rows h) /\ (all_corrected h = true -> forall i, c_bias (p_cols p i) = true).
Proof.
  intro Hk. induction h as [b|h IH b|f h1 IH1 h2 IH2]; cbn [fair crun rows all_corrected].
  - intros _. eexists. split; [reflexivity|]. split.
    + split; [intros r i []|reflexivity|reflexivity|intros; split; reflexivity|intro H; contradiction|reflexivity].
    + intros -> i. reflexivity.
  - intros [Hf Hb]. destruct (IH Hf) as (p & -> & G & B). cbn [bind]. eexists. split; [reflexivity|]. split; [apply update_good; assumption|].
    intros HB i. specialize (B HB i). destruct b as [|r b]; [exact B|]. cbn [update_prof p_cols]. destruct (numeric i); [|exact B]. unfold update. destruct (values i (r :: b)); [exact B|]. cbn [c_bias]. exact B.
  - intros (F1 & F2 & Hf & K2 & A1 & A2). destruct (IH1 F1) as (p & -> & G1 & B1). destruct (IH2 F2) as (q & -> & G2 & B2). cbn [bind].
    destruct (add_good f p q (rows h1) (rows h2) G1 G2 Hf K2 (B1 A1) (B2 A2)) as (s & Es & Gs). exists s. split; [exact Es|]. split; [exact Gs|].
    intros _ i. unfold add_prof in Es. destruct (merge_correlation k p q); [|discriminate]. cbn [bind] in Es. injection Es as <-. cbn [p_cols add c_bias]. rewrite B1, B2 by assumption. reflexivity.
Qed.

(** C22.  The correlation of two numeric columns, however their rows were split into batches and merged profiles, is the
    Pearson correlation of all rows, if no batch has nulls or a constant numeric column; a profile without rows has no
    matrix.  Merging moreover needs columns that are all numeric and in the same order, and bias correction. *)
Theorem C22_correlation h : (0 < k)%nat -> fair h ->
  exists p, crun k numeric h = Ok p /\
  (rows h = [] -> p_corr p = None) /\
  (rows h <> [] -> exists m, p_corr p = Some m /\ forall i j, (i < k)%nat -> (j < k)%nat ->
     m i j = if numeric i && numeric j then Some (pearson (pairs i j (rows h))) else None).
Proof.
  intros Hk Hf. destruct (crun_good h Hk Hf) as (p & E & G & _). exists p. split; [exact E|]. pose proof (pg_corr _ _ G) as C. split.
  - intro Z. rewrite Z in C. exact C.
  - intro Z. destruct (rows h); [contradiction|]. exact C.
Qed.
End Table.

(** ** Examples and counterexamples *)
Definition row2 (a b : option R) : row := fun i => match i with O => a | 1%nat => b | _ => None end.
Definition both (i : nat) : bool := true.

Lemma corrcoef_sym xs ys n mx my v c : length xs = n -> (2 <= n)%nat -> rsum xs / INR n = mx -> rsum ys / INR n = my ->
  rsum (map (fun x => (x - mx) ^ 2) xs) = v -> rsum (map (fun y => (y - my) ^ 2) ys) = v -> 0 < v ->
  rsum (map (fun p => (fst p - mx) * (snd p - my)) (combine xs ys)) = c -> corrcoef xs ys = Some (c / v).
Proof.
  intros L Hn Mx My Vx Vy Hv Hc. unfold corrcoef. rewrite L. replace ((n <=? 1)%nat) with false by (symmetry; apply Nat.leb_gt; lia). cbv zeta. rewrite Mx, My, Vx, Vy, Hc.
  assert (2 <= INR n) as N by (replace 2 with (INR 2) by (cbn; ring); apply le_INR; exact Hn). assert (0 < v / (INR n - 1)) as P by (apply Rdiv_lt_0_compat; lra). pose proof (sqrt_lt_R0 _ P) as Q.
  destruct (Req_EM_T _ 0) as [E|_]; [nra|]. f_equal. unfold Rdiv at 1. unfold Rdiv at 1. rewrite Rmult_assoc, <- Rinv_mult, sqrt_sqrt by lra. field. split; lra.
Qed.

Lemma entry_sym k a1 a2 m1 s1 n1 m2 s2 n2 i j r1 r2 v1 v2 x1 x2 y1 y2 V C : (0 < k)%nat -> (1 <= n1)%nat -> (1 <= n2)%nat ->
  a1 i j = Some r1 -> a2 i j = Some r2 -> s1 i = Some (sqrt v1) -> s1 j = Some (sqrt v1) -> s2 i = Some (sqrt v2) -> s2 j = Some (sqrt v2) -> 0 <= v1 -> 0 <= v2 ->
  m1 i = Some x1 -> m1 j = Some y1 -> m2 i = Some x2 -> m2 j = Some y2 ->
  (INR n1 - 1) * v1 + (INR n2 - 1) * v2 + (x2 - x1) ^ 2 * INR n1 * INR n2 / (INR n1 + INR n2) = V ->
  (INR n1 - 1) * v1 + (INR n2 - 1) * v2 + (y2 - y1) ^ 2 * INR n1 * INR n2 / (INR n1 + INR n2) = V -> 0 < V ->
  r1 * v1 * (INR n1 - 1) + r2 * v2 * (INR n2 - 1) + (x1 - x2) * (y1 - y2) * (INR n1 * INR n2) / (INR n1 + INR n2) = C ->
  exists m, helper k (Some a1) m1 s1 n1 (Some a2) m2 s2 n2 = Some m /\ m i j = Some (C / V).
Proof.
  intros Hk L1 L2 A1 A2 S1i S1j S2i S2j P1 P2 M1i M1j M2i M2j Vi Vj HV HC. unfold helper. replace ((k =? 0)%nat) with false by (symmetry; apply Nat.eqb_neq; lia).
  eexists. split; [reflexivity|]. cbv beta. rewrite A1, A2, S1i, S1j, S2i, S2j, M1i, M1j, M2i, M2j. cbv zeta. rewrite !pow2_sqrt, Vi, Vj, (sqrt_sqrt v1), (sqrt_sqrt v2), HC by assumption.
  assert (1 <= INR n1) by (replace 1 with (INR 1) by reflexivity; apply le_INR; exact L1). assert (1 <= INR n2) by (replace 1 with (INR 1) by reflexivity; apply le_INR; exact L2).
  assert (0 < V / (INR n1 + INR n2 - 1)) as P by (apply Rdiv_lt_0_compat; lra). pose proof (sqrt_lt_R0 _ P) as Q. destruct (Req_EM_T _ 0) as [E|_]; [nra|]. f_equal. rewrite sqrt_sqrt by lra. field. split; lra.
Qed.

Definition b1 : list row := [row2 (Some 0) (Some 0); row2 (Some 1) (Some 1)].
Definition b2 : list row := [row2 (Some 10) (Some 11); row2 (Some 11) (Some 10)].

Ltac in_pairs := repeat match goal with H : In _ _ |- _ => destruct H as [<-|H]; [|] | H : In _ [] |- _ => destruct H end.

Lemma b1_ok : complete 2 b1 /\ varied 2 both b1.
Proof.
  split.
  - intros r i [<-|[<-|[]]] Hi; (destruct i as [|[|i]]; [eexists; reflexivity..|lia]).
  - intros i Hi _. exists 0, 1. destruct i as [|[|i]]; [cbn; repeat split; auto; lra..|lia].
Qed.
Lemma b2_ok : complete 2 b2 /\ varied 2 both b2.
Proof.
  split.
  - intros r i [<-|[<-|[]]] Hi; (destruct i as [|[|i]]; [eexists; reflexivity..|lia]).
  - intros i Hi _. exists 10, 11. destruct i as [|[|i]]; [cbn; repeat split; auto; lra..|lia].
Qed.

Example C22_example : exists p m, crun 2 both (CAdd (fun i => i) (CUpd (CNew true) b1) (CUpd (CNew true) b2)) = Ok p /\ p_corr p = Some m /\ m 0%nat 1%nat = Some (100 / 101).
Proof.
  destruct (C22_correlation 2 both (CAdd (fun i => i) (CUpd (CNew true) b1) (CUpd (CNew true) b2))) as (p & E & _ & H).
  - lia.
  - cbn [fair all_corrected]. pose proof b1_ok. pose proof b2_ok. repeat split; auto.
  - destruct H as (m & Em & Hm); [discriminate|]. exists p, m. split; [exact E|]. split; [exact Em|]. rewrite Hm by lia. cbn [both andb]. f_equal.
    unfold pearson, co, avg_of. cbn -[INR sqrt]. replace (INR 4) with 4 by (cbn; ring).
    match goal with |- ?c / (sqrt ?a * sqrt ?b) = _ => replace c with 100 by field; replace a with 101 by field; replace b with 101 by field end.
    rewrite sqrt_sqrt by lra. reflexivity.
Qed.

(** A batch in which a column is constant makes the correlation nan for good, though the column is not constant: *)
Theorem C22_constant_batch_refuted : exists h p m, complete 2 (rows h) /\ varied 2 both (rows h) /\
  crun 2 both h = Ok p /\ p_corr p = Some m /\ m 0%nat 1%nat = None.
Proof.
  exists (CUpd (CUpd (CNew true) [row2 (Some 1) (Some 1); row2 (Some 1) (Some 2)]) b1). do 2 eexists. split; [|split; [|split; [reflexivity|split; [reflexivity|]]]].
  - intros r i [<-|[<-|[<-|[<-|[]]]]] Hi; (destruct i as [|[|i]]; [eexists; reflexivity..|lia]).
  - intros i Hi _. exists 0, 1. destruct i as [|[|i]]; [cbn; repeat split; auto 6; lra..|lia].
  - cbv beta. match goal with |- match ?x with _ => _ end = None => assert (x = None) as -> end; [|reflexivity].
    unfold batch_corr, both. cbn [andb]. unfold corrcoef. cbn -[INR sqrt]. replace (INR 2) with 2 by (cbn; ring).
    replace (((1 - (1 + (1 + 0)) / 2) * ((1 - (1 + (1 + 0)) / 2) * 1) + ((1 - (1 + (1 + 0)) / 2) * ((1 - (1 + (1 + 0)) / 2) * 1) + 0)) / (2 - 1)) with 0 by field.
    rewrite sqrt_0, Rmult_0_l. destruct (Req_EM_T 0 0); [reflexivity|contradiction].
Qed.

(** Merging two profiles of a table one of whose columns is not numeric fails: *)
Definition row3 (a b : option R) : row := fun i => match i with O => a | 1%nat => b | 2%nat => Some 0 | _ => None end.
Definition two (i : nat) : bool := (i <? 2)%nat.
Definition b3 : list row := [row3 (Some 0) (Some 0); row3 (Some 1) (Some 1)].

Theorem C22_text_column_refuted : exists h, fair 3 two h /\ complete 3 (rows h) /\ varied 3 two (rows h) /\
  crun 3 two (CAdd (fun i => i) h h) = Err ValueError.
Proof.
  exists (CUpd (CNew true) b3).
  assert (complete 3 b3 /\ varied 3 two b3) as [HC HV].
  { split.
    - intros r i [<-|[<-|[]]] Hi; (destruct i as [|[|[|i]]]; [eexists; reflexivity..|lia]).
    - intros i Hi Hn. exists 0, 1. destruct i as [|[|[|i]]]; [cbn; repeat split; auto; lra..|discriminate|lia]. }
  assert (fair 3 two (CUpd (CNew true) b3)) as HF by (cbn [fair]; auto).
  split; [exact HF|]. split; [exact HC|]. split; [exact HV|].
  destruct (crun_good 3 two _ ltac:(lia) HF) as (p & E & G & _). cbn [crun]. cbn [crun] in E. rewrite E. cbn [bind]. unfold add_prof, merge_correlation. rewrite (pg_rows _ _ _ _ G).
  pose proof (pg_corr _ _ _ _ G) as (m & -> & Hm). cbn [rows app length b3 Nat.eqb].
  assert (known_cols 3 m = [0%nat; 1%nat]) as ->. { unfold known_cols, all_cols. cbn [seq filter existsb]. rewrite !Hm by lia. reflexivity. }
  reflexivity.
Qed.

(** Without bias correction merged correlations are not the correlations of all rows: *)
Lemma col_batch bias l : colgood (update (new bias) l) l.
Proof. apply (colgood_update (new bias) [] l). split; reflexivity. Qed.

Lemma first_corr l i j : complete 2 l -> varied 2 both l -> l <> [] -> (i < 2)%nat -> (j < 2)%nat -> batch_corr 2 both l i j = Some (pearson (pairs i j l)).
Proof. intros Hc Hv _ Hi Hj. rewrite (batch_corr_good 2 both l i j Hc Hv Hi Hj). reflexivity. Qed.

Lemma pearson_sym ps v c : co fst fst ps = v -> co snd snd ps = v -> 0 < v -> co fst snd ps = c -> pearson ps = c / v.
Proof. intros E1 E2 Hv E3. unfold pearson. rewrite E1, E2, E3, sqrt_sqrt by lra. reflexivity. Qed.

Ltac concrete := unfold pairs, co, avg_of, moment, avg, num; cbn -[INR sqrt]; replace (INR 2) with 2 by (cbn; ring); replace (INR 3) with 3 by (cbn; ring); replace (INR 4) with 4 by (cbn; ring); replace (INR 5) with 5 by (cbn; ring); field.

Lemma biased_std l v : l <> [] -> moment 2 l / num l = v -> stddev (update (new false) l) = Some (sqrt v).
Proof. intros N E. unfold stddev, variance. destruct (col_batch false l) as [_ _ Ev]. rewrite Ev. destruct l; [contradiction|]. cbn [update new c_bias negb]. rewrite E. reflexivity. Qed.

Lemma known_two m : (forall i j, (i < 2)%nat -> (j < 2)%nat -> m i j <> None) -> known_cols 2 m = [0%nat; 1%nat].
Proof.
  intro H. unfold known_cols, all_cols. cbn [seq filter existsb]. pose proof (H 0%nat 0%nat) as H0. pose proof (H 0%nat 1%nat) as H1.
  destruct (m 0%nat 0%nat); [|exfalso; apply H0; auto; lia]. destruct (m 0%nat 1%nat); [|exfalso; apply H1; auto; lia]. reflexivity.
Qed.

Theorem C22_uncorrected_refuted : exists b b' p m, complete 2 b /\ varied 2 both b /\ complete 2 b' /\ varied 2 both b' /\
  crun 2 both (CAdd (fun i => i) (CUpd (CNew false) b) (CUpd (CNew false) b')) = Ok p /\ p_corr p = Some m /\
  m 0%nat 1%nat <> Some (pearson (pairs 0 1 (b ++ b'))).
Proof.
  exists b1, b2. destruct b1_ok as [C1 V1]. destruct b2_ok as [C2 V2].
  assert (exists m, merge_correlation 2 (update_prof 2 both (new_prof false) b1) (update_prof 2 both (new_prof false) b2) = Ok (Some m) /\ m 0%nat 1%nat = Some (100 / (201/2))) as (m & Em & Hm).
  { unfold merge_correlation. cbn [p_rows p_total p_null]. change (p_rows (update_prof 2 both (new_prof false) b1)) with 2%nat. change (p_rows (update_prof 2 both (new_prof false) b2)) with 2%nat. cbn [Nat.eqb].
    change (p_corr (update_prof 2 both (new_prof false) b1)) with (Some (batch_corr 2 both b1)). change (p_corr (update_prof 2 both (new_prof false) b2)) with (Some (batch_corr 2 both b2)).
    cbv beta iota zeta. rewrite !known_two by (intros i j Hi Hj; rewrite first_corr by (assumption || discriminate); discriminate). cbn [length Nat.eqb Nat.leb negb orb same_ids andb].
    destruct (entry_sym 2 (batch_corr 2 both b1) (batch_corr 2 both b2) (fun i => Some (mean (p_cols (update_prof 2 both (new_prof false) b1) i))) (fun i => stddev (p_cols (update_prof 2 both (new_prof false) b1) i)) 2
      (fun i => Some (mean (p_cols (update_prof 2 both (new_prof false) b2) i))) (fun i => stddev (p_cols (update_prof 2 both (new_prof false) b2) i)) 2 0 1 1 (-1) (1/4) (1/4) (1/2) (21/2) (1/2) (21/2) (201/2) 100) as (m & E & H); try lia; try lra.
    - rewrite first_corr by (auto; discriminate). f_equal. rewrite (pearson_sym _ (1/2) (1/2)); [field|concrete|concrete|lra|concrete].
    - rewrite first_corr by (auto; discriminate). f_equal. rewrite (pearson_sym _ (1/2) (-1/2)); [field|concrete|concrete|lra|concrete].
    - cbn [update_prof p_cols both b1]. apply biased_std; [discriminate|concrete].
    - cbn [update_prof p_cols both b1]. apply biased_std; [discriminate|concrete].
    - cbn [update_prof p_cols both b2]. apply biased_std; [discriminate|concrete].
    - cbn [update_prof p_cols both b2]. apply biased_std; [discriminate|concrete].
    - cbn [update_prof p_cols both b1]. f_equal. etransitivity; [apply (colgood_mean _ _ (col_batch _ _)); discriminate|concrete].
    - cbn [update_prof p_cols both b1]. f_equal. etransitivity; [apply (colgood_mean _ _ (col_batch _ _)); discriminate|concrete].
    - cbn [update_prof p_cols both b2]. f_equal. etransitivity; [apply (colgood_mean _ _ (col_batch _ _)); discriminate|concrete].
    - cbn [update_prof p_cols both b2]. f_equal. etransitivity; [apply (colgood_mean _ _ (col_batch _ _)); discriminate|concrete].
    - replace (INR 2) with 2 by (cbn; ring). field.
    - replace (INR 2) with 2 by (cbn; ring). field.
    - replace (INR 2) with 2 by (cbn; ring). field.
    - exists m. split; [|exact H]. f_equal. exact E. }
  eexists. exists m. repeat (split; [assumption|]). split; [cbn [crun bind]; unfold add_prof; rewrite Em; reflexivity|]. split; [reflexivity|].
  rewrite Hm. rewrite (pearson_sym _ 101 100); [|concrete|concrete|lra|concrete]. intro E. injection E as E. lra.
Qed.

(** With nulls the correlation depends on how the rows are batched: *)
Definition b4 : list row := [row2 (Some 0) (Some 0); row2 None (Some 1); row2 (Some 1) None].
Definition b5 : list row := [row2 (Some 10) (Some 10); row2 (Some 11) (Some 11)].

Theorem C22_nulls_refuted : exists h h' p p' m m', rows h = rows h' /\ crun 2 both h = Ok p /\ crun 2 both h' = Ok p' /\
  p_corr p = Some m /\ p_corr p' = Some m' /\ exists x x', m 0%nat 1%nat = Some x /\ m' 0%nat 1%nat = Some x' /\ x <> x'.
Proof.
  exists (CUpd (CUpd (CNew true) b4) b5), (CUpd (CNew true) (b4 ++ b5)).
  set (q := update_prof 2 both (new_prof true) b4).
  destruct (entry_sym 2 (batch_corr 2 both b4) (batch_corr 2 both b5) (prev_mean both q) (prev_std both q) 3 (batch_mean both b5) (adjusted_std 2 both b5) 2 0 1 (1/2) 1 (1/4) (1/2) (1/2) (21/2) (1/2) (21/2) 121 (483/4)) as (m & E & H); try lia; try lra.
  - unfold batch_corr, both. cbn [andb]. rewrite (corrcoef_sym _ _ 3 (1/2) (1/2) (1/2) (1/4)); [f_equal; field|reflexivity|lia|concrete|concrete|concrete|concrete|lra|concrete].
  - unfold batch_corr, both. cbn [andb]. rewrite (corrcoef_sym _ _ 2 (21/2) (21/2) (1/2) (1/2)); [f_equal; field|reflexivity|lia|concrete|concrete|concrete|concrete|lra|concrete].
  - unfold prev_std. cbn [both]. change (p_cols q 0%nat) with (update (new true) [0; 1]). destruct (col_batch true [0; 1]) as [En _ Ev]. rewrite En, Ev. cbn [length q p_rows]. change (p_rows q) with 3%nat. cbn [Nat.eqb]. do 2 f_equal. concrete.
  - unfold prev_std. cbn [both]. change (p_cols q 1%nat) with (update (new true) [0; 1]). destruct (col_batch true [0; 1]) as [En _ Ev]. rewrite En, Ev. change (p_rows q) with 3%nat. cbn [length Nat.eqb]. do 2 f_equal. concrete.
  - unfold adjusted_std. cbn -[INR sqrt]. do 2 f_equal. concrete.
  - unfold adjusted_std. cbn -[INR sqrt]. do 2 f_equal. concrete.
  - unfold prev_mean. cbn [both]. change (p_cols q 0%nat) with (update (new true) [0; 1]). f_equal. rewrite (colgood_mean _ _ (col_batch _ _)) by discriminate. concrete.
  - unfold prev_mean. cbn [both]. change (p_cols q 1%nat) with (update (new true) [0; 1]). f_equal. rewrite (colgood_mean _ _ (col_batch _ _)) by discriminate. concrete.
  - unfold batch_mean. cbn -[INR sqrt]. f_equal. concrete.
  - unfold batch_mean. cbn -[INR sqrt]. f_equal. concrete.
  - replace (INR 2) with 2 by (cbn; ring). replace (INR 3) with 3 by (cbn; ring). field.
  - replace (INR 2) with 2 by (cbn; ring). replace (INR 3) with 3 by (cbn; ring). field.
  - replace (INR 2) with 2 by (cbn; ring). replace (INR 3) with 3 by (cbn; ring). field.
  - do 2 eexists. exists m, (batch_corr 2 both (b4 ++ b5)). split; [reflexivity|]. split; [reflexivity|]. split; [reflexivity|]. split; [exact E|]. split; [reflexivity|].
    eexists. exists ((323/4) / 101). split; [exact H|]. split; [|lra].
    unfold batch_corr, both. cbn [andb]. apply (corrcoef_sym _ _ 5 (11/2) (11/2) 101 (323/4)); [reflexivity|lia|concrete|concrete|concrete|concrete|lra|concrete].
Qed.

(** Merging a profile whose columns come in another order uses the statistics of the wrong columns: *)
Definition swap (i : nat) : nat := match i with O => 1%nat | 1%nat => O | _ => i end.
Definition b6 : list row := [row2 (Some 0) (Some 10); row2 (Some 1) (Some 11)].
Definition b7 : list row := [row2 (Some 10) (Some 0); row2 (Some 11) (Some 1)].

Theorem C22_column_order_refuted : exists h h' p m, complete 2 (rows h) /\ varied 2 both (rows h) /\ complete 2 (rows h') /\ varied 2 both (rows h') /\
  crun 2 both (CAdd swap h h') = Ok p /\ p_corr p = Some m /\ pearson (pairs 0 1 (rows (CAdd swap h h'))) = 1 /\ m 0%nat 1%nat = Some (-99 / 101).
Proof.
  exists (CUpd (CNew true) b6), (CUpd (CNew true) b7).
  assert (complete 2 b6 /\ varied 2 both b6) as [C1 V1].
  { split; [intros r i [<-|[<-|[]]] Hi; (destruct i as [|[|i]]; [eexists; reflexivity..|lia])|].
    intros i Hi _. destruct i as [|[|i]]; [exists 0, 1|exists 10, 11|lia]; cbn; repeat split; auto; lra. }
  assert (complete 2 b7 /\ varied 2 both b7) as [C2 V2].
  { split; [intros r i [<-|[<-|[]]] Hi; (destruct i as [|[|i]]; [eexists; reflexivity..|lia])|].
    intros i Hi _. destruct i as [|[|i]]; [exists 10, 11|exists 0, 1|lia]; cbn; repeat split; auto; lra. }
  assert (exists m, merge_correlation 2 (update_prof 2 both (new_prof true) b6) (update_prof 2 both (new_prof true) b7) = Ok (Some m) /\ m 0%nat 1%nat = Some (-99 / 101)) as (m & Em & Hm).
  { unfold merge_correlation. change (p_rows (update_prof 2 both (new_prof true) b6)) with 2%nat. change (p_rows (update_prof 2 both (new_prof true) b7)) with 2%nat. cbn [Nat.eqb].
    change (p_corr (update_prof 2 both (new_prof true) b6)) with (Some (batch_corr 2 both b6)). change (p_corr (update_prof 2 both (new_prof true) b7)) with (Some (batch_corr 2 both b7)).
    cbv beta iota zeta. rewrite !known_two by (intros i j Hi Hj; rewrite first_corr by (assumption || discriminate); discriminate). cbn [length Nat.eqb Nat.leb negb orb same_ids andb].
    assert (forall l v, length l = 2%nat -> moment 2 l = v -> stddev (update (new true) l) = Some (sqrt v)) as ST.
    { intros l v L E. rewrite (stddev_good _ l (col_batch _ _)); [|destruct l; [discriminate|reflexivity]|lia]. do 2 f_equal. rewrite L, E. replace (INR 2) with 2 by (cbn; ring). field. }
    destruct (entry_sym 2 (batch_corr 2 both b6) (batch_corr 2 both b7) (fun i => Some (mean (p_cols (update_prof 2 both (new_prof true) b6) i))) (fun i => stddev (p_cols (update_prof 2 both (new_prof true) b6) i)) 2
      (fun i => Some (mean (p_cols (update_prof 2 both (new_prof true) b7) i))) (fun i => stddev (p_cols (update_prof 2 both (new_prof true) b7) i)) 2 0 1 1 1 (1/2) (1/2) (1/2) (21/2) (21/2) (1/2) 101 (-99)) as (m & E & H); try lia; try lra.
    - rewrite first_corr by (auto; discriminate). f_equal. rewrite (pearson_sym _ (1/2) (1/2)); [field|concrete|concrete|lra|concrete].
    - rewrite first_corr by (auto; discriminate). f_equal. rewrite (pearson_sym _ (1/2) (1/2)); [field|concrete|concrete|lra|concrete].
    - cbn [update_prof p_cols both b6]. apply ST; [reflexivity|concrete].
    - cbn [update_prof p_cols both b6]. apply ST; [reflexivity|concrete].
    - cbn [update_prof p_cols both b7]. apply ST; [reflexivity|concrete].
    - cbn [update_prof p_cols both b7]. apply ST; [reflexivity|concrete].
    - cbn [update_prof p_cols both b6]. f_equal. etransitivity; [apply (colgood_mean _ _ (col_batch _ _)); discriminate|concrete].
    - cbn [update_prof p_cols both b6]. f_equal. etransitivity; [apply (colgood_mean _ _ (col_batch _ _)); discriminate|concrete].
    - cbn [update_prof p_cols both b7]. f_equal. etransitivity; [apply (colgood_mean _ _ (col_batch _ _)); discriminate|concrete].
    - cbn [update_prof p_cols both b7]. f_equal. etransitivity; [apply (colgood_mean _ _ (col_batch _ _)); discriminate|concrete].
    - replace (INR 2) with 2 by (cbn; ring). field.
    - replace (INR 2) with 2 by (cbn; ring). field.
    - replace (INR 2) with 2 by (cbn; ring). field.
    - exists m. split; [|exact H]. f_equal. exact E. }
  eexists. exists m. repeat (split; [assumption|]). split; [cbn [crun bind]; unfold add_prof; rewrite Em; reflexivity|]. split; [reflexivity|]. split; [|exact Hm].
  rewrite (pearson_sym _ 1 1); [field|concrete|concrete|lra|concrete].
Qed.

(** A profile all of whose cells are null adds nothing to the correlations of the profile it is merged with. *)
Definition blank (k : nat) (l : list row) : Prop := forall r i, In r l -> (i < k)%nat -> r i = None.

Lemma has_value_all k r : has_value (all_cols k) r = false <-> forall i, (i < k)%nat -> r i = None.
Proof.
  unfold has_value, all_cols. split.
  - intros H i Hi. destruct (r i) eqn:E; [|reflexivity]. assert (existsb (fun i => is_some (r i)) (seq 0 k) = true); [|congruence].
    apply existsb_exists. exists i. split; [apply in_seq; lia|]. rewrite E. reflexivity.
  - intro H. destruct (existsb (fun i => is_some (r i)) (seq 0 k)) eqn:E; [|reflexivity]. apply existsb_exists in E. destruct E as (i & Hi & Hs). apply in_seq in Hi. rewrite H in Hs by lia. discriminate.
Qed.

Lemma filter_parts {A} (f : A -> bool) l : (length l = length (filter f l) + length (filter (fun x => negb (f x)) l))%nat.
Proof. induction l as [|x l IH]; [reflexivity|]. cbn [filter length]. destruct (f x); cbn [negb length]; lia. Qed.

Fixpoint kept_order (k : nat) (h : chist) : Prop :=
  match h with CNew _ => True | CUpd h _ => kept_order k h | CAdd f h1 h2 => kept_order k h1 /\ kept_order k h2 /\
    (forall i, (i < k)%nat -> (f i < k)%nat) /\ (forall i, (i < k)%nat -> exists j, (j < k)%nat /\ f j = i) end.

Lemma run_rows k numeric h : kept_order k h -> forall p, crun k numeric h = Ok p ->
  (p_null p <= p_total p)%nat /\ p_rows p = length (filter (has_value (all_cols k)) (rows h)).
Proof.
  induction h as [b|h IH b|f h1 IH1 h2 IH2]; cbn [kept_order crun rows].
  - intros _ p H. injection H as <-. split; [cbn; lia|reflexivity].
  - intros K p H. destruct (crun k numeric h) as [q|x]; [|discriminate]. cbn [bind] in H. injection H as <-. destruct (IH K q eq_refl) as [L R].
    destruct b as [|r b]; [rewrite app_nil_r; auto|]. unfold update_prof, p_rows in *. cbn [p_total p_null]. rewrite filter_app, app_length, <- R.
    pose proof (filter_parts (has_value (all_cols k)) (r :: b)). lia.
  - intros (K1 & K2 & F & G) p H. destruct (crun k numeric h1) as [q|x]; [|discriminate]. cbn [bind] in H. destruct (crun k numeric h2) as [s|x]; [|discriminate]. cbn [bind] in H.
    unfold add_prof in H. destruct (merge_correlation k q s); [|discriminate]. cbn [bind] in H. injection H as <-. destruct (IH1 K1 q eq_refl) as [L1 R1]. destruct (IH2 K2 s eq_refl) as [L2 R2].
    unfold p_rows in *. cbn [p_total p_null]. split; [lia|]. rewrite filter_app, app_length, <- R1.
    change (nat -> option R) with row. assert (length (filter (has_value (all_cols k)) (map (fun (r : row) (i : nat) => r (f i)) (rows h2))) = length (filter (has_value (all_cols k)) (rows h2))) as EQ; [|match type of EQ with ?x = _ => match goal with |- context [(length (filter ?a ?b) + length (filter _ ?c))%nat] => idtac | |- _ = (_ + ?y)%nat => change y with x end end; lia].
    clear - F G. induction (rows h2) as [|r l IH]; [reflexivity|]. cbn [map filter]. assert (has_value (all_cols k) (fun i => r (f i)) = has_value (all_cols k) r) as ->.
    { destruct (has_value (all_cols k) r) eqn:E.
      - destruct (has_value (all_cols k) (fun i => r (f i))) eqn:E'; [reflexivity|]. rewrite has_value_all in E'. rewrite <- E. symmetry. apply has_value_all. intros i Hi. destruct (G i Hi) as (j & Hj & <-). apply E'. exact Hj.
      - rewrite has_value_all in *. intros i Hi. apply E, F, Hi. }
    destruct (has_value (all_cols k) r); cbn [length]; rewrite IH; reflexivity.
Qed.

Lemma blank_rows k l : blank k l <-> length (filter (has_value (all_cols k)) l) = 0%nat.
Proof.
  split.
  - intro B. induction l as [|r l IH]; [reflexivity|]. cbn [filter]. assert (has_value (all_cols k) r = false) as ->; [apply has_value_all; intros i Hi; apply B; [left; reflexivity|exact Hi]|].
    apply IH. intros r' i H. apply B. right. exact H.
  - intros H r i Hr Hi. destruct (has_value (all_cols k) r) eqn:E; [|rewrite has_value_all in E; apply E, Hi].
    assert (In r (filter (has_value (all_cols k)) l)) as X by (apply filter_In; auto). destruct (filter (has_value (all_cols k)) l); [destruct X|discriminate].
Qed.

Theorem C22_blank k numeric f h1 h2 p q : kept_order k (CAdd f h1 h2) -> crun k numeric h1 = Ok p -> crun k numeric h2 = Ok q ->
  (blank k (rows h1) -> exists s, crun k numeric (CAdd f h1 h2) = Ok s /\ p_corr s = p_corr q) /\
  (blank k (rows h2) -> ~ blank k (rows h1) -> exists s, crun k numeric (CAdd f h1 h2) = Ok s /\ p_corr s = p_corr p).
Proof.
  intros (K1 & K2 & _) E1 E2. destruct (run_rows k numeric h1 K1 p E1) as [_ R1]. destruct (run_rows k numeric h2 K2 q E2) as [_ R2].
  cbn [crun]. rewrite E1, E2. cbn [bind]. unfold add_prof, merge_correlation. split.
  - intro B. apply blank_rows in B. rewrite B in R1. rewrite R1. cbn. eexists. split; reflexivity.
  - intros B N. rewrite blank_rows in B, N. rewrite B in R2. rewrite R2. destruct (Nat.eqb_spec (p_rows p) 0) as [Z|_]; [congruence|]. cbn. eexists. split; reflexivity.
Qed.
Example C22_blank_ex : exists s m, crun 2 both (CAdd (fun i => i) (CUpd (CNew true) [fun _ => None; fun _ => None]) (CUpd (CNew true) b1)) = Ok s /\ p_corr s = Some m /\ m 0%nat 1%nat = Some (pearson (pairs 0 1 b1)).
Proof.
  destruct b1_ok as [C1 V1]. edestruct (C22_blank 2 both (fun i => i) (CUpd (CNew true) [fun _ => None; fun _ => None]) (CUpd (CNew true) b1)) as [H _]; [|reflexivity|reflexivity|].
  - cbn. repeat split; auto. intros i Hi. exists i. auto.
  - destruct H as (s & E & Hs); [intros r i [<-|[<-|[]]] _; reflexivity|]. exists s. exists (batch_corr 2 both b1). split; [exact E|]. split; [exact Hs|]. apply first_corr; auto; discriminate.
Qed.
