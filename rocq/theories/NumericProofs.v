From Verif Require Import PyCommon QFacts NumericModel.
Open Scope nat_scope.

(** ** The variance merge *)
Lemma merge_var_correct l1 l2 v1 v2 m1 m2 :
  0 < length l1 -> 0 < length l2 ->
  (v1 == qvar l1)%Q -> (v2 == qvar l2)%Q -> (m1 == qmean l1)%Q -> (m2 == qmean l2)%Q ->
  exists v, merge_biased_variance (length l1) (Some v1) m1 (length l2) (Some v2) m2 = Some v /\
    (v == qvar (l1 ++ l2))%Q.
Proof.
  intros H1 H2 Ev1 Ev2 Em1 Em2. unfold merge_biased_variance.
  destruct (Nat.ltb_spec (length l1) 1); [lia|]. destruct (Nat.ltb_spec (length l2) 1); [lia|].
  eexists. split; [reflexivity|].
  pose proof (Qn_neq _ H1) as N1. pose proof (Qn_neq _ H2) as N2.
  assert (H12 : 0 < length (l1 ++ l2)) by (rewrite app_length; lia).
  pose proof (Qn_neq _ H12) as N12.
  pose proof (qvar_sums _ H1) as S1. pose proof (qvar_sums _ H2) as S2. pose proof (qvar_sums _ H12) as S12.
  rewrite qsumsq_app, qsum_app in S12.
  rewrite app_length, Qn_plus in S12, N12.
  assert (E : (qvar (l1 ++ l2) ==
     (qsumsq l1 + qsumsq l2 - (qsum l1 + qsum l2) * (qsum l1 + qsum l2) / (Qn (length l1) + Qn (length l2)))
       / (Qn (length l1) + Qn (length l2)))%Q).
  { rewrite <- S12. field. exact N12. }
  rewrite E, Ev1, Ev2, Em1, Em2. unfold qmean.
  assert (E1 : (qvar l1 * Qn (length l1) == qsumsq l1 - qsum l1 * qsum l1 / Qn (length l1))%Q)
    by (rewrite <- S1; ring).
  assert (E2 : (qvar l2 * Qn (length l2) == qsumsq l2 - qsum l2 * qsum l2 / Qn (length l2))%Q)
    by (rewrite <- S2; ring).
  rewrite E1, E2. field. auto.
Qed.

(** ** Histories *)
Inductive hist :=
| NNew (bias : bool)
| NUpd (h : hist) (batch : list (option Q))
| NAdd (h1 h2 : hist).

Fixpoint run (h : hist) : num :=
  match h with
  | NNew b => num_new b
  | NUpd h b => update (run h) b
  | NAdd h1 h2 => add (run h1) (run h2)
  end.

(** The values of the column's type which were given to the profile, and the number of cells. *)
Fixpoint data (h : hist) : list Q :=
  match h with
  | NNew _ => []
  | NUpd h b => data h ++ matched b
  | NAdd h1 h2 => data h1 ++ data h2
  end.
Fixpoint cells (h : hist) : nat :=
  match h with
  | NNew _ => 0
  | NUpd h b => cells h + length b
  | NAdd h1 h2 => cells h1 + cells h2
  end.

(** ** Extrema *)
Definition min_inv (o : option Q) (l : list Q) : Prop :=
  match o with
  | None => l = []
  | Some m => In m l /\ (is_min m l \/ exists z, is_min z l /\ (z == 0)%Q /\ (0 < m)%Q)
  end.
Definition max_inv (o : option Q) (l : list Q) : Prop :=
  match o with
  | None => l = []
  | Some m => In m l /\ (is_max m l \/ exists z, is_max z l /\ (z == 0)%Q /\ (m < 0)%Q)
  end.

Lemma is_min_weaken m z l : In m l -> is_min z l -> (m <= z)%Q -> is_min m l.
Proof. intros Hm [_ Hz] H. split; [exact Hm|]. intros x Hx. specialize (Hz x Hx). lra. Qed.
Lemma is_max_weaken m z l : In m l -> is_max z l -> (z <= m)%Q -> is_max m l.
Proof. intros Hm [_ Hz] H. split; [exact Hm|]. intros x Hx. specialize (Hz x Hx). lra. Qed.

Lemma min_inv_pymin a b l1 l2 : min_inv (Some a) l1 -> min_inv (Some b) l2 ->
  min_inv (Some (pymin a b)) (l1 ++ l2).
Proof.
  intros [I1 H1] [I2 H2].
  assert (Hin : In (pymin a b) (l1 ++ l2)).
  { apply in_or_app. destruct (pymin_cases a b) as [[-> _]|[-> _]]; auto. }
  split; [exact Hin|].
  destruct H1 as [H1|(z1 & H1 & Z1 & P1)], H2 as [H2|(z2 & H2 & Z2 & P2)].
  - left. apply is_min_app; assumption.
  - destruct (Qlt_le_dec 0 a) as [Ha|Ha].
    + right. exists (pymin a z2). split; [apply is_min_app; assumption|].
      destruct (pymin_cases a z2) as [[-> ?]|[-> ?]]; [lra|]. split; [exact Z2|].
      destruct (pymin_cases a b) as [[-> _]|[-> _]]; assumption.
    + left. apply is_min_weaken with (pymin a z2); [exact Hin|apply is_min_app; assumption|].
      destruct (pymin_cases a z2) as [[-> ?]|[-> ?]], (pymin_cases a b) as [[-> ?]|[-> ?]]; lra.
  - destruct (Qlt_le_dec 0 b) as [Hb|Hb].
    + right. exists (pymin z1 b). split; [apply is_min_app; assumption|].
      destruct (pymin_cases z1 b) as [[-> ?]|[-> ?]]; [|lra]. split; [exact Z1|].
      destruct (pymin_cases a b) as [[-> _]|[-> _]]; assumption.
    + left. apply is_min_weaken with (pymin z1 b); [exact Hin|apply is_min_app; assumption|].
      destruct (pymin_cases z1 b) as [[-> ?]|[-> ?]], (pymin_cases a b) as [[-> ?]|[-> ?]]; lra.
  - right. exists (pymin z1 z2). split; [apply is_min_app; assumption|].
    split; [destruct (pymin_cases z1 z2) as [[-> ?]|[-> ?]]; assumption|].
    destruct (pymin_cases a b) as [[-> _]|[-> _]]; assumption.
Qed.

Lemma max_inv_pymax a b l1 l2 : max_inv (Some a) l1 -> max_inv (Some b) l2 ->
  max_inv (Some (pymax a b)) (l1 ++ l2).
Proof.
  intros [I1 H1] [I2 H2].
  assert (Hin : In (pymax a b) (l1 ++ l2)).
  { apply in_or_app. destruct (pymax_cases a b) as [[-> _]|[-> _]]; auto. }
  split; [exact Hin|].
  destruct H1 as [H1|(z1 & H1 & Z1 & P1)], H2 as [H2|(z2 & H2 & Z2 & P2)].
  - left. apply is_max_app; assumption.
  - destruct (Qlt_le_dec a 0) as [Ha|Ha].
    + right. exists (pymax a z2). split; [apply is_max_app; assumption|].
      destruct (pymax_cases a z2) as [[-> ?]|[-> ?]]; [lra|]. split; [exact Z2|].
      destruct (pymax_cases a b) as [[-> _]|[-> _]]; assumption.
    + left. apply is_max_weaken with (pymax a z2); [exact Hin|apply is_max_app; assumption|].
      destruct (pymax_cases a z2) as [[-> ?]|[-> ?]], (pymax_cases a b) as [[-> ?]|[-> ?]]; lra.
  - destruct (Qlt_le_dec b 0) as [Hb|Hb].
    + right. exists (pymax z1 b). split; [apply is_max_app; assumption|].
      destruct (pymax_cases z1 b) as [[-> ?]|[-> ?]]; [|lra]. split; [exact Z1|].
      destruct (pymax_cases a b) as [[-> _]|[-> _]]; assumption.
    + left. apply is_max_weaken with (pymax z1 b); [exact Hin|apply is_max_app; assumption|].
      destruct (pymax_cases z1 b) as [[-> ?]|[-> ?]], (pymax_cases a b) as [[-> ?]|[-> ?]]; lra.
  - right. exists (pymax z1 z2). split; [apply is_max_app; assumption|].
    split; [destruct (pymax_cases z1 z2) as [[-> ?]|[-> ?]]; assumption|].
    destruct (pymax_cases a b) as [[-> _]|[-> _]]; assumption.
Qed.

Lemma get_min_inv o l x b : min_inv o l -> min_inv (Some (get_min o (list_min x b))) (l ++ x :: b).
Proof.
  intro H. pose proof (list_min_is_min b x) as Hb.
  assert (Hb' : min_inv (Some (list_min x b)) (x :: b)) by (split; [apply Hb|left; exact Hb]).
  destruct o as [m|]; cbn [get_min].
  - destruct (Qeq_bool m 0) eqn:E; [|apply min_inv_pymin; assumption].
    apply Qeq_bool_iff in E. destruct H as [Hm [Hmin|(z & _ & _ & Hp)]]; [|lra].
    set (n := list_min x b) in *.
    assert (Hin : In n (l ++ x :: b)) by (apply in_or_app; right; apply Hb).
    split; [exact Hin|].
    pose proof (is_min_app _ _ _ _ Hmin Hb) as Ht.
    destruct (Qlt_le_dec 0 n) as [Hn|Hn].
    + right. exists (pymin m n). split; [exact Ht|]. split; [|exact Hn].
      destruct (pymin_cases m n) as [[-> ?]|[-> ?]]; [exact E|lra].
    + left. apply is_min_weaken with (pymin m n); [exact Hin|exact Ht|].
      destruct (pymin_cases m n) as [[-> ?]|[-> ?]]; lra.
  - cbn in H. subst l. exact Hb'.
Qed.

Lemma get_max_inv o l x b : max_inv o l -> max_inv (Some (get_max o (list_max x b))) (l ++ x :: b).
Proof.
  intro H. pose proof (list_max_is_max b x) as Hb.
  assert (Hb' : max_inv (Some (list_max x b)) (x :: b)) by (split; [apply Hb|left; exact Hb]).
  destruct o as [m|]; cbn [get_max].
  - destruct (Qeq_bool m 0) eqn:E; [|apply max_inv_pymax; assumption].
    apply Qeq_bool_iff in E. destruct H as [Hm [Hmax|(z & _ & _ & Hp)]]; [|lra].
    set (n := list_max x b) in *.
    assert (Hin : In n (l ++ x :: b)) by (apply in_or_app; right; apply Hb).
    split; [exact Hin|].
    pose proof (is_max_app _ _ _ _ Hmax Hb) as Ht.
    destruct (Qlt_le_dec n 0) as [Hn|Hn].
    + right. exists (pymax m n). split; [exact Ht|]. split; [|exact Hn].
      destruct (pymax_cases m n) as [[-> ?]|[-> ?]]; [exact E|lra].
    + left. apply is_max_weaken with (pymax m n); [exact Hin|exact Ht|].
      destruct (pymax_cases m n) as [[-> ?]|[-> ?]]; lra.
  - cbn in H. subst l. exact Hb'.
Qed.

Lemma merge_min_inv a b l1 l2 : min_inv a l1 -> min_inv b l2 -> min_inv (merge_opt pymin a b) (l1 ++ l2).
Proof.
  destruct a as [a|], b as [b|]; cbn [merge_opt]; intros H1 H2.
  - apply min_inv_pymin; assumption.
  - cbn in H2. subst l2. rewrite app_nil_r. exact H1.
  - cbn in H1. subst l1. exact H2.
  - cbn in *. subst. reflexivity.
Qed.
Lemma merge_max_inv a b l1 l2 : max_inv a l1 -> max_inv b l2 -> max_inv (merge_opt pymax a b) (l1 ++ l2).
Proof.
  destruct a as [a|], b as [b|]; cbn [merge_opt]; intros H1 H2.
  - apply max_inv_pymax; assumption.
  - cbn in H2. subst l2. rewrite app_nil_r. exact H1.
  - cbn in H1. subst l1. exact H2.
  - cbn in *. subst. reflexivity.
Qed.

(** ** Invariant of all statistics *)
Definition var_inv (v : option Q) (l : list Q) : Prop :=
  match v with
  | None => l = []
  | Some v => l <> [] /\ (v == qvar l)%Q
  end.

Record good (s : num) (l : list Q) (c : nat) : Prop := {
  g_match : nm_match s = length l;
  g_sample : nm_sample s = c;
  g_le : length l <= c;
  g_sum : (nm_sum s == qsum l)%Q;
  g_min : min_inv (nm_min s) l;
  g_max : max_inv (nm_max s) l;
  g_var : var_inv (nm_var s) l;
  g_zeros : nm_zeros s = length (filter (fun q => Qeq_bool q 0) l);
  g_negs : nm_negs s = length (filter (fun q => negb (Qle_bool 0 q)) l)
}.

Lemma mean_good s l c : good s l c -> l <> [] -> (mean s == qmean l)%Q.
Proof.
  intros H Hl. unfold mean, qmean. rewrite (g_match _ _ _ H).
  destruct l as [|x l]; [congruence|]. cbn [length Nat.eqb]. rewrite (g_sum _ _ _ H). reflexivity.
Qed.

Lemma length_matched b : length (matched b) <= length b.
Proof. unfold matched. induction b as [|[q|] b IH]; cbn [flat_map app length]; lia. Qed.

Lemma len_pos {A} (l : list A) : l <> [] -> 0 < length l.
Proof. destruct l; cbn; [congruence|lia]. Qed.

Lemma good_update s l c b : good s l c -> good (update s b) (l ++ matched b) (c + length b).
Proof.
  intro G. unfold update. destruct b as [|c0 b].
  { cbn. rewrite app_nil_r, Nat.add_0_r. exact G. }
  pose proof (length_matched (c0 :: b)) as Hm.
  pose proof (g_match _ _ _ G) as Gm. pose proof (g_sample _ _ _ G) as Gs. pose proof (g_le _ _ _ G) as Gl.
  destruct (matched (c0 :: b)) as [|x r] eqn:Em.
  - rewrite app_nil_r. constructor; cbn [nm_match nm_sample nm_min nm_max nm_sum nm_var nm_zeros nm_negs];
      try (apply G); cbn [length]; try lia.
  - cbn zeta. unfold update_stats.
    constructor; cbn [nm_match nm_sample nm_min nm_max nm_sum nm_var nm_zeros nm_negs];
      rewrite ?app_length, ?filter_app, ?app_length; try lia.
    + rewrite qsum_app, (g_sum _ _ _ G). reflexivity.
    + apply get_min_inv, G.
    + apply get_max_inv, G.
    + pose proof (g_var _ _ _ G) as Gv. destruct (nm_var s) as [v|]; cbn in Gv.
      * destruct Gv as [Hne Ev].
        destruct (merge_var_correct l (x :: r) v (qvar (x :: r)) (mean s) (qmean (x :: r))
                    (len_pos _ Hne) ltac:(cbn; lia) Ev ltac:(reflexivity) (mean_good _ _ _ G Hne)
                    ltac:(reflexivity)) as (w & Ew & Hw).
        rewrite Gm. fold (qmean (x :: r)). rewrite Ew. cbn. split; [|exact Hw].
        destruct l; discriminate.
      * subst l. cbn [length] in Gm. rewrite Gm. cbn. split; [discriminate|reflexivity].
    + rewrite (g_zeros _ _ _ G). reflexivity.
    + rewrite (g_negs _ _ _ G). reflexivity.
Qed.

Lemma good_add s1 l1 c1 s2 l2 c2 : good s1 l1 c1 -> good s2 l2 c2 ->
  good (add s1 s2) (l1 ++ l2) (c1 + c2).
Proof.
  intros G1 G2.
  pose proof (g_match _ _ _ G1) as Gm1. pose proof (g_sample _ _ _ G1) as Gs1. pose proof (g_le _ _ _ G1) as Gl1.
  pose proof (g_match _ _ _ G2) as Gm2. pose proof (g_sample _ _ _ G2) as Gs2. pose proof (g_le _ _ _ G2) as Gl2.
  unfold add. constructor; cbn [nm_match nm_sample nm_min nm_max nm_sum nm_var nm_zeros nm_negs];
    rewrite ?app_length, ?filter_app, ?app_length; try lia.
  - rewrite qsum_app, (g_sum _ _ _ G1), (g_sum _ _ _ G2). reflexivity.
  - apply merge_min_inv; [apply G1|apply G2].
  - apply merge_max_inv; [apply G1|apply G2].
  - pose proof (g_var _ _ _ G1) as V1. pose proof (g_var _ _ _ G2) as V2.
    rewrite Gm1, Gm2.
    destruct (nm_var s1) as [v1|]; cbn in V1; [destruct V1 as [N1 E1]|subst l1; cbn; exact V2].
    destruct (nm_var s2) as [v2|]; cbn in V2.
    + destruct V2 as [N2 E2].
      destruct (merge_var_correct l1 l2 v1 v2 (mean s1) (mean s2) (len_pos _ N1) (len_pos _ N2) E1 E2
                  (mean_good _ _ _ G1 N1) (mean_good _ _ _ G2 N2)) as (w & Ew & Hw).
      rewrite Ew. split; [destruct l1; [congruence|discriminate]|exact Hw].
    + subst l2. unfold merge_biased_variance. pose proof (len_pos _ N1).
      destruct (Nat.ltb_spec (length l1) 1); [lia|]. cbn. rewrite app_nil_r. auto.
  - rewrite (g_zeros _ _ _ G1), (g_zeros _ _ _ G2). reflexivity.
  - rewrite (g_negs _ _ _ G1), (g_negs _ _ _ G2). reflexivity.
Qed.

Lemma run_good h : good (run h) (data h) (cells h).
Proof.
  induction h as [b|h IH b|h1 IH1 h2 IH2]; cbn [run data cells].
  - constructor; cbn; try reflexivity; lia.
  - apply good_update. exact IH.
  - apply good_add; assumption.
Qed.

(** Bias correction is on iff it is on in all profiles of the tree. *)
Fixpoint all_bias (h : hist) : bool :=
  match h with NNew b => b | NUpd h _ => all_bias h | NAdd h1 h2 => all_bias h1 && all_bias h2 end.
Lemma run_bias h : nm_bias (run h) = all_bias h.
Proof.
  induction h as [b|h IH b|h1 IH1 h2 IH2]; cbn [run all_bias]; [reflexivity| |].
  - unfold update. destruct b as [|c b]; [exact IH|]. destruct (matched (c :: b)); exact IH.
  - unfold add. cbn. rewrite IH1, IH2. destruct (all_bias h1), (all_bias h2); reflexivity.
Qed.

(** ** Precision *)
Inductive phist :=
| PNew
| PUpd (h : phist) (batch : list Q)
| PAdd (h1 h2 : phist).
Fixpoint prun (h : phist) : option prec :=
  match h with
  | PNew => None
  | PUpd h b => update_precision (prun h) b
  | PAdd h1 h2 => add_precision (prun h1) (prun h2)
  end.
Fixpoint pdata (h : phist) : list Q :=
  match h with
  | PNew => []
  | PUpd h b => pdata h ++ b
  | PAdd h1 h2 => pdata h1 ++ pdata h2
  end.
(** Each profile of the tree is updated at most once, before any merge. *)
Fixpoint single_batches (h : phist) : Prop :=
  match h with
  | PNew => True
  | PUpd h _ => h = PNew
  | PAdd h1 h2 => single_batches h1 /\ single_batches h2
  end.

Definition pgood (o : option prec) (l : list Q) : Prop :=
  match o with
  | None => l = []
  | Some p => l <> [] /\ is_min (pr_min p) l /\ is_max (pr_max p) l /\ (pr_sum p == qsum l)%Q /\
              (pr_mean p == qmean l)%Q /\ pr_n p = length l
  end.
Definition pvar_good (o : option prec) (l : list Q) : Prop :=
  match o with
  | None => True
  | Some p => exists v, pr_var p = Some v /\ (v == qvar l)%Q
  end.

Lemma pgood_sub x b : pgood (Some (get_float_precision x b)) (x :: b) /\
  pvar_good (Some (get_float_precision x b)) (x :: b).
Proof.
  split.
  - cbn. split; [discriminate|]. split; [apply list_min_is_min|]. split; [apply list_max_is_max|].
    split; [reflexivity|]. split; [reflexivity|reflexivity].
  - cbn. eexists. split; reflexivity.
Qed.

Lemma app_ne {A} (l1 l2 : list A) : l1 <> [] -> l1 ++ l2 <> [].
Proof. destruct l1; [congruence|discriminate]. Qed.

Lemma pgood_update o l b : pgood o l -> pgood (update_precision o b) (l ++ b).
Proof.
  intro H. destruct b as [|x b]; cbn [update_precision].
  - rewrite app_nil_r. exact H.
  - destruct (pgood_sub x b) as [Hs _]. destruct o as [p|].
    + destruct H as (Hne & Hmin & Hmax & Hsum & Hmean & Hn).
      destruct Hs as (_ & Smin & Smax & Ssum & Smean & Sn).
      cbn [pgood pr_min pr_max pr_sum pr_mean pr_n].
      split; [apply app_ne, Hne|]. split; [apply is_min_app; assumption|].
      split; [apply is_max_app; assumption|].
      split; [rewrite qsum_app, Hsum, Ssum; reflexivity|].
      split; [|rewrite app_length; lia].
      unfold qmean. rewrite qsum_app, Hsum, Ssum, Hn, Sn, app_length. reflexivity.
    + cbn in H. subst l. exact Hs.
Qed.

Lemma pgood_add a b l1 l2 : pgood a l1 -> pgood b l2 -> pgood (add_precision a b) (l1 ++ l2).
Proof.
  intros H1 H2. destruct a as [p|].
  - destruct b as [q|].
    + destruct H1 as (Hne & Hmin & Hmax & Hsum & Hmean & Hn).
      destruct H2 as (_ & Smin & Smax & Ssum & Smean & Sn).
      cbn [add_precision pgood pr_min pr_max pr_sum pr_mean pr_n].
      split; [apply app_ne, Hne|]. split; [apply is_min_app; assumption|].
      split; [apply is_max_app; assumption|].
      split; [rewrite qsum_app, Hsum, Ssum; reflexivity|].
      split; [|rewrite app_length; lia].
      unfold qmean. rewrite qsum_app, Hsum, Ssum, Hn, Sn, app_length. reflexivity.
    + cbn in H2. subst l2. rewrite app_nil_r. exact H1.
  - cbn in H1. subst l1. exact H2.
Qed.

Lemma prun_good h : pgood (prun h) (pdata h).
Proof.
  induction h as [|h IH b|h1 IH1 h2 IH2]; cbn [prun pdata]; [reflexivity| |].
  - apply pgood_update, IH.
  - apply pgood_add; assumption.
Qed.

Lemma pvar_add a b l1 l2 : pgood a l1 -> pgood b l2 -> pvar_good a l1 -> pvar_good b l2 ->
  pvar_good (add_precision a b) (l1 ++ l2).
Proof.
  intros G1 G2 V1 V2. destruct a as [p|].
  - destruct b as [q|].
    + destruct G1 as (N1 & _ & _ & _ & M1 & Hn1), G2 as (N2 & _ & _ & _ & M2 & Hn2).
      destruct V1 as (v1 & E1 & Hv1), V2 as (v2 & E2 & Hv2). cbn. rewrite E1, E2, Hn1, Hn2.
      apply merge_var_correct; try assumption; apply len_pos; assumption.
    + cbn in G2. subst l2. rewrite app_nil_r. exact V1.
  - cbn in G1. subst l1. exact V2.
Qed.

Lemma prun_var h : single_batches h -> pvar_good (prun h) (pdata h).
Proof.
  induction h as [|h IH b|h1 IH1 h2 IH2]; cbn [prun pdata single_batches]; [intros _; exact I| |].
  - intros ->. cbn. destruct b as [|x b]; cbn [update_precision]; [exact I|]. apply pgood_sub.
  - intros [H1 H2]. apply pvar_add; auto using prun_good.
Qed.

(** What the streamed variance is: a first batch [b1] and a second [b2]. *)
Lemma pvar_two b1 b2 : b1 <> [] -> b2 <> [] ->
  exists p, prun (PUpd (PUpd PNew b1) b2) = Some p /\
  exists v, pr_var p = Some v /\
   (v == (qvar b1 * (Qn (length b1) + Qn (length b2)) + qvar b2 * Qn (length b2)
          + (qmean b2 - qmean b1) * (qmean b2 - qmean b1)
            * (Qn (length b1) + Qn (length b2)) * Qn (length b2)
            / (Qn (length b1) + 2 * Qn (length b2)))
         / (Qn (length b1) + 2 * Qn (length b2)))%Q.
Proof.
  intros H1 H2. destruct b1 as [|x1 b1]; [congruence|]. destruct b2 as [|x2 b2]; [congruence|].
  cbn [prun update_precision]. eexists. split; [reflexivity|].
  cbn [pr_var get_float_precision pr_n pr_mean]. unfold merge_biased_variance.
  pose proof (Qn_pos (length (x1 :: b1)) ltac:(cbn; lia)) as P1.
  pose proof (Qn_pos (length (x2 :: b2)) ltac:(cbn; lia)) as P2.
  destruct (Nat.ltb_spec (length (x1 :: b1) + length (x2 :: b2)) 1) as [L|_]; [cbn in L; lia|].
  destruct (Nat.ltb_spec (length (x2 :: b2)) 1) as [L|_]; [cbn in L; lia|].
  eexists. split; [reflexivity|].
  fold (qmean (x1 :: b1)) (qmean (x2 :: b2)). rewrite Qn_plus.
  assert (E : (Qn (length (x1 :: b1)) + Qn (length (x2 :: b2)) + Qn (length (x2 :: b2))
               == Qn (length (x1 :: b1)) + 2 * Qn (length (x2 :: b2)))%Q) by ring.
  rewrite E. reflexivity.
Qed.
