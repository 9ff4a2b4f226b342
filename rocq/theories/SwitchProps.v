(** Properties of numeric columns with statistics switched off, and of merging them. *)
From Verif Require Import PyCommon QFacts NumericModel NumericProofs SwitchModel.
Open Scope nat_scope.

(** ** Vocabulary *)
(** A history in which every new profile has options of its own. *)
Inductive shist :=
| SNew (o : nopts)
| SUpd (h : shist) (batch : list (option Q))
| SAdd (h1 h2 : shist).

Fixpoint srun (h : shist) : result ncol :=
  match h with
  | SNew o => Ok (new o)
  | SUpd h b => bind (srun h) (fun c => update c b)
  | SAdd h1 h2 => bind (srun h1) (fun c1 => bind (srun h2) (fun c2 => Ok (add c1 c2)))
  end.

(** The same history with everything switched on (C08, C09, C10, C57 say what its statistics are). *)
Fixpoint everything (h : shist) : hist :=
  match h with
  | SNew o => NNew (o_bias o)
  | SUpd h b => NUpd (everything h) b
  | SAdd h1 h2 => NAdd (everything h1) (everything h2)
  end.

Fixpoint options (h : shist) : list nopts :=
  match h with
  | SNew o => [o]
  | SUpd h _ => options h
  | SAdd h1 h2 => options h1 ++ options h2
  end.

(** Variance needs the sum (what validation of options demands, C77). *)
Definition valid (h : shist) : Prop := forall o, In o (options h) -> o_on o SVar = true -> o_on o SSum = true.

(** On in all profiles. *)
Definition on (h : shist) (st : stat) : bool := forallb (fun o => o_on o st) (options h).

(** ** Invariant *)
Record rel (f : stat -> bool) (c : ncol) (s : num) : Prop := mkRel {
  r_calcs : n_calcs c = filter f all_stats;
  r_sample : nm_sample (n_num c) = nm_sample s;
  r_match : nm_match (n_num c) = nm_match s;
  r_bias : nm_bias (n_num c) = nm_bias s;
  r_min : nm_min (n_num c) = if f SMin then nm_min s else None;
  r_max : nm_max (n_num c) = if f SMax then nm_max s else None;
  r_sum : nm_sum (n_num c) = if f SSum then nm_sum s else 0%Q;
  r_var : nm_var (n_num c) = if f SVar then nm_var s else None;
  r_zeros : nm_zeros (n_num c) = if f SZeros then nm_zeros s else 0;
  r_negs : nm_negs (n_num c) = if f SNegs then nm_negs s else 0 }.

Lemma rel_mean f c s : rel f c s -> f SSum = true -> mean (n_num c) = mean s.
Proof. intros R H. unfold mean. rewrite (r_match _ _ _ R), (r_sum _ _ _ R), H. reflexivity. Qed.

Lemma calcs_all f s t x l pm : (f SVar = true -> f SSum = true) ->
  (f SSum = true -> pm = mean t) ->
  nm_sample s = nm_sample t -> nm_match s = nm_match t -> nm_bias s = nm_bias t ->
  nm_min s = (if f SMin then nm_min t else None) -> nm_max s = (if f SMax then nm_max t else None) ->
  nm_sum s = (if f SSum then nm_sum t else 0%Q) -> nm_var s = (if f SVar then nm_var t else None) ->
  nm_zeros s = (if f SZeros then nm_zeros t else 0) -> nm_negs s = (if f SNegs then nm_negs t else 0) ->
  exists s' sub, calcs pm x l (filter f all_stats) (s, None) = Ok (s', sub) /\
    let t' := update_stats t x l in
    nm_sample s' = nm_sample t' /\ nm_match s' = nm_match t' /\ nm_bias s' = nm_bias t' /\
    nm_min s' = (if f SMin then nm_min t' else None) /\ nm_max s' = (if f SMax then nm_max t' else None) /\
    nm_sum s' = (if f SSum then nm_sum t' else 0%Q) /\ nm_var s' = (if f SVar then nm_var t' else None) /\
    nm_zeros s' = (if f SZeros then nm_zeros t' else 0) /\ nm_negs s' = (if f SNegs then nm_negs t' else 0).
Proof.
  intros V P E1 E2 E3 E4 E5 E6 E7 E8 E9. unfold all_stats. cbn [filter].
  destruct s as [a1 a2 a3 a4 a5 a6 a7 a8 a9], t as [b1 b2 b3 b4 b5 b6 b7 b8 b9].
  cbn [nm_sample nm_match nm_min nm_max nm_sum nm_var nm_zeros nm_negs nm_bias] in *. subst a1 a2 a9.
  destruct (f SVar) eqn:FV.
  - rewrite (V eq_refl) in *. specialize (P eq_refl). subst pm a6.
    destruct (f SMin), (f SMax), (f SZeros), (f SNegs); subst;
      cbn [calcs calc bind nm_sample nm_match nm_min nm_max nm_sum nm_var nm_zeros nm_negs nm_bias];
      (destruct b6 as [v|]; [|destruct (0 <? b2) eqn:L]); cbn [calcs calc bind];
      do 2 eexists; (split; [reflexivity|]); unfold update_stats;
      cbn [nm_sample nm_match nm_min nm_max nm_sum nm_var nm_zeros nm_negs nm_bias]; rewrite ?L; repeat split; reflexivity.
  - destruct (f SMin), (f SMax), (f SSum), (f SZeros), (f SNegs); subst;
      cbn [calcs calc bind nm_sample nm_match nm_min nm_max nm_sum nm_var nm_zeros nm_negs nm_bias];
      do 2 eexists; (split; [reflexivity|]); unfold update_stats;
      cbn [nm_sample nm_match nm_min nm_max nm_sum nm_var nm_zeros nm_negs nm_bias]; repeat split; reflexivity.
Qed.

Lemma rel_update f c s b : (f SVar = true -> f SSum = true) -> rel f c s ->
  exists c', update c b = Ok c' /\ rel f c' (NumericModel.update s b) /\
    n_top c' = n_top c /\ n_median c' = n_median c /\ n_mode c' = n_mode c /\ n_mad c' = n_mad c /\
    n_quantiles c' = n_quantiles c.
Proof.
  intros V R. unfold update, NumericModel.update. destruct b as [|b0 br]; [exists c; repeat split; apply R|].
  set (b := b0 :: br). destruct (matched b) as [|x l] eqn:M.
  - cbn [bind]. eexists. split; [reflexivity|]. split; [|repeat split; reflexivity].
    destruct R. constructor; cbn [with_num n_calcs n_num nm_sample nm_match nm_min nm_max nm_sum nm_var nm_zeros nm_negs nm_bias];
      congruence.
  - rewrite (r_calcs _ _ _ R).
    destruct (calcs_all f (n_num c) s x l (mean (n_num c)) V (rel_mean f c s R)) as (s' & sub & E & K);
      try (destruct R; assumption).
    rewrite E. cbn [bind fst]. eexists. split; [reflexivity|]. split; [|repeat split; reflexivity].
    destruct K as (K1 & K2 & K3 & K4 & K5 & K6 & K7 & K8 & K9).
    constructor; cbn [with_num n_calcs n_num nm_sample nm_match nm_min nm_max nm_sum nm_var nm_zeros nm_negs nm_bias];
      try congruence. apply R.
Qed.

Lemma has_filter st f l : has st (filter f l) = has st l && f st.
Proof.
  unfold has. induction l as [|x r IH]; [reflexivity|]. cbn [filter existsb].
  destruct (f x) eqn:F; cbn [existsb]; rewrite IH; destruct (stat_eqb st x) eqn:E; cbn [orb andb]; try reflexivity.
  - assert (st = x) by (destruct st, x; try discriminate; reflexivity). subst. rewrite F. reflexivity.
  - assert (st = x) by (destruct st, x; try discriminate; reflexivity). subst. rewrite F. destruct (existsb _ r); reflexivity.
Qed.

Lemma rel_add f1 f2 c1 c2 s1 s2 : (f1 SVar = true -> f1 SSum = true) -> (f2 SVar = true -> f2 SSum = true) ->
  rel f1 c1 s1 -> rel f2 c2 s2 ->
  rel (fun st => f1 st && f2 st) (add c1 c2) (NumericModel.add s1 s2).
Proof.
  intros V1 V2 R1 R2.
  assert (C : merge_calcs all_stats (n_calcs c1) (n_calcs c2) = filter (fun st => f1 st && f2 st) all_stats).
  { unfold merge_calcs. apply filter_ext. intro st. rewrite (r_calcs _ _ _ R1), (r_calcs _ _ _ R2), !has_filter.
    destruct st; reflexivity. }
  assert (H : forall st, has st (merge_calcs all_stats (n_calcs c1) (n_calcs c2)) = f1 st && f2 st).
  { intro st. rewrite C, has_filter. destruct st; reflexivity. }
  constructor; unfold add, NumericModel.add; cbn [blank n_calcs n_num nm_sample nm_match nm_min nm_max nm_sum nm_var nm_zeros nm_negs nm_bias num_new];
    rewrite ?H, ?(r_sample _ _ _ R1), ?(r_sample _ _ _ R2), ?(r_match _ _ _ R1), ?(r_match _ _ _ R2),
      ?(r_bias _ _ _ R1), ?(r_bias _ _ _ R2); try reflexivity.
  - exact C.
  - destruct (f1 SMin) eqn:A, (f2 SMin) eqn:B; cbn [andb]; try reflexivity.
    rewrite (r_min _ _ _ R1), (r_min _ _ _ R2), A, B. reflexivity.
  - destruct (f1 SMax) eqn:A, (f2 SMax) eqn:B; cbn [andb]; try reflexivity.
    rewrite (r_max _ _ _ R1), (r_max _ _ _ R2), A, B. reflexivity.
  - destruct (f1 SSum) eqn:A, (f2 SSum) eqn:B; cbn [andb]; try reflexivity.
    rewrite (r_sum _ _ _ R1), (r_sum _ _ _ R2), A, B. reflexivity.
  - destruct (f1 SVar) eqn:A, (f2 SVar) eqn:B; cbn [andb]; try reflexivity.
    rewrite (rel_mean _ _ _ R1 (V1 eq_refl)), (rel_mean _ _ _ R2 (V2 eq_refl)), (r_var _ _ _ R1), (r_var _ _ _ R2), A, B.
    reflexivity.
  - destruct (f1 SZeros) eqn:A, (f2 SZeros) eqn:B; cbn [andb]; try reflexivity.
    rewrite (r_zeros _ _ _ R1), (r_zeros _ _ _ R2), A, B. reflexivity.
  - destruct (f1 SNegs) eqn:A, (f2 SNegs) eqn:B; cbn [andb]; try reflexivity.
    rewrite (r_negs _ _ _ R1), (r_negs _ _ _ R2), A, B. reflexivity.
Qed.

Lemma rel_ext f g c s : (forall st, f st = g st) -> rel f c s -> rel g c s.
Proof.
  intros E R. destruct R as [C ? ? ? ? ? ? ? ? ?]. constructor; rewrite <- ?E; try assumption.
  rewrite C. apply filter_ext. exact E.
Qed.

Lemma valid_on h : valid h -> on h SVar = true -> on h SSum = true.
Proof.
  unfold valid, on. intros V H. rewrite forallb_forall in *. intros o Ho. apply V; [exact Ho|]. apply H. exact Ho.
Qed.

Lemma srun_rel h : valid h -> exists c, srun h = Ok c /\ rel (on h) c (run (everything h)).
Proof.
  induction h as [o|h IH b|h1 IH1 h2 IH2]; intro V.
  - eexists. split; [reflexivity|]. cbn [everything run].
    assert (E : forall st, on (SNew o) st = o_on o st) by (intro st; unfold on; cbn; rewrite andb_true_r; reflexivity).
    constructor; cbn [new n_calcs n_num num_new nm_sample nm_match nm_min nm_max nm_sum nm_var nm_zeros nm_negs nm_bias];
      try reflexivity; try (destruct (on _ _); reflexivity).
    unfold filter_calcs. apply filter_ext. intro st. rewrite E. reflexivity.
  - destruct (IH V) as (c & E & R). destruct (rel_update (on h) c _ b (valid_on h V) R) as (c' & E' & R' & _).
    exists c'. cbn [srun everything run]. rewrite E. cbn [bind]. split; [exact E'|exact R'].
  - assert (V1 : valid h1) by (intros o Ho; apply V; cbn; apply in_or_app; auto).
    assert (V2 : valid h2) by (intros o Ho; apply V; cbn; apply in_or_app; auto).
    destruct (IH1 V1) as (c1 & E1 & R1), (IH2 V2) as (c2 & E2 & R2).
    exists (add c1 c2). cbn [srun everything run]. rewrite E1, E2. cbn [bind]. split; [reflexivity|].
    eapply rel_ext; [|exact (rel_add _ _ _ _ _ _ (valid_on h1 V1) (valid_on h2 V2) R1 R2)].
    intro st. unfold on. cbn [options]. rewrite forallb_app. reflexivity.
Qed.

(** ** C93 *)
(** A statistic that is on in all profiles of a history is the same as if everything were on - of all
    data -, one that is off in some of them is as in a new profile. *)
Theorem C93_statistics : forall h, valid h -> exists c, srun h = Ok c /\
  let s := n_num c in
  let t := run (everything h) in
  nm_sample s = nm_sample t /\ nm_match s = nm_match t /\
  nm_min s = (if on h SMin then nm_min t else None) /\
  nm_max s = (if on h SMax then nm_max t else None) /\
  nm_sum s = (if on h SSum then nm_sum t else 0%Q) /\
  variance s = (if on h SVar then variance t else None) /\
  nm_zeros s = (if on h SZeros then nm_zeros t else 0) /\
  nm_negs s = (if on h SNegs then nm_negs t else 0).
Proof.
  intros h V. destruct (srun_rel h V) as (c & E & R). exists c. split; [exact E|]. cbv zeta.
  destruct R as [R1 R2 R3 R4 R5 R6 R7 R8 R9 R10]. repeat split; try assumption.
  unfold variance. rewrite R4, R3, R8. destruct (on h SVar); [reflexivity|].
  destruct (nm_bias (run (everything h))); cbn [negb]; [|reflexivity].
  unfold correct_bias_variance. destruct (_ <? 2); reflexivity.
Qed.
Print Assumptions C93_statistics.

(** What is computed further on is exactly what is on in all profiles. *)
Theorem C93_calculations : forall h c st, valid h -> srun h = Ok c ->
  (In st (n_calcs c) <-> forall o, In o (options h) -> o_on o st = true).
Proof.
  intros h c st V E. destruct (srun_rel h V) as (c' & E' & R). rewrite E in E'. injection E' as <-.
  rewrite (r_calcs _ _ _ R), filter_In. unfold on. rewrite forallb_forall.
  split; [tauto|]. intro H. split; [|exact H]. destruct st; cbn; tauto.
Qed.
Print Assumptions C93_calculations.

(** Options for what is read from the histogram: switched on after a merge if on in both, the larger
    number of modes, and correction of bias only if both have it. *)
Lemma srun_settings h : forall c, valid h -> srun h = Ok c ->
  nm_bias (n_num c) = forallb o_bias (options h) /\ n_median c = forallb o_median (options h) /\
  n_mode c = forallb o_mode (options h) /\ n_mad c = forallb o_mad (options h) /\
  n_top c = fold_right Nat.max 0 (map o_top (options h)).
Proof.
  induction h as [o|h IH b|h1 IH1 h2 IH2]; intros c V E.
  - cbn in E. injection E as <-. cbn. rewrite !andb_true_r, Nat.max_0_r. repeat split; reflexivity.
  - cbn [srun] in E. destruct (srun_rel h V) as (c0 & E0 & R0). rewrite E0 in E. cbn [bind] in E.
    destruct (rel_update (on h) c0 _ b (valid_on h V) R0) as (c' & E' & R' & A1 & A2 & A3 & A4 & _).
    rewrite E' in E. injection E as <-. destruct (IH c0 V E0) as (B0 & B1 & B2 & B3 & B4). cbn [options].
    repeat split; try congruence. rewrite (r_bias _ _ _ R').
    assert (K : nm_bias (NumericModel.update (run (everything h)) b) = nm_bias (run (everything h))).
    { unfold NumericModel.update. destruct b as [|b0 br]; [reflexivity|].
      destruct (matched (b0 :: br)); reflexivity. }
    rewrite K, <- (r_bias _ _ _ R0). exact B0.
  - assert (V1 : valid h1) by (intros o Ho; apply V; cbn; apply in_or_app; auto).
    assert (V2 : valid h2) by (intros o Ho; apply V; cbn; apply in_or_app; auto).
    cbn [srun] in E. destruct (srun_rel h1 V1) as (c1 & E1 & _), (srun_rel h2 V2) as (c2 & E2 & _).
    rewrite E1, E2 in E. cbn [bind] in E. injection E as <-.
    destruct (IH1 c1 V1 E1) as (A0 & A1 & A2 & A3 & A4), (IH2 c2 V2 E2) as (B0 & B1 & B2 & B3 & B4).
    cbn [options add n_num n_median n_mode n_mad n_top nm_bias]. rewrite !forallb_app, map_app, fold_right_app.
    rewrite A0, A1, A2, A3, A4, B0, B1, B2, B3, B4. repeat split.
    + destruct (forallb o_bias (options h1)), (forallb o_bias (options h2)); reflexivity.
    + clear. induction (map o_top (options h1)) as [|x r IH]; cbn [fold_right]; [lia|]. rewrite <- IH. lia.
Qed.

Theorem C93_settings : forall h c, valid h -> srun h = Ok c ->
  (nm_bias (n_num c) = true <-> forall o, In o (options h) -> o_bias o = true) /\
  (n_median c = true <-> forall o, In o (options h) -> o_median o = true) /\
  (n_mode c = true <-> forall o, In o (options h) -> o_mode o = true) /\
  (n_mad c = true <-> forall o, In o (options h) -> o_mad o = true) /\
  (forall o, In o (options h) -> o_top o <= n_top c) /\ (exists o, In o (options h) /\ n_top c = o_top o).
Proof.
  intros h c V E. destruct (srun_settings h c V E) as (B0 & B1 & B2 & B3 & B4).
  rewrite B0, B1, B2, B3, B4, !forallb_forall. repeat (split; [tauto|]). 
  assert (N : options h <> []).
  { clear. induction h as [o|h IH b|h1 IH1 h2 IH2]; cbn; [discriminate|exact IH|].
    destruct (options h1); [contradiction|discriminate]. }
  revert N. generalize (options h). intros l N. split.
  - intros o Ho. induction l as [|x r IH]; [destruct Ho|]. cbn [map fold_right].
    destruct Ho as [->|Ho]; [lia|]. destruct r as [|y r']; [destruct Ho|].
    specialize (IH ltac:(discriminate) Ho). lia.
  - induction l as [|x r IH]; [congruence|]. cbn [map fold_right]. destruct r as [|y r'].
    + exists x. cbn. split; [auto|lia].
    + destruct IH as (o & Ho & Eo); [discriminate|]. rewrite Eo.
      destruct (Nat.max_spec (o_top x) (o_top o)) as [[_ ->]|[_ ->]].
      * exists o. split; [right; exact Ho|reflexivity].
      * exists x. split; [left; reflexivity|reflexivity].
Qed.
Print Assumptions C93_settings.

(** The number of quantiles set by the user is kept by updates, and after every merge it is 1000. *)
Theorem C93_quantiles : forall h c, valid h -> srun h = Ok c ->
  n_quantiles c = (fix q (h : shist) := match h with SNew o => o_quantiles o | SUpd h _ => q h | SAdd _ _ => 1000 end) h.
Proof.
  induction h as [o|h IH b|h1 IH1 h2 IH2]; intros c V E.
  - cbn in E. injection E as <-. reflexivity.
  - cbn [srun] in E. destruct (srun_rel h V) as (c0 & E0 & R0). rewrite E0 in E. cbn [bind] in E.
    destruct (rel_update (on h) c0 _ b (valid_on h V) R0) as (c' & E' & _ & _ & _ & _ & _ & A).
    rewrite E' in E. injection E as <-. rewrite A. apply IH; assumption.
  - cbn [srun] in E. destruct (srun h1) as [c1|]; [|discriminate]. destruct (srun h2) as [c2|]; [|discriminate].
    cbn [bind] in E. injection E as <-. reflexivity.
Qed.
Print Assumptions C93_quantiles.

(** Merging is symmetric in what is computed further on and in the settings. *)
Theorem C93_symmetric : forall a b,
  n_calcs (add a b) = n_calcs (add b a) /\ nm_bias (n_num (add a b)) = nm_bias (n_num (add b a)) /\
  n_median (add a b) = n_median (add b a) /\ n_mode (add a b) = n_mode (add b a) /\
  n_mad (add a b) = n_mad (add b a) /\ n_top (add a b) = n_top (add b a).
Proof.
  intros a b. cbn [add n_calcs n_num nm_bias n_median n_mode n_mad n_top]. repeat split.
  - unfold merge_calcs. apply filter_ext. intro st. apply andb_comm.
  - rewrite orb_comm. reflexivity.
  - apply andb_comm.
  - apply andb_comm.
  - apply andb_comm.
  - apply Nat.max_comm.
Qed.
Print Assumptions C93_symmetric.

(** ** Refuted expectations *)
Definition opts_of (on : stat -> bool) (q : nat) : nopts := mkNopts on true 5 true true true q.
Definition all_on : stat -> bool := fun _ => true.
Definition no_sum : stat -> bool := fun st => match st with SSum | SVar => false | _ => true end.

(** With the sum switched off the mean that is shown is 0. *)
Theorem C93_mean_refuted : ~ forall h c, valid h -> srun h = Ok c -> data (everything h) <> [] ->
  (mean (n_num c) == qmean (data (everything h)))%Q.
Proof.
  intro H. pose (h := SUpd (SNew (opts_of no_sum 1000)) [Some (2 # 1)%Q]).
  assert (V : valid h) by (intros o [<-|[]] X; discriminate X).
  destruct (srun h) as [c|] eqn:E; [|vm_compute in E; discriminate E].
  specialize (H h c V E ltac:(discriminate)). vm_compute in E. injection E as <-. vm_compute in H. discriminate H.
Qed.

(** The number of quantiles is lost when two profiles with the same number are merged. *)
Theorem C93_quantiles_refuted : ~ forall h c q, valid h -> srun h = Ok c ->
  (forall o, In o (options h) -> o_quantiles o = q) -> n_quantiles c = q.
Proof.
  intro H. pose (o := opts_of all_on 4).
  specialize (H (SAdd (SNew o) (SNew o)) (add (new o) (new o)) 4).
  assert (V : valid (SAdd (SNew o) (SNew o))) by (intros x Hx _; cbn in Hx; destruct Hx as [<-|[<-|[]]]; reflexivity).
  specialize (H V eq_refl). vm_compute in H.
  assert (F : 1000 = 4); [|discriminate F]. apply H. intros x [<-|[<-|[]]]; reflexivity.
Qed.

(** Options that validation refuses: the variance without the sum is an error with the first value. *)
Theorem C93_needs_sum : forall o q b, o_on o SVar = true -> o_on o SSum = false ->
  update (new o) (Some q :: b) = Err KeyError.
Proof.
  intros o q b HV HS. unfold update, new. cbn [n_num n_calcs matched flat_map app].
  unfold filter_calcs, all_stats. cbn [filter]. rewrite HV, HS.
  destruct (o_on o SMin), (o_on o SMax); cbn [calcs calc bind num_new nm_var nm_match Nat.ltb Nat.leb]; reflexivity.
Qed.
Print Assumptions C93_needs_sum.

(** Minimum off in one profile, zeros in the other: the merged profile has sum, mean and variance of
    all three values. *)
Example C93_example :
  let o1 := opts_of (fun st => match st with SMin => false | _ => true end) 1000 in
  let o2 := opts_of (fun st => match st with SZeros => false | _ => true end) 1000 in
  let h := SAdd (SUpd (SNew o1) [Some 0; Some (3 # 1)]%Q) (SUpd (SNew o2) [Some (6 # 1); None]%Q) in
  valid h /\ exists c, srun h = Ok c /\ nm_min (n_num c) = None /\ nm_zeros (n_num c) = 0 /\
    nm_max (n_num c) = Some (6 # 1)%Q /\ (mean (n_num c) == 3)%Q /\ nm_match (n_num c) = 3 /\ nm_sample (n_num c) = 4 /\
    (exists v, variance (n_num c) = Some v /\ v == 9)%Q /\ n_calcs c = [SMax; SSum; SVar; SNegs].
Proof.
  cbv zeta. split.
  - intros o Ho _. cbn [options app] in Ho. destruct Ho as [<-|[<-|[]]]; reflexivity.
  - match goal with |- exists c, srun ?h = Ok c /\ _ => remember (srun h) as r eqn:E end.
    vm_compute in E. subst r. eexists. split; [reflexivity|]. cbn [n_num nm_min nm_zeros nm_max nm_match nm_sample n_calcs].
    repeat (split; [vm_compute; reflexivity|]). split; [|reflexivity].
    eexists. split; [vm_compute; reflexivity|]. vm_compute. reflexivity.
Qed.
