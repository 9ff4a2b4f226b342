(** Lemmas about the histogram of the report. *)
From Coq Require Import QArith Qround.
From Verif Require Import PyCommon QFacts ListFacts HistModel HistProofs PyDict PyString RepHistModel.
Open Scope list_scope.
Local Open Scope nat_scope.

Lemma seqb_eq (a b : string) : PyDict.eqb a b = true -> a = b.
Proof. apply PyDict.eqb_eq. Qed.
Lemma seqb_neq (a b : string) : PyDict.eqb a b = false -> a <> b.
Proof. apply PyDict.eqb_neq. Qed.

(** ** Losses *)
Lemma sqr_nonneg q : (0 <= sqr q)%Q.
Proof. unfold sqr. nra. Qed.

Lemma inject_nonneg z : (0 <= z)%Z -> (0 <= inject_Z z)%Q.
Proof. intro H. change 0%Q with (inject_Z 0). apply inject_Z_le. exact H. Qed.

Lemma bin_loss_ok dedges num new c b0 b1 :
  length dedges = num + 1 -> new < num -> (0 <= c)%Z ->
  exists l, bin_loss dedges num new c b0 b1 = Ok l /\ (0 <= l)%Q.
Proof.
  intros He Hn Hc. unfold bin_loss.
  destruct (Z.eqb_spec c 0) as [->|Hc0]; [exists 0%Q; split; [reflexivity|lra]|].
  destruct (advance_ok dedges num b0 num new He Hn ltac:(lia)) as (n1 & -> & Hr & Hstop & _).
  cbn [bind].
  destruct (nth_error dedges n1) as [e0|] eqn:Ee0; [|apply nth_error_None in Ee0; lia].
  destruct (nth_error dedges (n1 + 1)) as [e1|] eqn:Ee1; [|apply nth_error_None in Ee1; lia].
  pose proof (inject_nonneg c Hc) as HcQ.
  destruct (negb (Qle_bool e1 b1) || (n1 =? num - 1)) eqn:Ein.
  - eexists. split; [reflexivity|]. apply Qmult_le_0_compat; [apply sqr_nonneg|exact HcQ].
  - apply orb_false_elim in Ein. destruct Ein as [Hge Hnl].
    apply negb_false_iff, Qle_bool_iff in Hge. apply Nat.eqb_neq in Hnl.
    destruct Hstop as [?|(e' & E' & L)]; [lia|].
    assert (e' = e1) by congruence. subst e'.
    assert (Hlt : Qle_bool e1 b0 = false) by (apply Qle_bool_false; exact L). rewrite Hlt. cbn [negb].
    destruct (nth_error dedges (n1 + 2)) as [e2|] eqn:Ee2; [|apply nth_error_None in Ee2; lia].
    assert (Hp : (0 < (e1 - b0) / (b1 - b0) <= 1)%Q).
    { split; [apply Qlt_shift_div_l|apply Qle_shift_div_r]; lra. }
    assert (Hrr : (0 <= round_half_even (inject_Z c * ((e1 - b0) / (b1 - b0))) <= c)%Z)
      by (apply round_range; nra).
    eexists. split; [reflexivity|].
    assert (A := Qmult_le_0_compat _ _ (sqr_nonneg ((e1 + e0 - (b1 + b0)) / 2))
                   (inject_nonneg _ (proj1 Hrr))).
    assert (B := Qmult_le_0_compat _ _ (sqr_nonneg ((e2 + e1 - (b1 + b0)) / 2))
                   (inject_nonneg (c - round_half_even (inject_Z c * ((e1 - b0) / (b1 - b0)))) ltac:(lia))).
    lra.
Qed.

Lemma assimilate_loss_ok dedges num : forall fcounts fedges new d,
  length dedges = num + 1 -> length d = num -> new < num ->
  length fedges = length fcounts + 1 -> Forall (Z.le 0) fcounts ->
  exists l, assimilate_loss dedges num new d fcounts fedges = Ok l /\ (0 <= l)%Q.
Proof.
  induction fcounts as [|c cs IH]; intros fedges new d He Hd Hn Hf Hc; cbn [assimilate_loss].
  - exists 0%Q. split; [reflexivity|lra].
  - inversion Hc as [|? ? Hc0 Hcs]; subst. cbn [length] in Hf.
    destruct fedges as [|b0 [|b1 rest]]; cbn [length] in Hf; try lia.
    destruct (assimilate_bin_ok dedges (length d) new d c b0 b1 He eq_refl Hn Hc0) as (n' & d1 & -> & P).
    cbn [bind fst snd].
    destruct (bin_loss_ok dedges (length d) new c b0 b1 He Hn Hc0) as (l1 & -> & L1). cbn [bind].
    rewrite <- (pl_len _ _ _ _ _ _ _ _ _ P) in He.
    destruct (IH (b1 :: rest) n' d1) as (l2 & E2 & L2).
    + rewrite (pl_len _ _ _ _ _ _ _ _ _ P) in *. assumption.
    + apply P.
    + apply P.
    + cbn [length]. lia.
    + assumption.
    + rewrite E2. cbn [bind]. eexists. split; [reflexivity|lra].
Qed.

Lemma regenerate_loss_ok lo hi nb fl h : 0 < nb -> wf_hist h ->
  exists l, regenerate_loss lo hi nb fl h = Ok l /\ (0 <= l)%Q.
Proof.
  intros Hb [He Hc]. unfold regenerate_loss. apply assimilate_loss_ok; try assumption.
  - apply linspace_length.
  - apply repeat_length.
  - destruct fl; rewrite ?map_length; exact He.
Qed.

Lemma bin_error_nonneg h l : (0 <= bin_error h l)%Q.
Proof.
  unfold bin_error. induction l as [|v l IH]; cbn [fold_right]; [lra|].
  pose proof (sqr_nonneg (v - bin_mid (h_edges h) v)). lra.
Qed.

(** ** The choice *)
Definition better (best : option Q) (q : Q) : bool :=
  match best with None => true | Some b => Qeq_bool b 0 || negb (Qle_bool b q) end.

(** The selection and its loss after going through methods with given losses. *)
Fixpoint pick (l : list (string * Q)) (best : option (string * Q)) : option (string * Q) :=
  match l with
  | [] => best
  | mq :: r => if better (option_map snd best) (snd mq) then pick r (Some mq) else pick r best
  end.

Lemma pick_app a b best : pick (a ++ b) best = pick b (pick a best).
Proof. revert best. induction a as [|x a IH]; intro best; cbn; [reflexivity|]. destruct (better _ _); apply IH. Qed.

Lemma pick_In : forall l best x, pick l best = Some x -> In x l \/ best = Some x.
Proof.
  induction l as [|y l IH]; intros best x H; cbn [pick] in H; [right; exact H|].
  destruct (better _ _).
  - destruct (IH _ _ H) as [I|E]; [left; right; exact I|left; left; congruence].
  - destruct (IH _ _ H) as [I|E]; [left; right; exact I|right; exact E].
Qed.

Lemma pick_some : forall l best, (l <> [] \/ best <> None) -> pick l best <> None.
Proof.
  induction l as [|y l IH]; intros best H; cbn [pick]; [destruct H; congruence|].
  destruct (better (option_map snd best) (snd y)) eqn:E; apply IH; right; [discriminate|].
  intro; subst. discriminate.
Qed.

(** The loss chosen last is zero exactly if the last loss is. *)
Lemma pick_last l m q : (forall x, In x l -> (0 <= snd x)%Q) -> (0 <= q)%Q ->
  exists x, pick (l ++ [(m, q)]) None = Some x /\ ((snd x == 0)%Q <-> (q == 0)%Q).
Proof.
  intros Hl Hq. rewrite pick_app. cbn [pick snd].
  destruct (pick l None) as [[m' b]|] eqn:E; cbn [better option_map snd].
  - assert (Hb : (0 <= b)%Q).
    { destruct (pick_In _ _ _ E) as [I|?]; [apply (Hl _ I)|discriminate]. }
    destruct (Qeq_bool b 0) eqn:Eb; cbn [orb].
    + exists (m, q). split; [reflexivity|]. cbn. tauto.
    + destruct (Qle_bool b q) eqn:Ebq; cbn [negb].
      * exists (m', b). split; [reflexivity|]. cbn [snd].
        apply Qle_bool_iff in Ebq. apply Qeq_bool_neq in Eb. split; intro H; [tauto|exfalso; lra].
      * exists (m, q). split; [reflexivity|]. cbn. tauto.
  - exists (m, q). split; [reflexivity|]. cbn. tauto.
Qed.

(** With positive losses the first of the smallest ones is taken. *)
Lemma pick_positive : forall l b, (forall x, In x (b :: l) -> (0 < snd x)%Q) ->
  exists l1 x l2, pick l (Some b) = Some x /\ b :: l = l1 ++ x :: l2 /\
    (forall y, In y l1 -> (snd x < snd y)%Q) /\ (forall y, In y l2 -> (snd x <= snd y)%Q).
Proof.
  induction l as [|y l IH]; intros b H; cbn [pick].
  - exists [], b, []. cbn. repeat split; tauto.
  - cbn [better option_map].
    assert (E0 : Qeq_bool (snd b) 0 = false).
    { apply Qeq_bool_false. pose proof (H b (or_introl eq_refl)). lra. }
    rewrite E0. cbn [orb]. destruct (Qle_bool (snd b) (snd y)) eqn:E; cbn [negb].
    + apply Qle_bool_iff in E.
      destruct (IH b) as (l1 & x & l2 & P & S & B & A).
      { intros z [<-|I]; apply H; [left; reflexivity|right; right; exact I]. }
      destruct l1 as [|b' l1]; cbn [app] in S; injection S as Sb Sl; subst.
      * exists [], x, (y :: l2). split; [exact P|]. split; [reflexivity|]. split; [intros ? []|].
        intros z [<-|I]; [exact E|apply A, I].
      * exists (b' :: y :: l1), x, l2. split; [exact P|]. split; [reflexivity|]. split; [|exact A].
        intros z [<-|[<-|I]]; [apply B; left; reflexivity| |apply B; right; exact I].
        pose proof (B b' (or_introl eq_refl)). lra.
    + apply Qle_bool_false in E.
      destruct (IH y) as (l1 & x & l2 & P & S & B & A).
      { intros z [<-|I]; apply H; right; [left; reflexivity|right; exact I]. }
      exists (b :: l1), x, l2. split; [exact P|]. split; [cbn; f_equal; exact S|]. split; [|exact A].
      intros z [<-|I]; [|apply B, I].
      destruct l1 as [|y' l1]; cbn [app] in S; injection S as Sy Sl; subst.
      * exact E.
      * pose proof (B y' (or_introl eq_refl)). lra.
Qed.

(** ** The loop *)
(** What a method's entry becomes. *)
Definition entry_after (c : col) (m : string) (me : meth) : meth :=
  match histogram_for_profile c m with
  | Ok (s, l) => mkMeth (m_total me + l)%Q l (m_suggested me) s
  | Err _ => me
  end.
Definition loss_of (c : col) (m : string) : Q :=
  match histogram_for_profile c m with Ok (_, l) => l | Err _ => 0%Q end.

Lemma hfp_with c ms sel m : dget ms m = dget (c_methods c) m ->
  histogram_for_profile (with_methods c ms sel) m = histogram_for_profile c m.
Proof. intro H. unfold histogram_for_profile. cbn. rewrite H. reflexivity. Qed.

Lemma best_loop_spec : forall names c best, NoDup names ->
  (forall m, In m names -> exists s l, histogram_for_profile c m = Ok (s, l)) ->
  (match best with Some mq => c_selection c = Some (fst mq) | None => c_selection c = None end) ->
  exists ms,
    best_loop names c (option_map snd best) =
      Ok (with_methods c ms (option_map fst (pick (map (fun m => (m, loss_of c m)) names) best))) /\
    dkeys ms = dkeys (c_methods c) /\
    forall x, dget ms x = match dget (c_methods c) x with
                          | None => None
                          | Some me => Some (if lmem names x then entry_after c x me else me)
                          end.
Proof.
  induction names as [|m names IH]; intros c best Hnd Hok Hsel; cbn [best_loop map pick].
  - exists (c_methods c). split; [|split; [reflexivity|]].
    + destruct c; destruct best; cbn in *; rewrite Hsel; reflexivity.
    + intro x. destruct (dget (c_methods c) x); reflexivity.
  - inversion Hnd as [|? ? Hni Hnd']; subst.
    destruct (Hok m (or_introl eq_refl)) as (s & l & E). rewrite E. cbn [bind fst snd].
    destruct (dget (c_methods c) m) as [me|] eqn:Em.
    2:{ unfold histogram_for_profile in E. rewrite Em in E. discriminate. }
    change (match option_map snd best with
            | Some b => (Qeq_bool b 0 || negb (Qle_bool b l))%bool
            | None => true end) with (better (option_map snd best) l).
    assert (El : loss_of c m = l) by (unfold loss_of; rewrite E; reflexivity).
    rewrite El.
    set (bt := better (option_map snd best) l).
    set (c1 := with_methods c (dset (c_methods c) m (mkMeth (m_total me + l)%Q l (m_suggested me) s))
                 (if bt then Some m else c_selection c)).
    set (best1 := if bt then Some (m, l) else best).
    assert (Hget : forall x, x <> m -> dget (c_methods c1) x = dget (c_methods c) x).
    { intros x Hx. unfold c1. cbn [with_methods c_methods]. rewrite dget_dset.
      destruct (PyDict.eqb m x) eqn:Ex; [apply seqb_eq in Ex; congruence|reflexivity]. }
    assert (Hh : forall x, In x names -> histogram_for_profile c1 x = histogram_for_profile c x).
    { intros x Hx. apply hfp_with. apply Hget. intro; subst. contradiction. }
    destruct (IH c1 best1 Hnd') as (ms & Eloop & Ekeys & Eget).
    { intros x Hx. rewrite Hh by exact Hx. apply Hok. right. exact Hx. }
    { unfold best1, c1. destruct bt; cbn; [reflexivity|exact Hsel]. }
    exists ms. split; [|split].
    + replace (if bt then Some l else option_map snd best) with (option_map snd best1)
        by (unfold best1; destruct bt; reflexivity).
      rewrite Eloop. f_equal.
      replace (map (fun m0 => (m0, loss_of c1 m0)) names) with (map (fun m0 => (m0, loss_of c m0)) names).
      2:{ apply map_ext_in. intros x Hx. unfold loss_of. rewrite Hh by exact Hx. reflexivity. }
      cbn [snd]. fold bt. unfold best1. destruct bt; reflexivity.
    + rewrite Ekeys. unfold c1. cbn [with_methods c_methods]. rewrite dkeys_dset.
      replace (dmem (c_methods c) m) with true; [reflexivity|]. unfold dmem. rewrite Em. reflexivity.
    + intro x. rewrite Eget. unfold lmem. cbn [existsb]. fold (lmem names x).
      destruct (PyDict.eqb x m) eqn:Ex; cbn [orb].
      * apply seqb_eq in Ex. subst x.
        assert (lmem names m = false) as -> by (apply lmem_false; exact Hni).
        unfold c1. cbn [with_methods c_methods]. rewrite dget_dset, PyDict.eqb_refl, Em. unfold entry_after. rewrite E. reflexivity.
      * apply seqb_neq in Ex. rewrite Hget by exact Ex.
        destruct (dget (c_methods c) x) as [mx|]; [|reflexivity].
        destruct (lmem names x) eqn:El'; [|reflexivity].
        unfold entry_after. rewrite Hh; [reflexivity|]. apply lmem_In. exact El'.
Qed.

(** ** Preparing the methods of an update *)
Definition prepared (sugg : string -> nat) (h : option hist) (x : string) (me : meth) : meth :=
  mkMeth (m_total me) (m_current me) (Some (sugg x)) (write_slot (m_slot me) h).

Lemma prepare_spec sugg h : forall names ms, (forall x, In x names -> In x (dkeys ms)) ->
  snd (prepare sugg h names ms) = true /\ dkeys (fst (prepare sugg h names ms)) = dkeys ms /\
  forall x, dget (fst (prepare sugg h names ms)) x =
    match dget ms x with
    | None => None
    | Some me => Some (if lmem names x then prepared sugg h x me else me)
    end.
Proof.
  induction names as [|y names IH]; intros ms Hin; cbn [prepare].
  - cbn. split; [reflexivity|]. split; [reflexivity|]. intro x. destruct (dget ms x); reflexivity.
  - destruct (dget ms y) as [me|] eqn:E.
    2:{ apply dget_None in E. exfalso. apply E, Hin. left. reflexivity. }
    change (mkMeth (m_total me) (m_current me) (Some (sugg y)) (write_slot (m_slot me) h))
      with (prepared sugg h y me).
    set (ms1 := dset ms y (prepared sugg h y me)).
    assert (K : dkeys ms1 = dkeys ms).
    { unfold ms1. rewrite dkeys_dset.
      replace (dmem ms y) with true; [reflexivity|]. unfold dmem. rewrite E. reflexivity. }
    destruct (IH ms1) as (S & Ks & G).
    { intros x Hx. rewrite K. apply Hin. right. exact Hx. }
    split; [exact S|]. split; [rewrite Ks; exact K|].
    intro x. rewrite G. unfold ms1. rewrite dget_dset. unfold lmem. cbn [existsb]. fold (lmem names x).
    destruct (PyDict.eqb y x) eqn:Ex.
    + apply seqb_eq in Ex. subst x. rewrite PyDict.eqb_refl. cbn [orb]. rewrite E.
      destruct (lmem names y); [|reflexivity]. unfold prepared. cbn. destruct (m_slot me); reflexivity.
    + replace (PyDict.eqb x y) with false; [reflexivity|].
      symmetry. apply PyDict.eqb_neq. apply seqb_neq in Ex. congruence.
Qed.

Lemma prepare_keys sugg h : forall names ms, dkeys (fst (prepare sugg h names ms)) = dkeys ms.
Proof.
  induction names as [|y names IH]; intro ms; cbn [prepare]; [reflexivity|].
  destruct (dget ms y) as [me|] eqn:E; [|reflexivity].
  rewrite IH, dkeys_dset. replace (dmem ms y) with true; [reflexivity|]. unfold dmem. rewrite E. reflexivity.
Qed.

Lemma prepare_fails sugg h : forall names ms x, In x names -> ~ In x (dkeys ms) ->
  snd (prepare sugg h names ms) = false.
Proof.
  induction names as [|y names IH]; intros ms x Hx Hn; cbn [prepare]; [destruct Hx|].
  destruct (dget ms y) as [me|] eqn:E; [|reflexivity].
  destruct Hx as [<-|Hx].
  - exfalso. apply Hn. destruct (in_dec String.string_dec y (dkeys ms)) as [I|N]; [exact I|].
    apply dget_None in N. congruence.
  - apply (IH _ x Hx). rewrite dkeys_dset.
    replace (dmem ms y) with true by (unfold dmem; rewrite E; reflexivity). exact Hn.
Qed.
