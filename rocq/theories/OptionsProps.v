(** C76: setting options *)
From Coq Require Import ZArith QArith.
From Verif Require Import PyCommon PyDict PyString SaveProps OptionsModel.
Local Open Scope nat_scope.
Local Open Scope string_scope.
Local Open Scope list_scope.

(** The value of an option by its full name *)
Fixpoint get (o : opt) (p : list string) : option val :=
  match o, p with
  | Val w, [] => Some w
  | Opt _ a, n :: p' => match dget a n with Some s => get s p' | None => None end
  | _, _ => None
  end.
(** The options without their values *)
Fixpoint shape (o : opt) : opt :=
  match o with Val _ => Val VNone | Opt c a => Opt c (map (fun kv => (fst kv, shape (snd kv))) a) end.

(** The statistics of numbers, and of the lengths of texts *)
Definition the_stats (c : cls) (m : string) : Prop :=
  In m ["min"; "max"; "mode"; "median"; "sum"; "variance"; "skewness"; "kurtosis"; "median_abs_deviation"; "histogram_and_quantiles"] \/
  (c <> CText /\ In m ["num_zeros"; "num_negatives"]).
Definition of_numbers (c : cls) : Prop := c = CInt \/ c = CFloat \/ c = CText.

(** Options as made by the classes: names occur once and each statistic can be switched on and off *)
Inductive wf : opt -> Prop :=
| wf_val : forall v, wf (Val v)
| wf_opt : forall c a, NoDup (dkeys a) -> Forall (fun kv => wf (snd kv)) a ->
    (of_numbers c -> ~ In "is_numeric_stats_enabled" (dkeys a) /\
       forall m, the_stats c m -> exists c' s w, dget a m = Some (Opt c' s) /\ dget s "is_enabled" = Some (Val w)) ->
    wf (Opt c a).

(** Spec: what a name stands for.  [names key star n rest]: the name begins with [n], after a star or not. *)
Inductive names : list string -> bool -> string -> list string -> Prop :=
| names_plain : forall n rest, n <> "*" -> names (n :: rest) false n rest
| names_star : forall n rest, names ("*" :: n :: rest) true n rest.
Definition owns (c : cls) (a : dict string opt) (n : string) : Prop := In n (dkeys a) \/ (of_numbers c /\ n = "is_numeric_stats_enabled").
Inductive hit : opt -> list string -> list string -> Prop :=
| hit_leaf : forall c a key star n w, names key star n [] -> dget a n = Some (Val w) -> hit (Opt c a) key [n]
| hit_stats : forall c a key star m, names key star "is_numeric_stats_enabled" [] -> of_numbers c -> the_stats c m ->
    hit (Opt c a) key [m; "is_enabled"]
| hit_in : forall c a key star n rest c' a' p, names key star n rest -> rest <> [] -> dget a n = Some (Opt c' a') ->
    hit (Opt c' a') rest p -> hit (Opt c a) key (n :: p)
| hit_below : forall c a key star n rest m c' a' p, names key star n rest -> star = true \/ rest <> [] -> ~ owns c a n ->
    dget a m = Some (Opt c' a') -> hit (Opt c' a') key p -> hit (Opt c a) key (m :: p).

Section OptInd.
  Variable P : opt -> Prop.
  Hypothesis HV : forall v, P (Val v).
  Hypothesis HO : forall c a, Forall (fun kv => P (snd kv)) a -> P (Opt c a).
  Fixpoint opt_rect' (o : opt) : P o :=
    match o with
    | Val v => HV v
    | Opt c a => HO c a ((fix go (l : list (string * opt)) : Forall (fun kv => P (snd kv)) l :=
        match l with [] => Forall_nil _ | kv :: r => Forall_cons kv (opt_rect' (snd kv)) (go r) end) a)
    end.
End OptInd.

Lemma target_names : forall key star n rest, target key = Ok (star, n, rest) <-> names key star n rest.
Proof.
  intros key star n rest. split.
  - unfold target. destruct key as [|x r]; [discriminate|]. destruct (String.eqb x "*") eqn:E.
    + apply String.eqb_eq in E. subst. destruct r as [|y r]; [discriminate|]. intros H. injection H as <- <- <-. constructor.
    + apply String.eqb_neq in E. intros H. injection H as <- <- <-. constructor. exact E.
  - intros H. destruct H as [x r E|x r]; [|reflexivity]. apply String.eqb_neq in E. unfold target. rewrite E. reflexivity.
Qed.
Lemma numeric_spec : forall c, numeric c = true <-> of_numbers c.
Proof. intros c. unfold of_numbers. destruct c; cbn; split; intro H; try discriminate; try reflexivity; try (destruct H as [H|[H|H]]; discriminate); auto. Qed.
Lemma has_owns : forall c a n, has c a n = true <-> owns c a n.
Proof.
  intros c a n. unfold has, owns, is_virtual. rewrite Bool.orb_true_iff, Bool.andb_true_iff, numeric_spec, String.eqb_eq.
  rewrite (dmem_true a n). tauto.
Qed.
Lemma names_fun : forall key s1 n1 r1 s2 n2 r2, names key s1 n1 r1 -> names key s2 n2 r2 -> s1 = s2 /\ n1 = n2 /\ r1 = r2.
Proof.
  intros key s1 n1 r1 s2 n2 r2 H1 H2. apply target_names in H1, H2. rewrite H1 in H2. injection H2 as <- <- <-. auto.
Qed.
Lemma stat_names_spec : forall c m, of_numbers c -> (In m (stat_names c) <-> the_stats c m).
Proof.
  intros c m H. unfold the_stats. destruct H as [-> | [-> | ->]]; split; intros H.
  all: try (destruct H as [H | [E H]]; [cbn in *; tauto|first [congruence|cbn in *; tauto]]).
  all: cbn in H; repeat (destruct H as [<- | H]; [first [left; cbn; tauto | right; split; [discriminate|cbn; tauto]]|]); destruct H.
Qed.

(** What a step does to the attributes: names stay, each attribute is left or changed by [f] *)
Lemma at_name_dset : forall f n l s, dget l n = Some s -> at_name f n l = (dset l n (fst (f s)), snd (f s)).
Proof.
  intros f n. induction l as [|[k x] l IH]; intros s H; [discriminate|]. cbn [at_name dget dset] in *.
  change (PyDict.eqb k n) with (String.eqb k n) in *. destruct (String.eqb k n).
  - injection H as ->. destruct (f s); reflexivity.
  - rewrite (IH s H). reflexivity.
Qed.
Lemma descend_spec : forall f l, NoDup (dkeys l) ->
  dkeys (fst (descend f l)) = dkeys l /\
  (forall k v, dget l k = Some (Val v) -> dget (fst (descend f l)) k = Some (Val v)) /\
  (forall k c a, dget l k = Some (Opt c a) ->
     dget (fst (descend f l)) k = Some (fst (f (Opt c a))) /\ (snd (descend f l) = None -> snd (f (Opt c a)) = None) \/
     dget (fst (descend f l)) k = Some (Opt c a) /\ snd (descend f l) <> None).
Proof.
  intros f. induction l as [|[k s] l IH]; intros ND; [repeat split; intros; discriminate|].
  apply NoDup_cons_iff in ND as (N & ND). specialize (IH ND). destruct IH as (I1 & I2 & I3). fold (dkeys l) in N.
  cbn [descend]. destruct s as [w|c a].
  - destruct (descend f l) as [r e]. cbn [fst snd] in *. split; [|split].
    + unfold dkeys in *. cbn. rewrite I1. reflexivity.
    + intros k' v. cbn [dget]. destruct (PyDict.eqb k k'); [auto|apply I2].
    + intros k' c a. cbn [dget]. destruct (PyDict.eqb k k'); [discriminate|apply I3].
  - destruct (f (Opt c a)) as [s' [e|]] eqn:Ef; cbn [fst snd].
    + split; [reflexivity|]. split.
      * intros k' v. cbn [dget]. destruct (PyDict.eqb k k'); [discriminate|auto].
      * intros k' c' a'. cbn [dget]. destruct (PyDict.eqb k k') eqn:E; intros H.
        -- injection H as <- <-. left. rewrite Ef. split; [reflexivity|discriminate].
        -- right. split; [exact H|discriminate].
    + destruct (descend f l) as [r e]. cbn [fst snd] in *. split; [|split].
      * unfold dkeys in *. cbn. rewrite I1. reflexivity.
      * intros k' v. cbn [dget]. destruct (PyDict.eqb k k'); [discriminate|apply I2].
      * intros k' c' a'. cbn [dget]. destruct (PyDict.eqb k k') eqn:E; intros H.
        -- injection H as <- <-. left. rewrite Ef. auto.
        -- apply I3, H.
Qed.
Definition flip (v : val) (s : opt) : opt := match s with Opt c a => Opt c (dset a "is_enabled" (Val v)) | x => x end.
Lemma set_stats_spec : forall v ns a, NoDup ns -> (forall m, In m ns -> exists c s, dget a m = Some (Opt c s)) ->
  exists a', set_stats ns a v = (a', None) /\ dkeys a' = dkeys a /\
    forall m, dget a' m = if lmem ns m then option_map (flip v) (dget a m) else dget a m.
Proof.
  intros v. induction ns as [|n ns IH]; intros a ND H.
  - exists a. repeat split; reflexivity.
  - apply NoDup_cons_iff in ND as (N & ND). destruct (H n (or_introl eq_refl)) as (c & s & E). cbn [set_stats]. rewrite E.
    destruct (IH (dset a n (Opt c (dset s "is_enabled" (Val v)))) ND) as (a' & E1 & E2 & E3).
    { intros m Hm. rewrite dget_dset. destruct (PyDict.eqb n m) eqn:En.
      - apply (proj1 (PyDict.eqb_eq _ _)) in En. subst. contradiction.
      - apply H. right. exact Hm. }
    exists a'. split; [exact E1|]. split.
    + rewrite E2. rewrite dkeys_dset. unfold dmem. rewrite E. reflexivity.
    + intros m. rewrite E3, dget_dset. destruct (PyDict.eqb n m) eqn:En.
      * apply (proj1 (PyDict.eqb_eq _ _)) in En. subst m.
        assert (M : lmem (n :: ns) n = true) by (apply lmem_In; left; reflexivity).
        assert (M2 : lmem ns n = false) by (apply lmem_false; exact N). rewrite M, M2, E. reflexivity.
      * assert (M : lmem (n :: ns) m = lmem ns m).
        { destruct (lmem ns m) eqn:M; [apply lmem_In; right; apply lmem_In; exact M|].
          apply lmem_false. apply lmem_false in M. intros [-> | X]; [|contradiction]. rewrite PyDict.eqb_refl in En. discriminate. }
        rewrite M. reflexivity.
Qed.

Lemma shape_opt : forall c a b, dkeys a = dkeys b -> NoDup (dkeys a) ->
  (forall k x y, dget a k = Some x -> dget b k = Some y -> shape x = shape y) -> shape (Opt c a) = shape (Opt c b).
Proof.
  intros c a b E ND H. cbn [shape]. f_equal. revert b E H. induction a as [|[k x] a IH]; intros [|[k' y] b] E H; try discriminate; [reflexivity|].
  unfold dkeys in E. cbn in E. injection E as <- E. apply NoDup_cons_iff in ND as (N & ND). cbn [map fst snd]. f_equal.
  - f_equal. apply (H k); cbn [dget]; rewrite PyDict.eqb_refl; reflexivity.
  - apply IH; [exact ND|exact E|]. intros k2 x2 y2 H1 H2. apply (H k2); cbn [dget]; (destruct (PyDict.eqb k k2) eqn:En; [|assumption]);
      apply (proj1 (PyDict.eqb_eq _ _)) in En; subst; exfalso; apply N; fold (dkeys a); apply dget_Some_In in H1;
      apply in_map_iff; exists (k2, x2); auto.
Qed.

Lemma dget_keys : forall (a b : dict string opt) k, dkeys a = dkeys b -> dget a k = None -> dget b k = None.
Proof. intros a b k E H. apply dget_None. rewrite <- E. apply dget_None. exact H. Qed.
Lemma wf_in : forall a k s, Forall (fun kv : string * opt => wf (snd kv)) a -> dget a k = Some s -> wf s.
Proof. intros a k s H E. apply dget_Some_In in E. rewrite Forall_forall in H. exact (H _ E). Qed.

Fixpoint nodupb (l : list string) : bool := match l with [] => true | x :: r => (negb (lmem r x) && nodupb r)%bool end.
Lemma nodupb_NoDup : forall l, nodupb l = true -> NoDup l.
Proof.
  induction l as [|x l IH]; cbn [nodupb]; intros H; constructor; apply andb_prop in H as (H1 & H2); [|auto].
  apply Bool.negb_true_iff in H1. apply lmem_false. exact H1.
Qed.
Lemma step : forall o, wf o -> forall key v,
  shape (fst (set_key o key v)) = shape o /\
  (forall p, ~ hit o key p -> get (fst (set_key o key v)) p = get o p) /\
  (forall p w, get o p = Some w -> hit o key p ->
     get (fst (set_key o key v)) p = Some v \/ (snd (set_key o key v) <> None /\ get (fst (set_key o key v)) p = Some w)).
Proof.
  induction o as [w|c a IH] using opt_rect'; intros W key v.
  { cbn [set_key fst snd]. split; [reflexivity|]. split; [reflexivity|]. intros p x _ H. inversion H. }
  inversion W as [|c0 a0 ND FW NS]; subst c0 a0. cbn [set_key].
  assert (SAME : forall e, shape (fst (Opt c a, Some e : option exn)) = shape (Opt c a) /\
    (forall p, ~ hit (Opt c a) key p -> get (fst (Opt c a, Some e)) p = get (Opt c a) p) /\
    (forall p w, get (Opt c a) p = Some w -> hit (Opt c a) key p ->
      get (fst (Opt c a, Some e)) p = Some v \/ (snd (Opt c a, Some e) <> None /\ get (fst (Opt c a, Some e)) p = Some w))).
  { intros e. cbn [fst snd]. split; [reflexivity|]. split; [reflexivity|]. intros p w H _. right. split; [discriminate|exact H]. }
  destruct (target key) as [[[star n] rest]|e] eqn:ET; [|apply SAME].
  apply target_names in ET.
  destruct (has c a n) eqn:EH.
  - assert (OW : owns c a n) by (apply has_owns; exact EH).
    destruct (dget a n) as [[w|c' a']|] eqn:EG.
    + destruct rest; [|apply SAME].
      destruct (is_virtual c n) eqn:EV.
      { exfalso. unfold is_virtual in EV. apply andb_prop in EV as (E1 & E2). apply numeric_spec in E1. apply String.eqb_eq in E2. subst n.
        destruct (NS E1) as (X & _). apply X. apply dmem_true. unfold dmem. rewrite EG. reflexivity. }
      cbn [fst snd]. assert (EK : dkeys (dset a n (Val v)) = dkeys a) by (rewrite dkeys_dset; unfold dmem; rewrite EG; reflexivity).
      split; [|split].
      * apply shape_opt; [exact EK|rewrite EK; exact ND|]. intros k x y. rewrite dget_dset. destruct (PyDict.eqb n k) eqn:E.
        -- apply (proj1 (PyDict.eqb_eq _ _)) in E. subst k. rewrite EG. intros H1 H2. injection H1 as <-. injection H2 as <-. reflexivity.
        -- intros H1 H2. rewrite H1 in H2. injection H2 as ->. reflexivity.
      * intros [|m p] HN; [reflexivity|]. cbn [get]. rewrite dget_dset. destruct (PyDict.eqb n m) eqn:E; [|reflexivity].
        apply (proj1 (PyDict.eqb_eq _ _)) in E. subst m. rewrite EG. destruct p; [|reflexivity].
        exfalso. apply HN. econstructor; eauto.
      * intros p x HG HH. left. inversion HH as [c0 a0 k0 st n0 w0 HNm HD|c0 a0 k0 st m HNm HO HS|c0 a0 k0 st n0 r0 c' a' p' HNm HR HD HH'|c0 a0 k0 st n0 r0 m c' a' p' HNm HR HO HD HH']; subst.
        -- destruct (names_fun _ _ _ _ _ _ _ ET HNm) as (_ & <- & _). cbn [get]. rewrite dget_dset, PyDict.eqb_refl. reflexivity.
        -- destruct (names_fun _ _ _ _ _ _ _ ET HNm) as (_ & -> & _). destruct (NS HO) as (X & _). exfalso. apply X.
           apply dmem_true. unfold dmem. rewrite EG. reflexivity.
        -- destruct (names_fun _ _ _ _ _ _ _ ET HNm) as (_ & _ & <-). congruence.
        -- destruct (names_fun _ _ _ _ _ _ _ ET HNm) as (_ & <- & _). contradiction.
    + destruct rest as [|r0 rest]; [apply SAME|]. remember (r0 :: rest) as rst eqn:ER. assert (RN : rst <> []) by (rewrite ER; discriminate). clear ER r0 rest.
      rewrite (at_name_dset _ n a _ EG). cbv beta. cbn [fst snd].
      assert (I : wf (Opt c' a')) by (eapply wf_in; eauto).
      rewrite Forall_forall in IH. specialize (IH (n, Opt c' a') (dget_Some_In _ _ _ EG) I rst v). cbn [snd] in IH. destruct IH as (I1 & I2 & I3).
      remember (set_key (Opt c' a') rst v) as res eqn:ERes. clear ERes. destruct res as [s' e]. cbn [fst snd] in *.
      assert (EK : dkeys (dset a n s') = dkeys a) by (rewrite dkeys_dset; unfold dmem; rewrite EG; reflexivity).
      split; [|split].
      * apply shape_opt; [exact EK|rewrite EK; exact ND|]. intros k x y. rewrite dget_dset. destruct (PyDict.eqb n k) eqn:E.
        -- apply (proj1 (PyDict.eqb_eq _ _)) in E. subst k. rewrite EG. intros H1 H2. injection H1 as <-. injection H2 as <-. exact I1.
        -- intros H1 H2. rewrite H1 in H2. injection H2 as ->. reflexivity.
      * intros [|m p] HN; [reflexivity|]. cbn [get]. rewrite dget_dset. destruct (PyDict.eqb n m) eqn:E; [|reflexivity].
        apply (proj1 (PyDict.eqb_eq _ _)) in E. subst m. rewrite EG. apply I2. intros X. apply HN. eapply hit_in; eauto.
      * intros p x HG HH. inversion HH as [c0 a0 k0 st n0 w0 HNm HD|c0 a0 k0 st m HNm HO HS|c0 a0 k0 st n0 r0 c2 a2 p' HNm HR HD HH'|c0 a0 k0 st n0 r0 m c2 a2 p' HNm HR HO HD HH']; subst.
        -- destruct (names_fun _ _ _ _ _ _ _ ET HNm) as (_ & _ & ->). congruence.
        -- destruct (names_fun _ _ _ _ _ _ _ ET HNm) as (_ & _ & ->). congruence.
        -- destruct (names_fun _ _ _ _ _ _ _ ET HNm) as (_ & <- & <-). rewrite EG in HD. injection HD as <- <-.
           cbn [get] in HG |- *. rewrite EG in HG. rewrite dget_dset, PyDict.eqb_refl. apply I3; assumption.
        -- destruct (names_fun _ _ _ _ _ _ _ ET HNm) as (_ & <- & _). contradiction.
    + destruct rest; [|apply SAME].
      assert (EV : is_virtual c n = true).
      { unfold has, dmem in EH. rewrite EG in EH. exact EH. }
      rewrite EV. unfold is_virtual in EV. apply andb_prop in EV as (E1 & E2). apply numeric_spec in E1. apply String.eqb_eq in E2. subst n.
      destruct (NS E1) as (_ & HS).
      assert (SN : NoDup (stat_names c)) by (apply nodupb_NoDup; destruct c; reflexivity).
      destruct (set_stats_spec v (stat_names c) a SN) as (a' & Ea & EK & EGET).
      { intros m Hm. apply stat_names_spec in Hm; [|exact E1]. destruct (HS m Hm) as (c1 & s1 & w1 & X & _). eauto. }
      rewrite Ea. cbn [fst snd]. split; [|split].
      * apply shape_opt; [exact EK|rewrite EK; exact ND|]. intros k x y. rewrite EGET. destruct (lmem (stat_names c) k) eqn:EL.
        -- apply lmem_In in EL. apply stat_names_spec in EL; [|exact E1]. destruct (HS k EL) as (c1 & s1 & w1 & X & Y). rewrite X. cbn [option_map flip].
           intros H1 H2. injection H1 as <-. injection H2 as <-. assert (WS : wf (Opt c1 s1)) by (eapply wf_in; eauto).
           inversion WS as [|? ? NDs _ _]; subst.
           assert (EKs : dkeys (dset s1 "is_enabled" (Val v)) = dkeys s1) by (rewrite dkeys_dset; unfold dmem; rewrite Y; reflexivity).
           apply shape_opt; [exact EKs|rewrite EKs; exact NDs|].
           intros k2 x2 y2. rewrite dget_dset. destruct (PyDict.eqb "is_enabled" k2) eqn:E.
           ++ apply (proj1 (PyDict.eqb_eq _ _)) in E. subst k2. rewrite Y. intros H1 H2. injection H1 as <-. injection H2 as <-. reflexivity.
           ++ intros H1 H2. rewrite H1 in H2. injection H2 as ->. reflexivity.
        -- intros H1 H2. rewrite H1 in H2. injection H2 as ->. reflexivity.
      * intros [|m p] HN; [reflexivity|]. cbn [get]. rewrite EGET. destruct (lmem (stat_names c) m) eqn:EL; [|reflexivity].
        apply lmem_In in EL. apply stat_names_spec in EL; [|exact E1]. destruct (HS m EL) as (c1 & s1 & w1 & X & Y). rewrite X. cbn [option_map flip].
        destruct p as [|x p]; [reflexivity|]. cbn [get]. rewrite dget_dset. destruct (PyDict.eqb "is_enabled" x) eqn:E; [|reflexivity].
        apply (proj1 (PyDict.eqb_eq _ _)) in E. subst x. rewrite Y. destruct p; [|reflexivity]. exfalso. apply HN. eapply hit_stats; eauto.
      * intros p x HG HH. left. inversion HH as [c0 a0 k0 st n0 w0 HNm HD|c0 a0 k0 st m HNm HO HSt|c0 a0 k0 st n0 r0 c2 a2 p' HNm HR HD HH'|c0 a0 k0 st n0 r0 m c2 a2 p' HNm HR HO HD HH']; subst.
        -- destruct (names_fun _ _ _ _ _ _ _ ET HNm) as (_ & <- & _). congruence.
        -- destruct (HS m HSt) as (c1 & s1 & w1 & X & Y). cbn [get]. rewrite EGET.
           assert (EL : lmem (stat_names c) m = true) by (apply lmem_In; apply stat_names_spec; assumption).
           rewrite EL, X. cbn [option_map flip get]. rewrite dget_dset, PyDict.eqb_refl. reflexivity.
        -- destruct (names_fun _ _ _ _ _ _ _ ET HNm) as (_ & _ & <-). congruence.
        -- destruct (names_fun _ _ _ _ _ _ _ ET HNm) as (_ & <- & _). contradiction.
  - assert (OW : ~ owns c a n) by (intros X; apply has_owns in X; congruence).
    destruct (star || match rest with [] => false | _ => true end)%bool eqn:ES; [|apply SAME].
    assert (SR : star = true \/ rest <> []).
    { apply Bool.orb_true_iff in ES as [ES | ES]; [left; exact ES|right; destruct rest; [discriminate|discriminate]]. }
    destruct (descend_spec (fun s => set_key s key v) a ND) as (D1 & D2 & D3).
    destruct (descend (fun s => set_key s key v) a) as [a' e]. cbn [fst snd] in *.
    rewrite Forall_forall in IH.
    split; [|split].
    + apply shape_opt; [exact D1|rewrite D1; exact ND|]. intros k x y H1 H2. destruct y as [w|c1 a1].
      * rewrite (D2 k w H2) in H1. injection H1 as <-. reflexivity.
      * destruct (D3 k c1 a1 H2) as [[X _] | [X _]]; rewrite X in H1; injection H1 as <-; [|reflexivity].
        apply (IH (k, Opt c1 a1) (dget_Some_In _ _ _ H2)). eapply wf_in; eauto.
    + intros [|m p] HN; [reflexivity|]. cbn [get]. destruct (dget a m) as [[w|c1 a1]|] eqn:EG.
      * rewrite (D2 m w EG). reflexivity.
      * destruct (D3 m c1 a1 EG) as [[X _] | [X _]]; rewrite X; [|reflexivity].
        apply (IH (m, Opt c1 a1) (dget_Some_In _ _ _ EG)); [eapply wf_in; eauto|]. intros Y. apply HN. eapply hit_below; eauto.
      * rewrite (dget_keys _ _ _ (eq_sym D1) EG). reflexivity.
    + intros p x HG HH. inversion HH as [c0 a0 k0 st n0 w0 HNm HD|c0 a0 k0 st m HNm HO HSt|c0 a0 k0 st n0 r0 c2 a2 p' HNm HR HD HH'|c0 a0 k0 st n0 r0 m c2 a2 p' HNm HR HO HD HH']; subst.
      * destruct (names_fun _ _ _ _ _ _ _ ET HNm) as (_ & <- & _). exfalso. apply OW. left. apply dmem_true. unfold dmem. rewrite HD. reflexivity.
      * destruct (names_fun _ _ _ _ _ _ _ ET HNm) as (_ & -> & _). exfalso. apply OW. right. auto.
      * destruct (names_fun _ _ _ _ _ _ _ ET HNm) as (_ & <- & _). exfalso. apply OW. left. apply dmem_true. unfold dmem. rewrite HD. reflexivity.
      * cbn [get] in HG |- *. rewrite HD in HG. destruct (D3 m c2 a2 HD) as [[X Y] | [X Y]]; rewrite X; [|right; auto].
        destruct (IH (m, Opt c2 a2) (dget_Some_In _ _ _ HD) (wf_in _ _ _ FW HD) key v) as (_ & _ & Z). cbn [snd] in Z.
        destruct (Z p' x HG HH') as [Z1 | [Z1 Z2]]; [left; exact Z1|right]. split; [|exact Z2]. intros E. apply Z1, Y, E.
Qed.

Lemma dget_shape : forall a b k, map (fun kv : string * opt => (fst kv, shape (snd kv))) a = map (fun kv => (fst kv, shape (snd kv))) b ->
  option_map shape (dget a k) = option_map shape (dget b k).
Proof.
  induction a as [|[k1 x] a IH]; intros [|[k2 y] b] k E; try discriminate; [reflexivity|]. cbn [map fst snd] in E. injection E as -> Ex E.
  cbn [dget]. destruct (PyDict.eqb k2 k); [cbn; rewrite Ex; reflexivity|apply IH, E].
Qed.
Lemma dkeys_shape : forall a b, map (fun kv : string * opt => (fst kv, shape (snd kv))) a = map (fun kv => (fst kv, shape (snd kv))) b -> dkeys a = dkeys b.
Proof.
  intros a b E. apply (f_equal (map fst)) in E. rewrite !map_map in E. exact E.
Qed.
Lemma shape_val : forall x w, shape x = Val w -> exists u, x = Val u.
Proof. intros [u|c a] w H; [eauto|discriminate]. Qed.
Lemma shape_obj : forall x c a, shape x = shape (Opt c a) -> exists b, x = Opt c b.
Proof. intros [u|c' a'] c a H; [discriminate|]. cbn in H. injection H as -> _. eauto. Qed.
Lemma wf_shape : forall o, wf o -> forall o', shape o = shape o' -> wf o'.
Proof.
  induction o as [w|c a IH] using opt_rect'; intros W o' E.
  - destruct (shape_val o' VNone) as (u & ->); [symmetry; exact E|]. constructor.
  - destruct (shape_obj o' c a) as (b & ->); [symmetry; exact E|]. cbn [shape] in E. injection E as E.
    inversion W as [|c0 a0 ND FW NS]; subst c0 a0. constructor.
    + rewrite <- (dkeys_shape _ _ E). exact ND.
    + clear ND NS W. revert b E. induction a as [|[k x] a IHa]; intros [|[k' y] b] E; try discriminate; constructor.
      * cbn [map fst snd] in E. injection E as _ Ex _. inversion IH as [|? ? P1 P2]; inversion FW as [|? ? Q1 Q2]; subst. cbn [snd] in *. apply P1; assumption.
      * cbn [map fst snd] in E. injection E as _ _ Ex. inversion IH as [|? ? P1 P2]; inversion FW as [|? ? Q1 Q2]; subst. apply IHa; assumption.
    + intros O. destruct (NS O) as (X & Y). rewrite <- (dkeys_shape _ _ E). split; [exact X|]. intros m Hm.
      destruct (Y m Hm) as (c1 & s & w & G1 & G2). pose proof (dget_shape _ _ m E) as D. rewrite G1 in D. cbn [option_map] in D.
      destruct (dget b m) as [y|] eqn:Eb; [|discriminate]. injection D as D. destruct (shape_obj y c1 s) as (s' & ->); [symmetry; exact D|].
      injection D as D. pose proof (dget_shape _ _ "is_enabled" D) as D2. rewrite G2 in D2. cbn [option_map] in D2.
      destruct (dget s' "is_enabled") as [z|] eqn:Ez; [|discriminate]. injection D2 as D2. destruct (shape_val z VNone) as (u & ->); [symmetry; exact D2|].
      exists c1, s', u. auto.
Qed.
Lemma get_shape : forall p o o', shape o = shape o' -> get o p = None -> get o' p = None.
Proof.
  induction p as [|n p IH]; intros [w|c a] o' E H.
  - discriminate.
  - destruct (shape_obj o' c a) as (b & ->); [symmetry; exact E|]. reflexivity.
  - destruct (shape_val o' VNone) as (u & ->); [symmetry; exact E|]. reflexivity.
  - destruct (shape_obj o' c a) as (b & ->); [symmetry; exact E|]. cbn [shape] in E. injection E as E. cbn [get] in *.
    pose proof (dget_shape _ _ n E) as D. destruct (dget a n) as [x|], (dget b n) as [y|]; cbn in D; try discriminate; [|reflexivity].
    injection D as D. apply (IH x y D H).
Qed.
Lemma hit_shape : forall o key p, hit o key p -> forall o', shape o = shape o' -> hit o' key p.
Proof.
  induction 1 as [c a key star n w HN HD|c a key star m HN HO HS|c a key star n rest c' a' p HN HR HD HH IH|c a key star n rest m c' a' p HN HR HO HD HH IH];
    intros o' E; destruct (shape_obj o' c a) as (b & ->); try (symmetry; exact E); cbn [shape] in E; injection E as E.
  - pose proof (dget_shape _ _ n E) as D. rewrite HD in D. destruct (dget b n) as [y|] eqn:Eb; [|discriminate]. injection D as D.
    destruct (shape_val y VNone) as (u & ->); [symmetry; exact D|]. eapply hit_leaf; eauto.
  - eapply hit_stats; eauto.
  - pose proof (dget_shape _ _ n E) as D. rewrite HD in D. destruct (dget b n) as [y|] eqn:Eb; [|discriminate].
    cbn [option_map] in D. injection D as D. destruct (shape_obj y c' a') as (s' & ->); [symmetry; exact D|]. eapply hit_in; eauto.
  - pose proof (dget_shape _ _ m E) as D. rewrite HD in D. destruct (dget b m) as [y|] eqn:Eb; [|discriminate].
    cbn [option_map] in D. injection D as D. destruct (shape_obj y c' a') as (s' & ->); [symmetry; exact D|]. eapply hit_below; eauto.
    unfold owns in *. rewrite <- (dkeys_shape _ _ E). exact HO.
Qed.

(** Setting one option: exactly the options the name stands for get the value; nothing is added or removed; after an error some
    of them may have it already. *)
Theorem C76_one : forall o key v o' e, wf o -> set_key o key v = (o', e) ->
  wf o' /\ shape o' = shape o /\
  (forall p, ~ hit o key p -> get o' p = get o p) /\
  (forall p w, get o p = Some w -> hit o key p -> get o' p = Some v \/ (e <> None /\ get o' p = Some w)).
Proof.
  intros o key v o' e W E. destruct (step o W key v) as (S1 & S2 & S3). rewrite E in *. cbn [fst snd] in *.
  split; [eapply wf_shape; eauto|]. auto.
Qed.

(** Several options: each option ends with the value of the last name that stands for it. *)
Theorem C76_order : forall kvs o o', wf o -> set_all o kvs = (o', None) ->
  wf o' /\ shape o' = shape o /\
  forall p w, get o p = Some w ->
    (Forall (fun kv => ~ hit o (fst kv) p) kvs -> get o' p = Some w) /\
    (forall k1 key v k2, kvs = k1 ++ (key, v) :: k2 -> hit o key p -> Forall (fun kv => ~ hit o (fst kv) p) k2 -> get o' p = Some v).
Proof.
  induction kvs as [|[key v] kvs IH]; intros o o' W E.
  - injection E as <-. split; [exact W|]. split; [reflexivity|]. intros p w G. split; [auto|]. intros [|x k1] key v k2 E; discriminate.
  - cbn [set_all] in E. destruct (set_key o key v) as [o1 [e|]] eqn:E1; [discriminate|].
    destruct (C76_one o key v o1 None W E1) as (W1 & S1 & N1 & H1). destruct (IH o1 o' W1 E) as (W2 & S2 & IH2).
    split; [exact W2|]. split; [congruence|]. intros p w G.
    assert (TR : forall k, Forall (fun kv : list string * val => ~ hit o (fst kv) p) k -> Forall (fun kv => ~ hit o1 (fst kv) p) k).
    { intros k F. eapply Forall_impl; [|exact F]. intros kv X Y. apply X. eapply hit_shape; [exact Y|exact S1]. }
    split.
    + intros F. inversion F as [|? ? F1 F2]; subst. cbn [fst] in F1. apply (IH2 p w); [rewrite N1; assumption|auto].
    + intros k1 key' v' k2 EK HH F. destruct k1 as [|x k1].
      * injection EK as <- <- <-. destruct (H1 p w G HH) as [X | [X _]]; [|congruence]. apply (IH2 p v); [exact X|auto].
      * injection EK as <- ->. destruct (get o1 p) as [w1|] eqn:G1.
        -- apply (IH2 p w1 G1) with (k1 := k1) (key := key') (k2 := k2); [reflexivity|eapply hit_shape; [exact HH|symmetry; exact S1]|auto].
        -- exfalso. rewrite (get_shape _ _ _ S1 G1) in G. discriminate.
Qed.

(** A full name changes this option and no other. *)
Theorem C76_full_name : forall p o v w, wf o -> get o p = Some w -> ~ In "*" p -> p <> [] ->
  exists o', set_key o p v = (o', None) /\ get o' p = Some v /\ forall q, q <> p -> get o' q = get o q.
Proof.
  assert (OK : forall p o v w, wf o -> get o p = Some w -> ~ In "*" p -> snd (set_key o p v) = None /\ (p <> [] -> forall q, hit o p q <-> q = p)).
  { induction p as [|n p IH]; intros [x|c a] v w W G N; try discriminate; [cbn; split; [reflexivity|congruence]|].
    cbn [get] in G. destruct (dget a n) as [s|] eqn:EG; [|discriminate]. inversion W as [|c0 a0 ND FW NS]; subst c0 a0.
    assert (Nn : n <> "*") by (intros ->; apply N; left; reflexivity).
    assert (NM : names (n :: p) false n p) by (constructor; exact Nn).
    pose proof (proj2 (target_names _ _ _ _) NM) as ET.
    assert (EH : has c a n = true) by (apply has_owns; left; apply dmem_true; unfold dmem; rewrite EG; reflexivity).
    assert (OW : owns c a n) by (apply has_owns; exact EH).
    assert (NV : is_virtual c n = false).
    { destruct (is_virtual c n) eqn:EV; [|reflexivity]. exfalso. unfold is_virtual in EV. apply andb_prop in EV as (E1 & E2).
      apply numeric_spec in E1. apply String.eqb_eq in E2. subst n. destruct (NS E1) as (X & _). apply X. apply dmem_true. unfold dmem. rewrite EG. reflexivity. }
    cbn [set_key]. rewrite ET, EH, EG.
    destruct s as [x|c' a'].
    - destruct p; [|discriminate]. rewrite NV. split; [reflexivity|]. intros _ q. split.
      + intros HH. inversion HH as [c0 a0 k0 st n0 w0 HNm HD|c0 a0 k0 st m HNm HO HS|c0 a0 k0 st n0 r0 c2 a2 p' HNm HR HD HH'|c0 a0 k0 st n0 r0 m c2 a2 p' HNm HR HO HD HH']; subst;
          destruct (names_fun _ _ _ _ _ _ _ NM HNm) as (_ & E1 & E2); subst; try congruence; try contradiction.
        exfalso. unfold is_virtual in NV. rewrite (proj2 (numeric_spec c) HO) in NV. discriminate.
      + intros ->. eapply hit_leaf; eauto.
    - destruct p as [|m p]; [discriminate|]. assert (Np : ~ In "*" (m :: p)) by (intros X; apply N; right; exact X).
      destruct (IH (Opt c' a') v w (wf_in _ _ _ FW EG) G Np) as (I1 & I2). rewrite (at_name_dset _ n a _ EG). cbn [snd]. split; [exact I1|].
      intros _ q. split.
      + intros HH. inversion HH as [c0 a0 k0 st n0 w0 HNm HD|c0 a0 k0 st m0 HNm HO HS|c0 a0 k0 st n0 r0 c2 a2 p' HNm HR HD HH'|c0 a0 k0 st n0 r0 m0 c2 a2 p' HNm HR HO HD HH']; subst;
          destruct (names_fun _ _ _ _ _ _ _ NM HNm) as (_ & E1 & E2); subst; try congruence; try contradiction.
        rewrite EG in HD. injection HD as <- <-. f_equal. apply I2; [discriminate|exact HH'].
      + intros ->. eapply hit_in; [exact NM|discriminate|exact EG|]. apply I2; [discriminate|reflexivity]. }
  intros p o v w W G N P. destruct (OK p o v w W G N) as (O1 & O2). destruct (set_key o p v) as [o' e] eqn:E. cbn [snd] in O1. subst e.
  destruct (C76_one o p v o' None W E) as (_ & _ & N1 & H1). exists o'. split; [reflexivity|]. split.
  - destruct (H1 p w G) as [X | [X _]]; [apply O2; [exact P|reflexivity]|exact X|congruence].
  - intros q Hq. apply N1. intros X. apply Hq. apply O2; assumption.
Qed.

(** An option object by its full name *)
Fixpoint obj (o : opt) (p : list string) : option opt :=
  match p with
  | [] => match o with Opt _ _ => Some o | Val _ => None end
  | n :: p' => match o with Opt _ a => match dget a n with Some s => obj s p' | None => None end | Val _ => None end
  end.
(** [n] never names an option object *)
Definition plain (o : opt) (n : string) : Prop := forall q c a c' a', obj o q = Some (Opt c a) -> dget a n <> Some (Opt c' a').

Lemma descend_none : forall f l, (forall k c a, In (k, Opt c a) l -> snd (f (Opt c a)) = None) -> snd (descend f l) = None.
Proof.
  intros f. induction l as [|[k s] l IH]; intros H; [reflexivity|]. cbn [descend].
  assert (I : snd (descend f l) = None) by (apply IH; intros k' c a X; apply (H k' c a); right; exact X).
  destruct s as [w|c a].
  - destruct (descend f l). exact I.
  - pose proof (H k c a (or_introl eq_refl)) as X. destruct (f (Opt c a)) as [s' e]. cbn [snd] in X. subst e. destruct (descend f l). exact I.
Qed.
Lemma plain_sub : forall c a n m s, plain (Opt c a) n -> dget a m = Some s -> plain s n.
Proof. intros c a n m s P G q c1 a1 c2 a2 E. apply (P (m :: q) c1 a1). cbn [obj]. rewrite G. exact E. Qed.

Lemma star_hit : forall n o p, n <> "is_numeric_stats_enabled" -> plain o n ->
  (hit o ["*"; n] p <-> exists q, p = q ++ [n] /\ get o p <> None /\ forall q1 x q2, q = q1 ++ x :: q2 -> get o (q1 ++ [n]) = None).
Proof.
  intros n o p NV P. assert (NM : names ["*"; n] true n []) by constructor. split.
  - clear NM. intros H. remember ["*"; n] as key eqn:EK. induction H as [c a key star n0 w HN HD|c a key star m HN HO HS|c a key star n0 rest c' a' p HN HR HD HH IH|c a key star n0 rest m c' a' p HN HR HO HD HH IH];
      subst key; destruct (names_fun _ _ _ _ _ _ _ (names_star n []) HN) as (_ & E1 & E2); subst; try congruence.
    + exists []. split; [reflexivity|]. split; [cbn; rewrite HD; discriminate|]. intros [|y q1] x q2 E; discriminate.
    + destruct IH as (q & -> & G & Q); [eapply plain_sub; eauto|reflexivity|]. exists (m :: q). split; [reflexivity|]. split.
      * cbn [get app]. rewrite HD. exact G.
      * intros q1 x q2 E. destruct q1 as [|y q1].
        -- cbn. assert (D : dget a n0 = None) by (apply dget_None; intros X; apply HO; left; exact X). rewrite D. reflexivity.
        -- injection E as <- E. cbn [app get]. rewrite HD. apply (Q q1 x q2 E).
  - intros (q & -> & G & Q). revert o P G Q. induction q as [|m q IH]; intros [w|c a] P G Q; try (cbn in G; congruence).
    + cbn in G. destruct (dget a n) as [[w|c' a']|] eqn:E; try congruence. eapply hit_leaf; eauto.
    + cbn [app get] in G |- *. destruct (dget a m) as [[w|c' a']|] eqn:E; try congruence.
      * destruct q; cbn in G; congruence.
      * eapply hit_below; [exact NM|left; reflexivity| |exact E|].
        -- intros [X | [_ X]]; [|congruence]. apply dmem_true in X. unfold dmem in X. pose proof (Q [] m q eq_refl) as Y. cbn in Y.
           destruct (dget a n) as [[w|c1 a1]|] eqn:E2; try discriminate. apply (P [] c a c1 a1 eq_refl E2).
        -- apply IH; [eapply plain_sub; eauto|exact G|]. intros q1 x q2 Eq. pose proof (Q (m :: q1) x q2) as Y. cbn [app get] in Y. rewrite E in Y. apply Y. rewrite Eq. reflexivity.
Qed.
(** A star: on each way down, the first option of that name gets the value, and those further down do not. *)
Theorem C76_star : forall n o v, n <> "is_numeric_stats_enabled" -> wf o -> plain o n ->
  exists o', set_key o ["*"; n] v = (o', None) /\
    (forall q, get o (q ++ [n]) <> None -> (forall q1 x q2, q = q1 ++ x :: q2 -> get o (q1 ++ [n]) = None) -> get o' (q ++ [n]) = Some v) /\
    (forall p, (forall q, p = q ++ [n] -> exists q1 x q2, q = q1 ++ x :: q2 /\ get o (q1 ++ [n]) <> None) -> get o' p = get o p).
Proof.
  intros n o v NV W P.
  assert (OK : forall o, wf o -> plain o n -> snd (set_key o ["*"; n] v) = None).
  { clear o W P. induction o as [w|c a IH] using opt_rect'; intros W P; [reflexivity|]. cbn [set_key]. rewrite (proj2 (target_names _ _ _ _) (names_star n [])).
    destruct (has c a n) eqn:EH.
    - assert (EV : is_virtual c n = false) by (unfold is_virtual; apply String.eqb_neq in NV; rewrite NV; apply Bool.andb_false_r).
      destruct (dget a n) as [[w|c' a']|] eqn:EG.
      + rewrite EV. reflexivity.
      + exfalso. apply (P [] c a c' a' eq_refl EG).
      + rewrite EV. reflexivity.
    - cbn [orb]. inversion W as [|c0 a0 ND FW NS]; subst c0 a0. assert (D : snd (descend (fun s => set_key s ["*"; n] v) a) = None).
      { rewrite Forall_forall in IH, FW. apply descend_none. intros k c1 a1 Hs. apply (IH _ Hs (FW _ Hs)).
        eapply plain_sub; [exact P|]. apply dget_In; [exact ND|exact Hs]. }
      destruct (descend _ a). exact D. }
  specialize (OK o W P). destruct (set_key o ["*"; n] v) as [o' e] eqn:E. cbn [snd] in OK. subst e.
  destruct (C76_one o _ v o' None W E) as (_ & _ & N1 & H1). exists o'. split; [reflexivity|]. split.
  - intros q G Q. destruct (get o (q ++ [n])) as [w|] eqn:EG; [|congruence]. destruct (H1 _ w EG) as [X | [X _]]; [|exact X|congruence].
    apply (star_hit n o _ NV P). exists q. split; [reflexivity|]. split; [congruence|exact Q].
  - intros p Q. apply N1. intros X. apply (star_hit n o _ NV P) in X as (q & -> & G & Y). destruct (Q q eq_refl) as (q1 & x & q2 & Eq & Z).
    apply Z. apply (Y q1 x q2 Eq).
Qed.

(** A single name that the options do not have is refused, and nothing changes; a longer name, or one with a star, whose first
    component occurs nowhere is taken without any effect. *)
Theorem C76_single_unknown : forall c a n v, n <> "*" -> ~ owns c a n -> set_key (Opt c a) [n] v = (Opt c a, Some AttributeError).
Proof.
  intros c a n v Nn O. cbn [set_key]. rewrite (proj2 (target_names _ _ _ _) (names_plain n [] Nn)).
  destruct (has c a n) eqn:E; [apply has_owns in E; contradiction|]. reflexivity.
Qed.
Lemma descend_id : forall f l, (forall k c a, In (k, Opt c a) l -> f (Opt c a) = (Opt c a, None)) -> descend f l = (l, None).
Proof.
  intros f. induction l as [|[k s] l IH]; intros H; [reflexivity|]. cbn [descend].
  rewrite IH by (intros k' c a X; apply (H k' c a); right; exact X).
  destruct s as [w|c a]; [reflexivity|]. rewrite (H k c a (or_introl eq_refl)). reflexivity.
Qed.
Theorem C76_ignored : forall o key star n rest v, wf o -> names key star n rest -> star = true \/ rest <> [] ->
  (forall q c a, obj o q = Some (Opt c a) -> ~ owns c a n) -> set_key o key v = (o, None).
Proof.
  induction o as [w|c a IH] using opt_rect'; intros key star n rest v W HN HR HO; [reflexivity|]. cbn [set_key].
  rewrite (proj2 (target_names _ _ _ _) HN). destruct (has c a n) eqn:E; [apply has_owns in E; exfalso; apply (HO [] c a eq_refl E)|].
  assert (ES : (star || match rest with [] => false | _ => true end)%bool = true).
  { destruct HR as [-> | HR]; [reflexivity|]. destruct rest; [congruence|]. apply Bool.orb_true_r. }
  rewrite ES. inversion W as [|c0 a0 ND FW NS]; subst c0 a0. rewrite Forall_forall in IH, FW. rewrite descend_id; [reflexivity|].
  intros k c1 a1 Hs. apply (IH _ Hs key star n rest v (FW _ Hs) HN HR). intros q c2 a2 Eq. apply (HO (k :: q)). cbn [obj].
  rewrite (dget_In _ _ _ ND Hs). exact Eq.
Qed.

(** ProfilerOptions.set refuses names that stand for options of both kinds of data, before anything is set. *)
Definition mentions (key : list string) (p : string) : Prop := exists s1 s2, joined key = String.append s1 (String.append p s2).
Definition ambiguous (key : list string) : Prop :=
  hd_error key <> Some "*" /\ hd_error key <> Some "structured_options" /\ hd_error key <> Some "unstructured_options" /\
  (mentions key "data_labeler_object" \/ mentions key "data_labeler_dirpath" \/ mentions key "text.is_enabled" \/ mentions key "text.vocab").
Lemma prefix_spec : forall p s, is_prefix p s = true <-> exists r, s = String.append p r.
Proof.
  induction p as [|x p IH]; intros s; cbn [is_prefix].
  - split; [intros _; exists s; reflexivity|auto].
  - destruct s as [|y s]; [split; [discriminate|intros (r & E); discriminate]|]. rewrite Bool.andb_true_iff, Ascii.eqb_eq, IH. split.
    + intros (-> & r & ->). exists r. reflexivity.
    + intros (r & E). cbn in E. injection E as -> ->. split; [reflexivity|]. exists r. reflexivity.
Qed.
Lemma contains_spec : forall p s, contains p s = true <-> exists s1 s2, s = String.append s1 (String.append p s2).
Proof.
  intros p. induction s as [|y s IH]; cbn [contains]; rewrite Bool.orb_true_iff, prefix_spec.
  - split.
    + intros [(r & E) | E]; [|discriminate]. exists "", r. exact E.
    + intros (s1 & s2 & E). left. destruct s1; [|discriminate]. exists s2. exact E.
  - rewrite IH. split.
    + intros [(r & E) | (s1 & s2 & ->)]; [exists "", r; exact E|]. exists (String.String y s1), s2. reflexivity.
    + intros (s1 & s2 & E). destruct s1 as [|z s1]; [left; exists s2; exact E|]. right. injection E as <- E. exists s1, s2. exact E.
Qed.
Lemma ambiguous_spec : forall key, (negb (specified key) && overlaps key)%bool = true <-> ambiguous key.
Proof.
  intros key. unfold ambiguous, overlaps, mentions. rewrite Bool.andb_true_iff. cbn [existsb]. rewrite !Bool.orb_true_iff, !contains_spec.
  assert (E : negb (specified key) = true <-> hd_error key <> Some "*" /\ hd_error key <> Some "structured_options" /\ hd_error key <> Some "unstructured_options").
  { rewrite Bool.negb_true_iff. destruct key as [|n key]; cbn [specified hd_error]; [split; [repeat split; discriminate|auto]|]. rewrite lmem_false. split.
    - intros X. repeat split; intros Y; injection Y as ->; apply X; cbn; tauto.
    - intros (A & B & C) [<- | [<- | [<- | []]]]; congruence. }
  rewrite E. split.
  - intros ((A & B & C) & [D | [D | [D | [D | D]]]]); try discriminate; repeat split; tauto.
  - intros (A & B & C & D). split; [tauto|]. tauto.
Qed.
Theorem C76_overlap : forall o kvs,
  (Exists (fun kv => ambiguous (fst kv)) kvs -> profiler_set o kvs = (o, Some ValueError)) /\
  (Forall (fun kv => ~ ambiguous (fst kv)) kvs -> profiler_set o kvs = set_all o kvs).
Proof.
  intros o kvs. unfold profiler_set. split; intros H.
  - assert (E : existsb (fun kv : list string * val => (negb (specified (fst kv)) && overlaps (fst kv))%bool) kvs = true).
    { apply existsb_exists. apply Exists_exists in H as (kv & I & A). exists kv. split; [exact I|]. apply ambiguous_spec. exact A. }
    rewrite E. reflexivity.
  - destruct (existsb (fun kv : list string * val => (negb (specified (fst kv)) && overlaps (fst kv))%bool) kvs) eqn:E; [|reflexivity].
    apply existsb_exists in E as (kv & I & A). apply ambiguous_spec in A. rewrite Forall_forall in H. exfalso. apply (H kv I A).
Qed.

(** The default options *)
Fixpoint wfb (o : opt) : bool :=
  match o with
  | Val _ => true
  | Opt c a =>
      nodupb (dkeys a) && forallb (fun kv => wfb (snd kv)) a &&
      (negb (numeric c) || (negb (dmem a "is_numeric_stats_enabled") &&
         forallb (fun m => match dget a m with Some (Opt _ s) => match dget s "is_enabled" with Some (Val _) => true | _ => false end | _ => false end) (stat_names c)))
  end%bool.
Lemma wfb_wf : forall o, wfb o = true -> wf o.
Proof.
  induction o as [w|c a IH] using opt_rect'; intros H; [constructor|]. cbn [wfb] in H. apply andb_prop in H as (H & H3). apply andb_prop in H as (H1 & H2).
  constructor.
  - apply nodupb_NoDup. exact H1.
  - rewrite forallb_forall in H2. rewrite Forall_forall in *. intros kv Hk. apply IH; auto.
  - intros O. rewrite (proj2 (numeric_spec c) O) in H3. cbn [negb orb] in H3. apply andb_prop in H3 as (H4 & H5). split.
    + apply Bool.negb_true_iff in H4. apply dmem_false. exact H4.
    + intros m Hm. apply stat_names_spec in Hm; [|exact O]. rewrite forallb_forall in H5. specialize (H5 m Hm).
      destruct (dget a m) as [[w|c1 s]|] eqn:E1; try discriminate. destruct (dget s "is_enabled") as [[w|]|] eqn:E2; try discriminate.
      exists c1, s, w. auto.
Qed.
Theorem C76_defaults : wf profiler_default.
Proof. apply wfb_wf. vm_compute. reflexivity. Qed.

(** All options with their full names *)
Fixpoint all_leaves (o : opt) : list (list string * val) :=
  match o with
  | Val v => [([], v)]
  | Opt _ a => flat_map (fun kv => map (fun pv => (fst kv :: fst pv, snd pv)) (all_leaves (snd kv))) a
  end.
Definition ends_enabled (p : list string) : bool := match rev p with n :: _ => String.eqb n "is_enabled" | [] => false end.
(** The presets: "complete" switches everything on but the two statistics texts do not have; "data_types" switches every kind of
    profile off but the labelers; "numeric_stats_disabled" leaves of all statistics of numbers only bias correction, precision and vocabulary. *)
Definition preset_on (name : string) : list (list string) :=
  match run_preset name with
  | Ok o => map fst (filter (fun pv => (ends_enabled (fst pv) && match snd pv with VBool true => true | _ => false end)%bool) (all_leaves o))
  | Err _ => []
  end.
Definition preset_off (name : string) : list (list string) :=
  match run_preset name with
  | Ok o => map fst (filter (fun pv => (ends_enabled (fst pv) && match snd pv with VBool true => false | _ => true end)%bool) (all_leaves o))
  | Err _ => []
  end.
Theorem C76_presets :
  preset_off "complete" = [["structured_options"; "text"; "num_zeros"; "is_enabled"]; ["structured_options"; "text"; "num_negatives"; "is_enabled"]] /\
  filter (fun p => Nat.leb (length p) 3) (preset_on "data_types") =
    [["structured_options"; "data_labeler"; "is_enabled"]; ["unstructured_options"; "data_labeler"; "is_enabled"]] /\
  filter (fun p => match p with [s; k; _; _] => (String.eqb s "structured_options" && lmem ["int"; "float"; "text"] k)%bool | _ => false end) (preset_on "numeric_stats_disabled") =
    [["structured_options"; "int"; "bias_correction"; "is_enabled"]; ["structured_options"; "float"; "bias_correction"; "is_enabled"];
     ["structured_options"; "float"; "precision"; "is_enabled"]; ["structured_options"; "text"; "bias_correction"; "is_enabled"];
     ["structured_options"; "text"; "vocab"; "is_enabled"]] /\
  (match run_preset "lower_memory_sketching" with Ok o => all_leaves o | Err _ => [] end =
     map (fun pv => (fst pv,
       if String.eqb (joined (fst pv)) "structured_options.row_statistics.unique_count.hashing_method" then VStr "hll"
       else if String.eqb (joined (fst pv)) "structured_options.category.max_sample_size_to_check_stop_condition" then VInt 5000
       else if String.eqb (joined (fst pv)) "structured_options.category.stop_condition_unique_value_ratio" then VFloat (5 # 10)
       else if String.eqb (joined (fst pv)) "presets" then VStr "lower_memory_sketching" else snd pv)) (all_leaves profiler_default)) /\
  (forall n, run_preset n <> Err ValueError -> In n ["complete"; "data_types"; "numeric_stats_disabled"; "lower_memory_sketching"]).
Proof.
  split; [vm_compute; reflexivity|]. split; [vm_compute; reflexivity|]. split; [vm_compute; reflexivity|].
  split; [vm_compute; reflexivity|].
  intros n H. unfold run_preset, presets in H.
  destruct (String.eqb n "complete") eqn:E1; [apply String.eqb_eq in E1; subst; cbn; tauto|].
  destruct (String.eqb n "data_types") eqn:E2; [apply String.eqb_eq in E2; subst; cbn; tauto|].
  destruct (String.eqb n "numeric_stats_disabled") eqn:E3; [apply String.eqb_eq in E3; subst; cbn; tauto|].
  destruct (String.eqb n "lower_memory_sketching") eqn:E4; [apply String.eqb_eq in E4; subst; cbn; tauto|]. congruence.
Qed.

Fixpoint nowhere (o : opt) (n : string) : bool :=
  match o with Val _ => true | Opt c a => (negb (has c a n) && forallb (fun kv => nowhere (snd kv) n) a)%bool end.
Lemma nowhere_spec : forall n o, nowhere o n = true -> forall q c a, obj o q = Some (Opt c a) -> ~ owns c a n.
Proof.
  intros n. induction o as [w|c0 a0 IH] using opt_rect'; intros H q c a E; [destruct q; discriminate|].
  cbn [nowhere] in H. apply andb_prop in H as (H1 & H2). destruct q as [|m q]; cbn [obj] in E.
  - injection E as <- <-. intros X. apply has_owns in X. rewrite X in H1. discriminate.
  - destruct (dget a0 m) as [s|] eqn:D; [|discriminate]. apply dget_Some_In in D. rewrite forallb_forall in H2. rewrite Forall_forall in IH.
    exact (IH _ D (H2 _ D) q c a E).
Qed.

(** Findings *)
(** A misspelt name is not always refused. *)
Theorem C76_unknown_refuted : ~ forall key v n, In n key -> n <> "*" ->
  (forall q c a, obj profiler_default q = Some (Opt c a) -> ~ owns c a n) -> snd (profiler_set profiler_default [(key, v)]) <> None.
Proof.
  intros H. apply (H ["structured_options"; "intt"; "is_enabled"] (VBool false) "intt"); [cbn; tauto|discriminate| |vm_compute; reflexivity].
  apply nowhere_spec. vm_compute. reflexivity.
Qed.
(** The example of the documentation, set({"is_numeric_stats_enabled": False}), is refused. *)
Theorem C76_documented_refuted : snd (profiler_set profiler_default [(["is_numeric_stats_enabled"], VBool false)]) = Some AttributeError.
Proof. vm_compute. reflexivity. Qed.
(** A star does not reach every option of that name. *)
Theorem C76_every_refuted : ~ forall n v o' p w, profiler_set profiler_default [(["*"; n], v)] = (o', None) ->
  get profiler_default (p ++ [n]) = Some w -> get o' (p ++ [n]) = Some v.
Proof.
  intros H. assert (E := H "is_enabled" (VBool false) (fst (profiler_set profiler_default [(["*"; "is_enabled"], VBool false)]))
    ["structured_options"; "int"; "min"] (VBool true)).
  specialize (E ltac:(vm_compute; reflexivity) ltac:(vm_compute; reflexivity)). clear -E. vm_compute in E. discriminate E.
Qed.
(** An error does not mean that nothing was set, not even for one name. *)
Theorem C76_error_refuted : ~ forall key v o' e, profiler_set profiler_default [(key, v)] = (o', Some e) -> o' = profiler_default.
Proof.
  intros H. assert (E := H ["*"; "text"; "is_numeric_stats_enabled"] (VBool false)
    (fst (profiler_set profiler_default [(["*"; "text"; "is_numeric_stats_enabled"], VBool false)])) AttributeError).
  specialize (E ltac:(vm_compute; reflexivity)). clear -E. vm_compute in E. discriminate E.
Qed.
(** An option that exists cannot always be set by its last components: the structured options for text have no top_k_chars. *)
Theorem C76_existing_refuted : ~ forall q r v, get profiler_default (q ++ r) <> None -> r <> [] ->
  snd (profiler_set profiler_default [("*" :: r, v)]) = None.
Proof.
  intros H. assert (E := H ["unstructured_options"] ["text"; "top_k_chars"] (VInt 5)).
  specialize (E ltac:(vm_compute; discriminate) ltac:(discriminate)). clear -E. vm_compute in E. discriminate E.
Qed.
(** Not every name that stands for options of both kinds of data is refused. *)
Theorem C76_both_refuted : ~ forall key v p1 p2, hd_error key <> Some "*" -> hit profiler_default key ("structured_options" :: p1) ->
  hit profiler_default key ("unstructured_options" :: p2) -> snd (profiler_set profiler_default [(key, v)]) = Some ValueError.
Proof.
  intros H. assert (E := H ["vocab"; "is_enabled"] (VBool false) ["text"; "vocab"; "is_enabled"] ["text"; "vocab"; "is_enabled"]).
  assert (NM : names ["vocab"; "is_enabled"] false "vocab" ["is_enabled"]) by (constructor; discriminate).
  assert (NM2 : names ["is_enabled"] false "is_enabled" []) by (constructor; discriminate).
  specialize (E ltac:(discriminate)).
  assert (O : forall c a n, has c a n = false -> ~ owns c a n) by (intros c a n X Y; apply has_owns in Y; congruence).
  assert (HB : hit on ["is_enabled"] ["is_enabled"]) by (eapply hit_leaf; [exact NM2|reflexivity]).
  specialize (E ltac:(eapply hit_below; [exact NM|right; discriminate|apply O; vm_compute; reflexivity|reflexivity|];
    eapply hit_below; [exact NM|right; discriminate|apply O; vm_compute; reflexivity|reflexivity|];
    eapply hit_in; [exact NM|discriminate|reflexivity|]; exact HB)).
  specialize (E ltac:(eapply hit_below; [exact NM|right; discriminate|apply O; vm_compute; reflexivity|reflexivity|];
    eapply hit_below; [exact NM|right; discriminate|apply O; vm_compute; reflexivity|reflexivity|];
    eapply hit_in; [exact NM|discriminate|reflexivity|]; exact HB)).
  clear -E. vm_compute in E. discriminate E.
Qed.

Example C76_example :
  let r := profiler_set profiler_default [(["min"; "is_enabled"], VBool false); (["*"; "int"; "is_numeric_stats_enabled"], VBool true);
                                          (["structured_options"; "data_labeler"; "is_enabled"], VBool false)] in
  snd r = None /\ get (fst r) ["structured_options"; "int"; "min"; "is_enabled"] = Some (VBool true) /\
  get (fst r) ["structured_options"; "float"; "min"; "is_enabled"] = Some (VBool false) /\
  get (fst r) ["structured_options"; "data_labeler"; "is_enabled"] = Some (VBool false) /\
  get (fst r) ["unstructured_options"; "data_labeler"; "is_enabled"] = Some (VBool true).
Proof. vm_compute. repeat split. Qed.
