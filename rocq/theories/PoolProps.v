(** Property C23: updating through a pool of processes gives the same profiles as a single process. *)
From Coq Require Import ZArith QArith Qround Permutation Lqa.
From Verif Require Import QFacts ListFacts PyCommon PyDict PoolModel NullRepModel NullRepProps.
Local Open Scope nat_scope.

Section Compiler.
  Context {K V B : Type} {E : EqDecB K}.
  Variable update : V -> B -> result V.

  Lemma neqb (k k' : K) : k' <> k -> PyDict.eqb k k' = false.
  Proof. intro H. apply eqb_neq. congruence. Qed.
  Definition val (d : dict K (slot V)) (k : K) : option V := option_map s_val (dget d k).
  Lemma val_dset d k p k' : val (dset d k p) k' = if PyDict.eqb k k' then Some (s_val p) else val d k'.
  Proof. unfold val. rewrite dget_dset. destruct (PyDict.eqb k k'); reflexivity. Qed.
  Lemma dkeys_dset_in (d : dict K (slot V)) k p v : val d k = Some v -> dkeys (dset d k p) = dkeys d.
  Proof. intro H. rewrite dkeys_dset. unfold dmem, val in *. destruct (dget d k); [reflexivity|discriminate]. Qed.

  Lemma singly_spec b : forall ks d, NoDup ks -> (forall k, In k ks -> exists v, val d k = Some v) ->
    match update_singly update ks d b with
    | Ok d' => dkeys d' = dkeys d /\ (forall k, In k ks -> exists v v', val d k = Some v /\ update v b = Ok v' /\ val d' k = Some v') /\ (forall k, ~ In k ks -> val d' k = val d k)
    | Err e => exists k v, In k ks /\ val d k = Some v /\ update v b = Err e
    end.
  Proof.
    induction ks as [|k ks IH]; intros d HN HV; cbn [update_singly]; [repeat split; auto; intros ? []|]. inversion HN as [|? ? Hk HN']; subst. destruct (HV k (or_introl eq_refl)) as [v Hv]. pose proof Hv as Hv0. unfold val in Hv. destruct (dget d k) as [p|] eqn:EG; [|discriminate]. cbn [option_map] in Hv. injection Hv as Hv. rewrite Hv.
    destruct (update v b) as [v'|e] eqn:EU; cbn [bind]; [|exists k, v; split; [left; reflexivity|auto]].
    set (d1 := dset d k (mkSlot (s_safe p) v')). assert (forall k', k' <> k -> val d1 k' = val d k') as HO by (intros k' Hn; unfold d1; rewrite val_dset, neqb by exact Hn; reflexivity).
    assert (forall k', In k' ks -> val d1 k' = val d k') as HO' by (intros k' Hi; apply HO; intros ->; contradiction).
    specialize (IH d1 HN' ltac:(intros k' Hi; rewrite (HO' k' Hi); apply HV; right; exact Hi)). destruct (update_singly update ks d1 b) as [d'|e].
    - destruct IH as (I1 & I2 & I3). split; [rewrite I1; apply (dkeys_dset_in d k _ v Hv0)|]. split.
      + intros k' [<-|Hi].
        * exists v, v'. split; [exact Hv0|]. split; [exact EU|]. rewrite (I3 k Hk). unfold d1. rewrite val_dset, eqb_refl. reflexivity.
        * rewrite <- (HO' k' Hi). apply I2. exact Hi.
      + intros k' Hn. rewrite I3 by (intro; apply Hn; right; assumption). apply HO. intros ->. apply Hn. left. reflexivity.
    - destruct IH as (k' & v1 & Hi & Hv1 & HU). exists k', v1. rewrite (HO' k' Hi) in Hv1. split; [right; exact Hi|auto].
  Qed.

  Lemma submit_spec s : forall d d1 single multi, NoDup (dkeys d) -> submit s d = (d1, single, multi) ->
    dkeys d1 = dkeys d /\ (forall k, val d1 k = val d k) /\ NoDup (single ++ dkeys multi) /\ (forall k, In k (dkeys d) <-> In k (single ++ dkeys multi)) /\
    (forall k v, In (k, v) multi -> val d k = Some v).
  Proof.
    induction d as [|[k p] d IH]; intros d1 single multi HN HS; cbn [submit] in HS.
    - injection HS as <- <- <-. cbn. repeat split; try constructor; intros; try contradiction; auto.
    - destruct (submit s d) as [[rest s'] m'] eqn:ES. cbn [dkeys map fst] in HN. inversion HN as [|? ? Hk HN']; subst. destruct (IH rest s' m' HN' eq_refl) as (I1 & I2 & I3 & I4 & I5).
      assert (forall a b c : dict K (slot V), True) as _ by auto.
      assert (forall q, s_val q = s_val p -> forall k', val ((k, q) :: rest) k' = val ((k, p) :: d) k') as HVal.
      { intros q Hq k'. unfold val in *. cbn [dget]. destruct (PyDict.eqb k k'); [cbn [option_map]; rewrite Hq; reflexivity|apply I2]. }
      assert (forall k' v, In (k', v) m' -> val ((k, p) :: d) k' = Some v) as HM.
      { intros k' v Hi. specialize (I5 k' v Hi). unfold val in *. cbn [dget]. destruct (eqb_spec k k') as [<-|]; [|exact I5]. exfalso. apply Hk. apply (proj2 (I4 k)). apply in_app_iff. right. apply (in_map fst) in Hi. exact Hi. }
      assert (~ In k (s' ++ dkeys m')) as Hk' by (rewrite <- I4; exact Hk).
      destruct (s_safe p); [destruct (refuse s k)|]; injection HS as <- <- <-.
      + split; [cbn; f_equal; exact I1|]. split; [apply HVal; reflexivity|]. split; [cbn [app]; constructor; assumption|]. split; [|exact HM]. intro k'. cbn [dkeys map fst app]. cbn [In]. rewrite <- I4. reflexivity.
      + split; [cbn; f_equal; exact I1|]. split; [apply HVal; reflexivity|]. split; [|split].
        * cbn [dkeys map fst]. apply Permutation_NoDup with (k :: s' ++ dkeys m'); [apply Permutation_middle|]. constructor; assumption.
        * intro k'. change (In k' (k :: dkeys d) <-> In k' (s' ++ k :: dkeys m')). rewrite <- (Permutation_middle s' (dkeys m') k). cbn [In]. rewrite <- I4. reflexivity.
        * intros k' v [H|H]; [injection H as <- <-; unfold val; cbn [dget]; rewrite eqb_refl; reflexivity|apply HM; exact H].
      + split; [cbn; f_equal; exact I1|]. split; [apply HVal; reflexivity|]. split; [cbn [app]; constructor; assumption|]. split; [|exact HM]. intro k'. cbn [dkeys map fst app]. cbn [In]. rewrite <- I4. reflexivity.
  Qed.

  Lemma collect_spec s b : forall multi d d' single, NoDup (dkeys multi) -> (forall k v, In (k, v) multi -> val d k = Some v) -> collect update s multi d b = (d', single) ->
    dkeys d' = dkeys d /\ NoDup single /\ (forall k, In k single -> In k (dkeys multi) /\ val d' k = val d k) /\
    (forall k, ~ In k (dkeys multi) -> val d' k = val d k) /\
    (forall k v, In (k, v) multi -> In k single \/ exists v', update v b = Ok v' /\ val d' k = Some v').
  Proof.
    induction multi as [|[k v] multi IH]; intros d d' single HN HV HC.
    - cbn [collect] in HC. injection HC as <- <-. repeat split; auto; try constructor; intros; contradiction.
    - cbn [dkeys map fst] in HN. inversion HN as [|? ? Hk HN']; subst. pose proof (HV k v (or_introl eq_refl)) as Hv.
      assert (forall d1, (forall k', k' <> k -> val d1 k' = val d k') -> forall k' v', In (k', v') multi -> val d1 k' = Some v') as HV'.
      { intros d1 H1 k' v' Hi. rewrite H1; [apply HV; right; exact Hi|]. intros ->. apply Hk. apply (in_map fst) in Hi. exact Hi. }
      set (bad := match update v b with Ok _ => fail s k | Err _ => true end).
      assert (collect update s ((k, v) :: multi) d b = match update v b with
        | Ok v' => if fail s k then let '(d2, single) := collect update s multi (match dget d k with Some p => dset d k (mkSlot false (s_val p)) | None => d end) b in (d2, k :: single) else collect update s multi (dset d k (mkSlot true v')) b
        | Err _ => let '(d2, single) := collect update s multi (match dget d k with Some p => dset d k (mkSlot false (s_val p)) | None => d end) b in (d2, k :: single) end) as HEq.
      { cbn [collect]. destruct (update v b), (fail s k); reflexivity. }
      rewrite HEq in HC. clear HEq.
      destruct bad eqn:EB.
      + assert (exists d1 d2 sg, collect update s multi d1 b = (d2, sg) /\ d' = d2 /\ single = k :: sg /\ (forall k', val d1 k' = val d k') /\ dkeys d1 = dkeys d) as (d1 & d2 & sg & HC1 & -> & -> & HV1 & HK1).
        { unfold val in Hv. destruct (dget d k) as [p|] eqn:EG; [|discriminate]. set (d1 := dset d k (mkSlot false (s_val p))) in *. exists d1. destruct (collect update s multi d1 b) as [d2 sg] eqn:EC. exists d2, sg.
          assert (forall k', val d1 k' = val d k') as H1 by (intro k'; unfold d1; rewrite val_dset; cbn [s_val]; destruct (eqb_spec k k') as [<-|]; [unfold val; rewrite EG; reflexivity|reflexivity]).
          assert (dkeys d1 = dkeys d) as H2 by (apply (dkeys_dset_in d k _ v); unfold val; rewrite EG; exact Hv).
          unfold bad in EB. destruct (update v b); [destruct (fail s k); [|discriminate]|]; injection HC as <- <-; auto. }
        destruct (IH d1 d2 sg HN' (HV' d1 (fun k' _ => HV1 k')) HC1) as (I1 & I2 & I3 & I4 & I5). split; [congruence|]. split; [|split; [|split]].
        * constructor; [|exact I2]. intro H. apply I3 in H. destruct H. contradiction.
        * intros k' [<-|H]; [split; [left; reflexivity|]; rewrite (I4 k Hk); apply HV1|]. destruct (I3 k' H) as [H1 H2]. split; [right; exact H1|]. rewrite H2. apply HV1.
        * intros k' H. rewrite I4 by (intro; apply H; right; assumption). apply HV1.
        * intros k' v' [H|H]; [injection H as <- <-; left; left; reflexivity|]. destruct (I5 k' v' H) as [H1|H1]; [left; right; exact H1|right; exact H1].
      + unfold bad in EB. destruct (update v b) as [v1|] eqn:EU; [|discriminate]. rewrite EB in HC. set (d1 := dset d k (mkSlot true v1)) in *.
        assert (forall k', k' <> k -> val d1 k' = val d k') as HV1 by (intros k' Hn; unfold d1; rewrite val_dset, neqb by exact Hn; reflexivity).
        destruct (IH d1 d' single HN' (HV' d1 HV1) HC) as (I1 & I2 & I3 & I4 & I5). split; [rewrite I1; apply (dkeys_dset_in d k _ v Hv)|]. split; [exact I2|]. split; [|split].
        * intros k' H. destruct (I3 k' H) as [H1 H2]. split; [right; exact H1|]. rewrite H2. apply HV1. intros ->. contradiction.
        * intros k' H. rewrite I4 by (intro; apply H; right; assumption). apply HV1. intros ->. apply H. left. reflexivity.
        * intros k' v' [H|H]; [injection H as <- <-|apply (I5 k' v' H)]. right. exists v1. split; [exact EU|]. rewrite (I4 k Hk). unfold d1. rewrite val_dset, eqb_refl. reflexivity.
  Qed.

  (** C23.  Whatever the pool does, the profiles of a column end up with the same keys in the same order, each updated once
      with the batch; an error is one that updating one of the profiles raises. *)
  Definition updated (b : B) (d d' : dict K (slot V)) : Prop := Forall2 (fun x y => fst x = fst y /\ update (s_val (snd x)) b = Ok (s_val (snd y))) d d'.
  Lemma updated_val b d : forall d', NoDup (dkeys d) -> dkeys d' = dkeys d -> (forall k v, val d k = Some v -> exists v', update v b = Ok v' /\ val d' k = Some v') -> updated b d d'.
  Proof.
    induction d as [|[k p] d IH]; intros d' HN HK HV; destruct d' as [|[k' p'] d']; try discriminate; [constructor|]. cbn [dkeys map fst] in HK, HN. injection HK as -> HK. inversion HN as [|? ? Hk HN']; subst. constructor.
    - cbn [fst snd]. split; [reflexivity|]. destruct (HV k (s_val p)) as (v' & HU & HV'); [unfold val; cbn [dget]; rewrite eqb_refl; reflexivity|]. unfold val in HV'. cbn [dget] in HV'. rewrite eqb_refl in HV'. cbn [option_map] in HV'. congruence.
    - apply IH; [exact HN'|exact HK|]. intros k' v H. assert (k' <> k) as Hn. { intros ->. apply Hk. unfold val in H. destruct (dget d k) as [q|] eqn:EG; [|discriminate]. apply dget_Some_In in EG. apply (in_map fst) in EG. exact EG. }
      destruct (HV k' v) as (v' & HU & HV'); [unfold val in *; cbn [dget]; rewrite neqb by exact Hn; exact H|]. exists v'. split; [exact HU|]. unfold val in *. cbn [dget] in HV'. rewrite neqb in HV' by exact Hn. exact HV'.
  Qed.
  Theorem C23_profiles pool d b : NoDup (dkeys d) ->
    match update_profile update pool d b with
    | Ok d' => updated b d d'
    | Err e => exists k p, In (k, p) d /\ update (s_val p) b = Err e
    end.
  Proof.
    intro HN. destruct pool as [s|]; cbn [update_profile].
    - destruct (submit s d) as [[d1 single] multi] eqn:ES. destruct (submit_spec s d d1 single multi HN ES) as (K1 & V1 & N1 & M1 & P1).
      assert (forall k, In k (dkeys d) -> exists v, val d k = Some v) as HIn. { intros k Hk. unfold val. destruct (dget d k) as [p|] eqn:EG; [exists (s_val p); reflexivity|]. apply dget_None in EG. contradiction. }
      assert (NoDup single /\ NoDup (dkeys multi) /\ (forall k, In k single -> ~ In k (dkeys multi))) as (NS & NM & ND). { split; [apply NoDup_app_l in N1; exact N1|]. split; [apply NoDup_app_r in N1; exact N1|]. intros k H1 H2. apply in_split in H1 as (l1 & l2 & ->). rewrite <- app_assoc in N1. cbn [app] in N1. apply NoDup_remove_2 in N1. apply N1. apply in_app_iff. right. apply in_app_iff. right. exact H2. }
      pose proof (singly_spec b single d1 NS) as H1. specialize (H1 ltac:(intros k Hk; rewrite V1; apply HIn; apply M1; apply in_app_iff; auto)). destruct (update_singly update single d1 b) as [d2|e]; cbn [bind].
      + destruct H1 as (K2 & A2 & B2). destruct (collect update s multi d2 b) as [d3 failed] eqn:EC.
        assert (forall k v, In (k, v) multi -> val d2 k = Some v) as P2. { intros k v H. rewrite B2, V1; [apply P1; exact H|]. intro Hs. apply (ND k Hs). apply (in_map fst) in H. exact H. }
        destruct (collect_spec s b multi d2 d3 failed NM P2 EC) as (K3 & N3 & A3 & B3 & C3).
        assert (forall k, In k (dkeys multi) -> exists v, In (k, v) multi) as HMu by (intros k Hk; apply in_map_iff in Hk as ([k' v] & <- & Hk); exists v; exact Hk).
        pose proof (singly_spec b failed d3 N3) as H4. specialize (H4 ltac:(intros k Hk; destruct (A3 k Hk) as [Hm ->]; destruct (HMu k Hm) as [v Hv]; exists v; apply P2; exact Hv)). destruct (update_singly update failed d3 b) as [d4|e].
        * destruct H4 as (K4 & A4 & B4). apply updated_val; [exact HN|congruence|]. intros k v Hv. assert (In k (dkeys d)) as Hk. { unfold val in Hv. destruct (dget d k) as [q|] eqn:EG; [|discriminate]. apply dget_Some_In in EG. apply (in_map fst) in EG. exact EG. }
          apply M1, in_app_iff in Hk as [Hk|Hk].
          -- destruct (A2 k Hk) as (v0 & v' & HV0 & HU & HV2). rewrite V1, Hv in HV0. injection HV0 as <-. exists v'. split; [exact HU|]. rewrite B4, (B3 k (ND k Hk)); [exact HV2|]. intro Hf. apply A3 in Hf as [Hf _]. apply (ND k Hk Hf).
          -- destruct (HMu k Hk) as [v0 Hv0]. assert (v0 = v) as -> by (specialize (P1 k v0 Hv0); congruence). destruct (C3 k v Hv0) as [Hf|(v' & HU & HV3)].
             ++ destruct (A4 k Hf) as (v1 & v' & HV1 & HU & HV4). destruct (A3 k Hf) as [_ HV3]. rewrite HV3, (P2 k v Hv0) in HV1. injection HV1 as <-. exists v'. auto.
             ++ destruct (in_dec (fun x y => match eqb_spec x y with ReflectT _ H => left H | ReflectF _ H => right H end) k failed) as [Hf|Hf].
                ** destruct (A4 k Hf) as (v1 & v2 & HV1 & HU1 & HV4). destruct (A3 k Hf) as [_ HV3']. rewrite HV3', (P2 k v Hv0) in HV1. injection HV1 as <-. exists v2. auto.
                ** exists v'. split; [exact HU|]. rewrite B4 by exact Hf. exact HV3.
        * destruct H4 as (k & v & Hk & Hv & HU). destruct (A3 k Hk) as [Hm HV3]. destruct (HMu k Hm) as [v0 Hv0]. rewrite HV3, (P2 k v0 Hv0) in Hv. injection Hv as ->. specialize (P1 k v Hv0). unfold val in P1. destruct (dget d k) as [p|] eqn:EG; [|discriminate]. exists k, p. split; [apply dget_Some_In; exact EG|]. cbn [option_map] in P1. congruence.
      + destruct H1 as (k & v & Hk & Hv & HU). rewrite V1 in Hv. unfold val in Hv. destruct (dget d k) as [p|] eqn:EG; [|discriminate]. exists k, p. split; [apply dget_Some_In; exact EG|]. cbn [option_map] in Hv. congruence.
    - clear HN. induction d as [|[k p] d IH]; cbn [update_each]; [constructor|]. destruct (update (s_val p) b) as [v|e] eqn:EU; cbn [bind]; [|exists k, p; split; [left; reflexivity|exact EU]]. destruct (update_each update d b) as [d'|e]; cbn [bind].
      + constructor; [|exact IH]. split; [reflexivity|exact EU].
      + destruct IH as (k' & p' & Hi & HU). exists k', p'. split; [right; exact Hi|exact HU].
  Qed.

  (** Over any number of batches, each with or without a pool: the values agree with those of a single process *)
  Fixpoint run (steps : list (option (schedule K) * B)) (d : dict K (slot V)) : result (dict K (slot V)) :=
    match steps with [] => Ok d | (pool, b) :: r => bind (update_profile update pool d b) (run r) end.
  Definition values (d : dict K (slot V)) : dict K V := map (fun x => (fst x, s_val (snd x))) d.
  Definition same (x y : result (dict K (slot V))) : Prop :=
    match x, y with Ok a, Ok b => values a = values b | Err _, Err _ => True | _, _ => False end.
  Lemma updated_same b d1 d2 : forall e1 e2, values d1 = values d2 -> updated b d1 e1 -> updated b d2 e2 -> values e1 = values e2.
  Proof.
    revert d2. induction d1 as [|[k p] d1 IH]; intros [|[k' p'] d2] e1 e2 HV U1 U2; try discriminate; inversion U1 as [|? [k1 q1] ? ? [F1 G1] U1']; inversion U2 as [|? [k2 q2] ? ? [F2 G2] U2']; subst; [reflexivity|]. cbn [values map fst snd] in *. injection HV as -> HP HV. subst k1 k2. rewrite HP in G1. f_equal; [f_equal; congruence|]. eapply IH; eauto.
  Qed.
  Lemma updated_keys b d d' : updated b d d' -> dkeys d' = dkeys d.
  Proof. intro H. induction H as [|x y ? ? [HF _] _ IH]; [reflexivity|]. cbn [dkeys map]. f_equal; [congruence|exact IH]. Qed.
  Lemma updated_all b d d' : updated b d d' -> forall k p, In (k, p) d -> exists v, update (s_val p) b = Ok v.
  Proof. intro H. induction H as [|x y ? ? [_ HU] _ IH]; [intros ? ? []|]. intros k p [->|Hi]; [eexists; exact HU|apply (IH k p Hi)]. Qed.
  Lemma values_in d1 d2 k p : values d1 = values d2 -> In (k, p) d1 -> exists p', In (k, p') d2 /\ s_val p' = s_val p.
  Proof. intros HV HI. assert (In (k, s_val p) (values d2)) as H. { rewrite <- HV. apply in_map_iff. exists (k, p). auto. } apply in_map_iff in H as ([k' p'] & HE & H). injection HE as -> HE. exists p'. auto. Qed.
  Theorem C23_schedules steps : forall steps' d d', map snd steps = map snd steps' -> NoDup (dkeys d) -> values d = values d' -> same (run steps d) (run steps' d').
  Proof.
    induction steps as [|[pool b] steps IH]; intros [|[pool' b'] steps'] d d' HS HN HV; try discriminate; [exact HV|]. cbn [map snd] in HS. injection HS as <- HS. cbn [run].
    assert (dkeys d' = dkeys d) as HK. { transitivity (dkeys (values d')); [unfold dkeys, values; rewrite map_map; reflexivity|]. rewrite <- HV. unfold dkeys, values. rewrite map_map. reflexivity. }
    assert (NoDup (dkeys d')) as HN' by (rewrite HK; exact HN). pose proof (C23_profiles pool d b HN) as H1. pose proof (C23_profiles pool' d' b HN') as H2.
    destruct (update_profile update pool d b) as [e1|x1], (update_profile update pool' d' b) as [e2|x2]; cbn [bind].
    - apply IH; [exact HS|rewrite (updated_keys b d e1 H1); exact HN|apply (updated_same b d d'); assumption].
    - exfalso. destruct H2 as (k & p & Hi & HU). destruct (values_in d' d k p (eq_sym HV) Hi) as (p' & Hi' & HE). destruct (updated_all b d e1 H1 k p' Hi') as [v Hv]. rewrite HE in Hv. congruence.
    - exfalso. destruct H1 as (k & p & Hi & HU). destruct (values_in d d' k p HV Hi) as (p' & Hi' & HE). destruct (updated_all b d' e2 H2 k p' Hi') as [v Hv]. rewrite HE in Hv. congruence.
    - exact I.
  Qed.
End Compiler.

Lemma nth_error_eq {A} (a : list A) : forall b, (forall i, nth_error a i = nth_error b i) -> a = b.
Proof. induction a as [|x a IH]; intros [|y b] H; [reflexivity|specialize (H 0); discriminate..|]. f_equal; [specialize (H 0); cbn in H; congruence|]. apply IH. intro i. apply (H (Datatypes.S i)). Qed.

Section Table.
  Context {P C S T : Type}.
  Variable clean : C -> result (S * T).
  Variable base : P -> T -> P * option exn.
  Variable profilers : P -> S -> result P.
  (** Whether the base statistics can be used does not depend on the profile *)
  Hypothesis base_fails : forall p p' t, snd (base p t) = snd (base p' t).

  (** ** What is expected: the profile of a column updated with a column of the batch *)
  Definition step (p : P) (c : C) : result P :=
    bind (clean c) (fun r => match snd (base p (snd r)) with None => profilers (fst (base p (snd r))) (fst r) | Some e => Err e end).

  Lemma set_nth_length (l : list P) : forall i x, length (set_nth l i x) = length l.
  Proof. induction l as [|y l IH]; intros [|i] x; cbn; auto. Qed.
  Lemma set_nth_get (l : list P) : forall i x j, nth_error (set_nth l i x) j = if j =? i then (if i <? length l then Some x else None) else nth_error l j.
  Proof.
    induction l as [|y l IH]; intros i x j; cbn [set_nth length].
    - destruct j; cbn; destruct i; cbn; reflexivity || (destruct (j =? i); reflexivity).
    - destruct i as [|i], j as [|j]; cbn [nth_error]; try reflexivity. rewrite IH. reflexivity.
  Qed.

  (** A column that was processed: its cleaned values and its profile with the base statistics *)
  Definition done (ps : list P) (st : tstate (P := P) (S := S)) (i : nat) (c : C) : Prop :=
    exists x t p, clean c = Ok (x, t) /\ nth_error ps i = Some p /\ snd (base p t) = None /\ dget (t_clean st) i = Some x /\ nth_error (t_profiles st) i = Some (fst (base p t)).
  Definition faulty (ps : list P) (i : nat) (c : C) (e : exn) : Prop :=
    clean c = Err e \/ exists x t p, clean c = Ok (x, t) /\ nth_error ps i = Some p /\ snd (base p t) = Some e.

  Lemma columns_singly_spec : forall cols (st : tstate (P := P) (S := S)), NoDup (map fst cols) -> (forall i c, In (i, c) cols -> i < length (t_profiles st)) ->
    match columns_singly clean base cols st with
    | Ok st' => (forall i c, In (i, c) cols -> done (t_profiles st) st' i c) /\
        length (t_profiles st') = length (t_profiles st) /\ (forall i, ~ In i (map fst cols) -> nth_error (t_profiles st') i = nth_error (t_profiles st) i /\ dget (t_clean st') i = dget (t_clean st) i) /\
        dkeys (t_clean st') = dkeys (t_clean st) ++ filter (fun i => negb (dmem (t_clean st) i)) (map fst cols)
    | Err e => exists i c, In (i, c) cols /\ faulty (t_profiles st) i c e
    end.
  Proof.
    induction cols as [|[i c] cols IH]; intros st HN HI; cbn [columns_singly].
    - split; [intros ? ? []|]. split; [reflexivity|]. split; [auto|]. cbn. rewrite app_nil_r. reflexivity.
    - cbn [map fst] in HN. inversion HN as [|? ? Hi HN']; subst. unfold one_column. destruct (clean c) as [[x t]|e] eqn:EC; cbn [bind]; [|exists i, c; split; [left; reflexivity|left; exact EC]]. cbn [fst snd t_profiles t_clean].
      pose proof (HI i c (or_introl eq_refl)) as Hl. destruct (nth_error (t_profiles st) i) as [p|] eqn:EN; [|apply nth_error_None in EN; lia].
      destruct (base p t) as [p' [e|]] eqn:EB; cbn [bind]; [exists i, c; split; [left; reflexivity|]; right; exists x, t, p; rewrite EB; auto|].
      set (st1 := mkT (set_nth (t_profiles st) i p') (dset (t_clean st) i x)). assert (t_profiles st1 = set_nth (t_profiles st) i p') as E1 by reflexivity. assert (t_clean st1 = dset (t_clean st) i x) as E2 by reflexivity. clearbody st1. specialize (IH st1 HN'). rewrite E1, E2, set_nth_length in IH. specialize (IH (fun j c' H => HI j c' (or_intror H))).
      assert (forall j, j <> i -> nth_error (set_nth (t_profiles st) i p') j = nth_error (t_profiles st) j) as HO by (intros j Hj; rewrite set_nth_get; apply Nat.eqb_neq in Hj; rewrite Hj; reflexivity).
      assert (forall j c', In (j, c') cols -> j <> i) as HJ by (intros j c' H ->; apply Hi; apply (in_map fst) in H; exact H).
      destruct (columns_singly clean base cols st1) as [st'|e].
      + destruct IH as (I1 & I2 & I3 & I4). split; [|split; [exact I2|split]].
        * intros j c' [H|H].
          -- injection H as <- <-. destruct (I3 i Hi) as [I5 I6]. exists x, t, p. split; [exact EC|]. split; [exact EN|]. rewrite EB. cbn [fst snd]. split; [reflexivity|]. cbn [t_profiles t_clean] in I5, I6. split; [rewrite I6, dget_dset, eqb_refl; reflexivity|]. rewrite I5, set_nth_get, Nat.eqb_refl. apply Nat.ltb_lt in Hl. rewrite Hl. reflexivity.
          -- destruct (I1 j c' H) as (x1 & t1 & p1 & D1 & D2 & D3 & D4 & D5). exists x1, t1, p1. cbn [t_profiles] in D2. rewrite (HO j (HJ j c' H)) in D2. repeat split; assumption.
        * intros j Hj. assert (j <> i) as Hji by (intros ->; apply Hj; left; reflexivity). destruct (I3 j (fun H => Hj (or_intror H))) as [I5 I6]. cbn [t_profiles t_clean] in I5, I6. rewrite I5, I6. split; [apply HO; exact Hji|]. rewrite dget_dset. destruct (PyDict.eqb_spec i j); [congruence|reflexivity].
        * rewrite I4. cbn [t_clean map fst filter]. rewrite dkeys_dset.
          assert (filter (fun k => negb (dmem (dset (t_clean st) i x) k)) (map fst cols) = filter (fun k => negb (dmem (t_clean st) k)) (map fst cols)) as ->.
          { apply filter_ext_in. intros k Hk. unfold dmem. rewrite dget_dset. destruct (PyDict.eqb_spec i k) as [->|]; [contradiction|reflexivity]. }
          destruct (dmem (t_clean st) i); cbn [negb]; [reflexivity|]. rewrite <- app_assoc. reflexivity.
      + destruct IH as (j & c' & H & HF). exists j, c'. split; [right; exact H|]. destruct HF as [HF|(x1 & t1 & p1 & D1 & D2 & D3)]; [left; exact HF|right]. exists x1, t1, p1. rewrite (HO j (HJ j c' H)) in D2. auto.
  Qed.

  (** What the pool leaves: columns done, and columns to be done again *)
  Definition untouched (ps : list P) (st : tstate (P := P) (S := S)) (i : nat) : Prop := nth_error (t_profiles st) i = nth_error ps i /\ dget (t_clean st) i = None.
  Definition broken (ps : list P) (i : nat) (c : C) : Prop := exists x t p e, clean c = Ok (x, t) /\ nth_error ps i = Some p /\ snd (base p t) = Some e.
  Lemma collect_columns_spec s : forall tasks (st st' : tstate (P := P) (S := S)) failed, NoDup (map fst tasks) -> (forall i c, In (i, c) tasks -> i < length (t_profiles st) /\ dget (t_clean st) i = None) ->
    collect_columns clean base s tasks st = (st', failed) ->
    length (t_profiles st') = length (t_profiles st) /\ NoDup (map fst failed) /\ (forall x, In x failed -> In x tasks) /\
    (forall i c, In (i, c) tasks -> (~ In i (map fst failed) /\ done (t_profiles st) st' i c) \/ (In (i, c) failed /\ (broken (t_profiles st) i c \/ untouched (t_profiles st) st' i))) /\
    (forall i, ~ In i (map fst tasks) -> nth_error (t_profiles st') i = nth_error (t_profiles st) i /\ dget (t_clean st') i = dget (t_clean st) i) /\
    ((forall i c, In (i, c) tasks -> (exists r, clean c = Ok r) /\ ~ broken (t_profiles st) i c) ->
       failed = filter (fun x => fail s (fst x)) tasks /\ dkeys (t_clean st') = dkeys (t_clean st) ++ map fst (filter (fun x => negb (fail s (fst x))) tasks)).
  Proof.
    induction tasks as [|[i c] tasks IH]; intros st st' failed HN HI HC; cbn [collect_columns] in HC.
    - injection HC as <- <-. split; [reflexivity|]. split; [constructor|]. split; [auto|]. split; [intros ? ? []|]. split; [auto|]. intros _. cbn. rewrite app_nil_r. auto.
    - cbn [map fst] in HN. inversion HN as [|? ? Hi HN']; subst. destruct (HI i c (or_introl eq_refl)) as [Hl Hg].
      assert (forall j c', In (j, c') tasks -> j <> i) as HJ by (intros j c' H ->; apply Hi; apply (in_map fst) in H; exact H).
      (* any step that changes at most column i *)
      assert (forall st1 st2 fl, length (t_profiles st1) = length (t_profiles st) -> (forall j, j <> i -> nth_error (t_profiles st1) j = nth_error (t_profiles st) j /\ dget (t_clean st1) j = dget (t_clean st) j) ->
        collect_columns clean base s tasks st1 = (st2, fl) ->
        length (t_profiles st2) = length (t_profiles st) /\ NoDup (map fst fl) /\ (forall x, In x fl -> In x tasks) /\
        (forall j c', In (j, c') tasks -> (~ In j (map fst fl) /\ done (t_profiles st) st2 j c') \/ (In (j, c') fl /\ (broken (t_profiles st) j c' \/ untouched (t_profiles st) st2 j))) /\
        (forall j, ~ In j (map fst tasks) -> j <> i -> nth_error (t_profiles st2) j = nth_error (t_profiles st) j /\ dget (t_clean st2) j = dget (t_clean st) j) /\
        (nth_error (t_profiles st2) i = nth_error (t_profiles st1) i /\ dget (t_clean st2) i = dget (t_clean st1) i) /\
        ((forall j c', In (j, c') tasks -> (exists r, clean c' = Ok r) /\ ~ broken (t_profiles st) j c') ->
           fl = filter (fun x => fail s (fst x)) tasks /\ dkeys (t_clean st2) = dkeys (t_clean st1) ++ map fst (filter (fun x => negb (fail s (fst x))) tasks))) as HS.
      { intros st1 st2 fl HL HO HC1. destruct (IH st1 st2 fl HN') as (I1 & I2 & I3 & I4 & I5 & I6); [|exact HC1|].
        { intros j c' H. destruct (HI j c' (or_intror H)) as [H1 H2]. destruct (HO j (HJ j c' H)) as [_ ->]. rewrite HL. auto. }
        split; [congruence|]. split; [exact I2|]. split; [exact I3|]. split; [|split; [|split]].
        - intros j c' H. destruct (HO j (HJ j c' H)) as [H1 H2]. unfold done, broken, untouched in *. destruct (I4 j c' H) as [[H3 (x & t & p & D1 & D2 & D3)]|[H3 [(x & t & p & e & D1 & D2 & D3)|[D1 D2]]]].
          + left. split; [exact H3|]. exists x, t, p. rewrite H1 in D2. auto.
          + right. split; [exact H3|]. left. exists x, t, p, e. rewrite H1 in D2. auto.
          + right. split; [exact H3|]. right. rewrite H1 in D1. auto.
        - intros j Hj Hji. destruct (I5 j Hj) as [-> ->]. apply HO. exact Hji.
        - apply I5. exact Hi.
        - intro HA. apply I6. intros j c' H. destruct (HA j c' H) as [H1 H2]. split; [exact H1|]. intros (x & t & p & e & D1 & D2 & D3). apply H2. exists x, t, p, e. destruct (HO j (HJ j c' H)) as [H4 _]. rewrite H4 in D2. auto. }
      (* the column fails *)
      assert (forall st1 st2 fl, length (t_profiles st1) = length (t_profiles st) -> (forall j, j <> i -> nth_error (t_profiles st1) j = nth_error (t_profiles st) j /\ dget (t_clean st1) j = dget (t_clean st) j) ->
        (broken (t_profiles st) i c \/ (st1 = st /\ (fail s i = true \/ exists e, clean c = Err e))) -> collect_columns clean base s tasks st1 = (st2, fl) -> st' = st2 -> failed = (i, c) :: fl ->
        length (t_profiles st') = length (t_profiles st) /\ NoDup (map fst failed) /\ (forall x, In x failed -> In x ((i, c) :: tasks)) /\
        (forall j c', In (j, c') ((i, c) :: tasks) -> (~ In j (map fst failed) /\ done (t_profiles st) st' j c') \/ (In (j, c') failed /\ (broken (t_profiles st) j c' \/ untouched (t_profiles st) st' j))) /\
        (forall j, ~ In j (map fst ((i, c) :: tasks)) -> nth_error (t_profiles st') j = nth_error (t_profiles st) j /\ dget (t_clean st') j = dget (t_clean st) j) /\
        ((forall j c', In (j, c') ((i, c) :: tasks) -> (exists r, clean c' = Ok r) /\ ~ broken (t_profiles st) j c') ->
          failed = filter (fun x => fail s (fst x)) ((i, c) :: tasks) /\ dkeys (t_clean st') = dkeys (t_clean st) ++ map fst (filter (fun x => negb (fail s (fst x))) ((i, c) :: tasks)))) as HF.
      { intros st1 st2 fl HL HO HB HC1 -> ->. destruct (HS st1 st2 fl HL HO HC1) as (I1 & I2 & I3 & I4 & I5 & I6 & I7). split; [exact I1|]. split; [|split; [|split; [|split]]].
        - cbn [map fst]. constructor; [|exact I2]. intro H. apply in_map_iff in H as ([j c'] & HE & H). cbn in HE. subst j. apply Hi. apply I3 in H. apply (in_map fst) in H. exact H.
        - intros x [<-|H]; [left; reflexivity|right; apply I3; exact H].
        - intros j c' [H|H].
          + injection H as <- <-. right. split; [left; reflexivity|]. destruct HB as [HB|[-> _]]; [left; exact HB|right]. unfold untouched. destruct I6 as [-> ->]. split; [reflexivity|exact Hg].
          + destruct (I4 j c' H) as [[H1 H2]|[H1 H2]]; [left|right].
            * split; [|exact H2]. cbn [map fst]. intros [H3|H3]; [|contradiction]. apply (HJ j c' H). symmetry. exact H3.
            * split; [right; exact H1|exact H2].
        - intros j Hj. apply I5; [intro; apply Hj; right; assumption|]. intros ->. apply Hj. left. reflexivity.
        - intro HA. destruct (HA i c (or_introl eq_refl)) as [[r Hr] Hnb]. destruct HB as [HB|[-> [HB|[e HB]]]]; [contradiction| |congruence]. destruct I7 as [-> ->]; [intros j c' H; apply HA; right; exact H|]. cbn [filter fst]. rewrite HB. cbn [negb]. auto. }
      destruct (clean c) as [[x t]|e] eqn:EC.
      2: { destruct (collect_columns clean base s tasks st) as [st2 fl] eqn:E2. injection HC as <- <-. apply (HF st st2 fl); auto. right. split; [reflexivity|]. right. exists e. reflexivity. }
      destruct (fail s i) eqn:EF.
      { destruct (collect_columns clean base s tasks st) as [st2 fl] eqn:E2. injection HC as <- <-. apply (HF st st2 fl); auto. }
      cbn [t_profiles t_clean] in HC. destruct (nth_error (t_profiles st) i) as [p|] eqn:EN; [|apply nth_error_None in EN; lia].
      set (st1 := mkT (set_nth (t_profiles st) i (fst (base p t))) (dset (t_clean st) i x)) in *.
      assert (length (t_profiles st1) = length (t_profiles st)) as HL1 by apply set_nth_length.
      assert (forall j, j <> i -> nth_error (t_profiles st1) j = nth_error (t_profiles st) j /\ dget (t_clean st1) j = dget (t_clean st) j) as HO1.
      { intros j Hj. unfold st1. cbn [t_profiles t_clean]. rewrite set_nth_get, dget_dset. destruct (PyDict.eqb_spec i j) as [HE|_]; [exfalso; apply Hj; symmetry; exact HE|]. apply Nat.eqb_neq in Hj. rewrite Hj. auto. }
      destruct (snd (base p t)) as [e|] eqn:EB.
      { destruct (collect_columns clean base s tasks st1) as [st2 fl] eqn:E2. injection HC as <- <-. apply (HF st1 st2 fl); auto. left. exists x, t, p, e. auto. }
      destruct (HS st1 st' failed HL1 HO1 HC) as (I1 & I2 & I3 & I4 & I5 & I6 & I7). split; [exact I1|]. split; [exact I2|]. split; [intros y H; right; apply I3; exact H|]. split; [|split].
      + intros j c' [H|H]; [|apply I4; exact H]. injection H as <- <-. left. split.
        * intro H. apply in_map_iff in H as ([j c'] & HE & H). cbn in HE. subst j. apply Hi. apply I3 in H. apply (in_map fst) in H. exact H.
        * destruct I6 as [I6 I8]. exists x, t, p. split; [exact EC|]. split; [exact EN|]. split; [exact EB|]. rewrite I8, I6. unfold st1. cbn [t_profiles t_clean]. rewrite dget_dset, eqb_refl, set_nth_get, Nat.eqb_refl. apply Nat.ltb_lt in Hl. rewrite Hl. auto.
      + intros j Hj. apply I5; [intro; apply Hj; right; assumption|]. intros ->. apply Hj. left. reflexivity.
      + intro HA. destruct I7 as [-> ->]; [intros j c' H; apply HA; right; exact H|]. cbn [filter fst]. rewrite EF. cbn [negb map fst]. split; [reflexivity|]. unfold st1. cbn [t_clean]. rewrite dkeys_dset. unfold dmem. rewrite Hg. rewrite <- app_assoc. reflexivity.
  Qed.

  Lemma profile_columns_spec : forall (xs : list (nat * S)) ps, NoDup (map fst xs) -> (forall i x, In (i, x) xs -> i < length ps) ->
    match profile_columns profilers xs ps with
    | Ok ps' => length ps' = length ps /\ (forall i x, In (i, x) xs -> exists p p', nth_error ps i = Some p /\ profilers p x = Ok p' /\ nth_error ps' i = Some p') /\ (forall i, ~ In i (map fst xs) -> nth_error ps' i = nth_error ps i)
    | Err e => exists i x p, In (i, x) xs /\ nth_error ps i = Some p /\ profilers p x = Err e
    end.
  Proof.
    induction xs as [|[i x] xs IH]; intros ps HN HI; cbn [profile_columns]; [split; [reflexivity|]; split; [intros ? ? []|auto]|]. cbn [map fst] in HN. inversion HN as [|? ? Hi HN']; subst.
    pose proof (HI i x (or_introl eq_refl)) as Hl. destruct (nth_error ps i) as [p|] eqn:EN; [|apply nth_error_None in EN; lia]. destruct (profilers p x) as [p'|e] eqn:EP; cbn [bind]; [|exists i, x, p; split; [left; reflexivity|auto]].
    specialize (IH (set_nth ps i p') HN'). rewrite set_nth_length in IH. specialize (IH (fun j y H => HI j y (or_intror H))).
    assert (forall j, j <> i -> nth_error (set_nth ps i p') j = nth_error ps j) as HO by (intros j Hj; rewrite set_nth_get; apply Nat.eqb_neq in Hj; rewrite Hj; reflexivity).
    assert (forall j y, In (j, y) xs -> j <> i) as HJ by (intros j c' H ->; apply Hi; apply (in_map fst) in H; exact H).
    destruct (profile_columns profilers xs (set_nth ps i p')) as [ps'|e].
    - destruct IH as (I1 & I2 & I3). split; [exact I1|]. split.
      + intros j y [H|H].
        * injection H as <- <-. exists p, p'. split; [exact EN|]. split; [exact EP|]. rewrite (I3 i Hi), set_nth_get, Nat.eqb_refl. apply Nat.ltb_lt in Hl. rewrite Hl. reflexivity.
        * rewrite <- (HO j (HJ j y H)). apply I2. exact H.
      + intros j Hj. rewrite I3 by (intro; apply Hj; right; assumption). apply HO. intros ->. apply Hj. left. reflexivity.
    - destruct IH as (j & y & q & H & HN1 & HE). exists j, y, q. rewrite (HO j (HJ j y H)) in HN1. split; [right; exact H|auto].
  Qed.

  (** C23.  Whatever the pool does: each column of the batch updates its profile as it would alone, other profiles stay, and an
      error is one that a column raises; the cleaned columns are those of the batch, in its order if nothing goes wrong. *)
  Theorem C23_table pool order cols ps : NoDup (map fst cols) -> (forall i c, In (i, c) cols -> i < length ps) -> (forall l, Permutation (order l) l) ->
    match update_table clean base profilers pool order cols ps with
    | Ok (ps', keys) =>
        length ps' = length ps /\
        (forall i c, In (i, c) cols -> exists p p', nth_error ps i = Some p /\ step p c = Ok p' /\ nth_error ps' i = Some p') /\
        (forall i, ~ In i (map fst cols) -> nth_error ps' i = nth_error ps i) /\
        Permutation keys (map fst cols) /\
        (match pool with None => True | Some s => forall i, In i (map fst cols) -> refuse s i = false /\ fail s i = false end -> keys = map fst cols)
    | Err e => exists i c p, In (i, c) cols /\ nth_error ps i = Some p /\ step p c = Err e
    end.
  Proof.
    intros HN HI HOrd. unfold update_table.
    assert (forall i c e, In (i, c) cols -> faulty ps i c e -> exists i c p, In (i, c) cols /\ nth_error ps i = Some p /\ step p c = Err e) as HFa.
    { intros i c e H HF. destruct (nth_error ps i) as [p|] eqn:EN; [|apply nth_error_None in EN; specialize (HI i c H); lia]. exists i, c, p. split; [exact H|]. split; [exact EN|]. unfold step. destruct HF as [HF|(x & t & p1 & H1 & H2 & H3)]; [rewrite HF; reflexivity|]. rewrite H1. cbn [bind snd fst]. rewrite EN in H2. injection H2 as <-. rewrite H3. reflexivity. }
    assert (match clean_table clean base pool order cols ps with
            | Ok st => (forall i c, In (i, c) cols -> done ps st i c) /\ length (t_profiles st) = length ps /\ (forall i, ~ In i (map fst cols) -> nth_error (t_profiles st) i = nth_error ps i) /\
                Permutation (dkeys (t_clean st)) (map fst cols) /\ (match pool with None => True | Some s => forall i, In i (map fst cols) -> refuse s i = false /\ fail s i = false end -> dkeys (t_clean st) = map fst cols)
            | Err e => exists i c p, In (i, c) cols /\ nth_error ps i = Some p /\ step p c = Err e
            end) as HT.
    { unfold clean_table. destruct pool as [s|].
      - unfold split_columns. set (tasks := filter (fun x => negb (refuse s (fst x))) cols). set (refused := filter (fun x => refuse s (fst x)) cols).
        assert (forall x, In x tasks -> In x cols) as HTa by (intros x H; apply filter_In in H; apply H). assert (forall x, In x refused -> In x cols) as HRe by (intros x H; apply filter_In in H; apply H).
        assert (Permutation (refused ++ tasks) cols) as HP. { unfold refused, tasks. clear. induction cols as [|x l IH]; [constructor|]. cbn [filter]. destruct (refuse s (fst x)); cbn [negb]; [cbn [app]; constructor; exact IH|]. rewrite <- Permutation_middle. constructor. exact IH. }
        assert (NoDup (map fst refused ++ map fst tasks)) as HND. { rewrite <- map_app. apply Permutation_NoDup with (map fst cols); [apply Permutation_map; symmetry; exact HP|exact HN]. }
        assert (forall i, In i (map fst refused) -> ~ In i (map fst tasks)) as HDis. { intros i H1 H2. apply in_split in H1 as (l1 & l2 & HE). rewrite HE, <- app_assoc in HND. cbn [app] in HND. apply NoDup_remove_2 in HND. apply HND. apply in_app_iff. right. apply in_app_iff. right. exact H2. }
        destruct (collect_columns clean base s tasks (mkT ps [])) as [st failed] eqn:EC.
        destruct (collect_columns_spec s tasks (mkT ps []) st failed (NoDup_app_r _ _ HND)) as (L1 & N1 & F1 & A1 & B1 & K1); [intros i c H; split; [apply (HI i c (HTa _ H))|reflexivity]|exact EC|]. cbn [t_profiles t_clean dget] in *.
        set (again := order (refused ++ failed)). assert (Permutation (map fst again) (map fst refused ++ map fst failed)) as HPa by (rewrite <- map_app; apply Permutation_map, HOrd).
        assert (forall x, In x again <-> In x refused \/ In x failed) as HAg. { intro x. unfold again. rewrite <- in_app_iff. split; apply Permutation_in; [apply HOrd|symmetry; apply HOrd]. }
        assert (forall i, In i (map fst failed) -> In i (map fst tasks)) as HFT. { intros i H. apply in_map_iff in H as (x & <- & H). apply in_map. apply F1. exact H. }
        assert (NoDup (map fst again)) as NA. { apply Permutation_NoDup with (map fst refused ++ map fst failed); [symmetry; exact HPa|]. apply NoDup_app_l in HND as HR. clear -HR N1 HDis HFT. induction (map fst refused) as [|y l IH]; [exact N1|]. cbn [app]. inversion HR as [|? ? Hy HR2]; subst. constructor; [|apply IH; [intros i H; apply HDis; right; exact H|exact HR2]]. rewrite in_app_iff. intros [H|H]; [contradiction|]. apply (HDis y (or_introl eq_refl)). apply HFT. exact H. }
        pose proof (columns_singly_spec again st NA) as HS. specialize (HS ltac:(intros i c H; rewrite L1; apply HAg in H as [H|H]; apply (HI i c); [apply HRe; exact H|apply HTa; apply F1; exact H])).
        (* a broken column makes the second attempt fail *)
        assert (forall i c x t p p' e, In (i, c) tasks -> clean c = Ok (x, t) -> nth_error ps i = Some p -> nth_error (t_profiles st) i = Some p' -> snd (base p' t) = Some e -> snd (base p t) = Some e) as HBr by (intros; rewrite <- H3; apply base_fails).
        destruct (columns_singly clean base again st) as [st'|e].
        + destruct HS as (D1 & D2 & D3 & D4).
          assert (forall i c, In (i, c) tasks -> ~ broken ps i c) as HNB.
          { intros i c H (x & t & p & e & X1 & X2 & X3). destruct (A1 i c H) as [[_ (x1 & t1 & p1 & Y1 & Y2 & Y3 & _)]|[HFl _]].
            - rewrite X1 in Y1. injection Y1 as <- <-. rewrite X2 in Y2. injection Y2 as <-. congruence.
            - destruct (D1 i c (proj2 (HAg (i, c)) (or_intror HFl))) as (x1 & t1 & p1 & Y1 & Y2 & Y3 & _). rewrite X1 in Y1. injection Y1 as <- <-. rewrite (base_fails p p1 t) in X3. congruence. }
          assert (forall i c, In (i, c) tasks -> exists r, clean c = Ok r) as HCl.
          { intros i c H. destruct (A1 i c H) as [[_ (x1 & t1 & p1 & Y1 & _)]|[HFl _]]; [eexists; exact Y1|]. destruct (D1 i c (proj2 (HAg (i, c)) (or_intror HFl))) as (x1 & t1 & p1 & Y1 & _). eexists; exact Y1. }
          destruct (K1 (fun i c H => conj (HCl i c H) (HNB i c H))) as [EF EK].
          assert (forall i, In i (map fst again) -> dget (t_clean st) i = None) as HNone.
          { intros i H. assert (In i (map fst refused) \/ In i (map fst failed)) as [H1|H1] by (apply in_app_iff; apply (Permutation_in _ HPa); exact H).
            - destruct (B1 i (HDis i H1)) as [_ ->]. reflexivity.
            - apply in_map_iff in H1 as ([i' c] & HE & H1). cbn in HE. subst i'. destruct (A1 i c (F1 _ H1)) as [[Hn _]|[_ [HB|[_ HU]]]]; [exfalso; apply Hn; apply (in_map fst) in H1; exact H1|exfalso; apply (HNB i c (F1 _ H1)); exact HB|exact HU]. }
          assert (dkeys (t_clean st') = map fst (filter (fun x => negb (fail s (fst x))) tasks) ++ map fst again) as HK.
          { rewrite D4, EK. cbn [dkeys map app]. f_equal. clear -HNone. induction (map fst again) as [|y l IH]; [reflexivity|]. cbn [filter]. unfold dmem. rewrite (HNone y (or_introl eq_refl)). cbn [negb]. f_equal. apply IH. intros; apply HNone; right; assumption. }
          split; [|split; [congruence|split; [|split]]].
          * intros i c H. apply (Permutation_in _ (Permutation_sym HP)) in H. apply in_app_iff in H as [H|H].
            -- destruct (D1 i c (proj2 (HAg (i, c)) (or_introl H))) as (x & t & p & Y1 & Y2 & Y3 & Y4 & Y5). exists x, t, p. assert (~ In i (map fst tasks)) as Hn by (apply HDis; apply (in_map fst) in H; exact H). destruct (B1 i Hn) as [Hb _]. rewrite Hb in Y2. auto.
            -- destruct (A1 i c H) as [[Hn (x & t & p & Y1 & Y2 & Y3 & Y4 & Y5)]|[HFl [HB|[HU _]]]].
               ++ exists x, t, p. assert (~ In i (map fst again)) as Hna. { intro Hx. apply (Permutation_in _ HPa), in_app_iff in Hx as [Hx|Hx]; [|contradiction]. apply (HDis i Hx). apply (in_map fst) in H. exact H. } destruct (D3 i Hna) as [-> ->]. auto.
               ++ exfalso. apply (HNB i c H HB).
               ++ destruct (D1 i c (proj2 (HAg (i, c)) (or_intror HFl))) as (x & t & p & Y1 & Y2 & Y3 & Y4 & Y5). exists x, t, p. rewrite HU in Y2. auto.
          * intros i H. assert (~ In i (map fst tasks)) as H1 by (intro Hx; apply H; apply in_map_iff in Hx as (x & <- & Hx); apply in_map, HTa, Hx). assert (~ In i (map fst again)) as H2. { intro Hx. apply in_map_iff in Hx as (x & <- & Hx). apply HAg in Hx as [Hx|Hx]; apply H, in_map; [apply HRe; exact Hx|apply HTa, F1, Hx]. } destruct (D3 i H2) as [-> _]. apply (B1 i H1).
          * rewrite HK, HPa, EF. rewrite <- !map_app. apply Permutation_map. rewrite <- HP. rewrite Permutation_app_comm, <- app_assoc. apply Permutation_app_head. clear. induction tasks as [|x l IH]; [constructor|]. cbn [filter]. destruct (fail s (fst x)); cbn [negb]; [cbn [app]; constructor; exact IH|]. rewrite <- Permutation_middle. constructor. exact IH.
          * intro HG. rewrite HK. assert (refused = []) as HR0. { unfold refused. clear -HG. induction cols as [|x l IH]; [reflexivity|]. cbn [filter]. destruct (HG (fst x) (or_introl eq_refl)) as [-> _]. apply IH. intros i Hi. apply HG. right. exact Hi. }
            assert (tasks = cols) as HT0. { unfold tasks. clear -HG. induction cols as [|x l IH]; [reflexivity|]. cbn [filter]. destruct (HG (fst x) (or_introl eq_refl)) as [-> _]. cbn [negb]. f_equal. apply IH. intros i Hi. apply HG. right. exact Hi. }
            assert (failed = []) as HF0. { rewrite EF, HT0. clear -HG. induction cols as [|x l IH]; [reflexivity|]. cbn [filter]. destruct (HG (fst x) (or_introl eq_refl)) as [_ ->]. apply IH. intros i Hi. apply HG. right. exact Hi. }
            assert (map fst again = []) as ->. { apply Permutation_nil. rewrite HPa, HR0, HF0. constructor. } rewrite app_nil_r, HT0. f_equal. clear -HG. induction cols as [|x l IH]; [reflexivity|]. cbn [filter]. destruct (HG (fst x) (or_introl eq_refl)) as [_ ->]. cbn [negb]. f_equal. apply IH. intros i Hi. apply HG. right. exact Hi.
        + destruct HS as (i & c & H & HF). apply HAg in H as [H|H].
          * apply (HFa i c e (HRe _ H)). assert (~ In i (map fst tasks)) as Hn by (apply HDis; apply (in_map fst) in H; exact H). destruct (B1 i Hn) as [Hb _]. destruct HF as [HF|(x & t & p & X1 & X2 & X3)]; [left; exact HF|right]. exists x, t, p. rewrite Hb in X2. auto.
          * apply (HFa i c e (HTa _ (F1 _ H))). destruct HF as [HF|(x & t & p & X1 & X2 & X3)]; [left; exact HF|right]. destruct (nth_error ps i) as [p0|] eqn:EN; [|apply nth_error_None in EN; specialize (HI i c (HTa _ (F1 _ H))); lia]. exists x, t, p0. split; [exact X1|]. split; [reflexivity|]. rewrite <- X3. apply base_fails.
      - pose proof (columns_singly_spec cols (mkT ps []) HN HI) as HS. cbn [t_profiles t_clean] in HS. destruct (columns_singly clean base cols (mkT ps [])) as [st|e].
        + destruct HS as (D1 & D2 & D3 & D4). assert (dkeys (t_clean st) = map fst cols) as HK by (rewrite D4; cbn [dkeys map app]; clear; induction (map fst cols) as [|y l IH]; [reflexivity|]; cbn [filter]; cbn; f_equal; exact IH).
          split; [exact D1|]. split; [exact D2|]. split; [intros i H; apply D3; exact H|]. split; [rewrite HK; apply Permutation_refl|intros _; exact HK].
        + destruct HS as (i & c & H & HF). apply (HFa i c e H HF). }
    destruct (clean_table clean base pool order cols ps) as [st|e]; cbn [bind]; [|exact HT]. destruct HT as (D1 & D2 & D3 & D4 & D5).
    assert (NoDup (map fst (t_clean st))) as HNk by (apply Permutation_NoDup with (map fst cols); [symmetry; exact D4|exact HN]).
    assert (forall i x, In (i, x) (t_clean st) -> exists c, In (i, c) cols) as HCx. { intros i x H. apply (in_map fst) in H. apply (Permutation_in _ D4) in H. apply in_map_iff in H as ([i' c] & HE & H). cbn in HE. subst i'. exists c. exact H. }
    assert (forall i c x, In (i, c) cols -> In (i, x) (t_clean st) -> exists t p, clean c = Ok (x, t) /\ nth_error ps i = Some p /\ snd (base p t) = None /\ nth_error (t_profiles st) i = Some (fst (base p t))) as HCy.
    { intros i c x H Hx. destruct (D1 i c H) as (x1 & t & p & Y1 & Y2 & Y3 & Y4 & Y5). apply dget_Some_In in Y4. assert (x1 = x) as ->. { clear -HNk Y4 Hx. induction (t_clean st) as [|[j y] l IH]; [destruct Hx|]. cbn [map fst] in HNk. inversion HNk as [|? ? Hj HN']; subst. destruct Y4 as [E1|Y4], Hx as [E2|Hx]; [congruence| | |apply IH; assumption]; exfalso; apply Hj; [injection E1 as -> _|injection E2 as -> _]; [apply (in_map fst) in Hx; exact Hx|apply (in_map fst) in Y4; exact Y4]. } exists t, p. auto. }
    pose proof (profile_columns_spec (t_clean st) (t_profiles st) HNk) as HP. specialize (HP ltac:(intros i x H; rewrite D2; destruct (HCx i x H) as [c Hc]; apply (HI i c Hc))). destruct (profile_columns profilers (t_clean st) (t_profiles st)) as [ps'|e]; cbn [bind].
    - destruct HP as (P1 & P2 & P3). split; [congruence|]. split; [|split; [|split; [exact D4|exact D5]]].
      + intros i c H. destruct (D1 i c H) as (x & t & p & Y1 & Y2 & Y3 & Y4 & Y5). apply dget_Some_In in Y4. destruct (P2 i x Y4) as (q & q' & Q1 & Q2 & Q3). rewrite Y5 in Q1. injection Q1 as <-. exists p, q'. split; [exact Y2|]. split; [|exact Q3]. unfold step. rewrite Y1. cbn [bind snd fst]. rewrite Y3. exact Q2.
      + intros i H. rewrite P3; [apply D3; exact H|]. intro Hx. apply H. apply (Permutation_in _ D4). exact Hx.
    - destruct HP as (i & x & q & H & Q1 & Q2). destruct (HCx i x H) as [c Hc]. destruct (HCy i c x Hc H) as (t & p & Y1 & Y2 & Y3 & Y4). exists i, c, p. split; [exact Hc|]. split; [exact Y2|]. unfold step. rewrite Y1. cbn [bind snd fst]. rewrite Y3. rewrite Y4 in Q1. injection Q1 as <-. exact Q2.
  Qed.
  (** So the profiles do not depend on the pool *)
  Theorem C23_pool pool pool' order order' cols ps : NoDup (map fst cols) -> (forall i c, In (i, c) cols -> i < length ps) -> (forall l, Permutation (order l) l) -> (forall l, Permutation (order' l) l) ->
    match update_table clean base profilers pool order cols ps, update_table clean base profilers pool' order' cols ps with
    | Ok (a, _), Ok (b, _) => a = b
    | Err _, Err _ => True
    | _, _ => False
    end.
  Proof.
    intros HN HI H1 H2. pose proof (C23_table pool order cols ps HN HI H1) as A. pose proof (C23_table pool' order' cols ps HN HI H2) as B.
    destruct (update_table clean base profilers pool order cols ps) as [[a ka]|ea], (update_table clean base profilers pool' order' cols ps) as [[b kb]|eb]; [| | |exact I].
    - destruct A as (A1 & A2 & A3 & _), B as (B1 & B2 & B3 & _). apply (nth_error_eq a b). intro i. destruct (in_dec Nat.eq_dec i (map fst cols)) as [Hi|Hi].
      + apply in_map_iff in Hi as ([i' c] & HE & Hi). cbn in HE. subst i'. destruct (A2 i c Hi) as (p & p' & X1 & X2 & X3), (B2 i c Hi) as (q & q' & Y1 & Y2 & Y3). rewrite X1 in Y1. injection Y1 as <-. rewrite X2 in Y2. injection Y2 as <-. congruence.
      + rewrite A3, B3 by exact Hi. reflexivity.
    - destruct B as (i & c & p & X1 & X2 & X3). destruct A as (_ & A2 & _). destruct (A2 i c X1) as (q & q' & Y1 & Y2 & _). rewrite X2 in Y1. injection Y1 as <-. congruence.
    - destruct A as (i & c & p & X1 & X2 & X3). destruct B as (_ & B2 & _). destruct (B2 i c X1) as (q & q' & Y1 & Y2 & _). rewrite X2 in Y1. injection Y1 as <-. congruence.
  Qed.
End Table.

(** ** Examples and findings *)
(** A column of a batch: its values without nulls, its numbers of rows and nulls; without rows the ratio of nulls fails *)
Definition eg_clean (c : list cell) : result (list NullRepModel.val * (nat * nat)) :=
  let xs := flat_map (fun x => match x with Some v => [v] | None => [] end) c in Ok (xs, (length c, length c - length xs)).
Definition eg_base (p : nat) (t : nat * nat) : nat * option exn := (p + snd t, if fst t =? 0 then Some ZeroDivisionError else None).
Definition eg_profilers (p : nat) (x : list NullRepModel.val) : result nat := if length x =? 0 then Err ValueError else Ok (p + 100 * length x).
Definition eg_fail (k : nat) : schedule nat := mkSched (fun _ => false) (Nat.eqb k).
Definition eg_cols (rows : list rowt) : list (nat * list cell) := map (fun j => (j, map (fun r => cell_at r j) rows)) [0; 1; 2].
Definition eg_rows : list rowt := [(0%Z, [nul; num 5; num 100]); (1%Z, [num 1; num 2; num 3])].
Theorem C23_example :
  (forall p p' t, snd (eg_base p t) = snd (eg_base p' t)) /\
  update_table eg_clean eg_base eg_profilers (Some (eg_fail 1)) (fun l => l) (eg_cols eg_rows) [0; 10; 20] = Ok ([101; 210; 220], [0; 2; 1]) /\
  update_table eg_clean eg_base eg_profilers None (fun l => l) (eg_cols eg_rows) [0; 10; 20] = Ok ([101; 210; 220], [0; 1; 2]) /\
  update_table eg_clean eg_base eg_profilers (Some (eg_fail 1)) (fun l => l) (eg_cols []) [0; 10; 20] = Err ZeroDivisionError /\
  let upd v b := if b =? 0 then Err ValueError else Ok (v + b) in
  update_profile upd (Some (mkSched (Nat.eqb 0) (Nat.eqb 1))) [(0, mkSlot true 5); (1, mkSlot true 6); (2, mkSlot true 7); (3, mkSlot false 8)] 10 =
    Ok [(0, mkSlot false 15); (1, mkSlot false 16); (2, mkSlot true 17); (3, mkSlot false 18)].
Proof. split; [reflexivity|]. repeat split. Qed.

(** If a worker fails, the columns are in another order when the null replication metrics are computed: these differ *)
Theorem C23_null_replication_refuted : exists rows s ps keys keys',
  update_table eg_clean eg_base eg_profilers None (fun l => l) (eg_cols rows) [0; 0; 0] = Ok (ps, keys) /\
  update_table eg_clean eg_base eg_profilers (Some s) (fun l => l) (eg_cols rows) [0; 0; 0] = Ok (ps, keys') /\
  (exists m, dget (p_metrics (update_prof (new_prof 3) keys rows)) 0 = Some m /\ map (Qeq_bool 5) (snd (m_sum m)) = [true; false]) /\
  (exists m, dget (p_metrics (update_prof (new_prof 3) keys' rows)) 0 = Some m /\ map (Qeq_bool 5) (snd (m_sum m)) = [false; true]).
Proof.
  exists eg_rows, (eg_fail 1). do 3 eexists. split; [reflexivity|]. split; [reflexivity|]. split; eexists; (split; [vm_compute; reflexivity|]); vm_compute; reflexivity.
Qed.

(** *** The number of processes *)
(** Without a given limit: more than 2 processes, at most one less than the processors, at most one per column *)
Theorem C23_processes data available cpus cols n : processes None data available cpus cols = Some n -> (2 < n)%Z /\ (n <= Z.of_nat cpus - 1)%Z /\ (n <= Z.of_nat cols)%Z.
Proof.
  unfold processes. destruct (Z.ltb_spec 2 (pool_size data available cpus cols)) as [H|]; [|discriminate]. intro HE. injection HE as <-. split; [exact H|].
  unfold pool_size in *. set (mem := (data * 50 / (available / 1000000))%Q) in *. set (cpu := (inject_Z (Z.of_nat cpus) - 1)%Q) in *. set (qmin := fun a b => if Qle_bool b a then b else a) in *.
  assert (forall a b, qmin a b <= a /\ qmin a b <= b)%Q as HM. { intros a b. unfold qmin. destruct (Qle_bool b a) eqn:EQ; [apply Qle_bool_iff in EQ; split; lra|]. apply Qle_bool_false in EQ. split; lra. }
  change (if Qle_bool (inject_Z (Z.of_nat cols)) (if Qle_bool cpu mem then cpu else mem) then inject_Z (Z.of_nat cols) else (if Qle_bool cpu mem then cpu else mem)) with (qmin (qmin mem cpu) (inject_Z (Z.of_nat cols))) in *.
  set (size := qmin (qmin mem cpu) (inject_Z (Z.of_nat cols))) in *. destruct (HM (qmin mem cpu) (inject_Z (Z.of_nat cols))) as [M1 M2]. destruct (HM mem cpu) as [_ M3]. fold size in M1, M2.
  destruct (Qle_bool 0 size) eqn:EZ.
  - assert (inject_Z (Qfloor size) <= size)%Q as HF by apply Qfloor_le. split.
    + assert (inject_Z (Qfloor size) <= inject_Z (Z.of_nat cpus - 1))%Q as HQ by (replace (Z.of_nat cpus - 1)%Z with (Z.of_nat cpus + -1)%Z by lia; rewrite inject_Z_plus; change (inject_Z (-1)) with (-(1))%Q; assert (cpu == inject_Z (Z.of_nat cpus) - 1)%Q as HCp by reflexivity; lra). rewrite <- Zle_Qle in HQ. exact HQ.
    + assert (inject_Z (Qfloor size) <= inject_Z (Z.of_nat cols))%Q as HQ by lra. rewrite <- Zle_Qle in HQ. exact HQ.
  - exfalso. apply Qle_bool_false in EZ. pose proof (Qceiling_lt size) as HC. assert (inject_Z (Qceiling size - 1) < inject_Z 0)%Q as HQ by (change (inject_Z 0) with 0%Q; lra). rewrite <- Zlt_Qlt in HQ. lia.
Qed.
(** With less memory available, more processes are started *)
Theorem C23_memory_refuted : processes None 1000 16000000000 16 100 = Some 3%Z /\ processes None 1000 5000000000 16 100 = Some 10%Z /\ processes None 1000 1000000000 16 100 = Some 15%Z.
Proof. repeat split; reflexivity. Qed.
(** The pool for the statistics always has 4 processes, also on a machine with one processor *)
Theorem C23_processors_refuted data available cols : processes (Some 4%Z) data available 1 cols = Some 4%Z.
Proof. reflexivity. Qed.
