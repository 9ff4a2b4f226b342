From Coq Require Import QArith Lqa Permutation.
From Verif Require Import PyCommon ListFacts PyDict CategoricalModel.
Open Scope nat_scope.

Section CatProofs.
  Context {K : Type} {EK : EqDecB K}.

  (** Specification: a dictionary holds the counts of a list of values. *)
  Definition counts_of (d : dict K nat) (l : list K) : Prop :=
    NoDup (dkeys d) /\
    forall v, dget d v = if occ v l =? 0 then None else Some (occ v l).

  Definition value_counts_ok (vc : list K -> dict K nat) : Prop := forall l, counts_of (vc l) l.

  Lemma counts_of_nil : counts_of [] [].
  Proof. split; [constructor|]. intro v. reflexivity. Qed.

  Lemma counts_of_keys d l : counts_of d l -> forall k, In k (dkeys d) <-> In k l.
  Proof.
    intros [_ H] k. rewrite <- dmem_true. unfold dmem. rewrite H.
    destruct (Nat.eqb_spec (occ k l) 0) as [E|E].
    - apply occ_zero in E. split; [discriminate|contradiction].
    - split; [|reflexivity]. intros _. apply occ_pos. lia.
  Qed.

  Lemma counts_of_length d l : counts_of d l -> length (dkeys d) = length (distinct l).
  Proof. intro H. apply distinct_length; [apply H|]. apply counts_of_keys. exact H. Qed.

  Lemma fold_dset_get (f : K * nat -> nat) (l : dict K nat) : forall (m : dict K nat) k,
    NoDup (dkeys l) ->
    dget (fold_left (fun m kv => dset m (fst kv) (f kv)) l m) k
    = match dget l k with Some v => Some (f (k, v)) | None => dget m k end.
  Proof.
    induction l as [|[k0 v0] l IH]; intros m k Hn; [reflexivity|].
    inversion Hn as [|? ? Hk Hl]; subst. cbn [fold_left fst]. rewrite IH by exact Hl. cbn [dget].
    destruct (eqb_spec k0 k) as [->|Hne].
    - assert (Hnone : dget l k = None) by (apply dget_None; exact Hk).
      rewrite Hnone, dget_dset, eqb_refl. reflexivity.
    - destruct (dget l k); [reflexivity|]. rewrite dget_dset.
      destruct (eqb_spec k0 k); [contradiction|reflexivity].
  Qed.

  Lemma fold_dset_NoDup (f : K * nat -> nat) (l : dict K nat) : forall m : dict K nat,
    NoDup (dkeys m) -> NoDup (dkeys (fold_left (fun m kv => dset m (fst kv) (f kv)) l m)).
  Proof.
    induction l as [|kv l IH]; intros m Hm; [exact Hm|]. cbn. apply IH, NoDup_dset, Hm.
  Qed.

  Lemma fold_new_get (first : dict K nat) (l : dict K nat) : forall (m : dict K nat) k,
    NoDup (dkeys l) ->
    dget (fold_left (fun m kv => if dmem first (fst kv) then m else dset m (fst kv) (snd kv)) l m) k
    = match dget l k with
      | Some v => if dmem first k then dget m k else Some v
      | None => dget m k
      end.
  Proof.
    induction l as [|[k0 v0] l IH]; intros m k Hn; [reflexivity|].
    inversion Hn as [|? ? Hk Hl]; subst. cbn [fold_left fst snd]. rewrite IH by exact Hl. cbn [dget].
    destruct (eqb_spec k0 k) as [->|Hne].
    - assert (Hnone : dget l k = None) by (apply dget_None; exact Hk).
      rewrite Hnone. destruct (dmem first k); [reflexivity|]. rewrite dget_dset, eqb_refl. reflexivity.
    - assert (Hm : dget (if dmem first k0 then m else dset m k0 v0) k = dget m k).
      { destruct (dmem first k0); [reflexivity|]. rewrite dget_dset.
        destruct (eqb_spec k0 k); [contradiction|reflexivity]. }
      destruct (dget l k); [destruct (dmem first k)|]; auto.
  Qed.

  Lemma fold_new_NoDup (first l : dict K nat) : forall m : dict K nat,
    NoDup (dkeys m) ->
    NoDup (dkeys (fold_left (fun m kv => if dmem first (fst kv) then m
                                         else dset m (fst kv) (snd kv)) l m)).
  Proof.
    induction l as [|kv l IH]; intros m Hm; [exact Hm|]. cbn. apply IH.
    destruct (dmem first (fst kv)); [exact Hm|apply NoDup_dset, Hm].
  Qed.

  Lemma add_nested_get (d1 d2 : dict K nat) k : NoDup (dkeys d1) -> NoDup (dkeys d2) ->
    dget (add_nested_dictionaries d1 d2) k =
    match dget d1 k, dget d2 k with
    | Some a, Some b => Some (a + b)
    | Some a, None => Some a
    | None, x => x
    end.
  Proof.
    intros H1 H2. unfold add_nested_dictionaries.
    rewrite fold_new_get by exact H2.
    rewrite (fold_dset_get (fun kv => match dget d2 (fst kv) with
                                      | Some v2 => snd kv + v2 | None => snd kv end)) by exact H1.
    unfold dmem. cbn [fst snd dget].
    destruct (dget d1 k) as [a|], (dget d2 k) as [b|]; reflexivity.
  Qed.

  Lemma add_nested_NoDup (d1 d2 : dict K nat) : NoDup (dkeys (add_nested_dictionaries d1 d2)).
  Proof.
    unfold add_nested_dictionaries. apply fold_new_NoDup.
    apply (fold_dset_NoDup (fun kv => match dget d2 (fst kv) with
                                      | Some v2 => snd kv + v2 | None => snd kv end)). constructor.
  Qed.

  Lemma counts_of_add d1 d2 l1 l2 : counts_of d1 l1 -> counts_of d2 l2 ->
    counts_of (add_nested_dictionaries d1 d2) (l1 ++ l2).
  Proof.
    intros [N1 H1] [N2 H2]. split; [apply add_nested_NoDup|].
    intro v. rewrite add_nested_get by assumption. rewrite H1, H2, occ_app.
    destruct (Nat.eqb_spec (occ v l1) 0) as [E1|E1], (Nat.eqb_spec (occ v l2) 0) as [E2|E2];
      destruct (Nat.eqb_spec (occ v l1 + occ v l2) 0); try lia; f_equal; lia.
  Qed.

  (** ** Histories: any mixture of new profiles, updates and merges *)
  Inductive hist :=
  | HNew (name : option string) (idx topk maxn : option nat) (ratio : option Q)
  | HUpd (h : hist) (batch : list K)
  | HAdd (h1 h2 : hist).

  Fixpoint rows (h : hist) : list K :=
    match h with
    | HNew _ _ _ _ _ => []
    | HUpd h b => rows h ++ b
    | HAdd h1 h2 => rows h1 ++ rows h2
    end.

  Section WithVC.
  Variable vc : list K -> dict K nat.
  Hypothesis Hvc : value_counts_ok vc.

  Fixpoint run (h : hist) : result (cat K) :=
    match h with
    | HNew name idx topk maxn ratio => Ok (cat_new name idx topk maxn ratio)
    | HUpd h b => bind (run h) (fun s => Ok (update vc s b))
    | HAdd h1 h2 => bind (run h1) (fun s1 => bind (run h2) (fun s2 => add s1 s2))
    end.

  Definition good (s : cat K) (l : list K) : Prop :=
    if cat_stopped s
    then cat_cats s = [] /\ cat_stop_ratio s <> None /\ cat_stop_count s <> None
    else counts_of (cat_cats s) l /\ cat_n s = length l.

  Lemma good_update s l b : good s l -> good (update vc s b) (l ++ b).
  Proof.
    unfold good, update. intro H.
    destruct (Nat.eqb_spec (length b) 0) as [Hb|Hb]; cbn [orb].
    - apply length_zero_iff_nil in Hb. subst b. rewrite app_nil_r. exact H.
    - destruct (cat_stopped s) eqn:Es; [rewrite Es; exact H|].
      destruct H as [Hc Hn]. unfold update_categories. cbn [cat_stopped cat_cats cat_n cat_stop_ratio cat_stop_count].
      match goal with |- context [check_stop s ?a ?b] => destruct (check_stop s a b) eqn:Ec end.
      + repeat split; congruence.
      + split; [apply counts_of_add; [exact Hc|apply Hvc]|]. rewrite app_length. lia.
  Qed.

  Lemma good_add s1 s2 l1 l2 s : good s1 l1 -> good s2 l2 -> add s1 s2 = Ok s -> good s (l1 ++ l2).
  Proof.
    unfold add, good. intros H1 H2 E.
    destruct (add_index (cat_index s1) (cat_index s2)) as [idx|e]; [|discriminate].
    cbn [bind] in E. destruct (negb (name_eqb (cat_name s1) (cat_name s2))); [discriminate|].
    destruct (cat_stopped s1) eqn:E1; cbn [orb negb] in E.
    - injection E as <-. cbn [cat_stopped cat_cats cat_stop_ratio cat_stop_count].
      split; [reflexivity|].
      destruct (cat_n s2 <? cat_n s1); unfold unique_ratio, unique_count; rewrite ?E1.
      + split; apply H1.
      + destruct (cat_stopped s2); [split; apply H2|].
        split; [destruct (negb (cat_n s2 =? 0))|]; discriminate.
    - destruct (cat_stopped s2) eqn:E2; cbn [negb] in E.
      + injection E as <-. cbn [cat_stopped cat_cats cat_stop_ratio cat_stop_count].
        split; [reflexivity|].
        destruct (cat_n s2 <? cat_n s1); unfold unique_ratio, unique_count; rewrite ?E1, ?E2.
        * split; [destruct (negb (cat_n s1 =? 0))|]; discriminate.
        * split; apply H2.
      + destruct (unique_ratio s1) as [r1|]; [|discriminate].
        destruct (unique_ratio s2) as [r2|]; [|discriminate].
        cbn zeta in E.
        match type of E with context [unique_ratio ?m] => destruct (unique_ratio m) as [ur|] end;
          [|discriminate].
        match type of E with context [check_stop ?m ?a ?b] => destruct (check_stop m a b) end.
        * injection E as <-. cbn. repeat split; discriminate.
        * injection E as <-. cbn [cat_stopped cat_cats cat_n].
          destruct H1 as [C1 N1], H2 as [C2 N2].
          split; [apply counts_of_add; assumption|]. rewrite app_length. lia.
  Qed.

  Lemma run_good h : forall s, run h = Ok s -> good s (rows h).
  Proof.
    induction h as [name idx topk maxn ratio|h IH b|h1 IH1 h2 IH2]; intros s E; cbn in E |- *.
    - injection E as <-. split; [apply counts_of_nil|reflexivity].
    - destruct (run h) as [s0|]; [|discriminate]. cbn in E. injection E as <-.
      apply good_update. apply IH. reflexivity.
    - destruct (run h1) as [s1|]; [|discriminate]. destruct (run h2) as [s2|]; [|discriminate].
      cbn in E. eapply good_add; [apply IH1; reflexivity|apply IH2; reflexivity|exact E].
  Qed.

  Lemma run_counts h s : run h = Ok s -> cat_stopped s = false ->
    counts_of (cat_cats s) (rows h) /\ cat_n s = length (rows h).
  Proof. intros E Hs. apply run_good in E. unfold good in E. rewrite Hs in E. exact E. Qed.

  (** Sum of the counts. *)
  Definition total (d : dict K nat) : nat := fold_right (fun kv a => snd kv + a) 0 d.

  Fixpoint remove_all (k : K) (l : list K) : list K :=
    match l with [] => [] | x :: r => if eqb x k then remove_all k r else x :: remove_all k r end.

  Lemma remove_all_length k l : length (remove_all k l) + occ k l = length l.
  Proof. induction l as [|x l IH]; cbn; [reflexivity|]. destruct (eqb x k); cbn; lia. Qed.

  Lemma remove_all_occ k l v : occ v (remove_all k l) = if eqb k v then 0 else occ v l.
  Proof.
    induction l as [|x l IH]; cbn; [destruct (eqb k v); reflexivity|].
    destruct (eqb_spec x k) as [->|H].
    - rewrite IH. destruct (eqb_spec k v); [reflexivity|]. reflexivity.
    - cbn. rewrite IH. destruct (eqb_spec k v) as [->|]; [|reflexivity].
      destruct (eqb_spec x v); [contradiction|reflexivity].
  Qed.

  Lemma counts_of_tail k n d l : counts_of ((k, n) :: d) l ->
    n = occ k l /\ 0 < n /\ counts_of d (remove_all k l).
  Proof.
    intros [Hn Hg]. inversion Hn as [|? ? Hk Hd]; subst.
    pose proof (Hg k) as Hk'. cbn in Hk'. rewrite eqb_refl in Hk'.
    destruct (Nat.eqb_spec (occ k l) 0) as [E|E]; [discriminate|]. injection Hk' as ->.
    split; [reflexivity|]. split; [lia|]. split; [exact Hd|].
    intro v. specialize (Hg v). cbn in Hg. rewrite remove_all_occ.
    destruct (eqb_spec k v) as [->|H].
    - apply dget_None. exact Hk.
    - exact Hg.
  Qed.

  Lemma counts_of_total d : forall l, counts_of d l -> total d = length l.
  Proof.
    induction d as [|[k n] d IH]; intros l H.
    - destruct l as [|x l]; [reflexivity|]. destruct H as [_ Hg]. specialize (Hg x).
      cbn in Hg. rewrite eqb_refl in Hg. discriminate.
    - apply counts_of_tail in H. destruct H as (-> & _ & H). cbn [total fold_right snd]. fold (total d). rewrite (IH _ H).
      rewrite <- (remove_all_length k l). lia.
  Qed.

  (** ** Stop condition *)
  Lemma update_stopped s b : cat_stopped s = true -> update vc s b = s.
  Proof. intro H. unfold update. rewrite H, orb_true_r. reflexivity. Qed.

  Lemma fold_update_stopped bs : forall s, cat_stopped s = true -> fold_left (update vc) bs s = s.
  Proof.
    induction bs as [|b bs IH]; intros s H; [reflexivity|]. cbn.
    rewrite update_stopped by exact H. apply IH, H.
  Qed.

  Lemma run_stopped_report h s : run h = Ok s -> cat_stopped s = true ->
    cat_cats s = [] /\ is_match s = false /\
    unique_count s = cat_stop_count s /\ unique_ratio s = cat_stop_ratio s /\
    cat_stop_count s <> None /\ cat_stop_ratio s <> None.
  Proof.
    intros E Hs. apply run_good in E. unfold good in E. rewrite Hs in E.
    unfold is_match, unique_count, unique_ratio. rewrite Hs. tauto.
  Qed.

  Definition uratio (l : list K) : Q := (Qnat (length (distinct l)) / Qnat (length l))%Q.

  Lemma update_stop_iff h s b : run h = Ok s -> cat_stopped s = false -> b <> [] ->
    (cat_stopped (update vc s b) = true <->
     exists m r, cat_maxn s = Some m /\ cat_ratio s = Some r /\
       m <= length (rows h ++ b) /\ (r <= uratio (rows h ++ b))%Q) /\
    (cat_stopped (update vc s b) = true ->
       cat_stop_count (update vc s b) = Some (length (distinct (rows h ++ b))) /\
       cat_stop_ratio (update vc s b) = Some (uratio (rows h ++ b)) /\
       cat_n (update vc s b) = length (rows h ++ b)).
  Proof.
    intros E Hs Hb. destruct (run_counts h s E Hs) as [Hc Hn].
    assert (Hl : length (add_nested_dictionaries (cat_cats s) (vc b))
                 = length (distinct (rows h ++ b))).
    { rewrite <- (counts_of_length _ _ (counts_of_add _ _ _ _ Hc (Hvc b))).
      unfold dkeys. rewrite map_length. reflexivity. }
    assert (Hb0 : (length b =? 0) = false).
    { apply Nat.eqb_neq. intro. apply Hb. apply length_zero_iff_nil. assumption. }
    unfold update. rewrite Hb0, Hs. cbn [orb]. unfold update_categories.
    cbn [cat_stopped cat_stop_count cat_stop_ratio cat_n].
    rewrite Hl, Hn, <- app_length. fold (uratio (rows h ++ b)).
    split.
    - unfold check_stop. split.
      + destruct (cat_maxn s) as [m|]; [|discriminate]. destruct (cat_ratio s) as [r|]; [|discriminate].
        intro H. apply andb_prop in H. destruct H as [H1 H2].
        exists m, r. apply Nat.leb_le in H1. apply Qle_bool_iff in H2. auto.
      + intros (m & r & -> & -> & H1 & H2). apply Nat.leb_le in H1. apply Qle_bool_iff in H2.
        rewrite H1, H2. reflexivity.
    - intro H. rewrite H. auto.
  Qed.

  (** ** Merging when one side has stopped *)
  Lemma add_stopped s1 s2 s : cat_stopped s1 = true \/ cat_stopped s2 = true ->
    add s1 s2 = Ok s ->
    cat_stopped s = true /\ cat_cats s = [] /\ cat_n s = Nat.max (cat_n s1) (cat_n s2).
  Proof.
    intros Hs E. unfold add in E.
    destruct (add_index (cat_index s1) (cat_index s2)) as [idx|e]; [|discriminate].
    cbn [bind] in E. destruct (negb (name_eqb (cat_name s1) (cat_name s2))); [discriminate|].
    assert (Ho : cat_stopped s1 || cat_stopped s2 = true).
    { destruct Hs as [-> | ->]; [reflexivity|apply orb_true_r]. }
    rewrite Ho in E. cbn [negb] in E. injection E as <-.
    cbn [cat_stopped cat_cats cat_n]. split; [reflexivity|]. split; [reflexivity|].
    destruct (Nat.ltb_spec (cat_n s2) (cat_n s1)); lia.
  Qed.

  (** ** Gini impurity and unalikeability *)

  (** Specification: ordered pairs of positions holding different values. *)
  Definition differing_pairs (l : list K) : nat :=
    length (filter (fun p => negb (eqb (fst p) (snd p))) (list_prod l l)).

  Definition sum_cn (n : nat) (d : dict K nat) : Z :=
    fold_right (fun kv a => (Z.of_nat (snd kv) * (Z.of_nat n - Z.of_nat (snd kv)) + a)%Z) 0%Z d.

  Lemma filter_row x (l : list K) :
    length (filter (fun p => negb (eqb (fst p) (snd p))) (map (fun y => (x, y)) l))
    = length l - occ x l.
  Proof.
    induction l as [|y l IH]; [reflexivity|]. cbn [map filter fst snd length occ].
    pose proof (remove_all_length x l) as Hl.
    destruct (eqb_spec x y) as [->|H]; cbn [negb].
    - rewrite eqb_refl. rewrite IH. lia.
    - cbn [length]. rewrite IH. destruct (eqb_spec y x); [congruence|]. lia.
  Qed.

  Lemma occ_le x (l : list K) : occ x l <= length l.
  Proof. pose proof (remove_all_length x l). lia. Qed.

  Lemma differing_pairs_sum (l : list K) :
    Z.of_nat (differing_pairs l)
    = fold_right (fun x a => (Z.of_nat (length l) - Z.of_nat (occ x l) + a)%Z) 0%Z l.
  Proof.
    unfold differing_pairs.
    assert (G : forall (m l : list K),
      Z.of_nat (length (filter (fun p => negb (eqb (fst p) (snd p))) (list_prod m l)))
      = fold_right (fun x a => (Z.of_nat (length l) - Z.of_nat (occ x l) + a)%Z) 0%Z m).
    { clear. induction m as [|x m IH]; intro l; [reflexivity|].
      cbn [list_prod fold_right]. rewrite filter_app, app_length, Nat2Z.inj_add, filter_row, IH.
      pose proof (occ_le x l). lia. }
    apply G.
  Qed.

  (** Regrouping a sum over rows by category. *)
  Lemma sum_regroup (f : K -> Z) d : forall l, counts_of d l ->
    fold_right (fun x a => (f x + a)%Z) 0%Z l
    = fold_right (fun kv a => (Z.of_nat (snd kv) * f (fst kv) + a)%Z) 0%Z d.
  Proof.
    induction d as [|[k n] d IH]; intros l H.
    - apply counts_of_total in H. destruct l; [reflexivity|discriminate].
    - apply counts_of_tail in H. destruct H as (Hn & _ & H). cbn [fold_right fst snd].
      rewrite <- (IH _ H). subst n. clear.
      induction l as [|x l IHl]; [reflexivity|]. cbn [fold_right occ remove_all].
      rewrite IHl. destruct (eqb_spec x k) as [->|Hx]; cbn [fold_right]; lia.
  Qed.

  Lemma sum_cn_pairs d l : counts_of d l ->
    sum_cn (length l) d = Z.of_nat (differing_pairs l).
  Proof.
    intro H. rewrite differing_pairs_sum.
    rewrite (sum_regroup (fun x => (Z.of_nat (length l) - Z.of_nat (occ x l))%Z) d l H).
    unfold sum_cn. clear - H.
    assert (G : forall d', (forall kv, In kv d' -> snd kv = occ (fst kv) l) ->
      fold_right (fun kv a => (Z.of_nat (snd kv) * (Z.of_nat (length l) - Z.of_nat (snd kv)) + a)%Z) 0%Z d'
      = fold_right (fun kv a => (Z.of_nat (snd kv) * (Z.of_nat (length l) - Z.of_nat (occ (fst kv) l)) + a)%Z) 0%Z d').
    { induction d' as [|kv d' IH]; intro Hd; [reflexivity|]. cbn [fold_right].
      rewrite IH by (intros; apply Hd; right; assumption).
      rewrite (Hd kv) by (left; reflexivity). reflexivity. }
    apply G. intros [k n] Hi. destruct H as [Hn Hg]. apply dget_In in Hi; [|exact Hn].
    rewrite Hg in Hi. destruct (occ k l =? 0); [discriminate|]. injection Hi as <-. reflexivity.
  Qed.

  Lemma Qnat_pos n : 0 < n -> (0 < Qnat n)%Q.
  Proof. intro H. unfold Qnat, Qlt, inject_Z. cbn. lia. Qed.

  Lemma gini_fold n d : 0 < n -> forall a,
    (fold_left (fun acc kv =>
       (acc + (Qnat (snd kv) / Qnat n) * (1 - Qnat (snd kv) / Qnat n))%Q) d a
     == a + inject_Z (sum_cn n d) / (Qnat n * Qnat n))%Q.
  Proof.
    intro Hn. pose proof (Qnat_pos n Hn) as Hp.
    assert (Hne : ~ (Qnat n == 0)%Q) by (intro Hz; rewrite Hz in Hp; apply Qlt_irrefl in Hp; exact Hp).
    induction d as [|[k c] d IH]; intro a; cbn [fold_left snd].
    - cbn [sum_cn fold_right]. field. exact Hne.
    - rewrite IH. unfold sum_cn. cbn [fold_right snd]. fold (sum_cn n d).
      rewrite inject_Z_plus, inject_Z_mult.
      unfold Z.sub. rewrite inject_Z_plus, inject_Z_opp. fold (Qnat c). fold (Qnat n).
      field. exact Hne.
  Qed.

  Lemma unalike_fold n (d : dict K nat) : forall a,
    fold_left (fun acc kv =>
        (acc + (Z.of_nat n - Z.of_nat (snd kv)) * Z.of_nat (snd kv))%Z) d a
    = (a + sum_cn n d)%Z.
  Proof.
    induction d as [|[k c] d IH]; intro a; cbn [fold_left snd].
    - cbn. lia.
    - rewrite IH. unfold sum_cn. cbn [fold_right snd]. fold (sum_cn n d). lia.
  Qed.

  Lemma gini_spec h s : run h = Ok s -> cat_stopped s = false -> rows h <> [] ->
    exists g, gini_impurity s = Some g /\
      (g == Qnat (differing_pairs (rows h)) / (Qnat (length (rows h)) * Qnat (length (rows h))))%Q.
  Proof.
    intros E Hs Hne. destruct (run_counts h s E Hs) as [Hc Hn].
    assert (Hpos : 0 < length (rows h)) by (destruct (rows h); [congruence|cbn; lia]).
    unfold gini_impurity. rewrite Hn. destruct (Nat.eqb_spec (length (rows h)) 0); [lia|].
    eexists. split; [reflexivity|]. rewrite gini_fold by exact Hpos.
    rewrite (sum_cn_pairs _ _ Hc). unfold Qnat. rewrite Qplus_0_l. reflexivity.
  Qed.

  Lemma unalike_spec h s : run h = Ok s -> cat_stopped s = false ->
    unalikeability s =
    match length (rows h) with
    | 0 => None
    | 1 => Some 0%Q
    | n => Some (inject_Z (Z.of_nat (differing_pairs (rows h)))
                 / inject_Z (Z.of_nat n * Z.of_nat n - Z.of_nat n))%Q
    end.
  Proof.
    intros E Hs. destruct (run_counts h s E Hs) as [Hc Hn].
    unfold unalikeability. rewrite Hn. destruct (length (rows h)) as [|[|n]] eqn:El; try reflexivity.
    cbn [Nat.eqb]. rewrite unalike_fold, Z.add_0_l, <- El, (sum_cn_pairs _ _ Hc). reflexivity.
  Qed.

  (** Bounds on the number of differing pairs. *)
  Lemma differing_pairs_bounds (l : list K) :
    (0 <= Z.of_nat (differing_pairs l) <= Z.of_nat (length l) * Z.of_nat (length l) - Z.of_nat (length l))%Z.
  Proof.
    split; [lia|]. rewrite differing_pairs_sum.
    assert (G : forall m : list K, (forall x, In x m -> In x l) ->
      (fold_right (fun x a => (Z.of_nat (length l) - Z.of_nat (occ x l) + a)%Z) 0%Z m
       <= Z.of_nat (length m) * Z.of_nat (length l) - Z.of_nat (length m))%Z).
    { induction m as [|x m IH]; intro Hm; cbn [fold_right length]; [lia|].
      assert (Hx : 0 < occ x l) by (apply occ_pos, Hm; left; reflexivity).
      specialize (IH (fun y Hy => Hm y (or_intror Hy))). lia. }
    apply G. auto.
  Qed.

  Lemma differing_pairs_max (l : list K) :
    Z.of_nat (differing_pairs l) = (Z.of_nat (length l) * Z.of_nat (length l) - Z.of_nat (length l))%Z
    <-> NoDup l.
  Proof.
    rewrite differing_pairs_sum. split.
    - intro H.
      assert (G : forall m : list K, (forall x, In x m -> In x l) ->
        (fold_right (fun x a => (Z.of_nat (length l) - Z.of_nat (occ x l) + a)%Z) 0%Z m
          <= Z.of_nat (length m) * Z.of_nat (length l) - Z.of_nat (length m))%Z /\
        ((fold_right (fun x a => (Z.of_nat (length l) - Z.of_nat (occ x l) + a)%Z) 0%Z m
         = Z.of_nat (length m) * Z.of_nat (length l) - Z.of_nat (length m))%Z ->
         forall x, In x m -> occ x l = 1)).
      { induction m as [|x m IH]; intro Hm; cbn [fold_right length]; [split; [lia|intros _ ? []]|].
        assert (Hx : 0 < occ x l) by (apply occ_pos, Hm; left; reflexivity).
        destruct (IH (fun y Hy => Hm y (or_intror Hy))) as [IH1 IH2]. split; [lia|].
        intros He y [<-|Hy]; [lia|]. apply IH2; [lia|exact Hy]. }
      destruct (G l (fun x Hx => Hx)) as [_ G2]. specialize (G2 H).
      clear - G2. assert (G3 : forall x, occ x l <= 1).
      { intro x. destruct (Nat.eq_dec (occ x l) 0) as [->|Hx]; [lia|].
        rewrite G2; [lia|]. apply occ_pos. lia. }
      clear G2. induction l as [|x l IH]; [constructor|]. constructor.
      + intro Hi. apply occ_pos in Hi. specialize (G3 x). cbn in G3. rewrite eqb_refl in G3. lia.
      + apply IH. intro y. specialize (G3 y). cbn in G3. destruct (eqb x y); lia.
    - intro Hn.
      assert (G3 : forall x, In x l -> occ x l = 1).
      { induction Hn as [|y l Hy Hl IH]; intros x Hx; [contradiction|]. cbn.
        destruct (eqb_spec y x) as [->|He].
        - apply occ_zero in Hy. lia.
        - destruct Hx as [?|Hx]; [contradiction|]. rewrite (IH x Hx). reflexivity. }
      assert (G : forall m : list K, (forall x, In x m -> In x l) ->
        (fold_right (fun x a => (Z.of_nat (length l) - Z.of_nat (occ x l) + a)%Z) 0%Z m
          = Z.of_nat (length m) * Z.of_nat (length l) - Z.of_nat (length m))%Z).
      { induction m as [|x m IH]; intro Hm; cbn [fold_right length]; [lia|].
        rewrite (G3 x) by (apply Hm; left; reflexivity).
        rewrite (IH (fun y Hy => Hm y (or_intror Hy))). lia. }
      apply G. auto.
  Qed.

  Lemma differing_pairs_zero (l : list K) :
    differing_pairs l = 0 <-> (forall x y, In x l -> In y l -> x = y).
  Proof.
    split.
    - intros H x y Hx Hy. unfold differing_pairs in H.
      apply length_zero_iff_nil in H.
      destruct (eqb_spec x y) as [E|E]; [exact E|]. exfalso.
      assert (Hin : In (x, y) (filter (fun p => negb (eqb (fst p) (snd p))) (list_prod l l))).
      { apply filter_In. split; [apply in_prod; assumption|]. cbn.
        destruct (eqb_spec x y); [contradiction|reflexivity]. }
      rewrite H in Hin. destruct Hin.
    - intro H. unfold differing_pairs. apply length_zero_iff_nil.
      destruct (filter _ (list_prod l l)) as [|[x y] r] eqn:Ef; [reflexivity|]. exfalso.
      assert (Hin : In (x, y) (filter (fun p => negb (eqb (fst p) (snd p))) (list_prod l l)))
        by (rewrite Ef; left; reflexivity).
      apply filter_In in Hin. destruct Hin as [Hp He]. apply in_prod_iff in Hp. cbn in He.
      rewrite (H x y) in He by tauto. rewrite eqb_refl in He. discriminate.
  Qed.
  End WithVC.

  (** A concrete value_counts, used for examples. *)
  Definition vc_simple (l : list K) : dict K nat := map (fun v => (v, occ v l)) (distinct l).

  Lemma vc_simple_ok : value_counts_ok vc_simple.
  Proof.
    intro l. unfold vc_simple. split.
    - unfold dkeys. rewrite map_map. cbn. rewrite map_id. apply distinct_NoDup.
    - intro v. assert (G : forall ks, dget (map (fun v => (v, occ v l)) ks) v
         = if lmem ks v then Some (occ v l) else None).
      { induction ks as [|k ks IH]; [reflexivity|]. unfold lmem in *. cbn.
        destruct (eqb_spec k v) as [->|H].
        - rewrite eqb_refl. reflexivity.
        - destruct (eqb_spec v k); [congruence|]. cbn. exact IH. }
      rewrite G. destruct (lmem (distinct l) v) eqn:Em.
      + apply lmem_In in Em. apply (proj1 (distinct_In _ _)) in Em. apply occ_pos in Em.
        destruct (Nat.eqb_spec (occ v l) 0); [lia|reflexivity].
      + destruct (Nat.eqb_spec (occ v l) 0) as [|H]; [reflexivity|]. exfalso.
        apply lmem_false in Em. apply Em, distinct_In, occ_pos. lia.
  Qed.

  (** Sum of squared shares, over the distinct values. *)
  Definition sum_squares (l : list K) : Q :=
    fold_right (fun v a => ((Qnat (occ v l) / Qnat (length l)) * (Qnat (occ v l) / Qnat (length l)) + a)%Q)
      0%Q (distinct l).

  Lemma sum_squares_Z l : 0 < length l ->
    (sum_squares l == inject_Z (fold_right (fun x a => (Z.of_nat (occ x l) + a)%Z) 0%Z l)
       / (Qnat (length l) * Qnat (length l)))%Q.
  Proof.
    intro Hn. pose proof (Qnat_pos _ Hn) as Hp.
    assert (Hne : ~ (Qnat (length l) == 0)%Q) by (intro Hz; rewrite Hz in Hp; apply Qlt_irrefl in Hp; exact Hp).
    rewrite (sum_regroup (fun x => Z.of_nat (occ x l)) _ _ (vc_simple_ok l)).
    unfold sum_squares, vc_simple. induction (distinct l) as [|v r IH]; cbn [map fold_right fst snd].
    - cbn. field. exact Hne.
    - rewrite IH, inject_Z_plus, inject_Z_mult. fold (Qnat (occ v l)). field. exact Hne.
  Qed.

  Lemma pairs_sum_squares l : 0 < length l ->
    (Qnat (differing_pairs l) / (Qnat (length l) * Qnat (length l)) == 1 - sum_squares l)%Q.
  Proof.
    intro Hn. rewrite (sum_squares_Z l Hn). unfold Qnat at 1. rewrite differing_pairs_sum.
    pose proof (Qnat_pos _ Hn) as Hp.
    assert (Hne : ~ (Qnat (length l) == 0)%Q) by (intro Hz; rewrite Hz in Hp; apply Qlt_irrefl in Hp; exact Hp).
    assert (G : forall m : list K,
      fold_right (fun x a => (Z.of_nat (length l) - Z.of_nat (occ x l) + a)%Z) 0%Z m
      = (Z.of_nat (length m) * Z.of_nat (length l) - fold_right (fun x a => (Z.of_nat (occ x l) + a)%Z) 0%Z m)%Z).
    { induction m as [|x m IH]; cbn [fold_right length]; [lia|]. rewrite IH. lia. }
    rewrite G. unfold Z.sub. rewrite inject_Z_plus, inject_Z_mult, inject_Z_opp.
    fold (Qnat (length l)). field. exact Hne.
  Qed.

  (** *** Sorted counts *)
  Lemma insert_desc_perm (kv : K * nat) l : Permutation (insert_desc kv l) (kv :: l).
  Proof.
    induction l as [|kv' l IH]; cbn [insert_desc]; [reflexivity|]. destruct (snd kv <? snd kv'); [|reflexivity].
    rewrite IH. apply perm_swap.
  Qed.
  Lemma sort_desc_perm (l : list (K * nat)) : Permutation (sort_desc l) l.
  Proof. induction l; cbn; [reflexivity|]. rewrite insert_desc_perm. constructor. assumption. Qed.

  Inductive desc : list (K * nat) -> Prop :=
  | desc_nil : desc []
  | desc_cons kv l : (forall kv', In kv' l -> snd kv' <= snd kv) -> desc l -> desc (kv :: l).

  Lemma insert_desc_sorted (kv : K * nat) l : desc l -> desc (insert_desc kv l).
  Proof.
    induction 1 as [|kv' l Hle Hl IH]; cbn [insert_desc].
    - constructor; [intros ? []|constructor].
    - destruct (Nat.ltb_spec (snd kv) (snd kv')).
      + constructor; [|exact IH]. intros x Hx. apply (Permutation_in _ (insert_desc_perm kv l)) in Hx.
        destruct Hx as [<-|Hx]; [lia|auto].
      + constructor; [|constructor; assumption]. intros x [<-|Hx]; [lia|]. specialize (Hle _ Hx). lia.
  Qed.
  Lemma sort_desc_sorted (l : list (K * nat)) : desc (sort_desc l).
  Proof. induction l; cbn; [constructor|]. apply insert_desc_sorted. assumption. Qed.

  Lemma desc_app_le l1 : forall l2, desc (l1 ++ l2) -> forall a b, In a l1 -> In b l2 -> snd b <= snd a.
  Proof.
    induction l1 as [|x l1 IH]; intros l2 H a b Ha Hb; [contradiction|].
    cbn in H. inversion H as [|? ? Hx Hl]; subst. destruct Ha as [<-|Ha].
    - apply Hx. apply in_or_app. auto.
    - eapply IH; eauto.
  Qed.

  Lemma desc_app_l l1 : forall l2, desc (l1 ++ l2) -> desc l1.
  Proof.
    induction l1 as [|x l1 IH]; intros l2 H; [constructor|].
    cbn in H. inversion H as [|? ? Hx Hl]; subst. constructor; [|eauto].
    intros y Hy. apply Hx. apply in_or_app. auto.
  Qed.

  Lemma top_k_spec vc h s : value_counts_ok vc -> run vc h = Ok s -> cat_stopped s = false ->
    desc (categorical_count s) /\
    (forall v c, In (v, c) (categorical_count s) -> c = occ v (rows h) /\ In v (rows h)) /\
    NoDup (map fst (categorical_count s)) /\
    length (categorical_count s) = match cat_topk s with
      | None => length (distinct (rows h)) | Some k => Nat.min k (length (distinct (rows h))) end /\
    (forall v c w, In (v, c) (categorical_count s) -> In w (rows h) ->
       ~ In w (map fst (categorical_count s)) -> occ w (rows h) <= c).
  Proof.
    intros Hvc E Hs. destruct (run_counts vc Hvc h s E Hs) as [Hc _].
    pose proof (sort_desc_perm (cat_cats s)) as Hp. pose proof (sort_desc_sorted (cat_cats s)) as Hd.
    set (k := match cat_topk s with None => length (sort_desc (cat_cats s)) | Some k => k end).
    assert (Hk : categorical_count s = firstn k (sort_desc (cat_cats s))).
    { unfold categorical_count, k. destruct (cat_topk s); [reflexivity|]. rewrite firstn_all. reflexivity. }
    rewrite Hk. rewrite <- (firstn_skipn k (sort_desc (cat_cats s))) in Hd.
    assert (Hget : forall v c, In (v, c) (sort_desc (cat_cats s)) -> c = occ v (rows h) /\ In v (rows h)).
    { intros v c Hi. apply (Permutation_in _ Hp) in Hi. destruct Hc as [Hn Hg].
      pose proof (dget_In _ _ _ Hn Hi) as Hv. rewrite Hg in Hv.
      destruct (Nat.eqb_spec (occ v (rows h)) 0); [discriminate|]. injection Hv as <-.
      split; [reflexivity|]. apply occ_pos. lia. }
    assert (Hnd : NoDup (map fst (sort_desc (cat_cats s)))).
    { apply (Permutation_NoDup (Permutation_map fst (Permutation_sym Hp))). apply Hc. }
    assert (Hlen : length (sort_desc (cat_cats s)) = length (distinct (rows h))).
    { rewrite (Permutation_length Hp), <- (counts_of_length _ _ Hc). unfold dkeys. rewrite map_length. reflexivity. }
    split; [eapply desc_app_l; exact Hd|]. split; [|split; [|split]].
    - intros v c Hi. apply Hget. rewrite <- (firstn_skipn k (sort_desc (cat_cats s))).
      apply in_or_app. auto.
    - rewrite <- firstn_map. rewrite <- (firstn_skipn k (map fst (sort_desc (cat_cats s)))) in Hnd.
      apply NoDup_app_l in Hnd. exact Hnd.
    - rewrite firstn_length, Hlen. unfold k. destruct (cat_topk s); [reflexivity|].
      rewrite Hlen. apply Nat.min_id.
    - intros v c w Hi Hw Hnw.
      assert (Hin : In (w, occ w (rows h)) (sort_desc (cat_cats s))).
      { apply (Permutation_in _ (Permutation_sym Hp)). apply dget_Some_In. destruct Hc as [_ Hg].
        rewrite Hg. apply occ_pos in Hw. destruct (Nat.eqb_spec (occ w (rows h)) 0); [lia|reflexivity]. }
      rewrite <- (firstn_skipn k (sort_desc (cat_cats s))) in Hin. apply in_app_or in Hin.
      destruct Hin as [Hin|Hin].
      + exfalso. apply Hnw. apply (in_map fst) in Hin. exact Hin.
      + apply (desc_app_le _ _ Hd (v, c) _ Hi Hin).
  Qed.
End CatProofs.
Arguments hist K : clear implicits.
