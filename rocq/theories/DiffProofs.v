(** Lemmas about differences of report values. *)
From Coq Require Import QArith Permutation.
From Verif Require Import PyCommon ListFacts PyDict PyString PyEq DiffModel.
Local Open Scope nat_scope.

Section Diff.
  Context {K E : Type} {EK : EqDecB K} {EE : EqDecB E}.
  Notation val := (val K E).
  Notation out := (out K E).

  (** *** Lists *)
  Lemma occ_lremove (x y : E) : forall l, occ y (lremove x l) = occ y l - (if eqb x y then 1 else 0).
  Proof.
    induction l as [|z l IH]; cbn [occ lremove]; [destruct (eqb x y); reflexivity|].
    destruct (eqb_spec x z) as [->|N]; [destruct (eqb z y); lia|].
    cbn [occ]. rewrite IH. destruct (eqb_spec z y) as [->|N2]; [|lia]. destruct (eqb_spec x y); [congruence|]. lia.
  Qed.

  Lemma occ_cons (x y : E) l : occ y (x :: l) = (if eqb x y then 1 else 0) + occ y l.
  Proof. reflexivity. Qed.

  Lemma share_spec y : forall l sh r,
    let '(sh', r') := fold_left share_step l (sh, r) in
    occ y sh' = occ y sh + Nat.min (occ y l) (occ y r) /\ occ y r' = occ y r - Nat.min (occ y l) (occ y r).
  Proof.
    induction l as [|x l IH]; intros sh r; [cbn; lia|]. cbn [fold_left]. unfold share_step at 2. cbn [fst snd].
    destruct (lmem r x) eqn:Em.
    - apply lmem_In in Em. specialize (IH (sh ++ [x]) (lremove x r)).
      destruct (fold_left share_step l (sh ++ [x], lremove x r)) as [sh' r']. rewrite occ_app, occ_lremove in IH.
      rewrite (occ_cons x y l). cbn [occ] in IH. destruct (eqb_spec x y) as [<-|N]; [|lia].
      pose proof (proj2 (occ_pos x r) Em). lia.
    - apply lmem_false in Em. specialize (IH sh r). destruct (fold_left share_step l (sh, r)) as [sh' r'].
      rewrite (occ_cons x y l). destruct (eqb_spec x y) as [<-|N]; [|lia].
      assert (occ x r = 0) by (destruct (occ x r) eqn:Z; [reflexivity|]; exfalso; apply Em; apply occ_pos; lia). lia.
  Qed.

  Lemma occ_remove_all y : forall sh (l : list E), occ y (fold_left (fun acc x => lremove x acc) sh l) = occ y l - occ y sh.
  Proof.
    induction sh as [|x sh IH]; intro l; cbn [fold_left]; [cbn; lia|].
    rewrite IH, occ_lremove, occ_cons. destruct (eqb x y); lia.
  Qed.

  Lemma same_set_spec (l l' : list E) : same_set l l' = true <-> (forall x, In x l <-> In x l').
  Proof.
    unfold same_set. rewrite andb_true_iff, !forallb_forall. split.
    - intros [H1 H2] x. split; intro I; [apply lmem_In, H1, I|apply lmem_In, H2, I].
    - intro H. split; intros x I; apply lmem_In; apply H; exact I.
  Qed.

  (** *** Dictionaries *)
  Lemma dset_fresh {V} (d : list (K * V)) k v : ~ In k (dkeys d) -> dset d k v = d ++ [(k, v)].
  Proof.
    induction d as [|[k' v'] d IH]; cbn [dset dkeys map fst In app]; intro N; [reflexivity|].
    destruct (eqb_spec k' k) as [->|Nk]; [tauto|]. rewrite IH by (unfold dkeys; tauto). reflexivity.
  Qed.

  Lemma entries_spec (f : val -> val -> result out) d2 : forall d1 acc acc', NoDup (dkeys d1) ->
    (forall k, In k (dkeys d1) -> ~ In k (dkeys acc)) -> entries f d2 d1 acc = Ok acc' ->
    exists new, acc' = acc ++ new /\
      Forall2 (fun kv ko => fst kv = fst ko /\ f (snd kv) (get_or_none d2 (fst kv)) = Ok (snd ko)) d1 new.
  Proof.
    induction d1 as [|[k v] d1 IH]; intros acc acc' Nd Dj H; cbn in H.
    - injection H as <-. exists []. rewrite app_nil_r. split; [reflexivity|constructor].
    - cbn in Nd. inversion Nd as [|? ? Nk Nd']; subst. destruct (f v (get_or_none d2 k)) as [o|] eqn:Ef; cbn in H; [|discriminate].
      assert (Ek : dset acc k o = acc ++ [(k, o)]).
      { apply dset_fresh. apply Dj. left. reflexivity. }
      rewrite Ek in H. apply IH in H; [|exact Nd'|].
      + destruct H as [new [-> F]]. exists ((k, o) :: new). rewrite <- app_assoc. split; [reflexivity|].
        constructor; [cbn; auto|exact F].
      + intros k' I. unfold dkeys. rewrite map_app, in_app_iff. cbn. intros [I2|[<-|[]]]; [|contradiction].
        apply (Dj k'); [right; exact I|exact I2].
  Qed.

  Lemma add_missing_spec : forall (d2 : list (K * val)) (acc : list (K * out)), NoDup (dkeys d2) ->
    add_missing d2 acc = acc ++ map (fun kv => (fst kv, OPair VNone (snd kv))) (filter (fun kv => negb (dmem acc (fst kv))) d2).
  Proof.
    induction d2 as [|[k v] d2 IH]; intros acc Nd; [cbn; rewrite app_nil_r; reflexivity|].
    cbn in Nd. inversion Nd as [|? ? Nk Nd']; subst. unfold add_missing. cbn [fold_left fst snd filter].
    destruct (dmem acc k) eqn:Em; cbn [negb].
    - apply (IH acc Nd').
    - assert (Ek : dset acc k (OPair VNone v) = acc ++ [(k, OPair VNone v)]).
      { apply dset_fresh. apply dmem_false. exact Em. }
      change (fold_left _ d2 ?a) with (add_missing d2 a). rewrite Ek, (IH _ Nd'), <- app_assoc. cbn [map app fst snd]. do 3 f_equal.
      apply filter_ext_in. intros [k' v'] I. cbn. f_equal.
      destruct (dmem acc k') eqn:E1.
      + apply dmem_true. apply dmem_true in E1. unfold dkeys in *. rewrite map_app, in_app_iff. auto.
      + apply dmem_false. apply dmem_false in E1. unfold dkeys in *. rewrite map_app, in_app_iff. cbn. intros [I2|[<-|[]]]; [contradiction|].
        apply Nk. apply (in_map fst) in I. exact I.
  Qed.

  (** *** Values that compare cleanly *)

  (** Induction over nested dictionaries. *)
  Lemma val_nested_ind (P : val -> Prop) :
    P VNone -> (forall n, P (VNum n)) -> (forall b, P (VBool b)) -> (forall s, P (VStr s)) -> (forall t, P (VDate t)) ->
    (forall l, P (VList l)) -> (forall d, Forall (fun kv => P (snd kv)) d -> P (VDict d)) -> forall v, P v.
  Proof.
    intros H1 H2 H3 H4 H5 H6 H7. fix IH 1.
    intros [ |n|b|s|t|l|d]; [exact H1|apply H2|apply H3|apply H4|apply H5|apply H6|].
    apply H7. induction d as [|[k v] d IHd]; constructor; [apply IH|exact IHd].
  Qed.

  (** No NaN; no repeated list elements or keys. *)
  Fixpoint wf (v : val) : Prop :=
    match v with
    | VNum None => False
    | VList l => NoDup l
    | VDict d => NoDup (dkeys d) /\ (fix all l := match l with [] => True | kv :: r => wf (snd kv) /\ all r end) d
    | _ => True
    end.

  (** No None anywhere. *)
  Fixpoint present (v : val) : Prop :=
    match v with
    | VNone => False
    | VDict d => (fix all l := match l with [] => True | kv :: r => present (snd kv) /\ all r end) d
    | _ => True
    end.

  (** Equal values: numbers as numbers, lists up to order, dictionaries as maps. *)
  Fixpoint same (a b : val) : Prop :=
    match a, b with
    | VNone, VNone => True
    | VStr s, VStr t => s = t
    | VDate s, VDate t => s = t
    | VList l, VList l' => Permutation l l'
    | VDict d, VDict d' =>
        (fix all l := match l with
                      | [] => True
                      | kv :: r => match dget d' (fst kv) with Some w => same (snd kv) w | None => False end /\ all r
                      end) d /\
        (forall k, In k (dkeys d') -> In k (dkeys d))
    | _, _ => match num_of a, num_of b with Some (Some x), Some (Some y) => (x == y)%Q | _, _ => False end
    end.

  (** A difference that reports no difference. *)
  Fixpoint clean (o : out) : Prop :=
    match o with
    | Unchanged => True
    | ODict d => (fix all l := match l with [] => True | ko :: r => clean (snd ko) /\ all r end) d
    | OParts a s b => a = [] /\ b = [] /\ (fix all l := match l with [] => True | ko :: r => clean (snd ko) /\ all r end) s
    | _ => False
    end.

  Lemma wf_dict d : wf (VDict d) <-> NoDup (dkeys d) /\ Forall (fun kv => wf (snd kv)) d.
  Proof.
    cbn. split; intros [H1 H2]; (split; [exact H1|]); clear H1.
    - induction d as [|kv d IH]; constructor; tauto.
    - induction H2; tauto.
  Qed.

  Lemma present_dict d : present (VDict d) <-> Forall (fun kv => present (snd kv)) d.
  Proof. cbn. split; intro H; [induction d; constructor; tauto|induction H; tauto]. Qed.

  Lemma clean_dict (d : list (K * out)) : clean (ODict d) <-> Forall (fun ko => clean (snd ko)) d.
  Proof. cbn. split; intro H; [induction d; constructor; tauto|induction H; tauto]. Qed.

  Lemma clean_parts a (s : list (K * out)) b : clean (OParts a s b) <-> a = [] /\ b = [] /\ Forall (fun ko => clean (snd ko)) s.
  Proof.
    cbn. split; intros [-> [-> H]]; (split; [reflexivity|split; [reflexivity|]]); [induction s; constructor; tauto|induction H; tauto].
  Qed.

  Lemma same_dict d d' : same (VDict d) (VDict d') <->
    (Forall (fun kv => exists w, dget d' (fst kv) = Some w /\ same (snd kv) w) d /\ (forall k, In k (dkeys d') -> In k (dkeys d))).
  Proof.
    cbn. split; intros [H1 H2]; (split; [|exact H2]); clear H2.
    - induction d as [|kv d IH]; constructor; [|tauto]. destruct H1 as [H1 _]. destruct (dget d' (fst kv)) as [w|]; [eauto|contradiction].
    - induction H1 as [|kv d [w [-> Hw]] F IH]; [exact I|]. auto.
  Qed.

  Lemma py_eq_str s (b : val) : py_eq (VStr s) b = true <-> b = VStr s.
  Proof.
    destruct b; unfold py_eq; cbn [num_of]; try (split; [discriminate|congruence]). rewrite eqb_eq. split; intro H; [subst|injection H as ->]; reflexivity.
  Qed.

  Lemma diff_two_lists_unchanged (l l' : list E) : diff_two_lists (K:=K) l l' = Unchanged <->
    ((forall x, In x l <-> In x l') /\ length l = length l').
  Proof.
    unfold diff_two_lists. destruct (same_set l l') eqn:Es; cbn [negb orb].
    - destruct (Nat.eqb_spec (length l) (length l')) as [El|Nl]; cbn [negb].
      + split; [|reflexivity]. intros _. split; [apply same_set_spec; exact Es|exact El].
      + destruct (fold_left share_step l ([], l')). split; [discriminate|]. intros [_ El]. contradiction.
    - destruct (fold_left share_step l ([], l')). split; [discriminate|]. intros [H _]. apply same_set_spec in H. congruence.
  Qed.

  Lemma clean_two_lists (l l' : list E) : clean (diff_two_lists (K:=K) l l') <-> diff_two_lists (K:=K) l l' = Unchanged.
  Proof.
    unfold diff_two_lists. destruct (_ || _); [|cbn; tauto]. destruct (fold_left share_step l ([], l')). cbn. split; [tauto|discriminate].
  Qed.

  Lemma list_clean_iff (l l' : list E) : NoDup l -> NoDup l' -> (clean (diff_two_lists (K:=K) l l') <-> Permutation l l').
  Proof.
    intros N1 N2. rewrite clean_two_lists, diff_two_lists_unchanged. split.
    - intros [H _]. apply NoDup_Permutation; assumption.
    - intro P. split; [|apply Permutation_length; exact P]. intro x. split; apply Permutation_in; [exact P|apply Permutation_sym; exact P].
  Qed.

  Lemma numbers_clean_iff (a b : val) o : wf a -> wf b -> num_of a <> None -> diff_numbers a b = Ok o -> (clean o <-> same a b).
  Proof.
    intros Wa Wb Na H. destruct a as [ |[x|]|x|s|t|l|d]; try (cbn in Na; congruence); try (destruct Wa; fail);
      destruct b as [ |[y|]|y|s'|t'|l'|d']; cbn in H |- *; try (destruct Wb; fail); try (injection H as <-; cbn; tauto); try discriminate.
    all: match type of H with (if Qeq_bool ?u ?w then _ else _) = _ => destruct (Qeq_bool u w) eqn:Eq end; injection H as <-; cbn.
    all: try (apply Qeq_bool_iff in Eq; tauto).
    all: split; [tauto|]; intro Q1; apply Qeq_bool_iff in Q1; congruence.
  Qed.

  Lemma strings_clean_iff (s : string) (b : val) o : diff_strings (VStr s) b = Ok o -> (clean o <-> same (VStr s) b).
  Proof.
    unfold diff_strings. destruct (py_eq (VStr s) b) eqn:Ep; intro H; injection H as <-.
    - apply py_eq_str in Ep. subst b. cbn. tauto.
    - split; [intros []|]. intro H. exfalso. destruct b; cbn in H; try contradiction. subst. unfold py_eq in Ep. cbn [num_of] in Ep. rewrite eqb_refl in Ep. discriminate.
  Qed.

  Lemma dates_clean_iff t (b : val) o : diff_dates (VDate t) b = Ok o -> (clean o <-> same (VDate t) b).
  Proof.
    destruct b; cbn; intro H; try discriminate; try (injection H as <-; cbn; tauto).
    destruct (Z.eqb_spec t t0) as [->|N]; injection H as <-; cbn; tauto.
  Qed.

  Lemma lists_clean_iff l (b : val) o : wf (VList l) -> wf b -> diff_lists (VList l) b = Ok o -> (clean o <-> same (VList l) b).
  Proof.
    intros W1 W2 H. destruct b; cbn in H; try discriminate; injection H as <-; [cbn; tauto|]. apply list_clean_iff; assumption.
  Qed.

  Lemma get_or_none_case (d : list (K * val)) k : (exists w, dget d k = Some w /\ get_or_none d k = w) \/ (dget d k = None /\ get_or_none d k = VNone).
  Proof. unfold get_or_none. destruct (dget d k) as [w|]; [left; eauto|right; auto]. Qed.

  Lemma diff_val_missing v o : present v -> diff_val v VNone = Ok o -> ~ clean o.
  Proof. intros P H. destruct v; cbn in *; try (injection H as <-; cbn; tauto); contradiction. Qed.

  Lemma In_wf d k (w : val) : wf (VDict d) -> dget d k = Some w -> wf w.
  Proof. intros W G. apply wf_dict in W. destruct W as [_ F]. rewrite Forall_forall in F. apply dget_Some_In in G. exact (F _ G). Qed.

  Lemma In_present d k (w : val) : present (VDict d) -> dget d k = Some w -> present w.
  Proof. intros W G. apply present_dict in W. rewrite Forall_forall in W. apply dget_Some_In in G. exact (W _ G). Qed.

  Lemma Forall2_map_fst {X Y} (R : K * X -> K * Y -> Prop) d d' : (forall a b, R a b -> fst a = fst b) -> Forall2 R d d' -> map fst d = map fst d'.
  Proof. intros H F. induction F; cbn; [reflexivity|]. f_equal; auto. Qed.

  Lemma finish_clean d : clean (finish d) <-> Forall (fun ko : K * out => clean (snd ko)) d.
  Proof.
    unfold finish. destruct d as [|p d]; [cbn; split; [constructor|tauto]|apply clean_dict].
  Qed.

  Lemma clean_iff : forall v1 v2 o, wf v1 -> wf v2 -> present v1 -> present v2 -> diff_val v1 v2 = Ok o -> (clean o <-> same v1 v2).
  Proof.
    induction v1 as [ |n|b|s|t|l|d1 IH] using val_nested_ind; intros v2 o W1 W2 P1 P2 H.
    - destruct P1.
    - apply (numbers_clean_iff (VNum n) v2); auto. cbn. discriminate.
    - apply (numbers_clean_iff (VBool b) v2); auto. cbn. discriminate.
    - apply strings_clean_iff. exact H.
    - apply dates_clean_iff. exact H.
    - apply lists_clean_iff; assumption.
    - destruct v2 as [ |n|b|s|t|l|d2]; cbn in H; try (injection H as <-; cbn; tauto); try discriminate.
      change (bind (entries diff_val d2 d1 []) (fun acc => Ok (finish (add_missing d2 acc))) = Ok o) in H.
      destruct (entries diff_val d2 d1 []) as [acc|] eqn:Ee; cbn [bind] in H; [|discriminate].
      assert (Eo : finish (add_missing d2 acc) = o) by congruence. clear H. subst o.
      pose proof (proj1 (wf_dict d1) W1) as [N1 F1]. pose proof (proj1 (wf_dict d2) W2) as [N2 F2].
      destruct (entries_spec _ d2 d1 [] acc N1 (fun _ _ i => i) Ee) as [new [-> F]]. cbn [app].
      rewrite finish_clean, add_missing_spec by exact N2. rewrite Forall_app, same_dict.
      assert (Ek : dkeys new = dkeys d1) by (symmetry; apply (Forall2_map_fst _ _ _ (fun a b H => proj1 H) F)).
      assert (A : Forall (fun ko : K * out => clean (snd ko)) new <->
                  Forall (fun kv => exists w, dget d2 (fst kv) = Some w /\ same (snd kv) w) d1).
      { clear Ee Ek. apply present_dict in P1. clear W1 N1. induction F as [|[k v] [k' o] d new [Ef Eo] F IHF]; [split; constructor|].
        cbn [fst snd] in Ef, Eo. subst k'. inversion IH as [|? ? IHv IHd]; subst. inversion F1 as [|? ? Wv Wd]; subst.
        inversion P1 as [|? ? Pv Pd]; subst. cbn [snd] in *. specialize (IHF IHd Pd Wd).
        rewrite !Forall_cons_iff, IHF. cbn [fst snd].
        assert (S : clean o <-> exists w, dget d2 k = Some w /\ same v w).
        { destruct (get_or_none_case d2 k) as [[w [Ew Eg]]|[Ew Eg]]; rewrite Eg in Eo.
          - rewrite (IHv w o Wv (In_wf _ _ _ W2 Ew) Pv (In_present _ _ _ P2 Ew) Eo). split; [eauto|].
            intros [w' [E' S]]. congruence.
          - split; [intro Cl; destruct (diff_val_missing v o Pv Eo Cl)|]. intros [w [E' _]]. congruence. }
        rewrite S. tauto. }
      assert (B : Forall (fun ko : K * out => clean (snd ko))
                    (map (fun kv => (fst kv, OPair VNone (snd kv))) (filter (fun kv => negb (dmem new (fst kv))) d2)) <->
                  (forall k, In k (dkeys d2) -> In k (dkeys d1))).
      { rewrite Forall_map. split.
        - intros Fm k I. rewrite <- Ek. unfold dkeys in I. apply in_map_iff in I. destruct I as [kv [<- I]].
          destruct (dmem new (fst kv)) eqn:Em; [apply dmem_true; exact Em|]. rewrite Forall_forall in Fm.
          destruct (Fm kv). apply filter_In. rewrite Em. auto.
        - intro Inc. apply Forall_forall. intros kv I. apply filter_In in I. destruct I as [I Em]. exfalso.
          assert (In (fst kv) (dkeys new)) by (rewrite Ek; apply Inc; apply in_map; exact I).
          apply dmem_true in H. rewrite H in Em. discriminate. }
      rewrite A, B. tauto.
  Qed.

  Lemma same_refl : forall v, wf v -> same v v.
  Proof.
    induction v as [ |[n|]|b|s|t|l|d IH] using val_nested_ind; intro W; cbn; auto; try (destruct W; fail); try reflexivity.
    change (same (VDict d) (VDict d)). rewrite same_dict. split; [|auto]. apply wf_dict in W. destruct W as [N F].
      rewrite Forall_forall in *. intros [k v] I. exists v. cbn [fst snd]. split; [apply dget_In; assumption|].
      apply (IH (k, v) I). exact (F (k, v) I).
  Qed.

  (** Values of the same kind: the comparison succeeds. *)
  Fixpoint kin (a b : val) : Prop :=
    match a, b with
    | _, VNone => True
    | VNone, _ => True
    | VStr _, VStr _ | VDate _, VDate _ | VList _, VList _ => True
    | VDict d, VDict d' =>
        (fix all l := match l with
                      | [] => True
                      | kv :: r => match dget d' (fst kv) with Some w => kin (snd kv) w | None => True end /\ all r
                      end) d
    | _, _ => num_of a <> None /\ num_of b <> None
    end.

  Lemma kin_dict d d' : kin (VDict d) (VDict d') <-> Forall (fun kv => forall w, dget d' (fst kv) = Some w -> kin (snd kv) w) d.
  Proof.
    cbn. split; intro H.
    - induction d as [|kv d IH]; constructor; [|tauto]. intros w E0. destruct H as [H _]. rewrite E0 in H. exact H.
    - induction H as [|kv d H F IH]; [exact I|]. split; [|exact IH]. destruct (dget d' (fst kv)); auto.
  Qed.

  Lemma kin_none v : kin v VNone.
  Proof. destruct v; exact I. Qed.

  Lemma kin_refl : forall v, wf v -> kin v v.
  Proof.
    induction v as [ |n|b|s|t|l|d IH] using val_nested_ind; intro W; cbn; auto; try (split; discriminate).
    change (kin (VDict d) (VDict d)). rewrite kin_dict. apply wf_dict in W. destruct W as [N F].
    rewrite Forall_forall in *. intros [k v] I w E0. cbn [fst snd] in *. rewrite (dget_In d k v N I) in E0. injection E0 as <-.
    apply (IH (k, v) I). exact (F (k, v) I).
  Qed.

  Lemma numbers_ok (a b : val) : num_of a <> None -> num_of b <> None -> exists o, diff_numbers a b = Ok o.
  Proof.
    intros Ha Hb. destruct a; cbn in Ha; try congruence; destruct b; cbn in Hb; try congruence; unfold diff_numbers;
      match goal with |- context [if ?c then _ else _] => destruct c end; cbn; eauto.
  Qed.

  Lemma entries_ok (f : val -> val -> result out) d2 : forall d1 acc,
    Forall (fun kv => exists o, f (snd kv) (get_or_none d2 (fst kv)) = Ok o) d1 -> exists acc', entries f d2 d1 acc = Ok acc'.
  Proof.
    induction d1 as [|[k v] d1 IH]; intros acc F; cbn; [eauto|]. inversion F as [|? ? [o Eo] F']; subst. cbn in Eo. rewrite Eo. cbn.
    apply IH. exact F'.
  Qed.

  Lemma diff_val_ok : forall v1 v2, kin v1 v2 -> exists o, diff_val v1 v2 = Ok o.
  Proof.
    induction v1 as [ |n|b|s|t|l|d IH] using val_nested_ind; intros v2 H.
    - destruct v2; cbn; eauto.
    - destruct v2; cbn in H; try tauto; try (destruct H; congruence); try (apply numbers_ok; discriminate). cbn. eauto.
    - destruct v2; cbn in H; try tauto; try (destruct H; congruence); try (apply numbers_ok; discriminate). cbn. eauto.
    - cbn [diff_val]. unfold diff_strings. destruct (py_eq _ _); eauto.
    - destruct v2; cbn in H; try tauto; try (destruct H; congruence); cbn; eauto. destruct (t =? t0)%Z; eauto.
    - destruct v2; cbn in H; try tauto; try (destruct H; congruence); cbn; eauto.
    - destruct v2 as [ |n|b|s|t|l|d2]; try (cbn in H; destruct H; congruence); [cbn; eauto|].
      apply kin_dict in H. cbn [diff_val]. destruct (entries_ok diff_val d2 d []) as [acc ->]; [|cbn; eauto].
      rewrite Forall_forall in *. intros [k v] I. cbn [fst snd]. apply (IH (k, v) I). cbn [snd].
      destruct (get_or_none_case d2 k) as [[w [Ew ->]]|[_ ->]]; [|apply kin_none]. exact (H (k, v) I w Ew).
  Qed.

  (** Entry by entry. *)
  Lemma dget_app {V} (d e : list (K * V)) k : dget (d ++ e) k = match dget d k with Some v => Some v | None => dget e k end.
  Proof. induction d as [|[k' v'] d IH]; cbn; [reflexivity|]. destruct (eqb k' k); [reflexivity|exact IH]. Qed.

  Lemma dget_pointwise {X Y} (R : K -> X -> Y -> Prop) (d : list (K * X)) (d' : list (K * Y)) :
    Forall2 (fun a b => fst a = fst b /\ R (fst a) (snd a) (snd b)) d d' -> forall k,
    match dget d k, dget d' k with Some x, Some y => R k x y | None, None => True | _, _ => False end.
  Proof.
    intros F k. induction F as [|[k1 x] [k2 y] d d' [E0 H] F IH]; [exact I|]. cbn in *. subst k2.
    destruct (eqb_spec k1 k) as [->|N]; [exact H|exact IH].
  Qed.

  Lemma dget_map_filter (d : list (K * val)) (g : val -> out) (p : K -> bool) k :
    dget (map (fun kv => (fst kv, g (snd kv))) (filter (fun kv => p (fst kv)) d)) k =
    if p k then match dget d k with Some v => Some (g v) | None => None end else None.
  Proof.
    induction d as [|[k' v] d IH]; cbn [filter map dget fst]; [destruct (p k); reflexivity|].
    destruct (p k') eqn:Ep; cbn [map dget fst snd].
    - destruct (eqb_spec k' k) as [->|N]; [rewrite Ep; reflexivity|exact IH].
    - destruct (eqb_spec k' k) as [->|N]; [rewrite IH, Ep; reflexivity|exact IH].
  Qed.

  Lemma diff_dict_entries (d1 d2 : list (K * val)) (o : out) : NoDup (dkeys d1) -> NoDup (dkeys d2) -> diff_val (VDict d1) (VDict d2) = Ok o ->
    (d1 = [] /\ d2 = [] /\ o = Unchanged) \/
    exists d, o = ODict d /\ dkeys d = dkeys d1 ++ filter (fun k => negb (lmem (dkeys d1) k)) (dkeys d2) /\
      forall k, match dget d1 k, dget d2 k with
                | Some v, None => exists x, dget d k = Some x /\ diff_val v VNone = Ok x
                | Some v, Some w => exists x, dget d k = Some x /\ diff_val v w = Ok x
                | None, Some w => dget d k = Some (OPair VNone w)
                | None, None => dget d k = None
                end.
  Proof.
    intros N1 N2 H. cbn [diff_val] in H. destruct (entries diff_val d2 d1 []) as [acc|] eqn:Ee; cbn [bind] in H; [|discriminate].
    injection H as <-. destruct (entries_spec _ d2 d1 [] acc N1 (fun _ _ i => i) Ee) as [new [-> F]]. cbn [app].
    rewrite add_missing_spec by exact N2.
    assert (Ek : dkeys new = dkeys d1) by (symmetry; apply (Forall2_map_fst _ _ _ (fun a b H => proj1 H) F)).
    set (d := new ++ _).
    assert (Hk : dkeys d = dkeys d1 ++ filter (fun k => negb (lmem (dkeys d1) k)) (dkeys d2)).
    { unfold d, dkeys at 1. rewrite map_app, map_map. cbn [fst]. fold (dkeys new). rewrite Ek. f_equal.
      rewrite (filter_ext (fun kv : K * val => negb (dmem new (fst kv))) (fun kv => negb (lmem (dkeys d1) (fst kv)))).
      - clear. generalize (dkeys d1) as ks. intro ks. unfold dkeys. induction d2 as [|[k v] d2 IH]; [reflexivity|].
        cbn [filter map fst]. destruct (lmem ks k); cbn [negb map fst]; [exact IH|f_equal; exact IH].
      - intros [k v]. cbn. f_equal. destruct (lmem (dkeys d1) k) eqn:El.
        + apply dmem_true. rewrite Ek. apply lmem_In. exact El.
        + apply dmem_false. rewrite Ek. apply lmem_false. exact El. }
    assert (Hd : forall k, match dget d1 k, dget d2 k with
                | Some v, None => exists x, dget d k = Some x /\ diff_val v VNone = Ok x
                | Some v, Some w => exists x, dget d k = Some x /\ diff_val v w = Ok x
                | None, Some w => dget d k = Some (OPair VNone w)
                | None, None => dget d k = None
                end).
    { intro k. unfold d. rewrite dget_app.
      rewrite (dget_map_filter d2 (OPair VNone) (fun k => negb (dmem new k)) k).
      pose proof (dget_pointwise (fun k v x => diff_val v (get_or_none d2 k) = Ok x) d1 new F k) as P.
      unfold get_or_none in P. unfold dmem.
      destruct (dget d1 k) as [v|], (dget new k) as [x|]; try contradiction.
      - destruct (dget d2 k) as [w|]; eauto.
      - cbn [negb]. destruct (dget d2 k); reflexivity. }
    destruct d as [|p d'] eqn:Ed.
    - left. destruct d1 as [|kv d1]; [|destruct new; discriminate]. destruct d2 as [|kv d2]; [auto|]. cbn in Hk. discriminate.
    - right. exists (p :: d'). auto.
  Qed.

  (** *** find_diff_of_dicts_with_diff_keys *)
  Lemma shared_spec (f : val -> val -> result out) d2 : forall d1 acc acc', NoDup (dkeys d1) ->
    (forall k, In k (dkeys d1) -> ~ In k (dkeys (fst acc)) /\ ~ In k (dkeys (snd acc))) -> shared_entries f d2 d1 acc = Ok acc' ->
    exists new, fst acc' = fst acc ++ filter (fun kv => negb (dmem d2 (fst kv))) d1 /\ snd acc' = snd acc ++ new /\
      Forall2 (fun kv ko => fst kv = fst ko /\ exists w, dget d2 (fst kv) = Some w /\ f (snd kv) w = Ok (snd ko))
        (filter (fun kv => dmem d2 (fst kv)) d1) new.
  Proof.
    induction d1 as [|[k v] d1 IH]; intros acc acc' Nd Dj H; cbn [shared_entries] in H.
    - injection H as <-. exists []. rewrite !app_nil_r. repeat split. constructor.
    - cbn in Nd. inversion Nd as [|? ? Nk Nd']; subst. cbn [filter fst].
    assert (Em : dmem d2 k = match dget d2 k with Some _ => true | None => false end) by (unfold dmem; reflexivity).
      destruct (Dj k (or_introl eq_refl)) as [Da Ds].
      destruct (dget d2 k) as [w|] eqn:Ew; rewrite Em; cbn [negb].
      + destruct (f v w) as [o|] eqn:Ef; cbn [bind] in H; [|discriminate].
        apply IH in H; [|exact Nd'|].
        * destruct H as [new [E1 [E2 F]]]. cbn [fst snd] in E1, E2. rewrite dset_fresh in E2 by exact Ds. rewrite <- app_assoc in E2.
          exists ((k, o) :: new). split; [exact E1|]. split; [exact E2|]. constructor; [cbn; eauto|exact F].
        * intros k' I. cbn [fst snd]. split; [apply Dj; right; exact I|]. rewrite In_dkeys_dset. intros [->|I2]; [contradiction|].
          revert I2. apply Dj. right. exact I.
      + apply IH in H; [|exact Nd'|].
        * destruct H as [new [E1 [E2 F]]]. cbn [fst snd] in E1, E2. rewrite dset_fresh in E1 by exact Da. rewrite <- app_assoc in E1.
          exists new. auto.
        * intros k' I. cbn [fst snd]. split; [|apply Dj; right; exact I]. rewrite In_dkeys_dset. intros [->|I2]; [contradiction|].
          revert I2. apply Dj. right. exact I.
  Qed.

  Lemma only_second_from (d1 : list (K * val)) : forall (d2 acc : list (K * val)), NoDup (dkeys d2) -> (forall k, In k (dkeys d2) -> ~ In k (dkeys acc)) ->
    fold_left (fun acc kv => if dmem d1 (fst kv) then acc else dset acc (fst kv) (snd kv)) d2 acc =
    acc ++ filter (fun kv => negb (dmem d1 (fst kv))) d2.
  Proof.
    induction d2 as [|[k v] d2 IH]; intros acc Nd Dj; [cbn; rewrite app_nil_r; reflexivity|].
    cbn in Nd. inversion Nd as [|? ? Nk Nd']; subst. cbn [fold_left filter fst snd]. destruct (dmem d1 k); cbn [negb].
    - apply IH; [exact Nd'|]. intros k' I. apply Dj. right. exact I.
    - rewrite IH; [|exact Nd'|].
      + rewrite dset_fresh by (apply Dj; left; reflexivity). rewrite <- app_assoc. reflexivity.
      + intros k' I. rewrite In_dkeys_dset. intros [->|I2]; [contradiction|]. revert I2. apply Dj. right. exact I.
  Qed.

  Lemma only_second_spec (d1 d2 : list (K * val)) : NoDup (dkeys d2) -> only_second d1 d2 = filter (fun kv => negb (dmem d1 (fst kv))) d2.
  Proof. intro N. apply (only_second_from d1 d2 [] N). intros k _ I. exact I. Qed.

  Lemma finish_parts_clean a s b : clean (finish_parts a s b) <-> a = [] /\ b = [] /\ Forall (fun ko : K * out => clean (snd ko)) s.
  Proof.
    unfold finish_parts. destruct a, s, b; try (apply clean_parts). cbn. repeat split; try tauto. constructor.
  Qed.

  Lemma filter_nil_iff {X} (p : X -> bool) l : filter p l = [] <-> forall x, In x l -> p x = false.
  Proof.
    induction l as [|x l IH]; cbn; [split; auto; intros _ ? []|]. destruct (p x) eqn:Ep.
    - split; [discriminate|]. intro H. rewrite (H x (or_introl eq_refl)) in Ep. discriminate.
    - rewrite IH. split; [intros H y [<-|I]; auto|intros H y I; auto].
  Qed.

  Lemma filter_all {X} (p : X -> bool) l : (forall x, In x l -> p x = true) -> filter p l = l.
  Proof. induction l as [|x l IH]; intro H; cbn; [reflexivity|]. rewrite (H x (or_introl eq_refl)). f_equal. apply IH. intros y I. apply H. right. exact I. Qed.

  Lemma bools_clean_iff b (w : val) o : diff_strings (VBool b) w = Ok o -> wf w -> (clean o <-> same (VBool b) w).
  Proof.
    unfold diff_strings. intros H W. destruct (py_eq (VBool b) w) eqn:Ep; injection H as <-;
      destruct w as [ |[y|]|y|s|t|l|d]; cbn in Ep |- *; try (destruct W; fail); try discriminate; try tauto.
    - apply Qeq_bool_iff in Ep. tauto.
    - apply Qeq_bool_iff in Ep. tauto.
    - split; [tauto|]. intro Q1. apply Qeq_bool_iff in Q1. congruence.
    - split; [tauto|]. intro Q1. apply Qeq_bool_iff in Q1. congruence.
  Qed.

  Lemma parts_clean_iff : forall v1 v2 o, wf v1 -> wf v2 -> parts_val v1 v2 = Ok o -> (clean o <-> same v1 v2).
  Proof.
    induction v1 as [ |n|b|s|t|l|d1 IH] using val_nested_ind; intros v2 o W1 W2 H.
    - destruct v2; cbn in H; injection H as <-; cbn; tauto.
    - apply (numbers_clean_iff (VNum n) v2); auto. cbn. discriminate.
    - apply bools_clean_iff; assumption.
    - apply strings_clean_iff. exact H.
    - apply dates_clean_iff. exact H.
    - apply lists_clean_iff; assumption.
    - destruct v2 as [ |n|b|s|t|l|d2]; cbn in H; try (injection H as <-; cbn; tauto); try discriminate.
      change (bind (shared_entries parts_val d2 d1 ([], [])) (fun acc => Ok (finish_parts (fst acc) (snd acc) (only_second d1 d2))) = Ok o) in H.
      destruct (shared_entries parts_val d2 d1 ([], [])) as [acc|] eqn:Ee; cbn [bind] in H; [|discriminate].
      assert (Eo : finish_parts (fst acc) (snd acc) (only_second d1 d2) = o) by congruence. clear H. subst o.
      pose proof (proj1 (wf_dict d1) W1) as [N1 F1]. pose proof (proj1 (wf_dict d2) W2) as [N2 F2].
      destruct (shared_spec _ d2 d1 ([], []) acc N1 (fun _ _ => conj (fun i => i) (fun i => i)) Ee) as [new [-> [-> F]]].
      cbn [fst snd app]. rewrite only_second_spec by exact N2. rewrite finish_parts_clean, same_dict, !filter_nil_iff.
      assert (B : (forall x : K * val, In x d2 -> negb (dmem d1 (fst x)) = false) <-> (forall k, In k (dkeys d2) -> In k (dkeys d1))).
      { split.
        - intros H k I. unfold dkeys in I. apply in_map_iff in I. destruct I as [kv [<- I]]. apply dmem_true.
          specialize (H kv I). destruct (dmem d1 (fst kv)); [reflexivity|discriminate].
        - intros H kv I. rewrite (proj2 (dmem_true d1 (fst kv))); [reflexivity|]. apply H. apply in_map. exact I. }
      rewrite B. clear B.
      assert (A : ((forall x : K * val, In x d1 -> negb (dmem d2 (fst x)) = false) /\ Forall (fun ko : K * out => clean (snd ko)) new) <->
                  Forall (fun kv => exists w, dget d2 (fst kv) = Some w /\ same (snd kv) w) d1); [|rewrite <- A; tauto].
      assert (G : forall ds, Forall (fun kv => wf (snd kv)) ds -> Forall (fun kv => forall v2 o, wf (snd kv) -> wf v2 ->
                parts_val (snd kv) v2 = Ok o -> clean o <-> same (snd kv) v2) ds ->
              forall new, Forall2 (fun kv ko => fst kv = fst ko /\ exists w, dget d2 (fst kv) = Some w /\ parts_val (snd kv) w = Ok (snd ko)) ds new ->
              (Forall (fun ko : K * out => clean (snd ko)) new <-> Forall (fun kv => exists w, dget d2 (fst kv) = Some w /\ same (snd kv) w) ds)).
      { clear - W2. intros ds Wd Id new F. induction F as [|[k v] [k' o] ds new [Ek [w [Ew Eo]]] F IHF]; [split; constructor|].
        cbn [fst snd] in *. subst k'. inversion Wd as [|? ? Wv Wd']; subst. inversion Id as [|? ? Iv Id']; subst. cbn [snd] in *.
        rewrite !Forall_cons_iff, (IHF Wd' Id'). cbn [fst snd]. rewrite (Iv w o Wv (In_wf _ _ _ W2 Ew) Eo).
        split; intros [H1 H2]; (split; [|exact H2]); [eauto|]. destruct H1 as [w' [E' S]]. congruence. }
      split.
      + intros [Dm Cl]. rewrite filter_all in F by (intros x I; specialize (Dm x I); destruct (dmem d2 (fst x)); [reflexivity|discriminate]).
        apply (G d1 F1 IH new F). exact Cl.
      + intro Fs. assert (Dm : forall x, In x d1 -> dmem d2 (fst x) = true).
        { intros x I. rewrite Forall_forall in Fs. destruct (Fs x I) as [w [Ew _]]. unfold dmem. rewrite Ew. reflexivity. }
        split; [intros x I; rewrite (Dm x I); reflexivity|]. rewrite (filter_all _ _ Dm) in F. apply (G d1 F1 IH new F). exact Fs.
  Qed.
End Diff.
