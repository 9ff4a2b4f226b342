(** C88: when columns can be compared, columns compared with themselves, and tables. *)
From Coq Require Import ZArith QArith Permutation.
From Verif Require Import PyCommon PyDict PyString PyEq CmsProps DiffModel DiffProofs DiffProps SchemaModel SchemaProofs PsiModel PsiProps DiffReportModel DiffReportProofs DiffReportProps.
Local Open Scope nat_scope.
Local Open Scope string_scope.
Local Open Scope list_scope.

(** ** Values of the right kind *)
Lemma numbers_fit x y : number x -> number y -> exists o, diff_numbers x y = Ok o.
Proof. intros Hx Hy. apply numbers_total; [destruct Hx|destruct Hy]; auto. Qed.
Lemma lists_fit x y : a_list x -> a_list y -> exists o, diff_lists x y = Ok o.
Proof. intros [->|[l ->]] [->|[m ->]]; cbn; eauto. Qed.
Lemma dates_fit x y : a_date x -> a_date y -> exists o, diff_dates x y = Ok o.
Proof. intros [->|[s ->]] [->|[t ->]]; cbn; eauto. destruct (Z.eqb s t); eauto. Qed.
Lemma numbers_self x : real_number x -> diff_numbers x x = Ok Unchanged.
Proof.
  intros [->|[q Hq]]; [reflexivity|]. destruct x as [ |[n|]|b| | | | ]; try discriminate; unfold diff_numbers, py_eq; cbn [num_of].
  - rewrite (proj2 (Qeq_bool_iff n n) (Qeq_refl n)). reflexivity.
  - destruct b; reflexivity.
Qed.
Lemma lists_self x : a_list x -> diff_lists x x = Ok Unchanged.
Proof. intros [->|[l ->]]; [reflexivity|]. cbn [diff_lists]. f_equal. apply diff_two_lists_unchanged. split; reflexivity. Qed.
Lemma dates_self x : a_date x -> diff_dates x x = Ok Unchanged.
Proof. intros [->|[t ->]]; [reflexivity|]. cbn. rewrite Z.eqb_refl. reflexivity. Qed.

Lemma dict_numbers d1 d2 : fits_dict number d1 -> fits_dict number d2 -> exists o, diff_dicts d1 d2 = Ok o.
Proof.
  intros H1 H2. unfold diff_dicts. apply diff_val_ok. apply kin_dict. apply Forall_forall. intros [k v] Hk w Hw. cbn [fst snd] in *.
  assert (Hv : num_of v <> None). { destruct d1 as [d1|]; [|destruct Hk]. destruct H1 as [_ F]. rewrite Forall_forall in F. destruct (F _ Hk) as [N [E|E]]; [contradiction (N E)|exact E]. }
  assert (Hw' : num_of w <> None). { destruct d2 as [d2|]; [|discriminate]. destruct H2 as [_ F]. rewrite Forall_forall in F. apply dget_Some_In in Hw. destruct (F _ Hw) as [N [E|E]]; [contradiction (N E)|exact E]. }
  destruct v; cbn in Hv; try congruence; destruct w; cbn in Hw'; try congruence; cbn; split; discriminate.
Qed.
Lemma dict_self d o : fits_dict real_number d -> diff_dicts d d = Ok o -> clean o.
Proof.
  intros H Ho. destruct d as [d|]; [|cbn in Ho; injection Ho as <-; exact I]. destruct H as [N F].
  destruct (C25_dict_self d) as [o' [E C]].
  - apply wf_dict. split; [exact N|]. rewrite Forall_forall in *. intros kv Hk. destruct (F kv Hk) as [N1 [E|[q E]]]; [contradiction (N1 E)|].
    destruct (snd kv) as [ |[n|]|b| | | | ]; try discriminate; exact I.
  - apply present_dict. rewrite Forall_forall in *. intros kv Hk. destruct (F kv Hk) as [N1 [E|[q E]]]; [contradiction (N1 E)|].
    destruct (snd kv) as [ |[n|]|b| | | | ]; try discriminate; exact I.
  - rewrite E in Ho. injection Ho as <-. exact C.
Qed.
Lemma parts_lists (d1 d2 : list (atom * val)) : Forall (fun kv => exists l, snd kv = VList l /\ NoDup l) d1 -> Forall (fun kv => exists l, snd kv = VList l /\ NoDup l) d2 ->
  exists o, diff_parts (Some d1) (Some d2) = Ok o.
Proof.
  intros F1 F2. unfold diff_parts. cbn [or_empty parts_val].
  assert (H : forall acc, exists acc', shared_entries parts_val d2 d1 acc = Ok acc').
  { induction F1 as [|[k v] d1 [l [Hv _]] F1 IH]; intro acc; [cbn; eauto|]. cbn [shared_entries]. cbn [snd] in Hv. subst v. destruct (dget d2 k) as [w|] eqn:E; [|exact (IH _)].
    apply dget_Some_In in E. rewrite Forall_forall in F2. destruct (F2 _ E) as [m [Hm _]]. cbn [snd] in Hm. subst w. cbn [parts_val diff_lists bind]. exact (IH _). }
  destruct (H ([], [])) as [acc' ->]. cbn [bind]. eauto.
Qed.
Lemma parts_self (d : list (atom * val)) o : NoDup (dkeys d) -> Forall (fun kv => exists l, snd kv = VList l /\ NoDup l) d -> diff_parts (Some d) (Some d) = Ok o -> clean o.
Proof.
  intros N F H. assert (W : wf (VDict d)). { apply wf_dict. split; [exact N|]. rewrite Forall_forall in *. intros kv Hk. destruct (F kv Hk) as [l [-> Hl]]. exact Hl. }
  apply (C25_parts_unchanged d d o W W H). apply same_refl. exact W.
Qed.
Lemma collect_quiet l d : collect l = Ok d -> (forall k o, In (k, Ok o) l -> clean o) -> forall k v, dget d k = Some v -> quiet v.
Proof.
  intros H Hl k v Hv. destruct (collect_ok l d H) as [_ [G1 G2]]. destruct (dget l k) as [r|] eqn:E.
  - destruct (G1 k r E) as [o [-> Ho]]. rewrite Ho in Hv. injection Hv as <-. constructor. apply (Hl k). apply dget_Some_In. exact E.
  - rewrite (G2 k E) in Hv. discriminate.
Qed.
Lemma Forall_in {A} (P : A -> Prop) l x : Forall P l -> In x l -> P x.
Proof. rewrite Forall_forall. auto. Qed.

Section C88.
  Variables ttest psi : prim -> prim -> nat.
  Variable chi2 : cat -> cat -> nat.
  Variable cat_psi : cat -> cat -> option nat.
  Variable order : list atom -> list atom.
  Variable by_count : dict atom Z -> dict atom Z.
  Hypothesis count_perm : forall d, Permutation (by_count d) d.
  Notation prim_diff := (DiffReportModel.prim_diff ttest psi).
  Notation cat_diff := (DiffReportModel.cat_diff chi2 cat_psi order by_count).
  Notation col_diff := (DiffReportModel.col_diff ttest psi chi2 cat_psi order by_count).
  Notation diff_tables := (DiffReportModel.diff_tables ttest psi chi2 cat_psi order by_count).
  Notation diff_columns := (DiffReportModel.diff_columns ttest psi chi2 cat_psi order by_count).

  Ltac each := repeat (constructor; [cbn [snd numbers]; first [apply numbers_fit|apply lists_fit|apply dates_fit]; auto|]); try constructor.
  Lemma prim_fits p q : fits_prim number p -> fits_prim number q -> p_kind p = p_kind q -> exists d, prim_diff p q = Ok d.
  Proof.
    assert (N : forall p q, Forall (fun n => number (p_val p (snd n))) statistics -> a_list (p_val p "mode") -> Forall (fun n => number (p_val q (snd n))) statistics -> a_list (p_val q "mode") ->
      exists d, numeric_diff ttest psi p q = Ok d).
    { clear. intros p q F1 M1 F2 M2. unfold numeric_diff. match goal with |- exists d, bind ?c _ = _ => assert (H : exists e, c = Ok e) end.
      - apply collect_total. rewrite Forall_forall in F1, F2.
        assert (G : forall s n, In (s, n) statistics -> exists o, diff_numbers (p_val p n) (p_val q n) = Ok o) by (intros s n Hn; apply numbers_fit; [exact (F1 _ Hn)|exact (F2 _ Hn)]).
        repeat (constructor; [cbn [snd numbers]; first [eapply G; cbn; tauto|apply lists_fit; assumption]|]). constructor.
      - destruct H as [e ->]. cbn [bind]. eauto. }
    unfold fits_prim, DiffReportModel.prim_diff. intros Hp Hq K. rewrite <- K in Hq. destruct (p_kind p).
    - destruct Hp as [H1 [H2 H3]], Hq as [H4 [H5 H6]]. apply collect_total. each.
    - destruct Hp as [H1 [H2 _]], Hq as [H4 [H5 _]]. apply N; assumption.
    - destruct Hp as [H1 [H2 [_ H3]]], Hq as [H4 [H5 [_ H6]]]. destruct (N p q H1 H2 H4 H5) as [d ->]. cbn [bind].
      destruct (collect_total (map (fun k => (k, diff_numbers (p_prec p k) (p_prec q k))) precision_keys)) as [e ->]; [|cbn [bind]; eauto].
      apply Forall_forall. intros kr Hk. apply in_map_iff in Hk. destruct Hk as [k [<- _]]. cbn [snd]. apply numbers_fit; auto.
    - destruct Hp as [H1 [H2 [H3 _]]], Hq as [H4 [H5 [H6 _]]]. destruct (N p q H1 H2 H4 H5) as [d ->]. cbn [bind]. destruct (lists_fit _ _ (H3 eq_refl) (H6 eq_refl)) as [o ->]. cbn [bind]. eauto.
  Qed.
  Lemma cat_fits x y : fits_cat number x -> fits_cat number y -> exists d, cat_diff x y = Ok d.
  Proof.
    intros [F1 [L1 _]] [F2 [L2 _]]. unfold DiffReportModel.cat_diff. destruct (strings_ok (VBool (c_match x)) (VBool (c_match y))) as [m Hm].
    change (DiffModel.diff_strings (VBool (c_match x)) (VBool (c_match y)) : result out) with (diff_strings (VBool (c_match x)) (VBool (c_match y)) : result out). rewrite Hm. cbn [bind].
    rewrite Forall_forall in F1, F2.
    destruct (collect_total [("unique_count", diff_numbers (c_val x "unique_count") (c_val y "unique_count")); ("unique_ratio", diff_numbers (c_val x "unique_ratio") (c_val y "unique_ratio"))]) as [s Hs].
    { repeat (constructor; [cbn [snd]; apply numbers_fit; [apply F1|apply F2]; cbn; tauto|]). constructor. }
    rewrite Hs. cbn [bind]. destruct (c_match x && c_match y)%bool; [|eauto].
    destruct (collect_total [("categories", diff_lists (c_val x "categories") (c_val y "categories")); ("gini_impurity", diff_numbers (c_val x "gini_impurity") (c_val y "gini_impurity"));
                     ("unalikeability", diff_numbers (c_val x "unalikeability") (c_val y "unalikeability"))]) as [t Ht].
    { constructor; [apply lists_fit; assumption|]. repeat (constructor; [cbn [snd]; apply numbers_fit; [apply F1|apply F2]; cbn; tauto|]). constructor. }
    rewrite Ht. cbn [bind].
    assert (D : forall d1 d2, exists o, diff_dicts (Some (counts_val d1)) (Some (counts_val d2)) = Ok o).
    { clear. intros d1 d2. unfold diff_dicts. apply diff_val_ok, kin_dict, Forall_forall. intros [k v] Hk w Hw. apply dget_Some_In in Hw. cbn [fst snd or_empty] in *.
      unfold counts_val in Hk, Hw. apply in_map_iff in Hk, Hw. destruct Hk as [kc [[= _ <-] _]], Hw as [kc' [[= _ <-] _]]. cbn. split; discriminate. }
    match goal with |- context [diff_dicts (Some (counts_val ?a)) (Some (counts_val ?b))] => destruct (D a b) as [o Ho]; rewrite Ho end. cbn [bind]. eauto.
  Qed.

  (** C88. Columns whose values are of the right kind can be compared whenever they have a type, profiles of categories or labels in
      common *)
  Theorem C88_succeeds : forall a b, fits number a -> fits number b ->
    (exists p q, chosen (f_prims a) p /\ chosen (f_prims b) q /\ p_kind p = p_kind q) \/ (f_cat a <> None /\ f_cat b <> None) \/
    (exists x y, f_label a = Some (Some x) /\ f_label b = Some (Some y)) ->
    exists r, col_diff a b = Ok r.
  Proof.
    intros a b Fa Fb Hc. destruct (col_diff a b) as [r|e] eqn:E; [eauto|]. exfalso.
    destruct Fa as [Ba [[_ Ia] [Pa [_ [Ca [_ La]]]]]], Fb as [Bb [[_ Ib] [Pb [_ [Cb [_ Lb]]]]]].
    destruct (col_diff_fails ttest psi chi2 cat_psi order by_count a b e E) as [[[p [q [Hs Ep]]]|[[x [y [Hx [Hy Ec]]]]|[[x [y [Hx [Hy El]]]]|Eb]]]|[_ [Hs [Hn Hl]]]].
    - apply same_type_some in Hs. destruct Hs as [[l1 [l2 [Ea _]]] [[m1 [m2 [Eb _]]] K]].
      assert (G1 : fits_prim number p) by (rewrite Ea in Pa; eapply Forall_in; [exact Pa|apply in_elt]).
      assert (G2 : fits_prim number q) by (rewrite Eb in Pb; eapply Forall_in; [exact Pb|apply in_elt]). destruct (prim_fits p q G1 G2 K) as [d Hd]. congruence.
    - destruct (cat_fits x y (Ca x Hx) (Cb y Hy)) as [d Hd]. congruence.
    - destruct (La x Hx) as [A1 A2], (Lb y Hy) as [B1 B2]. unfold label_diff in El.
      assert (AL : forall z, a_list (labels_val z)) by (intro z; unfold labels_val; destruct (l_size z =? 0); [left; reflexivity|right; eauto]).
      destruct (lists_fit _ _ (AL x) (AL y)) as [o Ho]. rewrite Ho in El. cbn [bind collect] in El.
      destruct (dict_numbers _ _ A1 B1) as [o1 Ho1]. rewrite Ho1 in El. cbn [bind] in El. destruct (dict_numbers _ _ A2 B2) as [o2 Ho2]. rewrite Ho2 in El. discriminate.
    - destruct (collect_total (base_list a b)) as [d Hd]; [|congruence]. rewrite Forall_forall in Ba, Bb. unfold base_list.
      repeat (constructor; [cbn [snd]; apply numbers_fit; [apply Ba|apply Bb]; cbn; tauto|]). constructor; [cbn; eauto|]. constructor; [apply parts_lists; assumption|constructor].
    - apply same_type_none in Hs. destruct Hc as [Hc|[[N1 N2]|Hc]]; [exact (Hs Hc)|destruct Hn; contradiction|exact (Hl Hc)].
  Qed.

  Ltac all_clean := let k := fresh "k" in let o := fresh "o" in let Hk := fresh "Hk" in intros k o Hk; cbn [In numbers] in Hk;
    repeat (destruct Hk as [Hk|Hk]; [apply (f_equal snd) in Hk; cbn [snd] in Hk; first [rewrite numbers_self in Hk by auto|rewrite lists_self in Hk by auto|rewrite dates_self in Hk by auto]; injection Hk as <-; exact I|]); destruct Hk.
  Lemma prim_self p d k v : fits_prim real_number p -> prim_diff p p = Ok d -> dget d k = Some v -> quiet v.
  Proof.
    assert (N : forall d k v, Forall (fun n => real_number (p_val p (snd n))) statistics -> a_list (p_val p "mode") -> numeric_diff ttest psi p p = Ok d -> dget d k = Some v -> quiet v).
    { clear. intros d k v F M. unfold numeric_diff. match goal with |- bind (collect ?l0) _ = _ -> _ => set (l := l0) end. destruct (collect l) as [e|] eqn:E; cbn [bind]; [|discriminate]. intros [= <-].
      rewrite dget_app. destruct (dget e k) as [w|] eqn:Ek.
      - intros [= <-]. apply (collect_quiet l e E) with (k := k); [|exact Ek]. rewrite Forall_forall in F.
        assert (G : forall s n, In (s, n) statistics -> diff_numbers (p_val p n) (p_val p n) = Ok Unchanged) by (intros s n Hn; apply numbers_self; exact (F _ Hn)).
        intros k' o Hk. unfold l in Hk. cbn [In numbers] in Hk.
        repeat (destruct Hk as [Hk|Hk]; [apply (f_equal snd) in Hk; cbn [snd numbers] in Hk; first [rewrite lists_self in Hk by assumption|erewrite G in Hk by (cbn; tauto)]; injection Hk as <-; exact I|]). destruct Hk.
      - cbn [dget]. destruct (PyDict.eqb "t-test" k); [intros [= <-]; constructor|]. destruct (PyDict.eqb "psi" k); [intros [= <-]; constructor|discriminate]. }
    unfold fits_prim, DiffReportModel.prim_diff. destruct (p_kind p).
    - intros [H1 [H2 H3]] H Hk. apply (collect_quiet _ _ H) with (k := k); [|exact Hk]. all_clean.
    - intros [H1 [H2 _]] H Hk. exact (N d k v H1 H2 H Hk).
    - intros [H1 [H2 [_ H3]]] H Hk. destruct (numeric_diff ttest psi p p) as [d0|] eqn:E; cbn [bind] in H; [|discriminate]. destruct (collect _) as [e|] eqn:Ee; cbn [bind] in H; [|discriminate]. apply Ok_inj in H. subst d.
      rewrite dget_dset in Hk. destruct (PyDict.eqb "precision" k); [|exact (N d0 k v H1 H2 eq_refl Hk)]. injection Hk as <-. constructor. intros k' v' Hk'.
      assert (ND : NoDup (dkeys e)). { pose proof (proj1 (collect_ok _ _ Ee)) as K. rewrite K, map_map. cbn. repeat (constructor; [cbn; intuition discriminate|]). constructor. }
      rewrite (dget_ddel e _ _ ND) in Hk'. destruct (PyDict.eqb "confidence_level" k'); [discriminate|].
      apply (collect_quiet _ _ Ee) with (k := k'); [|exact Hk']. intros k2 o Ho. apply in_map_iff in Ho. destruct Ho as [n [Ho _]]. apply (f_equal snd) in Ho. cbn [snd] in Ho. rewrite (numbers_self _ (H3 eq_refl n)) in Ho. injection Ho as <-. exact I.
    - intros [H1 [H2 [H3 _]]] H Hk. destruct (numeric_diff ttest psi p p) as [d0|] eqn:E; cbn [bind] in H; [|discriminate]. rewrite (lists_self _ (H3 eq_refl)) in H. cbn [bind] in H. apply Ok_inj in H. subst d.
      assert (ND : NoDup (dkeys d0)) by (rewrite (proj1 (numeric_inv ttest psi p p d0 E)); cbn; repeat (constructor; [cbn; intuition discriminate|]); constructor).
      rewrite dget_dset in Hk. destruct (PyDict.eqb "vocab" k); [injection Hk as <-; constructor; exact I|]. rewrite (dget_ddel d0 _ _ ND) in Hk. destruct (PyDict.eqb "psi" k); [discriminate|].
      exact (N d0 k v H1 H2 eq_refl Hk).
  Qed.

  (** C88. A column compared with itself: nothing is shown as different.  The numbers must not be NaN (C24) *)
  Theorem C88_self : forall a r, fits real_number a -> col_diff a a = Ok r -> forall k v, dget r k = Some v -> quiet v.
  Proof.
    intros a r [Fb [[Ni Fi] [Fp [Nk [Fc [Fo Fl]]]]]] H k v Hk.
    destruct (DiffReportProofs.layers ttest psi chi2 cat_psi order by_count a a r H) as [st [ps [cs [ls [bs [rep [H1 [H2 [H3 [H4 [H5 [H6 [K [Hs [Hn [Hd [Hc [Ho Hl]]]]]]]]]]]]]]]]]].
    assert (Hi : In k (dkeys r)) by (apply dget_Some_In in Hk; exact (in_map fst _ _ Hk)). rewrite K in Hi. rewrite !in_app_iff in Hi. cbn [In] in Hi.
    assert (Kl : k = "data_label" -> quiet v).
    { intros ->. destruct (f_label a) as [[x|]|]; [|rewrite Hl in Hk; injection Hk as <-; constructor|congruence]. destruct Hl as [o [E1 E2]]. rewrite E2 in Hk. injection Hk as <-. constructor.
      rewrite lists_self in E1; [injection E1 as <-; exact I|]. unfold labels_val. destruct (l_size x =? 0); [left; reflexivity|right; eauto]. }
    destruct Hi as [[<-|[<-|[]]]|[Hi|[<-|[<-|[<-|[]]]]]].
    - rewrite Hn in Hk. injection Hk as <-. constructor.
    - rewrite Hd in Hk. injection Hk as <-. unfold typed, same_type. destruct (selected (f_prims a)) as [p|]; [|constructor].
      assert (E : kind_eqb (p_kind p) (p_kind p) = true) by (apply kind_eqb_eq; reflexivity). rewrite E. constructor. exact I.
    - apply Kl. destruct (has_label a && has_label a)%bool; [destruct Hi as [<-|[]]; reflexivity|destruct Hi].
    - rewrite Hc in Hk. injection Hk as <-. destruct (f_cat a) as [x|]; [|constructor]. rewrite Bool.eqb_reflx. constructor. exact I.
    - destruct (f_order a) as [x|] eqn:Eo; [|rewrite Ho in Hk; injection Hk as <-; constructor]. destruct Ho as [o [E1 E2]]. rewrite E2 in Hk. injection Hk as <-. constructor.
      unfold diff_strings in E1. assert (P : py_eq x x = true). { destruct (Fo x eq_refl) as [->|[s ->]]; [reflexivity|]. cbn. apply String.eqb_refl. } rewrite P in E1. injection E1 as <-. exact I.
    - rewrite H6 in Hk. injection Hk as <-. constructor. intros k' v' Hk'. rewrite Hs in Hk'. destruct (typed a a && String.eqb k' "data_type_representation")%bool.
      { injection Hk' as <-. constructor. intros k2 v2 Hk2. apply (collect_quiet _ _ H5) with (k := k2); [|exact Hk2]. intros k3 o Hk3. unfold representation in Hk3. apply in_app_iff in Hk3.
        assert (FK : forall p, In p (f_prims a) -> find_kind (p_kind p) (f_prims a) = Some p).
        { clear -Nk. induction (f_prims a) as [|x l IH]; intros p Hp; [destruct Hp|]. inversion Nk as [|? ? N1 N2]; subst. unfold find_kind. cbn [find]. destruct (kind_eqb (p_kind x) (p_kind p)) eqn:E.
          - apply kind_eqb_eq in E. destruct Hp as [->|Hp]; [reflexivity|]. exfalso. apply N1. rewrite E. apply in_map. exact Hp.
          - destruct Hp as [->|Hp]; [|exact (IH N2 p Hp)]. exfalso. assert (T : kind_eqb (p_kind p) (p_kind p) = true) by (apply kind_eqb_eq; reflexivity). congruence. }
        destruct Hk3 as [Hk3|Hk3]; apply in_map_iff in Hk3; destruct Hk3 as [p [E Hp]].
        - apply (f_equal snd) in E. cbn [snd] in E. rewrite (FK p Hp), numbers_self in E; [injection E as <-; exact I|]. unfold ratio_val. destruct (p_ratio p) as [q|]; [right; exists q; reflexivity|left; reflexivity].
        - apply filter_In in Hp. destruct Hp as [Hp Hf]. rewrite (FK p Hp) in Hf. discriminate. }
      destruct (dget bs k') as [w|] eqn:Eb.
      { injection Hk' as <-. apply (collect_quiet _ _ H4) with (k := k'); [|exact Eb]. rewrite Forall_forall in Fb. intros k3 o Hk3. cbn [In] in Hk3.
        destruct Hk3 as [E|[E|[E|[E|[E|[]]]]]]; apply (f_equal snd) in E; cbn [snd] in E.
        1,2,3: rewrite numbers_self in E by (apply Fb; cbn; tauto); injection E as <-; exact I.
        - rewrite lists_self in E by (right; eauto). injection E as <-. exact I.
        - exact (parts_self _ _ Ni Fi E). }
      destruct (dget ls k') as [w|] eqn:El.
      { injection Hk' as <-. unfold lab_layer in H3. destruct (f_label a) as [[x|]|]; [|subst ls; discriminate..]. destruct (Fl x eq_refl) as [A1 A2].
        apply (collect_quiet _ _ H3) with (k := k'); [|exact El]. intros k3 o Hk3. cbn [In] in Hk3. destruct Hk3 as [E|[E|[]]]; apply (f_equal snd) in E; cbn [snd] in E; [exact (dict_self _ _ A1 E)|exact (dict_self _ _ A2 E)]. }
      destruct (dget cs k') as [w|] eqn:Ec.
      { injection Hk' as <-. unfold cat_layer in H2. destruct (f_cat a) as [x|]; [|subst cs; discriminate]. destruct H2 as [m Hm]. destruct (Fc x eq_refl) as [F1 [L1 NC]]. rewrite Forall_forall in F1.
        destruct (cat_inv chi2 cat_psi order by_count x x cs m Hm) as [o1 [o2 [E1 [E2 Hr]]]]. rewrite numbers_self in E1, E2 by (apply F1; cbn; tauto). injection E1 as <-. injection E2 as <-.
        apply dget_Some_In in Ec. destruct (c_match x && c_match x)%bool.
        - destruct Hr as [o3 [o4 [o5 [n [E3 [E4 [E5 [En ->]]]]]]]]. rewrite numbers_self in E4, E5 by (apply F1; cbn; tauto). injection E4 as <-. injection E5 as <-.
          rewrite lists_self in E3 by assumption. injection E3 as <-.
          assert (Cn : clean n).
          { set (d := fill (order (distinct (dkeys (c_counts x) ++ dkeys (c_counts x)))) (by_count (c_counts x))) in *. apply (dict_self (Some (counts_val d)) n); [|exact En]. split.
            - unfold counts_val, dkeys. rewrite map_map. cbn [fst]. apply fill_NoDup. apply (Permutation_NoDup (Permutation_map fst (Permutation_sym (count_perm (c_counts x))))). exact NC.
            - apply Forall_forall. intros kv Hkv. unfold counts_val in Hkv. apply in_map_iff in Hkv. destruct Hkv as [kc [<- _]]. cbn [snd]. split; [discriminate|]. right. eexists. reflexivity. }
          rewrite !in_app_iff in Ec. cbn [In] in Ec. destruct (cat_psi x x); cbn [In] in Ec; repeat (destruct Ec as [Ec|Ec]; [first [destruct Ec; fail|apply (f_equal snd) in Ec; cbn [snd] in Ec; subst w; constructor; first [exact I|exact Cn]
            |repeat (destruct Ec as [Ec|Ec]; [apply (f_equal snd) in Ec; cbn [snd] in Ec; subst w; constructor; first [exact I|exact Cn]|]); destruct Ec]|]); try (destruct Ec; fail).
        - subst cs. cbn [In] in Ec. destruct Ec as [E|[E|[]]]; apply (f_equal snd) in E; cbn [snd] in E; subst w; constructor; exact I. }
      unfold prim_layer in H1. destruct (same_type (f_prims a) (f_prims a)) as [[p q]|] eqn:Es; [|subst ps; discriminate]. apply same_type_some in Es. destruct Es as [Hp [Hq Hkq]].
      assert (q = p). { apply selected_some in Hp, Hq. congruence. } subst q. apply (prim_self p ps k' v'); [|exact H1|exact Hk'].
      destruct Hp as [l1 [l2 [Ea _]]]. rewrite Ea in Fp. eapply Forall_in; [exact Fp|apply in_elt].
  Qed.

  (** ** Tables *)
  Definition global_names := ["file_type"; "encoding"; "samples_used"; "column_count"; "row_count"; "row_has_null_ratio"; "row_is_null_ratio"; "unique_row_ratio"; "duplicate_row_count"].
  Definition number_names := ["samples_used"; "row_count"; "row_has_null_ratio"; "row_is_null_ratio"; "unique_row_ratio"; "duplicate_row_count"].
  (** The numbers of the columns called [k] *)
  Notation places k l := (pos_from 0 k (map f_name l)).

  Lemma schema_at l k : dget (schema_of l) k = if lmem (map f_name l) k then Some (places k l) else None.
  Proof.
    unfold schema_of. pose proof (map_id (map f_name l)) as M. destruct (lmem (map f_name l) k) eqn:E.
    - apply lmem_In in E. rewrite (schema_get (fun k => k)) by (rewrite M; exact E). rewrite M. reflexivity.
    - apply lmem_false in E. apply (schema_get_none (fun k => k)). rewrite M. exact E.
  Qed.
  Lemma schema_in l k : In k (dkeys (schema_of l)) <-> In k (map f_name l).
  Proof. unfold schema_of. rewrite (schema_keys (fun k => k)), map_id. tauto. Qed.
  Lemma schema_nodup l : NoDup (dkeys (schema_of l)).
  Proof. apply schema_keys_NoDup. Qed.
  Lemma names_eq (l m : list col) : map f_name l = map f_name m <-> forall k j, nth_error (map f_name l) j = Some k <-> nth_error (map f_name m) j = Some k.
  Proof.
    split; [intros ->; tauto|]. generalize (map f_name l) (map f_name m). clear. induction l as [|x l IH]; intros [|y m] H; try reflexivity.
    - pose proof (proj2 (H y 0) eq_refl). discriminate.
    - pose proof (proj1 (H x 0) eq_refl). discriminate.
    - pose proof (proj1 (H x 0) eq_refl) as E. injection E as ->. f_equal. apply IH. intros k j. apply (H k (S j)).
  Qed.
  Lemma schema_same l m : schema_eqb (schema_of l) (schema_of m) = true <-> map f_name l = map f_name m.
  Proof.
    unfold schema_eqb. rewrite Bool.andb_true_iff, Nat.eqb_eq, forallb_forall. split.
    - intros [L F]. apply names_eq.
      assert (S : forall k, In k (dkeys (schema_of l)) -> In k (dkeys (schema_of m)) /\ places k l = places k m).
      { intros k Hk. apply in_map_iff in Hk. destruct Hk as [[k' p] [E Hp]]. cbn [fst] in E. subst k'. specialize (F _ Hp). cbn [fst snd] in F.
        apply (dget_In _ _ _ (schema_nodup l)) in Hp. rewrite schema_at in F, Hp. destruct (lmem (map f_name m) k) eqn:E; [|discriminate]. destruct (lmem (map f_name l) k); [|discriminate]. injection Hp as <-.
        apply lmem_In in E. split; [apply schema_in; exact E|]. destruct (eqb_spec (places k m) (places k l)); congruence. }
      assert (S' : forall k, In k (dkeys (schema_of m)) -> In k (dkeys (schema_of l))).
      { apply NoDup_length_incl; [apply schema_nodup|unfold dkeys; rewrite !map_length; lia|]. intros k Hk. exact (proj1 (S k Hk)). }
      intros k j. split; intro H.
      + assert (I : In k (dkeys (schema_of l))) by (apply schema_in; eapply nth_error_In; exact H). apply pos_In. rewrite <- (proj2 (S k I)). apply pos_In. exact H.
      + assert (I : In k (dkeys (schema_of l))) by (apply S', schema_in; eapply nth_error_In; exact H). apply pos_In. rewrite (proj2 (S k I)). apply pos_In. exact H.
    - intro E. assert (E' : schema_of m = schema_of l) by (unfold schema_of; rewrite E; reflexivity). rewrite E'. split; [reflexivity|]. intros [k p] Hp. cbn [fst snd].
      rewrite (dget_In _ _ _ (schema_nodup l) Hp). apply eqb_refl.
  Qed.
  Lemma schema_val_get s k : dget (schema_val s) k = match dget s k with Some p => Some (VList (map (fun i => AInt (Z.of_nat i)) p)) | None => None end.
  Proof. induction s as [|[k' p] s IH]; [reflexivity|]. cbn [schema_val map dget fst snd]. destruct (PyDict.eqb k' k); [reflexivity|exact IH]. Qed.
  Lemma schema_val_keys s : dkeys (schema_val s) = dkeys s.
  Proof. unfold schema_val, dkeys. rewrite map_map. reflexivity. Qed.
  Lemma AInt_inj (i j : nat) : AInt (Z.of_nat i) = AInt (Z.of_nat j) -> i = j.
  Proof. intros [= H]. apply Nat2Z.inj. exact H. Qed.
  Lemma schema_lists l : Forall (fun kv => exists p, snd kv = VList p /\ NoDup p) (schema_val (schema_of l)).
  Proof.
    apply Forall_forall. intros [k v] Hk. unfold schema_val in Hk. apply in_map_iff in Hk. destruct Hk as [[k' p] [[= -> <-] Hp]]. cbn [snd]. eexists. split; [reflexivity|].
    apply (dget_In _ _ _ (schema_nodup l)) in Hp. rewrite schema_at in Hp. destruct (lmem _ k); [|discriminate]. injection Hp as <-. apply FinFun.Injective_map_NoDup; [exact AInt_inj|apply pos_NoDup].
  Qed.
  Lemma schema_wf l : wf (VDict (schema_val (schema_of l)) : val).
  Proof.
    apply wf_dict. split; [rewrite schema_val_keys; apply schema_nodup|]. pose proof (schema_lists l) as F. rewrite Forall_forall in *. intros kv Hk. destruct (F kv Hk) as [p [-> Hp]]. exact Hp.
  Qed.
  Lemma schema_val_same l m : same (VDict (schema_val (schema_of l))) (VDict (schema_val (schema_of m)) : val) <-> map f_name l = map f_name m.
  Proof.
    split.
    - intro H. apply same_dict in H. destruct H as [F K]. rewrite !schema_val_keys in K. apply names_eq. rewrite Forall_forall in F.
      assert (S : forall k, In k (map f_name l) -> In k (map f_name m) /\ forall j, In j (places k l) <-> In j (places k m)).
      { intros k Hk. apply lmem_In in Hk. assert (G : dget (schema_val (schema_of l)) k = Some (VList (map (fun i => AInt (Z.of_nat i)) (places k l)))) by (rewrite schema_val_get, schema_at, Hk; reflexivity).
        apply dget_Some_In in G. destruct (F _ G) as [w [Hw Sw]]. cbn [fst snd] in Hw, Sw. rewrite schema_val_get, schema_at in Hw. destruct (lmem (map f_name m) k) eqn:E; [|discriminate]. injection Hw as <-.
        apply lmem_In in E. split; [exact E|]. cbn [same] in Sw. intro j.
        assert (J : forall x, In (AInt (Z.of_nat j)) (map (fun i => AInt (Z.of_nat i)) x) <-> In j x).
        { intro x. rewrite in_map_iff. split; [intros [i [Ei Hi]]; apply AInt_inj in Ei; subst; exact Hi|intro Hi; exists j; auto]. }
        rewrite <- (J (places k l)), <- (J (places k m)). split; apply Permutation_in; [exact Sw|apply Permutation_sym; exact Sw]. }
      intros k j. split; intro H.
      + apply pos_In, (proj2 (S k (nth_error_In _ _ H))), pos_In. exact H.
      + assert (I : In k (map f_name l)) by (apply schema_in, K, schema_in; eapply nth_error_In; exact H). apply pos_In, (proj2 (S k I)), pos_In. exact H.
    - intro E. assert (E' : schema_of m = schema_of l) by (unfold schema_of; rewrite E; reflexivity). rewrite E'. apply same_refl, schema_wf.
  Qed.

  Lemma tables_inv a b d : diff_tables a b = Ok d ->
    collect [("file_type", diff_strings (g_val a "file_type") (g_val b "file_type")); ("encoding", diff_strings (g_val a "encoding") (g_val b "encoding"));
       ("samples_used", diff_numbers (g_val a "samples_used") (g_val b "samples_used"));
       ("column_count", diff_numbers (VNum (Some (inject_Z (Z.of_nat (length (g_cols a)))))) (VNum (Some (inject_Z (Z.of_nat (length (g_cols b)))))));
       ("row_count", diff_numbers (g_val a "row_count") (g_val b "row_count")); ("row_has_null_ratio", diff_numbers (g_val a "row_has_null_ratio") (g_val b "row_has_null_ratio"));
       ("row_is_null_ratio", diff_numbers (g_val a "row_is_null_ratio") (g_val b "row_is_null_ratio")); ("unique_row_ratio", diff_numbers (g_val a "unique_row_ratio") (g_val b "unique_row_ratio"));
       ("duplicate_row_count", diff_numbers (g_val a "duplicate_row_count") (g_val b "duplicate_row_count"))] = Ok (d_global d) /\
    d_corr d = diff_matrices (g_corr a) (g_corr b) /\ d_chi2 d = diff_matrices (g_chi2 a) (g_chi2 b) /\
    diff_parts (Some (schema_val (schema_of (g_cols a)))) (Some (schema_val (schema_of (g_cols b)))) = Ok (d_schema d) /\
    (if schema_eqb (schema_of (g_cols a)) (schema_of (g_cols b)) then diff_columns (g_cols a) (g_cols b) else Ok []) = Ok (d_columns d).
  Proof.
    unfold DiffReportModel.diff_tables. intro H. match type of H with bind ?c _ = _ => destruct c as [g|] eqn:E1 end; cbn [bind] in H; [|discriminate].
    match type of H with bind ?c _ = _ => destruct c as [s|] eqn:E2 end; cbn [bind] in H; [|discriminate].
    match type of H with bind ?c _ = _ => destruct c as [c0|] eqn:E3 end; cbn [bind] in H; [|discriminate]. apply Ok_inj in H. subst d. cbn [d_global d_corr d_chi2 d_schema d_columns]. auto.
  Qed.

  (** C88. What is said of tables as a whole *)
  Theorem C88_global : forall a b d, diff_tables a b = Ok d ->
    dkeys (d_global d) = global_names /\
    (forall n, In n ["file_type"; "encoding"] -> exists o, diff_strings (g_val a n) (g_val b n) = Ok o /\ dget (d_global d) n = Some (TOut o)) /\
    (forall n, In n number_names -> exists o, diff_numbers (g_val a n) (g_val b n) = Ok o /\ dget (d_global d) n = Some (TOut o)) /\
    (exists o, dget (d_global d) "column_count" = Some (TOut o) /\ (clean o <-> length (g_cols a) = length (g_cols b))) /\
    d_corr d = diff_matrices (g_corr a) (g_corr b) /\ d_chi2 d = diff_matrices (g_chi2 a) (g_chi2 b).
  Proof.
    intros a b d H. destruct (tables_inv a b d H) as [H1 [H2 [H3 [_ _]]]]. destruct (collect_ok _ _ H1) as [K [G _]]. split; [exact K|]. split; [|split; [|split; [|auto]]].
    - intros n [<-|[<-|[]]]; (refine (G _ _ _); reflexivity).
    - intros n [<-|[<-|[<-|[<-|[<-|[<-|[]]]]]]]; (refine (G _ _ _); reflexivity).
    - destruct (G "column_count" _ eq_refl) as [o [E1 E2]]. exists o. split; [exact E2|].
      unfold diff_numbers, py_eq in E1. cbn [num_of] in E1. destruct (Qeq_bool _ _) eqn:E.
      + injection E1 as <-. apply Qeq_bool_iff in E. apply (proj1 (inject_Z_injective _ _)) in E. split; [lia|intros _; exact I].
      + cbn in E1. injection E1 as <-. split; [intros []|]. intro L. rewrite L, (proj2 (Qeq_bool_iff _ _) (Qeq_refl _)) in E. discriminate.
  Qed.

  Lemma columns_ok : forall l m r, diff_columns l m = Ok r -> length l = length m -> Forall2 (fun p c => col_diff (fst p) (snd p) = Ok c) (combine l m) r.
  Proof.
    induction l as [|x l IH]; intros [|y m] r H L; cbn in L; try discriminate; cbn [DiffReportModel.diff_columns] in H.
    - apply Ok_inj in H. subst r. constructor.
    - destruct (col_diff x y) as [d|] eqn:E; cbn [bind] in H; [|discriminate]. destruct (diff_columns l m) as [r'|] eqn:E'; cbn [bind] in H; [|discriminate]. apply Ok_inj in H. subst r.
      cbn [combine]. constructor; [exact E|]. apply IH; [exact E'|lia].
  Qed.
  Lemma columns_total : forall l m, length l = length m -> Forall (fun p => exists c, col_diff (fst p) (snd p) = Ok c) (combine l m) -> exists r, diff_columns l m = Ok r.
  Proof.
    induction l as [|x l IH]; intros [|y m] L F; cbn in L; try discriminate; cbn [DiffReportModel.diff_columns]; [eauto|]. cbn [combine] in F. inversion F as [|? ? [c Hc] F']; subst. cbn [fst snd] in Hc. rewrite Hc. cbn [bind].
    destruct (IH m) as [r ->]; [lia|exact F'|]. cbn [bind]. eauto.
  Qed.
  Lemma columns_err : forall l m e, diff_columns l m = Err e -> length l = length m -> exists x y, In (x, y) (combine l m) /\ col_diff x y = Err e.
  Proof.
    induction l as [|x l IH]; intros [|y m] e H L; cbn in L; try discriminate; cbn [DiffReportModel.diff_columns] in H.
    destruct (col_diff x y) as [d|e'] eqn:E; cbn [bind] in H.
    - destruct (diff_columns l m) as [r'|e'] eqn:E'; cbn [bind] in H; [discriminate|]. injection H as <-. destruct (IH m e' E' ltac:(lia)) as [u [v [I F]]]. exists u, v. split; [right; exact I|exact F].
    - injection H as <-. exists x, y. split; [left; reflexivity|exact E].
  Qed.
  Lemma names_length (l m : list col) : map f_name l = map f_name m -> length l = length m.
  Proof. intro H. apply (f_equal (@length _)) in H. rewrite !map_length in H. exact H. Qed.

  (** C88. Columns are compared, each with the one in the same place, exactly if both tables have the same names in the same order *)
  Theorem C88_columns : forall a b d, diff_tables a b = Ok d ->
    (map f_name (g_cols a) = map f_name (g_cols b) -> Forall2 (fun p c => col_diff (fst p) (snd p) = Ok c) (combine (g_cols a) (g_cols b)) (d_columns d)) /\
    (map f_name (g_cols a) <> map f_name (g_cols b) -> d_columns d = []).
  Proof.
    intros a b d H. destruct (tables_inv a b d H) as [_ [_ [_ [_ H5]]]]. split; intro E.
    - rewrite (proj2 (schema_same _ _) E) in H5. apply columns_ok; [exact H5|exact (names_length _ _ E)].
    - destruct (schema_eqb _ _) eqn:S; [apply schema_same in S; contradiction|]. apply Ok_inj in H5. auto.
  Qed.
  (** C88. Which columns are only in one of them, and where; nothing is shown exactly if both have the same names in the same order *)
  Theorem C88_schema : forall a b d, diff_tables a b = Ok d ->
    (clean (d_schema d) <-> map f_name (g_cols a) = map f_name (g_cols b)) /\
    (forall x s y, d_schema d = OParts x s y ->
       (forall k v, dget x k = Some v <-> In k (map f_name (g_cols a)) /\ ~ In k (map f_name (g_cols b)) /\ v = VList (map (fun i => AInt (Z.of_nat i)) (places k (g_cols a)))) /\
       (forall k v, dget y k = Some v <-> In k (map f_name (g_cols b)) /\ ~ In k (map f_name (g_cols a)) /\ v = VList (map (fun i => AInt (Z.of_nat i)) (places k (g_cols b))))).
  Proof.
    intros a b d H. destruct (tables_inv a b d H) as [_ [_ [_ [H4 _]]]]. split.
    - rewrite (C25_parts_unchanged _ _ _ (schema_wf _) (schema_wf _) H4). apply schema_val_same.
    - intros x s y E. pose proof (schema_nodup (g_cols a)) as N1. pose proof (schema_nodup (g_cols b)) as N2. rewrite <- schema_val_keys in N1, N2.
      destruct (C25_parts _ _ _ N1 N2 H4) as [[_ [_ E']]|[x' [s' [y' [E' [Hx [Hy _]]]]]]]; [congruence|]. rewrite E in E'. injection E' as <- <- <-.
      assert (G : forall (l m : list col) z, z = filter (fun kv : atom * val => negb (dmem (schema_val (schema_of m)) (fst kv))) (schema_val (schema_of l)) ->
        forall k v, dget z k = Some v <-> In k (map f_name l) /\ ~ In k (map f_name m) /\ v = VList (map (fun i => AInt (Z.of_nat i)) (places k l))).
      { clear. intros l m z -> k v. pose proof (schema_nodup l) as N. rewrite <- schema_val_keys in N.
        assert (Nf : forall (f : atom * val -> bool) d, NoDup (dkeys d) -> NoDup (dkeys (filter f d))).
        { clear. intros f d. induction d as [|kv d IH]; intro N; [constructor|]. inversion N as [|? ? N1 N2]; subst. cbn [filter]. destruct (f kv); [|exact (IH N2)]. constructor; [|exact (IH N2)].
          intro Hi. apply N1. apply in_map_iff in Hi. destruct Hi as [kw [E Hi]]. apply filter_In in Hi. rewrite <- E. apply in_map. tauto. }
        assert (M : dmem (schema_val (schema_of m)) k = lmem (map f_name m) k). { unfold dmem. rewrite schema_val_get, schema_at. destruct (lmem _ k); reflexivity. }
        rewrite <- (lmem_In (map f_name m) k).
        assert (Iff : dget (filter (fun kv : atom * val => negb (dmem (schema_val (schema_of m)) (fst kv))) (schema_val (schema_of l))) k = Some v <-> In (k, v) (schema_val (schema_of l)) /\ lmem (map f_name m) k <> true).
        { split.
          - intro H. apply dget_Some_In, filter_In in H. cbn [fst] in H. rewrite M in H. destruct (lmem (map f_name m) k); cbn in H; destruct H; split; (exact H || discriminate || congruence).
          - intros [H1 H2]. apply dget_In; [apply Nf; exact N|]. apply filter_In. cbn [fst]. rewrite M. split; [exact H1|]. destruct (lmem _ k); [congruence|reflexivity]. }
        rewrite Iff. split.
        - intros [H1 H2]. apply (dget_In _ _ _ N) in H1. rewrite schema_val_get, schema_at in H1. destruct (lmem (map f_name l) k) eqn:E; [|discriminate]. injection H1 as <-. apply lmem_In in E. auto.
        - intros [H1 [H2 ->]]. split; [|exact H2]. apply dget_Some_In. rewrite schema_val_get, schema_at. apply lmem_In in H1. rewrite H1. reflexivity. }
      split; [apply G; exact Hx|apply G; exact Hy].
  Qed.
  (** C88. Tables can be compared if their numbers are numbers and, where the names agree, all columns can be; an index is never out of range *)
  Theorem C88_table_succeeds : forall a b,
    Forall (fun n => number (g_val a n)) number_names -> Forall (fun n => number (g_val b n)) number_names ->
    ((exists d, diff_tables a b = Ok d) <->
     (map f_name (g_cols a) = map f_name (g_cols b) -> Forall (fun p => exists c, col_diff (fst p) (snd p) = Ok c) (combine (g_cols a) (g_cols b)))) /\
    (forall e, diff_tables a b = Err e -> map f_name (g_cols a) = map f_name (g_cols b) /\ exists x y, In (x, y) (combine (g_cols a) (g_cols b)) /\ col_diff x y = Err e).
  Proof.
    intros a b Fa Fb. rewrite Forall_forall in Fa, Fb.
    split.
    - split.
      + intros [d Hd] E. pose proof (proj1 (C88_columns a b d Hd) E) as F. clear -F. induction F as [|p c l r Hp _ IH]; constructor; eauto.
      + intro H. unfold DiffReportModel.diff_tables. match goal with |- exists d, bind (collect ?l) _ = _ => assert (G : exists g, collect l = Ok g) end.
        { apply collect_total. repeat (constructor; [cbn [snd]; first [apply strings_ok|apply numbers_fit; [apply Fa|apply Fb]; cbn; tauto|apply numbers_fit; right; discriminate]|]). constructor. }
        destruct G as [g ->]. cbn [bind]. destruct (parts_lists _ _ (schema_lists (g_cols a)) (schema_lists (g_cols b))) as [o ->]. cbn [bind].
        destruct (schema_eqb _ _) eqn:S; [|cbn [bind]; eauto]. apply schema_same in S. destruct (columns_total (g_cols a) (g_cols b) (names_length _ _ S) (H S)) as [r ->]. cbn [bind]. eauto.
    - intros e H. unfold DiffReportModel.diff_tables in H. match type of H with bind (collect ?l) _ = _ => assert (G : exists g, collect l = Ok g) end.
      { apply collect_total. repeat (constructor; [cbn [snd]; first [apply strings_ok|apply numbers_fit; [apply Fa|apply Fb]; cbn; tauto|apply numbers_fit; right; discriminate]|]). constructor. }
      destruct G as [g Hg]. rewrite Hg in H. cbn [bind] in H. destruct (parts_lists _ _ (schema_lists (g_cols a)) (schema_lists (g_cols b))) as [o Ho]. rewrite Ho in H. cbn [bind] in H.
      destruct (schema_eqb _ _) eqn:S; [|discriminate]. apply schema_same in S. split; [exact S|]. destruct (diff_columns (g_cols a) (g_cols b)) as [r|e'] eqn:E; cbn [bind] in H; [discriminate|]. injection H as <-.
      apply columns_err; [exact E|exact (names_length _ _ S)].
  Qed.
  (** C88. A table compared with itself *)
  Theorem C88_table_self : forall a d,
    Forall (fun n => real_number (g_val a n)) number_names -> (forall n, In n ["file_type"; "encoding"] -> g_val a n = VNone \/ exists s, g_val a n = VStr s) ->
    Forall (fits real_number) (g_cols a) -> diff_tables a a = Ok d ->
    (forall k v, dget (d_global d) k = Some v -> quiet v) /\ clean (d_schema d) /\ length (d_columns d) = length (g_cols a) /\
    Forall (fun r => forall k v, dget r k = Some v -> quiet v) (d_columns d) /\
    (forall m, d_corr d <> Some (Some m)) /\ (forall m, d_chi2 d <> Some (Some m)).
  Proof.
    intros a d Fn Fs Fc H. destruct (tables_inv a a d H) as [H1 [H2 [H3 [_ _]]]]. rewrite Forall_forall in Fn.
    assert (S : forall n, In n ["file_type"; "encoding"] -> (diff_strings (g_val a n) (g_val a n) : result out) = Ok Unchanged).
    { intros n Hn. unfold diff_strings. assert (P : py_eq (g_val a n) (g_val a n) = true). { destruct (Fs n Hn) as [->|[s ->]]; [reflexivity|]. cbn. apply String.eqb_refl. } rewrite P. reflexivity. }
    split; [|split; [|split; [|split; [|split]]]].
    - intros k v Hk. apply (collect_quiet _ _ H1) with (k := k); [|exact Hk]. intros k' o Ho. cbn [In] in Ho.
      assert (Nn : forall n, In n number_names -> (diff_numbers (g_val a n) (g_val a n) : result out) = Ok Unchanged) by (intros n Hn; apply numbers_self, Fn; exact Hn).
      repeat (destruct Ho as [Ho|Ho]; [apply (f_equal snd) in Ho; cbn [snd] in Ho; first [rewrite S in Ho by (cbn; tauto)|rewrite Nn in Ho by (cbn; tauto)|rewrite numbers_self in Ho by (right; eexists; reflexivity)]; injection Ho as <-; exact I|]). destruct Ho.
    - apply (proj1 (C88_schema a a d H)). reflexivity.
    - pose proof (proj1 (C88_columns a a d H) eq_refl) as F. assert (L : length (combine (g_cols a) (g_cols a)) = length (d_columns d)) by (clear -F; induction F; cbn; congruence). rewrite combine_length, Nat.min_id in L. auto.
    - pose proof (proj1 (C88_columns a a d H) eq_refl) as F. clear -F Fc count_perm. revert F. generalize (d_columns d). induction Fc as [|c l Hc Fc IH]; intros r F; cbn [combine] in F; inversion F; subst; constructor; [|apply IH; assumption].
      intros k v. eapply C88_self; eassumption.
    - intro m. rewrite H2. unfold diff_matrices. destruct (g_corr a) as [x|]; [|discriminate]. rewrite eqb_refl. cbn zeta. destruct (C25_matrices x x) as [_ M]. destruct (M eq_refl) as [r [E [Z _]]].
      unfold diff_matrices in E. rewrite eqb_refl in E. cbn zeta in E. rewrite E. rewrite (proj2 Z); [discriminate|]. intros i j p q Hp Hq. rewrite Hp in Hq. injection Hq as ->. reflexivity.
    - intro m. rewrite H3. unfold diff_matrices. destruct (g_chi2 a) as [x|]; [|discriminate]. rewrite eqb_refl. cbn zeta. destruct (C25_matrices x x) as [_ M]. destruct (M eq_refl) as [r [E [Z _]]].
      unfold diff_matrices in E. rewrite eqb_refl in E. cbn zeta in E. rewrite E. rewrite (proj2 Z); [discriminate|]. intros i j p q Hp Hq. rewrite Hp in Hq. injection Hq as ->. reflexivity.
  Qed.
End C88.

(** ** Examples *)
Definition ex_prim (k : kind) (r v : Q) : prim :=
  mkPrim k (Some r) (fun n => if lmem ["mode"; "vocab"; "format"] n then VList [AInt 1; AInt 2] else VNum (Some v)) (fun _ => VNum (Some 3%Q)).
Definition ex_cat (n : Z) : cat := mkCat true (fun k => if String.eqb k "categories" then VList [AStr "x"; AStr "y"] else VNum (Some 2%Q)) [(AStr "x", n); (AStr "y", 1%Z)].
Definition ex_lab (n : Q) : lab := mkLab 3 [AStr "UNKNOWN"] (Some [(AStr "UNKNOWN", VNum (Some n))]) None.
Definition ex_base (n : string) : val := VNum (Some 5%Q).
Definition ex_index : list (atom * val) := [(AStr "nan", VList [AInt 2; AInt 4])].
Definition ex_col (name : string) (ps : list prim) (c : option cat) (l : option (option lab)) : col :=
  mkCol (AStr name) ex_base [AStr "nan"] ex_index ps (Some (VStr "random")) c l.
Definition ex_ints (v : Q) : list prim := [ex_prim KInt 1 v; ex_prim KFloat 1 v; ex_prim KText 1 v].
Definition ex_texts : list prim := [ex_prim KInt (1#2) 7; ex_prim KText 1 7].
Definition ex_diff := col_diff (fun _ _ => 11) (fun _ _ => 12) (fun _ _ => 13) (fun _ _ => Some 14) (fun l => l) (fun d => d).
Definition ex_tables := diff_tables (fun _ _ => 11) (fun _ _ => 12) (fun _ _ => 13) (fun _ _ => Some 14) (fun l => l) (fun d => d).
Definition ex_table (l : list col) : table := mkTable (fun n => if lmem ["file_type"; "encoding"] n then VStr "csv" else VNum (Some 4%Q)) (Some [[Some 1%Q]]) None l.

Definition ex_number (q : Q) : option tree := Some (TOut (ONum (Some q))).
Example C88_example :
  (exists r, ex_diff (ex_col "a" (ex_ints 9) None (Some None)) (ex_col "a" (ex_ints 6) None (Some None)) = Ok r /\
     dkeys r = ["column_name"; "data_type"; "data_label"; "categorical"; "order"; "statistics"] /\ dget r "data_type" = Some (TOut Unchanged) /\ stat r "psi" = Some (TTest 12) /\
     (exists q, stat r "min" = ex_number q /\ (q == 3)%Q) /\ stat r "mode" = Some (TOut Unchanged)) /\
  (exists r, ex_diff (ex_col "a" (ex_ints 9) (Some (ex_cat 4)) None) (ex_col "b" ex_texts (Some (ex_cat 2)) None) = Ok r /\
     dget r "column_name" = Some (TName (AStr "a")) /\ dget r "data_type" = Some (TOut (OPair (VStr "int") (VStr "text"))) /\ stat r "min" = None /\ stat r "chi2-test" = Some (TTest 13)) /\
  (exists d, ex_tables (ex_table [ex_col "a" (ex_ints 9) None None; ex_col "b" ex_texts None None]) (ex_table [ex_col "a" (ex_ints 9) None None]) = Ok d /\
     d_columns d = [] /\ d_schema d = OParts [(AStr "b", VList [AInt 1])] [(AStr "a", Unchanged)] []) /\
  (exists d, ex_tables (ex_table [ex_col "a" (ex_ints 9) None None; ex_col "b" ex_texts None None]) (ex_table [ex_col "a" (ex_ints 9) None None; ex_col "b" ex_texts None None]) = Ok d /\
     length (d_columns d) = 2 /\ d_corr d = Some None).
Proof. repeat split; eexists; repeat (split; [vm_compute; try reflexivity|]); try (vm_compute; reflexivity). eexists. split; reflexivity. Qed.

Lemma ex_fits name ps c l : ps = ex_ints 9 \/ ps = ex_texts -> (forall x, c = Some x -> exists n, x = ex_cat n) -> (forall x, l = Some (Some x) -> exists n, x = ex_lab n) -> fits real_number (ex_col name ps c l).
Proof.
  intros Hp Hc Hl. assert (R : forall q, real_number (VNum (Some q))) by (intro q; right; eexists; reflexivity).
  assert (P : forall k r v, k <> KDate -> fits_prim real_number (ex_prim k r v)).
  { intros k r v K. unfold fits_prim, ex_prim. cbn [p_kind p_val p_prec]. assert (G : Forall (fun n => real_number (if lmem ["mode"; "vocab"; "format"] (snd n) then VList [AInt 1; AInt 2] else VNum (Some v))) statistics) by (repeat (constructor; [apply R|]); constructor).
    destruct k; [congruence|..]; repeat split; try exact G; try (right; eexists; reflexivity); auto. }
  assert (N : forall l : list atom, l = [AInt 2; AInt 4] \/ l = [AStr "nan"] \/ l = [AStr "x"; AStr "y"] \/ l = [AStr "UNKNOWN"] -> NoDup l).
  { intros l0 [->|[->|[->| ->]]]; repeat (constructor; [cbn; intuition discriminate|]); constructor. }
  unfold fits, ex_col. cbn [f_base f_null_index f_prims f_cat f_order f_label].
  split; [repeat (constructor; [apply R|]); constructor|]. split.
  { split; [apply N; auto|]. constructor; [|constructor]. eexists. split; [reflexivity|apply N; auto]. }
  split; [destruct Hp as [-> | ->]; repeat (constructor; [apply P; discriminate|]); constructor|].
  split; [destruct Hp as [-> | ->]; cbn; repeat (constructor; [cbn; intuition discriminate|]); constructor|]. split.
  { intros x Hx. destruct (Hc _ Hx) as [n ->]. split; [repeat (constructor; [apply R|]); constructor|]. split; [right; eexists; reflexivity|apply N; auto]. }
  split; [intros o [= <-]; right; eexists; reflexivity|].
  intros x Hx. destruct (Hl _ Hx) as [n ->]. split; [|exact I]. split; [apply N; cbn; auto|]. constructor; [|constructor]. split; [discriminate|apply R].
Qed.

(** C88, findings.  Two tables with the same names cannot always be compared: with a column of numbers in one and of text in the
    other, and neither categories nor labels profiled, the answer is a KeyError.  And psi of numbers is lost if both columns are
    categorical, as psi of the categories has the same name *)
Theorem C88_always_refuted : exists a b,
  Forall (fits real_number) (g_cols a) /\ Forall (fits real_number) (g_cols b) /\ Forall (fun n => real_number (g_val a n)) number_names /\ Forall (fun n => real_number (g_val b n)) number_names /\
  map f_name (g_cols a) = map f_name (g_cols b) /\ ex_tables a b = Err KeyError.
Proof.
  exists (ex_table [ex_col "a" (ex_ints 9) None None]), (ex_table [ex_col "a" ex_texts None None]).
  assert (R : forall q, real_number (VNum (Some q))) by (intro q; right; eexists; reflexivity).
  repeat split; try (repeat (constructor; [apply R|]); constructor; fail); (constructor; [|constructor]); apply ex_fits; auto; discriminate.
Qed.
Theorem C88_psi_refuted : exists a b p q r, fits real_number a /\ fits real_number b /\ chosen (f_prims a) p /\ chosen (f_prims b) q /\ p_kind p = KInt /\ p_kind q = KInt /\
  ex_diff a b = Ok r /\ stat r "psi" <> Some (TTest 12).
Proof.
  exists (ex_col "a" (ex_ints 9) (Some (ex_cat 4)) None), (ex_col "a" (ex_ints 9) (Some (ex_cat 2)) None), (ex_prim KInt 1 9), (ex_prim KInt 1 9). eexists.
  split; [apply ex_fits; [auto|intros x [= <-]; eauto|discriminate]|]. split; [apply ex_fits; [auto|intros x [= <-]; eauto|discriminate]|].
  split; [apply selected_some; reflexivity|]. split; [apply selected_some; reflexivity|]. split; [reflexivity|]. split; [reflexivity|]. split; [vm_compute; reflexivity|]. vm_compute. discriminate.
Qed.
