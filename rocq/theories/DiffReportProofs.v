(** Lemmas about differences of columns and of tables. *)
From Coq Require Import ZArith QArith Permutation.
From Verif Require Import PyCommon PyDict PyString PyEq CmsProps DiffModel DiffProofs DiffProps SchemaModel SchemaProofs PsiModel PsiProps DiffReportModel.
Local Open Scope nat_scope.
Local Open Scope string_scope.
Local Open Scope list_scope.

(** ** Lemmas on dictionaries of differences *)
Lemma collect_ok : forall l (d : dict string tree), collect l = Ok d ->
  dkeys d = map fst l /\ (forall k r, dget l k = Some r -> exists o, r = Ok o /\ dget d k = Some (TOut o)) /\
  (forall k, dget l k = None -> dget d k = None).
Proof.
  induction l as [|[k r] l IH]; cbn [collect]; intros d H.
  - injection H as <-. split; [reflexivity|]. split; [discriminate|reflexivity].
  - destruct r as [o|]; [|discriminate]. cbn [bind] in H. destruct (collect l) as [d'|] eqn:E; [|discriminate]. cbn [bind] in H. injection H as <-.
    destruct (IH d' eq_refl) as [H1 [H2 H3]]. split; [cbn [dkeys map fst]; f_equal; exact H1|]. split; intros k'; cbn [dget]; destruct (PyDict.eqb k k') eqn:Ek.
    + intros r [= <-]. eauto.
    + apply H2.
    + discriminate.
    + apply H3.
Qed.
Lemma collect_total l : Forall (fun kr : string * result out => exists o, snd kr = Ok o) l -> exists d, collect l = Ok d.
Proof. induction 1 as [|[k r] l [o Ho] F [d IH]]; cbn [collect]; [eauto|]. cbn [snd] in Ho. rewrite Ho. cbn [bind]. rewrite IH. cbn [bind]. eauto. Qed.
Lemma collect_err l e : collect l = Err e -> exists k, In (k, Err e) l.
Proof.
  induction l as [|[k r] l IH]; cbn [collect]; [discriminate|]. destruct r as [o|e']; cbn [bind].
  - destruct (collect l) as [d|e']; cbn [bind]; [discriminate|]. intros [= <-]. destruct (IH eq_refl) as [k' Hk]. exists k'. right. exact Hk.
  - intros [= <-]. exists k. left. reflexivity.
Qed.
Lemma collect_leaf l d k v : collect l = Ok d -> dget d k = Some v -> forall t, v <> TNode t.
Proof.
  intros H Hk t ->. destruct (collect_ok l d H) as [_ [H2 H3]]. destruct (dget l k) as [r|] eqn:E.
  - destruct (H2 k r E) as [o [_ Ho]]. congruence.
  - rewrite (H3 k E) in Hk. discriminate.
Qed.

Definition merge1 (o : option tree) (v : tree) : tree := match o, v with Some (TNode e), TNode _ => TNode (rdu e v) | _, _ => v end.
Lemma rdu_cons d k v r : rdu d (TNode ((k, v) :: r)) = rdu (dset d k (merge1 (dget d k) v)) (TNode r).
Proof. reflexivity. Qed.
Lemma rdu_get : forall u d, NoDup (dkeys u) -> forall k,
  dget (rdu d (TNode u)) k = match dget u k with Some v => Some (merge1 (dget d k) v) | None => dget d k end.
Proof.
  induction u as [|[x v] u IH]; intros d HN k; [reflexivity|]. rewrite rdu_cons. inversion HN as [|? ? N1 N2]; subst. rewrite (IH _ N2). cbn [dget].
  rewrite !dget_dset. destruct (PyDict.eqb_spec x k) as [->|]; [|reflexivity]. apply dget_None in N1. rewrite N1. reflexivity.
Qed.
Lemma rdu_leaf u d : NoDup (dkeys u) -> (forall k v, dget u k = Some v -> forall t, v <> TNode t) -> forall k,
  dget (rdu d (TNode u)) k = match dget u k with Some v => Some v | None => dget d k end.
Proof.
  intros HN HL k. rewrite (rdu_get u d HN). destruct (dget u k) as [v|] eqn:E; [|reflexivity]. f_equal. unfold merge1.
  destruct (dget d k) as [[]|]; try reflexivity. destruct v; try reflexivity. exfalso. exact (HL k _ E _ eq_refl).
Qed.

(** The type of a column: the first profile all of whose values match *)
Definition full (p : prim) : Prop := exists q, p_ratio p = Some q /\ (q == 1)%Q.
Definition chosen (l : list prim) (p : prim) : Prop := exists l1 l2, l = l1 ++ p :: l2 /\ full p /\ Forall (fun q => ~ full q) l1.
Definition untyped (l : list prim) : Prop := Forall (fun q => ~ full q) l.

Lemma full_spec p : match p_ratio p with Some q => Qeq_bool q 1 | None => false end = true <-> full p.
Proof.
  unfold full. destruct (p_ratio p) as [q|].
  - rewrite Qeq_bool_iff. split; [eauto|]. intros [q' [[= ->] H]]. exact H.
  - split; [discriminate|]. intros [q' [[=] _]].
Qed.
Lemma selected_some l p : selected l = Some p <-> chosen l p.
Proof.
  unfold selected. split.
  - induction l as [|x l IH]; cbn [find]; [discriminate|]. destruct (match p_ratio x with Some q => Qeq_bool q 1 | None => false end) eqn:E.
    + intros [= <-]. exists [], l. split; [reflexivity|]. split; [apply full_spec; exact E|constructor].
    + intro H. destruct (IH H) as [l1 [l2 [-> [Hf Hn]]]]. exists (x :: l1), l2. split; [reflexivity|]. split; [exact Hf|]. constructor; [|exact Hn].
      rewrite <- full_spec, E. discriminate.
  - intros [l1 [l2 [-> [Hf Hn]]]]. induction Hn as [|x l1 Hx Hn IH]; cbn [app find].
    + apply full_spec in Hf. rewrite Hf. reflexivity.
    + rewrite <- full_spec in Hx. destruct (match p_ratio x with Some q => Qeq_bool q 1 | None => false end); [contradiction (Hx eq_refl)|exact IH].
Qed.
Lemma selected_none l : selected l = None <-> untyped l.
Proof.
  unfold selected, untyped. rewrite Forall_forall. split.
  - intros H x Hx Hf. apply full_spec in Hf. pose proof (find_none _ _ H x Hx) as E. cbn in E. congruence.
  - intro H. destruct (find _ l) as [x|] eqn:E; [|reflexivity]. apply find_some in E. destruct E as [Hx E]. apply full_spec in E. contradiction (H x Hx E).
Qed.
Lemma kind_eqb_eq a b : kind_eqb a b = true <-> a = b.
Proof. destruct a, b; cbn; split; congruence. Qed.
Lemma kind_name_inj a b : kind_name a = kind_name b -> a = b.
Proof. destruct a, b; cbn; congruence. Qed.

Lemma Ok_inj {A} (x y : A) : Ok x = Ok y -> x = y.
Proof. congruence. Qed.

Section C88.
  Variables ttest psi : prim -> prim -> nat.
  Variable chi2 : cat -> cat -> nat.
  Variable cat_psi : cat -> cat -> option nat.
  Variable order : list atom -> list atom.
  Variable by_count : dict atom Z -> dict atom Z.
  Notation prim_diff := (DiffReportModel.prim_diff ttest psi).
  Notation type_diff := (DiffReportModel.type_diff ttest psi).
  Notation cat_diff := (DiffReportModel.cat_diff chi2 cat_psi order by_count).
  Notation stats_diff := (DiffReportModel.stats_diff chi2 cat_psi order by_count).
  Notation col_diff := (DiffReportModel.col_diff ttest psi chi2 cat_psi order by_count).

  (** *** The four layers of the statistics *)
  Definition same_type (a b : list prim) : option (prim * prim) :=
    match selected a, selected b with Some p, Some q => if kind_eqb (p_kind p) (p_kind q) then Some (p, q) else None | _, _ => None end.
  Definition prim_layer (a b : col) (ps : dict string tree) : Prop :=
    match same_type (f_prims a) (f_prims b) with Some (p, q) => prim_diff p q = Ok ps | None => ps = [] end.
  Definition cat_layer (a b : col) (cs : dict string tree) : Prop :=
    match f_cat a, f_cat b with
    | Some x, Some y => exists m, cat_diff x y = Ok [("categorical", m); ("statistics", TNode cs)]
    | _, _ => cs = []
    end.
  Definition lab_layer (a b : col) (ls : dict string tree) : Prop :=
    match f_label a, f_label b with
    | Some (Some x), Some (Some y) =>
        collect [("avg_predictions", diff_dicts (l_avg x) (l_avg y)); ("label_representation", diff_dicts (l_rep x) (l_rep y))] = Ok ls
    | _, _ => ls = []
    end.
  Definition base_layer (a b : col) (bs : dict string tree) : Prop :=
    collect [("sample_size", diff_numbers (f_base a "sample_size") (f_base b "sample_size"));
             ("null_count", diff_numbers (f_base a "null_count") (f_base b "null_count"));
             ("null_ratio", diff_numbers (f_base a "null_ratio") (f_base b "null_ratio"));
             ("null_types", diff_lists (VList (f_null_types a)) (VList (f_null_types b)));
             ("null_types_index", diff_parts (Some (f_null_index a)) (Some (f_null_index b)))] = Ok bs.

  Lemma cat_diff_shape x y d : cat_diff x y = Ok d ->
    exists cs, d = [("categorical", TOut (if Bool.eqb (c_match x) (c_match y) then Unchanged else OPair (VBool (c_match x)) (VBool (c_match y)))); ("statistics", TNode cs)] /\
      NoDup (dkeys cs) /\ (forall k v, dget cs k = Some v -> forall t, v <> TNode t) /\ cs <> [].
  Proof.
    unfold DiffReportModel.cat_diff. intro H.
    assert (Hm : (diff_strings (VBool (c_match x)) (VBool (c_match y)) : result out) =
                 Ok (if Bool.eqb (c_match x) (c_match y) then Unchanged else OPair (VBool (c_match x)) (VBool (c_match y)))).
    { destruct (c_match x), (c_match y); reflexivity. }
    rewrite Hm in H. cbn [bind] in H.
    destruct (collect [("unique_count", _); _]) as [s|] eqn:Es; [|discriminate]. cbn [bind] in H.
    pose proof (collect_ok _ _ Es) as [Ks _]. pose proof (fun k v => collect_leaf _ _ k v Es) as Ls. cbn [map fst] in Ks.
    assert (Hs : exists a1 a2, s = [("unique_count", a1); ("unique_ratio", a2)] /\ (forall t, a1 <> TNode t) /\ (forall t, a2 <> TNode t)).
    { destruct s as [|[k1 a1] [|[k2 a2] [|]]]; cbn in Ks; try discriminate. injection Ks as -> ->. exists a1, a2. split; [reflexivity|].
      split; [apply (Ls "unique_count"); reflexivity|apply (Ls "unique_ratio"); reflexivity]. }
    destruct Hs as [a1 [a2 [-> [N1 N2]]]]. clear Ks Ls.
    destruct (c_match x && c_match y)%bool.
    - destruct (collect [("categories", _); _; _]) as [t|] eqn:Et; [|discriminate]. cbn [bind] in H.
      pose proof (collect_ok _ _ Et) as [Kt _]. pose proof (fun k v => collect_leaf _ _ k v Et) as Lt. cbn [map fst] in Kt.
      destruct t as [|[k1 b1] [|[k2 b2] [|[k3 b3] [|]]]]; cbn in Kt; try discriminate. injection Kt as -> -> ->.
      pose proof (Lt "categories" b1 eq_refl) as L1. pose proof (Lt "gini_impurity" b2 eq_refl) as L2. pose proof (Lt "unalikeability" b3 eq_refl) as L3.
      destruct (diff_dicts _ _) as [n|]; [|discriminate]. cbn [bind] in H. injection H as <-.
      eexists. split; [reflexivity|]. split; [|split].
      + destruct (cat_psi x y); cbn; repeat (constructor; [cbn; intuition discriminate|]); constructor.
      + intros k v Hv. apply dget_Some_In in Hv. destruct (cat_psi x y); cbn in Hv;
          repeat (destruct Hv as [Hv|Hv]; [injection Hv as <- <-; try assumption; intros ? [=]|]); destruct Hv.
      + discriminate.
    - injection H as <-. eexists. split; [reflexivity|]. split; [|split; [|discriminate]].
      + cbn. repeat (constructor; [cbn; intuition discriminate|]). constructor.
      + intros k v Hv. apply dget_Some_In in Hv. cbn in Hv. repeat (destruct Hv as [Hv|Hv]; [injection Hv as <- <-; assumption|]). destruct Hv.
  Qed.
  Lemma prim_diff_keys p q d : prim_diff p q = Ok d -> NoDup (dkeys d).
  Proof.
    assert (N : forall p q d, numeric_diff ttest psi p q = Ok d -> NoDup (dkeys d)).
    { clear. intros p q d. unfold numeric_diff. destruct (collect _) as [e|] eqn:E; [|discriminate]. cbn [bind]. intros [= <-]. apply collect_ok in E. destruct E as [K _].
      unfold dkeys. rewrite map_app. unfold dkeys in K. rewrite K. cbn. repeat (constructor; [cbn; intuition discriminate|]). constructor. }
    unfold DiffReportModel.prim_diff. destruct (p_kind p).
    - intro H. apply collect_ok in H. destruct H as [-> _]. cbn. repeat (constructor; [cbn; intuition discriminate|]). constructor.
    - apply N.
    - destruct (numeric_diff ttest psi p q) as [e|] eqn:E; [|discriminate]. cbn [bind]. destruct (collect _); [|discriminate]. cbn [bind]. intros [= <-].
      apply NoDup_dset. exact (N _ _ _ E).
    - destruct (numeric_diff ttest psi p q) as [e|] eqn:E; [|discriminate]. cbn [bind]. destruct (diff_lists _ _); [|discriminate]. cbn [bind]. intros [= <-].
      apply NoDup_dset, NoDup_ddel. exact (N _ _ _ E).
  Qed.
  Lemma rep_nonempty a b rep p : collect (representation a b) = Ok rep -> In p a \/ In p b -> rep <> [].
  Proof.
    intros H Hp ->. apply collect_ok in H. destruct H as [H _]. symmetry in H. apply map_eq_nil in H. unfold representation in H.
    apply app_eq_nil in H. destruct H as [H1 H2]. apply map_eq_nil in H1. subst a. apply map_eq_nil in H2. cbn in H2. destruct Hp as [[]|Hp].
    assert (I : In p (filter (fun _ : prim => true) b)) by (apply filter_In; auto). cbn [find_kind find] in H2. unfold find_kind in H2. cbn [find] in H2. rewrite H2 in I. destruct I.
  Qed.

  (** What an answer consists of *)
  Definition typed (a b : col) : bool := match selected (f_prims a), selected (f_prims b) with None, None => false | _, _ => true end.
  Definition or_none (o : option tree) : tree := match o with Some v => v | None => TNone end.
  Lemma type_shape a b t rep : type_diff (f_prims a) (f_prims b) = Ok t ->
    collect (representation (f_prims a) (f_prims b)) = Ok rep ->
    exists ps, prim_layer a b ps /\ NoDup (dkeys ps) /\ NoDup (dkeys t) /\ dget t "data_type" = (if typed a b then Some (TOut (match same_type (f_prims a) (f_prims b) with Some _ => Unchanged | None => OPair (selected_name (f_prims a)) (selected_name (f_prims b)) end)) else None) /\
      (typed a b = true -> dget t "data_type_representation" = Some (TNode rep)) /\
      dget t "statistics" = (match same_type (f_prims a) (f_prims b) with Some _ => Some (TNode ps) | None => None end) /\
      (forall k, In k ["categorical"; "order"; "data_label"; "column_name"] -> dget t k = None).
  Proof.
    intros Et Er. unfold DiffReportModel.type_diff in Et. rewrite Er in Et. cbn [bind] in Et.
    unfold prim_layer, same_type, typed. destruct (selected (f_prims a)) as [p|] eqn:Sa; [|destruct (selected (f_prims b)) as [q|] eqn:Sb].
      - assert (Hr : rep <> []). { apply (rep_nonempty _ _ _ p Er). left. unfold selected in Sa. apply find_some in Sa. tauto. }
        destruct rep as [|kv rep]; [congruence|]. clear Hr. destruct (selected (f_prims b)) as [q|] eqn:Sb; [destruct (kind_eqb (p_kind p) (p_kind q)) eqn:Ek|].
        + destruct (prim_diff p q) as [ps|] eqn:Ep; [|discriminate]. cbn [bind] in Et. injection Et as <-. exists ps.
          split; [reflexivity|]. split; [exact (prim_diff_keys _ _ _ Ep)|]. repeat split; try reflexivity.
          * cbn. repeat (constructor; [cbn; intuition discriminate|]). constructor.
          * intros k Hk. cbn in Hk. intuition subst; reflexivity.
        + injection Et as <-. exists []. repeat split; try reflexivity; try constructor.
          * cbn. intuition discriminate.
          * cbn. repeat (constructor; [cbn; intuition discriminate|]). constructor.
          * intros k Hk. cbn in Hk. intuition subst; reflexivity.
        + injection Et as <-. exists []. repeat split; try reflexivity; try constructor.
          * cbn. intuition discriminate.
          * cbn. repeat (constructor; [cbn; intuition discriminate|]). constructor.
          * intros k Hk. cbn in Hk. intuition subst; reflexivity.
      - assert (Hr : rep <> []). { apply (rep_nonempty _ _ _ q Er). right. unfold selected in Sb. apply find_some in Sb. tauto. }
        destruct rep as [|kv rep]; [congruence|]. clear Hr. injection Et as <-. exists []. repeat split; try reflexivity; try constructor.
        + cbn. intuition discriminate.
        + cbn. repeat (constructor; [cbn; intuition discriminate|]). constructor.
        + intros k Hk. cbn in Hk. intuition subst; reflexivity.
      - injection Et as <-. exists []. repeat split; try constructor.
        + destruct rep; cbn; repeat (constructor; [cbn; intuition discriminate|]); constructor.
        + destruct rep; reflexivity.
        + discriminate.
        + destruct rep; reflexivity.
        + intros k Hk. cbn in Hk. destruct rep; intuition subst; reflexivity.
  Qed.
  Lemma stats_shape a b s : stats_diff (f_order a) (f_order b) (f_cat a) (f_cat b) = Ok s ->
    exists cs, cat_layer a b cs /\ NoDup (dkeys cs) /\ (forall k v, dget cs k = Some v -> forall x, v <> TNode x) /\ NoDup (dkeys s) /\
      dget s "statistics" = (match f_cat a, f_cat b with Some _, Some _ => Some (TNode cs) | _, _ => None end) /\
      dget s "categorical" = (match f_cat a, f_cat b with
                              | Some x, Some y => Some (TOut (if Bool.eqb (c_match x) (c_match y) then Unchanged else OPair (VBool (c_match x)) (VBool (c_match y))))
                              | _, _ => None end) /\
      (match f_order a, f_order b with Some x, Some y => exists o, diff_strings x y = Ok o /\ dget s "order" = Some (TOut o) | _, _ => dget s "order" = None end) /\
      (forall k, In k ["data_type"; "data_type_representation"; "data_label"; "column_name"] -> dget s k = None).
  Proof.
    intros Es. unfold DiffReportModel.stats_diff in Es. unfold cat_layer.
      assert (Hord : exists d, match f_order a, f_order b with Some x, Some y => bind (diff_strings x y) (fun o => Ok [("order", TOut o)]) | _, _ => Ok [] end = Ok d /\
        ((d = [] /\ (f_order a = None \/ f_order b = None)) \/ exists x y o, f_order a = Some x /\ f_order b = Some y /\ diff_strings x y = Ok o /\ d = [("order", TOut o)])).
      { destruct (f_order a) as [x|]; [destruct (f_order b) as [y|]|]; [|eexists; (split; [reflexivity|]); left; auto..]. destruct (diff_strings x y) as [o|] eqn:Eo; [|unfold diff_strings in Eo; destruct (py_eq x y); discriminate].
        cbn [bind]. eexists. split; [reflexivity|]. right. exists x, y, o. auto. }
      destruct Hord as [d [Ed Hd]]. rewrite Ed in Es. cbn [bind] in Es.
      assert (Hc : exists e cs, match f_cat a, f_cat b with Some x, Some y => cat_diff x y | _, _ => Ok [] end = Ok e /\ s = dupdate d e /\
        NoDup (dkeys cs) /\ (forall k v, dget cs k = Some v -> forall x, v <> TNode x) /\
        match f_cat a, f_cat b with
        | Some x, Some y => e = [("categorical", TOut (if Bool.eqb (c_match x) (c_match y) then Unchanged else OPair (VBool (c_match x)) (VBool (c_match y)))); ("statistics", TNode cs)]
        | _, _ => e = [] /\ cs = [] end).
      { destruct (match f_cat a with Some _ => _ | None => _ end) as [e|] eqn:Ee; [|discriminate]. cbn [bind] in Es. injection Es as <-.
        destruct (f_cat a) as [x|]; [destruct (f_cat b) as [y|]|].
        - destruct (cat_diff_shape _ _ _ Ee) as [cs [-> [N1 [N2 _]]]]. eexists; exists cs. split; [reflexivity|]. split; [reflexivity|]. split; [exact N1|]. split; [exact N2|reflexivity].
        - injection Ee as <-. exists [], []. repeat split; [constructor|discriminate].
        - injection Ee as <-. exists [], []. repeat split; [constructor|discriminate]. }
      destruct Hc as [e [cs [Ee [-> [N1 [N2 He]]]]]]. exists cs.
      assert (Hdd : NoDup (dkeys d)). { destruct Hd as [[-> _]|[x [y [o [_ [_ [_ ->]]]]]]]; cbn; repeat (constructor; [cbn; intuition discriminate|]); constructor. }
      assert (Hde : NoDup (dkeys e)). { destruct (f_cat a); [destruct (f_cat b)|]; [subst e|destruct He as [-> _]..]; cbn; repeat (constructor; [cbn; intuition discriminate|]); constructor. }
      split; [|split; [exact N1|split; [exact N2|split; [apply NoDup_dupdate; exact Hdd|]]]].
      { destruct (f_cat a); [destruct (f_cat b)|]; [|tauto..]. subst e. eauto. }
      rewrite !(dget_dupdate e Hde).
      assert (Hd' : forall k, k <> "order" -> dget d k = None).
      { intros k Hk. destruct Hd as [[-> _]|[x [y [o [_ [_ [_ ->]]]]]]]; [reflexivity|]. cbn [dget]. destruct (PyDict.eqb_spec "order" k); [congruence|reflexivity]. }
      rewrite !(Hd' "statistics"), !(Hd' "categorical") by discriminate.
      split; [destruct (f_cat a); [destruct (f_cat b)|]; [subst e; reflexivity|destruct He as [-> _]; reflexivity..]|].
      split; [destruct (f_cat a); [destruct (f_cat b)|]; [subst e; reflexivity|destruct He as [-> _]; reflexivity..]|]. split.
      - assert (Heo : dget e "order" = None) by (destruct (f_cat a); [destruct (f_cat b)|]; [subst e; reflexivity|destruct He as [-> _]; reflexivity..]). rewrite Heo.
        destruct Hd as [[-> [->| ->]]|[x [y [o [-> [-> [Ho ->]]]]]]]; [reflexivity|destruct (f_order a); reflexivity|]. exists o. split; [exact Ho|reflexivity].
      - intros k Hk. rewrite (dget_dupdate e Hde). rewrite Hd' by (intros ->; cbn in Hk; intuition discriminate).
        destruct (f_cat a); [destruct (f_cat b)|]; [subst e|destruct He as [-> _]; reflexivity..]. cbn in Hk. intuition subst; reflexivity.
  Qed.
  Lemma label_shape a b l : match f_label a, f_label b with Some x, Some y => label_diff x y | _, _ => Ok [] end = Ok l ->
    exists ls, lab_layer a b ls /\ NoDup (dkeys ls) /\ (forall k v, dget ls k = Some v -> forall x, v <> TNode x) /\ NoDup (dkeys l) /\
      dget l "statistics" = (match f_label a, f_label b with Some (Some _), Some (Some _) => Some (TNode ls) | _, _ => None end) /\
      (match f_label a, f_label b with
       | Some (Some x), Some (Some y) => exists o, diff_lists (labels_val x) (labels_val y) = Ok o /\ dget l "data_label" = Some (TOut o)
       | _, _ => dget l "data_label" = None end) /\
      (forall k, In k ["data_type"; "data_type_representation"; "categorical"; "order"; "column_name"] -> dget l k = None).
  Proof.
    intros El. unfold lab_layer. destruct (f_label a) as [[x|]|]; [destruct (f_label b) as [[y|]|]|destruct (f_label b) as [[y|]|]|]; cbn [label_diff] in El.
      - unfold label_diff in El. destruct (diff_lists (labels_val x) (labels_val y)) as [o|] eqn:Eo in El; [|discriminate]. cbn [bind] in El.
        match type of El with bind ?c _ = _ => destruct c as [ls|] eqn:Els; [|discriminate] end. cbn [bind] in El. injection El as <-.
        exists ls. split; [reflexivity|]. split; [apply collect_ok in Els; destruct Els as [-> _]; cbn; repeat (constructor; [cbn; intuition discriminate|]); constructor|].
        split; [intros k v; apply (collect_leaf _ _ k v Els)|]. split; [cbn; repeat (constructor; [cbn; intuition discriminate|]); constructor|].
        split; [reflexivity|]. split; [exists o; split; [exact Eo|reflexivity]|]. intros k Hk. cbn in Hk. intuition subst; reflexivity.
      - injection El as <-. exists []. repeat split; try constructor. discriminate.
      - injection El as <-. exists []. repeat split; try constructor. discriminate.
      - injection El as <-. exists []. repeat split; try constructor. discriminate.
      - injection El as <-. exists []. repeat split; try constructor. discriminate.
      - injection El as <-. exists []. repeat split; try constructor. discriminate.
      - injection El as <-. exists []. repeat split; try constructor. discriminate.
  Qed.
  Lemma layers a b r : col_diff a b = Ok r -> exists st ps cs ls bs rep,
    prim_layer a b ps /\ cat_layer a b cs /\ lab_layer a b ls /\ base_layer a b bs /\ collect (representation (f_prims a) (f_prims b)) = Ok rep /\
    dget r "statistics" = Some (TNode st) /\
    dkeys r = ["column_name"; "data_type"] ++ (if (has_label a && has_label b)%bool then ["data_label"] else []) ++ ["categorical"; "order"; "statistics"] /\
    (forall k, dget st k =
      match (if typed a b && String.eqb k "data_type_representation" then Some (TNode rep) else None) with
      | Some v => Some v
      | None => match dget bs k with Some v => Some v | None =>
                match dget ls k with Some v => Some v | None => match dget cs k with Some v => Some v | None => dget ps k end end end
      end) /\
    dget r "column_name" = Some (TName (f_name a)) /\
    dget r "data_type" = Some (if typed a b then TOut (match same_type (f_prims a) (f_prims b) with Some _ => Unchanged | None => OPair (selected_name (f_prims a)) (selected_name (f_prims b)) end) else TNone) /\
    dget r "categorical" = Some (match f_cat a, f_cat b with
                                 | Some x, Some y => TOut (if Bool.eqb (c_match x) (c_match y) then Unchanged else OPair (VBool (c_match x)) (VBool (c_match y)))
                                 | _, _ => TNone end) /\
    (match f_order a, f_order b with
     | Some x, Some y => exists o, diff_strings x y = Ok o /\ dget r "order" = Some (TOut o)
     | _, _ => dget r "order" = Some TNone end) /\
    (match f_label a, f_label b with
     | Some (Some x), Some (Some y) => exists o, diff_lists (labels_val x) (labels_val y) = Ok o /\ dget r "data_label" = Some (TOut o)
     | Some _, Some _ => dget r "data_label" = Some TNone
     | _, _ => dget r "data_label" = None end).
  Proof.
    unfold DiffReportModel.col_diff. intro H.
    destruct (type_diff _ _) as [t|] eqn:Et; [|discriminate]. cbn [bind] in H.
    destruct (stats_diff _ _ _ _) as [s|] eqn:Es; [|discriminate]. cbn [bind] in H.
    destruct (match f_label a with Some _ => _ | None => _ end) as [l|] eqn:El; [|discriminate]. cbn [bind] in H.
    (* the first *)
    destruct (collect (representation (f_prims a) (f_prims b))) as [rep|] eqn:Er; [|unfold DiffReportModel.type_diff in Et; rewrite Er in Et; discriminate].
    set (dt := if typed a b then Some (TOut (match same_type (f_prims a) (f_prims b) with Some _ => Unchanged | None => OPair (selected_name (f_prims a)) (selected_name (f_prims b)) end)) else None).
    destruct (type_shape a b t rep Et Er) as [ps [Hps [NDps [NDt [Hdt [Hrep [Hst Hno]]]]]]]. fold dt in Hdt. clear Et.
    (* the second *)
    destruct (stats_shape a b s Es) as [cs [Hcs [NDcs [Lcs [NDs [Hsst [Hscat [Hsord Hsno]]]]]]]]. clear Es.
    (* the third *)
    destruct (label_shape a b l El) as [ls [Hls [NDls [Lls [NDl [Hlst [Hllab Hlno]]]]]]]. clear El.
    (* together *)
    set (u := rdu (rdu (rdu [] (TNode t)) (TNode s)) (TNode l)) in *.
    assert (Hu : forall k, dget u k = match dget l k with Some v => Some (merge1 (match dget s k with Some w => Some (merge1 (dget t k) w) | None => dget t k end) v)
                                      | None => match dget s k with Some w => Some (merge1 (dget t k) w) | None => dget t k end end).
    { intro k. unfold u. rewrite (rdu_get l _ NDl), (rdu_get s _ NDs), (rdu_get t [] NDt). cbn [dget]. destruct (dget t k); reflexivity. }
    rewrite dget_dset in H. change (PyDict.eqb "column_name" "statistics") with false in H. cbv iota in H.
    destruct (dget u "statistics") as [[| | | |st0]|] eqn:Eu; try discriminate.
    assert (Hst0 : forall k, dget st0 k = match dget ls k with Some v => Some v | None => match dget cs k with Some v => Some v | None => dget ps k end end).
    { intro k. rewrite Hu, Hst, Hsst, Hlst in Eu. unfold prim_layer in Hps. unfold cat_layer in Hcs. unfold lab_layer in Hls.
      assert (Hnil : forall k : string, dget (@nil (string * tree)) k = None) by reflexivity.
      assert (Hinj : forall x y : list (string * tree), Some (TNode x) = Some (TNode y) -> x = y) by congruence.
      destruct (same_type (f_prims a) (f_prims b)) as [[p q]|]; [|subst ps]; (destruct (f_cat a); [destruct (f_cat b); [|subst cs]|subst cs]);
        (destruct (f_label a) as [[x|]|]; [destruct (f_label b) as [[y|]|]; [|subst ls..]|subst ls..]); cbn [merge1] in Eu; try discriminate; apply Hinj in Eu; subst st0;
        repeat (rewrite rdu_leaf; [|assumption..]); rewrite ?Hnil; repeat match goal with |- context [dget ?d k] => destruct (dget d k) end; reflexivity. }
    clear Eu Hst Hsst Hlst.
    assert (Hu' : forall k, k <> "column_name" -> dget (dset u "column_name" (TName (f_name a))) k = dget u k).
    { intros k Hk. rewrite dget_dset. destruct (PyDict.eqb_spec "column_name" k); [congruence|reflexivity]. }
    match type of H with bind ?c _ = _ => destruct c as [bs|] eqn:Eb; [|discriminate] end. cbn [bind] in H.
    rewrite !(Hu' "data_type"), !(Hu' "data_type_representation") in H by discriminate.
    assert (Hudt : dget u "data_type" = dt). { rewrite Hu, Hsno, Hlno by (cbn; auto). exact Hdt. }
    assert (Hurep : typed a b = true -> dget u "data_type_representation" = Some (TNode rep)). { intro Ht. rewrite Hu, Hsno, Hlno by (cbn; auto). exact (Hrep Ht). }
    assert (Hfin : exists st, Ok (map (fun k => (k, or_none (dget (dset (dset u "column_name" (TName (f_name a))) "statistics" (TNode st)) k)))
        (["column_name"; "data_type"] ++ (if (has_label a && has_label b)%bool then ["data_label"] else []) ++ ["categorical"; "order"; "statistics"])) = Ok r /\
        st = if typed a b then dset (dupdate st0 bs) "data_type_representation" (TNode rep) else dupdate st0 bs).
    { rewrite Hudt in H. subst dt. destruct (typed a b) eqn:Ety.
      - rewrite (Hurep eq_refl) in H. cbn [bind] in H. eexists. split; [exact H|reflexivity].
      - cbn [bind] in H. eexists. split; [exact H|reflexivity]. }
    destruct Hfin as [st [Hr Hstd]]. clear H. apply Ok_inj in Hr. subst r.
    assert (NDb : NoDup (dkeys bs)). { apply collect_ok in Eb. destruct Eb as [-> _]. cbn. repeat (constructor; [cbn; intuition discriminate|]). constructor. }
    assert (Hgs : forall k, dget st k = match (if typed a b && String.eqb k "data_type_representation" then Some (TNode rep) else None) with
      | Some v => Some v
      | None => match dget bs k with Some v => Some v | None =>
                match dget ls k with Some v => Some v | None => match dget cs k with Some v => Some v | None => dget ps k end end end end).
    { intro k. rewrite Hstd. destruct (typed a b); cbn [andb].
      - rewrite dget_dset, (dget_dupdate bs NDb), Hst0. change (PyDict.eqb "data_type_representation" k) with (String.eqb "data_type_representation" k).
        rewrite (String.eqb_sym k). destruct (String.eqb "data_type_representation" k); reflexivity.
      - rewrite (dget_dupdate bs NDb), Hst0. reflexivity. }
    exists st, ps, cs, ls, bs, rep.
    split; [exact Hps|]. split; [exact Hcs|]. split; [exact Hls|]. split; [exact Eb|]. split; [exact eq_refl|].
    assert (Hg : forall k, In k (["column_name"; "data_type"] ++ (if (has_label a && has_label b)%bool then ["data_label"] else []) ++ ["categorical"; "order"; "statistics"]) ->
      dget (map (fun k => (k, or_none (dget (dset (dset u "column_name" (TName (f_name a))) "statistics" (TNode st)) k)))
        (["column_name"; "data_type"] ++ (if (has_label a && has_label b)%bool then ["data_label"] else []) ++ ["categorical"; "order"; "statistics"])) k =
      Some (or_none (dget (dset (dset u "column_name" (TName (f_name a))) "statistics" (TNode st)) k))).
    { intros k. generalize (["column_name"; "data_type"] ++ (if (has_label a && has_label b)%bool then ["data_label"] else []) ++ ["categorical"; "order"; "statistics"]).
      generalize (fun k => or_none (dget (dset (dset u "column_name" (TName (f_name a))) "statistics" (TNode st)) k)). clear. intros f ks.
      induction ks as [|x ks IH]; [intros []|]. cbn [map dget]. intros [->|Hk]; [rewrite PyDict.eqb_refl; reflexivity|].
      destruct (PyDict.eqb_spec x k) as [->|]; [reflexivity|apply IH; exact Hk]. }
    assert (Hg2 : forall k, k <> "column_name" -> k <> "statistics" -> dget (dset (dset u "column_name" (TName (f_name a))) "statistics" (TNode st)) k = dget u k).
    { intros k K1 K2. rewrite !dget_dset. destruct (PyDict.eqb_spec "statistics" k); [congruence|]. destruct (PyDict.eqb_spec "column_name" k); [congruence|reflexivity]. }
    split; [rewrite Hg by (rewrite !in_app_iff; cbn; auto 10); rewrite dget_dset; reflexivity|].
    split; [unfold dkeys; rewrite map_map; cbn [fst]; apply map_id|]. split; [exact Hgs|].
    split; [rewrite Hg by (cbn; auto); rewrite !dget_dset; reflexivity|].
    split; [rewrite Hg by (cbn; auto); rewrite Hg2 by discriminate; rewrite Hudt; unfold dt; destruct (typed a b); reflexivity|].
    split; [rewrite Hg by (rewrite !in_app_iff; cbn; auto 10); rewrite Hg2 by discriminate; rewrite Hu, Hlno, Hscat, Hno by (cbn; auto 10); destruct (f_cat a); [destruct (f_cat b)|]; reflexivity|].
    split.
    - assert (Ho : dget (map (fun k => (k, or_none (dget (dset (dset u "column_name" (TName (f_name a))) "statistics" (TNode st)) k)))
        (["column_name"; "data_type"] ++ (if (has_label a && has_label b)%bool then ["data_label"] else []) ++ ["categorical"; "order"; "statistics"])) "order" = Some (or_none (dget s "order"))).
      { rewrite Hg by (rewrite !in_app_iff; cbn; auto 10). rewrite Hg2 by discriminate. rewrite Hu, Hlno, Hno by (cbn; auto 10). destruct (dget s "order"); reflexivity. }
      rewrite Ho. destruct (f_order a) as [x|]; [destruct (f_order b) as [y|]|]; [|rewrite Hsord; reflexivity..]. destruct Hsord as [o [H1 ->]]. exists o. split; [exact H1|reflexivity].
    - destruct (has_label a && has_label b)%bool eqn:Eh.
      + rewrite Hg by (cbn; auto). rewrite Hg2 by discriminate. rewrite Hu, Hsno, Hno by (cbn; auto 10). unfold has_label in Eh.
        destruct (f_label a) as [[x|]|]; [destruct (f_label b) as [[y|]|]|destruct (f_label b) as [[y|]|]|]; try discriminate.
        * destruct Hllab as [o [H1 ->]]. exists o. split; [exact H1|reflexivity].
        * rewrite Hllab. reflexivity.
        * rewrite Hllab. reflexivity.
        * rewrite Hllab. reflexivity.
      + unfold has_label in Eh. destruct (f_label a) as [[x|]|]; [destruct (f_label b) as [[y|]|]|destruct (f_label b) as [[y|]|]|]; try discriminate; reflexivity.
  Qed.

  (** *** Errors *)
  Lemma numbers_err (x y : val) e : diff_numbers x y = Err e -> e = TypeError.
  Proof.
    unfold diff_numbers. destruct x, y; try discriminate; destruct (py_eq _ _); try discriminate; cbn; try discriminate; intros [= <-]; reflexivity.
  Qed.
  Lemma lists_err (x y : val) e : diff_lists x y = Err e -> e = TypeError.
  Proof. unfold diff_lists. destruct x, y; intros [= <-]; reflexivity. Qed.
  Lemma dates_err (x y : val) e : diff_dates x y = Err e -> e = TypeError.
  Proof. unfold diff_dates. destruct x, y; try (intros [= <-]; reflexivity). destruct (Z.eqb _ _); discriminate. Qed.
  Lemma strings_ok (x y : val) : exists o, diff_strings x y = Ok o.
  Proof. unfold diff_strings. destruct (py_eq x y); eauto. Qed.
  Lemma val_err : forall (x y : val) e, diff_val x y = Err e -> e = TypeError.
  Proof.
    induction x as [ |n|b|s|t|l|d IH] using val_nested_ind; intros y e H; try (eapply numbers_err; exact H).
    - cbn [diff_val] in H. destruct (strings_ok (VStr s) y) as [o Ho]. congruence.
    - eapply dates_err; exact H.
    - eapply lists_err; exact H.
    - cbn [diff_val] in H. destruct y as [ | | | | | |d2]; try (eapply numbers_err; exact H).
      destruct (entries diff_val d2 d []) as [acc|e'] eqn:E; cbn [bind] in H; [discriminate|]. injection H as <-. revert E. generalize (@nil (atom * out)).
      induction IH as [|[k v] d Hv F IHF]; intros acc E; cbn in E; [discriminate|]. destruct (diff_val v (get_or_none d2 k)) as [o|] eqn:Ev; cbn [bind] in E.
      + exact (IHF _ E).
      + injection E as ->. exact (Hv _ _ Ev).
  Qed.
  Lemma parts_err : forall (x y : val) e, parts_val x y = Err e -> e = TypeError.
  Proof.
    induction x as [ |n|b|s|t|l|d IH] using val_nested_ind; intros y e H; try (eapply numbers_err; exact H).
    - cbn [parts_val] in H. destruct (strings_ok (VBool b) y) as [o Ho]. congruence.
    - cbn [parts_val] in H. destruct (strings_ok (VStr s) y) as [o Ho]. congruence.
    - eapply dates_err; exact H.
    - eapply lists_err; exact H.
    - cbn [parts_val] in H. destruct y as [ | | | | | |d2]; try (eapply numbers_err; exact H).
      destruct (shared_entries parts_val d2 d ([], [])) as [acc|e'] eqn:E; cbn [bind] in H; [discriminate|]. injection H as <-. revert E. generalize ((@nil (atom * val)), (@nil (atom * out))).
      induction IH as [|[k v] d Hv F IHF]; intros acc E; cbn in E; [discriminate|]. destruct (dget d2 k) as [w|]; [|exact (IHF _ E)].
      destruct (parts_val v w) as [o|] eqn:Ev; cbn [bind] in E; [exact (IHF _ E)|]. injection E as ->. exact (Hv _ _ Ev).
  Qed.

  Lemma collect_type l e : collect l = Err e -> (forall k r, In (k, r) l -> forall e', r = Err e' -> e' = TypeError) -> e = TypeError.
  Proof. intros H Hl. destruct (collect_err l e H) as [k Hk]. exact (Hl k _ Hk e eq_refl). Qed.
  Ltac typed_list := intros k r Hk e' ->; cbn [In numbers] in Hk; repeat (destruct Hk as [Hk|Hk]; [apply (f_equal snd) in Hk; cbn [snd numbers] in Hk; first [exact (numbers_err _ _ _ Hk)|exact (lists_err _ _ _ Hk)|exact (dates_err _ _ _ Hk)|exact (val_err _ _ _ Hk)|exact (parts_err _ _ _ Hk)]|]); destruct Hk.

  Lemma prim_err p q e : prim_diff p q = Err e -> e = TypeError.
  Proof.
    assert (N : forall e, numeric_diff ttest psi p q = Err e -> e = TypeError).
    { intro e0. unfold numeric_diff. destruct (collect _) as [d|] eqn:E; cbn [bind]; [discriminate|]. intros [= <-]. apply (collect_type _ _ E). typed_list. }
    unfold DiffReportModel.prim_diff. destruct (p_kind p).
    - intro H. apply (collect_type _ _ H). typed_list.
    - apply N.
    - destruct (numeric_diff ttest psi p q) as [d|] eqn:E; cbn [bind]; [|intros [= <-]; exact (N _ eq_refl)].
      destruct (collect _) as [d'|] eqn:E'; cbn [bind]; [discriminate|]. intros [= <-]. apply (collect_type _ _ E'). intros k r Hk e' ->. apply in_map_iff in Hk.
      destruct Hk as [x [[= _ Hk] _]]. exact (numbers_err _ _ _ Hk).
    - destruct (numeric_diff ttest psi p q) as [d|] eqn:E; cbn [bind]; [|intros [= <-]; exact (N _ eq_refl)].
      destruct (diff_lists _ _) as [o|] eqn:E'; cbn [bind]; [discriminate|]. intros [= <-]. exact (lists_err _ _ _ E').
  Qed.
  Lemma cat_err x y e : cat_diff x y = Err e -> e = TypeError.
  Proof.
    unfold DiffReportModel.cat_diff. destruct (strings_ok (VBool (c_match x)) (VBool (c_match y))) as [m Hm].
    change (DiffModel.diff_strings (VBool (c_match x)) (VBool (c_match y)) : result out) with (diff_strings (VBool (c_match x)) (VBool (c_match y)) : result out). rewrite Hm. cbn [bind].
    destruct (collect [("unique_count", _); _]) as [s|] eqn:E; cbn [bind]; [|intros [= <-]; apply (collect_type _ _ E); typed_list].
    destruct (c_match x && c_match y)%bool; [|discriminate].
    destruct (collect [("categories", _); _; _]) as [t|] eqn:E'; cbn [bind]; [|intros [= <-]; apply (collect_type _ _ E'); typed_list].
    destruct (diff_dicts _ _) as [o|] eqn:E''; cbn [bind]; [discriminate|]. intros [= <-]. exact (val_err _ _ _ E'').
  Qed.
  Lemma ratio_num p : num_of (ratio_val p) <> None \/ ratio_val p = VNone.
  Proof. unfold ratio_val. destruct (p_ratio p); [left; discriminate|right; reflexivity]. Qed.
  Lemma numbers_total (x y : val) : num_of x <> None \/ x = VNone -> num_of y <> None \/ y = VNone -> exists o, diff_numbers x y = Ok o.
  Proof.
    intros [Hx| ->] [Hy| ->]; [apply numbers_ok; assumption|destruct x; cbn; eauto|destruct y; cbn; eauto|cbn; eauto].
  Qed.
  Lemma rep_total a b : exists rep, collect (representation a b) = Ok rep.
  Proof.
    apply collect_total. unfold representation. apply Forall_app. split; apply Forall_forall; intros kr Hk; apply in_map_iff in Hk; destruct Hk as [p [<- _]]; cbn [snd]; [|eauto].
    destruct (find_kind (p_kind p) b) as [q|]; [|eauto]. apply numbers_total; apply ratio_num.
  Qed.

  Definition base_list (a b : col) : list (string * result out) :=
    [("sample_size", diff_numbers (f_base a "sample_size") (f_base b "sample_size"));
     ("null_count", diff_numbers (f_base a "null_count") (f_base b "null_count"));
     ("null_ratio", diff_numbers (f_base a "null_ratio") (f_base b "null_ratio"));
     ("null_types", diff_lists (VList (f_null_types a)) (VList (f_null_types b)));
     ("null_types_index", diff_parts (Some (f_null_index a)) (Some (f_null_index b)))].
  Lemma col_diff_fails a b e : col_diff a b = Err e ->
    ((exists p q, same_type (f_prims a) (f_prims b) = Some (p, q) /\ prim_diff p q = Err e) \/
     (exists x y, f_cat a = Some x /\ f_cat b = Some y /\ cat_diff x y = Err e) \/
     (exists x y, f_label a = Some (Some x) /\ f_label b = Some (Some y) /\ label_diff (Some x) (Some y) = Err e) \/
     collect (base_list a b) = Err e) \/ (e = KeyError /\ same_type (f_prims a) (f_prims b) = None /\ (f_cat a = None \/ f_cat b = None) /\
      ~ exists x y, f_label a = Some (Some x) /\ f_label b = Some (Some y)).
  Proof.
    unfold DiffReportModel.col_diff. intro H. destruct (rep_total (f_prims a) (f_prims b)) as [rep Er].
    destruct (type_diff _ _) as [t|] eqn:Et; cbn [bind] in H.
    2:{ left. injection H as <-. unfold DiffReportModel.type_diff in Et. rewrite Er in Et. cbn [bind] in Et. unfold same_type.
        destruct (selected (f_prims a)) as [p|], (selected (f_prims b)) as [q|]; try discriminate. destruct (kind_eqb _ _) eqn:Ek; [|discriminate].
        destruct (prim_diff p q) eqn:Ep; cbn [bind] in Et; [discriminate|]. injection Et as <-. left. exists p, q. auto. }
    destruct (stats_diff _ _ _ _) as [s|] eqn:Es; cbn [bind] in H.
    2:{ left. injection H as <-. unfold DiffReportModel.stats_diff in Es.
        assert (Ho : exists d, match f_order a, f_order b with Some x, Some y => bind (diff_strings x y) (fun o => Ok [("order", TOut o)]) | _, _ => Ok [] end = Ok d).
        { destruct (f_order a) as [x|]; [destruct (f_order b) as [y|]|]; [|eexists; reflexivity..]. destruct (strings_ok x y) as [o ->]. cbn [bind]. eauto. }
        destruct Ho as [d Ho]. rewrite Ho in Es. cbn [bind] in Es. destruct (f_cat a) as [x|]; [destruct (f_cat b) as [y|]|]; try discriminate.
        destruct (cat_diff x y) eqn:Ec; cbn [bind] in Es; [discriminate|]. injection Es as <-. right. left. exists x, y. auto. }
    destruct (match f_label a with Some _ => _ | None => _ end) as [l|] eqn:El; cbn [bind] in H.
    2:{ left. injection H as <-. right. right. left. destruct (f_label a) as [[x|]|]; [destruct (f_label b) as [[y|]|]|destruct (f_label b) as [[y|]|]|]; try discriminate. exists x, y. auto. }
    destruct (type_shape a b t rep Et Er) as [ps [Hps [NDps [NDt [Hdt [Hrep [Hst Hno]]]]]]].
    destruct (stats_shape a b s Es) as [cs [Hcs [NDcs [Lcs [NDs [Hsst [Hscat [Hsord Hsno]]]]]]]].
    destruct (label_shape a b l El) as [ls [Hls [NDls [Lls [NDl [Hlst [Hllab Hlno]]]]]]].
    set (u := rdu (rdu (rdu [] (TNode t)) (TNode s)) (TNode l)) in *.
    assert (Hu : forall k, dget u k = match dget l k with Some v => Some (merge1 (match dget s k with Some w => Some (merge1 (dget t k) w) | None => dget t k end) v)
                                      | None => match dget s k with Some w => Some (merge1 (dget t k) w) | None => dget t k end end).
    { intro k. unfold u. rewrite (rdu_get l _ NDl), (rdu_get s _ NDs), (rdu_get t [] NDt). cbn [dget]. destruct (dget t k); reflexivity. }
    assert (Hu' : forall k, k <> "column_name" -> dget (dset u "column_name" (TName (f_name a))) k = dget u k).
    { intros k Hk. rewrite dget_dset. destruct (PyDict.eqb_spec "column_name" k); [congruence|reflexivity]. }
    rewrite !(Hu' "statistics"), !(Hu' "data_type"), !(Hu' "data_type_representation") in H by discriminate.
    assert (Hudt : dget u "data_type" = dget t "data_type"). { rewrite Hu, Hsno, Hlno by (cbn; auto). reflexivity. }
    assert (Hurep : dget u "data_type_representation" = dget t "data_type_representation"). { rewrite Hu, Hsno, Hlno by (cbn; auto). reflexivity. }
    destruct (dget u "statistics") as [[| | | |st0]|] eqn:Eu.
    1,2,3,4: exfalso; rewrite Hu, Hst, Hsst, Hlst in Eu; destruct (same_type (f_prims a) (f_prims b)) as [[p q]|]; (destruct (f_cat a); [destruct (f_cat b)|]);
        (destruct (f_label a) as [[x|]|]; [destruct (f_label b) as [[y|]|]|..]); cbn [merge1] in Eu; discriminate.
    - left. match type of H with bind ?c _ = _ => destruct c as [bs|] eqn:Eb end; cbn [bind] in H; [|injection H as <-; right; right; right; exact Eb].
      exfalso. rewrite Hudt, Hurep, Hdt in H. destruct (typed a b); [rewrite (Hrep eq_refl) in H|]; cbn [bind] in H; discriminate.
    - right. injection H as <-. split; [reflexivity|]. rewrite Hu, Hst, Hsst, Hlst in Eu. split; [|split].
      + destruct (same_type (f_prims a) (f_prims b)); [|reflexivity]. exfalso. destruct (f_label a) as [[x|]|]; [destruct (f_label b) as [[y|]|]|..]; (destruct (f_cat a); [destruct (f_cat b)|]); discriminate.
      + destruct (f_cat a); [destruct (f_cat b)|]; auto. exfalso. destruct (f_label a) as [[x|]|]; [destruct (f_label b) as [[y|]|]|..]; discriminate.
      + intros [x [y [Hx Hy]]]. rewrite Hx, Hy in Eu. discriminate.
  Qed.
  Lemma label_err x y e : label_diff (Some x) (Some y) = Err e -> e = TypeError.
  Proof.
    unfold label_diff. destruct (diff_lists _ _) as [o|] eqn:Eo; cbn [bind]; [|intros [= <-]; exact (lists_err _ _ _ Eo)].
    destruct (collect _) as [d|] eqn:Ed; cbn [bind]; [discriminate|]. intros [= <-]. apply (collect_type _ _ Ed). typed_list.
  Qed.
  Lemma col_diff_err a b e : col_diff a b = Err e ->
    e = TypeError \/ (e = KeyError /\ same_type (f_prims a) (f_prims b) = None /\ (f_cat a = None \/ f_cat b = None) /\
      ~ exists x y, f_label a = Some (Some x) /\ f_label b = Some (Some y)).
  Proof.
    intro H. destruct (col_diff_fails a b e H) as [[[p [q [_ E]]]|[[x [y [_ [_ E]]]]|[[x [y [_ [_ E]]]]|E]]]|E]; [left..|right; exact E].
    - exact (prim_err _ _ _ E).
    - exact (cat_err _ _ _ E).
    - exact (label_err _ _ _ E).
    - apply (collect_type _ _ E). unfold base_list. typed_list.
  Qed.
  Lemma no_statistics a b : same_type (f_prims a) (f_prims b) = None -> f_cat a = None \/ f_cat b = None ->
    (~ exists x y, f_label a = Some (Some x) /\ f_label b = Some (Some y)) -> col_diff a b = Err KeyError.
  Proof.
    intros Hs Hc Hl. destruct (rep_total (f_prims a) (f_prims b)) as [rep Er].
    assert (Et : exists t, type_diff (f_prims a) (f_prims b) = Ok t).
    { unfold DiffReportModel.type_diff. rewrite Er. cbn [bind]. unfold same_type in Hs. destruct (selected (f_prims a)) as [p|], (selected (f_prims b)) as [q|]; try (eexists; reflexivity).
      destruct (kind_eqb _ _); [discriminate|eexists; reflexivity]. }
    assert (Es : exists s, stats_diff (f_order a) (f_order b) (f_cat a) (f_cat b) = Ok s).
    { unfold DiffReportModel.stats_diff. assert (Ho : exists d, match f_order a, f_order b with Some x, Some y => bind (diff_strings x y) (fun o => Ok [("order", TOut o)]) | _, _ => Ok [] end = Ok d).
      { destruct (f_order a) as [x|]; [destruct (f_order b) as [y|]|]; [|eexists; reflexivity..]. destruct (strings_ok x y) as [o ->]. cbn [bind]. eauto. }
      destruct Ho as [d ->]. cbn [bind]. destruct Hc as [-> | ->]; [|destruct (f_cat a)]; cbn [bind]; eexists; reflexivity. }
    assert (El : match f_label a, f_label b with Some x, Some y => label_diff x y | _, _ => Ok [] end = Ok []).
    { destruct (f_label a) as [[x|]|]; [destruct (f_label b) as [[y|]|]|destruct (f_label b) as [[y|]|]|]; try reflexivity. exfalso. eauto. }
    destruct Et as [t Et], Es as [s Es]. unfold DiffReportModel.col_diff. rewrite Et, Es, El. cbn [bind].
    destruct (type_shape a b t rep Et Er) as [ps [Hps [NDps [NDt [Hdt [Hrep [Hst Hno]]]]]]].
    destruct (stats_shape a b s Es) as [cs [Hcs [NDcs [Lcs [NDs [Hsst [Hscat [Hsord Hsno]]]]]]]].
    rewrite dget_dset. change (PyDict.eqb "column_name" "statistics") with false. cbv iota.
    change (rdu (rdu (rdu [] (TNode t)) (TNode s)) (TNode [])) with (rdu (rdu [] (TNode t)) (TNode s)).
    rewrite (rdu_get s _ NDs), (rdu_get t _ NDt), Hst, Hsst, Hs. destruct Hc as [-> | ->]; [reflexivity|]. destruct (f_cat a); reflexivity.
  Qed.
End C88.
