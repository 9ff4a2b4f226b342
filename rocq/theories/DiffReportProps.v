(** C88: differences of columns and of tables. *)
From Coq Require Import ZArith QArith Permutation.
From Verif Require Import PyCommon PyDict PyString PyEq CmsProps DiffModel DiffProofs DiffProps SchemaModel SchemaProofs PsiModel PsiProps DiffReportModel DiffReportProofs.
Local Open Scope nat_scope.
Local Open Scope string_scope.
Local Open Scope list_scope.

(** The statistics in an answer *)
Definition stat (r : dict string tree) (k : string) : option tree := match dget r "statistics" with Some (TNode st) => dget st k | _ => None end.

(** No difference is shown; results of tests are left out *)
Inductive quiet : tree -> Prop :=
| q_none : quiet TNone
| q_out o : clean o -> quiet (TOut o)
| q_test n : quiet (TTest n)
| q_name a : quiet (TName a)
| q_node d : (forall k v, dget d k = Some v -> quiet v) -> quiet (TNode d).

(** Values as the profiles hold them; [num] says what may stand for a number *)
Definition number (v : val) : Prop := v = VNone \/ num_of v <> None.
Definition real_number (v : val) : Prop := v = VNone \/ exists q, num_of v = Some (Some q).
Definition a_list (v : val) : Prop := v = VNone \/ exists l, v = VList l.
Definition a_date (v : val) : Prop := v = VNone \/ exists t, v = VDate t.
Definition statistics : list (string * string) :=
  [("min", "min"); ("max", "max"); ("sum", "sum"); ("mean", "mean"); ("median", "median");
   ("median_absolute_deviation", "median_abs_deviation"); ("variance", "variance"); ("stddev", "stddev")].
Section Fits.
  Variable num : val -> Prop.
  Definition fits_prim (p : prim) : Prop :=
    match p_kind p with
    | KDate => a_date (p_val p "min") /\ a_date (p_val p "max") /\ a_list (p_val p "format")
    | k => Forall (fun n => num (p_val p (snd n))) statistics /\ a_list (p_val p "mode") /\
           (k = KText -> a_list (p_val p "vocab")) /\ (k = KFloat -> forall n, num (p_prec p n))
    end.
  Definition fits_cat (x : cat) : Prop :=
    Forall (fun n => num (c_val x n)) ["unique_count"; "unique_ratio"; "gini_impurity"; "unalikeability"] /\ a_list (c_val x "categories") /\ NoDup (dkeys (c_counts x)).
  Definition fits_dict (d : option (list (atom * val))) : Prop :=
    match d with Some d => NoDup (dkeys d) /\ Forall (fun kv => snd kv <> VNone /\ num (snd kv)) d | None => True end.
  Definition fits (c : col) : Prop :=
    Forall (fun n => num (f_base c n)) ["sample_size"; "null_count"; "null_ratio"] /\
    (NoDup (dkeys (f_null_index c)) /\ Forall (fun kv => exists l, snd kv = VList l /\ NoDup l) (f_null_index c)) /\
    Forall fits_prim (f_prims c) /\ NoDup (map p_kind (f_prims c)) /\ (forall x, f_cat c = Some x -> fits_cat x) /\
    (forall o, f_order c = Some o -> o = VNone \/ exists s, o = VStr s) /\
    (forall x, f_label c = Some (Some x) -> fits_dict (l_avg x) /\ fits_dict (l_rep x)).
End Fits.

Section C88.
  Variables ttest psi : prim -> prim -> nat.
  Variable chi2 : cat -> cat -> nat.
  Variable cat_psi : cat -> cat -> option nat.
  Variable order : list atom -> list atom.
  Variable by_count : dict atom Z -> dict atom Z.
  Hypothesis order_perm : forall l, Permutation (order l) l.
  Hypothesis count_perm : forall d, Permutation (by_count d) d.
  Notation prim_diff := (DiffReportModel.prim_diff ttest psi).
  Notation cat_diff := (DiffReportModel.cat_diff chi2 cat_psi order by_count).
  Notation col_diff := (DiffReportModel.col_diff ttest psi chi2 cat_psi order by_count).
  Notation layers := (DiffReportProofs.layers ttest psi chi2 cat_psi order by_count).

  Lemma same_type_some a b p q : same_type a b = Some (p, q) <-> chosen a p /\ chosen b q /\ p_kind p = p_kind q.
  Proof.
    unfold same_type. rewrite <- !selected_some, <- kind_eqb_eq. destruct (selected a) as [x|], (selected b) as [y|]; split; try discriminate; try (intros [? [? ?]]; discriminate).
    - destruct (kind_eqb (p_kind x) (p_kind y)) eqn:E; [|discriminate]. intros [= <- <-]. auto.
    - intros [[= <-] [[= <-] ->]]. reflexivity.
  Qed.
  Lemma same_type_none a b : same_type a b = None <-> ~ exists p q, chosen a p /\ chosen b q /\ p_kind p = p_kind q.
  Proof.
    destruct (same_type a b) as [[p q]|] eqn:E.
    - apply same_type_some in E. split; [discriminate|]. intro H. exfalso. eauto.
    - split; [|reflexivity]. intros _ [p [q H]]. apply same_type_some in H. congruence.
  Qed.
  Lemma typed_true a b : typed a b = true <-> (exists p, chosen (f_prims a) p \/ chosen (f_prims b) p).
  Proof.
    unfold typed. split.
    - destruct (selected (f_prims a)) as [p|] eqn:E; [intros _; exists p; left; apply selected_some; exact E|].
      destruct (selected (f_prims b)) as [q|] eqn:E'; [intros _; exists q; right; apply selected_some; exact E'|discriminate].
    - intros [p [H|H]]; apply selected_some in H; rewrite H; [reflexivity|]. destruct (selected (f_prims a)); reflexivity.
  Qed.

  (** C88. The entries of an answer, in this order *)
  Theorem C88_keys : forall a b r, col_diff a b = Ok r ->
    dkeys r = ["column_name"; "data_type"] ++ (match f_label a, f_label b with Some _, Some _ => ["data_label"] | _, _ => [] end) ++ ["categorical"; "order"; "statistics"].
  Proof.
    intros a b r H. destruct (layers a b r H) as [st [ps [cs [ls [bs [rep [_ [_ [_ [_ [_ [_ [K _]]]]]]]]]]]]]. rewrite K. unfold has_label. destruct (f_label a), (f_label b); reflexivity.
  Qed.
  (** C88. Name, type, order, whether it is categorical and labels *)
  Theorem C88_entries : forall a b r, col_diff a b = Ok r ->
    dget r "column_name" = Some (TName (f_name a)) /\
    (forall p q, chosen (f_prims a) p -> chosen (f_prims b) q ->
       dget r "data_type" = Some (TOut (if kind_eqb (p_kind p) (p_kind q) then Unchanged else OPair (VStr (kind_name (p_kind p))) (VStr (kind_name (p_kind q)))))) /\
    (forall p, chosen (f_prims a) p -> untyped (f_prims b) -> dget r "data_type" = Some (TOut (OPair (VStr (kind_name (p_kind p))) VNone))) /\
    (forall q, untyped (f_prims a) -> chosen (f_prims b) q -> dget r "data_type" = Some (TOut (OPair VNone (VStr (kind_name (p_kind q)))))) /\
    (untyped (f_prims a) -> untyped (f_prims b) -> dget r "data_type" = Some TNone) /\
    (match f_order a, f_order b with
     | Some x, Some y => exists o, diff_strings x y = Ok o /\ dget r "order" = Some (TOut o)
     | _, _ => dget r "order" = Some TNone end) /\
    (match f_cat a, f_cat b with
     | Some x, Some y => dget r "categorical" = Some (TOut (if Bool.eqb (c_match x) (c_match y) then Unchanged else OPair (VBool (c_match x)) (VBool (c_match y))))
     | _, _ => dget r "categorical" = Some TNone end) /\
    (match f_label a, f_label b with
     | Some (Some x), Some (Some y) =>
         exists o, dget r "data_label" = Some (TOut o) /\
           diff_lists (if l_size x =? 0 then VNone else VList (l_labels x)) (if l_size y =? 0 then VNone else VList (l_labels y)) = Ok o
     | Some _, Some _ => dget r "data_label" = Some TNone
     | _, _ => dget r "data_label" = None end).
  Proof.
    intros a b r H. destruct (layers a b r H) as [st [ps [cs [ls [bs [rep [_ [_ [_ [_ [_ [_ [_ [_ [Hn [Hd [Hc [Ho Hl]]]]]]]]]]]]]]]]]].
    split; [exact Hn|]. unfold typed, same_type, selected_name in Hd. rewrite Hd. clear Hd.
    split; [|split; [|split; [|split; [|split; [exact Ho|split]]]]].
    - intros p q Hp Hq. apply selected_some in Hp, Hq. rewrite Hp, Hq. destruct (kind_eqb _ _); reflexivity.
    - intros p Hp Hq. apply selected_some in Hp. apply selected_none in Hq. rewrite Hp, Hq. reflexivity.
    - intros q Hp Hq. apply selected_none in Hp. apply selected_some in Hq. rewrite Hp, Hq. reflexivity.
    - intros Hp Hq. apply selected_none in Hp, Hq. rewrite Hp, Hq. reflexivity.
    - rewrite Hc. destruct (f_cat a); [destruct (f_cat b)|]; reflexivity.
    - destruct (f_label a) as [[x|]|]; [destruct (f_label b) as [[y|]|]|destruct (f_label b) as [[y|]|]|]; try exact Hl. destruct Hl as [o [H1 H2]]. exists o. split; [exact H2|exact H1].
  Qed.

  Lemma stat_layers a b r : col_diff a b = Ok r -> exists ps cs ls bs rep,
    prim_layer ttest psi a b ps /\ cat_layer chi2 cat_psi order by_count a b cs /\ lab_layer a b ls /\ base_layer a b bs /\
    collect (representation (f_prims a) (f_prims b)) = Ok rep /\
    forall k, stat r k = match (if typed a b && String.eqb k "data_type_representation" then Some (TNode rep) else None) with
      | Some v => Some v
      | None => match dget bs k with Some v => Some v | None =>
                match dget ls k with Some v => Some v | None => match dget cs k with Some v => Some v | None => dget ps k end end end end.
  Proof.
    intro H. destruct (layers a b r H) as [st [ps [cs [ls [bs [rep [H1 [H2 [H3 [H4 [H5 [H6 [_ [H7 _]]]]]]]]]]]]]].
    exists ps, cs, ls, bs, rep. unfold stat. rewrite H6. auto 10.
  Qed.

  (** *** Which keys a layer may have *)
  Definition prim_names : list string :=
    ["min"; "max"; "sum"; "mean"; "median"; "mode"; "median_absolute_deviation"; "variance"; "stddev"; "t-test"; "psi"; "precision"; "vocab"; "format"].
  Definition cat_names : list string := ["unique_count"; "unique_ratio"; "chi2-test"; "categories"; "gini_impurity"; "unalikeability"; "psi"; "categorical_count"].
  Definition lab_names : list string := ["avg_predictions"; "label_representation"].
  Definition base_names : list string := ["sample_size"; "null_count"; "null_ratio"; "null_types"; "null_types_index"].
  Lemma base_keys a b bs : base_layer a b bs -> dkeys bs = base_names.
  Proof. intro H. apply collect_ok in H. destruct H as [H _]. exact H. Qed.
  Lemma lab_keys a b ls : lab_layer a b ls -> dkeys ls = match f_label a, f_label b with Some (Some _), Some (Some _) => lab_names | _, _ => [] end.
  Proof.
    unfold lab_layer. destruct (f_label a) as [[x|]|]; [destruct (f_label b) as [[y|]|]|..]; try (intros ->; reflexivity). intro H. apply collect_ok in H. destruct H as [H _]. exact H.
  Qed.

  (** The answer for two categorical profiles *)
  Lemma cat_inv x y cs m : cat_diff x y = Ok [("categorical", m); ("statistics", TNode cs)] -> exists o1 o2,
    diff_numbers (c_val x "unique_count") (c_val y "unique_count") = Ok o1 /\ diff_numbers (c_val x "unique_ratio") (c_val y "unique_ratio") = Ok o2 /\
    if (c_match x && c_match y)%bool then exists o3 o4 o5 n,
      diff_lists (c_val x "categories") (c_val y "categories") = Ok o3 /\ diff_numbers (c_val x "gini_impurity") (c_val y "gini_impurity") = Ok o4 /\
      diff_numbers (c_val x "unalikeability") (c_val y "unalikeability") = Ok o5 /\
      diff_dicts (Some (counts_val (fill (order (distinct (dkeys (c_counts x) ++ dkeys (c_counts y)))) (by_count (c_counts x)))))
                 (Some (counts_val (fill (order (distinct (dkeys (c_counts x) ++ dkeys (c_counts y)))) (by_count (c_counts y))))) = Ok n /\
      cs = [("unique_count", TOut o1); ("unique_ratio", TOut o2); ("chi2-test", TTest (chi2 x y)); ("categories", TOut o3); ("gini_impurity", TOut o4); ("unalikeability", TOut o5)] ++
           match cat_psi x y with Some z => [("psi", TTest z)] | None => [] end ++ [("categorical_count", TOut n)]
    else cs = [("unique_count", TOut o1); ("unique_ratio", TOut o2)].
  Proof.
    unfold DiffReportModel.cat_diff. destruct (strings_ok (VBool (c_match x)) (VBool (c_match y))) as [m0 Hm].
    change (DiffModel.diff_strings (VBool (c_match x)) (VBool (c_match y)) : result out) with (diff_strings (VBool (c_match x)) (VBool (c_match y)) : result out). rewrite Hm. cbn [bind collect].
    destruct (diff_numbers (c_val x "unique_count") (c_val y "unique_count")) as [o1|]; cbn [bind]; [|discriminate].
    destruct (diff_numbers (c_val x "unique_ratio") (c_val y "unique_ratio")) as [o2|]; cbn [bind]; [|discriminate].
    intro H. exists o1, o2. split; [reflexivity|]. split; [reflexivity|]. destruct (c_match x && c_match y)%bool.
    - destruct (diff_lists _ _) as [o3|]; cbn [bind] in H; [|discriminate].
      destruct (diff_numbers (c_val x "gini_impurity") _) as [o4|]; cbn [bind] in H; [|discriminate].
      destruct (diff_numbers (c_val x "unalikeability") _) as [o5|]; cbn [bind] in H; [|discriminate].
      destruct (diff_dicts _ _) as [n|] eqn:En; cbn [bind] in H; [|discriminate]. exists o3, o4, o5, n. split; [reflexivity|]. split; [reflexivity|]. split; [reflexivity|]. split; [reflexivity|].
      apply Ok_inj in H. injection H as _ <-. destruct (cat_psi x y); reflexivity.
    - apply Ok_inj in H. injection H as _ <-. reflexivity.
  Qed.
  Lemma cat_keys a b cs k v : cat_layer chi2 cat_psi order by_count a b cs -> dget cs k = Some v -> In k cat_names.
  Proof.
    unfold cat_layer. intros H Hk. apply dget_Some_In in Hk. apply (in_map fst) in Hk. cbn [fst] in Hk.
    destruct (f_cat a) as [x|]; [destruct (f_cat b) as [y|]|]; [|subst cs; destruct Hk..]. destruct H as [m H]. apply cat_inv in H. destruct H as [o1 [o2 [_ [_ H]]]].
    destruct (c_match x && c_match y)%bool.
    - destruct H as [o3 [o4 [o5 [n [_ [_ [_ [_ ->]]]]]]]]. unfold cat_names. destruct (cat_psi x y); cbn in Hk |- *; tauto.
    - subst cs. cbn in Hk |- *. tauto.
  Qed.

  (** What a profile of a type shows *)
  Definition shown (k : kind) : list string :=
    match k with
    | KDate => ["min"; "max"; "format"]
    | KInt => ["min"; "max"; "sum"; "mean"; "median"; "mode"; "median_absolute_deviation"; "variance"; "stddev"; "t-test"; "psi"]
    | KFloat => ["min"; "max"; "sum"; "mean"; "median"; "mode"; "median_absolute_deviation"; "variance"; "stddev"; "t-test"; "psi"; "precision"]
    | KText => ["min"; "max"; "sum"; "mean"; "median"; "mode"; "median_absolute_deviation"; "variance"; "stddev"; "t-test"; "vocab"]
    end.
  Lemma numeric_inv p q d : numeric_diff ttest psi p q = Ok d ->
    dkeys d = shown KInt /\ (forall s n, In (s, n) statistics -> exists o, diff_numbers (p_val p n) (p_val q n) = Ok o /\ dget d s = Some (TOut o)) /\
    (exists o, diff_lists (p_val p "mode") (p_val q "mode") = Ok o /\ dget d "mode" = Some (TOut o)) /\
    dget d "t-test" = Some (TTest (ttest p q)) /\ dget d "psi" = Some (TTest (psi p q)).
  Proof.
    unfold numeric_diff. match goal with |- bind (collect ?l0) _ = _ -> _ => set (l := l0) end. destruct (collect l) as [e|] eqn:E; cbn [bind]; [|discriminate]. intros [= <-].
    apply collect_ok in E. destruct E as [K [G _]].
    assert (Hg : forall k r, dget l k = Some r -> exists o, r = Ok o /\ dget (e ++ [("t-test", TTest (ttest p q)); ("psi", TTest (psi p q))]) k = Some (TOut o)).
    { intros k r Hk. destruct (G k r Hk) as [o [H1 H2]]. exists o. split; [exact H1|]. rewrite dget_app, H2. reflexivity. }
    assert (Hn : dget e "t-test" = None /\ dget e "psi" = None). { split; apply dget_None; rewrite K; cbn; intuition discriminate. }
    split; [unfold dkeys in *; rewrite map_app, K; reflexivity|]. split; [|split; [|split]].
    - intros s n Hn'. cbn in Hn'. repeat (destruct Hn' as [Hn'|Hn']; [apply pair_equal_spec in Hn'; destruct Hn' as [<- <-]; apply Hg; reflexivity|]). destruct Hn'.
    - apply Hg. reflexivity.
    - rewrite dget_app, (proj1 Hn). reflexivity.
    - rewrite dget_app, (proj2 Hn). reflexivity.
  Qed.
  Lemma prim_inv p q d : prim_diff p q = Ok d -> p_kind p <> KDate ->
    (forall s n, In (s, n) statistics -> exists o, diff_numbers (p_val p n) (p_val q n) = Ok o /\ dget d s = Some (TOut o)) /\
    (exists o, diff_lists (p_val p "mode") (p_val q "mode") = Ok o /\ dget d "mode" = Some (TOut o)) /\
    dget d "t-test" = Some (TTest (ttest p q)) /\
    dget d "psi" = (match p_kind p with KText => None | _ => Some (TTest (psi p q)) end) /\
    match p_kind p with
    | KFloat => exists e, collect (map (fun k => (k, diff_numbers (p_prec p k) (p_prec q k))) precision_keys) = Ok e /\ dget d "precision" = Some (TNode (ddel e "confidence_level"))
    | _ => dget d "precision" = None end /\
    match p_kind p with
    | KText => exists o, diff_lists (p_val p "vocab") (p_val q "vocab") = Ok o /\ dget d "vocab" = Some (TOut o)
    | _ => dget d "vocab" = None end /\ dget d "format" = None /\ (forall k, dmem d k = true <-> In k (shown (p_kind p))).
  Proof.
    unfold DiffReportModel.prim_diff. intros H Hk. destruct (p_kind p); [congruence| | |].
    - destruct (numeric_inv p q d H) as [K [H1 [H2 [H3 H4]]]]. split; [exact H1|]. split; [exact H2|]. split; [exact H3|]. split; [exact H4|].
      split; [apply dget_None; rewrite K; cbn; intuition discriminate|]. split; [apply dget_None; rewrite K; cbn; intuition discriminate|]. split; [apply dget_None; rewrite K; cbn; intuition discriminate|].
      intro k. rewrite dmem_true, K. reflexivity.
    - destruct (numeric_diff ttest psi p q) as [d0|] eqn:E; cbn [bind] in H; [|discriminate]. destruct (collect _) as [e|] eqn:Ee; cbn [bind] in H; [|discriminate]. apply Ok_inj in H. subst d.
      destruct (numeric_inv p q d0 E) as [K [H1 [H2 [H3 H4]]]]. split; [|split; [|split; [|split; [|split; [|split; [|split]]]]]].
      + intros s n Hn. destruct (H1 s n Hn) as [o [Ho Hd]]. exists o. split; [exact Ho|]. rewrite dget_dset. destruct (PyDict.eqb_spec "precision" s) as [<-|]; [|exact Hd].
        exfalso. cbn in Hn. intuition discriminate.
      + destruct H2 as [o [Ho Hd]]. exists o. split; [exact Ho|]. rewrite dget_dset. exact Hd.
      + rewrite dget_dset. exact H3.
      + rewrite dget_dset. exact H4.
      + exists e. split; [reflexivity|]. rewrite dget_dset. reflexivity.
      + rewrite dget_dset. apply dget_None. rewrite K. cbn. intuition discriminate.
      + rewrite dget_dset. apply dget_None. rewrite K. cbn. intuition discriminate.
      + intro k. rewrite dmem_true, In_dkeys_dset, K. cbn. intuition.
    - destruct (numeric_diff ttest psi p q) as [d0|] eqn:E; cbn [bind] in H; [|discriminate]. destruct (diff_lists (p_val p "vocab") _) as [ov|] eqn:Ev; cbn [bind] in H; [|discriminate]. apply Ok_inj in H. subst d.
      destruct (numeric_inv p q d0 E) as [K [H1 [H2 [H3 H4]]]].
      assert (ND : NoDup (dkeys d0)). { rewrite K. cbn. repeat (constructor; [cbn; intuition discriminate|]). constructor. }
      assert (Hg : forall k, k <> "psi" -> k <> "vocab" -> dget (dset (ddel d0 "psi") "vocab" (TOut ov)) k = dget d0 k).
      { intros k N1 N2. rewrite dget_dset, (dget_ddel d0 "psi" k ND). destruct (PyDict.eqb_spec "vocab" k); [congruence|]. destruct (PyDict.eqb_spec "psi" k); [congruence|reflexivity]. }
      split; [|split; [|split; [|split; [|split; [|split; [|split]]]]]].
      + intros s n Hn. destruct (H1 s n Hn) as [o [Ho Hd]]. exists o. split; [exact Ho|]. rewrite Hg; [exact Hd|..]; intros ->; cbn in Hn; intuition discriminate.
      + destruct H2 as [o [Ho Hd]]. exists o. split; [exact Ho|]. rewrite Hg by discriminate. exact Hd.
      + rewrite Hg by discriminate. exact H3.
      + rewrite dget_dset, (dget_ddel d0 "psi" "psi" ND). reflexivity.
      + rewrite Hg by discriminate. apply dget_None. rewrite K. cbn. intuition discriminate.
      + exists ov. split; [reflexivity|]. rewrite dget_dset. reflexivity.
      + rewrite Hg by discriminate. apply dget_None. rewrite K. cbn. intuition discriminate.
      + intro k. unfold dmem. rewrite dget_dset, (dget_ddel d0 "psi" k ND). destruct (PyDict.eqb_spec "vocab" k) as [<-|N1]; [cbn; tauto|].
        destruct (PyDict.eqb_spec "psi" k) as [<-|N2]; [split; [discriminate|cbn; intuition discriminate]|].
        change (match dget d0 k with Some _ => true | None => false end) with (dmem d0 k). rewrite dmem_true, K. cbn. intuition congruence.
  Qed.
  Lemma date_inv p q d : prim_diff p q = Ok d -> p_kind p = KDate -> exists o1 o2 o3,
    diff_dates (p_val p "min") (p_val q "min") = Ok o1 /\ diff_dates (p_val p "max") (p_val q "max") = Ok o2 /\ diff_lists (p_val p "format") (p_val q "format") = Ok o3 /\
    d = [("min", TOut o1); ("max", TOut o2); ("format", TOut o3)].
  Proof.
    unfold DiffReportModel.prim_diff. intros H Hk. rewrite Hk in H. cbn [collect] in H.
    destruct (diff_dates (p_val p "min") _) as [o1|]; cbn [bind] in H; [|discriminate]. destruct (diff_dates _ _) as [o2|]; cbn [bind] in H; [|discriminate].
    destruct (diff_lists _ _) as [o3|]; cbn [bind] in H; [|discriminate]. apply Ok_inj in H. subst d. exists o1, o2, o3. auto.
  Qed.
  Lemma prim_keys a b ps k v : prim_layer ttest psi a b ps -> dget ps k = Some v -> In k prim_names.
  Proof.
    unfold prim_layer. destruct (same_type _ _) as [[p q]|]; [|intros ->; discriminate]. intros H Hk.
    destruct (p_kind p) eqn:Ek.
    - destruct (date_inv p q ps H Ek) as [o1 [o2 [o3 [_ [_ [_ ->]]]]]]. apply dget_Some_In in Hk. apply (in_map fst) in Hk. cbn in Hk |- *. tauto.
    - destruct (prim_inv p q ps H) as [_ [_ [_ [_ [_ [_ [_ M]]]]]]]; [congruence|]. assert (D : dmem ps k = true) by (unfold dmem; rewrite Hk; reflexivity). apply M in D. rewrite Ek in D. cbn in D |- *. tauto.
    - destruct (prim_inv p q ps H) as [_ [_ [_ [_ [_ [_ [_ M]]]]]]]; [congruence|]. assert (D : dmem ps k = true) by (unfold dmem; rewrite Hk; reflexivity). apply M in D. rewrite Ek in D. cbn in D |- *. tauto.
    - destruct (prim_inv p q ps H) as [_ [_ [_ [_ [_ [_ [_ M]]]]]]]; [congruence|]. assert (D : dmem ps k = true) by (unfold dmem; rewrite Hk; reflexivity). apply M in D. rewrite Ek in D. cbn in D |- *. tauto.
  Qed.

  Lemma no_base a b bs k : base_layer a b bs -> ~ In k base_names -> dget bs k = None.
  Proof. intros H Hk. apply dget_None. rewrite (base_keys a b bs H). exact Hk. Qed.
  Lemma no_lab a b ls k : lab_layer a b ls -> ~ In k lab_names -> dget ls k = None.
  Proof. intros H Hk. apply dget_None. rewrite (lab_keys a b ls H). destruct (f_label a) as [[x|]|]; [destruct (f_label b) as [[y|]|]|..]; auto. Qed.
  Lemma no_cat a b cs k : cat_layer chi2 cat_psi order by_count a b cs -> ~ In k cat_names -> dget cs k = None.
  Proof. intros H Hk. destruct (dget cs k) as [v|] eqn:E; [|reflexivity]. contradiction (Hk (cat_keys a b cs k v H E)). Qed.
  Lemma no_prim a b ps k : prim_layer ttest psi a b ps -> ~ In k prim_names -> dget ps k = None.
  Proof. intros H Hk. destruct (dget ps k) as [v|] eqn:E; [|reflexivity]. contradiction (Hk (prim_keys a b ps k v H E)). Qed.
  Ltac not_in := cbn; intuition discriminate.

  (** C88. Sizes and missing values *)
  Theorem C88_base : forall a b r, col_diff a b = Ok r ->
    (forall n, In n ["sample_size"; "null_count"; "null_ratio"] -> exists o, diff_numbers (f_base a n) (f_base b n) = Ok o /\ stat r n = Some (TOut o)) /\
    stat r "null_types" = Some (TOut (diff_two_lists (f_null_types a) (f_null_types b))) /\
    (exists o, diff_parts (Some (f_null_index a)) (Some (f_null_index b)) = Ok o /\ stat r "null_types_index" = Some (TOut o)).
  Proof.
    intros a b r H. destruct (stat_layers a b r H) as [ps [cs [ls [bs [rep [_ [_ [_ [Hb [_ Hs]]]]]]]]]].
    unfold base_layer in Hb. apply collect_ok in Hb. destruct Hb as [_ [G _]].
    assert (Hg : forall k x, k <> "data_type_representation" -> dget [("sample_size", diff_numbers (f_base a "sample_size") (f_base b "sample_size"));
             ("null_count", diff_numbers (f_base a "null_count") (f_base b "null_count")); ("null_ratio", diff_numbers (f_base a "null_ratio") (f_base b "null_ratio"));
             ("null_types", diff_lists (VList (f_null_types a)) (VList (f_null_types b)));
             ("null_types_index", diff_parts (Some (f_null_index a)) (Some (f_null_index b)))] k = Some x -> exists o, x = Ok o /\ stat r k = Some (TOut o)).
    { intros k x N Hk. destruct (G k x Hk) as [o [H1 H2]]. exists o. split; [exact H1|]. rewrite Hs, H2. destruct (String.eqb_spec k "data_type_representation"); [congruence|]. rewrite Bool.andb_false_r. reflexivity. }
    split; [|split].
    - intros n Hn. cbn in Hn. destruct Hn as [<-|[<-|[<-|[]]]]; apply Hg; (discriminate || reflexivity).
    - destruct (Hg "null_types" _ ltac:(discriminate) eq_refl) as [o [H1 H2]]. rewrite H2. cbn in H1. injection H1 as <-. reflexivity.
    - apply Hg; [discriminate|reflexivity].
  Qed.

  Lemma prim_stat a b r p q d k v : col_diff a b = Ok r -> chosen (f_prims a) p -> chosen (f_prims b) q -> p_kind p = p_kind q -> prim_diff p q = Ok d ->
    dget d k = Some v -> k <> "psi" -> stat r k = Some v.
  Proof.
    intros H Hp Hq Hk Hd Hv Np. destruct (stat_layers a b r H) as [ps [cs [ls [bs [rep [H1 [H2 [H3 [H4 [_ Hs]]]]]]]]]].
    assert (E : ps = d). { unfold prim_layer in H1. rewrite (proj2 (same_type_some _ _ p q)) in H1 by auto. congruence. } subst ps.
    pose proof (prim_keys a b d k v H1 Hv) as Hi. rewrite Hs.
    assert (T : String.eqb k "data_type_representation" = false) by (apply String.eqb_neq; intros ->; cbn in Hi; intuition discriminate). rewrite T, Bool.andb_false_r.
    rewrite (no_base a b bs k H4), (no_lab a b ls k H3), (no_cat a b cs k H2); [exact Hv|..]; intro Hx; cbn in Hi, Hx; intuition (subst; congruence).
  Qed.
  Lemma prim_exists a b r p q : col_diff a b = Ok r -> chosen (f_prims a) p -> chosen (f_prims b) q -> p_kind p = p_kind q -> exists d, prim_diff p q = Ok d.
  Proof.
    intros H Hp Hq Hk. destruct (stat_layers a b r H) as [ps [cs [ls [bs [rep [H1 _]]]]]]. unfold prim_layer in H1. rewrite (proj2 (same_type_some _ _ p q)) in H1 by auto. eauto.
  Qed.

  (** C88. Columns of whole numbers, numbers or texts (then of lengths): the statistics compared one by one *)
  Theorem C88_numeric : forall a b r p q, col_diff a b = Ok r -> chosen (f_prims a) p -> chosen (f_prims b) q -> p_kind p = p_kind q -> p_kind p <> KDate ->
    (forall s n, In (s, n) statistics -> exists o, diff_numbers (p_val p n) (p_val q n) = Ok o /\ stat r s = Some (TOut o)) /\
    (exists o, diff_lists (p_val p "mode") (p_val q "mode") = Ok o /\ stat r "mode" = Some (TOut o)) /\
    stat r "t-test" = Some (TTest (ttest p q)).
  Proof.
    intros a b r p q H Hp Hq Hk Nd. destruct (prim_exists a b r p q H Hp Hq Hk) as [d Hd]. pose proof (prim_stat a b r p q d) as S.
    destruct (prim_inv p q d Hd Nd) as [H1 [[o [Ho Hm]] [H3 _]]]. split; [|split].
    - intros s n Hn. destruct (H1 s n Hn) as [o' [Ho' Hs']]. exists o'. split; [exact Ho'|]. apply (S s _ H Hp Hq Hk Hd Hs'). intros ->. cbn in Hn. intuition discriminate.
    - exists o. split; [exact Ho|]. apply (S _ _ H Hp Hq Hk Hd Hm). discriminate.
    - apply (S _ _ H Hp Hq Hk Hd H3). discriminate.
  Qed.
  (** C88. The precision of numbers, all but the level of confidence; the characters of texts; dates *)
  Theorem C88_special : forall a b r p q, col_diff a b = Ok r -> chosen (f_prims a) p -> chosen (f_prims b) q -> p_kind p = p_kind q ->
    (p_kind p = KFloat -> exists d, stat r "precision" = Some (TNode d) /\ dkeys d = ["min"; "max"; "mean"; "var"; "std"; "sample_size"; "margin_of_error"] /\
       forall n, In n (dkeys d) -> exists o, diff_numbers (p_prec p n) (p_prec q n) = Ok o /\ dget d n = Some (TOut o)) /\
    (p_kind p = KText -> exists o, diff_lists (p_val p "vocab") (p_val q "vocab") = Ok o /\ stat r "vocab" = Some (TOut o)) /\
    (p_kind p = KDate -> exists o1 o2 o3, diff_dates (p_val p "min") (p_val q "min") = Ok o1 /\ stat r "min" = Some (TOut o1) /\
       diff_dates (p_val p "max") (p_val q "max") = Ok o2 /\ stat r "max" = Some (TOut o2) /\ diff_lists (p_val p "format") (p_val q "format") = Ok o3 /\ stat r "format" = Some (TOut o3)).
  Proof.
    intros a b r p q H Hp Hq Hk. destruct (prim_exists a b r p q H Hp Hq Hk) as [d Hd]. pose proof (fun k v => prim_stat a b r p q d k v H Hp Hq Hk Hd) as S. split; [|split]; intro K.
    - destruct (prim_inv p q d Hd) as [_ [_ [_ [_ [HF _]]]]]; [congruence|]. rewrite K in HF. destruct HF as [e [He Hs]]. exists (ddel e "confidence_level").
      split; [apply (S _ _ Hs); discriminate|]. apply collect_ok in He. destruct He as [Ke [Ge _]]. rewrite map_map in Ke. cbn [fst] in Ke. rewrite map_id in Ke.
      assert (ND : NoDup (dkeys e)). { rewrite Ke. cbn. repeat (constructor; [cbn; intuition discriminate|]). constructor. }
      assert (KD : dkeys (ddel e "confidence_level") = ["min"; "max"; "mean"; "var"; "std"; "sample_size"; "margin_of_error"]).
      { clear -Ke. unfold precision_keys in Ke. repeat (destruct e as [|[? ?] e]; cbn in Ke; try discriminate; injection Ke as -> Ke); destruct e; [|discriminate]. reflexivity. }
      split; [exact KD|]. intros n Hn. rewrite KD in Hn. rewrite (dget_ddel e _ n ND).
      assert (Nc : PyDict.eqb "confidence_level" n = false) by (apply PyDict.eqb_neq; intros <-; cbn in Hn; intuition discriminate). rewrite Nc.
      destruct (Ge n (diff_numbers (p_prec p n) (p_prec q n))) as [o [H1 H2]]; [|exists o; split; [exact H1|exact H2]].
      cbn in Hn. intuition (subst; reflexivity).
    - destruct (prim_inv p q d Hd) as [_ [_ [_ [_ [_ [HV _]]]]]]; [congruence|]. rewrite K in HV. destruct HV as [o [Ho Hs]]. exists o. split; [exact Ho|]. apply (S _ _ Hs). discriminate.
    - destruct (date_inv p q d Hd K) as [o1 [o2 [o3 [H1 [H2 [H3 ->]]]]]]. exists o1, o2, o3. split; [exact H1|]. split; [apply S; [reflexivity|discriminate]|]. split; [exact H2|].
      split; [apply S; [reflexivity|discriminate]|]. split; [exact H3|]. apply S; [reflexivity|discriminate].
  Qed.

  Lemma cat_stat a b r x y cs k v : col_diff a b = Ok r -> f_cat a = Some x -> f_cat b = Some y -> (exists m, cat_diff x y = Ok [("categorical", m); ("statistics", TNode cs)]) ->
    dget cs k = Some v -> stat r k = Some v.
  Proof.
    intros H Hx Hy [m Hm] Hv. destruct (stat_layers a b r H) as [ps [cs' [ls [bs [rep [H1 [H2 [H3 [H4 [_ Hs]]]]]]]]]].
    assert (E : cs' = cs). { unfold cat_layer in H2. rewrite Hx, Hy in H2. destruct H2 as [m' H2]. congruence. } subst cs'.
    pose proof (cat_keys a b cs k v H2 Hv) as Hi. rewrite Hs.
    assert (T : String.eqb k "data_type_representation" = false) by (apply String.eqb_neq; intros ->; cbn in Hi; intuition discriminate). rewrite T, Bool.andb_false_r.
    rewrite (no_base a b bs k H4), (no_lab a b ls k H3), Hv; [reflexivity|..]; intro Hz; cbn in Hi, Hz; intuition (subst; congruence).
  Qed.
  Lemma cat_exists a b r x y : col_diff a b = Ok r -> f_cat a = Some x -> f_cat b = Some y -> exists cs m, cat_diff x y = Ok [("categorical", m); ("statistics", TNode cs)].
  Proof. intros H Hx Hy. destruct (stat_layers a b r H) as [ps [cs [ls [bs [rep [_ [H2 _]]]]]]]. unfold cat_layer in H2. rewrite Hx, Hy in H2. eauto. Qed.

  Definition count (x : cat) (k : atom) : Z := match dget (c_counts x) k with Some c => c | None => 0%Z end.
  (** C88. Profiles of categories: numbers of different values always, the rest only if both are categorical; of the counts one
      entry for each category of either, missing ones counted as 0 *)
  Theorem C88_categories : forall a b r x y, col_diff a b = Ok r -> f_cat a = Some x -> f_cat b = Some y ->
    (forall n, In n ["unique_count"; "unique_ratio"] -> exists o, diff_numbers (c_val x n) (c_val y n) = Ok o /\ stat r n = Some (TOut o)) /\
    (c_match x = true -> c_match y = true ->
       stat r "chi2-test" = Some (TTest (chi2 x y)) /\
       (exists o, diff_lists (c_val x "categories") (c_val y "categories") = Ok o /\ stat r "categories" = Some (TOut o)) /\
       (forall n, In n ["gini_impurity"; "unalikeability"] -> exists o, diff_numbers (c_val x n) (c_val y n) = Ok o /\ stat r n = Some (TOut o)) /\
       (NoDup (dkeys (c_counts x)) -> NoDup (dkeys (c_counts y)) ->
        exists o, stat r "categorical_count" = Some (TOut o) /\
         ((c_counts x = [] /\ c_counts y = [] /\ o = Unchanged) \/
          exists d, o = ODict d /\ forall k, dget d k =
            if (dmem (c_counts x) k || dmem (c_counts y) k)%bool
            then Some (if (count x k =? count y k)%Z then Unchanged else ONum (Some (inject_Z (count x k) - inject_Z (count y k))%Q)) else None))) /\
    ((c_match x = false \/ c_match y = false) -> forall k, In k ["chi2-test"; "categories"; "gini_impurity"; "unalikeability"; "categorical_count"] -> stat r k = None).
  Proof.
    intros a b r x y H Hx Hy. destruct (cat_exists a b r x y H Hx Hy) as [cs [m Hm]]. pose proof (fun k v => cat_stat a b r x y cs k v H Hx Hy (ex_intro _ m Hm)) as S.
    destruct (cat_inv x y cs m Hm) as [o1 [o2 [E1 [E2 Hr]]]]. split; [|split].
    - intros n Hn. cbn in Hn. destruct Hn as [<-|[<-|[]]]; [exists o1; split; [exact E1|]|exists o2; split; [exact E2|]]; apply S;
        (destruct (c_match x && c_match y)%bool; [destruct Hr as [o3 [o4 [o5 [n [_ [_ [_ [_ ->]]]]]]]]; reflexivity|subst cs; reflexivity]).
    - intros Mx My. rewrite Mx, My in Hr. cbn [andb] in Hr. destruct Hr as [o3 [o4 [o5 [n [E3 [E4 [E5 [En ->]]]]]]]].
      split; [apply S; reflexivity|]. split; [exists o3; split; [exact E3|apply S; reflexivity]|]. split.
      + intros k Hk. cbn in Hk. destruct Hk as [<-|[<-|[]]]; [exists o4|exists o5]; (split; [assumption|apply S; reflexivity]).
      + intros N1 N2. exists n. split; [apply S; destruct (cat_psi x y); reflexivity|].
        set (ks := order (distinct (dkeys (c_counts x) ++ dkeys (c_counts y)))) in *.
        assert (HK : forall k, In k ks <-> In k (dkeys (c_counts x)) \/ In k (dkeys (c_counts y))).
        { intro k. unfold ks. rewrite <- in_app_iff, <- (distinct_In k (dkeys (c_counts x) ++ dkeys (c_counts y))). split; apply Permutation_in; [apply order_perm|apply Permutation_sym, order_perm]. }
        assert (HP : forall z, NoDup (dkeys (c_counts z)) -> NoDup (dkeys (by_count (c_counts z))) /\ forall k, dget (by_count (c_counts z)) k = dget (c_counts z) k).
        { intros z Nz. assert (Np : NoDup (dkeys (by_count (c_counts z)))) by (apply (Permutation_NoDup (Permutation_map fst (Permutation_sym (count_perm (c_counts z))))); exact Nz).
          split; [exact Np|]. intro k. destruct (dget (c_counts z) k) as [c|] eqn:E.
          - apply dget_In; [exact Np|]. apply (Permutation_in _ (Permutation_sym (count_perm _))). apply dget_Some_In. exact E.
          - apply dget_None. intro Hk. apply dget_None in E. apply E. exact (Permutation_in _ (Permutation_map fst (count_perm (c_counts z))) Hk). }
        assert (HG : forall z k, NoDup (dkeys (c_counts z)) -> (forall k, In k (dkeys (c_counts z)) -> In k ks) ->
          dget (counts_val (fill ks (by_count (c_counts z)))) k = if lmem ks k then Some (VNum (Some (inject_Z (count z k)))) else None).
        { intros z k Nz Hz. assert (Hm' : forall d, dget (counts_val d) k = match dget d k with Some c => Some (VNum (Some (inject_Z c))) | None => None end).
          { induction d as [|[k' c] d IH]; [reflexivity|]. cbn [counts_val map fst snd dget]. destruct (PyDict.eqb k' k); [reflexivity|exact IH]. }
          rewrite Hm', fill_get, (proj2 (HP z Nz)). unfold count. destruct (dget (c_counts z) k) as [c|] eqn:E.
          - assert (L : lmem ks k = true) by (apply lmem_In, Hz; apply dget_Some_In in E; apply (in_map fst) in E; exact E). rewrite L. reflexivity.
          - destruct (lmem ks k); reflexivity. }
        assert (NV : forall z, NoDup (dkeys (c_counts z)) -> NoDup (dkeys (counts_val (fill ks (by_count (c_counts z)))))).
        { intros z Nz. unfold counts_val, dkeys. rewrite map_map. cbn [fst]. apply fill_NoDup. exact (proj1 (HP z Nz)). }
        destruct (C25_dict_entries _ _ _ (NV x N1) (NV y N2) En) as [[Z1 [Z2 ->]]|[d [-> [_ G]]]].
        * left. assert (Z : forall z, NoDup (dkeys (c_counts z)) -> counts_val (fill ks (by_count (c_counts z))) = [] -> c_counts z = []).
          { intros z Nz Ez. destruct (c_counts z) as [|[k c] l] eqn:El; [reflexivity|]. exfalso. rewrite <- El in Nz, Ez. apply map_eq_nil in Ez.
            assert (Ek : dget (fill ks (by_count (c_counts z))) k = Some c). { rewrite fill_get, (proj2 (HP z Nz)), El. cbn [dget]. rewrite PyDict.eqb_refl. reflexivity. }
            rewrite Ez in Ek. discriminate. }
          auto.
        * right. exists d. split; [reflexivity|]. intro k. specialize (G k). rewrite (HG x k N1), (HG y k N2) in G by (intros k' Hk'; apply HK; auto).
          destruct (dmem (c_counts x) k || dmem (c_counts y) k)%bool eqn:Ed.
          -- assert (L : lmem ks k = true). { apply lmem_In, HK. apply Bool.orb_true_iff in Ed. rewrite !dmem_true in Ed. exact Ed. } rewrite L in G. destruct G as [o [Go Gd]]. rewrite Go. f_equal.
             cbn [diff_val diff_numbers py_eq num_of] in Gd. unfold diff_numbers in Gd. cbn [py_eq num_of nsub] in Gd.
             destruct (Z.eqb_spec (count x k) (count y k)) as [Ec|N].
             ++ rewrite Ec in Gd. rewrite (proj2 (Qeq_bool_iff _ _) (Qeq_refl _)) in Gd. congruence.
             ++ destruct (Qeq_bool (inject_Z (count x k)) (inject_Z (count y k))) eqn:Eq; [|congruence]. apply Qeq_bool_iff in Eq. exfalso; exact (N (proj1 (inject_Z_injective _ _) Eq)).
          -- assert (L : lmem ks k = false). { apply lmem_false. rewrite HK, <- !dmem_true. apply Bool.orb_false_iff in Ed. destruct Ed as [-> ->]. intuition discriminate. } rewrite L in G. exact G.
    - intros Hf k Hk. assert (Mf : (c_match x && c_match y)%bool = false) by (destruct Hf as [-> | ->]; [reflexivity|apply Bool.andb_false_r]). rewrite Mf in Hr. subst cs.
      destruct (stat_layers a b r H) as [ps [cs' [ls [bs [rep [H1 [H2 [H3 [H4 [_ Hs]]]]]]]]]].
      assert (E : cs' = [("unique_count", TOut o1); ("unique_ratio", TOut o2)]). { unfold cat_layer in H2. rewrite Hx, Hy in H2. destruct H2 as [m' H2]. congruence. } subst cs'. rewrite Hs.
      assert (T : String.eqb k "data_type_representation" = false) by (apply String.eqb_neq; intros ->; cbn in Hk; intuition discriminate). rewrite T, Bool.andb_false_r.
      rewrite (no_base a b bs k H4), (no_lab a b ls k H3), (no_prim a b ps k H1); [cbn in Hk; intuition (subst; reflexivity)|..]; intro Hz; cbn in Hk, Hz; intuition (subst; congruence).
  Qed.

  (** C88. psi: that of the categories if both are categorical and there is one, else that of the numbers *)
  Theorem C88_psi : forall a b r, col_diff a b = Ok r ->
    (forall x y z, f_cat a = Some x -> f_cat b = Some y -> c_match x = true -> c_match y = true -> cat_psi x y = Some z -> stat r "psi" = Some (TTest z)) /\
    ((forall x y, f_cat a = Some x -> f_cat b = Some y -> c_match x = false \/ c_match y = false \/ cat_psi x y = None) ->
     (forall p q, chosen (f_prims a) p -> chosen (f_prims b) q -> p_kind p = p_kind q -> p_kind p = KInt \/ p_kind p = KFloat -> stat r "psi" = Some (TTest (psi p q))) /\
     ((~ exists p q, chosen (f_prims a) p /\ chosen (f_prims b) q /\ p_kind p = p_kind q /\ (p_kind p = KInt \/ p_kind p = KFloat)) -> stat r "psi" = None)).
  Proof.
    intros a b r H. split.
    - intros x y z Hx Hy Mx My Hz. destruct (cat_exists a b r x y H Hx Hy) as [cs [m Hm]]. apply (cat_stat a b r x y cs _ _ H Hx Hy (ex_intro _ m Hm)).
      destruct (cat_inv x y cs m Hm) as [o1 [o2 [_ [_ Hr]]]]. rewrite Mx, My in Hr. cbn [andb] in Hr. destruct Hr as [o3 [o4 [o5 [n [_ [_ [_ [_ ->]]]]]]]]. rewrite Hz. reflexivity.
    - intro Hno. destruct (stat_layers a b r H) as [ps [cs [ls [bs [rep [H1 [H2 [H3 [H4 [_ Hs]]]]]]]]]].
      assert (Hc : dget cs "psi" = None).
      { unfold cat_layer in H2. destruct (f_cat a) as [x|]; [destruct (f_cat b) as [y|]|]; [|subst cs; reflexivity..]. destruct H2 as [m Hm].
        destruct (cat_inv x y cs m Hm) as [o1 [o2 [_ [_ Hr]]]]. specialize (Hno x y eq_refl eq_refl). destruct (c_match x && c_match y)%bool eqn:Em; [|subst cs; reflexivity].
        apply Bool.andb_true_iff in Em. destruct Hr as [o3 [o4 [o5 [n [_ [_ [_ [_ ->]]]]]]]]. destruct Hno as [Hn|[Hn|Hn]]; [destruct Em; congruence..|]. rewrite Hn. reflexivity. }
      assert (Hq : stat r "psi" = dget ps "psi").
      { rewrite Hs. rewrite Bool.andb_false_r, (no_base a b bs "psi" H4), (no_lab a b ls "psi" H3), Hc by not_in. reflexivity. }
      split.
      + intros p q Hp Hq' Hk Hkind. unfold prim_layer in H1. rewrite (proj2 (same_type_some _ _ p q)) in H1 by auto.
        destruct (prim_inv p q ps H1) as [_ [_ [_ [Hpsi _]]]]; [destruct Hkind; congruence|]. rewrite Hq, Hpsi. destruct Hkind as [-> | ->]; reflexivity.
      + intro Hn. rewrite Hq. unfold prim_layer in H1. destruct (same_type (f_prims a) (f_prims b)) as [[p q]|] eqn:E; [|subst ps; reflexivity]. apply same_type_some in E. destruct E as [Hp [Hq' Hk]].
        destruct (p_kind p) eqn:Ek; [destruct (date_inv p q ps H1 Ek) as [? [? [? [_ [_ [_ ->]]]]]]; reflexivity| | |].
        * exfalso. apply Hn. exists p, q. rewrite Ek. auto.
        * exfalso. apply Hn. exists p, q. rewrite Ek. auto.
        * destruct (prim_inv p q ps H1) as [_ [_ [_ [Hpsi _]]]]; [congruence|]. rewrite Hpsi, Ek. reflexivity.
  Qed.

  (** C88. Labels *)
  Theorem C88_labels : forall a b r x y, col_diff a b = Ok r -> f_label a = Some (Some x) -> f_label b = Some (Some y) ->
    (exists o, diff_dicts (l_avg x) (l_avg y) = Ok o /\ stat r "avg_predictions" = Some (TOut o)) /\
    (exists o, diff_dicts (l_rep x) (l_rep y) = Ok o /\ stat r "label_representation" = Some (TOut o)).
  Proof.
    intros a b r x y H Hx Hy. destruct (stat_layers a b r H) as [ps [cs [ls [bs [rep [_ [_ [H3 [H4 [_ Hs]]]]]]]]]].
    pose proof H3 as H3'. unfold lab_layer in H3'. rewrite Hx, Hy in H3'. apply collect_ok in H3'. destruct H3' as [_ [G _]].
    split; [destruct (G "avg_predictions" _ eq_refl) as [o [E1 E2]]|destruct (G "label_representation" _ eq_refl) as [o [E1 E2]]]; exists o; (split; [exact E1|]);
      rewrite Hs, Bool.andb_false_r, (no_base a b bs _ H4), E2 by not_in; reflexivity.
  Qed.

  (** C88. The share of values of each type, if one of the columns has a type *)
  Theorem C88_representation : forall a b r, col_diff a b = Ok r -> NoDup (map p_kind (f_prims a)) -> NoDup (map p_kind (f_prims b)) ->
    ((forall p, ~ chosen (f_prims a) p /\ ~ chosen (f_prims b) p) -> stat r "data_type_representation" = None) /\
    ((exists p, chosen (f_prims a) p \/ chosen (f_prims b) p) -> exists rep, stat r "data_type_representation" = Some (TNode rep) /\ forall k,
       (forall p q, In p (f_prims a) -> In q (f_prims b) -> p_kind p = k -> p_kind q = k ->
          exists o, diff_numbers (ratio_val p) (ratio_val q) = Ok o /\ dget rep (kind_name k) = Some (TOut o)) /\
       (forall p, In p (f_prims a) -> p_kind p = k -> ~ In k (map p_kind (f_prims b)) -> dget rep (kind_name k) = Some (TOut (OPair (ratio_val p) VNone))) /\
       (forall q, In q (f_prims b) -> p_kind q = k -> ~ In k (map p_kind (f_prims a)) -> dget rep (kind_name k) = Some (TOut (OPair VNone (ratio_val q)))) /\
       (~ In k (map p_kind (f_prims a)) -> ~ In k (map p_kind (f_prims b)) -> dget rep (kind_name k) = None)).
  Proof.
    intros a b r H Na Nb. destruct (stat_layers a b r H) as [ps [cs [ls [bs [rep [H1 [H2 [H3 [H4 [Hr Hs]]]]]]]]]]. split.
    - intro Hn. assert (T : typed a b = false). { destruct (typed a b) eqn:E; [|reflexivity]. apply typed_true in E. destruct E as [p [E|E]]; exfalso; [exact (proj1 (Hn p) E)|exact (proj2 (Hn p) E)]. }
      rewrite Hs, T. cbn [andb]. rewrite (no_base a b bs _ H4), (no_lab a b ls _ H3), (no_cat a b cs _ H2), (no_prim a b ps _ H1) by not_in. reflexivity.
    - intro Ht. apply typed_true in Ht. exists rep. split; [rewrite Hs, Ht; reflexivity|]. intro k.
      assert (FK : forall l p, NoDup (map p_kind l) -> In p l -> p_kind p = k -> find_kind k l = Some p).
      { clear. induction l as [|x l IH]; intros p HN Hp Hk; [destruct Hp|]. inversion HN as [|? ? N1 N2]; subst. unfold find_kind. cbn [find]. destruct (kind_eqb (p_kind x) (p_kind p)) eqn:E.
        - apply kind_eqb_eq in E. destruct Hp as [->|Hp]; [reflexivity|]. exfalso. apply N1. rewrite E. apply in_map. exact Hp.
        - destruct Hp as [->|Hp]; [|exact (IH p N2 Hp eq_refl)]. exfalso. assert (kind_eqb (p_kind p) (p_kind p) = true) by (apply kind_eqb_eq; reflexivity). congruence. }
      assert (FN : forall l, ~ In k (map p_kind l) -> find_kind k l = None).
      { clear. intros l Hn. unfold find_kind. destruct (find _ l) as [x|] eqn:E; [|reflexivity]. apply find_some in E. destruct E as [E1 E2]. apply kind_eqb_eq in E2. subst k. exfalso. apply Hn, in_map. exact E1. }
      assert (GM : forall (f : prim -> result out) l, dget (map (fun p => (kind_name (p_kind p), f p)) l) (kind_name k) = match find_kind k l with Some p => Some (f p) | None => None end).
      { clear. intros f l. induction l as [|x l IH]; [reflexivity|]. cbn [map dget]. unfold find_kind. cbn [find]. destruct (PyDict.eqb_spec (kind_name (p_kind x)) (kind_name k)) as [E|E].
        - apply kind_name_inj in E. rewrite (proj2 (kind_eqb_eq _ _) E). reflexivity.
        - destruct (kind_eqb (p_kind x) k) eqn:E'; [|exact IH]. apply kind_eqb_eq in E'. subst k. congruence. }
      assert (FF : forall l g, (forall p, p_kind p = k -> g p = true) -> find_kind k (filter g l) = find_kind k l).
      { clear. intros l g Hg. induction l as [|x l IH]; [reflexivity|]. cbn [filter]. unfold find_kind in *. cbn [find]. destruct (kind_eqb (p_kind x) k) eqn:E.
        - rewrite (Hg x) by (apply kind_eqb_eq; exact E). cbn [find]. rewrite E. reflexivity.
        - destruct (g x); [cbn [find]; rewrite E|]; exact IH. }
      set (L := representation (f_prims a) (f_prims b)) in *. apply collect_ok in Hr. destruct Hr as [_ [G1 G2]].
      assert (GL : dget L (kind_name k) = match find_kind k (f_prims a) with
        | Some p => Some (match find_kind (p_kind p) (f_prims b) with Some q => diff_numbers (ratio_val p) (ratio_val q) | None => Ok (OPair (ratio_val p) VNone) end)
        | None => match find_kind k (f_prims b) with Some q => Some (Ok (OPair VNone (ratio_val q))) | None => None end end).
      { unfold L, representation. rewrite dget_app, (GM (fun p => match find_kind (p_kind p) (f_prims b) with Some q => diff_numbers (ratio_val p) (ratio_val q) | None => Ok (OPair (ratio_val p) VNone) end)).
        destruct (find_kind k (f_prims a)) as [p|] eqn:E; [reflexivity|]. rewrite (GM (fun q => Ok (OPair VNone (ratio_val q)))), FF; [reflexivity|]. intros p <-. rewrite E. reflexivity. }
      split; [|split; [|split]].
      + intros p q Hp Hq Kp Kq. rewrite (FK _ p Na Hp Kp), Kp, (FK _ q Nb Hq Kq) in GL. exact (G1 _ _ GL).
      + intros p Hp Kp Hn. rewrite (FK _ p Na Hp Kp), Kp, (FN _ Hn) in GL. destruct (G1 _ _ GL) as [o [[= <-] E]]. exact E.
      + intros q Hq Kq Hn. rewrite (FN _ Hn), (FK _ q Nb Hq Kq) in GL. destruct (G1 _ _ GL) as [o [[= <-] E]]. exact E.
      + intros Hn1 Hn2. rewrite (FN _ Hn1), (FN _ Hn2) in GL. exact (G2 _ GL).
  Qed.

  (** C88. Nothing else is shown *)
  Theorem C88_only : forall a b r k, col_diff a b = Ok r -> stat r k <> None ->
    k = "data_type_representation" \/ In k ["sample_size"; "null_count"; "null_ratio"; "null_types"; "null_types_index"] \/
    (In k ["avg_predictions"; "label_representation"] /\ exists x y, f_label a = Some (Some x) /\ f_label b = Some (Some y)) \/
    (In k ["unique_count"; "unique_ratio"; "chi2-test"; "categories"; "gini_impurity"; "unalikeability"; "psi"; "categorical_count"] /\ f_cat a <> None /\ f_cat b <> None) \/
    (exists p q, chosen (f_prims a) p /\ chosen (f_prims b) q /\ p_kind p = p_kind q /\ In k (shown (p_kind p))).
  Proof.
    intros a b r k H Hk. destruct (stat_layers a b r H) as [ps [cs [ls [bs [rep [H1 [H2 [H3 [H4 [_ Hs]]]]]]]]]]. rewrite Hs in Hk.
    destruct (String.eqb_spec k "data_type_representation") as [->|N]; [left; reflexivity|]. right. rewrite Bool.andb_false_r in Hk.
    destruct (dget bs k) as [v|] eqn:Eb. { left. rewrite <- (base_keys a b bs H4 : _ = ["sample_size"; "null_count"; "null_ratio"; "null_types"; "null_types_index"]). apply dget_Some_In in Eb. exact (in_map fst _ _ Eb). }
    right. destruct (dget ls k) as [v|] eqn:El.
    { left. apply dget_Some_In in El. apply (in_map fst) in El. cbn [fst] in El. change (map fst ls) with (dkeys ls) in El. rewrite (lab_keys a b ls H3) in El.
      destruct (f_label a) as [[x|]|]; [destruct (f_label b) as [[y|]|]|..]; try destruct El. all: split; [cbn in *; tauto|eauto]. }
    right. destruct (dget cs k) as [v|] eqn:Ec.
    { left. split; [exact (cat_keys a b cs k v H2 Ec)|]. unfold cat_layer in H2. destruct (f_cat a), (f_cat b); try (subst cs; discriminate). split; discriminate. }
    right. destruct (dget ps k) as [v|] eqn:Ep; [|congruence]. unfold prim_layer in H1. destruct (same_type (f_prims a) (f_prims b)) as [[p q]|] eqn:E; [|subst ps; discriminate].
    apply same_type_some in E. destruct E as [Hp [Hq Hkind]]. exists p, q. split; [exact Hp|]. split; [exact Hq|]. split; [exact Hkind|]. destruct (p_kind p) eqn:Ek.
    - destruct (date_inv p q ps H1 Ek) as [? [? [? [_ [_ [_ ->]]]]]]. apply dget_Some_In in Ep. apply (in_map fst) in Ep. cbn in Ep |- *. tauto.
    - destruct (prim_inv p q ps H1) as [_ [_ [_ [_ [_ [_ [_ M]]]]]]]; [congruence|]. rewrite <- Ek. apply M. unfold dmem. rewrite Ep. reflexivity.
    - destruct (prim_inv p q ps H1) as [_ [_ [_ [_ [_ [_ [_ M]]]]]]]; [congruence|]. rewrite <- Ek. apply M. unfold dmem. rewrite Ep. reflexivity.
    - destruct (prim_inv p q ps H1) as [_ [_ [_ [_ [_ [_ [_ M]]]]]]]; [congruence|]. rewrite <- Ek. apply M. unfold dmem. rewrite Ep. reflexivity.
  Qed.

  (** C88. A KeyError exactly if nothing that both have shows statistics: neither a common type nor profiles of categories in both
      nor labels in both *)
  Theorem C88_error : forall a b, col_diff a b = Err KeyError <->
    (~ exists p q, chosen (f_prims a) p /\ chosen (f_prims b) q /\ p_kind p = p_kind q) /\ (f_cat a = None \/ f_cat b = None) /\
    (~ exists x y, f_label a = Some (Some x) /\ f_label b = Some (Some y)).
  Proof.
    intros a b. rewrite <- same_type_none. split.
    - intro H. destruct (DiffReportProofs.col_diff_err ttest psi chi2 cat_psi order by_count a b _ H) as [E|[_ E]]; [discriminate|exact E].
    - intros [H1 [H2 H3]]. apply no_statistics; assumption.
  Qed.
End C88.
