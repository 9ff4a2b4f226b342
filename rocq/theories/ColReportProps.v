(** C56: the report of a column, and what remove_disabled_flag leaves of it *)
From Coq Require Import ZArith QArith.
From Verif Require Import PyCommon PyDict PyString CmsProps SaveProps JsonSaveProps ColReportModel.
Local Open Scope nat_scope.
Local Open Scope string_scope.
Local Open Scope list_scope.

(** Spec: the type reported is the first all of whose values match. *)
Definition all_match (p : prim) : Prop := exists q, p_ratio p = Some q /\ (q == 1)%Q.
Definition selected (ps : list prim) (sel : option prim) : Prop :=
  match sel with
  | Some p => exists l1 l2, ps = l1 ++ p :: l2 /\ Forall (fun q => ~ all_match q) l1 /\ all_match p
  | None => Forall (fun q => ~ all_match q) ps
  end.

(** Spec: the statistics of a type that are listed, in order *)
Definition listed (flag : bool) (p : prim) : list string :=
  match p_kind p, flag with
  | KDate, _ => ["min"; "max"; "histogram"; "format"; "times"]
  | KInt, _ =>
      ["min"; "max"; "mode"; "median"; "sum"; "mean"; "variance"; "stddev"; "skewness"; "kurtosis"; "histogram"; "quantiles";
       "median_abs_deviation"; "num_zeros"; "num_negatives"; "times"]
  | KFloat, false =>
      ["min"; "max"; "mode"; "median"; "sum"; "mean"; "variance"; "stddev"; "skewness"; "kurtosis"; "histogram"; "quantiles";
       "median_abs_deviation"; "num_zeros"; "num_negatives"; "times"; "precision"]
  | KFloat, true => if lmem (p_calcs p) "precision" then ["precision"] else []
  | KText, false =>
      ["min"; "max"; "mode"; "median"; "sum"; "mean"; "variance"; "stddev"; "skewness"; "kurtosis"; "histogram"; "quantiles";
       "median_abs_deviation"; "times"; "vocab"]
  | KText, true => if lmem (p_calcs p) "vocab" then ["vocab"] else []
  end.
Definition listed_value (p : prim) (k : string) : tree :=
  if String.eqb k "times" then Ref (p_times p)
  else match p_kind p with
       | KDate => if String.eqb k "histogram" then TNone else p_val p k
       | _ => p_val p k
       end.
Definition type_stats (flag : bool) (sel : option prim) : list (string * tree) :=
  match sel with Some p => map (fun k => (k, listed_value p k)) (listed flag p) | None => [] end.
Definition cat_stats (c : option cat) : list (string * tree) :=
  match c with
  | None => []
  | Some c =>
      [("unique_count", c_val c "unique_count"); ("unique_ratio", c_val c "unique_ratio")] ++
      if c_match c then [("categories", c_val c "categories"); ("gini_impurity", c_val c "gini_impurity");
                         ("unalikeability", c_val c "unalikeability"); ("categorical_count", c_val c "categorical_count")]
      else []
  end.
(** [keeps_times]: the statistics of the type bring a dictionary of times of their own *)
Definition keeps_times (flag : bool) (sel : option prim) : bool :=
  match sel with
  | Some p => match p_kind p with KDate | KInt => true | _ => negb flag end
  | None => false
  end.
Definition label_stats (flag : bool) (sel : option prim) (l : option (option lab)) : list (string * tree) :=
  match l with
  | Some (Some l) =>
      [("avg_predictions", l_val l "avg_predictions"); ("data_label_representation", l_val l "data_label_representation")] ++
      if keeps_times flag sel then [] else [("times", Ref (l_times l))]
  | _ => []
  end.
Definition base_stats (c : col) : list (string * tree) :=
  [("sample_size", f_base c "sample_size"); ("null_count", f_base c "null_count"); ("null_types", f_base c "null_types");
   ("null_types_index", f_base c "null_types_index")].
Definition ratios (ps : list prim) : list (string * tree) :=
  map (fun p => (kind_name (p_kind p), match p_ratio p with Some q => TNum q | None => TNone end)) ps.
Definition all_stats (flag : bool) (c : col) (sel : option prim) : list (string * tree) :=
  type_stats flag sel ++ cat_stats (f_cat c) ++ label_stats flag sel (f_label c) ++ base_stats c ++
  match sel with Some _ => [("data_type_representation", Node (ratios (f_prims c)))] | None => [] end.
Definition whole (flag : bool) (c : col) (sel : option prim) : list (string * tree) :=
  [("column_name", f_name c); ("data_type", match sel with Some p => TStr (kind_name (p_kind p)) | None => TNone end)] ++
  match f_label c with
  | None => []
  | Some None => [("data_label", TNone)]
  | Some (Some l) => [("data_label", l_val l "data_label")]
  end ++
  [("categorical", match f_cat c with Some k => c_val k "categorical" | None => TNone end);
   ("order", match f_order c with Some o => o_val o | None => TNone end); ("samples", f_sample c);
   ("statistics", Node (all_stats flag c sel))].
(** Spec: the times of the profiles after the report *)
Definition times_after (flag : bool) (h : heap) (c : col) (sel : option prim) (a : nat) : dict string Q :=
  match sel, f_label c with
  | Some p, Some (Some l) => if (keeps_times flag sel && (p_times p =? a))%bool then dupdate (h a) (h (l_times l)) else h a
  | _, _ => h a
  end.

Lemma matches_spec : forall p, matches p = true <-> all_match p.
Proof.
  intros p. unfold matches, all_match. destruct (p_ratio p) as [q|].
  - rewrite Qeq_bool_iff. split; [intros; exists q; auto|]. intros (r & E & Hr). injection E as ->. exact Hr.
  - split; [discriminate|]. intros (r & E & _). discriminate.
Qed.
Lemma find_selected : forall ps, selected ps (find matches ps).
Proof.
  induction ps as [|p ps IH]; cbn [find]; [constructor|].
  destruct (matches p) eqn:E.
  - exists [], ps. split; [reflexivity|]. split; [constructor|]. apply matches_spec, E.
  - assert (N : ~ all_match p) by (intros H; apply matches_spec in H; congruence).
    destruct (find matches ps) as [q|]; cbn in *.
    + destruct IH as (l1 & l2 & -> & F & A). exists (p :: l1), l2. repeat split; auto.
    + constructor; auto.
Qed.
Lemma selected_unique : forall ps a b, selected ps a -> selected ps b -> a = b.
Proof.
  assert (F : forall ps a, selected ps a -> a = find matches ps).
  { induction ps as [|p ps IH]; intros a H; cbn [find].
    - destruct a as [q|]; [|reflexivity]. destruct H as (l1 & l2 & E & _). destruct l1; discriminate.
    - destruct (matches p) eqn:E.
      + apply matches_spec in E. destruct a as [q|]; cbn in H.
        * destruct H as ([|x l1] & l2 & E2 & F & A); [injection E2 as -> ->; reflexivity|].
          injection E2 as <- _. inversion F; subst. contradiction.
        * inversion H; subst. contradiction.
      + apply IH. destruct a as [q|]; cbn in *.
        * destruct H as ([|x l1] & l2 & E2 & F & A).
          -- injection E2 as <- _. apply matches_spec in A. congruence.
          -- injection E2 as <- ->. inversion F; subst. exists l1, l2. auto.
        * inversion H; auto. }
  intros ps a b Ha Hb. rewrite (F _ _ Ha), (F _ _ Hb). reflexivity.
Qed.

Lemma kind_name_inj : forall a b, kind_name a = kind_name b -> a = b.
Proof. intros [] []; cbn; intros; (reflexivity || discriminate). Qed.

Lemma type_report_fold : forall flag ps rep dt st found,
  fst (fold_left (fun (s : dict string tree * bool) p =>
    let '(d, found) := s in
    let '(d, found) :=
      if (negb found && matches p)%bool
      then (dupdate d [("data_type", TStr (kind_name (p_kind p))); ("statistics", Node (prim_report flag p))], true)
      else (d, found) in
    let rep := match dget d "data_type_representation" with Some (Node r) => r | _ => [] end in
    (dset d "data_type_representation" (Node (dset rep (kind_name (p_kind p)) (match p_ratio p with Some q => TNum q | None => TNone end))), found))
    ps ([("data_type_representation", Node rep); ("data_type", dt); ("statistics", st)], found)) =
  let sel := if found then None else find matches ps in
  [("data_type_representation", Node (dupdate rep (ratios ps)));
   ("data_type", match sel with Some p => TStr (kind_name (p_kind p)) | None => dt end);
   ("statistics", match sel with Some p => Node (prim_report flag p) | None => st end)].
Proof.
  intros flag. induction ps as [|p ps IH]; intros rep dt st found.
  - destruct found; reflexivity.
  - cbn [fold_left find]. destruct found; cbn [negb andb].
    + cbn [dget dset]. exact (IH _ _ _ true).
    + destruct (matches p).
      * exact (IH _ _ _ true).
      * exact (IH _ _ _ false).
Qed.
Lemma ratios_dedup : forall ps r, NoDup (map p_kind ps) -> (forall p, In p ps -> dmem r (kind_name (p_kind p)) = false) ->
  dupdate r (ratios ps) = r ++ ratios ps.
Proof.
  induction ps as [|p ps IH]; intros r ND H; [symmetry; apply app_nil_r|].
  cbn [ratios map]. unfold dupdate. cbn [fold_left fst snd].
  assert (E : forall v, dset r (kind_name (p_kind p)) v = r ++ [(kind_name (p_kind p), v)]).
  { intros v. specialize (H p (or_introl eq_refl)). apply dmem_false in H. apply dset_absent, H. }
  rewrite E. cbn [map] in ND. apply NoDup_cons_iff in ND as (N & ND).
  etransitivity; [apply IH|]; [exact ND| |rewrite <- app_assoc; reflexivity].
  intros q Hq. apply dmem_false. unfold dkeys. rewrite map_app, in_app_iff. intros [I|I].
  - specialize (H q (or_intror Hq)). apply dmem_false in H. contradiction.
  - cbn in I. destruct I as [I|[]]. apply kind_name_inj in I. apply N. rewrite I. apply in_map, Hq.
Qed.
Lemma type_report_eq : forall flag ps, NoDup (map p_kind ps) ->
  type_report flag ps =
  [("data_type_representation", Node (ratios ps));
   ("data_type", match find matches ps with Some p => TStr (kind_name (p_kind p)) | None => TNone end);
   ("statistics", match find matches ps with Some p => Node (prim_report flag p) | None => Node [] end)].
Proof.
  intros flag ps ND. unfold type_report.
  etransitivity; [exact (type_report_fold flag ps [] TNone (Node []) false)|]. cbn zeta iota.
  rewrite (ratios_dedup ps [] ND) by reflexivity. reflexivity.
Qed.
Lemma ddel_filter : forall (d : dict string tree) k, NoDup (dkeys d) -> ddel d k = filter (fun kv => negb (PyDict.eqb (fst kv) k)) d.
Proof.
  induction d as [|[k' v] d IH]; intros k ND; [reflexivity|]. cbn [ddel filter fst].
  apply NoDup_cons_iff in ND as (N & ND). destruct (PyDict.eqb k' k) eqn:E; cbn [negb].
  - apply (proj1 (PyDict.eqb_eq _ _)) in E. subst k'. clear IH ND. induction d as [|[k' w] d IH]; [reflexivity|].
    cbn [filter fst]. destruct (PyDict.eqb k' k) eqn:E.
    + apply (proj1 (PyDict.eqb_eq _ _)) in E. subst k'. exfalso. apply N. left. reflexivity.
    + cbn [negb]. f_equal. apply IH. intros H. apply N. right. exact H.
  - f_equal. apply IH, ND.
Qed.
Lemma filter_filter : forall (A : Type) (f g : A -> bool) l, filter f (filter g l) = filter (fun x => (g x && f x)%bool) l.
Proof. induction l as [|x l IH]; [reflexivity|]. cbn. destruct (g x); cbn; [destruct (f x)|]; rewrite IH; reflexivity. Qed.
Lemma pop_filter : forall (on : string -> bool) ks (d : dict string tree),
  NoDup (dkeys d) -> fold_left (fun d k => if on k then d else ddel d k) ks d = filter (fun kv => (negb (lmem ks (fst kv)) || on (fst kv))%bool) d.
Proof.
  intros on. induction ks as [|k ks IH]; intros d ND; cbn [fold_left].
  - clear ND. induction d as [|x d IHd]; [reflexivity|]. cbn in *. rewrite <- IHd. reflexivity.
  - rewrite IH by (destruct (on k); [exact ND|apply NoDup_ddel, ND]). destruct (on k) eqn:Ek.
    + apply filter_ext. intros [k' v]. cbn [fst]. destruct (lmem (k :: ks) k') eqn:E1, (lmem ks k') eqn:E2; cbn; auto.
      * apply lmem_In in E1. apply lmem_false in E2. destruct E1 as [-> | E1]; [symmetry; exact Ek|contradiction].
      * apply lmem_false in E1. apply lmem_In in E2. exfalso. apply E1. right. exact E2.
    + rewrite ddel_filter, filter_filter by exact ND. apply filter_ext. intros [k' v]. cbn [fst].
      destruct (PyDict.eqb k' k) eqn:E.
      * apply (proj1 (PyDict.eqb_eq _ _)) in E. subst. assert (E : lmem (k :: ks) k = true) by (apply lmem_In; left; reflexivity).
        rewrite E, Ek. reflexivity.
      * cbn [negb andb]. f_equal. f_equal. destruct (lmem (k :: ks) k') eqn:E1, (lmem ks k') eqn:E2; auto.
        -- apply lmem_In in E1. apply lmem_false in E2. destruct E1 as [-> | E1]; [|contradiction]. rewrite PyDict.eqb_refl in E. discriminate.
        -- apply lmem_false in E1. apply lmem_In in E2. exfalso. apply E1. right. exact E2.
Qed.
Lemma pop_all_filter : forall keep calcs d, NoDup (dkeys d) -> pop_all keep calcs d = filter (fun kv => (lmem keep (fst kv) && lmem calcs (fst kv))%bool) d.
Proof.
  intros keep calcs d ND. unfold pop_all. etransitivity; [exact (pop_filter (fun k => lmem keep k && lmem calcs k)%bool _ _ ND)|].
  apply filter_ext_in. intros [k v] H. cbn [fst]. assert (E : lmem (dkeys d) k = true).
  { apply lmem_In. apply in_map_iff. exists (k, v). auto. }
  rewrite E. reflexivity.
Qed.
Lemma keep_one : forall s cs d, NoDup (dkeys d) -> pop_all [s] cs d = filter (fun kv => (lmem [s] (fst kv) && lmem cs s)%bool) d.
Proof.
  intros s cs d ND. rewrite pop_all_filter by exact ND. apply filter_ext. intros [k v]. cbn [fst]. destruct (lmem [s] k) eqn:E; [|reflexivity].
  apply lmem_In in E. destruct E as [-> | []]. reflexivity.
Qed.
Lemma prim_report_eq : forall flag p, prim_report flag p = type_stats flag (Some p).
Proof.
  intros flag [k r cs f a]. destruct k, flag; try reflexivity.
  - unfold prim_report, type_stats, listed. cbn [p_kind p_calcs]. rewrite keep_one by (repeat (constructor; [cbn; intuition discriminate|]); constructor). destruct (lmem cs "precision"); reflexivity.
  - unfold prim_report, type_stats, listed. cbn [p_kind p_calcs]. rewrite keep_one by (repeat (constructor; [cbn; intuition discriminate|]); constructor). destruct (lmem cs "vocab"); reflexivity.
Qed.

Theorem C56_report : forall flag h c, NoDup (map p_kind (f_prims c)) ->
  exists sel h', selected (f_prims c) sel /\ col_report flag h c = (h', Ok (whole flag c sel)) /\
    forall a, h' a = times_after flag h c sel a.
Proof.
  intros flag h [nm sm base ps o k l] ND. cbn [f_prims] in ND. exists (find matches ps).
  unfold col_report, whole, all_stats, times_after. cbn [f_prims f_order f_cat f_label f_base f_name f_sample].
  rewrite (type_report_eq flag ps ND). generalize (ratios ps) as R. intros R.
  assert (S : selected ps (find matches ps)) by apply find_selected. revert S. generalize (find matches ps) as sel.
  intros sel S. clear ND.
  assert (E : match sel with Some p => Node (prim_report flag p) | None => Node [] end = Node (type_stats flag sel)).
  { destruct sel; [rewrite prim_report_eq|]; reflexivity. }
  rewrite E. clear E.
  destruct sel as [[kd r cs f a]|].
  - destruct kd, flag; unfold type_stats, listed; cbn [p_kind p_calcs]; try (destruct (lmem cs _));
      destruct o as [[ov oa]|]; destruct k as [[[] cv ca]|]; destruct l as [[[lv la]|]|];
      (eexists; split; [exact S|]; split; [reflexivity|]; intros x; cbn; try reflexivity; unfold write; destruct (a =? x) eqn:Ex; try reflexivity;
       apply Nat.eqb_eq in Ex; subst; reflexivity).
  - destruct o as [[ov oa]|]; destruct k as [[[] cv ca]|]; destruct l as [[[lv la]|]|];
      (eexists; split; [exact S|]; split; [reflexivity|]; intros x; reflexivity).
Qed.

(** The times that the report shows: those of the type, completed by the labeler's, where the type shows its times. *)
Theorem C56_times : forall flag h c sel h' rep, NoDup (map p_kind (f_prims c)) -> selected (f_prims c) sel ->
  col_report flag h c = (h', Ok rep) ->
  exists s, dget rep "statistics" = Some (Node s) /\
    match sel, f_label c with
    | Some p, Some (Some l) =>
        option_map (resolve h') (dget s "times") =
        Some (Node (leaves (if keeps_times flag sel then dupdate (h (p_times p)) (h (l_times l)) else
                            h (l_times l))))
    | Some p, _ => option_map (resolve h') (dget s "times") = if keeps_times flag sel then Some (Node (leaves (h (p_times p)))) else None
    | None, Some (Some l) => option_map (resolve h') (dget s "times") = Some (Node (leaves (h (l_times l))))
    | None, _ => dget s "times" = None
    end.
Proof.
  intros flag h c sel h' rep ND Hs E. destruct (C56_report flag h c ND) as (sel' & h2 & Hs' & E' & Hh).
  rewrite (selected_unique _ _ _ Hs' Hs) in *. rewrite E in E'. injection E' as -> ->.
  exists (all_stats flag c sel). split.
  { unfold whole. destruct (f_label c) as [[l|]|]; reflexivity. }
  clear ND Hs Hs' E. unfold all_stats, times_after in *.
  assert (B : forall f, dget (match sel with Some _ => [("data_type_representation", Node f)] | None => [] end) "times" = None) by (intros; destruct sel; reflexivity).
  assert (C : forall s, dget (cat_stats (f_cat c) ++ s) "times" = dget s "times").
  { intros s. destruct (f_cat c) as [[[] cv ca]|]; reflexivity. }
  assert (D : forall s, dget (type_stats flag sel ++ s) "times" = if keeps_times flag sel then match sel with Some p => Some (Ref (p_times p)) | None => None end else dget s "times").
  { intros s. destruct sel as [[[] r cs f a]|]; destruct flag; try reflexivity; unfold type_stats, listed; cbn [p_kind p_calcs]; destruct (lmem cs _); reflexivity. }
  rewrite D, C.
  assert (L : forall s, dget (label_stats flag sel (f_label c) ++ s) "times" =
    match f_label c with Some (Some l) => if keeps_times flag sel then dget s "times" else Some (Ref (l_times l)) | _ => dget s "times" end).
  { intros s. destruct (f_label c) as [[l|]|]; try reflexivity. unfold label_stats. destruct (keeps_times flag sel); reflexivity. }
  rewrite L.
  assert (Z : dget (base_stats c ++ match sel with Some _ => [("data_type_representation", Node (ratios (f_prims c)))] | None => [] end) "times" = None)
    by (destruct sel; reflexivity).
  rewrite Z. clear Z L B C D.
  destruct sel as [p|].
  - destruct (f_label c) as [[l|]|]; destruct (keeps_times flag (Some p)); cbn [option_map resolve andb] in *; rewrite ?Hh, ?Nat.eqb_refl; reflexivity.
  - destruct (f_label c) as [[l|]|]; cbn [keeps_times option_map resolve]; rewrite ?Hh; reflexivity.
Qed.

Lemma dkeys_dupdate_in : forall (e d : dict string Q), incl (dkeys e) (dkeys d) -> dkeys (dupdate d e) = dkeys d.
Proof.
  unfold dupdate. induction e as [|[k v] e IH]; intros d H; [reflexivity|]. cbn [fold_left fst snd].
  assert (E : dkeys (dset d k v) = dkeys d).
  { rewrite dkeys_dset. assert (M : dmem d k = true) by (apply dmem_true, H; left; reflexivity). rewrite M. reflexivity. }
  rewrite IH; [exact E|]. rewrite E. intros x Hx. apply H. right. exact Hx.
Qed.
Lemma dupdate_incl : forall (e d : dict string Q), NoDup (dkeys e) -> incl (dkeys e) (dkeys (dupdate d e)).
Proof.
  intros e d He x Hx. destruct (dget (dupdate d e) x) eqn:E.
  - apply dget_Some_In in E. apply in_map_iff. exists (x, q). auto.
  - exfalso. rewrite dget_dupdate in E by exact He. destruct (dget e x) eqn:E2; [discriminate|]. apply dget_None in E2. contradiction.
Qed.
Lemma dupdate_twice : forall (d e : dict string Q), NoDup (dkeys d) -> NoDup (dkeys e) -> dupdate (dupdate d e) e = dupdate d e.
Proof.
  intros d e Hd He. apply dict_ext.
  - apply dkeys_dupdate_in, dupdate_incl, He.
  - apply NoDup_dupdate, NoDup_dupdate, Hd.
  - intros k _. rewrite !dget_dupdate by exact He. destruct (dget e k); reflexivity.
Qed.

(** Asking for the report again gives the same report and changes nothing more (times are dictionaries: a name occurs once). *)
Theorem C56_again : forall flag h c h' rep, NoDup (map p_kind (f_prims c)) -> (forall a, NoDup (dkeys (h a))) ->
  (forall p l, In p (f_prims c) -> f_label c = Some (Some l) -> p_times p <> l_times l) ->
  col_report flag h c = (h', Ok rep) ->
  exists h2, col_report flag h' c = (h2, Ok rep) /\ forall a, h2 a = h' a.
Proof.
  intros flag h c h' rep ND Hd Hne E.
  destruct (C56_report flag h c ND) as (sel & h1 & Hs & E1 & H1). rewrite E in E1. injection E1 as <- ->.
  destruct (C56_report flag h' c ND) as (sel2 & h2 & Hs2 & E2 & H2). rewrite (selected_unique _ _ _ Hs2 Hs) in *.
  exists h2. split; [exact E2|]. intros a. rewrite H2. unfold times_after in *.
  destruct sel as [p|]; [|reflexivity]. destruct (f_label c) as [[l|]|] eqn:El; try reflexivity.
  destruct (keeps_times flag (Some p)); [|reflexivity]. cbn [andb] in *. destruct (p_times p =? a) eqn:Ea; [|reflexivity].
  assert (Hp : p_times p <> l_times l).
  { apply Hne; [|reflexivity]. destruct Hs as (l1 & l2 & -> & _). apply in_or_app. right. left. reflexivity. }
  rewrite (H1 a), Ea, (H1 (l_times l)). apply Nat.eqb_neq in Hp. rewrite Hp. apply dupdate_twice; apply Hd.
Qed.

(** What remove_disabled_flag does: nothing to whole numbers and dates; of numbers and texts it leaves at most the class's own
    statistic, and that exactly if switched on. *)
Theorem C56_flag : forall h c sel k, NoDup (map p_kind (f_prims c)) -> selected (f_prims c) sel ->
  exists h1 rep1 s1 h2 rep2 s2,
    col_report false h c = (h1, Ok rep1) /\ dget rep1 "statistics" = Some (Node s1) /\
    col_report true h c = (h2, Ok rep2) /\ dget rep2 "statistics" = Some (Node s2) /\
    match sel with
    | None => rep1 = rep2
    | Some p =>
        match p_kind p with
        | KDate | KInt => rep1 = rep2
        | KFloat =>
            In k numeric_keys -> dget s1 k = Some (p_val p k) /\ dget s2 k = None /\
            (dget s2 "precision" = if lmem (p_calcs p) "precision" then Some (p_val p "precision") else None)
        | KText =>
            In k numeric_keys -> k <> "num_zeros" -> k <> "num_negatives" ->
            dget s1 k = Some (p_val p k) /\ dget s2 k = None /\
            (dget s2 "vocab" = if lmem (p_calcs p) "vocab" then Some (p_val p "vocab") else None)
        end
    end.
Proof.
  intros h c sel k ND Hs.
  destruct (C56_report false h c ND) as (sela & h1 & Ha & E1 & _). rewrite (selected_unique _ _ _ Ha Hs) in *.
  destruct (C56_report true h c ND) as (selb & h2 & Hb & E2 & _). rewrite (selected_unique _ _ _ Hb Hs) in *.
  assert (G : forall flag, dget (whole flag c sel) "statistics" = Some (Node (all_stats flag c sel))).
  { intros flag. unfold whole. destruct (f_label c) as [[l|]|]; reflexivity. }
  exists h1, (whole false c sel), (all_stats false c sel), h2, (whole true c sel), (all_stats true c sel).
  split; [exact E1|]. split; [apply G|]. split; [exact E2|]. split; [apply G|].
  clear. destruct sel as [[kd r cs f a]|]; [|reflexivity]. cbn [p_kind].
  destruct kd; try reflexivity.
  - intros Hk. unfold all_stats. split; [|split].
    + cbn in Hk. repeat (destruct Hk as [<- | Hk]; [reflexivity|]). destruct Hk.
    + unfold type_stats, listed. cbn [p_kind p_calcs].
      destruct (lmem cs "precision"); destruct (f_cat c) as [[[] cv ca]|]; destruct (f_label c) as [[l|]|];
        cbn in Hk; repeat (destruct Hk as [<- | Hk]; [reflexivity|]); destruct Hk.
    + unfold type_stats, listed. cbn [p_kind p_calcs].
      destruct (lmem cs "precision"); destruct (f_cat c) as [[[] cv ca]|]; destruct (f_label c) as [[l|]|]; reflexivity.
  - intros Hk N1 N2. unfold all_stats. split; [|split].
    + cbn in Hk. repeat (destruct Hk as [<- | Hk]; [reflexivity || (exfalso; congruence)|]). destruct Hk.
    + unfold type_stats, listed. cbn [p_kind p_calcs].
      destruct (lmem cs "vocab"); destruct (f_cat c) as [[[] cv ca]|]; destruct (f_label c) as [[l|]|];
        cbn in Hk; repeat (destruct Hk as [<- | Hk]; [reflexivity|]); destruct Hk.
    + unfold type_stats, listed. cbn [p_kind p_calcs].
      destruct (lmem cs "vocab"); destruct (f_cat c) as [[[] cv ca]|]; destruct (f_label c) as [[l|]|]; reflexivity.
Qed.

(** Free text: without the flag everything is listed; with it the characters and the words, each if switched on, and no counts. *)
Theorem C56_text : forall calcs val times,
  text_report false calcs val times =
    [("vocab", val "vocab"); ("vocab_count", val "vocab_count"); ("words", val "words"); ("word_count", val "word_count"); ("times", Ref times)] /\
  text_report true calcs val times =
    (if lmem calcs "vocab" then [("vocab", val "vocab")] else []) ++ (if lmem calcs "words" then [("words", val "words")] else []).
Proof.
  intros calcs val times. split; [reflexivity|]. unfold text_report. rewrite pop_all_filter.
  - cbn -[lmem]. assert (N : forall k, k <> "vocab" -> k <> "words" -> lmem ["vocab"; "words"] k = false).
    { intros k A B. apply lmem_false. intros [<- | [<- | []]]; congruence. }
    rewrite (N "vocab_count"), (N "word_count"), (N "times") by discriminate. cbn [andb].
    replace (lmem ["vocab"; "words"] "vocab") with true by reflexivity. replace (lmem ["vocab"; "words"] "words") with true by reflexivity.
    cbn [andb]. destruct (lmem calcs "vocab"), (lmem calcs "words"); reflexivity.
  - repeat (constructor; [cbn; intuition discriminate|]). constructor.
Qed.

(** Graphs: with the flag exactly the statistics switched on, in order. *)
Theorem C56_graph : forall flag calcs val times,
  graph_report flag calcs val times =
    if flag then map (fun k => (k, val k)) (filter (fun k => lmem calcs k)
      ["num_nodes"; "num_edges"; "categorical_attributes"; "continuous_attributes"; "avg_node_degree"; "global_max_component_size";
       "continuous_distribution"; "categorical_distribution"])
    else map (fun k => (k, val k))
      ["num_nodes"; "num_edges"; "categorical_attributes"; "continuous_attributes"; "avg_node_degree"; "global_max_component_size";
       "continuous_distribution"; "categorical_distribution"] ++ [("times", Ref times)].
Proof.
  intros [] calcs val times; [|reflexivity]. unfold graph_report. rewrite pop_all_filter.
  - rewrite filter_app. unfold values.
    assert (T : filter (fun kv : string * tree => (lmem graph_keys (fst kv) && lmem calcs (fst kv))%bool) [("times", Ref times)] = []) by reflexivity.
    rewrite T, app_nil_r.
    assert (F : forall ks, incl ks graph_keys -> filter (fun kv : string * tree => (lmem graph_keys (fst kv) && lmem calcs (fst kv))%bool) (map (fun k => (k, val k)) ks)
                = map (fun k => (k, val k)) (filter (fun k => lmem calcs k) ks)).
    { induction ks as [|k ks IH]; intros H; [reflexivity|]. cbn [map filter fst].
      assert (M : lmem graph_keys k = true) by (apply lmem_In, H; left; reflexivity). rewrite M. cbn [andb].
      assert (I : incl ks graph_keys) by (intros x Hx; apply H; right; exact Hx).
      destruct (lmem calcs k); cbn [map]; rewrite (IH I); reflexivity. }
    apply F. apply incl_refl.
  - repeat (constructor; [cbn; intuition discriminate|]). constructor.
Qed.

(** Findings.  "With the flag, what is switched off is not listed and what is switched on is" holds for graphs only. *)
Definition stat_of (r : heap * result (dict string tree)) (k : string) : option tree :=
  match r with (_, Ok rep) => match dget rep "statistics" with Some (Node s) => dget s k | _ => None end | _ => None end.
Definition one (k : kind) (on : list string) : col :=
  mkCol (TStr "x") TNone (fun _ => TNone) [mkPrim k (Some 1%Q) on (fun _ => Leaf 7) 0] None None (Some (Some (mkLab (fun _ => Leaf 8) 1))).
Definition two_times : heap := fun a => match a with 0 => [("min", 2%Q)] | _ => [("data_labeler_predict", 3%Q)] end.

Theorem C56_disabled_refuted : ~ forall h c p k, selected (f_prims c) (Some p) -> In k numeric_keys -> ~ In k (p_calcs p) ->
  stat_of (col_report true h c) k = None.
Proof.
  intros H. assert (E := H two_times (one KInt []) (mkPrim KInt (Some 1%Q) [] (fun _ => Leaf 7) 0) "variance").
  assert (S : selected (f_prims (one KInt [])) (Some (mkPrim KInt (Some 1%Q) [] (fun _ => Leaf 7) 0))).
  { exists [], []. split; [reflexivity|]. split; [constructor|]. exists 1%Q. split; reflexivity. }
  specialize (E S ltac:(cbn; tauto) (fun H => H)). clear -E. vm_compute in E. discriminate E.
Qed.
Theorem C56_enabled_refuted : ~ forall h c p k, selected (f_prims c) (Some p) -> In k numeric_keys -> In k (p_calcs p) ->
  stat_of (col_report true h c) k <> None.
Proof.
  intros H. apply (H two_times (one KFloat ["min"]) (mkPrim KFloat (Some 1%Q) ["min"] (fun _ => Leaf 7) 0) "min").
  - exists [], []. split; [reflexivity|]. split; [constructor|]. exists 1%Q. split; reflexivity.
  - cbn. tauto.
  - cbn. tauto.
  - vm_compute. reflexivity.
Qed.
(** The counts of the words of a text are dropped even if all is switched on. *)
Theorem C56_words_refuted : ~ forall calcs val times, lmem calcs "words" = true -> dget (text_report true calcs val times) "word_count" <> None.
Proof. intros H. apply (H ["words"] (fun _ => TNone) 0); reflexivity. Qed.
(** Asking for a report is not free of effects: the labeler's times become times of the column's numbers. *)
Theorem C56_pure_refuted : ~ forall flag h c a, fst (col_report flag h c) a = h a.
Proof. intros H. assert (E := H false two_times (one KInt []) 0). vm_compute in E. discriminate E. Qed.

Example C56_example :
  fst (col_report false two_times (one KInt [])) 0 = [("min", 2%Q); ("data_labeler_predict", 3%Q)] /\
  stat_of (col_report true two_times (one KFloat ["min"; "precision"])) "precision" = Some (Leaf 7) /\
  stat_of (col_report true two_times (one KFloat ["min"; "precision"])) "times" = Some (Ref 1) /\
  stat_of (col_report false two_times (one KText [])) "num_zeros" = None /\
  graph_report true ["num_edges"; "num_nodes"] (fun _ => Leaf 7) 0 = [("num_nodes", Leaf 7); ("num_edges", Leaf 7)].
Proof. repeat split; vm_compute; reflexivity. Qed.
