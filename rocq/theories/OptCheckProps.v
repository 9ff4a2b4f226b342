(** C77: which options pass validation *)
From Coq Require Import ZArith QArith.
From Verif Require Import PyCommon PyDict PyString OptionsModel OptionsProps OptCheckModel.
Local Open Scope nat_scope.
Local Open Scope string_scope.
Local Open Scope list_scope.

(** Spec.  Whole numbers: Booleans and flags count as such. *)
Inductive whole : val -> Z -> Prop :=
| whole_int : forall z, whole (VInt z) z
| whole_true : whole (VBool true) 1
| whole_false : whole (VBool false) 0
| whole_flag : forall n, whole (VFlag n) (Z.of_nat n).
(** Values that count as false *)
Inductive nothing : val -> Prop :=
| nothing_none : nothing VNone
| nothing_false : nothing (VBool false)
| nothing_int : nothing (VInt 0)
| nothing_float : forall q, (q == 0)%Q -> nothing (VFloat q)
| nothing_str : nothing (VStr "")
| nothing_list : nothing (VList [])
| nothing_dict : nothing (VDict [])
| nothing_flag : nothing (VFlag 0).
Lemma truthy_nothing v : truthy v = true <-> ~ nothing v.
Proof.
  split.
  - intros H N. destruct N; cbn in H; try discriminate. apply Qeq_bool_iff in H0. rewrite H0 in H. discriminate.
  - intro N. destruct v as [ |b|z|q|s|n|n|l|d|n]; cbn [truthy]; try reflexivity; try (exfalso; apply N; constructor; fail).
    + destruct b; [reflexivity|]. exfalso. apply N. constructor.
    + destruct (Z.eqb_spec z 0) as [-> | _]; [|reflexivity]. exfalso. apply N. constructor.
    + destruct (Qeq_bool q 0) eqn:E; [|reflexivity]. exfalso. apply N. constructor. apply Qeq_bool_iff. exact E.
    + destruct (String.eqb_spec s "") as [-> | _]; [|reflexivity]. exfalso. apply N. constructor.
    + destruct n; [|reflexivity]. exfalso. apply N. constructor.
    + destruct l; [|reflexivity]. exfalso. apply N. constructor.
    + destruct d; [|reflexivity]. exfalso. apply N. constructor.
Qed.
Definition at_least (least : Z) (v : val) : Prop := exists z, whole v z /\ (least <= z)%Z.
Definition amount (v : val) (q : Q) : Prop := v = VFloat q \/ exists z, whole v z /\ q = inject_Z z.
Definition fraction (v : val) : Prop := exists q, v = VFloat q /\ (0 <= q)%Q /\ (q <= 1)%Q.
Definition text (v : val) : Prop := exists s, v = VStr s.
Definition texts (v : val) : Prop := exists l, v = VList l /\ Forall text l.
Definition none_or (P : val -> Prop) (v : val) : Prop := v = VNone \/ P v.
Definition switch (v : val) : Prop := v = VBool true \/ v = VBool false.
Definition bins (v : val) : Prop :=
  let method x := exists s, x = VStr s /\ In s ["auto"; "fd"; "doane"; "scott"; "rice"; "sturges"; "sqrt"] in
  at_least 1 v \/ method v \/ exists l, v = VList l /\ l <> [] /\ Forall method l.
Definition zero (v : val) : Prop := whole v 0 \/ exists q, v = VFloat q /\ (q == 0)%Q.
Definition nulls (v : val) : Prop := exists d, v = VDict d /\ Forall (fun kv => text (fst kv) /\ ((exists n, snd kv = VFlag n) \/ zero (snd kv))) d.
Definition column_nulls (v : val) : Prop := exists d, v = VDict d /\ Forall (fun kv => (exists z, whole (fst kv) z) /\ nulls (snd kv)) d.

(** Statistics of numbers: what is switched on has what it is computed from switched on. *)
Definition numbers (g : list string -> val) : Prop :=
  (forall n, In n ["min"; "max"; "mode"; "median"; "sum"; "variance"; "skewness"; "kurtosis"; "median_abs_deviation"; "num_zeros";
                   "num_negatives"; "histogram_and_quantiles"; "bias_correction"] -> switch (g [n; "is_enabled"])) /\
  switch (g ["is_enabled"]) /\ none_or bins (g ["histogram_and_quantiles"; "bin_count_or_method"]) /\
  none_or (at_least 1) (g ["histogram_and_quantiles"; "num_quantiles"]) /\ none_or (at_least 1) (g ["mode"; "top_k_modes"]) /\
  let on n := g [n; "is_enabled"] = VBool true in
  (on "variance" -> on "sum") /\ (on "skewness" -> on "variance") /\ (on "kurtosis" -> on "skewness") /\
  (on "median_abs_deviation" \/ on "mode" \/ on "median" -> on "histogram_and_quantiles").
Definition categories (g : list string -> val) : Prop :=
  switch (g ["is_enabled"]) /\ none_or (at_least 1) (g ["top_k_categories"]) /\
  (g ["max_sample_size_to_check_stop_condition"] = VNone /\ g ["stop_condition_unique_value_ratio"] = VNone \/
   at_least 0 (g ["max_sample_size_to_check_stop_condition"]) /\ fraction (g ["stop_condition_unique_value_ratio"])) /\
  none_or fraction (g ["cms_confidence"]) /\ none_or fraction (g ["cms_relative_error"]) /\
  (~ nothing (g ["cms"]) -> exists z, whole (g ["cms_max_num_heavy_hitters"]) z).
Definition labels (g : list string -> val) : Prop :=
  switch (g ["is_enabled"]) /\ none_or text (g ["data_labeler_dirpath"]) /\
  none_or (fun v => exists n, v = VLabeler n) (g ["data_labeler_object"]) /\ none_or (at_least 1) (g ["max_sample_size"]).
Definition free_text (g : list string -> val) : Prop :=
  switch (g ["is_enabled"]) /\ switch (g ["is_case_sensitive"]) /\ none_or texts (g ["stop_words"]) /\
  none_or (at_least 1) (g ["top_k_chars"]) /\ none_or (at_least 1) (g ["top_k_words"]).
Definition tables (g : list string -> val) : Prop :=
  (forall n, In n ["multiprocess"; "datetime"; "order"; "chi2_homogeneity"; "null_replication_metrics"; "row_statistics"; "correlation"] ->
     switch (g [n; "is_enabled"])) /\
  (forall k, In k ["int"; "float"; "text"] -> numbers (fun p => g (k :: p))) /\
  switch (g ["float"; "precision"; "is_enabled"]) /\
  none_or (fun v => exists q, amount v q /\ (0 <= q)%Q /\ (q <= 1)%Q) (g ["float"; "precision"; "sample_ratio"]) /\
  switch (g ["text"; "vocab"; "is_enabled"]) /\ g ["text"; "num_zeros"; "is_enabled"] = VBool false /\
  g ["text"; "num_negatives"; "is_enabled"] = VBool false /\
  categories (fun p => g ("category" :: p)) /\ labels (fun p => g ("data_labeler" :: p)) /\
  none_or (fun v => exists a b l, v = VList (a :: b :: l) /\ Forall text (a :: b :: l)) (g ["correlation"; "columns"]) /\
  none_or nulls (g ["null_values"]) /\ none_or column_nulls (g ["column_null_values"]) /\
  (exists q, amount (g ["sampling_ratio"]) q /\ (0 < q)%Q /\ (q <= 1)%Q) /\
  (g ["chi2_homogeneity"; "is_enabled"] = VBool true -> g ["category"; "is_enabled"] = VBool true).
Definition acceptable (g : list string -> val) : Prop :=
  tables (fun p => g ("structured_options" :: p)) /\ free_text (fun p => g ("unstructured_options" :: "text" :: p)) /\
  labels (fun p => g ("unstructured_options" :: "data_labeler" :: p)).

Lemma app_nil2 : forall (A : Type) (a b : list A), a ++ b = [] <-> a = [] /\ b = [].
Proof. intros A a b. split; [apply app_eq_nil|intros (-> & ->); reflexivity]. Qed.
Lemma when_nil : forall b p m, when b p m = [] <-> b = false.
Proof. intros [] p m; cbn; split; intros; (reflexivity || discriminate). Qed.
Lemma as_int_whole : forall v z, as_int v = Some z <-> whole v z.
Proof.
  intros v z. split.
  - destruct v; cbn; try discriminate; [destruct b|..]; intros H; injection H as <-; constructor.
  - intros []; reflexivity.
Qed.
Lemma switch_spec : forall v, negb (is_bool v) = false <-> switch v.
Proof.
  intros v. unfold switch. destruct v; cbn; split; intros H; try discriminate; try (destruct H; discriminate); [destruct b; auto|reflexivity].
Qed.
Lemma boolean_nil : forall p g, boolean_errs p g = [] <-> switch (g ["is_enabled"]).
Proof. intros p g. unfold boolean_errs. rewrite when_nil. apply switch_spec. Qed.
Lemma none_spec : forall v, is_none v = true <-> v = VNone.
Proof. intros []; cbn; split; intros; (reflexivity || discriminate). Qed.
Lemma not_none : forall v b P, (v = VNone \/ v <> VNone) -> (v <> VNone -> (b = false <-> P v)) -> (P VNone -> False) ->
  ((negb (is_none v) && b)%bool = false <-> none_or P v).
Proof.
  intros v b P _ H HN. unfold none_or. destruct (is_none v) eqn:E.
  - apply none_spec in E. cbn. split; auto.
  - cbn [negb andb]. assert (N : v <> VNone) by (intros ->; discriminate). rewrite (H N). split; [auto|]. intros [X | X]; [contradiction|exact X].
Qed.
Lemma none_or_dec : forall v : val, v = VNone \/ v <> VNone.
Proof. intros []; (left; reflexivity) || (right; discriminate). Qed.
Lemma bad_int_spec : forall n v, bad_int n v = false <-> none_or (at_least n) v.
Proof.
  intros n v. unfold bad_int. apply not_none; [apply none_or_dec| |intros (z & H & _); inversion H].
  intros N. unfold at_least. destruct (as_int v) as [z|] eqn:E.
  - apply as_int_whole in E. rewrite Z.ltb_ge. split; [eauto|]. intros (y & Hy & L). apply as_int_whole in Hy, E. rewrite Hy in E. injection E as <-. exact L.
  - split; [discriminate|]. intros (y & Hy & _). apply as_int_whole in Hy. congruence.
Qed.
Lemma unit_spec : forall q, (negb (Qle_bool 0 q) || negb (Qle_bool q 1))%bool = false <-> (0 <= q)%Q /\ (q <= 1)%Q.
Proof. intros q. rewrite Bool.orb_false_iff, !Bool.negb_false_iff, !Qle_bool_iff. reflexivity. Qed.
Lemma bad_ratio_spec : forall v, bad_ratio v = false <-> none_or fraction v.
Proof.
  intros v. unfold bad_ratio. apply not_none; [apply none_or_dec| |intros (q & H & _); discriminate].
  intros N. unfold fraction. destruct v; try (split; [discriminate|intros (x & H & _); discriminate]).
  rewrite unit_spec. split; [intros H; exists q; auto|]. intros (x & E & H). injection E as <-. exact H.
Qed.
Lemma number_amount : forall v q, number v = Some q <-> amount v q.
Proof.
  intros v q. unfold number, amount. destruct v; cbn [as_int option_map];
    try (split; [discriminate|intros [H | (z & H & _)]; [discriminate|inversion H]]).
  - destruct b; cbn; split; try (intros H; injection H as <-; right; eexists; split; [constructor|reflexivity]);
      (intros [H | (z & H & ->)]; [discriminate|inversion H; reflexivity]).
  - split; [intros H; injection H as <-; right; eexists; split; [constructor|reflexivity]|].
    intros [H | (x & H & ->)]; [discriminate|inversion H; reflexivity].
  - split; [intros H; injection H as <-; left; reflexivity|]. intros [H | (z & H & _)]; [injection H as <-; reflexivity|inversion H].
  - split; [intros H; injection H as <-; right; eexists; split; [constructor|reflexivity]|].
    intros [H | (x & H & ->)]; [discriminate|inversion H; reflexivity].
Qed.
Lemma amount_fun : forall v p q, amount v p -> amount v q -> p = q.
Proof. intros v p q H1 H2. apply number_amount in H1, H2. congruence. Qed.
Lemma text_spec : forall v, is_str v = true <-> text v.
Proof. intros v. unfold text. destruct v; cbn; split; try discriminate; try (intros (s' & H); discriminate); eauto. Qed.
Lemma texts_spec : forall l, forallb is_str l = true <-> Forall text l.
Proof. intros l. rewrite forallb_forall, Forall_forall. split; intros H x I; apply text_spec; auto. Qed.
Lemma bad_strings_spec : forall v, bad_strings v = false <-> none_or texts v.
Proof.
  intros v. unfold bad_strings. apply not_none; [apply none_or_dec| |intros (l & H & _); discriminate].
  intros N. unfold texts. destruct v; try (split; [discriminate|intros (x & H & _); discriminate]).
  rewrite Bool.negb_false_iff, texts_spec. split; [eauto|]. intros (x & E & H). injection E as <-. exact H.
Qed.
Lemma bad_bins_spec : forall v, bad_bins v = false <-> none_or bins v.
Proof.
  intros v. unfold none_or, bins, at_least. cbv zeta.
  assert (ML : forall s, lmem methods s = true <-> In s ["auto"; "fd"; "doane"; "scott"; "rice"; "sturges"; "sqrt"]) by (intros s; apply lmem_In).
  assert (W : forall z v, whole v z -> ((z <? 1)%Z = false <-> exists y, whole v y /\ (1 <= y)%Z)).
  { intros z x H. rewrite Z.ltb_ge. split; [eauto|]. intros (y & Hy & L). apply as_int_whole in H, Hy. rewrite H in Hy. injection Hy as ->. exact L. }
  destruct v as [|b|z|q|s|n|n|l|d|n]; cbn [bad_bins as_int].
  - tauto.
  - assert (B : as_int (VBool b) = Some (if b then 1 else 0)%Z) by (destruct b; reflexivity). apply as_int_whole in B. destruct b; rewrite (W _ _ B); (split; [intros H; right; left; exact H|]); (intros [H | [H | [(s & H & _) | (l & H & _)]]]; try discriminate; exact H).
  - rewrite (W _ _ (whole_int z)). split; [auto|]. intros [H | [H | [(s & H & _) | (l & H & _)]]]; try discriminate; exact H.
  - split; [discriminate|]. intros [H | [(y & H & _) | [(s & H & _) | (l & H & _)]]]; try discriminate. inversion H.
  - rewrite Bool.negb_false_iff, ML. split; [intros H; right; right; left; eauto|].
    intros [H | [(y & H & _) | [(x & H & I) | (l & H & _)]]]; try discriminate; [inversion H|]. injection H as <-. exact I.
  - rewrite (W _ _ (whole_flag n)). split; [auto|]. intros [H | [H | [(s & H & _) | (l & H & _)]]]; try discriminate; exact H.
  - split; [discriminate|]. intros [H | [(y & H & _) | [(s & H & _) | (l & H & _)]]]; try discriminate. inversion H.
  - destruct l as [|x l].
    + split; [discriminate|]. intros [H | [(y & H & _) | [(s & H & _) | (l & H & N & _)]]]; try discriminate; [inversion H|]. injection H as <-. congruence.
    + rewrite Bool.negb_false_iff, forallb_forall.
      assert (E : (forall y, In y (x :: l) -> match y with VStr s => lmem methods s | _ => false end = true) <->
                  Forall (fun y => exists s, y = VStr s /\ In s ["auto"; "fd"; "doane"; "scott"; "rice"; "sturges"; "sqrt"]) (x :: l)).
      { rewrite Forall_forall. split; intros H y I; specialize (H y I).
        - destruct y; try discriminate. exists s. split; [reflexivity|]. apply ML. exact H.
        - destruct H as (s & -> & J). apply ML. exact J. }
      rewrite E. split.
      * intros F. right. right. right. exists (x :: l). split; [reflexivity|]. split; [discriminate|exact F].
      * intros [H | [(y & H & _) | [(s & H & _) | (l2 & H & N & F)]]]; try discriminate; [inversion H|]. injection H as <-. exact F.
  - split; [discriminate|]. intros [H | [(y & H & _) | [(s & H & _) | (l & H & _)]]]; try discriminate. inversion H.
  - split; [discriminate|]. intros [H | [(y & H & _) | [(s & H & _) | (l & H & _)]]]; try discriminate. inversion H.
Qed.
Lemma flag_spec : forall v, flag_ok v = true <-> (exists n, v = VFlag n) \/ zero v.
Proof.
  intros v. unfold zero. destruct v; cbn [flag_ok as_int];
    try (split; [discriminate|intros [(m & H) | [H | (q' & H & _)]]; [discriminate|inversion H|discriminate]]).
  - destruct b; cbn; split; try discriminate; try reflexivity; [|intros _; right; left; constructor].
    intros [(m & H) | [H | (q' & H & _)]]; [discriminate|inversion H|discriminate].
  - rewrite Z.eqb_eq. split; [intros ->; right; left; constructor|]. intros [(m & H) | [H | (q' & H & _)]]; [discriminate|inversion H; reflexivity|discriminate].
  - rewrite Qeq_bool_iff. split; [intros H; right; right; eauto|]. intros [(m & H) | [H | (q' & H & E)]]; [discriminate|inversion H|]. injection H as <-. exact E.
  - split; [left; eauto|reflexivity].
Qed.
Lemma nulls_spec : forall v, nulls_ok v = true <-> nulls v.
Proof.
  intros v. unfold nulls. destruct v; try (split; [discriminate|intros (x & H & _); discriminate]). cbn [nulls_ok]. rewrite forallb_forall. split.
  - intros H. exists d. split; [reflexivity|]. apply Forall_forall. intros kv I. specialize (H kv I). apply andb_prop in H as (H1 & H2).
    split; [apply text_spec; exact H1|apply flag_spec; exact H2].
  - intros (x & E & F) kv I. injection E as <-. rewrite Forall_forall in F. destruct (F kv I) as (H1 & H2).
    apply andb_true_intro. split; [apply text_spec; exact H1|apply flag_spec; exact H2].
Qed.
Lemma column_nulls_spec : forall v, column_nulls_ok v = true <-> column_nulls v.
Proof.
  intros v. unfold column_nulls. destruct v; try (split; [discriminate|intros (x & H & _); discriminate]). cbn [column_nulls_ok]. rewrite forallb_forall. split.
  - intros H. exists d. split; [reflexivity|]. apply Forall_forall. intros kv I. specialize (H kv I). destruct (as_int (fst kv)) as [z|] eqn:E; [|discriminate].
    split; [exists z; apply as_int_whole; exact E|apply nulls_spec; exact H].
  - intros (x & E & F) kv I. injection E as <-. rewrite Forall_forall in F. destruct (F kv I) as ((z & H1) & H2).
    apply as_int_whole in H1. rewrite H1. apply nulls_spec. exact H2.
Qed.
Lemma opt_ok : forall v ok P, (forall v, ok v = true <-> P v) -> ~ P VNone -> ((negb (is_none v) && negb (ok v))%bool = false <-> none_or P v).
Proof.
  intros v ok P H N. apply not_none; [apply none_or_dec| |exact N]. intros _. rewrite Bool.negb_false_iff. apply H.
Qed.

Lemma switch_truthy : forall v, switch v -> (truthy v = true <-> v = VBool true).
Proof. intros v [-> | ->]; cbn; split; intros; (reflexivity || discriminate). Qed.
Lemma switch_cases : forall v, switch v -> exists b, v = VBool b.
Proof. intros v [-> | ->]; eauto. Qed.

Lemma hist_nil : forall p g, hist_errs p g = [] <->
  switch (g ["is_enabled"]) /\ none_or bins (g ["bin_count_or_method"]) /\ none_or (at_least 1) (g ["num_quantiles"]).
Proof. intros p g. unfold hist_errs. rewrite !app_nil2, !when_nil, boolean_nil, bad_bins_spec, bad_int_spec. reflexivity. Qed.
Lemma mode_nil : forall p g, mode_errs p g = [] <-> switch (g ["is_enabled"]) /\ none_or (at_least 1) (g ["top_k_modes"]).
Proof. intros p g. unfold mode_errs. rewrite app_nil2, when_nil, boolean_nil, bad_int_spec. reflexivity. Qed.

Lemma numeric_nil : forall p g, numeric_errs p g = [] <-> numbers g.
Proof.
  intros p g. unfold numeric_errs, numbers. cbv zeta. cbn [flat_map].
  assert (E1 : String.eqb "histogram_and_quantiles" "histogram_and_quantiles" = true) by reflexivity. rewrite E1. clear E1.
  repeat match goal with |- context [if String.eqb ?a ?b then _ else _] =>
    let x := eval vm_compute in (String.eqb a b) in change (String.eqb a b) with x; cbv iota end.
  rewrite !app_nil2, !when_nil, !boolean_nil, hist_nil, mode_nil. unfold sub.
  split.
  - intros (HE & (((Hh & Hb & Hq) & Hmin & Hmax & Hsum & (Hmode & Hk) & Hmed & Hvar & Hsk & Hku & Hmad & Hbias & Hz & Hn & _) & C)).
    destruct C as (C1 & C2 & C3 & C4 & C5 & C6).
    split; [|split; [exact HE|split; [exact Hb|split; [exact Hq|split; [exact Hk|]]]]].
    + intros n I. cbn [In] in I. repeat destruct I as [<- | I]; [assumption ..|destruct I].
    + clear Hmin Hmax HE Hb Hq Hk Hbias Hz Hn.
      destruct (switch_cases _ Hsum) as (b1 & E1), (switch_cases _ Hvar) as (b2 & E2), (switch_cases _ Hsk) as (b3 & E3),
        (switch_cases _ Hku) as (b4 & E4), (switch_cases _ Hh) as (b5 & E5), (switch_cases _ Hmad) as (b6 & E6),
        (switch_cases _ Hmode) as (b7 & E7), (switch_cases _ Hmed) as (b8 & E8).
      rewrite E1, E2, E3, E4, E5, E6, E7, E8 in *. cbn [truthy] in *. clear -C1 C2 C3 C4 C5 C6.
      repeat split; [intros [= ->]|intros [= ->]|intros [= ->]|intros [[= ->] | [[= ->] | [= ->]]]].
      * destruct b1; [reflexivity|discriminate].
      * destruct b2; [reflexivity|rewrite Bool.orb_true_r in C2; discriminate].
      * destruct b3; [reflexivity|rewrite Bool.orb_true_r in C3; discriminate].
      * destruct b5; [reflexivity|discriminate].
      * destruct b5; [reflexivity|discriminate].
      * destruct b5; [reflexivity|discriminate].
  - intros (HS & HE & Hb & Hq & Hk & D1 & D2 & D3 & D4).
    assert (S' : forall n, In n ["min"; "max"; "mode"; "median"; "sum"; "variance"; "skewness"; "kurtosis"; "median_abs_deviation"; "num_zeros";
                   "num_negatives"; "histogram_and_quantiles"; "bias_correction"] -> exists b, g [n; "is_enabled"] = VBool b)
      by (intros n I; apply switch_cases, HS, I).
    destruct (S' "sum" ltac:(cbn; tauto)) as (b1 & E1), (S' "variance" ltac:(cbn; tauto)) as (b2 & E2), (S' "skewness" ltac:(cbn; tauto)) as (b3 & E3),
        (S' "kurtosis" ltac:(cbn; tauto)) as (b4 & E4), (S' "histogram_and_quantiles" ltac:(cbn; tauto)) as (b5 & E5),
        (S' "median_abs_deviation" ltac:(cbn; tauto)) as (b6 & E6), (S' "mode" ltac:(cbn; tauto)) as (b7 & E7), (S' "median" ltac:(cbn; tauto)) as (b8 & E8).
    split; [exact HE|]. split.
    + repeat split; try assumption; apply HS; cbn; tauto.
    + rewrite E1, E2, E3, E4, E5, E6, E7, E8 in *. cbn [truthy] in *. clear -D1 D2 D3 D4.
      assert (X : forall a b, (VBool a = VBool true -> VBool b = VBool true) -> (a = true -> b = true)).
      { intros a b H ->. specialize (H eq_refl). injection H as ->. reflexivity. }
      assert (F1 := X _ _ D1). assert (F2 := X _ _ D2). assert (F3 := X _ _ D3). clear D1 D2 D3.
      assert (D5 := X b6 b5 (fun h => D4 (or_introl h))). assert (D6 := X b7 b5 (fun h => D4 (or_intror (or_introl h)))).
      assert (D7 := X b8 b5 (fun h => D4 (or_intror (or_intror h)))). clear D4 X.
      clear -F1 F2 F3 D5 D6 D7. repeat split.
      * destruct b2; [rewrite F1 by reflexivity; reflexivity|apply Bool.andb_false_r].
      * destruct b3; [|apply Bool.andb_false_r]. rewrite F2 in * by reflexivity. rewrite F1 by reflexivity. reflexivity.
      * destruct b4; [|apply Bool.andb_false_r]. rewrite F3 in * by reflexivity. rewrite F2 in * by reflexivity. rewrite F1 by reflexivity. reflexivity.
      * destruct b6; [rewrite D5 by reflexivity; reflexivity|apply Bool.andb_false_r].
      * destruct b7; [rewrite D6 by reflexivity; reflexivity|apply Bool.andb_false_r].
      * destruct b8; [rewrite D7 by reflexivity; reflexivity|apply Bool.andb_false_r].
Qed.

Lemma category_nil : forall p g, category_errs p g = [] <-> categories g.
Proof.
  intros p g. unfold category_errs, categories. rewrite !app_nil2, !when_nil, boolean_nil, !bad_int_spec, !bad_ratio_spec.
  assert (X : forall a b P Q, ~ P VNone -> ~ Q VNone -> ((none_or P a /\ none_or Q b /\ xorb (is_none a) (is_none b) = false) <-> (a = VNone /\ b = VNone \/ P a /\ Q b))).
  { intros a b P Q NP NQ. unfold none_or. destruct (none_or_dec a) as [Na | Na], (none_or_dec b) as [Nb | Nb].
    - subst a b. cbn. tauto.
    - subst a. assert (is_none b = false) as -> by (destruct b; try reflexivity; congruence). cbn. intuition discriminate.
    - subst b. assert (is_none a = false) as -> by (destruct a; try reflexivity; congruence). cbn. intuition discriminate.
    - assert (is_none b = false) as -> by (destruct b; try reflexivity; congruence).
      assert (is_none a = false) as -> by (destruct a; try reflexivity; congruence). cbn. tauto. }
  specialize (X (g ["max_sample_size_to_check_stop_condition"]) (g ["stop_condition_unique_value_ratio"]) (at_least 0) fraction
    ltac:(intros (z & H & _); inversion H) ltac:(intros (q & H & _); discriminate)).
  assert (Y : (truthy (g ["cms"]) && match as_int (g ["cms_max_num_heavy_hitters"]) with Some _ => false | None => true end)%bool = false <->
    (~ nothing (g ["cms"]) -> exists z, whole (g ["cms_max_num_heavy_hitters"]) z)).
  { rewrite <- truthy_nothing. destruct (truthy (g ["cms"])); cbn [andb]; [|split; [discriminate|reflexivity]]. destruct (as_int (g ["cms_max_num_heavy_hitters"])) as [z|] eqn:E.
    - split; [|reflexivity]. intros _ _. exists z. apply as_int_whole. exact E.
    - split; [discriminate|]. intros H. destruct (H eq_refl) as (z & W). apply as_int_whole in W. congruence. }
  rewrite Y. clear Y. tauto.
Qed.
Lemma labeler_nil : forall p g, labeler_errs p g = [] <-> labels g.
Proof.
  intros p g. unfold labeler_errs, labels. rewrite !app_nil2, !when_nil, boolean_nil, bad_int_spec, (opt_ok _ _ text text_spec) by (intros (s & H); discriminate).
  rewrite (not_none (g ["data_labeler_object"]) _ (fun v => exists n, v = VLabeler n) (none_or_dec _)).
  - reflexivity.
  - intros _. destruct (g ["data_labeler_object"]); split; try discriminate; try (intros (m & H); discriminate); eauto.
  - intros (n & H). discriminate.
Qed.
Lemma correlation_nil : forall p g, correlation_errs p g = [] <->
  switch (g ["is_enabled"]) /\ none_or (fun v => exists a b l, v = VList (a :: b :: l) /\ Forall text (a :: b :: l)) (g ["columns"]).
Proof.
  intros p g. unfold correlation_errs. rewrite app_nil2, when_nil, boolean_nil.
  rewrite (not_none (g ["columns"]) _ (fun v => exists a b l, v = VList (a :: b :: l) /\ Forall text (a :: b :: l)) (none_or_dec _)).
  - reflexivity.
  - intros _. destruct (g ["columns"]) as [| | | | | | |l| |]; try (split; [discriminate|intros (u & w & x & H & _); discriminate]).
    rewrite Bool.orb_false_iff, Bool.negb_false_iff, texts_spec. destruct l as [|a [|b l]]; cbn [length Nat.leb].
    + split; [intros ([=] & _)|intros (a & b & x & H & _); discriminate].
    + split; [intros ([=] & _)|intros (a' & b & x & H & _); discriminate].
    + split; [intros (_ & F); exists a, b, l; auto|]. intros (a' & b' & x & H & F). split; [destruct (length l); reflexivity|]. injection H as -> -> ->. exact F.
  - intros (a & b & x & H & _). discriminate.
Qed.
Lemma precision_nil : forall p g, precision_errs p g = [] <->
  switch (g ["is_enabled"]) /\ none_or (fun v => exists q, amount v q /\ (0 <= q)%Q /\ (q <= 1)%Q) (g ["sample_ratio"]).
Proof.
  intros p g. unfold precision_errs. cbv zeta. rewrite !app_nil2, !when_nil, boolean_nil.
  assert (X : forall v, ((negb (is_none v) && match number v with Some _ => false | None => true end)%bool = false /\
     match number v with Some q => (negb (Qle_bool 0 q) || negb (Qle_bool q 1))%bool | None => false end = false) <->
     none_or (fun v => exists q, amount v q /\ (0 <= q)%Q /\ (q <= 1)%Q) v).
  { intros v. unfold none_or. destruct (none_or_dec v) as [N | N].
    - subst v. cbn. tauto.
    - assert (is_none v = false) as -> by (destruct v; try reflexivity; congruence). destruct (number v) as [q|] eqn:E; cbn [negb andb].
      + rewrite unit_spec. apply number_amount in E. split; [intros (_ & H); right; eauto|]. intros [H | (x & A & H)]; [contradiction|].
        rewrite (amount_fun _ _ _ E A). auto.
      + split; [intros ([=] & _)|]. intros [H | (x & A & _)]; [contradiction|]. apply number_amount in A. congruence. }
  specialize (X (g ["sample_ratio"])). tauto.
Qed.
Lemma sampling_spec : forall r, (is_none r = false /\ (negb (is_none r) && match number r with Some _ => false | None => true end)%bool = false /\
  (match number r with Some q => negb (negb (Qle_bool q 0) && Qle_bool q 1) | None => false end)%bool = false) <->
  exists q, amount r q /\ (0 < q)%Q /\ (q <= 1)%Q.
Proof.
  intros r. destruct (number r) as [q|] eqn:E.
  - rewrite Bool.andb_false_r, Bool.negb_false_iff, Bool.andb_true_iff, Bool.negb_true_iff, Qle_bool_iff.
    assert (L : Qle_bool q 0 = false <-> (0 < q)%Q).
    { rewrite <- Bool.not_true_iff_false, Qle_bool_iff. split; [apply Qnot_le_lt|apply Qlt_not_le]. }
    rewrite L. apply number_amount in E. split.
    + intros (_ & _ & H). eauto.
    + intros (x & A & H). rewrite (amount_fun _ _ _ E A). repeat split; try apply H. destruct r; try reflexivity. destruct A as [A | (z & A & _)]; [discriminate|inversion A].
  - split.
    + intros (N & H & _). rewrite N in H. discriminate.
    + intros (x & A & _). apply number_amount in A. congruence.
Qed.
Lemma free_nil : forall p g, text_profiler_errs p g = [] <-> free_text g.
Proof.
  intros p g. unfold text_profiler_errs, free_text. rewrite !app_nil2, !when_nil, boolean_nil, switch_spec, bad_strings_spec, !bad_int_spec. reflexivity.
Qed.

Lemma structured_nil : forall p g, structured_errs p g = [] <-> tables g.
Proof.
  intros p g. unfold structured_errs, float_errs, text_errs, rows_errs. cbv zeta.
  rewrite !app_nil2, !numeric_nil, !precision_nil, category_nil, labeler_nil, correlation_nil, !boolean_nil, !when_nil.
  rewrite (opt_ok _ _ nulls nulls_spec) by (intros (d & H & _); discriminate).
  rewrite (opt_ok _ _ column_nulls column_nulls_spec) by (intros (d & H & _); discriminate).
  assert (SR := sampling_spec (g ["sampling_ratio"])).
  unfold sub, tables. split.
  - intros (Hmp & Hint & (Hfl & Hp1 & Hp2) & Hdt & (Htx & Hv & Hz & Hn) & Hord & Hcat & Hlab & (Hc1 & Hc2) & Hchi & Hnr & Hrow & Hnul & Hcnul & H1 & H2 & H3 & H4).
    assert (ZF : forall n, In n ["num_zeros"; "num_negatives"] -> truthy (g ["text"; n; "is_enabled"]) = false -> g ["text"; n; "is_enabled"] = VBool false).
    { intros n I T. assert (S1 : switch (g ["text"; n; "is_enabled"])) by (apply (proj1 Htx); cbn [In] in I |- *; tauto).
      destruct S1 as [E | E]; rewrite E in T; [discriminate|exact E]. }
    repeat match goal with |- _ /\ _ => split end; try assumption.
    + intros n I. cbn [In] in I. repeat destruct I as [<- | I]; [assumption ..|destruct I].
    + intros k I. cbn [In] in I. repeat destruct I as [<- | I]; [assumption ..|destruct I].
    + apply ZF; cbn; auto.
    + apply ZF; cbn; auto.
    + apply SR. auto.
    + intros E. rewrite E in H4. destruct (proj1 Hcat) as [C | C]; [exact C|]. rewrite C in H4. discriminate.
  - intros (HS & HN & Hp1 & Hp2 & Hv & Hz & Hn & Hcat & Hlab & Hcc & Hnul & Hcnul & Hr & Hchi).
    apply SR in Hr. destruct Hr as (R1 & R2 & R3). rewrite Hz, Hn.
    repeat match goal with |- _ /\ _ => split end; try assumption; try reflexivity; try (apply HS; cbn; tauto); try (apply HN; cbn; tauto).
    assert (Sc : switch (g ["chi2_homogeneity"; "is_enabled"])) by (apply HS; cbn; tauto). destruct Sc as [E | E].
    + rewrite (Hchi E). reflexivity.
    + rewrite E. apply Bool.andb_false_r.
Qed.

(** Validation reports no errors exactly for acceptable options. *)
Theorem C77_valid : forall g, profiler_errs g = [] <-> acceptable g.
Proof.
  intros g. unfold profiler_errs, unstructured_errs, acceptable. rewrite !app_nil2, structured_nil, free_nil, labeler_nil. reflexivity.
Qed.

(** What is computed is what it is computed from: for whole numbers, numbers and lengths of texts. *)
Theorem C77_dependencies : forall g, profiler_errs g = [] ->
  (forall k m need, In k ["int"; "float"; "text"] ->
     In (m, need) [("variance", "sum"); ("skewness", "sum"); ("skewness", "variance"); ("kurtosis", "sum"); ("kurtosis", "variance"); ("kurtosis", "skewness");
                   ("median_abs_deviation", "histogram_and_quantiles"); ("mode", "histogram_and_quantiles"); ("median", "histogram_and_quantiles")] ->
     g ["structured_options"; k; m; "is_enabled"] = VBool true -> g ["structured_options"; k; need; "is_enabled"] = VBool true) /\
  (forall m, In m ["num_zeros"; "num_negatives"] -> g ["structured_options"; "text"; m; "is_enabled"] = VBool false) /\
  (g ["structured_options"; "chi2_homogeneity"; "is_enabled"] = VBool true -> g ["structured_options"; "category"; "is_enabled"] = VBool true).
Proof.
  intros g H. apply C77_valid in H. destruct H as ((_ & HN & _ & _ & _ & Hz & Hn & _ & _ & _ & _ & _ & _ & Hchi) & _).
  split; [|split; [|exact Hchi]].
  - intros k m need Ik Im E. destruct (HN k Ik) as (_ & _ & _ & _ & _ & D1 & D2 & D3 & D4). cbn beta in D1, D2, D3, D4.
    cbn [In] in Im. repeat destruct Im as [Im | Im]; try (injection Im as <- <-; auto 7); destruct Im.
  - intros m I. cbn [In] in I. destruct I as [<- | [<- | []]]; assumption.
Qed.

(** The options as made, and those of the presets, are acceptable. *)
Theorem C77_defaults : validate profiler_default = [] /\
  forall n o, run_preset n = Ok o -> validate o = [].
Proof.
  split; [vm_compute; reflexivity|]. intros n o H. unfold run_preset, presets in H.
  destruct (String.eqb_spec n "complete") as [-> | _]; [clear -H; vm_compute in H; injection H as <-; vm_compute; reflexivity|].
  destruct (String.eqb_spec n "data_types") as [-> | _]; [clear -H; vm_compute in H; injection H as <-; vm_compute; reflexivity|].
  destruct (String.eqb_spec n "numeric_stats_disabled") as [-> | _]; [clear -H; vm_compute in H; injection H as <-; vm_compute; reflexivity|].
  destruct (String.eqb_spec n "lower_memory_sketching") as [-> | _]; [clear -H; vm_compute in H; injection H as <-; vm_compute; reflexivity|].
  discriminate.
Qed.

Lemma hit_numbers : forall k c p, In (k, c) [("int", CInt); ("float", CFloat); ("text", CText)] ->
  (hit profiler_default ["structured_options"; k; "is_numeric_stats_enabled"] p <-> exists m, the_stats c m /\ p = ["structured_options"; k; m; "is_enabled"]).
Proof.
  intros k c p I.
  assert (W : wf profiler_default) by exact C76_defaults.
  assert (X : exists a2, dget (match structured_default with Opt _ a => a | _ => [] end) k = Some (Opt c a2) /\ wf (Opt c a2)).
  { inversion W as [|? ? _ F _]; subst. inversion F as [|? ? W1 _]; subst. inversion W1 as [|? ? _ F1 _]; subst.
    assert (G : exists a2, dget (match structured_default with Opt _ a => a | _ => [] end) k = Some (Opt c a2)).
    { cbn [In] in I. destruct I as [E | [E | [E | []]]]; injection E as <- <-; vm_compute; eauto. }
    destruct G as (a2 & G). exists a2. split; [exact G|]. eapply wf_in; [exact F1|exact G]. }
  destruct X as (a2 & G2 & W2).
  assert (Nk : k <> "*") by (cbn [In] in I; destruct I as [E | [E | [E | []]]]; injection E as <- _; discriminate).
  assert (Nc : of_numbers c) by (cbn [In] in I; unfold of_numbers; destruct I as [E | [E | [E | []]]]; injection E as _ <-; auto).
  assert (K2 : In k (dkeys (match structured_default with Opt _ a => a | _ => [] end))) by (apply dget_Some_In in G2; apply (in_map fst) in G2; exact G2).
  unfold profiler_default. set (sd := structured_default) in *. set (ud := unstructured_default).
  assert (ES : exists a1, sd = Opt CStructured a1) by (unfold sd, structured_default; eauto). destruct ES as (a1 & ES). rewrite ES in *. clearbody ud. clear sd ES.
  split.
  - intros H. inversion H as [? ? ? ? ? ? N1 G|? ? ? ? ? N1|? ? ? ? ? ? ? ? ? N1 R1 G H1|? ? ? ? ? ? ? ? ? ? N1 R1 O G H1]; subst.
    + inversion N1.
    + inversion N1.
    + inversion N1; subst. cbn in G. injection G as <- <-. clear H N1.
      inversion H1 as [? ? ? ? ? ? N1 G|? ? ? ? ? N1|? ? ? ? ? ? ? ? ? N1 R2 G H2|? ? ? ? ? ? ? ? ? ? N1 R2 O G H2]; subst.
      * inversion N1; subst; congruence.
      * inversion N1; subst; congruence.
      * inversion N1; subst; [|congruence]. rewrite G2 in G. injection G as <- <-. clear H1 N1.
        inversion H2 as [? ? ? ? ? ? N1 G|? ? ? ? ? N1 O T|? ? ? ? ? ? ? ? ? N1 R3 G H3|? ? ? ? ? ? ? ? ? ? N1 R3 O G H3]; subst.
        -- exfalso. inversion N1; subst. inversion W2 as [|? ? _ _ NS]; subst. apply (proj1 (NS Nc)). apply dget_Some_In in G. apply (in_map fst) in G. exact G.
        -- eauto.
        -- inversion N1; subst; congruence.
        -- inversion N1; subst. destruct R3; congruence.
      * inversion N1; subst; [|congruence]. exfalso. apply O. left. exact K2.
    + inversion N1; subst. exfalso. apply O. left. cbn. auto.
  - intros (m & T & ->). eapply hit_in; [constructor; discriminate|discriminate|reflexivity|].
    eapply hit_in; [constructor; exact Nk|discriminate|exact G2|]. eapply hit_stats; [constructor; discriminate|exact Nc|exact T].
Qed.

Lemma the_stats_dec : forall c m, the_stats c m \/ ~ the_stats c m.
Proof.
  intros c m. unfold the_stats.
  assert (D : forall l : list string, In m l \/ ~ In m l) by (intros l; destruct (lmem l m) eqn:E; [left; apply lmem_In; exact E|right; apply lmem_false; exact E]).
  destruct (D ["min"; "max"; "mode"; "median"; "sum"; "variance"; "skewness"; "kurtosis"; "median_abs_deviation"; "histogram_and_quantiles"]) as [H | H]; [tauto|].
  destruct (D ["num_zeros"; "num_negatives"]) as [H2 | H2]; [|tauto]. destruct c; (left; right; split; [discriminate|exact H2]) || (right; tauto).
Qed.

(** Acceptable options stay so when the statistics of one kind of column are switched on or off together. *)
Theorem C77_switch : forall o k b o', shape o = shape profiler_default -> In k ["int"; "float"; "text"] -> validate o = [] ->
  profiler_set o [(["structured_options"; k; "is_numeric_stats_enabled"], VBool b)] = (o', None) -> validate o' = [].
Proof.
  intros o k b o' S Ik V E.
  assert (Ic : exists c, In (k, c) [("int", CInt); ("float", CFloat); ("text", CText)]).
  { cbn [In] in Ik. destruct Ik as [<- | [<- | [<- | []]]]; eexists; cbn; eauto. }
  destruct Ic as (c & Ic).
  assert (E1 : set_key o ["structured_options"; k; "is_numeric_stats_enabled"] (VBool b) = (o', None)).
  { unfold profiler_set in E. cbn [existsb fst specified] in E. destruct (lmem ["*"; "structured_options"; "unstructured_options"] "structured_options") eqn:L; [|discriminate L].
    cbn [negb andb orb set_all] in E. destruct (set_key o _ _) as (o1, [e|]) eqn:X; [discriminate|]. exact E. }
  assert (W : wf o) by (apply (wf_shape profiler_default C76_defaults); symmetry; exact S).
  destruct (C76_one _ _ _ _ _ W E1) as (_ & S' & A & B).
  assert (HIT : forall p, hit o ["structured_options"; k; "is_numeric_stats_enabled"] p <-> exists m, the_stats c m /\ p = ["structured_options"; k; m; "is_enabled"]).
  { intros p. rewrite <- (hit_numbers k c p Ic). split; intros H; eapply hit_shape; eauto. }
  set (g := fun p => match get o p with Some v => v | None => VNone end).
  set (g' := fun p => match get o' p with Some v => v | None => VNone end).
  assert (A' : forall p, (forall m, the_stats c m -> p <> ["structured_options"; k; m; "is_enabled"]) -> g' p = g p).
  { intros p H. unfold g, g'. rewrite A; [reflexivity|]. intros X. apply HIT in X. destruct X as (m & T & ->). eapply H; eauto. }
  assert (B' : forall m, the_stats c m -> g' ["structured_options"; k; m; "is_enabled"] = VBool b).
  { intros m T. unfold g'. destruct (get o ["structured_options"; k; m; "is_enabled"]) as [w|] eqn:G.
    - destruct (B _ w G) as [X | (X & _)]; [apply HIT; eauto|rewrite X; reflexivity|congruence].
    - exfalso. apply (get_shape _ _ profiler_default S) in G. clear -G T Ic.
      assert (I : In m ["min"; "max"; "mode"; "median"; "sum"; "variance"; "skewness"; "kurtosis"; "median_abs_deviation"; "histogram_and_quantiles"; "num_zeros"; "num_negatives"])
        by (unfold the_stats in T; cbn [In] in T |- *; tauto). clear T.
      cbn [In] in Ic, I. destruct Ic as [Ic | [Ic | [Ic | []]]]; injection Ic as <- <-;
        repeat destruct I as [<- | I]; try (vm_compute in G; discriminate G); destruct I. }
  change (profiler_errs g = []) in V. change (profiler_errs g' = []).
  apply C77_valid in V. apply C77_valid. clearbody g g'. clear -V A' B' Ik Ic.
  destruct V as ((HS & HN & Hp1 & Hp2 & Hv & Hz & Hn & Hcat & Hlab & Hcc & Hnul & Hcnul & Hr & Hchi) & HU & HL).
  assert (Z : forall n r, n <> "structured_options" -> g' (n :: r) = g (n :: r)) by (intros n r N; apply A'; intros m _ [= X _]; congruence).
  assert (Y : forall n r, n <> k -> g' ("structured_options" :: n :: r) = g ("structured_options" :: n :: r)) by (intros n r N; apply A'; intros m _ [= X _]; congruence).
  assert (X2 : forall q n, g' ["structured_options"; q; n] = g ["structured_options"; q; n]) by (intros q n; apply A'; intros m _ X; discriminate X).
  assert (X1 : forall q, g' ["structured_options"; q] = g ["structured_options"; q]) by (intros q; apply A'; intros m _ X; discriminate X).
  assert (X3 : forall q n r, r <> "is_enabled" -> g' ["structured_options"; q; n; r] = g ["structured_options"; q; n; r])
    by (intros q n r N; apply A'; intros m _ X; congruence).
  assert (X4 : forall q m, (q <> k \/ ~ the_stats c m) -> g' ["structured_options"; q; m; "is_enabled"] = g ["structured_options"; q; m; "is_enabled"]).
  { intros q m N. apply A'. intros m' T X. injection X as X X'. subst. tauto. }
  split; [|split].
  - unfold tables in *. cbn beta in *.
    assert (NK : forall n, ~ In n ["int"; "float"; "text"] -> n <> k) by (intros n N ->; contradiction).
    repeat match goal with |- _ /\ _ => split end.
    + intros n I. rewrite X2. apply HS, I.
    + intros q Iq. destruct (String.string_dec q k) as [-> | Nq].
      * destruct (HN k Iq) as (N1 & N2 & N3 & N4 & N5 & _). unfold numbers. cbn beta in *.
        assert (ST : forall m, In m ["min"; "max"; "mode"; "median"; "sum"; "variance"; "skewness"; "kurtosis"; "median_abs_deviation"; "histogram_and_quantiles"] ->
          g' ["structured_options"; k; m; "is_enabled"] = VBool b) by (intros m I; apply B'; left; exact I).
        split; [|split; [rewrite X2; exact N2|split; [rewrite X3 by discriminate; exact N3|split; [rewrite X3 by discriminate; exact N4|split; [rewrite X3 by discriminate; exact N5|]]]]].
        -- intros n I. destruct (the_stats_dec c n) as [T | T].
           ++ rewrite (B' n T). unfold switch. destruct b; auto.
           ++ rewrite X4 by auto. apply N1, I.
        -- rewrite !ST by (cbn; tauto). tauto.
      * assert (N := HN q Iq). unfold numbers in *. cbn beta in *.
        destruct N as (N1 & N2 & N3 & N4 & N5 & N6). rewrite !Y by exact Nq.
        split; [intros n I; rewrite Y by exact Nq; apply N1, I|]. auto.
    + rewrite X4; [exact Hp1|]. right. unfold the_stats. cbn [In]. intuition discriminate.
    + rewrite X3 by discriminate. exact Hp2.
    + rewrite X4; [exact Hv|]. right. unfold the_stats. cbn [In]. intuition discriminate.
    + rewrite X4; [exact Hz|]. cbn [In] in Ic. destruct Ic as [Ic | [Ic | [Ic | []]]]; injection Ic as <- <-; [left; discriminate|left; discriminate|right].
      unfold the_stats. cbn [In]. intuition (try discriminate; congruence).
    + rewrite X4; [exact Hn|]. cbn [In] in Ic. destruct Ic as [Ic | [Ic | [Ic | []]]]; injection Ic as <- <-; [left; discriminate|left; discriminate|right].
      unfold the_stats. cbn [In]. intuition (try discriminate; congruence).
    + unfold categories in *. cbn beta in *. rewrite !X2. exact Hcat.
    + unfold labels in *. cbn beta in *. rewrite !X2. exact Hlab.
    + rewrite X2. exact Hcc.
    + rewrite X1. exact Hnul.
    + rewrite X1. exact Hcnul.
    + rewrite X1. exact Hr.
    + rewrite !X2. exact Hchi.
  - unfold free_text in *. cbn beta in *. rewrite !Z by discriminate. exact HU.
  - unfold labels in *. cbn beta in *. rewrite !Z by discriminate. exact HL.
Qed.

Definition values (o : opt) : list string -> val := fun p => match get o p with Some v => v | None => VNone end.

(** The statistics of rows are not validated: a method of hashing that does not exist, a number of registers below one, and switches
    that are not Boolean are accepted. *)
Theorem C77_rows_refuted : ~ forall o, validate o = [] ->
  In (values o ["structured_options"; "row_statistics"; "unique_count"; "hashing_method"]) [VStr "full"; VStr "hll"] \/
  at_least 1 (values o ["structured_options"; "row_statistics"; "unique_count"; "hll"; "register_count"]) \/
  switch (values o ["structured_options"; "row_statistics"; "null_count"; "is_enabled"]).
Proof.
  intros H. specialize (H (fst (profiler_set profiler_default
    [(["row_statistics"; "unique_count"; "hashing_method"], VStr "sha"); (["row_statistics"; "unique_count"; "hll"; "register_count"], VInt 0);
     (["row_statistics"; "null_count"; "is_enabled"], VStr "no")]))).
  destruct H as [H | [H | H]].
  - vm_compute. reflexivity.
  - vm_compute in H. intuition discriminate.
  - destruct H as (z & Wz & L). vm_compute in Wz. inversion Wz; subst. apply L. reflexivity.
  - vm_compute in H. destruct H; discriminate.
Qed.
(** The switches of the characters and words of free texts need not be Boolean. *)
Theorem C77_switches_refuted : ~ forall o m, validate o = [] -> In m ["vocab"; "words"] -> switch (values o ["unstructured_options"; "text"; m; "is_enabled"]).
Proof.
  intros H. specialize (H (fst (profiler_set profiler_default [(["unstructured_options"; "text"; "words"; "is_enabled"], VStr "no")])) "words").
  specialize (H ltac:(vm_compute; reflexivity) ltac:(cbn; auto)). vm_compute in H. destruct H; discriminate.
Qed.
(** A count-min sketch may be asked for with a number of heavy hitters below one, and without its other parameters. *)
Theorem C77_cms_refuted : ~ forall o, validate o = [] -> ~ nothing (values o ["structured_options"; "category"; "cms"]) ->
  at_least 1 (values o ["structured_options"; "category"; "cms_max_num_heavy_hitters"]) /\
  fraction (values o ["structured_options"; "category"; "cms_confidence"]).
Proof.
  intros H. specialize (H (fst (profiler_set profiler_default
    [(["category"; "cms"], VStr "yes"); (["category"; "cms_confidence"], VNone); (["category"; "cms_max_num_heavy_hitters"], VInt (-3))]))).
  destruct H as ((z & Wz & L) & _); [vm_compute; reflexivity|apply truthy_nothing; vm_compute; reflexivity|]. vm_compute in Wz. inversion Wz; subst. apply L. reflexivity.
Qed.

(** Example: variance without the sum, categories switched off while the chi-squared test is on, a ratio of 0. *)
Example C77_example :
  map fst (validate (fst (profiler_set profiler_default [(["float"; "sum"; "is_enabled"], VBool false)]))) =
    [["ProfilerOptions"; "structured_options"; "float"]; ["ProfilerOptions"; "structured_options"; "float"]; ["ProfilerOptions"; "structured_options"; "float"]] /\
  map snd (validate (fst (profiler_set profiler_default [(["category"; "is_enabled"], VBool false); (["structured_options"; "sampling_ratio"], VFloat 0)]))) =
    ["sampling_ratio"; "categories for chi-squared"].
Proof. split; vm_compute; reflexivity. Qed.
