(** C80: validation of data against known anomalies *)
From Coq Require Import ZArith QArith Lia.
From Verif Require Import PyCommon PyDict PyString ListFacts ValidatorModel.
Local Open Scope nat_scope.
Local Open Scope string_scope.
Local Open Scope list_scope.

(** Spec *)
Inductive anomalous : string -> rule -> pyfloat -> Prop :=
| in_range : forall s e q, (s <= q)%Q -> (q <= e)%Q -> anomalous "range" (RRange (Some (Num s)) (Some (Num e))) (Some (Num q))
| in_list : forall l p q, In (INum (Num p)) l -> (q == p)%Q -> anomalous "list" (RList l) (Some (Num q)).
Inductive comparable : string -> rule -> pyfloat -> Prop :=
| range_both : forall s e x, comparable "range" (RRange (Some s) (Some e)) (Some x)
| range_below : forall s x, (forall p q, s = Num p -> x = Num q -> (q < p)%Q) -> comparable "range" (RRange (Some s) None) (Some x)
| list_number : forall r x, comparable "list" r (Some x).
(** The labels of the rows with a property, in order *)
Inductive selects (P : pyfloat -> Prop) : column -> list Z -> Prop :=
| selects_nil : selects P [] []
| selects_yes : forall i x c l, P x -> selects P c l -> selects P ((i, x) :: c) (i :: l)
| selects_no : forall i x c l, ~ P x -> selects P c l -> selects P ((i, x) :: c) l.
Definition renumbered (c : column) : column := combine (map Z.of_nat (seq 0 (length c))) (map snd c).
Definition rows_of (df : string) (c : column) : column := if String.eqb (lower_string df) "dask" then renumbered c else c.
Definition rules_of (cfg : config) : dict string (dict string rule) := match known cfg with Some d => d | None => [] end.
Definition frame_of (cfg : config) : string := match df_type cfg with Some s => s | None => "" end.
Definition well_formed (cfg : config) : Prop := NoDup (dkeys (rules_of cfg)) /\ forall k rs, In (k, rs) (rules_of cfg) -> NoDup (dkeys rs).

Definition check (sub : string) (r : rule) (x : pyfloat) : result bool := if String.eqb sub "range" then is_in_range x r else is_in_list x r.
Lemma le_spec : forall p q, le (Num p) (Num q) = true <-> (p <= q)%Q.
Proof. intros p q. cbn. apply Qle_bool_iff. Qed.
Lemma check_true : forall sub r x, In sub ["range"; "list"] -> (check sub r x = Ok true <-> anomalous sub r x).
Proof.
  intros sub r x I. unfold check. split.
  - intros H. destruct I as [<- | [<- | []]]; cbn [String.eqb Ascii.eqb Bool.eqb] in H.
    + destruct r as [[[s|]|] e|l], x as [[q|]|]; cbn in H; try discriminate. destruct (Qle_bool s q) eqn:L; [|discriminate].
      destruct e as [[e|]|]; try discriminate. injection H as H. constructor; apply Qle_bool_iff; assumption.
    + destruct x as [x|]; cbn in H; [|discriminate]. destruct r as [s e|l]; [discriminate|]. injection H as H. apply existsb_exists in H.
      destruct H as (i & Ii & E). destruct x as [q|], i as [[p|]|]; try discriminate. apply in_list with p; [exact Ii|apply Qeq_bool_iff, E].
  - intros [s e q H1 H2|l p q H1 H2]; cbn [String.eqb Ascii.eqb Bool.eqb].
    + cbn. apply Qle_bool_iff in H1, H2. rewrite H1, H2. reflexivity.
    + cbn. f_equal. apply existsb_exists. exists (INum (Num p)). split; [exact H1|]. apply Qeq_bool_iff. exact H2.
Qed.
Lemma check_ok : forall sub r x, In sub ["range"; "list"] -> ((exists b, check sub r x = Ok b) <-> comparable sub r x).
Proof.
  intros sub r x I. unfold check. split.
  - intros (b & H). destruct I as [<- | [<- | []]]; cbn [String.eqb Ascii.eqb Bool.eqb] in H.
    + destruct r as [[s|] e|l], x as [x|]; cbn in H; try discriminate. destruct e as [e|]; [constructor|]. constructor. intros p q -> ->.
      cbn in H. destruct (Qle_bool p q) eqn:L; [discriminate|]. destruct (Qlt_le_dec q p) as [Y|Y]; [exact Y|]. apply Qle_bool_iff in Y. congruence.
    + destruct x as [x|]; [constructor|discriminate].
  - intros [s e y|s y H|r' y]; cbn [String.eqb Ascii.eqb Bool.eqb].
    + cbn. destruct (le s y); eauto.
    + cbn. destruct (le s y) eqn:L; [|eauto]. destruct s as [p|], y as [q|]; try discriminate. apply Qle_bool_iff in L. specialize (H p q eq_refl eq_refl).
      exfalso. apply (Qlt_not_le _ _ H L).
    + cbn. destruct r'; eauto.
Qed.

Lemma apply_all_ok : forall f c l, apply_all f c = Ok l -> map fst l = map fst c /\ Forall2 (fun ib ix => f (snd ix) = Ok (snd ib)) l c.
Proof.
  intros f. induction c as [|(i, x) c IH]; cbn; intros l H; [injection H as <-; split; constructor|].
  destruct (f x) as [b|] eqn:F; [|discriminate]. cbn in H. destruct (apply_all f c) as [l'|] eqn:A; [|discriminate]. cbn in H. injection H as <-.
  destruct (IH l' eq_refl) as (E & G). split; [cbn; congruence|]. constructor; [exact F|exact G].
Qed.
Lemma apply_all_defined : forall f c, (exists l, apply_all f c = Ok l) <-> forall i x, In (i, x) c -> exists b, f x = Ok b.
Proof.
  intros f. induction c as [|(i, x) c IH]; cbn.
  - split; [intros _ i x []|eauto].
  - split.
    + intros (l & H). destruct (f x) as [b|] eqn:F; [|discriminate]. cbn in H. destruct (apply_all f c) as [l'|] eqn:A; [|discriminate].
      intros j y [E | I]; [injection E as <- <-; eauto|]. apply (proj1 IH (ex_intro _ l' eq_refl) j y I).
    + intros H. destruct (H i x (or_introl eq_refl)) as (b & ->). cbn. destruct (proj2 IH) as (l & ->); [intros j y I; apply (H j y); right; exact I|]. cbn. eauto.
Qed.
Lemma selects_labels : forall f P c l, (forall x, f x = Ok true <-> P x) -> apply_all f c = Ok l -> selects P c (labels l).
Proof.
  intros f P. induction c as [|(i, x) c IH]; cbn; intros l HP H; [injection H as <-; constructor|].
  destruct (f x) as [b|] eqn:F; [|discriminate]. cbn in H. destruct (apply_all f c) as [l'|] eqn:A; [|discriminate]. cbn in H. injection H as <-.
  unfold labels in *. cbn [filter snd]. destruct b; cbn [map fst].
  - apply selects_yes; [apply HP, F|apply IH; auto].
  - apply selects_no; [intros X; apply HP in X; congruence|apply IH; auto].
Qed.
Lemma selects_positions : forall f P c l k, (forall x, f x = Ok true <-> P x) -> apply_all f c = Ok l ->
  selects P (combine (map Z.of_nat (seq k (length c))) (map snd c)) (positions k l).
Proof.
  intros f P. induction c as [|(i, x) c IH]; cbn; intros l k HP H; [injection H as <-; constructor|].
  destruct (f x) as [b|] eqn:F; [|discriminate]. cbn in H. destruct (apply_all f c) as [l'|] eqn:A; [|discriminate]. cbn in H. injection H as <-.
  cbn [positions]. replace (k + 1) with (S k) by lia. destruct b.
  - apply selects_yes; [apply HP, F|apply IH; auto].
  - apply selects_no; [intros X; apply HP in X; congruence|apply IH; auto].
Qed.

Lemma get_put : forall rep k sub x k', get_rule (put rep k sub x) k' = if PyDict.eqb k k' then dset (get_rule rep k) sub x else get_rule rep k'.
Proof. intros rep k sub x k'. unfold put, get_rule at 1. rewrite dget_dset. destruct (PyDict.eqb k k'); reflexivity. Qed.
Lemma dget_put : forall rep k sub x k', k' <> k -> dget (put rep k sub x) k' = dget rep k'.
Proof. intros rep k sub x k' N. unfold put. rewrite dget_dset. destruct (PyDict.eqb_spec k k'); [congruence|reflexivity]. Qed.
Lemma dset_dset : forall {K V} {E : EqDecB K} (d : dict K V) k (v w : V), dset (dset d k v) k w = dset d k w.
Proof.
  induction d as [|(k', v') d IH]; intros k v w; cbn; [rewrite PyDict.eqb_refl; reflexivity|].
  destruct (PyDict.eqb_spec k' k) as [-> | N]; cbn; [rewrite PyDict.eqb_refl; reflexivity|].
  destruct (PyDict.eqb_spec k' k); [congruence|]. rewrite IH. reflexivity.
Qed.

Definition outcome (df : string) (c : column) (sub : string) (r : rule) (out : list Z) : Prop := selects (anomalous sub r) (if String.eqb df "dask" then renumbered c else c) out.
Lemma run_rule_ok : forall df k c rep sub r rep', run_rule df k c rep sub r = (rep', None) ->
  In sub ["range"; "list"] /\ (df = "dask" \/ df = "pandas") /\ (forall i x, In (i, x) c -> comparable sub r x) /\
  exists out, outcome df c sub r out /\ rep' = put (put rep k sub None) k sub (Some out).
Proof.
  intros df k c rep sub r rep' H. unfold run_rule in H. destruct (lmem ["range"; "list"] sub) eqn:M; cbn [negb] in H; [|discriminate].
  apply lmem_In in M. fold (check sub r) in H.
  assert (D : forall l, apply_all (check sub r) c = Ok l -> forall i x, In (i, x) c -> comparable sub r x).
  { intros l A i x I. apply check_ok; [exact M|]. apply (proj1 (apply_all_defined _ _) (ex_intro _ l A) i x I). }
  split; [exact M|]. unfold outcome. destruct (String.eqb_spec df "dask") as [-> | N1].
  - change (fun x => if String.eqb sub "range" then is_in_range x r else is_in_list x r) with (check sub r) in H.
    destruct (apply_all (check sub r) c) as [l|] eqn:A; [|discriminate]. injection H as <-. split; [auto|]. split; [eauto|].
    exists (positions 0 l). split; [|reflexivity]. apply (selects_positions (check sub r)); [intros x; apply check_true, M|exact A].
  - destruct (String.eqb_spec df "pandas") as [-> | N2]; [|discriminate].
    change (fun x => if String.eqb sub "range" then is_in_range x r else is_in_list x r) with (check sub r) in H.
    destruct (apply_all (check sub r) c) as [l|] eqn:A; [|discriminate]. injection H as <-. split; [auto|]. split; [eauto|].
    exists (labels l). split; [|reflexivity]. apply (selects_labels (check sub r)); [intros x; apply check_true, M|exact A].
Qed.
Lemma run_rule_defined : forall df k c rep sub r, In sub ["range"; "list"] -> (df = "dask" \/ df = "pandas") -> (forall i x, In (i, x) c -> comparable sub r x) ->
  exists rep', run_rule df k c rep sub r = (rep', None).
Proof.
  intros df k c rep sub r M D C. unfold run_rule. destruct (lmem ["range"; "list"] sub) eqn:L; [|apply lmem_false in L; contradiction]. cbn [negb].
  change (fun x => if String.eqb sub "range" then is_in_range x r else is_in_list x r) with (check sub r).
  destruct (proj2 (apply_all_defined (check sub r) c)) as (l & ->).
  - intros i x I. apply check_ok; [exact M|]. apply (C i x I).
  - destruct D as [-> | ->]; cbn [String.eqb Ascii.eqb Bool.eqb]; eauto.
Qed.

Lemma run_rules_ok : forall df k c rs rep rep', NoDup (dkeys rs) -> run_rules df k c rep rs = (rep', None) ->
  (rs <> [] -> df = "dask" \/ df = "pandas") /\
  (forall sub r, In (sub, r) rs -> In sub ["range"; "list"] /\ (forall i x, In (i, x) c -> comparable sub r x) /\
     exists out, dget (get_rule rep' k) sub = Some (Some out) /\ outcome df c sub r out) /\
  (forall sub, ~ In sub (dkeys rs) -> dget (get_rule rep' k) sub = dget (get_rule rep k) sub) /\
  (forall k', k' <> k -> dget rep' k' = dget rep k') /\ (rs <> [] \/ dget rep k <> None -> dget rep' k <> None).
Proof.
  intros df k c. induction rs as [|(sub, r) rs IH]; intros rep rep' ND H; cbn [run_rules] in H.
  - injection H as <-. split; [congruence|]. split; [intros s r []|]. split; [auto|]. split; [auto|]. intros [X | X]; [congruence|exact X].
  - destruct (run_rule df k c rep sub r) as (rep1 & [e|]) eqn:R; [discriminate|]. destruct (run_rule_ok _ _ _ _ _ _ _ R) as (M & D & C & out & O & E1).
    cbn [dkeys map fst] in ND. inversion ND as [|? ? NI ND']; subst. destruct (IH _ _ ND' H) as (_ & H2 & H3 & H4 & H5).
    split; [auto|]. split; [|split; [|split]].
    + intros s r' [X | I]; [|apply H2, I]. injection X as <- <-. split; [exact M|]. split; [exact C|]. exists out. split; [|exact O].
      rewrite H3 by exact NI. rewrite get_put, PyDict.eqb_refl, dget_dset, PyDict.eqb_refl. reflexivity.
    + intros s NS. cbn in NS. rewrite H3 by tauto. rewrite !get_put, !PyDict.eqb_refl, !dget_dset. destruct (PyDict.eqb_spec sub s) as [-> | X]; [tauto|reflexivity].
    + intros k' N. rewrite H4, !dget_put by exact N. reflexivity.
    + intros _. apply H5. right. unfold put at 1. rewrite dget_dset, PyDict.eqb_refl. discriminate.
Qed.
Lemma run_rules_defined : forall df k c rs rep, (rs <> [] -> df = "dask" \/ df = "pandas") ->
  (forall sub r, In (sub, r) rs -> In sub ["range"; "list"] /\ forall i x, In (i, x) c -> comparable sub r x) -> exists rep', run_rules df k c rep rs = (rep', None).
Proof.
  intros df k c. induction rs as [|(sub, r) rs IH]; intros rep D H; cbn [run_rules]; [eauto|].
  destruct (H sub r (or_introl eq_refl)) as (M & C). destruct (run_rule_defined df k c rep sub r M (D ltac:(discriminate)) C) as (rep1 & ->).
  apply IH; [intros _; apply D; discriminate|]. intros s r' I. apply H. right. exact I.
Qed.

Lemma run_rules_keys : forall df k c rs rep rep', run_rules df k c rep rs = (rep', None) ->
  forall sub, In sub (dkeys (get_rule rep' k)) <-> In sub (dkeys (get_rule rep k)) \/ In sub (dkeys rs).
Proof.
  intros df k c. induction rs as [|(sub, r) rs IH]; intros rep rep' H s; cbn [run_rules] in H.
  - injection H as <-. cbn. tauto.
  - destruct (run_rule df k c rep sub r) as (rep1 & [e|]) eqn:R; [discriminate|]. destruct (run_rule_ok _ _ _ _ _ _ _ R) as (_ & _ & _ & out & _ & ->).
    rewrite (IH _ _ H s). rewrite get_put, PyDict.eqb_refl, get_put, PyDict.eqb_refl, dset_dset, In_dkeys_dset. cbn. intuition congruence.
Qed.

Definition good_column (df : string) (data : dict string column) (k : string) (rs : dict string rule) (rep' : report) : Prop :=
  exists c d, dget data k = Some c /\ dget rep' k = Some d /\ (forall sub, In sub (dkeys d) <-> In sub (dkeys rs)) /\
    forall sub r, In (sub, r) rs -> In sub ["range"; "list"] /\ (forall i x, In (i, x) c -> comparable sub r x) /\
      exists out, dget d sub = Some (Some out) /\ outcome df c sub r out.
Lemma run_columns_ok : forall df data ks rep rep', NoDup (dkeys ks) -> (forall k rs, In (k, rs) ks -> NoDup (dkeys rs)) -> run_columns df data rep ks = (rep', None) ->
  ((exists k rs, In (k, rs) ks /\ rs <> []) -> df = "dask" \/ df = "pandas") /\
  (forall k rs, In (k, rs) ks -> good_column df data k rs rep') /\
  (forall k, ~ In k (dkeys ks) -> dget rep' k = dget rep k).
Proof.
  intros df data. induction ks as [|(k, rs) ks IH]; intros rep rep' ND NDr H; cbn [run_columns] in H.
  - injection H as <-. split; [intros (k & rs & [] & _)|]. split; [intros k rs []|auto].
  - destruct (dget data k) as [c|] eqn:G; [|discriminate]. destruct (run_rules df k c (dset rep k []) rs) as (rep1 & [e|]) eqn:R; [discriminate|].
    cbn [dkeys map fst] in ND. inversion ND as [|? ? NI ND']; subst.
    destruct (run_rules_ok _ _ _ _ _ _ (NDr k rs (or_introl eq_refl)) R) as (D & R2 & R3 & R4 & R5).
    destruct (IH rep1 rep' ND' (fun k' rs' I => NDr k' rs' (or_intror I)) H) as (D' & H2 & H3). split; [|split].
    + intros (k' & rs' & [X | I] & NE); [injection X as <- <-; auto|apply D'; eauto].
    + intros k' rs' [X | I]; [|apply H2, I]. injection X as <- <-.
      assert (R6 := run_rules_keys _ _ _ _ _ _ R).
      assert (P : dget rep1 k <> None) by (apply R5; right; rewrite dget_dset, PyDict.eqb_refl; discriminate).
      destruct (dget rep1 k) as [d|] eqn:Gd; [|congruence]. assert (Ed : get_rule rep1 k = d) by (unfold get_rule; rewrite Gd; reflexivity). rewrite Ed in R2, R6.
      exists c, d. split; [exact G|]. split; [rewrite H3 by exact NI; exact Gd|]. split; [|exact R2]. intros sub. rewrite R6. unfold get_rule. rewrite dget_dset, PyDict.eqb_refl. cbn. tauto.
    + intros k' N. cbn in N. rewrite H3 by tauto. rewrite R4 by (intros ->; tauto). rewrite dget_dset. destruct (PyDict.eqb_spec k k'); [tauto|reflexivity].
Qed.
Lemma run_columns_defined : forall df (data : dict string column) ks rep, ((exists k rs, In (k, rs) ks /\ rs <> []) -> df = "dask" \/ df = "pandas") ->
  (forall k rs, In (k, rs) ks -> exists c, dget data k = Some c /\ forall sub r, In (sub, r) rs -> In sub ["range"; "list"] /\ forall i x, In (i, x) c -> comparable sub r x) ->
  exists rep', run_columns df data rep ks = (rep', None).
Proof.
  intros df data. induction ks as [|(k, rs) ks IH]; intros rep D H; cbn [run_columns]; [eauto|].
  destruct (H k rs (or_introl eq_refl)) as (c & G & C). rewrite G. destruct (run_rules_defined df k c rs (dset rep k [])) as (rep1 & E1); [| |rewrite E1].
  - intros NE. apply D. exists k, rs. split; [left; reflexivity|exact NE].
  - exact C.
  - apply IH; [intros (k' & rs' & I & NE); apply D; exists k', rs'; split; [right; exact I|exact NE]|]. intros k' rs' I. apply H. right. exact I.
Qed.

Definition given (cfg : config) : Prop := known cfg <> None \/ df_type cfg <> None \/ others cfg = true.
Lemma validate_given : forall v data cfg, given cfg -> validate v data cfg =
  (if existsb (fun kv => length (snd kv) <? 1) (rules_of cfg) then (v, Some Warning) else
   let '(rep, e) := run_columns (lower_string (frame_of cfg)) data (validation_report v) (rules_of cfg) in
   ({| last_config := Some cfg; validation_run := match e with None => true | Some _ => validation_run v end; validation_report := rep |}, e)).
Proof.
  intros v data cfg G. unfold given in G. unfold validate, rules_of, frame_of. destruct (known cfg), (df_type cfg), (others cfg) eqn:O; try reflexivity.
  destruct G as [G | [G | G]]; congruence.
Qed.
Lemma existsb_empty : forall ks : dict string (dict string rule), existsb (fun kv => length (snd kv) <? 1) ks = false <-> forall k rs, In (k, rs) ks -> rs <> [].
Proof.
  intros ks. split.
  - intros E k rs I ->. apply (proj2 (Bool.not_true_iff_false _) E). apply existsb_exists. exists (k, []). split; [exact I|reflexivity].
  - intros H. apply Bool.not_true_iff_false. intros E. apply existsb_exists in E. destruct E as ((k, rs) & I & L). apply Nat.ltb_lt in L. cbn in L.
    apply (H k rs I). destruct rs; [reflexivity|cbn in L; lia].
Qed.
Lemma given_dec : forall cfg, given cfg \/ (known cfg = None /\ df_type cfg = None /\ others cfg = false).
Proof. intros cfg. unfold given. destruct (known cfg), (df_type cfg), (others cfg); intuition discriminate. Qed.
Lemma validate_ok : forall v data cfg v', validate v data cfg = (v', None) -> given cfg /\ (forall k rs, In (k, rs) (rules_of cfg) -> rs <> []) /\
  run_columns (lower_string (frame_of cfg)) data (validation_report v) (rules_of cfg) = (validation_report v', None) /\ validation_run v' = true.
Proof.
  intros v data cfg v' H. destruct (given_dec cfg) as [G | (G1 & G2 & G3)].
  - rewrite validate_given in H by exact G. destruct (existsb _ _) eqn:E; [discriminate|]. destruct (run_columns _ _ _ _) as (rep & e) eqn:R. injection H as <- ->.
    split; [exact G|]. split; [apply existsb_empty, E|]. split; reflexivity.
  - unfold validate in H. rewrite G1, G2, G3 in H. discriminate.
Qed.

(** After a validation, each rule of each column lists, in order, exactly the rows with anomalous values: their labels in pandas data, their
    positions in dask data.  Reports of other columns are those from before. *)
Theorem C80_exact : forall v data cfg v', well_formed cfg -> validate v data cfg = (v', None) ->
  (forall k rs, In (k, rs) (rules_of cfg) -> exists c d, dget data k = Some c /\ dget (validation_report v') k = Some d /\ (forall sub, In sub (dkeys d) <-> In sub (dkeys rs)) /\
     forall sub r, In (sub, r) rs -> exists out, dget d sub = Some (Some out) /\ selects (anomalous sub r) (rows_of (frame_of cfg) c) out) /\
  (forall k, ~ In k (dkeys (rules_of cfg)) -> dget (validation_report v') k = dget (validation_report v) k).
Proof.
  intros v data cfg v' (ND & NDr) H. destruct (validate_ok _ _ _ _ H) as (G & NE & R & _).
  destruct (run_columns_ok _ _ _ _ _ ND NDr R) as (_ & H2 & H3). split; [|exact H3].
  intros k rs I. destruct (H2 k rs I) as (c & d & E1 & E2 & K & C). exists c, d. split; [exact E1|]. split; [exact E2|]. split; [exact K|].
  intros sub r J. destruct (C sub r J) as (_ & _ & out & O1 & O2). exists out. split; [exact O1|exact O2].
Qed.
(** Exactly these validations succeed. *)
Theorem C80_defined : forall v (data : dict string column) cfg, well_formed cfg ->
  ((exists v', validate v data cfg = (v', None)) <->
   given cfg /\ (rules_of cfg <> [] -> In (lower_string (frame_of cfg)) ["dask"; "pandas"]) /\
   forall k rs, In (k, rs) (rules_of cfg) -> rs <> [] /\ exists c, dget data k = Some c /\
     forall sub r, In (sub, r) rs -> In sub ["range"; "list"] /\ forall i x, In (i, x) c -> comparable sub r x).
Proof.
  intros v data cfg (ND & NDr). split.
  - intros (v' & H). destruct (validate_ok _ _ _ _ H) as (G & NE & R & _). destruct (run_columns_ok _ _ _ _ _ ND NDr R) as (D & H2 & _).
    split; [exact G|]. split.
    + intros NR. destruct (rules_of cfg) as [|(k, rs) rest] eqn:E; [congruence|].
      destruct D as [-> | ->]; [exists k, rs; split; [left; reflexivity|apply (NE k); left; reflexivity]|cbn; auto|cbn; auto].
    + intros k rs I. split; [apply (NE k rs I)|]. destruct (H2 k rs I) as (c & d & E1 & _ & _ & C). exists c. split; [exact E1|]. intros sub r J.
      destruct (C sub r J) as (M & X & _). auto.
  - intros (G & D & H). rewrite validate_given by exact G.
    assert (E : existsb (fun kv => length (snd kv) <? 1) (rules_of cfg) = false) by (apply existsb_empty; intros k rs I; apply (H k rs I)). rewrite E.
    destruct (run_columns_defined (lower_string (frame_of cfg)) data (rules_of cfg) (validation_report v)) as (rep' & ->).
    + intros (k & rs & I & _). assert (rules_of cfg <> []) by (intros X; rewrite X in I; destruct I). destruct (D H0) as [X | [X | []]]; auto.
    + intros k rs I. destruct (H k rs I) as (_ & X). exact X.
    + eauto.
Qed.
(** A configuration that is empty, or has a column without rules, changes nothing. *)
Theorem C80_rejected : forall v data cfg, ~ given cfg \/ (exists k, In (k, []) (rules_of cfg)) -> exists e, validate v data cfg = (v, Some e).
Proof.
  intros v data cfg H. destruct (given_dec cfg) as [G | (G1 & G2 & G3)].
  - destruct H as [H | (k & I)]; [contradiction|]. rewrite validate_given by exact G.
    destruct (existsb _ _) eqn:E; [eauto|]. exfalso. apply (proj1 (existsb_empty _) E k [] I eq_refl).
  - unfold validate. rewrite G1, G2, G3. eauto.
Qed.

(** Over any history of validations: the report can be had from the first that succeeded on, and is that of the latest validation. *)
Fixpoint history (v : validator) (l : list (dict string column * config)) : validator * list (option exn) :=
  match l with [] => (v, []) | (data, cfg) :: r => let '(v1, e) := validate v data cfg in let '(v2, es) := history v1 r in (v2, e :: es) end.
Lemma validate_run : forall v data cfg v' e, validate v data cfg = (v', e) -> validation_run v' = match e with None => true | Some _ => validation_run v end.
Proof.
  intros v data cfg v' e H. destruct (given_dec cfg) as [G | (G1 & G2 & G3)].
  - rewrite validate_given in H by exact G. destruct (existsb _ _); [injection H as <- <-; reflexivity|]. destruct (run_columns _ _ _ _). injection H as <- <-. reflexivity.
  - unfold validate in H. rewrite G1, G2, G3 in H. injection H as <- <-. reflexivity.
Qed.
Theorem C80_get : forall l v es, history new_validator l = (v, es) ->
  (In None es -> get v = Ok (validation_report v)) /\ (~ In None es -> get v = Err Warning).
Proof.
  assert (K : forall l v v' es, history v l = (v', es) -> validation_run v' = (validation_run v || if in_dec (fun a b : option exn => ltac:(decide equality; decide equality)) None es then true else false)%bool).
  { induction l as [|(data, cfg) l IH]; intros v v' es H; cbn [history] in H.
    - injection H as <- <-. destruct (in_dec _ _ _) as [[]|_]. rewrite Bool.orb_false_r. reflexivity.
    - destruct (validate v data cfg) as (v1, e) eqn:V. destruct (history v1 l) as (v2, es') eqn:Hh. injection H as <- <-. apply validate_run in V.
      rewrite (IH _ _ _ Hh), V. destruct e as [e|].
      + f_equal. destruct (in_dec _ None es') as [I|I], (in_dec _ None (Some e :: es')) as [J|J]; try reflexivity; [exfalso; apply J; right; exact I|exfalso; destruct J as [J|J]; [discriminate|contradiction]].
      + cbn [orb]. destruct (in_dec _ None (None :: es')) as [J|J]; [rewrite Bool.orb_true_r; reflexivity|exfalso; apply J; left; reflexivity]. }
  intros l v es H. specialize (K _ _ _ _ H). cbn [new_validator validation_run orb] in K. unfold get. rewrite K.
  destruct (in_dec _ None es); split; intros X; try reflexivity; contradiction.
Qed.

(** Data whose rows are numbered from zero give the same report as pandas and as dask data. *)
Lemma labels_positions : forall l k, map fst l = map Z.of_nat (seq k (length l)) -> positions k l = labels l.
Proof.
  induction l as [|(i, b) l IH]; intros k H; [reflexivity|]. cbn in H. injection H as -> H. cbn [positions]. unfold labels. cbn [filter snd]. replace (k + 1) with (S k) by lia.
  rewrite IH by exact H. destruct b; reflexivity.
Qed.
Definition with_frame (cfg : config) (df : string) : config := {| known := known cfg; df_type := Some df; others := others cfg |}.
Theorem C80_frames : forall v (data : dict string column) cfg, (forall k c, dget data k = Some c -> map fst c = map Z.of_nat (seq 0 (length c))) ->
  let a := validate v data (with_frame cfg "pandas") in let b := validate v data (with_frame cfg "dask") in
  snd a = snd b /\ validation_report (fst a) = validation_report (fst b) /\ get (fst a) = get (fst b).
Proof.
  intros v data cfg HD. cbn zeta.
  assert (G1 : given (with_frame cfg "pandas")) by (right; left; discriminate). assert (G2 : given (with_frame cfg "dask")) by (right; left; discriminate).
  rewrite !validate_given by assumption. change (rules_of (with_frame cfg "dask")) with (rules_of (with_frame cfg "pandas")).
  destruct (existsb _ _); [auto|]. change (lower_string (frame_of (with_frame cfg "pandas"))) with "pandas". change (lower_string (frame_of (with_frame cfg "dask"))) with "dask".
  assert (R1 : forall k c rep sub r, map fst c = map Z.of_nat (seq 0 (length c)) -> run_rule "pandas" k c rep sub r = run_rule "dask" k c rep sub r).
  { intros k c rep sub r E. unfold run_rule. destruct (negb _); [reflexivity|]. cbn [String.eqb Ascii.eqb Bool.eqb].
    destruct (apply_all _ c) as [l|e] eqn:A; [|reflexivity]. apply apply_all_ok in A. destruct A as (E1 & F). rewrite labels_positions; [reflexivity|].
    rewrite E1, E. apply Forall2_length in F. rewrite F. reflexivity. }
  assert (R2 : forall k c rs rep, map fst c = map Z.of_nat (seq 0 (length c)) -> run_rules "pandas" k c rep rs = run_rules "dask" k c rep rs).
  { intros k c. induction rs as [|(sub, r) rs IH]; intros rep E; [reflexivity|]. cbn [run_rules]. rewrite R1 by exact E. destruct (run_rule _ _ _ _ _ _) as (rep1 & [e|]); [reflexivity|]. apply IH, E. }
  assert (R3 : forall ks rep, run_columns "pandas" data rep ks = run_columns "dask" data rep ks).
  { induction ks as [|(k, rs) ks IH]; intros rep; [reflexivity|]. cbn [run_columns]. destruct (dget data k) as [c|] eqn:G; [|reflexivity]. rewrite R2 by (apply (HD k c G)).
    destruct (run_rules _ _ _ _ _) as (rep1 & [e|]); [reflexivity|]. apply IH. }
  rewrite R3. destruct (run_columns _ _ _ _) as (rep, e). cbn [fst snd]. unfold get. cbn [validation_run validation_report]. auto.
Qed.

Definition one_rule (df k sub : string) (r : rule) : config := {| known := Some [(k, [(sub, r)])]; df_type := Some df; others := false |}.
Definition number (z : Z) : pyfloat := Some (Num (inject_Z z)).
(** Rows with other labels: as pandas data the labels, as dask data the positions. *)
Theorem C80_rows_refuted : ~ forall data sub k r, validation_report (fst (validate new_validator data (one_rule "pandas" k sub r))) =
  validation_report (fst (validate new_validator data (one_rule "dask" k sub r))).
Proof.
  intros H. specialize (H [("a", [(7%Z, number 5)])] "list" "a" (RList [INum (Num (inject_Z 5))])). clear -H. vm_compute in H. discriminate H.
Qed.
(** Lists of texts do not work: they match no value, and a column of texts raises. *)
Theorem C80_texts_refuted :
  (forall l x, (forall i, In i l -> exists s, i = IText s) -> is_in_list x (RList l) <> Ok true) /\
  forall v k i df l rest, In df ["dask"; "pandas"] -> snd (validate v [(k, (i, None) :: rest)] (one_rule df k "list" (RList l))) = Some ValueError.
Proof.
  split.
  - intros l x H E. change (check "list" (RList l) x = Ok true) in E. apply check_true in E; [|cbn; auto]. inversion E as [|l' p q I]; subst. destruct (H _ I). discriminate.
  - intros v k i df l rest I. rewrite validate_given by (left; discriminate). change (rules_of (one_rule df k "list" (RList l))) with [(k, [("list", RList l)])].
    cbn [existsb snd length Nat.ltb Nat.leb orb run_columns dget]. rewrite PyDict.eqb_refl. cbn [run_rules]. unfold run_rule. change (frame_of (one_rule df k "list" (RList l))) with df.
    destruct I as [<- | [<- | []]]; reflexivity.
Qed.
(** The report of a validation still has the columns of earlier ones. *)
Theorem C80_stale_refuted : ~ forall data1 cfg1 data2 cfg2 v1 v2, validate new_validator data1 cfg1 = (v1, None) -> validate v1 data2 cfg2 = (v2, None) ->
  forall k, In k (dkeys (validation_report v2)) -> In k (dkeys (rules_of cfg2)).
Proof.
  intros H. specialize (H [("a", [(0%Z, number 5)])] (one_rule "pandas" "a" "list" (RList [])) [("b", [(0%Z, number 5)])] (one_rule "pandas" "b" "list" (RList [])) _ _ eq_refl eq_refl "a").
  destruct H as [X | []]; [vm_compute; auto|discriminate X].
Qed.
(** After a validation that failed, the report is a mixture of the old one and part of the new one. *)
Theorem C80_failed_refuted : ~ forall data1 cfg1 data2 cfg2 v1 v2 e, validate new_validator data1 cfg1 = (v1, None) -> validate v1 data2 cfg2 = (v2, Some e) ->
  get v2 = get v1 \/ get v2 = Err Warning.
Proof.
  intros H. specialize (H [("a", [(0%Z, number 5)])] (one_rule "pandas" "a" "list" (RList [])) [("a", [(0%Z, None)])] (one_rule "pandas" "a" "list" (RList [])) _ _ _ eq_refl eq_refl).
  clear -H. vm_compute in H. destruct H as [X | X]; discriminate X.
Qed.

Example C80_example :
  let cfg := {| known := Some [("a", [("range", RRange (number 1) (number 2)); ("list", RList [INum (Num (inject_Z 7)); IText "x"])])]; df_type := Some "Pandas"; others := false |} in
  let data := [("a", [(10%Z, number 1); (11%Z, number 7); (12%Z, number 2); (13%Z, Some NaN)])] in
  let v := validate new_validator data cfg in
  snd v = None /\ get (fst v) = Ok [("a", [("range", Some [10%Z; 12%Z]); ("list", Some [11%Z])])] /\ get new_validator = Err Warning /\
  snd (validate (fst v) data (one_rule "spark" "a" "range" (RRange (number 1) (number 2)))) = Some ValueError /\
  snd (validate (fst v) data (one_rule "dask" "b" "range" (RRange (number 1) (number 2)))) = Some KeyError.
Proof. vm_compute. repeat split. Qed.
