(** Lines and cells of delimited texts (used by CsvHeaderProps, CsvMatchProps, CsvDelimProps) *)
From Coq Require Import Ascii Lia.
From Verif Require Import PyCommon PyDict PyString PyEq ListFacts TextModel ReadModel StructModel CsvModel.
Local Open Scope nat_scope.
Local Open Scope list_scope.

(** A text made of rows of fields *)
Definition table (c : ascii) (rows : list (list text)) : text := join [newline] (map (join [c]) rows).
(** A field without delimiters, quotes and line ends; a field in quotes *)
Definition plain (c q : ascii) (f : text) : Prop := ~ In c f /\ ~ In q f.
Definition quoted (q : ascii) (f : text) : Prop := exists b, f = q :: b ++ [q] /\ ~ In q b.

Lemma split_at_absent c s : ~ In c s -> split_at c s = [s].
Proof.
  induction s as [|x s IH]; intros N; cbn [split_at]; [reflexivity|]. rewrite (proj2 (eqb_neq x c)) by (intros ->; apply N; left; reflexivity).
  rewrite IH by (intro I; apply N; right; exact I). reflexivity.
Qed.
Lemma split_at_app c s r : ~ In c s -> split_at c (s ++ c :: r) = s :: split_at c r.
Proof.
  induction s as [|x s IH]; intros N; cbn [split_at app].
  - rewrite eqb_refl. reflexivity.
  - rewrite (proj2 (eqb_neq x c)) by (intros ->; apply N; left; reflexivity). rewrite IH by (intro I; apply N; right; exact I). reflexivity.
Qed.
Lemma split_at_join c ls : ls <> [] -> (forall l, In l ls -> ~ In c l) -> split_at c (join [c] ls) = ls.
Proof.
  induction ls as [|l ls IH]; intros NE N; [contradiction|]. destruct ls as [|m ls]; cbn [join].
  - apply split_at_absent, N. left. reflexivity.
  - cbn [app]. rewrite split_at_app by (apply N; left; reflexivity). f_equal. apply IH; [discriminate|]. intros x I. apply N. right. exact I.
Qed.
Lemma split_at_ne c s : split_at c s <> [].
Proof. destruct s as [|x s]; cbn [split_at]; [discriminate|]. destruct (PyDict.eqb x c); [discriminate|]. destruct (split_at c s); discriminate. Qed.
Lemma split_at_no c s : forall l, In l (split_at c s) -> ~ In c l.
Proof.
  induction s as [|x s IH]; cbn [split_at]; intros l I.
  - destruct I as [<- | []]. intros [].
  - destruct (PyDict.eqb_spec x c) as [-> | N].
    + destruct I as [<- | I]; [intros []|apply IH, I].
    + destruct (split_at c s) as [|w ws] eqn:E; [exfalso; eapply split_at_ne, E|]. destruct I as [<- | I].
      * intros [-> | I]; [congruence|]. apply (IH w); [left; reflexivity|exact I].
      * apply IH. right. exact I.
Qed.

Lemma occ_app (q : ascii) a b : occ q (a ++ b) = occ q a + occ q b.
Proof. induction a as [|x a IH]; cbn; [reflexivity|]. rewrite IH. destruct (Ascii.eqb x q); lia. Qed.
Lemma occ_absent (q : ascii) a : ~ In q a -> occ q a = 0.
Proof.
  induction a as [|x a IH]; intros N; cbn; [reflexivity|]. destruct (Ascii.eqb_spec x q) as [-> | _]; [exfalso; apply N; left; reflexivity|].
  apply IH. intro I. apply N. right. exact I.
Qed.

Section Cells.
  Variables (c q : ascii).
  Hypothesis CQ : c <> q.

  Lemma at_delimiter_one s r : at_delimiter [c] q (s :: r) = (PyDict.eqb c s && Nat.even (occ q r))%bool.
  Proof. unfold at_delimiter. cbn [starts length skipn]. rewrite Bool.andb_true_r. reflexivity. Qed.
  Lemma cells_ne k s : cells_from [c] q k s <> [].
  Proof.
    revert k. induction s as [|x s IH]; intros k; cbn [cells_from]; [discriminate|]. destruct k as [|k]; [|apply IH]. destruct (at_delimiter _ _ _); [discriminate|].
    destruct (cells_from [c] q 0 s); discriminate.
  Qed.
  (** A field, of which every delimiter has an odd number of quotes behind it *)
  Lemma cells_field f : forall r, (forall a b, f = a ++ c :: b -> Nat.even (occ q (b ++ r)) = false) ->
    cells [c] q (f ++ r) = match cells [c] q r with w :: ws => (f ++ w) :: ws | [] => [f] end.
  Proof.
    unfold cells. induction f as [|x f IH]; intros r H.
    - cbn [app]. destruct (cells_from [c] q 0 r) eqn:E; [exfalso; eapply cells_ne, E|reflexivity].
    - cbn [app cells_from]. rewrite at_delimiter_one. destruct (PyDict.eqb_spec c x) as [<- | N]; cbn [andb].
      + rewrite (H [] f eq_refl). rewrite IH; [|intros a b E; apply (H (c :: a) b); rewrite E; reflexivity].
        destruct (cells_from [c] q 0 r) eqn:E; [exfalso; eapply cells_ne, E|reflexivity].
      + rewrite IH; [|intros a b E; apply (H (x :: a) b); rewrite E; reflexivity].
        destruct (cells_from [c] q 0 r) eqn:E; [exfalso; eapply cells_ne, E|reflexivity].
  Qed.
  Lemma cells_delimiter r : Nat.even (occ q r) = true -> cells [c] q (c :: r) = [] :: cells [c] q r.
  Proof. intros H. unfold cells. cbn [cells_from length Nat.sub]. rewrite at_delimiter_one, eqb_refl, H. reflexivity. Qed.
  Lemma field_even f : plain c q f \/ quoted q f -> Nat.even (occ q f) = true.
  Proof.
    intros [[_ N] | (b & -> & N)]; [rewrite occ_absent by exact N; reflexivity|]. cbn [occ]. change (PyDict.eqb q q) with (Ascii.eqb q q). rewrite Ascii.eqb_refl, occ_app, occ_absent by exact N.
    cbn [occ]. change (PyDict.eqb q q) with (Ascii.eqb q q). rewrite Ascii.eqb_refl. reflexivity.
  Qed.
  Lemma row_even fs : (forall f, In f fs -> plain c q f \/ quoted q f) -> Nat.even (occ q (join [c] fs)) = true.
  Proof.
    induction fs as [|f fs IH]; intros H; [reflexivity|]. destruct fs as [|g fs]; [apply field_even, H; left; reflexivity|].
    change (join [c] (f :: g :: fs)) with (f ++ c :: join [c] (g :: fs)). rewrite occ_app, Nat.even_add, field_even by (apply H; left; reflexivity). cbn [occ].
    rewrite (proj2 (eqb_neq c q) CQ). change (0 + occ q (join [c] (g :: fs))) with (occ q (join [c] (g :: fs))).
    rewrite IH by (intros x I; apply H; right; exact I). reflexivity.
  Qed.
  Lemma field_inside f r : plain c q f \/ quoted q f -> Nat.even (occ q r) = true -> forall a b, f = a ++ c :: b -> Nat.even (occ q (b ++ r)) = false.
  Proof.
    intros [[N _] | (body & -> & N)] Hr a b E.
    - exfalso. apply N. rewrite E. apply in_or_app. right. left. reflexivity.
    - destruct a as [|y a]; cbn [app] in E; [congruence|]. injection E as <- E. destruct b as [|z b _] using rev_ind.
      + apply app_inj_tail in E. destruct E as [_ E]. congruence.
      + rewrite app_comm_cons, app_assoc in E. apply app_inj_tail in E. destruct E as [-> <-]. rewrite <- app_assoc, occ_app, occ_absent.
        * cbn [app occ Nat.add]. rewrite eqb_refl. cbn [Nat.add]. rewrite Nat.even_succ, <- Nat.negb_even, Hr. reflexivity.
        * intro I. apply N, in_or_app. right. right. exact I.
  Qed.
  Lemma cells_row fs : fs <> [] -> (forall f, In f fs -> plain c q f \/ quoted q f) -> cells [c] q (join [c] fs) = fs.
  Proof.
    induction fs as [|f fs IH]; intros NE H; [contradiction|]. destruct fs as [|g fs].
    - cbn [join]. rewrite <- (app_nil_r f) at 1. rewrite cells_field.
      + cbn. rewrite app_nil_r. reflexivity.
      + apply field_inside; [apply H; left; reflexivity|reflexivity].
    - change (join [c] (f :: g :: fs)) with (f ++ c :: join [c] (g :: fs)).
      assert (E := row_even (g :: fs) (fun x I => H x (or_intror I))). rewrite cells_field.
      + rewrite cells_delimiter by exact E. rewrite IH; [|discriminate|intros x I; apply H; right; exact I]. rewrite app_nil_r. reflexivity.
      + apply field_inside; [apply H; left; reflexivity|]. cbn [occ]. rewrite (proj2 (eqb_neq c q) CQ). exact E.
  Qed.
End Cells.

(** The lines and cells of a table are those it was made of. *)
Definition good_table (c q : ascii) (rows : list (list text)) : Prop :=
  rows <> [] /\ (forall row, In row rows -> row <> [] /\ forall f, In f row -> (plain c q f \/ quoted q f) /\ ~ In newline f).
Lemma join_no (x c : ascii) (fs : list text) : x <> c -> (forall f, In f fs -> ~ In x f) -> ~ In x (join [c] fs).
Proof.
  intros N. induction fs as [|f fs IH]; intros H; [intros []|]. destruct fs as [|g fs]; [apply H; left; reflexivity|].
  change (join [c] (f :: g :: fs)) with (f ++ c :: join [c] (g :: fs)). intro I. apply in_app_or in I. destruct I as [I | [E | I]]; [revert I; apply H; left; reflexivity|congruence|].
  revert I. apply IH. intros y J. apply H. right. exact J.
Qed.
Lemma table_lines c q rows : c <> newline -> good_table c q rows -> split_at newline (table c rows) = map (join [c]) rows.
Proof.
  intros N [NE H]. apply split_at_join; [destruct rows; [contradiction|discriminate]|]. intros l I. apply in_map_iff in I. destruct I as (row & <- & I).
  apply join_no; [congruence|]. intros f J. apply (proj2 (H row I) f J).
Qed.
Lemma table_cells c q rows : c <> q -> c <> newline -> good_table c q rows -> map (cells [c] q) (split_at newline (table c rows)) = rows.
Proof.
  intros CQ N G. rewrite (table_lines c q) by assumption. destruct G as [_ H]. rewrite map_map. rewrite <- (map_id rows) at 2. apply map_ext_in. intros row I.
  apply cells_row; [exact CQ|apply (H row I)|]. intros f J. apply (proj2 (H row I) f J).
Qed.
