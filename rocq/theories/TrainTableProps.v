(** C99: data handed to labelers for predictions and for training. *)
From Coq Require Import QArith Qround List Arith Bool ZArith Lia Permutation.
Import ListNotations.
From Verif Require Import PyCommon PyDict PyString LabelModel CnnModel CnnProps FitModel FitProps TrainTableModel.
Local Open Scope string_scope.
Local Open Scope nat_scope.

(** ** Data to predict *)

Definition rows_of (rows : list (list value)) : list nested := map (fun r => Node (map Leaf r)) rows.

Lemma dims_row r : dims (Node (map Leaf r)) = match r with [] => [0] | _ => [length r] end.
Proof.
  cbn [dims]. rewrite map_length, map_map. destruct r as [|v r]; [reflexivity|].
  cbn [map length]. f_equal.
  assert (G : forall l : list value, fold_left prefix (map (fun _ => []) l) [] = []) by (induction l; auto).
  apply G.
Qed.

Lemma dims_row_len r : dims (Node (map Leaf r)) = [length r].
Proof. rewrite dims_row. destruct r; reflexivity. Qed.

Lemma level_row r : level 1 (Node (map Leaf r)) = map Leaf r.
Proof. cbn [level]. induction r as [|v r IH]; [reflexivity|]. cbn. f_equal. exact IH. Qed.

Lemma prefix_same (rows : list (list value)) w : (forall r, In r rows -> length r = w) ->
  fold_left prefix (map (fun r => [length r]) rows) [w] = [w].
Proof.
  induction rows as [|r rows IH]; intro H; [reflexivity|]. cbn [map fold_left].
  rewrite (H r (or_introl eq_refl)). cbn [prefix]. rewrite Nat.eqb_refl. apply IH.
  intros r' Hr. apply H. right. exact Hr.
Qed.

Lemma prefix_nil (l : list (list nat)) : fold_left prefix l [] = [].
Proof. induction l as [|a l IH]; [reflexivity|]. cbn [fold_left prefix]. exact IH. Qed.

Lemma prefix_differ (rows : list (list value)) w : (exists r, In r rows /\ length r <> w) ->
  fold_left prefix (map (fun r => [length r]) rows) [w] = [].
Proof.
  induction rows as [|r rows IH]; intros (r' & H & N); [destruct H|]. cbn [map fold_left prefix].
  destruct (w =? length r) eqn:E.
  - apply Nat.eqb_eq in E. destruct H as [-> |H]; [lia|]. apply IH. exists r'. split; assumption.
  - apply prefix_nil.
Qed.

(** Rows of equal length are predicted cell by cell, row after row. *)
Theorem C99_rows rows w : (forall r, In r rows -> length r = w) ->
  predict_format (PList (rows_of rows)) = Ok (map Leaf (concat rows))
  /\ predict_format (PArray rows) = Ok (map Leaf (concat rows)).
Proof.
  intro H. split; [|reflexivity]. unfold predict_format, plain_format. f_equal. unfold flat_list.
  destruct rows as [|r0 rows]; [reflexivity|].
  assert (E : dims (Node (rows_of (r0 :: rows))) = [S (length rows); w]).
  { cbn [dims]. unfold rows_of. rewrite map_length, map_map. cbn [map length]. f_equal.
    rewrite dims_row_len. rewrite (H r0 (or_introl eq_refl)).
    rewrite (map_ext (fun x => dims (Node (map Leaf x))) (fun x => [length x])) by (intro; apply dims_row_len).
    apply prefix_same. intros r Hr. apply H. right. exact Hr. }
  rewrite E. cbn [length]. unfold rows_of. clear.
  change (level 2 (Node ?l)) with (flat_map (level 1) l).
  induction (r0 :: rows) as [|r l IH]; [reflexivity|]. cbn [map flat_map concat].
  rewrite level_row, map_app. f_equal. exact IH.
Qed.

(** The cell in row [i] and column [j] is at [i * w + j]. *)
Theorem C99_position rows w i j r v : (forall r, In r rows -> length r = w) ->
  nth_error rows i = Some r -> nth_error r j = Some v ->
  exists l, predict_format (PList (rows_of rows)) = Ok l /\ nth_error l (i * w + j) = Some (Leaf v)
    /\ length l = length rows * w.
Proof.
  intros H Hi Hj. eexists. split; [apply (proj1 (C99_rows rows w H))|]. split.
  - apply map_nth_error. clear -H Hi Hj. revert i Hi. induction rows as [|a rows IH]; intros i Hi; [destruct i; discriminate Hi|].
    cbn [concat]. pose proof (H a (or_introl eq_refl)) as La. destruct i as [|i].
    + injection Hi as ->. cbn [Nat.mul Nat.add]. rewrite nth_error_app1; [exact Hj|]. apply nth_error_Some. congruence.
    + cbn [nth_error] in Hi. rewrite nth_error_app2 by (rewrite La; cbn; lia). rewrite La.
      replace (S i * w + j - w) with (i * w + j) by (cbn; lia).
      apply IH; [|exact Hi]. intros r' Hr. apply H. right. exact Hr.
  - rewrite map_length. clear -H. induction rows as [|a rows IH]; [reflexivity|]. cbn [concat length Nat.mul].
    rewrite app_length, (H a (or_introl eq_refl)), IH; [reflexivity|]. intros r Hr. apply H. right. exact Hr.
Qed.

(** If two rows have different lengths, a whole row is taken for one text. *)
Theorem C99_ragged rows r1 r2 : In r1 rows -> In r2 rows -> length r1 <> length r2 ->
  predict_format (PList (rows_of rows)) = Ok (rows_of rows).
Proof.
  intros H1 H2 N. unfold predict_format, plain_format. f_equal. unfold flat_list.
  destruct rows as [|r0 rows]; [destruct H1|].
  assert (E : dims (Node (rows_of (r0 :: rows))) = [S (length rows)]).
  { cbn [dims]. unfold rows_of. rewrite map_length, map_map. cbn [map length]. f_equal.
    rewrite dims_row_len.
    rewrite (map_ext (fun x => dims (Node (map Leaf x))) (fun x => [length x])) by (intro; apply dims_row_len).
    apply prefix_differ.
    destruct (Nat.eq_dec (length r1) (length r0)) as [E1|E1].
    - exists r2. split; [|lia]. destruct H2 as [<- |H2]; [lia|exact H2].
    - exists r1. split; [|lia]. destruct H1 as [<- |H1]; [lia|exact H1]. }
  rewrite E. cbn [length level]. clear. induction (rows_of (r0 :: rows)) as [|x l IH]; [reflexivity|]. cbn. f_equal. exact IH.
Qed.

Theorem C99_other d : (d = POther \/ (exists e, d = PReader e /\ (e = POther \/ exists f, e = PReader f))) <->
  predict_format d = Err TypeError.
Proof.
  split.
  - intros [-> |(e & -> & [-> |(f & ->)])]; reflexivity.
  - destruct d as [l|l|n t|r|d|]; cbn; try discriminate; [|left; reflexivity].
    intro H. right. exists d. split; [reflexivity|]. destruct d as [l|l|n t|r|d|]; try discriminate H; [right; eauto|left; reflexivity].
Qed.

(** ** One type for all cells of a table *)
(** Values fit the type of their column *)
Definition fits_type (t : dtype) (v : value) : Prop :=
  match t, v with
  | DInt, VInt _ | DFloat, VFloat _ | DFloat, VNan | DBool, VBool _ | DObj, _ => True
  | _, _ => False
  end.
Definition table_ok (n : nat) (t : table) : Prop :=
  forall c, In c t -> length (col_vals c) = n /\ (forall v, In v (col_vals c) -> fits_type (col_type c) v).

Definition is_number (c : column) : Prop := col_type c = DInt \/ col_type c = DFloat.

Lemma dtype_eqb_eq a b : dtype_eqb a b = true <-> a = b.
Proof. destruct a, b; cbn; split; congruence. Qed.

(** Whole numbers become floats exactly if there is also a column of floats and
    none of another type. *)
Lemma common_float ts : common ts = DFloat <->
  In DFloat ts /\ (forall u, In u ts -> u = DInt \/ u = DFloat).
Proof.
  destruct ts as [|t r]; [cbn; split; [discriminate|intros [[] _]]|]. unfold common.
  destruct (forallb (dtype_eqb t) r) eqn:A.
  - rewrite forallb_forall in A. split.
    + intros ->. split; [left; reflexivity|]. intros u [<- |H]; [right; reflexivity|].
      right. symmetry. apply dtype_eqb_eq, A, H.
    + intros [[H|H] _]; [exact H|]. apply dtype_eqb_eq, A, H.
  - destruct (forallb (fun u => dtype_eqb u DInt || dtype_eqb u DFloat) (t :: r)) eqn:B.
    + rewrite forallb_forall in B. split; [intros _|reflexivity].
      assert (G : forall u, In u (t :: r) -> u = DInt \/ u = DFloat).
      { intros u H. specialize (B u H). apply orb_true_iff in B. rewrite !dtype_eqb_eq in B. exact B. }
      split; [|exact G]. destruct (G t (or_introl eq_refl)) as [-> | ->]; [|left; reflexivity].
      right. assert (X : exists u, In u r /\ dtype_eqb DInt u = false).
      { clear -A. induction r as [|u r IH]; [discriminate A|]. cbn in A. apply andb_false_iff in A.
        destruct A as [A|A]; [exists u; split; [left; reflexivity|exact A]|].
        destruct (IH A) as (w & H & E). exists w. split; [right; exact H|exact E]. }
      destruct X as (u & H & E). destruct (G u (or_intror H)) as [-> | ->]; [discriminate E|exact H].
    + split; [discriminate|]. intros [_ G]. exfalso.
      assert (X : forallb (fun u => dtype_eqb u DInt || dtype_eqb u DFloat) (t :: r) = true).
      { apply forallb_forall. intros u H. destruct (G u H) as [-> | ->]; reflexivity. }
      congruence.
Qed.

Definition floats_only (t : table) : Prop :=
  (exists c, In c t /\ col_type c = DFloat) /\ (forall c, In c t -> is_number c).

Lemma table_float t : table_type t = DFloat <-> floats_only t.
Proof.
  unfold table_type. rewrite common_float, in_map_iff. unfold floats_only, is_number. split.
  - intros [(c & E & H) G]. split; [exists c; auto|]. intros c' Hc. apply G, in_map, Hc.
  - intros [(c & H & E) G]. split; [exists c; auto|]. intros u Hu. apply in_map_iff in Hu.
    destruct Hu as (c' & <- & Hc). apply G, Hc.
Qed.

Lemma as_type_same d v : d <> DFloat -> as_type d v = v.
Proof. intro H. destruct d, v; try reflexivity. contradiction. Qed.

Lemma flat_map_one {A B} (f : A -> option B) (g : A -> B) l : (forall a, In a l -> f a = Some (g a)) ->
  flat_map (fun a => match f a with Some b => [b] | None => [] end) l = map g l.
Proof.
  induction l as [|a l IH]; intro H; [reflexivity|]. cbn. rewrite (H a (or_introl eq_refl)). cbn. f_equal.
  apply IH. intros b Hb. apply H. right. exact Hb.
Qed.

(** A table is predicted cell by cell, row after row; cells are as they are in the
    table, unless whole numbers stand beside floats and there are numbers only. *)
Theorem C99_table n t i j c v : table_ok n t ->
  nth_error t j = Some c -> nth_error (col_vals c) i = Some v ->
  exists l u, predict_format (PFrame n t) = Ok l /\ length l = n * length t
    /\ nth_error l (i * length t + j) = Some (Leaf u)
    /\ (~ floats_only t -> u = v)
    /\ (floats_only t -> u = match v with VInt z => VFloat (inject_Z z) | _ => v end).
Proof.
  intros OK Hj Hi. assert (Hc : In c t) by (eapply nth_error_In; exact Hj).
  assert (Ln : i < n). { destruct (OK c Hc) as [L _]. rewrite <- L. apply nth_error_Some. congruence. }
  set (row := fun r => map (fun c => as_type (table_type t) (nth r (col_vals c) VNan)) t).
  assert (E : table_rows n t = map row (seq 0 n)).
  { unfold table_rows. apply map_ext_in. intros r Hr. apply in_seq in Hr. unfold row.
    rewrite <- (flat_map_one (fun c => match nth_error (col_vals c) r with Some v => Some (as_type (table_type t) v) | None => None end)).
    - clear. induction t as [|a l IH] at 2 4; [reflexivity|]. cbn [flat_map]. rewrite IH. f_equal.
      destruct (nth_error (col_vals a) r); reflexivity.
    - intros a Ha. destruct (OK a Ha) as [L _].
      rewrite (nth_error_nth' (col_vals a) VNan) by lia. reflexivity. }
  assert (W : forall r, In r (table_rows n t) -> length r = length t).
  { intros r Hr. rewrite E in Hr. apply in_map_iff in Hr. destruct Hr as (k & <- & _). unfold row. apply map_length. }
  destruct (C99_position (table_rows n t) (length t) i j (row i) (as_type (table_type t) v) W) as (l & F & P & Len).
  - rewrite E. apply map_nth_error. apply ListFacts.nth_error_seq. exact Ln.
  - unfold row. rewrite (map_nth_error _ _ _ Hj). f_equal. f_equal.
    apply nth_error_nth. exact Hi.
  - exists l, (as_type (table_type t) v). split; [|split; [|split; [exact P|]]].
    + rewrite (proj1 (C99_rows _ _ W)) in F. exact F.
    + rewrite Len, E, map_length, seq_length. reflexivity.
    + split.
      * intro H. apply as_type_same. intro X. apply H, table_float, X.
      * intro H. apply table_float in H. rewrite H. reflexivity.
Qed.

(** ** Training on a table *)
Section Train.
Variable zstr : Z -> string.
Variable fstr : Q -> string.
Variable nstr : nat -> string.
Notation melt := (melt zstr fstr nstr).
Notation str_value := (str_value zstr fstr).
Notation str_name := (str_name nstr).

(** Every cell is one sample, labelled with the name of its column, column after
    column; its text is that of the cell, unless whole numbers stand beside floats
    and there are numbers only. *)
Theorem C99_cells n t : table_ok n t ->
  length (melt t) = length t * n
  /\ forall i j c v, nth_error t j = Some c -> nth_error (col_vals c) i = Some v ->
     exists s, nth_error (melt t) (j * n + i) = Some (s, str_name (col_name c))
       /\ (~ floats_only t -> s = str_value v)
       /\ (floats_only t -> s = match v with VInt z => fstr (inject_Z z) | _ => str_value v end).
Proof.
  intro OK. unfold TrainTableModel.melt. set (d := table_type t).
  assert (G : forall l : table, (forall c, In c l -> In c t) ->
    length (flat_map (fun c => map (fun v => (str_value (as_type d v), str_name (col_name c))) (col_vals c)) l) = length l * n
    /\ forall i j c v, nth_error l j = Some c -> nth_error (col_vals c) i = Some v ->
       nth_error (flat_map (fun c => map (fun v => (str_value (as_type d v), str_name (col_name c))) (col_vals c)) l) (j * n + i)
       = Some (str_value (as_type d v), str_name (col_name c))).
  { induction l as [|a l IH]; intro Sub.
    - split; [reflexivity|]. intros i [|j] c v H; discriminate H.
    - destruct (IH (fun c H => Sub c (or_intror H))) as [L N]. destruct (OK a (Sub a (or_introl eq_refl))) as [La _].
      cbn [flat_map]. rewrite app_length, map_length, La, L. split; [reflexivity|].
      intros i j c v Hj Hi. destruct j as [|j].
      + injection Hj as ->. cbn [Nat.mul Nat.add].
        rewrite nth_error_app1 by (rewrite map_length; apply nth_error_Some; congruence).
        exact (map_nth_error (fun v => (str_value (as_type d v), str_name (col_name c))) i (col_vals c) Hi).
      + cbn [nth_error] in Hj. rewrite nth_error_app2 by (rewrite map_length, La; cbn; lia).
        rewrite map_length, La. replace (S j * n + i - n) with (j * n + i) by (cbn; lia). exact (N i j c v Hj Hi). }
  destruct (G t (fun c H => H)) as [L N]. split; [exact L|].
  intros i j c v Hj Hi. exists (str_value (as_type d v)). split; [exact (N i j c v Hj Hi)|]. split.
  - intro H. rewrite as_type_same; [reflexivity|]. intro X. apply H, table_float, X.
  - intro H. apply table_float in H. unfold d. rewrite H. destruct v; reflexivity.
Qed.

Lemma melt_labels n t : table_ok n t -> map snd (melt t) = flat_map (fun c => repeat (str_name (col_name c)) n) t.
Proof.
  intro OK. unfold TrainTableModel.melt. set (d := table_type t).
  assert (G : forall l : table, (forall c, In c l -> In c t) ->
    map snd (flat_map (fun c => map (fun v => (str_value (as_type d v), str_name (col_name c))) (col_vals c)) l)
    = flat_map (fun c => repeat (str_name (col_name c)) n) l).
  { induction l as [|a l IH]; intro Sub; [reflexivity|]. cbn [flat_map]. rewrite map_app, IH by (intros c H; apply Sub; right; exact H).
    f_equal. rewrite map_map. cbn [snd]. destruct (OK a (Sub a (or_introl eq_refl))) as [<- _].
    clear. induction (col_vals a) as [|v r IHr]; [reflexivity|]. cbn. f_equal. exact IHr. }
  apply G. auto.
Qed.

Lemma uniq_In x l : In x (uniq l) <-> In x l.
Proof.
  induction l as [|a l IH]; [reflexivity|]. cbn [uniq In]. rewrite filter_In, IH. split.
  - intros [H|[H _]]; auto.
  - intros [H|H]; [left; exact H|]. destruct (PyDict.eqb a x) eqn:E.
    + left. apply (proj1 (PyDict.eqb_eq _ _)). exact E.
    + right. split; [exact H|reflexivity].
Qed.

Lemma uniq_NoDup l : NoDup (uniq l).
Proof.
  induction l as [|a l IH]; [constructor|]. cbn [uniq]. constructor.
  - rewrite filter_In. intros [_ H]. rewrite (proj2 (PyDict.eqb_eq a a) eq_refl) in H. discriminate H.
  - apply NoDup_filter. exact IH.
Qed.

Lemma filter_all {A} (f : A -> bool) l : (forall x, In x l -> f x = true) -> filter f l = l.
Proof.
  induction l as [|a l IH]; intro H; [reflexivity|]. cbn. rewrite (H a (or_introl eq_refl)). f_equal.
  apply IH. intros x Hx. apply H. right. exact Hx.
Qed.

Lemma uniq_repeat x k l : uniq (repeat x (S k) ++ l) = x :: filter (fun y => negb (PyDict.eqb x y)) (uniq l).
Proof.
  induction k as [|k IH]; [reflexivity|]. cbn [repeat app uniq] in *. f_equal.
  rewrite IH. cbn [filter]. rewrite (proj2 (PyDict.eqb_eq x x) eq_refl). cbn [negb].
  apply filter_all. intros y Hy. apply filter_In in Hy. apply Hy.
Qed.

(** The labels are the names of the columns, each once, in their order. *)
Theorem C99_labels n t : table_ok n t -> n <> 0 ->
  uniq (map snd (melt t)) = uniq (map (fun c => str_name (col_name c)) t)
  /\ NoDup (uniq (map snd (melt t)))
  /\ (forall x, In x (uniq (map snd (melt t))) <-> exists c, In c t /\ str_name (col_name c) = x)
  /\ (NoDup (map (fun c => str_name (col_name c)) t) ->
      uniq (map snd (melt t)) = map (fun c => str_name (col_name c)) t).
Proof.
  intros OK N. destruct n as [|n]; [contradiction|].
  assert (E : uniq (map snd (melt t)) = uniq (map (fun c => str_name (col_name c)) t)).
  { rewrite (melt_labels (S n) t OK). clear. induction t as [|c t IH]; [reflexivity|].
    cbn [flat_map map]. rewrite uniq_repeat, IH. reflexivity. }
  split; [exact E|]. split; [apply uniq_NoDup|]. split.
  - intro x. rewrite E, uniq_In, in_map_iff. split; intros (c & H1 & H2); exists c; auto.
  - intro ND. rewrite E. clear E. induction (map (fun c => str_name (col_name c)) t) as [|x l IH]; [reflexivity|].
    inversion ND as [|? ? N1 N2]; subst. cbn [uniq]. rewrite (IH N2). f_equal.
    apply filter_all. intros y Hy. destruct (PyDict.eqb x y) eqn:Q; [|reflexivity].
    apply (proj1 (PyDict.eqb_eq _ _)) in Q. subst y. contradiction.
Qed.

Variable W D R : Type.
Notation St := (cnn * W)%type.
Variable prep : St -> list string * list string -> D.
Variable mfit : St -> D -> option D -> St * result R.
Variable mismatch : St -> bool.
Variable strict_melt : bool.
Variable writable : string -> bool.
Variable save : St -> string -> option exn.
Notation train := (train zstr fstr nstr W D R prep mfit mismatch strict_melt writable save).
Notation play := (play string string D St R prep mfit).

(** The default label that training uses *)
Definition default_of (s0 : St) (d : darg) : string :=
  match d with DText l => if PyDict.eqb l "" then c_default (fst s0) else l | _ => c_default (fst s0) end.

(** Training needs the default label among the names of the columns, unless it is
    PAD. *)
Theorem C99_default s0 n t d dir epochs p0 ps r out :
  table_ok n t -> ~ (exists c, In c t /\ str_name (col_name c) = default_of s0 d) -> default_of s0 d <> "PAD" ->
  train s0 (TFrame t) d dir epochs p0 ps = (r, out) ->
  out = None /\ exists e, r = Err e.
Proof.
  intros OK H P. unfold TrainTableModel.train. destruct dir as [|p|]; [| |intro E; injection E as <- <-; eauto].
  all: cbn [table_of].
  2: destruct (negb (writable p)); [intro E; injection E as <- <-; eauto|].
  all: destruct (strict_melt && _); [intro E; injection E as <- <-; eauto|].
  all: destruct (put_default W s0 d) as [s1|e] eqn:Ed; [|intro E; injection E as <- <-; eauto].
  all: assert (Ds : c_default (fst s1) = default_of s0 d);
    [unfold put_default, default_of in *; destruct d as [|l|]; [injection Ed as <-; reflexivity| |discriminate Ed];
     destruct (PyDict.eqb l ""); injection Ed as <-; reflexivity|].
  all: set (y := map snd (melt t)) in *.
  all: assert (Es : put_labels W s1 (uniq y) = (s1, Some ValueError)).
  1,3: unfold put_labels, cnn_set;
    assert (NL : lmem (if lmem (uniq y) "PAD" then uniq y else "PAD" :: uniq y) (c_default (fst s1)) = false);
    [apply lmem_false; rewrite Ds;
     assert (NU : ~ In (default_of s0 d) (uniq y));
     [rewrite uniq_In; unfold y; rewrite (melt_labels n t OK); intro X; apply in_flat_map in X;
      destruct X as (c & Hc & X); apply repeat_spec in X; apply H; exists c; split; [exact Hc|symmetry; exact X]|];
     destruct (lmem (uniq y) "PAD"); [exact NU|]; intros [X|X]; [symmetry in X; contradiction|contradiction]|];
    rewrite NL; destruct s1; reflexivity.
  all: unfold fit; destruct (_ || _); [intro E; injection E as <- <-; eauto|];
    destruct (negb _); [intro E; injection E as <- <-; eauto|];
    destruct (_ || _); [intro E; injection E as <- <-; eauto|];
    destruct (_ && _); [intro E; injection E as <- <-; eauto|];
    rewrite Es; intro E; injection E as <- <-; eauto.
Qed.

Lemma cells_used n : n <> 0 -> n <> 2 -> 2 <= cv_split n (1 # 5) \/ n = 1.
Proof.
  intros N0 N2. destruct (Nat.eq_dec n 1) as [->|N1]; [right; reflexivity|left].
  unfold cv_split. assert (H : (2 <= Qfloor (inject_Z (Z.of_nat n) * (1 - (1 # 5))))%Z).
  { apply Z.le_trans with (Qfloor (inject_Z 2)); [rewrite Qfloor_Z; lia|]. apply Qfloor_resp_le.
    unfold Qle, Qmult, Qminus, Qplus, Qopp, inject_Z; cbn [Qnum Qden Pos.mul]. cbn. lia. }
  lia.
Qed.

(** With distinct names of columns, the default label among them and valid
    arguments, the labeler is trained with PAD as zero and the names numbered from
    one in their order.  Except with two cells only, in every epoch every cell is
    used once, with the name of its column, to train or to validate.  What is saved
    is the trained labeler. *)
Theorem C99_trains s0 n t d dir epochs p0 ps :
  table_ok n t -> n <> 0 -> t <> [] -> n * length t <> 2 ->
  NoDup (map (fun c => str_name (col_name c)) t) ->
  ~ In "PAD" (map (fun c => str_name (col_name c)) t) ->
  d <> DWrong ->
  In (default_of s0 d) (map (fun c => str_name (col_name c)) t) \/ default_of s0 d = "PAD" ->
  (forall c, In c t -> col_name c = NStr "value" -> strict_melt = false) ->
  (dir = SNone \/ exists p, dir = SText p /\ writable p = true) ->
  Permutation p0 (seq 0 (n * length t)) ->
  (forall i, Permutation (ps i) (seq 0 (cv_split (n * length t) (1 # 5)))) ->
  exists m rounds,
    dget (c_map m) "PAD" = Some 0
    /\ (forall i c, nth_error t i = Some c -> dget (c_map m) (str_name (col_name c)) = Some (S i))
    /\ num_labels (c_map m) = S (length t)
    /\ c_default m = default_of s0 d
    /\ length rounds = epochs
    /\ (forall a v, In (a, v) rounds ->
         Permutation (pairs string string a ++ match v with Some w => pairs string string w | None => [] end) (melt t))
    /\ train s0 (TFrame t) d dir epochs p0 ps =
       match play rounds (m, snd s0) with
       | (_, Err e) => (Err e, None)
       | (s2, Ok _) =>
           match dir with
           | SText p => if PyDict.eqb p "" then (Ok s2, None)
                        else match save s2 p with Some e => (Err e, None) | None => (Ok s2, Some p) end
           | _ => (Ok s2, None)
           end
       end.
Proof.
  intros OK N0 T0 N2 ND NP Dw HD Hv Hdir P0 Ps.
  set (names := map (fun c => str_name (col_name c)) t) in *.
  destruct (C99_cells n t OK) as [Lm _].
  assert (Nc : n * length t <> 0) by (destruct t; [contradiction|cbn; lia]).
  destruct (C99_labels n t OK N0) as (_ & _ & _ & U). specialize (U ND).
  assert (Ed : exists s1, put_default W s0 d = Ok s1 /\ c_default (fst s1) = default_of s0 d /\ snd s1 = snd s0).
  { unfold put_default, default_of. destruct d as [|l|]; [exists s0; auto| |contradiction].
    destruct (PyDict.eqb l ""); eexists; split; try reflexivity; auto. }
  destruct Ed as (s1 & Ed & Ds & Ws).
  assert (Ls : In (c_default (fst s1)) names \/ c_default (fst s1) = "PAD") by (rewrite Ds; exact HD).
  destruct (proj1 (C98_list (fst s1) names ND NP) Ls) as (dm & Es & K1 & K2 & K3).
  set (m := mkCnn dm (c_default (fst s1)) (c_net (fst s1))) in *.
  assert (Ep : put_labels W s1 (uniq (map snd (melt t))) = ((m, snd s0), None)).
  { unfold put_labels. rewrite U. fold names. rewrite Es, Ws. reflexivity. }
  assert (Lx : length (map fst (melt t)) = n * length t) by (rewrite map_length, Lm; lia).
  assert (Cb : combine (map fst (melt t)) (map snd (melt t)) = melt t).
  { clear. induction (melt t) as [|[a b] l IH]; [reflexivity|]. cbn. f_equal. exact IH. }
  destruct (C96_all string string D St R (list string) prep mfit (put_labels W) (keep W) mismatch
              s1 (map fst (melt t)) (map snd (melt t)) (1 # 5) (Some (uniq (map snd (melt t)))) false epochs false p0 ps
              (m, snd s0) (m, snd s0)) as (rounds & F1 & F2 & F3).
  - split; [intro X; rewrite X in Lx; cbn in Lx; lia|]. split; [rewrite !map_length; reflexivity|].
    split; [discriminate|]. split; [reflexivity|]. reflexivity.
  - exact Ep.
  - reflexivity.
  - rewrite Lx. exact P0.
  - rewrite Lx. exact Ps.
  - right. rewrite Lx. apply cells_used; assumption.
  - exists m, rounds. split; [exact K1|]. split; [|split; [|split; [exact Ds|split; [exact F2|split]]]].
    + intros i c Hc. apply K2. unfold names. apply (map_nth_error (fun c => str_name (col_name c)) i t Hc).
    + unfold m, names in *. cbn [c_map]. rewrite K3, map_length. reflexivity.
    + intros a v Hin. specialize (F3 a v Hin). rewrite Cb in F3. exact F3.
    + unfold TrainTableModel.train. cbn [table_of].
      assert (Sv : strict_melt && existsb (fun c => match col_name c with NStr s => PyDict.eqb s "value" | _ => false end) t = false).
      { destruct strict_melt eqn:Q; [|reflexivity]. cbn [andb].
        destruct (existsb _ t) eqn:X; [|reflexivity]. apply existsb_exists in X. destruct X as (c & Hc & X).
        destruct (col_name c) as [s|k] eqn:Nm; [|discriminate X]. apply (proj1 (PyDict.eqb_eq _ _)) in X. subst s.
        specialize (Hv c Hc Nm). discriminate Hv. }
      destruct Hdir as [-> |(p & -> & Wp)].
      * rewrite Sv, Ed, F1. destruct (play rounds (m, snd s0)) as [s2 [l|e]]; reflexivity.
      * rewrite Wp. cbn [negb]. rewrite Sv, Ed, F1. destruct (play rounds (m, snd s0)) as [s2 [l|e]]; reflexivity.
Qed.

(** Training on a reader is training on its table; readers without a table, readers of texts and other
    data are errors. *)
Theorem C99_data s0 t d dir epochs p0 ps :
  train s0 (TReader t) d dir epochs p0 ps = train s0 (TFrame t) d dir epochs p0 ps
  /\ train s0 TText d dir epochs p0 ps = (Err TypeError, None)
  /\ train s0 TOther d dir epochs p0 ps = (Err TypeError, None)
  /\ (exists e, train s0 TReaderOther d dir epochs p0 ps = (Err e, None))
  /\ ((dir = SNone \/ exists p, dir = SText p /\ writable p = true) ->
      train s0 TReaderOther d dir epochs p0 ps = (Err AttributeError, None)).
Proof.
  split; [reflexivity|]. split; [reflexivity|]. split; [reflexivity|]. unfold TrainTableModel.train. cbn [table_of]. split.
  - destruct dir as [|p|]; [eauto| |eauto]. destruct (negb (writable p)); eauto.
  - intros [->|(p & -> & W0)]; [reflexivity|]. rewrite W0. reflexivity.
Qed.

(** A directory is written only with a labeler that is returned. *)
Theorem C99_saved s0 dt d dir epochs p0 ps r p :
  train s0 dt d dir epochs p0 ps = (r, Some p) ->
  dir = SText p /\ writable p = true /\ exists s, r = Ok s /\ save s p = None.
Proof.
  assert (G : forall s1 x y, 
    (match fit string string D St R (list string) prep mfit (put_labels W) (keep W) mismatch
            s1 (Some x) (Some y) (1 # 5) (Some (uniq y)) false epochs false p0 ps with
     | (_, Err e) => (Err e, None)
     | (s2, Ok _) =>
         match dir with
         | SText q => if PyDict.eqb q "" then (Ok s2, None)
                      else match save s2 q with Some e => (Err e, None) | None => (Ok s2, Some q) end
         | _ => (Ok s2, None)
         end
     end) = (r, Some p) ->
    dir = SText p /\ exists s, r = Ok s /\ save s p = None).
  { intros s1 x y. destruct (fit _ _ _ _ _ _ _ _ _ _ _ _ _ _ _ _ _ _ _ _ _) as [s2 [l|e]]; [|discriminate].
    destruct dir as [|q|]; try discriminate. destruct (PyDict.eqb q ""); [discriminate|].
    destruct (save s2 q) eqn:Sv; [discriminate|]. intro E. injection E as <- <-. split; [reflexivity|]. exists s2. auto. }
  unfold TrainTableModel.train. intro H.
  assert (K : (dir = SText p /\ exists s, r = Ok s /\ save s p = None) /\ (forall q, dir = SText q -> writable q = true)).
  { destruct dt as [t|t| | |]; try discriminate H; destruct dir as [|q|]; try discriminate H; cbn [table_of] in H.
    all: try (destruct (writable q) eqn:Wq; cbn [negb] in H; [|discriminate H]).
    all: try discriminate H.
    all: destruct (strict_melt && _); try discriminate H; destruct (put_default W s0 d) as [s1|e]; try discriminate H.
    all: split; [exact (G s1 _ _ H)|].
    all: intros q' Hq; try discriminate Hq; injection Hq as <-; exact Wq. }
  destruct K as [[K1 K2] K3]. split; [exact K1|]. split; [exact (K3 p K1)|exact K2].
Qed.

End Train.

(** ** What a user may expect and does not get *)

(** The labeler that is shipped has the default label UNKNOWN, so that a table
    without a column of that name is refused unless a default label is given. *)
Definition shipped : cnn :=
  mkCnn [("PAD", 0); ("UNKNOWN", 1); ("ADDRESS", 2); ("BAN", 3); ("CREDIT_CARD", 4); ("DATE", 5); ("TIME", 6);
         ("DATETIME", 7); ("DRIVERS_LICENSE", 8); ("EMAIL_ADDRESS", 9); ("UUID", 10); ("HASH_OR_KEY", 11);
         ("IPV4", 12); ("IPV6", 13); ("MAC_ADDRESS", 14); ("PERSON", 15); ("PHONE_NUMBER", 16); ("SSN", 17);
         ("URL", 18); ("US_STATE", 19); ("INTEGER", 20); ("FLOAT", 21); ("QUANTITY", 22); ("ORDINAL", 23)]
    "UNKNOWN" (Some (24, 1)).

Theorem C99_plain_refuted zstr fstr nstr W D R prep mfit mismatch strict_melt writable save w n t epochs p0 ps :
  table_ok n t -> (forall c, In c t -> str_name nstr (col_name c) <> "UNKNOWN") ->
  exists e, train zstr fstr nstr W D R prep mfit mismatch strict_melt writable save
              (shipped, w) (TFrame t) DNone SNone epochs p0 ps = (Err e, None).
Proof.
  intros OK H.
  destruct (train zstr fstr nstr W D R prep mfit mismatch strict_melt writable save (shipped, w) (TFrame t) DNone SNone epochs p0 ps)
    as [r out] eqn:E.
  apply (C99_default zstr fstr nstr W D R prep mfit mismatch strict_melt writable save (shipped, w) n t DNone) in E.
  - destruct E as [-> (e & ->)]. exists e. reflexivity.
  - exact OK.
  - intros (c & Hc & X). exact (H c Hc X).
  - discriminate.
Qed.

(** A column called PAD that is not the first one takes the number zero away from
    PAD: the padding of all inputs then has the label of the column. *)
Theorem C99_pad_refuted :
  exists l m, cnn_set (mkCnn (c_map shipped) "name" (c_net shipped)) (MList l) = (m, None) /\
    l = uniq (map snd (melt (fun _ => "") (fun _ => "") (fun _ => "")
          [mkCol (NStr "name") DObj [VObj "a"; VObj "b"]; mkCol (NStr "PAD") DObj [VObj "c"; VObj "d"]])) /\
    dget (c_map m) "PAD" = Some 1 /\ dget (c_map m) "name" = Some 0.
Proof. eexists. eexists. repeat split; vm_compute; reflexivity. Qed.

(** The text of a cell depends on other columns: 7 beside a column of floats is
    not read as 7. *)
Theorem C99_cell_refuted zstr fstr nstr : zstr 7%Z <> fstr (inject_Z 7) ->
  exists a b : column,
    nth_error (melt zstr fstr nstr [a]) 0 = Some (zstr 7%Z, "a") /\
    nth_error (melt zstr fstr nstr [a; b]) 0 <> Some (zstr 7%Z, "a") /\
    nth_error (melt zstr fstr nstr [a; mkCol (col_name b) DObj (col_vals b)]) 0 = Some (zstr 7%Z, "a").
Proof.
  intro N. exists (mkCol (NStr "a") DInt [VInt 7]), (mkCol (NStr "b") DFloat [VFloat (1 # 2)]).
  split; [reflexivity|]. split; [|reflexivity]. cbn. intro H. apply N. injection H as H. symmetry. exact H.
Qed.

(** Rows of different lengths are not predicted cell by cell. *)
Theorem C99_ragged_refuted :
  exists rows l, predict_format (PList (rows_of rows)) = Ok l /\ length l <> length (concat rows).
Proof.
  exists [[VObj "a"; VObj "b"]; [VObj "c"]]. eexists. split; [reflexivity|]. vm_compute. discriminate.
Qed.

(** ** Examples *)
Definition ex_table : table :=
  [mkCol (NStr "name") DObj [VObj "ann"; VObj "bob"]; mkCol (NStr "age") DInt [VInt 7; VInt 8];
   mkCol (NStr "score") DFloat [VFloat (1 # 2); VNan]].

Example C99_example :
  table_ok 2 ex_table
  /\ predict_format (PFrame 2 ex_table)
     = Ok (map Leaf [VObj "ann"; VInt 7; VFloat (1 # 2); VObj "bob"; VInt 8; VNan])
  /\ melt (fun z => if (z =? 7)%Z then "7" else "8") (fun _ => "0.5") (fun _ => "0") ex_table
     = [("ann", "name"); ("bob", "name"); ("7", "age"); ("8", "age"); ("0.5", "score"); ("nan", "score")]
  /\ predict_format (PFrame 2 (tl ex_table)) = Ok (map Leaf [VFloat (inject_Z 7); VFloat (1 # 2); VFloat (inject_Z 8); VNan]).
Proof.
  split; [|vm_compute; repeat split; reflexivity].
  intros c [<- |[<- |[<- |[]]]]; split; try reflexivity; intros v [<- |[<- |[]]]; exact I.
Qed.

(** The training of the table with the default label [name] *)
Example C99_train_example :
  let trained := train (fun z => if (z =? 7)%Z then "7" else "8") (fun _ => "0.5") (fun _ => "0") nat
     (list (string * string)) nat
     (fun _ p => combine (fst p) (snd p)) (fun s t v => ((fst s, snd s + length t), Ok (length t)))
     (fun _ => false) true (fun _ => true) (fun _ _ => None)
     (shipped, 0) (TFrame ex_table) (DText "name") (SText "out") 2 [5; 4; 3; 2; 1; 0] (fun _ => [1; 0; 2; 3]) in
  trained = (Ok (mkCnn [("PAD", 0); ("name", 1); ("age", 2); ("score", 3)] "name" (Some (24, 1)), 8), Some "out").
Proof. vm_compute. reflexivity. Qed.
