(** Properties of plots *)
From Coq Require Import QArith List Arith ZArith Bool Lia Sorted.
Import ListNotations.
From Verif Require Import PyCommon QFacts PyDict PyString PlotModel.
Local Open Scope nat_scope.

(** ** Missing values *)
Definition drawn_in (bs : list rect) (i : Z) : Prop := exists b, In b bs /\ covers b i.

Lemma sorted_head (v : Z) t w : StronglySorted Z.lt (v :: t) -> In w t -> (v < w)%Z.
Proof. intros S I. inversion S as [|? ? _ F]; subst. rewrite Forall_forall in F. apply F. exact I. Qed.
Lemma sorted_tail (v : Z) t : StronglySorted Z.lt (v :: t) -> StronglySorted Z.lt t.
Proof. intros S. inversion S; assumption. Qed.

Lemma drawn_cons b bs i : drawn_in (b :: bs) i <-> covers b i \/ drawn_in bs i.
Proof.
  split.
  - intros (c & [<-|I] & C); [left; exact C|right; exists c; auto].
  - intros [C|(c & I & C)]; [exists b; split; [left; reflexivity|exact C]|exists c; split; [right; exact I|exact C]].
Qed.

Lemma last_in {A} (l : list A) d : l <> [] -> In (last l d) l.
Proof.
  induction l as [|a [|b l] IH]; intros N; [congruence|left; reflexivity|]. right. apply IH. discriminate.
Qed.

Lemma bars_exact t : forall v ys ye, StronglySorted Z.lt (v :: t) -> (ys <= v)%Z ->
  (ye = v \/ t = [] \/ hd 0%Z t = (v + 1)%Z) ->
  (forall w, In w t -> w <> last t 0%Z -> In (w - 1)%Z (v :: t) \/ In (w + 1)%Z t) ->
  forall i, drawn_in (null_bars ys ye (v :: t)) i <-> (ys <= i <= v)%Z \/ In i t.
Proof.
  induction t as [|w t IH]; intros v ys ye S L Y Mid i.
  - cbn [null_bars]. rewrite drawn_cons. unfold covers. cbn [fst snd]. split.
    + intros [H|(b & [] & _)]. left. lia.
    + intros [H|[]]. left. lia.
  - assert (Lt : (v < w)%Z) by (apply (sorted_head v (w :: t)); [exact S|left; reflexivity]).
    assert (S2 := sorted_tail _ _ S).
    assert (Mid2 : forall x, In x t -> x <> last t 0%Z -> In (x - 1)%Z (w :: t) \/ In (x + 1)%Z t).
    { intros x I N. destruct (Mid x (or_intror I)) as [[E|H]|[E|H]].
      - destruct t as [|y t]; [destruct I|exact N].
      - exfalso. pose proof (sorted_head w t x S2 I). lia.
      - left. exact H.
      - exfalso. pose proof (sorted_head w t x S2 I). lia.
      - right. exact H. }
    cbn [null_bars]. fold (null_bars). destruct (Z.eqb_spec (w - v) 1) as [E|N].
    + change (drawn_in (null_bars ys w (w :: t)) i <-> (ys <= i <= v)%Z \/ In i (w :: t)).
      rewrite (IH w ys w S2); [|lia|left; reflexivity|exact Mid2]. cbn [In]. split.
      * intros [H|H]; [|auto]. destruct (Z.eq_dec i w); [right; left; lia|left; lia].
      * intros [H|[H|H]]; [left; lia|left; lia|right; exact H].
    + destruct Y as [->|[Y|Y]]; [|discriminate Y|cbn [hd] in Y; lia].
      change (drawn_in ((ys, (v - ys + 1)%Z) :: null_bars w v (w :: t)) i <-> (ys <= i <= v)%Z \/ In i (w :: t)).
      rewrite drawn_cons, (IH w w v S2); [|lia| |exact Mid2].
      * unfold covers. cbn [fst snd In]. split.
        -- intros [H|[H|H]]; [left; lia|right; left; lia|right; right; exact H].
        -- intros [H|[H|H]]; [left; lia|right; left; lia|right; right; exact H].
      * right. destruct t as [|x t]; [left; reflexivity|right]. cbn [hd].
        assert (Nl : w <> last (w :: x :: t) 0%Z).
        { intros E. assert (I : In (last (x :: t) 0%Z) (x :: t)) by (apply last_in; discriminate).
          pose proof (sorted_head w _ _ S2 I). cbn [last] in E, I. change (last (w :: x :: t) 0%Z) with (last (x :: t) 0%Z) in E. cbn [last] in *. lia. }
        destruct (Mid w (or_introl eq_refl) Nl) as [[E|[E|H]]|[E|H]]; [lia|lia| |lia|].
        -- exfalso. pose proof (sorted_head w _ _ S2 H). lia.
        -- destruct H as [E|H]; [exact E|]. pose proof (sorted_head x _ _ (sorted_tail _ _ S2) H).
           pose proof (sorted_head w (x :: t) x S2 (or_introl eq_refl)). lia.
Qed.

Lemma bars_hang t : forall u ys ye v, StronglySorted Z.lt (u :: t) -> (ye <= u)%Z -> In v t -> v <> last t 0%Z ->
  ~ In (v - 1)%Z (u :: t) -> ~ In (v + 1)%Z t -> exists h, (h <= -1)%Z /\ In (v, h) (null_bars ys ye (u :: t)).
Proof.
  induction t as [|w t IH]; intros u ys ye v S Y I Nl A B; [destruct I|].
  assert (Lt : (u < w)%Z) by (apply (sorted_head u (w :: t)); [exact S|left; reflexivity]).
  assert (S2 := sorted_tail _ _ S). destruct (Z.eq_dec w v) as [->|Ne].
  - assert (N1 : (v - u <> 1)%Z) by (intros E; apply A; left; lia).
    destruct t as [|x t]; [cbn [last] in Nl; congruence|].
    assert (N2 : (x - v <> 1)%Z) by (intros E; apply B; right; left; lia).
    cbn [null_bars]. fold null_bars. destruct (Z.eqb_spec (v - u) 1); [contradiction|]. destruct (Z.eqb_spec (x - v) 1); [contradiction|].
    exists (ye - v + 1)%Z. split; [lia|]. right. left. reflexivity.
  - destruct I as [E|I]; [congruence|].
    assert (Nl2 : v <> last t 0%Z) by (destruct t as [|x t]; [destruct I|exact Nl]).
    assert (A2 : ~ In (v - 1)%Z (w :: t)) by (intros H; apply A; right; exact H).
    assert (B2 : ~ In (v + 1)%Z t) by (intros H; apply B; right; exact H).
    change (null_bars ys ye (u :: w :: t)) with
      (if (w - u =? 1)%Z then null_bars ys w (w :: t) else (ys, (ye - ys + 1)%Z) :: null_bars w ye (w :: t)).
    destruct (w - u =? 1)%Z.
    + apply IH; auto. lia.
    + destruct (IH w w ye v S2) as (h & H1 & H2); auto; [lia|]. exists h. split; [exact H1|right; exact H2].
Qed.

(** The bars cover exactly the missing rows if and only if every missing row except the
    first and the last one has a missing row of the same kind next to it. *)
Theorem C104_missing : forall l bs, StronglySorted Z.lt l -> draw l = Ok bs ->
  ((forall i, drawn_in bs i <-> In i l) <->
   (forall v, In v l -> v <> hd 0%Z l -> v <> last l 0%Z -> In (v - 1)%Z l \/ In (v + 1)%Z l)).
Proof.
  intros [|v t] bs S D; [discriminate D|]. cbn [draw] in D. injection D as <-. cbn [hd]. split.
  - intros E w I Nh Nl. destruct I as [->|I]; [congruence|].
    destruct (in_dec Z.eq_dec (w - 1)%Z (v :: t)) as [H|A]; [auto|]. destruct (in_dec Z.eq_dec (w + 1)%Z (v :: t)) as [H|B]; [auto|].
    assert (Nl2 : w <> last t 0%Z) by (destruct t as [|x t]; [destruct I|exact Nl]).
    exfalso. apply A. apply E. destruct (bars_hang t v v v w S (Z.le_refl _) I Nl2 A) as (h & H1 & H2).
    + intros H. apply B. right. exact H.
    + exists (w, h). split; [exact H2|]. unfold covers. cbn [fst snd]. right. lia.
  - intros Mid i. rewrite (bars_exact t v v v S (Z.le_refl _)); [| left; reflexivity|].
    + cbn [In]. split; [intros [H|H]; [left; lia|right; exact H]|intros [H|H]; [left; lia|right; exact H]].
    + intros w I Nl. assert (Nh : w <> v) by (pose proof (sorted_head v t w S I); lia).
      assert (Nl2 : w <> last (v :: t) 0%Z) by (destruct t as [|x t]; [destruct I|exact Nl]).
      destruct (Mid w (or_intror I) Nh Nl2) as [H|[H|H]]; [left; exact H| |right; exact H].
      exfalso. pose proof (sorted_head v t w S I). lia.
Qed.

(** What is drawn is always between the first and the last missing row, and these two are. *)
Theorem C104_missing_within : forall l bs, StronglySorted Z.lt l -> draw l = Ok bs ->
  (forall i, drawn_in bs i -> (hd 0 l <= i <= last l 0)%Z) /\ drawn_in bs (hd 0%Z l) /\ drawn_in bs (last l 0%Z).
Proof.
  assert (G : forall t v ys ye lo, StronglySorted Z.lt (v :: t) -> (lo <= ys <= v)%Z -> (lo <= ye <= v)%Z ->
    (forall i, drawn_in (null_bars ys ye (v :: t)) i -> (lo <= i <= last (v :: t) 0)%Z) /\
    (ye = v -> drawn_in (null_bars ys ye (v :: t)) ys) /\ drawn_in (null_bars ys ye (v :: t)) (last (v :: t) 0%Z)).
  { induction t as [|w t IH]; intros v ys ye lo S L Y.
    - cbn [null_bars last]. split; [|split].
      + intros i H. apply drawn_cons in H. unfold covers in H. cbn [fst snd] in H. destruct H as [H|(b & [] & _)]. lia.
      + intros _. exists (ys, (v - ys + 1)%Z). split; [left; reflexivity|]. unfold covers. cbn [fst snd]. lia.
      + exists (ys, (v - ys + 1)%Z). split; [left; reflexivity|]. unfold covers. cbn [fst snd]. lia.
    - assert (Lt : (v < w)%Z) by (apply (sorted_head v (w :: t)); [exact S|left; reflexivity]).
      assert (S2 := sorted_tail _ _ S).
      assert (Ll : (w <= last (w :: t) 0)%Z).
      { destruct t as [|x t]; [cbn; lia|]. assert (I : In (last (x :: t) 0%Z) (x :: t)) by (apply last_in; discriminate).
        pose proof (sorted_head w _ _ S2 I). change (last (w :: x :: t) 0%Z) with (last (x :: t) 0%Z). lia. }
      change (last (v :: w :: t) 0%Z) with (last (w :: t) 0%Z).
      change (null_bars ys ye (v :: w :: t)) with
        (if (w - v =? 1)%Z then null_bars ys w (w :: t) else (ys, (ye - ys + 1)%Z) :: null_bars w ye (w :: t)).
      destruct (w - v =? 1)%Z.
      + destruct (IH w ys w lo S2) as (A & B & C); [lia|lia|]. split; [exact A|]. split; [intros _; apply B; reflexivity|exact C].
      + destruct (IH w w ye lo S2) as (A & B & C); [lia|lia|]. split; [|split].
        * intros i H. apply drawn_cons in H. destruct H as [H|H]; [|apply A; exact H]. unfold covers in H. cbn [fst snd] in H. lia.
        * intros ->. exists (ys, (v - ys + 1)%Z). split; [left; reflexivity|]. unfold covers. cbn [fst snd]. lia.
        * apply drawn_cons. right. exact C. }
  intros [|v t] bs S D; [discriminate D|]. cbn [draw] in D. injection D as <-.
  destruct (G t v v v v S) as (A & B & C); [lia|lia|]. cbn [hd]. split; [exact A|]. split; [apply B; reflexivity|exact C].
Qed.

(** "Exactly the missing rows are drawn" does not hold. *)
Theorem C104_missing_refuted : exists l bs, StronglySorted Z.lt l /\ draw l = Ok bs /\
  ~ drawn_in bs 5%Z /\ In 5%Z l /\ (forall i, (1 <= i <= 4)%Z -> drawn_in bs i /\ ~ In i l).
Proof.
  exists [0; 5; 10]%Z, [(0, 1); (5, -4); (10, 1)]%Z. split.
  { repeat constructor. }
  split; [reflexivity|]. split; [|split].
  - intros (b & I & C). unfold covers in C. destruct I as [<-|[<-|[<-|[]]]]; cbn [fst snd] in C; lia.
  - right. left. reflexivity.
  - intros i H. split.
    + exists (5, -4)%Z. split; [right; left; reflexivity|]. unfold covers. cbn [fst snd]. lia.
    + intros [F|[F|[F|[]]]]; lia.
Qed.

(** *** Colours *)
Definition kinds_of (l : list missing) : list string := flat_map (fun m => map fst (m_nulls m)) l.
(** The different kinds in the order in which they are met *)
Definition order (l : list string) : list string := fold_left (fun acc k => if lmem acc k then acc else acc ++ [k]) l [].

(** The state after some kinds: the kth of them has the kth colour, from the start again at the end *)
Definition good (cycle : list nat) (met : list string) (s : colours) : Prop :=
  NoDup met /\ (forall k, dmem (given s) k = lmem met k) /\
  (forall j k, nth_error met j = Some k -> dget (given s) k = Some (nth (j mod length (tl cycle)) (tl cycle) 0)) /\
  remaining s = skipn (length met mod length (tl cycle)) (tl cycle).

Lemma take_good cycle met s k : length (tl cycle) <> 0 -> good cycle met s ->
  exists s', take_colour cycle s k = Ok s' /\ good cycle (if lmem met k then met else met ++ [k]) s'.
Proof.
  intros L (N & D & G & R). unfold take_colour. set (n := length (tl cycle)) in *.
  pose proof (D k) as Dk. unfold dmem in Dk. destruct (dget (given s) k) as [c|] eqn:E.
  - rewrite <- Dk. exists s. split; [reflexivity|]. repeat split; auto.
  - rewrite <- Dk. assert (M : length met mod n < n) by (apply Nat.mod_upper_bound; exact L).
    destruct (remaining s) as [|c t] eqn:Er.
    { exfalso. symmetry in R. apply (f_equal (@length nat)) in R. rewrite skipn_length in R. change (length (@nil nat)) with 0 in R.
      revert M R. fold n. generalize (length met mod n). intros q M R. lia. }
    eexists. split; [reflexivity|]. unfold good. cbn [given remaining].
    assert (Ec : c = nth (length met mod n) (tl cycle) 0).
    { assert (X : nth 0 (skipn (length met mod n) (tl cycle)) 0 = c) by (rewrite <- R; reflexivity).
      rewrite <- X. rewrite <- (firstn_skipn (length met mod n) (tl cycle)) at 2.
      rewrite app_nth2; rewrite firstn_length; fold n; revert M; generalize (length met mod n); intros q M; [|lia]. f_equal. lia. }
    assert (Et : t = skipn (S (length met mod n)) (tl cycle)).
    { clear - R. revert R. generalize (length met mod n). intros q. revert q. induction (tl cycle) as [|a l IH]; intros q R.
      - destruct q; discriminate R.
      - destruct q as [|q]; [cbn in R; injection R as _ ->; reflexivity|]. cbn in R |- *. apply IH. exact R. }
    assert (Nk : ~ In k met) by (intros I; apply lmem_In in I; congruence).
    split; [|split; [|split]].
    + rewrite <- (rev_involutive (met ++ [k])). apply NoDup_rev. rewrite rev_app_distr. cbn [rev app].
      constructor; [intros I; apply in_rev in I; contradiction|apply NoDup_rev; exact N].
    + intros j. unfold dmem. rewrite dget_dset. destruct (PyDict.eqb k j) eqn:Ej.
      * apply (proj1 (PyDict.eqb_eq _ _)) in Ej. subst j. symmetry. apply lmem_In. apply in_or_app. right. left. reflexivity.
      * specialize (D j). unfold dmem in D. rewrite D. destruct (lmem met j) eqn:Ej2.
        -- symmetry. apply lmem_In. apply lmem_In in Ej2. apply in_or_app. left. exact Ej2.
        -- symmetry. apply lmem_false. apply lmem_false in Ej2. intros I. apply in_app_or in I. destruct I as [I|[I|[]]]; [contradiction|].
           subst j. rewrite (proj2 (PyDict.eqb_eq k k) eq_refl) in Ej. discriminate Ej.
    + intros j x Hj. destruct (Nat.lt_ge_cases j (length met)) as [Lj|Lj].
      * rewrite nth_error_app1 in Hj by exact Lj. rewrite dget_dset. destruct (PyDict.eqb k x) eqn:Ex.
        -- apply (proj1 (PyDict.eqb_eq _ _)) in Ex. subst x. apply nth_error_In in Hj. contradiction.
        -- apply G. exact Hj.
      * rewrite nth_error_app2 in Hj by exact Lj. destruct (j - length met) as [|d] eqn:Ed; [|destruct d; discriminate Hj].
        cbn in Hj. injection Hj as <-. rewrite dget_dset, (proj2 (PyDict.eqb_eq k k) eq_refl). f_equal. rewrite Ec. f_equal.
        fold n. f_equal. lia.
    + rewrite app_length. cbn [length]. rewrite Nat.add_1_r. fold n.
      destruct (Nat.eq_dec (S (length met mod n)) n) as [En|Nn].
      * assert (t = []) as ->. { rewrite Et, En. apply skipn_all. }
        assert (S (length met) mod n = 0) as ->; [|reflexivity].
        rewrite <- Nat.add_1_r, <- Nat.add_mod_idemp_l, Nat.add_1_r, En by exact L. apply Nat.mod_same. exact L.
      * assert (Es : S (length met) mod n = S (length met mod n)).
        { rewrite <- Nat.add_1_r, <- Nat.add_mod_idemp_l, Nat.add_1_r by exact L. apply Nat.mod_small.
          revert M Nn. generalize (length met mod n). intros q M Nn. lia. }
        rewrite Es, <- Et. destruct t; [|reflexivity]. exfalso. apply (f_equal (@length nat)) in Et. rewrite skipn_length in Et. change (length (@nil nat)) with 0 in Et.
        revert M Nn Et. fold n. generalize (length met mod n). intros q M Nn Et. lia.
Qed.

Lemma kinds_good cycle : length (tl cycle) <> 0 -> forall l met s s' out, good cycle met s -> draw_kinds cycle s l = Ok (s', out) ->
  good cycle (fold_left (fun acc k => if lmem acc k then acc else acc ++ [k]) (map fst l) met) s' /\
  map fst out = map fst l /\
  (forall kind c bs, In (kind, (c, bs)) out -> exists rows, In (kind, rows) l /\ draw rows = Ok bs /\ dget (given s') kind = Some c).
Proof.
  intros L. induction l as [|[kind rows] l IH]; intros met s s' out G H.
  - cbn in H. injection H as <- <-. split; [exact G|]. split; [reflexivity|]. intros ? ? ? [].
  - cbn [draw_kinds] in H. destruct (take_good cycle met s kind L G) as (s1 & E1 & G1). rewrite E1 in H. cbn [bind] in H.
    destruct (draw rows) as [bs|e] eqn:Ed; [|discriminate H]. cbn [bind] in H.
    destruct (draw_kinds cycle s1 l) as [[s2 out2]|e] eqn:Ek; [|discriminate H]. cbn [bind fst snd] in H. injection H as <- <-.
    destruct (IH _ _ _ _ G1 Ek) as (A & B & C). cbn [map fold_left fst]. split; [exact A|]. split; [rewrite B; reflexivity|].
    intros k c bs' [E|I].
    + injection E as <- <- <-. exists rows. split; [left; reflexivity|]. split; [exact Ed|].
      (* the colour stays *)
      set (met1 := if lmem met kind then met else met ++ [kind]) in *.
      assert (I1 : In kind met1) by (unfold met1; destruct (lmem met kind) eqn:E; [apply lmem_In; exact E|apply in_or_app; right; left; reflexivity]).
      destruct (In_nth_error _ _ I1) as [j Hj].
      assert (P : forall l0 (a : list string), exists r, fold_left (fun acc k => if lmem acc k then acc else acc ++ [k]) l0 a = a ++ r).
      { induction l0 as [|x l0 IH0]; intros a; [exists []; symmetry; apply app_nil_r|]. cbn [fold_left]. destruct (lmem a x); [apply IH0|].
        destruct (IH0 (a ++ [x])) as [r Er]. exists (x :: r). rewrite Er, <- app_assoc. reflexivity. }
      destruct (P (map fst l) met1) as [r Er].
      destruct G1 as (_ & _ & G1 & _). destruct A as (_ & _ & A & _). rewrite (G1 j kind Hj). apply A.
      rewrite Er. rewrite nth_error_app1; [exact Hj|]. apply nth_error_Some. congruence.
    + destruct (C k c bs' I) as (rows' & I' & D' & E'). exists rows'. split; [right; exact I'|]. auto.
Qed.

Lemma fold_order_app l : forall (a : list string) j k, nth_error a j = Some k ->
  nth_error (fold_left (fun acc k => if lmem acc k then acc else acc ++ [k]) l a) j = Some k.
Proof.
  induction l as [|x l IH]; intros a j k H; [exact H|]. cbn [fold_left]. apply IH. destruct (lmem a x); [exact H|].
  rewrite nth_error_app1; [exact H|]. apply nth_error_Some. congruence.
Qed.

Lemma columns_good cycle : length (tl cycle) <> 0 -> forall l met s out, good cycle met s -> draw_columns cycle s l = Ok out ->
  let final := fold_left (fun acc k => if lmem acc k then acc else acc ++ [k]) (kinds_of l) met in
  Forall2 (fun m d => d_size d = m_size m /\ map fst (d_bars d) = map fst (m_nulls m) /\
    forall kind c bs, In (kind, (c, bs)) (d_bars d) -> exists rows j, In (kind, rows) (m_nulls m) /\ draw rows = Ok bs /\
      nth_error final j = Some kind /\ c = nth (j mod length (tl cycle)) (tl cycle) 0) l out.
Proof.
  intros L. induction l as [|m l IH]; intros met s out G H.
  - cbn in H. injection H as <-. constructor.
  - cbn [draw_columns] in H. destruct (draw_kinds cycle s (m_nulls m)) as [[s1 bs1]|e] eqn:Ek; [|discriminate H]. cbn [bind fst snd] in H.
    destruct (draw_columns cycle s1 l) as [ds|e] eqn:Ec; [|discriminate H]. cbn [bind] in H. injection H as <-.
    destruct (kinds_good cycle L _ _ _ _ _ G Ek) as (A & B & C). cbv zeta. unfold kinds_of. cbn [flat_map]. rewrite fold_left_app.
    constructor; [|exact (IH _ _ _ A Ec)]. cbn [d_size d_bars]. split; [reflexivity|]. split; [exact B|].
    intros kind c bs I. destruct (C kind c bs I) as (rows & I' & D & E). exists rows.
    destruct A as (N & M & A & _).
    assert (Im : In kind (fold_left (fun acc k => if lmem acc k then acc else acc ++ [k]) (map fst (m_nulls m)) met)).
    { apply lmem_In. rewrite <- M. unfold dmem. rewrite E. reflexivity. }
    destruct (In_nth_error _ _ Im) as [j Hj]. exists j. split; [exact I'|]. split; [exact D|]. split; [apply fold_order_app; exact Hj|].
    pose proof (A j kind Hj) as X. rewrite E in X. injection X as ->. reflexivity.
Qed.

Lemma good_start cycle : good cycle [] (mkColours [] (tl cycle)).
Proof.
  split; [constructor|]. split; [reflexivity|]. split; [intros [|j] k H; discriminate H|]. cbn [remaining length].
  assert (E : 0 mod length (tl cycle) = 0) by (destruct (length (tl cycle)); [reflexivity|apply Nat.mod_0_l; lia]). rewrite E. reflexivity.
Qed.

(** A column has one background as long as its sample and for each kind of missing value the bars
    of its rows.  The kth kind met in the table has the kth colour, from the start again
    at the end; so the same kind has the same colour everywhere. *)
Theorem C104_columns_drawn : forall cycle l out, length (tl cycle) <> 0 -> plot_missing cycle l = Ok (Some out) ->
  Forall2 (fun m d => d_size d = m_size m /\ map fst (d_bars d) = map fst (m_nulls m) /\
    forall kind c bs, In (kind, (c, bs)) (d_bars d) -> exists rows j, In (kind, rows) (m_nulls m) /\ draw rows = Ok bs /\
      nth_error (order (kinds_of l)) j = Some kind /\ c = nth (j mod length (tl cycle)) (tl cycle) 0) l out.
Proof.
  intros cycle l out L H. unfold plot_missing in H. destruct l as [|m l]; [discriminate H|].
  destruct (draw_columns cycle (mkColours [] (tl cycle)) (m :: l)) as [ds|e] eqn:E; [|discriminate H]. cbn [bind] in H. injection H as <-.
  exact (columns_good cycle L _ _ _ _ (good_start cycle) E).
Qed.

(** If there are enough colours, all different, kinds have the same colour only if they are the same. *)
Lemma order_nodup l : NoDup (order l).
Proof.
  unfold order. assert (G : forall l a, NoDup a -> NoDup (fold_left (fun acc k => if lmem acc k then acc else acc ++ [k]) l a)).
  { clear l. induction l as [|x l IH]; intros a N; [exact N|]. cbn [fold_left]. apply IH. destruct (lmem a x) eqn:E; [exact N|].
    apply NoDup_snoc; [exact N|]. apply lmem_false. exact E. }
  apply G. constructor.
Qed.

Theorem C104_colours_differ : forall cycle l out, NoDup cycle -> length (order (kinds_of l)) <= length (tl cycle) ->
  plot_missing cycle l = Ok (Some out) ->
  forall d d' kind kind' c c' bs bs', In d out -> In d' out -> In (kind, (c, bs)) (d_bars d) -> In (kind', (c', bs')) (d_bars d') ->
  (c = c' <-> kind = kind').
Proof.
  intros cycle l out N Le H d d' kind kind' c c' bs bs' I I' B B'.
  assert (L : length (tl cycle) <> 0 \/ length (tl cycle) = 0) by lia. destruct L as [L|L].
  - pose proof (C104_columns_drawn cycle l out L H) as F.
    assert (X : forall d kind c bs, In d out -> In (kind, (c, bs)) (d_bars d) -> exists j, nth_error (order (kinds_of l)) j = Some kind /\
      j < length (tl cycle) /\ c = nth j (tl cycle) 0).
    { clear - F Le. revert F Le. generalize (order (kinds_of l)). intros o F Le. induction F as [|m d0 l out Hd F IH]; intros d kind c bs I B; [destruct I|].
      destruct I as [->|I]; [|exact (IH d kind c bs I B)]. destruct Hd as (_ & _ & Hd). destruct (Hd kind c bs B) as (rows & j & _ & _ & Hj & Hc).
      exists j. split; [exact Hj|]. assert (Lj : j < length (tl cycle)) by (apply Nat.lt_le_trans with (length o); [apply nth_error_Some; congruence|exact Le]).
      split; [exact Lj|]. rewrite Nat.mod_small in Hc by exact Lj. exact Hc. }
    destruct (X d kind c bs I B) as (j & J1 & J2 & J3). destruct (X d' kind' c' bs' I' B') as (j' & J1' & J2' & J3').
    assert (Nt : NoDup (tl cycle)) by (destruct cycle as [|a t]; [constructor|inversion N; assumption]).
    split.
    + intros E. subst c c'. assert (j = j') by (apply (proj1 (NoDup_nth (tl cycle) 0) Nt); assumption). subst j'. congruence.
    + intros <-. assert (j = j').
      { apply (proj1 (NoDup_nth_error (order (kinds_of l))) (order_nodup _)); [apply nth_error_Some; congruence|congruence]. }
      subst j'. congruence.
  - exfalso. assert (O : order (kinds_of l) = []) by (apply length_zero_iff_nil; lia).
    assert (K : kinds_of l = []).
    { destruct (kinds_of l) as [|k0 t] eqn:E; [reflexivity|]. exfalso. unfold order in O. cbn [fold_left] in O.
      assert (Z : nth_error (fold_left (fun acc k => if lmem acc k then acc else acc ++ [k]) t [k0]) 0 = Some k0) by (apply fold_order_app; reflexivity).
      change (if lmem [] k0 then [] else [] ++ [k0]) with [k0] in O. rewrite O in Z. discriminate Z. }
    unfold plot_missing in H. destruct l as [|m l]; [discriminate H|].
    destruct (draw_columns cycle (mkColours [] (tl cycle)) (m :: l)) as [ds|e] eqn:E; [|discriminate H]. cbn [bind] in H. injection H as <-.
    clear - K E I B. revert E I K. generalize (mkColours [] (tl cycle)). generalize (m :: l) as ls. intros ls. revert ds.
    induction ls as [|m0 ls IH]; intros ds s E I K.
    + cbn in E. injection E as <-. destruct I.
    + cbn [draw_columns] in E. unfold kinds_of in K. cbn [flat_map] in K. apply app_eq_nil in K. destruct K as [K1 K2].
      apply map_eq_nil in K1. rewrite K1 in E. cbn [draw_kinds bind fst snd] in E.
      destruct (draw_columns cycle s ls) as [ds2|e2] eqn:E2; [|discriminate E]. cbn [bind] in E. injection E as <-.
      destruct I as [<-|I]; [destruct B|]. exact (IH ds2 s E2 I K2).
Qed.

(** Nothing fails if the style has two colours and every kind has rows. *)
Theorem C104_drawn : forall cycle l, 2 <= length cycle -> l <> [] ->
  (forall m kind rows, In m l -> In (kind, rows) (m_nulls m) -> rows <> []) ->
  exists out, plot_missing cycle l = Ok (Some out).
Proof.
  intros cycle l L Ne R. unfold plot_missing. assert (Lt : length (tl cycle) <> 0) by (destruct cycle as [|a [|b t]]; cbn in *; lia).
  assert (K : forall ks met s, good cycle met s -> (forall kind rows, In (kind, rows) ks -> rows <> []) ->
    exists s' out, draw_kinds cycle s ks = Ok (s', out)).
  { induction ks as [|[kind rows] ks IH]; intros met s G Rk; [exists s, []; reflexivity|]. cbn [draw_kinds].
    destruct (take_good cycle met s kind Lt G) as (s1 & E1 & G1). rewrite E1. cbn [bind].
    destruct rows as [|v t]; [exfalso; apply (Rk kind []); [left; reflexivity|reflexivity]|]. cbn [draw bind].
    destruct (IH _ s1 G1) as (s2 & out & E2); [intros k r I; apply (Rk k r); right; exact I|]. rewrite E2. cbn [bind fst snd]. eauto. }
  assert (C : forall ls met s, good cycle met s -> (forall m kind rows, In m ls -> In (kind, rows) (m_nulls m) -> rows <> []) ->
    exists out, draw_columns cycle s ls = Ok out).
  { induction ls as [|m ls IH]; intros met s G Rl; [exists []; reflexivity|]. cbn [draw_columns].
    destruct (K (m_nulls m) met s G) as (s1 & o1 & E1); [intros k r I; apply (Rl m k r); [left; reflexivity|exact I]|].
    rewrite E1. cbn [bind fst snd]. destruct (kinds_good cycle Lt _ _ _ _ _ G E1) as (G1 & _).
    destruct (IH _ s1 G1) as (o2 & E2); [intros m' k r I; apply (Rl m' k r); right; exact I|]. rewrite E2. cbn [bind]. eauto. }
  destruct (C l [] _ (good_start cycle) R) as [out E]. exists out. destruct l as [|m l]; [congruence|]. rewrite E. reflexivity.
Qed.

(** ** Histograms *)
Lemma pick {A} (g : A * nat -> bool) d (xs : list A) : forall ws j, length xs = length ws -> j < length xs ->
  (forall k, k < length xs -> g (nth k xs d, nth k ws 0) = (k =? j)) ->
  list_sum (map snd (filter g (combine xs ws))) = nth j ws 0.
Proof.
  induction xs as [|x xs IH]; intros [|w ws] j Le Lj H; cbn [length] in *; try lia.
  cbn [combine filter]. pose proof (H 0 ltac:(lia)) as H0. cbn [nth] in H0. rewrite H0.
  assert (Z : forall l2 w2, length l2 = length w2 -> (forall k, k < length l2 -> g (nth k l2 d, nth k w2 0) = false) -> filter g (combine l2 w2) = []).
  { clear. induction l2 as [|x l2 IH]; intros [|w w2] L H; cbn [length] in *; try lia; [reflexivity|]. cbn [combine filter].
    pose proof (H 0 ltac:(lia)) as H0. cbn [nth] in H0. rewrite H0. apply IH; [lia|]. intros k K. apply (H (S k)). lia. }
  destruct j as [|j]; cbn [Nat.eqb].
  - rewrite Z; [cbn; lia|lia|]. intros k K. apply (H (S k)). lia.
  - cbn [nth]. apply IH; [lia|lia|]. intros k K. apply (H (S k)). lia.
Qed.

Lemma sorted_nth l : StronglySorted Qlt l -> forall i j, i < j -> j < length l -> (nth i l 0 < nth j l 0)%Q.
Proof.
  induction 1 as [|a l S IH F]; intros i j Ij Lj; cbn [length] in Lj; [lia|].
  destruct j as [|j]; [lia|]. destruct i as [|i]; cbn [nth].
  - rewrite Forall_forall in F. apply F. apply nth_In. lia.
  - apply IH; lia.
Qed.

Lemma bins_length es : length (bins_of es) = length es - 1.
Proof. induction es as [|a [|b t] IH]; try reflexivity. cbn [bins_of length] in *. rewrite IH. lia. Qed.
Lemma bins_nth es : forall j, S j < length es -> nth j (bins_of es) (0%Q, 0%Q) = (nth j es 0%Q, nth (S j) es 0%Q).
Proof.
  induction es as [|a [|b t] IH]; intros j L; cbn [length] in *; try lia. destruct j as [|j]; [reflexivity|].
  change (nth j (bins_of (b :: t)) (0%Q, 0%Q) = (nth j (b :: t) 0%Q, nth (S j) (b :: t) 0%Q)). apply IH. lia.
Qed.
Lemma removelast_nth (es : list Q) : forall j, S j < length es -> nth j (removelast es) 0%Q = nth j es 0%Q.
Proof.
  induction es as [|a [|b t] IH]; intros j L; cbn [length] in *; try lia. destruct j as [|j]; [reflexivity|].
  change (nth j (removelast (b :: t)) 0%Q = nth j (b :: t) 0%Q). apply IH. lia.
Qed.
Lemma removelast_len (es : list Q) : length (removelast es) = length es - 1.
Proof. induction es as [|a [|b t] IH]; try reflexivity. change (S (length (removelast (b :: t))) = S (length (b :: t)) - 1). rewrite IH. cbn [length]. lia. Qed.

(** The bars of the plot are as high as the counts of the histogram. *)
Theorem C104_bars : forall h, StronglySorted Qlt (edges h) -> length (edges h) = S (length (counts h)) -> bars h = counts h.
Proof.
  intros h S L. unfold bars. set (es := edges h) in *. set (n := length (counts h)) in *.
  assert (Lb : length (bins_of es) = n) by (rewrite bins_length; lia). rewrite Lb.
  assert (Lc : length (combine (seq 0 n) (bins_of es)) = n) by (rewrite combine_length, seq_length, Lb; lia).
  apply (nth_ext _ _ ((fun ib => bar (combine (removelast es) (counts h)) (Datatypes.S (fst ib) =? n) (snd ib)) (0, (0%Q, 0%Q))) 0).
  { rewrite map_length. exact Lc. }
  intros j J. rewrite map_length, Lc in J. rewrite (map_nth (fun ib => bar (combine (removelast es) (counts h)) (Datatypes.S (fst ib) =? n) (snd ib))).
  rewrite combine_nth by (rewrite seq_length; lia). rewrite seq_nth, bins_nth by lia. cbn [fst snd Nat.add]. unfold bar. cbn [fst snd].
  apply (pick _ 0%Q); [rewrite removelast_len; fold n; lia|rewrite removelast_len; lia|]. rewrite removelast_len. intros k K. cbn [fst].
  rewrite removelast_nth by lia. unfold in_bin.
  assert (Lo : Qle_bool (nth j es 0%Q) (nth k es 0%Q) = (j <=? k)).
  { destruct (Nat.leb_spec j k) as [H|H].
    - apply Qle_bool_iff. destruct (Nat.eq_dec j k) as [->|Ne]; [apply Qle_refl|]. apply Qlt_le_weak, sorted_nth; [exact S|lia|lia].
    - apply not_true_iff_false. intros F. apply Qle_bool_iff in F. apply (Qlt_irrefl (nth k es 0%Q)).
      eapply Qlt_le_trans; [apply (sorted_nth es S k j); lia|exact F]. }
  rewrite Lo. assert (Hi : forall a b, a < length es -> b < length es -> Qle_bool (nth a es 0%Q) (nth b es 0%Q) = (a <=? b)).
  { intros a b A B. destruct (Nat.leb_spec a b) as [H|H].
    - apply Qle_bool_iff. destruct (Nat.eq_dec a b) as [->|Ne]; [apply Qle_refl|]. apply Qlt_le_weak, sorted_nth; [exact S|lia|lia].
    - apply not_true_iff_false. intros F. apply Qle_bool_iff in F. apply (Qlt_irrefl (nth b es 0%Q)).
      eapply Qlt_le_trans; [apply (sorted_nth es S b a); lia|exact F]. }
  rewrite !Hi by lia.
  destruct (Nat.eqb_spec (Datatypes.S j) n); destruct (Nat.leb_spec j k), (Nat.leb_spec k (Datatypes.S j)), (Nat.leb_spec (Datatypes.S j) k), (Nat.eqb_spec k j);
    cbn [andb negb]; try reflexivity; lia.
Qed.

(** The columns [cs] are shown, in this order: each in its own field of the grid, with the bars of its
    histogram; the grid is as square as it can be. *)
Definition has_hist (c : column) : bool := match c_hist c with Some _ => true | None => false end.
Definition shows (cs : list column) (out : result figure) : Prop :=
  if length cs =? 0 then out = Ok NoFigure
  else if forallb has_hist cs then exists rows cols plots off, out = Ok (Figure rows cols plots off) /\
    map fst plots = cs /\ Forall (fun p => exists h, c_hist (fst p) = Some h /\ snd p = bars h) plots /\
    rows * cols = length cs + off /\ off < cols /\ rows <= cols /\ pred cols * pred cols < length cs <= cols * cols
  else out = Err ValueError.

Lemma grid_spec n : 0 < n -> n <= grid_rows n * grid_cols n /\ grid_rows n * grid_cols n - n < grid_cols n /\
  grid_rows n <= grid_cols n /\ pred (grid_cols n) * pred (grid_cols n) < n <= grid_cols n * grid_cols n.
Proof.
  intros N. unfold grid_rows, grid_cols. destruct (Nat.sqrt_up_spec n N) as [A B]. set (c := Nat.sqrt_up n) in *.
  assert (C : 0 < c) by nia. pose proof (Nat.div_mod (n + c - 1) c ltac:(lia)) as D.
  pose proof (Nat.mod_upper_bound (n + c - 1) c ltac:(lia)) as M. set (q := (n + c - 1) / c) in *. set (r := (n + c - 1) mod c) in *.
  clearbody q r. assert (E : q * c = c * q) by lia. rewrite E. repeat split; try lia; nia.
Qed.

Lemma plot_all_spec cs : if forallb has_hist cs then exists plots, plot_all cs = Ok plots /\ map fst plots = cs /\
    Forall (fun p => exists h, c_hist (fst p) = Some h /\ snd p = bars h) plots
  else plot_all cs = Err ValueError.
Proof.
  induction cs as [|c cs IH]; [exists []; repeat split; constructor|]. cbn [forallb plot_all]. unfold has_hist at 1, plot_col.
  destruct (c_hist c) as [h|] eqn:E; cbn [andb bind]; [|reflexivity].
  destruct (forallb has_hist cs).
  - destruct IH as (ps & -> & F & A). cbn [bind]. exists ((c, bars h) :: ps). split; [reflexivity|]. split; [cbn; rewrite F; reflexivity|].
    constructor; [exists h; auto|exact A].
  - rewrite IH. reflexivity.
Qed.

Lemma finish cs : shows cs (match cs with
  | [] => Ok NoFigure
  | _ => bind (plot_all (firstn (grid_rows (length cs) * grid_cols (length cs)) cs))
           (fun ps => Ok (Figure (grid_rows (length cs)) (grid_cols (length cs)) ps (grid_rows (length cs) * grid_cols (length cs) - length cs)))
  end).
Proof.
  unfold shows. destruct cs as [|c t] eqn:Ec; [reflexivity|]. rewrite <- Ec. assert (N : 0 < length cs) by (rewrite Ec; cbn; lia).
  destruct (Nat.eqb_spec (length cs) 0); [lia|]. destruct (grid_spec (length cs) N) as (A & B & C & D).
  rewrite firstn_all2 by exact A. pose proof (plot_all_spec cs) as P. destruct (forallb has_hist cs).
  - destruct P as (ps & -> & F & G). cbn [bind]. do 4 eexists. split; [reflexivity|]. repeat split; auto; lia.
  - rewrite P. reflexivity.
Qed.

Lemma graphable_ok table zs ns : Forall2 (fun z i => py_index (length table) z = Some i) zs ns ->
  (forall i, In i ns -> i < length table) ->
  graphable table zs = Ok (flat_map (fun i => match nth_error table i with Some c => if numeric c then [c] else [] | None => [] end) ns).
Proof.
  induction 1 as [|z i zs ns H F IH]; intros B; [reflexivity|]. cbn [graphable flat_map]. rewrite H.
  destruct (nth_error table i) as [c|] eqn:E; [|apply nth_error_None in E; specialize (B i (or_introl eq_refl)); lia].
  rewrite IH by (intros j J; apply B; right; exact J). cbn [bind]. destruct (numeric c); reflexivity.
Qed.

Lemma py_index_nat n i : i < n -> py_index n (Z.of_nat i) = Some i.
Proof.
  intros L. unfold py_index. destruct (Z.leb_spec 0 (Z.of_nat i)), (Z.ltb_spec (Z.of_nat i) (Z.of_nat n)); try lia. cbn [andb]. rewrite Nat2Z.id. reflexivity.
Qed.

Lemma graphable_positions table ns : (forall i, In i ns -> i < length table) ->
  graphable table (map Z.of_nat ns) = Ok (flat_map (fun i => match nth_error table i with Some c => if numeric c then [c] else [] | None => [] end) ns).
Proof.
  intros B. apply graphable_ok; [|exact B]. induction ns as [|i ns IH]; constructor; [apply py_index_nat, B; left; reflexivity|].
  apply IH. intros j J. apply B. right. exact J.
Qed.

Lemma columns_at (P : column -> bool) table :
  flat_map (fun i => match nth_error table i with Some c => if numeric c then [c] else [] | None => [] end)
    (filter (fun i => match nth_error table i with Some c => P c | None => false end) (seq 0 (length table))) =
  filter (fun c => P c && numeric c) table.
Proof.
  assert (G : forall t pre, flat_map (fun i => match nth_error (pre ++ t) i with Some c => if numeric c then [c] else [] | None => [] end)
    (filter (fun i => match nth_error (pre ++ t) i with Some c => P c | None => false end) (seq (length pre) (length t))) =
    filter (fun c => P c && numeric c) t).
  { induction t as [|c t IH]; intros pre; [reflexivity|]. cbn [length seq filter].
    assert (E : nth_error (pre ++ c :: t) (length pre) = Some c) by (rewrite nth_error_app2, Nat.sub_diag by lia; reflexivity).
    rewrite E. specialize (IH (pre ++ [c])). rewrite <- app_assoc, app_length in IH. cbn [length app] in IH. rewrite Nat.add_1_r in IH.
    destruct (P c); cbn [flat_map andb].
    - rewrite E, IH. destruct (numeric c); reflexivity.
    - exact IH. }
  exact (G table []).
Qed.

Definition blank (a : arg) : Prop := a = ANone \/ a = AList [].

(** Without a choice all columns of numbers are shown, in the order of the table. *)
Theorem C104_all : forall table names inds, blank names -> blank inds ->
  shows (filter numeric table) (plot_histograms table names inds).
Proof.
  intros table names inds Hn Hi.
  assert (S : selected table names inds = Ok (map Z.of_nat (seq 0 (length table)))) by (destruct Hn as [->| ->], Hi as [->| ->]; reflexivity).
  unfold plot_histograms. rewrite S. cbn [bind]. rewrite graphable_positions by (intros i I; apply in_seq in I; lia). cbn [bind].
  assert (E : flat_map (fun i => match nth_error table i with Some c => if numeric c then [c] else [] | None => [] end) (seq 0 (length table)) = filter numeric table).
  { pose proof (columns_at (fun _ => true) table) as C. cbn [andb] in C.
    assert (F : filter (fun i => match nth_error table i with Some _ => true | None => false end) (seq 0 (length table)) = seq 0 (length table)).
    { rewrite (filter_ext_in _ (fun _ => true)).
      - clear. induction (seq 0 (length table)) as [|x l IH]; [reflexivity|]. cbn. rewrite IH. reflexivity.
      - intros i I. apply in_seq in I. destruct (nth_error table i) eqn:E; [reflexivity|]. apply nth_error_None in E. lia. }
    rewrite F in C. rewrite C. reflexivity. }
  rewrite E. apply finish.
Qed.

(** Columns chosen by name: for each name in turn the columns of numbers of that name, whatever the
    capitals, and a ValueError if there is no column of that name. *)
Definition named (s : string) (c : column) : bool :=
  match c_name c with CText t => String.eqb (lower_string t) (lower_string s) | CNumber _ => false end.

Theorem C104_by_name : forall table ss inds, ss <> [] -> blank inds ->
  if forallb (fun s => existsb (named s) table) ss
  then shows (flat_map (fun s => filter (fun c => named s c && numeric c) table) ss) (plot_histograms table (AList (map IText ss)) inds)
  else plot_histograms table (AList (map IText ss)) inds = Err ValueError.
Proof.
  intros table ss inds Ne Hi.
  assert (S : selected table (AList (map IText ss)) inds = by_names table (map IText ss)).
  { unfold selected. assert (forallb is_text (map IText ss) = true) as -> by (clear; induction ss; [reflexivity|exact IHss]).
    destruct ss as [|s ss]; [congruence|]. destruct Hi as [->| ->]; reflexivity. }
  unfold plot_histograms. rewrite S. clear S Ne.
  assert (Pn : forall s, (positions table (lower_string s) = [] <-> existsb (named s) table = false) /\
    (forall i, In i (positions table (lower_string s)) -> i < length table)).
  { intros s. unfold positions. split.
    - split.
      + intros E. apply not_true_iff_false. intros X. apply existsb_exists in X. destruct X as (c & I & X).
        destruct (In_nth_error _ _ I) as [i Hi2].
        assert (I2 : In i (filter (fun i => match nth_error table i with
           | Some c => match c_name c with CText t => String.eqb (lower_string t) (lower_string s) | CNumber _ => false end | None => false end) (seq 0 (length table)))).
        { apply filter_In. split; [apply in_seq; split; [lia|cbn; apply nth_error_Some; congruence]|]. rewrite Hi2. exact X. }
        rewrite E in I2. destruct I2.
      + intros X. match goal with |- ?l = [] => destruct l as [|i l'] eqn:E end; [reflexivity|]. exfalso.
        assert (I2 : In i (i :: l')) by (left; reflexivity). rewrite <- E in I2. apply filter_In in I2. destruct I2 as [_ I2].
        destruct (nth_error table i) as [c|] eqn:En; [|discriminate I2]. apply nth_error_In in En.
        assert (existsb (named s) table = true) by (apply existsb_exists; exists c; split; [exact En|exact I2]). congruence.
    - intros i I. apply filter_In in I. destruct I as [I _]. apply in_seq in I. lia. }
  assert (B : if forallb (fun s => existsb (named s) table) ss
    then by_names table (map IText ss) = Ok (map Z.of_nat (flat_map (fun s => positions table (lower_string s)) ss))
    else by_names table (map IText ss) = Err ValueError).
  { induction ss as [|s ss IH]; [reflexivity|]. cbn [map by_names forallb flat_map]. destruct (Pn s) as [[P1 P2] _].
    destruct (existsb (named s) table) eqn:E; cbn [andb].
    - destruct (positions table (lower_string s)) as [|p ps]; [specialize (P1 eq_refl); congruence|].
      destruct (forallb (fun s0 => existsb (named s0) table) ss); rewrite IH; [|reflexivity]. cbn [bind]. rewrite map_app. reflexivity.
    - rewrite (P2 eq_refl). reflexivity. }
  destruct (forallb (fun s => existsb (named s) table) ss).
  - rewrite B. cbn [bind]. rewrite graphable_positions.
    + cbn [bind].
      assert (E : flat_map (fun i => match nth_error table i with Some c => if numeric c then [c] else [] | None => [] end)
         (flat_map (fun s => positions table (lower_string s)) ss) = flat_map (fun s => filter (fun c => named s c && numeric c) table) ss).
      { clear. induction ss as [|s ss IH]; [reflexivity|]. cbn [flat_map]. rewrite flat_map_app, IH. f_equal.
        exact (columns_at (named s) table). }
      rewrite E. apply finish.
    + intros i I. apply in_flat_map in I. destruct I as (s & _ & I). apply (proj2 (Pn s)). exact I.
  - rewrite B. reflexivity.
Qed.

(** Columns chosen by position: in the order given, from the end if negative; an IndexError if a position is
    out of range. *)
Theorem C104_by_position : forall table zs names, zs <> [] -> blank names ->
  (forall ns, Forall2 (fun z i => i < length table /\ (z = Z.of_nat i \/ z = (Z.of_nat i - Z.of_nat (length table))%Z)) zs ns ->
     shows (flat_map (fun i => match nth_error table i with Some c => if numeric c then [c] else [] | None => [] end) ns)
       (plot_histograms table names (AList (map INumber zs)))) /\
  ((exists z, In z zs /\ ~ (- Z.of_nat (length table) <= z < Z.of_nat (length table))%Z) ->
     plot_histograms table names (AList (map INumber zs)) = Err IndexError).
Proof.
  intros table zs names Ne Hn.
  assert (S : selected table names (AList (map INumber zs)) = Ok zs).
  { unfold selected. assert (forallb is_number (map INumber zs) = true) as -> by (clear; induction zs; [reflexivity|exact IHzs]).
    assert (F : flat_map (fun i => match i with INumber z => [z] | _ => [] end) (map INumber zs) = zs)
      by (clear; induction zs as [|z zs IH]; [reflexivity|]; cbn; rewrite IH; reflexivity).
    destruct zs as [|z zs]; [congruence|]. destruct Hn as [->| ->]; cbn [truth andb forallb negb length Nat.eqb map] in *; rewrite F; reflexivity. }
  unfold plot_histograms. rewrite S. cbn [bind]. clear S Ne. split.
  - intros ns F. rewrite (graphable_ok table zs ns).
    + cbn [bind]. apply finish.
    + induction F as [|z i zs ns [L E] F IH]; constructor; [|exact IH]. destruct E as [->| ->]; [apply py_index_nat; exact L|].
      unfold py_index. destruct (Z.leb_spec 0 (Z.of_nat i - Z.of_nat (length table))); [lia|]. cbn [andb].
      destruct (Z.leb_spec (- Z.of_nat (length table)) (Z.of_nat i - Z.of_nat (length table))), (Z.ltb_spec (Z.of_nat i - Z.of_nat (length table)) 0); try lia.
      cbn [andb]. f_equal. lia.
    + clear - F. induction F as [|z i zs ns [L _] F IH]; [intros j []|]. intros j [<-|J]; [exact L|apply IH; exact J].
  - intros (z & I & O).
    assert (G : graphable table zs = Err IndexError); [|rewrite G; reflexivity].
    induction zs as [|y zs IH]; [destruct I|]. cbn [graphable].
    destruct (py_index (length table) y) as [i|] eqn:E.
    + destruct (nth_error table i) eqn:En; [|reflexivity]. destruct I as [->|I]; [|rewrite (IH I); reflexivity]. exfalso.
      unfold py_index in E. destruct (Z.leb_spec 0 z), (Z.ltb_spec z (Z.of_nat (length table))), (Z.leb_spec (- Z.of_nat (length table)) z), (Z.ltb_spec z 0);
        cbn [andb] in E; try discriminate E; lia.
    + reflexivity.
Qed.

(** Arguments that are refused whatever the table *)
Theorem C104_refused : forall table names inds,
  (truth names = true /\ truth inds = true) \/
  match names with ANone => False | AList l => exists i, In i l /\ is_text i = false | AOther _ => True end \/
  match inds with ANone => False | AList l => exists i, In i l /\ is_number i = false | AOther _ => True end ->
  plot_histograms table names inds = Err ValueError.
Proof.
  intros table names inds H. unfold plot_histograms. assert (S : selected table names inds = Err ValueError); [|rewrite S; reflexivity].
  unfold selected. destruct (truth names && truth inds) eqn:T; [reflexivity|].
  assert (X : forall f l, (exists i : item, In i l /\ f i = false) -> forallb f l = false).
  { intros f l (i & I & F). apply not_true_iff_false. intros A. rewrite forallb_forall in A. specialize (A i I). congruence. }
  destruct H as [[H1 H2]|[H|H]]; [rewrite H1, H2 in T; discriminate T| |].
  - destruct names as [|l|b]; [destruct H|rewrite (X _ _ H); reflexivity|reflexivity].
  - destruct (match names with ANone => false | AList l => negb (forallb is_text l) | AOther _ => true end); [reflexivity|].
    destruct inds as [|l|b]; [destruct H|rewrite (X _ _ H); reflexivity|reflexivity].
Qed.

(** ** Examples *)
Import String.StringSyntax.
Local Delimit Scope string_scope with string.
Definition col (n : cname) (t : ctype) : column := mkCol n t (Some (mkHist [0; 1; 2]%Q [3; 4])).
Definition ex_table : list column :=
  [col (CText "Age"%string) TInt; col (CText "name"%string) TOther; col (CText "age"%string) TFloat; col (CNumber 7) TInt].
Example C104_example :
  plot_histograms ex_table (AList [IText "AGE"%string; IText "name"%string]) ANone =
    Ok (Figure 1 2 [(col (CText "Age"%string) TInt, [3; 4]); (col (CText "age"%string) TFloat, [3; 4])] 0) /\
  plot_histograms ex_table ANone ANone =
    Ok (Figure 2 2 [(col (CText "Age"%string) TInt, [3; 4]); (col (CText "age"%string) TFloat, [3; 4]); (col (CNumber 7) TInt, [3; 4])] 1) /\
  plot_missing [0; 1; 2] [mkMissing 9 [(""%string, [1; 2; 5; 6; 8]%Z); ("nan"%string, [0]%Z)]; mkMissing 9 [("-"%string, [4]%Z); ("nan"%string, [3; 5]%Z)]] =
    Ok (Some [mkDrawn 9 [(""%string, (1, [(1, 2); (5, 2); (8, 1)]%Z)); ("nan"%string, (2, [(0, 1)]%Z))];
              mkDrawn 9 [("-"%string, (1, [(4, 1)]%Z)); ("nan"%string, (2, [(3, 1); (5, 1)]%Z))]]).
Proof. repeat split; vm_compute; reflexivity. Qed.

(** "Plots are in the order of the table" does not hold: the sorted positions are not used. *)
Theorem C104_sorted_refuted : exists table zs a b, plot_histograms table ANone (AList (map INumber zs)) = Ok (Figure 1 2 [(b, [3; 4]); (a, [3; 4])] 0) /\
  nth_error table 0 = Some a /\ nth_error table 2 = Some b /\ a <> b.
Proof.
  exists ex_table, [2; 0]%Z, (col (CText "Age"%string) TInt), (col (CText "age"%string) TFloat).
  split; [vm_compute; reflexivity|]. split; [reflexivity|]. split; [reflexivity|discriminate].
Qed.

(** "Every column can be chosen by its name" does not hold of columns with a number for a name. *)
Theorem C104_names_refuted : forall table n c l rows cols plots off, c_name c = CNumber n -> l <> [] ->
  plot_histograms table (AList l) ANone = Ok (Figure rows cols plots off) -> ~ In c (map fst plots).
Proof.
  intros table n c l rows cols plots off E Ne H I.
  destruct (forallb is_text l) eqn:T.
  - assert (M : exists ss, l = map IText ss).
    { clear - T. induction l as [|i l IH]; [exists []; reflexivity|]. cbn in T. apply andb_true_iff in T. destruct T as [T1 T2].
      destruct (IH T2) as [ss ->]. destruct i as [s| |]; try discriminate T1. exists (s :: ss). reflexivity. }
    destruct M as [ss ->]. assert (Ns : ss <> []) by (intros ->; apply Ne; reflexivity).
    pose proof (C104_by_name table ss ANone Ns (or_introl eq_refl)) as B.
    destruct (forallb (fun s => existsb (named s) table) ss); [|congruence]. unfold shows in B. rewrite H in B.
    destruct (length _ =? 0); [discriminate B|]. destruct (forallb has_hist _); [|discriminate B].
    destruct B as (r & c0 & p & o & B & F & _). injection B as <- <- <- <-. rewrite F in I. apply in_flat_map in I.
    destruct I as (s & _ & I). apply filter_In in I. destruct I as [_ I]. unfold named in I. rewrite E in I. discriminate I.
  - rewrite (C104_refused table (AList l) ANone) in H; [discriminate H|]. right. left.
    clear - T. induction l as [|i l IH]; [discriminate T|]. cbn in T. apply andb_false_iff in T. destruct T as [T|T].
    + exists i. split; [left; reflexivity|exact T].
    + destruct (IH T) as (x & X & Y). exists x. split; [right; exact X|exact Y].
Qed.

(** "One plot in which a column has no histogram shows the others" does not hold: nothing is shown. *)
Theorem C104_empty_refuted : exists table, existsb has_hist table = true /\ plot_histograms table ANone ANone = Err ValueError.
Proof.
  exists [col (CText "a"%string) TInt; mkCol (CText "b"%string) TInt None]. split; reflexivity.
Qed.
