(** C116: the schema of a report. *)
From Verif Require Import PyCommon PyDict PyString RepSchemaModel.
Local Open Scope string_scope.
Local Open Scope nat_scope.

(** The positions of a name among the columns *)
Definition positions (names : list (key * bool)) (k : key) : list nat :=
  filter (fun i => match nth_error names i with Some (k', _) => PyDict.eqb k' k | None => false end) (seq 0 (length names)).
(** What a name becomes: other objects their text *)
Definition printed (k : key) : key := match k with KOther _ s => KText s | KText s => KText s | KNum z => KNum z | KNone => KNone end.

Lemma clean_key_printed k : clean_key k = printed k.
Proof. destruct k; reflexivity. Qed.

Lemma build_spec_at names a d (q : key -> list nat) :
  (forall k, match dget d k with Some (_, l) => l = q k /\ l <> [] | None => q k = [] end) -> NoDup (dkeys d) ->
  let d' := fold_left (fun d e => add_position d (fst e) (snd e)) (combine (seq a (length names)) names) d in
  NoDup (dkeys d') /\
  forall k, let l' := q k ++ map fst (filter (fun e : nat * (key * bool) => PyDict.eqb (fst (snd e)) k) (combine (seq a (length names)) names)) in
    match dget d' k with Some (_, l) => l = l' /\ l <> [] | None => l' = [] end.
Proof.
  revert a d q. induction names as [|[n np] names IH]; intros a d q H ND; cbn [length seq combine fold_left filter map].
  - split; [exact ND|]. intro k. cbv zeta. rewrite app_nil_r. apply H.
  - cbn [fst snd]. specialize (IH (S a) (add_position d a (n, np)) (fun k => if PyDict.eqb n k then q k ++ [a] else q k)).
    destruct IH as [N R].
    + intro k. specialize (H k). unfold add_position. cbn [fst snd]. destruct (PyDict.eqb_spec n k) as [->|E].
      * destruct (dget d k) as [[b l]|]; rewrite dget_dset, PyDict.eqb_refl; [destruct H as [-> _]; split; [reflexivity|destruct (q k); discriminate]|rewrite H; split; [reflexivity|discriminate]].
      * apply PyDict.eqb_neq in E. destruct (dget d n) as [[b l]|]; rewrite dget_dset, E; exact H.
    + unfold add_position. cbn [fst]. destruct (dget d n) as [[b l]|]; apply NoDup_dset; exact ND.
    + split; [exact N|]. intro k. specialize (R k). cbv zeta in *. destruct (PyDict.eqb n k); [|exact R]. cbn [map fst]. rewrite <- app_assoc in R. exact R.
Qed.

Lemma positions_at names k a : map fst (filter (fun e : nat * (key * bool) => PyDict.eqb (fst (snd e)) k) (combine (seq a (length names)) names)) =
  filter (fun i => match nth_error names (i - a) with Some (k', _) => PyDict.eqb k' k | None => false end) (seq a (length names)).
Proof.
  revert a. induction names as [|[n np] names IH]; intro a; [reflexivity|]. cbn [length seq combine filter fst snd]. rewrite Nat.sub_diag. cbn [nth_error].
  assert (filter (fun i => match nth_error ((n, np) :: names) (i - a) with Some (k', _) => PyDict.eqb k' k | None => false end) (seq (S a) (length names)) =
          filter (fun i => match nth_error names (i - S a) with Some (k', _) => PyDict.eqb k' k | None => false end) (seq (S a) (length names))) as ->.
  { apply filter_ext_in. intros i Hi. apply in_seq in Hi. replace (i - a) with (S (i - S a)) by lia. reflexivity. }
  destruct (PyDict.eqb n k); cbn [map fst]; rewrite IH; reflexivity.
Qed.

(** The schema of a profile lists for each name its positions, in order; other names are not in it. *)
Theorem C116_schema names : NoDup (dkeys (build names)) /\ forall k,
  match dget (build names) k with Some (_, l) => l = positions names k /\ l <> [] | None => ~ In k (map fst names) end.
Proof.
  destruct (build_spec_at names 0 [] (fun _ => []) (fun _ => eq_refl) (NoDup_nil _)) as [N H]. split; [exact N|]. intro k. specialize (H k). cbv zeta in H. cbn [app] in H. rewrite positions_at in H.
  unfold build. destruct (dget _ k) as [[b l]|].
  - destruct H as [-> H]. split; [|exact H]. unfold positions. apply filter_ext. intro i. rewrite Nat.sub_0_r. reflexivity.
  - intro Hin. apply in_map_iff in Hin. destruct Hin as ([k' np] & <- & Hin). apply In_nth_error in Hin. destruct Hin as [i Hi]. cbn [fst] in H.
    assert (In i (@nil nat)) as []. rewrite <- H. apply filter_In. rewrite Nat.sub_0_r, Hi, PyDict.eqb_refl. split; [|reflexivity]. apply in_seq. assert (i < length names) by (apply nth_error_Some; congruence). lia.
Qed.

(** Cleaning: what belongs to a cleaned name is what belongs to the last name that becomes it. *)
Lemma clean_at {P} (d acc : @schema P) k :
  dget (fold_left (fun acc e => dset acc (clean_key (fst e)) (false, snd (snd e))) d acc) k =
  match find (fun e => PyDict.eqb (clean_key (fst e)) k) (rev d) with Some e => Some (false, snd (snd e)) | None => dget acc k end.
Proof.
  revert acc. induction d as [|e d IH]; intro acc; [reflexivity|]. cbn [fold_left rev]. rewrite IH.
  assert (forall (f : key * (bool * P) -> bool) l x, find f (l ++ [x]) = match find f l with Some y => Some y | None => if f x then Some x else None end) as FA.
  { intros f l x. induction l as [|y l IHl]; [reflexivity|]. cbn [app find]. destruct (f y); [reflexivity|exact IHl]. }
  rewrite FA. destruct (find _ (rev d)); [reflexivity|]. rewrite dget_dset. destruct (PyDict.eqb (clean_key (fst e)) k); reflexivity.
Qed.
Lemma find_ext {A} (f g : A -> bool) l : (forall x, f x = g x) -> find f l = find g l.
Proof. intro H. induction l as [|x l IH]; [reflexivity|]. cbn [find]. rewrite H, IH. reflexivity. Qed.
Lemma clean_dget {P} (d : @schema P) k :
  dget (clean d) k = match find (fun e => PyDict.eqb (printed (fst e)) k) (rev d) with Some e => Some (false, snd (snd e)) | None => None end.
Proof.
  unfold clean. rewrite clean_at. rewrite (find_ext _ (fun e => PyDict.eqb (printed (fst e)) k)); [destruct (find _ (rev d)); reflexivity|]. intro e. rewrite clean_key_printed. reflexivity.
Qed.

(** In the formats for people and for JSON all names can be written, and none is a number of numpy. *)
Theorem C116_serializable {P} (d : @schema P) k np x : In (k, (np, x)) (clean d) -> np = false /\ (forall i s, k <> KOther i s).
Proof.
  unfold clean. assert (forall acc : @schema P, (forall k np x, In (k, (np, x)) acc -> np = false /\ (forall i s, k <> KOther i s)) ->
    forall k np x, In (k, (np, x)) (fold_left (fun acc e => dset acc (clean_key (fst e)) (false, snd (snd e))) d acc) -> np = false /\ (forall i s, k <> KOther i s)) as G.
  { induction d as [|e d IH]; intros acc H; [exact H|]. cbn [fold_left]. apply IH. clear - H. intros k np x Hin.
    assert (forall (l : @schema P) a v, In (k, (np, x)) (dset l a v) -> In (k, (np, x)) l \/ (k, (np, x)) = (a, v)) as D.
    { induction l as [|[a' v'] l IHl]; intros a v; cbn [dset]; [intros [E|[]]; auto|]. destruct (PyDict.eqb_spec a' a) as [->|N].
      - intros [E|E]; [right; symmetry; exact E|left; right; exact E].
      - intros [E|E]; [left; left; exact E|]. destruct (IHl _ _ E); [left; right; assumption|right; assumption]. }
    destruct (D _ _ _ Hin) as [X|X]; [apply (H _ _ _ X)|]. injection X as -> -> ->. split; [reflexivity|]. intros i s. destruct (fst e); discriminate. }
  apply G. intros ? ? ? [].
Qed.

(** The formats for people and for JSON *)
Definition shown (f : format) : Prop := f = Pretty \/ f = Compact \/ f = Serializable.
Lemma cleans_shown f : cleans f = true <-> shown f.
Proof. unfold shown. destruct f; cbn; split; intro H; try reflexivity; try discriminate; auto; destruct H as [H|[H|H]]; discriminate. Qed.

Lemma clean_get {P} (d : @schema P) k np x : NoDup (dkeys d) -> (forall a b, In a (dkeys d) -> In b (dkeys d) -> printed a = printed b -> a = b) ->
  dget d k = Some (np, x) -> dget (clean d) (printed k) = Some (false, x).
Proof.
  intros N Inj H. rewrite clean_dget. pose proof (dget_Some_In _ _ _ H) as Hin. destruct (find _ (rev d)) as [[k' [np' x']]|] eqn:E.
  - apply find_some in E. destruct E as [Hi He]. apply in_rev in Hi. cbn [fst] in He. apply (proj1 (PyDict.eqb_eq _ _)) in He.
    assert (k' = k) as -> by (apply Inj; [apply (in_map fst _ _ Hi)|apply (in_map fst _ _ Hin)|exact He]). pose proof (dget_In _ _ _ N Hi). cbn [snd]. congruence.
  - exfalso. pose proof (find_none _ _ E (k, (np, x)) ltac:(apply -> in_rev; exact Hin)) as X. cbn [fst] in X. rewrite PyDict.eqb_refl in X. discriminate.
Qed.
Lemma build_dmem names k : dmem (build names) k = true <-> In k (map fst names).
Proof.
  destruct (C116_schema names) as [N H]. specialize (H k). unfold dmem. destruct (dget (build names) k) as [[np l]|] eqn:E; [|split; [discriminate|contradiction]]. split; [|reflexivity]. intros _.
  destruct H as [-> Hne]. destruct (positions names k) as [|i r] eqn:Ep; [contradiction|]. assert (In i (positions names k)) as Hi by (rewrite Ep; left; reflexivity). apply filter_In in Hi. destruct Hi as [_ Hi].
  destruct (nth_error names i) as [[k'' b]|] eqn:En; [|discriminate]. apply (proj1 (PyDict.eqb_eq _ _)) in Hi. rewrite Hi in En. apply in_map_iff. exists (k, b). split; [reflexivity|]. apply (nth_error_In _ _ En).
Qed.
Lemma build_keys names k : In k (dkeys (build names)) <-> In k (map fst names).
Proof. rewrite <- build_dmem. symmetry. apply dmem_true. Qed.

(** The positions of every column are listed under its name if no two names become the same. *)
Theorem C116_report f names : shown f ->
  (forall k k', In k (map fst names) -> In k' (map fst names) -> printed k = printed k' -> k = k') ->
  forall k, In k (map fst names) -> dget (report_schema f names) (printed k) = Some (false, positions names k).
Proof.
  intros F Inj k Hk. apply cleans_shown in F. unfold report_schema. rewrite F. destruct (C116_schema names) as [N H]. specialize (H k). destruct (dget (build names) k) as [[np l]|] eqn:E; [|contradiction].
  destruct H as [-> _]. apply (clean_get _ _ np); [exact N| |exact E]. intros a b Ha Hb. apply Inj; apply build_keys; assumption.
Qed.
(** In the other formats names stay as they are. *)
Theorem C116_plain f names : ~ shown f -> forall k, In k (map fst names) -> exists np, dget (report_schema f names) k = Some (np, positions names k).
Proof.
  intros F k Hk. unfold report_schema. destruct (cleans f) eqn:E; [apply cleans_shown in E; contradiction|]. pose proof (proj2 (C116_schema names) k) as H.
  destruct (dget (build names) k) as [[np l]|]; [|contradiction]. destruct H as [-> _]. exists np. reflexivity.
Qed.
Example C116_ex : report_schema Serializable [(KText "a", false); (KNum 3, true); (KText "a", false); (KOther 1 "('b', 'c')", false)] =
  [(KText "a", (false, [0; 2])); (KNum 3, (false, [1])); (KText "('b', 'c')", (false, [3]))].
Proof. reflexivity. Qed.

(** A user expects every column to be listed.  Columns whose names are different objects that print alike are lost. *)
Theorem C116_lost_refuted : ~ (forall names i, i < length names -> exists k l, dget (report_schema Pretty names) k = Some (false, l) /\ In i l).
Proof.
  intro H. destruct (H [(KOther 1 "1", false); (KText "1", false)] 0 ltac:(cbn; lia)) as (k & l & E & Hin). change (report_schema Pretty _) with [(KText "1", (false, [1]))] in E.
  cbn [dget] in E. match type of E with context [if ?c then _ else _] => destruct c end; [injection E as <-; destruct Hin as [X|[]]; discriminate|discriminate].
Qed.

(** The schemas of two profiles: names of the first only, of both and of the second only, with their positions. *)
Lemma dget_filter {P} (f : key -> bool) (d : @schema P) k : dget (filter (fun e => f (fst e)) d) k = if f k then dget d k else None.
Proof.
  induction d as [|[k' v] d IH]; [destruct (f k); reflexivity|]. cbn [filter fst dget]. destruct (PyDict.eqb_spec k' k) as [->|N].
  - destruct (f k) eqn:F; [cbn [dget]; rewrite PyDict.eqb_refl; reflexivity|exact IH].
  - destruct (f k'); [|exact IH]. cbn [dget]. apply PyDict.eqb_neq in N. rewrite N. exact IH.
Qed.
Theorem C116_diff a b x y z : diff_schema a b = Parts x y z -> forall k,
  (In k (map fst a) -> ~ In k (map fst b) -> exists np, dget x k = Some (np, positions a k)) /\
  (In k (map fst a) -> In k (map fst b) -> exists np, dget y k = Some (np, (positions a k, positions b k))) /\
  (~ In k (map fst a) -> In k (map fst b) -> exists np, dget z k = Some (np, positions b k)) /\
  (In k (map fst b) -> dget x k = None) /\ (In k (map fst a) -> dget z k = None) /\ (~ (In k (map fst a) /\ In k (map fst b)) -> dget y k = None).
Proof.
  unfold diff_schema. cbv zeta. set (X := filter _ (build a)). set (Y := flat_map _ (build a)). set (Z := filter _ (build b)). intros E k.
  assert (x = X /\ y = Y /\ z = Z) as (-> & -> & ->) by (destruct X, Y, Z; try discriminate; injection E as <- <- <-; auto). clear E.
  assert (dget X k = if negb (dmem (build b) k) then dget (build a) k else None) as HX by exact (dget_filter (fun k => negb (dmem (build b) k)) (build a) k).
  assert (dget Z k = if negb (dmem (build a) k) then dget (build b) k else None) as HZ by exact (dget_filter (fun k => negb (dmem (build a) k)) (build b) k).
  assert (dget Y k = match dget (build a) k, dget (build b) k with Some (np, l), Some (_, l') => Some (np, (l, l')) | _, _ => None end) as HY.
  { unfold Y. clear. induction (build a) as [|[k' [np l]] d IH]; [reflexivity|]. cbn [flat_map fst snd dget]. destruct (PyDict.eqb_spec k' k) as [->|N].
    - destruct (dget (build b) k) as [[np' l']|] eqn:E; [cbn [app dget fst snd]; rewrite PyDict.eqb_refl; reflexivity|]. cbn [app]. rewrite IH. destruct (dget d k) as [[? ?]|]; reflexivity.
    - apply PyDict.eqb_neq in N. destruct (dget (build b) k') as [[np' l']|]; cbn [app dget]; rewrite ?N; exact IH. }
  pose proof (proj2 (C116_schema a) k) as SA. pose proof (proj2 (C116_schema b) k) as SB. pose proof (build_dmem a k) as MA. pose proof (build_dmem b k) as MB. clearbody X Y Z. unfold dmem in *. rewrite HX, HY, HZ.
  destruct (dget (build a) k) as [[na la]|], (dget (build b) k) as [[nb lb]|]; cbn [negb] in *; repeat match goal with H : _ /\ _ |- _ => destruct H as [H ?] end; subst; repeat split; intros;
    try (eexists; reflexivity); try reflexivity; try (exfalso; tauto); try (exfalso; intuition (auto; discriminate)).
Qed.

(** The difference can be shown in all formats unless both profiles have no columns, which the formats for people and for JSON
    refuse. *)
Theorem C116_diff_fails f a b : prepare_diff f (diff_schema a b) = Err AttributeError <-> shown f /\ a = [] /\ b = [].
Proof.
  rewrite <- cleans_shown. split.
  - unfold prepare_diff. destruct (cleans f); [|discriminate]. destruct (diff_schema a b) as [|x y z] eqn:E; [|discriminate]. intros _. split; [reflexivity|].
    unfold diff_schema in E. cbv zeta in E. set (X := filter _ (build a)) in E. set (Y := flat_map _ (build a)) in E. set (Z := filter _ (build b)) in E.
    assert (X = [] /\ Y = [] /\ Z = []) as (EX & EY & EZ) by (destruct X, Y, Z; try discriminate; auto).
    assert (forall k, ~ In k (map fst a)) as NA.
    { intros k Hk. apply build_dmem in Hk. unfold dmem in Hk. destruct (dget (build a) k) as [v|] eqn:Ek; [|discriminate]. apply dget_Some_In in Ek.
      destruct (dget (build b) k) as [[nb lb]|] eqn:Eb.
      - assert (In (k, (fst v, (snd v, lb))) Y) as I; [|rewrite EY in I; destruct I]. unfold Y. apply in_flat_map. exists (k, v). split; [exact Ek|]. cbn [fst snd]. rewrite Eb. left. reflexivity.
      - assert (In (k, v) X) as I; [|rewrite EX in I; destruct I]. unfold X. apply filter_In. split; [exact Ek|]. cbn [fst]. unfold dmem. rewrite Eb. reflexivity. }
    assert (forall k, ~ In k (map fst b)) as NB.
    { intros k Hk. apply build_dmem in Hk. unfold dmem in Hk. destruct (dget (build b) k) as [v|] eqn:Ek; [|discriminate]. apply dget_Some_In in Ek.
      assert (In (k, v) Z) as I; [|rewrite EZ in I; destruct I]. unfold Z. apply filter_In. split; [exact Ek|]. cbn [fst]. destruct (dmem (build a) k) eqn:Ea; [|reflexivity]. apply build_dmem in Ea. destruct (NA k Ea). }
    destruct a as [|[k n] a]; [|destruct (NA k (or_introl eq_refl))]. destruct b as [|[k n] b]; [|destruct (NB k (or_introl eq_refl))]. auto.
  - intros (F & -> & ->). unfold prepare_diff. rewrite F. reflexivity.
Qed.

(** In the formats for people and for JSON the three parts can be written, and are found under what the names become. *)
Theorem C116_diff_shown f a b x y z : shown f -> prepare_diff f (diff_schema a b) = Ok (Parts x y z) ->
  (forall k np l, In (k, (np, l)) x -> np = false /\ forall i s, k <> KOther i s) /\
  (forall k np l, In (k, (np, l)) y -> np = false /\ forall i s, k <> KOther i s) /\
  (forall k np l, In (k, (np, l)) z -> np = false /\ forall i s, k <> KOther i s) /\
  ((forall k k', In k (map fst (a ++ b)) -> In k' (map fst (a ++ b)) -> printed k = printed k' -> k = k') -> forall k,
    (In k (map fst a) -> ~ In k (map fst b) -> dget x (printed k) = Some (false, positions a k)) /\
    (In k (map fst a) -> In k (map fst b) -> dget y (printed k) = Some (false, (positions a k, positions b k))) /\
    (~ In k (map fst a) -> In k (map fst b) -> dget z (printed k) = Some (false, positions b k))).
Proof.
  intros F E. apply cleans_shown in F. unfold prepare_diff in E. rewrite F in E. destruct (diff_schema a b) as [|x0 y0 z0] eqn:D; [discriminate|]. injection E as <- <- <-.
  split; [intros k np l; apply C116_serializable|]. split; [intros k np l; apply C116_serializable|]. split; [intros k np l; apply C116_serializable|]. intros Inj k.
  pose proof (C116_diff _ _ _ _ _ D k) as (H1 & H2 & H3 & _). pose proof (proj1 (C116_schema a)) as NA. pose proof (proj1 (C116_schema b)) as NB.
  unfold diff_schema in D. cbv zeta in D. set (X := filter _ (build a)) in D. set (Y := flat_map _ (build a)) in D. set (Z := filter _ (build b)) in D.
  assert (X = x0 /\ Y = y0 /\ Z = z0) as (EX & EY & EZ) by (clearbody X Y Z; destruct X, Y, Z; try discriminate; injection D as <- <- <-; auto). clear D.
  assert (forall (g : key * (bool * list nat) -> bool) d, NoDup (dkeys d) -> NoDup (dkeys (filter g d)) /\ incl (dkeys (filter g d)) (dkeys d)) as FL.
  { clear. intros g d. induction d as [|e d IH]; intro N; [split; [constructor|intros ? []]|]. cbn in N. inversion N as [|? ? N1 N2]; subst. destruct (IH N2) as [I1 I2]. cbn [filter]. destruct (g e); cbn.
    - split; [constructor; [intro H; apply N1, I2, H|exact I1]|]. intros q [<-|Hq]; [left; reflexivity|right; apply I2, Hq].
    - split; [exact I1|]. intros q Hq. right. apply I2, Hq. }
  assert (NoDup (dkeys Y) /\ incl (dkeys Y) (dkeys (build a))) as [NY IY].
  { unfold Y. clear - NA. induction (build a) as [|[k' [np l]] d IH]; [split; [constructor|intros ? []]|]. cbn in NA. inversion NA as [|? ? N1 N2]; subst. destruct (IH N2) as [I1 I2]. cbn [flat_map fst snd].
    destruct (dget (build b) k') as [[nb lb]|]; cbn.
    - split; [constructor; [intro H; apply N1, I2, H|exact I1]|]. intros q [<-|Hq]; [left; reflexivity|right; apply I2, Hq].
    - split; [exact I1|]. intros q Hq. right. apply I2, Hq. }
  destruct (FL (fun e => negb (dmem (build b) (fst e))) (build a) NA) as [NX IX]. fold X in NX, IX. destruct (FL (fun e => negb (dmem (build a) (fst e))) (build b) NB) as [NZ IZ]. fold Z in NZ, IZ.
  rewrite EX in NX, IX. rewrite EY in NY, IY. rewrite EZ in NZ, IZ. rewrite map_app in Inj.
  assert (forall q, In q (dkeys (build a)) -> In q (map fst a ++ map fst b)) as JA by (intros q Hq; apply in_app_iff; left; apply build_keys; exact Hq).
  assert (forall q, In q (dkeys (build b)) -> In q (map fst a ++ map fst b)) as JB by (intros q Hq; apply in_app_iff; right; apply build_keys; exact Hq).
  split; [|split]; intros P Q.
  - destruct (H1 P Q) as [np G]. apply (clean_get _ _ np); auto 6.
  - destruct (H2 P Q) as [np G]. apply (clean_get _ _ np); auto 6.
  - destruct (H3 P Q) as [np G]. apply (clean_get _ _ np); auto 6.
Qed.
(** In the other formats the difference is left as it is. *)
Theorem C116_diff_plain f d : ~ shown f -> prepare_diff f d = Ok d.
Proof. intro F. unfold prepare_diff. destruct (cleans f) eqn:E; [apply cleans_shown in E; contradiction|reflexivity]. Qed.

(** A user expects a difference of two profiles in every format.  That of two profiles without columns is only shown in some. *)
Theorem C116_empty_refuted : ~ (forall f a b, exists d, prepare_diff f (diff_schema a b) = Ok d).
Proof. intro H. destruct (H Serializable [] []) as [d E]. discriminate. Qed.
Example C116_diff_ex : prepare_diff Pretty (diff_schema [(KText "a", false); (KText "b", false)] [(KText "b", false); (KNum 7, true)]) =
  Ok (Parts [(KText "a", (false, [0]))] [(KText "b", (false, ([1], [0])))] [(KNum 7, (false, [1]))]).
Proof. reflexivity. Qed.

Print Assumptions C116_schema.
Print Assumptions C116_serializable.
Print Assumptions C116_report.
Print Assumptions C116_plain.
Print Assumptions C116_diff_shown.
Print Assumptions C116_diff_plain.
Print Assumptions C116_lost_refuted.
Print Assumptions C116_diff.
Print Assumptions C116_diff_fails.
Print Assumptions C116_empty_refuted.
