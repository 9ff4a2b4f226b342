(** Lemmas on counters and words. *)
From Coq Require Import Ascii Permutation.
From Verif Require Import PyCommon PyDict PyString PyEq CategoricalModel TextModel.
Local Open Scope nat_scope.

(** ** First occurrences *)
Section Firsts.
  Context {K : Type} {EK : EqDecB K}.

  (** The elements of a list in order of their first occurrence *)
  Fixpoint firsts (l : list K) : list K :=
    match l with [] => [] | x :: r => x :: filter (fun y => negb (PyDict.eqb x y)) (firsts r) end.

  Lemma firsts_In l x : In x (firsts l) <-> In x l.
  Proof.
    induction l as [|y l IH]; [reflexivity|]. cbn [firsts In]. rewrite filter_In, IH. destruct (eqb_spec y x) as [->|N].
    - intuition.
    - assert (negb (PyDict.eqb y x) = true) by (apply negb_true_iff, eqb_neq; exact N). intuition.
  Qed.

  Lemma firsts_NoDup l : NoDup (firsts l).
  Proof.
    induction l as [|y l IH]; [constructor|]. cbn [firsts]. constructor; [|apply NoDup_filter; exact IH].
    rewrite filter_In. intros [_ H]. rewrite eqb_refl in H. discriminate.
  Qed.

  Lemma filter_filter {A} (f g : A -> bool) l : filter f (filter g l) = filter (fun x => g x && f x) l.
  Proof. induction l as [|x l IH]; [reflexivity|]. cbn [filter]. destruct (g x); cbn [filter andb]; [destruct (f x); rewrite IH; reflexivity|exact IH]. Qed.

  Lemma firsts_app l m : firsts (l ++ m) = firsts l ++ filter (fun y => negb (lmem l y)) (firsts m).
  Proof.
    induction l as [|x l IH]; cbn [app firsts lmem existsb].
    - induction (firsts m) as [|y r IH]; [reflexivity|]. cbn [filter negb]. f_equal. exact IH.
    - rewrite IH, filter_app, filter_filter. f_equal. f_equal. apply filter_ext. intro y. unfold lmem. rewrite negb_orb.
      rewrite andb_comm. f_equal. f_equal. destruct (eqb_spec x y), (eqb_spec y x); congruence.
  Qed.

  Lemma firsts_snoc l x : firsts (l ++ [x]) = if lmem l x then firsts l else firsts l ++ [x].
  Proof. rewrite firsts_app. cbn [firsts filter]. destruct (lmem l x); cbn [negb]; [apply app_nil_r|reflexivity]. Qed.

  Lemma firsts_filter (f : K -> bool) l : firsts (filter f l) = filter f (firsts l).
  Proof.
    induction l as [|x l IH]; [reflexivity|]. cbn [filter firsts]. destruct (f x) eqn:E; cbn [firsts].
    - rewrite IH, !filter_filter. f_equal. apply filter_ext. intro y. apply andb_comm.
    - rewrite IH, filter_filter. apply filter_ext_in. intros y _. destruct (eqb_spec x y) as [->|]; [rewrite E|]; cbn [negb andb]; reflexivity.
  Qed.

  Lemma firsts_nodup l : NoDup l -> firsts l = l.
  Proof.
    induction 1 as [|x l Hx Hl IH]; [reflexivity|]. cbn [firsts]. f_equal. rewrite IH. clear IH.
    induction l as [|y l IHl]; [reflexivity|]. cbn [filter]. destruct (eqb_spec x y) as [->|N]; [exfalso; apply Hx; left; reflexivity|].
    cbn [negb]. f_equal. apply IHl; [intro H; apply Hx; right; exact H|inversion Hl; assumption].
  Qed.
End Firsts.

(** ** Counters *)
Section CounterFacts.
  Context {K : Type} {EK : EqDecB K}.
  Implicit Types d e : dict K nat.

  Definition pos d := forall k c, In (k, c) d -> 0 < c.

  Lemma count_add d k c k' : count (add_count d k c) k' = count d k' + (if PyDict.eqb k k' then c else 0).
  Proof.
    unfold add_count. unfold count at 1. rewrite dget_dset. destruct (eqb_spec k k') as [->|]; [reflexivity|]. unfold count. destruct (dget d k'); lia.
  Qed.

  Lemma dkeys_add d k c : dkeys (add_count d k c) = if dmem d k then dkeys d else dkeys d ++ [k].
  Proof. unfold add_count. apply dkeys_dset. Qed.

  Lemma count_zero d k : ~ In k (dkeys d) -> count d k = 0.
  Proof. intro H. apply dget_None in H. unfold count. rewrite H. reflexivity. Qed.

  Lemma count_In d k c : NoDup (dkeys d) -> In (k, c) d -> count d k = c.
  Proof. intros Hn Hi. unfold count. rewrite (dget_In d k c Hn Hi). reflexivity. Qed.

  Lemma count_pos d k : pos d -> In k (dkeys d) -> 0 < count d k.
  Proof.
    intros Hp Hk. unfold count. destruct (dget d k) as [c|] eqn:E; [apply (Hp k c); apply dget_Some_In; exact E|].
    apply dget_None in E. contradiction.
  Qed.

  Lemma lmem_ext (l m : list K) x : (In x l <-> In x m) -> lmem l x = lmem m x.
  Proof.
    intro H. destruct (lmem l x) eqn:E1; destruct (lmem m x) eqn:E2; try reflexivity.
    - apply lmem_In in E1. apply lmem_false in E2. tauto.
    - apply lmem_In in E2. apply lmem_false in E1. tauto.
  Qed.

  Lemma dmem_lmem d k : dmem d k = lmem (dkeys d) k.
  Proof. destruct (dmem d k) eqn:E; symmetry; [apply lmem_In, dmem_true; exact E|apply lmem_false, dmem_false; exact E]. Qed.

  (** What a counter of the elements of [l] looks like *)
  Definition counts_of d (l : list K) := dkeys d = firsts l /\ (forall k, count d k = occ k l).

  Lemma counts_nodup d l : counts_of d l -> NoDup (dkeys d).
  Proof. intros [H _]. rewrite H. apply firsts_NoDup. Qed.

  Lemma counts_pos d l : counts_of d l -> pos d.
  Proof.
    intros H k c Hi. pose proof (counts_nodup d l H) as Hn. destruct H as [H1 H2]. rewrite <- (count_In d k c Hn Hi), H2. apply occ_pos.
    apply firsts_In. rewrite <- H1. apply (in_map fst) in Hi. exact Hi.
  Qed.

  Lemma In_count d k : In k (dkeys d) -> In (k, count d k) d.
  Proof.
    intro H. unfold count. destruct (dget d k) as [c|] eqn:E; [apply dget_Some_In; exact E|apply dget_None in E; contradiction].
  Qed.

  Lemma filter_all {A} (f : A -> bool) l : (forall x, In x l -> f x = true) -> filter f l = l.
  Proof. induction l as [|x l IH]; intro H; [reflexivity|]. cbn [filter]. rewrite (H x (or_introl eq_refl)), IH; [reflexivity|]. intros y Hy. apply H. right. exact Hy. Qed.

  (** Adding all pairs of a list *)
  Lemma fold_add (kvs : list (K * nat)) d k :
    count (fold_left (fun d kv => add_count d (fst kv) (snd kv)) kvs d) k =
    count d k + list_sum (map snd (filter (fun kv => PyDict.eqb (fst kv) k) kvs)).
  Proof.
    revert d. induction kvs as [|[k' c] kvs IH]; intro d; [cbn; lia|]. cbn [fold_left fst snd filter]. rewrite IH, count_add.
    destruct (PyDict.eqb k' k); cbn [map snd]; [change (list_sum (?a :: ?l)) with (a + list_sum l)|]; lia.
  Qed.

  Lemma fold_add_keys (kvs : list (K * nat)) d : NoDup (dkeys d) ->
    dkeys (fold_left (fun d kv => add_count d (fst kv) (snd kv)) kvs d) = firsts (dkeys d ++ map fst kvs).
  Proof.
    revert d. induction kvs as [|[k' c] kvs IH]; intros d Hn; cbn [fold_left map fst snd].
    - rewrite app_nil_r, firsts_nodup by exact Hn. reflexivity.
    - rewrite IH by (unfold add_count; apply NoDup_dset; exact Hn). rewrite dkeys_add, dmem_lmem.
      change (k' :: map fst kvs) with ([k'] ++ map fst kvs). destruct (lmem (dkeys d) k') eqn:E; [|rewrite <- app_assoc; reflexivity].
      rewrite app_assoc, !firsts_app. f_equal; [cbn [firsts filter]; rewrite E; cbn; symmetry; apply app_nil_r|].
      apply filter_ext. intro y. f_equal. apply lmem_ext. rewrite in_app_iff. cbn [In]. apply lmem_In in E. intuition congruence.
  Qed.

  Lemma dict_sum_key d k : NoDup (dkeys d) -> list_sum (map snd (filter (fun kv => PyDict.eqb (fst kv) k) d)) = count d k.
  Proof.
    induction d as [|[k' c] d IH]; intro Hn; [reflexivity|]. cbn [dkeys map fst] in Hn. inversion Hn as [|? ? Hx Hn']; subst.
    unfold count. cbn [filter dget fst]. destruct (eqb_spec k' k) as [->|N].
    - cbn [map snd]. change (list_sum (c :: ?l)) with (c + list_sum l). rewrite IH by exact Hn'. rewrite count_zero by exact Hx. lia.
    - apply IH. exact Hn'.
  Qed.

  Lemma lmem_firsts l (k : K) : lmem (firsts l) k = lmem l k.
  Proof. apply lmem_ext. apply firsts_In. Qed.

  Lemma firsts_firsts_app l m : firsts (firsts l ++ firsts m) = firsts (l ++ m).
  Proof.
    rewrite !firsts_app, !(firsts_nodup (firsts _)) by apply firsts_NoDup. f_equal. apply filter_ext. intro y. rewrite lmem_firsts. reflexivity.
  Qed.

  Lemma counter_counts l : counts_of (counter l) l.
  Proof.
    unfold counter. rewrite <- (rev_involutive l). induction (rev l) as [|x r IH]; [split; reflexivity|]. cbn [rev]. rewrite fold_left_app. cbn [fold_left].
    destruct IH as [H1 H2]. split.
    - rewrite dkeys_add, dmem_lmem, H1, firsts_snoc, lmem_firsts. reflexivity.
    - intro k. rewrite count_add, H2, occ_app. cbn [occ]. lia.
  Qed.

  Lemma iadd_counts d e l m : counts_of d l -> counts_of e m -> counts_of (iadd d e) (l ++ m).
  Proof.
    intros Hd He. set (f := fold_left (fun d kv => add_count d (fst kv) (snd kv)) e d).
    assert (counts_of f (l ++ m)) as Hf.
    { split.
      - unfold f. rewrite fold_add_keys by apply (counts_nodup d l Hd). fold (dkeys e). destruct Hd as [-> _], He as [-> _]. apply firsts_firsts_app.
      - intro k. unfold f. rewrite fold_add, dict_sum_key by apply (counts_nodup e m He). destruct Hd as [_ ->], He as [_ ->]. rewrite occ_app. reflexivity. }
    unfold iadd. fold f. rewrite filter_all; [exact Hf|]. intros [k c] Hi. apply Nat.ltb_lt. exact (counts_pos f _ Hf k c Hi).
  Qed.

  Lemma dget_app (d e : dict K nat) k : dget (d ++ e) k = match dget d k with Some v => Some v | None => dget e k end.
  Proof. induction d as [|[k' v] d IH]; [reflexivity|]. cbn [app dget]. destruct (PyDict.eqb k' k); [reflexivity|exact IH]. Qed.

  Lemma dkeys_filter (f : K -> bool) d : dkeys (filter (fun kv => f (fst kv)) d) = filter f (dkeys d).
  Proof. unfold dkeys. induction d as [|[k v] d IH]; [reflexivity|]. cbn [filter map fst]. destruct (f k); cbn [map fst]; rewrite IH; reflexivity. Qed.

  Lemma count_filter (f : K -> bool) d k : count (filter (fun kv => f (fst kv)) d) k = if f k then count d k else 0.
  Proof.
    unfold count. induction d as [|[k' v] d IH]; cbn [filter dget fst]; [destruct (f k); reflexivity|].
    destruct (f k') eqn:E; cbn [dget]; destruct (eqb_spec k' k) as [->|N]; try rewrite E; try reflexivity; try exact IH.
    rewrite IH, E. reflexivity.
  Qed.

  Lemma plus_eq d e : pos d -> pos e ->
    plus d e = map (fun kv => (fst kv, snd kv + count e (fst kv))) d ++ filter (fun kv => negb (lmem (dkeys d) (fst kv))) e.
  Proof.
    intros Hd He. unfold plus. f_equal.
    - apply filter_all. intros [k c] Hi. apply in_map_iff in Hi. destruct Hi as ([k' c'] & E & Hi). injection E as <- <-. apply Hd in Hi. cbn [snd fst]. apply Nat.ltb_lt. lia.
    - apply filter_ext_in. intros [k c] Hi. apply He in Hi. cbn [fst snd]. rewrite dmem_lmem. destruct (Nat.ltb_spec 0 c); [apply andb_true_r|lia].
  Qed.

  Lemma plus_keys d e : pos d -> pos e -> dkeys (plus d e) = dkeys d ++ filter (fun k => negb (lmem (dkeys d) k)) (dkeys e).
  Proof.
    intros Hd He. rewrite plus_eq by assumption. unfold dkeys at 1. rewrite map_app. f_equal; [rewrite map_map; reflexivity|].
    apply (dkeys_filter (fun k => negb (lmem (dkeys d) k))).
  Qed.

  Lemma plus_count d e k : pos d -> pos e -> count (plus d e) k = count d k + count e k.
  Proof.
    intros Hd He. rewrite plus_eq by assumption. unfold count at 1. rewrite dget_app.
    assert (dget (map (fun kv => (fst kv, snd kv + count e (fst kv))) d) k = match dget d k with Some c => Some (c + count e k) | None => None end) as ->.
    { clear. induction d as [|[k' c] d IH]; [reflexivity|]. cbn [map dget fst snd]. destruct (eqb_spec k' k) as [->|]; [reflexivity|exact IH]. }
    unfold count at 2. destruct (dget d k) as [c|] eqn:E; [reflexivity|].
    change (count (filter (fun kv => negb (lmem (dkeys d) (fst kv))) e) k = 0 + count e k).
    rewrite (count_filter (fun x => negb (lmem (dkeys d) x))). apply dget_None in E. apply lmem_false in E. rewrite E. reflexivity.
  Qed.

  Lemma plus_counts d e l m : counts_of d l -> counts_of e m -> counts_of (plus d e) (l ++ m).
  Proof.
    intros Hd He. pose proof (counts_pos d l Hd) as Pd. pose proof (counts_pos e m He) as Pe. split.
    - rewrite plus_keys, firsts_app by assumption. destruct Hd as [-> _], He as [-> _]. f_equal. apply filter_ext. intro y. rewrite lmem_firsts. reflexivity.
    - intro k. rewrite plus_count, occ_app by assumption. destruct Hd as [_ ->], He as [_ ->]. reflexivity.
  Qed.

  (** Deleting *)
  Lemma ddel_filter d k : NoDup (dkeys d) -> ddel d k = filter (fun kv => negb (PyDict.eqb k (fst kv))) d.
  Proof.
    induction d as [|[k' v] d IH]; intro Hn; [reflexivity|]. cbn [dkeys map fst] in Hn. inversion Hn as [|? ? Hx Hn']; subst. cbn [ddel filter fst].
    destruct (eqb_spec k' k) as [->|N].
    - rewrite eqb_refl. cbn [negb]. symmetry. apply filter_all. intros [k2 v2] Hi. cbn [fst]. apply negb_true_iff, eqb_neq. intros ->.
      apply Hx. apply (in_map fst) in Hi. exact Hi.
    - destruct (eqb_spec k k') as [E|_]; [congruence|]. cbn [negb]. f_equal. apply IH. exact Hn'.
  Qed.

  Lemma fold_del (P : K -> bool) ks d : NoDup (dkeys d) ->
    fold_left (fun acc w => if P w then ddel acc w else acc) ks d = filter (fun kv => negb (lmem ks (fst kv) && P (fst kv))) d.
  Proof.
    revert d. induction ks as [|k ks IH]; intros d Hn; cbn [fold_left].
    - cbn [lmem existsb andb negb]. symmetry. apply filter_all. reflexivity.
    - assert (NoDup (dkeys (if P k then ddel d k else d))) as Hn' by (destruct (P k); [apply NoDup_ddel|]; exact Hn). rewrite IH by exact Hn'.
      destruct (P k) eqn:E.
      + rewrite ddel_filter, filter_filter by exact Hn. apply filter_ext. intros [k' v]. cbn [fst]. cbn [lmem existsb]. fold (lmem ks k').
        destruct (eqb_spec k k') as [<-|N]; [rewrite eqb_refl, E; reflexivity|]. destruct (eqb_spec k' k) as [E'|_]; [congruence|]. reflexivity.
      + apply filter_ext. intros [k' v]. cbn [fst]. cbn [lmem existsb]. fold (lmem ks k').
        destruct (eqb_spec k' k) as [->|N]; [rewrite E, !andb_false_r; reflexivity|reflexivity].
  Qed.

  Lemma fold_del_keys (P : K -> bool) d : NoDup (dkeys d) ->
    fold_left (fun acc w => if P w then ddel acc w else acc) (dkeys d) d = filter (fun kv => negb (P (fst kv))) d.
  Proof.
    intro Hn. rewrite fold_del by exact Hn. apply filter_ext_in. intros [k v] Hi. cbn [fst]. apply (in_map fst) in Hi. apply lmem_In in Hi.
    unfold dkeys. cbn [fst] in Hi. rewrite Hi. reflexivity.
  Qed.

  (** Sum of the counts of the keys with a property *)
  Definition total (P : K -> bool) d : nat := list_sum (map snd (filter (fun kv => P (fst kv)) d)).
End CounterFacts.

(** ** Letters *)
Lemma all_ascii (P : ascii -> bool) : forallb P (map ascii_of_nat (seq 0 256)) = true -> forall c, P c = true.
Proof.
  intros H c. rewrite forallb_forall in H. apply H. apply in_map_iff. exists (nat_of_ascii c). split; [apply ascii_nat_embedding|].
  apply in_seq. pose proof (nat_ascii_bounded c). lia.
Qed.

Lemma lower_not_upper c : is_upper (lower_ascii c) = false.
Proof. apply negb_true_iff. revert c. apply all_ascii. vm_compute. reflexivity. Qed.
Lemma lower_same c : is_upper c = false -> lower_ascii c = c.
Proof. unfold is_upper, lower_ascii. intros ->. reflexivity. Qed.
Lemma lower_space c : is_space (lower_ascii c) = is_space c.
Proof. apply eqb_prop. revert c. apply (all_ascii (fun c => Bool.eqb (is_space (lower_ascii c)) (is_space c))). vm_compute. reflexivity. Qed.
Lemma lower_punct c : is_punct (lower_ascii c) = is_punct c.
Proof. apply eqb_prop. revert c. apply (all_ascii (fun c => Bool.eqb (is_punct (lower_ascii c)) (is_punct c))). vm_compute. reflexivity. Qed.
Lemma upper_to_lower c : is_upper c = true -> is_lower (lower_ascii c) = true.
Proof.
  intro H. assert (implb (is_upper c) (is_lower (lower_ascii c)) = true) as A; [|rewrite H in A; exact A].
  revert c H. intros c _. revert c. apply all_ascii. vm_compute. reflexivity.
Qed.
Lemma upper_changed c : is_upper c = true -> lower_ascii c <> c.
Proof. intros H E. pose proof (lower_not_upper c) as H1. rewrite E in H1. congruence. Qed.

Lemma lower_idem w : lower (lower w) = lower w.
Proof. unfold lower. rewrite map_map. apply map_ext. intro c. apply lower_ascii_idem. Qed.

Lemma lower_fixed w : lower w = w <-> existsb is_upper w = false.
Proof.
  induction w as [|c w IH]; [split; reflexivity|]. cbn [lower map existsb]. fold (lower w). split.
  - intro H. injection H as H1 H2. rewrite (proj1 IH H2), orb_false_r. destruct (is_upper c) eqn:E; [exfalso; apply (upper_changed c E H1)|reflexivity].
  - intro H. apply orb_false_iff in H. destruct H as [H1 H2]. rewrite (lower_same c H1), (proj2 IH H2). reflexivity.
Qed.

Lemma islower_fixed w : islower w = true -> lower w = w.
Proof. intro H. apply andb_true_iff in H. destruct H as [_ H]. apply negb_true_iff in H. apply lower_fixed. exact H. Qed.

(** A word in lower case that does not count as such has no letters, and is the lower case of itself only. *)
Lemma uncased w w' : islower w = false -> lower w' = w -> w' = w.
Proof.
  intros H <-. unfold islower in H. assert (existsb is_upper (lower w') = false) as Hu by (apply lower_fixed; apply lower_idem).
  rewrite Hu in H. cbn [negb] in H. rewrite andb_true_r in H. symmetry. apply lower_fixed.
  destruct (existsb is_upper w') eqn:E; [|reflexivity]. exfalso. apply existsb_exists in E. destruct E as (c & Hc & Hcu).
  assert (existsb is_lower (lower w') = true); [|congruence]. apply existsb_exists. exists (lower_ascii c). split; [apply in_map; exact Hc|apply upper_to_lower; exact Hcu].
Qed.

(** ** Words in lower case *)
Lemma ddel_count {K} {EK : EqDecB K} (d : dict K nat) k k' : NoDup (dkeys d) -> count (ddel d k) k' = if PyDict.eqb k k' then 0 else count d k'.
Proof.
  intro Hn. rewrite ddel_filter by exact Hn. rewrite (count_filter (fun x => negb (PyDict.eqb k x))). destruct (PyDict.eqb k k'); reflexivity.
Qed.

Definition lw_step (acc : dict text nat) (wc : text * nat) : dict text nat :=
  if islower (fst wc) then acc else add_count (ddel acc (fst wc)) (lower (fst wc)) (snd wc).

Lemma lw_nodup l acc : NoDup (dkeys acc) -> NoDup (dkeys (fold_left lw_step l acc)).
Proof.
  revert acc. induction l as [|[w c] l IH]; intros acc H; [exact H|]. cbn [fold_left]. apply IH. unfold lw_step. cbn [fst snd].
  destruct (islower w); [exact H|]. unfold add_count. apply NoDup_dset, NoDup_ddel. exact H.
Qed.

Lemma lw_lower l : forall acc w, NoDup (dkeys acc) -> islower w = true ->
  count (fold_left lw_step l acc) w = count acc w + list_sum (map snd (filter (fun wc => negb (islower (fst wc)) && PyDict.eqb (lower (fst wc)) w) l)).
Proof.
  induction l as [|[w' c] l IH]; intros acc w Hn Hw; [cbn; lia|]. cbn [fold_left]. rewrite IH; [|apply (lw_nodup [(w', c)]); exact Hn|exact Hw].
  cbn [filter]. unfold lw_step. cbn [fst snd]. destruct (islower w') eqn:E; cbn [negb andb]; [reflexivity|].
  rewrite count_add, ddel_count by exact Hn. destruct (eqb_spec w' w) as [->|N]; [congruence|].
  destruct (PyDict.eqb (lower w') w); cbn [map snd]; [change (list_sum (c :: ?l)) with (c + list_sum l)|]; lia.
Qed.

Lemma lw_uncased l : forall acc w, NoDup (dkeys acc) -> islower w = false -> lower w = w -> (forall c, In (w, c) l -> count acc w = c) ->
  count (fold_left lw_step l acc) w = count acc w.
Proof.
  induction l as [|[w' c] l IH]; intros acc w Hn Hw Hl Hc; [reflexivity|]. cbn [fold_left].
  assert (count (lw_step acc (w', c)) w = count acc w) as E.
  { unfold lw_step. cbn [fst snd]. destruct (islower w') eqn:E; [reflexivity|]. rewrite count_add, ddel_count by exact Hn.
    destruct (eqb_spec w' w) as [->|N].
    - rewrite Hl, eqb_refl. symmetry. apply Hc. left. reflexivity.
    - destruct (eqb_spec (lower w') w) as [E'|_]; [exfalso; apply N; apply (uncased w w' Hw E')|lia]. }
  rewrite IH; [exact E|apply (lw_nodup [(w', c)]); exact Hn|exact Hw|exact Hl|]. intros c' Hi. rewrite E. apply Hc. right. exact Hi.
Qed.

Lemma lw_upper l : forall acc w, NoDup (dkeys acc) -> lower w <> w ->
  count (fold_left lw_step l acc) w = if lmem (dkeys l) w then 0 else count acc w.
Proof.
  induction l as [|[w' c] l IH]; intros acc w Hn Hw; [reflexivity|]. cbn [fold_left]. rewrite IH; [|apply (lw_nodup [(w', c)]); exact Hn|exact Hw].
  cbn [dkeys map fst lmem existsb]. fold (dkeys l). fold (lmem (dkeys l) w). unfold lw_step. cbn [fst snd].
  assert (forall x, lower x <> w) as A by (intros x <-; apply Hw; apply lower_idem).
  destruct (islower w') eqn:E.
  - destruct (eqb_spec w w') as [->|N]; [exfalso; apply Hw; apply islower_fixed; exact E|reflexivity].
  - rewrite count_add, ddel_count by exact Hn. destruct (eqb_spec (lower w') w) as [E'|_]; [exfalso; apply (A w' E')|].
    destruct (eqb_spec w w') as [->|N]; [rewrite eqb_refl; destruct (lmem (dkeys l) w'); reflexivity|].
    destruct (eqb_spec w' w) as [E'|_]; [congruence|]. cbn [orb]. destruct (lmem (dkeys l) w); lia.
Qed.

Lemma lower_words_count d w : NoDup (dkeys d) ->
  count (lower_words d) w = if PyDict.eqb (lower w) w then total (fun w' => PyDict.eqb (lower w') w) d else 0.
Proof.
  intro Hn. change (lower_words d) with (fold_left lw_step d d). destruct (eqb_spec (lower w) w) as [El|Nl].
  - destruct (islower w) eqn:Ew.
    + rewrite lw_lower by assumption. rewrite <- (dict_sum_key d w Hn). unfold total. clear Hn.
      induction d as [|[w' c] d IH]; [reflexivity|]. cbn [filter fst]. destruct (islower w') eqn:E; cbn [negb andb].
      * rewrite (islower_fixed w' E). destruct (PyDict.eqb w' w); cbn [map snd]; [change (list_sum (c :: ?l)) with (c + list_sum l)|]; lia.
      * destruct (eqb_spec w' w) as [->|N]; [congruence|]. destruct (PyDict.eqb (lower w') w); cbn [map snd]; [change (list_sum (c :: ?l)) with (c + list_sum l)|]; lia.
    + rewrite lw_uncased; [|exact Hn|exact Ew|exact El|intros c Hi; apply count_In; assumption]. rewrite <- (dict_sum_key d w Hn). unfold total. f_equal. f_equal.
      apply filter_ext. intros [w' c]. cbn [fst]. destruct (eqb_spec w' w) as [->|N]; [rewrite El, eqb_refl; reflexivity|].
      destruct (eqb_spec (lower w') w) as [E|_]; [exfalso; apply N; apply (uncased w w' Ew E)|reflexivity].
  - rewrite lw_upper by assumption. destruct (lmem (dkeys d) w) eqn:E; [reflexivity|]. apply count_zero. apply lmem_false. exact E.
Qed.

(** ** Profiles *)
Lemma total_cons {K} (P : K -> bool) k c (d : dict K nat) : total P ((k, c) :: d) = (if P k then c else 0) + total P d.
Proof. unfold total. cbn [filter fst]. destruct (P k); reflexivity. Qed.

Section Totals.
  Context {K : Type} {EK : EqDecB K}.
  Implicit Types d e : dict K nat.

  Lemma total_app (P : K -> bool) d e : total P (d ++ e) = total P d + total P e.
  Proof. unfold total. rewrite filter_app, map_app, list_sum_app. reflexivity. Qed.

  Lemma total_filter (P f : K -> bool) d : total P (filter (fun kv => f (fst kv)) d) = total (fun k => P k && f k) d.
  Proof.
    induction d as [|[k c] d IH]; [reflexivity|]. cbn [filter fst]. rewrite total_cons, <- IH. destruct (f k) eqn:E.
    - rewrite total_cons, andb_true_r. reflexivity.
    - rewrite andb_false_r. reflexivity.
  Qed.

  Lemma total_ext (P Q : K -> bool) d : (forall k, P k = Q k) -> total P d = total Q d.
  Proof. intro H. induction d as [|[k c] d IH]; [reflexivity|]. rewrite !total_cons, H, IH. reflexivity. Qed.

  Lemma total_none (P : K -> bool) d : (forall k, P k = false) -> total P d = 0.
  Proof. intro H. induction d as [|[k c] d IH]; [reflexivity|]. rewrite total_cons, H, IH. reflexivity. Qed.

  Lemma sum_counts (P : K -> bool) ks e : NoDup ks -> NoDup (dkeys e) ->
    list_sum (map (fun k => if P k then count e k else 0) ks) = total (fun k => P k && lmem ks k) e.
  Proof.
    intros Hk. induction e as [|[k' c] e IH]; intro Hn.
    - unfold total. cbn. induction ks as [|k ks IHk]; [reflexivity|]. cbn. inversion Hk; subst. destruct (P k); cbn; apply IHk; assumption.
    - cbn [dkeys map fst] in Hn. inversion Hn as [|? ? Hx Hn']; subst. rewrite total_cons, <- (IH Hn'). clear IH.
      assert (forall k, count ((k', c) :: e) k = (if PyDict.eqb k' k then c else 0) + count e k) as A.
      { intro k. unfold count at 1. cbn [dget]. destruct (eqb_spec k' k) as [->|]; [rewrite (count_zero e k Hx); lia|reflexivity]. }
      clear Hn Hx Hn'. induction Hk as [|k ks Hk0 Hk IHk].
      + cbn. destruct (P k'); reflexivity.
      + cbn [map lmem existsb]. fold (lmem ks k'). change (list_sum (?a :: ?l)) with (a + list_sum l). rewrite IHk, A. destruct (eqb_spec k' k) as [->|N].
        * assert (lmem ks k = false) as -> by (apply lmem_false; exact Hk0). destruct (P k); cbn [orb andb]; lia.
        * cbn [orb]. destruct (P k); lia.
  Qed.

  Lemma total_plus (P : K -> bool) d e : pos d -> pos e -> NoDup (dkeys d) -> NoDup (dkeys e) -> total P (plus d e) = total P d + total P e.
  Proof.
    intros Hd He Nd Ne. rewrite plus_eq, total_app by assumption. rewrite (total_filter P (fun k => negb (lmem (dkeys d) k))).
    assert (total P (map (fun kv => (fst kv, snd kv + count e (fst kv))) d) = total P d + list_sum (map (fun k => if P k then count e k else 0) (dkeys d))) as ->.
    { clear. induction d as [|[k c] d IH]; [reflexivity|]. cbn [map fst snd dkeys]. fold (dkeys d). rewrite !total_cons, IH.
      change (list_sum (?a :: ?l)) with (a + list_sum l). destruct (P k); lia. }
    rewrite sum_counts by assumption. rewrite <- Nat.add_assoc. f_equal. clear. induction e as [|[k c] e IH]; [reflexivity|]. rewrite !total_cons, <- IH.
    destruct (P k), (lmem (dkeys d) k); cbn [andb negb]; lia.
  Qed.

  Lemma pos_plus d e : pos d -> pos e -> pos (plus d e).
  Proof.
    intros Hd He k c Hi. unfold plus in Hi. apply in_app_or in Hi. destruct Hi as [Hi|Hi]; apply filter_In in Hi; destruct Hi as [_ Hi]; cbn [fst snd] in Hi.
    - apply Nat.ltb_lt. exact Hi.
    - apply andb_true_iff in Hi. apply Nat.ltb_lt. tauto.
  Qed.

  Lemma nodup_plus d e : pos d -> pos e -> NoDup (dkeys d) -> NoDup (dkeys e) -> NoDup (dkeys (plus d e)).
  Proof.
    intros Hd He Nd Ne. rewrite plus_keys by assumption. rewrite <- (firsts_nodup (dkeys d) Nd) at 1. rewrite <- (firsts_nodup (dkeys e) Ne).
    rewrite <- firsts_app. apply firsts_NoDup.
  Qed.

  Lemma pos_filter (f : K -> bool) d : pos d -> pos (filter (fun kv => f (fst kv)) d).
  Proof. intros H k c Hi. apply filter_In in Hi. apply (H k c). tauto. Qed.

  Lemma pos_dset d k c : pos d -> 0 < c -> pos (dset d k c).
  Proof.
    intros H Hc. induction d as [|[k' c'] d IH]; cbn [dset].
    - intros x v [E|[]]. injection E as <- <-. exact Hc.
    - destruct (PyDict.eqb k' k).
      + intros x v [E|Hi]; [injection E as <- <-; exact Hc|apply (H x v); right; exact Hi].
      + intros x v [E|Hi]; [apply (H x v); left; exact E|]. revert Hi. apply IH. intros y w Hy. apply (H y w). right. exact Hy.
  Qed.

  Lemma pos_ddel d k : pos d -> pos (ddel d k).
  Proof.
    intros H x v Hi. apply (H x v). clear H. induction d as [|[k' c'] d IH]; [exact Hi|]. cbn [ddel] in Hi. destruct (PyDict.eqb k' k); [right; exact Hi|].
    destruct Hi as [E|Hi]; [left; exact E|right; apply IH; exact Hi].
  Qed.
End Totals.

Lemma lw_pos l : forall acc, pos acc -> (forall w c, In (w, c) l -> 0 < c) -> pos (fold_left lw_step l acc).
Proof.
  induction l as [|[w c] l IH]; intros acc H Hl; [exact H|]. cbn [fold_left]. apply IH; [|intros w' c' Hi; apply (Hl w' c'); right; exact Hi].
  unfold lw_step. cbn [fst snd]. destruct (islower w); [exact H|]. unfold add_count. apply pos_dset; [apply pos_ddel; exact H|].
  specialize (Hl w c (or_introl eq_refl)). lia.
Qed.

(** The two kinds of words a profile does not count *)
Definition keep (stop : list text) (w : text) : bool := negb (match w with [] => true | _ => false end) && negb (lmem stop (lower w)).

Lemma update_words_eq p rows : update_words p rows =
  fold_left (fun d wc => add_count d (fst wc) (snd wc)) (filter (fun wc => keep (p_stop p) (fst wc)) (counter (concat (map (tokens (p_case p)) rows)))) (p_words p).
Proof.
  unfold update_words. generalize (p_words p). induction (counter (concat (map (tokens (p_case p)) rows))) as [|[w c] l IH]; intro d; [reflexivity|].
  cbn [fold_left filter fst snd]. unfold keep at 1. destruct w as [|x w]; cbn [negb andb]; [apply IH|].
  destruct (lmem (p_stop p) (lower (x :: w))); cbn [negb fold_left fst snd]; apply IH.
Qed.

Lemma fold_add_pos {K} {EK : EqDecB K} (l : list (K * nat)) : forall d, pos d -> (forall k c, In (k, c) l -> 0 < c) ->
  pos (fold_left (fun d wc => add_count d (fst wc) (snd wc)) l d).
Proof.
  induction l as [|[k c] l IH]; intros d Hd Hl; [exact Hd|]. cbn [fold_left]. apply IH; [|intros k' c' Hi; apply (Hl k' c'); right; exact Hi].
  unfold add_count. cbn [fst snd]. apply pos_dset; [exact Hd|]. specialize (Hl k c (or_introl eq_refl)). lia.
Qed.

Section Runs.
  Variable default_stop : list text.
  Notation run := (run default_stop).

  Definition ok (p : profile) := NoDup (dkeys (p_words p)) /\ pos (p_words p).

  Lemma merge_words_ok a b : ok a -> ok b -> NoDup (dkeys (merge_words a b)) /\ pos (merge_words a b).
  Proof.
    intros [Na Pa] [Nb Pb]. unfold merge_words. pose proof (nodup_plus _ _ Pa Pb Na Nb) as Nd. pose proof (pos_plus _ _ Pa Pb) as Pd.
    set (d := plus (p_words a) (p_words b)) in *. clearbody d.
    set (d1 := if _ =? _ then d else _). assert (NoDup (dkeys d1) /\ pos d1) as [N1 P1].
    { unfold d1. destruct (_ =? _); [auto|]. rewrite (fold_del_keys (fun w => lmem (union_stop (p_stop a) (p_stop b)) (lower w))) by exact Nd.
      split; [rewrite (dkeys_filter (fun w => negb (lmem (union_stop (p_stop a) (p_stop b)) (lower w)))); apply NoDup_filter; exact Nd|].
      apply (pos_filter (fun w => negb (lmem (union_stop (p_stop a) (p_stop b)) (lower w)))). exact Pd. }
    clearbody d1. destruct (Bool.eqb _ _); [auto|]. change (lower_words d1) with (fold_left lw_step d1 d1).
    split; [apply lw_nodup; exact N1|apply lw_pos; [exact P1|exact P1]].
  Qed.

  Lemma run_ok h : ok (run h).
  Proof.
    induction h as [o|h IH rows|h1 IH1 h2 IH2]; cbn [TextModel.run].
    - split; [constructor|intros k c []].
    - unfold update. destruct rows as [|r rows]; [exact IH|]. destruct IH as [N P]. unfold ok. cbn [p_words]. destruct (p_words_on (run h)); [|auto].
      rewrite update_words_eq. split.
      + rewrite fold_add_keys by exact N. apply firsts_NoDup.
      + apply fold_add_pos; [exact P|]. intros k c Hi. apply filter_In in Hi. destruct Hi as [Hi _]. exact (counts_pos _ _ (counter_counts _) k c Hi).
    - unfold merge, ok. cbn [p_words]. destruct (_ && _); [apply merge_words_ok; assumption|]. split; [constructor|intros k c []].
  Qed.
End Runs.
