(** C43: label numbers under additions.  C45: parameters of a labeler. *)
From Verif Require Import PyCommon PyDict PyString ListFacts LabelModel.
From Coq Require Import Sorted.
Local Open Scope string_scope.
Local Open Scope nat_scope.

Lemma list_max_le l x : In x l -> x <= list_max l.
Proof.
  induction l as [|y l IH]; cbn [In]; [tauto|]. change (list_max (y :: l)) with (Nat.max y (list_max l)).
  intros [->|H]; [lia|]. specialize (IH H). lia.
Qed.

Lemma get_bound (m : dict string nat) k v : dget m k = Some v -> v <= list_max (dvals m).
Proof. intro H. apply list_max_le. apply dget_Some_In in H. apply (in_map snd) in H. exact H. Qed.

(** An addition, successful or not, never changes the number of a label. *)
Theorem C43_numbers_kept zero m l s k v : dget m k = Some v -> dget (exec zero m (CAdd l s)) k = Some v.
Proof.
  intro H. unfold exec, add_label. destruct l as [l| |]; try exact H. destruct (eqb l ""); [exact H|].
  destruct (dmem m l) eqn:Em; [exact H|].
  assert (forall w, dget (dset m l w) k = Some v) as A.
  { intro w. rewrite dget_dset. destruct (eqb_spec l k) as [->|]; [|exact H]. apply dmem_false in Em. apply dget_None in Em. congruence. }
  destruct s as [s| |]; [|apply A|exact H]. destruct (negb (eqb s "") && negb (dmem m s)); [exact H|apply A].
Qed.

(** A label that is added gets the number of the label it shall be the same as, else a number larger than
    all in use; no other label is added. *)
Theorem C43_added m l s m' : add_label m (AStr l) s = Ok m' -> dget m l = None ->
  (forall k, k <> l -> dget m' k = dget m k) /\
  exists v, dget m' l = Some v /\
    match s with
    | AStr s' => dget m s' = Some v \/ (dget m s' = None /\ s' = "" /\ forall k w, dget m k = Some w -> w < v)
    | _ => forall k w, dget m k = Some w -> w < v
    end.
Proof.
  unfold add_label. intros H Hn. destruct (eqb l ""); [discriminate|]. unfold dmem in H. rewrite Hn in H.
  assert (forall v, (forall k, k <> l -> dget (dset m l v) k = dget m k) /\ dget (dset m l v) l = Some v) as A.
  { intro v. split; [intros k Hk; rewrite dget_dset; destruct (eqb_spec l k); [congruence|reflexivity]|].
    rewrite dget_dset, eqb_refl. reflexivity. }
  assert (forall k w, dget m k = Some w -> w < S (list_max (dvals m))) as B by (intros k w Hk; apply get_bound in Hk; lia).
  destruct s as [s| |]; [|injection H as <-|discriminate].
  - destruct (eqb_spec s "") as [->|Hs]; cbn [negb andb] in H.
    + injection H as <-. split; [apply A|]. destruct (dget m "") as [v|] eqn:E.
      * exists v. split; [apply A|left; reflexivity].
      * eexists. split; [apply A|]. right. split; [reflexivity|]. split; [reflexivity|exact B].
    + destruct (dget m s) as [v|] eqn:E; cbn [negb] in H; [|discriminate]. injection H as <-. split; [apply A|].
      exists v. split; [apply A|left; reflexivity].
  - split; [apply A|]. eexists. split; [apply A|exact B].
Qed.

(** Which additions are accepted *)
Theorem C43_accepted m l s : (exists m', add_label m (AStr l) s = Ok m') <->
  l <> "" /\ (dget m l <> None \/ match s with ANone => True | AOther => False | AStr s' => s' = "" \/ dget m s' <> None end).
Proof.
  unfold add_label, dmem. destruct (eqb_spec l "") as [->|Hl]; [split; [intros [? H]; discriminate|tauto]|].
  destruct (dget m l) as [v|] eqn:E; [split; [intros _; split; [exact Hl|left; discriminate]|eauto]|].
  destruct s as [s| |].
  - destruct (eqb_spec s "") as [->|Hs]; cbn [negb andb]; [split; [tauto|eauto]|].
    destruct (dget m s) as [w|] eqn:Es; cbn [negb].
    + split; [intros _; split; [exact Hl|right; right; congruence]|eauto].
    + split; [intros [? H]; discriminate|]. intros [_ [H|[H|H]]]; congruence.
  - split; [tauto|eauto].
  - split; [intros [? H]; discriminate|]. intros [_ [H|H]]; [congruence|destruct H].
Qed.

(** The number of labels is larger than every label number, and no smaller one is. *)
Theorem C43_num_labels m : m <> [] ->
  (forall k v, dget m k = Some v -> v < num_labels m) /\ (exists v, In v (dvals m) /\ num_labels m = S v).
Proof.
  intro Hne. split; [intros k v H; apply get_bound in H; unfold num_labels; lia|]. unfold num_labels.
  exists (list_max (dvals m)). split; [|reflexivity]. destruct m as [|[k v] m]; [congruence|]. clear Hne. cbn [dvals map snd].
  fold (dvals m). generalize (dvals m). intro l. revert v. induction l as [|x l IH]; intro v; [left; cbn; lia|].
  change (list_max (v :: x :: l)) with (Nat.max v (list_max (x :: l))).
  destruct (Nat.max_spec v (list_max (x :: l))) as [[_ ->]|[_ ->]]; [right; apply IH|left; reflexivity].
Qed.

(** * The list of labels *)
Lemma insert_In kv x l : In x (insert_by kv l) <-> x = kv \/ In x l.
Proof.
  induction l as [|y l IH]; cbn [insert_by]; [cbn; intuition|]. destruct (fst kv <=? fst y); cbn [In]; [intuition|]. rewrite IH. intuition.
Qed.

Lemma sort_In x l : In x (sort_by l) <-> In x l.
Proof. induction l as [|y l IH]; cbn [sort_by fold_right]; [reflexivity|]. fold (sort_by l). rewrite insert_In, IH. cbn [In]. intuition. Qed.

Definition before (a b : nat * string) : Prop := fst a < fst b.

Lemma insert_sorted kv l : (forall x, In x l -> fst x <> fst kv) -> StronglySorted before l -> StronglySorted before (insert_by kv l).
Proof.
  intros Hf Hs. induction Hs as [|y l Hs IH Hy]; cbn [insert_by]; [repeat constructor|].
  destruct (Nat.leb_spec (fst kv) (fst y)) as [Hle|Hgt].
  - assert (before kv y) as Hky by (specialize (Hf y (or_introl eq_refl)); unfold before; lia).
    constructor; [constructor; assumption|]. constructor; [exact Hky|]. apply Forall_forall. intros z Hz.
    rewrite Forall_forall in Hy. specialize (Hy z Hz). unfold before in *. lia.
  - constructor; [apply IH; intros x Hx; apply Hf; right; exact Hx|]. apply Forall_forall. intros z Hz. apply insert_In in Hz.
    destruct Hz as [->|Hz]; [exact Hgt|]. rewrite Forall_forall in Hy. apply Hy. exact Hz.
Qed.

Lemma sort_sorted l : NoDup (map fst l) -> StronglySorted before (sort_by l).
Proof.
  induction l as [|y l IH]; intro H; cbn [sort_by fold_right]; [constructor|]. fold (sort_by l). inversion H as [|? ? H1 H2]; subst.
  apply insert_sorted; [|apply IH; exact H2]. intros x Hx. apply (proj1 (sort_In x l)) in Hx. intro E. apply H1. rewrite <- E. apply in_map. exact Hx.
Qed.

Lemma reverse_spec (m : dict string nat) : forall d, NoDup (dkeys d) ->
  NoDup (dkeys (fold_left (fun d kv => dset d (snd kv) (fst kv)) m d)) /\
  (forall v, In v (dkeys (fold_left (fun d kv => dset d (snd kv) (fst kv)) m d)) <-> In v (dkeys d) \/ In v (dvals m)) /\
  (forall v k, dget (fold_left (fun d kv => dset d (snd kv) (fst kv)) m d) v = Some k -> dget d v = Some k \/ In (k, v) m).
Proof.
  induction m as [|[k v] m IH]; intros d Hn; cbn [fold_left fst snd].
  - split; [exact Hn|]. split; [intro v; cbn; tauto|auto].
  - destruct (IH (dset d v k) (NoDup_dset d v k Hn)) as (H1 & H2 & H3). split; [exact H1|]. split.
    + intro w. rewrite H2, In_dkeys_dset. cbn [dvals map In snd]. fold (dvals m). intuition.
    + intros w x Hw. apply H3 in Hw. rewrite dget_dset in Hw. destruct Hw as [Hw|Hw]; [|right; right; exact Hw].
      destruct (eqb_spec v w) as [->|]; [|auto]. injection Hw as ->. right. left. reflexivity.
Qed.

(** The labels are listed by increasing number, one for every number in use. *)
Theorem C43_labels m : NoDup (dkeys m) ->
  exists numbers, StronglySorted lt numbers /\ (forall v, In v numbers <-> In v (dvals m)) /\
    Forall2 (fun v l => dget m l = Some v) numbers (labels m).
Proof.
  intro Hm. destruct (reverse_spec m [] (NoDup_nil _)) as (H1 & H2 & H3). fold (reverse_mapping m) in *.
  pose proof (sort_sorted (reverse_mapping m) H1) as Hs. exists (map fst (sort_by (reverse_mapping m))). split; [|split].
  - clear - Hs. induction Hs as [|x l Hs IH Hx]; cbn [map]; constructor; [exact IH|]. apply Forall_forall. intros v Hv.
    apply in_map_iff in Hv. destruct Hv as (y & <- & Hy). rewrite Forall_forall in Hx. apply Hx. exact Hy.
  - intro v. rewrite in_map_iff. split.
    + intros (x & <- & Hx). apply (proj1 (sort_In _ _)) in Hx. destruct (proj1 (H2 (fst x)) (in_map fst _ _ Hx)) as [[]|Hv]. exact Hv.
    + intro Hv. destruct (proj1 (in_map_iff _ _ _) (proj2 (H2 v) (or_intror Hv))) as (x & E & Hx). exists x. split; [exact E|].
      apply sort_In. exact Hx.
  - unfold labels. assert (forall x, In x (sort_by (reverse_mapping m)) -> dget m (snd x) = Some (fst x)) as A.
    { intros [v k] Hx. cbn [fst snd]. apply (proj1 (sort_In _ _)) in Hx. apply (dget_In _ _ _ H1) in Hx.
      destruct (H3 v k Hx) as [Hx'|Hx']; [discriminate|]. apply dget_In; assumption. }
    induction (sort_by (reverse_mapping m)) as [|x l IH]; cbn [map]; constructor; [apply A; left; reflexivity|].
    apply IH; [inversion Hs; assumption|]. intros y Hy. apply A. right. exact Hy.
Qed.

Example C43_example :
  exists m, set_label_mapping false (MList ["PAD"; "BACKGROUND"]) = Ok m /\
    exec false (exec false m (CAdd (AStr "CITY") ANone)) (CAdd (AStr "TOWN") (AStr "CITY")) =
      [("PAD", 1); ("BACKGROUND", 2); ("CITY", 3); ("TOWN", 3)] /\
    labels [("PAD", 1); ("BACKGROUND", 2); ("CITY", 3); ("TOWN", 3)] = ["PAD"; "BACKGROUND"; "TOWN"].
Proof. eexists. split; [reflexivity|]. split; vm_compute; reflexivity. Qed.

(** A user expects the list of labels to contain every label that was added.  Of labels that share a number
    only the last one is listed. *)
Theorem C43_every_label_listed_refuted :
  ~ (forall m l s m', m <> [] -> add_label m (AStr l) s = Ok m' -> forall k, dget m' k <> None -> In k (labels m')).
Proof.
  intro H. specialize (H [("A", 1)] "B" (AStr "A") [("A", 1); ("B", 1)] ltac:(discriminate) eq_refl "A" ltac:(discriminate)).
  vm_compute in H. destruct H as [H|[]]. discriminate.
Qed.

(** ** Additions without [same_as] *)

(** The labels in the order in which they were first named *)
Definition append_new (acc : list string) (l : arg) : list string :=
  match l with AStr n => if eqb n "" || lmem acc n then acc else acc ++ [n] | _ => acc end.

Definition numbered (start : nat) (l : list string) : dict string nat := combine l (seq start (length l)).

Lemma numbered_keys start l : dkeys (numbered start l) = l.
Proof.
  unfold numbered, dkeys. revert start. induction l as [|x l IH]; intro start; [reflexivity|]. cbn [length seq combine map fst]. f_equal. apply IH.
Qed.

Lemma numbered_vals start l : dvals (numbered start l) = seq start (length l).
Proof.
  unfold numbered, dvals. revert start. induction l as [|x l IH]; intro start; [reflexivity|]. cbn [length seq combine map snd]. f_equal. apply IH.
Qed.

Lemma dset_new {V} (d : dict string V) k v : ~ In k (dkeys d) -> dset d k v = d ++ [(k, v)].
Proof.
  induction d as [|[k' v'] d IH]; [reflexivity|]. cbn [dset app dkeys map fst In]. fold (dkeys d). intro H.
  destruct (eqb_spec k' k); [subst; tauto|]. f_equal. apply IH. tauto.
Qed.

Lemma number_labels_distinct start l : NoDup l -> number_labels start l = numbered start l.
Proof.
  unfold number_labels. fold (numbered start l). intro H. rewrite <- (numbered_keys start l) in H. revert H. generalize (numbered start l).
  intro d. assert (forall e, NoDup (dkeys e ++ dkeys d) -> fold_left (fun d kv => dset d (fst kv) (snd kv)) d e = e ++ d) as A.
  { induction d as [|[k v] d IH]; intros e He; cbn [fold_left]; [symmetry; apply app_nil_r|]. cbn [fst snd].
    rewrite dset_new; [|cbn [dkeys map fst] in He; apply NoDup_remove_2 in He; rewrite in_app_iff in He; tauto].
    rewrite IH; [rewrite <- app_assoc; reflexivity|]. unfold dkeys in *. rewrite map_app, <- app_assoc. exact He. }
  intro H. rewrite A; [reflexivity|exact H].
Qed.

Lemma max_seq start n : list_max (seq start (S n)) = start + n.
Proof.
  revert start. induction n as [|n IH]; intro start; [cbn; lia|]. cbn [seq].
  change (list_max (start :: S start :: seq (S (S start)) n)) with (Nat.max start (list_max (seq (S start) (S n)))). rewrite IH. lia.
Qed.

Lemma combine_snoc {X Y} (a : list X) (b : list Y) x y : length a = length b -> combine (a ++ [x]) (b ++ [y]) = combine a b ++ [(x, y)].
Proof.
  revert b. induction a as [|u a IH]; intros [|w b] H; cbn in H; try discriminate; [reflexivity|]. cbn [app combine]. f_equal. apply IH. lia.
Qed.

Lemma numbered_add start l n : l <> [] -> ~ In n l ->
  dset (numbered start l) n (S (list_max (dvals (numbered start l)))) = numbered start (l ++ [n]).
Proof.
  intros Hl Hn. rewrite dset_new by (rewrite numbered_keys; exact Hn). rewrite numbered_vals. unfold numbered.
  rewrite app_length. cbn [length]. rewrite Nat.add_1_r, seq_S, combine_snoc by (rewrite seq_length; reflexivity). do 3 f_equal.
  destruct l as [|x l]; [congruence|]. cbn [length]. rewrite max_seq. lia.
Qed.

Lemma reverse_numbered start l : reverse_mapping (numbered start l) = combine (seq start (length l)) l.
Proof.
  unfold reverse_mapping. assert (forall (d : dict nat string), (forall v, In v (dkeys d) -> v < start) ->
    fold_left (fun d kv => dset d (snd kv) (fst kv)) (numbered start l) d = d ++ combine (seq start (length l)) l) as A.
  { unfold numbered. revert start. induction l as [|x l IH]; intros start d Hd; cbn [length seq combine fold_left fst snd]; [symmetry; apply app_nil_r|].
    assert (dset d start x = d ++ [(start, x)]) as ->.
    { assert (~ In start (dkeys d)) as Hn by (intro H; specialize (Hd _ H); lia). clear - Hn.
      induction d as [|[k v] d IH]; cbn; [reflexivity|]. cbn in Hn. destruct (Nat.eqb_spec k start); [tauto|]. f_equal. apply IH. tauto. }
    rewrite IH; [rewrite <- app_assoc; reflexivity|]. intros v Hv. unfold dkeys in Hv. rewrite map_app, in_app_iff in Hv.
    destruct Hv as [Hv|[<-|[]]]; [specialize (Hd v Hv); lia|cbn; lia]. }
  rewrite A; [reflexivity|intros v []].
Qed.

Lemma sort_sorted_id l : StronglySorted before l -> sort_by l = l.
Proof.
  induction 1 as [|x l Hs IH Hx]; [reflexivity|]. cbn [sort_by fold_right]. fold (sort_by l). rewrite IH. destruct l as [|y l]; [reflexivity|].
  cbn [insert_by]. inversion Hx as [|? ? Hy _]; subst. unfold before in Hy. destruct (Nat.leb_spec (fst x) (fst y)); [reflexivity|lia].
Qed.

Lemma labels_numbered start l : labels (numbered start l) = l.
Proof.
  unfold labels. rewrite reverse_numbered, sort_sorted_id.
  - revert start. induction l as [|x l IH]; intro start; [reflexivity|]. cbn [length seq combine map snd]. f_equal. apply IH.
  - revert start. induction l as [|x l IH]; intro start; cbn [length seq combine]; constructor; [apply IH|]. apply Forall_forall.
    intros [v k] H. apply in_combine_l in H. apply in_seq in H. unfold before. cbn. lia.
Qed.

(** Starting from a list of distinct labels and adding labels without [same_as], the labels are listed in the
    order in which they were named first, and numbered consecutively in this order. *)
Theorem C43_consecutive zero initial m names : initial <> [] -> NoDup initial -> set_label_mapping zero (MList initial) = Ok m ->
  let final := fold_left (exec zero) (map (fun n => CAdd n ANone) names) m in
  labels final = fold_left append_new names initial /\
  forall i l, nth_error (labels final) i = Some l <-> dget final l = Some ((if zero then 0 else 1) + i).
Proof.
  intros Hne Hnd Hm. cbn zeta. assert (m = numbered (if zero then 0 else 1) initial) as ->.
  { cbn [set_label_mapping] in Hm. destruct initial as [|x initial]; [congruence|]. rewrite (number_labels_distinct _ _ Hnd) in Hm. congruence. }
  clear Hm. set (start := if zero then 0 else 1). clearbody start.
  assert (exists l, fold_left (exec zero) (map (fun n => CAdd n ANone) names) (numbered start initial) = numbered start l /\
            l = fold_left append_new names initial /\ NoDup l) as (l & -> & -> & Hl).
  { revert initial Hne Hnd. induction names as [|n names IH]; intros l Hne Hnd; cbn [map fold_left]; [eauto|].
    assert (exec zero (numbered start l) (CAdd n ANone) = numbered start (append_new l n) /\ NoDup (append_new l n) /\ append_new l n <> []) as (E & H1 & H2).
    { unfold exec, add_label, append_new. destruct n as [n| |]; try (repeat split; assumption).
      destruct (eqb n ""); [repeat split; assumption|]. cbn [orb].
      replace (dmem (numbered start l) n) with (lmem l n); [|].
      2:{ destruct (lmem l n) eqn:E; symmetry; [apply dmem_true; rewrite numbered_keys; apply lmem_In; exact E|].
          apply dmem_false. rewrite numbered_keys. apply lmem_false. exact E. }
      destruct (lmem l n) eqn:E; [repeat split; assumption|]. apply lmem_false in E.
      split; [apply numbered_add; assumption|]. split; [apply NoDup_snoc; assumption|]. destruct l; discriminate. }
    rewrite E. apply IH; assumption. }
  rewrite labels_numbered. split; [reflexivity|]. set (l := fold_left append_new names initial) in *. clearbody l.
  assert (NoDup (dkeys (numbered start l))) as Hk by (rewrite numbered_keys; exact Hl).
  assert (forall start i x, nth_error l i = Some x <-> In (x, start + i) (numbered start l)) as A.
  { clear. unfold numbered. induction l as [|y l IH]; intros start i x; cbn [length seq combine].
    - split; [destruct i; discriminate|intros []].
    - cbn [In]. destruct i as [|i]; cbn [nth_error].
      + split; [intro H; injection H as ->; left; f_equal; lia|]. intros [H|H]; [injection H as -> _; reflexivity|].
        exfalso. apply in_combine_r in H. apply in_seq in H. lia.
      + rewrite (IH (S start) i x). replace (S start + i) with (start + S i) by lia. split; [auto|].
        intros [H|H]; [|exact H]. injection H as _ H. lia. }
  intros i x. rewrite (A start). split; [apply dget_In; exact Hk|apply dget_Some_In].
Qed.

Example C43_consecutive_example :
  labels (fold_left (exec true) (map (fun n => CAdd n ANone) [AStr "B"; AStr ""; AStr "C"; AStr "A"]) [("A", 0)]) = ["A"; "B"; "C"].
Proof. vm_compute. reflexivity. Qed.

(** * C45 *)
Section C45.
  Context {K V : Type} {EK : EqDecB K} {EV : EqDecB V}.
  Variable valid : part -> dict K V -> dict K V -> bool.
  Implicit Types (lb : labeler K V) (r : @request K V).

  (** What one component went through: nothing, or all of its new parameters *)
  Definition kept lb lb' p : Prop := get_part p lb' = get_part p lb.
  Definition changed r lb lb' p : Prop :=
    exists st kw, get_part p lb = Some st /\ asked r p = Some kw /\ valid p st kw = true /\ get_part p lb' = Some (dupdate st kw).

  Lemma get_put_same p lb st : get_part p (put_part p lb st) = Some st.
  Proof. destruct p; reflexivity. Qed.
  Lemma get_put_other p q lb st : p <> q -> get_part q (put_part p lb st) = get_part q lb.
  Proof. destruct p, q; intro H; try reflexivity; congruence. Qed.

  Lemma set_one_spec p r lb lb' e : set_one valid p r lb = (lb', e) ->
    (forall q, q <> p -> get_part q lb' = get_part q lb) /\
    match e with
    | Some x => x = ValueError /\ lb' = lb /\ exists st kw, get_part p lb = Some st /\ asked r p = Some kw /\ valid p st kw = false
    | None => (changed r lb lb' p) \/ ((get_part p lb = None \/ asked r p = None) /\ lb' = lb)
    end.
  Proof.
    unfold set_one, set_component. destruct (get_part p lb) as [st|] eqn:E1; [destruct (asked r p) as [kw|] eqn:E2|].
    - destruct (valid p st kw) eqn:Ev; intro H; injection H as <- <-.
      + split; [intros q Hq; apply get_put_other; congruence|]. left. exists st, kw. split; [exact E1|]. split; [exact E2|]. split; [exact Ev|apply get_put_same].
      + split; [reflexivity|]. split; [reflexivity|]. split; [reflexivity|]. exists st, kw. auto.
    - intro H. injection H as <- <-. split; [reflexivity|]. right. auto.
    - intro H. injection H as <- <-. split; [reflexivity|]. right. auto.
  Qed.

  (** Whatever the outcome, every component has all of its requested parameters or is as before. *)
  Theorem C45_component_all_or_nothing lb r lb' out : set_params valid lb r = (lb', out) ->
    forall p, kept lb lb' p \/ changed r lb lb' p.
  Proof.
    unfold set_params. destruct (match r with [] => true | _ => _ end); [intros H p; injection H as <- _; left; reflexivity|].
    destruct (existsb _ [Pre; Mod; Post]); [intros H p; injection H as <- _; left; reflexivity|].
    destruct (set_one valid Pre r lb) as [lb1 e1] eqn:E1. destruct (set_one_spec _ _ _ _ _ E1) as [A1 B1].
    assert (kept lb lb1 Pre \/ changed r lb lb1 Pre) as C1.
    { destruct e1 as [x|]; [destruct B1 as (_ & -> & _); left; reflexivity|]. destruct B1 as [B1|[_ ->]]; [right; exact B1|left; reflexivity]. }
    destruct e1 as [x|].
    { intros H p; injection H as <- _; destruct p; [exact C1|left; apply A1; discriminate|left; apply A1; discriminate]. }
    destruct (set_one valid Mod r lb1) as [lb2 e2] eqn:E2. destruct (set_one_spec _ _ _ _ _ E2) as [A2 B2].
    assert (kept lb lb2 Mod \/ changed r lb lb2 Mod) as C2.
    { unfold kept, changed in *. rewrite <- (A1 Mod) by discriminate.
      destruct e2 as [x|]; [destruct B2 as (_ & -> & _); left; reflexivity|]. destruct B2 as [B2|[_ ->]]; [right; exact B2|left; reflexivity]. }
    assert (kept lb lb2 Pre \/ changed r lb lb2 Pre) as C1'.
    { unfold kept, changed in *. rewrite (A2 Pre) by discriminate. exact C1. }
    destruct e2 as [x|].
    { intros H p; injection H as <- _; destruct p; [exact C1'|exact C2|left; unfold kept; rewrite A2, A1 by discriminate; reflexivity]. }
    destruct (set_one valid Post r lb2) as [lb3 e3] eqn:E3. destruct (set_one_spec _ _ _ _ _ E3) as [A3 B3].
    assert (kept lb lb3 Post \/ changed r lb lb3 Post) as C3.
    { unfold kept, changed in *. rewrite <- (A1 Post), <- (A2 Post) by discriminate.
      destruct e3 as [x|]; [destruct B3 as (_ & -> & _); left; reflexivity|]. destruct B3 as [B3|[_ ->]]; [right; exact B3|left; reflexivity]. }
    assert (lb' = lb3 -> forall p, kept lb lb' p \/ changed r lb lb' p) as F.
    { intros -> p. destruct p; [|  |exact C3]; unfold kept, changed in *; rewrite A3 by discriminate; [exact C1'|exact C2]. }
    destruct e3 as [x|]; intro H; injection H as <- _; apply F; reflexivity.
  Qed.

  (** If the call succeeds, every component named in the request has its new parameters and the others are
      as before. *)
  Theorem C45_success lb r lb' msgs : set_params valid lb r = (lb', Ok msgs) ->
    forall p, match asked r p with Some _ => changed r lb lb' p | None => kept lb lb' p end.
  Proof.
    unfold set_params. destruct (match r with [] => true | _ => _ end); [intro H; discriminate|].
    destruct (existsb _ [Pre; Mod; Post]) eqn:Em; [intro H; discriminate|].
    assert (forall p, asked r p <> None -> get_part p lb <> None) as Hm.
    { intros p Hp Hn. assert (existsb (fun p => match get_part p lb, asked r p with None, Some _ => true | _, _ => false end) [Pre; Mod; Post] = true); [|congruence].
      apply existsb_exists. exists p. split; [destruct p; cbn; auto|]. rewrite Hn. destruct (asked r p); congruence. }
    destruct (set_one valid Pre r lb) as [lb1 e1] eqn:E1. destruct (set_one_spec _ _ _ _ _ E1) as [A1 B1]. destruct e1; [intro H; discriminate|].
    destruct (set_one valid Mod r lb1) as [lb2 e2] eqn:E2. destruct (set_one_spec _ _ _ _ _ E2) as [A2 B2]. destruct e2; [intro H; discriminate|].
    destruct (set_one valid Post r lb2) as [lb3 e3] eqn:E3. destruct (set_one_spec _ _ _ _ _ E3) as [A3 B3]. destruct e3; [intro H; discriminate|].
    intro H. injection H as <- _. unfold kept, changed in *. intro p. specialize (Hm p). destruct p.
    - rewrite (A3 Pre), (A2 Pre) by discriminate. destruct B1 as [(st & kw & H1 & H2 & H3 & H4)|[[H1|H1] ->]].
      + rewrite H2. exists st, kw. auto.
      + destruct (asked r Pre); [exfalso; apply Hm; [discriminate|exact H1]|reflexivity].
      + rewrite H1. reflexivity.
    - rewrite (A3 Mod) by discriminate. rewrite <- (A1 Mod) in * by discriminate.
      destruct B2 as [(st & kw & H1 & H2 & H3 & H4)|[[H1|H1] ->]].
      + rewrite H2. exists st, kw. auto.
      + destruct (asked r Mod); [exfalso; apply Hm; [discriminate|exact H1]|reflexivity].
      + rewrite H1. reflexivity.
    - rewrite <- (A1 Post), <- (A2 Post) in * by discriminate.
      destruct B3 as [(st & kw & H1 & H2 & H3 & H4)|[[H1|H1] ->]].
      + rewrite H2. exists st, kw. auto.
      + destruct (asked r Post); [exfalso; apply Hm; [discriminate|exact H1]|reflexivity].
      + rewrite H1. reflexivity.
  Qed.

  (** A request that is empty, names something else, or names a missing component changes nothing. *)
  Theorem C45_malformed_request lb r : r = [] \/ (exists kw, In (None, kw) r) \/ (exists p, get_part p lb = None /\ asked r p <> None) ->
    set_params valid lb r = (lb, Err ValueError).
  Proof.
    intro H. unfold set_params. destruct (match r with [] => true | _ => _ end) eqn:E0; [reflexivity|].
    replace (existsb _ [Pre; Mod; Post]) with true; [reflexivity|]. symmetry. destruct H as [->|[[kw H]|(p & H1 & H2)]]; [discriminate| |].
    - exfalso. destruct r as [|e r]; [destruct H|]. assert (existsb (fun e => match fst e with None => true | Some _ => false end) (e :: r) = true); [|congruence].
      apply existsb_exists. exists (None, kw). auto.
    - apply existsb_exists. exists p. split; [destruct p; cbn; auto|]. rewrite H1. destruct (asked r p); congruence.
  Qed.

  (** With preprocessor and model present, a failing request for a single component changes nothing. *)
  Theorem C45_single_component lb r lb' x p : l_pre lb <> None -> l_mod lb <> None ->
    (forall q, q <> p -> asked r q = None) -> set_params valid lb r = (lb', Err x) -> lb' = lb.
  Proof.
    intros Hp Hmo Hq. unfold set_params. destruct (match r with [] => true | _ => _ end); [intro H; injection H as <- _; reflexivity|].
    destruct (existsb _ [Pre; Mod; Post]); [intro H; injection H as <- _; reflexivity|].
    destruct (set_one valid Pre r lb) as [lb1 e1] eqn:E1. destruct (set_one_spec _ _ _ _ _ E1) as [A1 B1]. destruct e1 as [y|]; [destruct B1 as (_ & -> & _); intro H; injection H as <- _; reflexivity|].
    destruct (set_one valid Mod r lb1) as [lb2 e2] eqn:E2. destruct (set_one_spec _ _ _ _ _ E2) as [A2 B2]. destruct e2 as [y|].
    { destruct B2 as (_ & -> & st & kw & _ & H2 & _). destruct B1 as [(st1 & kw1 & _ & H3 & _)|[_ ->]]; [|intro H; injection H as <- _; reflexivity].
      exfalso. destruct p; [rewrite Hq in H2 by discriminate; discriminate|rewrite Hq in H3 by discriminate; discriminate|rewrite Hq in H3 by discriminate; discriminate]. }
    destruct (set_one valid Post r lb2) as [lb3 e3] eqn:E3. destruct (set_one_spec _ _ _ _ _ E3) as [A3 B3]. destruct e3 as [y|].
    { destruct B3 as (_ & -> & st & kw & _ & H2 & _). assert (p = Post) as ->.
      { destruct p; [|  |reflexivity]; rewrite Hq in H2 by discriminate; discriminate. }
      destruct B2 as [(st1 & kw1 & _ & H3 & _)|[_ ->]]; [rewrite Hq in H3 by discriminate; discriminate|].
      destruct B1 as [(st1 & kw1 & _ & H3 & _)|[_ ->]]; [rewrite Hq in H3 by discriminate; discriminate|].
      intro H. injection H as <- _. reflexivity. }
    assert (forall q, get_part q lb <> None -> get_part q lb3 <> None) as Hk.
    { intros q Hn. assert (get_part q lb1 <> None) as H1.
      { destruct B1 as [(st1 & kw1 & _ & _ & _ & H4)|[_ ->]]; [|exact Hn]. destruct q; [congruence|rewrite A1 by discriminate; exact Hn|rewrite A1 by discriminate; exact Hn]. }
      assert (get_part q lb2 <> None) as H2.
      { destruct B2 as [(st1 & kw1 & _ & _ & _ & H4)|[_ ->]]; [|exact H1]. destruct q; [rewrite A2 by discriminate; exact H1|congruence|rewrite A2 by discriminate; exact H1]. }
      destruct B3 as [(st1 & kw1 & _ & _ & _ & H4)|[_ ->]]; [|exact H2]. destruct q; [rewrite A3 by discriminate; exact H2|rewrite A3 by discriminate; exact H2|congruence]. }
    intro H. exfalso. injection H as _ H. unfold check_pipeline in H. pose proof (Hk Mod Hmo) as N1. pose proof (Hk Pre Hp) as N2. cbn [get_part] in N1, N2.
    destruct (l_mod lb3); [|congruence]. destruct (l_pre lb3); [|congruence]. destruct (l_post lb3); discriminate.
  Qed.

  Lemma mismatches_In (a b : dict K V) k : NoDup (dkeys a) ->
    (In k (mismatches a b) <-> exists v w, dget a k = Some v /\ dget b k = Some w /\ v <> w).
  Proof.
    intro Hn. unfold mismatches. rewrite in_map_iff. split.
    - intros ([k' v] & <- & H). apply filter_In in H. cbn [fst snd] in *. destruct H as [H1 H2]. destruct (dget b k') as [w|]; [|discriminate].
      exists v, w. split; [apply dget_In; assumption|]. split; [reflexivity|]. apply negb_true_iff in H2. apply eqb_neq in H2. exact H2.
    - intros (v & w & H1 & H2 & H3). exists (k, v). split; [reflexivity|]. apply filter_In. split; [apply dget_Some_In; exact H1|].
      cbn [fst snd]. rewrite H2. apply negb_true_iff. apply eqb_neq. exact H3.
  Qed.

  (** The warnings of a successful call are exactly the parameters on which two components disagree. *)
  Theorem C45_warnings lb r lb' msgs : set_params valid lb r = (lb', Ok msgs) ->
    (forall p st, get_part p lb' = Some st -> NoDup (dkeys st)) ->
    forall p q k, In (p, q, k) msgs <->
      In (p, q) [(Mod, Pre); (Mod, Post); (Pre, Post)] /\
      exists a b v w, get_part p lb' = Some a /\ get_part q lb' = Some b /\ dget a k = Some v /\ dget b k = Some w /\ v <> w.
  Proof.
    intros H Hn. assert (check_pipeline (match l_post lb' with None => true | Some _ => false end) lb' = Ok msgs) as C.
    { revert H. unfold set_params. destruct (match r with [] => true | _ => _ end); [intro H; discriminate|].
      destruct (existsb _ [Pre; Mod; Post]); [intro H; discriminate|]. destruct (set_one valid Pre r lb) as [lb1 [e1|]]; [intro H; discriminate|].
      destruct (set_one valid Mod r lb1) as [lb2 [e2|]]; [intro H; discriminate|]. destruct (set_one valid Post r lb2) as [lb3 [e3|]]; [intro H; discriminate|].
      intro H. injection H as <- H. exact H. }
    clear H. unfold check_pipeline in C. pose proof (Hn Pre) as N1. pose proof (Hn Mod) as N2. pose proof (Hn Post) as N3. cbn [get_part] in *.
    destruct (l_mod lb') as [mo|] eqn:Em; [|discriminate]. destruct (l_pre lb') as [pr|] eqn:Ep; [|discriminate].
    specialize (N1 pr eq_refl). specialize (N2 mo eq_refl).
    assert (forall p q (a b : dict K V) (k : K) (P Q : part), NoDup (dkeys a) -> (In (p, q, k) (map (fun k => (P, Q, k)) (mismatches a b)) <->
              p = P /\ q = Q /\ exists v w, dget a k = Some v /\ dget b k = Some w /\ v <> w)) as A.
    { intros p q a b k P Q Na. rewrite in_map_iff. rewrite <- (mismatches_In a b k Na). split.
      - intros (k' & E & H). injection E as <- <- <-. auto.
      - intros (-> & -> & H). eauto. }
    intros p q k. destruct (l_post lb') as [po|] eqn:Eo.
    - specialize (N3 po eq_refl). injection C as <-. rewrite !in_app_iff, !A by assumption. split.
      + intros [(-> & -> & v & w & H)|[(-> & -> & v & w & H)|(-> & -> & v & w & H)]]; (split; [cbn; auto|]); cbn [get_part].
        * exists mo, pr, v, w. auto.
        * exists mo, po, v, w. auto.
        * exists pr, po, v, w. auto.
      + intros [Hin (a & b & v & w & H1 & H2 & H)]. cbn [In] in Hin. destruct Hin as [E|[E|[E|[]]]]; injection E as <- <-; cbn [get_part] in *.
        * left. split; [reflexivity|]. split; [reflexivity|]. exists v, w. rewrite Em in H1. rewrite Ep in H2. injection H1 as <-. injection H2 as <-. exact H.
        * right. left. split; [reflexivity|]. split; [reflexivity|]. exists v, w. rewrite Em in H1. rewrite Eo in H2. injection H1 as <-. injection H2 as <-. exact H.
        * right. right. split; [reflexivity|]. split; [reflexivity|]. exists v, w. rewrite Ep in H1. rewrite Eo in H2. injection H1 as <-. injection H2 as <-. exact H.
    - injection C as <-. rewrite A by assumption. split.
      + intros (-> & -> & v & w & H). split; [cbn; auto|]. cbn [get_part]. exists mo, pr, v, w. auto.
      + intros [Hin (a & b & v & w & H1 & H2 & H)]. cbn [In] in Hin. destruct Hin as [E|[E|[E|[]]]]; injection E as <- <-; cbn [get_part] in *; try congruence.
        split; [reflexivity|]. split; [reflexivity|]. exists v, w. rewrite Em in H1. rewrite Ep in H2. injection H1 as <-. injection H2 as <-. exact H.
  Qed.
End C45.

(** Parameters are accepted if their values are at most 9. *)
Definition small (p : part) (st kw : dict nat nat) : bool := forallb (fun kv => snd kv <=? 9) kw.

Example C45_example :
  set_params small (mkLabeler (Some [(1, 5)]) (Some [(1, 5); (2, 2)]) None) [(Some Mod, [(1, 6)])] =
    (mkLabeler (Some [(1, 5)]) (Some [(1, 6); (2, 2)]) None, Ok [(Mod, Pre, 1)]).
Proof. reflexivity. Qed.

(** A user expects a call that raises an exception to leave the labeler as it was.  The preprocessor keeps its
    new parameters when those for the model are refused. *)
Theorem C45_failed_call_changes_nothing_refuted :
  ~ (forall lb r lb' x, l_pre lb <> None -> l_mod lb <> None -> set_params small lb r = (lb', Err x) -> lb' = lb).
Proof.
  intro H. specialize (H (mkLabeler (Some [(1, 5)]) (Some [(1, 5)]) None) [(Some Pre, [(1, 6)]); (Some Mod, [(1, 10)])]
    (mkLabeler (Some [(1, 6)]) (Some [(1, 5)]) None) ValueError ltac:(discriminate) ltac:(discriminate) eq_refl). discriminate.
Qed.

(** A user expects valid parameters for an existing component to be accepted.  Without a model the call fails
    after the change. *)
Theorem C45_valid_parameters_accepted_refuted :
  ~ (forall lb p st kw, get_part p lb = Some st -> small p st kw = true -> exists lb' msgs, set_params small lb [(Some p, kw)] = (lb', Ok msgs)).
Proof.
  intro H. destruct (H (mkLabeler (Some [(1, 5)]) None None) Pre [(1, 5)] [(1, 6)] eq_refl eq_refl) as (lb' & msgs & E). discriminate E.
Qed.

Print Assumptions C43_consecutive.
Print Assumptions C43_labels.
Print Assumptions C45_component_all_or_nothing.
Print Assumptions C45_success.
Print Assumptions C45_single_component.
Print Assumptions C45_warnings.
