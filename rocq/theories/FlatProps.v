(** Property C40: flattened reports. *)
From Coq Require Import ZArith.
From Verif Require Import PyCommon PyDict PyString ListFacts ReportModel DiffProofs.
Local Open Scope string_scope.
Local Open Scope list_scope.

Section TreeInd.
  Context {V : Type}.
  Variable P : tree V -> Prop.
  Hypothesis HL : forall v, P (Leaf v).
  Hypothesis HN : forall d, (forall k x, In (k, x) d -> P x) -> P (Node d).
  Fixpoint tree_induction (t : tree V) : P t :=
    match t with
    | Leaf v => HL v
    | Node d => HN d ((fix over (d : list (key * tree V)) : forall k x, In (k, x) d -> P x :=
        match d with
        | [] => fun k x H => match H with end
        | (k0, x0) :: r => fun k x H => match H with or_introl E => eq_ind x0 P (tree_induction x0) x (f_equal snd E) | or_intror H => over r k x H end
        end) d)
    end.
End TreeInd.

Section Flat.
  Context {V : Type}.
  Variable sep : string.

  (** The leaves of a report with the keys that lead to them *)
  Fixpoint leaves (t : tree V) : list (list key * V) :=
    match t with
    | Leaf v => [([], v)]
    | Node d => (fix over (d : list (key * tree V)) := match d with [] => [] | (k, x) :: r => map (fun l => (k :: fst l, snd l)) (leaves x) ++ over r end) d
    end.

  (** The key of a path in the flattened report: the keys joined by the separator, spaces in all but the last replaced by
      underscores; keys that count as false (0 and the empty string) are left out, except the last *)
  Fixpoint flat_key (path : list key) : key :=
    match path with
    | [] => KStr ""
    | [k] => k
    | k :: rest =>
        if truthy k then KStr (under (show_key k) +++ sep +++ show_key (flat_key rest)) else flat_key rest
    end.

  Lemma flat_key_cons k p : p <> [] -> flat_key (k :: p) = prefix sep k (flat_key p).
  Proof. destruct p; [contradiction|]. reflexivity. Qed.

  (** Extending a dictionary by keys that are not in it *)
  Lemma fold_dset_fresh (l : list (key * V)) acc : NoDup (dkeys acc ++ map fst l) -> fold_left (fun acc e => dset acc (fst e) (snd e)) l acc = acc ++ l.
  Proof.
    revert acc. induction l as [|[k v] l IH]; intros acc H; [rewrite app_nil_r; reflexivity|]. cbn [fold_left fst snd map] in *.
    assert (~ In k (dkeys acc)) as Hk. { apply NoDup_remove_2 in H. intro Hi. apply H. apply in_or_app. left. exact Hi. }
    rewrite dset_fresh by exact Hk. rewrite IH; [rewrite <- app_assoc; reflexivity|]. unfold dkeys in *. rewrite map_app, <- app_assoc. exact H.
  Qed.

  Lemma fold_map_dset (f : key -> key) (l : list (key * V)) acc :
    fold_left (fun acc e => dset acc (f (fst e)) (snd e)) l acc = fold_left (fun acc e => dset acc (fst e) (snd e)) (map (fun e => (f (fst e), snd e)) l) acc.
  Proof. revert acc. induction l as [|e l IH]; intro acc; [reflexivity|]. cbn [fold_left map fst snd]. apply IH. Qed.

  Definition items (k : key) (t : tree V) : list (key * V) := map (fun l => (flat_key (k :: fst l), snd l)) (leaves t).

  Lemma items_node k kk vv r : items k (Node ((kk, vv) :: r)) = map (fun e => (prefix sep k (fst e), snd e)) (items kk vv) ++ items k (Node r).
  Proof. unfold items. cbn [leaves]. rewrite map_app, !map_map. f_equal. Qed.

  Section Over.
  Variable k : key.
  Fixpoint over (d : list (key * tree V)) (acc : dict key V) : dict key V :=
    match d with
    | [] => acc
    | (kk, vv) :: r => over r (fold_left (fun acc e => dset acc (prefix sep k (fst e)) (snd e)) (flat sep vv kk) acc)
    end.
  End Over.
  Lemma flat_over k d : flat sep (Node d) k = over k d [].
  Proof. reflexivity. Qed.

  Lemma flat_distinct t k : NoDup (map fst (items k t)) -> flat sep t k = items k t.
  Proof.
    revert k. induction t as [v|d IH] using tree_induction; intros k H; [reflexivity|].
    rewrite flat_over. enough (forall acc, NoDup (dkeys acc ++ map fst (items k (Node d))) ->
      over k d acc = acc ++ items k (Node d)) as G by (apply (G []); exact H).
    clear H. induction d as [|[kk vv] r IHr]; intros acc H; [cbn; rewrite app_nil_r; reflexivity|].
    cbn [over]. rewrite items_node in *. rewrite map_app, map_map in H. cbn [fst] in H.
    rewrite (IH kk vv (or_introl eq_refl)).
    2:{ apply NoDup_app_r, NoDup_app_l in H. rewrite <- (map_map fst (prefix sep k)) in H. apply NoDup_map_inv in H. exact H. }
    rewrite fold_map_dset, fold_dset_fresh; [rewrite IHr|].
    - rewrite <- app_assoc. reflexivity.
    - intros k' x Hx. apply (IH k' x). right. exact Hx.
    - unfold dkeys in *. rewrite map_app, map_map, <- app_assoc. exact H.
    - rewrite map_map. cbn [fst]. rewrite app_assoc in H. apply NoDup_app_l in H. exact H.
  Qed.

  (** C40.  If no two leaves of a report get the same key, the flattened report has exactly the leaves, in order, each under
      the key of its path. *)
  Theorem C40_flat (d : list (key * tree V)) : NoDup (map (fun l => flat_key (fst l)) (leaves (Node d))) ->
    flat_dict sep d = map (fun l => (flat_key (fst l), snd l)) (leaves (Node d)).
  Proof.
    intro H. unfold flat_dict. assert (forall l, In l (leaves (Node d)) -> flat_key (KStr "" :: fst l) = flat_key (fst l)) as E.
    { intros [p v] Hl. cbn [fst]. destruct p as [|k p]; [|reflexivity]. exfalso. clear H. cbn [leaves] in Hl. induction d as [|[k x] d IH]; [exact Hl|]. apply in_app_or in Hl as [Hl|Hl]; [|auto].
      apply in_map_iff in Hl as (l & El & _). discriminate. }
    rewrite flat_distinct; unfold items.
    - apply map_ext_in. intros l Hl. rewrite (E l Hl). reflexivity.
    - rewrite map_map. cbn [fst]. rewrite (map_ext_in _ (fun l => flat_key (fst l)) _ E). exact H.
  Qed.

  Lemma fold_dset_in (l : list (key * V)) acc : NoDup (dkeys acc) ->
    let r := fold_left (fun acc e => dset acc (fst e) (snd e)) l acc in
    NoDup (dkeys r) /\ (forall k, In k (dkeys r) <-> In k (dkeys acc) \/ In k (map fst l)) /\ (forall k v, In (k, v) r -> In (k, v) acc \/ In (k, v) l).
  Proof.
    cbv zeta. revert acc. induction l as [|[k v] l IH]; intros acc HN; cbn [fold_left map fst snd].
    - split; [exact HN|]. split; [intro; cbn; tauto|auto].
    - destruct (IH (dset acc k v) (NoDup_dset _ k v HN)) as (N & K & E). split; [exact N|]. split.
      + intro k'. rewrite K, In_dkeys_dset. cbn [In]. intuition congruence.
      + intros k' v' Hi. destruct (E k' v' Hi) as [H|H]; [|right; right; exact H].
        apply dget_In in H; [|apply NoDup_dset; exact HN]. rewrite dget_dset in H. destruct (eqb_spec k k') as [<-|Hk]; [injection H as <-; right; left; reflexivity|].
        left. apply dget_Some_In. exact H.
  Qed.

  Lemma flat_in t k : NoDup (dkeys (flat sep t k)) /\ (forall x, In x (dkeys (flat sep t k)) <-> In x (map fst (items k t))) /\ (forall x v, In (x, v) (flat sep t k) -> In (x, v) (items k t)).
  Proof.
    revert k. induction t as [v|d IH] using tree_induction; intros k.
    - cbn. split; [constructor; [intros []|constructor]|]. split; [tauto|auto].
    - rewrite flat_over. enough (forall acc, NoDup (dkeys acc) -> let r :=
      over k d acc in NoDup (dkeys r) /\ (forall x, In x (dkeys r) <-> In x (dkeys acc) \/ In x (map fst (items k (Node d)))) /\ (forall x v, In (x, v) r -> In (x, v) acc \/ In (x, v) (items k (Node d)))) as G.
      { destruct (G [] ltac:(constructor)) as (N & K & E). split; [exact N|]. split; [intro x; rewrite K; cbn; tauto|]. intros x v Hx. destruct (E x v Hx) as [[]|H]; exact H. }
      cbv zeta. induction d as [|[kk vv] r IHr]; intros acc HN.
      { split; [exact HN|]. split; [intro; cbn; tauto|auto]. }
      cbn [over]. rewrite items_node. rewrite fold_map_dset.
      destruct (IH kk vv (or_introl eq_refl) kk) as (CN & CK & CE).
      destruct (fold_dset_in (map (fun e => (prefix sep k (fst e), snd e)) (flat sep vv kk)) acc HN) as (FN & FK & FE).
      destruct (IHr (fun k' x H => IH k' x (or_intror H)) _ FN) as (RN & RK & RE). split; [exact RN|]. split.
      + intro x. rewrite RK, FK, map_app, in_app_iff, !map_map. cbn [fst].
        assert (In x (map (fun e => prefix sep k (fst e)) (flat sep vv kk)) <-> In x (map (fun e => prefix sep k (fst e)) (items kk vv))) as ->; [|tauto].
        rewrite <- !(map_map fst (prefix sep k)), !in_map_iff. split; intros (y & Ey & Hy); exists y; (split; [exact Ey|]); apply CK; exact Hy.
      + intros x v Hx. destruct (RE x v Hx) as [H|H]; [|right; apply in_or_app; right; exact H]. destruct (FE x v H) as [H'|H']; [left; exact H'|]. right. apply in_or_app. left.
        apply in_map_iff in H' as ([y w] & Ey & Hy). apply in_map_iff. exists (y, w). split; [exact Ey|]. apply CE. exact Hy.
  Qed.

  (** C40.  In every case the keys of the flattened report are the keys of the paths of the leaves, each once, and the
      value of a key is a leaf with that key. *)
  Theorem C40_keys (d : list (key * tree V)) : let r := flat_dict sep d in
    NoDup (dkeys r) /\
    (forall x, In x (dkeys r) <-> exists l, In l (leaves (Node d)) /\ flat_key (fst l) = x) /\
    (forall x v, dget r x = Some v -> exists p, In (p, v) (leaves (Node d)) /\ flat_key p = x).
  Proof.
    cbv zeta. unfold flat_dict. destruct (flat_in (Node d) (KStr "")) as (N & K & E).
    assert (forall l, In l (leaves (Node d)) -> flat_key (KStr "" :: fst l) = flat_key (fst l)) as EQ.
    { intros [p v] Hl. cbn [fst]. destruct p as [|k p]; [|reflexivity]. exfalso. clear N K E. cbn [leaves] in Hl. induction d as [|[k x] d IH]; [exact Hl|]. apply in_app_or in Hl as [Hl|Hl]; [|auto].
      apply in_map_iff in Hl as (l & El & _). discriminate. }
    split; [exact N|]. split.
    - intro x. rewrite K. unfold items. rewrite map_map, in_map_iff. cbn [fst]. split; intros (l & H1 & H2); exists l; [rewrite <- (EQ l H2); auto|rewrite (EQ l H1); auto].
    - intros x v Hx. apply dget_Some_In in Hx. apply E in Hx. unfold items in Hx. apply in_map_iff in Hx as ([p w] & El & Hl). injection El as E1 E2. subst w. exists p. split; [exact Hl|]. rewrite <- E1. symmetry. apply (EQ (p, v) Hl).
  Qed.
End Flat.

Example C40_example : flat_dict "_" [(KStr "a b", Node [(KStr "c d", Leaf 1); (KInt 2, Node [(KStr "e", Leaf 2)])]); (KInt 7, Leaf 3)] =
  [(KStr "a_b_c d", 1); (KStr "a_b_2_e", 2); (KInt 7, 3)].
Proof. reflexivity. Qed.

(** Different paths can get the same key, and then an entry of the report is lost: *)
Theorem C40_lost_refuted : exists d : list (key * tree nat), length (leaves (Node d)) = 2 /\ length (flat_dict "_" d) = 1.
Proof. exists [(KStr "a", Node [(KStr "b_c", Leaf 1)]); (KStr "a_b", Node [(KStr "c", Leaf 2)])]. split; reflexivity. Qed.

(** The name of a dictionary under the key 0 is left out, so that its entries can replace others: *)
Theorem C40_zero_refuted : exists d : list (key * tree nat), In ([KStr "mean"], 5) (leaves (Node d)) /\ dget (flat_dict "_" d) (KStr "mean") = Some 7.
Proof. exists [(KStr "mean", Leaf 5); (KInt 0, Node [(KStr "mean", Leaf 7)])]. split; [left; reflexivity|reflexivity]. Qed.

(** Empty dictionaries vanish: *)
Theorem C40_empty_refuted : exists d : list (key * tree nat), d <> [] /\ flat_dict "_" d = [].
Proof. exists [(KStr "times", Node [])]. split; [discriminate|reflexivity]. Qed.
