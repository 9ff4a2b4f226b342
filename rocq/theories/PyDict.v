(** Python dictionaries as association lists in insertion order.

    These are meanings of Python built-ins, not code of the repository. *)
From Verif Require Import PyCommon.

Class EqDecB (A : Type) := {
  eqb : A -> A -> bool;
  eqb_spec : forall x y, reflect (x = y) (eqb x y)
}.

Global Program Instance EqDecB_nat : EqDecB nat := {| eqb := Nat.eqb |}.
Next Obligation. apply Nat.eqb_spec. Defined.
Global Program Instance EqDecB_Z : EqDecB Z := {| eqb := Z.eqb |}.
Next Obligation. apply Z.eqb_spec. Defined.
Global Program Instance EqDecB_bool : EqDecB bool := {| eqb := Bool.eqb |}.
Next Obligation. apply Bool.eqb_spec. Defined.

Section Dict.
  Context {K V : Type} {E : EqDecB K}.

  Definition dict := list (K * V).

  (** [d.get(k)] *)
  Fixpoint dget (d : dict) (k : K) : option V :=
    match d with
    | [] => None
    | (k', v) :: r => if eqb k' k then Some v else dget r k
    end.

  (** [k in d] *)
  Definition dmem (d : dict) (k : K) : bool :=
    match dget d k with Some _ => true | None => false end.

  (** [d[k] = v]: overwrite in place, or append. *)
  Fixpoint dset (d : dict) (k : K) (v : V) : dict :=
    match d with
    | [] => [(k, v)]
    | (k', v') :: r => if eqb k' k then (k', v) :: r else (k', v') :: dset r k v
    end.

  (** [d.pop(k, None)] *)
  Fixpoint ddel (d : dict) (k : K) : dict :=
    match d with
    | [] => []
    | (k', v') :: r => if eqb k' k then r else (k', v') :: ddel r k
    end.

  Definition dkeys (d : dict) : list K := map fst d.
  Definition dvals (d : dict) : list V := map snd d.

  (** [d.update(e)] *)
  Definition dupdate (d e : dict) : dict := fold_left (fun d kv => dset d (fst kv) (snd kv)) e d.

  (** [k in l] for a list or set. *)
  Definition lmem (l : list K) (k : K) : bool := existsb (eqb k) l.
End Dict.
Arguments dict K V : clear implicits.

(** Number of occurrences in a list: the specification of counts. *)
Fixpoint occ {K} {E : EqDecB K} (v : K) (l : list K) : nat :=
  match l with
  | [] => 0
  | x :: r => (if eqb x v then 1 else 0) + occ v r
  end.

(** The distinct elements of a list, by first occurrence from the right. *)
Fixpoint distinct {K} {E : EqDecB K} (l : list K) : list K :=
  match l with
  | [] => []
  | x :: r => if lmem r x then distinct r else x :: distinct r
  end.

Section DictFacts.
  Context {K V : Type} {E : EqDecB K}.
  Implicit Types (d e : dict K V) (k : K) (v : V).

  Lemma eqb_refl k : eqb k k = true.
  Proof. destruct (eqb_spec k k); congruence. Qed.

  Lemma eqb_eq k k' : eqb k k' = true <-> k = k'.
  Proof. destruct (eqb_spec k k'); split; congruence. Qed.

  Lemma eqb_neq k k' : eqb k k' = false <-> k <> k'.
  Proof. destruct (eqb_spec k k'); split; congruence. Qed.

  Lemma dget_None d k : dget d k = None <-> ~ In k (dkeys d).
  Proof.
    induction d as [|[k' v'] d IH]; cbn; [tauto|].
    destruct (eqb_spec k' k) as [->|H].
    - split; [discriminate|tauto].
    - rewrite IH. tauto.
  Qed.

  Lemma dget_Some_In d k v : dget d k = Some v -> In (k, v) d.
  Proof.
    induction d as [|[k' v'] d IH]; cbn; [discriminate|].
    destruct (eqb_spec k' k) as [->|H]; [intro Hv; injection Hv as ->; auto|auto].
  Qed.

  Lemma dget_In d k v : NoDup (dkeys d) -> In (k, v) d -> dget d k = Some v.
  Proof.
    induction d as [|[k' v'] d IH]; cbn; intros Hn Hi; [tauto|].
    inversion Hn as [|? ? Hk Hd]; subst.
    destruct Hi as [Hi|Hi].
    - injection Hi as -> ->. rewrite eqb_refl. reflexivity.
    - destruct (eqb_spec k' k) as [->|H]; [|auto].
      exfalso. apply Hk. apply (in_map fst) in Hi. exact Hi.
  Qed.

  Lemma dmem_true d k : dmem d k = true <-> In k (dkeys d).
  Proof.
    unfold dmem. pose proof (dget_None d k) as H. destruct (dget d k) eqn:Eg.
    - split; [|reflexivity]. intros _. apply dget_Some_In in Eg. apply (in_map fst) in Eg. exact Eg.
    - split; [discriminate|]. intro Hi. exfalso. apply (proj1 H eq_refl Hi).
  Qed.

  Lemma dmem_false d k : dmem d k = false <-> ~ In k (dkeys d).
  Proof. rewrite <- dmem_true. destruct (dmem d k); split; congruence. Qed.

  Lemma dget_dset d k v k' : dget (dset d k v) k' = if eqb k k' then Some v else dget d k'.
  Proof.
    induction d as [|[k0 v0] d IH]; cbn.
    - destruct (eqb_spec k k'); reflexivity.
    - destruct (eqb_spec k0 k) as [->|H]; cbn.
      + destruct (eqb_spec k k'); reflexivity.
      + rewrite IH. destruct (eqb_spec k0 k') as [->|]; [|reflexivity].
        destruct (eqb_spec k k'); [congruence|reflexivity].
  Qed.

  Lemma dkeys_dset d k v :
    dkeys (dset d k v) = if dmem d k then dkeys d else dkeys d ++ [k].
  Proof.
    unfold dmem. induction d as [|[k0 v0] d IH]; cbn; [reflexivity|].
    destruct (eqb_spec k0 k) as [->|H]; cbn; [reflexivity|].
    unfold dkeys in IH. rewrite IH. destruct (dget d k); reflexivity.
  Qed.

  Lemma NoDup_snoc {A} (l : list A) x : NoDup l -> ~ In x l -> NoDup (l ++ [x]).
  Proof.
    intros H1 H2. apply NoDup_rev in H1. rewrite <- (rev_involutive (l ++ [x])).
    apply NoDup_rev. rewrite rev_app_distr. cbn. constructor; [|exact H1].
    rewrite <- in_rev. exact H2.
  Qed.

  Lemma NoDup_dset d k v : NoDup (dkeys d) -> NoDup (dkeys (dset d k v)).
  Proof.
    intro H. rewrite dkeys_dset. destruct (dmem d k) eqn:Em; [exact H|].
    apply NoDup_snoc; [exact H|]. apply dmem_false. exact Em.
  Qed.

  Lemma In_dkeys_dset d k v k' : In k' (dkeys (dset d k v)) <-> k' = k \/ In k' (dkeys d).
  Proof.
    rewrite dkeys_dset. destruct (dmem d k) eqn:Em.
    - apply dmem_true in Em. split; [auto|]. intros [->|]; auto.
    - rewrite in_app_iff. cbn. intuition.
  Qed.

  Lemma dget_ddel d k k' : NoDup (dkeys d) ->
    dget (ddel d k) k' = if eqb k k' then None else dget d k'.
  Proof.
    induction d as [|[k0 v0] d IH]; cbn; intro Hn.
    - destruct (eqb_spec k k'); reflexivity.
    - inversion Hn as [|? ? Hk Hd]; subst. destruct (eqb_spec k0 k) as [->|H]; cbn.
      + destruct (eqb_spec k k') as [->|]; [|reflexivity]. apply dget_None. exact Hk.
      + rewrite IH by exact Hd. destruct (eqb_spec k0 k') as [->|]; [|reflexivity].
        destruct (eqb_spec k k'); [congruence|reflexivity].
  Qed.

  Lemma dkeys_ddel_incl d k x : In x (dkeys (ddel d k)) -> In x (dkeys d).
  Proof.
    induction d as [|[k0 v0] d IH]; cbn; [auto|].
    destruct (eqb_spec k0 k); cbn; [auto|]. intros [->|H]; auto.
  Qed.

  Lemma NoDup_ddel d k : NoDup (dkeys d) -> NoDup (dkeys (ddel d k)).
  Proof.
    induction d as [|[k0 v0] d IH]; cbn; intro Hn; [constructor|].
    inversion Hn as [|? ? Hk Hd]; subst. destruct (eqb_spec k0 k); [exact Hd|].
    cbn. constructor; [|auto]. intro Hi. apply dkeys_ddel_incl in Hi. contradiction.
  Qed.

  Lemma lmem_In (l : list K) k : lmem l k = true <-> In k l.
  Proof.
    unfold lmem. rewrite existsb_exists. split.
    - intros (x & Hx & Ex). apply eqb_eq in Ex. subst. exact Hx.
    - intro H. exists k. split; [exact H|apply eqb_refl].
  Qed.

  Lemma lmem_false (l : list K) k : lmem l k = false <-> ~ In k l.
  Proof. rewrite <- lmem_In. destruct (lmem l k); split; congruence. Qed.

  Lemma occ_app k (l1 l2 : list K) : occ k (l1 ++ l2) = occ k l1 + occ k l2.
  Proof. induction l1; cbn; [reflexivity|]. rewrite IHl1. lia. Qed.

  Lemma occ_pos k (l : list K) : 0 < occ k l <-> In k l.
  Proof.
    induction l as [|x l IH]; cbn; [split; [lia|tauto]|].
    destruct (eqb_spec x k) as [->|H].
    - split; [auto|lia].
    - cbn. rewrite IH. split; [auto|]. intros [?|?]; [contradiction|assumption].
  Qed.

  Lemma occ_zero k (l : list K) : occ k l = 0 <-> ~ In k l.
  Proof. rewrite <- occ_pos. lia. Qed.

  Lemma distinct_In k (l : list K) : In k (distinct l) <-> In k l.
  Proof.
    induction l as [|x l IH]; cbn; [tauto|].
    destruct (lmem l x) eqn:Em; cbn; rewrite IH; [|tauto].
    apply lmem_In in Em. split; [auto|]. intros [->|H]; auto.
  Qed.

  Lemma distinct_NoDup (l : list K) : NoDup (distinct l).
  Proof.
    induction l as [|x l IH]; cbn; [constructor|].
    destruct (lmem l x) eqn:Em; [exact IH|]. constructor; [|exact IH].
    rewrite distinct_In. apply lmem_false. exact Em.
  Qed.

  Lemma distinct_length (l ks : list K) :
    NoDup ks -> (forall k, In k ks <-> In k l) -> length ks = length (distinct l).
  Proof.
    intros Hn Hi. apply Nat.le_antisymm; apply NoDup_incl_length; auto.
    - intros k Hk. apply distinct_In, Hi. exact Hk.
    - apply distinct_NoDup.
    - intros k Hk. apply Hi, distinct_In. exact Hk.
  Qed.
End DictFacts.
