(** Property C69: keys collected from AVRO records. *)
From Verif Require Import PyCommon PyDict PyEq ListFacts JsonModel JsonProps.
Local Open Scope nat_scope.

Section Avro.
  Context {A V : Type} {EA : EqDecB A}.
  Notation key := (list A).
  Notation json := (json A V).

  (** Paths of keys that a record has *)
  Inductive has_key : json -> list key -> Prop :=
  | has_here d k x : In (k, x) d -> has_key (JDict d) [k]
  | has_inside d k x p : In (k, x) d -> has_key x p -> has_key (JDict d) (k :: p).

  (** Paths of keys that lead to something other than a dictionary *)
  Inductive value_at : json -> list key -> Prop :=
  | value_here d k x : In (k, x) d -> is_dict x = false -> value_at (JDict d) [k]
  | value_inside d k x p : In (k, x) d -> value_at x p -> value_at (JDict d) (k :: p).

  (** Paths of the collected keys *)
  Fixpoint collected (nk : keys) (p : list key) : Prop :=
    match p, nk with
    | [], _ => False
    | k :: r, KDict d => match dget d k with Some n => r = [] \/ collected n r | None => False end
    | _, KLeaf => False
    end.

  Lemma has_key_cons d k x p : has_key (JDict ((k, x) :: d)) p <-> (p = [k] \/ (exists q, p = k :: q /\ has_key x q)) \/ has_key (JDict d) p.
  Proof.
    split.
    - intro H. inversion H as [? k' y Hin|? k' y q Hin Hq]; subst.
      + destruct Hin as [E|Hin]; [injection E as <- <-; left; left; reflexivity|right; econstructor; exact Hin].
      + destruct Hin as [E|Hin]; [injection E as <- <-; left; right; exists q; split; [reflexivity|exact Hq]|right; econstructor; [exact Hin|exact Hq]].
    - intros [[->|(q & -> & Hq)]|H].
      + econstructor; left; reflexivity.
      + econstructor; [left; reflexivity|exact Hq].
      + inversion H as [? k' y Hin|? k' y q Hin Hq]; subst; [econstructor; right; exact Hin|econstructor; [right; exact Hin|exact Hq]].
  Qed.

  Lemma no_keys x p : is_dict x = false -> ~ has_key x p.
  Proof. intros E H. inversion H; subst; discriminate. Qed.

  Lemma collected_dset d k n p : collected (KDict (dset d k n)) p <-> match p with [] => False | k' :: r => if PyDict.eqb k k' then r = [] \/ collected n r else collected (KDict d) p end.
  Proof. destruct p as [|k' r]; cbn [collected]; [reflexivity|]. rewrite dget_dset. destruct (PyDict.eqb k k'); reflexivity. Qed.

  Lemma nested_key_spec j : forall nk nk', nested_key j nk = Ok nk' -> forall p, collected nk' p <-> collected nk p \/ has_key j p.
  Proof.
    induction j as [v|line IH|l IH] using json_induction; intros nk nk' E; [discriminate| |discriminate]. cbn [nested_key] in E.
    revert nk E. induction line as [|[k x] line IHl]; intros nk E p.
    - injection E as ->. split; [tauto|]. intros [H|H]; [exact H|]. inversion H; contradiction.
    - specialize (IHl ltac:(intros k' x' Hx; apply (IH k' x'); right; exact Hx)). rewrite has_key_cons. destruct nk as [|d]; [discriminate|].
      assert (forall n0 nk1, bind (nested_key x n0) (fun n => Ok (KDict (dset d k n))) = Ok nk1 -> (forall r, collected n0 r <-> match dget d k with Some old => collected old r | None => False end) ->
        forall p, collected nk1 p <-> collected (KDict d) p \/ (p = [k] \/ (exists q, p = k :: q /\ has_key x q))) as Gd.
      { intros n0 nk1 E1 H0 q. destruct (nested_key x n0) as [n|] eqn:En; cbn [bind] in E1; [|discriminate]. injection E1 as <-. rewrite collected_dset. destruct q as [|k' r]; [cbn; split; [tauto|]; intros [[]|[F|(q & F & _)]]; discriminate|].
        pose proof (IH k x (or_introl eq_refl) n0 n En r) as Gx. cbn [collected]. destruct (PyDict.eqb_spec k k') as [<-|N].
        - rewrite Gx, H0. destruct (dget d k) as [old|]; [split; [intros [->|[C|C]]; [left; left; reflexivity|left; right; exact C|right; right; exists r; split; [reflexivity|exact C]]|]|].
          + intros [[->|C]|[F|(q & F & Hq)]]; [left; reflexivity|right; left; exact C|injection F as ->; left; reflexivity|]. injection F as ->. right. right. exact Hq.
          + split; [intros [->|[[]|C]]; [right; left; reflexivity|right; right; exists r; split; [reflexivity|exact C]]|]. intros [[]|[F|(q & F & Hq)]]; [injection F as ->; left; reflexivity|]. injection F as ->. right. right. exact Hq.
        - split; [tauto|]. intros [C|[F|(q & F & _)]]; [exact C| |]; injection F; intros; exfalso; apply N; congruence. }
      assert (exists nk1, (fix over (line : list (key * json)) (nk : keys) : result keys :=
           match line with
           | [] => Ok nk
           | (k, x) :: r =>
               match nk with
               | KLeaf => Err TypeError
               | KDict d =>
                   bind (match dget d k with
                         | Some old => if is_dict x then bind (nested_key x old) (fun n => Ok (KDict (dset d k n))) else Ok nk
                         | None => if is_dict x then bind (nested_key x (KDict [])) (fun n => Ok (KDict (dset d k n)))
                                   else Ok (KDict (dset d k KLeaf))
                         end) (over r)
               end
           end) line nk1 = Ok nk' /\ (forall p, collected nk1 p <-> collected (KDict d) p \/ (p = [k] \/ (exists q, p = k :: q /\ has_key x q)))) as (nk1 & E1 & H1).
      { destruct (dget d k) as [old|] eqn:Go; destruct (is_dict x) eqn:Dx.
        - destruct (nested_key x old) as [n|] eqn:En; cbn [bind] in E; [|discriminate]. exists (KDict (dset d k n)). split; [exact E|]. apply (Gd old); [rewrite En; reflexivity|reflexivity].
        - exists (KDict d). split; [exact E|]. intro q. split; [tauto|]. intros [C|[->|(r & -> & Hr)]]; [exact C|cbn [collected]; rewrite Go; left; reflexivity|exfalso; exact (no_keys x r Dx Hr)].
        - destruct (nested_key x (KDict [])) as [n|] eqn:En; cbn [bind] in E; [|discriminate]. exists (KDict (dset d k n)). split; [exact E|]. apply (Gd (KDict [])); [rewrite En; reflexivity|]. intro r. destruct r; reflexivity.
        - exists (KDict (dset d k KLeaf)). split; [exact E|]. intro q. rewrite collected_dset. destruct q as [|k' r]; [cbn; split; [tauto|]; intros [[]|[F|(r & F & _)]]; discriminate|]. destruct (PyDict.eqb_spec k k') as [<-|N].
          + cbn [collected]. rewrite Go. split; [intros [->|C]; [right; left; reflexivity|destruct r; destruct C]|]. intros [[]|[F|(q & F & Hq)]]; [injection F as ->; left; reflexivity|exfalso; exact (no_keys x q Dx Hq)].
          + split; [tauto|]. intros [C|[F|(q & F & _)]]; [exact C| |]; injection F; intros; exfalso; apply N; congruence. }
      rewrite (IHl nk1 E1 p), (H1 p). tauto.
  Qed.

  (** The keys collected are the keys of all records. *)
  Theorem C69_keys lines nk : nested_keys lines = Ok nk -> forall p, collected nk p <-> exists l, In l lines /\ has_key l p.
  Proof.
    unfold nested_keys. assert (forall lines nk0 nk, fold_left (fun acc l => bind acc (nested_key l)) lines (Ok nk0) = Ok nk -> forall p, collected nk p <-> collected nk0 p \/ exists l, In l lines /\ has_key l p) as G.
    { clear. induction lines as [|l lines IH]; intros nk0 nk E p; cbn [fold_left] in E.
      - injection E as <-. split; [tauto|]. intros [C|(l & [] & _)]; exact C.
      - cbn [bind] in E. destruct (nested_key l nk0) as [nk1|e] eqn:El.
        + rewrite (IH nk1 nk E p), (nested_key_spec l nk0 nk1 El p). split; [intros [[C|C]|(l' & Hl & C)]; [left; exact C|right; exists l; split; [left; reflexivity|exact C]|right; exists l'; split; [right; exact Hl|exact C]]|].
          intros [C|(l' & [<-|Hl] & C)]; [left; left; exact C|left; right; exact C|right; exists l'; split; [exact Hl|exact C]].
        + exfalso. clear -E. induction lines as [|l' lines IH]; cbn in E; [discriminate|auto]. }
    intros E p. rewrite (G _ _ _ E p). split; [intros [C|C]; [destruct p; destruct C|exact C]|tauto].
  Qed.

  Fixpoint leaf_at (nk : keys) (p : list key) : Prop :=
    match p with
    | [] => nk = KLeaf
    | k :: r => match nk with KDict d => match dget d k with Some n => leaf_at n r | None => False end | KLeaf => False end
    end.

  Lemma nested_key_ok j : is_dict j = true -> forall nk,
    (forall p k q, leaf_at nk p -> ~ has_key j (p ++ k :: q)) -> (forall p k q, value_at j p -> ~ has_key j (p ++ k :: q)) ->
    exists nk', nested_key j nk = Ok nk' /\ forall p, leaf_at nk' p -> leaf_at nk p \/ value_at j p.
  Proof.
    induction j as [v|line IH|l IH] using json_induction; intro Dj; [discriminate| |discriminate]. clear Dj. cbn [nested_key].
    induction line as [|[k x] line IHl]; intros nk H1 H2.
    - exists nk. split; [reflexivity|]. intros p L. left. exact L.
    - destruct nk as [|d].
      { exfalso. apply (H1 [] k [] eq_refl). cbn [app]. econstructor. left. reflexivity. }
      assert (exists nk1, match dget d k with
                         | Some old => if is_dict x then bind (nested_key x old) (fun n => Ok (KDict (dset d k n))) else Ok (KDict d)
                         | None => if is_dict x then bind (nested_key x (KDict [])) (fun n => Ok (KDict (dset d k n)))
                                   else Ok (KDict (dset d k KLeaf))
                         end = Ok nk1 /\ forall p, leaf_at nk1 p -> leaf_at (KDict d) p \/ value_at (JDict ((k, x) :: line)) p) as (nk1 & E1 & L1).
      { assert (forall n0, (forall r, leaf_at n0 r -> match dget d k with Some old => leaf_at old r | None => False end) -> is_dict x = true ->
          exists nk1, bind (nested_key x n0) (fun n => Ok (KDict (dset d k n))) = Ok nk1 /\ forall p, leaf_at nk1 p -> leaf_at (KDict d) p \/ value_at (JDict ((k, x) :: line)) p) as Gd.
        { intros n0 Hn0 Dx. destruct (IH k x (or_introl eq_refl) Dx n0) as (n & En & Ln).
          - intros p k' q L C. apply Hn0 in L. apply (H1 (k :: p) k' q); [cbn [leaf_at]; destruct (dget d k); [exact L|destruct L]|]. cbn [app]. econstructor; [left; reflexivity|exact C].
          - intros p k' q L C. apply (H2 (k :: p) k' q); [econstructor; [left; reflexivity|exact L]|]. cbn [app]. econstructor; [left; reflexivity|exact C].
          - rewrite En. exists (KDict (dset d k n)). split; [reflexivity|]. intros p L. destruct p as [|k' p]; [discriminate L|]. cbn [leaf_at] in L. rewrite dget_dset in L. destruct (PyDict.eqb_spec k k') as [<-|N]; [|left; exact L].
            destruct (Ln p L) as [L'|L']; [apply Hn0 in L'; left; cbn [leaf_at]; destruct (dget d k); [exact L'|destruct L']|right; econstructor; [left; reflexivity|exact L']]. }
        destruct (dget d k) as [old|] eqn:Go; destruct (is_dict x) eqn:Dx.
        - apply Gd; [intros r L; exact L|reflexivity].
        - exists (KDict d). split; [reflexivity|]. intros p L. left. exact L.
        - apply Gd; [intros r L; destruct r; [discriminate L|destruct L]|reflexivity].
        - exists (KDict (dset d k KLeaf)). split; [reflexivity|]. intros p L. destruct p as [|k' p]; [discriminate L|]. cbn [leaf_at] in L. rewrite dget_dset in L. destruct (PyDict.eqb_spec k k') as [<-|N]; [|left; exact L].
          right. destruct p as [|? ?]; [|destruct L]. econstructor; [left; reflexivity|exact Dx]. }
      rewrite E1. cbn [bind]. destruct (IHl ltac:(intros k' x' Hx; apply (IH k' x'); right; exact Hx) nk1) as (nk' & E' & L').
      + intros p k' q L C. assert (has_key (JDict ((k, x) :: line)) (p ++ k' :: q)) as C' by (apply has_key_cons; right; exact C). destruct (L1 p L) as [L0|L0]; [exact (H1 p k' q L0 C')|exact (H2 p k' q L0 C')].
      + intros p k' q L C. apply (H2 p k' q); [|apply has_key_cons; right; exact C]. inversion L as [? ? y Hin Dy|? ? y r Hin Hr]; subst; [econstructor; [right; exact Hin|exact Dy]|econstructor; [right; exact Hin|exact Hr]].
      + exists nk'. split; [exact E'|]. intros p L. destruct (L' p L) as [L0|L0]; [exact (L1 p L0)|right]. inversion L0 as [? ? y Hin Dy|? ? y r Hin Hr]; subst; [econstructor; [right; exact Hin|exact Dy]|econstructor; [right; exact Hin|exact Hr]].
  Qed.

  (** The keys can be collected if no key leads to a value in one record and to a dictionary in another. *)
  Theorem C69_succeeds lines :
    (forall l, In l lines -> is_dict l = true) ->
    (forall l1 l2 p k q, In l1 lines -> In l2 lines -> value_at l1 p -> ~ has_key l2 (p ++ k :: q)) ->
    exists nk, nested_keys lines = Ok nk.
  Proof.
    intros Hd Hc. unfold nested_keys. assert (forall lines nk0, (forall l, In l lines -> is_dict l = true) -> (forall l1 l2 p k q, In l1 lines -> In l2 lines -> value_at l1 p -> ~ has_key l2 (p ++ k :: q)) ->
      (forall l p k q, In l lines -> leaf_at nk0 p -> ~ has_key l (p ++ k :: q)) -> exists nk, fold_left (fun acc l => bind acc (nested_key l)) lines (Ok nk0) = Ok nk) as G.
    { clear. induction lines as [|l lines IH]; intros nk0 Hd Hc H0; cbn [fold_left]; [eauto|]. cbn [bind].
      destruct (nested_key_ok l (Hd l (or_introl eq_refl)) nk0) as (nk1 & E & L); [intros p k q; apply H0; left; reflexivity|intros p k q; apply (Hc l l); left; reflexivity|]. rewrite E. apply IH.
      - intros l' Hl. apply Hd. right. exact Hl.
      - intros l1 l2 p k q I1 I2. apply (Hc l1 l2); right; assumption.
      - intros l' p k q Hl Lp. destruct (L p Lp) as [L0|L0]; [apply (H0 l' p k q (or_intror Hl) L0)|apply (Hc l l' p k q (or_introl eq_refl) (or_intror Hl) L0)]. }
    apply G; [exact Hd|exact Hc|]. intros l p k q _ L. destruct p; [discriminate L|destruct L].
  Qed.
End Avro.

Example C69_example : nested_keys [JDict [([1], JVal 1)]; JDict [([2], JDict [([3], JVal 3)]); ([1], JVal 5)]; JDict [([2], JDict [([4], JVal 0)])]] =
  Ok (KDict [([1], KLeaf); ([2], KDict [([3], KLeaf); ([4], KLeaf)])]).
Proof. vm_compute. reflexivity. Qed.

(** A user expects the keys of any records.  If a key leads to a value in one record and to a dictionary in a later one,
    there is an error; in the other order there is none. *)
Theorem C69_any_records_refuted : ~ (forall (lines : list (json nat nat)), (forall l, In l lines -> is_dict l = true) -> exists nk, nested_keys lines = Ok nk).
Proof.
  intro H. destruct (H [JDict [([1], JVal 1)]; JDict [([1], JDict [([2], JVal 2)])]]) as [nk E]; [intros l [<-|[<-|[]]]; reflexivity|]. vm_compute in E. discriminate.
Qed.

Print Assumptions C69_keys.
Print Assumptions C69_succeeds.
