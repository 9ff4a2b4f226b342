(** Property C68: records made from flat columns are nested again. *)
From Coq Require Import Permutation.
From Verif Require Import PyCommon PyDict PyEq ListFacts JsonModel JsonProps.
From Verif Require ConfProps.
Local Open Scope nat_scope.

(** ** Dictionaries as bags of items *)
Section Bags.
  Context {K X : Type} {EK : EqDecB K}.
  Implicit Types (d : dict K X) (k : K).

  Lemma ddel_absent d k : ~ In k (dkeys d) -> ddel d k = d.
  Proof.
    induction d as [|[k' x'] d IH]; intro N; cbn [ddel]; [reflexivity|]. destruct (PyDict.eqb_spec k' k) as [->|]; [exfalso; apply N; left; reflexivity|].
    f_equal. apply IH. intro H. apply N. right. exact H.
  Qed.

  Lemma dget_perm d k x : NoDup (dkeys d) -> dget d k = Some x -> Permutation d ((k, x) :: ddel d k).
  Proof.
    induction d as [|[k' x'] d IH]; intros ND G; cbn [dget ddel] in *; [discriminate|]. inversion ND as [|? ? N ND']; subst. destruct (PyDict.eqb_spec k' k) as [->|Nk].
    - injection G as ->. reflexivity.
    - rewrite perm_swap. constructor. apply IH; assumption.
  Qed.

  Lemma dset_perm d k x : NoDup (dkeys d) -> Permutation (dset d k x) ((k, x) :: ddel d k).
  Proof.
    induction d as [|[k' x'] d IH]; intros ND; cbn [dset ddel]; [reflexivity|]. inversion ND as [|? ? N ND']; subst. destruct (PyDict.eqb_spec k' k) as [->|Nk].
    - reflexivity.
    - rewrite perm_swap. constructor. apply IH; assumption.
  Qed.
End Bags.

Section Nest.
  Context {A V : Type} {EA : EqDecB A}.
  Notation key := (list A).
  Notation json := (json A V).
  Variable dot : A.
  Variable is_null : V -> bool.
  Notation split_first := (split_first dot).
  Notation nest := (nest dot is_null).

  (** ** Splitting keys *)
  Fixpoint split (k : key) : list key :=
    match k with
    | [] => [[]]
    | c :: r => if PyDict.eqb c dot then [] :: split r
                else match split r with p :: ps => (c :: p) :: ps | [] => [[c]] end
    end.

  Lemma split_ne k : split k <> [].
  Proof. induction k as [|c k IH]; cbn [split]; [discriminate|]. destruct (PyDict.eqb c dot); [discriminate|]. destruct (split k); discriminate. Qed.

  Lemma split_join k : join [dot] (split k) = k.
  Proof.
    induction k as [|c k IH]; cbn [split]; [reflexivity|]. destruct (PyDict.eqb_spec c dot) as [->|N].
    - pose proof (split_ne k). destruct (split k) as [|p ps]; [contradiction|]. cbn [join app] in *. rewrite IH. reflexivity.
    - pose proof (split_ne k). destruct (split k) as [|p ps]; [contradiction|]. destruct ps as [|p2 ps]; cbn [join app] in *; rewrite IH; reflexivity.
  Qed.

  Lemma split_dotfree k : Forall (fun p => ~ In dot p) (split k).
  Proof.
    induction k as [|c k IH]; cbn [split]; [constructor; [intros []|constructor]|]. destruct (PyDict.eqb_spec c dot) as [->|N]; [constructor; [intros []|exact IH]|].
    pose proof (split_ne k). destruct (split k) as [|p ps]; [contradiction|]. inversion IH as [|? ? Hp Hps]; subst. constructor; [|exact Hps]. intros [E|H']; [exact (N E)|exact (Hp H')].
  Qed.

  Lemma split_free k : ~ In dot k -> split k = [k].
  Proof.
    induction k as [|c k IH]; intro N; cbn [split]; [reflexivity|]. destruct (PyDict.eqb_spec c dot) as [->|]; [exfalso; apply N; left; reflexivity|]. rewrite IH; [reflexivity|]. intro H. apply N. right. exact H.
  Qed.

  Lemma join_split p : p <> [] -> Forall (fun q => ~ In dot q) p -> split (join [dot] p) = p.
  Proof.
    induction p as [|q p IH]; intros Hne Hf; [contradiction|]. inversion Hf as [|? ? Hq Hp]; subst. destruct p as [|q2 p]; [cbn [join]; apply split_free; exact Hq|].
    specialize (IH ltac:(discriminate) Hp). cbn [join] in *. clear Hne Hf. revert IH. generalize (match p with [] => q2 | _ => q2 ++ [dot] ++ join [dot] p end) as r. intros r IH. change ([dot] ++ r) with (dot :: r).
    induction q as [|c q IHq]; cbn [app split].
    - rewrite eqb_refl. rewrite IH. reflexivity.
    - destruct (PyDict.eqb_spec c dot) as [->|N]; [exfalso; apply Hq; left; reflexivity|]. rewrite IHq; [reflexivity|]. intro H. apply Hq. right. exact H.
  Qed.

  Lemma split_first_None k : split_first k = None <-> ~ In dot k.
  Proof.
    induction k as [|c k IH]; cbn [JsonModel.split_first]; [split; [intros _ []|reflexivity]|]. destruct (PyDict.eqb_spec c dot) as [->|N]; [split; [discriminate|intro H; exfalso; apply H; left; reflexivity]|].
    destruct (split_first k) as [[a b]|].
    - split; [discriminate|]. intro H. exfalso. assert (~ In dot k) as H' by (intro; apply H; right; assumption). apply IH in H'. discriminate.
    - split; [|reflexivity]. intros _ [E|H]; [exact (N E)|]. apply IH in H; [exact H|reflexivity].
  Qed.

  Lemma split_first_Some k : forall a b, split_first k = Some (a, b) -> split k = a :: split b /\ ~ In dot a /\ k = a ++ dot :: b.
  Proof.
    induction k as [|c k IH]; cbn [JsonModel.split_first split]; intros a b E; [discriminate|]. destruct (PyDict.eqb_spec c dot) as [->|N].
    - injection E as <- <-. split; [reflexivity|]. split; [intros []|reflexivity].
    - destruct (split_first k) as [[a' b']|]; [|discriminate]. injection E as <- <-. destruct (IH a' b' eq_refl) as (I1 & I2 & I3). rewrite I1, I3. split; [reflexivity|]. split; [|reflexivity].
      intros [F|F]; [exact (N F)|exact (I2 F)].
  Qed.

  (** ** Paths of the values *)
  Definition pre (p : list key) (e : list key * json) : list key * json := (p ++ fst e, snd e).
  Fixpoint ends (x : json) : list (list key * json) :=
    match x with
    | JDict d => (fix over (d : list (key * json)) := match d with [] => [] | (k, y) :: r => map (pre (split k)) (ends y) ++ over r end) d
    | _ => [([], x)]
    end.
  Definition dends (d : dict key json) : list (list key * json) := concat (map (fun kx => map (pre (split (fst kx))) (ends (snd kx))) d).

  Lemma ends_dict d : ends (JDict d) = dends d.
  Proof. cbn [ends]. unfold dends. induction d as [|[k y] d IH]; [reflexivity|]. cbn [map concat fst snd]. rewrite IH. reflexivity. Qed.

  Lemma dends_perm d1 d2 : Permutation d1 d2 -> Permutation (dends d1) (dends d2).
  Proof.
    unfold dends. induction 1 as [|e l1 l2 H IH|e1 e2 l|l1 l2 l3 H1 IH1 H2 IH2]; [reflexivity|cbn; apply Permutation_app_head; exact IH| |rewrite IH1; exact IH2].
    cbn [map concat]. rewrite !app_assoc. apply Permutation_app_tail, Permutation_app_comm.
  Qed.

  Lemma dends_cons k x d : dends ((k, x) :: d) = map (pre (split k)) (ends x) ++ dends d.
  Proof. reflexivity. Qed.

  Definition is_leaf (x : json) : Prop := match x with JDict _ => False | _ => True end.
  Lemma ends_leaf x : is_leaf x -> ends x = [([], x)].
  Proof. destruct x; [reflexivity|intros []|reflexivity]. Qed.

  (** ** No path leads through another *)
  Definition apart (p q : list key) : Prop := (forall r, q <> p ++ r) /\ (forall r, p <> q ++ r).
  Lemma apart_sym p q : apart p q -> apart q p.
  Proof. intros [H1 H2]. split; assumption. Qed.

  Inductive free : list (list key) -> Prop :=
  | free_nil : free []
  | free_cons p l : (forall q, In q l -> apart p q) -> free l -> free (p :: l).

  Lemma free_perm l1 l2 : Permutation l1 l2 -> free l1 -> free l2.
  Proof.
    induction 1 as [|p l1 l2 H IH|p q l|l1 l2 l3 H1 IH1 H2 IH2]; intro F; [constructor| | |auto].
    - inversion F as [|? ? Hp Hl]; subst. constructor; [|auto]. intros q Hq. apply Hp. apply (Permutation_in q (Permutation_sym H)). exact Hq.
    - inversion F as [|? ? Hp Hl]; subst. inversion Hl as [|? ? Hq Hl']; subst. constructor; [|constructor; [|exact Hl']].
      + intros r [<-|Hr]; [apply apart_sym, Hp; left; reflexivity|apply Hq; exact Hr].
      + intros r Hr. apply Hp. right. exact Hr.
  Qed.

  Lemma free_app_l l1 l2 : free (l1 ++ l2) -> free l1.
  Proof. induction l1 as [|p l1 IH]; cbn; intro F; [constructor|]. inversion F as [|? ? Hp Hl]; subst. constructor; [intros q Hq; apply Hp, in_or_app; left; exact Hq|auto]. Qed.

  Lemma free_strip (a : key) l : free (map (cons a) l) -> free l.
  Proof.
    induction l as [|p l IH]; cbn; intro F; [constructor|]. inversion F as [|? ? Hp Hl]; subst. constructor; [|auto]. intros q Hq. destruct (Hp (a :: q) (in_map _ _ _ Hq)) as [H1 H2].
    split; intros r E; [apply (H1 r)|apply (H2 r)]; cbn; rewrite E; reflexivity.
  Qed.

  Notation fsts l := (map (@fst (list key) json) l).
  Lemma fsts_pre1 a l : fsts (map (pre [a]) l) = map (cons a) (fsts l).
  Proof. rewrite !map_map. apply map_ext. intros [p x]. reflexivity. Qed.

  (** ** Nested dictionaries *)
  Inductive nested : json -> Prop :=
  | nested_leaf x : is_leaf x -> nested x
  | nested_dict d : d <> [] -> NoDup (dkeys d) -> (forall k x, In (k, x) d -> ~ In dot k /\ nested x) -> nested (JDict d).

  Lemma nested_ends x : nested x -> ends x <> [].
  Proof.
    induction x as [v|d IH|l IH] using json_induction; intro N; [discriminate| |discriminate]. inversion N as [? L|? Hne ND Hd]; subst; [destruct L|]. destruct d as [|[k x] d]; [contradiction|].
    rewrite ends_dict, dends_cons. destruct (Hd k x (or_introl eq_refl)) as [_ Hx]. specialize (IH k x (or_introl eq_refl) Hx). destruct (ends x); [contradiction|discriminate].
  Qed.

  (** Dictionaries whose keys are yet to be split: the values of keys with separator are no dictionaries. *)
  Definition ready (d : dict key json) : Prop :=
    NoDup (dkeys d) /\ (forall k x, In (k, x) d -> nested x /\ (In dot k -> is_leaf x)) /\ free (fsts (dends d)).

  Definition done (d : dict key json) : Prop := NoDup (dkeys d) /\ forall k x, In (k, x) d -> ~ In dot k /\ nested x.

  Lemma In_ddel (d : dict key json) k k' x : In (k', x) (ddel d k) -> In (k', x) d.
  Proof. induction d as [|[k2 x2] d IH]; cbn [ddel]; [intros []|]. destruct (PyDict.eqb k2 k); [intro H; right; try exact H; auto|]. intros [E|H]; [left; exact E|right; auto]. Qed.

  Lemma ddel_gone (d : dict key json) k : NoDup (dkeys d) -> ~ In k (dkeys (ddel d k)).
  Proof.
    intros ND H. apply in_map_iff in H. destruct H as [[k' x] [E H]]. cbn in E. subst k'. pose proof (dget_ddel d k k ND) as G. rewrite eqb_refl in G.
    pose proof (NoDup_ddel d k ND) as ND'. apply (dget_In _ _ _ ND') in H. rewrite H in G. discriminate.
  Qed.

  Definition dots (k : key) : nat := length (filter (fun c => PyDict.eqb c dot) k).

  Lemma nest_spec f : forall d, ready d -> (forall k, In k (dkeys d) -> dots k < f) -> 0 < f ->
    exists d', nest f d = Ok d' /\ done d' /\ Permutation (dends d') (dends d).
  Proof.
    induction f as [|f IHf]; intros d Hr Hdots Hf; [lia|]. clear Hf. cbn [JsonModel.nest].
    assert (forall ks d, ready d -> NoDup ks -> (forall k, In k ks -> dots k < S f) -> (forall k, In k ks -> In dot k -> In k (dkeys d)) -> (forall k, In dot k -> In k (dkeys d) -> In k ks) ->
      exists d', fold_left (fun acc k => bind acc (fun d => match split_first k with
          | None => Ok d
          | Some (a, b) => match dget d k with
              | None => Err KeyError
              | Some x => match match dget d a with
                        | None => Ok []
                        | Some (JVal v) => if is_null v then Ok [] else Err TypeError
                        | Some (JList _) => Err TypeError
                        | Some (JDict dd) => Ok dd
                        end with
                  | Err e => Err e
                  | Ok nv => bind (nest f (dset nv b x)) (fun nv' => Ok (dset (ddel d k) a (JDict nv')))
                  end
              end
          end)) ks (Ok d) = Ok d' /\ done d' /\ Permutation (dends d') (dends d)) as G.
    2:{ apply (G (dkeys d) d Hr (proj1 Hr) Hdots); intros; assumption. }
    clear d Hr Hdots. induction ks as [|k ks IHks]; intros d Hr NDk Hdots H1 H2; cbn [fold_left].
    - exists d. split; [reflexivity|]. split; [|reflexivity]. destruct Hr as (R1 & R2 & R3). split; [exact R1|]. intros k x Hin. split; [|apply (R2 k x Hin)]. intro Hd. destruct (H2 k Hd). apply in_map_iff. exists (k, x). split; [reflexivity|exact Hin].
    - inversion NDk as [|? ? Nk NDks]; subst. cbn [bind]. destruct (split_first k) as [[a b]|] eqn:Es.
      2:{ apply split_first_None in Es. apply IHks; [exact Hr|exact NDks|intros; apply Hdots; right; assumption|intros k' Hk'; apply H1; right; exact Hk'|].
          intros k' Hd Hk'. destruct (H2 k' Hd Hk') as [<-|H]; [contradiction|exact H]. }
      assert (In dot k) as Hdk. { destruct (split_first_Some k a b Es) as (_ & _ & ->). apply in_or_app. right. left. reflexivity. }
      destruct (split_first_Some k a b Es) as (Esp & Ha & Ek). destruct Hr as (R1 & R2 & R3).
      destruct (dget d k) as [x|] eqn:Gx.
      2:{ exfalso. apply dget_None in Gx. apply Gx, H1; [left; reflexivity|exact Hdk]. }
      pose proof (dget_Some_In _ _ _ Gx) as Inx. destruct (R2 k x Inx) as [_ Lx]. specialize (Lx Hdk). pose proof (dget_perm d k x R1 Gx) as Pk.
      assert (a <> k) as Nak by (intros ->; apply Ha; exact Hdk). pose proof (NoDup_ddel d k R1) as ND1. set (d1 := ddel d k) in *.
      assert (dget d1 a = dget d a) as Ga1. { unfold d1. rewrite dget_ddel by exact R1. destruct (PyDict.eqb_spec k a) as [E|]; [exfalso; apply Nak; symmetry; exact E|reflexivity]. }
      assert (Permutation (dends d) ((a :: split b, x) :: dends d1)) as Pd. { rewrite (dends_perm _ _ Pk), dends_cons, (ends_leaf x Lx). cbn [map app]. unfold pre. cbn [fst snd]. rewrite app_nil_r, Esp. reflexivity. }
      assert (free ((a :: split b) :: fsts (dends d1))) as Fr. { apply (free_perm (fsts (dends d))); [|exact R3]. rewrite Pd. reflexivity. }
      inversion Fr as [|? ? Fa Fd1]; subst p l.
      assert (exists nv, match dget d a with None => Ok [] | Some (JVal v) => if is_null v then Ok [] else Err TypeError | Some (JList _) => Err TypeError | Some (JDict dd) => Ok dd end = Ok nv /\ done nv /\
                Permutation (dends d1) (map (pre [a]) (dends nv) ++ dends (ddel d1 a))) as (nv & Env & Dnv & Pnv).
      { destruct (dget d a) as [y|] eqn:Gy.
        - pose proof (dget_perm d1 a y ND1 Ga1) as Pa. pose proof (dget_Some_In _ _ _ Gy) as Iny. destruct (R2 a y Iny) as [Ny _].
          pose proof (dends_perm _ _ Pa) as Pe. rewrite dends_cons, (split_free a Ha) in Pe.
          inversion Ny as [y' L|dd Hne NDd Hdd]; subst.
          + exfalso. rewrite (ends_leaf y L) in Pe. cbn [map app] in Pe. destruct (Fa [a]) as [_ C].
            { rewrite Pe. left. reflexivity. }
            apply (C (split b)). reflexivity.
          + exists dd. split; [reflexivity|]. split; [split; [exact NDd|exact Hdd]|]. rewrite Pe, ends_dict. reflexivity.
        - exists []. split; [reflexivity|]. split; [split; [constructor|intros ? ? []]|]. cbn [dends map concat app]. rewrite ddel_absent; [reflexivity|]. apply dget_None. exact Ga1. }
      rewrite Env. destruct Dnv as [NDnv Hnv].
      assert (~ In b (dkeys nv)) as Nb.
      { intro Hb. apply in_map_iff in Hb. destruct Hb as [[b' y] [E Hb]]. cbn in E. subst b'. destruct (Hnv b y Hb) as [Fb Ny]. pose proof (nested_ends y Ny) as Ey. destruct (ends y) as [|[r z] es] eqn:Ee; [contradiction|].
        destruct (Fa (a :: split b ++ r)) as [C _]; [|apply (C r); reflexivity]. rewrite Pnv. rewrite map_app. apply in_or_app. left. rewrite fsts_pre1. apply in_map. unfold dends. apply in_map_iff. exists (split b ++ r, z). split; [reflexivity|].
        apply in_concat. exists (map (pre (split b)) (ends y)). split; [apply in_map_iff; exists (b, y); split; [reflexivity|exact Hb]|]. rewrite Ee. left. reflexivity. }
      assert (Permutation (dset nv b x) ((b, x) :: nv)) as Pset. { rewrite (dset_perm nv b x NDnv). rewrite ddel_absent by exact Nb. reflexivity. }
      assert (Permutation (dends (dset nv b x)) ((split b, x) :: dends nv)) as Pse. { rewrite (dends_perm _ _ Pset), dends_cons, (ends_leaf x Lx). cbn [map app]. unfold pre. cbn [fst snd]. rewrite app_nil_r. reflexivity. }
      destruct (IHf (dset nv b x)) as (nv' & Enest & [NDv' Hv'] & Pv').
      { split; [apply NoDup_dset; exact NDnv|]. split.
        - intros k' x' Hin. apply (Permutation_in _ Pset) in Hin. destruct Hin as [E|Hin]; [injection E as <- <-; split; [constructor; exact Lx|intros _; exact Lx]|]. destruct (Hnv k' x' Hin) as [F N]. split; [exact N|]. intro; contradiction.
        - apply (free_perm (fsts ((split b, x) :: dends nv))); [rewrite Pse; reflexivity|]. apply (free_strip a). apply (free_app_l _ (fsts (dends (ddel d1 a)))). cbn [map fst app]. apply (free_perm ((a :: split b) :: fsts (dends d1))); [|exact Fr].
          constructor. rewrite Pnv, map_app, fsts_pre1. reflexivity. }
      { assert (dots b < f) as Db. { specialize (Hdots k (or_introl eq_refl)). rewrite Ek in Hdots. unfold dots in *. rewrite filter_app, app_length in Hdots. cbn [filter] in Hdots. rewrite eqb_refl in Hdots. cbn [length] in Hdots. lia. }
        intros k' Hk'. apply in_map_iff in Hk'. destruct Hk' as [[k2 x2] [E Hk']]. cbn in E. subst k2. apply (Permutation_in _ Pset) in Hk'. destruct Hk' as [E|Hk']; [injection E as <- <-; exact Db|].
        destruct (Hnv k' x2 Hk') as [Fk _]. unfold dots. replace (filter (fun c => PyDict.eqb c dot) k') with (@nil A); [cbn; lia|]. symmetry. clear -Fk. induction k' as [|c k' IH]; [reflexivity|]. cbn [filter].
        destruct (PyDict.eqb_spec c dot) as [->|]; [exfalso; apply Fk; left; reflexivity|]. apply IH. intro; apply Fk; right; assumption. }
      { specialize (Hdots k (or_introl eq_refl)). rewrite Ek in Hdots. unfold dots in *. rewrite filter_app, app_length in Hdots. cbn [filter] in Hdots. rewrite eqb_refl in Hdots. cbn [length] in Hdots. lia. }
      rewrite Enest. cbn [bind]. set (d2 := dset d1 a (JDict nv')).
      assert (Permutation d2 ((a, JDict nv') :: ddel d1 a)) as P2 by (apply dset_perm; exact ND1).
      assert (nested (JDict nv')) as Nnv'. { apply nested_dict; [|exact NDv'|exact Hv']. intros ->. cbn in Pv'. rewrite Pse in Pv'. apply Permutation_nil in Pv'. discriminate. }
      assert (Permutation (dends d2) (dends d)) as Pd2.
      { rewrite (dends_perm _ _ P2), dends_cons, ends_dict, (split_free a Ha), Pd, Pnv. rewrite (Permutation_map (pre [a]) Pv'), (Permutation_map (pre [a]) Pse). reflexivity. }
      destruct (IHks d2) as (d' & Ed' & Dd' & Pd').
      + split; [apply NoDup_dset; exact ND1|]. split.
        * intros k' x' Hin. apply (Permutation_in _ P2) in Hin. destruct Hin as [E|Hin]; [injection E as <- <-; split; [exact Nnv'|intro; contradiction]|]. apply R2. unfold d1 in Hin. do 2 apply In_ddel in Hin. exact Hin.
        * apply (free_perm (fsts (dends d))); [rewrite Pd2; reflexivity|exact R3].
      + exact NDks.
      + intros; apply Hdots; right; assumption.
      + intros k' Hk' Hd'. unfold d2. apply In_dkeys_dset. right. assert (k' <> k) as Nkk by (intros ->; contradiction). pose proof (H1 k' (or_intror Hk') Hd') as Hin. unfold d1. clear -Hin Nkk. induction d as [|[k2 x2] d IH]; [destruct Hin|].
        cbn [ddel]. destruct (PyDict.eqb_spec k2 k) as [->|]; destruct Hin as [E|Hin]; [exfalso; apply Nkk; symmetry; exact E| |left; exact E|right; apply IH; exact Hin]. try exact Hin; apply IH; exact Hin.
      + intros k' Hd' Hk'. unfold d2 in Hk'. apply In_dkeys_dset in Hk'. destruct Hk' as [->|Hk']; [contradiction|]. assert (k' <> k) as Nkk by (intros ->; apply (ddel_gone d k R1); exact Hk').
        unfold d1 in Hk'. apply dkeys_ddel_incl in Hk'. destruct (H2 k' Hd' Hk') as [E|H]; [exfalso; apply Nkk; symmetry; exact E|exact H].
      + exists d'. split; [exact Ed'|]. split; [exact Dd'|]. rewrite Pd'. exact Pd2.
  Qed.

  (** ** Looking up a path *)
  Fixpoint follow (x : json) (p : list key) : option json :=
    match p with
    | [] => Some x
    | k :: r => match x with JDict d => match dget d k with Some y => follow y r | None => None end | _ => None end
    end.

  Lemma follow_ends x : nested x -> forall p v, In (p, JVal v) (ends x) <-> follow x p = Some (JVal v).
  Proof.
    induction x as [w|d IH|l IH] using json_induction; intros N p v.
    - cbn [ends In]. split; [intros [E|[]]; injection E as <- <-; reflexivity|]. destruct p as [|k p]; cbn [follow]; [|discriminate]. intro E. injection E as ->. left. reflexivity.
    - inversion N as [? L|? Hne ND Hd]; subst; [destruct L|]. rewrite ends_dict. unfold dends. rewrite in_concat. split.
      + intros (e & He & Hin). apply in_map_iff in He. destruct He as ([k x] & <- & Hx). cbn [fst snd] in Hin. apply in_map_iff in Hin. destruct Hin as ([q y] & E & Hq). unfold pre in E. cbn [fst snd] in E. injection E as <- ->.
        destruct (Hd k x Hx) as [Fk Nx]. rewrite (split_free k Fk). cbn [app follow]. rewrite (dget_In _ _ _ ND Hx). apply (IH k x Hx Nx). exact Hq.
      + destruct p as [|k p]; cbn [follow]; [discriminate|]. destruct (dget d k) as [x|] eqn:G; [|discriminate]. intro F. apply dget_Some_In in G. destruct (Hd k x G) as [Fk Nx]. apply (IH k x G Nx) in F.
        exists (map (pre (split k)) (ends x)). split; [apply in_map_iff; exists (k, x); split; [reflexivity|exact G]|]. apply in_map_iff. exists (p, JVal v). split; [|exact F]. unfold pre. cbn [fst snd]. rewrite (split_free k Fk). reflexivity.
    - cbn [ends In]. split; [intros [E|[]]; discriminate|]. destruct p; cbn [follow]; discriminate.
  Qed.

  (** A flat dictionary whose keys do not lead through one another is nested: the value at a path is that of the key
      that is the path with separators. *)
  Theorem C68_nested (d : list (key * V)) :
    NoDup (map fst d) -> (forall k1 k2 r, In k1 (map fst d) -> In k2 (map fst d) -> k2 <> k1 ++ dot :: r) ->
    exists d', convert dot is_null (map (fun kv => (fst kv, JVal (snd kv))) d) = Ok d' /\
      forall p v, follow (JDict d') p = Some (JVal v) <-> p <> [] /\ Forall (fun q => ~ In dot q) p /\ In (join [dot] p, v) d.
  Proof.
    intros ND Hfree. set (dj := map (fun kv => (fst kv, JVal (snd kv))) d). assert (dkeys dj = map fst d) as Ek by (unfold dj, dkeys; rewrite map_map; reflexivity).
    assert (dends dj = map (fun kv => (split (fst kv), JVal (snd kv))) d) as Ed.
    { unfold dj, dends. rewrite map_map. clear. induction d as [|[k v] d IH]; [reflexivity|]. cbn [map concat]. rewrite IH. cbn [fst snd ends map app]. unfold pre. cbn [fst snd]. rewrite app_nil_r. reflexivity. }
    destruct (nest_spec (S (List.list_max (map (@length A) (dkeys dj)))) dj) as (d' & E & [ND' Hd'] & P).
    - split; [rewrite Ek; exact ND|]. split.
      + intros k x Hin. apply in_map_iff in Hin. destruct Hin as ([k' v] & E & _). injection E as <- <-. split; [constructor; exact I|intros _; exact I].
      + rewrite Ed, map_map. cbn [fst]. clear Ed Ek dj. induction d as [|[k v] d IH]; [constructor|]. cbn [map fst] in *. inversion ND as [|? ? N ND']; subst. constructor; [|apply IH; [exact ND'|intros k1 k2 r H1 H2; apply Hfree; right; assumption]].
        intros q Hq. apply in_map_iff in Hq. destruct Hq as ([k2 v2] & <- & Hq). cbn [fst]. assert (In k2 (map fst d)) as Hk2 by (apply in_map_iff; exists (k2, v2); split; [reflexivity|exact Hq]).
        assert (forall k1 k2 r, k1 <> k2 -> split k2 = split k1 ++ r -> k2 = k1 ++ dot :: join [dot] r) as Gs.
        { intros k1 k3 r Nk E. rewrite <- (split_join k3), E. destruct r as [|r0 r]; [exfalso; apply Nk; rewrite <- (split_join k1), <- (split_join k3), E, app_nil_r; reflexivity|].
          rewrite join_app by (try apply split_ne; discriminate). rewrite split_join. reflexivity. }
        assert (k <> k2) as Nk by (intros ->; contradiction).
        split; intros r E; [apply (Hfree k k2 (join [dot] r) (or_introl eq_refl) (or_intror Hk2)), Gs; assumption|]. apply (Hfree k2 k (join [dot] r) (or_intror Hk2) (or_introl eq_refl)), Gs; [intro; apply Nk; symmetry; assumption|exact E].
    - intros k Hk. apply Nat.lt_succ_r. apply Nat.le_trans with (length k).
      + unfold dots. apply ConfProps.filter_length_le.
      + assert (forall l n, In n l -> n <= List.list_max l) as M. { clear. induction l as [|m l IH]; intros n []; cbn [List.list_max fold_right] in *; [subst; lia|specialize (IH n H); unfold List.list_max in IH; lia]. }
        apply M, in_map. exact Hk.
    - lia.
    - exists d'. split; [exact E|]. intros p v.
      assert (In (p, JVal v) (dends d') <-> follow (JDict d') p = Some (JVal v)) as F.
      { destruct d' as [|e0 d'0] eqn:Ed'; [cbn; split; [intros []|destruct p; discriminate]|]. rewrite <- ends_dict. apply follow_ends. constructor; [discriminate|exact ND'|exact Hd']. }
      rewrite <- F. clear F. split.
      + intro Hin. apply (Permutation_in _ P) in Hin. rewrite Ed in Hin. apply in_map_iff in Hin. destruct Hin as ([k v'] & E2 & Hin). cbn [fst snd] in E2. injection E2 as <- <-. split; [apply split_ne|]. split; [apply split_dotfree|]. rewrite split_join. exact Hin.
      + intros (Hne & Hf & Hin). apply (Permutation_in _ (Permutation_sym P)). rewrite Ed. apply in_map_iff. exists (join [dot] p, v). split; [|exact Hin]. cbn [fst snd]. rewrite join_split by assumption. reflexivity.
  Qed.
End Nest.

Example C68_example : convert 0 (fun _ => false) [([1; 0; 2], JVal 12); ([3], JVal 3); ([1; 0; 4; 0; 5], JVal 145)] =
  Ok [([3], JVal 3); ([1], JDict [([2], JVal 12); ([4], JDict [([5], JVal 145)])])].
Proof. vm_compute. reflexivity. Qed.

(** A user expects every value of a record to be kept or an error.  If a key leads to another one, one of the values may
    be dropped silently. *)
Theorem C68_values_kept_refuted :
  ~ (forall (d : list (list nat * nat)) d' k v, NoDup (map fst d) -> convert 0 (fun _ => false) (map (fun kv => (fst kv, JVal (snd kv))) d) = Ok d' ->
       In (k, v) d -> exists p, follow (JDict d') p = Some (JVal v)).
Proof.
  intro H. specialize (H [([1; 0; 2; 0; 3], 7); ([1; 0; 2], 8)] [([1], JDict [([2], JVal 8)])] [1; 0; 2; 0; 3] 7).
  destruct H as [p F].
  - repeat constructor; cbn; intuition discriminate.
  - vm_compute. reflexivity.
  - left. reflexivity.
  - destruct p as [|k p]; [discriminate|]. cbn [follow dget] in F. destruct (PyDict.eqb [1] k); [|discriminate].
    destruct p as [|k2 p]; [discriminate|]. cbn [follow dget] in F. destruct (PyDict.eqb [2] k2); [|discriminate].
    destruct p; discriminate.
Qed.

(** A user expects records with a key that leads to another one to be made as well.  There is an error. *)
Theorem C68_any_keys_refuted :
  ~ (forall (d : list (list nat * nat)), NoDup (map fst d) -> exists d', convert 0 (fun _ => false) (map (fun kv => (fst kv, JVal (snd kv))) d) = Ok d').
Proof.
  intro H. destruct (H [([1], 7); ([1; 0; 2], 8)]) as [d' E]; [repeat constructor; cbn; intuition discriminate|]. vm_compute in E. discriminate.
Qed.

Print Assumptions C68_nested.
