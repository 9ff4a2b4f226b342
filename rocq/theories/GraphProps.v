(** C78: profiles of graphs *)
From Coq Require Import ZArith QArith Qcanon Permutation Lia.
From Verif Require Import PyCommon PyDict PyString ListFacts GraphModel.
Local Open Scope nat_scope.
Local Open Scope string_scope.
Local Open Scope list_scope.

Section Props.
  Context {N : Type} {EN : EqDecB N}.
  Variable enum : list string -> list string.
  Variable fits : list Q -> list (string * list Q * Q).
  Variable moments : string -> Q -> Q * Q.
  Variable hist : list Q -> list nat * list Q.
  Let update := update (N := N) enum fits moments hist.

  (** Graphs as networkx makes them *)
  Definition wf (g : graph N) : Prop :=
    NoDup (nodes g) /\ (forall u v a, In (u, v, a) (edges g) -> In u (nodes g) /\ In v (nodes g) /\ NoDup (dkeys a)).
  (** Sets are listed in any order *)
  Definition lists_sets : Prop := forall l, NoDup l -> Permutation (enum l) l.
  Inductive linked (es : list (edge N)) (u : N) : N -> Prop :=
  | linked_refl : linked es u u
  | linked_step : forall v w a, linked es u v -> In (v, w, a) es \/ In (w, v, a) es -> linked es u w.
  Definition component (g : graph N) (v : N) (l : list N) : Prop :=
    NoDup l /\ forall x, In x l <-> In x (nodes g) /\ linked (edges g) v x.
  Definition attribute (g : graph N) (a : string) : Prop := exists e, In e (edges g) /\ In a (dkeys (snd e)).
  Definition whole (q : Q) : Prop := exists z, (q == inject_Z z)%Q.
  (** Each edge has each attribute, as a number *)
  Definition uniform (g : graph N) : Prop :=
    forall a e, attribute g a -> In e (edges g) -> exists q, dget (snd e) a = Some (Some q).
  Definition values (g : graph N) (a : string) : list Q :=
    map (fun e : edge N => match dget (snd e) a with Some (Some q) => q | _ => 0%Q end) (edges g).

  (** Handshakes *)
  Lemma ends_once : forall l x, NoDup l -> In x l -> list_sum (map (is_end x) l) = 1.
  Proof.
    induction l as [|y l IH]; intros x ND I; [destruct I|]. apply NoDup_cons_iff in ND. destruct ND as (NI & ND). cbn [map list_sum fold_right].
    unfold is_end at 1. change (fold_right Nat.add 0 (map (is_end x) l)) with (list_sum (map (is_end x) l)).
    destruct (PyDict.eqb_spec x y) as [-> | Ne].
    - assert (Z : list_sum (map (is_end y) l) = 0).
      { clear -NI. induction l as [|z l IH]; [reflexivity|]. cbn. unfold is_end at 1. destruct (PyDict.eqb_spec y z) as [-> | _]; [exfalso; apply NI; left; reflexivity|].
        apply IH. intros H. apply NI. right. exact H. }
      lia.
    - destruct I as [-> | I]; [congruence|]. rewrite IH by assumption. reflexivity.
  Qed.
  Lemma sum_app : forall (f g : N -> nat) l, list_sum (map (fun x => f x + g x) l) = list_sum (map f l) + list_sum (map g l).
  Proof. intros f g l. induction l as [|x l IH]; cbn; [reflexivity|]. unfold list_sum in IH. rewrite IH. lia. Qed.
  Lemma fold_sum : forall (f : N -> nat) l t, fold_left (fun t n => t + f n) l t = t + list_sum (map f l).
  Proof. intros f l. induction l as [|x l IH]; intros t; cbn; [lia|]. rewrite IH. unfold list_sum. lia. Qed.
  Lemma handshake : forall g, wf g -> fold_left (fun t n => t + degree g n) (nodes g) 0 = 2 * length (edges g).
  Proof.
    intros (ns, es) (ND & E). rewrite fold_sum. cbn [nodes edges] in *. unfold degree. cbn [edges]. induction es as [|((u, v), a) es IH].
    - clear. cbn [fold_right length]. induction ns as [|x ns IH]; [reflexivity|]. cbn in *. exact IH.
    - cbn [fold_right fst snd length]. rewrite sum_app, sum_app. destruct (E u v a) as (Iu & Iv & _); [left; reflexivity|].
      rewrite !ends_once by assumption. cbn in IH. rewrite IH; [lia|]. intros. eapply E. right. eassumption.
  Qed.

  (** Connectedness *)
  Lemma conn_step : forall a b x r (u v : N), conn ((a, b, x) :: r) u v = true <->
    conn r u v = true \/ (conn r u a = true /\ conn r b v = true) \/ (conn r u b = true /\ conn r a v = true).
  Proof. intros. cbn [conn]. rewrite !Bool.orb_true_iff, !Bool.andb_true_iff. tauto. Qed.
  Lemma conn_equiv : forall es : list (edge N), (forall u, conn es u u = true) /\ (forall u v, conn es u v = true -> conn es v u = true) /\
    (forall u v w, conn es u v = true -> conn es v w = true -> conn es u w = true).
  Proof.
    induction es as [|((a, b), x) r (R & S & T)].
    - cbn. split; [intros u; apply eqb_refl|]. split.
      + intros u v H. apply (proj1 (PyDict.eqb_eq _ _)) in H. subst. apply eqb_refl.
      + intros u v w H1 H2. apply (proj1 (PyDict.eqb_eq _ _)) in H1, H2. subst. apply eqb_refl.
    - split; [|split].
      + intros u. apply conn_step. auto.
      + intros u v H. apply conn_step in H. apply conn_step. intuition.
      + intros u v w H1 H2. apply conn_step in H1, H2. apply conn_step.
        destruct H1 as [H1 | [(H1 & H3) | (H1 & H3)]], H2 as [H2 | [(H2 & H4) | (H2 & H4)]]; eauto 6.
  Qed.
  Lemma linked_trans : forall es u v w, linked es u v -> linked es v w -> linked es u w.
  Proof. intros es u v w H1 H2. induction H2; [exact H1|]. eapply linked_step; eauto. Qed.
  Lemma linked_sym : forall es u v, linked es u v -> linked es v u.
  Proof.
    intros es u v H. induction H as [|v w a H IH E]; [constructor|]. eapply linked_trans; [|exact IH].
    eapply linked_step; [constructor|]. destruct E; [right|left]; eassumption.
  Qed.
  Lemma linked_cons : forall e es u v, linked es u v -> linked (e :: es) u v.
  Proof. intros e es u v H. induction H as [|v w a H IH E]; [constructor|]. eapply linked_step; [exact IH|]. destruct E; [left|right]; right; eassumption. Qed.
  Lemma conn_spec : forall es u v, conn es u v = true <-> linked es u v.
  Proof.
    intros es u v. split.
    - revert u v. induction es as [|((a, b), x) r IH]; intros u v H.
      + cbn in H. apply (proj1 (PyDict.eqb_eq _ _)) in H. subst. constructor.
      + apply conn_step in H. destruct H as [H | [(H1 & H2) | (H1 & H2)]].
        * apply linked_cons, IH, H.
        * eapply linked_trans; [apply linked_cons, IH, H1|]. eapply linked_trans; [|apply linked_cons, IH, H2].
          eapply linked_step; [constructor|]. left. left. reflexivity.
        * eapply linked_trans; [apply linked_cons, IH, H1|]. eapply linked_trans; [|apply linked_cons, IH, H2].
          eapply linked_step; [constructor|]. right. left. reflexivity.
    - destruct (conn_equiv es) as (R & S & T). induction 1 as [|v w a H IH E]; [apply R|]. eapply T; [exact IH|]. clear H IH.
      assert (D : forall es v w a, In (v, w, a) es -> conn es v w = true).
      { clear. intros es v w a I. induction es as [|((p, q), x) r IH]; [destruct I|]. apply conn_step. destruct (conn_equiv r) as (R & _).
        destruct I as [E | I]; [injection E as -> -> ->; auto|auto]. }
      destruct E as [E | E]; [eauto|apply S; eauto].
  Qed.

  Lemma comps_in : forall g todo seen c, In c (comps g seen todo) -> exists v, In v todo /\ c = filter (conn (edges g) v) (nodes g).
  Proof.
    intros g. induction todo as [|v r IH]; intros seen c I; [destruct I|]. cbn [comps] in I. destruct (existsb _ seen).
    - destruct (IH _ _ I) as (w & J & E). exists w. split; [right; exact J|exact E].
    - destruct I as [<- | I]; [exists v; split; [left|]; reflexivity|]. destruct (IH _ _ I) as (w & J & E). exists w. split; [right; exact J|exact E].
  Qed.
  Lemma comps_cover : forall g todo seen w, In w todo -> (exists s, In s seen /\ conn (edges g) s w = true) \/
    exists v, conn (edges g) v w = true /\ In (filter (conn (edges g) v) (nodes g)) (comps g seen todo).
  Proof.
    intros g. induction todo as [|v r IH]; intros seen w I; [destruct I|]. cbn [comps]. destruct (existsb _ seen) eqn:X.
    - destruct I as [<- | I].
      + apply existsb_exists in X. destruct X as (s & Is & Cs). left. exists s. split; assumption.
      + apply IH. exact I.
    - destruct I as [<- | I].
      + right. exists v. split; [apply (proj1 (conn_equiv _))|left; reflexivity].
      + destruct (IH (seen ++ [v]) w I) as [(s & Is & Cs) | (v' & C & J)].
        * apply in_app_or in Is. destruct Is as [Is | [<- | []]]; [left; exists s; split; assumption|]. right. exists v. split; [exact Cs|left; reflexivity].
        * right. exists v'. split; [exact C|right; exact J].
  Qed.
  Lemma same_class : forall g u v, conn (edges g) u v = true -> filter (conn (edges g) u) (nodes g) = filter (conn (edges g) v) (nodes g).
  Proof.
    intros g u v C. destruct (conn_equiv (edges g)) as (R & S & T). apply filter_ext. intros x.
    destruct (conn (edges g) u x) eqn:E1, (conn (edges g) v x) eqn:E2; try reflexivity.
    - rewrite <- E2. symmetry. eapply T; [apply S; exact C|exact E1].
    - rewrite <- E1. eapply T; [exact C|exact E2].
  Qed.
  Lemma largest_spec : forall l : list (list N), l <> [] -> In (largest l) l /\ forall c, In c l -> length c <= length (largest l).
  Proof.
    intros [|c0 l] H; [congruence|]. unfold largest. cbn [tl hd]. clear H. revert c0. induction l as [|c l IH]; intros c0.
    - cbn. split; [auto|]. intros c [<- | []]. reflexivity.
    - cbn [fold_left]. destruct (IH (if length c0 <? length c then c else c0)) as (I & M). split.
      + destruct I as [E | I]; [|right; right; exact I]. rewrite <- E. destruct (length c0 <? length c); [right; left|left]; reflexivity.
      + assert (M0 := M _ (or_introl eq_refl)). intros x [<- | [<- | J]]; [| |apply M; right; exact J];
          (destruct (Nat.ltb_spec (length c0) (length c)); lia).
  Qed.
  Lemma class_component : forall g v, wf g -> component g v (filter (conn (edges g) v) (nodes g)).
  Proof.
    intros g v W. split; [apply NoDup_filter, W|]. intros x. rewrite filter_In, conn_spec. reflexivity.
  Qed.
  Lemma component_length : forall g v l1 l2, component g v l1 -> component g v l2 -> length l1 = length l2.
  Proof.
    intros g v l1 l2 (N1 & H1) (N2 & H2). apply Permutation_length, NoDup_Permutation; try assumption. intros x. rewrite H1, H2. reflexivity.
  Qed.

  (** Attributes *)
  Lemma whole_spec : forall q, is_integer q = true <-> whole q.
  Proof.
    intros q. unfold is_integer, whole. rewrite Pos.eqb_eq. split.
    - intros H. exists (Qnum (Qred q)). rewrite <- (Qred_correct q) at 1. destruct (Qred q) as (n, d). cbn in H. subst d. reflexivity.
    - intros (z & H). apply Qred_complete in H. rewrite H. rewrite Qred_identity; [reflexivity|]. cbn. apply Z.gcd_1_r.
  Qed.
  Definition number_at (a : string) (e : edge N) : Prop := exists q, dget (snd e) a = Some (Some q).
  Lemma has_integer_false : forall a (es : list (edge N)), has_integer a es = Ok false <-> forall e, In e es -> exists q, dget (snd e) a = Some (Some q) /\ ~ whole q.
  Proof.
    intros a es. induction es as [|e r IH]; cbn [has_integer]; [split; [intros _ e []|reflexivity]|]. split.
    - intros H x I. destruct (dget (snd e) a) as [[q|]|] eqn:E; try discriminate. destruct (is_integer q) eqn:Q; [discriminate|].
      destruct I as [<- | I]; [|apply IH; assumption]. exists q. split; [exact E|]. intros Wq. apply whole_spec in Wq. congruence.
    - intros H. destruct (H e (or_introl eq_refl)) as (q & E & NW). rewrite E. destruct (is_integer q) eqn:Q; [apply whole_spec in Q; contradiction|].
      apply IH. intros x I. apply H. right. exact I.
  Qed.
  Lemma has_integer_true : forall a (es : list (edge N)), has_integer a es = Ok true -> exists e q, In e es /\ dget (snd e) a = Some (Some q) /\ whole q.
  Proof.
    intros a es. induction es as [|e r IH]; cbn [has_integer]; [discriminate|]. destruct (dget (snd e) a) as [[q|]|] eqn:E; try discriminate.
    destruct (is_integer q) eqn:Q.
    - intros _. exists e, q. split; [left; reflexivity|]. split; [exact E|apply whole_spec; exact Q].
    - intros H. destruct (IH H) as (x & p & I & X). exists x, p. split; [right; exact I|exact X].
  Qed.
  Lemma has_integer_defined : forall a (es : list (edge N)), (forall e, In e es -> number_at a e) -> exists c, has_integer a es = Ok c.
  Proof.
    intros a es H. induction es as [|e r IH]; cbn [has_integer]; [eauto|]. destruct (H e (or_introl eq_refl)) as (q & ->).
    destruct (is_integer q); [eauto|]. apply IH. intros x I. apply H. right. exact I.
  Qed.
  Lemma sort_spec : forall (g : graph N) l cat cont, sort_attributes l g = Ok (cat, cont) -> NoDup l ->
    NoDup cat /\ NoDup cont /\ (forall a, In a cat <-> In a l /\ has_integer a (edges g) = Ok true) /\
    (forall a, In a cont <-> In a l /\ has_integer a (edges g) = Ok false) /\ (forall a, In a l -> exists c, has_integer a (edges g) = Ok c).
  Proof.
    intros g. induction l as [|a l IH]; intros cat cont H ND.
    - cbn in H. injection H as <- <-. repeat split; try constructor; try (intros []; fail); try (intros (I & _); exact I). all: intros; try destruct H; try contradiction.
    - cbn [sort_attributes] in H. destruct (has_integer a (edges g)) as [c|] eqn:E; [|discriminate]. cbn [bind] in H.
      destruct (sort_attributes l g) as [(k1, k2)|] eqn:E2; [|discriminate]. cbn [bind fst snd] in H. apply NoDup_cons_iff in ND. destruct ND as (NI & ND).
      destruct (IH _ _ eq_refl ND) as (N1 & N2 & H1 & H2 & H3).
      assert (D : forall x, In x (a :: l) -> exists c, has_integer x (edges g) = Ok c) by (intros x [<- | I]; eauto).
      destruct c; injection H as <- <-; repeat match goal with |- _ /\ _ => split end; try assumption.
      + constructor; [|exact N1]. intros X. apply H1 in X. tauto.
      + intros x. cbn [In]. rewrite H1. split; [intros [<- | X]; tauto|]. intros ([<- | X] & Y); tauto.
      + intros x. cbn [In]. rewrite H2. split; [tauto|]. intros ([<- | X] & Y); [congruence|tauto].
      + constructor; [|exact N2]. intros X. apply H2 in X. tauto.
      + intros x. cbn [In]. rewrite H1. split; [tauto|]. intros ([<- | X] & Y); [congruence|tauto].
      + intros x. cbn [In]. rewrite H2. split; [intros [<- | X]; tauto|]. intros ([<- | X] & Y); tauto.
  Qed.
  Lemma sort_defined : forall (g : graph N) l, (forall a, In a l -> exists c, has_integer a (edges g) = Ok c) -> exists cc, sort_attributes l g = Ok cc.
  Proof.
    intros g. induction l as [|a l IH]; intros H; cbn [sort_attributes]; [eauto|]. destruct (H a (or_introl eq_refl)) as (c & ->). cbn [bind].
    destruct IH as (cc & ->); [intros x I; apply H; right; exact I|]. cbn [bind]. destruct c; eauto.
  Qed.
  Lemma data_spec : forall a (es : list (edge N)), (forall e, In e es -> number_at a e) ->
    data_of a es = Ok (map (fun e : edge N => match dget (snd e) a with Some (Some q) => q | _ => 0%Q end) es).
  Proof.
    intros a es H. induction es as [|e r IH]; cbn [data_of map]; [reflexivity|]. destruct (H e (or_introl eq_refl)) as (q & ->).
    rewrite IH by (intros x I; apply H; right; exact I). reflexivity.
  Qed.
  Lemma data_numbers : forall a (es : list (edge N)) d, data_of a es = Ok d -> forall e, In e es -> number_at a e.
  Proof.
    intros a es. induction es as [|e r IH]; intros d H x I; [destruct I|]. cbn [data_of] in H. destruct (dget (snd e) a) as [[q|]|] eqn:E; try discriminate.
    destruct (data_of a r) as [d'|] eqn:E2; [|discriminate]. destruct I as [<- | I]; [exists q; exact E|eapply IH; eauto].
  Qed.

  (** The best fit *)
  Definition best (cs : list (string * list Q * Q)) (n : string) (ps : list Q) (mle : Q) : Prop :=
    (mle <= inject_Z 1000)%Q /\ exists l1 l2, cs = l1 ++ (n, ps, mle) :: l2 /\ (forall c, In c l1 -> (mle <= snd c)%Q) /\ (forall c, In c l2 -> (mle < snd c)%Q).
  Lemma best_fold : forall cs b, snd b = snd (fold_left better cs b) /\ fold_left better cs b = b /\ (forall c, In c cs -> (snd b < snd c)%Q) \/
    exists l1 x l2, cs = l1 ++ x :: l2 /\ fold_left better cs b = (Some (fst x), snd x) /\ (snd x <= snd b)%Q /\
      (forall c, In c l1 -> (snd x <= snd c)%Q) /\ (forall c, In c l2 -> (snd x < snd c)%Q).
  Proof.
    induction cs as [|c cs IH]; intros b.
    - left. cbn. repeat split. intros c [].
    - cbn [fold_left]. assert (B : better b c = if Qle_bool (snd c) (snd b) then (Some (fst c), snd c) else b) by reflexivity. rewrite B. clear B.
      destruct (Qle_bool (snd c) (snd b)) eqn:L.
      + apply Qle_bool_iff in L. right. destruct (IH (Some (fst c), snd c)) as [(_ & E & H) | (l1 & x & l2 & E & F & G & H1 & H2)].
        * exists [], c, cs. split; [reflexivity|]. split; [exact E|]. split; [exact L|]. split; [intros y []|exact H].
        * exists (c :: l1), x, l2. cbn [snd] in G. split; [rewrite E; reflexivity|]. split; [exact F|]. split; [eapply Qle_trans; eauto|].
          split; [|exact H2]. intros y [<- | I]; [exact G|apply H1, I].
      + assert (L' : (snd b < snd c)%Q). { apply Qnot_le_lt. intros X. apply Qle_bool_iff in X. congruence. }
        destruct (IH b) as [(E0 & E & H) | (l1 & x & l2 & E & F & G & H1 & H2)].
        * left. split; [exact E0|]. split; [exact E|]. intros y [<- | I]; [exact L'|apply H, I].
        * right. exists (c :: l1), x, l2. split; [rewrite E; reflexivity|]. split; [exact F|]. split; [exact G|]. split; [|exact H2].
          intros y [<- | I]; [|apply H1, I]. apply Qlt_le_weak. eapply Qle_lt_trans; eauto.
  Qed.
  Lemma best_fit_spec : forall cs f, best_fit moments cs = Ok f -> best cs (name f) (properties f) (scale f) /\
    mean f = map (fun x => fst (moments (name f) x)) (properties f) /\ variance f = map (fun x => snd (moments (name f) x)) (properties f).
  Proof.
    intros cs f H. unfold best_fit in H. destruct (best_fold cs (None, inject_Z 1000)) as [(_ & E & _) | (l1 & x & l2 & E & F & G & H1 & H2)].
    - rewrite E in H. discriminate.
    - rewrite F in H. destruct x as ((n, ps), mle). cbn [fst snd] in *. injection H as <-. cbn [name properties scale mean variance].
      split; [|split; reflexivity]. split; [exact G|]. exists l1, l2. auto.
  Qed.
  Lemma best_fit_defined : forall cs, (exists f, best_fit moments cs = Ok f) <-> exists c, In c cs /\ (snd c <= inject_Z 1000)%Q.
  Proof.
    intros cs. unfold best_fit. destruct (best_fold cs (None, inject_Z 1000)) as [(_ & E & H) | (l1 & x & l2 & E & F & G & H1 & H2)].
    - rewrite E. split; [intros (f & X); discriminate|]. intros (c & I & L). exfalso. apply (Qlt_not_le _ _ (H c I) L).
    - rewrite F. destruct x as ((n, ps), mle). cbn [fst snd] in *. split; [|eauto]. intros _. exists (n, ps, mle). split; [|exact G].
      rewrite E. apply in_or_app. right. left. reflexivity.
  Qed.

  Lemma enum_in : lists_sets -> forall l a, NoDup l -> (In a (enum l) <-> In a l).
  Proof. intros E l a ND. split; apply Permutation_in; [|apply Permutation_sym]; apply E, ND. Qed.
  Lemma enum_nodup : lists_sets -> forall l, NoDup l -> NoDup (enum l).
  Proof. intros E l ND. eapply Permutation_NoDup; [apply Permutation_sym, E, ND|exact ND]. Qed.
  Lemma attributes_spec : lists_sets -> forall (g : graph N) l, all_attributes enum g = Ok l -> NoDup l /\ forall a, In a l <-> attribute g a.
  Proof.
    intros E g l H. unfold all_attributes in H. unfold attribute. destruct (edges g) as [|e r] eqn:Eg.
    - injection H as <-. split; [apply enum_nodup; [exact E|constructor]|]. intros a. rewrite enum_in by (auto; constructor). split; [intros []|intros (e & [] & _)].
    - destruct (forallb (fun x : edge N => length (snd x) =? length (snd e)) r); [|discriminate]. injection H as <-. split; [apply enum_nodup; [exact E|apply distinct_NoDup]|].
      intros a. rewrite enum_in by (auto; apply distinct_NoDup). rewrite distinct_In. exact (in_flat_map (fun x : edge N => dkeys (snd x)) (e :: r) a).
  Qed.
  Lemma uniform_attributes : forall g : graph N, wf g -> uniform g -> exists l, all_attributes enum g = Ok l.
  Proof.
    intros g (_ & W) U. unfold all_attributes. destruct (edges g) as [|e r] eqn:Eg; [eauto|].
    assert (F : forallb (fun x : edge N => length (snd x) =? length (snd e)) r = true); [|rewrite F; eauto].
    apply forallb_forall. intros x I. apply Nat.eqb_eq.
    assert (K : forall e1 e2 : edge N, In e1 (edges g) -> In e2 (edges g) -> length (snd e1) <= length (snd e2)).
    { intros e1 e2 I1 I2. rewrite <- !(map_length fst). apply NoDup_incl_length.
      - destruct e1 as ((u, v), a). apply (W u v a). rewrite <- Eg. exact I1.
      - intros a Ia. destruct (U a e2) as (q & D); [exists e1; split; assumption|exact I2|]. apply dget_Some_In in D. apply (in_map fst) in D. exact D. }
    rewrite Eg in K. apply Nat.le_antisymm; apply K; (left; reflexivity) || (right; exact I).
  Qed.
  Lemma continuous_spec : forall (g : graph N) cont l d, continuous fits moments cont l g = Ok d -> dkeys d = l /\
    forall a x, In (a, x) d -> (In a cont /\ exists data f, data_of a (edges g) = Ok data /\ best_fit moments (fits data) = Ok f /\ x = Some f) \/ (~ In a cont /\ x = None).
  Proof.
    intros g cont. induction l as [|a l IH]; intros d H; cbn [continuous] in H.
    - injection H as <-. split; [reflexivity|]. intros a x [].
    - destruct (lmem cont a) eqn:M.
      + destruct (data_of a (edges g)) as [data|] eqn:D; [|discriminate]. cbn [bind] in H. destruct (best_fit moments (fits data)) as [f|] eqn:B; [|discriminate].
        cbn [bind] in H. destruct (continuous fits moments cont l g) as [d'|] eqn:C; [|discriminate]. cbn [bind] in H. injection H as <-.
        destruct (IH _ eq_refl) as (K & P). cbn [dkeys map fst]. split; [f_equal; exact K|]. intros a0 x [E | I]; [|apply P, I]. injection E as <- <-.
        left. split; [apply lmem_In; exact M|]. eauto.
      + cbn [bind] in H. destruct (continuous fits moments cont l g) as [d'|] eqn:C; [|discriminate]. cbn [bind] in H. injection H as <-.
        destruct (IH _ eq_refl) as (K & P). cbn [dkeys map fst]. split; [f_equal; exact K|]. intros a0 x [E | I]; [|apply P, I]. injection E as <- <-.
        right. split; [apply lmem_false; exact M|reflexivity].
  Qed.
  Lemma categorical_spec : forall (g : graph N) cat l d, categorical hist cat l g = Ok d -> dkeys d = l /\
    forall a x, In (a, x) d -> (In a cat /\ exists data, data_of a (edges g) = Ok data /\ x = Some (hist data)) \/ (~ In a cat /\ x = None).
  Proof.
    intros g cat. induction l as [|a l IH]; intros d H; cbn [categorical] in H.
    - injection H as <-. split; [reflexivity|]. intros a x [].
    - destruct (lmem cat a) eqn:M.
      + destruct (data_of a (edges g)) as [data|] eqn:D; [|discriminate]. cbn [bind] in H. destruct (categorical hist cat l g) as [d'|] eqn:C; [|discriminate].
        cbn [bind] in H. injection H as <-. destruct (IH _ eq_refl) as (K & P). cbn [dkeys map fst]. split; [f_equal; exact K|].
        intros a0 x [E | I]; [|apply P, I]. injection E as <- <-. left. split; [apply lmem_In; exact M|]. eauto.
      + cbn [bind] in H. destruct (categorical hist cat l g) as [d'|] eqn:C; [|discriminate]. cbn [bind] in H. injection H as <-.
        destruct (IH _ eq_refl) as (K & P). cbn [dkeys map fst]. split; [f_equal; exact K|]. intros a0 x [E | I]; [|apply P, I]. injection E as <- <-.
        right. split; [apply lmem_false; exact M|reflexivity].
  Qed.
  Lemma continuous_defined : forall (g : graph N) cont l, (forall a, In a l -> In a cont -> exists data f, data_of a (edges g) = Ok data /\ best_fit moments (fits data) = Ok f) ->
    exists d, continuous fits moments cont l g = Ok d.
  Proof.
    intros g cont. induction l as [|a l IH]; intros H; cbn [continuous]; [eauto|]. destruct IH as (d & Hd); [intros; apply H; [right|]; assumption|].
    destruct (lmem cont a) eqn:M; [|cbn [bind]; rewrite Hd; cbn [bind]; eauto]. apply lmem_In in M.
    destruct (H a (or_introl eq_refl) M) as (data & f & E1 & E2). rewrite E1. cbn [bind]. rewrite E2. cbn [bind]. rewrite Hd. cbn [bind]. eauto.
  Qed.
  Lemma categorical_defined : forall (g : graph N) cat l, (forall a, In a l -> In a cat -> exists data, data_of a (edges g) = Ok data) -> exists d, categorical hist cat l g = Ok d.
  Proof.
    intros g cat. induction l as [|a l IH]; intros H; cbn [categorical]; [eauto|]. destruct IH as (d & Hd); [intros; apply H; [right|]; assumption|].
    destruct (lmem cat a) eqn:M; [|cbn [bind]; rewrite Hd; cbn [bind]; eauto]. apply lmem_In in M.
    destruct (H a (or_introl eq_refl) M) as (data & E1). rewrite E1. cbn [bind]. rewrite Hd. cbn [bind]. eauto.
  Qed.

  Definition empty (g : graph N) : Prop := nodes g = [] /\ edges g = [].
  Lemma update_ok : forall p g p', ~ empty g -> update p g = (p', None) ->
    exists l cat cont d1 d2, all_attributes enum g = Ok l /\ sort_attributes l g = Ok (cat, cont) /\ continuous fits moments cont l g = Ok d1 /\
      categorical hist cat l g = Ok d2 /\
      p' = {| sample_size := sample_size p + length (edges g); num_nodes := Some (length (nodes g)); num_edges := Some (length (edges g));
              cat_attributes := Some cat; cont_attributes := Some cont; avg_node_degree := Some (avg_degree g (length (nodes g)));
              max_comp := Some (max_component g); cont_distribution := Some d1; cat_distribution := Some d2 |}.
  Proof.
    intros p g p' NE H. unfold update, GraphModel.update, cat_cont in H.
    destruct (all_attributes enum g) as [l|e]; cbn [bind] in H.
    2:{ destruct (nodes g) eqn:En; [destruct (edges g) eqn:Ee; [exfalso; apply NE; split; assumption|discriminate]|discriminate]. }
    destruct (sort_attributes l g) as [(cat, cont)|e] eqn:E1.
    2:{ destruct (nodes g) eqn:En; [destruct (edges g) eqn:Ee; [exfalso; apply NE; split; assumption|discriminate]|discriminate]. }
    destruct (continuous fits moments cont l g) as [d1|e] eqn:E2.
    2:{ destruct (nodes g) eqn:En; [destruct (edges g) eqn:Ee; [exfalso; apply NE; split; assumption|discriminate]|discriminate]. }
    destruct (categorical hist cat l g) as [d2|e] eqn:E3.
    2:{ destruct (nodes g) eqn:En; [destruct (edges g) eqn:Ee; [exfalso; apply NE; split; assumption|discriminate]|discriminate]. }
    exists l, cat, cont, d1, d2. repeat match goal with |- _ /\ _ => split end; try reflexivity; try assumption.
    destruct (nodes g) eqn:En; [destruct (edges g) eqn:Ee; [exfalso; apply NE; split; assumption|]|]; injection H as <-; reflexivity.
  Qed.

  (** Nodes, edges and degrees are those of the graph; the edges of all graphs are added up as the sample size. *)
  Theorem C78_counts : forall p g p', wf g -> ~ empty g -> update p g = (p', None) ->
    num_nodes p' = Some (length (nodes g)) /\ num_edges p' = Some (length (edges g)) /\
    (exists d, avg_node_degree p' = Some d /\ (d * inject_Z (Z.of_nat (length (nodes g))) == inject_Z (2 * Z.of_nat (length (edges g))))%Q) /\
    sample_size p' = sample_size p + length (edges g).
  Proof.
    intros p g p' W NE H. destruct (update_ok _ _ _ NE H) as (l & cat & cont & d1 & d2 & _ & _ & _ & _ & ->). cbn.
    repeat match goal with |- _ /\ _ => split end; try reflexivity. eexists. split; [reflexivity|]. unfold avg_degree. rewrite handshake by exact W.
    assert (P : (0 < length (nodes g))%nat).
    { destruct (nodes g) as [|n ns] eqn:En; [|cbn; lia]. destruct (edges g) as [|((u, v), a) es] eqn:Ee; [exfalso; apply NE; split; assumption|].
      destruct W as (_ & W). rewrite Ee in W. destruct (W u v a (or_introl eq_refl)) as (I & _). rewrite En in I. destruct I. }
    rewrite (Qmult_comm _ (inject_Z (Z.of_nat (length (nodes g))))), Qmult_div_r.
    - rewrite Nat2Z.inj_mul. reflexivity.
    - intros X. unfold Qeq in X. cbn in X. lia.
  Qed.

  (** The component reported has the most nodes; what is reported is the number of its edges. *)
  Theorem C78_component : forall p g p', wf g -> nodes g <> [] -> update p g = (p', None) ->
    exists v c es, In v (nodes g) /\ component g v c /\ (forall w c', In w (nodes g) -> component g w c' -> length c' <= length c) /\
      max_comp p' = Some (length es) /\ NoDup c /\
      (exists f, es = filter f (edges g) /\ forall e, In e (edges g) -> (f e = true <-> In (fst (fst e)) c /\ In (snd (fst e)) c)).
  Proof.
    intros p g p' W NE H. destruct (update_ok p g p') as (l & cat & cont & d1 & d2 & _ & _ & _ & _ & ->); [intros (X & _); contradiction|exact H|].
    cbn [max_comp]. unfold max_component. set (c := largest (comps g [] (nodes g))).
    assert (NC : comps g [] (nodes g) <> []) by (destruct (nodes g) as [|n ns]; [congruence|discriminate]).
    destruct (largest_spec _ NC) as (IC & MC). fold c in IC, MC. destruct (comps_in _ _ _ _ IC) as (v & Iv & Ev).
    assert (CV : component g v c) by (rewrite Ev; apply class_component, W).
    exists v, c, (filter (fun e : edge N => lmem c (fst (fst e)) && lmem c (snd (fst e)))%bool (edges g)).
    repeat match goal with |- _ /\ _ => split end; try assumption; try reflexivity; [|apply CV|].
    - intros w c' Iw Cw. destruct (comps_cover g (nodes g) [] w Iw) as [(s & [] & _) | (x & Cx & Jx)].
      apply MC in Jx. rewrite (same_class _ _ _ Cx) in Jx. rewrite (component_length g w c' _ Cw (class_component g w W)). exact Jx.
    - eexists. split; [reflexivity|]. intros e _. cbn beta. rewrite Bool.andb_true_iff, !lmem_In. reflexivity.
  Qed.
  (** If all nodes are connected, that is the number of edges. *)
  Theorem C78_connected : forall p g p', wf g -> ~ empty g -> (forall u v, In u (nodes g) -> In v (nodes g) -> linked (edges g) u v) ->
    update p g = (p', None) -> max_comp p' = Some (length (edges g)).
  Proof.
    intros p g p' W NE C H.
    assert (NN : nodes g <> []).
    { intros En. destruct (edges g) as [|((u, v), a) es] eqn:Ee; [apply NE; split; assumption|].
      destruct W as (_ & W). rewrite Ee in W. destruct (W u v a (or_introl eq_refl)) as (I & _). rewrite En in I. destruct I. }
    destruct (C78_component _ _ _ W NN H) as (v & c & es & Iv & (_ & Cc) & _ & -> & _ & f & -> & Hf). do 2 f_equal.
    assert (F : forall l, (forall e, In e l -> In e (edges g)) -> filter f l = l).
    { induction l as [|e l IH]; intros I; [reflexivity|]. cbn [filter]. assert (E : f e = true).
      { apply Hf; [apply I; left; reflexivity|]. destruct e as ((a, b), x). destruct W as (_ & W). destruct (W a b x (I _ (or_introl eq_refl))) as (Ia & Ib & _).
        split; apply Cc; split; auto. }
      rewrite E, IH; [reflexivity|]. intros y J. apply I. right. exact J. }
    apply F. auto.
  Qed.

  (** Every attribute is either categorical, having a whole number among its values, or continuous, having none; every edge has it. *)
  Theorem C78_attributes : forall p g p', lists_sets -> wf g -> ~ empty g -> update p g = (p', None) ->
    uniform g /\
    exists cat cont, cat_attributes p' = Some cat /\ cont_attributes p' = Some cont /\ NoDup cat /\ NoDup cont /\
      (forall a, In a cat <-> attribute g a /\ exists q, In q (values g a) /\ whole q) /\
      (forall a, In a cont <-> attribute g a /\ forall q, In q (values g a) -> ~ whole q).
  Proof.
    intros p g p' LS W NE H. destruct (update_ok _ _ _ NE H) as (l & cat & cont & d1 & d2 & E1 & E2 & E3 & E4 & ->). cbn.
    destruct (attributes_spec LS _ _ E1) as (NL & AL). destruct (sort_spec _ _ _ _ E2 NL) as (N1 & N2 & H1 & H2 & H3).
    assert (U : uniform g).
    { intros a e A Ie. apply AL in A. destruct (H3 a A) as ([|] & Hc).
      - destruct (categorical_spec _ _ _ _ E4) as (K & P). assert (I : In a (dkeys d2)) by (rewrite K; exact A). apply in_map_iff in I.
        destruct I as ((a', x) & Ea & I). cbn in Ea. subst a'. destruct (P a x I) as [(_ & data & D & _) | (X & _)].
        + eapply data_numbers; eauto.
        + exfalso. apply X, H1. auto.
      - destruct (proj1 (has_integer_false _ _) Hc e Ie) as (q & D & _). eauto. }
    split; [exact U|]. exists cat, cont. repeat match goal with |- _ /\ _ => split end; try reflexivity; try assumption.
    - intros a. rewrite H1, AL. split; intros (A & B); (split; [exact A|]).
      + destruct (has_integer_true _ _ B) as (e & q & Ie & D & Wq). exists q. split; [|exact Wq]. unfold values. apply in_map_iff. exists e. rewrite D. auto.
      + destruct B as (q & I & Wq). destruct (H3 a (proj2 (AL a) A)) as ([|] & Hc); [exact Hc|]. exfalso.
        unfold values in I. apply in_map_iff in I. destruct I as (e & E & Ie). destruct (proj1 (has_integer_false _ _) Hc e Ie) as (q' & D & NW).
        rewrite D in E. subst q'. contradiction.
    - intros a. rewrite H2, AL. split; intros (A & B); (split; [exact A|]).
      + intros q I Wq. unfold values in I. apply in_map_iff in I. destruct I as (e & E & Ie). destruct (proj1 (has_integer_false _ _) B e Ie) as (q' & D & NW).
        rewrite D in E. subst q'. contradiction.
      + destruct (H3 a (proj2 (AL a) A)) as ([|] & Hc); [|exact Hc]. exfalso. destruct (has_integer_true _ _ Hc) as (e & q & Ie & D & Wq).
        apply (B q); [|exact Wq]. unfold values. apply in_map_iff. exists e. rewrite D. auto.
  Qed.

  (** The distributions: a histogram of all values for categorical attributes, for continuous ones the last of the best fits. *)
  Theorem C78_distributions : forall p g p', lists_sets -> wf g -> ~ empty g -> update p g = (p', None) ->
    exists d1 d2, cont_distribution p' = Some d1 /\ cat_distribution p' = Some d2 /\ NoDup (dkeys d1) /\ NoDup (dkeys d2) /\
      (forall a, In a (dkeys d1) <-> attribute g a) /\ (forall a, In a (dkeys d2) <-> attribute g a) /\
      (forall a x, In (a, x) d2 -> ((exists q, In q (values g a) /\ whole q) /\ x = Some (hist (values g a))) \/ ((forall q, In q (values g a) -> ~ whole q) /\ x = None)) /\
      (forall a x, In (a, x) d1 -> ((exists q, In q (values g a) /\ whole q) /\ x = None) \/
         ((forall q, In q (values g a) -> ~ whole q) /\ exists f, x = Some f /\ best (fits (values g a)) (name f) (properties f) (scale f) /\
           mean f = map (fun y => fst (moments (name f) y)) (properties f) /\ variance f = map (fun y => snd (moments (name f) y)) (properties f))).
  Proof.
    intros p g p' LS W NE H. destruct (C78_attributes _ _ _ LS W NE H) as (U & cat' & cont' & A1 & A2 & _ & _ & Hcat & Hcont).
    destruct (update_ok _ _ _ NE H) as (l & cat & cont & d1 & d2 & E1 & E2 & E3 & E4 & ->). cbn in *. injection A1 as <-. injection A2 as <-.
    destruct (attributes_spec LS _ _ E1) as (NL & AL). destruct (continuous_spec _ _ _ _ E3) as (K1 & P1). destruct (categorical_spec _ _ _ _ E4) as (K2 & P2).
    assert (DV : forall a, attribute g a -> data_of a (edges g) = Ok (values g a)) by (intros a A; apply data_spec; intros e Ie; apply U; assumption).
    assert (DEC : forall a, In a cat \/ ~ In a cat) by (intros a; destruct (lmem cat a) eqn:M; [left; apply lmem_In, M|right; apply lmem_false, M]).
    assert (SP : forall a, attribute g a -> In a cat \/ In a cont).
    { intros a A. destruct (sort_spec _ _ _ _ E2 NL) as (_ & _ & H1 & H2 & H3). apply AL in A. destruct (H3 a A) as ([|] & Hc); [left; apply H1|right; apply H2]; auto. }
    assert (DJ : forall a, In a cat -> In a cont -> False).
    { intros a X Y. apply Hcat in X. apply Hcont in Y. destruct X as (_ & q & I & Wq), Y as (_ & B). apply (B q I Wq). }
    exists d1, d2. repeat match goal with |- _ /\ _ => split end; try reflexivity; try (rewrite K1; assumption); try (rewrite K2; assumption).
    - intros a x I. assert (A : attribute g a) by (apply AL; rewrite <- K2; apply (in_map fst) in I; exact I).
      destruct (P2 a x I) as [(C & data & D & ->) | (C & ->)].
      + left. split; [apply Hcat in C; apply C|]. rewrite (DV a A) in D. injection D as <-. reflexivity.
      + right. split; [|reflexivity]. destruct (SP a A) as [X | X]; [contradiction|]. apply Hcont in X. apply X.
    - intros a x I. assert (A : attribute g a) by (apply AL; rewrite <- K1; apply (in_map fst) in I; exact I).
      destruct (P1 a x I) as [(C & data & f & D & B & ->) | (C & ->)].
      + right. split; [apply Hcont in C; apply C|]. rewrite (DV a A) in D. injection D as <-. exists f. split; [reflexivity|]. apply best_fit_spec. exact B.
      + left. split; [|reflexivity]. destruct (SP a A) as [X | X]; [apply Hcat in X; apply X|contradiction].
  Qed.

  (** Exactly these graphs can be profiled: empty ones; those whose edges have the same attributes, all numbers, and whose continuous
      attributes are fitted by some candidate with negative log-likelihood of at most 1000. *)
  Theorem C78_defined : forall p g, lists_sets -> wf g ->
    ((exists p', update p g = (p', None)) <->
     empty g \/ (uniform g /\ forall a, attribute g a -> (forall q, In q (values g a) -> ~ whole q) -> exists c, In c (fits (values g a)) /\ (snd c <= inject_Z 1000)%Q)).
  Proof.
    intros p g LS W. split.
    - intros (p' & H). assert (D : empty g \/ ~ empty g).
      { unfold empty. destruct (nodes g); [|right; intros (X & _); discriminate]. destruct (edges g); [left; auto|right; intros (_ & X); discriminate]. }
      destruct D as [D | D]; [left; exact D|]. right. split; [apply (C78_attributes _ _ _ LS W D H)|]. intros a A B.
      destruct (C78_distributions _ _ _ LS W D H) as (d1 & d2 & _ & _ & _ & _ & K1 & _ & _ & P). apply K1 in A. apply in_map_iff in A. destruct A as ((a', x) & Ea & I).
      cbn in Ea. subst a'. destruct (P a x I) as [((q & Iq & Wq) & _) | (_ & f & _ & (L & l1 & l2 & E & _) & _)]; [exfalso; apply (B q Iq Wq)|].
      exists (name f, properties f, scale f). split; [|exact L]. rewrite E. apply in_or_app. right. left. reflexivity.
    - intros [(E1 & E2) | (U & F)]; unfold update, GraphModel.update.
      + rewrite E1, E2. eauto.
      + destruct (uniform_attributes g W U) as (l & E1). destruct (attributes_spec LS _ _ E1) as (NL & AL).
        assert (D : forall a, In a l -> exists c, has_integer a (edges g) = Ok c).
        { intros a I. apply AL in I. apply has_integer_defined. intros e Ie. apply U; assumption. }
        assert (DV : forall a, In a l -> data_of a (edges g) = Ok (values g a)) by (intros a A; apply AL in A; apply data_spec; intros e Ie; apply U; assumption).
        destruct (sort_defined g l D) as ((cat, cont) & E2). destruct (sort_spec _ _ _ _ E2 NL) as (_ & _ & H1 & H2 & _).
        destruct (continuous_defined g cont l) as (d1 & E3).
        { intros a I C. exists (values g a). apply H2 in C. destruct C as (_ & C).
          destruct (proj2 (best_fit_defined (fits (values g a)))) as (f & Ef); [|exists f; auto]. apply F; [apply AL, I|].
          intros q Iq Wq. unfold values in Iq. apply in_map_iff in Iq. destruct Iq as (e & E & Ie). destruct (proj1 (has_integer_false _ _) C e Ie) as (q' & Dq & NW).
          rewrite Dq in E. subst q'. contradiction. }
        destruct (categorical_defined g cat l) as (d2 & E4); [intros a I _; eauto|].
        unfold cat_cont. rewrite E1. cbn [bind]. rewrite E2, E3, E4. destruct (nodes g), (edges g); eauto.
  Qed.
  (** An empty graph changes nothing. *)
  Theorem C78_empty : forall p g, empty g -> update p g = (p, None).
  Proof. intros p g (E1 & E2). unfold update, GraphModel.update. rewrite E1, E2. reflexivity. Qed.
End Props.

(** Examples and refutations: nodes are numbers; one kind of fit, a normal distribution. *)
Definition ident (l : list string) : list string := l.
Lemma ident_sets : lists_sets ident. Proof. intros l _. apply Permutation_refl. Qed.
Definition normal_fit (mle : Q) (d : list Q) : list (string * list Q * Q) := [("norm", [1 # 2; 2 # 1], mle)].
(** scipy: the first argument of [norm.stats] is the mean, the standard deviation is 1 if not given *)
Definition normal_moments (n : string) (x : Q) : Q * Q := (x, 1%Q).
Definition some_hist (d : list Q) : list nat * list Q := ([length d], [0%Q; 1%Q]).
Definition up (mle : Q) := update (N := nat) ident (normal_fit mle) normal_moments some_hist.
Definition one (a : string) (q : Q) : attrs := [(a, Some q)].
Definition path : graph nat := {| nodes := [1; 2; 3; 4; 5; 6; 7];
  edges := [(1, 2, one "w" (1 # 2)); (2, 3, one "w" (3 # 2)); (1, 3, one "w" (5 # 2)); (3, 3, one "w" (1 # 3)); (4, 5, one "w" (1 # 5)); (5, 6, one "w" (1 # 6)); (6, 7, one "w" (1 # 7))] |}.

(** The component reported need not be the one with the most edges. *)
Theorem C78_most_edges_refuted : ~ forall (g : graph nat) p' v k, wf g -> up 0 new_profile g = (p', None) -> In v (nodes g) ->
  (k <= length (filter (fun e => conn (edges g) v (fst (fst e))) (edges g)))%nat -> exists m, max_comp p' = Some m /\ k <= m.
Proof.
  intros H. destruct (H path (fst (up 0 new_profile path)) 1 4) as (m & E & L).
  - split; [cbn; repeat constructor; cbn; intuition discriminate|]. intros u v a I. cbn [path edges In] in I.
    repeat destruct I as [E | I]; try (injection E as <- <- <-; cbn; split; [tauto|split; [tauto|repeat constructor; intros []]]). destruct I.
  - vm_compute. reflexivity.
  - cbn. auto.
  - vm_compute. repeat constructor.
  - vm_compute in E. injection E as <-. lia.
Qed.
(** Edges of which one lacks an attribute cannot be profiled, though numbers of nodes and edges are already those of the new graph. *)
Definition ragged : graph nat := {| nodes := [1; 2; 3]; edges := [(1, 2, [("w", Some (1 # 2)%Q); ("x", Some (1 # 2)%Q)]); (2, 3, one "w" (1 # 2))] |}.
Theorem C78_missing_refuted : ~ forall (g : graph nat) p, wf g -> (forall u v a k x, In (u, v, a) (edges g) -> In (k, x) a -> x <> None) -> snd (up 0 p g) = None.
Proof.
  intros H. specialize (H ragged new_profile). assert (X : snd (up 0 new_profile ragged) = None); [apply H|clear -X; vm_compute in X; discriminate X].
  - split; [cbn; repeat constructor; cbn; intuition discriminate|]. intros u v a I. cbn [ragged edges In] in I.
    destruct I as [E | [E | []]]; injection E as <- <- <-; cbn; (split; [tauto|split; [tauto|]]); repeat constructor; cbn; intuition discriminate.
  - intros u v a k x I J. cbn [ragged edges In] in I. destruct I as [E | [E | []]]; injection E as <- <- <-; cbn in J; intuition congruence.
Qed.
Theorem C78_failed_refuted : ~ forall (g : graph nat) p p' e, up 0 p g = (p', Some e) -> p' = p.
Proof. intros H. specialize (H ragged new_profile _ _ eq_refl). clear -H. vm_compute in H. discriminate H. Qed.
(** A continuous attribute that no candidate fits with a negative log-likelihood of at most 1000 (as for all large graphs) raises. *)
Theorem C78_large_refuted : ~ forall (g : graph nat) mle, wf g -> uniform g -> snd (up mle new_profile g) = None.
Proof.
  intros H. assert (X := H {| nodes := [1; 2]; edges := [(1, 2, one "w" (1 # 2))] |} (inject_Z 1001)).
  assert (Y : snd (up (inject_Z 1001) new_profile {| nodes := [1; 2]; edges := [(1, 2, one "w" (1 # 2))] |}) = None); [apply X|clear -Y; vm_compute in Y; discriminate Y].
  - split; [cbn; repeat constructor; cbn; intuition discriminate|]. intros u v a [E | []]. injection E as <- <- <-. cbn. split; [tauto|split; [tauto|]].
    repeat constructor. intros [].
  - intros a e (e' & [<- | []] & I) [<- | []]. cbn in I. destruct I as [<- | []]. cbn. eauto.
Qed.
(** A second graph replaces the statistics of the first, but the sample size is that of both. *)
Theorem C78_again_refuted : ~ forall (g1 g2 : graph nat) p1 p2 , up 0 new_profile g1 = (p1, None) -> up 0 p1 g2 = (p2, None) ->
  num_edges p2 = Some (sample_size p2).
Proof.
  intros H. specialize (H path {| nodes := [1; 2]; edges := [(1, 2, one "w" (1 # 2))] |} _ _ eq_refl eq_refl). clear -H. vm_compute in H. discriminate H.
Qed.
(** The moments reported are not those of the fitted distribution: a normal distribution fitted with mean 1/2 and standard deviation 2
    is reported with two means and with variance 1. *)
Theorem C78_moments_refuted : ~ forall (g : graph nat) p' d f m s, up 0 new_profile g = (p', None) -> cont_distribution p' = Some d ->
  dget d "w" = Some (Some f) -> name f = "norm" -> properties f = [m; s] -> mean f = [m] \/ (exists v, In v (variance f) /\ (v == s * s)%Q).
Proof.
  intros H. destruct (H path _ _ _ _ _ eq_refl eq_refl eq_refl eq_refl eq_refl) as [X | (v & I & X)].
  - clear -X. vm_compute in X. discriminate X.
  - vm_compute in I. destruct I as [<- | [<- | []]]; vm_compute in X; discriminate X.
Qed.
Example C78_example : let p := fst (up 7 new_profile path) in
  (num_nodes p, num_edges p, avg_node_degree p, max_comp p) = (Some 7, Some 7, Some (14 # 7)%Q, Some 3) /\
  cat_attributes p = Some [] /\ cont_attributes p = Some ["w"] /\
  cat_attributes (fst (up 7 new_profile {| nodes := [1; 2; 3]; edges := [(1, 2, one "w" (1 # 2)); (2, 3, one "w" (4 # 2))] |})) = Some ["w"].
Proof. vm_compute. repeat split. Qed.
