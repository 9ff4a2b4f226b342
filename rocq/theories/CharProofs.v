(** Lemmas about CharModel: the layout of the model inputs. *)
From Coq Require Import QArith List Lia Bool.
From Verif Require Import PyCommon ListFacts CharModel.
Import ListNotations.
Local Open Scope nat_scope.

(** A layout lists the model inputs, each as the pieces of texts joined in it. *)
Section Layout.
  Context {A : Type}.

  (** [takes t l l']: text [t] is made of the first pieces of [l] and [l'] is left.  A text ends inside
      an input only if another piece follows after a separator; otherwise it ends or goes on in the next
      input where an input ends. *)
  Inductive takes : list A -> list (list (list A)) -> list (list (list A)) -> Prop :=
  | T_mid t ps pss : t <> [] -> ps <> [] -> takes t ((t :: ps) :: pss) (ps :: pss)
  | T_last t pss : t <> [] -> takes t ([t] :: pss) pss
  | T_more p t pss l : p <> [] -> takes t pss l -> takes (p ++ t) ([p] :: pss) l.

  Inductive all_take : list (list A) -> list (list (list A)) -> Prop :=
  | A_nil : all_take [] []
  | A_empty ts l : all_take ts l -> all_take ([] :: ts) l
  | A_cons t ts l l' : takes t l l' -> all_take ts l' -> all_take (t :: ts) l.

  (** [weave [t1; t2; …] [g1; g2; …] = t1 ++ g1 ++ t2 ++ g2 ++ …] *)
  Fixpoint weave (ts gs : list (list A)) : list A :=
    match ts, gs with
    | t :: ts, g :: gs => t ++ g ++ weave ts gs
    | _, _ => []
    end.

  Fixpoint gjoin (sep : list A) (ps : list (list A)) : list A :=
    match ps with
    | [] => []
    | [p] => p
    | p :: r => p ++ sep ++ gjoin sep r
    end.

  Lemma gjoin_cons sep p ps : ps <> [] -> gjoin sep (p :: ps) = p ++ sep ++ gjoin sep ps.
  Proof. destruct ps; [contradiction|reflexivity]. Qed.

  Lemma gjoin_snoc sep ps p : ps <> [] -> gjoin sep (ps ++ [p]) = gjoin sep ps ++ sep ++ p.
  Proof.
    induction ps as [|q ps IH]; [contradiction|]. intros _. destruct ps as [|r ps]; [reflexivity|].
    rewrite <- app_comm_cons, gjoin_cons; [|intro H; symmetry in H; apply (app_cons_not_nil _ _ _ H)].
    rewrite IH by discriminate. rewrite (gjoin_cons sep q (r :: ps)) by discriminate.
    rewrite <- !app_assoc. reflexivity.
  Qed.

  Lemma gjoin_pos sep ps : ps <> [] -> Forall (fun p => p <> []) ps -> 0 < length (gjoin sep ps).
  Proof.
    destruct ps as [|p ps]; [contradiction|]. intros _ F. inversion F as [|? ? N F']; subst.
    destruct p as [|a p]; [contradiction|]. destruct ps; cbn; lia.
  Qed.

  Lemma takes_ne t l l' : takes t l l' -> t <> [].
  Proof. induction 1; auto. destruct p; [contradiction|discriminate]. Qed.

  Lemma all_take_step p rest ts pss :
    p <> [] -> all_take (rest :: ts) pss -> all_take ((p ++ rest) :: ts) ([p] :: pss).
  Proof.
    intros N H. inversion H as [|? ? H'|? ? ? l' T H']; subst.
    - rewrite app_nil_r. eapply A_cons; [apply T_last; exact N|exact H'].
    - eapply A_cons; [apply T_more; [exact N|exact T]|exact H'].
  Qed.

  (** The texts, with a separator or nothing after each, are the concatenation of the inputs. *)
  Lemma takes_weave sep t l l' :
    takes t l l' -> exists g, (g = [] \/ g = sep) /\
      concat (map (gjoin sep) l) = t ++ g ++ concat (map (gjoin sep) l').
  Proof.
    induction 1 as [t ps pss N N'|t pss N|p t pss l N T IH].
    - exists sep. split; [auto|]. cbn [map concat]. rewrite gjoin_cons by exact N'. rewrite <- !app_assoc. reflexivity.
    - exists []. split; [auto|]. reflexivity.
    - destruct IH as (g & G & E). exists g. split; [exact G|]. cbn [map concat gjoin]. rewrite E, <- app_assoc. reflexivity.
  Qed.

  Lemma all_take_weave sep ts l :
    all_take ts l -> exists gs, length gs = length ts /\ Forall (fun g => g = [] \/ g = sep) gs /\
      concat (map (gjoin sep) l) = weave ts gs.
  Proof.
    induction 1 as [|ts l _ (gs & Hl & F & E)|t ts l l' T _ (gs & Hl & F & E)].
    - exists []. cbn. auto.
    - exists ([] :: gs). cbn [length weave app]. split; [lia|]. split; [constructor; auto|exact E].
    - destruct (takes_weave sep _ _ _ T) as (g & G & E'). exists (g :: gs). cbn [length weave].
      split; [lia|]. split; [constructor; auto|]. rewrite E', E. reflexivity.
  Qed.
End Layout.

(** * Cutting predictions back *)
Section MatchProofs.
  Context {A X : Type}.
  Variable sep : list A.

  Definition fits (ps : list (list A)) (r : list X) : Prop := length r = length (gjoin sep ps).

  Definition ends_from (ind : nat) (rs : list (list X)) : list nat := cumsum ind (map (@length X) rs).

  Lemma pop_app xs : forall cur ys ind,
    Forall (fun x => x <= ind) xs -> Forall (fun y => ind < y) ys ->
    pop cur (xs ++ ys) ind = (last xs cur, ys).
  Proof.
    induction xs as [|x xs IH]; intros cur ys ind Fx Fy.
    - destruct ys as [|y ys]; [reflexivity|]. inversion Fy; subst. cbn [app pop last].
      destruct (y <=? ind) eqn:E; [apply Nat.leb_le in E; lia|reflexivity].
    - inversion Fx; subst. cbn [app pop]. destruct (x <=? ind) eqn:E; [|apply Nat.leb_gt in E; lia].
      rewrite IH by assumption. destruct xs as [|x' xs]; [reflexivity|]. f_equal.
      clear. revert x x' cur. induction xs as [|y xs IH]; intros x x' cur; [reflexivity|].
      change (last (x' :: y :: xs) x = last (x' :: y :: xs) cur) in |- * || idtac.
      change (last (y :: xs) x = last (y :: xs) cur). apply IH; exact 0.
  Qed.

  Lemma cumsum_gt ls : forall ind, Forall (fun n => 0 < n) ls -> Forall (fun y => ind < y) (cumsum ind ls).
  Proof.
    induction ls as [|n ls IH]; intros ind F; cbn; [constructor|]. inversion F; subst. constructor; [lia|].
    eapply Forall_impl; [|apply IH; assumption]. cbn. intros; lia.
  Qed.

  Definition solid (ps : list (list A)) : Prop := ps <> [] /\ Forall (fun p => p <> []) ps.

  Lemma fits_pos l rs : Forall solid l -> Forall2 fits l rs -> Forall (fun n => 0 < n) (map (@length X) rs).
  Proof.
    intros S F. induction F as [|ps r l rs H F IH]; cbn; [constructor|]. inversion S as [|? ? [N Fp] S']; subst.
    constructor; [rewrite H; apply gjoin_pos; assumption|apply IH; exact S'].
  Qed.

  (** What one text reads, and the state afterwards. *)
  Lemma takes_match t l l' : takes t l l' -> Forall solid l -> forall ind rs, Forall2 fits l rs ->
    exists p q rs' xs,
      concat rs = p ++ q ++ concat rs' /\ length p = length t /\ Forall2 fits l' rs' /\ Forall solid l' /\
      (q = [] \/ length q = length sep) /\
      ends_from ind rs = xs ++ ends_from (ind + length p + length q) rs' /\
      Forall (fun x => x <= ind + length p) xs /\
      Forall (fun y => ind + length p < y) (ends_from (ind + length p + length q) rs') /\
      ((q = [] /\ xs <> [] /\ last xs 0 = ind + length p) \/
       (length q = length sep /\ (xs = [] \/ last xs 0 < ind + length p) /\
          exists y ys, ends_from (ind + length p + length q) rs' = y :: ys /\ ind + length p + length sep < y)).
  Proof.
    induction 1 as [t ps pss N N'|t pss N|p0 t pss l N T IH]; intros S ind rs F;
      inversion F as [|? r ? rs0 H F']; subst; inversion S as [|? ? S1 S2]; subst.
    - destruct S1 as [_ S1]. inversion S1 as [|? ? _ S1']; subst.
      unfold fits in H. rewrite gjoin_cons, !app_length in H by exact N'.
      pose proof (gjoin_pos sep ps N' S1') as Hp.
      assert (E1 : r = firstn (length t) r ++ firstn (length sep) (skipn (length t) r) ++ skipn (length sep) (skipn (length t) r))
        by (rewrite firstn_skipn, firstn_skipn; reflexivity).
      remember (firstn (length t) r) as p eqn:Ep. remember (firstn (length sep) (skipn (length t) r)) as q eqn:Eq.
      remember (skipn (length sep) (skipn (length t) r)) as r' eqn:Er.
      assert (Lp : length p = length t) by (subst p; rewrite firstn_length; lia).
      assert (Lq : length q = length sep) by (subst q; rewrite firstn_length, skipn_length; lia).
      assert (Lr : length r' = length (gjoin sep ps)) by (subst r'; rewrite !skipn_length; lia).
      exists p, q, (r' :: rs0), []. cbn [concat]. rewrite E1 at 1. rewrite <- !app_assoc.
      split; [reflexivity|]. split; [exact Lp|]. split; [constructor; assumption|].
      split; [constructor; [split; assumption|exact S2]|]. split; [right; exact Lq|].
      assert (Ee : ends_from ind (r :: rs0) = ends_from (ind + length p + length q) (r' :: rs0)).
      { unfold ends_from. cbn [map cumsum]. replace (ind + length p + length q + length r') with (ind + length r) by lia. reflexivity. }
      split; [exact Ee|]. split; [constructor|]. split.
      + assert (K : Forall (fun n => 0 < n) (map (@length X) (r' :: rs0))).
        { constructor; [lia|]. eapply fits_pos; eassumption. }
        eapply Forall_impl; [|apply cumsum_gt; exact K]. cbn. intros; lia.
      + right. split; [exact Lq|]. split; [left; reflexivity|]. exists (ind + length p + length q + length r').
        eexists. split; [reflexivity|]. lia.
    - unfold fits in H. cbn [gjoin] in H. exists r, [], rs0, [ind + length r]. cbn [concat app length].
      rewrite !Nat.add_0_r.
      split; [reflexivity|]. split; [exact H|]. split; [exact F'|]. split; [exact S2|]. split; [left; reflexivity|].
      split; [reflexivity|]. split; [constructor; [lia|constructor]|]. split.
      + apply cumsum_gt. eapply fits_pos; eassumption.
      + left. split; [reflexivity|]. split; [discriminate|reflexivity].
    - unfold fits in H. cbn [gjoin] in H.
      destruct (IH S2 (ind + length r) rs0 F') as (p & q & rs' & xs & E & Lp & Fr & Sr & Hq & Ee & Fx & Fy & D).
      exists (r ++ p), q, rs', ((ind + length r) :: xs). cbn [concat]. rewrite E, <- app_assoc, !app_length.
      replace (ind + (length r + length p)) with (ind + length r + length p) by lia.
      split; [reflexivity|]. split; [lia|]. split; [exact Fr|]. split; [exact Sr|]. split; [exact Hq|].
      split; [unfold ends_from in *; cbn [map cumsum app]; rewrite Ee; reflexivity|].
      split; [constructor; [lia|exact Fx]|]. split; [exact Fy|].
      assert (0 < length p) by (pose proof (takes_ne _ _ _ T); destruct t; [contradiction|cbn in Lp; lia]).
      destruct D as [(-> & Nx & La)|(Lq & D & y & ys & Ey & Hy)].
      + left. split; [reflexivity|]. split; [discriminate|]. destruct xs; [contradiction|exact La].
      + right. split; [exact Lq|]. split; [right; destruct xs as [|x xs]; [cbn; lia|destruct D as [D|D]; [discriminate|exact D]]|].
        exists y, ys. auto.
  Qed.

  Lemma last_default (xs : list nat) a b : xs <> [] -> last xs a = last xs b.
  Proof.
    induction xs as [|x xs IH]; [contradiction|]. intros _. destruct xs as [|y xs]; [reflexivity|].
    change (last (y :: xs) a = last (y :: xs) b). apply IH. discriminate.
  Qed.

  Lemma fits_length l rs : Forall2 fits l rs -> length (concat (map (gjoin sep) l)) = length (concat rs).
  Proof.
    induction 1 as [|ps r l rs H _ IH]; [reflexivity|]. unfold fits in H. cbn [map concat]. rewrite !app_length. lia.
  Qed.

  Lemma match_loop_weave ts l : all_take ts l -> Forall solid l -> forall done rs, Forall2 fits l rs ->
    exists outs gs qs,
      match_loop (length sep) (done ++ concat rs) (map (@length A) ts) (length done) (ends_from (length done) rs) = outs
      /\ Forall2 (fun t o => length o = length t) ts outs
      /\ length gs = length ts
      /\ Forall (fun g => g = [] \/ g = sep) gs
      /\ Forall2 (fun g q => length q = length g) gs qs
      /\ concat (map (gjoin sep) l) = weave ts gs
      /\ concat rs = weave outs qs.
  Proof.
    induction 1 as [|ts l _ IH|t ts l l' T _ IH]; intros S done rs F.
    - inversion F; subst. exists [], [], []. repeat split; constructor.
    - destruct (IH S done rs F) as (outs & gs & qs & E & F2 & Hl & G & Q & V & W). exists ([] :: outs), ([] :: gs), ([] :: qs).
      cbn [map length match_loop weave app]. rewrite E. repeat split; try (constructor; auto); auto.
    - destruct (takes_match _ _ _ T S (length done) rs F) as (p & q & rs' & xs & E & Lp & Fr & Sr & Hq & Ee & Fx & Fy & D).
      destruct (takes_weave sep _ _ _ T) as (g & Hg & Eg).
      assert (Lg : length q = length g).
      { pose proof (fits_length _ _ F) as L1. pose proof (fits_length _ _ Fr) as L2.
        rewrite E, Eg, !app_length in L1. lia. }
      destruct (IH Sr (done ++ p ++ q) rs' Fr) as (outs & gs & qs & Em & F2 & Hl & G & Q & V & W).
      exists (p :: outs), (g :: gs), (q :: qs).
      split; [|split; [constructor; [exact Lp|exact F2]|split; [cbn; lia|split; [constructor; assumption|split; [constructor; assumption|
        split; [cbn [weave]; rewrite Eg, V; reflexivity|cbn [weave]; rewrite E, W; reflexivity]]]]]].
      assert (Np : 0 < length t) by (pose proof (takes_ne _ _ _ T); destruct t; [contradiction|cbn; lia]).
      cbn [map]. destruct (length t) as [|n] eqn:En; [lia|]. cbn [match_loop]. rewrite <- Lp.
      rewrite Ee. rewrite skipn_app, Nat.sub_diag, skipn_all2 by lia. cbn [skipn app]. rewrite E.
      rewrite firstn_app, Nat.sub_diag, firstn_all, firstn_O, app_nil_r.
      rewrite !app_length in Em. rewrite <- !app_assoc in Em. rewrite Nat.add_assoc in Em.
      set (ys := ends_from (length done + length p + length q) rs') in *.
      destruct (xs ++ ys) as [|e0 es] eqn:Exy.
      + apply app_eq_nil in Exy. destruct Exy as [-> Ey].
        destruct D as [(_ & N & _)|(_ & _ & y & ys' & Ey' & _)]; [contradiction|congruence].
      + rewrite <- Exy. rewrite pop_app by assumption.
        destruct D as [(-> & N & La)|(Lq & D & y & ys' & Ey & Hy)].
        * rewrite (last_default xs e0 0 N), La, Nat.ltb_irrefl.
          destruct (length done + length p + length sep <? length done + length p) eqn:B; [apply Nat.ltb_lt in B; lia|].
          cbn [orb]. f_equal. cbn [length] in Em, ys. rewrite Nat.add_0_r in Em. subst ys. rewrite Nat.add_0_r in *. cbn [app] in *. exact Em.
        * assert (B : (last xs e0 <? length done + length p) || (length done + length p + length sep <? last xs e0) = true).
          { apply orb_true_iff. destruct xs as [|x xs].
            - right. apply Nat.ltb_lt. cbn [app last] in *. rewrite Ey in Exy. injection Exy as <- _. exact Hy.
            - left. apply Nat.ltb_lt. rewrite (last_default (x :: xs) e0 0) by discriminate. destruct D as [D|D]; [discriminate|exact D]. }
          rewrite B. f_equal. rewrite Lq in Em. exact Em.
  Qed.

  Lemma all_take_layout ts l : all_take ts l -> Forall solid l ->
    forall rs, Forall2 fits l rs ->
    exists gs qs,
      Forall2 (fun t o => length o = length t) ts (match_sentence_lengths (length sep) (map (@length A) ts) rs)
      /\ length gs = length ts /\ Forall (fun g => g = [] \/ g = sep) gs
      /\ Forall2 (fun g q => length q = length g) gs qs
      /\ concat (map (gjoin sep) l) = weave ts gs
      /\ concat rs = weave (match_sentence_lengths (length sep) (map (@length A) ts) rs) qs.
  Proof.
    intros H S rs F. destruct (match_loop_weave ts l H S [] rs F) as (outs & gs & qs & E & R).
    exists gs, qs. cbn [app length] in E. unfold ends_from in E. unfold match_sentence_lengths. rewrite E.
    exact R.
  Qed.
End MatchProofs.
