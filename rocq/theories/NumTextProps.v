(** * Properties of which cells are numbers *)
From Coq Require Import List Arith Bool ZArith Lia Ascii QArith Qabs Qpower.
From Coq Require String.
Import ListNotations.
From Verif Require Import PyCommon NumTextModel.
Local Open Scope Z_scope.

(** ** The texts: a grammar *)
Definition codes (l : text) : list Z := map (fun c => Z.of_nat (nat_of_ascii c)) l.
Definition blank (l : text) : Prop :=
  Forall (fun k => k = 32 \/ k = 9 \/ k = 10 \/ k = 11 \/ k = 12 \/ k = 13) (codes l).

(** Digits, with at most one underscore between two of them *)
Inductive digs : list Z -> list Z -> Prop :=
| digs_one k : 48 <= k <= 57 -> digs [k] [k - 48]
| digs_next k l ds : 48 <= k <= 57 -> digs l ds -> digs (k :: l) (k - 48 :: ds)
| digs_under k l ds : 48 <= k <= 57 -> digs l ds -> digs (k :: 95 :: l) (k - 48 :: ds).

Fixpoint value (ds : list Z) : Z :=
  match ds with [] => 0 | d :: r => d * 10 ^ Z.of_nat (length r) + value r end.

(** No sign, plus or minus *)
Inductive sgn : list Z -> bool -> Prop :=
| sgn_none : sgn [] false
| sgn_plus : sgn [43] false
| sgn_minus : sgn [45] true.

Inductive expo : list Z -> Z -> Prop :=
| expo_none : expo [] 0
| expo_some k s neg u ds : k = 101 \/ k = 69 -> sgn s neg -> digs u ds ->
    expo (k :: s ++ u) (if neg then - value ds else value ds).

(** The digits before and after the point, and the exponent *)
Inductive num : list Z -> list Z -> list Z -> Z -> Prop :=
| num_int a A x X : digs a A -> expo x X -> num (a ++ x) A [] X
| num_point a A x X : digs a A -> expo x X -> num (a ++ 46 :: x) A [] X
| num_frac a A b B x X : digs a A -> digs b B -> expo x X -> num (a ++ 46 :: b ++ x) A B X
| num_only b B x X : digs b B -> expo x X -> num (46 :: b ++ x) [] B X.

(** A word in capital or small letters *)
Definition word (l w : list Z) : Prop := Forall2 (fun c k => c = k \/ c = k - 32) l w.

(** What remains of a cell without white space and sign *)
Definition body (l : text) (neg : bool) (b : list Z) : Prop :=
  exists w1 x w2 s, l = w1 ++ x ++ w2 /\ blank w1 /\ blank w2 /\
    codes x = s ++ b /\ sgn s neg.

Definition nan_word (b : list Z) : Prop := word b [110; 97; 110].
Definition inf_word (b : list Z) : Prop :=
  word b [105; 110; 102] \/ word b [105; 110; 102; 105; 110; 105; 116; 121].

(** The cell is the number [q] *)
Definition reads (l : text) (q : Q) : Prop :=
  exists neg b A B X, body l neg b /\ num b A B X /\
    (q == inject_Z (if neg then -1 else 1) * inject_Z (value (A ++ B))
          * Qpower (10 # 1) (X - Z.of_nat (length B)))%Q.

(** ** Reading digits *)
Lemma code_codes c l : codes (c :: l) = code c :: codes l.
Proof. reflexivity. Qed.

Lemma codes_app a b : codes (a ++ b) = codes a ++ codes b.
Proof. apply map_app. Qed.

Lemma codes_split l a b : codes l = a ++ b -> exists x y, l = x ++ y /\ codes x = a /\ codes y = b.
Proof.
  revert a. induction l as [|c l IH]; intros a E.
  - destruct a; [|discriminate E]. destruct b; [|discriminate E]. exists [], []. auto.
  - destruct a as [|k a].
    + exists [], (c :: l). auto.
    + rewrite code_codes in E. cbn in E. injection E as E1 E2.
      destruct (IH _ E2) as (x & y & -> & <- & <-). exists (c :: x), y. subst k. auto.
Qed.

Lemma is_digit_iff c : is_digit c = true <-> 48 <= code c <= 57.
Proof. unfold is_digit. rewrite andb_true_iff, !Z.leb_le. tauto. Qed.

Lemma is_char_iff n c : is_char n c = true <-> code c = n.
Proof. unfold is_char. apply Z.eqb_eq. Qed.

Lemma value_app a b : value (a ++ b) = value a * 10 ^ Z.of_nat (length b) + value b.
Proof.
  induction a as [|d a IH]; cbn [value app]; [lia|].
  rewrite IH, app_length, Nat2Z.inj_add, Z.pow_add_r by lia. ring.
Qed.

Lemma number_value ds : number_of ds = value ds.
Proof.
  unfold number_of.
  assert (forall a, fold_left (fun a d => 10 * a + d) ds a = a * 10 ^ Z.of_nat (length ds) + value ds) as H.
  { induction ds as [|d ds IH]; intros a; cbn [fold_left value length].
    - cbn. lia.
    - rewrite IH, Nat2Z.inj_succ, Z.pow_succ_r by lia. ring. }
  rewrite H. lia.
Qed.

(** What may follow digits *)
Definition stops (l : text) : Prop :=
  match l with [] => True | c :: _ => is_digit c = false /\ is_char 95 c = false end.

Lemma digs_first u ds : digs u ds -> exists k r, u = k :: r /\ 48 <= k <= 57.
Proof. intros H. inversion H; subst; eauto. Qed.

Lemma digits_complete u ds : digs u ds -> forall x rest, codes x = u -> stops rest ->
  digits (x ++ rest) = (ds, rest).
Proof.
  induction 1 as [k Hk|k l ds Hk H IH|k l ds Hk H IH]; intros x rest E S.
  - destruct x as [|c x]; [discriminate E|]. rewrite code_codes in E. injection E as E1 E2.
    destruct x; [|discriminate E2]. cbn [app digits].
    assert (is_digit c = true) as -> by (apply is_digit_iff; lia).
    unfold digit_of. rewrite E1.
    destruct rest as [|u r]; [reflexivity|]. destruct S as [S1 S2]. rewrite S2.
    cbn [digits]. rewrite S1. reflexivity.
  - destruct x as [|c x]; [discriminate E|]. rewrite code_codes in E. injection E as E1 E2.
    specialize (IH _ _ E2 S).
    destruct (digs_first _ _ H) as (k2 & r & E3 & Hk2). rewrite E3 in E2.
    destruct x as [|c2 x]; [discriminate E2|]. rewrite code_codes in E2. injection E2 as E4 E5.
    cbn [app] in *. change (digits (c :: c2 :: x ++ rest)) with
      (if is_digit c then
         if is_char 95 c2 then
              match x ++ rest with
              | c3 :: _ => if is_digit c3
                  then let '(ds, rest) := digits (x ++ rest) in (digit_of c :: ds, rest)
                  else ([digit_of c], c2 :: x ++ rest)
              | [] => ([digit_of c], c2 :: x ++ rest)
              end
         else let '(ds, rest) := digits (c2 :: x ++ rest) in (digit_of c :: ds, rest)
       else ([], c :: c2 :: x ++ rest)).
    assert (is_digit c = true) as -> by (apply is_digit_iff; lia).
    assert (is_char 95 c2 = false) as -> by (destruct (is_char 95 c2) eqn:F; [apply is_char_iff in F; lia|reflexivity]).
    rewrite IH. unfold digit_of. rewrite E1. reflexivity.
  - destruct x as [|c x]; [discriminate E|]. rewrite code_codes in E. injection E as E1 E2.
    destruct x as [|u x]; [discriminate E2|]. rewrite code_codes in E2. injection E2 as E2 E2'.
    specialize (IH _ _ E2' S).
    destruct (digs_first _ _ H) as (k2 & r & E3 & Hk2). rewrite E3 in E2'.
    destruct x as [|c2 x]; [discriminate E2'|]. rewrite code_codes in E2'. injection E2' as E4 E5.
    cbn [app] in *. change (digits (c :: u :: c2 :: x ++ rest)) with
      (if is_digit c then
         if is_char 95 u then
           if is_digit c2
                  then let '(ds, rest) := digits (c2 :: x ++ rest) in (digit_of c :: ds, rest)
                  else ([digit_of c], u :: c2 :: x ++ rest)
         else let '(ds, rest) := digits (u :: c2 :: x ++ rest) in (digit_of c :: ds, rest)
       else ([], c :: u :: c2 :: x ++ rest)).
    assert (is_digit c = true) as -> by (apply is_digit_iff; lia).
    assert (is_char 95 u = true) as -> by (apply is_char_iff; lia).
    assert (is_digit c2 = true) as -> by (apply is_digit_iff; lia).
    rewrite IH. unfold digit_of. rewrite E1. reflexivity.
Qed.

Lemma digits_some c r : is_digit c = true -> fst (digits (c :: r)) <> [].
Proof.
  intros D. cbn [digits]. rewrite D. destruct r as [|u r2]; [discriminate|].
  destruct (is_char 95 u).
  - destruct r2 as [|c2 r3]; [discriminate|]. destruct (is_digit c2); [|discriminate].
    destruct (digits (c2 :: r3)). discriminate.
  - destruct (digits (u :: r2)). discriminate.
Qed.

Lemma digits_sound n : forall l ds rest, (length l <= n)%nat -> digits l = (ds, rest) ->
  (ds = [] /\ rest = l) \/ exists x, l = x ++ rest /\ digs (codes x) ds.
Proof.
  induction n as [|n IH]; intros l ds rest Hn E.
  - destruct l; [|cbn in Hn; lia]. cbn in E. injection E as <- <-. auto.
  - destruct l as [|c r]; [cbn in E; injection E as <- <-; auto|].
    cbn [digits] in E. destruct (is_digit c) eqn:D; [|injection E as <- <-; auto].
    apply is_digit_iff in D. right.
    assert (digs (codes [c]) [digit_of c]) as O by (apply digs_one; exact D).
    destruct r as [|u r2].
    { injection E as <- <-. exists [c]. auto. }
    destruct (is_char 95 u) eqn:U.
    + apply is_char_iff in U. destruct r2 as [|c2 r3].
      { injection E as <- <-. exists [c]. auto. }
      destruct (is_digit c2) eqn:D2.
      * destruct (digits (c2 :: r3)) as [ds2 rest2] eqn:E2. injection E as <- <-.
        assert (length (c2 :: r3) <= n)%nat as Hn2 by (cbn [length] in *; lia).
        destruct (IH _ _ _ Hn2 E2) as [[-> ->]|(x & E3 & H)].
        { exfalso. apply (digits_some c2 r3 D2). rewrite E2. reflexivity. }
        exists (c :: u :: x). split; [cbn; f_equal; f_equal; exact E3|].
        rewrite !code_codes, U. apply digs_under; [exact D|exact H].
      * injection E as <- <-. exists [c]. auto.
    + destruct (digits (u :: r2)) as [ds2 rest2] eqn:E2. injection E as <- <-.
      apply IH in E2; [|cbn in *; lia]. destruct E2 as [[-> ->]|(x & E3 & H)].
      * exists [c]. auto.
      * exists (c :: x). split; [cbn; f_equal; exact E3|]. apply digs_next; assumption.
Qed.

Lemma digits_sound' l ds rest : digits l = (ds, rest) ->
  (ds = [] /\ rest = l) \/ exists x, l = x ++ rest /\ digs (codes x) ds.
Proof. apply (digits_sound (length l)). lia. Qed.

Lemma digits_none l : stops l -> digits l = ([], l).
Proof. destruct l as [|c r]; [reflexivity|]. intros [S _]. cbn [digits]. rewrite S. reflexivity. Qed.

(** ** Signs and exponents *)
Lemma sign_complete s neg : sgn s neg -> forall x rest, codes x = s ->
  (forall c r, rest = c :: r -> code c <> 45 /\ code c <> 43) -> sign (x ++ rest) = (neg, rest).
Proof.
  intros H x rest E R. destruct H.
  - destruct x; [|discriminate E]. cbn [app]. destruct rest as [|c r]; [reflexivity|].
    destruct (R c r eq_refl) as [R1 R2]. unfold sign, is_char.
    rewrite (proj2 (Z.eqb_neq _ _) R1), (proj2 (Z.eqb_neq _ _) R2). reflexivity.
  - destruct x as [|c x]; [discriminate E|]. rewrite code_codes in E. injection E as E1 E2.
    destruct x; [|discriminate E2]. cbn [app sign]. unfold is_char. rewrite E1. reflexivity.
  - destruct x as [|c x]; [discriminate E|]. rewrite code_codes in E. injection E as E1 E2.
    destruct x; [|discriminate E2]. cbn [app sign]. unfold is_char. rewrite E1. reflexivity.
Qed.

Lemma sign_sound l neg r : sign l = (neg, r) -> exists x, l = x ++ r /\ sgn (codes x) neg.
Proof.
  destruct l as [|c l]; cbn [sign].
  - intros E. injection E as <- <-. exists []. split; [reflexivity|constructor].
  - destruct (is_char 45 c) eqn:E1; [|destruct (is_char 43 c) eqn:E2]; intros E; injection E as <- <-.
    + apply is_char_iff in E1. exists [c]. split; [reflexivity|]. rewrite code_codes, E1. constructor.
    + apply is_char_iff in E2. exists [c]. split; [reflexivity|]. rewrite code_codes, E2. constructor.
    + exists []. split; [reflexivity|constructor].
Qed.

Lemma exponent_complete x X : expo x X -> forall l, codes l = x -> exponent l = Some X.
Proof.
  intros H l E. destruct H as [|k s neg u ds Hk Hs Hu].
  - destruct l; [reflexivity|discriminate E].
  - destruct l as [|c l]; [discriminate E|]. rewrite code_codes in E. injection E as E1 E2.
    cbn [exponent]. destruct (codes_split _ _ _ E2) as (x & y & -> & Ex & Ey).
    assert (is_char 101 c || is_char 69 c = true) as ->.
    { apply orb_true_iff. rewrite !is_char_iff. destruct Hk; [left|right]; congruence. }
    rewrite (sign_complete _ _ Hs x y Ex).
    + rewrite <- (app_nil_r y), (digits_complete _ _ Hu y [] Ey I).
      destruct ds as [|d ds]; [inversion Hu|]. rewrite number_value. reflexivity.
    + intros c2 r ->. rewrite code_codes in Ey.
      destruct (digs_first _ _ Hu) as (k2 & r2 & E3 & Hk2). rewrite E3 in Ey.
      injection Ey as Ey _. lia.
Qed.

Lemma exponent_sound l X : exponent l = Some X -> expo (codes l) X.
Proof.
  destruct l as [|c l]; cbn [exponent].
  - intros E. injection E as <-. constructor.
  - destruct (is_char 101 c || is_char 69 c) eqn:E1; [|discriminate].
    destruct (sign l) as [neg r1] eqn:E2. destruct (digits r1) as [ds rest] eqn:E3.
    destruct ds as [|d ds]; [discriminate|]. destruct rest; [|discriminate]. intros E. injection E as <-.
    destruct (sign_sound _ _ _ E2) as (s & -> & Hs).
    destruct (digits_sound' _ _ _ E3) as [[F _]|(x & -> & Hx)]; [discriminate F|].
    rewrite app_nil_r, code_codes, codes_app, !number_value. apply expo_some; [|exact Hs|exact Hx].
    apply orb_true_iff in E1. rewrite !is_char_iff in E1. exact E1.
Qed.

Lemma expo_stops x X : expo x X -> forall l, codes l = x -> stops l.
Proof.
  intros H l E. destruct H as [|k s neg u ds Hk Hs Hu].
  - destruct l; [exact I|discriminate E].
  - destruct l as [|c l]; [discriminate E|]. rewrite code_codes in E. injection E as E1 _.
    split.
    + destruct (is_digit c) eqn:F; [|reflexivity]. apply is_digit_iff in F. lia.
    + destruct (is_char 95 c) eqn:F; [|reflexivity]. apply is_char_iff in F. lia.
Qed.

Lemma expo_no_point x X : expo x X -> forall c r, codes (c :: r) = x -> is_char 46 c = false.
Proof.
  intros H c r E. rewrite code_codes in E. unfold is_char.
  destruct H as [|k s neg u ds Hk Hs Hu]; [discriminate E|]. injection E as E _.
  apply Z.eqb_neq. lia.
Qed.

(** ** Numerals *)
Lemma point_stops c r : code c = 46 -> stops (c :: r).
Proof.
  intros E. split.
  - destruct (is_digit c) eqn:F; [|reflexivity]. apply is_digit_iff in F. lia.
  - unfold is_char. rewrite E. reflexivity.
Qed.

Lemma digs_some u ds : digs u ds -> ds <> [].
Proof. intros H. inversion H; discriminate. Qed.

Lemma numeral_complete b A B X : num b A B X -> forall l, codes l = b ->
  numeral l = Some (value (A ++ B), X - Z.of_nat (length B)).
Proof.
  intros H l E. unfold numeral. destruct H as [a A x X Ha Hx|a A x X Ha Hx|a A b B x X Ha Hb Hx|b B x X Hb Hx].
  - destruct (codes_split _ _ _ E) as (p & y & -> & Ep & Ey).
    rewrite (digits_complete _ _ Ha p y Ep (expo_stops _ _ Hx _ Ey)).
    assert (match y with [] => ([], y) | c :: r1 => if is_char 46 c then digits r1 else ([], y) end
            = (@nil Z, y)) as ->.
    { destruct y as [|c r]; [reflexivity|]. rewrite (expo_no_point _ _ Hx _ _ Ey). reflexivity. }
    rewrite app_nil_r. rewrite (exponent_complete _ _ Hx y Ey).
    destruct A; [destruct (digs_some _ _ Ha eq_refl)|rewrite number_value; reflexivity].
  - destruct (codes_split _ _ _ E) as (p & y & -> & Ep & Ey).
    destruct y as [|c y]; [discriminate Ey|]. rewrite code_codes in Ey. injection Ey as Ec Ey.
    rewrite (digits_complete _ _ Ha p (c :: y) Ep (point_stops _ _ Ec)).
    rewrite (proj2 (is_char_iff 46 c) Ec), (digits_none y (expo_stops _ _ Hx _ Ey)), app_nil_r.
    rewrite (exponent_complete _ _ Hx y Ey).
    destruct A; [destruct (digs_some _ _ Ha eq_refl)|rewrite number_value; reflexivity].
  - destruct (codes_split _ _ _ E) as (p & y & -> & Ep & Ey).
    destruct y as [|c y]; [discriminate Ey|]. rewrite code_codes in Ey. injection Ey as Ec Ey.
    rewrite (digits_complete _ _ Ha p (c :: y) Ep (point_stops _ _ Ec)).
    rewrite (proj2 (is_char_iff 46 c) Ec).
    destruct (codes_split _ _ _ Ey) as (p2 & z & -> & Ep2 & Ez).
    rewrite (digits_complete _ _ Hb p2 z Ep2 (expo_stops _ _ Hx _ Ez)).
    rewrite (exponent_complete _ _ Hx z Ez).
    destruct A; [destruct (digs_some _ _ Ha eq_refl)|cbn [app]; rewrite number_value; reflexivity].
  - destruct l as [|c y]; [discriminate E|]. rewrite code_codes in E. injection E as Ec Ey.
    rewrite (digits_none (c :: y) (point_stops _ _ Ec)).
    rewrite (proj2 (is_char_iff 46 c) Ec).
    destruct (codes_split _ _ _ Ey) as (p2 & z & -> & Ep2 & Ez).
    rewrite (digits_complete _ _ Hb p2 z Ep2 (expo_stops _ _ Hx _ Ez)).
    rewrite (exponent_complete _ _ Hx z Ez). cbn [app].
    destruct B; [destruct (digs_some _ _ Hb eq_refl)|rewrite number_value; reflexivity].
Qed.

Lemma numeral_sound l m e : numeral l = Some (m, e) -> exists A B X,
  num (codes l) A B X /\ m = value (A ++ B) /\ e = X - Z.of_nat (length B).
Proof.
  unfold numeral. destruct (digits l) as [A r] eqn:EA.
  destruct (match r with [] => ([], r) | c :: r1 => if is_char 46 c then digits r1 else ([], r) end)
    as [B r2] eqn:EB.
  destruct (A ++ B) as [|d ds] eqn:EAB; [discriminate|].
  destruct (exponent r2) as [X|] eqn:EX; [|discriminate]. intros E. injection E as <- <-.
  rewrite number_value. exists A, B, X. rewrite EAB. split; [|auto].
  apply exponent_sound in EX.
  assert ((r2 = r /\ B = []) \/ exists c r1, r = c :: r1 /\ code c = 46 /\ digits r1 = (B, r2)) as [[-> ->]|(c & r1 & -> & Ec & EB2)].
  { destruct r as [|c r1]; [injection EB as <- <-; auto|].
    destruct (is_char 46 c) eqn:Ec; [|injection EB as <- <-; auto].
    right. exists c, r1. apply is_char_iff in Ec. auto. }
  - rewrite app_nil_r in EAB. subst A.
    destruct (digits_sound' _ _ _ EA) as [[F _]|(x & -> & Hx)]; [discriminate F|].
    rewrite codes_app. apply num_int; assumption.
  - destruct (digits_sound' _ _ _ EB2) as [[-> ->]|(y & -> & Hy)].
    + rewrite app_nil_r in EAB. subst A.
      destruct (digits_sound' _ _ _ EA) as [[F _]|(x & -> & Hx)]; [discriminate F|].
      rewrite codes_app, code_codes, Ec. apply num_point; assumption.
    + destruct (digits_sound' _ _ _ EA) as [[-> <-]|(x & -> & Hx)].
      * rewrite code_codes, Ec, codes_app. apply num_only; assumption.
      * rewrite codes_app, code_codes, Ec, codes_app. apply num_frac; assumption.
Qed.

(** ** White space *)
Lemma is_space_iff c : is_space c = true <->
  (code c = 32 \/ code c = 9 \/ code c = 10 \/ code c = 11 \/ code c = 12 \/ code c = 13).
Proof.
  unfold is_space. rewrite orb_true_iff, andb_true_iff, Z.eqb_eq, !Z.leb_le. lia.
Qed.

Lemma blank_cons c l : blank (c :: l) <-> is_space c = true /\ blank l.
Proof.
  unfold blank. rewrite code_codes. split.
  - intros H. inversion H; subst. split; [apply is_space_iff|]; assumption.
  - intros [H1 H2]. constructor; [apply is_space_iff; exact H1|exact H2].
Qed.

Lemma blank_app a b : blank (a ++ b) <-> blank a /\ blank b.
Proof. unfold blank. rewrite codes_app. apply Forall_app. Qed.

Lemma blank_rev a : blank a -> blank (rev a).
Proof.
  induction a as [|c a IH]; [auto|]. intros H. apply blank_cons in H. cbn [rev].
  apply blank_app. split; [apply IH; tauto|]. apply blank_cons. split; [tauto|constructor].
Qed.

Lemma lstrip_sound l : exists w, l = w ++ lstrip l /\ blank w.
Proof.
  induction l as [|c l IH]; cbn [lstrip].
  - exists []. split; [reflexivity|constructor].
  - destruct (is_space c) eqn:E.
    + destruct IH as (w & E2 & H). exists (c :: w). split; [cbn; congruence|]. apply blank_cons. auto.
    + exists []. split; [reflexivity|constructor].
Qed.

Definition solid (l : text) : Prop := match l with [] => False | c :: _ => is_space c = false end.

Lemma lstrip_complete w x : blank w -> solid x -> lstrip (w ++ x) = x.
Proof.
  intros H S. induction w as [|c w IH].
  - destruct x as [|c x]; [destruct S|]. cbn [app lstrip]. cbn in S. rewrite S. reflexivity.
  - apply blank_cons in H. cbn [app lstrip]. rewrite (proj1 H). apply IH. tauto.
Qed.

Lemma strip_sound l : exists w1 w2, l = w1 ++ strip l ++ w2 /\ blank w1 /\ blank w2.
Proof.
  unfold strip. destruct (lstrip_sound l) as (w1 & E1 & H1).
  destruct (lstrip_sound (rev (lstrip l))) as (w2 & E2 & H2).
  exists w1, (rev w2). split; [|split; [exact H1|apply blank_rev; exact H2]].
  rewrite <- rev_app_distr, <- E2, rev_involutive. exact E1.
Qed.

Lemma solid_app x y : solid x -> solid (x ++ y).
Proof. destruct x; [intros []|auto]. Qed.

Lemma strip_complete w1 x w2 : blank w1 -> blank w2 -> x <> [] ->
  Forall (fun c => is_space c = false) x -> strip (w1 ++ x ++ w2) = x.
Proof.
  intros H1 H2 N F. unfold strip.
  rewrite lstrip_complete; [|exact H1|].
  - rewrite rev_app_distr, lstrip_complete; [apply rev_involutive|apply blank_rev; exact H2|].
    apply Forall_rev in F. destruct (rev x) as [|c r] eqn:E.
    + apply (f_equal (@rev _)) in E. rewrite rev_involutive in E. cbn in E. congruence.
    + inversion F; subst. assumption.
  - apply solid_app. destruct x; [congruence|]. inversion F; subst. assumption.
Qed.

(** ** Words *)
Lemma lower_nat c : nat_of_ascii (lower_char c) =
  (if (65 <=? nat_of_ascii c) && (nat_of_ascii c <=? 90) then nat_of_ascii c + 32 else nat_of_ascii c)%nat.
Proof. destruct c as [[] [] [] [] [] [] [] []]; reflexivity. Qed.

Lemma lower_iff c k : (97 <= k <= 122)%nat ->
  lower_char c = ascii_of_nat k <-> (code c = Z.of_nat k \/ code c = Z.of_nat k - 32).
Proof.
  intros Hk.
  assert (lower_char c = ascii_of_nat k <-> nat_of_ascii (lower_char c) = k) as ->.
  { split.
    - intros ->. apply nat_ascii_embedding. lia.
    - intros <-. symmetry. apply ascii_nat_embedding. }
  rewrite lower_nat. unfold code.
  destruct ((65 <=? nat_of_ascii c) && (nat_of_ascii c <=? 90))%nat eqn:E.
  - apply andb_prop in E. destruct E as [E1 E2]. apply Nat.leb_le in E1, E2. lia.
  - apply andb_false_iff in E. rewrite !Nat.leb_gt in E. lia.
Qed.

Lemma word_iff ks : Forall (fun k => 97 <= k <= 122)%nat ks -> forall r,
  text_eqb (map lower_char r) (chars ks) = true <-> word (codes r) (map Z.of_nat ks).
Proof.
  unfold text_eqb, word. intros H r.
  assert (map lower_char r = chars ks <-> Forall2 (fun c k => c = k \/ c = k - 32) (codes r) (map Z.of_nat ks)) as E.
  { revert r. induction H as [|k ks Hk H IH]; intros [|c r]; cbn [map chars codes].
    - split; [constructor|reflexivity].
    - split; [discriminate|]. intros F. inversion F.
    - split; [discriminate|]. intros F. inversion F.
    - split.
      + intros E. injection E as E1 E2. constructor; [apply (lower_iff c k Hk); exact E1|].
        apply IH. exact E2.
      + intros F. inversion F; subst. f_equal; [apply lower_iff; assumption|].
        apply IH. assumption. }
  destruct (list_eq_dec ascii_dec (map lower_char r) (chars ks)) as [E1|E1]; split; intros F;
    try reflexivity; try discriminate F; tauto.
Qed.

Lemma nan_iff r : text_eqb (map lower_char r) t_nan = true <-> nan_word (codes r).
Proof. apply (word_iff [110; 97; 110]%nat). repeat constructor; lia. Qed.

Lemma inf_iff r : text_eqb (map lower_char r) t_inf || text_eqb (map lower_char r) t_infinity = true
  <-> inf_word (codes r).
Proof.
  rewrite orb_true_iff. unfold inf_word.
  rewrite (word_iff [105; 110; 102]%nat), (word_iff [105; 110; 102; 105; 110; 105; 116; 121]%nat)
    by (repeat constructor; lia). reflexivity.
Qed.

(** ** A cell as a whole *)
Lemma digs_chars u ds : digs u ds -> Forall (fun k => 33 <= k) u.
Proof. induction 1; repeat constructor; try lia; assumption. Qed.

Lemma sgn_chars s neg : sgn s neg -> Forall (fun k => 33 <= k) s.
Proof. destruct 1; repeat constructor; lia. Qed.

Lemma expo_chars x X : expo x X -> Forall (fun k => 33 <= k) x.
Proof.
  destruct 1 as [|k s neg u ds Hk Hs Hu]; constructor; [lia|].
  apply Forall_app. split; [eapply sgn_chars|eapply digs_chars]; eassumption.
Qed.

Lemma num_chars b A B X : num b A B X -> Forall (fun k => 33 <= k) b.
Proof.
  destruct 1; repeat (apply Forall_app; split); repeat constructor; try lia;
    try (eapply digs_chars; eassumption); try (eapply expo_chars; eassumption);
    apply Forall_app; split; try (eapply digs_chars; eassumption); eapply expo_chars; eassumption.
Qed.

Lemma num_first b A B X : num b A B X -> exists k r, b = k :: r /\ (48 <= k <= 57 \/ k = 46).
Proof.
  destruct 1 as [a A x X Ha Hx|a A x X Ha Hx|a A b B x X Ha Hb Hx|b B x X Hb Hx];
    try (destruct (digs_first _ _ Ha) as (k & r & -> & Hk); eexists; eexists; split; [reflexivity|auto]).
  eexists; eexists; split; [reflexivity|auto].
Qed.

Lemma word_chars b w : word b w -> Forall (fun k => 97 <= k) w -> Forall (fun k => 65 <= k) b.
Proof.
  intros H. induction H as [|c k b w H1 H2 IH]; intros F; inversion F; subst; constructor; [lia|auto].
Qed.

Lemma spaces_none x : Forall (fun k => 33 <= k) (codes x) -> Forall (fun c => is_space c = false) x.
Proof.
  induction x as [|c x IH]; [constructor|]. rewrite code_codes. intros H. inversion H; subst.
  constructor; [|auto]. destruct (is_space c) eqn:E; [|reflexivity]. apply is_space_iff in E. lia.
Qed.

Lemma body_complete l neg b k r : body l neg b -> b = k :: r -> k <> 43 -> k <> 45 ->
  Forall (fun k => 33 <= k) b -> exists y, sign (strip l) = (neg, y) /\ codes y = b.
Proof.
  intros (w1 & x & w2 & s & -> & H1 & H2 & E & Hs) Eb N1 N2 F.
  rewrite strip_complete; [|exact H1|exact H2| |].
  - destruct (codes_split _ _ _ E) as (p & y & -> & Ep & Ey). exists y. split; [|exact Ey].
    apply (sign_complete _ _ Hs); [exact Ep|]. intros c t ->. rewrite code_codes, Eb in Ey.
    injection Ey as Ey _. rewrite Ey. auto.
  - intros ->. subst b. destruct s; discriminate E.
  - apply spaces_none. rewrite E. apply Forall_app. split; [eapply sgn_chars; exact Hs|exact F].
Qed.

Lemma body_sound l neg r : sign (strip l) = (neg, r) -> body l neg (codes r).
Proof.
  intros E. destruct (strip_sound l) as (w1 & w2 & E1 & H1 & H2).
  destruct (sign_sound _ _ _ E) as (s & E2 & Hs).
  exists w1, (strip l), w2, (codes s). rewrite E2, codes_app. rewrite <- E2 at 1. auto.
Qed.

Lemma word_not_num b A B X w : num b A B X -> word b w -> Forall (fun k => 97 <= k) w -> False.
Proof.
  intros H W F. destruct (num_first _ _ _ _ H) as (k & r & -> & Hk).
  pose proof (word_chars _ _ W F) as G. inversion G; subst. lia.
Qed.

Ltac low := repeat constructor; lia.

Lemma nan_not_num b A B X : num b A B X -> nan_word b -> False.
Proof. intros H W. eapply word_not_num; [exact H|exact W|low]. Qed.
Lemma inf_not_num b A B X : num b A B X -> inf_word b -> False.
Proof. intros H [W|W]; (eapply word_not_num; [exact H|exact W|low]). Qed.

Lemma word_body l neg b w : body l neg b -> word b w -> w <> [] -> Forall (fun k => 97 <= k) w ->
  exists y, sign (strip l) = (neg, y) /\ codes y = b.
Proof.
  intros Hb W N F. pose proof (word_chars _ _ W F) as G.
  destruct b as [|k r]; [inversion W; congruence|].
  eapply body_complete; [exact Hb|reflexivity| | |]; try (inversion G; subst; lia).
  eapply Forall_impl; [|exact G]. cbn. intros. lia.
Qed.

Lemma parse_num l neg m e : parse l = Some (PNum neg m e) <->
  exists b A B X, body l neg b /\ num b A B X /\ m = value (A ++ B) /\ e = X - Z.of_nat (length B).
Proof.
  split.
  - unfold parse. destruct (sign (strip l)) as [ng r] eqn:E. cbv zeta.
    destruct (text_eqb (map lower_char r) t_nan); [discriminate|].
    destruct (text_eqb (map lower_char r) t_inf || text_eqb (map lower_char r) t_infinity); [discriminate|].
    destruct (numeral r) as [[m0 e0]|] eqn:E2; [|discriminate]. intros E3. injection E3 as <- <- <-.
    destruct (numeral_sound _ _ _ E2) as (A & B & X & H1 & H2 & H3).
    exists (codes r), A, B, X. repeat split; try assumption. apply body_sound. exact E.
  - intros (b & A & B & X & Hb & Hn & -> & ->).
    destruct (num_first _ _ _ _ Hn) as (k & t & Eb & Hk).
    destruct (body_complete _ _ _ k t Hb Eb) as (y & Ey & Cy); try lia; [eapply num_chars; exact Hn|].
    unfold parse. rewrite Ey. cbv zeta.
    destruct (text_eqb (map lower_char y) t_nan) eqn:W1.
    { apply nan_iff in W1. rewrite Cy in W1. destruct (nan_not_num _ _ _ _ Hn W1). }
    destruct (text_eqb (map lower_char y) t_inf || text_eqb (map lower_char y) t_infinity) eqn:W2.
    { apply inf_iff in W2. rewrite Cy in W2. destruct (inf_not_num _ _ _ _ Hn W2). }
    rewrite (numeral_complete _ _ _ _ Hn y Cy). reflexivity.
Qed.

Lemma parse_nan l : parse l = Some PNan <-> exists neg b, body l neg b /\ nan_word b.
Proof.
  split.
  - unfold parse. destruct (sign (strip l)) as [ng r] eqn:E. cbv zeta.
    destruct (text_eqb (map lower_char r) t_nan) eqn:W.
    + intros _. exists ng, (codes r). split; [apply body_sound; exact E|apply nan_iff; exact W].
    + destruct (text_eqb (map lower_char r) t_inf || text_eqb (map lower_char r) t_infinity); [discriminate|].
      destruct (numeral r) as [[m0 e0]|]; discriminate.
  - intros (neg & b & Hb & W). destruct (word_body _ _ _ _ Hb W) as (y & Ey & Cy); [discriminate|low|].
    unfold parse. rewrite Ey. cbv zeta. subst b. apply nan_iff in W. rewrite W. reflexivity.
Qed.

Lemma parse_inf l : parse l = Some PInf <-> exists neg b, body l neg b /\ inf_word b.
Proof.
  split.
  - unfold parse. destruct (sign (strip l)) as [ng r] eqn:E. cbv zeta.
    destruct (text_eqb (map lower_char r) t_nan) eqn:W0; [discriminate|].
    destruct (text_eqb (map lower_char r) t_inf || text_eqb (map lower_char r) t_infinity) eqn:W.
    + intros _. exists ng, (codes r). split; [apply body_sound; exact E|apply inf_iff; exact W].
    + destruct (numeral r) as [[m0 e0]|]; discriminate.
  - intros (neg & b & Hb & W).
    assert (exists y, sign (strip l) = (neg, y) /\ codes y = b) as (y & Ey & Cy).
    { destruct W as [W|W]; (eapply word_body; [exact Hb|exact W|discriminate|low]). }
    unfold parse. rewrite Ey. cbv zeta. subst b.
    destruct (text_eqb (map lower_char y) t_nan) eqn:W0.
    { exfalso. apply nan_iff in W0. unfold nan_word in W0.
      destruct (codes y) as [|k r]; [inversion W0|]. inversion W0 as [|? ? ? ? P _].
      destruct W as [W|W]; inversion W as [|? ? ? ? P2 _]; lia. }
    apply inf_iff in W. rewrite W. reflexivity.
Qed.

(** ** The nearest number of double precision *)
Lemma up_pos e : 0 < up e.
Proof. unfold up. apply Z.pow_pos_nonneg; lia. Qed.

Lemma up_shift e K : 0 <= K -> 0 <= e + K -> up (- e) * 2 ^ (e + K) = up e * 2 ^ K.
Proof.
  intros HK H. unfold up. rewrite <- !Z.pow_add_r by lia. f_equal. lia.
Qed.

(** Comparing [n / d] with [2 ^ l] *)
Lemma up_lt n d l K : 0 <= K -> 0 <= l + K ->
  n * up (- l) < d * up l <-> n * 2 ^ K < d * 2 ^ (l + K).
Proof.
  intros HK H. pose proof (up_shift l K HK H) as E. pose proof (up_pos l) as P. pose proof (up_pos (- l)) as P2.
  assert (0 < 2 ^ (l + K)) by (apply Z.pow_pos_nonneg; lia).
  assert (0 < 2 ^ K) by (apply Z.pow_pos_nonneg; lia).
  rewrite (Z.mul_lt_mono_pos_r (2 ^ (l + K)) (n * up (- l)) (d * up l)) by assumption.
  rewrite (Z.mul_lt_mono_pos_r (up l) (n * 2 ^ K) (d * 2 ^ (l + K))) by assumption.
  replace (n * up (- l) * 2 ^ (l + K)) with (n * (up (- l) * 2 ^ (l + K))) by ring.
  rewrite E. replace (n * (up l * 2 ^ K)) with (n * 2 ^ K * up l) by ring.
  replace (d * up l * 2 ^ (l + K)) with (d * 2 ^ (l + K) * up l) by ring. reflexivity.
Qed.

(** The exponent before it is cut off at -1074 *)
Definition rexp (n d : Z) : Z :=
  let l := Z.log2 n - Z.log2 d in
  if n * up (- l) <? d * up l then l - 53 else l - 52.

Lemma fexp_rexp n d : fexp n d = Z.max (rexp n d) (-1074).
Proof. reflexivity. Qed.

Lemma rexp_spec n d K : 0 < n -> 0 < d -> 0 <= rexp n d + K -> 0 <= K ->
  d * 2 ^ (rexp n d + 52 + K) <= n * 2 ^ K < d * 2 ^ (rexp n d + 53 + K).
Proof.
  intros Hn Hd. unfold rexp.
  pose proof (Z.log2_spec n Hn) as [A1 A2]. pose proof (Z.log2_spec d Hd) as [B1 B2].
  pose proof (Z.log2_nonneg n) as LA. pose proof (Z.log2_nonneg d) as LB.
  set (a := Z.log2 n) in *. set (b := Z.log2 d) in *.
  assert (forall l K0, 0 <= K0 -> 0 <= l + K0 -> 0 < 2 ^ K0 /\ 0 < 2 ^ (l + K0)) as PP.
  { intros. split; apply Z.pow_pos_nonneg; lia. }
  assert (forall K, 0 <= K -> 0 <= a - b + K -> n * 2 ^ K < d * 2 ^ (a - b + 1 + K)) as U.
  { intros K0 HK H. 
    assert (n * 2 ^ K0 < 2 ^ Z.succ a * 2 ^ K0) by (apply Z.mul_lt_mono_pos_r; [apply PP with (l := 0); lia|exact A2]).
    assert (2 ^ b * 2 ^ (a - b + 1 + K0) <= d * 2 ^ (a - b + 1 + K0)) by (apply Z.mul_le_mono_nonneg_r; [apply Z.pow_nonneg; lia|exact B1]).
    rewrite <- !Z.pow_add_r in * by lia.
    replace (b + (a - b + 1 + K0)) with (Z.succ a + K0) in * by lia. lia. }
  assert (forall K, 0 <= K -> 0 <= a - b - 1 + K -> d * 2 ^ (a - b - 1 + K) <= n * 2 ^ K) as L.
  { intros K0 HK H. 
    assert (2 ^ a * 2 ^ K0 <= n * 2 ^ K0) by (apply Z.mul_le_mono_nonneg_r; [apply Z.pow_nonneg; lia|exact A1]).
    assert (d * 2 ^ (a - b - 1 + K0) <= 2 ^ Z.succ b * 2 ^ (a - b - 1 + K0)) by (apply Z.mul_le_mono_nonneg_r; [apply Z.pow_nonneg; lia|lia]).
    rewrite <- !Z.pow_add_r in * by lia.
    replace (Z.succ b + (a - b - 1 + K0)) with (a + K0) in * by lia. lia. }
  destruct (n * up (- (a - b)) <? d * up (a - b)) eqn:E; intros H HK.
  - apply Z.ltb_lt in E. rewrite (up_lt n d (a - b) K) in E by lia. split.
    + replace (a - b - 53 + 52 + K) with (a - b - 1 + K) by lia. apply L; lia.
    + replace (a - b - 53 + 53 + K) with (a - b + K) by lia. exact E.
  - apply Z.ltb_ge in E. split.
    + replace (a - b - 52 + 52 + K) with (a - b + K) by lia.
      apply Z.nlt_ge. rewrite <- up_lt by lia. lia.
    + replace (a - b - 52 + 53 + K) with (a - b + 1 + K) by lia. apply U; lia.
Qed.

Lemma round_div_spec n d : 0 < d -> - d <= 2 * (round_div n d * d - n) <= d.
Proof.
  intros Hd. unfold round_div.
  pose proof (Z.div_mod n d ltac:(lia)) as E. pose proof (Z.mod_pos_bound n d Hd) as B.
  set (q := n / d) in *. set (r := n mod d) in *.
  destruct (Z.compare_spec (2 * r) d); [destruct (Z.even q)| |]; nia.
Qed.

Lemma round_div_near n d m : 0 < d -> - d < 2 * (m * d - n) < d -> round_div n d = m.
Proof.
  intros Hd H. pose proof (round_div_spec n d Hd) as S.
  assert (-1 < round_div n d - m < 1); [|lia]. nia.
Qed.

(** The rounded number lies within half of the last digit *)
Lemma rounded n d K : 0 < n -> 0 < d -> 0 <= K -> 0 <= fexp n d + K ->
  let e := fexp n d in
  let m := round_div (n * up (- e)) (d * up e) in
  - (d * 2 ^ (e + K)) <= 2 * (m * d * 2 ^ (e + K) - n * 2 ^ K) <= d * 2 ^ (e + K).
Proof.
  intros Hn Hd HK H e m.
  pose proof (round_div_spec (n * up (- e)) (d * up e)) as S. fold m in S.
  pose proof (up_shift e K HK H) as E. pose proof (up_pos e) as P.
  assert (0 < 2 ^ (e + K)) as P2 by (apply Z.pow_pos_nonneg; [lia|exact H]).
  assert (0 < d * up e) as P3 by nia. specialize (S P3). destruct S as [S1 S2].
  apply (Z.mul_le_mono_nonneg_r _ _ (2 ^ (e + K))) in S1; [|lia].
  apply (Z.mul_le_mono_nonneg_r _ _ (2 ^ (e + K))) in S2; [|lia].
  replace (2 * (m * (d * up e) - n * up (- e)) * 2 ^ (e + K))
    with (2 * (m * d * 2 ^ (e + K) - n * 2 ^ K) * up e) in * by
    (replace (2 * (m * (d * up e) - n * up (- e)) * 2 ^ (e + K)) with
      (2 * (m * d * up e * 2 ^ (e + K) - n * (up (- e) * 2 ^ (e + K)))) by ring; rewrite E; ring).
  split; apply (Z.mul_le_mono_pos_r _ _ (up e)); try assumption.
  - replace (- (d * 2 ^ (e + K)) * up e) with (- (d * up e) * 2 ^ (e + K)) by ring. exact S1.
  - replace (d * 2 ^ (e + K) * up e) with (d * up e * 2 ^ (e + K)) by ring. exact S2.
Qed.

Lemma rounded_near n d K m : 0 < n -> 0 < d -> 0 <= K -> 0 <= fexp n d + K ->
  let e := fexp n d in
  - (d * 2 ^ (e + K)) < 2 * (m * d * 2 ^ (e + K) - n * 2 ^ K) < d * 2 ^ (e + K) ->
  round_div (n * up (- e)) (d * up e) = m.
Proof.
  intros Hn Hd HK H e [S1 S2].
  pose proof (up_shift e K HK H) as E. pose proof (up_pos e) as P.
  assert (0 < 2 ^ (e + K)) as P2 by (apply Z.pow_pos_nonneg; [lia|exact H]).
  apply round_div_near; [nia|].
  apply (Z.mul_lt_mono_pos_r (up e)) in S1, S2; try exact P.
  replace (2 * (m * d * 2 ^ (e + K) - n * 2 ^ K) * up e)
   with (2 * (m * (d * up e) - n * up (- e)) * 2 ^ (e + K)) in * by
    (replace (2 * (m * (d * up e) - n * up (- e)) * 2 ^ (e + K)) with
      (2 * (m * d * up e * 2 ^ (e + K) - n * (up (- e) * 2 ^ (e + K)))) by ring; rewrite E; ring).
  split; apply (Z.mul_lt_mono_pos_r (2 ^ (e + K))); try exact P2.
  - replace (- (d * up e) * 2 ^ (e + K)) with (- (d * 2 ^ (e + K)) * up e) by ring. exact S1.
  - replace (d * up e * 2 ^ (e + K)) with (d * 2 ^ (e + K) * up e) by ring. exact S2.
Qed.

(** ** Whole numbers *)
Definition int_of (n d : Z) : bool :=
  match to_double n d with Some (k, x) => whole k x | None => false end.

Lemma p2 x y : 0 <= x -> 0 <= y -> 2 ^ (x + y) = 2 ^ x * 2 ^ y.
Proof. intros. apply Z.pow_add_r; assumption. Qed.

Lemma whole_spec n d : int_of n d = true -> exists N,
  let e := fexp n d in
  let m := round_div (n * up (- e)) (d * up e) in
  forall K, 0 <= K -> 0 <= e + K -> m * 2 ^ (e + K) = N * 2 ^ K.
Proof.
  unfold int_of, to_double. set (e := fexp n d). set (m := round_div (n * up (- e)) (d * up e)).
  cbv zeta. destruct ((0 <=? e) && (2 ^ 1024 <=? m * 2 ^ e)); [discriminate|]. unfold whole.
  destruct (Z.leb_spec 0 e) as [He|He]; cbn [orb].
  - intros _. exists (m * 2 ^ e). intros K HK _. rewrite p2 by assumption. ring.
  - intros E. apply Z.eqb_eq in E. exists (m / 2 ^ (- e)). intros K HK HeK.
    assert (0 < 2 ^ (- e)) as P by (apply Z.pow_pos_nonneg; lia).
    assert (2 ^ (- e) <> 0) as P0 by (clear -P; lia).
    pose proof (Z.div_mod m (2 ^ (- e)) P0) as D. rewrite E in D.
    rewrite D at 1. replace K with (- e + (e + K)) at 2 by lia. rewrite (p2 (- e) (e + K)) by lia. ring.
Qed.

Lemma int_close n d : 0 < n -> 0 < d -> int_of n d = true ->
  n * 2 ^ 1075 <= d \/ exists N, - n <= (N * d - n) * 2 ^ 53 <= n.
Proof.
  intros Hn Hd H. destruct (whole_spec _ _ H) as (N & HN). cbv zeta in HN.
  set (K := Z.abs (rexp n d) + 1074).
  assert (0 <= K) as HK by lia. assert (0 <= rexp n d + K) as HrK by lia.
  pose proof (rexp_spec n d K Hn Hd HrK HK) as [R1 R2].
  assert (0 <= fexp n d + K) as HeK by (rewrite fexp_rexp; lia).
  pose proof (rounded n d K Hn Hd HK HeK) as S. cbv zeta in S.
  specialize (HN K HK HeK).
  assert (0 < 2 ^ K) as PK by (apply Z.pow_pos_nonneg; lia).
  set (e := fexp n d) in *. set (m := round_div (n * up (- e)) (d * up e)) in *.
  replace (m * d * 2 ^ (e + K)) with (N * d * 2 ^ K) in S
    by (transitivity (m * 2 ^ (e + K) * d); [rewrite HN; ring|ring]).
  destruct (Z.le_gt_cases (-1074) (rexp n d)) as [C|C].
  - right. exists N. assert (e = rexp n d) as Ee by (unfold e; rewrite fexp_rexp; lia).
    rewrite <- Ee in R1. replace (e + 52 + K) with (52 + (e + K)) in R1 by lia.
    rewrite p2 in R1 by lia.
    assert (forall x, x * 2 ^ K <= n * 2 ^ K -> x <= n) as Can
      by (intros x; apply Z.mul_le_mono_pos_r; exact PK).
    change (2 ^ 52) with 4503599627370496 in R1.
    change (2 ^ 53) with 9007199254740992.
    assert (- n <= (N * d - n) * 9007199254740992); [|split; [assumption|]].
    + enough (- ((N * d - n) * 9007199254740992) <= n) by lia. apply Can. lia.
    + apply Can. lia.
  - left. assert (e = -1074) as Ee by (unfold e; rewrite fexp_rexp; lia).
    rewrite Ee in *. set (t := 2 ^ (-1074 + K)) in *.
    assert (0 < t) as Pt by (apply Z.pow_pos_nonneg; lia).
    assert (2 ^ K = 2 ^ 1074 * t) as EK by (unfold t; rewrite <- p2 by lia; f_equal; lia).
    assert (2 ^ (rexp n d + 53 + K) <= 2 ^ 52 * t) as R3
      by (unfold t; rewrite <- p2 by lia; apply Z.pow_le_mono_r; lia).
    assert (n * 2 ^ K < d * t * 2 ^ 52) as R4 by nia.
    rewrite EK in *.
    assert (0 < d * t) as Pdt by nia.
    assert (0 < n * t) as Pnt by nia.
    assert (N <= 0) as HN0.
    { apply Z.nlt_ge. intros HN1.
      assert (2 ^ 1074 * (d * t) <= N * d * (2 ^ 1074 * t)) as L
        by (replace (N * d * (2 ^ 1074 * t)) with (2 ^ 1074 * (N * (d * t))) by ring;
            apply Z.mul_le_mono_nonneg_l; [apply Z.pow_nonneg; lia|nia]).
      assert (2 ^ 54 <= 2 ^ 1074) as G by (apply Z.pow_le_mono_r; lia).
      assert (2 ^ 54 * (d * t) <= 2 ^ 1074 * (d * t)) as G2 by (apply Z.mul_le_mono_nonneg_r; lia).
      set (a := N * d * (2 ^ 1074 * t)) in *. set (b := n * (2 ^ 1074 * t)) in *. set (c := 2 ^ 1074 * (d * t)) in *.
      change (2 ^ 54) with 18014398509481984 in G2. change (2 ^ 52) with 4503599627370496 in R4. lia. }
    assert (N * d * (2 ^ 1074 * t) <= 0) as L0.
    { assert (0 < d * (2 ^ 1074 * t)) as Q1 by (rewrite <- EK; nia). rewrite <- Z.mul_assoc. nia. }
    apply (Z.mul_le_mono_pos_r _ _ t Pt).
    replace (n * 2 ^ 1075 * t) with (2 * (n * (2 ^ 1074 * t))) by (change (2 ^ 1075) with (2 * 2 ^ 1074); ring).
    lia.
Qed.

Lemma int_tiny n d : 0 < n -> 0 < d -> n * 2 ^ 1075 <= d -> int_of n d = true.
Proof.
  intros Hn Hd H.
  set (K := Z.abs (rexp n d) + 2000).
  assert (0 <= K) as HK by lia. assert (0 <= rexp n d + K) as HrK by lia.
  pose proof (rexp_spec n d K Hn Hd HrK HK) as [R1 _].
  assert (rexp n d <= -1074) as Hr.
  { apply Z.nlt_ge. intros C.
    assert (2 ^ (K - 1021) <= 2 ^ (rexp n d + 52 + K)) as Q by (apply Z.pow_le_mono_r; lia).
    set (t := 2 ^ (K - 1021)) in *. assert (0 < t) as Pt by (apply Z.pow_pos_nonneg; lia).
    assert (2 ^ K = 2 ^ 1021 * t) as EK by (unfold t; rewrite <- p2 by lia; f_equal; lia).
    assert (d * t <= d * 2 ^ (rexp n d + 52 + K)) as Q2 by (apply Z.mul_le_mono_nonneg_l; lia).
    rewrite EK in R1.
    assert (d <= n * 2 ^ 1021) as Q3 by (apply (Z.mul_le_mono_pos_r _ _ t Pt); lia).
    change (2 ^ 1075) with (2 ^ 54 * 2 ^ 1021) in H.
    assert (0 < n * 2 ^ 1021) as Q4 by (apply Z.mul_pos_pos; [exact Hn|apply Z.pow_pos_nonneg; lia]).
    change (2 ^ 54) with 18014398509481984 in H. set (u := 2 ^ 1021) in *. clearbody u. lia. }
  assert (fexp n d = -1074) as Ee by (rewrite fexp_rexp; lia).
  unfold int_of, to_double. rewrite Ee. cbv zeta.
  change (0 <=? -1074) with false. cbn [andb].
  assert (round_div (n * up (- -1074)) (d * up (-1074)) = 0) as ->.
  { change (up (- -1074)) with (2 ^ 1074). change (up (-1074)) with 1. rewrite Z.mul_1_r.
    assert (2 * (n * 2 ^ 1074) <= d) as H2 by (change (2 ^ 1075) with (2 * 2 ^ 1074) in H; lia).
    assert (0 < n * 2 ^ 1074) as P by (apply Z.mul_pos_pos; [exact Hn|apply Z.pow_pos_nonneg; lia]).
    set (x := n * 2 ^ 1074) in *. unfold round_div.
    rewrite Z.div_small, Z.mod_small by lia. cbv zeta.
    destruct (Z.compare_spec (2 * x) d); [reflexivity|reflexivity|lia]. }
  reflexivity.
Qed.

Lemma int_near n d N : 0 < n -> 0 < d -> 0 < N -> n < 2 ^ 52 * d ->
  - n <= (N * d - n) * 2 ^ 54 <= n -> int_of n d = true.
Proof.
  intros Hn Hd HN Hs Hc.
  set (K := Z.abs (rexp n d) + 2000).
  assert (0 <= K) as HK by lia. assert (0 <= rexp n d + K) as HrK by lia.
  pose proof (rexp_spec n d K Hn Hd HrK HK) as [R1 R2].
  assert (0 < 2 ^ K) as PK by (apply Z.pow_pos_nonneg; lia).
  change (2 ^ 54) with 18014398509481984 in Hc.
  assert (d <= 2 * n) as Hd2 by nia.
  assert (-60 <= rexp n d) as Hr1.
  { apply Z.nlt_ge. intros C.
    assert (2 ^ (rexp n d + 53 + K) <= 2 ^ (K - 2)) as Q by (apply Z.pow_le_mono_r; lia).
    assert (2 ^ K = 2 ^ 2 * 2 ^ (K - 2)) as EK by (rewrite <- p2 by lia; f_equal; lia).
    set (t := 2 ^ (K - 2)) in *. assert (0 < t) as Pt by (apply Z.pow_pos_nonneg; lia).
    assert (d * 2 ^ (rexp n d + 53 + K) <= d * t) as Q2 by (apply Z.mul_le_mono_nonneg_l; lia).
    rewrite EK in R2. change (2 ^ 2) with 4 in R2. nia. }
  assert (rexp n d < 0) as Hr2.
  { apply Z.nle_gt. intros C.
    assert (2 ^ (52 + K) <= 2 ^ (rexp n d + 52 + K)) as Q by (apply Z.pow_le_mono_r; lia).
    rewrite p2 in Q by lia.
    assert (d * (2 ^ 52 * 2 ^ K) <= d * 2 ^ (rexp n d + 52 + K)) as Q2 by (apply Z.mul_le_mono_nonneg_l; lia).
    assert (n * 2 ^ K < 2 ^ 52 * d * 2 ^ K) as Q3 by (apply Z.mul_lt_mono_pos_r; assumption). lia. }
  assert (fexp n d = rexp n d) as Ee by (rewrite fexp_rexp; lia).
  assert (0 <= fexp n d + K) as HeK by lia.
  pose proof (rounded_near n d K (N * 2 ^ (- fexp n d)) Hn Hd HK HeK) as Nr. cbv zeta in Nr.
  set (e := fexp n d) in *. rewrite <- Ee in *.
  assert (N * 2 ^ (- e) * d * 2 ^ (e + K) = N * d * 2 ^ K) as EN.
  { replace K with (- e + (e + K)) at 2 by lia. rewrite (p2 (- e) (e + K)) by lia. ring. }
  rewrite EN in Nr.
  assert (n * 2 ^ K < d * 2 ^ (e + K) * 2 ^ 53) as R3.
  { replace (e + 53 + K) with (53 + (e + K)) in R2 by lia. rewrite p2 in R2 by lia. lia. }
  change (2 ^ 53) with 9007199254740992 in R3.
  assert (round_div (n * up (- e)) (d * up e) = N * 2 ^ (- e)) as Em.
  { apply Nr. destruct Hc as [Hc1 Hc2].
    apply (Z.mul_le_mono_nonneg_r _ _ (2 ^ K)) in Hc1; [|lia].
    apply (Z.mul_le_mono_nonneg_r _ _ (2 ^ K)) in Hc2; [|lia]. lia. }
  unfold int_of, to_double. fold e. rewrite Em. cbv zeta.
  rewrite (proj2 (Z.leb_gt 0 e)) by lia. cbn [andb]. unfold whole.
  rewrite (proj2 (Z.leb_gt 0 e)) by lia. cbn [orb]. apply Z.eqb_eq. apply Z_mod_mult.
Qed.

Lemma int_large n d : 0 < n -> 0 < d -> 2 ^ 52 * d <= n ->
  (int_of n d = true <-> n < (2 ^ 54 - 1) * 2 ^ 970 * d).
Proof.
  intros Hn Hd Hs.
  assert (0 <= rexp n d) as Hr.
  { apply Z.nlt_ge. intros C.
    set (K := Z.abs (rexp n d) + 2000).
    assert (0 <= K) as HK by lia. assert (0 <= rexp n d + K) as HrK by lia.
    pose proof (rexp_spec n d K Hn Hd HrK HK) as [_ R2].
    assert (0 < 2 ^ K) as PK by (apply Z.pow_pos_nonneg; lia).
    assert (2 ^ (rexp n d + 53 + K) <= 2 ^ (52 + K)) as Q by (apply Z.pow_le_mono_r; lia).
    rewrite (p2 52 K) in Q by lia.
    assert (d * 2 ^ (rexp n d + 53 + K) <= d * (2 ^ 52 * 2 ^ K)) as Q2 by (apply Z.mul_le_mono_nonneg_l; lia).
    assert (2 ^ 52 * d * 2 ^ K <= n * 2 ^ K) as Q3 by (apply Z.mul_le_mono_nonneg_r; lia). lia. }
  pose proof (rexp_spec n d 0 Hn Hd ltac:(lia) ltac:(lia)) as [R1 R2].
  assert (fexp n d = rexp n d) as Ee by (rewrite fexp_rexp; lia). rewrite <- Ee in *.
  unfold int_of, to_double. set (e := fexp n d) in *.
  assert (up (- e) = 1) as U1 by (unfold up; rewrite Z.max_l by lia; reflexivity).
  assert (up e = 2 ^ e) as U2 by (unfold up; rewrite Z.max_r by lia; reflexivity).
  rewrite U1, U2, Z.mul_1_r. set (m := round_div n (d * 2 ^ e)).
  assert (0 < 2 ^ e) as Pe by (apply Z.pow_pos_nonneg; lia).
  assert (0 < d * 2 ^ e) as PD by nia.
  pose proof (round_div_spec n (d * 2 ^ e) PD) as S. fold m in S.
  rewrite !Z.add_0_r, Z.mul_1_r in *. rewrite !p2 in R1, R2 by lia.
  cbv zeta. rewrite (proj2 (Z.leb_le 0 e)) by lia. cbn [andb].
  assert ((if 2 ^ 1024 <=? m * 2 ^ e then None else Some (m, e)) = (if 2 ^ 1024 <=? m * 2 ^ e then None else Some (m, e))) as _ by reflexivity.
  assert ((match (if 2 ^ 1024 <=? m * 2 ^ e then None else Some (m, e)) with Some (k, x) => whole k x | None => false end) = true
          <-> m * 2 ^ e < 2 ^ 1024) as ->.
  { destruct (Z.leb_spec (2 ^ 1024) (m * 2 ^ e)).
    - split; [discriminate|lia].
    - split; [auto|]. intros _. unfold whole. rewrite (proj2 (Z.leb_le 0 e)) by lia. reflexivity. }
  change (2 ^ 52) with 4503599627370496 in R1. change (2 ^ 53) with 9007199254740992 in R2.
  set (D := d * 2 ^ e) in *.
  assert (2 * m <= 2 * 9007199254740992) as M1 by nia.
  assert (2 * 4503599627370496 <= 2 * m) as M2 by nia.
  destruct (Z.lt_trichotomy e 971) as [C|[C|C]].
  - assert (2 ^ e <= 2 ^ 970) as Q by (apply Z.pow_le_mono_r; lia).
    split; intros _.
    + assert (n < d * 2 ^ e * 9007199254740992) as Q1 by (unfold D in R2; lia).
      assert (d * 2 ^ e <= d * 2 ^ 970) as Q2 by (apply Z.mul_le_mono_nonneg_l; lia). fold D in Q1, Q2.
      change (2 ^ 54 - 1) with 18014398509481983.
      set (u := 2 ^ 970) in *. clearbody u. lia.
    + change (2 ^ 1024) with (18014398509481984 * 2 ^ 970).
      assert (m * 2 ^ e <= 9007199254740992 * 2 ^ 970) as Q1 by (apply Z.mul_le_mono_nonneg; lia).
      set (u := 2 ^ 970) in *. clearbody u. lia.
  - assert (2 ^ e = 2 * 2 ^ 970) as Q by (rewrite C; reflexivity).
    assert (n < (2 ^ 54 - 1) * 2 ^ 970 * d <-> 2 * n < 18014398509481983 * D) as ->.
    { change (2 ^ 54 - 1) with 18014398509481983. unfold D. rewrite Q. set (u := 2 ^ 970). clearbody u. lia. }
    change (2 ^ 1024) with (9007199254740992 * (2 * 2 ^ 970)). rewrite <- Q.
    rewrite <- Z.mul_lt_mono_pos_r by exact Pe. split.
    + intros Hm. apply Z.nle_gt. intros B. revert Hm. apply Z.le_ngt.
      unfold m, round_div.
      assert (D <> 0) as D0 by lia.
      pose proof (Z.div_mod n D D0) as E. pose proof (Z.mod_pos_bound n D PD) as MB.
      set (q := n / D) in *. set (r := n mod D) in *.
      assert (9007199254740991 <= q) as Hq by nia.
      destruct (Z.eq_dec q 9007199254740991) as [Eq|Nq].
      * rewrite Eq in *. destruct (Z.compare_spec (2 * r) D); [cbn [Z.even]; lia|lia|lia].
      * destruct (Z.compare_spec (2 * r) D); [destruct (Z.even q)| |]; lia.
    + intros B. nia.
  - assert (2 ^ 972 <= 2 ^ e) as Q by (apply Z.pow_le_mono_r; lia).
    change (2 ^ 972) with (4 * 2 ^ 970) in Q.
    split.
    + intros Hm. exfalso. change (2 ^ 1024) with (4503599627370496 * (4 * 2 ^ 970)) in Hm. nia.
    + intros B. exfalso. change (2 ^ 54 - 1) with 18014398509481983 in B.
      assert (d * (4 * 2 ^ 970) <= D) as Q2 by (apply Z.mul_le_mono_nonneg_l; lia).
      assert (0 < d * 2 ^ 970) as Q3 by (apply Z.mul_pos_pos; [exact Hd|apply Z.pow_pos_nonneg; lia]).
      set (u := 2 ^ 970) in *. clearbody u. lia.
Qed.

(** ** From texts to fractions *)
Lemma digs_value u ds : digs u ds -> 0 <= value ds.
Proof.
  induction 1 as [k Hk|k l ds Hk H IH|k l ds Hk H IH]; cbn [value length].
  - cbn. lia.
  - assert (0 <= 10 ^ Z.of_nat (length ds)) by (apply Z.pow_nonneg; lia). nia.
  - assert (0 <= 10 ^ Z.of_nat (length ds)) by (apply Z.pow_nonneg; lia). nia.
Qed.

Lemma num_value b A B X : num b A B X -> 0 <= value (A ++ B).
Proof.
  assert (forall n, 0 <= 10 ^ Z.of_nat n) as P by (intros; apply Z.pow_nonneg; lia).
  destruct 1; rewrite value_app;
    repeat match goal with H : digs _ _ |- _ => apply digs_value in H end; cbn [value];
    match goal with |- context [10 ^ Z.of_nat (length ?x)] => pose proof (P (length x)) end; nia.
Qed.

Lemma ten_pos e : 0 <= e -> (Qpower (10 # 1) e == inject_Z (10 ^ e))%Q.
Proof. intros H. rewrite Zpower_Qpower by exact H. reflexivity. Qed.

Lemma reads_frac l q : reads l q -> exists n d, 0 <= n /\ 0 < d /\
  (Qabs q * inject_Z d == inject_Z n)%Q /\
  is_int l = (if n =? 0 then true else int_of n d).
Proof.
  intros (neg & b & A & B & X & Hb & Hn & Eq).
  assert (parse l = Some (PNum neg (value (A ++ B)) (X - Z.of_nat (length B)))) as Ep
    by (apply parse_num; exists b, A, B, X; auto).
  pose proof (num_value _ _ _ _ Hn) as Hm.
  set (m := value (A ++ B)) in *. set (e := X - Z.of_nat (length B)) in *.
  assert (exists n d, frac m e = (n, d) /\ 0 <= n /\ 0 < d /\ (n = 0 <-> m = 0) /\
            (inject_Z m * Qpower (10 # 1) e * inject_Z d == inject_Z n)%Q) as (n & d & Ef & H1 & H2 & H3 & H4).
  { unfold frac. destruct (Z.leb_spec 0 e) as [He|He].
    - assert (0 < 10 ^ e) as P by (apply Z.pow_pos_nonneg; lia).
      exists (m * 10 ^ e), 1. split; [reflexivity|]. split; [nia|]. split; [lia|]. split; [nia|].
      rewrite ten_pos by exact He. rewrite inject_Z_mult. ring.
    - assert (0 < 10 ^ (- e)) as P by (apply Z.pow_pos_nonneg; lia).
      exists m, (10 ^ (- e)). split; [reflexivity|]. split; [exact Hm|]. split; [exact P|]. split; [tauto|].
      replace e with (- (- e)) at 1 by lia. rewrite Qpower_opp, ten_pos by lia.
      field. intros F. unfold Qeq in F. cbn in F. lia. }
  exists n, d. split; [exact H1|]. split; [exact H2|]. split.
  - rewrite <- H4. rewrite Eq.
    assert (0 <= inject_Z m * Qpower (10 # 1) e)%Q as P.
    { apply Qmult_le_0_compat; [unfold Qle; cbn; lia|]. apply Qpower_0_le. discriminate. }
    destruct neg.
    + setoid_replace (inject_Z (-1) * inject_Z m * (10 # 1) ^ e)%Q with (- (inject_Z m * (10 # 1) ^ e))%Q by ring.
      rewrite Qabs_opp, Qabs_pos by exact P. reflexivity.
    + setoid_replace (inject_Z 1 * inject_Z m * (10 # 1) ^ e)%Q with (inject_Z m * (10 # 1) ^ e)%Q by ring.
      rewrite Qabs_pos by exact P. reflexivity.
  - unfold is_int. rewrite Ep, Ef. cbn [fst snd]. unfold int_of.
    destruct (Z.eqb_spec m 0) as [E|E], (Z.eqb_spec n 0) as [F|F]; try tauto.
Qed.

Lemma q_le a n d z : 0 < d -> (a * inject_Z d == inject_Z n)%Q -> (inject_Z z <= a)%Q <-> z * d <= n.
Proof.
  intros Hd E. rewrite <- (Qmult_le_r _ _ (inject_Z d)) by (unfold Qlt; cbn; lia).
  rewrite E, <- inject_Z_mult, <- Zle_Qle. reflexivity.
Qed.

Lemma q_lt a n d z : 0 < d -> (a * inject_Z d == inject_Z n)%Q -> (a < inject_Z z)%Q <-> n < z * d.
Proof.
  intros Hd E. rewrite <- (Qmult_lt_r _ _ (inject_Z d)) by (unfold Qlt; cbn; lia).
  rewrite E, <- inject_Z_mult, <- Zlt_Qlt. reflexivity.
Qed.

Lemma q_eq a n d z : 0 < d -> (a * inject_Z d == inject_Z n)%Q -> (a == inject_Z z)%Q <-> n = z * d.
Proof.
  intros Hd E. rewrite <- (Qmult_inj_r _ _ (inject_Z d)) by (intros F; unfold Qeq in F; cbn in F; lia).
  rewrite E, <- inject_Z_mult, inject_Z_injective. reflexivity.
Qed.

(** ** Theorems *)
(** A cell counts as a float exactly if, without white space around it and a sign, it is "nan", "inf"
    or "infinity" in any capitals, or digits with a point and an exponent. *)
Theorem C100_float : forall l, is_float l = true <->
  exists neg b, body l neg b /\ (nan_word b \/ inf_word b \/ exists A B X, num b A B X).
Proof.
  intros l. unfold is_float. split.
  - destruct (parse l) as [[| |neg m e]|] eqn:E; [| | |discriminate]; intros _.
    + apply parse_nan in E. destruct E as (neg & b & H & W). eauto 6.
    + apply parse_inf in E. destruct E as (neg & b & H & W). eauto 6.
    + apply parse_num in E. destruct E as (b & A & B & X & H & W & _). exists neg, b. eauto 8.
  - intros (neg & b & H & [W|[W|(A & B & X & W)]]).
    + rewrite (proj2 (parse_nan l)); eauto.
    + rewrite (proj2 (parse_inf l)); eauto.
    + rewrite (proj2 (parse_num l neg (value (A ++ B)) (X - Z.of_nat (length B)))); [reflexivity|]. exists b, A, B, X. repeat split; auto.
Qed.

(** It is one number at most. *)
Theorem C100_one_number : forall l q q', reads l q -> reads l q' -> (q == q')%Q.
Proof.
  intros l q q' (neg & b & A & B & X & Hb & Hn & E) (neg' & b' & A' & B' & X' & Hb' & Hn' & E').
  assert (parse l = Some (PNum neg (value (A ++ B)) (X - Z.of_nat (length B)))) as P
    by (apply parse_num; exists b, A, B, X; auto).
  assert (parse l = Some (PNum neg' (value (A' ++ B')) (X' - Z.of_nat (length B')))) as P'
    by (apply parse_num; exists b', A', B', X'; auto).
  rewrite P in P'. injection P' as E1 E2 E3. rewrite E, E', E1, E2, E3. reflexivity.
Qed.

(** Cells that are no number - words and other texts - are no integers. *)
Theorem C100_int_reads : forall l, is_int l = true -> is_float l = true /\ exists q, reads l q.
Proof.
  intros l. unfold is_int, is_float. destruct (parse l) as [[| |neg m e]|] eqn:E; try discriminate.
  intros _. split; [reflexivity|]. apply parse_num in E. destruct E as (b & A & B & X & H & W & _ & _).
  eexists. exists neg, b, A, B, X. split; [exact H|]. split; [exact W|]. reflexivity.
Qed.

Theorem C100_words : forall l neg b, body l neg b -> nan_word b \/ inf_word b ->
  is_float l = true /\ is_int l = false.
Proof.
  intros l neg b H W. unfold is_float, is_int. destruct W as [W|W].
  - rewrite (proj2 (parse_nan l)); eauto.
  - rewrite (proj2 (parse_inf l)); eauto.
Qed.

(** White space around a cell makes no difference. *)
Lemma lstrip_blank w x : blank w -> lstrip (w ++ x) = lstrip x.
Proof.
  induction w as [|c w IH]; intros H; [reflexivity|]. apply blank_cons in H.
  cbn [app lstrip]. rewrite (proj1 H). apply IH. tauto.
Qed.

Lemma lstrip_app x w : lstrip (x ++ w) = match lstrip x with [] => lstrip w | y => y ++ w end.
Proof.
  induction x as [|c x IH]; [reflexivity|]. cbn [app lstrip]. destruct (is_space c); [exact IH|reflexivity].
Qed.

Lemma lstrip_all w : blank w -> lstrip w = [].
Proof. intros H. rewrite <- (app_nil_r w), lstrip_blank by exact H. reflexivity. Qed.

Lemma strip_blank w1 x w2 : blank w1 -> blank w2 -> strip (w1 ++ x ++ w2) = strip x.
Proof.
  intros H1 H2. unfold strip. rewrite lstrip_blank by exact H1. rewrite lstrip_app.
  destruct (lstrip x) as [|c r].
  - rewrite (lstrip_all w2 H2). reflexivity.
  - f_equal. rewrite rev_app_distr. apply lstrip_blank, blank_rev, H2.
Qed.

Theorem C100_blanks : forall w1 l w2, blank w1 -> blank w2 ->
  is_float (w1 ++ l ++ w2) = is_float l /\ is_int (w1 ++ l ++ w2) = is_int l.
Proof.
  intros w1 l w2 H1 H2. unfold is_float, is_int, parse. rewrite strip_blank by assumption. auto.
Qed.

(** From 2 ^ 52 on every number counts as an integer, up to the largest number of double precision. *)
Theorem C100_large : forall l q, reads l q -> (inject_Z (2 ^ 52) <= Qabs q)%Q ->
  (is_int l = true <-> (Qabs q < inject_Z ((2 ^ 54 - 1) * 2 ^ 970))%Q).
Proof.
  intros l q H L. destruct (reads_frac l q H) as (n & d & Hn & Hd & E & ->).
  apply (q_le _ n d) in L; [|exact Hd|exact E]. rewrite (q_lt _ n d) by assumption.
  assert (0 < n) as Hn0 by (change (2 ^ 52) with 4503599627370496 in L; lia).
  rewrite (proj2 (Z.eqb_neq n 0)) by lia. apply int_large; assumption.
Qed.

(** Whole numbers up to 2 ^ 53 are integers, however they are written. *)
Lemma abs_whole q z : (q == inject_Z z)%Q -> (Qabs q == inject_Z (Z.abs z))%Q.
Proof. intros ->. reflexivity. Qed.

Theorem C100_whole : forall l q z, reads l q -> (q == inject_Z z)%Q -> Z.abs z <= 2 ^ 53 -> is_int l = true.
Proof.
  intros l q z H Eq Hz. apply abs_whole in Eq.
  destruct (Z.le_gt_cases (2 ^ 52) (Z.abs z)) as [C|C].
  - apply (C100_large l q H).
    + rewrite Eq, <- Zle_Qle. exact C.
    + rewrite Eq, <- Zlt_Qlt. eapply Z.le_lt_trans; [exact Hz|]. reflexivity.
  - destruct (reads_frac l q H) as (n & d & Hn & Hd & E & ->).
    apply (q_eq _ n d) in Eq; [|exact Hd|exact E].
    destruct (Z.eqb_spec n 0) as [N|N]; [reflexivity|].
    apply (int_near n d (Z.abs z)); nia.
Qed.

(** A cell that counts as an integer is no farther from a whole number than one part in 2 ^ 53 of it,
    or at most 2 ^ -1075. *)
Theorem C100_close : forall l q, reads l q -> is_int l = true ->
  (Qabs q * inject_Z (2 ^ 1075) <= 1)%Q \/
  exists N, (Qabs (inject_Z N - Qabs q) * inject_Z (2 ^ 53) <= Qabs q)%Q.
Proof.
  intros l q H. destruct (reads_frac l q H) as (n & d & Hn & Hd & E & ->).
  assert (0 < inject_Z d)%Q as Pd by (unfold Qlt; cbn; lia).
  destruct (Z.eqb_spec n 0) as [N|N].
  - intros _. left. apply (Qmult_le_r _ _ (inject_Z d) Pd).
    setoid_replace (Qabs q * inject_Z (2 ^ 1075) * inject_Z d)%Q with (inject_Z n * inject_Z (2 ^ 1075))%Q
      by (rewrite <- E; ring).
    rewrite N. setoid_replace (inject_Z 0 * inject_Z (2 ^ 1075))%Q with 0%Q by ring.
    rewrite Qmult_1_l. apply Qlt_le_weak. exact Pd.
  - intros T. destruct (int_close n d ltac:(lia) Hd T) as [C|(N0 & C1 & C2)].
    + left. apply (Qmult_le_r _ _ (inject_Z d) Pd).
      setoid_replace (Qabs q * inject_Z (2 ^ 1075) * inject_Z d)%Q with (inject_Z n * inject_Z (2 ^ 1075))%Q
        by (rewrite <- E; ring).
      rewrite Qmult_1_l, <- inject_Z_mult, <- Zle_Qle. exact C.
    + right. exists N0. apply (Qmult_le_r _ _ (inject_Z d) Pd). rewrite E.
      setoid_replace (Qabs (inject_Z N0 - Qabs q) * inject_Z (2 ^ 53) * inject_Z d)%Q
        with (Qabs ((inject_Z N0 - Qabs q) * inject_Z d) * inject_Z (2 ^ 53))%Q
        by (rewrite Qabs_Qmult, (Qabs_pos (inject_Z d)) by (apply Qlt_le_weak; exact Pd); ring).
      setoid_replace ((inject_Z N0 - Qabs q) * inject_Z d)%Q with (inject_Z (N0 * d - n))
        by (unfold Z.sub; rewrite inject_Z_plus, inject_Z_opp, inject_Z_mult, <- E; ring).
      rewrite <- (Qabs_pos (inject_Z (2 ^ 53))) by (unfold Qle; cbn; lia).
      rewrite <- Qabs_Qmult, <- inject_Z_mult. apply Qabs_Qle_condition.
      rewrite <- inject_Z_opp, <- !Zle_Qle. auto.
Qed.

(** Half of that distance is enough. *)
Theorem C100_near : forall l q N, reads l q -> 0 < N -> (Qabs q < inject_Z (2 ^ 52))%Q ->
  (Qabs (inject_Z N - Qabs q) * inject_Z (2 ^ 54) <= Qabs q)%Q -> is_int l = true.
Proof.
  intros l q N H HN L C. destruct (reads_frac l q H) as (n & d & Hn & Hd & E & ->).
  assert (0 < inject_Z d)%Q as Pd by (unfold Qlt; cbn; lia).
  apply (q_lt _ n d) in L; [|exact Hd|exact E].
  destruct (Z.eqb_spec n 0) as [Z0|Z0]; [reflexivity|].
  apply (int_near n d N); try assumption; [lia|].
  apply (Qmult_le_r _ _ (inject_Z d) Pd) in C. rewrite E in C.
  setoid_replace (Qabs (inject_Z N - Qabs q) * inject_Z (2 ^ 54) * inject_Z d)%Q
    with (Qabs ((inject_Z N - Qabs q) * inject_Z d) * inject_Z (2 ^ 54))%Q in C
    by (rewrite Qabs_Qmult, (Qabs_pos (inject_Z d)) by (apply Qlt_le_weak; exact Pd); ring).
  setoid_replace ((inject_Z N - Qabs q) * inject_Z d)%Q with (inject_Z (N * d - n)) in C
    by (unfold Z.sub; rewrite inject_Z_plus, inject_Z_opp, inject_Z_mult, <- E; ring).
  rewrite <- (Qabs_pos (inject_Z (2 ^ 54))) in C by (unfold Qle; cbn; lia).
  rewrite <- Qabs_Qmult, <- inject_Z_mult in C. apply Qabs_Qle_condition in C.
  rewrite <- inject_Z_opp, <- !Zle_Qle in C. exact C.
Qed.

(** And so are numbers up to 2 ^ -1075. *)
Theorem C100_tiny : forall l q, reads l q -> (Qabs q * inject_Z (2 ^ 1075) <= 1)%Q -> is_int l = true.
Proof.
  intros l q H C. destruct (reads_frac l q H) as (n & d & Hn & Hd & E & ->).
  assert (0 < inject_Z d)%Q as Pd by (unfold Qlt; cbn; lia).
  destruct (Z.eqb_spec n 0) as [Z0|Z0]; [reflexivity|].
  apply int_tiny; [lia|exact Hd|].
  apply (Qmult_le_r _ _ (inject_Z d) Pd) in C.
  setoid_replace (Qabs q * inject_Z (2 ^ 1075) * inject_Z d)%Q with (inject_Z n * inject_Z (2 ^ 1075))%Q in C
      by (rewrite <- E; ring).
  rewrite Qmult_1_l, <- inject_Z_mult, <- Zle_Qle in C. exact C.
Qed.

(** A number that is not whole, written with digits that are a whole number below 2 ^ 53 - in
    particular with at most 15 digits - is no integer, unless it is as small as that. *)
Theorem C100_digits : forall l neg b A B X, body l neg b -> num b A B X -> value (A ++ B) < 2 ^ 53 ->
  forall q, reads l q -> (forall z, ~ (q == inject_Z z)%Q) -> ~ (Qabs q * inject_Z (2 ^ 1075) <= 1)%Q ->
  is_int l = false.
Proof.
  intros l neg b A B X Hb Hn Hv q Hq Nz Nt. destruct (is_int l) eqn:E; [exfalso|reflexivity].
  destruct (C100_close l q Hq E) as [C|(N & C)]; [contradiction|].
  assert (parse l = Some (PNum neg (value (A ++ B)) (X - Z.of_nat (length B)))) as P
    by (apply parse_num; exists b, A, B, X; auto).
  assert (reads l (inject_Z (if neg then -1 else 1) * inject_Z (value (A ++ B))
          * Qpower (10 # 1) (X - Z.of_nat (length B)))) as R.
  { exists neg, b, A, B, X. split; [exact Hb|]. split; [exact Hn|reflexivity]. }
  pose proof (C100_one_number _ _ _ Hq R) as Eq.
  set (m := value (A ++ B)) in *. set (e := X - Z.of_nat (length B)) in *.
  pose proof (num_value _ _ _ _ Hn) as Hm. fold m in Hm.
  set (s := if neg then -1 else 1) in *.
  destruct (Z.le_gt_cases 0 e) as [He|He].
  { apply (Nz (s * m * 10 ^ e)). rewrite Eq, ten_pos by exact He. rewrite !inject_Z_mult. reflexivity. }
  set (d := 10 ^ (- e)). assert (0 < d) as Hd by (apply Z.pow_pos_nonneg; lia).
  assert (0 < inject_Z d)%Q as Pd by (unfold Qlt; cbn; lia).
  assert (~ inject_Z d == 0)%Q as Nd by (intros F; unfold Qeq in F; cbn in F; lia).
  assert (q * inject_Z d == inject_Z (s * m))%Q as Eqd.
  { rewrite Eq. replace e with (- (- e)) by lia. rewrite Qpower_opp, ten_pos by lia. fold d.
    rewrite inject_Z_mult. field. exact Nd. }
  assert (Qabs q * inject_Z d == inject_Z m)%Q as Ea.
  { rewrite <- (Qabs_pos (inject_Z d)) by (apply Qlt_le_weak; exact Pd).
    rewrite <- Qabs_Qmult, Eqd. change (Qabs (inject_Z (s * m))) with (inject_Z (Z.abs (s * m))).
    apply inject_Z_injective. unfold s. destruct neg; lia. }
  apply (Qmult_le_r _ _ (inject_Z d) Pd) in C. rewrite Ea in C.
  setoid_replace (Qabs (inject_Z N - Qabs q) * inject_Z (2 ^ 53) * inject_Z d)%Q
    with (Qabs ((inject_Z N - Qabs q) * inject_Z d) * inject_Z (2 ^ 53))%Q in C
    by (rewrite Qabs_Qmult, (Qabs_pos (inject_Z d)) by (apply Qlt_le_weak; exact Pd); ring).
  setoid_replace ((inject_Z N - Qabs q) * inject_Z d)%Q with (inject_Z (N * d - m)) in C
    by (unfold Z.sub; rewrite inject_Z_plus, inject_Z_opp, inject_Z_mult, <- Ea; ring).
  change (Qabs (inject_Z (N * d - m))) with (inject_Z (Z.abs (N * d - m))) in C.
  rewrite <- inject_Z_mult, <- Zle_Qle in C.
  assert (m = N * d) as Em by (change (2 ^ 53) with 9007199254740992 in *; lia).
  apply (Nz (s * N)). rewrite <- (Qmult_inj_r _ _ (inject_Z d)) by exact Nd.
  rewrite Eqd, Em, <- inject_Z_mult, inject_Z_injective. ring.
Qed.

(** In every column at most as many cells are integers as are floats, and the counts of batches add
    up. *)
Theorem C100_counts : forall a b,
  (count is_int a <= count is_float a <= length a)%nat /\
  count is_int (a ++ b) = (count is_int a + count is_int b)%nat /\
  count is_float (a ++ b) = (count is_float a + count is_float b)%nat.
Proof.
  intros a b. unfold count. rewrite !filter_app, !app_length. split; [|auto].
  induction a as [|l a IH]; [auto|]. cbn [filter length].
  destruct (is_int l) eqn:E.
  - rewrite (proj1 (C100_int_reads l E)). cbn [length]. lia.
  - destruct (is_float l); cbn [length]; lia.
Qed.

(** ** Refuted expectations and examples *)
Definition cell (s : String.string) : text := String.list_ascii_of_string s.
Import String.StringSyntax.
Local Open Scope string_scope.


Lemma parse_reads l neg m e : parse l = Some (PNum neg m e) ->
  reads l (inject_Z (if neg then -1 else 1) * inject_Z m * Qpower (10 # 1) e).
Proof.
  intros E. apply parse_num in E. destruct E as (b & A & B & X & H & W & -> & ->).
  exists neg, b, A, B, X. split; [exact H|]. split; [exact W|reflexivity].
Qed.

(** Integers are whole numbers: no. *)
Theorem C100_whole_refuted : ~ forall l q, reads l q -> is_int l = true -> exists z, (q == inject_Z z)%Q.
Proof.
  intros H.
  destruct (H (cell "0.99999999999999999999") _
    (parse_reads (cell "0.99999999999999999999") false 99999999999999999999 (-20) eq_refl)) as (z & E).
  - vm_compute. reflexivity.
  - assert (inject_Z 1 * inject_Z 99999999999999999999 * (10 # 1) ^ (-20)
            == 99999999999999999999 # 100000000000000000000)%Q as E2 by (vm_compute; reflexivity).
    rewrite E2 in E. unfold Qeq in E. cbn [Qnum Qden inject_Z] in E. lia.
Qed.

(** A number other than zero that counts as an integer is at least a half: no. *)
Theorem C100_zero_refuted : ~ forall l q, reads l q -> is_int l = true -> (q == 0)%Q \/ (1 # 2 <= Qabs q)%Q.
Proof.
  intros H.
  destruct (H (cell "1e-400") _ (parse_reads (cell "1e-400") false 1 (-400) eq_refl)) as [E|E].
  - vm_compute. reflexivity.
  - vm_compute in E. discriminate E.
  - vm_compute in E. exact (E eq_refl).
Qed.

(** Whole numbers are integers: no. *)
Theorem C100_huge_refuted : ~ forall l q z, reads l q -> (q == inject_Z z)%Q -> is_int l = true.
Proof.
  intros H.
  specialize (H (cell "1e400") _ (10 ^ 400) (parse_reads (cell "1e400") false 1 400 eq_refl)).
  assert (is_int (cell "1e400") = false) as F by (vm_compute; reflexivity).
  rewrite F in H. discriminate H. rewrite ten_pos by lia. ring.
Qed.

Example C100_example :
  map (fun s => (is_float (cell s), is_int (cell s)))
    ["12"; " -1_000.0 "; "2.5"; ".5e1"; "1e+3"; "NaN"; "-Infinity"; "9007199254740993.5"; "1_"; "1 2"; "0x10"; "1e"; ""]
  = [(true, true); (true, true); (true, false); (true, true); (true, true); (true, false); (true, false); (true, true);
     (false, false); (false, false); (false, false); (false, false); (false, false)]
  /\ reads (cell " -1_000.0 ") (-1000 # 1) /\ count is_int [cell "1"; cell "1.5"; cell "2."] = 2%nat.
Proof.
  split; [vm_compute; reflexivity|]. split; [|vm_compute; reflexivity].
  destruct (parse_reads (cell " -1_000.0 ") true 10000 (-1) eq_refl) as (neg & b & A & B & X & H & W & E).
  exists neg, b, A, B, X. split; [exact H|]. split; [exact W|]. rewrite <- E. vm_compute. reflexivity.
Qed.
