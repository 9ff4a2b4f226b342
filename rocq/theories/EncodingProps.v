(** * Properties of the encoding of a file and of the text that is read with it *)
From Coq Require Import List Arith Bool ZArith Lia.
Import ListNotations.
From Verif Require Import PyCommon PyString EncodingModel.
Import String.StringSyntax.
Local Delimit Scope string_scope with string.
Local Open Scope nat_scope.

(** ** What UTF-8 is *)
Definition scalar (c : Z) : Prop := (0 <= c < 55296 \/ 57344 <= c <= 1114111)%Z.
Definition encode (c : Z) : bytes :=
  (if c <? 128 then [c]
   else if c <? 2048 then [192 + c / 64; 128 + c mod 64]
   else if c <? 65536 then [224 + c / 4096; 128 + c / 64 mod 64; 128 + c mod 64]
   else [240 + c / 262144; 128 + c / 4096 mod 64; 128 + c / 64 mod 64; 128 + c mod 64])%Z.

Ltac zb := repeat match goal with
  | |- context [(?a <=? ?b)%Z] => destruct (Z.leb_spec a b)
  | |- context [(?a <? ?b)%Z] => destruct (Z.ltb_spec a b)
  | |- context [(?a =? ?b)%Z] => destruct (Z.eqb_spec a b)
  end.

Ltac same := match goal with
  | |- Some (Need _ _ _ ?x, _) = Some (Need _ _ _ ?y, _) => replace x with y by (Z.div_mod_to_equations; lia); reflexivity
  | |- Some (Start, [?x]) = Some (Start, [?y]) => replace x with y by (Z.div_mod_to_equations; lia); reflexivity
  end.

Lemma urun_app b1 : forall b2 s, urun s (b1 ++ b2) =
  match urun s b1 with
  | None => None
  | Some (s', o1) => match urun s' b2 with None => None | Some (s'', o2) => Some (s'', o1 ++ o2) end
  end.
Proof.
  induction b1 as [|x b1 IH]; intros b2 s; cbn [urun app].
  - destruct (urun s b2) as [[s'' o]|]; reflexivity.
  - destruct (ustep s x) as [[s1 o1]|]; [|reflexivity]. rewrite IH.
    destruct (urun s1 b1) as [[s2 o2]|]; [|reflexivity].
    destruct (urun s2 b2) as [[s3 o3]|]; [|reflexivity]. rewrite app_assoc. reflexivity.
Qed.

Lemma need_step n lo hi cp b : (lo <= b <= hi)%Z ->
  ustep (Need n lo hi cp) b =
    match n with
    | S (S m) => Some (Need (S m) 128 191 (cp * 64 + (b - 128)), [])
    | _ => Some (Start, [cp * 64 + (b - 128)])
    end%Z.
Proof.
  intros H. unfold ustep. rewrite (proj2 (Z.leb_le lo b)), (proj2 (Z.leb_le b hi)) by lia. reflexivity.
Qed.

Ltac zs := repeat match goal with
  | |- context [(?a <=? ?b)%Z] => first [rewrite (proj2 (Z.leb_le a b)) by lia | rewrite (proj2 (Z.leb_gt a b)) by lia]
  | |- context [(?a =? ?b)%Z] => rewrite (proj2 (Z.eqb_neq a b)) by lia
  end; cbn [andb].

Lemma start_two q : (2 <= q <= 31)%Z -> ustep Start (192 + q) = Some (Need 1 128 191 q, [])%Z.
Proof. intros H. unfold ustep. zs. replace (192 + q - 192)%Z with q by lia. reflexivity. Qed.
Lemma start_three q : (1 <= q <= 15)%Z -> q <> 13%Z -> ustep Start (224 + q) = Some (Need 2 128 191 q, [])%Z.
Proof. intros H N. unfold ustep. zs. replace (224 + q - 224)%Z with q by lia. reflexivity. Qed.
Lemma start_four q : (1 <= q <= 3)%Z -> ustep Start (240 + q) = Some (Need 3 128 191 q, [])%Z.
Proof. intros H. unfold ustep. zs. replace (240 + q - 240)%Z with q by lia. reflexivity. Qed.

Lemma encode_ok c : scalar c -> urun Start (encode c) = Some (Start, [c]).
Proof.
  intros S. unfold encode.
  destruct (Z.ltb_spec c 128) as [A|A]; [cbn [urun]; unfold scalar in S; unfold ustep; zs; reflexivity|].
  destruct (Z.ltb_spec c 2048) as [B|B].
  - cbn [urun]. assert (X : ustep Start (192 + c / 64) = Some (Need 1 128 191 (c / 64), [])%Z).
    { apply start_two. Z.div_mod_to_equations; lia. }
    rewrite X. rewrite need_step by (Z.div_mod_to_equations; lia). cbn [urun app].
    same.
  - destruct (Z.ltb_spec c 65536) as [C|C].
    + cbn [urun].
      assert (L : (0 <= c / 4096 <= 15)%Z) by (Z.div_mod_to_equations; lia).
      assert (X : exists lo hi, ustep Start (224 + c / 4096) = Some (Need 2 lo hi (c / 4096), [])%Z /\
         (lo <= 128 + c / 64 mod 64 <= hi)%Z).
      { destruct (Z.eq_dec (c / 4096) 0) as [E|E].
        - rewrite E. exists 160%Z, 191%Z. split; [reflexivity|]. Z.div_mod_to_equations; lia.
        - destruct (Z.eq_dec (c / 4096) 13) as [F|F].
          + rewrite F. exists 128%Z, 159%Z. split; [reflexivity|]. unfold scalar in S. Z.div_mod_to_equations; lia.
          + exists 128%Z, 191%Z. split; [|Z.div_mod_to_equations; lia].
            apply start_three; lia. }
      destruct X as (lo & hi & X & R). rewrite X, need_step by exact R.
      rewrite need_step by (Z.div_mod_to_equations; lia). cbn [urun app].
      same.
    + cbn [urun]. unfold scalar in S.
      assert (L : (0 <= c / 262144 <= 4)%Z) by (Z.div_mod_to_equations; lia).
      assert (X : exists lo hi, ustep Start (240 + c / 262144) = Some (Need 3 lo hi (c / 262144), [])%Z /\
         (lo <= 128 + c / 4096 mod 64 <= hi)%Z).
      { destruct (Z.eq_dec (c / 262144) 0) as [E|E].
        - rewrite E. exists 144%Z, 191%Z. split; [reflexivity|]. Z.div_mod_to_equations; lia.
        - destruct (Z.eq_dec (c / 262144) 4) as [F|F].
          + rewrite F. exists 128%Z, 143%Z. split; [reflexivity|]. Z.div_mod_to_equations; lia.
          + exists 128%Z, 191%Z. split; [|Z.div_mod_to_equations; lia].
            apply start_four; lia. }
      destruct X as (lo & hi & X & R). rewrite X, need_step by exact R.
      rewrite need_step by (Z.div_mod_to_equations; lia). cbn [urun].
      rewrite need_step by (Z.div_mod_to_equations; lia). cbn [urun app].
      same.
Qed.

Lemma encode_all cs : Forall scalar cs -> urun Start (flat_map encode cs) = Some (Start, cs).
Proof.
  induction 1 as [|c cs S _ IH]; [reflexivity|]. cbn [flat_map].
  rewrite urun_app, (encode_ok c S), IH. reflexivity.
Qed.

Lemma need_inv n lo hi cp b s o : ustep (Need n lo hi cp) b = Some (s, o) ->
  (lo <= b <= hi)%Z /\
  match n with
  | S (S m) => s = Need (S m) 128 191 (cp * 64 + (b - 128)) /\ o = []
  | _ => s = Start /\ o = [cp * 64 + (b - 128)]
  end%Z.
Proof.
  unfold ustep. destruct (Z.leb_spec lo b); [|discriminate]. destruct (Z.leb_spec b hi); [|discriminate].
  cbn [andb]. intros X. split; [lia|]. destruct n as [|[|m]]; injection X as <- <-; auto.
Qed.

Lemma start_inv b s o : ustep Start b = Some (s, o) ->
  (0 <= b <= 127 /\ s = Start /\ o = [b])%Z \/
  (o = [] /\ exists n lo hi cp, s = Need n lo hi cp /\
    ((n = 1%nat /\ lo = 128 /\ hi = 191 /\ 194 <= b <= 223 /\ cp = b - 192) \/
     (n = 2%nat /\ b = 224 /\ lo = 160 /\ hi = 191 /\ cp = 0) \/
     (n = 2%nat /\ b = 237 /\ lo = 128 /\ hi = 159 /\ cp = 13) \/
     (n = 2%nat /\ 225 <= b <= 239 /\ b <> 237 /\ lo = 128 /\ hi = 191 /\ cp = b - 224) \/
     (n = 3%nat /\ b = 240 /\ lo = 144 /\ hi = 191 /\ cp = 0) \/
     (n = 3%nat /\ 241 <= b <= 243 /\ lo = 128 /\ hi = 191 /\ cp = b - 240) \/
     (n = 3%nat /\ b = 244 /\ lo = 128 /\ hi = 143 /\ cp = 4)))%Z.
Proof.
  unfold ustep. intros X.
  repeat match type of X with
  | (if ?c then _ else _) = _ => let E := fresh "E" in destruct c eqn:E
  end; try discriminate X; injection X as <- <-;
  repeat match goal with
  | H : _ && _ = true |- _ => apply andb_prop in H; destruct H
  | H : (_ <=? _)%Z = true |- _ => apply Z.leb_le in H
  | H : (_ =? _)%Z = true |- _ => apply Z.eqb_eq in H
  | H : (_ =? _)%Z = false |- _ => apply Z.eqb_neq in H
  end; [left; auto|..]; right; (split; [reflexivity|]); do 4 eexists; (split; [reflexivity|]).
  - left. repeat split; lia.
  - right. left. repeat split; lia.
  - right. right. left. repeat split; lia.
  - do 3 right. left. repeat split; lia.
  - do 4 right. left. repeat split; lia.
  - do 5 right. left. repeat split; lia.
  - do 6 right. repeat split; lia.
Qed.

Lemma decode_exact n : forall b cs, length b <= n -> urun Start b = Some (Start, cs) ->
  b = flat_map encode cs /\ Forall scalar cs.
Proof.
  induction n as [|n IH]; intros b cs L R.
  - destruct b; [|cbn in L; lia]. injection R as <-. split; [reflexivity|constructor].
  - destruct b as [|b1 b]; [injection R as <-; split; [reflexivity|constructor]|].
    cbn [urun] in R. destruct (ustep Start b1) as [[s1 o1]|] eqn:S1; [|discriminate R].
    assert (Go : forall c r cs' k, length r <= n -> scalar c -> urun Start r = Some (Start, cs') ->
      k = encode c -> k ++ r = flat_map encode (c :: cs') /\ Forall scalar (c :: cs')).
    { intros c r cs' k Lr Sc Ur ->. destruct (IH r cs' Lr Ur) as [-> F]. split; [reflexivity|]. constructor; assumption. }
    apply start_inv in S1. destruct S1 as [(Hb & -> & ->)|(-> & m & lo & hi & cp & -> & C)].
    + destruct (urun Start b) as [[s2 o2]|] eqn:R2; [|discriminate R]. injection R as -> <-.
      apply (Go b1 b o2 [b1]); [cbn in L; lia|unfold scalar; lia|exact R2|].
      unfold encode. destruct (Z.ltb_spec b1 128); [reflexivity|lia].
    + destruct (urun (Need m lo hi cp) b) as [[s2 o2]|] eqn:R2; [|discriminate R].
      injection R as -> <-. cbn [app].
      destruct b as [|b2 b]; [discriminate R2|]. cbn [urun] in R2.
      destruct (ustep (Need m lo hi cp) b2) as [[s3 o3]|] eqn:S2; [|discriminate R2].
      apply need_inv in S2. destruct S2 as [B2 S2].
      destruct m as [|[|m]]; [exfalso; lia| |].
      * destruct S2 as [-> ->]. destruct (urun Start b) as [[s4 o4]|] eqn:R4; [|discriminate R2].
        injection R2 as -> <-.
        apply (Go _ b o4 [b1; b2]); [cbn in L; lia| |exact R4|].
        -- unfold scalar. lia.
        -- unfold encode. destruct C as [C|C]; [|lia].
           destruct (Z.ltb_spec (cp * 64 + (b2 - 128)) 128); [lia|].
           destruct (Z.ltb_spec (cp * 64 + (b2 - 128)) 2048); [|lia].
           f_equal; [|f_equal]; Z.div_mod_to_equations; lia.
      * destruct S2 as [-> ->].
        destruct (urun (Need (S m) 128 191 (cp * 64 + (b2 - 128))) b) as [[s4 o4]|] eqn:R4; [|discriminate R2].
        injection R2 as -> <-. cbn [app].
        destruct b as [|b3 b]; [discriminate R4|]. cbn [urun] in R4.
        destruct (ustep (Need (S m) 128 191 (cp * 64 + (b2 - 128))) b3) as [[s5 o5]|] eqn:S3; [|discriminate R4].
        apply need_inv in S3. destruct S3 as [B3 S3].
        destruct m as [|m].
        -- destruct S3 as [-> ->]. destruct (urun Start b) as [[s6 o6]|] eqn:R6; [|discriminate R4].
           injection R4 as -> <-.
           apply (Go _ b o6 [b1; b2; b3]); [cbn in L; lia| |exact R6|].
           ++ unfold scalar. lia.
           ++ unfold encode. set (c := ((cp * 64 + (b2 - 128)) * 64 + (b3 - 128))%Z).
              assert (2048 <= c < 65536)%Z by (unfold c; lia).
              destruct (Z.ltb_spec c 128); [lia|]. destruct (Z.ltb_spec c 2048); [lia|].
              destruct (Z.ltb_spec c 65536); [|lia]. unfold c in *.
              f_equal; [|f_equal; [|f_equal]]; Z.div_mod_to_equations; lia.
        -- destruct S3 as [-> ->].
           match type of R4 with context [urun ?st b] => destruct (urun st b) as [[s6 o6]|] eqn:R6; [|discriminate R4] end.
           injection R4 as -> <-. cbn [app].
           destruct b as [|b4 b]; [discriminate R6|]. cbn [urun] in R6.
           match type of R6 with context [ustep ?st b4] => destruct (ustep st b4) as [[s7 o7]|] eqn:S4; [|discriminate R6] end.
           apply need_inv in S4. destruct S4 as [B4 S4].
           destruct m as [|m]; [|exfalso; lia].
           destruct S4 as [-> ->]. destruct (urun Start b) as [[s8 o8]|] eqn:R8; [|discriminate R6].
           injection R6 as -> <-.
           apply (Go _ b o8 [b1; b2; b3; b4]); [cbn in L; lia| |exact R8|].
           ++ unfold scalar. lia.
           ++ unfold encode. set (c := (((cp * 64 + (b2 - 128)) * 64 + (b3 - 128)) * 64 + (b4 - 128))%Z).
              assert (65536 <= c <= 1114111)%Z by (unfold c; lia).
              destruct (Z.ltb_spec c 128); [lia|]. destruct (Z.ltb_spec c 2048); [lia|].
              destruct (Z.ltb_spec c 65536); [lia|]. unfold c in *.
              f_equal; [|f_equal; [|f_equal; [|f_equal]]]; Z.div_mod_to_equations; lia.
Qed.

(** The decoder accepts exactly the bytes that encode a text, and gives this text. *)
Theorem C106_utf8 : forall b t,
  utf8 b true = Some t <-> b = flat_map encode t /\ Forall scalar t.
Proof.
  intros b t. unfold utf8. split.
  - destruct (urun Start b) as [[[|] o]|] eqn:R; try discriminate. intros X. injection X as ->.
    apply (decode_exact (length b)); auto.
  - intros (-> & F). rewrite (encode_all t F). reflexivity.
Qed.
Print Assumptions C106_utf8.

(** ** Texts and lines *)
Lemma translate_keeps t : ~ In CR t -> translate t = t.
Proof.
  induction t as [|c r IH]; intros N; [reflexivity|]. cbn [translate].
  destruct (Z.eqb_spec c CR) as [->|E]; [destruct N; left; reflexivity|].
  rewrite IH; [reflexivity|]. intros I. apply N. right. exact I.
Qed.

Lemma lines_concat t : concat (lines_of t) = t.
Proof.
  induction t as [|c r IH]; [reflexivity|]. cbn [lines_of].
  destruct (Z.eqb_spec c LF); [cbn; rewrite IH; reflexivity|].
  destruct (lines_of r) as [|l ls]; cbn in *; rewrite IH; reflexivity.
Qed.

(** A line has a line feed at its end and nowhere else; only the last may have none. *)
Definition line (l : chars) : Prop := exists a, l = a ++ [LF] /\ ~ In LF a.
Definition lines (ls : list chars) : Prop :=
  Forall line ls \/ exists xs x, ls = xs ++ [x] /\ Forall line xs /\ x <> [] /\ ~ In LF x.

Lemma lines_lines t : lines (lines_of t).
Proof.
  induction t as [|c r IH]; [left; constructor|]. cbn [lines_of].
  destruct (Z.eqb_spec c LF) as [->|E].
  - assert (H : line [LF]) by (exists []; split; [reflexivity|intros []]).
    destruct IH as [F|(xs & x & -> & F & N & I)].
    + left. constructor; assumption.
    + right. exists ([LF] :: xs), x. repeat split; auto.
  - destruct (lines_of r) as [|l ls] eqn:R.
    + right. exists [], [c]. repeat split; auto; [discriminate|]. intros [X|[]]. auto.
    + assert (G : line l -> line (c :: l)).
      { intros (a & -> & Na). exists (c :: a). split; [reflexivity|]. intros [X|X]; auto. }
      destruct IH as [F|(xs & x & Ex & F & N & I)].
      * left. inversion F; subst. constructor; auto.
      * destruct xs as [|y xs]; cbn in Ex; injection Ex as -> ->.
        -- right. exists [], (c :: x). repeat split; auto; [discriminate|]. intros [X|X]; auto.
        -- right. exists ((c :: y) :: xs), x. inversion F; subst. repeat split; auto.
Qed.

(** The relation between a text and what is read of it: CR LF and CR become LF. *)
Inductive newlines : chars -> chars -> Prop :=
| nl_end : newlines [] []
| nl_crlf r r' : newlines r r' -> newlines (CR :: LF :: r) (LF :: r')
| nl_cr r r' : newlines r r' -> (forall x, r <> LF :: x) -> newlines (CR :: r) (LF :: r')
| nl_other c r r' : c <> CR -> newlines r r' -> newlines (c :: r) (c :: r').

Lemma translate_rel n : forall t, length t <= n -> newlines t (translate t).
Proof.
  induction n as [|n IH]; intros t L; (destruct t as [|c r]; [constructor|]); cbn [length] in L; [lia|].
  cbn [translate]. destruct (Z.eqb_spec c CR) as [->|E].
  - destruct r as [|d r'].
    + apply nl_cr; [constructor|discriminate].
    + destruct (Z.eqb_spec d LF) as [->|E].
      * apply nl_crlf. apply IH. cbn in L. lia.
      * apply nl_cr; [apply IH; lia|]. intros x X. injection X as X _. auto.
  - apply nl_other; [exact E|]. apply IH. lia.
Qed.

Lemma newlines_fun t t1 : newlines t t1 -> forall t2, newlines t t2 -> t1 = t2.
Proof.
  induction 1 as [|r r' H IH|r r' H IH N|c r r' E H IH]; intros t2 H2; inversion H2; subst;
    try reflexivity; try (f_equal; auto); try contradiction;
    try (exfalso; match goal with H : forall x, _ <> _ |- _ => eapply H; reflexivity end);
    try (unfold CR, LF in *; lia).
Qed.

Section Encoding.
  Context {D : Type} (d_new : D) (d_feed : D -> bytes -> D) (d_close : D -> option string).
  Context (normalizer : option (bytes -> nat -> nat -> result (option string))).
  Context (dec : string -> bytes -> bool -> option chars).
  Context (limit chunk : nat).
  Notation head_ok := (head_ok dec limit chunk).
  Notation detect := (detect d_new d_feed d_close normalizer dec limit chunk).
  Notation read_lines := (read_lines d_new d_feed d_close normalizer dec limit chunk).

  (** What the detector is given: the first [most * size] bytes, [size] at a time. *)
  Theorem C106_sample : forall most size f, 0 < size -> exists cs,
    feed_all d_feed most size f d_new = fold_left d_feed cs d_new /\
    concat cs = firstn (most * size) f /\ length cs <= most /\
    Forall (fun c => 0 < length c <= size) cs /\
    (forall i, S i < length cs -> length (nth i cs []) = size).
  Proof.
    intros most size f Hs. revert f. generalize d_new as d.
    induction most as [|m IH]; intros d f; cbn [feed_all].
    - exists []. repeat split; auto. cbn. lia.
    - destruct (firstn size f) as [|x c] eqn:E.
      + exists []. assert (F : f = []).
        { destruct f; [reflexivity|]. destruct size; [lia|discriminate E]. }
        subst f. rewrite firstn_nil. repeat split; auto; cbn; lia.
      + destruct (IH (d_feed d (x :: c)) (skipn size f)) as (cs & E1 & E2 & E3 & E4 & E5).
        exists ((x :: c) :: cs). rewrite E1. split; [reflexivity|]. cbn [concat length].
        assert (Lc : length (x :: c) <= size) by (rewrite <- E; apply firstn_le_length).
        split; [|split; [lia|split]].
        * rewrite E2, <- E. replace (S m * size) with (size + m * size) by lia.
          rewrite <- (firstn_skipn size f) at 3. rewrite firstn_app, firstn_firstn.
          replace (Nat.min (size + m * size) size) with size by lia. f_equal.
          rewrite firstn_length. destruct (Nat.le_gt_cases size (length f)) as [G|G].
          -- f_equal. lia.
          -- rewrite skipn_all2 by lia. rewrite !firstn_nil. reflexivity.
        * constructor; [cbn [length] in *; lia|exact E4].
        * intros [|i] Hi; cbn [nth].
          -- rewrite <- E, firstn_length. destruct cs as [|c2 cs2]; [cbn in Hi; lia|].
             inversion E4; subst. destruct (Nat.le_gt_cases size (length f)); [lia|].
             rewrite skipn_all2 in E2 by lia. rewrite firstn_nil in E2.
             apply (f_equal (@length Z)) in E2. cbn [concat] in E2. rewrite app_length in E2. cbn in E2. lia.
          -- apply E5. lia.
  Qed.

  (** Which encoding is given.  [ok e] stands for: the head of the file can be read
      with [e]. *)
  Definition guess (f : bytes) (most size : nat) : string :=
    first_guess (d_close (feed_all d_feed most size f d_new)).

  Theorem C106_first_guess : forall r,
    (r = None \/ r = Some ""%string \/ (exists e, r = Some e /\
        (lower_string e = "ascii" \/ lower_string e = "windows-1254")%string) ->
     first_guess r = "utf-8"%string) /\
    (forall e, r = Some e -> e <> ""%string -> lower_string e <> "ascii"%string ->
       lower_string e <> "windows-1254"%string -> first_guess r = e).
  Proof.
    intros r. split.
    - intros [->|[->|(e & -> & H)]]; [reflexivity|reflexivity|]. cbn.
      destruct H as [-> | ->]; cbn; rewrite ?orb_true_r; reflexivity.
    - intros e -> N1 N2 N3. cbn. unfold is_empty.
      rewrite (proj2 (String.eqb_neq _ _) N1), (proj2 (String.eqb_neq _ _) N2), (proj2 (String.eqb_neq _ _) N3).
      reflexivity.
  Qed.

  Lemma guess_some r : first_guess r <> ""%string.
  Proof.
    destruct r as [e|]; cbn; [|discriminate]. unfold is_empty.
    destruct (String.eqb_spec e ""); cbn; [discriminate|]. destruct (_ || _); [discriminate|assumption].
  Qed.

  Lemma lower_shown e : e <> ""%string ->
    lower_string (if is_empty e then "utf-8"%string else e) = lower_string e.
  Proof. intros N. unfold is_empty. rewrite (proj2 (String.eqb_neq _ _) N). reflexivity. Qed.

  Theorem C106_detect : forall f most size,
    let e0 := guess f most size in
    (head_ok e0 f = true \/ normalizer = None -> detect f size most = lower_string e0) /\
    (forall n, normalizer = Some n -> head_ok e0 f = false ->
       (forall x, n (firstn (100 * 100) f) 5 512 = Err x -> detect f size most = lower_string e0) /\
       (forall e1, e1 <> ""%string ->
          n (firstn (100 * 100) f) 5 512 = Ok (Some e1) ->
          (head_ok e1 f = true -> detect f size most = lower_string e1) /\
          (forall e2, e2 <> ""%string -> head_ok e1 f = false ->
             n (firstn (most * size) f) most size = Ok (Some e2) ->
             detect f size most = lower_string e2) /\
          (head_ok e1 f = false ->
             (forall e2, n (firstn (most * size) f) most size <> Ok (Some e2)) ->
             detect f size most = lower_string e1)) /\
       (n (firstn (100 * 100) f) 5 512 = Ok None ->
          (forall e2, e2 <> ""%string ->
             n (firstn (most * size) f) most size = Ok (Some e2) ->
             detect f size most = lower_string e2) /\
          ((forall e2, n (firstn (most * size) f) most size <> Ok (Some e2)) ->
             detect f size most = lower_string e0))).
  Proof.
    intros f most size e0. pose proof (guess_some (d_close (feed_all d_feed most size f d_new))) as N0.
    unfold EncodingModel.detect. fold (guess f most size). fold (guess f most size) in N0. fold e0.
    fold e0 in N0. split.
    - intros [H|H]; rewrite H; [apply lower_shown, N0|].
      destruct (head_ok e0 f); apply lower_shown, N0.
    - intros n -> H0. rewrite H0. unfold second_guess. split; [|split].
      + intros x ->. apply lower_shown, N0.
      + intros e1 N1 ->. split; [|split].
        * intros ->. apply lower_shown, N1.
        * intros e2 N2 -> ->. apply lower_shown, N2.
        * intros -> Hn. destruct (n (firstn (most * size) f) most size) as [[e2|]|x]; try (apply lower_shown, N1).
          destruct (Hn e2 eq_refl).
      + intros ->. rewrite H0. split.
        * intros e2 N2 ->. apply lower_shown, N2.
        * intros Hn. destruct (n (firstn (most * size) f) most size) as [[e2|]|x]; try (apply lower_shown, N0).
          destruct (Hn e2 eq_refl).
  Qed.

  (** The encoding is given in small letters and is never empty. *)
  Theorem C106_small_letters : forall f size most,
    lower_string (detect f size most) = detect f size most /\ detect f size most <> ""%string.
  Proof.
    intros f size most. unfold EncodingModel.detect. split; [apply lower_string_idem|].
    set (e := if head_ok _ f then _ else _). unfold is_empty.
    destruct (String.eqb_spec e ""); [discriminate|]. destruct e; [contradiction|discriminate].
  Qed.

  (** Codecs decode a part of a file if they decode the file. *)
  Hypothesis parts : forall e f t k, dec e f true = Some t -> exists t', dec e (firstn k f) false = Some t'.
  Hypothesis chunk_pos : 0 < chunk.

  Lemma head_whole e f t fuel : dec e f true = Some t -> forall pos got,
    S (length f) < fuel + pos -> 0 < fuel -> head_loop dec limit chunk fuel e f pos got = true.
  Proof.
    intros Hd. induction fuel as [|fuel IH]; intros pos got L F; [lia|]. cbn [head_loop].
    destruct (limit <=? length (translate got)); [reflexivity|].
    destruct (Nat.leb_spec (length f) pos); [rewrite Hd; reflexivity|].
    destruct (parts e f t (pos + chunk) Hd) as (t' & ->). apply IH; lia.
  Qed.

  (** An encoding that decodes the whole file passes the test... *)
  Theorem C106_whole_passes : forall e f t, dec e f true = Some t -> head_ok e f = true.
  Proof. intros e f t H. unfold EncodingModel.head_ok. eapply head_whole; [exact H|lia|lia]. Qed.

  Lemma head_short e f fuel : (forall k t, dec e (firstn k f) false = Some t -> length (translate t) < limit) ->
    forall pos got, length (translate got) < limit ->
    head_loop dec limit chunk fuel e f pos got = true -> dec e f true <> None.
  Proof.
    intros S. induction fuel as [|fuel IH]; intros pos got G; cbn [head_loop]; [discriminate|].
    rewrite (proj2 (Nat.leb_gt _ _) G).
    destruct (length f <=? pos); [destruct (dec e f true); discriminate|].
    destruct (dec e (firstn (pos + chunk) f) false) as [cs|] eqn:E; [|discriminate].
    apply IH. apply (S _ _ E).
  Qed.

  (** ... and one that passes it decodes the whole file, if the text is not longer than
      what is tested. *)
  Theorem C106_short_files : forall e f, 0 < limit ->
    (forall k t, dec e (firstn k f) false = Some t -> length (translate t) < limit) ->
    head_ok e f = true -> exists t, dec e f true = Some t.
  Proof.
    intros e f L S H. unfold EncodingModel.head_ok in H. apply (head_short e f _ S) in H; [|cbn; lia].
    destruct (dec e f true) as [t|]; [eauto|congruence].
  Qed.

  (** ** Reading *)
  Theorem C106_read : forall f e,
    (forall t, dec e f true = Some t -> exists ls, read_lines f (Some e) = Ok ls /\
       newlines t (concat ls) /\ lines ls /\ (~ In CR t -> concat ls = t)) /\
    (dec e f true = None -> read_lines f (Some e) = Err ValueError) /\
    read_lines f None = read_lines f (Some (detect f 1024 20)).
  Proof.
    intros f e. unfold EncodingModel.read_lines. split; [|split].
    - intros t ->. exists (lines_of (translate t)). split; [reflexivity|]. rewrite lines_concat.
      split; [apply (translate_rel (length t)); lia|]. split; [apply lines_lines|apply translate_keeps].
    - intros ->. reflexivity.
    - reflexivity.
  Qed.

  (** A file in UTF-8 is read as it was written, if the detector finds nothing, ASCII,
      Windows-1254 or UTF-8. *)
  Theorem C106_utf8_files : forall t, (forall b fin, dec "utf-8"%string b fin = utf8 b fin) ->
    Forall scalar t -> lower_string (guess (flat_map encode t) 20 1024) = "utf-8"%string ->
    (forall b fin, dec (guess (flat_map encode t) 20 1024) b fin = dec "utf-8"%string b fin) ->
    detect (flat_map encode t) 1024 20 = "utf-8"%string /\
    exists ls, read_lines (flat_map encode t) None = Ok ls /\ newlines t (concat ls) /\ lines ls.
  Proof.
    intros t U F G C. set (f := flat_map encode t) in *.
    assert (Hd : dec "utf-8"%string f true = Some t) by (rewrite U; apply C106_utf8; split; [reflexivity|exact F]).
    assert (E : detect f 1024 20 = "utf-8"%string).
    { rewrite <- G. apply (C106_detect f 20 1024). left. eapply C106_whole_passes. rewrite C. exact Hd. }
    split; [exact E|]. destruct (C106_read f "utf-8"%string) as (R & _ & _).
    destruct (R t Hd) as (ls & L1 & L2 & L3 & _). exists ls. split; [|auto].
    rewrite (proj2 (proj2 (C106_read f "utf-8"%string))), E. exact L1.
  Qed.

  (** ** The encoding of a reader *)
  Context (preferred : result string) (filesystem : string).
  Notation get_encoding := (get_encoding d_new d_feed d_close normalizer dec limit chunk preferred filesystem).

  Theorem C106_reader : forall r,
    (forall e, r_enc r = Some e -> e <> ""%string -> get_encoding r = (e, r)) /\
    (r_enc r = None \/ r_enc r = Some ""%string ->
       (forall f, r_file r = Some f -> fst (get_encoding r) = detect f 1024 20) /\
       (r_file r = None -> fst (get_encoding r) = system_encoding preferred filesystem)) /\
    (fst (get_encoding r) <> ""%string ->
       forall f', fst (get_encoding (mkReader (r_enc (snd (get_encoding r))) f')) = fst (get_encoding r)).
  Proof.
    intros r. unfold EncodingModel.get_encoding. split; [|split].
    - intros e -> N. unfold is_empty. rewrite (proj2 (String.eqb_neq _ _) N). reflexivity.
    - intros H; split; [intros f E | intros E]; destruct H as [H|H]; rewrite H, E; reflexivity.
    - assert (K : forall e f', e <> ""%string -> fst (if is_empty e then
          ((match f' with Some f => detect f 1024 20 | None => system_encoding preferred filesystem end),
            mkReader (Some (match f' with Some f => detect f 1024 20 | None => system_encoding preferred filesystem end)) f')
          else (e, mkReader (Some e) f')) = e).
      { intros e f' N. unfold is_empty. rewrite (proj2 (String.eqb_neq _ _) N). reflexivity. }
      destruct (r_enc r) as [e|] eqn:E.
      + destruct (is_empty e) eqn:Z; cbn [fst snd r_enc r_file]; intros N f'.
        * apply K, N.
        * rewrite E. apply K, N.
      + cbn [fst snd r_enc r_file]. intros N f'. apply K, N.
  Qed.

  Theorem C106_system : system_encoding preferred filesystem =
    let e := match preferred with Ok e => e | Err _ => filesystem end in
    if String.string_dec (lower_string e) "ascii" then "utf-8"%string
    else if String.string_dec (lower_string e) "ansi_x3.4-1968" then "utf-8"%string else e.
  Proof.
    unfold system_encoding. cbn zeta.
    destruct (String.string_dec _ "ascii") as [E|E].
    - rewrite E. reflexivity.
    - rewrite (proj2 (String.eqb_neq _ _) E), orb_false_r.
      destruct (String.string_dec _ "ansi_x3.4-1968") as [E2|E2]; [rewrite E2; reflexivity|].
      rewrite (proj2 (String.eqb_neq _ _) E2). reflexivity.
  Qed.

  Theorem C106_set : forall r v,
    (fst (set_encoding r v) = None <-> exists e, v = Some e /\
       In (lower_string e) ["ascii"; "utf-8"; "utf-16"; "utf-32"]%string) /\
    (forall e, v = Some e -> fst (set_encoding r v) = None -> get_encoding (snd (set_encoding r v)) = (e, mkReader (Some e) (r_file r))) /\
    (fst (set_encoding r v) <> None -> set_encoding r v = (Some ValueError, r)).
  Proof.
    intros r v. destruct v as [e|]; cbn [set_encoding].
    - set (ok := existsb _ _). assert (O : ok = true <-> In (lower_string e) ["ascii"; "utf-8"; "utf-16"; "utf-32"]%string).
      { unfold ok. rewrite existsb_exists. split.
        - intros (x & I & X). apply String.eqb_eq in X. rewrite X. exact I.
        - intros I. exists (lower_string e). split; [exact I|apply String.eqb_refl]. }
      unfold is_empty. destruct (String.eqb_spec e "") as [->|N]; cbn [orb].
      + split; [|split; [discriminate|reflexivity]]. split; [discriminate|].
        intros (e & X & I). injection X as <-. cbn in I. intuition discriminate.
      + destruct ok; cbn [negb fst].
        * split; [|split; [|intros H; destruct (H eq_refl)]].
          -- split; [|reflexivity]. intros _. exists e. split; [reflexivity|]. apply O. reflexivity.
          -- intros e' X _. injection X as <-. unfold EncodingModel.get_encoding. cbn [r_enc r_file snd]. unfold is_empty.
             rewrite (proj2 (String.eqb_neq _ _) N). reflexivity.
        * split; [|split; [discriminate|reflexivity]]. split; [discriminate|].
          intros (e' & X & I). injection X as <-. apply O in I. discriminate I.
    - cbn. split; [|split; [discriminate|reflexivity]]. split; [discriminate|]. intros (e & X & _). discriminate X.
  Qed.
End Encoding.
Print Assumptions C106_sample.
Print Assumptions C106_first_guess.
Print Assumptions C106_detect.
Print Assumptions C106_small_letters.
Print Assumptions C106_whole_passes.
Print Assumptions C106_short_files.
Print Assumptions C106_read.
Print Assumptions C106_utf8_files.
Print Assumptions C106_reader.
Print Assumptions C106_system.
Print Assumptions C106_set.

(** ** Expectations that are not met, and examples *)

(** The file ends "CR LF": the carriage return is gone. *)
Definition x_dec (e : string) (b : bytes) (final : bool) : option chars :=
  if String.eqb (lower_string e) "utf-8" then utf8 b final
  else if String.eqb e "latin_1" then Some b else None.
Definition x_feed (d c : bytes) : bytes := d ++ c.
Definition x_normalizer (b : bytes) (steps size : nat) : result (option string) :=
  if existsb (fun x => x =? 0)%Z b then Err RuntimeErr
  else if existsb (fun x => x =? 233)%Z b then Ok (Some "latin_1"%string) else Ok None.
Definition x_close (d : bytes) : option string :=
  match d with
  | 239%Z :: _ => Some "UTF-8"%string
  | [] => None
  | _ => Some "Windows-1254"%string
  end.

Theorem C106_crlf_refuted :
  ~ (forall (D : Type) (d_new : D) d_feed d_close normalizer dec limit chunk f e t ls,
       dec e f true = Some t ->
       EncodingModel.read_lines d_new d_feed d_close normalizer dec limit chunk f (Some e) = Ok ls ->
       concat ls = t).
Proof.
  intros H. specialize (H bytes [] x_feed x_close None x_dec 4 2 [97; 13; 10]%Z "utf-8"%string
    [97; 13; 10]%Z [[97; 10]]%Z eq_refl eq_refl). discriminate H.
Qed.
Print Assumptions C106_crlf_refuted.

Lemma urun_letters n : urun Start (repeat 97%Z n) = Some (Start, repeat 97%Z n).
Proof. induction n as [|n IH]; [reflexivity|]. cbn [repeat urun]. cbn. rewrite IH. reflexivity. Qed.

Lemma translate_letters n : translate (repeat 97%Z n) = repeat 97%Z n.
Proof. induction n as [|n IH]; [reflexivity|]. cbn [repeat translate]. cbn. rewrite IH. reflexivity. Qed.

Lemma beyond_head limit chunk fuel : 0 < chunk -> forall pos, pos < limit + chunk ->
  S (S (limit + chunk)) < fuel + pos ->
  head_loop x_dec limit chunk fuel "utf-8"%string (repeat 97%Z (limit + chunk) ++ [255%Z]) pos (repeat 97%Z pos) = true.
Proof.
  intros C. induction fuel as [|fuel IH]; intros pos P F; [lia|]. cbn [head_loop].
  rewrite translate_letters, repeat_length.
  destruct (Nat.leb_spec limit pos); [reflexivity|].
  rewrite app_length, repeat_length. cbn [length].
  destruct (Nat.leb_spec (limit + chunk + 1) pos); [lia|].
  assert (E : firstn (pos + chunk) (repeat 97%Z (limit + chunk) ++ [255%Z]) = repeat 97%Z (pos + chunk)).
  { rewrite firstn_app, repeat_length. replace (pos + chunk - (limit + chunk)) with 0 by lia.
    rewrite app_nil_r. replace (limit + chunk) with (pos + chunk + (limit - pos)) by lia.
    rewrite repeat_app, firstn_app, repeat_length, Nat.sub_diag, firstn_O, app_nil_r.
    apply firstn_all2. rewrite repeat_length. lia. }
  rewrite E. unfold x_dec. cbn [lower_string String.eqb]. cbn. unfold utf8. rewrite urun_letters.
  apply IH; lia.
Qed.

(** A file may be broken behind the part that is tested, whatever the sizes are: the
    encoding that is given does not decode the file. *)
Theorem C106_beyond_refuted : forall limit chunk, 0 < chunk ->
  ~ (forall (D : Type) (d_new : D) d_feed d_close normalizer dec f,
       (forall e b t k, dec e b true = Some t -> exists t', dec e (firstn k b) false = Some t') ->
       EncodingModel.head_ok dec limit chunk
         (EncodingModel.detect d_new d_feed d_close normalizer dec limit chunk f 1024 20) f = true ->
       exists t, dec (EncodingModel.detect d_new d_feed d_close normalizer dec limit chunk f 1024 20) f true
                 = Some t).
Proof.
  intros limit chunk C H.
  specialize (H unit tt (fun d _ => d) (fun _ => None) None x_dec
                (repeat 97%Z (limit + chunk) ++ [255%Z])).
  assert (E : EncodingModel.detect tt (fun d _ => d) (fun _ => None) None x_dec limit chunk
                (repeat 97%Z (limit + chunk) ++ [255%Z]) 1024 20 = "utf-8"%string).
  { clear H. unfold EncodingModel.detect. cbn beta.
    destruct (EncodingModel.head_ok x_dec limit chunk (first_guess None) _); reflexivity. }
  rewrite E in H. destruct H as (t & Ht).
  - intros e b t k. unfold x_dec. destruct (String.eqb (lower_string e) "utf-8").
    + unfold utf8. intros X. rewrite <- (firstn_skipn k b) in X. rewrite urun_app in X.
      destruct (urun Start (firstn k b)) as [[[|] o]|]; [eauto|eauto|discriminate X].
    + destruct (String.eqb e "latin_1"); [eauto|discriminate].
  - unfold EncodingModel.head_ok. apply (beyond_head limit chunk _ C 0); [lia|].
    rewrite app_length, repeat_length. cbn. lia.
  - unfold x_dec in Ht. cbn in Ht. unfold utf8 in Ht. rewrite urun_app, urun_letters in Ht. discriminate Ht.
Qed.
Print Assumptions C106_beyond_refuted.

Definition x_detect (f : bytes) : string :=
  EncodingModel.detect [] x_feed x_close (Some x_normalizer) x_dec 8 3 f 4 2.
Definition x_read (f : bytes) (e : string) : result (list chars) :=
  EncodingModel.read_lines [] x_feed x_close (Some x_normalizer) x_dec 8 3 f (Some e).

Example C106_example :
  flat_map encode [97; 233; 8364; 128512]%Z = [97; 195; 169; 226; 130; 172; 240; 159; 152; 128]%Z /\
  utf8 [97; 195; 169; 226; 130; 172; 240; 159; 152; 128]%Z true = Some [97; 233; 8364; 128512]%Z /\
  utf8 [192; 128]%Z true = None /\ utf8 [237; 160; 128]%Z true = None /\
  utf8 [97; 195]%Z true = None /\ utf8 [97; 195]%Z false = Some [97]%Z /\
  x_detect [97; 98]%Z = "utf-8"%string /\ x_detect [239; 187; 191]%Z = "utf-8"%string /\
  x_detect [97; 233; 13; 10; 13; 98]%Z = "latin_1"%string /\
  x_read [97; 233; 13; 10; 13; 98]%Z "latin_1"%string = Ok [[97; 233; 10]; [10]; [98]]%Z /\
  x_read [97; 233; 13; 10; 13; 98]%Z "utf-8"%string = Err ValueError /\
  x_detect [97; 255; 0]%Z = "utf-8"%string /\
  EncodingModel.head_ok x_dec 8 3 "utf-8"%string [97; 255; 0]%Z = false /\
  Forall scalar [97; 233; 8364; 128512]%Z.
Proof.
  do 13 (split; [vm_compute; reflexivity|]). repeat constructor; unfold scalar; lia.
Qed.
