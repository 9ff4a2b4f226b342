(** Lemmas about CharModel: the preprocessor produces a layout of the texts. *)
From Coq Require Import QArith List Lia Bool.
From Verif Require Import PyCommon ListFacts CharModel CharProofs.
Import ListNotations.
Local Open Scope nat_scope.

Section Process.
  Context {C L : Type}.
  Variable P : @params C L.

  Notation pairs := (list (C * L)).
  Notation sl := (sep_len P).

  (** The separator with its labels, and an input made of pieces. *)
  Definition sep_pairs : pairs := map (fun c => (c, p_default P)) (p_sep P).
  Notation input := (gjoin sep_pairs).

  Lemma sep_pairs_len : length sep_pairs = sl.
  Proof. apply map_length. Qed.

  (** Labels are kept right unless the separator is empty and texts are cut at word breaks. *)
  Definition labels_safe : Prop := p_at_max P = true \/ 0 < sl.

  Definition made_of (x : sample) (ps : list pairs) : Prop :=
    fst x = map fst (input ps) /\
    (labels_safe -> snd x = map snd (input ps) ++ repeat (p_pad P) (p_max P - length (input ps))).

  Definition small (ps : list pairs) : Prop := solid ps /\ length (input ps) <= p_max P.

  Lemma map_fst_input ps : join P (map (map fst) ps) = map fst (input ps).
  Proof.
    induction ps as [|p ps IH]; [reflexivity|]. destruct ps as [|q ps]; [reflexivity|].
    change (map fst p ++ p_sep P ++ join P (map (map fst) (q :: ps)) = map fst (input (p :: q :: ps))).
    rewrite gjoin_cons by discriminate. rewrite !map_app, IH. do 2 f_equal. unfold sep_pairs. rewrite map_map. cbn. symmetry. apply map_id.
  Qed.

  Definition outs (s : @st C L) : list sample := concat (s_done s) ++ s_batch s.

  Record Inv (s : @st C L) : Prop := {
    i_len : s_len s = length (input (s_flat s));
    i_ne : Forall (fun p => p <> []) (s_flat s);
    i_room : s_len s < p_max P - sl;
    i_mode : s_flat s <> [] -> no_flatten P s = false;
    i_ents : labels_safe -> s_ents s = map snd (input (s_flat s))
  }.

  Lemma outs_emit x s : outs (emit P x s) = outs s ++ [x].
  Proof.
    unfold emit, outs. destruct (_ =? _); cbn [s_done s_batch].
    - rewrite concat_app. cbn. rewrite !app_nil_r, app_assoc. reflexivity.
    - rewrite app_assoc. reflexivity.
  Qed.

  Lemma emit_fields x s : s_flat (emit P x s) = s_flat s /\ s_len (emit P x s) = s_len s /\ s_ents (emit P x s) = s_ents s
    /\ s_fc (emit P x s) = s_fc s /\ s_nfc (emit P x s) = s_nfc s.
  Proof. unfold emit. destruct (_ =? _); cbn; auto. Qed.

  Lemma nearest_le rest n : nearest P rest n <= n.
  Proof.
    induction n as [|n IH]; [cbn; lia|]. cbn [nearest]. destruct (nth_error rest (S n)) as [[c ?]|]; [destruct (p_break P c)|]; lia.
  Qed.

  Definition is_break (rest : pairs) (i : nat) : Prop := exists c l, nth_error rest i = Some (c, l) /\ p_break P c = true.

  Lemma nearest_spec rest n : forall i, nearest P rest n < i <= n -> ~ is_break rest i.
  Proof.
    induction n as [|n IH]; intros i Hi; [lia|]. cbn [nearest] in Hi. intros (c' & l' & E & B).
    assert (i <> S n \/ i = S n) as [Hn|Hn] by lia.
    - apply (IH i); [|exists c', l'; auto].
      destruct (nth_error rest (S n)) as [[c ?]|]; [destruct (p_break P c)|]; lia.
    - subst i. rewrite E in Hi. rewrite B in Hi. lia.
  Qed.

  Lemma nearest_0 rest n : (forall i, 0 < i <= n -> ~ is_break rest i) -> nearest P rest n = 0.
  Proof.
    induction n as [|n IH]; intro H; [reflexivity|]. cbn [nearest].
    destruct (nth_error rest (S n)) as [[c l]|] eqn:E; [destruct (p_break P c) eqn:B|].
    - exfalso. apply (H (S n)); [lia|exists c, l; auto].
    - apply IH. intros i Hi. apply H. lia.
    - apply IH. intros i Hi. apply H. lia.
  Qed.

  Hypothesis Hsl : sl < p_max P.

  (** The middle of a text whose last piece is pending: there is no break before the end of the room. *)
  Definition stuck (s : @st C L) (rest : pairs) : Prop :=
    s_flat s <> [] /\ p_at_max P = false /\ p_max P - (s_len s + sl) < length rest /\
    forall i, 0 < i <= p_max P - (s_len s + sl) -> ~ is_break rest i.

  Inductive moved (s : @st C L) (rest : pairs) (s' : @st C L) (rest' : pairs) : Prop :=
  | M_plain p x : s_flat s = [] -> s_flat s' = [] -> p <> [] -> rest = p ++ rest' ->
      outs s' = outs s ++ [x] -> made_of x [p] -> length p <= p_max P -> moved s rest s' rest'
  | M_pend p : s_flat s' = s_flat s ++ [p] -> p <> [] -> rest = p ++ rest' -> outs s' = outs s ->
      (rest' = [] \/ stuck s' rest') -> ~ stuck s rest -> moved s rest s' rest'
  | M_full p x : s_flat s' = [] -> p <> [] -> rest = p ++ rest' -> outs s' = outs s ++ [x] ->
      made_of x (s_flat s ++ [p]) -> small (s_flat s ++ [p]) -> ~ stuck s rest -> moved s rest s' rest'
  | M_force x : s_flat s <> [] -> s_flat s' = [] -> rest' = rest -> outs s' = outs s ++ [x] ->
      made_of x (s_flat s) -> small (s_flat s) -> moved s rest s' rest'.

  Lemma input_pos s : Inv s -> (s_flat s <> [] <-> 0 < s_len s).
  Proof.
    intro I. rewrite (i_len s I). split; intro H.
    - apply gjoin_pos; [exact H|exact (i_ne s I)].
    - intro E. rewrite E in H. cbn in H. lia.
  Qed.

  Lemma Inv_empty s : s_flat s = [] -> s_len s = 0 -> s_ents s = [] -> Inv s.
  Proof.
    intros E1 E2 E3. constructor.
    - rewrite E1, E2. reflexivity.
    - rewrite E1. constructor.
    - lia.
    - rewrite E1. contradiction.
    - rewrite E1, E3. reflexivity.
  Qed.

  Lemma mode_same s s' : s_fc s' = s_fc s -> s_nfc s' = s_nfc s -> no_flatten P s' = no_flatten P s.
  Proof. unfold no_flatten. intros -> ->. reflexivity. Qed.

  Lemma firstn_ne {X} k (l : list X) : 0 < k -> l <> [] -> firstn k l <> [].
  Proof. destruct k, l; cbn; try lia; try contradiction; discriminate. Qed.

  Lemma not_stuck_empty s rest : s_flat s = [] -> ~ stuck s rest.
  Proof. intros E (H & _). contradiction. Qed.

  Lemma step_plain_moved s rest : Inv s -> s_flat s = [] -> rest <> [] ->
    forall s' rest', step_plain P s rest = (s', rest') -> Inv s' /\ moved s rest s' rest'.
  Proof.
    intros I E N s' rest' H. assert (E0 : s_len s = 0) by (rewrite (i_len s I), E; reflexivity).
    unfold step_plain in H. rewrite E0, Nat.sub_0_r in H.
    match type of H with context [firstn ?y rest] => set (k := y) in H end.
    assert (K : 0 < k <= p_max P).
    { unfold k. destruct (_ && _); [|lia]. pose proof (nearest_le rest (p_max P)).
      destruct (nearest P rest (p_max P) =? 0) eqn:B; [lia|]. apply Nat.eqb_neq in B. lia. }
    clearbody k. injection H as <- <-. match goal with |- context [emit P ?y s] => set (x := y) end.
    destruct (emit_fields x s) as (F1 & F2 & F3 & F4 & F5). split.
    - constructor; cbn [s_flat s_len s_ents]; rewrite ?F1, ?F2, ?F3; try apply I.
      intro H. contradiction.
    - apply M_plain with (p := firstn k rest) (x := x).
      + exact E.
      + cbn. rewrite F1. exact E.
      + apply firstn_ne; [lia|exact N].
      + symmetry. apply firstn_skipn.
      + unfold outs at 1. cbn [s_done s_batch]. apply outs_emit.
      + split; [reflexivity|]. intros _. unfold x. cbn [snd gjoin]. do 2 f_equal. rewrite firstn_length. lia.
      + rewrite firstn_length. lia.
  Qed.

  Lemma repeat_map_const {X Y} (b : Y) (l : list X) : repeat b (length l) = map (fun _ => b) l.
  Proof. induction l; cbn; congruence. Qed.

  Lemma sep_snd : repeat (p_default P) sl = map snd sep_pairs.
  Proof. unfold sep_pairs, sep_len. rewrite map_map. cbn. apply repeat_map_const. Qed.

  Lemma drop_last_app {X} k (a b : list X) : length b = k -> 0 < k -> drop_last k (a ++ b) = a.
  Proof.
    intros E K. unfold drop_last. destruct k; [lia|]. rewrite app_length, E.
    replace (length a + S k - S k) with (length a) by lia. rewrite firstn_app, firstn_all, Nat.sub_diag. cbn.
    apply app_nil_r.
  Qed.

  Lemma length_ne {X} (l : list X) : l <> [] -> 0 < length l.
  Proof. destruct l; [contradiction|cbn; lia]. Qed.

  (** The input after adding a piece. *)
  Lemma input_add s piece : Inv s ->
    let more := 0 <? s_len s in
    length (input (s_flat s ++ [piece])) = (if more then s_len s + sl else s_len s) + length piece /\
    (labels_safe -> map snd (input (s_flat s ++ [piece])) =
       (if more then s_ents s ++ repeat (p_default P) sl else s_ents s) ++ map snd piece).
  Proof.
    intros I more. subst more. destruct (0 <? s_len s) eqn:B.
    - apply Nat.ltb_lt in B. apply input_pos in B; [|exact I]. rewrite gjoin_snoc by exact B.
      rewrite !app_length, sep_pairs_len, <- (i_len s I). split; [lia|]. intro LS.
      rewrite !map_app, (i_ents s I LS), sep_snd, app_assoc. reflexivity.
    - apply Nat.ltb_ge in B. assert (E : s_flat s = []).
      { destruct (s_flat s) as [|p ps] eqn:E; [reflexivity|]. exfalso.
        assert (s_flat s <> []) as K by (rewrite E; discriminate). apply input_pos in K; [lia|exact I]. }
      rewrite E. cbn [app gjoin length]. rewrite (i_len s I), E. cbn [gjoin length]. split; [lia|].
      intro LS. rewrite (i_ents s I LS), E. reflexivity.
  Qed.

  Lemma step_flat_moved s rest : Inv s -> no_flatten P s = false -> rest <> [] ->
    forall s' rest', step_flat P s rest = (s', rest') -> Inv s' /\ moved s rest s' rest'.
  Proof.
    intros I NF N s' rest' H. unfold step_flat in H. pose proof (input_add s) as IA.
    remember (0 <? s_len s) as more eqn:Em.
    remember (if more then s_len s + sl else s_len s) as len1 eqn:E1.
    remember (if more then s_ents s ++ repeat (p_default P) sl else s_ents s) as ents1 eqn:E2.
    pose proof (i_room s I) as R. pose proof (length_ne rest N) as Nr.
    assert (L1 : len1 < p_max P) by (subst len1; destruct more; lia).
    assert (Hmore : 0 < len1 <-> s_flat s <> []).
    { rewrite (input_pos s I). subst len1 more. destruct (0 <? s_len s) eqn:B; [apply Nat.ltb_lt in B|apply Nat.ltb_ge in B]; lia. }
    (* a piece is added *)
    assert (ADD : forall k, 0 < k -> k <= p_max P - len1 ->
      (k < length rest -> k < p_max P - len1 -> p_at_max P = false /\ p_max P - len1 < length rest /\
         forall i, k < i <= p_max P - len1 -> ~ is_break rest i) ->
      ~ stuck s rest ->
      (if (p_max P - sl <=? (if k =? 0 then len1 else len1 + length (firstn k rest))) || false
       then let s1 := emit P (join P (map (map fst) (if k =? 0 then s_flat s else s_flat s ++ [firstn k rest])),
                (ents1 ++ map snd (firstn k rest)) ++ repeat (p_pad P) (p_max P - (if k =? 0 then len1 else len1 + length (firstn k rest)))) s in
            (mkSt (s_done s1) (s_batch s1) [] 0 [] (S (s_fc s)) (s_nfc s), skipn k rest)
       else (mkSt (s_done s) (s_batch s) (if k =? 0 then s_flat s else s_flat s ++ [firstn k rest])
               (if k =? 0 then len1 else len1 + length (firstn k rest)) (ents1 ++ map snd (firstn k rest)) (s_fc s) (s_nfc s), skipn k rest))
      = (s', rest') -> Inv s' /\ moved s rest s' rest').
    { clear H. intros k K0 K1 KB NS H. destruct (k =? 0) eqn:Ek; [apply Nat.eqb_eq in Ek; lia|]. clear Ek.
      assert (Np : firstn k rest <> []) by (apply firstn_ne; assumption).
      destruct (IA (firstn k rest) I) as [LA SA]. rewrite <- E1 in LA. rewrite <- E2 in SA.
      assert (Lp : length (firstn k rest) = Nat.min k (length rest)) by apply firstn_length.
      rewrite orb_false_r in H. destruct (p_max P - sl <=? len1 + length (firstn k rest)) eqn:B.
      - match type of H with context [emit P ?y s] => set (x := y) in H end. injection H as <- <-.
        split; [apply Inv_empty; reflexivity|].
        apply M_full with (p := firstn k rest) (x := x); try reflexivity.
        + exact Np.
        + symmetry. apply firstn_skipn.
        + unfold outs at 1. cbn [s_done s_batch]. apply outs_emit.
        + split; [apply map_fst_input|]. intro LS. unfold x. cbn [snd]. rewrite (SA LS), LA. reflexivity.
        + split; [split|].
          * intro E. symmetry in E. apply (app_cons_not_nil _ _ _ E).
          * apply Forall_app. split; [apply I|]. constructor; [exact Np|constructor].
          * rewrite LA. lia.
        + exact NS.
      - apply Nat.leb_gt in B. injection H as <- <-. split.
        + constructor; cbn [s_flat s_len s_ents].
          * symmetry. exact LA.
          * apply Forall_app. split; [apply I|]. constructor; [exact Np|constructor].
          * exact B.
          * intros _. rewrite <- NF. apply mode_same; reflexivity.
          * intro LS. symmetry. apply SA. exact LS.
        + apply M_pend with (p := firstn k rest); try reflexivity; try exact NS.
          * exact Np.
          * symmetry. apply firstn_skipn.
          * destruct (Nat.le_gt_cases (length rest) k) as [Hl|Hl]; [left; apply skipn_all2; exact Hl|right].
            rewrite Nat.min_l in Lp by lia.
            destruct KB as (A & Hn & NB); [lia|lia|].
            split; [cbn; intro E; symmetry in E; apply (app_cons_not_nil _ _ _ E)|]. split; [exact A|].
            cbn [s_len]. rewrite skipn_length. split; [lia|]. intros i Hi (c & l & En & Bc).
            apply (NB (k + i)); [lia|]. exists c, l. split; [|exact Bc].
            rewrite <- (firstn_skipn k rest) at 1. rewrite nth_error_app2 by lia. rewrite Lp.
            replace (k + i - k) with i by lia. exact En. }
    assert (NS : forall k, 0 < k -> (k = p_max P - len1 -> p_at_max P = true \/ length rest <= k \/ len1 = 0) ->
              (k < p_max P - len1 -> is_break rest k) -> k <= p_max P - len1 -> ~ stuck s rest).
    { intros k K0 Ka Kb Kc (S1 & S2 & S3 & S4).
      assert (Q1 : len1 = s_len s + sl).
      { subst len1. pose proof (proj1 (input_pos s I) S1) as Q. subst more. destruct (0 <? s_len s) eqn:B; [reflexivity|].
        apply Nat.ltb_ge in B. lia. }
      destruct (Nat.eq_dec k (p_max P - len1)) as [Ek|Ek].
      - destruct (Ka Ek) as [K|[K|K]]; [congruence|lia|]. apply Hmore in S1. lia.
      - apply (S4 k); [lia|]. apply Kb. lia. }
    destruct (negb (p_at_max P) && (p_max P - len1 <? length rest)) eqn:B1; cbv zeta in H.
    - apply andb_true_iff in B1. destruct B1 as [BA BL]. apply negb_true_iff in BA. apply Nat.ltb_lt in BL.
      pose proof (nearest_le rest (p_max P - len1)) as NL. pose proof (nearest_spec rest (p_max P - len1)) as NSp.
      destruct (nearest P rest (p_max P - len1) =? 0) eqn:B2.
      + apply Nat.eqb_eq in B2. destruct (0 <? len1) eqn:B3.
        * (* forced *)
          apply Nat.ltb_lt in B3. apply Hmore in B3 as Fl. rewrite orb_true_r in H. cbn [Nat.eqb firstn map skipn] in H.
          assert (Q1 : more = true).
          { subst more. apply Nat.ltb_lt. apply input_pos; assumption. }
          assert (Q2 : len1 - sl = s_len s) by (subst len1; rewrite Q1; lia).
          match type of H with context [emit P ?y s] => set (x := y) in H end. injection H as <- <-.
          split; [apply Inv_empty; reflexivity|].
          apply M_force with (x := x); try reflexivity.
          -- exact Fl.
          -- unfold outs at 1. cbn [s_done s_batch]. apply outs_emit.
          -- split; [apply map_fst_input|]. intros [LS|LS]; [congruence|]. unfold x. cbn [snd].
             rewrite app_nil_r, Q2. subst ents1. rewrite Q1.
             rewrite drop_last_app; [|apply repeat_length|exact LS].
             rewrite <- (i_len s I). f_equal. apply (i_ents s I). right. exact LS.
          -- split; [split; [exact Fl|apply I]|]. rewrite <- (i_len s I). lia.
        * apply Nat.ltb_ge in B3. apply (ADD (p_max P - len1)); [lia|lia|lia| |exact H].
          apply (NS (p_max P - len1)); [lia| |lia|lia]. intros _. right. right. lia.
      + apply Nat.eqb_neq in B2. apply (ADD (nearest P rest (p_max P - len1))); [lia|lia| | |exact H].
        * intros _ _. split; [exact BA|]. split; [exact BL|]. exact NSp.
        * assert (IB : is_break rest (nearest P rest (p_max P - len1))).
          { clear -B2. induction (p_max P - len1) as [|n IH]; [cbn in B2; lia|]. cbn [nearest] in *.
            destruct (nth_error rest (S n)) as [[c l]|] eqn:E; [destruct (p_break P c) eqn:B|]; auto. exists c, l. auto. }
          intros (S1 & S2 & S3 & S4).
          assert (Q1 : len1 = s_len s + sl).
          { subst len1. pose proof (proj1 (input_pos s I) S1) as Q. subst more. destruct (0 <? s_len s) eqn:B; [reflexivity|].
            apply Nat.ltb_ge in B. lia. }
          apply (S4 (nearest P rest (p_max P - len1))); [lia|exact IB].
    - apply (ADD (p_max P - len1)); [lia|lia|lia| |exact H].
      apply (NS (p_max P - len1)); [lia| |lia|lia]. intros _. apply andb_false_iff in B1. destruct B1 as [B1|B1].
      + left. apply negb_false_iff. exact B1.
      + right. left. apply Nat.ltb_ge. exact B1.
  Qed.

  Lemma step_moved s rest : Inv s -> rest <> [] -> forall s' rest', step P s rest = (s', rest') ->
    Inv s' /\ moved s rest s' rest'.
  Proof.
    intros I N s' rest' H. unfold step in H. destruct (no_flatten P s) eqn:E.
    - apply (step_plain_moved s rest I); [|exact N|exact H].
      destruct (s_flat s) eqn:F; [reflexivity|]. rewrite (i_mode s I) in E by (rewrite F; discriminate). discriminate.
    - apply (step_flat_moved s rest I E N). exact H.
  Qed.

  (** All samples once everything is processed. *)
  Definition final (s : @st C L) : list sample := concat (finish P s).

  (** What the rest of the run adds: the pending pieces first. *)
  Definition adds (s : @st C L) (s' : @st C L) (l : list (list pairs)) : Prop :=
    exists new, final s' = outs s ++ new /\ Forall2 made_of new l /\ Forall small l.

  Definition cont (s : @st C L) (ts : list pairs) (s' : @st C L) : Prop :=
    exists l, adds s s' l /\
      match s_flat s with
      | [] => all_take ts l
      | f => exists ps pss, l = (f ++ ps) :: pss /\ all_take ts (match ps with [] => pss | _ => ps :: pss end)
      end.

  Definition cont_stuck (s : @st C L) (ts : list pairs) (s' : @st C L) : Prop :=
    exists pss, adds s s' (s_flat s :: pss) /\ all_take ts pss.

  Definition run_from (fuel : nat) (s : @st C L) (rest : pairs) (ts : list pairs) : option (@st C L) :=
    match loop P fuel s rest with Some s' => texts P s' ts | None => None end.

  Lemma concat_finish s : final s = outs s ++
    match s_flat s with [] => [] | _ => [(join P (map (map fst) (s_flat s)), s_ents s ++ repeat (p_pad P) (p_max P - s_len s))] end.
  Proof.
    unfold final, finish, outs. destruct (s_flat s) as [|p ps].
    - rewrite app_nil_r. destruct (s_batch s) as [|x b]; [rewrite app_nil_r; reflexivity|].
      rewrite concat_app. cbn. rewrite app_nil_r. reflexivity.
    - destruct (s_batch s ++ _) as [|x b] eqn:E; [destruct (s_batch s); discriminate|].
      rewrite concat_app. cbn [concat]. rewrite app_nil_r, <- app_assoc, E. reflexivity.
  Qed.

  Lemma cont_nil s : Inv s -> cont s [] s.
  Proof.
    intro I. pose proof (concat_finish s) as E. unfold cont. destruct (s_flat s) as [|p ps] eqn:F.
    - exists []. split; [|constructor]. exists []. split; [exact E|]. split; constructor.
    - exists [s_flat s]. split.
      + eexists. split; [exact E|]. split; [constructor; [|constructor]|constructor; [|constructor]].
        * rewrite <- F. split; [apply map_fst_input|]. intro LS. cbn [snd]. rewrite (i_ents s I LS), (i_len s I). reflexivity.
        * split; [split; [rewrite F; discriminate|apply I]|]. rewrite <- (i_len s I). pose proof (i_room s I). lia.
      + exists [], []. rewrite app_nil_r, F. split; [reflexivity|constructor].
  Qed.

  Lemma adds_same s1 s2 s' l : outs s1 = outs s2 -> adds s1 s' l -> adds s2 s' l.
  Proof. intros E (n & H). exists n. rewrite <- E. exact H. Qed.

  Lemma adds_cons s1 s2 s' l x ps : outs s2 = outs s1 ++ [x] -> made_of x ps -> small ps -> adds s2 s' l -> adds s1 s' (ps :: l).
  Proof.
    intros E M S (n & F1 & F2 & F3). exists (x :: n). rewrite F1, E, <- app_assoc. cbn.
    split; [reflexivity|]. split; constructor; assumption.
  Qed.

  Definition weight (s : @st C L) (rest : pairs) : nat := 2 * length rest + match s_flat s with [] => 0 | _ => 1 end.

  Lemma run_from_spec ts : (forall s, Inv s -> exists s', texts P s ts = Some s' /\ cont s ts s') ->
    forall fuel s rest, Inv s -> weight s rest <= fuel ->
      exists s', run_from fuel s rest ts = Some s' /\ cont s (rest :: ts) s' /\
        (rest <> [] -> stuck s rest -> cont_stuck s (rest :: ts) s').
  Proof.
    intro IHts. induction fuel as [|fuel IH]; intros s rest I W.
    - unfold weight in W. destruct rest as [|x rest]; [|cbn in W; lia].
      destruct (IHts s I) as (s' & E & K). exists s'. split; [exact E|]. split; [|intro H; contradiction].
      destruct K as (l & A & K). exists l. split; [exact A|]. destruct (s_flat s); [apply A_empty; exact K|].
      destruct K as (ps & pss & El & K). exists ps, pss. split; [exact El|]. apply A_empty. exact K.
    - destruct rest as [|x0 rest0] eqn:Er.
      { destruct (IHts s I) as (s' & E & K). exists s'. split; [exact E|]. split; [|intro H; contradiction].
        destruct K as (l & A & K). exists l. split; [exact A|]. destruct (s_flat s); [apply A_empty; exact K|].
        destruct K as (ps & pss & El & K). exists ps, pss. split; [exact El|]. apply A_empty. exact K. }
      rewrite <- Er in *. assert (N : rest <> []) by (rewrite Er; discriminate).
      destruct (step P s rest) as [s1 rest1] eqn:Es. destruct (step_moved s rest I N s1 rest1 Es) as [I1 M].
      assert (W1 : weight s1 rest1 <= fuel).
      { unfold weight in *. destruct M as [p x F F1 Np E|p F1 Np E|p x F1 Np E|x F F1 E]; subst rest.
        - rewrite F1, E in *. rewrite app_length in W. apply length_ne in Np. lia.
        - rewrite E in *. rewrite app_length in W. apply length_ne in Np. destruct (s_flat s1); lia.
        - rewrite F1, E in *. rewrite app_length in W. apply length_ne in Np. lia.
        - rewrite F1, E in *. destruct (s_flat s); [contradiction|lia]. }
      destruct (IH s1 rest1 I1 W1) as (s' & Ers & K1 & K2). exists s'. split.
      { unfold run_from in *. rewrite Er at 1. cbn [loop]. rewrite <- Er, Es. exact Ers. }
      clear IH Ers Es W W1. destruct M as [p x F F1 Np E Eo Mo Lp|p F1 Np E Eo St NS|p x F1 Np E Eo Mo Sm NS|x F F1 E Eo Mo Sm].
      + split; [|intros _ (H & _); contradiction].
        destruct K1 as (l & A & K). rewrite F1 in K.
        exists ([p] :: l). rewrite F. split.
        * eapply adds_cons; [exact Eo|exact Mo| |exact A]. split; [split; [discriminate|constructor; [exact Np|constructor]]|exact Lp].
        * rewrite E. apply all_take_step; assumption.
      + split; [|intros _ H; contradiction].
        assert (G : exists ps pss, adds s s' ((s_flat s ++ p :: ps) :: pss) /\ all_take (rest :: ts) ((p :: ps) :: pss)).
        { destruct St as [St|St].
          - subst rest1. rewrite app_nil_r in E. subst p.
            destruct K1 as (l & A & K). rewrite F1 in K.
            destruct (s_flat s ++ [rest]) as [|f fs] eqn:Ef; [destruct (s_flat s); discriminate|].
            destruct K as (ps & pss & El & K). exists ps, pss. rewrite <- Ef in El. subst l. split.
            + rewrite <- app_assoc in A. cbn in A. eapply adds_same; [exact Eo|exact A].
            + inversion K as [|? ? K'|? ? ? ? T]; subst; [|apply takes_ne in T; contradiction].
              destruct ps as [|q ps]; [eapply A_cons; [apply T_last; exact Np|exact K']|].
              eapply A_cons; [apply T_mid; [exact Np|discriminate]|exact K'].
          - assert (N1 : rest1 <> []) by (destruct St as (_ & _ & H & _); intro Z; rewrite Z in H; cbn in H; lia).
            destruct (K2 N1 St) as (pss & A & K). exists [], pss. rewrite F1 in A. split.
            + eapply adds_same; [exact Eo|exact A].
            + rewrite E. apply all_take_step; assumption. }
        destruct G as (ps & pss & A & K). eexists. split; [exact A|].
        destruct (s_flat s) as [|f fs]; [exact K|]. exists (p :: ps), pss. split; [reflexivity|exact K].
      + split; [|intros _ H; contradiction].
        destruct K1 as (l & A & K). rewrite F1 in K.
        assert (A' : adds s s' ((s_flat s ++ [p]) :: l)) by (eapply adds_cons; eassumption).
        assert (K' : all_take (rest :: ts) ([p] :: l)) by (rewrite E; apply all_take_step; assumption).
        eexists. split; [exact A'|]. destruct (s_flat s) as [|f fs]; [exact K'|].
        exists [p], l. split; [reflexivity|exact K'].
      + subst rest1. destruct K1 as (l & A & K). rewrite F1 in K.
        assert (A' : adds s s' (s_flat s :: l)) by (eapply adds_cons; eassumption).
        split.
        * exists (s_flat s :: l). split; [exact A'|]. destruct (s_flat s) as [|f fs] eqn:Ef; [contradiction|].
          exists [], l. rewrite app_nil_r. split; [reflexivity|exact K].
        * intros _ _. exists l. split; assumption.
  Qed.
End Process.
