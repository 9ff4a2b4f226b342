(** C31: predictions are returned to the characters they were made for. *)
From Coq Require Import QArith List Lia Bool.
From Verif Require Import PyCommon ListFacts CharModel CharProofs CharProofs2.
Import ListNotations.
Local Open Scope nat_scope.

Section Props.
  Context {C L : Type}.
  Variable P : @params C L.

  Lemma texts_spec (Hsl : sep_len P < p_max P) ts : forall s, Inv P s ->
    exists s', texts P s ts = Some s' /\ cont P s ts s'.
  Proof.
    induction ts as [|t ts IH]; intros s I.
    - exists s. split; [reflexivity|]. apply cont_nil; assumption.
    - destruct (run_from_spec P Hsl ts IH (2 * length t + 1) s t I) as (s' & E & K & _).
      + unfold weight. destruct (s_flat s); lia.
      + exists s'. split; [|exact K]. exact E.
  Qed.

  Lemma process_layout data (Hsl : sep_len P < p_max P) :
    exists batches l, process P data = Ok (Some batches) /\
      Forall2 (made_of P) (concat batches) l /\ Forall (small P) l /\ all_take data l.
  Proof.
    destruct (texts_spec Hsl data init) as (s' & E & l & (new & F1 & F2 & F3) & K).
    - apply Inv_empty; [exact Hsl|reflexivity..].
    - exists (finish P s'), l. unfold process. destruct (p_max P <=? sep_len P) eqn:B; [apply Nat.leb_le in B; lia|].
      rewrite E. cbn in F1. unfold final in F1. rewrite F1. auto.
  Qed.

  (** The separator must be shorter than an input. *)
  Theorem C31_long_separator_refused data : p_max P <= length (p_sep P) -> process P data = Err ValueError.
  Proof. intro H. unfold process, sep_len. apply Nat.leb_le in H. rewrite H. reflexivity. Qed.

  (** The batches are always produced; every model input has between one and [max_length] characters.
      Each text's characters stand one after the other in the inputs, in the order of the texts, followed
      by a separator or by nothing. *)
  Theorem C31_inputs data : length (p_sep P) < p_max P ->
    exists batches gaps, process P data = Ok (Some batches) /\
      Forall (fun x => 0 < length (fst x) <= p_max P) (concat batches) /\
      length gaps = length data /\ Forall (fun g => g = [] \/ g = p_sep P) gaps /\
      concat (map fst (concat batches)) = weave (map (map fst) data) gaps.
  Proof.
    intro Hsl. destruct (process_layout data Hsl) as (bs & l & E & F & S & T).
    destruct (all_take_weave (sep_pairs P) _ _ T) as (gs & Hl & G & W).
    exists bs, (map (map fst) gs). split; [exact E|]. split; [|split; [rewrite map_length; exact Hl|split]].
    - clear -F S. induction F as [|x ps xs l M F IH]; [constructor|]. inversion S as [|? ? [[N Np] Sm] S']; subst.
      constructor; [|apply IH; exact S']. destruct M as [M _]. rewrite M, map_length. split; [apply gjoin_pos; assumption|exact Sm].
    - clear -G. induction G as [|g gs H _ IH]; cbn; constructor; [|exact IH]. destruct H as [->| ->]; [left; reflexivity|right].
      unfold sep_pairs. rewrite map_map. cbn. apply map_id.
    - assert (E1 : concat (map fst (concat bs)) = map fst (concat (map (gjoin (sep_pairs P)) l))).
      { clear -F. induction F as [|x ps xs l M F IH]; [reflexivity|]. cbn [map concat]. rewrite map_app, IH. f_equal. apply M. }
      rewrite E1, W. clear. revert gs. induction data as [|t ts IH]; intros [|g gs]; try reflexivity.
      cbn [weave map]. rewrite !map_app, IH. reflexivity.
  Qed.

  (** Whatever is predicted, one value per character of every input, each text gets back as many values
      as it has characters.  Texts and returned values stand at the same places: leaving out the same
      gaps from the concatenated inputs and from the concatenated predictions gives the texts and the
      returned values. *)
  Theorem C31_round_trip {X} data (predictions : list (list X)) batches :
    process P data = Ok (Some batches) ->
    Forall2 (fun x r => length r = length (fst x)) (concat batches) predictions ->
    exists gaps gaps',
      let back := match_sentence_lengths (length (p_sep P)) (map (@length (C * L)) data) predictions in
      Forall2 (fun t o => length o = length t) data back /\
      Forall (fun g => g = [] \/ g = p_sep P) gaps /\
      Forall2 (fun g g' => length g' = length g) gaps gaps' /\
      concat (map fst (concat batches)) = weave (map (map fst) data) gaps /\
      concat predictions = weave back gaps'.
  Proof.
    intros E Fr. assert (Hsl : sep_len P < p_max P).
    { unfold process in E. destruct (p_max P <=? sep_len P) eqn:B; [discriminate|]. apply Nat.leb_gt in B. exact B. }
    destruct (process_layout data Hsl) as (bs & l & E' & F & S & T). rewrite E in E'. injection E' as <-.
    assert (Ff : Forall2 (fits (X := X) (sep_pairs P)) l predictions).
    { clear -F Fr. revert predictions Fr. induction F as [|x ps xs l M F IH]; intros rs Fr; inversion Fr; subst; constructor.
      - unfold fits. destruct M as [M _]. rewrite M, map_length in *. assumption.
      - apply IH. assumption. }
    assert (So : Forall solid l) by (eapply Forall_impl; [|exact S]; intros ps [H _]; exact H).
    destruct (all_take_layout (X := X) (sep_pairs P) _ _ T So _ Ff) as (gs & qs & K1 & K2 & K3 & K4 & K5 & K6).
    rewrite sep_pairs_len in *. exists (map (map fst) gs), qs. cbv zeta. split; [exact K1|]. split; [|split; [|split; [|exact K6]]].
    - clear -K3. induction K3 as [|g gs H _ IH]; cbn; constructor; [|exact IH]. destruct H as [->| ->]; [left; reflexivity|right].
      unfold sep_pairs. rewrite map_map. cbn. apply map_id.
    - clear -K4. induction K4; cbn; constructor; [rewrite map_length|]; assumption.
    - assert (E1 : concat (map fst (concat batches)) = map fst (concat (map (gjoin (sep_pairs P)) l))).
      { clear -F. induction F as [|x ps xs l M F IH]; [reflexivity|]. cbn [map concat]. rewrite map_app, IH. f_equal. apply M. }
      rewrite E1, K5. clear. revert gs. induction data as [|t ts IH]; intros [|g gs]; try reflexivity.
      cbn [weave map]. rewrite !map_app, IH. reflexivity.
  Qed.

  (** Training labels: every row has [max_length] labels, the labels of the characters followed by pad
      labels; separators carry the default label.  The separator must not be empty unless inputs are cut
      at [max_length]. *)
  Theorem C31_labels data batches :
    process P data = Ok (Some batches) -> p_at_max P = true \/ p_sep P <> [] ->
    Forall (fun x => length (snd x) = p_max P /\
                     skipn (length (fst x)) (snd x) = repeat (p_pad P) (p_max P - length (fst x))) (concat batches) /\
    exists gaps, length gaps = length data /\
      Forall (fun g => g = [] \/ g = map (fun c => (c, p_default P)) (p_sep P)) gaps /\
      concat (map (fun x => combine (fst x) (snd x)) (concat batches)) = weave data gaps.
  Proof.
    intros E LS0. assert (Hsl : sep_len P < p_max P).
    { unfold process in E. destruct (p_max P <=? sep_len P) eqn:B; [discriminate|]. apply Nat.leb_gt in B. exact B. }
    assert (LS : labels_safe P).
    { destruct LS0 as [LS0|LS0]; [left; exact LS0|right]. unfold sep_len. destruct (p_sep P); [contradiction|cbn; lia]. }
    destruct (process_layout data Hsl) as (bs & l & E' & F & S & T). rewrite E in E'. injection E' as <-. split.
    - clear -F S LS. induction F as [|x ps xs l [M1 M2] F IH]; [constructor|]. inversion S as [|? ? [_ Sm] S']; subst.
      constructor; [|apply IH; exact S']. rewrite (M2 LS), M1, app_length, repeat_length, !map_length. split; [lia|].
      rewrite skipn_app, skipn_all2, map_length, Nat.sub_diag by (rewrite map_length; lia). reflexivity.
    - destruct (all_take_weave (sep_pairs P) _ _ T) as (gs & Hl & G & W). exists gs. split; [exact Hl|]. split; [exact G|].
      rewrite <- W. clear -F LS. induction F as [|x ps xs l [M1 M2] F IH]; [reflexivity|]. cbn [map concat]. rewrite IH. f_equal.
      rewrite (M2 LS), M1. generalize (repeat (p_pad P) (p_max P - length (gjoin (sep_pairs P) ps))). clear. intro r.
      induction (gjoin (sep_pairs P) ps) as [|[c lb] k IH]; [reflexivity|]. cbn. rewrite IH. reflexivity.
  Qed.

  (** Batches: all but the last have exactly [batch_size] inputs, the last at most that many and at
      least one. *)
  Definition batch_inv (s : @st C L) : Prop :=
    Forall (fun b => length b = p_batch P) (s_done s) /\ length (s_batch s) < p_batch P.

  Lemma emit_batch x s : batch_inv s -> batch_inv (emit P x s).
  Proof.
    intros [H1 H2]. unfold emit, batch_inv. destruct (length (s_batch s ++ [x]) =? p_batch P) eqn:B; cbn [s_done s_batch].
    - apply Nat.eqb_eq in B. split; [apply Forall_app; split; [exact H1|constructor; [exact B|constructor]]|cbn; lia].
    - apply Nat.eqb_neq in B. split; [exact H1|]. rewrite app_length in *. cbn [length] in *. lia.
  Qed.

  Lemma step_batch s rest : batch_inv s -> batch_inv (fst (step P s rest)).
  Proof.
    intro I. unfold step. destruct (no_flatten P s).
    - unfold step_plain. cbn [fst]. match goal with |- context [emit P ?y s] => destruct (emit_batch y s I) as [H1 H2] end. split; assumption.
    - unfold step_flat. destruct (if negb (p_at_max P) && _ then _ else _) as [[[k l2] e2] f].
      destruct (_ || f); cbn [fst].
      + match goal with |- context [emit P ?y s] => destruct (emit_batch y s I) as [H1 H2] end. split; assumption.
      + exact I.
  Qed.

  Lemma loop_batch fuel : forall s rest s', batch_inv s -> loop P fuel s rest = Some s' -> batch_inv s'.
  Proof.
    induction fuel as [|f IH]; intros s rest s' I E; destruct rest as [|x r]; cbn [loop] in E; try (injection E as <-; exact I); [discriminate|].
    destruct (step P s (x :: r)) as [s1 r1] eqn:Es. apply (IH s1 r1 s'); [|exact E].
    change s1 with (fst (s1, r1)). rewrite <- Es. apply step_batch. exact I.
  Qed.

  Lemma texts_batch ts : forall s s', batch_inv s -> texts P s ts = Some s' -> batch_inv s'.
  Proof.
    induction ts as [|t ts IH]; intros s s' I E; cbn [texts] in E; [injection E as <-; exact I|].
    destruct (text P s t) as [s1|] eqn:Et; [|discriminate]. apply (IH s1 s'); [|exact E]. eapply loop_batch; eassumption.
  Qed.

  Theorem C31_batches data batches : 0 < p_batch P -> process P data = Ok (Some batches) ->
    batches = [] \/ exists full last, batches = full ++ [last] /\
      Forall (fun b => length b = p_batch P) full /\ 0 < length last <= p_batch P.
  Proof.
    intros Hb E. unfold process in E. destruct (p_max P <=? sep_len P); [discriminate|].
    destruct (texts P init data) as [s|] eqn:Et; [|discriminate]. injection E as <-.
    destruct (texts_batch data init s) as [H1 H2]; [split; [constructor|exact Hb]|exact Et|]. unfold finish.
    set (b := match s_flat s with [] => _ | _ => _ end). assert (Lb : length b <= p_batch P).
    { unfold b. destruct (s_flat s); [lia|]. rewrite app_length. cbn [length]. lia. }
    clearbody b. destruct b as [|x b].
    - destruct (s_done s) as [|y d] using rev_ind; [left; reflexivity|right]. exists d, y. apply Forall_app in H1. destruct H1 as [H1 H3].
      inversion H3; subst. repeat split; auto; lia.
    - right. exists (s_done s), (x :: b). split; [reflexivity|]. split; [exact H1|]. cbn [length] in *. lia.
  Qed.

  (** The label of a character is that of the last given span that contains it, or the default label. *)
  Definition covers (i : nat) (s : nat * nat * L) : bool := let '(b, e, _) := s in (b <=? i) && (i <? e).

  Theorem C31_label_row n spans i : i < n ->
    nth_error (label_row P n spans) i =
      Some (match find (covers i) (rev spans) with Some (_, _, l) => l | None => p_default P end).
  Proof.
    intro Hi. unfold label_row.
    assert (G : forall row, length row = n -> length (fold_left set_span spans row) = n /\
      nth_error (fold_left set_span spans row) i =
        match find (covers i) (rev spans) with Some (_, _, l) => Some l | None => nth_error row i end).
    { induction spans as [|s spans IH] using rev_ind; intros row Hr; [auto|]. rewrite fold_left_app. cbn [fold_left].
      destruct (IH row Hr) as [L1 N1]. rewrite rev_app_distr. cbn [rev app find]. destruct s as [[b e] l].
      set (r1 := fold_left set_span spans row) in *. cbn [set_span covers]. split.
      - rewrite map_length, combine_length, seq_length. lia.
      - rewrite nth_error_map. 
        assert (Ec : nth_error (combine (seq 0 (length r1)) r1) i = option_map (fun y => (i, y)) (nth_error r1 i)).
        { rewrite <- L1 in Hi. clear -Hi. assert (Q : forall a, nth_error (combine (seq a (length r1)) r1) i = option_map (fun y => (a + i, y)) (nth_error r1 i)).
          { revert i Hi. induction r1 as [|y r1 IH]; intros i Hi a; [cbn in Hi; lia|]. destruct i as [|i]; cbn.
            - rewrite Nat.add_0_r. reflexivity.
            - rewrite IH by (cbn in Hi; lia). destruct (nth_error r1 i); cbn; [|reflexivity]. do 2 f_equal. lia. }
          apply Q. }
        rewrite Ec. destruct (nth_error r1 i) as [y|] eqn:Ey; [|apply nth_error_None in Ey; lia].
        cbn [option_map fst snd]. destruct ((b <=? i) && (i <? e)); [reflexivity|]. rewrite <- N1. reflexivity. }
    destruct (G (repeat (p_default P) n) (repeat_length _ _)) as [_ G2]. rewrite G2.
    destruct (find _ _) as [[[? ?] l]|]; [reflexivity|]. rewrite (nth_error_nth' _ (p_default P)) by (rewrite repeat_length; exact Hi).
    rewrite nth_repeat. reflexivity.
  Qed.
End Props.

(** A parameter set: inputs of five characters, separator [9], words end at [0], batches of two;
    label 7 is the default, 8 the pad label. *)
Definition ex_params (sep : list nat) (split : Q) : @params nat nat := mkParams 5 sep split false 7 8 2 (Nat.eqb 0).
Definition ex_data : list (list (nat * nat)) := [[(1, 1); (2, 1); (0, 7); (3, 2)]; []; [(4, 7); (0, 7); (5, 3); (6, 3); (7, 3)]].

(** The second text does not fit after the first: its first word is cut off before the break. *)
Example C31_example :
  process (ex_params [9] 1) ex_data
  = Ok (Some [[([1; 2; 0; 3], [1; 1; 7; 2; 8]); ([4; 0; 5; 6; 7], [7; 7; 3; 3; 3])]]).
Proof. vm_compute. reflexivity. Qed.

Example C31_example_joined :
  process (ex_params [9] 1) [[(1, 1)]; [(2, 2); (3, 2)]; [(4, 4); (0, 7); (5, 5); (6, 6); (6, 6)]]
  = Ok (Some [[([1; 9; 2; 3], [1; 7; 2; 2; 8]); ([4; 0; 5; 6; 6], [4; 7; 5; 6; 6])]]).
Proof. vm_compute. reflexivity. Qed.

Example C31_example_back :
  match_sentence_lengths 1 [1; 2; 5] [[10; 11; 12; 13]; [14; 15; 16; 17; 18]]
  = [[10]; [12; 13]; [14; 15; 16; 17; 18]].
Proof. vm_compute. reflexivity. Qed.

(** With an empty separator and cutting at word breaks, label rows can be too short: the labels collected
    for an input are all lost when the next text does not fit. *)
Theorem C31_labels_empty_separator_refuted :
  ~ forall (P : @params nat nat) data batches, process P data = Ok (Some batches) ->
      Forall (fun x => length (snd x) = p_max P) (concat batches).
Proof.
  intro H. specialize (H (ex_params [] 1) [[(1, 1); (2, 1); (3, 2)]; [(4, 4); (4, 4); (5, 3); (6, 3)]]
    [[([1; 2; 3], [8; 8]); ([4; 4; 5; 6], [4; 4; 3; 3; 8])]]).
  assert (E : process (ex_params [] 1) [[(1, 1); (2, 1); (3, 2)]; [(4, 4); (4, 4); (5, 3); (6, 3)]]
    = Ok (Some [[([1; 2; 3], [8; 8]); ([4; 4; 5; 6], [4; 4; 3; 3; 8])]])) by (vm_compute; reflexivity).
  specialize (H E). inversion H as [|? ? B _]; subst. cbn in B. discriminate.
Qed.

Print Assumptions C31_long_separator_refused.
Print Assumptions C31_inputs.
Print Assumptions C31_round_trip.
Print Assumptions C31_labels.
Print Assumptions C31_batches.
Print Assumptions C31_label_row.
Print Assumptions C31_labels_empty_separator_refuted.
