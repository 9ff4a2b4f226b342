(** C66: labels of samples become labels of characters *)
From Coq Require Import Lia.
From Verif Require Import PyCommon PyDict PyString ListFacts StructModel.
Local Open Scope nat_scope.
Local Open Scope string_scope.
Local Open Scope list_scope.

Section Props.
  Context {C : Type}.
  Implicit Types (sep text : list C) (data : list (list C)).
  (** The characters of each sample have its label, those of separators the label PAD *)
  Fixpoint expected (mapping : dict string nat) (pad : nat) sep data (labels : list string) : list nat :=
    match data, labels with
    | [x], [l] => match dget mapping l with Some n => repeat n (length x) | None => [] end
    | x :: data, l :: labels => match dget mapping l with Some n => repeat n (length x) | None => [] end ++ repeat pad (length sep) ++ expected mapping pad sep data labels
    | _, _ => []
    end.

  Lemma assign_app : forall s e n a b i, assign s e n i (a ++ b) = assign s e n i a ++ assign s e n (i + length a) b.
  Proof.
    intros s e n. induction a as [|x a IH]; intros b i; cbn; [rewrite Nat.add_0_r; reflexivity|]. rewrite IH. replace (i + 1 + length a) with (i + S (length a)) by lia. reflexivity.
  Qed.
  Lemma assign_out : forall s e n a i, (forall j, i <= j < i + length a -> j < s \/ e <= j) -> assign s e n i a = a.
  Proof.
    intros s e n. induction a as [|x a IH]; intros i H; cbn [assign]; [reflexivity|].
    rewrite IH by (intros j J; apply H; cbn; lia). destruct (H i) as [L | L]; [cbn; lia| |].
    - destruct (Nat.leb_spec s i); [lia|reflexivity].
    - destruct (Nat.ltb_spec i e); [lia|]. destruct (s <=? i); reflexivity.
  Qed.
  Lemma assign_in : forall s e n a i, s <= i -> i + length a <= e -> assign s e n i a = repeat n (length a).
  Proof.
    intros s e n. induction a as [|x a IH]; intros i L1 L2; cbn [assign length repeat] in *; [reflexivity|]. destruct (Nat.leb_spec s i); [|lia]. destruct (Nat.ltb_spec i e); [|lia]. cbn. rewrite IH by lia. reflexivity.
  Qed.
  Lemma assign_mid : forall n a b c, assign (length a) (length a + length b) n 0 (a ++ b ++ c) = a ++ repeat n (length b) ++ c.
  Proof.
    intros n a b c. rewrite assign_app, assign_app. cbn [Nat.add]. rewrite (assign_out _ _ _ a) by (intros j J; lia). rewrite (assign_in _ _ _ b) by lia.
    rewrite (assign_out _ _ _ c) by (intros j J; lia). reflexivity.
  Qed.
  Lemma repeat_add : forall {A} (x : A) n m, repeat x (n + m) = repeat x n ++ repeat x m.
  Proof. intros A x n m. induction n as [|n IH]; cbn; [reflexivity|]. rewrite IH. reflexivity. Qed.
  Lemma join_length : forall sep x y data, length (join sep (x :: y :: data)) = length x + length sep + length (join sep (y :: data)).
  Proof. intros sep x y data. cbn [join]. rewrite !app_length. lia. Qed.
  Lemma join_last : forall sep data x, last (x :: data) [] <> [] -> length (join sep (x :: data)) > 0.
  Proof.
    intros sep. induction data as [|y data IH]; intros x H; [cbn in *; destruct x; [congruence|cbn; lia]|].
    rewrite join_length. specialize (IH y H). lia.
  Qed.

  Lemma fill_expected : forall mapping default dn pad sep data labels done total, dget mapping default = Some dn -> dget mapping "PAD" = Some pad ->
    length data = length labels -> (forall l, In l labels -> dget mapping l <> None) -> last data [] <> [] ->
    total = length done + length (join sep data) ->
    fill mapping (entities default total (length sep) (length done) data labels) (done ++ repeat dn (length (join sep data))) = Ok (done ++ expected mapping pad sep data labels).
  Proof.
    intros mapping default dn pad sep. induction data as [|x data IH]; intros labels done total HD HP L HL NE T; [exfalso; apply NE; reflexivity|].
    destruct labels as [|l labels]; [discriminate|]. cbn [entities]. destruct (dget mapping l) as [n|] eqn:Gl; [|exfalso; apply (HL l (or_introl eq_refl) Gl)].
    set (rest := length (join sep (x :: data)) - length x).
    assert (LJ : length (join sep (x :: data)) = length x + rest) by (unfold rest; destruct data; [cbn; lia|rewrite join_length; lia]).
    assert (MINE : forall es, fill mapping ((if String.eqb l default then [] else [(length done, length done + length x, l)]) ++ es) (done ++ repeat dn (length (join sep (x :: data)))) =
      fill mapping es (done ++ repeat n (length x) ++ repeat dn rest)).
    { intros es. rewrite LJ, repeat_add. destruct (String.eqb_spec l default) as [-> | N]; cbn [app fill].
      - replace n with dn by congruence. reflexivity.
      - rewrite Gl. replace (length x) with (length (repeat dn (length x))) at 1 by apply repeat_length. rewrite assign_mid. rewrite repeat_length. reflexivity. }
    rewrite MINE. destruct data as [|y data].
    - destruct labels; [|discriminate]. cbn [join length] in T, LJ, rest. assert (R0 : rest = 0) by lia. rewrite R0. cbn [repeat].
      destruct (Nat.ltb_spec (length done + (length x + length sep)) total); [cbn in T; lia|]. cbn [app entities fill expected]. rewrite Gl, app_nil_r. reflexivity.
    - destruct labels as [|l2 labels]; [discriminate|]. rewrite join_length in LJ. assert (JL := join_last sep data y NE).
      assert (R : rest = length sep + length (join sep (y :: data))) by lia. destruct (Nat.ltb_spec (length done + (length x + length sep)) total) as [_|X]; [|rewrite join_length in T; lia].
      cbn [app fill]. rewrite HP.
      replace (length done + (length x + length sep) - length sep) with (length done + length x) by lia.
      rewrite R, repeat_add, (app_assoc done).
      assert (A := assign_mid pad (done ++ repeat n (length x)) (repeat dn (length sep)) (repeat dn (length (join sep (y :: data))))).
      rewrite app_length, !repeat_length in A. replace (length done + (length x + length sep)) with (length done + length x + length sep) by lia. rewrite A.
      rewrite <- app_assoc. rewrite app_assoc, app_assoc, <- (app_assoc done).
      set (d2 := done ++ repeat n (length x) ++ repeat pad (length sep)).
      assert (L2 : length d2 = length done + length x + length sep) by (unfold d2; rewrite !app_length, !repeat_length; lia).
      rewrite <- L2. rewrite IH; [|exact HD|exact HP|cbn in L |- *; lia|intros l0 I; apply HL; right; exact I|exact NE|rewrite L2, T, join_length; lia].
      unfold d2. cbn [expected]. rewrite Gl. rewrite <- !app_assoc. reflexivity.
  Qed.
  (** If the last sample is not empty, every character gets the label of its sample, and the separators get PAD. *)
  Theorem C66_labels : forall mapping default sep data labels pad text es, dget mapping default <> None -> dget mapping "PAD" = Some pad ->
    length data = length labels -> (forall l, In l labels -> dget mapping l <> None) -> last data [] <> [] ->
    convert sep default data (Some labels) = (text, Some es) -> label_buffer mapping default text es = Ok (expected mapping pad sep data labels).
  Proof.
    intros mapping default sep data labels pad text es HD HP L HL NE H. unfold convert in H. injection H as <- <-. unfold label_buffer.
    destruct (dget mapping default) as [dn|] eqn:G; [|congruence]. apply (fill_expected mapping default dn pad sep data labels [] _ G HP L HL NE eq_refl).
  Qed.
  (** One sample, as it is processed: all its characters get its label. *)
  Theorem C66_single : forall mapping default sep x l n text es, dget mapping default <> None -> dget mapping l = Some n ->
    convert sep default [x] (Some [l]) = (text, Some es) -> text = x /\ label_buffer mapping default text es = Ok (repeat n (length x)).
  Proof.
    intros mapping default sep x l n text es HD G H. unfold convert in H. cbn [join entities] in H. injection H as <- <-. split; [reflexivity|]. unfold label_buffer.
    destruct (dget mapping default) as [dn|] eqn:Gd; [|congruence]. cbn [Nat.add]. destruct (Nat.ltb_spec (length x + length sep) (length x)); [lia|]. cbn [app].
    destruct (String.eqb_spec l default) as [-> | N]; cbn [app fill]; [replace n with dn by congruence; reflexivity|]. rewrite G. f_equal.
    assert (A := assign_mid n [] (repeat dn (length x)) []). cbn [length Nat.add app] in A. rewrite !app_nil_r, !repeat_length in A. exact A.
  Qed.
  (** The text is made of the samples, and the span of each sample is where it is in the text. *)
  Fixpoint spans (sep_len start : nat) data : list (nat * nat) :=
    match data with [] => [] | x :: data => (start, start + length x) :: spans sep_len (start + length x + sep_len) data end.
  Theorem C66_spans : forall sep data before, Forall2 (fun x se => firstn (snd se - fst se) (skipn (fst se) (before ++ join sep data)) = x) data (spans (length sep) (length before) data).
  Proof.
    intros sep. induction data as [|x data IH]; intros before; [constructor|]. cbn [spans]. constructor.
    - cbn [fst snd]. replace (length before + length x - length before) with (length x) by lia.
      rewrite skipn_app, skipn_all, Nat.sub_diag. cbn [app skipn]. destruct data as [|y data]; cbn [join]; [apply firstn_all|]. rewrite firstn_app, firstn_all, Nat.sub_diag. cbn. apply app_nil_r.
    - destruct data as [|y data]; [constructor|]. specialize (IH (before ++ x ++ sep)). rewrite !app_length in IH.
      replace (length before + (length x + length sep)) with (length before + length x + length sep) in IH by lia. cbn [join].
      rewrite <- !app_assoc in IH. exact IH.
  Qed.
  Theorem C66_entities : forall sep default data labels text es, length data = length labels -> convert sep default data (Some labels) = (text, Some es) ->
    forall s e l, In (s, e, l) es -> l <> "PAD" -> exists k x, nth_error (spans (length sep) 0 data) k = Some (s, e) /\ nth_error labels k = Some l /\ l <> default /\ nth_error data k = Some x.
  Proof.
    intros sep default data labels text es L H s e l I NP. unfold convert in H. injection H as <- <-.
    assert (G : forall total data labels start, length data = length labels -> In (s, e, l) (entities default total (length sep) start data labels) ->
      exists k x, nth_error (spans (length sep) start data) k = Some (s, e) /\ nth_error labels k = Some l /\ l <> default /\ nth_error data k = Some x).
    { intros total. clear I L labels data. induction data as [|x data IH]; intros [|l0 labels] start L I; try discriminate; [destruct I|]. cbn [entities] in I.
      apply in_app_or in I. destruct I as [I | I].
      - destruct (String.eqb_spec l0 default) as [|N]; [destruct I|]. destruct I as [E | []]. injection E as <- <- <-. exists 0, x. cbn. auto.
      - apply in_app_or in I. destruct I as [I | I].
        + destruct (_ <? total); [|destruct I]. destruct I as [E | []]. injection E as _ _ E. congruence.
        + cbn in L. destruct (IH labels _ (eq_add_S _ _ L) I) as (k & y & K1 & K2 & K3 & K4). exists (S k), y. cbn [nth_error spans]. rewrite <- Nat.add_assoc. auto. }
    apply (G _ _ _ _ L I).
  Qed.
End Props.

(** An empty last sample: the separator before it gets the default label. *)
Theorem C66_last_refuted : ~ forall (sep : list nat) data labels mapping pad es text, dget mapping "BACKGROUND" <> None -> dget mapping "PAD" = Some pad -> length data = length labels ->
  (forall l, In l labels -> dget mapping l <> None) -> convert sep "BACKGROUND" data (Some labels) = (text, Some es) ->
  label_buffer mapping "BACKGROUND" text es = Ok (expected mapping pad sep data labels).
Proof.
  intros H. specialize (H [9; 9] [[1]; []] ["A"; "A"] [("PAD", 0); ("BACKGROUND", 1); ("A", 2)] 0 [(0, 1, "A"); (3, 3, "A")] [1; 9; 9] ltac:(discriminate) eq_refl eq_refl).
  assert (X : label_buffer [("PAD", 0); ("BACKGROUND", 1); ("A", 2)] "BACKGROUND" [1; 9; 9] [(0, 1, "A"); (3, 3, "A")] = Ok (expected [("PAD", 0); ("BACKGROUND", 1); ("A", 2)] 0 [9; 9] [[1]; []] ["A"; "A"])).
  { apply H; [|reflexivity]. intros l [<- | [<- | []]]; discriminate. }
  clear -X. vm_compute in X. discriminate X.
Qed.
(** The label of padding is always called PAD, whatever the parameter says: joining two samples needs a label of that name. *)
Theorem C66_pad_refuted : forall (x y : nat) n, exists text es, convert [0] "BACKGROUND" [[x]; [y]] (Some ["BACKGROUND"; "BACKGROUND"]) = (text, Some es) /\
  label_buffer [("padding", 0); ("BACKGROUND", n)] "BACKGROUND" text es = Err KeyError.
Proof. intros x y n. eexists. eexists. split; reflexivity. Qed.

Example C66_example :
  convert [9; 9] "B" [[1; 2]; [3]; [4; 5; 6]] (Some ["X"; "B"; "Y"]) = ([1; 2; 9; 9; 3; 9; 9; 4; 5; 6], Some [(0, 2, "X"); (2, 4, "PAD"); (5, 7, "PAD"); (7, 10, "Y")]) /\
  label_buffer [("PAD", 0); ("B", 1); ("X", 2); ("Y", 3)] "B" [1; 2; 9; 9; 3; 9; 9; 4; 5; 6] [(0, 2, "X"); (2, 4, "PAD"); (5, 7, "PAD"); (7, 10, "Y")] = Ok [2; 2; 0; 0; 1; 0; 0; 3; 3; 3].
Proof. split; reflexivity. Qed.
