(** Proofs about regular-expression labelling. *)
From Coq Require Import QArith.
From Verif Require Import PyCommon PyDict PyString ListFacts RowModel RowProofs QFacts RegexModel.
Local Open Scope nat_scope.

Lemma combine_seq_nth {X} (l : list X) : forall s i,
  nth_error (combine (seq s (length l)) l) i = option_map (fun x => (s + i, x)) (nth_error l i).
Proof.
  induction l as [|x l IH]; intros s i; [destruct i; reflexivity|]. cbn [length seq combine].
  destruct i as [|i]; cbn [nth_error option_map]; [rewrite Nat.add_0_r; reflexivity|].
  rewrite IH. destruct (nth_error l i); cbn; [|reflexivity]. do 2 f_equal. lia.
Qed.

Lemma nth_error_repeat_in {X} (x : X) n i : i < n -> nth_error (repeat x n) i = Some x.
Proof. revert i. induction n as [|n IH]; intros [|i] H; cbn; try lia; [reflexivity|apply IH; lia]. Qed.

Lemma list_max_In (l : list nat) x : In x l -> x <= List.list_max l.
Proof.
  induction l as [|y l IH]; cbn [In]; [tauto|]. change (List.list_max (y :: l)) with (Nat.max y (List.list_max l)).
  intros [->|H]; [lia|]. specialize (IH H). lia.
Qed.

Section Predict.
  Context {N T P : Type} {EN : EqDecB N}.
  Variable tlen : T -> nat.
  Variable finds : P -> T -> list (nat * nat).

  Lemma paint_length d ent pred sp : length (paint d ent pred sp) = length pred.
  Proof. unfold paint. rewrite map_length, combine_length, seq_length. lia. Qed.

  Lemma paint_nth d ent pred sp i :
    nth_error (paint d ent pred sp) i =
    option_map (fun row => if inside sp i then set_nth (set_nth row d 0) ent 1 else row) (nth_error pred i).
  Proof.
    unfold paint. rewrite nth_error_map, combine_seq_nth. destruct (nth_error pred i); reflexivity.
  Qed.

  (** All finds in a text, in the order in which they are painted *)
  Definition events_of (ent : nat) (ps : list P) (t : T) : list (nat * (nat * nat)) :=
    flat_map (fun p => map (fun sp => (ent, sp)) (finds p t)) ps.

  Definition step (d : nat) (pred : matrix) (ev : nat * (nat * nat)) : matrix := paint d (fst ev) pred (snd ev).

  Lemma fold_spans d ent sps : forall pred,
    fold_left (paint d ent) sps pred = fold_left (step d) (map (fun sp => (ent, sp)) sps) pred.
  Proof. induction sps as [|sp sps IH]; intro pred; cbn; [reflexivity|apply IH]. Qed.

  Lemma fold_pats d ent t ps : forall pred,
    fold_left (fun pr p => fold_left (paint d ent) (finds p t) pr) ps pred = fold_left (step d) (events_of ent ps t) pred.
  Proof.
    induction ps as [|p ps IH]; intro pred; cbn [fold_left events_of flat_map]; [reflexivity|].
    rewrite IH, fold_left_app, fold_spans. reflexivity.
  Qed.

  Definition events (m : dict N nat) (pats : dict N (list P)) (t : T) : list (nat * (nat * nat)) :=
    flat_map (fun lp => match dget m (fst lp) with Some ent => events_of ent (snd lp) t | None => [] end) pats.

  Definition blank (m : dict N nat) (d : nat) (t : T) : matrix := repeat (set_nth (repeat 0 (num_labels m)) d 1) (tlen t).

  Lemma fold_labels_err m d t pats x :
    fold_left (fun acc lp => bind acc (fun pred =>
        match dget m (fst lp) with
        | None => Err KeyError
        | Some ent => Ok (fold_left (fun pr p => fold_left (paint d ent) (finds p t) pr) (snd lp) pred)
        end)) pats (Err x) = Err x.
  Proof. induction pats as [|[l ps] pats IH]; cbn [fold_left bind]; auto. Qed.

  Lemma fold_labels m d t pats : forall pred,
    fold_left (fun acc lp => bind acc (fun pred =>
        match dget m (fst lp) with
        | None => Err KeyError
        | Some ent => Ok (fold_left (fun pr p => fold_left (paint d ent) (finds p t) pr) (snd lp) pred)
        end)) pats (Ok pred) =
    if forallb (fun lp => dmem m (fst lp)) pats then Ok (fold_left (step d) (events m pats t) pred) else Err KeyError.
  Proof.
    induction pats as [|[l ps] pats IH]; intro pred; cbn [fold_left forallb]; [reflexivity|].
    cbn [bind fst snd]. unfold dmem, events. cbn [flat_map fst snd]. destruct (dget m l) as [ent|] eqn:E.
    - rewrite IH. cbn [andb]. rewrite fold_pats. unfold events. rewrite fold_left_app. reflexivity.
    - cbn [andb]. apply fold_labels_err.
  Qed.

  Lemma predict_one_spec m pats d t :
    predict_one tlen finds m pats d t =
    if forallb (fun lp => dmem m (fst lp)) pats then Ok (fold_left (step d) (events m pats t) (blank m d t)) else Err KeyError.
  Proof. unfold predict_one. apply fold_labels. Qed.

  (** One row after all finds *)
  Definition row_step (d i : nat) (row : list nat) (ev : nat * (nat * nat)) : list nat :=
    if inside (snd ev) i then set_nth (set_nth row d 0) (fst ev) 1 else row.

  Lemma fold_step_nth d i evs : forall pred,
    nth_error (fold_left (step d) evs pred) i = option_map (fun row => fold_left (row_step d i) evs row) (nth_error pred i).
  Proof.
    induction evs as [|ev evs IH]; intro pred; cbn [fold_left]; [destruct (nth_error pred i); reflexivity|].
    rewrite IH. unfold step. rewrite paint_nth. destruct (nth_error pred i); reflexivity.
  Qed.

  Lemma fold_step_length d evs : forall pred, length (fold_left (step d) evs pred) = length pred.
  Proof. induction evs as [|ev evs IH]; intro pred; cbn [fold_left]; [reflexivity|]. rewrite IH. apply paint_length. Qed.

  Definition hit (i j : nat) (ev : nat * (nat * nat)) : bool := (fst ev =? j) && inside (snd ev) i.

  (** The last find over a character, if any *)
  Fixpoint last_hit (i : nat) (evs : list (nat * (nat * nat))) : option nat :=
    match evs with
    | [] => None
    | ev :: r => match last_hit i r with Some e => Some e | None => if inside (snd ev) i then Some (fst ev) else None end
    end.

  Lemma last_hit_snoc i evs ev :
    last_hit i (evs ++ [ev]) = if inside (snd ev) i then Some (fst ev) else last_hit i evs.
  Proof.
    induction evs as [|e evs IH]; cbn [app last_hit]; [destruct (inside (snd ev) i); reflexivity|].
    rewrite IH. destruct (inside (snd ev) i); reflexivity.
  Qed.

  Lemma last_hit_None i evs : last_hit i evs = None <-> forall ev, In ev evs -> inside (snd ev) i = false.
  Proof.
    induction evs as [|e evs IH]; cbn [last_hit]; [split; [intros _ ev []|reflexivity]|].
    destruct (last_hit i evs) as [x|] eqn:E.
    - split; [discriminate|]. intro H. exfalso. assert (Some x = None) as D; [|discriminate D].
      apply IH. intros ev Hev. apply H. right. exact Hev.
    - destruct (inside (snd e) i) eqn:Ei.
      + split; [discriminate|]. intro H. rewrite (H e (or_introl eq_refl)) in Ei. discriminate.
      + split; [|reflexivity]. intros _ ev [<-|Hev]; [exact Ei|]. apply IH; [reflexivity|exact Hev].
  Qed.

  Lemma last_hit_In i evs e : last_hit i evs = Some e -> exists ev, In ev evs /\ fst ev = e /\ inside (snd ev) i = true.
  Proof.
    induction evs as [|v evs IH]; cbn [last_hit]; [discriminate|]. destruct (last_hit i evs) as [x|].
    - intro H. injection H as <-. destruct (IH eq_refl) as (ev & H1 & H2). exists ev. split; [right; exact H1|exact H2].
    - destruct (inside (snd v) i) eqn:Ei; [|discriminate]. intro H. injection H as <-. exists v. cbn. auto.
  Qed.

  Lemma fold_row d i nl evs (Hd : d < nl) (He : forall ev, In ev evs -> fst ev < nl) :
    length (fold_left (row_step d i) evs (set_nth (repeat 0 nl) d 1)) = nl /\
    forall j, j < nl ->
      nth_error (fold_left (row_step d i) evs (set_nth (repeat 0 nl) d 1)) j =
      Some (if j =? d then match last_hit i evs with None => 1 | Some e => if e =? d then 1 else 0 end
            else if existsb (hit i j) evs then 1 else 0).
  Proof.
    revert He. induction evs as [|ev evs IH] using rev_ind; intro He.
    - cbn [fold_left last_hit existsb]. rewrite set_nth_length, repeat_length. split; [reflexivity|]. intros j Hj.
      rewrite nth_error_set_nth, nth_error_repeat_in by exact Hj. rewrite Nat.eqb_sym. destruct (j =? d); reflexivity.
    - assert (forall e, In e evs -> fst e < nl) as He' by (intros e Hin; apply He; apply in_or_app; left; exact Hin).
      destruct (IH He') as [IH1 IH2]. rewrite fold_left_app. cbn [fold_left]. unfold row_step at 1 3.
      destruct (inside (snd ev) i) eqn:Ei.
      + rewrite !set_nth_length. split; [exact IH1|]. intros j Hj.
        rewrite !nth_error_set_nth, (IH2 j Hj), last_hit_snoc, existsb_app, Ei. cbn [existsb].
        replace (hit i j ev) with (fst ev =? j) by (unfold hit; rewrite Ei, andb_true_r; reflexivity).
        rewrite (Nat.eqb_sym d j), orb_false_r. destruct (Nat.eqb_spec (fst ev) j) as [Ej|Ej].
        * destruct (Nat.eqb_spec j d) as [Ed|Ed]; [rewrite Ej, Ed, Nat.eqb_refl|rewrite orb_true_r]; reflexivity.
        * destruct (Nat.eqb_spec j d) as [Ed|Ed].
          -- destruct (Nat.eqb_spec (fst ev) d); [congruence|reflexivity].
          -- rewrite orb_false_r. reflexivity.
      + split; [exact IH1|]. intros j Hj. rewrite (IH2 j Hj), last_hit_snoc, existsb_app, Ei. cbn [existsb].
        replace (hit i j ev) with false by (unfold hit; rewrite Ei, andb_false_r; reflexivity).
        rewrite !orb_false_r. reflexivity.
  Qed.

  (** The data loop *)
  Lemma store_at (preds : list (option matrix)) i pred : i <= length preds -> 0 < length preds ->
    firstn (S i) (store preds i pred) = firstn i preds ++ [Some pred] /\ i < length (store preds i pred).
  Proof.
    intros Hi Hp. unfold store.
    set (q := if length preds <=? i then preds ++ repeat None (length preds) else preds).
    assert (i < length q /\ firstn i q = firstn i preds) as [H1 H2].
    { unfold q. destruct (Nat.leb_spec (length preds) i).
      - rewrite app_length, repeat_length. split; [lia|]. rewrite firstn_app. replace (i - length preds) with 0 by lia.
        cbn [firstn]. apply app_nil_r.
      - auto. }
    clearbody q. rewrite set_nth_length. split; [|exact H1]. rewrite <- H2. clear H2 Hi Hp preds. revert i H1.
    induction q as [|x q IH]; intros i H1; [cbn in H1; lia|]. destruct i as [|i]; [reflexivity|].
    cbn [set_nth firstn app]. f_equal. apply IH. cbn in H1. lia.
  Qed.

  Lemma predict_loop_ok m pats d (Hk : forallb (fun lp => dmem m (fst lp)) pats = true) data :
    forall i preds, i <= length preds -> 0 < length preds ->
    exists out, predict_loop tlen finds m pats d data i preds = Ok out /\ i + length data <= length out /\
      firstn (i + length data) out =
      firstn i preds ++ map (fun t => Some (fold_left (step d) (events m pats t) (blank m d t))) data.
  Proof.
    induction data as [|t r IH]; intros i preds Hi Hp; cbn [predict_loop length map].
    - exists preds. rewrite Nat.add_0_r, app_nil_r. auto.
    - rewrite predict_one_spec, Hk. cbn [bind].
      destruct (store_at preds i (fold_left (step d) (events m pats t) (blank m d t)) Hi Hp) as [H1 H2].
      destruct (IH (S i) (store preds i (fold_left (step d) (events m pats t) (blank m d t)))) as (out & E1 & E2 & E3); [lia|lia|].
      exists out. split; [exact E1|]. split; [lia|]. rewrite <- Nat.add_succ_comm, E3, H1, <- app_assoc. reflexivity.
  Qed.

  Lemma predict_spec m pats default data :
    predict tlen finds m pats default data =
    match dget m default with
    | None => Err KeyError
    | Some d =>
        if (length data =? 0) then Ok [None]
        else if forallb (fun lp => dmem m (fst lp)) pats
             then Ok (map (fun t => Some (fold_left (step d) (events m pats t) (blank m d t))) data)
             else Err KeyError
    end.
  Proof.
    unfold predict. destruct (dget m default) as [d|]; [|reflexivity]. destruct data as [|t r]; [reflexivity|].
    change (length (t :: r) =? 0) with false. cbv iota. destruct (forallb _ pats) eqn:E.
    - destruct (predict_loop_ok m pats d E (t :: r) 0 (repeat None 100)) as (out & E1 & E2 & E3); [lia|rewrite repeat_length; lia|].
      rewrite E1. cbn [bind]. replace (S (length (t :: r) - 1)) with (0 + length (t :: r)) by (cbn [length]; lia).
      rewrite E3. reflexivity.
    - cbn [predict_loop]. rewrite predict_one_spec, E. reflexivity.
  Qed.
End Predict.
