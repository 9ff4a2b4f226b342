(** C113. Which cells of a column are labelled, which labels it goes by when its labeler changes, what a
    failed update leaves behind, and when labels of columns can be merged. *)
From Coq Require Import ZArith QArith Permutation Lia.
From Verif Require Import PyCommon PyDict PyString QFacts LabelColModel LabelColProps LabelNamesModel.
Import String.StringSyntax.
Local Delimit Scope string_scope with string.
Local Open Scope nat_scope.

Section Props.
  Context {L X : Type} {E : EqDecB L}.
  Variable best : list Q -> nat.
  Variable sample : nat -> list X -> list X.
  Notation labeler := (labeler L X).
  Notation col := (col L).
  Notation update := (update best sample).

  (** [sample k l] are [k] of the cells of [l], each at most as often as in [l] *)
  Definition samples : Prop := forall k l, k <= length l -> length (sample k l) = k /\ exists rest, Permutation (sample k l ++ rest) l.
  Hypothesis HS : samples.

  (** ** What the getters keep *)
  Definition kept (c c' : col) : Prop :=
    k_name c' = k_name c /\ k_max c' = k_max c /\ k_n c' = k_n c /\
    (forall r, k_reverse c = Some r -> k_reverse c' = Some r) /\ (forall l, k_labels c = Some l -> k_labels c' = Some l).
  Lemma kept_refl c : kept c c. Proof. repeat split; auto. Qed.
  Lemma kept_trans a b c : kept a b -> kept b c -> kept a c.
  Proof. intros (A1 & A2 & A3 & A4 & A5) (B1 & B2 & B3 & B4 & B5). refine (conj _ (conj _ (conj _ (conj _ _)))); [congruence|congruence|congruence|auto|auto]. Qed.
  Lemma get_reverse_spec (b : labeler) c : let '(r, c') := get_reverse b c in kept c c' /\ k_reverse c' = Some r /\ k_labels c' = k_labels c /\ k_votes c' = k_votes c /\ k_sums c' = k_sums c.
  Proof. unfold get_reverse. destruct (k_reverse c) as [r|] eqn:R; [split; [apply kept_refl|auto]|]. split; [refine (conj eq_refl (conj eq_refl (conj eq_refl (conj _ _)))); [congruence|auto]|auto]. Qed.
  Lemma get_labels_spec (b : labeler) c : let '(l, c') := get_labels b c in kept c c' /\ k_labels c' = Some l /\ k_votes c' = k_votes c /\ k_sums c' = k_sums c.
  Proof.
    unfold get_labels. destruct (k_labels c) as [l|] eqn:R; [split; [apply kept_refl|auto]|]. pose proof (get_reverse_spec b c) as G. destruct (get_reverse b c) as [r c1]. destruct G as (K & G1 & G2 & G3 & G4).
    cbn [k_labels k_votes k_sums]. split; [|auto]. destruct K as (K1 & K2 & K3 & K4 & K5). refine (conj K1 (conj K2 (conj K3 (conj K4 _)))). congruence.
  Qed.
  Lemma get_votes_spec (b : labeler) c : let '(v, c') := get_votes b c in kept c c' /\ k_votes c' = Some v /\ k_sums c' = k_sums c.
  Proof.
    unfold get_votes. destruct (k_votes c) as [v|] eqn:R; [split; [apply kept_refl|auto]|]. pose proof (get_labels_spec b c) as G. destruct (get_labels b c) as [l c1]. destruct G as (K & G1 & G2 & G3). cbn [k_votes k_sums]. split; [exact K|auto].
  Qed.
  Lemma vote_row_kept (b : labeler) c row : kept c (fst (vote_row best b c row)) /\ k_sums (fst (vote_row best b c row)) = k_sums c.
  Proof.
    unfold vote_row. destruct row as [|x row]; [split; [apply kept_refl|reflexivity]|]. cbv zeta. destruct (above _); [|split; [apply kept_refl|reflexivity]].
    pose proof (get_votes_spec b c) as G. destruct (get_votes b c) as [d c1]. destruct G as (K1 & _ & S1). pose proof (get_reverse_spec b c1) as G. destruct (get_reverse b c1) as [r c2]. destruct G as (K2 & _ & _ & _ & S2).
    assert (kept c c2 /\ k_sums c2 = k_sums c) as KS by (split; [apply (kept_trans _ _ _ K1 K2)|congruence]). destruct (dget r _) as [l|]; [destruct (dget d l)|]; exact KS.
  Qed.
  Lemma vote_rows_kept (b : labeler) rows : forall c, kept c (fst (vote_rows best b c rows)) /\ k_sums (fst (vote_rows best b c rows)) = k_sums c.
  Proof.
    induction rows as [|r rows IH]; intros c; cbn [vote_rows]; [split; [apply kept_refl|reflexivity]|]. pose proof (vote_row_kept b c r) as [K S]. destruct (vote_row best b c r) as [c1 [x|]]; cbn [fst] in *; [split; assumption|].
    destruct (IH c1) as [K' S']. split; [apply (kept_trans _ _ _ K K')|congruence].
  Qed.

  (** ** Theorems *)

  (** At most as many cells as the option says are labelled of each batch, all if the batch is not larger;
      each cell of the batch at most once. A limit that is missing or 0 means 1000. *)
  Theorem C113_cells name m cells :
    let c := new_col name m : col in
    let limit := match m with Some k => if k =? 0 then 1000 else k | None => 1000 end in
    length (labelled sample c cells) = Nat.min (length cells) limit /\
    (exists rest, Permutation (labelled sample c cells ++ rest) cells) /\
    (length cells <= limit -> Permutation (labelled sample c cells) cells).
  Proof.
    cbv zeta. set (limit := match m with Some k => if k =? 0 then 1000 else k | None => 1000 end). assert (k_max (new_col (L := L) name m) = limit) as KM by (destruct m as [[|k]|]; reflexivity).
    unfold labelled. rewrite KM. destruct cells as [|x cells]; [split; [reflexivity|split; [exists []; reflexivity|reflexivity]]|]. destruct (HS (Nat.min (length (x :: cells)) limit) (x :: cells) ltac:(lia)) as (A & rest & P).
    split; [exact A|]. split; [exists rest; exact P|]. intros LE. assert (length rest = 0) as Z by (apply Permutation_length in P; rewrite app_length in P; lia). destruct rest; [|discriminate]. rewrite app_nil_r in P. exact P.
  Qed.

  (** Updates that work count the cells that were labelled; updates that fail count none. *)
  Theorem C113_count (b : labeler) c cells : let '(c', e) := update b c cells in
    k_name c' = k_name c /\ k_max c' = k_max c /\
    k_n c' = k_n c + match e with None => length (labelled sample c cells) | Some _ => 0 end.
  Proof.
    unfold LabelNamesModel.update. destruct cells as [|x cells]; [cbn; repeat split; lia|]. cbv zeta. destruct (add_rows _ _ _) as [s|]; [|cbn [k_name k_max k_n]; repeat split; lia].
    set (c1 := mkCol _ _ _ _ _ _ _). set (rows := map _ _). pose proof (vote_rows_kept b rows c1) as [(K1 & K2 & K3 & _) _]. destruct (vote_rows best b c1 rows) as [c2 [y|]]; cbn [fst] in *.
    - rewrite K1, K2, K3. cbn. repeat split; lia.
    - cbn [k_name k_max k_n]. rewrite K1, K2, K3. cbn [c1 k_name k_max k_n]. repeat split. unfold labelled. rewrite (proj1 (HS (Nat.min (length (x :: cells)) (k_max c)) (x :: cells) ltac:(lia))). reflexivity.
  Qed.

  (** Once a column has labels (a cell has voted or a report was read), it keeps them: whatever its labeler
      becomes, all later reports list these labels, in this order. *)
  Theorem C113_names (b : labeler) c ls : k_labels c = Some ls ->
    (forall cells, k_labels (fst (update b c cells)) = Some ls) /\
    k_labels (snd (representation b c)) = Some ls /\ k_labels (snd (averages b c)) = Some ls /\
    (forall d, fst (representation b c) = Some (Ok d) -> map fst d = ls) /\
    (forall d, fst (averages b c) = Some d -> map fst d = firstn (length (get_sums b c)) ls).
  Proof.
    intros KL. assert (forall v m l d, shares v m l = Ok d -> map fst d = l) as SH.
    { intros v m l. induction l as [|x l IH]; intros d H; cbn [shares] in H; [injection H as <-; reflexivity|]. destruct (dget v x); [|discriminate]. destruct (shares v m l) as [u|]; [|discriminate]. cbn [bind] in H. injection H as <-. cbn. f_equal. apply IH. reflexivity. }
    refine (conj _ (conj _ (conj _ (conj _ _)))).
    - intros cells. unfold LabelNamesModel.update. destruct cells as [|x cells]; [exact KL|]. cbv zeta. destruct (add_rows _ _ _) as [s|]; [|exact KL]. set (c1 := mkCol _ _ _ _ _ _ _). set (rows := map _ _). pose proof (vote_rows_kept b rows c1) as [(_ & _ & _ & _ & K) _].
      specialize (K ls KL). destruct (vote_rows best b c1 rows) as [c2 [y|]]; exact K.
    - unfold representation. destruct (k_n c); [exact KL|]. unfold get_labels. rewrite KL. pose proof (get_votes_spec b c) as G. destruct (get_votes b c) as [v c']. destruct G as ((_ & _ & _ & _ & K) & _). apply K. exact KL.
    - unfold averages. destruct (k_n c); [exact KL|]. unfold get_labels. rewrite KL. exact KL.
    - intros d. unfold representation. destruct (k_n c); [discriminate|]. unfold get_labels. rewrite KL. destruct (get_votes b c) as [v c']. cbn [fst]. intros H. injection H as H. apply (SH _ _ _ _ H).
    - intros d. unfold averages. destruct (k_n c) as [|k]; [discriminate|]. unfold get_labels. rewrite KL. cbn [fst]. intros H. injection H as <-.
      match goal with |- map fst (combine ls ?l) = _ => assert (length (get_sums b c) = length l) as -> by (symmetry; apply map_length); generalize l end. clear. induction ls as [|x ls IH]; intros [|y l]; cbn [combine map length firstn fst]; try reflexivity. f_equal. apply IH.
  Qed.

  (** ** A labeler that stays the same: the column is the one of C38 *)
  Definition view (c : col) : @lcol L := mkLabels (k_votes c) (k_sums c) (k_n c).
  (** What is kept of the labels is what the labeler says *)
  Definition in_step (b : labeler) (c : col) : Prop :=
    (k_reverse c = None \/ k_reverse c = Some (reverse_mapping (b_mapping b) (b_zero b))) /\
    (k_labels c = None \/ k_labels c = Some (labels (b_mapping b) (b_zero b))).

  Lemma get_reverse_step (b : labeler) c : in_step b c -> exists c', get_reverse b c = (reverse_mapping (b_mapping b) (b_zero b), c') /\ in_step b c' /\ view c' = view c.
  Proof. intros [[R|R] L0]; unfold get_reverse; rewrite R; eexists; (split; [reflexivity|]); split; [split; [right; reflexivity|exact L0]|reflexivity|split; [right; exact R|exact L0]|reflexivity]. Qed.
  Lemma get_labels_step (b : labeler) c : in_step b c -> exists c', get_labels b c = (labels (b_mapping b) (b_zero b), c') /\ in_step b c' /\ view c' = view c.
  Proof.
    intros I. pose proof I as [R [L0|L0]]; unfold get_labels; rewrite L0.
    - destruct (get_reverse_step b c I) as (c' & -> & [I1 I2] & V). eexists. split; [reflexivity|]. split; [split; [exact I1|right; reflexivity]|exact V].
    - eexists. split; [reflexivity|]. split; [exact I|reflexivity].
  Qed.
  Lemma get_votes_step (b : labeler) c : in_step b c -> exists c', get_votes b c = (votes_of (b_mapping b) (b_zero b) (view c), c') /\ in_step b c' /\ view c' = mkLabels (Some (votes_of (b_mapping b) (b_zero b) (view c))) (k_sums c) (k_n c).
  Proof.
    intros I. unfold get_votes, votes_of. cbn [view l_votes]. destruct (k_votes c) as [v|] eqn:KV.
    - eexists. split; [reflexivity|]. split; [exact I|]. unfold view. rewrite KV. reflexivity.
    - destruct (get_labels_step b c I) as (c' & -> & I' & V). eexists. split; [reflexivity|]. split; [exact I'|]. unfold view in *. cbn [k_votes k_sums k_n]. injection V as V1 V2 V3. rewrite V2, V3. reflexivity.
  Qed.
  Lemma vote_row_step (b : labeler) c row : in_step b c ->
    match vote (b_mapping b) (b_zero b) best (votes_of (b_mapping b) (b_zero b) (view c)) row with
    | Ok v => exists c', vote_row best b c row = (c', None) /\ in_step b c' /\ view c' = mkLabels (if voted best row then Some v else k_votes c) (k_sums c) (k_n c)
    | Err e => snd (vote_row best b c row) = Some e
    end.
  Proof.
    intros I. unfold vote, vote_row, voted. destruct row as [|x row]; [reflexivity|]. cbv zeta. destruct (above _); [|exists c; split; [reflexivity|split; [exact I|reflexivity]]].
    destruct (get_votes_step b c I) as (c1 & -> & I1 & V1). destruct (get_reverse_step b c1 I1) as (c2 & -> & I2 & V2). destruct (dget (reverse_mapping _ _) _) as [l|]; [|reflexivity]. destruct (dget (votes_of _ _ _) l) as [k|]; [|reflexivity].
    eexists. split; [reflexivity|]. split; [exact I2|]. unfold view in *. cbn [with_votes k_votes k_sums k_n]. injection V2 as _ -> ->. injection V1 as _ -> ->. reflexivity.
  Qed.
  Lemma vote_rows_step (b : labeler) rows : forall c, in_step b c ->
    match vote_all (b_mapping b) (b_zero b) best (votes_of (b_mapping b) (b_zero b) (view c)) rows with
    | Ok v => exists c', vote_rows best b c rows = (c', None) /\ in_step b c' /\ view c' = mkLabels (if existsb (voted best) rows then Some v else k_votes c) (k_sums c) (k_n c)
    | Err e => snd (vote_rows best b c rows) = Some e
    end.
  Proof.
    induction rows as [|r rows IH]; intros c I; cbn [vote_all vote_rows existsb]; [exists c; split; [reflexivity|split; [exact I|reflexivity]]|]. pose proof (vote_row_step b c r I) as V.
    destruct (vote (b_mapping b) (b_zero b) best (votes_of (b_mapping b) (b_zero b) (view c)) r) as [v|e] eqn:EV; cbn [bind]; [|destruct (vote_row best b c r) as [c1 [x|]]; cbn [snd] in *; [exact V|discriminate]].
    destruct V as (c1 & -> & I1 & V1). specialize (IH c1 I1). injection V1 as W1 W2 W3.
    assert (votes_of (b_mapping b) (b_zero b) (view c1) = v) as EQ.
    { unfold view, votes_of at 1. cbn [l_votes]. rewrite W1. destruct (voted best r) eqn:VR; [reflexivity|]. rewrite (vote_none _ _ _ _ _ VR _ EV). reflexivity. }
    rewrite EQ in IH. destruct (vote_all _ _ _ v rows) as [v'|e'] eqn:EA; [|exact IH]. destruct IH as (c' & -> & I' & V'). exists c'. split; [reflexivity|]. split; [exact I'|]. rewrite V', W1, W2, W3. f_equal.
    destruct (voted best r); cbn [orb]; [|reflexivity]. destruct (existsb (voted best) rows) eqn:EX; [reflexivity|]. f_equal. symmetry. apply (vote_all_none _ _ _ _ _ _ EX EA).
  Qed.

  (** While the labeler stays the same, updates do to the column what C38 describes, with the same errors. *)
  Theorem C113_same (b : labeler) c cells :
    0 < k_max c -> in_step b c -> (forall x, length (b_predict b x) = b_num b) -> length (get_sums b c) = width (b_zero b) (b_num b) ->
    match update_labels (b_mapping b) (b_zero b) (b_num b) best (view c) (map (b_predict b) (labelled sample c cells)) with
    | Ok v => exists c', update b c cells = (c', None) /\ in_step b c' /\ view c' = v /\ (length (get_sums b c') = width (b_zero b) (b_num b))
    | Err e => snd (update b c cells) = Some e
    end.
  Proof.
    intros KM I HL SL. unfold LabelNamesModel.update. destruct cells as [|x cells].
    { cbn [labelled map update_labels]. exists c. split; [reflexivity|]. split; [exact I|]. split; [reflexivity|exact SL]. }
    destruct (HS (Nat.min (length (x :: cells)) (k_max c)) (x :: cells) ltac:(lia)) as (LN & _). set (lab := labelled sample c (x :: cells)). assert (length lab = Nat.min (length (x :: cells)) (k_max c)) as LL by exact LN.
    unfold update_labels. destruct (map (b_predict b) lab) as [|r0 rs0] eqn:ER. { exfalso. apply (f_equal (@length _)) in ER. rewrite map_length, LL in ER. cbn [length] in ER. lia. }
    rewrite <- ER. clear r0 rs0 ER. rewrite map_map. set (rows := map (fun x0 => delete_pad (b_zero b) (b_predict b x0)) lab). assert (sums_of (b_zero b) (b_num b) (view c) = get_sums b c) as SE by reflexivity. rewrite SE.
    assert (forall r, In r rows -> length r = width (b_zero b) (b_num b)) as RL. { intros r Hr. apply in_map_iff in Hr. destruct Hr as (y & <- & _). unfold delete_pad, width. destruct (b_zero b); [|apply HL]. specialize (HL y). destruct (b_predict b y); cbn in *; lia. }
    replace (forallb (fun r => length r =? length (get_sums b c)) rows) with true by (symmetry; apply forallb_forall; intros r Hr; rewrite (RL r Hr), SL; apply Nat.eqb_refl).
    unfold add_rows. rewrite SL, Nat.eqb_refl. set (s' := fold_left vadd rows (get_sums b c)). set (c1 := mkCol (k_name c) (k_max c) (k_reverse c) (k_labels c) (k_votes c) (Some s') (k_n c)).
    pose proof (vote_rows_step b rows c1 I) as V. change (votes_of (b_mapping b) (b_zero b) (view c1)) with (votes_of (b_mapping b) (b_zero b) (view c)) in V.
    destruct (vote_all _ _ _ _ rows) as [v|e]; cbn [bind]; [|destruct (vote_rows best b c1 rows) as [c2 [y|]]; cbn [snd] in *; [exact V|discriminate]].
    destruct V as (c2 & EVR & I2 & V2). pose proof (vote_rows_kept b rows c1) as [(_ & KX & _) _]. rewrite EVR in *. cbn [fst] in KX. change (k_max c1) with (k_max c) in KX. eexists. split; [reflexivity|]. split; [exact I2|]. injection V2 as W1 W2 W3. cbn [c1 k_votes k_sums k_n] in *. split.
    - unfold view. cbn [k_votes k_sums k_n l_n]. rewrite W1, W2, W3, KX. f_equal. unfold rows. rewrite map_length, LL. reflexivity.
    - unfold get_sums. cbn [k_sums]. rewrite W2. unfold s'. clearbody rows. revert RL SL. generalize (get_sums b c). clear. induction rows as [|r rows IH]; intros s RL SL; [exact SL|]. cbn [fold_left]. apply IH; [intros; apply RL; right; assumption|]. unfold vadd. rewrite map_length, combine_length, SL, (RL r (or_introl eq_refl)). lia.
  Qed.

  (** ** Merging *)

  (** Which labels of a column a comparison sees *)
  Definition labels_now (b : labeler) (c : col) : list L :=
    match k_labels c with Some l => l | None => map snd (sort_keys match k_reverse c with Some r => r | None => reverse_mapping (b_mapping b) (b_zero b) end) end.
  Lemma labels_now_get (b : labeler) c : fst (get_labels b c) = labels_now b c.
  Proof. unfold get_labels, labels_now, get_reverse. destruct (k_labels c); [reflexivity|]. destruct (k_reverse c); reflexivity. Qed.

  Lemma same_labels_spec (a : list L) : forall b, Bool.reflect (a = b) (same_labels a b).
  Proof.
    induction a as [|x a IH]; intros [|y b]; cbn [same_labels]; try (constructor; congruence). destruct (PyDict.eqb_spec x y) as [->|N]; cbn [andb]; [|constructor; congruence]. destruct (IH b) as [->|N]; constructor; congruence.
  Qed.

  (** Columns can be merged exactly if their labelers are equal, their limits, labels and names are the same,
      and both have no data, or both have votes and equally many average confidences. *)
  Theorem C113_merge same order (b1 b2 : labeler) c1 c2 :
    let r := fst (fst (add same order b1 b2 c1 c2)) in
    ((exists c, r = Ok c) <-> same = true /\ k_max c1 = k_max c2 /\ labels_now b1 c1 = labels_now b2 c2 /\ k_name c1 = k_name c2 /\
       ((k_n c1 = 0 /\ k_n c2 = 0) \/ (k_votes c1 <> None /\ k_votes c2 <> None /\ exists s1 s2, k_sums c1 = Some s1 /\ k_sums c2 = Some s2 /\ length s1 = length s2))) /\
    (same = false \/ k_max c1 <> k_max c2 -> r = Err AttributeError) /\
    (same = true -> k_max c1 = k_max c2 -> labels_now b1 c1 <> labels_now b2 c2 -> r = Err ValueError) /\
    (forall c, r = Ok c -> k_n c = k_n c1 + k_n c2 /\ k_max c = k_max c1 /\ k_name c = k_name c1 /\ k_labels c = Some (labels_now b1 c1)).
  Proof.
    cbv zeta. unfold add. destruct same; cbn [negb orb]; [|split; [split; [intros [c H]; discriminate|intros [H _]; discriminate]|split; [reflexivity|split; [discriminate|discriminate]]]].
    destruct (Nat.eqb_spec (k_max c1) (k_max c2)) as [EM|EM]; cbn [negb]; [|split; [split; [intros [c H]; discriminate|intros (_ & H & _); contradiction]|split; [reflexivity|split; [contradiction|discriminate]]]].
    pose proof (labels_now_get b1 c1) as N1. pose proof (get_labels_spec b1 c1) as G1. destruct (get_labels b1 c1) as [l1 d1]. cbn [fst] in N1. subst l1. destruct G1 as ((A1 & A2 & A3 & _) & A4 & A5 & A6).
    pose proof (labels_now_get b2 c2) as N2. pose proof (get_labels_spec b2 c2) as G2. destruct (get_labels b2 c2) as [l2 d2]. cbn [fst] in N2. subst l2. destruct G2 as ((B1 & B2 & B3 & _) & B4 & B5 & B6).
    destruct (same_labels_spec (labels_now b1 c1) (labels_now b2 c2)) as [EL|EL]; cbn [negb]; [|split; [split; [intros [c H]; discriminate|intros (_ & _ & H & _); contradiction]|split; [intros [H|H]; [discriminate|contradiction]|split; [reflexivity|discriminate]]]].
    rewrite A1, A2, A3, A4, A5, A6, B1, B3, B5, B6.
    destruct (String.eqb_spec (k_name c1) (k_name c2)) as [EN|EN]; cbn [negb]; [|split; [split; [intros [c H]; discriminate|intros (_ & _ & _ & H & _); contradiction]|split; [intros [H|H]; [discriminate|contradiction]|split; [contradiction|discriminate]]]].
    split; [|split; [intros [H|H]; [discriminate|contradiction]|split; [contradiction|]]].
    - destruct (Nat.eqb_spec (k_n c1) 0) as [Z1|Z1], (Nat.eqb_spec (k_n c2) 0) as [Z2|Z2]; cbn [andb].
      { split; [intros _; repeat (split; [assumption||reflexivity|]); left; auto|intros _; eexists; reflexivity]. }
      all: destruct (k_votes c1) as [v1|] eqn:V1, (k_votes c2) as [v2|] eqn:V2; try (split; [intros [c H]; discriminate|intros (_ & _ & _ & _ & [H|(H1 & H2 & _)]); [lia|congruence]]);
        destruct (k_sums c1) as [s1|] eqn:S1, (k_sums c2) as [s2|] eqn:S2; try (split; [intros [c H]; discriminate|intros (_ & _ & _ & _ & [H|(_ & _ & t1 & t2 & H1 & H2 & _)]); [lia|congruence]]);
        (destruct (Nat.eqb_spec (length s1) (length s2)) as [ES|ES];
          [split; [intros _; repeat (split; [assumption||reflexivity|]); right; split; [discriminate|split; [discriminate|exists s1, s2; auto]]|intros _; eexists; reflexivity]
          |split; [intros [c H]; discriminate|intros (_ & _ & _ & _ & [H|(_ & _ & t1 & t2 & H1 & H2 & H3)]); [lia|congruence]]]).
    - intros c. destruct ((k_n c1 =? 0) && (k_n c2 =? 0)); [intros H; injection H as <-; cbn; auto|].
      destruct (k_votes c1), (k_votes c2); try discriminate. destruct (k_sums c1), (k_sums c2); try discriminate. destruct (_ =? _); [|discriminate]. intros H. injection H as <-. cbn. auto.
  Qed.
End Props.

(** ** Refuted expectations. Cells are numbers of labels; a labeler is certain of the label of a cell. *)
Definition eg_labeler (mapping : dict nat string) (num : nat) : labeler string nat :=
  mkLabeler mapping true num (fun x => map (fun i => if i =? x then 1%Q else 0%Q) (seq 0 num)).
Definition eg_old := eg_labeler [(0, "PAD"); (1, "A"); (2, "B")]%string 3.
Definition eg_new := eg_labeler [(0, "PAD"); (1, "X"); (2, "Y")]%string 3.
Definition eg_gap := eg_labeler [(0, "PAD"); (1, "A"); (3, "B")]%string 4.
Definition eg_update (b : labeler string nat) := update argmax (fun k l => firstn k l) b.
Definition eg_column : col string := fst (eg_update eg_old (new_col "c"%string None) [1]).

Lemma firstn_samples {X} : samples (fun k (l : list X) => firstn k l).
Proof. intros k l H. split; [rewrite firstn_length; lia|]. exists (skipn k l). rewrite firstn_skipn. reflexivity. Qed.

(** Reports use the labels of the labeler: a labeler that got other labels votes for the former ones. *)
Theorem C113_new_labels_refuted : exists c, eg_update eg_new eg_column [2] = (c, None) /\
  fst (representation eg_new c) = Some (Ok [("A"%string, 1 # 2); ("B"%string, 1 # 2)]) /\
  dget (b_mapping eg_new) 2 = Some "Y"%string.
Proof. eexists. split; [vm_compute; reflexivity|]. split; reflexivity. Qed.

(** A failed update changes no report: the average confidences have changed, here to a sum of 2. *)
Theorem C113_failed_refuted : exists c c', eg_update eg_gap (new_col "c"%string None) [1] = (c, None) /\ eg_update eg_gap c [2] = (c', Some KeyError) /\
  k_n c' = 1 /\ fst (averages eg_gap c) = Some [("A"%string, (0 + 1) / 1); ("B"%string, (0 + 0) / 1)]%Q /\
  fst (averages eg_gap c') = Some [("A"%string, (0 + 1 + 0) / 1); ("B"%string, (0 + 0 + 1) / 1)]%Q.
Proof. eexists. eexists. split; [vm_compute; reflexivity|]. split; [vm_compute; reflexivity|]. split; [reflexivity|]. split; reflexivity. Qed.

(** A merged column can be updated by the data that its operands accept: it takes the names of votes from the
    labeler anew. *)
Theorem C113_merged_update_refuted : exists c, fst (fst (add true (fun l => l) eg_old eg_old eg_column eg_column)) = Ok c /\
  snd (eg_update eg_new eg_column [2]) = None /\ snd (eg_update eg_new c [2]) = Some KeyError /\ snd (eg_update eg_old c [2]) = None.
Proof. eexists. split; [vm_compute; reflexivity|]. split; [reflexivity|]. split; reflexivity. Qed.

(** ** Examples *)
Example C113_example :
  samples (fun k (l : list nat) => firstn k l) /\
  (let c := new_col "c"%string (Some 2) : col string in
   labelled (fun k l => firstn k l) c [1; 2; 1; 2] = [1; 2] /\
   let '(c1, e) := eg_update eg_old c [1; 2; 1; 2] in
   e = None /\ k_n c1 = 2 /\ k_labels c1 = Some ["A"; "B"]%string /\ k_votes c1 = Some [("A", 1); ("B", 1)]%string) /\
  fst (fst (add true (fun l => l) eg_old eg_new eg_column (fst (eg_update eg_new (new_col "c"%string None) [1])))) = Err ValueError /\
  fst (fst (add false (fun l => l) eg_old eg_old eg_column eg_column)) = Err AttributeError /\
  fst (fst (add true (fun l => l) eg_old eg_old eg_column (new_col "c"%string None))) = Err TypeError.
Proof. split; [apply firstn_samples|]. vm_compute. repeat split. Qed.

Example C113_same_example : 0 < k_max eg_column /\ in_step eg_old eg_column /\ (forall x, length (b_predict eg_old x) = 3) /\ length (get_sums eg_old eg_column) = 2.
Proof. split; [vm_compute; lia|]. split; [split; right; reflexivity|]. split; [intros x; reflexivity|reflexivity]. Qed.

Print Assumptions C113_cells.
Print Assumptions C113_count.
Print Assumptions C113_names.
Print Assumptions C113_same.
Print Assumptions C113_merge.
