(** Lemmas about duplicate and unique rows. *)
From Coq Require Import QArith Permutation.
From Verif Require Import PyCommon PyDict ListFacts NullModel NullProofs RowModel.
Local Open Scope nat_scope.

(** ** Ghost state: what each profile was given *)
Record gprof {R} := mkG { g_opts : opts; g_rows : list R; g_live : bool }.
Arguments gprof R : clear implicits.
Arguments mkG {R}.

Definition counts (o : opts) : bool := o_rows o && o_unique o.

Definition same_opts (a b : opts) : bool :=
  Bool.eqb (o_rows a) (o_rows b) && Bool.eqb (o_unique a) (o_unique b) && hashing_eqb (o_method a) (o_method b).

Section Ghost.
  Context {R : Type}.

  Definition nonempty (l : list R) : bool := match l with [] => false | _ => true end.

  Definition mergeable (a b : gprof R) : bool :=
    nonempty (g_rows a) && nonempty (g_rows b) && same_opts (g_opts a) (g_opts b).

  (** A profile with a sketch is dead once it was the left operand of a merge. *)
  Definition kill (a : gprof R) : gprof R :=
    mkG (g_opts a) (g_rows a)
        (match o_method (g_opts a) with Hll => if counts (g_opts a) then false else g_live a | Full => g_live a end).

  Definition gexec (g : list (gprof R)) (c : cmd R) : list (gprof R) :=
    match c with
    | New o => g ++ [mkG o [] true]
    | Upd i data =>
        match nth_error g i with
        | Some a => set_nth g i (mkG (g_opts a) (g_rows a ++ data) (g_live a))
        | None => g
        end
    | Add i j =>
        match nth_error g i, nth_error g j with
        | Some a, Some b =>
            if mergeable a b then set_nth g i (kill a) ++ [mkG (g_opts a) (g_rows a ++ g_rows b) true] else g
        | _, _ => g
        end
    end.

  Definition given (cs : list (cmd R)) : list (gprof R) := fold_left gexec cs [].

  Definition alive (g : list (gprof R)) (i : nat) : Prop :=
    match nth_error g i with Some a => g_live a = true | None => True end.

  Definition uses_live (g : list (gprof R)) (c : cmd R) : Prop :=
    match c with New _ => True | Upd i _ => alive g i | Add i j => alive g i /\ alive g j end.

  (** No profile is used again after it was the left operand of a merge of sketches. *)
  Fixpoint careful_from (g : list (gprof R)) (cs : list (cmd R)) : Prop :=
    match cs with [] => True | c :: cs' => uses_live g c /\ careful_from (gexec g c) cs' end.
  Definition careful (cs : list (cmd R)) : Prop := careful_from [] cs.
End Ghost.

(** ** Lists *)
Lemma set_nth_length {X} (l : list X) i x : length (set_nth l i x) = length l.
Proof. revert i. induction l as [|y l IH]; intros [|i]; cbn; auto. Qed.

Lemma nth_error_set_nth {X} (l : list X) i k x :
  nth_error (set_nth l i x) k = if (i =? k) then match nth_error l k with Some _ => Some x | None => None end else nth_error l k.
Proof.
  revert i k. induction l as [|y l IH]; intros i k; cbn [set_nth].
  - destruct k; cbn; destruct (i =? _); reflexivity.
  - destruct i as [|i], k as [|k]; cbn [nth_error Nat.eqb]; try reflexivity. apply IH.
Qed.

Lemma nth_error_snoc {X} (l : list X) x k :
  nth_error (l ++ [x]) k = if k =? length l then Some x else nth_error l k.
Proof.
  revert k. induction l as [|y l IH]; intros [|k]; cbn; try reflexivity; [destruct k; reflexivity|apply IH].
Qed.

Lemma nth_error_ext {X} (l l' : list X) : (forall k, nth_error l k = nth_error l' k) -> l = l'.
Proof.
  revert l'. induction l as [|x l IH]; intros [|y l'] E; [reflexivity|specialize (E 0); discriminate|specialize (E 0); discriminate|].
  f_equal; [specialize (E 0); cbn in E; congruence|]. apply IH. intro k. exact (E (S k)).
Qed.

Lemma nth_error_lt {X} (l : list X) k x : nth_error l k = Some x -> k < length l.
Proof. intro E. apply nth_error_Some. congruence. Qed.

(** ** The sketch *)
Section Sketch.
  Context {R : Type}.
  Variable registers : nat.
  Variable register : R -> nat.
  Variable rank : R -> nat.

  (** The sketch of a collection of rows: each register holds the largest rank of its records. *)
  Definition sketch (rows : list R) : list nat :=
    map (fun i => list_max (map rank (filter (fun r => register r =? i) rows))) (seq 0 registers).

  Lemma sketch_nil : sketch [] = repeat 0 registers.
  Proof.
    unfold sketch. generalize 0 at 1. induction registers as [|n IH]; intro k; cbn; [reflexivity|].
    f_equal. apply IH.
  Qed.

  Lemma bump_map (f : nat -> nat) i v : forall n s,
    bump (map f (seq s n)) i v = map (fun k => if k =? s + i then Nat.max (f k) v else f k) (seq s n).
  Proof.
    intro n. revert i. induction n as [|n IH]; intros i s; [destruct i; reflexivity|].
    cbn [seq map]. destruct i as [|i]; cbn [bump].
    - rewrite Nat.add_0_r, Nat.eqb_refl. f_equal. apply map_ext_in. intros k Hk. apply in_seq in Hk.
      destruct (Nat.eqb_spec k s); [lia|reflexivity].
    - rewrite IH. destruct (Nat.eqb_spec s (s + S i)); [lia|]. f_equal. apply map_ext. intro k.
      replace (S s + i) with (s + S i) by lia. reflexivity.
  Qed.

  Lemma list_max_snoc l x : list_max (l ++ [x]) = Nat.max (list_max l) x.
  Proof. rewrite list_max_app. change (list_max [x]) with (Nat.max x 0). lia. Qed.

  Lemma sketch_snoc rows r : hll_add register rank (sketch rows) r = sketch (rows ++ [r]).
  Proof.
    unfold hll_add, sketch. rewrite bump_map. apply map_ext. intro k. cbn [Nat.add].
    rewrite filter_app. cbn [filter]. rewrite (Nat.eqb_sym (register r) k).
    destruct (k =? register r); cbn [app]; [|rewrite app_nil_r; reflexivity].
    rewrite map_app. cbn [map]. rewrite list_max_snoc. reflexivity.
  Qed.

  Lemma sketch_fold : forall data rows, fold_left (hll_add register rank) data (sketch rows) = sketch (rows ++ data).
  Proof.
    induction data as [|r data IH]; intro rows; cbn [fold_left]; [rewrite app_nil_r; reflexivity|].
    rewrite sketch_snoc, IH, <- app_assoc. reflexivity.
  Qed.

  Lemma hll_merge_map (f g : nat -> nat) : forall l, hll_merge (map f l) (map g l) = map (fun k => Nat.max (f k) (g k)) l.
  Proof. induction l as [|k l IH]; cbn; [reflexivity|]. f_equal. exact IH. Qed.

  Lemma sketch_merge a b : hll_merge (sketch a) (sketch b) = sketch (a ++ b).
  Proof.
    unfold sketch. rewrite hll_merge_map. apply map_ext. intro k. rewrite filter_app, map_app, list_max_app. reflexivity.
  Qed.

  Lemma skipn_split (data : list R) B b : b * B < length data ->
    skipn (b * B) data = slice data (b * B) (Nat.min ((b + 1) * B) (length data)) ++ skipn ((b + 1) * B) data.
  Proof.
    intro L. unfold slice. replace ((b + 1) * B) with (b * B + B) by lia. rewrite <- skipn_skipn.
    rewrite <- (firstn_skipn B (skipn (b * B) data)) at 1. f_equal.
    destruct (Nat.le_gt_cases (b * B + B) (length data)) as [H|H].
    - rewrite Nat.min_l by lia. f_equal. lia.
    - rewrite Nat.min_r by lia. rewrite !firstn_all2; [reflexivity| |]; rewrite skipn_length; lia.
  Qed.

  Lemma hll_batches_all (data : list R) : forall n b regs, length data < (b + n) * hll_chunk ->
    hll_batches register rank (seq b n) data regs = fold_left (hll_add register rank) (skipn (b * hll_chunk) data) regs.
  Proof.
    induction n as [|n IH]; intros b regs L; cbn [seq hll_batches].
    - rewrite skipn_all2; [reflexivity|]. lia.
    - destruct (Nat.leb_spec (length data) (b * hll_chunk)) as [H|H].
      + rewrite skipn_all2 by exact H. reflexivity.
      + rewrite IH by lia. rewrite (skipn_split data hll_chunk b H), fold_left_app. replace (b + 1) with (S b) by lia. reflexivity.
  Qed.

  Lemma hll_batches_spec (data rows : list R) :
    hll_batches register rank (seq 0 (length data / hll_chunk + 1)) data (sketch rows) = sketch (rows ++ data).
  Proof.
    rewrite hll_batches_all; [rewrite Nat.mul_0_l; cbn [skipn]; apply sketch_fold|].
    assert (C : hll_chunk <> 0) by (unfold hll_chunk; lia).
    pose proof (Nat.mul_succ_div_gt (length data) hll_chunk C). rewrite Nat.add_0_l, Nat.mul_comm.
    replace (length data / hll_chunk + 1) with (S (length data / hll_chunk)) by lia. exact H.
  Qed.
End Sketch.

(** ** The invariant *)
Section Inv.
  Context {R H : Type} {EH : EqDecB H}.
  Variable hash : R -> H.
  Variable registers : nat.
  Variable register : R -> nat.
  Variable rank : R -> nat.

  Notation exec := (exec hash registers register rank).
  Notation run := (run hash registers register rank).
  Notation sketch := (sketch registers register rank).

  (** Object [ob] represents the rows. *)
  Definition holds (o : opts) (rows : list R) (ob : obj H) : Prop :=
    match o_method o, ob with
    | Full, ODict d => NoDup d /\ forall x, In x d <-> In x (map hash rows)
    | Hll, OHll regs => regs = sketch rows
    | _, _ => False
    end.

  Definition method_of (ob : obj H) : hashing := match ob with ODict _ => Full | OHll _ => Hll end.

  (** [tr k]: profile [k] is tracked. *)
  Definition inv (tr : nat -> bool) (w : world H) (g : list (gprof R)) : Prop :=
    length (profs w) = length g /\
    (forall k p a, nth_error (profs w) k = Some p -> nth_error g k = Some a ->
       p_opts p = g_opts a /\ p_total p = length (g_rows a) /\
       exists ob, nth_error (heap w) (p_ref p) = Some ob /\ method_of ob = o_method (p_opts p) /\
         (tr k = true -> counts (p_opts p) = true -> holds (g_opts a) (g_rows a) ob)) /\
    (forall k k' p p', nth_error (profs w) k = Some p -> nth_error (profs w) k' = Some p' -> k <> k' ->
       tr k = true -> counts (p_opts p) = true -> tr k' = true -> counts (p_opts p') = true -> p_ref p <> p_ref p').

  Lemma holds_feed o rows ob data : holds o rows ob -> holds o (rows ++ data) (feed hash register rank ob data).
  Proof.
    unfold holds. destruct (o_method o), ob as [d|r]; cbn [feed]; try tauto.
    - intros [Nd I]. split; [apply supdate_NoDup; exact Nd|]. intro x. rewrite supdate_In, I, map_app, in_app_iff. tauto.
    - intros ->. apply hll_batches_spec.
  Qed.

  Lemma method_feed ob data : method_of (feed hash register rank ob data) = method_of ob.
  Proof. destruct ob; reflexivity. Qed.

  Lemma holds_new o : holds o [] (new_obj registers o).
  Proof.
    unfold holds, new_obj. destruct (o_method o); cbn.
    - split; [constructor|tauto].
    - symmetry. apply sketch_nil.
  Qed.

  Lemma method_new o : method_of (new_obj (H:=H) registers o) = o_method o.
  Proof. unfold new_obj. destruct (o_method o); reflexivity. Qed.

  Lemma inv_new tr w g o : inv tr w g ->
    inv (fun k => if k =? length g then true else tr k) (do_new registers w o) (g ++ [mkG o [] true]).
  Proof.
    intros [L [C D]]. unfold do_new. split; [cbn; rewrite !app_length; cbn; lia|]. cbn [profs heap]. split.
    - intros k p a Hp Ha. rewrite nth_error_snoc in Hp. rewrite nth_error_snoc in Ha. rewrite L in Hp.
      destruct (Nat.eqb_spec k (length g)) as [->|N].
      + injection Hp as <-. injection Ha as <-. cbn. split; [reflexivity|]. split; [reflexivity|].
        exists (new_obj registers o). rewrite nth_error_snoc, Nat.eqb_refl. split; [reflexivity|]. split; [apply method_new|].
        intros _ _. apply holds_new.
      + destruct (C k p a Hp Ha) as [C1 [C2 [ob [C3 [C4 C5]]]]]. split; [exact C1|]. split; [exact C2|].
        exists ob. rewrite nth_error_snoc. pose proof (nth_error_lt _ _ _ C3).
        destruct (Nat.eqb_spec (p_ref p) (length (heap w))); [lia|]. auto.
    - assert (Ref : forall k p, nth_error (profs w) k = Some p -> p_ref p < length (heap w)).
      { intros k p Hp. destruct (nth_error g k) as [a|] eqn:Ea.
        - destruct (C k p a Hp Ea) as [_ [_ [ob [C3 _]]]]. exact (nth_error_lt _ _ _ C3).
        - apply nth_error_None in Ea. apply nth_error_lt in Hp. lia. }
      intros k k' p p' Hp Hp' N T1 T2 T3 T4. rewrite nth_error_snoc in Hp. rewrite nth_error_snoc in Hp'. rewrite L in Hp, Hp'.
      destruct (Nat.eqb_spec k (length g)) as [->|N1], (Nat.eqb_spec k' (length g)) as [->|N2].
      + congruence.
      + injection Hp as <-. cbn. apply Ref in Hp'. lia.
      + injection Hp' as <-. cbn. apply Ref in Hp. lia.
      + exact (D k k' p p' Hp Hp' N T1 T2 T3 T4).
  Qed.

  Lemma inv_upd tr w g i data : inv tr w g ->
    (forall k p pi, nth_error (profs w) k = Some p -> nth_error (profs w) i = Some pi -> tr i = false ->
       tr k = true -> counts (p_opts p) = true -> counts (p_opts pi) = true -> p_ref p <> p_ref pi) ->
    inv tr (do_upd hash register rank w i data) (gexec g (Upd i data)).
  Proof.
    intros [L [C D]] F. unfold do_upd. cbn [gexec].
    destruct (nth_error (profs w) i) as [pi|] eqn:Epi.
    2:{ assert (E : nth_error g i = None) by (apply nth_error_None; apply nth_error_None in Epi; lia).
        rewrite E. split; auto. }
    destruct (nth_error g i) as [ai|] eqn:Eai.
    2:{ apply nth_error_None in Eai. apply nth_error_lt in Epi. lia. }
    destruct data as [|x data].
    { replace (set_nth g i (mkG (g_opts ai) (g_rows ai ++ []) (g_live ai))) with g; [split; auto|].
      rewrite app_nil_r. apply nth_error_ext. intro k. rewrite nth_error_set_nth.
      destruct (Nat.eqb_spec i k) as [<-|N]; [|reflexivity]. rewrite Eai. destruct ai; reflexivity. }
    remember (x :: data) as dt eqn:Edt. clear Edt x data.
    destruct (C i pi ai Epi Eai) as [Ci1 [Ci2 [obi [Ci3 [Ci4 Ci5]]]]].
    fold (counts (p_opts pi)). rewrite Ci3. cbv zeta.
    set (h' := if counts (p_opts pi) then set_nth (heap w) (p_ref pi) (feed hash register rank obi dt) else heap w).
    split; [cbn; rewrite !set_nth_length; exact L|]. cbn [profs heap]. split.
    - intros k p a Hp Ha. rewrite nth_error_set_nth in Hp. rewrite nth_error_set_nth in Ha.
      destruct (Nat.eqb_spec i k) as [<-|N].
      + rewrite Epi in Hp. rewrite Eai in Ha. injection Hp as <-. injection Ha as <-. cbn [p_opts p_total p_ref g_opts g_rows].
        split; [exact Ci1|]. split; [rewrite app_length; lia|]. unfold h'. destruct (counts (p_opts pi)) eqn:Ec.
        * exists (feed hash register rank obi dt). rewrite nth_error_set_nth, Nat.eqb_refl, Ci3. split; [reflexivity|].
          split; [rewrite method_feed; exact Ci4|]. intros T _. apply holds_feed. auto.
        * exists obi. split; [exact Ci3|]. split; [exact Ci4|]. discriminate.
      + destruct (C k p a Hp Ha) as [C1 [C2 [ob [C3 [C4 C5]]]]]. split; [exact C1|]. split; [exact C2|].
        unfold h'. destruct (counts (p_opts pi)) eqn:Ec; [|exists ob; auto].
        rewrite nth_error_set_nth, C3. destruct (Nat.eqb_spec (p_ref pi) (p_ref p)) as [E|Nr]; [|exists ob; auto].
        exists (feed hash register rank obi dt). split; [reflexivity|]. split.
        * rewrite method_feed. rewrite E in Ci3. congruence.
        * intros T1 T2. exfalso. destruct (tr i) eqn:Ti.
          -- apply (D i k pi p Epi Hp N Ti Ec T1 T2 E).
          -- apply (F k p pi Hp eq_refl eq_refl T1 T2 Ec). auto.
    - assert (G : forall k p, nth_error (set_nth (profs w) i (mkProf (p_opts pi) (p_total pi + length dt) (p_ref pi))) k = Some p ->
        exists p0, nth_error (profs w) k = Some p0 /\ p_opts p0 = p_opts p /\ p_ref p0 = p_ref p).
      { intros k p Hp. rewrite nth_error_set_nth in Hp. destruct (Nat.eqb_spec i k) as [<-|N]; [|eauto].
        rewrite Epi in Hp. injection Hp as <-. exists pi. auto. }
      intros k k' p p' Hp Hp' N T1 T2 T3 T4. apply G in Hp, Hp'. destruct Hp as [q [Q1 [Q2 Q3]]], Hp' as [q' [Q1' [Q2' Q3']]].
      rewrite <- Q3, <- Q3'. apply (D k k' q q'); congruence.
  Qed.

  Lemma hashing_eqb_eq a b : hashing_eqb a b = true -> a = b.
  Proof. destruct a, b; cbn; congruence. Qed.

  Lemma same_opts_eq a b : same_opts a b = true <-> a = b.
  Proof.
    unfold same_opts. split.
    - intro E. apply andb_prop in E. destruct E as [E E3]. apply andb_prop in E. destruct E as [E1 E2].
      apply eqb_prop in E1, E2. apply hashing_eqb_eq in E3. destruct a, b. cbn in *. congruence.
    - intros ->. rewrite !eqb_reflx. destruct (o_method b); reflexivity.
  Qed.

  Lemma add_check_mergeable (a b : prof) (ga gb : gprof R) :
    p_opts a = g_opts ga -> p_total a = length (g_rows ga) -> p_opts b = g_opts gb -> p_total b = length (g_rows gb) ->
    add_check a b = mergeable ga gb.
  Proof.
    intros E1 E2 E3 E4. unfold add_check, mergeable, same_opts. rewrite E1, E2, E3, E4, !andb_assoc.
    destruct (g_rows ga), (g_rows gb); reflexivity.
  Qed.

  Definition shares (o : opts) : bool := match o_method o with Hll => counts o | Full => false end.

  (** Tracked after a merge of [i] into a new profile. *)
  Definition tr_add (tr : nat -> bool) (n i : nat) (o : opts) (new : bool) (k : nat) : bool :=
    if k =? n then new else if (k =? i) && shares o then false else tr k.

  Lemma inv_add tr w g i j ga gb new : inv tr w g ->
    nth_error g i = Some ga -> nth_error g j = Some gb -> mergeable ga gb = true ->
    (new = true -> counts (g_opts ga) = true -> tr i = true /\ tr j = true) ->
    (forall k p pi, nth_error (profs w) k = Some p -> nth_error (profs w) i = Some pi -> tr i = false ->
       tr k = true -> counts (p_opts p) = true -> shares (p_opts pi) = true -> p_ref p <> p_ref pi) ->
    inv (tr_add tr (length g) i (g_opts ga) new) (fst (do_add registers w i j)) (gexec g (Add i j)).
  Proof.
    intros [L [C D]] Ega Egb M New F. cbn [gexec]. rewrite Ega, Egb, M. unfold do_add.
    destruct (nth_error (profs w) i) as [a|] eqn:Ea.
    2:{ apply nth_error_None in Ea. apply nth_error_lt in Ega. lia. }
    destruct (nth_error (profs w) j) as [b|] eqn:Eb.
    2:{ apply nth_error_None in Eb. apply nth_error_lt in Egb. lia. }
    destruct (C i a ga Ea Ega) as [A1 [A2 [oa [A3 [A4 A5]]]]]. destruct (C j b gb Eb Egb) as [B1 [B2 [ob [B3 [B4 B5]]]]].
    rewrite (add_check_mergeable a b ga gb) by assumption. rewrite M. cbn [negb heap].
    assert (Eo : g_opts gb = g_opts ga).
    { unfold mergeable in M. apply andb_prop in M. destruct M as [_ M]. apply same_opts_eq in M. congruence. }
    assert (Ref : forall k p, nth_error (profs w) k = Some p -> p_ref p < length (heap w)).
    { intros k p Hp. destruct (nth_error g k) as [x|] eqn:Ex.
      - destruct (C k p x Hp Ex) as [_ [_ [o [C3 _]]]]. exact (nth_error_lt _ _ _ C3).
      - apply nth_error_None in Ex. apply nth_error_lt in Hp. lia. }
    pose proof (Ref _ _ Ea) as La. pose proof (Ref _ _ Eb) as Lb.
    assert (Old : forall r, r < length (heap w) -> nth_error (heap w ++ [new_obj registers (p_opts a)]) r = nth_error (heap w) r).
    { intros r Hr. apply nth_error_app1. exact Hr. }
    assert (Hk : nth_error (heap w ++ [new_obj registers (p_opts a)]) (length (heap w)) = Some (new_obj registers (p_opts a))).
    { rewrite nth_error_snoc, Nat.eqb_refl. reflexivity. }
    rewrite (Old _ La), (Old _ Lb), A3, B3, Hk. fold (counts (p_opts a)).
    assert (Gk : forall k x, nth_error (set_nth g i (kill ga) ++ [mkG (g_opts ga) (g_rows ga ++ g_rows gb) true]) k = Some x ->
        if k =? length g then x = mkG (g_opts ga) (g_rows ga ++ g_rows gb) true
        else exists y, nth_error g k = Some y /\ g_opts y = g_opts x /\ g_rows y = g_rows x).
    { intros k x Hx. rewrite nth_error_snoc, set_nth_length in Hx. destruct (k =? length g); [congruence|].
      rewrite nth_error_set_nth in Hx. destruct (Nat.eqb_spec i k) as [<-|N]; [|eauto].
      rewrite Ega in Hx. injection Hx as <-. exists ga. auto. }
    assert (Main : forall h r newob,
      nth_error h r = Some newob -> method_of newob = o_method (p_opts a) ->
      (new = true -> counts (p_opts a) = true -> holds (g_opts ga) (g_rows ga ++ g_rows gb) newob) ->
      (forall k p o, nth_error (profs w) k = Some p -> nth_error (heap w) (p_ref p) = Some o ->
         exists o', nth_error h (p_ref p) = Some o' /\ method_of o' = method_of o /\
           (tr_add tr (length g) i (g_opts ga) new k = true -> counts (p_opts p) = true -> o' = o)) ->
      (forall k p, nth_error (profs w) k = Some p -> tr_add tr (length g) i (g_opts ga) new k = true ->
         counts (p_opts p) = true -> counts (p_opts a) = true -> new = true -> p_ref p <> r) ->
      inv (tr_add tr (length g) i (g_opts ga) new) (mkWorld h (profs w ++ [mkProf (p_opts a) (p_total a + p_total b) r]))
          (set_nth g i (kill ga) ++ [mkG (g_opts ga) (g_rows ga ++ g_rows gb) true])).
    { intros h r newob H1 H2 H3 H4 H5. split; [cbn; rewrite !app_length, set_nth_length; cbn; lia|]. cbn [profs heap]. split.
      - intros k p x Hp Hx. apply Gk in Hx. rewrite nth_error_snoc in Hp. rewrite L in Hp.
        destruct (Nat.eqb_spec k (length g)) as [->|N].
        + injection Hp as <-. subst x. cbn [p_opts p_total p_ref g_opts g_rows]. split; [exact A1|].
          split; [rewrite app_length; lia|]. exists newob. split; [exact H1|]. split; [exact H2|].
          unfold tr_add. rewrite Nat.eqb_refl. exact H3.
        + destruct Hx as [y [Y1 [Y2 Y3]]]. destruct (C k p y Hp Y1) as [C1 [C2 [o [C3 [C4 C5]]]]].
          rewrite <- Y2, <- Y3. split; [exact C1|]. split; [exact C2|]. destruct (H4 k p o Hp C3) as [o' [O1 [O2 O3]]].
          exists o'. split; [exact O1|]. split; [congruence|]. intros T1 T2. rewrite (O3 T1 T2). apply C5; [|exact T2].
          unfold tr_add in T1. destruct (k =? length g) eqn:E; [apply Nat.eqb_eq in E; contradiction|].
          destruct ((k =? i) && shares (g_opts ga)); [discriminate|exact T1].
      - assert (Tk : forall k, k <> length g -> tr_add tr (length g) i (g_opts ga) new k = true -> tr k = true).
        { intros k N T. unfold tr_add in T. apply Nat.eqb_neq in N. rewrite N in T.
          destruct ((k =? i) && shares (g_opts ga)); [discriminate|exact T]. }
        intros k k' p p' Hp Hp' N T1 T2 T3 T4. rewrite nth_error_snoc in Hp. rewrite nth_error_snoc in Hp'.
        rewrite L in Hp, Hp'.
        destruct (Nat.eqb_spec k (length g)) as [->|N1], (Nat.eqb_spec k' (length g)) as [->|N2].
        + congruence.
        + injection Hp as <-. cbn in *. unfold tr_add in T1. rewrite Nat.eqb_refl in T1.
          pose proof (H5 k' p' Hp' T3 T4 T2 T1). congruence.
        + injection Hp' as <-. cbn in *. unfold tr_add in T3. rewrite Nat.eqb_refl in T3. apply (H5 k p Hp T1 T2 T4 T3).
        + apply (D k k' p p' Hp Hp' N); auto. }
    assert (Fresh : forall k p, nth_error (profs w) k = Some p -> p_ref p <> length (heap w)).
    { intros k p Hp. apply Ref in Hp. lia. }
    destruct (counts (p_opts a)) eqn:Ec.
    - destruct (o_method (p_opts a)) eqn:Em.
      + (* dictionaries *)
        destruct oa as [d1|]; [|discriminate A4].
        destruct ob as [d2|]; [|rewrite B1, Eo, <- A1, Em in B4; discriminate B4].
        unfold new_obj. rewrite Em. cbn [fst]. eapply Main.
        * rewrite nth_error_set_nth, Nat.eqb_refl, nth_error_snoc, Nat.eqb_refl. reflexivity.
        * reflexivity.
        * intros Nt _. destruct (New Nt) as [Ti Tj]; [congruence|]. specialize (A5 Ti eq_refl).
          assert (Cb : counts (p_opts b) = true) by congruence. specialize (B5 Tj Cb).
          rewrite Eo in B5. unfold holds in *. rewrite <- A1, Em in *. destruct A5 as [_ I1], B5 as [_ I2]. split.
          -- apply supdate_NoDup, supdate_NoDup. constructor.
          -- intro x. rewrite !supdate_In, I1, I2, map_app, in_app_iff. cbn. tauto.
        * intros k p o Hp Ho. exists o. rewrite nth_error_set_nth. pose proof (Fresh k p Hp).
          destruct (Nat.eqb_spec (length (heap w)) (p_ref p)); [congruence|]. rewrite nth_error_app1 by (eapply Ref; exact Hp). auto.
        * intros k p Hp _ _ _ _. exact (Fresh k p Hp).
      + (* sketches *)
        destruct oa as [|r1]; [discriminate A4|].
        destruct ob as [|r2]; [rewrite B1, Eo, <- A1, Em in B4; discriminate B4|].
        cbn [fst]. assert (Sh : shares (g_opts ga) = true) by (unfold shares; rewrite <- A1, Em; exact Ec).
        assert (Alias : forall k p, nth_error (profs w) k = Some p -> tr_add tr (length g) i (g_opts ga) new k = true ->
           counts (p_opts p) = true -> p_ref p <> p_ref a).
        { intros k p Hp T Cp. unfold tr_add in T. rewrite Sh, andb_true_r in T.
          assert (N : k <> length g) by (apply nth_error_lt in Hp; lia). apply Nat.eqb_neq in N. rewrite N in T.
          destruct (Nat.eqb_spec k i) as [|N']; [discriminate|]. destruct (tr i) eqn:Ti.
          - apply (D k i p a Hp Ea N' T Cp Ti Ec).
          - apply (F k p a Hp eq_refl eq_refl T Cp). rewrite A1. exact Sh. }
        eapply Main.
        * rewrite nth_error_set_nth, Nat.eqb_refl, (Old _ La), A3. reflexivity.
        * first [reflexivity|rewrite Em; reflexivity].
        * intros Nt _. destruct (New Nt) as [Ti Tj]; [congruence|]. specialize (A5 Ti eq_refl).
          assert (Cb : counts (p_opts b) = true) by congruence. specialize (B5 Tj Cb).
          rewrite Eo in B5. unfold holds in *. rewrite <- A1, Em in *. subst r1 r2. apply sketch_merge.
        * intros k p o Hp Ho. rewrite nth_error_set_nth. rewrite (Old _ (Ref _ _ Hp)), Ho.
          destruct (Nat.eqb_spec (p_ref a) (p_ref p)) as [E|N].
          -- eexists. split; [reflexivity|]. split.
             ++ rewrite <- E, A3 in Ho. injection Ho as <-. reflexivity.
             ++ intros T Cp. exfalso. apply (Alias k p Hp T Cp). auto.
          -- exists o. auto.
        * intros k p Hp T Cp _ _. apply (Alias k p Hp T Cp).
    - cbn [fst]. eapply Main.
      + exact Hk.
      + apply method_new.
      + discriminate.
      + intros k p o Hp Ho. exists o. rewrite (Old _ (Ref _ _ Hp)). auto.
      + intros k p Hp _ _ _ _. exact (Fresh k p Hp).
  Qed.

  Lemma add_fails tr w (g : list (gprof R)) i j : inv tr w g ->
    (match nth_error g i, nth_error g j with Some a, Some b => mergeable a b = false | _, _ => True end) ->
    fst (do_add registers w i j) = w /\ gexec g (Add i j) = g /\ snd (do_add registers w i j) <> None.
  Proof.
    intros [L [C D]] M. unfold do_add. cbn [gexec].
    destruct (nth_error (profs w) i) as [a|] eqn:Ea.
    2:{ assert (E : nth_error g i = None) by (apply nth_error_None; apply nth_error_None in Ea; lia).
        rewrite E. repeat split; discriminate. }
    destruct (nth_error g i) as [ga|] eqn:Ega; [|apply nth_error_None in Ega; apply nth_error_lt in Ea; lia].
    destruct (nth_error (profs w) j) as [b|] eqn:Eb.
    2:{ assert (E : nth_error g j = None) by (apply nth_error_None; apply nth_error_None in Eb; lia).
        rewrite E. repeat split; discriminate. }
    destruct (nth_error g j) as [gb|] eqn:Egb; [|apply nth_error_None in Egb; apply nth_error_lt in Eb; lia].
    destruct (C i a ga Ea Ega) as [A1 [A2 _]]. destruct (C j b gb Eb Egb) as [B1 [B2 _]].
    rewrite (add_check_mergeable a b ga gb) by assumption. rewrite M. cbn. repeat split. discriminate.
  Qed.

  Lemma inv_weaken (tr tr' : nat -> bool) w g : (forall k, k < length g -> tr' k = true -> tr k = true) -> inv tr w g -> inv tr' w g.
  Proof.
    intros E [L [C D]]. split; [exact L|]. split.
    - intros k p a Hp Ha. destruct (C k p a Hp Ha) as [C1 [C2 [ob [C3 [C4 C5]]]]]. split; [exact C1|]. split; [exact C2|].
      exists ob. split; [exact C3|]. split; [exact C4|]. intro T. apply C5. apply E; [eapply nth_error_lt; exact Ha|exact T].
    - intros k k' p p' Hp Hp' N T1 T2 T3 T4. apply (D k k' p p' Hp Hp' N); auto; apply E; auto; rewrite <- L; eapply nth_error_lt; eassumption.
  Qed.

  (** *** Dictionaries: every program *)
  Definition is_full (g : list (gprof R)) (k : nat) : bool :=
    match nth_error g k with Some a => hashing_eqb (o_method (g_opts a)) Full | None => false end.

  (** A sketch is never shared with a dictionary. *)
  Lemma kinds tr w g k p i pi : inv tr w g -> nth_error (profs w) k = Some p -> nth_error (profs w) i = Some pi ->
    o_method (p_opts p) <> o_method (p_opts pi) -> p_ref p <> p_ref pi.
  Proof.
    intros [L [C D]] Hp Hi N E.
    destruct (nth_error g k) as [a|] eqn:Ea; [|apply nth_error_None in Ea; apply nth_error_lt in Hp; lia].
    destruct (nth_error g i) as [b|] eqn:Eb; [|apply nth_error_None in Eb; apply nth_error_lt in Hi; lia].
    destruct (C k p a Hp Ea) as [_ [_ [o [O1 [O2 _]]]]]. destruct (C i pi b Hi Eb) as [_ [_ [o' [O1' [O2' _]]]]].
    rewrite E in O1. congruence.
  Qed.

  Lemma inv_opts tr w g k p a : inv tr w g -> nth_error (profs w) k = Some p -> nth_error g k = Some a -> p_opts p = g_opts a.
  Proof. intros [_ [C _]] Hp Ha. apply (C k p a Hp Ha). Qed.

  Lemma inv_prof tr w g k a : inv tr w g -> nth_error g k = Some a -> exists p, nth_error (profs w) k = Some p.
  Proof.
    intros [L _] Ha. destruct (nth_error (profs w) k) as [p|] eqn:E; [eauto|].
    apply nth_error_None in E. apply nth_error_lt in Ha. lia.
  Qed.

  Lemma is_full_gexec g c k : k < length g -> is_full (gexec g c) k = is_full g k.
  Proof.
    intro Hk. unfold is_full. destruct c as [o|i data|i j]; cbn [gexec].
    - rewrite nth_error_app1 by exact Hk. reflexivity.
    - destruct (nth_error g i) as [a|] eqn:E; [|reflexivity]. rewrite nth_error_set_nth.
      destruct (Nat.eqb_spec i k) as [<-|]; [|reflexivity]. rewrite E. reflexivity.
    - destruct (nth_error g i) as [a|] eqn:E; [|reflexivity]. destruct (nth_error g j) as [b|]; [|reflexivity].
      destruct (mergeable a b); [|reflexivity]. rewrite nth_error_app1 by (rewrite set_nth_length; exact Hk).
      rewrite nth_error_set_nth. destruct (Nat.eqb_spec i k) as [<-|]; [|reflexivity]. rewrite E. reflexivity.
  Qed.

  Lemma gexec_upd_length (g : list (gprof R)) i data : length (gexec g (Upd i data)) = length g.
  Proof. cbn [gexec]. destruct (nth_error g i); [apply set_nth_length|reflexivity]. Qed.

  Lemma not_full_hll g k a : nth_error g k = Some a -> is_full g k = false -> o_method (g_opts a) = Hll.
  Proof. unfold is_full. intros ->. destruct (o_method (g_opts a)); cbn; congruence. Qed.

  Lemma full_full g k a : nth_error g k = Some a -> is_full g k = true -> o_method (g_opts a) = Full.
  Proof. unfold is_full. intros ->. destruct (o_method (g_opts a)); cbn; congruence. Qed.

  Lemma full_apart w g k p i pi : inv (is_full g) w g -> nth_error (profs w) k = Some p -> nth_error (profs w) i = Some pi ->
    is_full g i = false -> is_full g k = true -> p_ref p <> p_ref pi.
  Proof.
    intros I Hp Hi Fi Fk. apply (kinds _ _ _ k p i pi I Hp Hi). pose proof I as [L _].
    destruct (nth_error g k) as [a|] eqn:Ea; [|unfold is_full in Fk; rewrite Ea in Fk; discriminate].
    destruct (nth_error g i) as [b|] eqn:Eb; [|apply nth_error_None in Eb; apply nth_error_lt in Hi; lia].
    rewrite (inv_opts _ _ _ _ _ _ I Hp Ea), (inv_opts _ _ _ _ _ _ I Hi Eb), (full_full _ _ _ Ea Fk), (not_full_hll _ _ _ Eb Fi).
    discriminate.
  Qed.

  Lemma full_step w g c : inv (is_full g) w g -> inv (is_full (gexec g c)) (exec w c) (gexec g c).
  Proof.
    intro I. destruct c as [o|i data|i j]; cbn [RowModel.exec].
    - eapply inv_weaken; [|apply inv_new; exact I]. intros k Hk T. cbn beta.
      destruct (Nat.eqb_spec k (length g)) as [|N]; [reflexivity|]. rewrite <- T. symmetry. apply is_full_gexec.
      cbn in Hk. rewrite app_length in Hk. cbn in Hk. lia.
    - eapply inv_weaken; [|apply inv_upd; [exact I|]].
      + intros k Hk T. rewrite <- T. symmetry. apply is_full_gexec. rewrite gexec_upd_length in Hk. exact Hk.
      + intros k p pi Hp Hi Fi Fk _ _. eapply full_apart; eassumption.
    - destruct (nth_error g i) as [ga|] eqn:Ega;
        [|destruct (add_fails _ w g i j I) as [E1 [E2 _]]; [rewrite Ega; exact Logic.I|rewrite E1, E2; exact I]].
      destruct (nth_error g j) as [gb|] eqn:Egb;
        [|destruct (add_fails _ w g i j I) as [E1 [E2 _]]; [rewrite Ega, Egb; exact Logic.I|rewrite E1, E2; exact I]].
      destruct (mergeable ga gb) eqn:M;
        [|destruct (add_fails _ w g i j I) as [E1 [E2 _]]; [rewrite Ega, Egb; exact M|rewrite E1, E2; exact I]].
      eapply inv_weaken; [|eapply (inv_add _ w g i j ga gb (is_full g i)); [exact I|exact Ega|exact Egb|exact M| |]].
      + intros k Hk T. unfold tr_add. destruct (Nat.eqb_spec k (length g)) as [->|N].
        * unfold is_full in *. cbn [gexec] in T. rewrite Ega, Egb, M in T. rewrite nth_error_snoc, set_nth_length, Nat.eqb_refl in T.
          rewrite Ega. exact T.
        * assert (Hk' : k < length g).
          { cbn [gexec] in Hk. rewrite Ega, Egb, M, app_length, set_nth_length in Hk. cbn in Hk. lia. }
          rewrite is_full_gexec in T by exact Hk'. rewrite T. destruct (Nat.eqb_spec k i) as [->|]; [|reflexivity].
          unfold shares. rewrite (full_full _ _ _ Ega T). reflexivity.
      + intros Fi _. split; [exact Fi|]. unfold is_full in *. rewrite Ega in Fi. rewrite Egb.
        unfold mergeable in M. apply andb_prop in M. destruct M as [_ M]. apply (proj1 (same_opts_eq _ _)) in M. rewrite <- M. exact Fi.
      + intros k p pi Hp Hi Fi Fk _ _. eapply full_apart; eassumption.
  Qed.

  Lemma inv_init tr : inv tr (mkWorld [] []) [].
  Proof.
    split; [reflexivity|]. split.
    - intros [|k] p a Hp; discriminate.
    - intros [|k] k' p p' Hp; discriminate.
  Qed.

  Lemma full_run : forall cs, inv (is_full (given cs)) (run cs) (given cs).
  Proof.
    intro cs. unfold RowModel.run, given. generalize (inv_init (is_full [])). generalize (mkWorld (H:=H) [] []) (@nil (gprof R)).
    induction cs as [|c cs IH]; intros w g I; cbn [fold_left]; [exact I|]. apply IH. apply full_step. exact I.
  Qed.

  (** *** Careful programs *)
  Definition is_live (g : list (gprof R)) (k : nat) : bool :=
    match nth_error g k with Some a => g_live a | None => true end.

  Lemma alive_is_live g i : alive g i -> is_live g i = true.
  Proof. unfold alive, is_live. destruct (nth_error g i); auto. Qed.

  Lemma live_step w g c : inv (is_live g) w g -> uses_live g c -> inv (is_live (gexec g c)) (exec w c) (gexec g c).
  Proof.
    intros I U. destruct c as [o|i data|i j]; cbn [RowModel.exec uses_live] in *.
    - eapply inv_weaken; [|apply inv_new; exact I]. intros k Hk T. cbn beta.
      destruct (Nat.eqb_spec k (length g)) as [|N]; [reflexivity|]. unfold is_live in *. cbn [gexec] in T.
      rewrite nth_error_snoc in T. apply Nat.eqb_neq in N. rewrite N in T. exact T.
    - apply alive_is_live in U. eapply inv_weaken; [|apply inv_upd; [exact I|]].
      + intros k Hk T. unfold is_live in *. cbn [gexec] in T. destruct (nth_error g i) as [a|] eqn:E; [|exact T].
        rewrite nth_error_set_nth in T. destruct (Nat.eqb_spec i k) as [<-|]; [|exact T]. rewrite E in *. exact U.
      + intros k p pi _ _ Fi. congruence.
    - destruct U as [U1 U2]. apply alive_is_live in U1, U2.
      destruct (nth_error g i) as [ga|] eqn:Ega;
        [|destruct (add_fails _ w g i j I) as [E1 [E2 _]]; [rewrite Ega; exact Logic.I|rewrite E1, E2; exact I]].
      destruct (nth_error g j) as [gb|] eqn:Egb;
        [|destruct (add_fails _ w g i j I) as [E1 [E2 _]]; [rewrite Ega, Egb; exact Logic.I|rewrite E1, E2; exact I]].
      destruct (mergeable ga gb) eqn:M;
        [|destruct (add_fails _ w g i j I) as [E1 [E2 _]]; [rewrite Ega, Egb; exact M|rewrite E1, E2; exact I]].
      eapply inv_weaken; [|eapply (inv_add _ w g i j ga gb true); [exact I|exact Ega|exact Egb|exact M| |]].
      + intros k Hk T. unfold tr_add. destruct (Nat.eqb_spec k (length g)) as [->|N]; [reflexivity|].
        unfold is_live in T. cbn [gexec] in T. rewrite Ega, Egb, M in T. rewrite nth_error_snoc, set_nth_length in T.
        apply Nat.eqb_neq in N. rewrite N in T. rewrite nth_error_set_nth in T.
        destruct (Nat.eqb_spec k i) as [->|N'].
        * rewrite Nat.eqb_refl, Ega in T. unfold kill in T. cbn [g_live] in T. unfold shares.
          destruct (o_method (g_opts ga)); cbn [andb]; [exact U1|]. destruct (counts (g_opts ga)); [discriminate|exact U1].
        * cbn [andb]. destruct (Nat.eqb_spec i k); [congruence|]. unfold is_live. exact T.
      + auto.
      + intros k p pi _ _ Fi. congruence.
  Qed.

  Lemma live_run : forall cs, careful cs -> inv (is_live (given cs)) (run cs) (given cs).
  Proof.
    intro cs. unfold RowModel.run, given, careful. generalize (inv_init (is_live [])). generalize (mkWorld (H:=H) [] []) (@nil (gprof R)).
    induction cs as [|c cs IH]; intros w g I U; cbn [fold_left]; [exact I|]. destruct U as [U1 U2]. apply IH; [|exact U2].
    apply live_step; assumption.
  Qed.
End Inv.
