(** Property C32: label counts of free text. *)
From Coq Require Import QArith Lqa Permutation.
From Verif Require Import PyCommon PyDict ListFacts ULabelModel.
Local Open Scope nat_scope.

Section Counts.
  Context {L : Type} {EL : EqDecB L}.
  Implicit Types d e : dict L Z.

  Lemma zget_zadd d l z l' : zget (zadd d l z) l' = (zget d l' + if PyDict.eqb l l' then z else 0)%Z.
  Proof. unfold zadd. unfold zget at 1. rewrite dget_dset. destruct (PyDict.eqb_spec l l') as [->|]; [reflexivity|]. unfold zget. destruct (dget d l'); lia. Qed.

  Lemma zsum_from d z : fold_left (fun a kv => (a + snd kv)%Z) d z = (z + zsum d)%Z.
  Proof. unfold zsum. revert z. induction d as [|kv d IH]; intro z; cbn [fold_left]; [lia|]. rewrite (IH (z + snd kv)%Z), (IH (0 + snd kv)%Z). lia. Qed.
  Lemma zsum_cons l z d : zsum ((l, z) :: d) = (z + zsum d)%Z.
  Proof. unfold zsum at 1. cbn [fold_left snd]. rewrite zsum_from. lia. Qed.
  Lemma zsum_app d e : zsum (d ++ e) = (zsum d + zsum e)%Z.
  Proof. induction d as [|[l z] d IH]; [reflexivity|]. cbn [app]. rewrite !zsum_cons, IH. lia. Qed.

  Lemma zsum_zadd d l z : zsum (zadd d l z) = (zsum d + z)%Z.
  Proof.
    unfold zadd, zget. induction d as [|[l' z'] d IH]; cbn [dset dget].
    - rewrite zsum_cons. cbn. lia.
    - destruct (PyDict.eqb l' l); rewrite !zsum_cons; [lia|]. rewrite IH. lia.
  Qed.

  Lemma NoDup_zadd d l z : NoDup (dkeys d) -> NoDup (dkeys (zadd d l z)).
  Proof. apply NoDup_dset. Qed.

  Lemma zget_notin d l : ~ In l (dkeys d) -> zget d l = 0%Z.
  Proof. intro H. unfold zget. apply dget_None in H. rewrite H. reflexivity. Qed.

  Lemma zget_filter (f : L -> bool) d l : zget (filter (fun kv => f (fst kv)) d) l = if f l then zget d l else 0%Z.
  Proof.
    unfold zget. induction d as [|[k v] d IH]; cbn [filter dget fst]; [destruct (f l); reflexivity|].
    destruct (f k) eqn:E; cbn [dget]; destruct (PyDict.eqb_spec k l) as [->|N]; try rewrite E; try reflexivity; try exact IH. rewrite IH, E. reflexivity.
  Qed.

  Lemma dmem_lmem d k : dmem d k = lmem (dkeys d) k.
  Proof. destruct (dmem d k) eqn:E; symmetry; [apply lmem_In, dmem_true; exact E|apply lmem_false, dmem_false; exact E]. Qed.

  Lemma zget_add_counts a b l : zget (add_counts a b) l = (zget a l + zget b l)%Z.
  Proof.
    unfold add_counts. unfold zget at 1.
    assert (forall x y : dict L Z, dget (x ++ y) l = match dget x l with Some v => Some v | None => dget y l end) as A.
    { intros x y. induction x as [|[k v] x IH]; [reflexivity|]. cbn [app dget]. destruct (PyDict.eqb k l); [reflexivity|exact IH]. }
    rewrite A. assert (dget (map (fun kv => (fst kv, match dget b (fst kv) with Some z => (snd kv + z)%Z | None => snd kv end)) a) l =
      match dget a l with Some v => Some (v + zget b l)%Z | None => None end) as ->.
    { clear A. induction a as [|[k v] a IH]; [reflexivity|]. cbn [map dget fst snd]. destruct (PyDict.eqb_spec k l) as [->|]; [|exact IH].
      unfold zget. destruct (dget b l); f_equal. lia. }
    unfold zget at 2. destruct (dget a l) as [v|] eqn:E; [reflexivity|].
    change (zget (filter (fun kv => negb (dmem a (fst kv))) b) l = (0 + zget b l)%Z). rewrite (zget_filter (fun k => negb (dmem a k))).
    apply dget_None in E. apply dmem_false in E. rewrite E. reflexivity.
  Qed.

  Lemma dkeys_add_counts a b : dkeys (add_counts a b) = dkeys a ++ filter (fun k => negb (dmem a k)) (dkeys b).
  Proof.
    unfold add_counts, dkeys. rewrite map_app, map_map. f_equal. induction b as [|[k v] b IH]; [reflexivity|]. cbn [filter map fst]. destruct (negb (dmem a k)); cbn [map fst]; rewrite IH; reflexivity.
  Qed.

  Lemma NoDup_add_counts a b : NoDup (dkeys a) -> NoDup (dkeys b) -> NoDup (dkeys (add_counts a b)).
  Proof.
    intros Ha Hb. rewrite dkeys_add_counts. assert (forall l, NoDup l -> (forall x, In x l -> ~ In x (dkeys a)) -> NoDup (dkeys a ++ l)) as A.
    { clear b Hb. induction Ha as [|k ks Hk Hks IH]; intros l Hl Hd; [exact Hl|]. cbn [app]. constructor.
      - intro H. apply in_app_or in H. destruct H as [H|H]; [contradiction|]. apply (Hd k H). left. reflexivity.
      - apply IH; [exact Hl|]. intros x Hx H. apply (Hd x Hx). right. exact H. }
    apply A; [apply NoDup_filter; exact Hb|]. intros x Hx. apply filter_In in Hx. destruct Hx as [_ Hx]. apply negb_true_iff, dmem_false in Hx. exact Hx.
  Qed.

  (** Total of a dictionary as the sum over any duplicate free list of its keys *)
  Lemma zsum_filter_get (f : L -> bool) b : NoDup (dkeys b) ->
    forall ks, NoDup ks -> (forall k, In k ks -> f k = true) -> (forall k, f k = true -> In k (dkeys b) -> In k ks) ->
    fold_right (fun k a => (zget b k + a)%Z) 0%Z ks = zsum (filter (fun kv => f (fst kv)) b).
  Proof.
    intros Hb ks Hks Hf Hin. revert f Hf Hin. induction Hks as [|k ks Hk Hks IH]; intros f Hf Hin; cbn [fold_right].
    - assert (filter (fun kv => f (fst kv)) b = []) as ->; [|reflexivity].
      assert (forall b', incl b' b -> filter (fun kv => f (fst kv)) b' = []) as A; [|apply A, incl_refl].
      induction b' as [|[x v] b' IHb]; intro Hi; [reflexivity|]. cbn [filter fst]. destruct (f x) eqn:E; [|apply IHb; intros y Hy; apply Hi; right; exact Hy].
      exfalso. apply (Hin x E). apply (in_map fst b (x, v)). apply Hi. left. reflexivity.
    - rewrite (IH (fun x => f x && negb (PyDict.eqb k x))).
      + assert (f k = true) as Fk by (apply Hf; left; reflexivity). clear - Hb Fk. induction b as [|[x v] b IHb]; [reflexivity|].
        cbn [dkeys map fst] in Hb. inversion Hb as [|? ? Hx Hb']; subst. cbn [filter fst]. unfold zget. cbn [dget]. destruct (PyDict.eqb_spec x k) as [->|N].
        * rewrite Fk, eqb_refl. cbn [negb andb]. rewrite zsum_cons. f_equal. f_equal. apply filter_ext_in. intros [y w] Hy. cbn [fst].
          destruct (PyDict.eqb_spec k y) as [->|]; [exfalso; apply Hx; apply (in_map fst) in Hy; exact Hy|apply andb_true_r].
        * destruct (PyDict.eqb_spec k x) as [E|_]; [congruence|]. cbn [negb]. rewrite andb_true_r. specialize (IHb Hb'). unfold zget in IHb. destruct (f x); [rewrite !zsum_cons; lia|exact IHb].
      + intros x Hx. rewrite (Hf x (or_intror Hx)). destruct (PyDict.eqb_spec k x) as [->|]; [contradiction|reflexivity].
      + intros x Hx Hxb. apply andb_true_iff in Hx. destruct Hx as [H1 H2]. destruct (Hin x H1 Hxb) as [->|H]; [rewrite eqb_refl in H2; discriminate|exact H].
  Qed.

  Lemma zsum_split (f : L -> bool) b : zsum b = (zsum (filter (fun kv => f (fst kv)) b) + zsum (filter (fun kv => negb (f (fst kv))) b))%Z.
  Proof. induction b as [|[k v] b IH]; [reflexivity|]. cbn [filter fst]. rewrite zsum_cons, IH. destruct (f k); cbn [negb]; rewrite zsum_cons; lia. Qed.

  Lemma zsum_add_counts a b : NoDup (dkeys a) -> NoDup (dkeys b) -> zsum (add_counts a b) = (zsum a + zsum b)%Z.
  Proof.
    intros Ha Hb. unfold add_counts. rewrite zsum_app. rewrite (zsum_split (fun k => dmem a k) b).
    rewrite <- (zsum_filter_get (fun k => dmem a k) b Hb (filter (dmem b) (dkeys a))).
    - assert (zsum (map (fun kv => (fst kv, match dget b (fst kv) with Some z => (snd kv + z)%Z | None => snd kv end)) a) =
        (zsum a + fold_right (fun k s => (zget b k + s)%Z) 0%Z (filter (dmem b) (dkeys a)))%Z) as ->; [|lia].
      clear. induction a as [|[k v] a IH]; [reflexivity|]. cbn [map fst snd dkeys]. fold (dkeys a). cbn [filter]. rewrite !zsum_cons, IH.
      assert (match dget b k with Some z => (v + z)%Z | None => v end = (v + if dmem b k then zget b k else 0)%Z) as -> by (unfold dmem, zget; destruct (dget b k); lia).
      destruct (dmem b k); cbn [fold_right]; lia.
    - apply NoDup_filter. exact Ha.
    - intros k Hk. apply filter_In in Hk. apply dmem_true. tauto.
    - intros k H1 H2. apply filter_In. split; [apply dmem_true; exact H1|apply dmem_true; exact H2].
  Qed.
End Counts.

Section ULabel.
  Context {C L : Type} {EL : EqDecB L}.
  Variable sep : C -> bool.
  Variable unknown : L.
  Variable name : nat -> option L.
  Notation sample := (sample C L).
  Notation span := (nat * nat * L)%type.

  (** ** Specification *)

  (** Spans are disjoint, in order and inside a text of length [n]. *)
  Fixpoint good_spans (lo n : nat) (spans : list span) : Prop :=
    match spans with
    | [] => lo <= n
    | (b, e, _) :: r => lo <= b /\ b <= e /\ good_spans e n r
    end.

  Definition covers (sp : span) (i : nat) : bool := (fst (fst sp) <=? i) && (i <? snd (fst sp)).

  (** The label of the character at a position: that of the span that covers it, or unknown *)
  Definition label_at (spans : list span) (i : nat) : L := match find (fun sp => covers sp i) spans with Some sp => snd sp | None => unknown end.

  (** The characters outside all spans *)
  Definition uncovered (s : sample) : list C :=
    map snd (filter (fun ic => negb (existsb (fun sp => covers sp (fst ic)) (s_spans s))) (combine (seq 0 (length (s_text s))) (s_text s))).

  (** The number of separators that directly follow another character *)
  Definition word_ends (cs : list C) : nat := length (filter (fun p => negb (sep (fst p)) && sep (snd p)) (combine cs (tl cs))).

  Definition chars_with (l : L) (s : sample) : nat := length (filter (fun i => PyDict.eqb (label_at (s_spans s) i) l) (seq 0 (length (s_text s)))).
  Definition predicted_as (l : L) (s : sample) : nat := length (filter (fun p => match name p with Some l' => PyDict.eqb l' l | None => false end) (s_pred s)).
  Definition spans_with (l : L) (s : sample) : nat := length (filter (fun sp => PyDict.eqb (snd sp) l) (s_spans s)).

  (** ** Words *)
  Lemma scan_ends x : forall cs n, snd (scan sep (negb (sep x)) cs n) = n + word_ends (x :: cs).
  Proof.
    intro cs. revert x. induction cs as [|c cs IH]; intros x n; [cbn; lia|]. cbn [scan]. specialize (IH c).
    assert (word_ends (x :: c :: cs) = (if negb (sep x) && sep c then 1 else 0) + word_ends (c :: cs)) as ->.
    { unfold word_ends. cbn [tl combine filter fst snd]. destruct (negb (sep x) && sep c); reflexivity. }
    destruct (negb (sep x)); cbn [andb]; [|apply IH]. destruct (sep c) eqn:E; cbn [negb] in IH; rewrite IH; lia.
  Qed.

  Lemma scan_closed cs n : snd (scan sep false cs n) = n + word_ends cs.
  Proof. destruct cs as [|c cs]; [cbn; lia|]. cbn [scan]. apply scan_ends. Qed.

  Lemma scan_app cs : forall o n cs', scan sep o (cs ++ cs') n = let (o', n') := scan sep o cs n in scan sep o' cs' n'.
  Proof. induction cs as [|c cs IH]; intros o n cs'; [reflexivity|]. cbn [app scan]. destruct o; [destruct (sep c)|]; apply IH. Qed.

  Fixpoint background (text : list C) (lo : nat) (spans : list span) : list C :=
    match spans with [] => skipn lo text | (b, e, _) :: r => slice text lo b ++ background text e r end.

  Lemma good_le lo n spans : good_spans lo n spans -> lo <= n.
  Proof. revert lo. induction spans as [|[[b e] l] r IH]; intros lo H; [exact H|]. destruct H as (H1 & H2 & H3). apply IH in H3. lia. Qed.

  Lemma text_words_background text spans : forall lo o n, good_spans lo (length text) spans ->
    text_words sep text lo o n spans = Ok (snd (scan sep o (background text lo spans) n)).
  Proof.
    induction spans as [|[[b e] l] r IH]; intros lo o n H; cbn [text_words background]; [reflexivity|]. destruct H as (H1 & H2 & H3). pose proof (good_le _ _ _ H3) as Hl.
    destruct (Nat.ltb_spec (length text) b); [lia|]. cbn [andb]. rewrite scan_app. destruct (scan sep o (slice text lo b) n) as [o' n']. apply IH. exact H3.
  Qed.

  Lemma filter_none {A} (f : A -> bool) l : (forall x, In x l -> f x = false) -> filter f l = [].
  Proof. induction l as [|x l IH]; intro H; [reflexivity|]. cbn [filter]. rewrite (H x (or_introl eq_refl)). apply IH. intros y Hy. apply H. right. exact Hy. Qed.
  Lemma filter_all {A} (f : A -> bool) l : (forall x, In x l -> f x = true) -> filter f l = l.
  Proof. induction l as [|x l IH]; intro H; [reflexivity|]. cbn [filter]. rewrite (H x (or_introl eq_refl)), IH; [reflexivity|]. intros y Hy. apply H. right. exact Hy. Qed.

  Lemma before_spans lo n spans i : good_spans lo n spans -> i < lo -> forall sp, In sp spans -> covers sp i = false.
  Proof.
    revert lo. induction spans as [|[[b e] l] r IH]; intros lo H Hi sp Hin; [destruct Hin|]. destruct H as (H1 & H2 & H3). destruct Hin as [<-|Hin].
    - unfold covers. cbn [fst snd]. destruct (Nat.leb_spec b i); [lia|reflexivity].
    - apply (IH e H3); [lia|exact Hin].
  Qed.

  Definition cov (spans : list span) (i : nat) : bool := existsb (fun sp => covers sp i) spans.

  Lemma cov_before lo n spans i : good_spans lo n spans -> i < lo -> cov spans i = false.
  Proof.
    intros H Hi. unfold cov. destruct (existsb _ _) eqn:E; [|reflexivity]. apply existsb_exists in E. destruct E as (sp & H1 & H2).
    rewrite (before_spans lo n spans i H Hi sp H1) in H2. discriminate.
  Qed.

  Lemma seq_combine_slices (text : list C) lo hi : lo <= hi -> hi <= length text ->
    combine (seq lo (length text - lo)) (skipn lo text) =
    combine (seq lo (hi - lo)) (slice text lo hi) ++ combine (seq hi (length text - hi)) (skipn hi text).
  Proof.
    intros H1 H2. replace (length text - lo) with ((hi - lo) + (length text - hi)) by lia. rewrite seq_app. replace (lo + (hi - lo)) with hi by lia.
    assert (skipn lo text = slice text lo hi ++ skipn hi text) as ->.
    { unfold slice. replace (skipn hi text) with (skipn (hi - lo) (skipn lo text)) by (rewrite skipn_skipn; f_equal; lia). symmetry. apply firstn_skipn. }
    assert (length (seq lo (hi - lo)) = length (slice text lo hi)) as E by (rewrite seq_length, slice_length; lia).
    revert E. generalize (seq lo (hi - lo)) (slice text lo hi). clear. induction l as [|x l IH]; intros [|y m] E; cbn in E; try discriminate; [reflexivity|].
    cbn [app combine]. f_equal. apply IH. lia.
  Qed.

  Lemma combine_seq_range (l : list C) lo n i c : In (i, c) (combine (seq lo n) l) -> lo <= i < lo + n.
  Proof. intro H. apply in_combine_l in H. apply in_seq in H. exact H. Qed.

  Lemma background_uncovered text spans : forall lo, good_spans lo (length text) spans ->
    background text lo spans = map snd (filter (fun ic => negb (cov spans (fst ic))) (combine (seq lo (length text - lo)) (skipn lo text))).
  Proof.
    induction spans as [|[[b e] l] r IH]; intros lo H; cbn [background].
    - cbn [good_spans] in H. rewrite filter_all by reflexivity.
      assert (length (seq lo (length text - lo)) = length (skipn lo text)) as E by (rewrite seq_length, skipn_length; reflexivity).
      revert E. generalize (seq lo (length text - lo)) (skipn lo text). clear. induction l as [|x l IH]; intros [|y m] E; cbn in E; try discriminate; [reflexivity|].
      cbn [combine map snd]. f_equal. apply IH. lia.
    - destruct H as (H1 & H2 & H3). pose proof (good_le _ _ _ H3) as Hl. rewrite (seq_combine_slices text lo b) by lia. rewrite (seq_combine_slices text b e) by lia.
      rewrite !filter_app, !map_app. rewrite (IH e H3). f_equal.
      + rewrite filter_all.
        * assert (length (seq lo (b - lo)) = length (slice text lo b)) as E by (rewrite seq_length, slice_length; lia).
          revert E. generalize (seq lo (b - lo)) (slice text lo b). clear. induction l as [|x l IH]; intros [|y m] E; cbn in E; try discriminate; [reflexivity|].
          cbn [combine map snd]. f_equal. apply IH. lia.
        * intros [i c] Hi. apply combine_seq_range in Hi. cbn [fst]. apply negb_true_iff. apply (cov_before b (length text)); [|lia]. cbn [good_spans]. auto.
      + rewrite (filter_none _ (combine (seq b (e - b)) (slice text b e))).
        * cbn [map app]. f_equal. apply filter_ext_in. intros [i c] Hi. apply combine_seq_range in Hi. cbn [fst]. f_equal. unfold cov. cbn [existsb].
          replace (covers (b, e, l) i) with false; [reflexivity|]. unfold covers. cbn [fst snd]. destruct (Nat.ltb_spec i e); [lia|]. rewrite andb_false_r. reflexivity.
        * intros [i c] Hi. apply combine_seq_range in Hi. cbn [fst]. apply negb_false_iff. unfold cov. cbn [existsb]. apply orb_true_iff. left. unfold covers. cbn [fst snd].
          apply andb_true_iff. split; [apply Nat.leb_le|apply Nat.ltb_lt]; lia.
  Qed.

  Lemma text_words_spec s : good_spans 0 (length (s_text s)) (s_spans s) ->
    text_words sep (s_text s) 0 false 0 (s_spans s) = Ok (word_ends (uncovered s)).
  Proof.
    intro H. rewrite text_words_background by exact H. rewrite scan_closed. cbn [Nat.add]. rewrite background_uncovered by exact H. rewrite Nat.sub_0_r. reflexivity.
  Qed.

  (** ** Labels of characters *)
  Lemma label_before lo n spans i : good_spans lo n spans -> i < lo -> label_at spans i = unknown.
  Proof.
    intros H Hi. unfold label_at. destruct (find _ spans) as [sp|] eqn:E; [|reflexivity]. apply find_some in E. destruct E as [E1 E2].
    rewrite (before_spans lo n spans i H Hi sp E1) in E2. discriminate.
  Qed.

  Lemma seq_cut lo hi n : lo <= hi -> hi <= n -> seq lo (n - lo) = seq lo (hi - lo) ++ seq hi (n - hi).
  Proof. intros H1 H2. replace (n - lo) with ((hi - lo) + (n - hi)) by lia. rewrite seq_app. f_equal. f_equal. lia. Qed.

  Lemma count_const (f : nat -> L) l x lo n : (forall i, lo <= i < lo + n -> f i = x) ->
    length (filter (fun i => PyDict.eqb (f i) l) (seq lo n)) = if PyDict.eqb x l then n else 0.
  Proof.
    intro H. destruct (PyDict.eqb_spec x l) as [->|N].
    - rewrite filter_all; [apply seq_length|]. intros i Hi. apply in_seq in Hi. rewrite (H i Hi). apply eqb_refl.
    - rewrite filter_none; [reflexivity|]. intros i Hi. apply in_seq in Hi. rewrite (H i Hi). apply eqb_neq. exact N.
  Qed.

  Lemma update_post_spec len spans : forall d lo l, good_spans lo len spans ->
    zget (update_post unknown d len lo spans) l = (zget d l + Z.of_nat (length (filter (fun i => PyDict.eqb (label_at spans i) l) (seq lo (len - lo)))))%Z.
  Proof.
    induction spans as [|[[b e] x] r IH]; intros d lo l H; cbn [update_post].
    - cbn [good_spans] in H. rewrite zget_zadd. rewrite (count_const _ l unknown) by reflexivity. destruct (PyDict.eqb unknown l); lia.
    - destruct H as (H1 & H2 & H3). pose proof (good_le _ _ _ H3) as Hl. rewrite (IH _ e l H3), !zget_zadd.
      rewrite (seq_cut lo b len), (seq_cut b e len) by lia. rewrite !filter_app, !app_length.
      rewrite (count_const _ l unknown lo) by (intros i Hi; apply (label_before b len); [cbn [good_spans]; auto|lia]).
      rewrite (count_const _ l x b).
      2:{ intros i Hi. unfold label_at. cbn [find]. unfold covers at 1. cbn [fst snd]. destruct (Nat.leb_spec b i); [|lia]. destruct (Nat.ltb_spec i e); [|lia]. reflexivity. }
      rewrite (filter_ext_in (fun i => PyDict.eqb (label_at ((b, e, x) :: r) i) l) (fun i => PyDict.eqb (label_at r i) l)).
      2:{ intros i Hi. apply in_seq in Hi. unfold label_at. cbn [find]. unfold covers at 1. cbn [fst snd]. destruct (Nat.ltb_spec i e); [lia|]. rewrite andb_false_r. reflexivity. }
      destruct (PyDict.eqb unknown l), (PyDict.eqb x l); lia.
  Qed.

  Lemma update_post_sum len spans : forall d lo, zsum (update_post unknown d len lo spans) = (zsum d + Z.of_nat len - Z.of_nat lo)%Z.
  Proof.
    induction spans as [|[[b e] x] r IH]; intros d lo; cbn [update_post]; [rewrite zsum_zadd; lia|]. rewrite IH, !zsum_zadd. lia.
  Qed.
  Lemma update_post_nodup len spans : forall d lo, NoDup (dkeys d) -> NoDup (dkeys (update_post unknown d len lo spans)).
  Proof. induction spans as [|[[b e] x] r IH]; intros d lo H; cbn [update_post]; [apply NoDup_zadd; exact H|]. apply IH. repeat apply NoDup_zadd. exact H. Qed.

  (** ** One level after a batch *)
  Definition sum_over (f : sample -> nat) (ss : list sample) : nat := list_sum (map f ss).

  Lemma sum_over_app f a b : sum_over f (a ++ b) = sum_over f a + sum_over f b.
  Proof. unfold sum_over. rewrite map_app. apply list_sum_app. Qed.

  Lemma posts_spec ss : (forall s, In s ss -> good_spans 0 (length (s_text s)) (s_spans s)) -> forall d, NoDup (dkeys d) ->
    let d' := fold_left (fun d s => update_post unknown d (length (s_text s)) 0 (s_spans s)) ss d in
    NoDup (dkeys d') /\ (forall l, zget d' l = zget d l + Z.of_nat (sum_over (chars_with l) ss))%Z /\
    zsum d' = (zsum d + Z.of_nat (sum_over (fun s => length (s_text s)) ss))%Z.
  Proof.
    induction ss as [|s ss IH]; intros Hs d Hd; cbn [fold_left]; [cbn; repeat split; [exact Hd|intro l; lia|lia]|].
    destruct (IH ltac:(intros x Hx; apply Hs; right; exact Hx) _ (update_post_nodup (length (s_text s)) (s_spans s) d 0 Hd)) as (I1 & I2 & I3).
    split; [exact I1|]. unfold sum_over in *. cbn [map]. change (list_sum (?a :: ?l)) with (a + list_sum l). split.
    - intro l. rewrite I2, update_post_spec by (apply Hs; left; reflexivity). rewrite Nat.sub_0_r. change (list_sum (?a :: ?l)) with (a + list_sum l). unfold chars_with at 2. lia.
    - rewrite I3, update_post_sum. change (list_sum (?a :: ?l)) with (a + list_sum l). lia.
  Qed.

  Lemma update_true_spec pred : forall d d', update_true name d pred = Ok d' -> NoDup (dkeys d) ->
    NoDup (dkeys d') /\ (forall l, zget d' l = zget d l + Z.of_nat (length (filter (fun p => match name p with Some l' => PyDict.eqb l' l | None => false end) pred)))%Z /\
    zsum d' = (zsum d + Z.of_nat (length pred))%Z.
  Proof.
    induction pred as [|p pred IH]; intros d d' H Hd; cbn [update_true] in H.
    - injection H as <-. cbn. repeat split; [exact Hd|intro l; lia|lia].
    - destruct (name p) as [x|] eqn:E; [|discriminate]. destruct (IH _ _ H (NoDup_zadd d x 1 Hd)) as (I1 & I2 & I3). split; [exact I1|]. split.
      + intro l. rewrite I2, zget_zadd. cbn [filter]. rewrite E. destruct (PyDict.eqb x l); cbn [length]; lia.
      + rewrite I3, zsum_zadd. cbn [length]. lia.
  Qed.

  Lemma background_words_spec ss : (forall s, In s ss -> good_spans 0 (length (s_text s)) (s_spans s)) -> forall d, NoDup (dkeys d) ->
    exists d', background_words sep unknown d ss = Ok d' /\ NoDup (dkeys d') /\
    (forall l, zget d' l = zget d l + if PyDict.eqb unknown l then Z.of_nat (sum_over (fun s => word_ends (uncovered s)) ss) else 0)%Z /\
    zsum d' = (zsum d + Z.of_nat (sum_over (fun s => word_ends (uncovered s)) ss))%Z.
  Proof.
    induction ss as [|s ss IH]; intros Hs d Hd; cbn [background_words].
    - exists d. cbn. split; [reflexivity|]. split; [exact Hd|]. split; [intro l; destruct (PyDict.eqb unknown l); lia|lia].
    - rewrite text_words_spec by (apply Hs; left; reflexivity). cbn [bind]. set (n := word_ends (uncovered s)).
      assert (NoDup (dkeys (if n =? 0 then d else zadd d unknown (Z.of_nat n)))) as Hn by (destruct (n =? 0); [exact Hd|apply NoDup_zadd; exact Hd]).
      destruct (IH ltac:(intros x Hx; apply Hs; right; exact Hx) _ Hn) as (d' & I0 & I1 & I2 & I3). exists d'. split; [exact I0|]. split; [exact I1|].
      unfold sum_over in *. cbn [map]. fold n. change (list_sum (n :: ?l)) with (n + list_sum l). clearbody n. split.
      + intro l. rewrite I2. destruct (n =? 0) eqn:En; [apply Nat.eqb_eq in En; rewrite En; destruct (PyDict.eqb unknown l); lia|]. rewrite zget_zadd. destruct (PyDict.eqb unknown l); lia.
      + rewrite I3. destruct (n =? 0) eqn:En; [apply Nat.eqb_eq in En; lia|]. rewrite zsum_zadd. lia.
  Qed.

  Lemma span_fold (sps : list span) : forall d, NoDup (dkeys d) ->
    let d' := fold_left (fun d sp => zadd d (snd sp) 1) sps d in
    NoDup (dkeys d') /\ (forall l, zget d' l = zget d l + Z.of_nat (length (filter (fun sp => PyDict.eqb (snd sp) l) sps)))%Z /\ zsum d' = (zsum d + Z.of_nat (length sps))%Z.
  Proof.
    induction sps as [|sp sps IH]; intros d Hd; cbn [fold_left]; [cbn; repeat split; [exact Hd|intro l; lia|lia]|].
    destruct (IH _ (NoDup_zadd d (snd sp) 1 Hd)) as (I1 & I2 & I3). split; [exact I1|]. split.
    - intro l. rewrite I2, zget_zadd. cbn [filter]. destruct (PyDict.eqb (snd sp) l); cbn [length]; lia.
    - rewrite I3, zsum_zadd. cbn [length]. lia.
  Qed.

  Lemma filter_concat {A B} (f : B -> bool) (g : A -> list B) ss : length (filter f (concat (map g ss))) = list_sum (map (fun s => length (filter f (g s))) ss).
  Proof. induction ss as [|s ss IH]; [reflexivity|]. cbn [map concat]. rewrite filter_app, app_length, IH. reflexivity. Qed.
  Lemma length_concat_sum {A B} (g : A -> list B) ss : length (concat (map g ss)) = list_sum (map (fun s => length (g s)) ss).
  Proof. induction ss as [|s ss IH]; [reflexivity|]. cbn [map concat]. rewrite app_length, IH. reflexivity. Qed.

  (** ** Histories *)
  Fixpoint samples (h : hist C L) : list sample :=
    match h with HNew => [] | HUpd h s => samples h ++ s | HAdd h1 h2 => samples h1 ++ samples h2 end.

  Notation good h := (forall s, In s (samples h) -> good_spans 0 (length (s_text s)) (s_spans s)).
  Notation run := (run sep unknown name).

  Definition words_with (l : L) (s : sample) : nat := spans_with l s + if PyDict.eqb unknown l then word_ends (uncovered s) else 0.

  Definition inv (st : state L) (ss : list sample) : Prop :=
    (NoDup (dkeys (u_word st)) /\ NoDup (dkeys (u_true st)) /\ NoDup (dkeys (u_post st))) /\
    (forall l, zget (u_word st) l = Z.of_nat (sum_over (words_with l) ss)) /\
    (forall l, zget (u_true st) l = Z.of_nat (sum_over (predicted_as l) ss)) /\
    (forall l, zget (u_post st) l = Z.of_nat (sum_over (chars_with l) ss)) /\
    u_chars st = Z.of_nat (sum_over (fun s => length (s_pred s)) ss) /\
    u_words st = Z.of_nat (sum_over (fun s => length (s_spans s) + word_ends (uncovered s)) ss) /\
    zsum (u_word st) = u_words st /\ zsum (u_true st) = u_chars st /\
    zsum (u_post st) = Z.of_nat (sum_over (fun s => length (s_text s)) ss).

  Lemma sum_over_add f g ss : sum_over (fun s => f s + g s) ss = sum_over f ss + sum_over g ss.
  Proof. unfold sum_over. induction ss as [|s ss IH]; [reflexivity|]. cbn [map]. change (list_sum (?a :: ?l)) with (a + list_sum l). rewrite IH. lia. Qed.

  Lemma run_inv h : good h -> forall st, run h = Ok st -> inv st (samples h).
  Proof.
    induction h as [|h IH ss|h1 IH1 h2 IH2]; intros Hg st; cbn [ULabelModel.run samples] in *.
    - intro H. injection H as <-. unfold inv. cbn. repeat split; constructor.
    - destruct (run h) as [st0|] eqn:E; cbn [bind]; [|discriminate]. specialize (IH ltac:(intros s Hs; apply Hg; apply in_or_app; auto) st0 eq_refl).
      unfold update. destruct ss as [|s0 ss0]; [intro H; injection H as <-; rewrite app_nil_r; exact IH|]. set (ss := s0 :: ss0) in *. clearbody ss.
      assert (forall s, In s ss -> good_spans 0 (length (s_text s)) (s_spans s)) as Hs by (intros s H; apply Hg; apply in_or_app; auto).
      destruct IH as ((N1 & N2 & N3) & A1 & A2 & A3 & A4 & A5 & A6 & A7 & A8). unfold update_words.
      destruct (background_words_spec ss Hs (u_word st0) N1) as (d1 & B0 & B1 & B2 & B3). rewrite B0. cbn [bind].
      destruct (span_fold (concat (map s_spans ss)) d1 B1) as (D1 & D2 & D3). set (w := fold_left (fun d sp => zadd d (snd sp) 1) (concat (map s_spans ss)) d1) in *.
      destruct (update_true name (u_true st0) (concat (map s_pred ss))) as [t|] eqn:Et; cbn [bind]; [|discriminate].
      destruct (update_true_spec _ _ _ Et N2) as (T1 & T2 & T3). destruct (posts_spec ss Hs (u_post st0) N3) as (P1 & P2 & P3). intro H. injection H as <-.
      assert (zsum w = Z.of_nat (sum_over (fun s => length (s_spans s) + word_ends (uncovered s)) (samples h ++ ss))) as Hw.
      { rewrite D3, B3, A6, A5, sum_over_app, (sum_over_add (fun s => length (s_spans s)) (fun s => word_ends (uncovered s)) ss), length_concat_sum. unfold sum_over, ULabelModel.span in *. lia. }
      unfold inv. cbn [u_word u_true u_post u_chars u_words]. split; [auto|]. split; [|split; [|split; [|split; [|split; [|split; [|split]]]]]].
      + intro l. rewrite D2, B2, A1, sum_over_app, filter_concat.
        assert (sum_over (words_with l) ss = sum_over (spans_with l) ss + if PyDict.eqb unknown l then sum_over (fun s => word_ends (uncovered s)) ss else 0) as ->.
        { unfold words_with. rewrite (sum_over_add (spans_with l) (fun s => if PyDict.eqb unknown l then word_ends (uncovered s) else 0)). f_equal. destruct (PyDict.eqb unknown l); [reflexivity|].
          clear. unfold sum_over. induction ss as [|s ss IH]; [reflexivity|exact IH]. }
        change (list_sum (map (fun s => length (filter (fun sp => PyDict.eqb (snd sp) l) (s_spans s))) ss)) with (sum_over (spans_with l) ss). destruct (PyDict.eqb unknown l); lia.
      + intro l. rewrite T2, A2, sum_over_app, filter_concat. unfold predicted_as, sum_over. lia.
      + intro l. rewrite P2, A3, sum_over_app. lia.
      + rewrite A4, sum_over_app, length_concat_sum. unfold sum_over. lia.
      + exact Hw.
      + reflexivity.
      + rewrite T3, A7. lia.
      + rewrite P3, A8, sum_over_app. lia.
    - destruct (run h1) as [a|] eqn:E1; cbn [bind]; [|discriminate]. destruct (run h2) as [b|] eqn:E2; cbn [bind]; [|discriminate].
      specialize (IH1 ltac:(intros s Hs; apply Hg; apply in_or_app; auto) a eq_refl). specialize (IH2 ltac:(intros s Hs; apply Hg; apply in_or_app; auto) b eq_refl).
      intro H. injection H as <-. destruct IH1 as ((N1 & N2 & N3) & A1 & A2 & A3 & A4 & A5 & A6 & A7 & A8). destruct IH2 as ((M1 & M2 & M3) & B1 & B2 & B3 & B4 & B5 & B6 & B7 & B8).
      unfold inv, merge. cbn [u_word u_true u_post u_chars u_words]. rewrite !zsum_add_counts by assumption. split; [repeat split; apply NoDup_add_counts; assumption|].
      repeat (split; [first [intro l; rewrite zget_add_counts, sum_over_app, ?A1, ?A2, ?A3, ?B1, ?B2, ?B3; lia|rewrite ?sum_over_app; lia]|]). rewrite sum_over_app. lia.
  Qed.

  (** Every prediction counts for its label, whatever the updates and merges. *)
  Theorem C32_predicted_characters h st l : good h -> run h = Ok st ->
    zget (u_true st) l = Z.of_nat (sum_over (predicted_as l) (samples h)).
  Proof. intros Hg H. destruct (run_inv h Hg st H) as (_ & _ & A & _). apply A. Qed.

  (** Every character counts for the label of the span that covers it, or as unknown. *)
  Theorem C32_characters h st l : good h -> run h = Ok st ->
    zget (u_post st) l = Z.of_nat (sum_over (chars_with l) (samples h)).
  Proof. intros Hg H. destruct (run_inv h Hg st H) as (_ & _ & _ & A & _). apply A. Qed.

  (** Every span counts as a word of its label; words outside spans count as unknown, but only those followed
      by a separator outside spans. *)
  Theorem C32_words h st l : good h -> run h = Ok st ->
    zget (u_word st) l = Z.of_nat (sum_over (fun s => spans_with l s + if PyDict.eqb unknown l then word_ends (uncovered s) else 0) (samples h)).
  Proof. intros Hg H. destruct (run_inv h Hg st H) as (_ & A & _). apply A. Qed.

  Lemma zsum_nonneg (d : dict L Z) : NoDup (dkeys d) -> forall l z, In (l, z) d -> zget d l = z.
  Proof. intros Hn l z Hi. unfold zget. rewrite (dget_In d l z Hn Hi). reflexivity. Qed.

  Lemma percent_sum total (d : dict L Z) : (0 < total)%Z -> zsum d = total ->
    (fold_right (fun kv a => snd kv + a) 0 (percentages total d) == 1)%Q.
  Proof.
    intros Ht Hd. unfold percentages. destruct (Z.ltb_spec 0 total); [|lia].
    assert (fold_right (fun kv a => (snd kv + a)%Q) 0%Q (map (fun kv : L * Z => (fst kv, (inject_Z (snd kv) / inject_Z total)%Q)) d) == inject_Z (zsum d) / inject_Z total)%Q as ->.
    { clear Hd. induction d as [|[l z] d IH]; cbn [map fold_right fst snd]; [unfold Qdiv; cbn; ring|]. rewrite IH, zsum_cons, inject_Z_plus. unfold Qdiv. ring. }
    rewrite Hd. unfold Qdiv. apply Qmult_inv_r. intro E. unfold Qeq in E. cbn in E. lia.
  Qed.

  Lemma percent_nonneg total (d : dict L Z) : (forall l z, In (l, z) d -> (0 <= z)%Z) -> forall l q, In (l, q) (percentages total d) -> (0 <= q)%Q.
  Proof.
    intros H l q Hi. unfold percentages in Hi. destruct (Z.ltb_spec 0 total) as [Ht|]; [|destruct Hi]. apply in_map_iff in Hi. destruct Hi as ([x z] & E & Hi). injection E as <- <-.
    specialize (H x z Hi). cbn [snd]. unfold Qdiv. apply Qmult_le_0_compat; [change 0%Q with (inject_Z 0); rewrite <- Zle_Qle; exact H|]. apply Qinv_le_0_compat.
    change 0%Q with (inject_Z 0). rewrite <- Zle_Qle. lia.
  Qed.

  (** The percentages are not negative, and at each level add up to 1 if anything is counted, provided that
      every character has a prediction. *)
  Theorem C32_percentages h st : good h -> (forall s, In s (samples h) -> length (s_pred s) = length (s_text s)) -> run h = Ok st ->
    let check n d := (forall l q, In (l, q) (percentages n d) -> (0 <= q)%Q) /\
                     ((0 < n)%Z -> (fold_right (fun kv a => snd kv + a) 0 (percentages n d) == 1)%Q) in
    check (u_words st) (u_word st) /\ check (u_chars st) (u_true st) /\ check (u_chars st) (u_post st).
  Proof.
    intros Hg Hlen H. destruct (run_inv h Hg st H) as ((N1 & N2 & N3) & A1 & A2 & A3 & A4 & A5 & A6 & A7 & A8). cbn zeta.
    assert (zsum (u_post st) = u_chars st) as A9.
    { rewrite A8, A4. f_equal. clear - Hlen. unfold sum_over. f_equal. apply map_ext_in. intros s Hs. symmetry. apply Hlen. exact Hs. }
    split; [|split]; (split; [apply percent_nonneg; intros l z Hi|intro Hp; apply percent_sum; assumption]).
    - rewrite <- (zsum_nonneg _ N1 l z Hi), A1. lia.
    - rewrite <- (zsum_nonneg _ N2 l z Hi), A2. lia.
    - rewrite <- (zsum_nonneg _ N3 l z Hi), A3. lia.
  Qed.

  (** Counting fails only for a predicted number without a label. *)
  Theorem C32_succeeds h : good h -> (forall s p, In s (samples h) -> In p (s_pred s) -> name p <> None) -> exists st, run h = Ok st.
  Proof.
    induction h as [|h IH ss|h1 IH1 h2 IH2]; intros Hg Hn; cbn [ULabelModel.run samples] in *.
    - eauto.
    - destruct (IH ltac:(intros s Hs; apply Hg; apply in_or_app; auto) ltac:(intros s p Hs; apply Hn; apply in_or_app; auto)) as [st0 E]. rewrite E. cbn [bind].
      pose proof (run_inv h ltac:(intros s Hs; apply Hg; apply in_or_app; auto) st0 E) as ((N1 & _) & _). unfold update. destruct ss as [|s0 ss0]; [eauto|]. set (ss := s0 :: ss0) in *. clearbody ss.
      destruct (background_words_spec ss ltac:(intros s H; apply Hg; apply in_or_app; auto) (u_word st0) N1) as (d1 & B0 & _). unfold update_words. rewrite B0. cbn [bind].
      assert (forall pred d, (forall p, In p pred -> name p <> None) -> exists d', update_true name d pred = Ok d') as U.
      { induction pred as [|p pred IHp]; intros d Hp; cbn [update_true]; [eauto|]. destruct (name p) eqn:Ep; [|exfalso; apply (Hp p (or_introl eq_refl)); exact Ep]. apply IHp. intros q Hq. apply Hp. right. exact Hq. }
      destruct (U (concat (map s_pred ss)) (u_true st0)) as [t Et].
      { intros p Hp. apply in_concat in Hp. destruct Hp as (l & Hl & Hp). apply in_map_iff in Hl. destruct Hl as (s & <- & Hs). apply (Hn s); [apply in_or_app; auto|exact Hp]. }
      rewrite Et. cbn [bind]. eauto.
    - destruct (IH1 ltac:(intros s Hs; apply Hg; apply in_or_app; auto) ltac:(intros s p Hs; apply Hn; apply in_or_app; auto)) as [a Ea].
      destruct (IH2 ltac:(intros s Hs; apply Hg; apply in_or_app; auto) ltac:(intros s p Hs; apply Hn; apply in_or_app; auto)) as [b Eb]. rewrite Ea, Eb. cbn [bind]. eauto.
  Qed.
End ULabel.

(** Characters are numbers; 0 is a separator. *)
Definition demo (text : list nat) (spans : list (nat * nat * nat)) : sample nat nat := mkSample text (map (fun _ => 1) text) spans.
Notation demo_run := (run (fun c => c =? 0) 0 (fun p => Some p)).

Example C32_example :
  demo_run (HAdd (HUpd HNew [demo [5; 5; 0; 6; 6; 0] [(3, 5, 7)]]) (HUpd HNew [demo [5; 0; 5] []])) =
    Ok (mkState [(0, 2%Z); (7, 1%Z)] [(1, 9%Z)] [(0, 7%Z); (7, 2%Z)] 9 3).
Proof. vm_compute. reflexivity. Qed.

(** A user expects every word of a text to be counted.  A text that is a single word has no words. *)
Theorem C32_single_word_refuted :
  ~ (forall text st, text <> [] -> (forall c, In c text -> c <> 0) -> demo_run (HUpd HNew [demo text []]) = Ok st -> (0 < u_words st)%Z).
Proof.
  intro H. destruct (demo_run (HUpd HNew [demo [5; 5] []])) as [st|] eqn:E; [|discriminate]. specialize (H [5; 5] st ltac:(discriminate) ltac:(intros c [<-|[<-|[]]]; discriminate) E).
  vm_compute in E. injection E as <-. discriminate.
Qed.

(** A user expects an entity to end the word before it.  The word before an entity that touches it runs on
    behind the entity, so that two words and the entity between them count as two words. *)
Theorem C32_words_around_entity_refuted :
  ~ (forall a b l st, a <> [] -> b <> [] -> (forall c, In c (a ++ b) -> c <> 0) ->
       demo_run (HUpd HNew [demo (a ++ [6] ++ b ++ [0]) [(length a, S (length a), l)]]) = Ok st -> u_words st = 3%Z).
Proof.
  intro H. destruct (demo_run (HUpd HNew [demo ([5] ++ [6] ++ [5] ++ [0]) [(1, 2, 7)]])) as [st|] eqn:E; [|discriminate].
  specialize (H [5] [5] 7 st ltac:(discriminate) ltac:(discriminate) ltac:(intros c [<-|[<-|[]]]; discriminate) E). vm_compute in E. injection E as <-. discriminate.
Qed.

Print Assumptions C32_predicted_characters.
Print Assumptions C32_characters.
Print Assumptions C32_words.
Print Assumptions C32_percentages.
Print Assumptions C32_succeeds.
