(** * Properties of text columns and categories for the cells of a column *)
From Coq Require Import List Arith Bool ZArith Lia QArith Qabs Permutation Ascii Lqa.
From Coq Require String.
Import ListNotations.
From Verif Require Import PyCommon PyDict PyString QFacts.
From Verif Require NullModel NullProofs NullProps NullCellModel NullCellProps.
From Verif Require NumericModel NumericProofs NumericProps.
From Verif Require CategoricalModel CategoricalProofs CategoricalProps CategoricalProps2.
From Verif Require CellsProps.
From Verif Require Import TextColModel.
Import String.StringSyntax.
Local Delimit Scope string_scope with string.
Local Open Scope list_scope.
Local Open Scope nat_scope.

Notation chars := NullCellModel.chars.
Notation picks := CellsProps.picks.
Notation given_cell := CellsProps.given_cell.
Notation whole_batch := CellsProps.whole_batch.

Fixpoint cells (h : history) : list string :=
  match h with
  | New _ _ _ _ _ _ _ _ => []
  | Upd h t => cells h ++ map snd (NullModel.t_rows t)
  | Add h1 h2 => cells h1 ++ cells h2
  end.
(** What is switched on: in all profiles that were merged *)
Fixpoint unbiased (h : history) : bool :=
  match h with New b _ _ _ _ _ _ _ => b | Upd h _ => unbiased h | Add h1 h2 => unbiased h1 && unbiased h2 end.
Fixpoint numeric (h : history) : bool :=
  match h with New _ n _ _ _ _ _ _ => n | Upd h _ => numeric h | Add h1 h2 => numeric h1 && numeric h2 end.
Fixpoint letters_on (h : history) : bool :=
  match h with New _ _ v _ _ _ _ _ => v | Upd h _ => letters_on h | Add h1 h2 => letters_on h1 && letters_on h2 end.

(** Batches of which all rows are looked at, and merges of profiles of one column that have cells *)
Fixpoint proper (name : option string) (idx : option nat) (h : history) : Prop :=
  match h with
  | New _ _ _ n i _ _ _ => n = name /\ i = idx
  | Upd h t => proper name idx h /\ whole_batch t
  | Add h1 h2 => (proper name idx h1 /\ cells h1 <> []) /\ (proper name idx h2 /\ cells h2 <> [])
  end.
(** No thresholds at which counting stops *)
Fixpoint counting (h : history) : Prop :=
  match h with
  | New _ _ _ _ _ _ maxn ratio => maxn = None \/ ratio = None
  | Upd h _ => counting h
  | Add h1 h2 => counting h1 /\ counting h2
  end.

Definition len (c : string) : Q := Qn (length (chars c)).

Section Histories.
  Variable listed : list ascii -> list ascii.
  Hypothesis listed_perm : forall l, Permutation (listed l) l.
  Variable order : list NullModel.label -> list NullModel.label.
  Hypothesis order_perm : forall l, Permutation (order l) l.
  Variable vc : list string -> dict string nat.
  Hypothesis vc_ok : CategoricalProofs.value_counts_ok vc.
  Variable alts : list (list NullCellModel.piece).
  Hypothesis parsed :
    NullCellModel.parse (NullCellModel.join (map chars (dkeys NullCellModel.default_nulls))) = Ok alts.

  Let nb (c : string) : bool := NullCellModel.anchored alts (chars c).
  Let given (l : list string) : list string := filter (fun c => negb (nb c)) l.

  Lemma distinct_In l c : In c (distinct l) <-> In c l.
  Proof. apply nodup_In. Qed.

  Lemma combine_spec a b : NoDup (combine_unique_sets listed a b) /\
    forall c, In c (combine_unique_sets listed a b) <-> In c a \/ In c b.
  Proof.
    assert (forall l, NoDup (listed (distinct l)) /\ forall c, In c (listed (distinct l)) <-> In c l) as L.
    { intros l. split.
      - apply (Permutation_NoDup (Permutation_sym (listed_perm _))). apply NoDup_nodup.
      - intros c. rewrite <- (distinct_In l). split; apply Permutation_in; [|apply Permutation_sym]; apply listed_perm. }
    unfold combine_unique_sets. destruct a as [|x a], b as [|y b].
    - split; [constructor|]. intros c. cbn [In]. tauto.
    - destruct (L (y :: b)) as [L1 L2]. split; [exact L1|]. intros c. rewrite L2. cbn [In]. tauto.
    - destruct (L (x :: a)) as [L1 L2]. split; [exact L1|]. intros c. rewrite L2. cbn [In]. tauto.
    - destruct (L ((x :: a) ++ (y :: b))) as [L1 L2]. split; [exact L1|]. intros c. rewrite L2, in_app_iff. reflexivity.
  Qed.

  Definition letters_ok (on : bool) (v : list ascii) (l : list string) : Prop :=
    NoDup v /\ (if on then forall c, In c v <-> exists s, In s l /\ In c (chars s) else v = []).

  Definition num_ok (on b : bool) (s : NumericModel.num) (l : list string) : Prop :=
    if on then exists nh, s = NumericProofs.run nh /\ NumericProofs.all_bias nh = b /\
        Permutation (NumericProofs.data nh) (map len l) /\ NumericProofs.cells nh = length l
    else s = NumericModel.mkNum (length l) (length l) None None 0%Q None 0 0 b.

  Lemma num_counts on b s l : num_ok on b s l ->
    NumericModel.nm_match s = length l /\ NumericModel.nm_sample s = length l /\ NumericModel.nm_bias s = b.
  Proof.
    unfold num_ok. destruct on.
    - intros (nh & -> & B & P & C). destruct (NumericProps.C47_match_counts nh) as (M1 & M2 & _).
      rewrite M1, M2, C, (Permutation_length P), map_length, NumericProofs.run_bias. auto.
    - intros ->. auto.
  Qed.

  Lemma matched_some {A} (f : A -> Q) l : NumericModel.matched (map (fun c => Some (f c)) l) = map f l.
  Proof. induction l as [|x l IH]; [reflexivity|]. cbn. unfold NumericModel.matched in IH. rewrite IH. reflexivity. Qed.

  Lemma text_update s b l : forall on von,
    x_numeric s = on -> x_vocab_on s = von -> forall old bias, num_ok on bias (x_num s) old -> letters_ok von (x_vocab s) old ->
    Permutation b l ->
    let s' := update_text listed s b in
    x_numeric s' = on /\ x_vocab_on s' = von /\ num_ok on bias (x_num s') (old ++ l) /\ letters_ok von (x_vocab s') (old ++ l).
  Proof.
    intros on von <- <- old bias Hn Hl P. cbv zeta. unfold update_text.
    destruct (Nat.eqb_spec (length b) 0) as [E|E].
    - apply length_zero_iff_nil in E. subst b. apply Permutation_nil in P. subst l. rewrite app_nil_r. auto.
    - cbn [x_numeric x_vocab_on x_num x_vocab]. split; [reflexivity|]. split; [reflexivity|]. split.
      + unfold num_ok in *. destruct (x_numeric s).
        * destruct Hn as (nh & -> & B & Pd & C).
          exists (NumericProofs.NUpd nh (map (fun c => Some (len c)) b)).
          cbn [NumericProofs.run NumericProofs.all_bias NumericProofs.data NumericProofs.cells].
          split; [reflexivity|]. split; [exact B|]. split.
          -- rewrite matched_some, map_app. apply Permutation_app; [exact Pd|apply Permutation_map, P].
          -- rewrite map_length, app_length, C, (Permutation_length P). reflexivity.
        * rewrite Hn. unfold count_only. cbn. rewrite app_length, (Permutation_length P). reflexivity.
      + destruct Hl as [N Hl]. unfold letters_ok. destruct (x_vocab_on s).
        * destruct (combine_spec (x_vocab s) (distinct (flat_map chars b))) as [C1 C2]. split; [exact C1|].
          intros c. rewrite C2, Hl, distinct_In, in_flat_map. split.
          -- intros [(x & I & J)|(x & I & J)]; exists x; (split; [apply in_or_app|exact J]);
               [left; exact I|right; exact (Permutation_in _ P I)].
          -- intros (x & I & J). apply in_app_or in I. destruct I as [I|I]; [left|right]; exists x; (split; [|exact J]);
               [exact I|exact (Permutation_in _ (Permutation_sym P) I)].
        * split; [exact N|exact Hl].
  Qed.

  Lemma text_add s1 s2 l1 l2 b1 b2 :
    num_ok (x_numeric s1) b1 (x_num s1) l1 -> letters_ok (x_vocab_on s1) (x_vocab s1) l1 ->
    num_ok (x_numeric s2) b2 (x_num s2) l2 -> letters_ok (x_vocab_on s2) (x_vocab s2) l2 ->
    let s := add_text listed s1 s2 in
    x_numeric s = x_numeric s1 && x_numeric s2 /\ x_vocab_on s = x_vocab_on s1 && x_vocab_on s2 /\
    num_ok (x_numeric s) (b1 && b2) (x_num s) (l1 ++ l2) /\ letters_ok (x_vocab_on s) (x_vocab s) (l1 ++ l2).
  Proof.
    intros N1 L1 N2 L2. cbv zeta. unfold add_text. cbn [x_numeric x_vocab_on x_num x_vocab].
    split; [reflexivity|]. split; [reflexivity|]. split.
    - destruct (num_counts _ _ _ _ N1) as (M1 & S1 & B1). destruct (num_counts _ _ _ _ N2) as (M2 & S2 & B2).
      assert (num_ok false (b1 && b2) (counts_merged (x_num s1) (x_num s2)) (l1 ++ l2)) as Off.
      { unfold num_ok, counts_merged. rewrite M1, M2, S1, S2, B1, B2, app_length. reflexivity. }
      destruct (x_numeric s1); [destruct (x_numeric s2)|]; cbn [andb]; try exact Off.
      destruct N1 as (h1 & -> & C1 & P1 & D1). destruct N2 as (h2 & -> & C2 & P2 & D2).
      exists (NumericProofs.NAdd h1 h2). cbn [NumericProofs.run NumericProofs.all_bias NumericProofs.data NumericProofs.cells].
      rewrite C1, C2, D1, D2, app_length, map_app. split; [reflexivity|]. split; [reflexivity|].
      split; [apply Permutation_app; assumption|reflexivity].
    - destruct L1 as [U1 L1], L2 as [U2 L2].
      destruct (x_vocab_on s1); [destruct (x_vocab_on s2)|]; cbn [andb]; try (split; [constructor|reflexivity]).
      destruct (combine_spec (x_vocab s1) (distinct (x_vocab s2))) as [C1 C2]. split; [exact C1|].
      intros c. rewrite C2, distinct_In, L1, L2. split.
      + intros [(x & I & J)|(x & I & J)]; exists x; (split; [apply in_or_app|exact J]); tauto.
      + intros (x & I & J). apply in_app_or in I. destruct I as [I|I]; [left|right]; exists x; auto.
  Qed.

  Lemma run_proper name idx h : proper name idx h -> exists s, run listed NullCellModel.default_nulls order vc h = Ok s /\
    NullModel.c_size (t_base s) = length (cells h) /\
    x_numeric (t_text s) = numeric h /\ x_vocab_on (t_text s) = letters_on h /\
    num_ok (numeric h) (unbiased h) (x_num (t_text s)) (given (cells h)) /\
    letters_ok (letters_on h) (x_vocab (t_text s)) (given (cells h)) /\
    exists ch, CategoricalProofs.run vc ch = Ok (t_cats s) /\ CategoricalProps2.same_column name idx ch /\
      Permutation (CategoricalProofs.rows ch) (given (cells h)) /\
      (counting h -> CategoricalProps.no_thresholds ch).
  Proof.
    induction h as [b n v nm ix tk mx rt|h IH t|h1 IH1 h2 IH2]; cbn [proper cells run unbiased numeric letters_on].
    - intros [-> ->]. eexists. split; [reflexivity|]. cbn. split; [reflexivity|]. split; [reflexivity|]. split; [reflexivity|].
      split; [|split].
      + unfold num_ok. destruct n; [|reflexivity]. exists (NumericProofs.NNew b). repeat split. constructor.
      + split; [constructor|]. destruct v; [|reflexivity]. intros c. split; [contradiction|intros (s & [] & _)].
      + exists (CategoricalProofs.HNew name idx tk mx rt). split; [reflexivity|]. split; [split; reflexivity|].
        split; [constructor|]. intros H. exact H.
    - intros [H W]. destruct (IH H) as (s & -> & C1 & T1 & T2 & Tn & Tl & ch & G1 & G2 & G3 & G4).
      cbn [bind]. unfold update_column. rewrite parsed. cbn [bind].
      change (fun c => NullCellModel.anchored alts (chars c)) with nb.
      destruct (CellsProps.batch_ok order order_perm alts t W) as (B1 & B0 & B2 & B3).
      change (fun c => NullCellModel.anchored alts (chars c)) with nb in B1, B2, B3.
      set (r := NullModel.clean_batch nb order t) in *.
      set (l := map snd (NullModel.t_rows t)) in *.
      unfold NullModel.update_base. rewrite B1. destruct (Nat.eqb_spec (length l) 0) as [E|E].
      { exfalso. apply B0. apply length_zero_iff_nil, E. }
      cbn [bind]. eexists. split; [reflexivity|]. cbn [t_base t_text t_cats NullModel.c_size].
      rewrite C1, app_length. split; [reflexivity|].
      unfold given in *. rewrite filter_app.
      destruct (text_update (t_text s) (map snd (fst r)) (filter (fun c => negb (nb c)) l)
        (numeric h) (letters_on h) T1 T2 _ (unbiased h) Tn Tl B3) as (U1 & U2 & U3 & U4).
      split; [exact U1|]. split; [exact U2|]. split; [exact U3|]. split; [exact U4|].
      exists (CategoricalProofs.HUpd ch (map snd (fst r))).
      cbn [CategoricalProofs.run CategoricalProps2.same_column CategoricalProofs.rows CategoricalProps.no_thresholds counting].
      rewrite G1. split; [reflexivity|]. split; [exact G2|]. split; [apply Permutation_app; assumption|exact G4].
    - intros [[H1 N1] [H2 N2]].
      destruct (IH1 H1) as (s1 & -> & C1 & T1 & T2 & Tn & Tl & ch1 & G1 & G2 & G3 & G4).
      destruct (IH2 H2) as (s2 & -> & D1 & V1 & V2 & Vn & Vl & ch2 & J1 & J2 & J3 & J4).
      cbn [bind]. unfold add_column, NullModel.add, NullModel.update_base, NullModel.as_base.
      cbn [NullModel.b_size]. rewrite C1. destruct (Nat.eqb_spec (length (cells h1)) 0) as [E|E].
      { exfalso. apply N1. apply length_zero_iff_nil, E. }
      cbn [bind NullModel.b_size]. rewrite D1. destruct (Nat.eqb_spec (length (cells h2)) 0) as [E'|E'].
      { exfalso. apply N2. apply length_zero_iff_nil, E'. }
      cbn [bind].
      destruct (CategoricalProps2.C04_merge_succeeds vc name idx (CategoricalProofs.HAdd ch1 ch2) vc_ok (conj G2 J2)) as (sc & Es & _).
      pose proof Es as Es'. cbn [CategoricalProofs.run] in Es'. rewrite G1, J1 in Es'. cbn [bind] in Es'. rewrite Es'. cbn [bind].
      eexists. split; [reflexivity|].
      cbn [t_base t_text t_cats NullModel.c_size NullModel.new_col].
      rewrite app_length. split; [lia|]. unfold given in *. rewrite filter_app.
      rewrite <- T1 in Tn. rewrite <- T2 in Tl. rewrite <- V1 in Vn. rewrite <- V2 in Vl.
      destruct (text_add _ _ _ _ _ _ Tn Tl Vn Vl) as (U1 & U2 & U3 & U4).
      rewrite T1, V1 in U1. rewrite T2, V2 in U2. rewrite U1 in U3. rewrite U2 in U4.
      split; [exact U1|]. split; [exact U2|]. split; [exact U3|]. split; [exact U4|].
      exists (CategoricalProofs.HAdd ch1 ch2).
      cbn [CategoricalProps2.same_column CategoricalProofs.rows CategoricalProps.no_thresholds counting].
      split; [exact Es|]. split; [split; assumption|]. split; [apply Permutation_app; assumption|]. tauto.
  Qed.

  Lemma picks_given l : picks given_cell l (given l).
  Proof.
    apply (CellsProps.picks_filter (fun c => negb (nb c))). intros c.
    rewrite <- (CellsProps.nb_missing alts parsed c), negb_true_iff. unfold nb.
    destruct (NullCellModel.anchored alts (chars c)); intuition congruence.
  Qed.
End Histories.

Lemma given_nonempty c d : given_cell c d -> (0 < len d)%Q.
Proof.
  intros [N ->]. unfold len. destruct (chars c) as [|x r] eqn:E.
  - exfalso. apply N. left. left. exact E.
  - apply (Qn_pos (length (x :: r))). cbn. lia.
Qed.

Lemma picks_in {A B} (R : A -> B -> Prop) l ys : picks R l ys -> forall y, In y ys -> exists x, In x l /\ R x y.
Proof.
  induction 1 as [|x xs ys H P IH|x xs y ys H P IH]; intros z Hz.
  - contradiction.
  - destruct (IH z Hz) as (w & I & J). exists w. split; [right; exact I|exact J].
  - destruct Hz as [<-|Hz]; [exists x; split; [left; reflexivity|exact H]|].
    destruct (IH z Hz) as (w & I & J). exists w. split; [right; exact I|exact J].
Qed.

(** The text statistics of a column after any updates and merges are those of the lengths of the cells
    that are not missing; shortest and longest are exact, since no length is 0. *)
Theorem C110_lengths : forall listed order vc, (forall l, Permutation (listed l) l) -> (forall l, Permutation (order l) l) ->
  CategoricalProofs.value_counts_ok vc -> forall name idx h, proper name idx h ->
  exists s gs, run listed NullCellModel.default_nulls order vc h = Ok s /\ picks given_cell (cells h) gs /\
    NullModel.c_size (t_base s) = length (cells h) /\
    NumericModel.nm_match (x_num (t_text s)) = length gs /\ NumericModel.nm_sample (x_num (t_text s)) = length gs /\
    (numeric h = true ->
       CellsProps.statistics (x_num (t_text s)) (unbiased h) (length gs) (map len gs) /\
       (gs = [] -> NumericModel.nm_min (x_num (t_text s)) = None /\ NumericModel.nm_max (x_num (t_text s)) = None) /\
       (gs <> [] -> exists lo hi, NumericModel.nm_min (x_num (t_text s)) = Some lo /\ is_min lo (map len gs) /\
                                  NumericModel.nm_max (x_num (t_text s)) = Some hi /\ is_max hi (map len gs))) /\
    (numeric h = false -> NumericModel.nm_min (x_num (t_text s)) = None /\ NumericModel.nm_max (x_num (t_text s)) = None /\
       NumericModel.nm_sum (x_num (t_text s)) = 0%Q /\ NumericModel.variance (x_num (t_text s)) = None).
Proof.
  intros listed order vc Lp Op Vc name idx h Hp. destruct CellsProps.default_parsed as [alts Pa].
  destruct (run_proper listed Lp order Op vc Vc alts Pa name idx h Hp) as (s & E & C1 & _ & _ & Hn & _).
  set (gs := filter (fun c => negb (NullCellModel.anchored alts (chars c))) (cells h)) in *.
  pose proof (picks_given alts Pa (cells h)) as Pg. fold gs in Pg.
  exists s, gs. split; [exact E|]. split; [exact Pg|]. split; [exact C1|].
  destruct (num_counts _ _ _ _ Hn) as (M1 & M2 & _). split; [exact M1|]. split; [exact M2|].
  unfold num_ok in Hn. split; intros On; rewrite On in Hn.
  - destruct Hn as (nh & -> & B & P & C). rewrite <- C. split; [apply CellsProps.statistics_of; assumption|]. split.
    + intros Eg. rewrite Eg in P. cbn [map] in P. apply Permutation_sym, Permutation_nil in P.
      pose proof (NumericProps.C08_minimum nh) as Mn. pose proof (NumericProps.C08_maximum nh) as Mx. rewrite P in Mn, Mx.
      destruct (NumericModel.nm_min _); [destruct Mn as [[] _]|]. destruct (NumericModel.nm_max _); [destruct Mx as [[] _]|]. auto.
    + intros Ng.
      assert (NumericProofs.data nh <> []) as Nd.
      { intros F. rewrite F in P. apply Permutation_nil in P. apply map_eq_nil in P. contradiction. }
      assert (forall x, In x (NumericProofs.data nh) -> (0 < x)%Q) as Pos.
      { intros x Hx. apply (Permutation_in _ P), in_map_iff in Hx. destruct Hx as (d & <- & Hd).
        destruct (picks_in _ _ _ Pg d Hd) as (c & _ & G). apply (given_nonempty c d G). }
      pose proof (NumericProps.C08_minimum nh) as Mn. pose proof (NumericProps.C08_maximum nh) as Mx.
      destruct (NumericModel.nm_min _) as [lo|]; [|contradiction]. destruct (NumericModel.nm_max _) as [hi|]; [|contradiction].
      assert (forall z, In z (NumericProofs.data nh) -> (z == 0)%Q -> False) as Nz by (intros z Hz E0; specialize (Pos z Hz); lra).
      exists lo, hi. split; [reflexivity|]. split; [|split; [reflexivity|]].
      * destruct Mn as [_ [Mn|(z & [Iz _] & Ez & _)]]; [|destruct (Nz z Iz Ez)].
        destruct Mn as [I L]. split; [apply (Permutation_in _ P), I|].
        intros x Hx. apply L. apply (Permutation_in _ (Permutation_sym P)), Hx.
      * destruct Mx as [_ [Mx|(z & [Iz _] & Ez & _)]]; [|destruct (Nz z Iz Ez)].
        destruct Mx as [I L]. split; [apply (Permutation_in _ P), I|].
        intros x Hx. apply L. apply (Permutation_in _ (Permutation_sym P)), Hx.
  - rewrite Hn. cbn. repeat split. unfold NumericModel.variance, NumericModel.correct_bias_variance. cbn.
    destruct (unbiased h); cbn; [destruct (length gs <=? 1)|]; reflexivity.
Qed.
Print Assumptions C110_lengths.

(** The letters are those that occur in cells that are not missing, each once, if they are switched on in
    all profiles that were merged, and otherwise none. *)
Theorem C110_letters : forall listed order vc, (forall l, Permutation (listed l) l) -> (forall l, Permutation (order l) l) ->
  CategoricalProofs.value_counts_ok vc -> forall name idx h, proper name idx h ->
  exists s, run listed NullCellModel.default_nulls order vc h = Ok s /\ NoDup (x_vocab (t_text s)) /\
    forall c, In c (x_vocab (t_text s)) <->
      letters_on h = true /\ exists cell, In cell (cells h) /\ ~ CellsProps.missing cell /\ In c (chars cell).
Proof.
  intros listed order vc Lp Op Vc name idx h Hp. destruct CellsProps.default_parsed as [alts Pa].
  destruct (run_proper listed Lp order Op vc Vc alts Pa name idx h Hp) as (s & E & _ & _ & _ & _ & (N & Hl) & _).
  exists s. split; [exact E|]. split; [exact N|]. intros c.
  destruct (letters_on h).
  - rewrite Hl. split.
    + intros (x & I & J). split; [reflexivity|]. apply filter_In in I. destruct I as [I G]. exists x. split; [exact I|].
      split; [|exact J]. intros M. apply (CellsProps.nb_missing alts Pa) in M. rewrite M in G. discriminate G.
    + intros (_ & x & I & M & J). exists x. split; [|exact J]. apply filter_In. split; [exact I|].
      apply negb_true_iff. destruct (NullCellModel.anchored alts (chars x)) eqn:A; [|reflexivity].
      exfalso. apply M, (CellsProps.nb_missing alts Pa), A.
  - rewrite Hl. cbn [In]. split; [contradiction|]. intros [F _]. discriminate F.
Qed.
Print Assumptions C110_letters.

(** The categories are the cells that are not missing, each with the number of its occurrences. *)
Theorem C110_categories : forall listed order vc, (forall l, Permutation (listed l) l) -> (forall l, Permutation (order l) l) ->
  CategoricalProofs.value_counts_ok vc -> forall name idx h, proper name idx h -> counting h ->
  exists s gs, run listed NullCellModel.default_nulls order vc h = Ok s /\ picks given_cell (cells h) gs /\
    CategoricalModel.cat_n (t_cats s) = length gs /\ NoDup (dkeys (CategoricalModel.cat_cats (t_cats s))) /\
    (forall c, dget (CategoricalModel.cat_cats (t_cats s)) c =
      if count_occ String.string_dec gs c =? 0 then None else Some (count_occ String.string_dec gs c)) /\
    CategoricalModel.unique_count (t_cats s) = Some (length (nodup String.string_dec gs)).
Proof.
  intros listed order vc Lp Op Vc name idx h Hp Hc. destruct CellsProps.default_parsed as [alts Pa].
  destruct (run_proper listed Lp order Op vc Vc alts Pa name idx h Hp) as (s & E & _ & _ & _ & _ & _ & ch & G1 & G2 & G3 & G4).
  set (gs := filter (fun c => negb (NullCellModel.anchored alts (chars c))) (cells h)) in *.
  exists s, gs. split; [exact E|]. split; [exact (picks_given alts Pa (cells h))|].
  pose proof (CategoricalProps.C04_never_stops_without_thresholds vc ch _ (G4 Hc) G1) as St.
  destruct (CategoricalProps.C04_counts_are_occurrences vc ch _ Vc G1 St) as (N & O & _ & L).
  assert (forall c, occ c (CategoricalProofs.rows ch) = count_occ String.string_dec gs c) as Occ.
  { intros c. rewrite <- (proj1 (Permutation_count_occ String.string_dec _ _) G3 c).
    clear. induction (CategoricalProofs.rows ch) as [|x r IH]; [reflexivity|].
    cbn [occ count_occ]. rewrite IH. destruct (PyDict.eqb_spec x c) as [->|Nx]; destruct (String.string_dec _ _) as [D|D]; try contradiction; try reflexivity; congruence. }
  split; [rewrite L; exact (Permutation_length G3)|]. split; [exact N|]. split.
  - intros c. rewrite O, Occ. reflexivity.
  - unfold CategoricalModel.unique_count. rewrite St. f_equal. apply Permutation_length.
    apply NoDup_Permutation; [exact N|apply NoDup_nodup|]. intros c. rewrite nodup_In, <- dmem_true. unfold dmem. rewrite O, Occ.
    rewrite (count_occ_In String.string_dec). destruct (count_occ String.string_dec gs c); cbn; split; intros; try lia; congruence.
Qed.
Print Assumptions C110_categories.

(** The expectation that merging keeps the letters of a profile is false if they are switched off in the other. *)
Definition ex_row (z : Z) (s : string) : NullModel.label * string := (NullModel.LI z, s).
Definition ex_batch (a b : string) : NullModel.batch string := NullModel.mkBatch [ex_row 0 a; ex_row 1 b] 5000 0 [[1; 0]].
Definition ex_half (von : bool) (a b : string) : history := Upd (New true true von None None None None None) (ex_batch a b).

Lemma ex_whole a b : whole_batch (ex_batch a b).
Proof.
  split; [discriminate|]. split; [|split].
  - cbn. constructor; [intros [N|[]]; discriminate N|]. constructor; [intros []|constructor].
  - cbn. apply perm_swap.
  - apply Nat.leb_le. reflexivity.
Qed.

Lemma ex_proper v1 v2 a b c d : proper None None (Add (ex_half v1 a b) (ex_half v2 c d)).
Proof.
  split; split; try (split; [split; reflexivity|apply ex_whole]); discriminate.
Qed.

Theorem C110_merge_keeps_letters_refuted :
  ~ (forall listed order vc, (forall l, Permutation (listed l) l) -> (forall l, Permutation (order l) l) ->
     CategoricalProofs.value_counts_ok vc -> forall h1 h2 s1 s, proper None None (Add h1 h2) ->
     run listed NullCellModel.default_nulls order vc h1 = Ok s1 ->
     run listed NullCellModel.default_nulls order vc (Add h1 h2) = Ok s ->
     forall c, In c (x_vocab (t_text s1)) -> In c (x_vocab (t_text s))).
Proof.
  intros H.
  specialize (H (fun l => l) (fun l => l) CategoricalProofs.vc_simple (fun l => Permutation_refl l) (fun l => Permutation_refl l)
    CategoricalProofs.vc_simple_ok (ex_half true "ab"%string "c"%string) (ex_half false "d"%string "e"%string)).
  specialize (H _ _ (ex_proper true false _ _ _ _) ltac:(vm_compute; reflexivity) ltac:(vm_compute; reflexivity) "a"%char).
  vm_compute in H. apply H. right. left. reflexivity.
Qed.
Print Assumptions C110_merge_keeps_letters_refuted.

Example C110_example : exists s,
  run (fun l => l) NullCellModel.default_nulls (fun l => l) CategoricalProofs.vc_simple
    (Add (ex_half true "ab"%string "nan"%string) (Upd (ex_half true "ab"%string "c"%string) (ex_batch "--"%string "bcd"%string))) = Ok s /\
  NullModel.c_size (t_base s) = 6 /\ NumericModel.nm_match (x_num (t_text s)) = 4 /\
  (NumericModel.nm_sum (x_num (t_text s)) == 8)%Q /\ NumericModel.nm_max (x_num (t_text s)) = Some 3%Q /\
  length (x_vocab (t_text s)) = 4 /\ dget (CategoricalModel.cat_cats (t_cats s)) "ab"%string = Some 2 /\
  dget (CategoricalModel.cat_cats (t_cats s)) "nan"%string = None.
Proof. eexists. split; [vm_compute; reflexivity|]. vm_compute. repeat split. Qed.
