(** C83: which texts are recognised as delimited *)
From Coq Require Import Ascii Lia.
From Coq Require String.
From Verif Require Import PyCommon PyDict PyString PyEq ListFacts TextModel ReadModel StructModel CsvModel CsvCells CsvHeaderProps CsvWordsProps.
Local Open Scope nat_scope.
Local Open Scope list_scope.

(** Delimiters outside quotes: those with an even number of quotes behind them *)
Definition outside_at (c q : ascii) (s : text) (p : nat) : bool :=
  match nth_error s p with Some x => Ascii.eqb x c && Nat.even (length (filter (fun y => Ascii.eqb y q) (skipn (S p) s))) | None => false end.
Definition outside (c q : ascii) (s : text) : nat := length (filter (outside_at c q s) (seq 0 (length s))).
(** Without a delimiter, blanks are counted, but not those at the end. *)
Definition delimiters (c : option ascii) (q : ascii) (line : text) : nat :=
  match c with Some c => outside c q line | None => outside blank q (rstrip line) end.
(** Up to the first line of two characters or more *)
Fixpoint upto (lines : list text) : list text :=
  match lines with [] => [] | l :: r => l :: (if 1 <? length l then [] else upto r) end.
(** The lines that are looked at: the first 999, and the following up to the first with content *)
Definition seen (lines : list text) : list text := firstn 999 lines ++ upto (skipn 999 lines).
Definition content (lines : list text) : list text := filter (fun l => 1 <? length l) lines.
(** The most common number, the first of them if there are several *)
Definition times (k : nat) (ks : list nat) : nat := length (filter (Nat.eqb k) ks).
Definition mode (ks : list nat) (k : nat) : Prop :=
  (forall k', times k' ks <= times k ks) /\ exists a b, ks = a ++ k :: b /\ forall k', In k' a -> times k' ks < times k ks.

Lemma occ_filter (q : ascii) s : occ q s = length (filter (fun y => Ascii.eqb y q) s).
Proof. induction s as [|x s IH]; [reflexivity|]. cbn [occ filter]. change (PyDict.eqb x q) with (Ascii.eqb x q). destruct (Ascii.eqb x q); cbn [length]; lia. Qed.
Lemma outside_cons c q x s : outside c q (x :: s) = (if Ascii.eqb x c && Nat.even (occ q s) then 1 else 0) + outside c q s.
Proof.
  unfold outside. cbn [length seq]. rewrite <- seq_shift. cbn [filter].
  assert (M : forall l, length (filter (outside_at c q (x :: s)) (map S l)) = length (filter (outside_at c q s) l)).
  { induction l as [|p l IH]; [reflexivity|]. cbn [map filter]. change (outside_at c q (x :: s) (S p)) with (outside_at c q s p). destruct (outside_at c q s p); cbn [length]; rewrite IH; reflexivity. }
  unfold outside_at at 1. cbn [nth_error skipn]. rewrite <- occ_filter. destruct (_ && _)%bool; cbn [length]; rewrite M; reflexivity.
Qed.
Lemma cells_count c q s : length (cells [c] q s) = 1 + outside c q s.
Proof.
  unfold cells. induction s as [|x s IH]; [reflexivity|]. cbn [cells_from]. rewrite at_delimiter_one, outside_cons. change (PyDict.eqb c x) with (Ascii.eqb c x). rewrite (Ascii.eqb_sym c x).
  destruct (_ && _)%bool; cbn [length Nat.sub].
  - rewrite IH. reflexivity.
  - destruct (cells_from [c] q 0 s) eqn:E; [exfalso; eapply cells_ne, E|]. cbn [length] in *. exact IH.
Qed.
Definition one (c : option ascii) : option text := match c with Some c => Some [c] | None => None end.
Lemma delimiters_in_spec c q line : delimiters_in (one c) q line = delimiters c q line.
Proof. destruct c as [c|]; unfold delimiters_in, delimiters, one; rewrite cells_count; lia. Qed.

Lemma occ_times k ks : occ k ks = times k ks.
Proof.
  unfold times. induction ks as [|x ks IH]; [reflexivity|]. cbn [occ filter]. change (PyDict.eqb x k) with (Nat.eqb x k). rewrite (Nat.eqb_sym x k). destruct (k =? x); cbn [length]; lia.
Qed.
Lemma times_app k a b : times k (a ++ b) = times k a + times k b.
Proof. unfold times. rewrite filter_app, app_length. reflexivity. Qed.
Lemma times_in k ks : In k ks <-> 0 < times k ks.
Proof.
  unfold times. induction ks as [|x ks IH]; cbn; [lia|]. destruct (Nat.eqb_spec k x) as [-> | N]; cbn; [split; [lia|auto]|]. rewrite <- IH. split; [intros [E | I]; [congruence|exact I]|auto].
Qed.

(** The dictionary of counts after the numbers [ks] *)
Record tally (counts : dict nat nat) (ks : list nat) : Prop := {
  t_nodup : NoDup (dkeys counts);
  t_get : forall k, dget counts k = if 0 <? times k ks then Some (times k ks) else None;
  t_order : forall a k b, dkeys counts = a ++ k :: b -> exists a' b', ks = a' ++ k :: b' /\ forall x, In x a' <-> In x a }.
Lemma tally_keys counts ks k : tally counts ks -> In k (dkeys counts) <-> In k ks.
Proof.
  intros T. rewrite (times_in k ks). assert (G := t_get _ _ T k). split.
  - intros I. destruct (Nat.ltb_spec 0 (times k ks)) as [P | P]; [exact P|]. apply dget_None in G. contradiction.
  - intros P. destruct (Nat.ltb_spec 0 (times k ks)); [|lia]. destruct (in_dec Nat.eq_dec k (dkeys counts)) as [I | N]; [exact I|]. apply dget_None in N. congruence.
Qed.
Lemma tally_add counts ks k : tally counts ks -> tally (dset counts k (match dget counts k with Some n => n | None => 0 end + 1)) (ks ++ [k]).
Proof.
  intros T. split.
  - apply NoDup_dset, T.
  - intros j. rewrite dget_dset, times_app. assert (G := t_get _ _ T j). assert (O : times j [k] = if j =? k then 1 else 0) by (unfold times; cbn [filter]; destruct (j =? k); reflexivity).
    rewrite O. destruct (PyDict.eqb_spec k j) as [-> | N].
    + rewrite G, Nat.eqb_refl. destruct (Nat.ltb_spec 0 (times j ks)); destruct (Nat.ltb_spec 0 (times j ks + 1)); try lia; f_equal; lia.
    + destruct (Nat.eqb_spec j k); [congruence|]. rewrite Nat.add_0_r. exact G.
  - intros a j b E. destruct (in_dec Nat.eq_dec k (dkeys counts)) as [I | NI].
    + assert (EK : dkeys (dset counts k (match dget counts k with Some n => n | None => 0 end + 1)) = dkeys counts).
      { rewrite dkeys_dset. rewrite (proj2 (dmem_true _ _) I). reflexivity. }
      rewrite EK in E. destruct (t_order _ _ T a j b E) as (a' & b' & -> & H). exists a', (b' ++ [k]). rewrite <- app_assoc. auto.
    + assert (EK : dkeys (dset counts k (match dget counts k with Some n => n | None => 0 end + 1)) = dkeys counts ++ [k]).
      { rewrite dkeys_dset. rewrite (proj2 (dmem_false _ _) NI). reflexivity. }
      rewrite EK in E. apply snoc_split in E. destruct E as [(b2 & E & _) | (-> & -> & _)].
      * destruct (t_order _ _ T a j b2 E) as (a' & b' & -> & H). exists a', (b' ++ [k]). rewrite <- app_assoc. auto.
      * exists ks, []. split; [reflexivity|]. intros x. symmetry. apply tally_keys, T.
Qed.

Lemma content_cons l r : content (l :: r) = if 1 <? length l then l :: content r else content r.
Proof. reflexivity. Qed.
Lemma count_lines_spec counter : forall lines line empty counts ks, tally counts ks ->
  let looked := firstn (999 - line) lines ++ upto (skipn (999 - line) lines) in
  exists counts', count_lines counter lines line empty counts = (line + length looked, empty + (length looked - length (content looked)), counts') /\
    tally counts' (ks ++ map counter (content looked)) /\ length (content looked) <= length looked.
Proof.
  induction lines as [|l r IH]; intros line empty counts ks T; cbn [count_lines].
  - rewrite firstn_nil, skipn_nil. cbn. exists counts. rewrite app_nil_r, !Nat.add_0_r. auto.
  - destruct (Nat.leb_spec (length l) 1) as [B | B].
    + specialize (IH (line + 1) (empty + 1) counts ks T). cbn beta zeta in IH. destruct IH as (counts' & E & T' & L).
      assert (X : firstn (999 - line) (l :: r) ++ upto (skipn (999 - line) (l :: r)) = l :: firstn (999 - (line + 1)) r ++ upto (skipn (999 - (line + 1)) r)).
      { destruct (Nat.le_gt_cases 999 line) as [G | G].
        - replace (999 - line) with 0 by lia. replace (999 - (line + 1)) with 0 by lia. cbn [firstn skipn app upto]. destruct (Nat.ltb_spec 1 (length l)); [lia|reflexivity].
        - replace (999 - line) with (S (999 - (line + 1))) by lia. reflexivity. }
      rewrite X. exists counts'. rewrite E. rewrite content_cons. destruct (Nat.ltb_spec 1 (length l)); [lia|]. cbn [length]. split; [|split; [exact T'|lia]].
      f_equal. f_equal; lia.
    + assert (TA := tally_add counts ks (counter l) T). set (c2 := dset counts (counter l) _) in *. destruct (Nat.leb_spec 1000 (line + 1)) as [G | G].
      * replace (999 - line) with 0 by lia. cbn [firstn skipn app upto]. destruct (Nat.ltb_spec 1 (length l)); [|lia]. rewrite content_cons.
        destruct (Nat.ltb_spec 1 (length l)); [|lia]. cbn [content filter length map]. exists c2. rewrite !Nat.add_0_r. auto.
      * destruct (IH (line + 1) empty c2 (ks ++ [counter l]) TA) as (counts' & E & T' & L).
        replace (999 - line) with (S (999 - (line + 1))) by lia. cbn [firstn skipn app]. rewrite content_cons. destruct (Nat.ltb_spec 1 (length l)); [|lia]. exists counts'. rewrite E. cbn [length map].
        split; [f_equal; f_equal; lia|]. split; [rewrite <- app_assoc in T'; exact T'|lia].
Qed.

Lemma most_common_spec r : forall best, exists a b, best :: r = a ++ most_common r best :: b /\ (forall e, In e a -> snd e < snd (most_common r best)) /\ forall e, In e (best :: r) -> snd e <= snd (most_common r best).
Proof.
  induction r as [|[k n] r IH]; intros best; cbn [most_common].
  - exists [], []. split; [reflexivity|]. split; [intros e []|]. intros e [<- | []]. lia.
  - destruct (Nat.ltb_spec (snd best) n) as [L | L].
    + destruct (IH (k, n)) as (a & b & E & H1 & H2). exists (best :: a), b. cbn [app]. rewrite <- E. split; [reflexivity|].
      assert (S := H2 (k, n) (or_introl eq_refl)). cbn [snd] in S. split.
      * intros e [<- | I]; [lia|apply H1, I].
      * intros e [<- | I]; [lia|apply H2, I].
    + destruct (IH best) as (a & b & E & H1 & H2). destruct a as [|a0 a]; cbn [app] in E; injection E as E1 E2.
      * exists [], ((k, n) :: r). cbn [app]. rewrite <- E1. split; [reflexivity|]. split; [intros e []|]. intros e [<- | [<- | I]]; [lia|cbn; lia|]. rewrite E1. apply H2. right. exact I.
      * subst a0. assert (S := H1 best (or_introl eq_refl)). exists (best :: (k, n) :: a), b. cbn [app]. split; [do 2 f_equal; exact E2|]. split.
        -- intros e [<- | [<- | I]]; [exact S|cbn; lia|]. apply H1. right. exact I.
        -- intros e [<- | [<- | I]]; [lia|cbn; lia|]. apply H2. right. exact I.
Qed.

Lemma mode_of_counts first rest ks : tally (first :: rest) ks -> let e := most_common rest first in mode ks (fst e) /\ snd e = times (fst e) ks.
Proof.
  intros T e. destruct (most_common_spec rest first) as (a & b & E & H1 & H2). fold e in E, H1, H2.
  assert (V : forall k n, In (k, n) (first :: rest) -> n = times k ks /\ 0 < n).
  { intros k n I. assert (G := dget_In _ k n (t_nodup _ _ T) I). rewrite (t_get _ _ T k) in G. destruct (Nat.ltb_spec 0 (times k ks)); [|discriminate]. injection G as <-. auto. }
  assert (IE : In e (first :: rest)) by (rewrite E; apply in_or_app; right; left; reflexivity). destruct e as [k n] eqn:Ee. cbn [fst snd] in *. destruct (V k n IE) as [VE VP]. split; [|exact VE].
  split.
  - intros k'. destruct (Nat.eq_0_gt_0_cases (times k' ks)) as [Z | P]; [lia|]. assert (G := t_get _ _ T k'). destruct (Nat.ltb_spec 0 (times k' ks)); [|lia].
    apply dget_Some_In in G. specialize (H2 _ G). cbn [snd] in H2. lia.
  - destruct (t_order _ _ T (map fst a) k (map fst b)) as (a' & b' & EK & HA).
    + unfold dkeys. rewrite E, map_app. reflexivity.
    + exists a', b'. split; [exact EK|]. intros k' I. apply HA in I. apply in_map_iff in I. destruct I as ((k2 & n2) & EQ & I). cbn in EQ. subst k2. specialize (H1 _ I). cbn [snd] in H1.
      destruct (V k' n2) as [-> _]; [rewrite E; apply in_or_app; left; exact I|]. lia.
Qed.
Lemma mode_unique ks k1 k2 : mode ks k1 -> mode ks k2 -> k1 = k2.
Proof.
  intros [M1 (a1 & b1 & E1 & H1)] [M2 (a2 & b2 & E2 & H2)]. assert (Q : times k1 ks = times k2 ks) by (specialize (M1 k2); specialize (M2 k1); lia).
  destruct (Nat.lt_trichotomy (length a1) (length a2)) as [L | [L | L]].
  - exfalso. assert (In k1 a2).
    { rewrite E1 in E2. assert (X : nth_error (a1 ++ k1 :: b1) (length a1) = Some k1) by (rewrite nth_error_app2, Nat.sub_diag by lia; reflexivity). rewrite E2, nth_error_app1 in X by exact L. eapply nth_error_In, X. }
    specialize (H2 k1 H). lia.
  - rewrite E1 in E2. apply app_inv_len in E2; [|exact L]. destruct E2 as [_ E2]. congruence.
  - exfalso. assert (In k2 a1).
    { rewrite E2 in E1. assert (X : nth_error (a2 ++ k2 :: b2) (length a2) = Some k2) by (rewrite nth_error_app2, Nat.sub_diag by lia; reflexivity). rewrite E1, nth_error_app1 in X by exact L. eapply nth_error_In, X. }
    specialize (H1 k2 H). lia.
Qed.
Lemma digits_spec p : forall fuel n, p <= fuel -> 10 ^ p <= n < 10 ^ (p + 1) -> digits_less_one fuel n = p.
Proof.
  induction p as [|p IH]; intros fuel n F [L U].
  - cbn in U. destruct fuel; [reflexivity|]. cbn [digits_less_one]. destruct (Nat.ltb_spec n 10); [reflexivity|lia].
  - destruct fuel as [|fuel]; [lia|]. cbn [digits_less_one]. assert (10 ^ S p = 10 * 10 ^ p) by reflexivity. assert (10 ^ (S p + 1) = 10 * 10 ^ (p + 1)) by reflexivity.
    assert (1 <= 10 ^ p) by (clear; induction p; cbn; lia). destruct (Nat.ltb_spec n 10); [lia|]. f_equal. apply IH; [lia|]. split; [apply Nat.div_le_lower_bound; lia|apply Nat.div_lt_upper_bound; lia].
Qed.
Lemma deviation_spec n p : 10 ^ p <= n < 10 ^ (p + 1) -> deviation n = 2 ^ p.
Proof. intros H. unfold deviation. f_equal. apply digits_spec; [|exact H]. assert (p < 10 ^ p) by (apply Nat.pow_gt_lin_r; lia). lia. Qed.
Lemma digits_exist n : 0 < n -> exists p, 10 ^ p <= n < 10 ^ (p + 1).
Proof.
  induction n as [n IH] using lt_wf_ind. intros P. destruct (Nat.lt_ge_cases n 10) as [L | L]; [exists 0; cbn; lia|].
  destruct (IH (n / 10)) as [p [A B]]; [apply Nat.div_lt; lia|apply Nat.div_str_pos; lia|]. exists (S p).
  assert (10 ^ S p = 10 * 10 ^ p) by reflexivity. assert (10 ^ (S p + 1) = 10 * 10 ^ (p + 1)) by reflexivity. assert (D := Nat.div_mod n 10 ltac:(lia)). assert (M := Nat.mod_upper_bound n 10 ltac:(lia)). lia.
Qed.

Definition quote_of (quote : option ascii) : ascii := match quote with Some q => q | None => dquote end.
Definition below (header : option nat) (s : text) : list text := seen (skipn (match header with Some h => h | None => 0 end) (split_at newline s)).

(** A text is accepted exactly if more than three of the lines looked at have content, and the most common number of delimiters (which is positive if there
    is a delimiter) is that of all of them but 2^p, if the number of lines looked at has p+1 digits. *)
Theorem C83_exact : forall s c quote header, consistent s (one c) quote header = true <->
  let lines := below header s in let ks := map (delimiters c (quote_of quote)) (content lines) in
  3 < length ks /\ exists k p, mode ks k /\ (c = None \/ 0 < k) /\ 10 ^ p <= length lines < 10 ^ (p + 1) /\ length ks <= times k ks + 2 ^ p.
Proof.
  intros s c quote header. cbn zeta. unfold consistent. fold (quote_of quote). set (all := skipn _ (split_at newline s)).
  assert (T0 : tally [] []).
  { split; [constructor|reflexivity|]. intros a k b E. destruct a; discriminate. }
  destruct (count_lines_spec (delimiters_in (one c) (quote_of quote)) all 0 0 [] [] T0) as (counts & E & T & L). rewrite Nat.sub_0_r in *.
  fold (seen all) in *. rewrite E. unfold below. fold all. cbn [Nat.add app] in *. set (ls := seen all) in *.
  rewrite (map_ext _ _ (fun l => delimiters_in_spec c (quote_of quote) l)) in T.
  set (ks := map (delimiters c (quote_of quote)) (content ls)) in *. assert (LK : length ks = length (content ls)) by (apply map_length).
  replace (length ls - (length ls - length (content ls))) with (length ks) by lia.
  destruct (Nat.leb_spec (length ks) 3) as [S | S].
  - split; [discriminate|]. intros [X _]. lia.
  - destruct counts as [|first rest].
    + exfalso. destruct ks as [|k ks]; [cbn in S; lia|]. destruct (proj2 (tally_keys _ _ k T) (or_introl eq_refl)).
    + destruct (mode_of_counts first rest ks T) as [M V]. destruct (most_common rest first) as [k n] eqn:EM. cbn [fst snd] in M, V.
      rewrite Bool.andb_true_iff, Bool.orb_true_iff, Nat.ltb_lt, Nat.leb_le. destruct (digits_exist (length ls)) as [p HP]; [lia|]. rewrite (deviation_spec _ p HP). split.
      * intros [H1 H2]. split; [exact S|]. exists k, p. split; [exact M|]. split; [destruct c as [c|]; [right; destruct H1 as [H1 | H1]; [exact H1|discriminate H1]|left; reflexivity]|]. split; [exact HP|]. lia.
      * intros (_ & k' & p' & M' & H1 & HP' & H2). assert (k' = k) as -> by (eapply mode_unique; eassumption).
        assert (2 ^ p' = 2 ^ p) by (rewrite <- (deviation_spec _ p HP), <- (deviation_spec _ p' HP'); reflexivity). split; [destruct H1 as [-> | H1]; [right; reflexivity|left; exact H1]|lia].
Qed.

(** Lines with content that all have the same number of delimiters, and at least four of them: accepted. *)
Theorem C83_same : forall s c quote header n, 0 < n -> (forall l, In l (skipn (match header with Some h => h | None => 0 end) (split_at newline s)) -> 1 < length l /\ outside c (quote_of quote) l = n) ->
  4 <= length (skipn (match header with Some h => h | None => 0 end) (split_at newline s)) -> consistent s (Some [c]) quote header = true.
Proof.
  intros s c quote header n N H L. apply (C83_exact s (Some c) quote header). cbn zeta. unfold below. set (all := skipn _ (split_at newline s)) in *.
  assert (UI : forall l ls, In l (upto ls) -> In l ls).
  { clear. induction ls as [|x ls IH]; [intros []|]. cbn [upto]. intros [<- | I]; [left; reflexivity|]. right. destruct (1 <? length x); [destruct I|apply IH, I]. }
  assert (IN : forall l, In l (seen all) -> In l all).
  { intros l I. apply in_app_or in I. destruct I as [I | I]; [eapply In_firstn, I|eapply In_skipn, UI, I]. }
  assert (SL : 4 <= length (seen all)) by (unfold seen; rewrite app_length, firstn_length; lia).
  assert (C : content (seen all) = seen all).
  { unfold content. assert (Q : forall ls : list text, (forall l, In l ls -> 1 < length l) -> filter (fun l => 1 <? length l) ls = ls).
    { clear. induction ls as [|x ls IH]; intros H; [reflexivity|]. cbn [filter]. rewrite (proj2 (Nat.ltb_lt _ _) (H x (or_introl eq_refl))). f_equal. apply IH. intros l I. apply H. right. exact I. }
    apply Q. intros l I. apply H, IN, I. }
  rewrite C. set (ks := map (delimiters (Some c) (quote_of quote)) (seen all)). assert (LK : length ks = length (seen all)) by apply map_length.
  assert (K : ks = repeat n (length ks)).
  { rewrite LK. unfold ks. assert (Q : forall ls, (forall l, In l ls -> In l all) -> map (delimiters (Some c) (quote_of quote)) ls = repeat n (length ls)).
    { induction ls as [|x ls IH]; intros Q; [reflexivity|]. cbn [map length repeat]. rewrite IH by (intros l I; apply Q; right; exact I). f_equal. apply H, Q. left. reflexivity. }
    apply Q, IN. }
  split; [lia|]. destruct (digits_exist (length (seen all))) as [p HP]; [lia|]. exists n, p.
  assert (TN : forall k m, times k (repeat n m) = if k =? n then m else 0).
  { intros k m. unfold times. induction m as [|m IH]; [destruct (k =? n); reflexivity|]. cbn [repeat filter]. destruct (Nat.eqb_spec k n); cbn [length]; lia. }
  repeat match goal with |- _ /\ _ => split end; try lia.
  - split; [intros k'; rewrite K, !TN, Nat.eqb_refl; destruct (k' =? n); lia|]. destruct (length ks) as [|m] eqn:Em; [lia|]. exists [], (repeat n m). split; [exact K|]. intros k' [].
  - rewrite K, TN, Nat.eqb_refl, repeat_length. lia.
Qed.
(** So are tables of two or more columns with at least four rows below the header. *)
Theorem C83_table : forall c q rows header n, c <> q -> c <> newline -> good_table c q rows -> 1 < n -> (forall row, In row rows -> length row = n /\ concat row <> []) ->
  match header with Some h => h | None => 0 end + 4 <= length rows -> consistent (table c rows) (Some [c]) (Some q) header = true.
Proof.
  intros c q rows header n CQ NL G N H L. apply (C83_same (table c rows) c (Some q) header (n - 1)); [lia| |]; cbn [quote_of]; rewrite (table_lines c q rows NL G).
  - intros l I. apply In_skipn in I. apply in_map_iff in I. destruct I as (row & <- & I). destruct (H row I) as [LR NE]. split.
    + assert (LJ : forall fs : list text, length (join [c] fs) = length (concat fs) + (length fs - 1)).
      { induction fs as [|f fs IH]; [reflexivity|]. destruct fs as [|g fs]; [cbn [join concat length]; rewrite app_nil_r; lia|].
        change (join [c] (f :: g :: fs)) with (f ++ c :: join [c] (g :: fs)). cbn [concat] in *. rewrite !app_length in *. cbn [length] in *. rewrite IH. lia. }
      rewrite LJ, LR. destruct (concat row); [contradiction|]. cbn [length]. lia.
    + assert (X := cells_count c q (join [c] row)). rewrite cells_row in X; [lia|exact CQ|apply G, I|]. intros f J. apply G with (row := row); assumption.
  - rewrite skipn_length, map_length. apply Nat.le_add_le_sub_l. exact L.
Qed.
(** Fewer than four lines with content are never enough. *)
Theorem C83_few : forall s c quote header, length (content (skipn (match header with Some h => h | None => 0 end) (split_at newline s))) < 4 -> consistent s (one c) quote header = false.
Proof.
  intros s c quote header L. apply Bool.not_true_iff_false. intro H. apply C83_exact in H. destruct H as [H _]. rewrite map_length in H. unfold below in H.
  set (all := skipn _ _) in *. assert (X : length (content (seen all)) <= length (content all)).
  { unfold seen. rewrite <- (firstn_skipn 999 all) at 3. unfold content. rewrite !filter_app, !app_length. apply Nat.add_le_mono_l. generalize (skipn 999 all). clear.
    induction l as [|x l IH]; [reflexivity|]. cbn [upto filter]. destruct (1 <? length x) eqn:E; cbn [filter length]; [lia|exact IH]. }
  lia.
Qed.
(** Lines of one character are no content, however many. *)
Theorem C83_single : forall s c quote header, (forall l, In l (split_at newline s) -> length l <= 1) -> consistent s (one c) quote header = false.
Proof.
  intros s c quote header H. apply C83_few. assert (X : content (skipn (match header with Some h => h | None => 0 end) (split_at newline s)) = []).
  { assert (Q : forall ls : list text, (forall l, In l ls -> length l <= 1) -> content ls = []).
    { induction ls as [|x ls IH]; intros Q; [reflexivity|]. rewrite content_cons. destruct (Nat.ltb_spec 1 (length x)); [specialize (Q x (or_introl eq_refl)); lia|]. apply IH. intros l I. apply Q. right. exact I. }
    apply Q. intros l I. apply H. eapply In_skipn, I. }
  rewrite X. cbn. lia.
Qed.

Section Match.
  Variable date : text -> bool.
  Variable number : text -> option bool.
  Variable upper : text -> bool.
  Variable alpha : ascii -> bool.
  Variable sniff : text -> list ascii -> option ascii.
  Variable pick : ascii -> nat -> nat.
  Let matches := is_match date number upper alpha sniff pick.
  (** With a delimiter and a header, these are what the file is read with. *)
  Theorem C83_given : forall other s c d quote header h, (header = HNone /\ h = None) \/ (exists n, header = HRow n /\ h = Some n) ->
    matches other s (Some (c :: d)) quote header =
    if (negb other && consistent s (Some (c :: d)) quote h)%bool then Some {| f_delimiter := Some (c :: d); f_quote := quote; f_header := h |} else None.
  Proof. intros other s c d quote header h [[-> ->] | (n & -> & ->)]; unfold matches, is_match; destruct other; reflexivity. Qed.
  (** Files of other formats are no match. *)
  Theorem C83_other : forall s d q h, matches true s d q h = None.
  Proof. reflexivity. Qed.
  (** What is guessed is what the file is read with. *)
  Theorem C83_guessed : forall other s quote f, matches other s None quote HAuto = Some f ->
    f_delimiter f = one (fst (guess_delimiter date number upper alpha sniff pick s)) /\ f_quote f = Some (snd (guess_delimiter date number upper alpha sniff pick s)) /\
    f_header f = guess_header date number upper s (f_delimiter f) (f_quote f) /\ consistent s (f_delimiter f) (f_quote f) (f_header f) = true.
  Proof.
    intros other s quote f H. unfold matches, is_match in H. destruct other; [discriminate|]. destruct (guess_delimiter date number upper alpha sniff pick s) as [d q]. cbn [fst snd].
    destruct (consistent _ _ (Some q) _) eqn:E in H; [|discriminate]. injection H as <-. cbn. auto.
  Qed.
End Match.

(** ** Delimiters at the ends of lines *)
Lemma lstrip_split s : exists sp, s = sp ++ lstrip s /\ forallb is_space sp = true /\ match lstrip s with [] => True | x :: _ => is_space x = false end.
Proof.
  induction s as [|x s IH]; [exists []; cbn; auto|]. cbn [lstrip]. destruct (is_space x) eqn:E.
  - destruct IH as (sp & E1 & E2 & E3). exists (x :: sp). cbn [app forallb]. rewrite E, E2, <- E1. auto.
  - exists []. cbn. auto.
Qed.
Lemma lstrip_app sp r : forallb is_space sp = true -> match r with [] => True | x :: _ => is_space x = false end -> lstrip (sp ++ r) = r.
Proof.
  induction sp as [|x sp IH]; intros A B; cbn [app lstrip].
  - destruct r as [|x r]; [reflexivity|]. cbn [lstrip]. rewrite B. reflexivity.
  - cbn [forallb] in A. apply Bool.andb_true_iff in A. destruct A as [-> A]. apply IH; assumption.
Qed.
Lemma forallb_rev {A} (p : A -> bool) l : forallb p (rev l) = forallb p l.
Proof.
  induction l as [|x l IH]; [reflexivity|]. cbn [rev forallb]. rewrite forallb_app. cbn [forallb]. rewrite IH, Bool.andb_true_r. apply Bool.andb_comm.
Qed.
Lemma strip_end l x r : rev (strip l) = x :: r -> exists a b, l = a ++ x :: b /\ forallb is_space b = true /\ is_space x = false.
Proof.
  unfold strip, rstrip. rewrite rev_involutive. intros E. destruct (lstrip_split (rev (lstrip l))) as (sp & E1 & E2 & E3). rewrite E in E1, E3.
  destruct (lstrip_split l) as (sp0 & F1 & _ & _). exists (sp0 ++ rev r), (rev sp). rewrite forallb_rev. split; [|auto]. rewrite F1 at 1.
  rewrite <- (rev_involutive (lstrip l)), E1, rev_app_distr. cbn [rev]. rewrite <- !app_assoc. reflexivity.
Qed.
Lemma end_strip l a x b : l = a ++ x :: b -> forallb is_space b = true -> is_space x = false -> exists r, rev (strip l) = x :: r.
Proof.
  intros -> B X. unfold strip, rstrip. rewrite rev_involutive.
  assert (Q : exists a', lstrip (a ++ x :: b) = a' ++ x :: b).
  { clear B. induction a as [|y a IH]; cbn [app lstrip]; [rewrite X; exists []; reflexivity|]. destruct (is_space y); [exact IH|]. exists (y :: a). reflexivity. }
  destruct Q as [a' ->]. rewrite rev_app_distr. cbn [rev]. rewrite <- app_assoc. cbn [app]. rewrite lstrip_app; [eauto|rewrite forallb_rev; exact B|exact X].
Qed.
Lemma occurrences_one c s : occurrences [c] 0 s = length (filter (fun x => Ascii.eqb x c) s).
Proof.
  induction s as [|x s IH]; [reflexivity|]. cbn [occurrences starts filter length Nat.sub]. rewrite Bool.andb_true_r. change (PyDict.eqb c x) with (Ascii.eqb c x). rewrite (Ascii.eqb_sym c x).
  destruct (Ascii.eqb x c); cbn [length]; rewrite IH; reflexivity.
Qed.
(** One delimiter, and only blanks behind it *)
Definition ends_with (c : ascii) (l : text) : Prop := exists a b, l = a ++ c :: b /\ ~ In c a /\ ~ In c b /\ forallb is_space b = true.
Lemma filter_one (c : ascii) l : length (filter (fun x => Ascii.eqb x c) l) = 1 -> exists a b, l = a ++ c :: b /\ ~ In c a /\ ~ In c b.
Proof.
  induction l as [|x l IH]; [discriminate|]. cbn [filter]. destruct (Ascii.eqb_spec x c) as [-> | N]; cbn [length]; intros H.
  - exists [], l. split; [reflexivity|]. split; [intros []|]. intro I. assert (X : filter (fun x => Ascii.eqb x c) l = []) by (apply length_zero_iff_nil; lia).
    assert (In c (filter (fun x => Ascii.eqb x c) l)) by (apply filter_In; split; [exact I|apply Ascii.eqb_refl]). rewrite X in H0. destruct H0.
  - destruct (IH H) as (a & b & -> & A & B). exists (x :: a), b. split; [reflexivity|]. split; [|exact B]. intros [E | I]; [congruence|contradiction].
Qed.
Lemma filter_absent (c : ascii) l : ~ In c l -> filter (fun x => Ascii.eqb x c) l = [].
Proof.
  induction l as [|x l IH]; intros N; [reflexivity|]. cbn [filter]. destruct (Ascii.eqb_spec x c) as [-> | _]; [exfalso; apply N; left; reflexivity|]. apply IH. intro I. apply N. right. exact I.
Qed.

Lemma trailing_spec c : is_space c = false -> forall lines read last, last <= read -> exists r l, trailing [c] lines read last = Ok (r, l) /\ l <= r /\
  (l = r <-> last = read /\ forall x, In x lines -> x <> [] -> ends_with c x).
Proof.
  intros NS. induction lines as [|x lines IH]; intros read last L; cbn [trailing].
  - exists read, last. split; [reflexivity|]. split; [exact L|]. split; [intros ->; split; [reflexivity|intros y []]|intros [E _]; exact E].
  - destruct x as [|y x].
    + destruct (IH read last L) as (r & l & E & A & B). exists r, l. split; [exact E|]. split; [exact A|]. rewrite B. split; intros [E1 E2]; (split; [exact E1|]).
      * intros z [<- | I]; [congruence|apply E2, I].
      * intros z I. apply E2. right. exact I.
    + set (w := y :: x). rewrite occurrences_one. destruct (Nat.eqb_spec (length (filter (fun z => Ascii.eqb z c) w)) 1) as [O | O].
      * destruct (rev (strip w)) as [|z r0] eqn:ER.
        -- exfalso. destruct (filter_one c w O) as (a & b & E & _ & _). unfold strip, rstrip in ER. rewrite rev_involutive in ER.
           assert (Q : forall v, lstrip v = [] -> forallb is_space v = true).
           { clear. intros v E. destruct (lstrip_split v) as (sp & E1 & E2 & _). rewrite E, app_nil_r in E1. rewrite E1. exact E2. }
           apply Q in ER. rewrite forallb_rev in ER. destruct (lstrip_split w) as (sp & E1 & E2 & _). assert (F : forallb is_space w = true) by (rewrite E1, forallb_app, E2, ER; reflexivity).
           rewrite forallb_forall in F. assert (X := F c ltac:(rewrite E; apply in_or_app; right; left; reflexivity)). congruence.
        -- assert (EW : list_eqb [z] [c] = true <-> ends_with c w).
           { destruct (list_eqb_spec [z] [c]) as [E | N].
             - injection E as ->. split; [intros _|reflexivity]. destruct (strip_end w c r0 ER) as (a & b & E & B & _).
               assert (X : length (filter (fun z => Ascii.eqb z c) a) = 0 /\ length (filter (fun z => Ascii.eqb z c) b) = 0).
               { rewrite E in O. rewrite filter_app, app_length in O. cbn [filter] in O. rewrite Ascii.eqb_refl in O. cbn [length] in O. lia. }
               assert (ZZ : forall v, length (filter (fun z => Ascii.eqb z c) v) = 0 -> ~ In c v).
               { clear. intros v Z I. apply length_zero_iff_nil in Z. assert (J : In c (filter (fun z => Ascii.eqb z c) v)) by (apply filter_In; split; [exact I|apply Ascii.eqb_refl]). rewrite Z in J. destruct J. }
               exists a, b. split; [exact E|]. split; [apply ZZ, X|]. split; [apply ZZ, X|exact B].
             - split; [discriminate|]. intros (a & b & E & _ & _ & B). destruct (end_strip w a c b E B NS) as [r1 X]. rewrite X in ER. exfalso. apply N. congruence. }
           destruct (list_eqb [z] [c]) eqn:LE.
           ++ destruct (IH (read + 1) (last + 1) ltac:(lia)) as (r & l & E & A & B). exists r, l. split; [exact E|]. split; [exact A|]. rewrite B. split; intros [E1 E2].
              ** split; [lia|]. intros v [<- | I] NE; [apply EW; reflexivity|apply E2; assumption].
              ** split; [lia|]. intros v I NE. apply E2; [right; exact I|exact NE].
           ++ destruct (IH (read + 1) last ltac:(lia)) as (r & l & E & A & B). exists r, l. split; [exact E|]. split; [exact A|]. rewrite B. split; intros [E1 E2]; [lia|].
              exfalso. assert (X : false = true) by (apply EW, E2; [left; reflexivity|discriminate]). discriminate.
      * destruct (IH (read + 1) last ltac:(lia)) as (r & l & E & A & B). exists r, l. split; [exact E|]. split; [exact A|]. rewrite B. split; intros [E1 E2]; [lia|]. exfalso. apply O.
        destruct (E2 w (or_introl eq_refl) ltac:(discriminate)) as (a & b & Ew & NA & NB & _). rewrite Ew, filter_app, app_length, (filter_absent c a NA). cbn [filter]. rewrite Ascii.eqb_refl. cbn [length].
        rewrite (filter_absent c b NB). reflexivity.
Qed.
(** The delimiter is dropped exactly if every line with characters has one delimiter, at its end; reading does not fail for that. *)
Theorem C83_trailing : forall s c, is_space c = false -> s <> [] ->
  (delimiter_for_reading s [c] = Ok None /\ (forall l, In l (split_at newline s) -> l <> [] -> ends_with c l)) \/
  (delimiter_for_reading s [c] = Ok (Some [c]) /\ exists l, In l (split_at newline s) /\ l <> [] /\ ~ ends_with c l).
Proof.
  intros s c NS NE. unfold delimiter_for_reading. destruct s as [|x s]; [contradiction|]. set (w := x :: s) in *.
  destruct (trailing_spec c NS (split_at newline w) 0 0 (le_n 0)) as (r & l & -> & _ & B). destruct (Nat.eqb_spec l r) as [E | N].
  - left. split; [reflexivity|]. apply B, E.
  - right. split; [reflexivity|].
    assert (D : forall ls : list text, (forall y, In y ls -> y <> [] -> ends_with c y) \/ exists y, In y ls /\ y <> [] /\ ~ ends_with c y).
    { induction ls as [|y ls IH]; [left; intros y []|]. destruct IH as [IH | (z & I & Z)]; [|right; exists z; split; [right; exact I|exact Z]]. destruct y as [|y0 y].
      - left. intros z [<- | I] Hz; [congruence|apply IH; assumption].
      - destruct (trailing_spec c NS [y0 :: y] 0 0 (le_n 0)) as (r1 & l1 & _ & _ & B1). destruct (Nat.eq_dec l1 r1) as [E1 | N1].
        + left. intros z [<- | I] Hz; [apply B1; [exact E1|left; reflexivity|exact Hz]|apply IH; assumption].
        + right. exists (y0 :: y). split; [left; reflexivity|]. split; [discriminate|]. intro EW. apply N1, B1. split; [reflexivity|]. intros z [<- | []] _. exact EW. }
    destruct (D (split_at newline w)) as [D1 | D1]; [exfalso; apply N, B; split; [reflexivity|exact D1]|exact D1].
Qed.
(** A line of one tab in a file delimited by tabs makes reading fail. *)
Theorem C83_tab_refuted : forall before after : list text, (forall l, In l (before ++ after) -> ~ In newline l) -> (forall l, In l before -> length (filter (fun x => Ascii.eqb x tab) l) = 2) ->
  delimiter_for_reading (join [newline] (before ++ [tab] :: after)) [tab] = Err IndexError.
Proof.
  intros before after H1 H2. unfold delimiter_for_reading. assert (E : split_at newline (join [newline] (before ++ [tab] :: after)) = before ++ [tab] :: after).
  { apply split_at_join; [destruct before; discriminate|]. intros l I. apply in_app_or in I. destruct I as [I | [<- | I]]; [apply H1, in_or_app; left; exact I|intros [X | []]; discriminate X|apply H1, in_or_app; right; exact I]. }
  destruct (join [newline] (before ++ [tab] :: after)) as [|x s] eqn:EJ; [exfalso|].
  - destruct before as [|b before]; cbn [app join] in EJ; [destruct after; discriminate|]. destruct before as [|b2 before]; cbn [app join] in EJ; apply app_eq_nil in EJ; destruct EJ as [_ EJ]; discriminate.
  - rewrite E. clear - H2.
    assert (Q : forall bs read last, (forall l, In l bs -> length (filter (fun x => Ascii.eqb x tab) l) = 2) -> trailing [tab] (bs ++ [tab] :: after) read last = Err IndexError).
    { induction bs as [|b bs IH]; intros read last H; [reflexivity|]. cbn [app trailing]. assert (Hb := H b (or_introl eq_refl)). destruct b as [|y b]; [discriminate|]. rewrite occurrences_one, Hb. cbn [Nat.eqb].
      apply IH. intros l I. apply H. right. exact I. }
    rewrite Q by exact H2. reflexivity.
Qed.

(** ** What users expect and does not hold *)
Definition L (ls : list text) : text := join [newline] ls.
Definition ex_matches := is_match ex_date ex_number ex_upper (fun c => is_upper c || is_lower c)%bool (fun _ _ => None) (fun _ n => n).
(** Of four lines three should agree.  If there are empty lines as well, two are enough, and of five lines in a hundred one. *)
Theorem C83_blank_refuted : ~ forall s c h, consistent s (Some [c]) None h = true -> exists n, 0 < n /\
  3 * length (content (split_at newline s)) <= 4 * times n (map (outside c dquote) (content (split_at newline s))).
Proof.
  intros H. specialize (H (L ([T "a,b"; T "a,b"; T "no"; T "a,,c"] ++ repeat [] 6)) comma None eq_refl). destruct H as (n & N & H).
  replace (map (outside comma dquote) (content (split_at newline (L ([T "a,b"; T "a,b"; T "no"; T "a,,c"] ++ repeat [] 6))))) with [1; 1; 0; 2] in H by reflexivity.
  replace (content (split_at newline (L ([T "a,b"; T "a,b"; T "no"; T "a,,c"] ++ repeat [] 6)))) with [T "a,b"; T "a,b"; T "no"; T "a,,c"] in H by reflexivity. cbn [length] in H.
  assert (n = 1 \/ n = 2 \/ 2 < n) as [-> | [-> | X]] by lia; try (cbn in H; lia). assert (Z : times n [1; 1; 0; 2] = 0).
  { destruct n as [|[|[|n]]]; try lia. reflexivity. }
  lia.
Qed.
Theorem C83_none_refuted : consistent (L ([T "a,"; T "a,,"; T "a,,,"; T "a,,,,"; T "prose"] ++ repeat [] 95)) (Some [comma]) None None = true.
Proof. vm_compute. reflexivity. Qed.
(** Only the beginning of a file is looked at, up to the tenth line: the lines below may be anything. *)
Theorem C83_beginning_refuted : exists start, load_as_str newline (L (repeat (T "a,b") 10 ++ repeat (T "no delimiter at all") 990)) 10 65536 1024 = Ok start /\
  consistent start (Some [comma]) None None = true /\ consistent (L (repeat (T "a,b") 10 ++ repeat (T "no delimiter at all") 990)) (Some [comma]) None None = false.
Proof. eexists. split; [vm_compute; reflexivity|]. split; vm_compute; reflexivity. Qed.
(** A quote that is given is not used if the delimiter is guessed. *)
Theorem C83_quote_refuted : exists f, ex_matches false (L (repeat (T "a,b") 5)) None (Some squote) HNone = Some f /\ f_quote f = Some dquote.
Proof. eexists. split; vm_compute; reflexivity. Qed.
(** A table of a header and two rows is no match. *)
Theorem C83_small_refuted : forall d q h, ex_matches false (L [T "a,b"; T "1,2"; T "3,4"]) (Some [d]) q h = None.
Proof.
  intros d q h. unfold ex_matches, is_match. change (Some [d]) with (one (Some d)) at 2 3. cbn [one].
  set (hh := match h with HAuto => _ | HNone => None | HRow n => Some n end). rewrite (C83_few _ (Some d) q hh); [reflexivity|]. clear. generalize (match hh with Some h => h | None => 0 end). intros [|[|[|n]]]; [cbn; lia..|]. replace (split_at newline (L [T "a,b"; T "1,2"; T "3,4"])) with [T "a,b"; T "1,2"; T "3,4"] by reflexivity. cbn [skipn]. rewrite skipn_nil. cbn. lia.
Qed.
Example C83_example : consistent (L [T "a,b"; T "1,2"; T "3,4"; T "5,6"; T "7;8"]) (Some [comma]) None None = true /\
  consistent (L [T "a,b"; T "1,2"; T "3,4"; T "5;6"; T "7;8"]) (Some [comma]) None None = false /\
  consistent (L [T "a,""x,y"""; T "1,2"; T "3,4"; T "5,6"]) (Some [comma]) None None = true /\
  delimiter_for_reading (L [T "a;"; T "b; "; T "c;"]) (T ";") = Ok None /\
  ex_matches false (L [T "name,age"; T "ann,30"; T "bob,41"; T "cleo,29"; T "dora,33"]) None None HAuto = Some {| f_delimiter := Some [comma]; f_quote := Some dquote; f_header := Some 0 |}.
Proof. vm_compute. auto 10. Qed.

(** A delimiter of several characters, not all of them blank, is kept unless all lines are empty. *)
Lemma starts_prefix (d s : text) : starts d s = true -> exists r, s = d ++ r.
Proof.
  revert s. induction d as [|c d IH]; intros s H; [exists s; reflexivity|]. destruct s as [|x s]; [discriminate|]. cbn [starts] in H. apply andb_prop in H. destruct H as [H1 H2].
  apply Ascii.eqb_eq in H1. destruct (IH s H2) as [r ->]. subst. exists r. reflexivity.
Qed.
Lemma occurrences_in (d s : text) k : occurrences d k s <> 0 -> forall c, In c d -> In c s.
Proof.
  revert k. induction s as [|x s IH]; intros k H c Hc; [cbn in H; contradiction|]. cbn [occurrences] in H. destruct k as [|k]; [|right; exact (IH _ H c Hc)].
  destruct (starts d (x :: s)) eqn:E; [|right; exact (IH _ H c Hc)]. destruct (starts_prefix _ _ E) as [r ->]. apply in_app_iff. left. exact Hc.
Qed.
Lemma strip_some l c : In c l -> is_space c = false -> rev (strip l) <> [].
Proof.
  intros H S E. apply (f_equal (@rev ascii)) in E. rewrite rev_involutive in E. cbn in E. unfold strip, rstrip in E. apply (f_equal (@rev ascii)) in E. rewrite rev_involutive in E. cbn in E.
  assert (forall l, In c l -> In c (lstrip l)) as G.
  { clear - S. induction l as [|x l IH]; [intros []|]. intro H. cbn [lstrip]. destruct (is_space x) eqn:X; [|exact H]. apply IH. destruct H as [->|H]; [congruence|exact H]. }
  assert (In c (lstrip (rev (lstrip l)))) as K by (apply G; apply -> in_rev; apply G; exact H). rewrite E in K. destruct K.
Qed.
Theorem C83_long : forall s d, 2 <= length d -> (exists c, In c d /\ is_space c = false) ->
  delimiter_for_reading s d = Ok (if forallb (fun l : text => match l with [] => true | _ => false end) (split_at newline s) then match s with [] => Some d | _ => None end else Some d).
Proof.
  intros s d L (c & Hc & Sc). assert (forall lines read last, trailing d lines read last = Ok (read + length (filter (fun l : text => match l with [] => false | _ => true end) lines), last)) as G.
  { induction lines as [|l lines IH]; intros read last; [cbn; rewrite Nat.add_0_r; reflexivity|]. cbn [trailing filter]. destruct l as [|x l]; [apply IH|]. cbn [length].
    destruct (Nat.eqb_spec (occurrences d 0 (x :: l)) 1) as [O|O]; [|rewrite IH; do 2 f_equal; lia].
    assert (rev (strip (x :: l)) <> []) as N by (apply (strip_some _ c); [apply (occurrences_in d _ 0); [rewrite O; discriminate|exact Hc]|exact Sc]).
    destruct (rev (strip (x :: l))) as [|y r]; [contradiction|]. assert (list_eqb [y] d = false) as ->.
    { destruct d as [|d1 [|d2 d]]; [cbn in L; lia|cbn in L; lia|]. cbn. apply Bool.andb_false_r. }
    rewrite IH. do 2 f_equal. lia. }
  unfold delimiter_for_reading. destruct s as [|x s]; [cbn; reflexivity|]. rewrite G. cbn [Nat.add]. set (lines := split_at newline (x :: s)). clearbody lines.
  assert (0 =? length (filter (fun l : text => match l with [] => false | _ => true end) lines) = forallb (fun l : text => match l with [] => true | _ => false end) lines) as ->; [|change (list ascii) with text in *; destruct (forallb (fun l : text => match l with [] => true | _ => false end) lines); reflexivity].
  induction lines as [|[|y l] lines IH]; [reflexivity|cbn; exact IH|reflexivity].
Qed.
Example C83_long_ex : delimiter_for_reading (L [T "a||b"; T "c||"]) (T "||") = Ok (Some (T "||")) /\ delimiter_for_reading (L [T "a||"; T "c||"]) (T "||") = Ok (Some (T "||")).
Proof. split; reflexivity. Qed.
(** Delimiters of two blanks make reading fail for a file that begins with a line of two or three blanks. *)
Theorem C83_blanks_refuted : forall rest, delimiter_for_reading (T "  " ++ newline :: rest) (T "  ") = Err IndexError /\ delimiter_for_reading (T "   " ++ newline :: rest) (T "  ") = Err IndexError /\
  delimiter_for_reading (T "    " ++ [newline]) (T "  ") = Ok (Some (T "  ")).
Proof. intro rest. split; [reflexivity|]. split; reflexivity. Qed.
Print Assumptions C83_long.
Print Assumptions C83_blanks_refuted.
