(** C114: differences of profiles of free text. *)
From Coq Require Import QArith Ascii Permutation.
From Verif Require Import PyCommon QFacts ListFacts PyDict PyString PyEq DiffModel DiffProofs DiffProps CategoricalModel CategoricalProofs TextModel TextProofs TextProps TextDiffModel.
Local Open Scope nat_scope.

(** ** What differences of sets and of counts say *)
Section Counts.
  Context {K : Type} {EK : EqDecB K}.

  (** Of two sets: unchanged exactly if equal, else what is in the first only, in both, in the second only *)
  Definition set_diff (f g : K -> Prop) (o : out K K) : Prop :=
    ((forall k, f k <-> g k) /\ o = Unchanged) \/
    (~ (forall k, f k <-> g k) /\ exists a s b, o = OLists a s b /\ NoDup a /\ NoDup s /\ NoDup b /\
      forall k, (In k a <-> f k /\ ~ g k) /\ (In k s <-> f k /\ g k) /\ (In k b <-> g k /\ ~ f k)).

  (** Of two dictionaries of counts: nothing if both are empty, else the counts of keys of the first only, the differences for keys of both, the counts of keys of the second only *)
  Definition num (n : nat) : val K K := VNum (Some (Qn n)).
  Definition count_diff (f g : K -> option nat) (o : out K K) : Prop :=
    ((forall k, f k = None /\ g k = None) /\ o = Unchanged) \/
    (~ (forall k, f k = None /\ g k = None) /\ exists a s b, o = OParts a s b /\ NoDup (dkeys a) /\ NoDup (dkeys s) /\ NoDup (dkeys b) /\
      (forall k v, dget a k = Some v <-> exists n, f k = Some n /\ g k = None /\ v = num n) /\
      (forall k r, dget s k = Some r <-> exists n m, f k = Some n /\ g k = Some m /\ ((n = m /\ r = Unchanged) \/ (n <> m /\ r = ONum (Some (Qn n - Qn m)%Q)))) /\
      (forall k v, dget b k = Some v <-> exists m, g k = Some m /\ f k = None /\ v = num m)).

  Lemma set_diff_lists (l l' : list K) : NoDup l -> NoDup l' -> set_diff (fun k => In k l) (fun k => In k l') (diff_two_lists l l').
  Proof.
    intros N N'. destruct (C25_sets (K := K) l l' N N') as [[P E] | (NP & a & s & b & E & NA & NS & NB & H)].
    - left. split; [|exact E]. intros k. split; apply Permutation_in; [exact P|symmetry; exact P].
    - right. split; [|exists a, s, b; auto]. intros X. apply NP. apply NoDup_Permutation; assumption.
  Qed.

  Lemma dkeys_vals (d : list (K * nat)) : dkeys (vals d) = dkeys d.
  Proof. unfold dkeys, vals. rewrite map_map. reflexivity. Qed.
  Lemma dget_vals (d : list (K * nat)) k : dget (vals d) k = option_map num (dget d k).
  Proof. induction d as [|[x n] d IH]; [reflexivity|]. cbn [vals map dget fst snd]. destruct (PyDict.eqb x k); [reflexivity|apply IH]. Qed.
  Lemma dget_In (d : list (K * nat)) k n : NoDup (dkeys d) -> (dget d k = Some n <-> In (k, n) d).
  Proof.
    induction d as [|[x m] d IH]; intros N; [split; [discriminate|intros []]|]. cbn [dkeys map fst] in N. inversion N as [|? ? NI N']; subst. cbn [dget]. destruct (PyDict.eqb_spec x k) as [-> | X].
    - split; [intros E; injection E as ->; left; reflexivity|]. intros [E | I]; [injection E as ->; reflexivity|]. exfalso. apply NI. apply (in_map fst) in I. exact I.
    - rewrite IH by exact N'. split; [right; assumption|]. intros [E | I]; [congruence|exact I].
  Qed.
  Lemma dget_perm (d e : list (K * nat)) k : NoDup (dkeys d) -> Permutation d e -> dget d k = dget e k.
  Proof.
    intros N P. assert (N' : NoDup (dkeys e)) by (apply (Permutation_NoDup (Permutation_map fst P)), N).
    destruct (dget d k) as [n|] eqn:E.
    - symmetry. apply dget_In; [exact N'|]. apply dget_In in E; [|exact N]. apply (Permutation_in _ P E).
    - destruct (dget e k) as [n|] eqn:E'; [|reflexivity]. apply dget_In in E'; [|exact N']. apply (Permutation_in _ (Permutation_sym P)) in E'. apply dget_In in E'; [congruence|exact N].
  Qed.
  (** The difference of the counts of a key *)
  Definition delta (n m : nat) : out K K := if n =? m then Unchanged else ONum (Some (Qn n - Qn m)%Q).
  Lemma parts_num n m : parts_val (num n) (num m) = Ok (delta n m).
  Proof.
    unfold num, delta. cbn [parts_val]. unfold diff_numbers, py_eq. cbn [num_of]. destruct (Nat.eqb_spec n m) as [-> | N].
    - assert (X : Qeq_bool (Qn m) (Qn m) = true) by (apply Qeq_bool_iff; reflexivity). rewrite X. reflexivity.
    - destruct (Qeq_bool (Qn n) (Qn m)) eqn:E; [|reflexivity]. exfalso. apply N. apply Qeq_bool_iff in E. apply Nat.le_antisymm; apply Qn_le; rewrite E; apply Qle_refl.
  Qed.
  Definition in_both (d e : list (K * nat)) : list (K * out K K) :=
    flat_map (fun kv => match dget e (fst kv) with Some m => [(fst kv, delta (snd kv) m)] | None => [] end) d.
  Definition in_first (d e : list (K * nat)) : list (K * nat) := filter (fun kv => negb (dmem e (fst kv))) d.
  Lemma shared_vals (e : list (K * nat)) : forall (d : list (K * nat)) (a : list (K * val K K)) (s : list (K * out K K)), NoDup (dkeys d) -> (forall k, In k (dkeys d) -> ~ In k (dkeys a) /\ ~ In k (dkeys s)) ->
    shared_entries parts_val (vals e) (vals d) (a, s) = Ok (a ++ vals (in_first d e), s ++ in_both d e).
  Proof.
    induction d as [|[k n] d IH]; intros a s N H; [cbn; rewrite !app_nil_r; reflexivity|]. cbn [dkeys map fst] in N. inversion N as [|? ? NI N']; subst.
    cbn [vals map shared_entries fst snd]. fold (vals d). rewrite dget_vals. unfold in_first, in_both. cbn [filter flat_map fst snd]. destruct (H k (or_introl eq_refl)) as [Ha Hs].
    destruct (dget e k) as [m|] eqn:E; cbn [option_map].
    - fold (num n). rewrite parts_num. cbn [bind]. assert (X : dmem e k = true) by (unfold dmem; rewrite E; reflexivity). rewrite X. cbn [negb]. rewrite dset_fresh by exact Hs.
      rewrite IH; [cbn [app]; rewrite <- app_assoc; reflexivity|exact N'|]. intros x I. destruct (H x (or_intror I)) as [A B]. split; [exact A|]. unfold dkeys. rewrite map_app. intros J. apply in_app_or in J.
      destruct J as [J | [<- | []]]; [exact (B J)|exact (NI I)].
    - assert (X : dmem e k = false) by (unfold dmem; rewrite E; reflexivity). rewrite X. cbn [negb]. rewrite dset_fresh by exact Ha. rewrite IH; [cbn [vals map app fst snd]; rewrite <- app_assoc; reflexivity|exact N'|].
      intros x I. destruct (H x (or_intror I)) as [A B]. split; [|exact B]. unfold dkeys. rewrite map_app. intros J. apply in_app_or in J. destruct J as [J | [<- | []]]; [exact (A J)|exact (NI I)].
  Qed.
  Lemma vals_filter (f : K -> bool) d : filter (fun kv : K * val K K => f (fst kv)) (vals d) = vals (filter (fun kv => f (fst kv)) d).
  Proof. induction d as [|[k n] d IH]; [reflexivity|]. cbn [vals map filter fst snd]. destruct (f k); cbn [map fst snd]; fold (vals d); rewrite IH; reflexivity. Qed.
  Lemma dmem_vals d k : dmem (vals d) k = dmem d k.
  Proof. unfold dmem. rewrite dget_vals. destruct (dget d k); reflexivity. Qed.
  Lemma diff_counts d e : NoDup (dkeys d) -> NoDup (dkeys e) ->
    diff_parts (Some (vals d)) (Some (vals e)) = Ok (finish_parts (vals (in_first d e)) (in_both d e) (vals (in_first e d))).
  Proof.
    intros N N'. change (diff_parts (Some (vals d)) (Some (vals e))) with (bind (shared_entries parts_val (vals e) (vals d) ([], [])) (fun acc => Ok (finish_parts (fst acc) (snd acc) (only_second (vals d) (vals e))))). rewrite (shared_vals e d [] [] N) by (intros k _; split; intros []). cbn [bind app fst snd]. rewrite only_second_spec by (rewrite dkeys_vals; exact N').
    do 2 f_equal. unfold in_first. rewrite <- (vals_filter (fun k => negb (dmem d k)) e). apply filter_ext. intros kv. rewrite dmem_vals. reflexivity.
  Qed.
  Lemma in_first_get d e k : NoDup (dkeys d) -> dget (in_first d e) k = match dget e k with None => dget d k | Some _ => None end.
  Proof.
    intros N. unfold in_first. induction d as [|[x n] d IH]; [destruct (dget e k); reflexivity|]. cbn [dkeys map fst] in N. inversion N as [|? ? NI N']; subst. cbn [filter fst]. unfold dmem at 1. destruct (dget e x) as [m|] eqn:E; cbn [negb].
    - rewrite IH by exact N'. cbn [dget]. destruct (PyDict.eqb_spec x k) as [-> | X]; [rewrite E; reflexivity|reflexivity].
    - cbn [dget]. destruct (PyDict.eqb_spec x k) as [-> | X]; [rewrite E; reflexivity|apply IH, N'].
  Qed.
  Lemma in_both_get d e k : NoDup (dkeys d) -> dget (in_both d e) k = match dget d k, dget e k with Some n, Some m => Some (delta n m) | _, _ => None end.
  Proof.
    intros N. unfold in_both. induction d as [|[x n] d IH]; [reflexivity|]. cbn [dkeys map fst] in N. inversion N as [|? ? NI N']; subst. cbn [flat_map fst snd dget]. destruct (dget e x) as [m|] eqn:E; cbn [app dget].
    - destruct (PyDict.eqb_spec x k) as [-> | X]; [rewrite E; reflexivity|apply IH, N'].
    - destruct (PyDict.eqb_spec x k) as [-> | X]; [|apply IH, N']. rewrite E. rewrite IH by exact N'. rewrite E. destruct (dget d k); reflexivity.
  Qed.
  Lemma NoDup_in_both d e : NoDup (dkeys d) -> NoDup (dkeys (in_both d e)).
  Proof.
    intros N. assert (X : dkeys (in_both d e) = filter (dmem e) (dkeys d)).
    { clear. unfold in_both, dkeys. induction d as [|[k n] d IH]; [reflexivity|]. cbn [flat_map map filter fst snd]. unfold dmem at 1. destruct (dget e k); cbn [app map fst]; rewrite IH; reflexivity. }
    rewrite X. apply NoDup_filter, N.
  Qed.
  Lemma NoDup_in_first d e : NoDup (dkeys d) -> NoDup (dkeys (in_first d e)).
  Proof. intros N. unfold in_first. rewrite (dkeys_filter (fun k => negb (dmem e k))). apply NoDup_filter, N. Qed.
  Lemma no_keys d : (forall k, dget d k = None) -> d = ([] : list (K * nat)).
  Proof. destruct d as [|[k n] d]; [reflexivity|]. intros H. specialize (H k). cbn [dget] in H. rewrite PyDict.eqb_refl in H. discriminate. Qed.
  Lemma diff_counts_spec d e : NoDup (dkeys d) -> NoDup (dkeys e) -> exists o, diff_parts (Some (vals d)) (Some (vals e)) = Ok o /\ count_diff (dget d) (dget e) o.
  Proof.
    intros N N'. rewrite diff_counts by assumption. eexists. split; [reflexivity|].
    assert (EM : (d = [] /\ e = []) \/ ~ (forall k, dget d k = None /\ dget e k = None)).
    { destruct d as [|[k n] d]; [destruct e as [|[k n] e]; [left; auto|]|]; right; intros H; destruct (H k) as [A B]; cbn [dget] in A, B; rewrite PyDict.eqb_refl in *; discriminate. }
    destruct EM as [[-> ->] | NE]; [left; split; [intros k; split; reflexivity|reflexivity]|]. right. split; [exact NE|].
    exists (vals (in_first d e)), (in_both d e), (vals (in_first e d)). split.
    - unfold finish_parts. destruct (vals (in_first d e)) eqn:E1; [|reflexivity]. destruct (in_both d e) eqn:E2; [|reflexivity]. destruct (vals (in_first e d)) eqn:E3; [|reflexivity]. exfalso. apply NE. intros k.
      assert (A : dget (vals (in_first d e)) k = None) by (rewrite E1; reflexivity). assert (B : dget (in_both d e) k = None) by (rewrite E2; reflexivity). assert (C : dget (vals (in_first e d)) k = None) by (rewrite E3; reflexivity).
      rewrite dget_vals, in_first_get in A, C by assumption. rewrite in_both_get in B by assumption. destruct (dget d k), (dget e k); cbn in *; try discriminate; auto.
    - rewrite !dkeys_vals. split; [apply NoDup_in_first, N|]. split; [apply NoDup_in_both, N|]. split; [apply NoDup_in_first, N'|]. split; [|split].
      + intros k v. rewrite dget_vals, in_first_get by exact N. destruct (dget e k) as [m|]; cbn [option_map]; [split; [discriminate|intros (n & _ & X & _); discriminate]|]. destruct (dget d k) as [n|]; cbn [option_map].
        * split; [intros E; injection E as <-; exists n; auto|intros (n' & X & _ & ->); injection X as <-; reflexivity].
        * split; [discriminate|intros (n & X & _); discriminate].
      + intros k r. rewrite in_both_get by exact N. destruct (dget d k) as [n|]; [|split; [discriminate|intros (n & m & X & _); discriminate]]. destruct (dget e k) as [m|]; [|split; [discriminate|intros (n' & m & _ & X & _); discriminate]].
        unfold delta. destruct (Nat.eqb_spec n m) as [E | E].
        * split; [intros X; injection X as <-; exists n, m; auto|]. intros (n' & m' & X & Y & [[_ ->] | [Z _]]); injection X as <-; injection Y as <-; [reflexivity|contradiction].
        * split; [intros X; injection X as <-; exists n, m; auto|]. intros (n' & m' & X & Y & [[Z _] | [_ ->]]); injection X as <-; injection Y as <-; [contradiction|reflexivity].
      + intros k v. rewrite dget_vals, in_first_get by exact N'. destruct (dget d k) as [m|]; cbn [option_map]; [split; [discriminate|intros (n & _ & X & _); discriminate]|]. destruct (dget e k) as [n|]; cbn [option_map].
        * split; [intros E; injection E as <-; exists n; auto|intros (n' & X & _ & ->); injection X as <-; reflexivity].
        * split; [discriminate|intros (n & X & _); discriminate].
  Qed.
  Lemma count_diff_ext f f' g g' o : (forall k, f k = f' k) -> (forall k, g k = g' k) -> count_diff f g o -> count_diff f' g' o.
  Proof.
    intros A B [[H E] | (H & a & s & b & E & N1 & N2 & N3 & X & Y & Z)].
    - left. split; [|exact E]. intros k. rewrite <- A, <- B. apply H.
    - right. split; [intros H'; apply H; intros k; rewrite A, B; apply H'|]. exists a, s, b. split; [exact E|]. do 3 (split; [assumption|]). split; [|split].
      + intros k v. rewrite <- A, <- B. apply X.
      + intros k r. rewrite <- A, <- B. apply Y.
      + intros k v. rewrite <- A, <- B. apply Z.
  Qed.
  Lemma NoDup_most_common (d : dict K nat) top : NoDup (dkeys d) -> NoDup (dkeys (most_common d top)).
  Proof.
    intros N. destruct (C28_most_common d top) as (rest & P & _). apply Permutation_sym in P. apply (Permutation_map fst) in P. apply Permutation_NoDup in P; [|exact N]. rewrite map_app in P.
    clear - P. fold (dkeys (most_common d top)) in P. induction (dkeys (most_common d top)) as [|x l IH]; [constructor|]. cbn [app] in P. inversion P as [|? ? NI N]; subst. constructor; [intros I; apply NI, in_or_app; left; exact I|apply IH, N].
  Qed.
  Lemma all_common (d : dict K nat) k : NoDup (dkeys d) -> dget (most_common d None) k = dget d k.
  Proof. intros N. symmetry. apply dget_perm; [exact N|]. cbn [most_common]. symmetry. apply sort_desc_perm. Qed.
End Counts.

(** ** Words in lower case *)
(** The count that a word gets is that of the last of its spellings *)
Lemma lower_keys_get d w n : dget (lower_keys d) w = Some n <->
  exists x w' y, d = x ++ (w', n) :: y /\ lower w' = w /\ forall kv, In kv y -> lower (fst kv) <> w.
Proof.
  unfold lower_keys.
  assert (G : forall d acc, dget (fold_left (fun acc (kv : text * nat) => dset acc (lower (fst kv)) (snd kv)) d acc) w = Some n <->
    (exists x w' y, d = x ++ (w', n) :: y /\ lower w' = w /\ forall kv, In kv y -> lower (fst kv) <> w) \/ ((forall kv, In kv d -> lower (fst kv) <> w) /\ dget acc w = Some n)).
  { clear. induction d as [|[u m] d IH]; intros acc; cbn [fold_left fst snd].
    - split; [intros E; right; split; [intros kv []|exact E]|]. intros [(x & w' & y & E & _) | [_ E]]; [destruct x; discriminate|exact E].
    - rewrite IH. rewrite dget_dset. destruct (PyDict.eqb_spec (lower u) w) as [EU | NU].
      + split.
        * intros [(x & w' & y & -> & A & B) | [A B]]; left; [exists ((u, m) :: x), w', y; auto|]. injection B as ->. exists [], u, d. auto.
        * intros [(x & w' & y & E & A & B) | [A _]]; [|exfalso; apply (A (u, m)); [left; reflexivity|exact EU]]. destruct x as [|x0 x]; cbn [app] in E.
          -- injection E as <- <- ->. right. split; [exact B|reflexivity].
          -- injection E as _ ->. left. exists x, w', y. auto.
      + split.
        * intros [(x & w' & y & -> & A & B) | [A B]]; [left; exists ((u, m) :: x), w', y; auto|]. right. split; [|exact B]. intros kv [<- | I]; [exact NU|apply A, I].
        * intros [(x & w' & y & E & A & B) | [A B]]; [|right; split; [intros kv I; apply A; right; exact I|exact B]]. left. destruct x as [|x0 x]; cbn [app] in E; [injection E as <- _ _; contradiction|]. injection E as _ ->. exists x, w', y. auto. }
  rewrite G. split; [intros [H | [_ H]]; [exact H|discriminate]|intros H; left; exact H].
Qed.
Lemma NoDup_lower_keys d : NoDup (dkeys (lower_keys d)).
Proof.
  unfold lower_keys. assert (G : forall d acc, NoDup (dkeys acc) -> NoDup (dkeys (fold_left (fun acc (kv : text * nat) => dset acc (lower (fst kv)) (snd kv)) d acc))).
  { clear. induction d as [|kv d IH]; intros acc N; [exact N|]. cbn [fold_left]. apply IH, NoDup_dset, N. }
  apply G. constructor.
Qed.

Section Runs.
  Variable default_stop : list text.
  Notation run := (run default_stop).

  Lemma run_vocab h : NoDup (dkeys (p_vocab (run h))) /\ pos (p_vocab (run h)).
  Proof.
    induction h as [o|h [N P] rows|h1 [N1 P1] h2 [N2 P2]]; cbn [TextModel.run].
    - split; [constructor|intros k c []].
    - unfold update. destruct rows as [|r rows]; [auto|]. cbn [p_vocab]. destruct (p_vocab_on (run h)); [|auto]. unfold update_vocab, iadd. split.
      + assert (X : forall d : dict ascii nat, NoDup (dkeys d) -> NoDup (dkeys (filter (fun kv => 0 <? snd kv) d))).
        { clear. induction d as [|[k c] d IH]; intros N; [constructor|]. cbn [dkeys map fst] in N. inversion N as [|? ? NI N']; subst. cbn [filter snd]. destruct (0 <? c); [|apply IH, N']. cbn [dkeys map fst]. constructor; [|apply IH, N'].
          intros I. apply NI. apply in_map_iff in I. destruct I as (kv & E & I). apply filter_In in I. apply in_map_iff. exists kv. split; [exact E|apply I]. }
        apply X. rewrite fold_add_keys by exact N. apply firsts_NoDup.
      + intros k c I. apply filter_In in I. destruct I as [_ I]. apply Nat.ltb_lt in I. exact I.
    - unfold merge. cbn [p_vocab]. destruct (_ && _); [|split; [constructor|intros k c []]]. split; [apply nodup_plus; assumption|apply pos_plus; assumption].
  Qed.

  Lemma diff_texts_spec a b : NoDup (dkeys (p_vocab a)) -> NoDup (dkeys (p_vocab b)) -> NoDup (dkeys (p_words a)) -> NoDup (dkeys (p_words b)) ->
    let ca := most_common (p_words a) (p_top_words a) in let cb := most_common (p_words b) (p_top_words a) in
    exists d, diff_texts a b = Ok d /\
      d_vocab d = diff_two_lists (dkeys (p_vocab a)) (dkeys (p_vocab b)) /\
      count_diff (dget (most_common (p_vocab a) (p_top_chars a))) (dget (most_common (p_vocab b) (p_top_chars a))) (d_vocab_count d) /\
      d_words d = diff_two_lists (if p_case a && negb (p_case b) then map lower (dkeys (p_words a)) else dkeys (p_words a)) (if negb (p_case a) && p_case b then map lower (dkeys (p_words b)) else dkeys (p_words b)) /\
      count_diff (dget (if p_case a && negb (p_case b) then lower_keys ca else ca)) (dget (if negb (p_case a) && p_case b then lower_keys cb else cb)) (d_word_count d).
  Proof.
    intros V V' W W'. cbv zeta. unfold diff_texts. cbv zeta. set (ca := most_common (p_words a) (p_top_words a)). set (cb := most_common (p_words b) (p_top_words a)).
    destruct (diff_counts_spec (most_common (p_vocab a) (p_top_chars a)) (most_common (p_vocab b) (p_top_chars a))) as (vc & E1 & S1); [apply NoDup_most_common, V|apply NoDup_most_common, V'|].
    destruct (diff_counts_spec (if p_case a && negb (p_case b) then lower_keys ca else ca) (if negb (p_case a) && p_case b then lower_keys cb else cb)) as (wc & E2 & S2).
    { destruct (_ && _); [apply NoDup_lower_keys|apply NoDup_most_common, W]. } { destruct (_ && _); [apply NoDup_lower_keys|apply NoDup_most_common, W']. }
    rewrite E1. cbn [bind]. match type of E2 with ?x = _ => match goal with |- context[bind ?y] => change y with x end end. rewrite E2. cbn [bind]. eexists. split; [reflexivity|]. cbn [d_vocab d_vocab_count d_words d_word_count]. auto.
  Qed.

  (** ** Differences of texts *)
  (** Profiles can always be compared. The characters are compared as sets; their counts among the most common of both, as many as the first profile shows. *)
  Theorem C114_vocab : forall ha hb, let a := run ha in let b := run hb in exists d, diff_texts a b = Ok d /\
    set_diff (fun c => In c (dkeys (p_vocab a))) (fun c => In c (dkeys (p_vocab b))) (d_vocab d) /\
    count_diff (dget (most_common (p_vocab a) (p_top_chars a))) (dget (most_common (p_vocab b) (p_top_chars a))) (d_vocab_count d).
  Proof.
    intros ha hb a b. destruct (run_vocab ha) as [V _], (run_vocab hb) as [V' _], (run_ok default_stop ha) as [W _], (run_ok default_stop hb) as [W' _].
    destruct (diff_texts_spec a b V V' W W') as (d & E & D1 & D2 & _ & _). exists d. split; [exact E|]. split; [|exact D2]. rewrite D1. apply set_diff_lists; assumption.
  Qed.

  (** If both or none distinguish capitals, words are compared in the same way. *)
  Theorem C114_words : forall ha hb d, let a := run ha in let b := run hb in p_case a = p_case b -> diff_texts a b = Ok d ->
    set_diff (fun w => In w (dkeys (p_words a))) (fun w => In w (dkeys (p_words b))) (d_words d) /\
    count_diff (dget (most_common (p_words a) (p_top_words a))) (dget (most_common (p_words b) (p_top_words a))) (d_word_count d).
  Proof.
    intros ha hb d a b C E. destruct (run_vocab ha) as [V _], (run_vocab hb) as [V' _], (run_ok default_stop ha) as [W _], (run_ok default_stop hb) as [W' _].
    destruct (diff_texts_spec a b V V' W W') as (d' & E' & _ & _ & D3 & D4). rewrite E in E'. injection E' as <-. rewrite C in D3, D4. destruct (p_case b); cbn [andb negb] in D3, D4; (split; [rewrite D3; apply set_diff_lists; assumption|exact D4]).
  Qed.

  (** If the first shows all characters and words, all counts are compared. *)
  Theorem C114_all : forall ha hb d, let a := run ha in let b := run hb in diff_texts a b = Ok d ->
    (p_top_chars a = None -> count_diff (dget (p_vocab a)) (dget (p_vocab b)) (d_vocab_count d)) /\
    (p_case a = p_case b -> p_top_words a = None -> count_diff (dget (p_words a)) (dget (p_words b)) (d_word_count d)).
  Proof.
    intros ha hb d a b E. destruct (run_vocab ha) as [V _], (run_vocab hb) as [V' _], (run_ok default_stop ha) as [W _], (run_ok default_stop hb) as [W' _]. split.
    - intros T. destruct (C114_vocab ha hb) as (d' & E' & _ & D). fold a b in E', D. rewrite E in E'. injection E' as <-. rewrite T in D. revert D. apply count_diff_ext; intros k; apply all_common; assumption.
    - intros C T. destruct (C114_words ha hb d C E) as [_ D]. fold a b in D. rewrite T in D. revert D. apply count_diff_ext; intros k; apply all_common; assumption.
  Qed.

  (** What the difference of lists with repetitions says *)
  Definition list_diff (l l' : list text) (o : out text text) : Prop :=
    match o with
    | Unchanged => (forall w, In w l <-> In w l') /\ length l = length l'
    | OLists x s y => ~ ((forall w, In w l <-> In w l') /\ length l = length l') /\
        forall w, occ w s = Nat.min (occ w l) (occ w l') /\ occ w x + occ w s = occ w l /\ occ w y + occ w s = occ w l'
    | _ => False
    end.
  Lemma list_diff_spec l l' : list_diff l l' (diff_two_lists l l').
  Proof.
    unfold list_diff. destruct (diff_two_lists l l') as [ |u w|n|u w|ng z|a sh b|d|u s w] eqn:Ed;
      try (exfalso; unfold diff_two_lists in Ed; destruct (negb (same_set l l') || negb (length l =? length l')); try discriminate; destruct (fold_left share_step l ([], l')); discriminate).
    - apply (C25_lists_unchanged (K := text)), Ed.
    - split; [intros X; apply (C25_lists_unchanged (K := text)) in X; congruence|]. intros w. destruct (C25_lists (K := text) l l' a sh b Ed w) as (A & B & C & _). auto.
  Qed.
  (** The count of the last word that is [w] in lower case *)
  Definition last_spelling (d : list (text * nat)) (w : text) (n : nat) : Prop :=
    exists x w' y, d = x ++ (w', n) :: y /\ lower w' = w /\ forall kv, In kv y -> lower (fst kv) <> w.

  (** If only the first distinguishes capitals, its words are put in lower case, each as often as it has spellings; the count is that of the last spelling. *)
  Theorem C114_lower_first : forall ha hb d, let a := run ha in let b := run hb in p_case a = true -> p_case b = false -> diff_texts a b = Ok d ->
    list_diff (map lower (dkeys (p_words a))) (dkeys (p_words b)) (d_words d) /\
    exists f, (forall w n, f w = Some n <-> last_spelling (most_common (p_words a) (p_top_words a)) w n) /\ count_diff f (dget (most_common (p_words b) (p_top_words a))) (d_word_count d).
  Proof.
    intros ha hb d a b C C' E. destruct (run_vocab ha) as [V _], (run_vocab hb) as [V' _], (run_ok default_stop ha) as [W _], (run_ok default_stop hb) as [W' _].
    destruct (diff_texts_spec a b V V' W W') as (d' & E' & _ & _ & D3 & D4). rewrite E in E'. injection E' as <-. rewrite C, C' in D3, D4. cbn [andb negb] in D3, D4. split; [rewrite D3; apply list_diff_spec|].
    eexists. split; [|exact D4]. intros w n. apply lower_keys_get.
  Qed.
  Theorem C114_lower_second : forall ha hb d, let a := run ha in let b := run hb in p_case a = false -> p_case b = true -> diff_texts a b = Ok d ->
    list_diff (dkeys (p_words a)) (map lower (dkeys (p_words b))) (d_words d) /\
    exists g, (forall w n, g w = Some n <-> last_spelling (most_common (p_words b) (p_top_words a)) w n) /\ count_diff (dget (most_common (p_words a) (p_top_words a))) g (d_word_count d).
  Proof.
    intros ha hb d a b C C' E. destruct (run_vocab ha) as [V _], (run_vocab hb) as [V' _], (run_ok default_stop ha) as [W _], (run_ok default_stop hb) as [W' _].
    destruct (diff_texts_spec a b V V' W W') as (d' & E' & _ & _ & D3 & D4). rewrite E in E'. injection E' as <-. rewrite C, C' in D3, D4. cbn [andb negb] in D3, D4. split; [rewrite D3; apply list_diff_spec|].
    eexists. split; [|exact D4]. intros w n. apply lower_keys_get.
  Qed.

  (** A profile compared with itself: nothing is changed. *)
  Theorem C114_self : forall h d, let a := run h in diff_texts a a = Ok d ->
    d_vocab d = Unchanged /\ d_words d = Unchanged /\ clean (d_vocab_count d) /\ clean (d_word_count d).
  Proof.
    assert (X : forall K (EK : EqDecB K) (f : K -> option nat) o, count_diff f f o -> clean o).
    { intros K EK f o [[_ ->] | (_ & x & s & y & -> & _ & NS & _ & A & B & C)]; [exact I|]. cbn [clean].
      assert (x = []) as ->. { destruct x as [|[k v] x]; [reflexivity|]. exfalso. destruct (proj1 (A k v)) as (n & E & E' & _); [cbn [dget]; rewrite PyDict.eqb_refl; reflexivity|congruence]. }
      assert (y = []) as ->. { destruct y as [|[k v] y]; [reflexivity|]. exfalso. destruct (proj1 (C k v)) as (n & E & E' & _); [cbn [dget]; rewrite PyDict.eqb_refl; reflexivity|congruence]. }
      split; [reflexivity|]. split; [reflexivity|]. assert (H : forall ko, In ko s -> snd ko = Unchanged).
      { intros [k r] I. assert (G : dget s k = Some r).
        { clear - I NS. induction s as [|[k' r'] s IH]; [destruct I|]. cbn [dkeys map fst] in NS. inversion NS as [|? ? NI NS']; subst. cbn [dget]. destruct I as [E | I]; [injection E as -> ->; rewrite PyDict.eqb_refl; reflexivity|].
          destruct (PyDict.eqb_spec k' k) as [-> | _]; [exfalso; apply NI, (in_map fst _ _ I)|]. apply IH; assumption. }
        apply B in G. destruct G as (n & m & E & E' & [[_ ->] | [N _]]); [reflexivity|congruence]. }
      clear - H. induction s as [|ko s IH]; [exact I|]. split; [rewrite (H ko (or_introl eq_refl)); exact I|]. apply IH. intros x J. apply H. right. exact J. }
    intros h d a E. destruct (C114_vocab h h) as (d' & E' & A & B). fold a in E', A, B. rewrite E in E'. injection E' as <-. destruct (C114_words h h d eq_refl E) as [C D]. fold a in C, D. split; [|split; [|split]].
    - destruct A as [[_ A] | [A _]]; [exact A|]. exfalso. apply A. intros k. reflexivity.
    - destruct C as [[_ C] | [C _]]; [exact C|]. exfalso. apply C. intros k. reflexivity.
    - apply X in B. exact B.
    - apply X in D. exact D.
  Qed.
End Runs.

(** ** Labels *)
(** What is said of a label: nothing if the numbers are equal, their difference, or both if one is missing *)
Definition label_diff (f g : string -> option Q) (o : out string string) : Prop :=
  ((forall k, f k = None /\ g k = None) /\ o = Unchanged) \/
  exists d, o = ODict d /\ forall k, match f k, g k with
    | Some x, Some y => ((x == y)%Q /\ dget d k = Some Unchanged) \/ (~ (x == y)%Q /\ dget d k = Some (ONum (Some (x - y)%Q)))
    | Some x, None => dget d k = Some (OPair (VNum (Some x)) VNone)
    | None, Some y => dget d k = Some (OPair VNone (VNum (Some y)))
    | None, None => dget d k = None
    end.
Lemma numbers_get {A} (f : A -> Q) d k : dget (numbers f d) k = option_map (fun a => VNum (Some (f a))) (dget d k).
Proof. induction d as [|[x n] d IH]; [reflexivity|]. cbn [numbers map dget fst snd]. destruct (PyDict.eqb x k); [reflexivity|apply IH]. Qed.
Lemma numbers_keys {A} (f : A -> Q) d : dkeys (numbers f d) = dkeys d.
Proof. unfold dkeys, numbers. rewrite map_map. reflexivity. Qed.
Lemma diff_numbers_dicts {A} (f : A -> Q) d e : NoDup (dkeys d) -> NoDup (dkeys e) ->
  exists o, diff_dicts (Some (numbers f d)) (Some (numbers f e)) = Ok o /\ label_diff (fun k => option_map f (dget d k)) (fun k => option_map f (dget e k)) o.
Proof.
  intros N N'. assert (K : kin (VDict (numbers f d)) (VDict (numbers f e))).
  { cbn [kin]. assert (G : forall kv, In kv (numbers f d) -> exists q, snd kv = VNum (Some q)).
    { intros kv I. apply in_map_iff in I. destruct I as (x & <- & _). eexists. reflexivity. }
    revert G. generalize (numbers f d) as l. clear. induction l as [|kv l IH]; intros G; [exact I|]. split; [|apply IH; intros x J; apply G; right; exact J].
    rewrite numbers_get. destruct (dget e (fst kv)) as [y|]; cbn [option_map]; [|exact I]. destruct (G kv (or_introl eq_refl)) as [q ->]. cbn. split; discriminate. }
  destruct (C25_dict_succeeds _ _ K) as [o E]. exists o. split; [exact E|].
  apply C25_dict_entries in E; [|rewrite numbers_keys; exact N|rewrite numbers_keys; exact N']. destruct E as [(A1 & A2 & ->) | (r & -> & _ & H)].
  - left. split; [|reflexivity]. intros k. split; [destruct d; [reflexivity|discriminate]|destruct e; [reflexivity|discriminate]].
  - right. exists r. split; [reflexivity|]. intros k. specialize (H k). rewrite !numbers_get in H. destruct (dget d k) as [x|], (dget e k) as [y|]; cbn [option_map] in *; try exact H.
    + destruct H as (z & -> & H). unfold diff_val, diff_numbers, py_eq in H. cbn [num_of] in H. destruct (Qeq_bool (f x) (f y)) eqn:Q.
      * injection H as <-. left. apply Qeq_bool_iff in Q. auto.
      * injection H as <-. right. split; [intros X; apply Qeq_bool_iff in X; congruence|reflexivity].
    + destruct H as (z & -> & H). cbn in H. injection H as <-. reflexivity.
Qed.
(** For each of the three levels the counts and the shares of all labels are compared. *)
Theorem C114_labels : forall a b, (forall l, NoDup (dkeys (l_counts a l)) /\ NoDup (dkeys (l_shares a l)) /\ NoDup (dkeys (l_counts b l)) /\ NoDup (dkeys (l_shares b l))) ->
  exists r, diff_labels a b = Ok r /\ map fst r = [LWord; LTrueChar; LPostChar] /\
    forall l c s, In (l, (c, s)) r -> label_diff (fun k => option_map inject_Z (dget (l_counts a l) k)) (fun k => option_map inject_Z (dget (l_counts b l) k)) c /\
      label_diff (dget (l_shares a l)) (dget (l_shares b l)) s.
Proof.
  intros a b N. unfold diff_labels. assert (L : forall l, exists c s, diff_level a b l = Ok (c, s) /\ label_diff (fun k => option_map inject_Z (dget (l_counts a l) k)) (fun k => option_map inject_Z (dget (l_counts b l) k)) c /\ label_diff (dget (l_shares a l)) (dget (l_shares b l)) s).
  { intros l. destruct (N l) as (N1 & N2 & N3 & N4). destruct (diff_numbers_dicts (fun q : Q => q) (l_shares a l) (l_shares b l) N2 N4) as (s & E1 & S1), (diff_numbers_dicts inject_Z (l_counts a l) (l_counts b l) N1 N3) as (c & E2 & S2).
    exists c, s. unfold diff_level. rewrite E1. cbn [bind]. rewrite E2. cbn [bind]. split; [reflexivity|]. split; [exact S2|].
    destruct S1 as [[A B] | (d & -> & A)]; [left|right; exists d]; (split; [|try exact B]); try reflexivity.
    - intros k. destruct (A k) as [A1 A2]. destruct (dget (l_shares a l) k), (dget (l_shares b l) k); try discriminate. auto.
    - intros k. specialize (A k). destruct (dget (l_shares a l) k), (dget (l_shares b l) k); exact A. }
  destruct (L LWord) as (c1 & s1 & E1 & S1), (L LTrueChar) as (c2 & s2 & E2 & S2), (L LPostChar) as (c3 & s3 & E3 & S3). cbn [diff_levels]. rewrite E1. cbn [bind]. rewrite E2. cbn [bind]. rewrite E3. cbn [bind].
  eexists. split; [reflexivity|]. split; [reflexivity|]. intros l c s [E | [E | [E | []]]]; injection E as <- <- <-; assumption.
Qed.

(** ** The whole *)
Definition number_diff (x y : Q) (o : out string string) : Prop := ((x == y)%Q /\ o = Unchanged) \/ (~ (x == y)%Q /\ o = ONum (Some (x - y)%Q)).
Lemma diff_numbers_spec x y : exists o, @diff_numbers string string (VNum (Some x)) (VNum (Some y)) = Ok o /\ number_diff x y o.
Proof.
  unfold diff_numbers, py_eq, number_diff. cbn [num_of]. destruct (Qeq_bool x y) eqn:E.
  - exists Unchanged. split; [reflexivity|]. left. split; [apply Qeq_bool_iff, E|reflexivity].
  - eexists. split; [reflexivity|]. right. split; [intros X; apply Qeq_bool_iff in X; congruence|reflexivity].
Qed.
(** The type of file and the encoding are given if they differ; numbers of samples, of empty lines and the memory by their differences. *)
Theorem C114_global : forall a b d, diff_profilers a b = Ok d ->
  ((u_type a = u_type b /\ g_type d = Unchanged) \/ (u_type a <> u_type b /\ g_type d = OPair (word_val (u_type a)) (word_val (u_type b)))) /\
  ((u_encoding a = u_encoding b /\ g_encoding d = Unchanged) \/ (u_encoding a <> u_encoding b /\ g_encoding d = OPair (word_val (u_encoding a)) (word_val (u_encoding b)))) /\
  number_diff (Qn (u_samples a)) (Qn (u_samples b)) (g_samples d) /\ number_diff (Qn (u_empty a)) (Qn (u_empty b)) (g_empty d) /\ number_diff (u_memory a) (u_memory b) (g_memory d) /\
  exists x y, u_profile a = Some x /\ u_profile b = Some y /\ diff_compiled x y = Ok (g_data d).
Proof.
  intros a b d H. unfold diff_profilers in H.
  assert (S : forall s t : option string, exists o, diff_strings (word_val s) (word_val t) = Ok o /\ ((s = t /\ o = Unchanged) \/ (s <> t /\ o = OPair (word_val s) (word_val t)))).
  { intros s t. unfold diff_strings. destruct (py_eq (word_val s) (word_val t)) eqn:E; eexists; (split; [reflexivity|]).
    - left. split; [|reflexivity]. destruct s as [s|], t as [t|]; cbn in E; try discriminate; [|reflexivity]. f_equal. apply String.eqb_eq. exact E.
    - right. split; [|reflexivity]. intros ->. destruct t as [t|]; cbn in E; [|discriminate]. change (String.eqb t t = false) in E. rewrite String.eqb_refl in E. discriminate. }
  destruct (S (u_type a) (u_type b)) as (o1 & E1 & H1), (S (u_encoding a) (u_encoding b)) as (o2 & E2 & H2). rewrite E1 in H. cbn [bind] in H. rewrite E2 in H. cbn [bind] in H. unfold count_val in H.
  destruct (diff_numbers_spec (Qn (u_samples a)) (Qn (u_samples b))) as (o3 & E3 & H3), (diff_numbers_spec (Qn (u_empty a)) (Qn (u_empty b))) as (o4 & E4 & H4), (diff_numbers_spec (u_memory a) (u_memory b)) as (o5 & E5 & H5).
  rewrite E3 in H. cbn [bind] in H. rewrite E4 in H. cbn [bind] in H. rewrite E5 in H. cbn [bind] in H. destruct (u_profile a) as [x|]; [|discriminate]. destruct (u_profile b) as [y|]; [|discriminate].
  destruct (diff_compiled x y) as [dd|] eqn:E; cbn [bind] in H; [|discriminate]. injection H as <-. cbn [g_type g_encoding g_samples g_empty g_memory g_data]. do 5 (split; [assumption|]). exists x, y. auto.
Qed.
(** The section for labels is there exactly if both have labels, the one for statistics exactly if both have texts; they are the differences of these. *)
Theorem C114_sections : forall a b d, diff_compiled a b = Ok d ->
  match k_labels a, k_labels b with Some x, Some y => exists r, dd_labels d = Some r /\ diff_labels x y = Ok r | _, _ => dd_labels d = None end /\
  match k_text a, k_text b with Some x, Some y => exists r, dd_text d = Some r /\ diff_texts x y = Ok r | _, _ => dd_text d = None end.
Proof.
  intros a b d H. unfold diff_compiled in H. destruct (match k_labels a with Some _ => _ | None => _ end) as [l|] eqn:E1; cbn [bind] in H; [|discriminate].
  destruct (match k_text a with Some _ => _ | None => _ end) as [t|] eqn:E2; cbn [bind] in H; [|discriminate]. injection H as <-. cbn [dd_labels dd_text]. split.
  - destruct (k_labels a) as [x|]; [destruct (k_labels b) as [y|]|]; try (injection E1 as <-; reflexivity). destruct (diff_labels x y) as [r|]; cbn [bind] in E1; [|discriminate]. injection E1 as <-. exists r. auto.
  - destruct (k_text a) as [x|]; [destruct (k_text b) as [y|]|]; try (injection E2 as <-; reflexivity). destruct (diff_texts x y) as [r|]; cbn [bind] in E2; [|discriminate]. injection E2 as <-. exists r. auto.
Qed.
(** Profiles that have seen data can always be compared. *)
Definition fine (stop : list text) (k : compiled) : Prop :=
  (forall x, k_labels k = Some x -> forall l, NoDup (dkeys (l_counts x l)) /\ NoDup (dkeys (l_shares x l))) /\ (forall p, k_text k = Some p -> exists h, p = run stop h).
Theorem C114_succeeds : forall stop a b x y, u_profile a = Some x -> u_profile b = Some y -> fine stop x -> fine stop y -> exists d, diff_profilers a b = Ok d.
Proof.
  intros stop a b x y Ea Eb [La Ta] [Lb Tb]. unfold diff_profilers, diff_strings, count_val.
  destruct (diff_numbers_spec (Qn (u_samples a)) (Qn (u_samples b))) as (o3 & E3 & _), (diff_numbers_spec (Qn (u_empty a)) (Qn (u_empty b))) as (o4 & E4 & _), (diff_numbers_spec (u_memory a) (u_memory b)) as (o5 & E5 & _).
  assert (C : exists d, diff_compiled x y = Ok d).
  { unfold diff_compiled. assert (A : exists l, match k_labels x, k_labels y with Some x, Some y => bind (diff_labels x y) (fun d => Ok (Some d)) | _, _ => Ok None end = Ok l).
    { destruct (k_labels x) as [u|] eqn:Eu; [destruct (k_labels y) as [v|] eqn:Ev|]; try (eexists; reflexivity). destruct (C114_labels u v) as (r & E & _); [|rewrite E; eexists; reflexivity].
      intros l. destruct (La u eq_refl l) as [A1 A2], (Lb v eq_refl l) as [B1 B2]. auto. }
    assert (B : exists t, match k_text x, k_text y with Some x, Some y => bind (diff_texts x y) (fun d => Ok (Some d)) | _, _ => Ok None end = Ok t).
    { destruct (k_text x) as [u|] eqn:Eu; [destruct (k_text y) as [v|] eqn:Ev|]; try (eexists; reflexivity). destruct (Ta u eq_refl) as [h ->], (Tb v eq_refl) as [h' ->]. destruct (C114_vocab stop h h') as (r & E & _). rewrite E. eexists. reflexivity. }
    destruct A as [l ->], B as [t ->]. eexists. reflexivity. }
  destruct C as [d C]. destruct (py_eq (word_val (u_type a)) (word_val (u_type b))), (py_eq (word_val (u_encoding a)) (word_val (u_encoding b))); cbn [bind]; rewrite E3; cbn [bind]; rewrite E4; cbn [bind]; rewrite E5; cbn [bind]; rewrite Ea, Eb, C; eexists; reflexivity.
Qed.

(** ** What users expect and does not hold *)
(** A profile without data cannot be compared, and which error is raised depends on the side. *)
Theorem C114_empty_refuted : forall a b, (u_profile a = None -> diff_profilers a b = Err AttributeError) /\ (u_profile a <> None -> u_profile b = None -> diff_profilers a b = Err TypeError).
Proof.
  intros a b. unfold diff_profilers, diff_strings, count_val.
  destruct (diff_numbers_spec (Qn (u_samples a)) (Qn (u_samples b))) as (o3 & E3 & _), (diff_numbers_spec (Qn (u_empty a)) (Qn (u_empty b))) as (o4 & E4 & _), (diff_numbers_spec (u_memory a) (u_memory b)) as (o5 & E5 & _).
  destruct (py_eq (word_val (u_type a)) (word_val (u_type b))), (py_eq (word_val (u_encoding a)) (word_val (u_encoding b))); cbn [bind]; rewrite E3; cbn [bind]; rewrite E4; cbn [bind]; rewrite E5; cbn [bind];
    (split; [intros ->; reflexivity|destruct (u_profile a); [intros _ ->; reflexivity|intros X; contradiction]]).
Qed.
Local Open Scope string_scope.
Definition t114 (s : string) : text := String.list_ascii_of_string s.
Definition prof114 (case : bool) (top : option nat) (rows : list string) : TextModel.hist := HUpd (HNew (mkOptions true true case (Some []) None top)) (map t114 rows).
(** The same text, with and without capitals: words and counts are said to differ, though counting either spelling gives the same. *)
Theorem C114_case_refuted : exists d, diff_texts (run [] (prof114 true None ["Tea tea"])) (run [] (prof114 false None ["Tea tea"])) = Ok d /\
  d_words d = OLists [t114 "tea"] [t114 "tea"] [] /\ exists q, d_word_count d = OParts [] [(t114 "tea", ONum (Some q))] [] /\ (q == -1)%Q.
Proof. eexists. split; [vm_compute; reflexivity|]. cbn [d_words d_word_count]. split; [reflexivity|]. eexists. split; reflexivity. Qed.
(** With a limit on the words shown, words that both have are said to be in one only; the limit of the second does not matter. *)
Theorem C114_top_refuted : exists d, diff_texts (run [] (prof114 true (Some 1) ["x x y"])) (run [] (prof114 true None ["y y x"])) = Ok d /\
  d_words d = Unchanged /\ exists n m, d_word_count d = OParts [(t114 "x", VNum (Some n))] [] [(t114 "y", VNum (Some m))].
Proof. eexists. split; [vm_compute; reflexivity|]. cbn [d_words d_word_count]. split; [reflexivity|]. do 2 eexists. reflexivity. Qed.
Example C114_example : exists d, diff_texts (run [] (prof114 true None ["a b b"])) (run [] (prof114 true None ["b c"])) = Ok d /\
  d_words d = OLists [t114 "a"] [t114 "b"] [t114 "c"] /\ d_word_count d = OParts [(t114 "a", VNum (Some 1%Q))] [(t114 "b", ONum (Some 1%Q))] [(t114 "c", VNum (Some 1%Q))].
Proof. eexists. split; [vm_compute; reflexivity|]. cbn [d_words d_word_count]. split; reflexivity. Qed.

Print Assumptions C114_vocab.
Print Assumptions C114_words.
Print Assumptions C114_all.
Print Assumptions C114_lower_first.
Print Assumptions C114_lower_second.
Print Assumptions C114_self.
Print Assumptions C114_labels.
Print Assumptions C114_global.
Print Assumptions C114_sections.
Print Assumptions C114_succeeds.
Print Assumptions C114_empty_refuted.
Print Assumptions C114_case_refuted.
Print Assumptions C114_top_refuted.
