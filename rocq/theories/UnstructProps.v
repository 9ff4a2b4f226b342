(** C89: profiles of free text as a whole. *)
From Coq Require Import ZArith QArith String Ascii Permutation Sorted.
From Verif Require Import PyCommon PyDict SamplingModel SizeModel NullModel NullProofs ListFacts UnstructModel UnstructProofs.
Local Open Scope nat_scope.

Section Props.
  Context {T N : Type} {ET : EqDecB T} {EN : EqDecB N}.
  Variable blank : T -> bool.
  Variable bytes chars : T -> nat.
  Variable pick5 : list T -> list T.

  Notation update := (@update_u T N blank bytes chars pick5).
  Notation add := (@add_u T N ET EN pick5).
  Notation udata := (@udata T N).
  Notation uprof := (@uprof T N).

  (** Data as pandas allows them: every column of a data frame has a cell for each row label. *)
  Definition shaped (d : udata) : Prop := match d with UFrame ls cols => Forall (fun c => length (snd c) = length ls) cols | _ => True end.

  (** The lines of data that can be profiled, and whether its row labels differ from each other or even rise. *)
  Definition lines (d : udata) : list T :=
    match d with UStr t => [t] | UList l => l | USeries _ r => map snd r | UFrame _ [(_, c)] => c | UFrame _ _ => [] end.
  Definition labels (d : udata) : list Z :=
    match d with USeries _ r => map fst r | UFrame ls _ => ls | _ => map Z.of_nat (seq 0 (length (lines d))) end.
  Definition title (d : udata) : option N :=
    match d with USeries n _ => n | UFrame _ [(n, _)] => Some n | _ => None end.
  Definition unique (d : udata) : Prop := NoDup (labels d).
  Definition rising (d : udata) : Prop := StronglySorted Z.lt (labels d).
  Definition fair (draw : nat -> nat) (n : nat) : Prop := forall j, j < n -> j <= draw j < n.

  Lemma combine_fst {A B} : forall (a : list A) (b : list B), length a = length b -> map fst (combine a b) = a.
  Proof. induction a as [|x a IH]; intros [|y b] H; try discriminate H; [reflexivity|]. cbn. f_equal. apply IH. injection H as H. exact H. Qed.
  Lemma combine_snd {A B} : forall (a : list A) (b : list B), length a = length b -> map snd (combine a b) = b.
  Proof. induction a as [|x a IH]; intros [|y b] H; try discriminate H; [reflexivity|]. cbn. f_equal. apply IH. injection H as H. exact H. Qed.

  Lemma column_spec d n r : shaped d -> column_of d = Ok (n, r) -> map snd r = lines d /\ map fst r = labels d /\ n = title d.
  Proof.
    intros S H. destruct d as [t|l|nm rs|ls cols]; cbn [column_of] in H.
    - injection H as <- <-. split; [reflexivity|split; reflexivity].
    - injection H as <- <-. cbn [lines labels title]. unfold numbered. rewrite combine_snd, combine_fst; [tauto| |]; rewrite map_length, seq_length; reflexivity.
    - injection H as <- <-. split; [reflexivity|split; reflexivity].
    - destruct cols as [|[m c] [|x cols]]; try discriminate H. injection H as <- <-. cbn [lines labels title].
      cbn [shaped] in S. inversion S as [|? ? E _]; subst. cbn [snd] in E. rewrite combine_snd, combine_fst by congruence. tauto.
  Qed.

  (** The number of lines a batch is sampled with, and the least number of lines with text. *)
  Definition size_for (u : uprof) (d : udata) (size : option nat) : nat := update_sample_size size (u_per_update u) 5000 (u_ratio u) (ulen chars d).
  Definition least_for (u : uprof) (least : option nat) : nat :=
    match least with Some (S k) => S k | _ => match u_min_true u with Some k => k | None => 0 end end.

  Definition given (u : uprof) : list (list T) := match u_comp u with Some c => k_given c | None => [] end.

  Lemma size_pos u d size : ulen chars d <> 0 -> 0 < size_for u d size.
  Proof.
    intros H. unfold size_for, update_sample_size, get_sample_size.
    destruct size as [[|k]|]; try lia; destruct (u_per_update u) as [[|j]|]; try lia; destruct (Nat.leb_spec (ulen chars d) 5000); lia.
  Qed.

  Lemma update_inv draw (u : uprof) d size least u' w :
    update draw u d size least = (u', None, w) -> ulen chars d <> 0 ->
    exists n r kept b, column_of d = Ok (n, r) /\ clean_text blank bytes pick5 draw r (size_for u d size) (least_for u least) = (kept, b) /\
      u' = mkU (u_per_update u) (u_min_true u) (u_ratio u) (u_profiles u) (u_total u + b_total b) (u_empty u + b_empty b) (u_memory u + b_memory b)
               (b_sample b) (Some (give n (u_profiles u) (u_comp u) kept)) /\
      w = if size_for u d size <? length kept then [WSubsample (size_for u d size)] else [].
  Proof.
    unfold update_u. intros H E. destruct (Nat.eqb_spec (ulen chars d) 0) as [E'|_]; [contradiction|].
    fold (size_for u d size) in H. fold (least_for u least) in H. destruct (column_of d) as [[n r]|e]; [|discriminate H].
    destruct (clean_text blank bytes pick5 draw r (size_for u d size) (least_for u least)) as [kept b] eqn:K. exists n, r, kept, b.
    injection H as <- <-. split; [reflexivity|]. split; [exact K|]. split; reflexivity.
  Qed.

  Lemma give_given (u : uprof) n ps kept : k_given (give n ps (u_comp u) kept) = given u ++ [kept].
  Proof. unfold given, give. destruct (u_comp u); reflexivity. Qed.

  (** ** What one update does *)

  (** The lines are put into some order; the first [m] of them are examined: all, or a multiple of the sample size that holds
      enough lines with text, and no smaller multiple does.  The examined lines are counted as used, the blank ones of them
      as empty, and those with text are given to the statistics, in the order of the data if its labels rise.  The memory is
      that of all lines. *)
  Theorem C89_update draw (u : uprof) d size least u' w :
    shaped d -> unique d -> fair draw (length (lines d)) -> ulen chars d <> 0 ->
    update draw u d size least = (u', None, w) ->
    exists order m new, Permutation order (seq 0 (length (lines d))) /\ m <= length (lines d) /\
      let seen := at_pos (lines d) (firstn m order) in
      u_total u' = u_total u + m /\
      u_empty u' = (u_empty u + Z.of_nat (length (filter blank seen)))%Z /\
      given u' = given u ++ [new] /\
      Permutation new (filter (fun t => negb (blank t)) seen) /\
      (rising d -> new = map snd (filter (fun x => negb (blank (snd x)) && lmem (firstn m order) (fst x)) (combine (seq 0 (length (lines d))) (lines d)))) /\
      u_memory u' = u_memory u + list_sum (map bytes (lines d)) /\
      u_sample u' = pick5 new /\
      (m = length (lines d) \/ (exists j, 0 < j /\ m = j * size_for u d size) /\ least_for u least <= length new) /\
      (forall j, 0 < j -> j * size_for u d size < m ->
         length (filter (fun t => negb (blank t)) (at_pos (lines d) (firstn (j * size_for u d size) order))) < least_for u least).
  Proof.
    intros Sh Un F E H. destruct (update_inv _ _ _ _ _ _ _ H E) as (n & r & kept & b & C & Cl & -> & _).
    destruct (column_spec _ _ _ Sh C) as (L1 & L2 & _).
    assert (Ln : length r = length (lines d)) by (rewrite <- L1, map_length; reflexivity).
    destruct (clean_spec blank bytes pick5 draw r (size_for u d size) (least_for u least) kept b) as (order & m & P & M & (A1 & A2 & A3 & A4 & A5) & A6 & A7 & A8);
      [rewrite L2; exact Un|apply size_pos, E|rewrite Ln; exact F|exact Cl|].
    rewrite Ln, L1 in *. rewrite L2 in A4. exists order, m, kept. split; [exact P|]. split; [exact M|]. cbv zeta. cbn [u_total u_empty u_memory u_sample].
    split; [congruence|]. split; [rewrite A2; reflexivity|]. split; [unfold given at 1; cbn [u_comp]; apply give_given|]. split; [exact A3|].
    split; [exact A4|]. split; [congruence|]. split; [exact A7|]. split; [|exact A6].
    destruct A5 as [A5|[A5 A5']]; [left; exact A5|right]. split; [exact A5|]. rewrite (Permutation_length A3). exact A5'.
  Qed.

  (** Without a least number of lines with text, exactly the sample size is examined, or all lines if there are fewer; no
      more lines than that are profiled, so that no warning of a subsample is ever given. *)
  Theorem C89_sample draw (u : uprof) d size least u' w :
    shaped d -> unique d -> fair draw (length (lines d)) -> ulen chars d <> 0 ->
    update draw u d size least = (u', None, w) -> least_for u least = 0 ->
    u_total u' = u_total u + Nat.min (size_for u d size) (length (lines d)) /\ w = [].
  Proof.
    intros Sh Un F E H L. pose proof (size_pos u d size E) as SP.
    destruct (C89_update draw u d size least u' w Sh Un F E H) as (order & m & new & P & M & A1 & _ & A3 & A4 & _ & _ & _ & A8 & A9). cbv zeta in *.
    assert (Em : m = Nat.min (size_for u d size) (length (lines d))).
    { destruct A8 as [A8|[[j [J A8]] _]].
      - destruct (Nat.lt_ge_cases (size_for u d size) m) as [G|G]; [|lia].
        specialize (A9 1). rewrite Nat.mul_1_l in A9. specialize (A9 Nat.lt_0_1 G). lia.
      - destruct j as [|[|j]]; [lia|lia|]. exfalso. specialize (A9 1). rewrite Nat.mul_1_l in A9.
        assert (G : size_for u d size < m) by (cbn [Nat.mul] in A8; lia). specialize (A9 Nat.lt_0_1 G). lia. }
    split; [congruence|].
    destruct (update_inv _ _ _ _ _ _ _ H E) as (n & r & kept & b & C & Cl & Eu & ->).
    assert (Ek : kept = new).
    { rewrite Eu in A3. unfold given at 1 in A3. cbn [u_comp] in A3. rewrite give_given in A3. apply app_inv_head in A3. congruence. }
    subst kept. apply Permutation_length in A4.
    assert (length new <= m).
    { rewrite A4. pose proof (word_count blank (at_pos (lines d) (firstn m order))) as W. unfold word in W.
      enough (length (at_pos (lines d) (firstn m order)) <= m) by lia. rewrite at_pos_length; [rewrite firstn_length; lia|].
      apply Forall_forall. intros i I. apply In_firstn in I. apply (Permutation_in _ P) in I. apply in_seq in I. lia. }
    destruct (Nat.ltb_spec (size_for u d size) (length new)) as [G|G]; [lia|reflexivity].
  Qed.

  (** Up to 5000 lines are examined completely unless a size is given. *)
  Theorem C89_small (u : uprof) d : u_per_update u = None -> ulen chars d <= 5000 -> size_for u d None = ulen chars d.
  Proof.
    intros P L. unfold size_for, update_sample_size, get_sample_size. rewrite P. apply Nat.leb_le in L. rewrite L. reflexivity.
  Qed.

  (** An update fails exactly for tables without or with several columns, and then changes nothing; empty data change
      nothing either. *)
  Theorem C89_update_outcome draw (u : uprof) d size least : let '(u', e, w) := update draw u d size least in
    e = (if ulen chars d =? 0 then None else match d with UFrame _ [] => Some IndexError | UFrame _ [_] => None | UFrame _ _ => Some ValueError | _ => None end) /\
    (ulen chars d = 0 -> u' = u /\ w = [WEmpty]) /\ (e <> None -> u' = u) /\
    (ulen chars d <> 0 -> e = None -> length (given u') = S (length (given u)) /\ exists c, u_comp u' = Some c /\
       (forall c0, u_comp u = Some c0 -> k_name c = k_name c0 /\ k_profiles c = k_profiles c0) /\
       (u_comp u = None -> k_name c = title d /\ k_profiles c = u_profiles u)).
  Proof.
    destruct (update draw u d size least) as [[u' e] w] eqn:H. pose proof H as H0. unfold update_u in H0.
    destruct (Nat.eqb_spec (ulen chars d) 0) as [E|E].
    - injection H0 as <- <- <-. split; [reflexivity|]. split; [intros _; split; reflexivity|]. split; [intros X; contradiction|]. intros X; contradiction.
    - destruct (column_of d) as [[n r]|x] eqn:C.
      + destruct (clean_text _ _ _ _ _ _ _) as [kept b]. injection H0 as <- <- _. split; [|split; [intros X; contradiction|split; [intros X; contradiction|]]].
        * destruct d as [t|l|nm rs|ls [|x [|y cols]]]; cbn in C; try reflexivity; try discriminate C. destruct x. discriminate C.
        * intros _ _. split; [unfold given at 1; cbn [u_comp]; rewrite give_given, app_length; cbn; lia|].
          eexists. split; [reflexivity|]. unfold give. split.
          -- intros c0 ->. split; reflexivity.
          -- intros ->. cbn [k_name k_profiles]. split; [|reflexivity].
             destruct d as [t|l|nm rs|ls [|[x c] [|y cols]]]; cbn in C |- *; congruence.
      + injection H0 as <- <- _. split; [|split; [intros X; contradiction|split; [reflexivity|intros _ X; discriminate X]]].
        destruct d as [t|l|nm rs|ls [|[x0 c0] [|y cols]]]; cbn in C |- *; congruence.
  Qed.

  (** ** Merging *)
  Theorem C89_merge_outcome (a b : uprof) : match add a b with
    | Ok c => exists x y, u_comp a = Some x /\ u_comp b = Some y /\ k_name x = k_name y /\ (forall p, In p (k_profiles x) <-> In p (k_profiles y)) /\
        u_total c = u_total a + u_total b /\ u_empty c = (u_empty a + u_empty b)%Z /\ u_memory c = u_memory a + u_memory b /\
        given c = given a ++ given b /\
        u_sample c = pick5 (supdate [] (u_sample a ++ u_sample b)) /\
        u_per_update c = u_per_update a /\ u_min_true c = u_min_true a /\ u_ratio c = u_ratio a /\ u_profiles c = u_profiles a /\
        exists z, u_comp c = Some z /\ k_name z = k_name x /\ k_profiles z = k_profiles x
    | Err TypeError => u_comp a = None \/ u_comp b = None
    | Err ValueError => exists x y, u_comp a = Some x /\ u_comp b = Some y /\ (k_name x <> k_name y \/ ~ (forall p, In p (k_profiles x) <-> In p (k_profiles y)))
    | Err _ => False
    end.
  Proof.
    assert (SS : forall p q, same_set p q = true <-> (forall x, In x p <-> In x q)).
    { intros p q. unfold same_set. rewrite andb_true_iff, !forallb_forall. split.
      - intros [A B] x. split; intros I; [apply lmem_In, A, I|apply lmem_In, B, I].
      - intros A. split; intros x I; apply lmem_In, A, I. }
    assert (NE : forall x y : option N, name_eqb x y = true <-> x = y).
    { intros [x|] [y|]; cbn; try (split; [discriminate|discriminate]); [|tauto]. rewrite eqb_eq. split; congruence. }
    unfold add_u, add_comp, given. destruct (u_comp a) as [x|] eqn:A, (u_comp b) as [y|] eqn:B; cbn [bind]; try (left; reflexivity); try (right; reflexivity).
    destruct (name_eqb (k_name x) (k_name y)) eqn:En; cbn [negb].
    - destruct (same_set (k_profiles x) (k_profiles y)) eqn:Es; cbn [negb bind].
      + exists x, y. apply NE in En. pose proof (proj1 (SS _ _) Es) as Es'. repeat (split; [first [reflexivity|assumption]|]).
        eexists. split; [reflexivity|]. split; reflexivity.
      + exists x, y. split; [reflexivity|]. split; [reflexivity|]. right. intros X. apply SS in X. congruence.
    - exists x, y. split; [reflexivity|]. split; [reflexivity|]. left. intros X. apply NE in X. congruence.
  Qed.

  (** Two profiles that can be merged can be merged in the other order, with the same counts and lines. *)
  Theorem C89_merge_comm (a b c : uprof) : add a b = Ok c ->
    exists c', add b a = Ok c' /\ u_total c' = u_total c /\ u_empty c' = u_empty c /\ u_memory c' = u_memory c /\ Permutation (given c') (given c).
  Proof.
    intros H. pose proof (C89_merge_outcome a b) as M. rewrite H in M. pose proof (C89_merge_outcome b a) as M'.
    destruct M as (x & y & A & B & Nm & Ps & T1 & T2 & T3 & T4 & _).
    destruct (add b a) as [c'|e].
    - exists c'. split; [reflexivity|]. destruct M' as (_ & _ & _ & _ & _ & _ & U1 & U2 & U3 & U4 & _). split; [lia|]. split; [lia|]. split; [lia|].
      rewrite T4, U4. apply Permutation_app_comm.
    - exfalso. destruct e; try contradiction.
      + destruct M' as (x' & y' & A' & B' & [M'|M']); [|apply M'; intros p; split; intros I]; rewrite A in B'; rewrite B in A'.
        * apply M'. congruence.
        * injection A' as <-. injection B' as <-. apply Ps. exact I.
        * injection A' as <-. injection B' as <-. apply Ps. exact I.
      + destruct M'; congruence.
  Qed.

  (** ** Samples *)
  Hypothesis pick5_spec : forall l, length (pick5 l) = Nat.min (length l) 5 /\ exists rest, Permutation (pick5 l ++ rest) l.

  (** After an update the sample is up to five lines of that batch with text; after a merge up to five of the two samples,
      no line twice. *)
  Theorem C89_sample_lines draw (u : uprof) d size least u' w :
    shaped d -> unique d -> fair draw (length (lines d)) -> ulen chars d <> 0 -> update draw u d size least = (u', None, w) ->
    length (u_sample u') <= 5 /\ forall t, In t (u_sample u') -> In t (lines d) /\ blank t = false.
  Proof.
    intros Sh Un F E H.
    destruct (C89_update draw u d size least u' w Sh Un F E H) as (order & m & new & _ & _ & _ & _ & _ & A4 & _ & _ & A7 & _). rewrite A7.
    destruct (pick5_spec new) as [L [rest P]]. split; [lia|]. intros t I.
    assert (J : In t new) by (eapply Permutation_in; [exact P|apply in_or_app; left; exact I]).
    apply (Permutation_in _ A4) in J. apply filter_In in J. destruct J as [J B]. apply at_pos_In in J. destruct J as [i [_ J]]. apply nth_error_In in J.
    split; [exact J|]. destruct (blank t); [discriminate B|reflexivity].
  Qed.

  Theorem C89_sample_merge (a b c : uprof) : add a b = Ok c ->
    NoDup (u_sample c) /\ (forall t, In t (u_sample c) -> In t (u_sample a) \/ In t (u_sample b)) /\
    length (u_sample c) <= 5 /\
    (length (u_sample c) < 5 -> forall t, In t (u_sample a) \/ In t (u_sample b) -> In t (u_sample c)).
  Proof.
    intros H. pose proof (C89_merge_outcome a b) as M. rewrite H in M.
    destruct M as (_ & _ & _ & _ & _ & _ & _ & _ & _ & _ & -> & _).
    set (s := supdate [] (u_sample a ++ u_sample b)).
    assert (Is : forall t, In t s <-> In t (u_sample a) \/ In t (u_sample b)). { intros t. unfold s. rewrite supdate_In, in_app_iff. cbn. tauto. }
    assert (Ds : NoDup s) by (apply supdate_NoDup; constructor).
    destruct (pick5_spec s) as [L [rest P]]. split.
    - eapply NoDup_app_l. eapply Permutation_NoDup; [apply Permutation_sym; exact P|exact Ds].
    - split; [|split; [lia|]].
      + intros t I. apply Is. eapply Permutation_in; [exact P|apply in_or_app; left; exact I].
      + intros L' t I. apply Is in I. apply (Permutation_in _ (Permutation_sym P)) in I. apply in_app_or in I. destruct I as [I|I]; [exact I|].
        apply Permutation_length in P. rewrite app_length in P. destruct rest as [|z rest]; [destruct I|]. cbn [length] in P. lia.
  Qed.

  (** ** Histories *)

  Inductive hist :=
  | HNew (per_update min_true : option nat) (ratio : Q) (profiles : list string)
  | HUpd (h : hist) (draw : nat -> nat) (d : udata) (size least : option nat)
  | HAdd (h1 h2 : hist).

  Fixpoint run (h : hist) : result uprof :=
    match h with
    | HNew p m r ps => Ok (new_u p m r ps)
    | HUpd h draw d size least => bind (run h) (fun u => match update draw u d size least with (u', None, _) => Ok u' | (_, Some e, _) => Err e end)
    | HAdd h1 h2 => bind (run h1) (fun a => bind (run h2) (fun b => add a b))
    end.

  (** The data that were not empty, and whether they are as above. *)
  Fixpoint batches (h : hist) : list udata :=
    match h with
    | HNew _ _ _ _ => []
    | HUpd h _ d _ _ => batches h ++ (if ulen chars d =? 0 then [] else [d])
    | HAdd h1 h2 => batches h1 ++ batches h2
    end.
  Fixpoint good (h : hist) : Prop :=
    match h with
    | HNew _ _ _ _ => True
    | HUpd h draw d _ _ => good h /\ shaped d /\ unique d /\ fair draw (length (lines d))
    | HAdd h1 h2 => good h1 /\ good h2
    end.

  (** Settings stay those of the first profile. *)
  Fixpoint settings (h : hist) : option nat * option nat * Q * list string :=
    match h with HNew p m r ps => (p, m, r, ps) | HUpd h _ _ _ _ => settings h | HAdd h1 _ => settings h1 end.

  Theorem C89_settings h u : run h = Ok u -> settings h = (u_per_update u, u_min_true u, u_ratio u, u_profiles u).
  Proof.
    revert u. induction h as [p m r ps|h IH draw d size least|h1 IH1 h2 IH2]; intros u H; cbn [run] in H.
    - injection H as <-. reflexivity.
    - destruct (run h) as [u0|e]; [|discriminate H]. cbn [bind] in H. cbn [settings]. rewrite (IH u0 eq_refl). unfold update_u in H.
      destruct (ulen chars d =? 0); [injection H as <-; reflexivity|]. destruct (column_of d) as [[n r]|e]; [|discriminate H].
      destruct (clean_text _ _ _ _ _ _ _) as [kept b]. injection H as <-. reflexivity.
    - destruct (run h1) as [a|e]; [|discriminate H]. destruct (run h2) as [b|e]; [|discriminate H]. cbn [bind] in H. cbn [settings].
      pose proof (C89_merge_outcome a b) as M. rewrite H in M. destruct M as (x & y & _ & _ & _ & _ & _ & _ & _ & _ & _ & -> & -> & -> & -> & _). apply IH1. reflexivity.
  Qed.

  Definition all_lines (h : hist) : list T := concat (map lines (batches h)).

  Lemma at_pos_rest (l : list T) order m : Permutation order (seq 0 (length l)) -> Permutation (at_pos l (firstn m order) ++ at_pos l (skipn m order)) l.
  Proof.
    intros P. rewrite <- at_pos_app, firstn_skipn. rewrite <- (at_pos_all l) at 2. unfold at_pos. apply Permutation_flat_map. exact P.
  Qed.

  Lemma filter_perm (p : T -> bool) l l' : Permutation l l' -> Permutation (filter p l) (filter p l').
  Proof.
    induction 1 as [|x l l' H IH|x y l|l1 l2 l3 H1 IH1 H2 IH2]; cbn [filter].
    - constructor.
    - destruct (p x); [constructor|]; exact IH.
    - destruct (p x), (p y); try reflexivity. apply perm_swap.
    - etransitivity; eassumption.
  Qed.

  (** However a profile came about by updates and merges: the lines used are the empty ones and those given to the
      statistics, of which none is blank and each is from the data; no line is used twice; the memory is that of all lines
      of all data. *)
  Theorem C89_history h u : good h -> run h = Ok u ->
    Z.of_nat (u_total u) = (u_empty u + Z.of_nat (length (concat (given u))))%Z /\
    Forall (fun t => blank t = false) (concat (given u)) /\
    (exists empties rest, Forall (fun t => blank t = true) empties /\ u_empty u = Z.of_nat (length empties) /\
       Permutation (concat (given u) ++ empties ++ rest) (all_lines h)) /\
    u_memory u = list_sum (map bytes (all_lines h)) /\
    length (given u) = length (batches h).
  Proof.
    revert u. induction h as [p m r ps|h IH draw d size least|h1 IH1 h2 IH2]; intros u G H; cbn [run] in H.
    - injection H as <-. split; [reflexivity|]. split; [constructor|]. split; [exists [], []; split; [constructor|split; [reflexivity|reflexivity]]|]. split; reflexivity.
    - destruct (run h) as [u0|e]; [|discriminate H]. cbn [bind] in H. destruct G as (G & Sh & Un & F). specialize (IH u0 G eq_refl).
      destruct IH as (I1 & I2 & (em & rest & I3 & I4 & I5) & I6 & I7).
      destruct (update draw u0 d size least) as [[u' [e|]] w] eqn:U; [discriminate H|]. injection H as ->.
      unfold all_lines. cbn [batches].
      destruct (Nat.eqb_spec (ulen chars d) 0) as [E|E].
      + pose proof (C89_update_outcome draw u0 d size least) as O. rewrite U in O. destruct O as (_ & O & _). destruct (O E) as [-> _].
        rewrite app_nil_r. split; [exact I1|]. split; [exact I2|]. split; [exists em, rest; auto|]. split; assumption.
      + destruct (C89_update draw u0 d size least u w Sh Un F E U) as (order & m & new & P & M & A1 & A2 & A3 & A4 & _ & A6 & _). cbv zeta in *.
        set (seen := at_pos (lines d) (firstn m order)) in *.
        assert (Ls : length seen = m).
        { unfold seen. rewrite at_pos_length; [rewrite firstn_length, (Permutation_length P), seq_length; lia|].
          apply Forall_forall. intros i I. apply In_firstn in I. apply (Permutation_in _ P) in I. apply in_seq in I. lia. }
        pose proof (word_count blank seen) as W. unfold word in W.
        rewrite A3, concat_app. cbn [concat]. rewrite app_nil_r, map_app, concat_app, !app_length. cbn [map concat length]. rewrite app_nil_r.
        fold (all_lines h).
        split; [rewrite A1, A2, (Permutation_length A4); lia|]. split.
        { apply Forall_app. split; [exact I2|]. apply Forall_forall. intros t I. apply (Permutation_in _ A4) in I. apply filter_In in I. destruct I as [_ I].
          destruct (blank t); [discriminate I|reflexivity]. }
        split; [|split].
        * exists (em ++ filter blank seen), (rest ++ at_pos (lines d) (skipn m order)). split; [|split].
          -- apply Forall_app. split; [exact I3|]. apply Forall_forall. intros t I. apply filter_In in I. apply I.
          -- rewrite A2, I4, app_length. lia.
          -- assert (Sp : Permutation (filter (fun t => negb (blank t)) seen ++ filter blank seen) seen).
             { clear. induction seen as [|x l IHl]; [reflexivity|]. cbn [filter]. destruct (blank x); cbn [negb app].
               - symmetry. apply Permutation_cons_app. symmetry. exact IHl.
               - constructor. exact IHl. }
             pose proof (at_pos_rest (lines d) order m P) as Rs. fold seen in Rs.
             set (g := concat (given u0)) in *. set (s1 := filter (fun t => negb (blank t)) seen) in *. set (s2 := filter blank seen) in *.
             set (q := at_pos (lines d) (skipn m order)) in *.
             transitivity ((g ++ em ++ rest) ++ ((s1 ++ s2) ++ q)).
             ++ transitivity ((g ++ s1) ++ (em ++ s2) ++ rest ++ q); [apply Permutation_app_tail, Permutation_app_head, A4|].
                clear. rewrite <- !app_assoc. apply Permutation_app_head. rewrite (Permutation_app_swap_app s1 em). apply Permutation_app_head.
                rewrite (app_assoc s1 s2), (Permutation_app_swap_app (s1 ++ s2) rest). apply Permutation_app_head. rewrite <- app_assoc. reflexivity.
             ++ apply Permutation_app; [exact I5|]. transitivity (seen ++ q); [apply Permutation_app_tail, Sp|exact Rs].
        * rewrite A6, I6, map_app, list_sum_app. reflexivity.
        * lia.
    - destruct (run h1) as [a|e]; [|discriminate H]. destruct (run h2) as [b|e]; [|discriminate H]. cbn [bind] in H. destruct G as [G1 G2].
      destruct (IH1 a G1 eq_refl) as (I1 & I2 & (em & rest & I3 & I4 & I5) & I6 & I7). destruct (IH2 b G2 eq_refl) as (J1 & J2 & (em' & rest' & J3 & J4 & J5) & J6 & J7).
      pose proof (C89_merge_outcome a b) as M. rewrite H in M. destruct M as (x & y & _ & _ & _ & _ & M1 & M2 & M3 & M4 & _).
      unfold all_lines. cbn [batches]. rewrite map_app, concat_app. fold (all_lines h1) (all_lines h2).
      rewrite M4, concat_app, !app_length. split; [rewrite M1, M2; lia|]. split; [apply Forall_app; split; assumption|]. split; [|split].
      + exists (em ++ em'), (rest ++ rest'). split; [apply Forall_app; split; assumption|]. split; [rewrite M2, app_length; lia|].
        rewrite <- I5, <- J5. set (g1 := concat (given a)). set (g2 := concat (given b)). clear. rewrite <- !app_assoc.
        apply Permutation_app_head. rewrite (Permutation_app_swap_app g2 em). apply Permutation_app_head.
        rewrite (app_assoc g2), (Permutation_app_swap_app (g2 ++ em') rest). apply Permutation_app_head. rewrite <- app_assoc. reflexivity.
      + rewrite M3, I6, J6, map_app, list_sum_app. reflexivity.
      + lia.
  Qed.

  (** If every batch is examined completely, the order of updates and merges does not matter: every line is used, the blank
      ones counted as empty, the others given to the statistics. *)
  Fixpoint complete (h : hist) : Prop :=
    match h with
    | HNew _ _ _ _ => True
    | HUpd h _ d size _ => complete h /\ let '(p, _, r, _) := settings h in length (lines d) <= update_sample_size size p 5000 r (ulen chars d)
    | HAdd h1 h2 => complete h1 /\ complete h2
    end.

  Lemma complete_total h u : good h -> complete h -> run h = Ok u -> u_total u = length (all_lines h).
  Proof.
    revert u. induction h as [p m r ps|h IH draw d size least|h1 IH1 h2 IH2]; intros u G C H; cbn [run] in H.
    - injection H as <-. reflexivity.
    - destruct (run h) as [u0|e] eqn:R; [|discriminate H]. cbn [bind] in H. destruct G as (G & Sh & Un & F). destruct C as [C1 C2]. specialize (IH u0 G C1 eq_refl).
      destruct (update draw u0 d size least) as [[u' [e|]] w] eqn:U; [discriminate H|]. injection H as ->.
      unfold all_lines. cbn [batches].
      destruct (Nat.eqb_spec (ulen chars d) 0) as [E|E].
      + pose proof (C89_update_outcome draw u0 d size least) as O. rewrite U in O. destruct O as (_ & O & _). destruct (O E) as [-> _]. rewrite app_nil_r. exact IH.
      + destruct (C89_update draw u0 d size least u w Sh Un F E U) as (order & m & new & P & M & A1 & _ & _ & _ & _ & _ & _ & A8 & _). cbv zeta in *.
        rewrite (C89_settings h u0 R) in C2. fold (size_for u0 d size) in C2.
        rewrite map_app, concat_app, app_length. fold (all_lines h). cbn [map concat]. rewrite app_nil_r.
        assert (m = length (lines d)); [|lia]. destruct A8 as [A8|[[j [J A8]] _]]; [exact A8|]. destruct j; [lia|]. cbn [Nat.mul] in A8. lia.
    - destruct (run h1) as [a|e]; [|discriminate H]. destruct (run h2) as [b|e]; [|discriminate H]. cbn [bind] in H. destruct G as [G1 G2]. destruct C as [C1 C2].
      pose proof (C89_merge_outcome a b) as M. rewrite H in M. destruct M as (x & y & _ & _ & _ & _ & M1 & _).
      unfold all_lines. cbn [batches]. rewrite map_app, concat_app, app_length. fold (all_lines h1) (all_lines h2).
      rewrite M1, (IH1 a G1 C1 eq_refl), (IH2 b G2 C2 eq_refl). reflexivity.
  Qed.

  Theorem C89_complete h u : good h -> complete h -> run h = Ok u ->
    u_total u = length (all_lines h) /\
    u_empty u = Z.of_nat (length (filter blank (all_lines h))) /\
    Permutation (concat (given u)) (filter (fun t => negb (blank t)) (all_lines h)).
  Proof.
    intros G C H. pose proof (complete_total h u G C H) as Tt. destruct (C89_history h u G H) as (A1 & A2 & (em & rest & B1 & B2 & B3) & _).
    assert (rest = []).
    { pose proof (Permutation_length B3) as L. rewrite !app_length in L. destruct rest; [reflexivity|]. cbn [length] in L. lia. }
    subst rest. rewrite app_nil_r in B3. split; [exact Tt|].
    assert (FA : forall l, Forall (fun t => blank t = false) l -> filter blank l = [] /\ filter (fun t => negb (blank t)) l = l).
    { clear. induction 1 as [|x l E _ IH]; [split; reflexivity|]. cbn [filter]. rewrite E. cbn [negb]. destruct IH as [-> ->]. split; reflexivity. }
    assert (FB : forall l, Forall (fun t => blank t = true) l -> filter blank l = l /\ filter (fun t => negb (blank t)) l = []).
    { clear. induction 1 as [|x l E _ IH]; [split; reflexivity|]. cbn [filter]. rewrite E. cbn [negb]. destruct IH as [-> ->]. split; reflexivity. }
    split.
    - rewrite B2. f_equal. rewrite <- (Permutation_length (filter_perm blank _ _ B3)). rewrite filter_app, (proj1 (FA _ A2)), (proj1 (FB _ B1)). reflexivity.
    - rewrite <- (filter_perm (fun t => negb (blank t)) _ _ B3). rewrite filter_app, (proj2 (FA _ A2)), (proj2 (FB _ B1)), app_nil_r. reflexivity.
  Qed.

  (** Data of up to 5000 lines are examined completely by profiles made without sizes. *)
  Theorem C89_complete_small h draw d least : complete h -> fst (fst (fst (settings h))) = None -> shaped d ->
    ulen chars d <= 5000 -> (match d with UStr t => chars t <> 0 | _ => True end) -> complete (HUpd h draw d None least).
  Proof.
    intros C S Sh L U. cbn [complete]. split; [exact C|]. destruct (settings h) as [[[p mm] r] ps]. cbn in S. subst p.
    unfold update_sample_size, get_sample_size. apply Nat.leb_le in L. rewrite L.
    destruct d as [t|l|n rs|ls [|[n c] [|y cols]]]; cbn [lines ulen length]; try lia.
    - rewrite map_length. lia.
    - cbn [shaped] in Sh. inversion Sh as [|? ? E _]; subst. cbn [snd] in E. lia.
  Qed.

  (** A report can be had exactly after data that are not empty. *)
  Theorem C89_report h u : run h = Ok u -> good h ->
    match report_u u with
    | Ok r => batches h <> [] /\ r_samples_used r = u_total u /\ r_empty_line_count r = u_empty u /\ r_memory r = u_memory u /\ r_lines r = given u
    | Err e => e = AttributeError /\ batches h = []
    end.
  Proof.
    intros H G. destruct (C89_history h u G H) as (_ & _ & _ & _ & L). unfold report_u, given in *. destruct (u_comp u) as [c|] eqn:C.
    - cbn. split; [|repeat split; reflexivity]. intros B. rewrite B in L. cbn in L. destruct (k_given c) eqn:K; [|discriminate L].
      (* a compiler has been given lines *)
      clear - H C K. revert u c H C K. induction h as [p m r ps|h IH draw d size least|h1 IH1 h2 IH2]; intros u c H C K; cbn [run] in H.
      + injection H as <-. discriminate C.
      + destruct (run h) as [u0|e]; [|discriminate H]. cbn [bind] in H. destruct (update draw u0 d size least) as [[u' [e|]] w] eqn:U; [discriminate H|]. injection H as ->.
        pose proof (C89_update_outcome draw u0 d size least) as O. rewrite U in O. destruct O as (_ & O1 & _ & O2).
        destruct (Nat.eq_dec (ulen chars d) 0) as [E|E]; [destruct (O1 E) as [-> _]; apply (IH u0 c eq_refl C K)|].
        destruct (O2 E eq_refl) as [O3 _]. unfold given in O3. rewrite C, K in O3. discriminate O3.
      + destruct (run h1) as [a|e]; [|discriminate H]. destruct (run h2) as [b|e]; [|discriminate H]. cbn [bind] in H.
        pose proof (C89_merge_outcome a b) as M. rewrite H in M. destruct M as (x & y & A & B & _ & _ & _ & _ & _ & M4 & _).
        unfold given in M4. rewrite C, A, B, K in M4. symmetry in M4. apply app_eq_nil in M4. apply (IH1 a x eq_refl A). apply M4.
    - split; [reflexivity|]. cbn in L. destruct (batches h); [reflexivity|discriminate L].
  Qed.
End Props.

(** ** Findings *)
Section Findings.
  Local Open Scope string_scope.
  Definition blank_s (s : string) : bool := forallb (fun c => Ascii.eqb c " "%char) (list_ascii_of_string s).
  Definition five (l : list string) : list string := firstn 5 l.
  Definition keep (j : nat) : nat := j.
  Notation upd := (update_u (N := string) blank_s String.length String.length five keep).
  Definition fresh : @uprof string string := new_u None None (1 # 5) ["text"; "data_labeler"].

  Example C89_example :
    let u := fst (fst (upd fresh (UList ["one"; " "; "two"; ""; "three"]) None None)) in
    u_total u = 5 /\ u_empty u = 2%Z /\ given u = [["one"; "two"; "three"]] /\ u_memory u = 12 /\ u_sample u = ["one"; "two"; "three"].
  Proof. repeat split; reflexivity. Qed.

  Example C89_example_least :
    let u := fst (fst (upd fresh (UList ["one"; " "; "two"; ""; "three"; "four"]) (Some 2) (Some 2))) in
    u_total u = 4 /\ u_empty u = 2%Z /\ given u = [["one"; "two"]].
  Proof. repeat split; reflexivity. Qed.

  (** With equal row labels a blank line is given to the statistics, and a line with text is counted as empty. *)
  Theorem C89_unique_refuted : exists d : udata,
    let u := fst (fst (upd fresh d None None)) in
    (exists t, In t (concat (given u)) /\ blank_s t = true) /\
    u_empty u <> Z.of_nat (length (filter blank_s (lines d))) /\
    Z.of_nat (u_total u) <> (u_empty u + Z.of_nat (length (concat (given u))))%Z.
  Proof.
    exists (USeries None [(0%Z, "a"); (0%Z, ""); (1%Z, "b"); (1%Z, "c")]). cbn. split; [exists ""; split; [tauto|reflexivity]|]. split; discriminate.
  Qed.

  (** With equal labels lines that were not sampled are profiled. *)
  Theorem C89_sampled_refuted : exists d : @udata string string,
    let u := fst (fst (upd fresh d (Some 1) None)) in u_total u = 1 /\ length (concat (given u)) = 3.
  Proof. exists (USeries None [(0%Z, "a"); (0%Z, "b"); (0%Z, "c")]). split; reflexivity. Qed.

  (** A subsample of the lines is profiled without the warning. *)
  Theorem C89_warning_refuted : exists (d : @udata string string) size, size < length (lines d) /\
    let '(u, e, w) := upd fresh d (Some size) None in e = None /\ w = [] /\ u_total u = size.
  Proof. exists (UList ["a"; "b"; "c"]), 2. cbn. split; [lia|]. split; [reflexivity|]. split; reflexivity. Qed.

  (** The memory is that of all lines though only some were used. *)
  Theorem C89_memory_refuted : exists (d : @udata string string) size,
    let u := fst (fst (upd fresh d (Some size) None)) in u_empty u = 0%Z /\ list_sum (map String.length (concat (given u))) < u_memory u.
  Proof. exists (UList ["a"; "b"; "c"]), 2. cbn. split; [reflexivity|lia]. Qed.

  (** A new profile is no neutral element: it cannot be merged. *)
  Theorem C89_neutral_refuted : forall u : @uprof string string, add_u five fresh u = Err TypeError /\ add_u five u fresh = Err TypeError.
  Proof. intros u. split; unfold add_u, add_comp; cbn; [reflexivity|]. destruct (u_comp u); reflexivity. Qed.

  (** The same text read as a list and as a table with one column cannot be merged. *)
  Theorem C89_names_refuted : exists (d1 d2 : @udata string string), lines d1 = lines d2 /\ labels d1 = labels d2 /\
    let u1 := fst (fst (upd fresh d1 None None)) in let u2 := fst (fst (upd fresh d2 None None)) in
    given u1 = given u2 /\ add_u five u1 u2 = Err ValueError /\ exists u3, add_u five u1 u1 = Ok u3.
  Proof.
    exists (UList ["a"; "b"]), (UFrame [0%Z; 1%Z] [("text", ["a"; "b"])]). split; [reflexivity|]. split; [reflexivity|].
    split; [reflexivity|]. split; [reflexivity|]. eexists. reflexivity.
  Qed.

  (** The same table can however be given as an update to a profile of the list. *)
  Theorem C89_names_update : exists (d1 d2 : @udata string string), let u1 := fst (fst (upd fresh d1 None None)) in
    title d1 <> title d2 /\ snd (fst (upd u1 d2 None None)) = None.
  Proof. exists (UList ["a"; "b"]), (UFrame [0%Z; 1%Z] [("text", ["a"; "b"])]). split; [discriminate|reflexivity]. Qed.

  Example C89_history_example :
    let h := HAdd (HUpd (HNew None None (1 # 5) ["text"]) keep (UList ["a"; ""]) None None) (HUpd (HUpd (HNew None None (1 # 5) ["text"]) keep (UStr "b") None None) keep (UList ["c"; " "; "d"]) None None) in
    match run blank_s String.length String.length five h with
    | Ok u => u_total u = 6 /\ u_empty u = 2%Z /\ given u = [["a"]; ["b"]; ["c"; "d"]] /\ u_sample u = ["a"; "c"; "d"]
    | Err _ => False
    end.
  Proof. cbn. repeat split; reflexivity. Qed.
End Findings.

Print Assumptions C89_update.
Print Assumptions C89_sample.
Print Assumptions C89_small.
Print Assumptions C89_update_outcome.
Print Assumptions C89_merge_outcome.
Print Assumptions C89_merge_comm.
Print Assumptions C89_sample_lines.
Print Assumptions C89_sample_merge.
Print Assumptions C89_settings.
Print Assumptions C89_history.
Print Assumptions C89_complete.
Print Assumptions C89_complete_small.
Print Assumptions C89_report.
Print Assumptions C89_unique_refuted.
Print Assumptions C89_sampled_refuted.
Print Assumptions C89_warning_refuted.
Print Assumptions C89_memory_refuted.
Print Assumptions C89_neutral_refuted.
Print Assumptions C89_names_refuted.
Print Assumptions C89_names_update.
