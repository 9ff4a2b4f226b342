(** C111: the times of a profile. *)
From Coq Require Import QArith Lqa.
From Verif Require Import PyCommon QFacts PyDict PyString TimesModel.
Import String.StringSyntax.
Local Delimit Scope string_scope with string.
Local Open Scope nat_scope.

(** The time shown for a name; a name that is not shown has none. *)
Definition value (d : dict string Q) (n : string) : Q := match dget d n with Some v => v | None => 0%Q end.

(** ** Which calls return, and when they start and end *)

(** A call that returned: object, name, numbers of the readings at its start and end. *)
Record span := mkSpan { sp_object : nat; sp_name : string; sp_start : nat; sp_end : nat }.

(** The calls of an action that return, the number of readings afterwards, and whether the action
    itself returns. *)
Fixpoint spans (a : action) (i : nat) : list span * nat * bool :=
  match a with
  | Timed o n inner raises catches =>
      let '(l, j, ok) :=
        (fix go (l : list action) (i : nat) : list span * nat * bool :=
           match l with
           | [] => ([], i, true)
           | b :: r =>
               let '(x, j, ok) := spans b i in
               if ok then let '(y, k, ok') := go r j in (x ++ y, k, ok') else (x, j, false)
           end) inner (S i) in
      if (ok || catches) && negb raises then (l ++ [mkSpan o n i j], S j, true) else (l, j, false)
  | Merge _ _ _ => ([], i, true)
  end.

Fixpoint spans_all (l : list action) (i : nat) : list span * nat * bool :=
  match l with
  | [] => ([], i, true)
  | b :: r =>
      let '(x, j, ok) := spans b i in
      if ok then let '(y, k, ok') := spans_all r j in (x ++ y, k, ok') else (x, j, false)
  end.

Definition of (o : nat) (n : string) (p : span) : bool := (sp_object p =? o) && PyDict.eqb (sp_name p) n.
Definition duration (clock : nat -> Q) (p : span) : Q := (clock (sp_end p) - clock (sp_start p))%Q.

(** The profiles made by merges. *)
Fixpoint made (a : action) : list nat :=
  match a with Timed _ _ inner _ _ => flat_map made inner | Merge m _ _ => [m] end.

(** How deep calls of one name of one object are inside each other. *)
Fixpoint depth (o : nat) (n : string) (a : action) : nat :=
  match a with
  | Timed o' n' inner _ _ => (if (o' =? o) && PyDict.eqb n' n then 1 else 0) + List.list_max (map (depth o n) inner)
  | Merge _ _ _ => 0
  end.

Section Ind.
  Variable P : action -> Prop.
  Hypothesis HT : forall o n inner r c, Forall P inner -> P (Timed o n inner r c).
  Hypothesis HM : forall m x y, P (Merge m x y).
  Fixpoint action_ind' (a : action) : P a :=
    match a with
    | Timed o n inner r c => HT o n inner r c ((fix go l : Forall P l := match l with [] => Forall_nil P | b :: t => Forall_cons b (action_ind' b) (go t) end) inner)
    | Merge m x y => HM m x y
    end.
End Ind.

Lemma exec_Timed clock o n inner r c s :
  exec clock (Timed o n inner r c) s =
  (let '(s1, ok) := exec_all clock inner (mkState (S (readings s)) (times_of s)) in
   if (ok || c) && negb r
   then (mkState (S (readings s1)) (set_times (times_of s1) o (add_time (times_of s1 o) n (clock (readings s1) - clock (readings s))%Q)), true)
   else (s1, false)).
Proof. reflexivity. Qed.

Lemma spans_Timed o n inner r c i :
  spans (Timed o n inner r c) i =
  (let '(l, j, ok) := spans_all inner (S i) in
   if (ok || c) && negb r then (l ++ [mkSpan o n i j], S j, true) else (l, j, false)).
Proof. reflexivity. Qed.

(** ** The readings and results agree *)

Definition agrees (clock : nat -> Q) (s s' : state) (ok : bool) (t : list span * nat * bool) (targets : list nat) : Prop :=
  readings s' = snd (fst t) /\ ok = snd t /\
  (forall o n, ~ In o targets ->
     (value (times_of s' o) n == value (times_of s o) n + qsum (map (duration clock) (filter (of o n) (fst (fst t)))))%Q /\
     (In n (dkeys (times_of s' o)) <-> In n (dkeys (times_of s o)) \/ exists p, In p (fst (fst t)) /\ sp_object p = o /\ sp_name p = n)).

Lemma qsum_filter_app clock o n a b :
  (qsum (map (duration clock) (filter (of o n) (a ++ b))) ==
   qsum (map (duration clock) (filter (of o n) a)) + qsum (map (duration clock) (filter (of o n) b)))%Q.
Proof. rewrite filter_app, map_app. apply qsum_app. Qed.

Lemma value_add d n t k : (value (add_time d n t) k == value d k + (if PyDict.eqb n k then t else 0))%Q.
Proof.
  unfold value, add_time. rewrite dget_dset. destruct (PyDict.eqb_spec n k) as [->|N]; [reflexivity|]. destruct (dget d k); ring.
Qed.

Lemma keys_add d n t k : In k (dkeys (add_time d n t)) <-> k = n \/ In k (dkeys d).
Proof. unfold add_time. apply In_dkeys_dset. Qed.

Lemma agrees_all clock l : Forall (fun a => forall s s' ok, exec clock a s = (s', ok) -> agrees clock s s' ok (spans a (readings s)) (made a)) l ->
  forall s s' ok, exec_all clock l s = (s', ok) -> agrees clock s s' ok (spans_all l (readings s)) (flat_map made l).
Proof.
  induction l as [|a l IH]; intros F s s' ok E; cbn [exec_all] in E.
  - injection E as <- <-. refine (conj eq_refl (conj eq_refl _)). intros o n _. cbn. split; [ring|]. split; [auto|]. intros [H|(p & [] & _)]; exact H.
  - inversion F as [|? ? Fa Fl]; subst. destruct (exec clock a s) as [s1 ok1] eqn:E1. specialize (Fa _ _ _ E1). destruct Fa as (R1 & O1 & V1).
    cbn [spans_all]. destruct (spans a (readings s)) as [[x j] okx] eqn:ES. cbn [fst snd] in *. subst j okx.
    destruct ok1.
    + specialize (IH Fl _ _ _ E). destruct IH as (R2 & O2 & V2). destruct (spans_all l (readings s1)) as [[y k] oky]. cbn [fst snd] in *.
      refine (conj R2 (conj O2 _)). intros o n NI. cbn [flat_map] in NI. rewrite in_app_iff in NI.
      destruct (V1 o n ltac:(tauto)) as [A1 K1]. destruct (V2 o n ltac:(tauto)) as [A2 K2]. split.
      * cbn [fst snd]. rewrite A2, A1, qsum_filter_app. ring.
      * cbn [fst snd]. rewrite K2, K1. split.
        -- intros [[H|(p & H & H')]|(p & H & H')]; [left; exact H|right; exists p; split; [apply in_or_app; left; exact H|exact H']|right; exists p; split; [apply in_or_app; right; exact H|exact H']].
        -- intros [H|(p & H & H')]; [left; left; exact H|]. apply in_app_or in H. destruct H as [H|H]; [left; right|right]; exists p; split; assumption.
    + injection E as <- <-. refine (conj eq_refl (conj eq_refl _)). intros o n NI. cbn [flat_map] in NI. rewrite in_app_iff in NI. apply V1. tauto.
Qed.

Lemma agrees_one clock a : forall s s' ok, exec clock a s = (s', ok) -> agrees clock s s' ok (spans a (readings s)) (made a).
Proof.
  induction a as [o n inner r c F|m x y] using action_ind'; intros s s' ok E.
  - rewrite exec_Timed in E. rewrite spans_Timed. destruct (exec_all clock inner (mkState (S (readings s)) (times_of s))) as [s1 ok1] eqn:E1.
    apply (agrees_all clock inner F) in E1. destruct E1 as (R1 & O1 & V1). cbn [readings times_of] in *.
    destruct (spans_all inner (S (readings s))) as [[y k] oky]. cbn [fst snd] in *. subst k oky.
    destruct ((ok1 || c) && negb r); injection E as <- <-; cbn [fst snd readings times_of].
    + refine (conj eq_refl (conj eq_refl _)). intros o' n' NI. destruct (V1 o' n' NI) as [A K]. unfold set_times. cbn [fst snd times_of]. rewrite qsum_filter_app.
      cbn [filter]. unfold of at 2. cbn [sp_object sp_name]. rewrite (Nat.eqb_sym o o'). destruct (Nat.eqb_spec o' o) as [->|NO]; cbn [andb].
      * split.
        -- rewrite value_add, A. destruct (PyDict.eqb_spec n n') as [->|NN]; cbn [map]; rewrite ?qsum_cons; cbn [qsum fold_right]; unfold duration; cbn [sp_start sp_end]; ring.
        -- rewrite keys_add, K. split.
           ++ intros [->|[H|(p & H & H')]]; [right|left; exact H|right; exists p; split; [apply in_or_app; left; exact H|exact H']].
              exists (mkSpan o n (readings s) (readings s1)). split; [apply in_or_app; right; left; reflexivity|split; reflexivity].
           ++ intros [H|(p & H & H')]; [right; left; exact H|]. apply in_app_or in H. destruct H as [H|[<-|[]]]; [right; right; exists p; split; assumption|].
              left. destruct H' as [_ H']. symmetry. exact H'.
      * split; [rewrite A; cbn [map qsum fold_right]; ring|]. rewrite K. split.
        -- intros [H|(p & H & H')]; [left; exact H|right; exists p; split; [apply in_or_app; left; exact H|exact H']].
        -- intros [H|(p & H & H')]; [left; exact H|]. apply in_app_or in H. destruct H as [H|[<-|[]]]; [right; exists p; split; assumption|]. destruct H' as [H' _]. cbn in H'. congruence.
    + refine (conj eq_refl (conj eq_refl _)). exact V1.
  - cbn [exec] in E. injection E as <- <-. refine (conj eq_refl (conj eq_refl _)). intros o n NI. cbn [made] in NI. cbn [spans times_of fst]. unfold set_times.
    destruct (Nat.eqb_spec o m) as [->|NO]; [exfalso; apply NI; left; reflexivity|]. cbn. split; [ring|]. split; [auto|]. intros [H|(p & [] & _)]; exact H.
Qed.

(** Whatever calls are made: for a profile that is not itself made by a merge meanwhile, the time of
    each name grows by the sum of the durations of exactly those calls of that name that return;
    names are shown once such a call has returned. Calls that raise leave no time. *)
Theorem C111_recorded clock l s s' ok : exec_all clock l s = (s', ok) ->
  let '(returned, k, r) := spans_all l (readings s) in
  readings s' = k /\ ok = r /\
  forall o n, ~ In o (flat_map made l) ->
    (value (times_of s' o) n == value (times_of s o) n + qsum (map (duration clock) (filter (of o n) returned)))%Q /\
    (In n (dkeys (times_of s' o)) <-> In n (dkeys (times_of s o)) \/ exists p, In p returned /\ sp_object p = o /\ sp_name p = n).
Proof.
  intros E. apply agrees_all in E; [|apply Forall_forall; intros a _; apply agrees_one]. destruct (spans_all l (readings s)) as [[x j] r]. exact E.
Qed.

(** ** Times and elapsed time *)

Definition steady (clock : nat -> Q) : Prop := forall i j, i <= j -> (clock i <= clock j)%Q.

Section Elapsed.
  Variables (clock : nat -> Q) (o : nat) (n : string).
  Hypothesis S_ : steady clock.

  Let total (l : list span) : Q := qsum (map (duration clock) (filter (of o n) l)).

  Let bounded (d : nat) (i : nat) (t : list span * nat * bool) : Prop :=
    i <= snd (fst t) /\ (0 <= total (fst (fst t)))%Q /\ (total (fst (fst t)) <= Qn d * (clock (snd (fst t)) - clock i))%Q.

  Lemma Qn_le_mult a b x : a <= b -> (0 <= x)%Q -> (Qn a * x <= Qn b * x)%Q.
  Proof. intros L H. apply Qmult_le_compat_r; [apply Qn_le; exact L|exact H]. Qed.

  Lemma bounded_all l : Forall (fun a => forall i, bounded (depth o n a) i (spans a i)) l ->
    forall d i, List.list_max (map (depth o n) l) <= d -> bounded d i (spans_all l i).
  Proof.
    induction l as [|a l IH]; intros F d i L; cbn [spans_all].
    - unfold bounded, total. cbn. split; [lia|]. split; [lra|]. assert (clock i - clock i == 0)%Q as -> by ring. lra.
    - inversion F as [|? ? Fa Fl]; subst. cbn [map List.list_max fold_right] in L. specialize (Fa i). destruct (spans a i) as [[x j] okx]. unfold bounded in Fa. cbn [fst snd] in Fa.
      destruct Fa as (La & Na & Ba). change (fold_right Nat.max 0 (map (depth o n) l)) with (List.list_max (map (depth o n) l)) in L.
      pose proof (S_ i j La) as CJ.
      assert (total x <= Qn d * (clock j - clock i))%Q as B1. { eapply Qle_trans; [exact Ba|]. apply Qn_le_mult; [lia|lra]. }
      destruct okx.
      + specialize (IH Fl d j ltac:(lia)). destruct (spans_all l j) as [[y k] oky]. unfold bounded in *. cbn [fst snd] in *. destruct IH as (Lb & Nb & Bb).
        split; [lia|]. unfold total in *. rewrite qsum_filter_app. split; [lra|].
        assert (Qn d * (clock k - clock i) == Qn d * (clock j - clock i) + Qn d * (clock k - clock j))%Q as -> by ring. lra.
      + unfold bounded. cbn [fst snd]. split; [exact La|]. split; [exact Na|exact B1].
  Qed.

  Lemma bounded_one a : forall i, bounded (depth o n a) i (spans a i).
  Proof.
    induction a as [o' n' inner r c F|m x y] using action_ind'; intros i.
    - rewrite spans_Timed. cbn [depth]. pose proof (bounded_all inner F (List.list_max (map (depth o n) inner)) (S i) (le_n _)) as B.
      destruct (spans_all inner (S i)) as [[y k] oky]. unfold bounded in *. cbn [fst snd] in *. destruct B as (Lb & Nb & Bb). set (d := List.list_max (map (depth o n) inner)) in *.
      pose proof (S_ i (S i) ltac:(lia)) as C1. pose proof (S_ (S i) k Lb) as C2. pose proof (S_ k (S k) ltac:(lia)) as C3. pose proof (Qn_nonneg d) as PD.
      assert (Qn d * (clock k - clock (S i)) <= Qn d * (clock k - clock i))%Q as M1. { rewrite !(Qmult_comm (Qn d)). apply Qmult_le_compat_r; [lra|exact PD]. }
      assert (Qn d * (clock k - clock i) <= Qn d * (clock (S k) - clock i))%Q as M2. { rewrite !(Qmult_comm (Qn d)). apply Qmult_le_compat_r; [lra|exact PD]. }
      set (e := if (o' =? o) && PyDict.eqb n' n then 1 else 0).
      destruct ((oky || c) && negb r); cbn [fst snd].
      + split; [lia|]. unfold total in *. rewrite qsum_filter_app.
        change (filter (of o n) [mkSpan o' n' i k]) with (if (o' =? o) && PyDict.eqb n' n then [mkSpan o' n' i k] else []). unfold e.
        destruct ((o' =? o) && PyDict.eqb n' n); cbn [map]; rewrite ?qsum_cons; change (qsum []) with 0%Q; change (duration clock (mkSpan o' n' i k)) with (clock k - clock i)%Q.
        * split; [lra|]. cbn [Nat.add]. rewrite Qn_S. lra.
        * split; [lra|]. cbn [Nat.add]. lra.
      + split; [lia|]. split; [exact Nb|]. eapply Qle_trans; [exact Bb|]. eapply Qle_trans; [exact M1|]. apply Qn_le_mult; [lia|lra].
    - unfold bounded, total. cbn. split; [lia|]. split; [lra|]. assert (clock i - clock i == 0)%Q as -> by ring. lra.
  Qed.
End Elapsed.

(** With a clock that is never set back, times never shrink, and what is added to the time of a name
    is at most the time elapsed, if no call of the name is inside another one of the same profile;
    if they are nested at most [d] deep, it is at most [d] times the time elapsed. *)
Theorem C111_elapsed clock l s s' ok o n d : steady clock -> exec_all clock l s = (s', ok) -> ~ In o (flat_map made l) ->
  (forall a, In a l -> depth o n a <= d) ->
  (value (times_of s o) n <= value (times_of s' o) n)%Q /\
  (value (times_of s' o) n <= value (times_of s o) n + Qn d * (clock (readings s') - clock (readings s)))%Q.
Proof.
  intros ST E NI D. apply C111_recorded in E.
  assert (List.list_max (map (depth o n) l) <= d) as LD.
  { apply List.list_max_le. apply Forall_forall. intros k H. apply in_map_iff in H. destruct H as (a & <- & H). apply D. exact H. }
  pose proof (bounded_all clock o n ST l ltac:(apply Forall_forall; intros a _; apply bounded_one; exact ST) d (readings s) LD) as B.
  destruct (spans_all l (readings s)) as [[x j] r]. cbn [fst snd] in B. destruct E as (R & _ & V). destruct (V o n NI) as [A _]. destruct B as (_ & N & U). rewrite R.
  split; [rewrite A; lra|]. rewrite A. lra.
Qed.

(** ** Merging *)

Definition sound (d : dict string Q) : Prop := NoDup (dkeys d).

Lemma fold_first (second first acc : dict string Q) k : NoDup (dkeys first) ->
  dget (fold_left (fun m kv => dset m (fst kv) (match dget second (fst kv) with Some v => (snd kv + v)%Q | None => snd kv end)) first acc) k =
  match dget first k with
  | Some v => Some (match dget second k with Some w => (v + w)%Q | None => v end)
  | None => dget acc k
  end.
Proof.
  revert acc. induction first as [|[k' v'] r IH]; intros acc ND; [reflexivity|]. cbn [fold_left fst snd]. inversion ND as [|? ? NI ND']; subst. fold (dkeys r) in NI. rewrite IH by exact ND'.
  cbn [dget]. destruct (PyDict.eqb_spec k' k) as [->|NE].
  - apply dget_None in NI. rewrite NI, dget_dset, PyDict.eqb_refl. reflexivity.
  - destruct (dget r k) eqn:E; [reflexivity|]. rewrite dget_dset. apply PyDict.eqb_neq in NE. rewrite NE. reflexivity.
Qed.

Lemma fold_second (first second acc : dict string Q) k : NoDup (dkeys second) ->
  dget (fold_left (fun m kv => if dmem first (fst kv) then m else dset m (fst kv) (snd kv)) second acc) k =
  if dmem first k then dget acc k else match dget second k with Some v => Some v | None => dget acc k end.
Proof.
  revert acc. induction second as [|[k' v'] r IH]; intros acc ND; cbn [fold_left fst snd]; [cbn; destruct (dmem first k); reflexivity|].
  inversion ND as [|? ? NI ND']; subst. fold (dkeys r) in NI. rewrite IH by exact ND'. cbn [dget]. destruct (PyDict.eqb_spec k' k) as [->|NE].
  - destruct (dmem first k) eqn:M; [reflexivity|]. apply dget_None in NI. rewrite NI, dget_dset, PyDict.eqb_refl. reflexivity.
  - destruct (dmem first k) eqn:M.
    + destruct (dmem first k'); [reflexivity|]. rewrite dget_dset. apply PyDict.eqb_neq in NE. rewrite NE. reflexivity.
    + destruct (dget r k); [reflexivity|]. destruct (dmem first k'); [reflexivity|]. rewrite dget_dset. apply PyDict.eqb_neq in NE. rewrite NE. reflexivity.
Qed.

Lemma NoDup_fold {X} (f : dict string Q -> X -> dict string Q) l acc : (forall m x, NoDup (dkeys m) -> NoDup (dkeys (f m x))) -> NoDup (dkeys acc) -> NoDup (dkeys (fold_left f l acc)).
Proof. intros H. revert acc. induction l as [|x l IH]; intros acc N; [exact N|]. apply IH, H, N. Qed.

Lemma add_times_get a b k : sound a -> sound b ->
  dget (add_times a b) k =
  match dget a k, dget b k with
  | Some v, Some w => Some (v + w)%Q | Some v, None => Some v | None, Some w => Some w | None, None => None
  end.
Proof.
  intros A B. unfold add_times. rewrite fold_second by exact B. rewrite fold_first by exact A. unfold dmem. destruct (dget a k), (dget b k); reflexivity.
Qed.

Lemma add_times_sound a b : sound (add_times a b).
Proof.
  unfold sound, add_times. apply NoDup_fold; [intros m x N; destruct (dmem a (fst x)); [exact N|apply NoDup_dset; exact N]|].
  apply NoDup_fold; [intros m x N; apply NoDup_dset; exact N|constructor].
Qed.

(** A merged profile has the times of both added up, and shows the names of both. *)
Theorem C111_merged a b n : sound a -> sound b ->
  sound (add_times a b) /\
  (value (add_times a b) n == value a n + value b n)%Q /\
  (In n (dkeys (add_times a b)) <-> In n (dkeys a) \/ In n (dkeys b)).
Proof.
  intros A B. split; [apply add_times_sound|]. unfold value. rewrite <- !dmem_true. unfold dmem. rewrite add_times_get by assumption.
  destruct (dget a n), (dget b n); (split; [ring|]); split; auto; intros [H|H]; congruence.
Qed.

Lemma add_time_sound d n t : sound d -> sound (add_time d n t).
Proof. intros S. unfold add_time, sound. apply NoDup_dset. exact S. Qed.

(** Merging columns of orders reads the clock twice. The time in between is added to the first
    operand, which is thereby changed, and shows in the merged profile as well; the second operand
    keeps its times. Merging sketches and correlations adds the time to the first operand only: the
    merged profile has the sum of what both had before. *)
Theorem C111_operands clock s a b m : sound (times_of s a) -> sound (times_of s b) -> a <> b -> a <> m -> b <> m ->
  let t := (clock (S (readings s)) - clock (readings s))%Q in
  (let '(s', _) := exec_all clock (order_merge m a b) s in
   times_of s' b = times_of s b /\
   forall n, let g := if PyDict.eqb "order"%string n then t else 0%Q in
     (value (times_of s' a) n == value (times_of s a) n + g)%Q /\
     (value (times_of s' m) n == value (times_of s a) n + value (times_of s b) n + g)%Q) /\
  (let '(s', _) := exec_all clock (categories_merge m a b true) s in
   times_of s' b = times_of s b /\
   forall n, let g := if PyDict.eqb "categories"%string n then t else 0%Q in
     (value (times_of s' a) n == value (times_of s a) n + g)%Q /\
     (value (times_of s' m) n == value (times_of s a) n + value (times_of s b) n)%Q) /\
  (let '(s', _) := exec_all clock (table_merge m a b true) s in
   times_of s' b = times_of s b /\
   forall n, let g := if PyDict.eqb "correlation"%string n then t else 0%Q in
     (value (times_of s' a) n == value (times_of s a) n + g)%Q /\
     (value (times_of s' m) n == value (times_of s a) n + value (times_of s b) n)%Q) /\
  (let '(s', _) := exec_all clock (numeric_merge m a b true) s in
   times_of s' a = times_of s a /\ times_of s' b = times_of s b /\
   forall n, let g := if PyDict.eqb "histogram_and_quantiles"%string n then t else 0%Q in
     (value (times_of s' m) n == value (times_of s a) n + value (times_of s b) n + g)%Q).
Proof.
  intros SA SB AB AM BM t. apply Nat.eqb_neq in AB, AM, BM.
  assert ((m =? a) = false) as MA by (rewrite Nat.eqb_sym; exact AM). assert ((m =? b) = false) as MB by (rewrite Nat.eqb_sym; exact BM). assert ((b =? a) = false) as BA by (rewrite Nat.eqb_sym; exact AB).
  refine (conj _ (conj _ (conj _ _))); cbn [exec_all order_merge categories_merge table_merge numeric_merge call exec orb andb negb times_of readings]; unfold set_times;
    rewrite ?Nat.eqb_refl, ?AB, ?AM, ?BM, ?MA, ?MB, ?BA.
  - split; [reflexivity|]. intros n. split; [apply value_add|]. destruct (C111_merged (add_time (times_of s a) "order"%string t) (times_of s b) n (add_time_sound _ _ _ SA) SB) as (_ & E & _). fold t. rewrite E, value_add. ring.
  - split; [reflexivity|]. intros n. split; [apply value_add|]. apply C111_merged; assumption.
  - split; [reflexivity|]. intros n. split; [apply value_add|]. apply C111_merged; assumption.
  - split; [reflexivity|]. split; [reflexivity|]. intros n. rewrite value_add. destruct (C111_merged (times_of s a) (times_of s b) n SA SB) as (_ & E & _). rewrite E. reflexivity.
Qed.

(** ** Updates of the columns *)

(** What one update adds: a sketch of categories counts the time of its two inner steps twice. *)
Theorem C111_updates clock o s :
  (forall random rows, 0 < rows -> let '(s', _) := exec_all clock (order_update o random rows) s in let i := readings s in
     (value (times_of s' o) "order"%string == value (times_of s o) "order"%string +
        (if random then 0 else (clock (i + 1)%nat - clock i) + (clock (i + 3)%nat - clock (i + 2)%nat)))%Q) /\
  (forall rows, 0 < rows -> let '(s', _) := exec_all clock (categories_update o false false rows) s in let i := readings s in
     (value (times_of s' o) "categories"%string == value (times_of s o) "categories"%string + (clock (i + 1)%nat - clock i))%Q) /\
  (forall rows, 0 < rows -> let '(s', _) := exec_all clock (categories_update o true false rows) s in let i := readings s in
     (value (times_of s' o) "categories"%string == value (times_of s o) "categories"%string +
        (clock (i + 5)%nat - clock i) + (clock (i + 2)%nat - clock (i + 1)%nat) + (clock (i + 4)%nat - clock (i + 3)%nat))%Q) /\
  (forall sketch rows, exec_all clock (categories_update o sketch true rows) s = (s, true)) /\
  (forall sketch stopped random on, exec_all clock (categories_update o sketch stopped 0) s = (s, true) /\
     exec_all clock (order_update o random 0) s = (s, true) /\ exec_all clock (numeric_update o on 0) s = (s, true)).
Proof.
  assert (forall rows, 0 < rows -> (rows =? 0) = false) as NZ by (intros rows H; apply Nat.eqb_neq; lia).
  refine (conj _ (conj _ (conj _ (conj _ _)))).
  - intros random rows H. unfold order_update. rewrite (NZ rows H). destruct random; cbn [exec_all call exec orb andb negb times_of readings]; [ring|].
    unfold set_times. rewrite !Nat.eqb_refl. rewrite !value_add. change (PyDict.eqb "order"%string "order"%string) with true. cbv iota. replace (readings s + 1) with (S (readings s)) by lia. replace (readings s + 2) with (S (S (readings s))) by lia. replace (readings s + 3) with (S (S (S (readings s)))) by lia. ring.
  - intros rows H. unfold categories_update. rewrite (NZ rows H). cbn [exec_all call exec orb andb negb times_of readings]. unfold set_times. rewrite !Nat.eqb_refl. rewrite !value_add. change (PyDict.eqb "categories"%string "categories"%string) with true. cbv iota. replace (readings s + 1) with (S (readings s)) by lia. ring.
  - intros rows H. unfold categories_update. rewrite (NZ rows H). cbn [exec_all call exec orb andb negb times_of readings]. unfold set_times. rewrite !Nat.eqb_refl. rewrite !value_add. change (PyDict.eqb "categories"%string "categories"%string) with true. cbv iota.
    replace (readings s + 1) with (S (readings s)) by lia. replace (readings s + 2) with (S (S (readings s))) by lia. replace (readings s + 3) with (S (S (S (readings s)))) by lia. replace (readings s + 4) with (S (S (S (S (readings s))))) by lia. replace (readings s + 5) with (S (S (S (S (S (readings s)))))) by lia. ring.
  - intros sketch rows. unfold categories_update. rewrite orb_true_r. reflexivity.
  - intros. split; [reflexivity|split; reflexivity].
Qed.

(** ** Histories of a numeric column *)

(** In the history there is an update by numbers while the statistic was switched on. *)
Fixpoint calculated (h : history) (n : string) : Prop :=
  match h with
  | New _ => False
  | Update h k => calculated h n \/ (0 < k /\ In n (switched h))
  | Merged a b => calculated a n \/ calculated b n
  end.

Lemma calls_spans o l i : fst (fst (spans_all (map (call o) l) i)) = map (fun p => mkSpan o (snd p) (i + 2 * fst p) (S (i + 2 * fst p))) (combine (seq 0 (length l)) l).
Proof.
  assert (forall l i j, j <= i -> fst (fst (spans_all (map (call o) l) i)) = map (fun p => mkSpan o (snd p) (i - 2 * j + 2 * fst p) (S (i - 2 * j + 2 * fst p))) (combine (seq j (length l)) l) \/ i < 2 * j) as G.
  { clear. induction l as [|x l IH]; intros i j L; [left; reflexivity|]. destruct (Nat.lt_ge_cases i (2 * j)); [right; assumption|left].
    cbn [map spans_all call spans orb andb negb]. destruct (IH (S (S i)) (S j) ltac:(lia)) as [E|E]; [|lia]. destruct (spans_all (map (call o) l) (S (S i))) as [[y k] ok]. cbn [fst app length seq combine map] in *.
    rewrite E. f_equal; [cbn [fst snd]; f_equal; lia|]. apply map_ext. intros [p q]. cbn [fst snd]. f_equal; lia. }
  destruct (G l i 0 ltac:(lia)) as [E|E]; [|lia]. rewrite E. apply map_ext. intros [p q]. cbn [fst snd]. f_equal; lia.
Qed.

Lemma exec_all_sound clock l : forall s, (forall o, sound (times_of s o)) -> forall o, sound (times_of (fst (exec_all clock l s)) o).
Proof.
  assert (forall a s, (forall o, sound (times_of s o)) -> forall o, sound (times_of (fst (exec clock a s)) o)) as ONE.
  { intros a. induction a as [o n inner r c F|m x y] using action_ind'; intros s H.
    - rewrite exec_Timed. assert (forall s, (forall o, sound (times_of s o)) -> forall o, sound (times_of (fst (exec_all clock inner s)) o)) as HI.
      { clear H s. induction F as [|b t Fb Ft IH]; intros s H; [exact H|]. cbn [exec_all]. specialize (Fb s H). destruct (exec clock b s) as [s1 ok1]. cbn [fst] in Fb. destruct ok1; [apply IH; exact Fb|exact Fb]. }
      specialize (HI (mkState (S (readings s)) (times_of s)) H). destruct (exec_all clock inner _) as [s1 ok1]. cbn [fst] in HI. destruct ((ok1 || c) && negb r); [|exact HI].
      cbn [fst times_of]. intros o'. unfold set_times. destruct (o' =? o); [apply add_time_sound; apply HI|apply HI].
    - cbn [exec fst times_of]. intros o. unfold set_times. destruct (o =? m); [apply add_times_sound|apply H]. }
  induction l as [|a l IH]; intros s H; [exact H|]. cbn [exec_all]. specialize (ONE a s H). destruct (exec clock a s) as [s1 ok1]. cbn [fst] in ONE. destruct ok1; [apply IH; exact ONE|exact ONE].
Qed.

Lemma run_sound clock h : forall i, sound (fst (run clock h i)).
Proof.
  induction h as [on|h IH k|a IHa b IHb]; intros i; cbn [run].
  - constructor.
  - specialize (IH i). destruct (run clock h i) as [d i1]. cbn [fst] in IH.
    pose proof (exec_all_sound clock (numeric_update 0 (switched h) k) (mkState i1 (fun _ => d)) (fun _ => IH) 0) as H.
    destruct (exec_all clock _ _) as [s ok]. exact H.
  - specialize (IHa i). destruct (run clock a i) as [da i1]. specialize (IHb i1). destruct (run clock b i1) as [db i2]. cbn [fst] in *.
    match goal with |- context [exec_all clock ?l ?s] => pose proof (exec_all_sound clock l s) as H; destruct (exec_all clock l s) as [s' ok] end.
    cbn [fst times_of] in *. apply H. intros o. destruct (o =? 1); [assumption|]. destruct (o =? 2); [assumption|constructor].
Qed.

Lemma has_calculated h : has_histogram h = true -> calculated h "histogram_and_quantiles"%string.
Proof.
  induction h as [on|h IH k|a IHa b IHb]; cbn [has_histogram calculated]; [discriminate| |].
  - intros H. apply orb_true_iff in H. destruct H as [H|H]; [left; auto|right]. apply andb_true_iff in H. destruct H as [H1 H2]. apply lmem_In in H2. split; [|exact H2]. apply negb_true_iff, Nat.eqb_neq in H1. lia.
  - intros H. apply andb_true_iff in H. destruct H as [H _]. apply andb_true_iff in H. destruct H as [_ H]. left. auto.
Qed.

(** After any updates and merges of a numeric column the times show exactly the statistics that were
    calculated at least once, i.e. that were switched on when numbers came; merging loses none of
    them even if it switches the statistic off. No time is negative. *)
Theorem C111_names clock h i n : steady clock ->
  (In n (dkeys (fst (run clock h i))) <-> calculated h n) /\ (0 <= value (fst (run clock h i)) n)%Q.
Proof.
  intros ST. revert i. induction h as [on|h IH k|a IHa b IHb]; intros i; cbn [run calculated].
  - cbn [fst]. split; [split; [intros []|intros []]|]. unfold value. cbn. lra.
  - specialize (IH i). destruct (run clock h i) as [d i1]. cbn [fst] in IH. destruct IH as [K V].
    destruct (exec_all clock (numeric_update 0 (switched h) k) (mkState i1 (fun _ => d))) as [s ok] eqn:E. cbn [fst].
    assert (~ In 0 (flat_map made (numeric_update 0 (switched h) k))) as NM.
    { unfold numeric_update. destruct (k =? 0); [intros []|]. intros H. apply in_flat_map in H. destruct H as (x & H & H'). apply in_map_iff in H. destruct H as (y & <- & _). exact H'. }
    split.
    + apply C111_recorded in E. cbn [readings times_of] in E. destruct (spans_all (numeric_update 0 (switched h) k) i1) as [[x j] r] eqn:ES. destruct E as (_ & _ & E). destruct (E 0 n NM) as [_ E']. rewrite E', K. clear E E'.
      unfold numeric_update in ES. destruct (Nat.eqb_spec k 0) as [->|NK].
      * cbn in ES. injection ES as <- <- <-. split; [intros [H|(p & [] & _)]; left; exact H|intros [H|[H _]]; [left; exact H|lia]].
      * pose proof (calls_spans 0 (switched h) i1) as CS. rewrite ES in CS. cbn [fst] in CS. subst x. split.
        -- intros [H|(p & H & _ & H')]; [left; exact H|right]. split; [lia|]. apply in_map_iff in H. destruct H as ([q z] & <- & H). cbn in H'. subst z. apply in_combine_r in H. exact H.
        -- intros [H|[_ H]]; [left; exact H|right]. apply In_nth_error in H. destruct H as [q H]. exists (mkSpan 0 n (i1 + 2 * q) (S (i1 + 2 * q))). split; [|split; reflexivity].
           apply in_map_iff. exists (q, n). split; [reflexivity|]. assert (q < length (switched h)) as LQ by (apply nth_error_Some; congruence).
           apply (nth_error_In _ q). clear -H LQ. assert (forall l s q, nth_error l q = Some n -> nth_error (combine (seq s (length l)) l) q = Some (s + q, n)) as G.
           { induction l as [|y l IH]; intros s q' E; [destruct q'; discriminate|]. destruct q'; cbn in *; [injection E as ->; rewrite Nat.add_0_r; reflexivity|]. rewrite (IH (S s) q' E). f_equal. f_equal. lia. }
           exact (G _ 0 q H).
    + destruct (C111_elapsed clock _ _ _ _ 0 n 1 ST E NM) as [L _]; [|cbn [times_of] in L; lra].
      intros x Hx. unfold numeric_update in Hx. destruct (k =? 0); [destruct Hx|]. apply in_map_iff in Hx. destruct Hx as (y & <- & _). cbn [depth call map List.list_max fold_right]. destruct (_ && _); lia.
  - pose proof (run_sound clock a i) as SA. specialize (IHa i). destruct (run clock a i) as [da i1]. pose proof (run_sound clock b i1) as SB. specialize (IHb i1). destruct (run clock b i1) as [db i2]. cbn [fst] in *. destruct IHa as [KA VA]. destruct IHb as [KB VB].
    destruct (C111_merged da db n SA SB) as (_ & MV & MK).
    pose proof (has_calculated a) as HA.
    destruct (lmem (switched (Merged a b)) "histogram_and_quantiles"%string && has_histogram a && has_histogram b) eqn:EH;
      cbn [numeric_merge exec_all exec call orb andb negb times_of readings fst]; unfold set_times; cbn [Nat.eqb].
    + apply andb_true_iff in EH. destruct EH as [EH _]. apply andb_true_iff in EH. destruct EH as [_ EH]. specialize (HA EH). split.
      * rewrite keys_add, MK, KA, KB. split; [intros [->|H]; [left; exact HA|exact H]|intros H; right; exact H].
      * rewrite value_add, MV. pose proof (ST i2 (S i2) ltac:(lia)). destruct (PyDict.eqb _ _); lra.
    + split; [rewrite MK, KA, KB; reflexivity|]. rewrite MV. lra.
Qed.

(** ** Refuted expectations *)

(** The time of a name is at most the time that has passed: with a sketch of categories it is not. *)
Definition seconds (i : nat) : Q := Qn i.

Theorem C111_at_most_elapsed_refuted : steady seconds /\
  exists s', exec_all seconds (categories_update 0 true false 3) (mkState 0 (fun _ => [])) = (s', true) /\
    readings s' = 6 /\ (seconds 5 - seconds 0 == 5)%Q /\ (value (times_of s' 0) "categories"%string == 7)%Q.
Proof.
  split; [intros i j H; unfold seconds; apply Qn_le; exact H|]. eexists. split; [reflexivity|]. split; [reflexivity|]. split; reflexivity.
Qed.

(** Merging leaves both profiles as they are: the first column of orders gets one more second. *)
Theorem C111_merging_keeps_operands_refuted :
  exists s', exec_all seconds (order_merge 2 0 1) (mkState 0 (fun o => if o =? 2 then [] else [("order"%string, 3%Q)])) = (s', true) /\
    (value (times_of s' 0) "order"%string == 4)%Q /\ (value (times_of s' 1) "order"%string == 3)%Q /\ (value (times_of s' 2) "order"%string == 7)%Q.
Proof. eexists. split; [reflexivity|]. split; [reflexivity|]. split; reflexivity. Qed.

(** The time for merging correlations shows in the merged profile: it does not. *)
Theorem C111_merge_time_shown_refuted :
  exists s', exec_all seconds (table_merge 2 0 1 true) (mkState 0 (fun o => if o =? 2 then [] else [("correlation"%string, 3%Q)])) = (s', true) /\
    (value (times_of s' 2) "correlation"%string == 6)%Q /\ (value (times_of s' 0) "correlation"%string == 4)%Q.
Proof. eexists. split; [reflexivity|]. split; reflexivity. Qed.

(** ** Examples *)

(** A column with two statistics and numbers, merged with one without histograms. *)
Example C111_example :
  let a := Update (Update (New ["min"; "histogram_and_quantiles"]%string) 3) 0 in
  let b := Update (New ["min"; "max"]%string) 2 in
  map (fun kv => (fst kv, Qred (snd kv))) (fst (run seconds (Merged a b) 0)) = [("min"%string, 2%Q); ("histogram_and_quantiles"%string, 1%Q); ("max"%string, 1%Q)] /\
  switched (Merged a b) = ["min"%string] /\ steady seconds.
Proof. split; [vm_compute; reflexivity|]. split; [vm_compute; reflexivity|]. intros i j H. unfold seconds. apply Qn_le. exact H. Qed.

(** A method that raises leaves no time, but what it called does. *)
Example C111_example_raises :
  let '(s, ok) := exec_all seconds [Timed 0 "outer"%string [call 0 "inner"%string] true false] (mkState 0 (fun _ => [])) in
  ok = false /\ dkeys (times_of s 0) = ["inner"%string].
Proof. vm_compute. split; reflexivity. Qed.

(** A clock that was set back gives a negative time. *)
Example C111_example_set_back :
  let '(s, _) := exec_all (fun i => if i =? 0 then 5%Q else 0%Q) [call 0 "min"%string] (mkState 0 (fun _ => [])) in
  (value (times_of s 0) "min"%string == -5)%Q.
Proof. vm_compute. reflexivity. Qed.

Print Assumptions C111_recorded.
Print Assumptions C111_elapsed.
Print Assumptions C111_merged.
Print Assumptions C111_operands.
Print Assumptions C111_updates.
Print Assumptions C111_names.
