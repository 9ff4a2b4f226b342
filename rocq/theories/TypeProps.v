(** Property C39: the data type of a column. *)
From Coq Require Import ZArith QArith.
From Verif Require Import PyCommon PyDict PyString DateModel DateProps TypeModel.
Local Open Scope nat_scope.
Local Open Scope string_scope.
Local Open Scope list_scope.

Section Props.
  Context {C F : Type} {E : EqDecB F}.
  Variable formats : list F.
  Variable parse : F -> C -> option Z.
  Variable short_month : F -> bool.
  Variable may : Z -> bool.
  Variables is_int is_float : C -> bool.
  Variable len : C -> nat.
  Variable max_enabled : bool.
  Hypothesis formats_differ : NoDup formats.

  (** Histories of a column: a new profile with some types enabled, updates with what is sampled for dates, merges *)
  Inductive hist :=
  | TNew (enabled : kind -> bool)
  | TUpd (h : hist) (batch sample : list C)
  | TAdd (h1 h2 : hist).
  Fixpoint run (h : hist) : result (dict kind (@prof C F)) :=
    match h with
    | TNew e => Ok (new_compiler e)
    | TUpd h b s => bind (run h) (fun c => Ok (update_compiler formats parse short_month may is_int is_float len max_enabled c b s))
    | TAdd h1 h2 => bind (run h1) (fun a => bind (run h2) (fun b => add_compiler a b))
    end.
  Fixpoint values (h : hist) : list C :=
    match h with TNew _ => [] | TUpd h b _ => values h ++ b | TAdd h1 h2 => values h1 ++ values h2 end.
  (** All profiles have the same types enabled *)
  Fixpoint uniform (e : kind -> bool) (h : hist) : Prop :=
    match h with TNew e' => forall k, e' k = e k | TUpd h _ _ => uniform e h | TAdd h1 h2 => uniform e h1 /\ uniform e h2 end.
  (** What the datetime profile sees *)
  Fixpoint dates (h : hist) : @DateProps.hist C :=
    match h with TNew _ => HNew | TUpd h b s => HUpd (dates h) b s | TAdd h1 h2 => HAdd (dates h1) (dates h2) end.

  (** ** What is expected *)
  Definition fits (k : kind) (c : C) : bool :=
    match k with KDate => is_date formats parse c | KInt => is_int c | KFloat => is_float c | KText => true end.
  (** The first enabled type that fits all values, if there are any *)
  Definition expected (e : kind -> bool) (l : list C) : option kind :=
    match l with [] => None | _ => find (fun k => e k && forallb (fits k) l) [KDate; KInt; KFloat; KText] end.

  (** ** Proofs *)
  Fixpoint ttype (h : hist) : string :=
    match h with
    | TNew _ => "text"
    | TUpd h [] _ => ttype h
    | TUpd h b _ => text_type (if max_enabled then longest len (values h ++ b) else None) (ttype h)
    | TAdd _ _ => "text"
    end.
  Definition count (f : C -> bool) (l : list C) : nat := length (filter f l).
  Definition state (k : kind) (h : hist) : @prof C F :=
    match k with
    | KDate => PDate (DateProps.run formats parse short_month may (dates h))
    | KInt => PCount (count is_int (values h)) (length (values h))
    | KFloat => PCount (count is_float (values h)) (length (values h))
    | KText => PText (length (values h)) (if max_enabled then longest len (values h) else None) (ttype h)
    end.
  Definition states (e : kind -> bool) (h : hist) : dict kind prof := map (fun k => (k, state k h)) (filter e profilers).

  Lemma longest_app a b : longest len (a ++ b) = omax (longest len a) (longest len b).
  Proof.
    induction a as [|c a IH]; [cbn [app longest omax]; destruct (longest len b); reflexivity|]. cbn [app longest]. rewrite IH. destruct (longest len a), (longest len b); cbn [omax]; try reflexivity; f_equal; lia.
  Qed.
  Lemma count_app f a b : count f (a ++ b) = count f a + count f b.
  Proof. unfold count. rewrite filter_app, app_length. reflexivity. Qed.
  Lemma values_dates h : DateProps.values (dates h) = values h.
  Proof. induction h as [|h IH b s|h1 IH1 h2 IH2]; cbn [dates DateProps.values values]; congruence. Qed.

  Lemma state_update k h b s : state k (TUpd h b s) = update_prof formats parse short_month may is_int is_float len max_enabled k (state k h) b s.
  Proof.
    destruct b as [|c b].
    - cbn [update_prof]. destruct k; cbn [state dates values DateProps.run ttype]; rewrite ?app_nil_r; reflexivity.
    - destruct k; cbn [state dates values DateProps.run update_prof ttype]; rewrite ?count_app, ?app_length; try reflexivity.
      destruct max_enabled; [rewrite longest_app; reflexivity|reflexivity].
  Qed.
  Lemma state_add k h1 h2 : add_prof (state k h1) (state k h2) = Ok (state k (TAdd h1 h2)).
  Proof. destruct k; cbn [state dates values DateProps.run add_prof ttype]; rewrite ?count_app, ?app_length; try reflexivity. destruct max_enabled; [rewrite longest_app|]; reflexivity. Qed.

  Lemma dget_map {B} (f : kind -> B) l k : In k l -> dget (map (fun k => (k, f k)) l) k = Some (f k).
  Proof. induction l as [|x l IH]; [intros []|]. intro H. cbn [map dget]. destruct (PyDict.eqb_spec x k) as [->|N]; [reflexivity|]. destruct H as [->|H]; [contradiction|auto]. Qed.
  Lemma dmem_map {B} (f : kind -> B) l k : In k l -> dmem (map (fun k => (k, f k)) l) k = true.
  Proof. intro H. unfold dmem. rewrite (dget_map f l k H). reflexivity. Qed.
  Lemma dkeys_map {B} (f : kind -> B) l : dkeys (map (fun k => (k, f k)) l) = l.
  Proof. unfold dkeys. rewrite map_map. apply map_id. Qed.

  Section Over.
    Variable b : dict kind (@prof C F).
    Fixpoint over (l : dict kind (@prof C F)) : result (dict kind prof) :=
      match l with
      | [] => Ok []
      | (k, p) :: r =>
          match dget b k with
          | Some q => bind (add_prof p q) (fun pq => bind (over r) (fun rest => Ok ((k, pq) :: rest)))
          | None => Err KeyError
          end
      end.
  End Over.
  Lemma add_compiler_over (a b : dict kind (@prof C F)) : add_compiler a b = if same_keys a b then over b a else Err ValueError.
  Proof. reflexivity. Qed.

  Lemma run_states e h : uniform e h -> run h = Ok (states e h).
  Proof.
    induction h as [e'|h IH b s|h1 IH1 h2 IH2]; intro U; cbn [run].
    - unfold new_compiler, states. f_equal. cbn [uniform] in U. rewrite (filter_ext _ _ U). apply map_ext. intros []; cbn [state dates values DateProps.run count filter length ttype new_prof kind_name longest]; try reflexivity. destruct max_enabled; reflexivity.
    - rewrite (IH U). cbn [bind]. f_equal. unfold update_compiler, states. rewrite map_map. apply map_ext. intro k. cbn [fst snd]. rewrite state_update. reflexivity.
    - destruct U as [U1 U2]. rewrite (IH1 U1), (IH2 U2). cbn [bind]. rewrite add_compiler_over.
      assert (same_keys (states e h1) (states e h2) = true) as ->. { unfold same_keys, states. rewrite !dkeys_map. apply andb_true_iff. split; apply forallb_forall; intros k Hk; apply dmem_map; exact Hk. }
      unfold states. assert (forall l, incl l (filter e profilers) -> over (map (fun k => (k, state k h2)) (filter e profilers)) (map (fun k => (k, state k h1)) l) = Ok (map (fun k => (k, state k (TAdd h1 h2))) l)) as G.
      { induction l as [|k l IH]; intro HI; [reflexivity|]. cbn [map over]. rewrite dget_map by (apply HI; left; reflexivity). rewrite state_add. cbn [bind]. rewrite IH by (intros x Hx; apply HI; right; exact Hx). reflexivity. }
      apply G, incl_refl.
  Qed.

  (** C39.  Profiles with different types enabled cannot be merged. *)
  Theorem C39_options e1 e2 h1 h2 : uniform e1 h1 -> uniform e2 h2 -> (exists k, e1 k <> e2 k) -> run (TAdd h1 h2) = Err ValueError.
  Proof.
    intros U1 U2 [k Hk]. cbn [run]. rewrite (run_states e1 h1 U1), (run_states e2 h2 U2). cbn [bind]. unfold add_compiler.
    assert (same_keys (states e1 h1) (states e2 h2) = false) as ->; [|reflexivity]. unfold same_keys, states. rewrite !dkeys_map.
    assert (forall e k, In k (filter e profilers) <-> e k = true) as Fi. { intros e k'. rewrite filter_In. split; [intros [_ H]; exact H|]. intro H. split; [destruct k'; cbn; auto|exact H]. }
    apply not_true_is_false. intro H. apply andb_true_iff in H as [H1 H2]. rewrite forallb_forall in H1, H2. apply Hk.
    destruct (e1 k) eqn:E1, (e2 k) eqn:E2; try reflexivity; exfalso.
    - specialize (H1 k (proj2 (Fi e1 k) E1)). unfold dmem in H1. destruct (dget _ k) as [p|] eqn:EG; [|discriminate]. apply dget_Some_In in EG. apply in_map_iff in EG as (k' & EE & Hi). apply (f_equal fst) in EE. cbn [fst] in EE. subst k'. apply Fi in Hi. congruence.
    - specialize (H2 k (proj2 (Fi e2 k) E2)). unfold dmem in H2. destruct (dget _ k) as [p|] eqn:EG; [|discriminate]. apply dget_Some_In in EG. apply in_map_iff in EG as (k' & EE & Hi). apply (f_equal fst) in EE. cbn [fst] in EE. subst k'. apply Fi in Hi. congruence.
  Qed.

  Lemma filter_length_le (f : C -> bool) l : length (filter f l) <= length l.
  Proof. induction l as [|c l IH]; [reflexivity|]. cbn [filter]. destruct (f c); cbn [length]; lia. Qed.
  Lemma ratio_full m k : Qeq_bool (Z.of_nat m # Pos.of_succ_nat k) 1 = (m =? S k).
  Proof.
    destruct (Nat.eqb_spec m (S k)) as [->|N].
    - apply Qeq_bool_iff. unfold Qeq. cbn [Qnum Qden]. lia.
    - apply not_true_is_false. intro H. apply Qeq_bool_iff in H. unfold Qeq in H. cbn [Qnum Qden] in H. lia.
  Qed.
  Lemma count_all f l : (count f l =? length l) = forallb f l.
  Proof.
    induction l as [|c l IH]; [reflexivity|]. unfold count in *. cbn [filter length forallb]. destruct (f c); cbn [length andb]; [exact IH|].
    pose proof (filter_length_le f l). apply Nat.eqb_neq. lia.
  Qed.
  Lemma full_count m n : n <> 0 -> full (@PCount C F m n) = (m =? n).
  Proof. destruct n as [|k]; [contradiction|]. intros _. apply ratio_full. Qed.
  Lemma full_date (d : @dcol C F) : dt_n d <> 0 -> full (PDate d) = (dt_match d =? dt_n d).
  Proof. intro H. unfold full, ratio. destruct (dt_n d) as [|k]; [contradiction|]. apply ratio_full. Qed.

  Lemma selected_states e h : values h <> [] ->
    selected (states e h) = find (fun k => e k && full (state k h)) profilers.
  Proof. intro H. unfold states, profilers. cbn [filter find]. destruct (e KDate), (e KInt), (e KFloat), (e KText); cbn [map selected andb]; repeat (match goal with |- context [full ?x] => destruct (full x) end); reflexivity. Qed.
  Lemma full_state k h : values h <> [] -> k <> KDate -> full (state k h) = forallb (fits k) (values h).
  Proof.
    intros H Hk. assert (length (values h) <> 0) as HL by (destruct (values h); [contradiction|discriminate]). destruct k; [contradiction| | |]; cbn [state].
    - rewrite full_count by exact HL. apply count_all.
    - rewrite full_count by exact HL. apply count_all.
    - unfold full, ratio. destruct (length (values h)); [contradiction|]. cbn [fits]. symmetry. apply forallb_forall. reflexivity.
  Qed.
  Lemma empty_selected e h : values h = [] -> selected (states e h) = None.
  Proof.
    intro H. assert (forall k, full (state k h) = false) as HF.
    { destruct k; cbn [state]; rewrite ?H; try reflexivity. unfold full, ratio. destruct (C71_sound formats parse short_month may (dates h)) as (-> & _). rewrite values_dates, H. reflexivity. }
    unfold states. induction (filter e profilers) as [|k l IH]; [reflexivity|]. cbn [map selected]. rewrite HF. exact IH.
  Qed.
  Lemma date_full_fits h : values h <> [] -> full (state KDate h) = true -> forallb (fits KDate) (values h) = true.
  Proof.
    intros H HF. destruct (C71_sound formats parse short_month may (dates h)) as (N & M & _). rewrite values_dates in N, M. cbn [state] in HF. rewrite full_date in HF by (rewrite N; destruct (values h); [contradiction|discriminate]).
    apply Nat.eqb_eq in HF. rewrite HF, N in M. cbn [fits]. rewrite <- count_all. apply Nat.eqb_eq. apply Nat.le_antisymm; [apply filter_length_le|exact M].
  Qed.

  (** C39.  For all histories of updates and merges with the same types enabled: the selected type is the first enabled type
      that fits all values, or, if dates were not recognised, the first one besides dates. *)
  Theorem C39_selected e h : uniform e h -> exists c, run h = Ok c /\
    (selected c = expected e (values h) \/
     (selected c = expected (fun k => e k && negb (kind_eqb k KDate)) (values h) /\ dt_match (DateProps.run formats parse short_month may (dates h)) < length (values h))).
  Proof.
    intro U. exists (states e h). split; [apply run_states, U|]. destruct (values h) as [|v l] eqn:EV; [left; cbn [expected]; apply empty_selected, EV|].
    assert (values h <> []) as HV by (rewrite EV; discriminate). rewrite selected_states by exact HV. rewrite <- EV.
    assert (forall k, k <> KDate -> e k && full (state k h) = e k && forallb (fits k) (values h)) as HK by (intros k Hk; rewrite full_state by assumption; reflexivity).
    assert (expected e (values h) = find (fun k => e k && forallb (fits k) (values h)) profilers) as -> by (rewrite EV; reflexivity).
    assert (expected (fun k => e k && negb (kind_eqb k KDate)) (values h) = find (fun k => (e k && negb (kind_eqb k KDate)) && forallb (fits k) (values h)) profilers) as -> by (rewrite EV; reflexivity).
    unfold profilers. cbn [find]. rewrite (HK KInt), (HK KFloat), (HK KText) by discriminate. cbn [kind_eqb negb]. rewrite !andb_true_r, !andb_false_r. cbn [andb].
    destruct (e KDate) eqn:ED; [|left; reflexivity]. cbn [andb]. destruct (full (state KDate h)) eqn:EF.
    - left. rewrite (date_full_fits h HV EF). reflexivity.
    - destruct (forallb (fits KDate) (values h)) eqn:EA; [|left; reflexivity]. right. split; [reflexivity|].
      destruct (C71_sound formats parse short_month may (dates h)) as (N & M & _). rewrite values_dates in N, M. cbn [state] in EF. rewrite full_date in EF by (rewrite N, EV; discriminate). apply Nat.eqb_neq in EF.
      rewrite N in EF. pose proof (filter_length_le (is_date formats parse) (values h)). unfold count_dates in M. lia.
  Qed.

  (** C39.  If dates are recognised, it is the first enabled type that fits all values. *)
  Theorem C39_recognised e h : uniform e h -> recognised formats parse short_month may (dates h) -> exists c, run h = Ok c /\ selected c = expected e (values h).
  Proof.
    intros U R. destruct (C39_selected e h U) as (c & Hr & [Hs|[Hs HL]]); exists c; (split; [exact Hr|]); [exact Hs|]. rewrite Hs.
    destruct (C71_dates formats parse short_month may formats_differ (dates h) R) as (_ & HM & _). rewrite values_dates in HM. rewrite HM in HL. unfold expected. destruct (values h) as [|v l] eqn:EV; [reflexivity|].
    assert (forallb (fits KDate) (v :: l) = false) as HF. { cbn [fits]. rewrite <- count_all. unfold count. apply Nat.eqb_neq. unfold count_dates in HL. rewrite <- EV. rewrite ?EV in *. exact (Nat.lt_neq _ _ HL). }
    cbn [find kind_eqb negb]. rewrite HF, !andb_true_r, !andb_false_r. reflexivity.
  Qed.

  (** C39.  With a text profile every column that is not empty has a type, and a type never fails to fit a value. *)
  Corollary C39_always e h : uniform e h -> e KText = true -> values h <> [] -> exists c k, run h = Ok c /\ selected c = Some k /\ e k = true /\ forall v, In v (values h) -> fits k v = true.
  Proof.
    intros U ET HV. destruct (C39_selected e h U) as (c & Hr & HS). exists c.
    assert (forall e', e' KText = true -> exists k, expected e' (values h) = Some k /\ e' k = true /\ forall v, In v (values h) -> fits k v = true) as G.
    { intros e' He. unfold expected. destruct (values h) as [|v l]; [contradiction|]. destruct (find _ _) as [k|] eqn:EF.
      - exists k. apply find_some in EF as [_ EF]. apply andb_true_iff in EF as [E1 E2]. rewrite forallb_forall in E2. auto.
      - exfalso. apply find_none with (x := KText) in EF; [|cbn; auto]. rewrite He in EF. cbn [andb fits] in EF. apply not_true_iff_false in EF. apply EF. apply forallb_forall. reflexivity. }
    destruct HS as [->|[-> _]].
    - destruct (G e ET) as (k & H1 & H2 & H3). exists k. auto.
    - destruct (G (fun k => e k && negb (kind_eqb k KDate))) as (k & H1 & H2 & H3); [rewrite ET; reflexivity|]. exists k. apply andb_true_iff in H2 as [H2 _]. auto.
  Qed.

  (** C39.  The shares reported for the types int and float are the shares of the values that fit. *)
  Theorem C39_shares e h k c : uniform e h -> run h = Ok c -> e k = true -> k = KInt \/ k = KFloat -> values h <> [] ->
    exists p q, dget c k = Some p /\ ratio p = Some q /\ (q == (Z.of_nat (count (fits k) (values h)) # 1) / (Z.of_nat (length (values h)) # 1))%Q.
  Proof.
    intros U Hr He Hk HV. rewrite (run_states e h U) in Hr. injection Hr as <-. exists (state k h). unfold states.
    assert (In k (filter e profilers)) as Hi by (apply filter_In; split; [destruct k; cbn; auto|exact He]). rewrite (dget_map (fun k => state k h) _ k Hi).
    assert (exists n, length (values h) = S n) as [n Hn] by (destruct (values h) as [|v l]; [contradiction|exists (length l); reflexivity]).
    assert (ratio (state k h) = Some (Z.of_nat (count (fits k) (values h)) # Pos.of_succ_nat n)) as HR by (destruct Hk as [-> | ->]; cbn [state ratio]; rewrite Hn; reflexivity).
    exists (Z.of_nat (count (fits k) (values h)) # Pos.of_succ_nat n). split; [reflexivity|]. split; [exact HR|]. rewrite Hn. unfold Qdiv, Qmult, Qinv, Qeq. cbn [Qnum Qden].
    replace (Z.of_nat (S n)) with (Z.pos (Pos.of_succ_nat n)) by lia. cbn [Qnum Qden]. nia.
  Qed.

  (** C39.  The report shows the selected type, where texts of at most 255 characters are called string if the last step was
      an update and the length of the longest text is recorded. *)
  Definition shown (k : kind) (l : list C) : string :=
    match k with KText => if forallb (fun c => len c <=? 255) l then "string" else "text" | k => kind_name k end.
  Theorem C39_reported e h b s c : uniform e h -> run (TUpd h b s) = Ok c -> b <> [] -> max_enabled = true -> (exists v, In v (values h ++ b) /\ len v <> 0) ->
    reported c = match selected c with Some k => Some (shown k (values h ++ b)) | None => None end.
  Proof.
    intros U Hr Hb HM HE. rewrite (run_states e (TUpd h b s) U) in Hr. injection Hr as <-.
    assert (type_of KText (state KText (TUpd h b s)) = shown KText (values h ++ b)) as HT.
    { cbn [state type_of ttype]. destruct b as [|v b]; [contradiction|]. rewrite HM. clear -HE.
      assert (exists m, longest len (values h ++ v :: b) = Some m /\ m <> 0 /\ (m <=? 255) = forallb (fun c => len c <=? 255) (values h ++ v :: b)) as (m & -> & Hm & Hf).
      { generalize dependent (values h ++ v :: b). intros l (w & Hw & Hl).
        assert (forall l, l <> [] -> exists m, longest len l = Some m /\ (forall c, In c l -> len c <= m) /\ (m <=? 255) = forallb (fun c => len c <=? 255) l) as G.
        { clear. induction l as [|c l IH]; [contradiction|]. intros _. cbn [longest forallb]. destruct l as [|d l].
          - exists (len c). cbn [longest forallb]. rewrite andb_true_r. split; [reflexivity|]. split; [intros x [<-|[]]; lia|reflexivity].
          - destruct IH as (m & -> & H1 & H2); [discriminate|]. exists (Nat.max (len c) m). split; [reflexivity|]. split; [intros x [<-|Hx]; [lia|specialize (H1 x Hx); lia]|].
            rewrite <- H2. destruct (Nat.leb_spec (len c) 255), (Nat.leb_spec m 255), (Nat.leb_spec (Nat.max (len c) m) 255); cbn [andb]; lia || reflexivity. }
        destruct (G l) as (m & H1 & H2 & H3); [intros ->; destruct Hw|]. exists m. split; [exact H1|]. split; [specialize (H2 w Hw); lia|exact H3]. }
      destruct m as [|m]; [contradiction|]. cbn [text_type]. unfold shown. rewrite Hf. reflexivity. }
    unfold states. induction (filter e profilers) as [|k l IH]; [reflexivity|]. cbn [map reported selected]. destruct (full (state k (TUpd h b s))); [|exact IH]. f_equal.
    destruct k; [reflexivity|reflexivity|reflexivity|exact HT].
  Qed.
End Props.

(** ** Examples *)
Definition eg_int (c : string) : bool := lmem ["1"; "2"; "3.0"] c.
Definition eg_float (c : string) : bool := lmem ["1"; "2"; "3.0"; "2.5"; "nan"] c.
Definition eg_compiler (h : @hist string) := run all_formats eg_parse eg_short eg_may eg_int eg_float String.length true h.
Definition eg_selected (h : @hist string) := bind (eg_compiler h) (fun c => Ok (selected c, reported c, representation c)).
Definition everything : kind -> bool := fun _ => true.

Example C39_example :
  eg_selected (TUpd (TUpd (TNew everything) ["1"; "3.0"] ["3.0"; "1"]) ["2.5"] ["2.5"]) =
    Ok (Some KFloat, Some "float", [("datetime", Some (0 # 3)); ("int", Some (2 # 3)); ("float", Some (3 # 3)); ("string", Some (1 # 1))]%Q) /\
  eg_selected (TAdd (TUpd (TNew everything) ["2013-03-07"] ["2013-03-07"]) (TUpd (TNew everything) ["2014-05-01"] ["2014-05-01"])) =
    Ok (Some KDate, Some "datetime", [("datetime", Some (2 # 2)); ("int", Some (0 # 2)); ("float", Some (0 # 2)); ("text", Some (1 # 1))]%Q) /\
  eg_selected (TNew everything) = Ok (None, None, [("datetime", None); ("int", None); ("float", None); ("text", None)]).
Proof. vm_compute. auto. Qed.

(** Short texts are called text instead of string after a merge: *)
Theorem C39_string_refuted : exists a b : list string,
  bind (eg_compiler (TUpd (TUpd (TNew everything) a a) b b)) (fun c => Ok (reported c)) = Ok (Some "string") /\
  bind (eg_compiler (TAdd (TUpd (TNew everything) a a) (TUpd (TNew everything) b b))) (fun c => Ok (reported c)) = Ok (Some "text").
Proof. exists ["ab"; "c"], ["d"]. split; reflexivity. Qed.

(** A column of dates has another type if a batch has only dates in May: *)
Theorem C39_batching_refuted : exists a b : list string,
  bind (eg_compiler (TUpd (TNew everything) (a ++ b) (a ++ b))) (fun c => Ok (selected c)) = Ok (Some KDate) /\
  bind (eg_compiler (TUpd (TUpd (TNew everything) a a) b b)) (fun c => Ok (selected c)) = Ok (Some KText).
Proof. exists ["12Mar13"], ["12May13"; "13May13"]. split; reflexivity. Qed.
