(** Property C71: dates of a column. *)
From Coq Require Import ZArith Permutation.
From Verif Require Import PyCommon PyDict PyString ListFacts DateModel.
Local Open Scope nat_scope.

Section Props.
  Context {C F : Type} {E : EqDecB F}.
  Variable formats : list F.
  Variable parse : F -> C -> option Z.
  Variable short_month : F -> bool.
  Variable may : Z -> bool.
  Hypothesis formats_differ : NoDup formats.

  (** ** What is expected *)

  (** The first format that fits a value, with the point in time *)
  Fixpoint first_format (fs : list F) (c : C) : option (F * Z) :=
    match fs with
    | [] => None
    | f :: fs => match parse f c with Some t => Some (f, t) | None => first_format fs c end
    end.
  Definition reading (c : C) : option (F * Z) := first_format formats c.
  Definition is_date (c : C) : bool := match reading c with Some _ => true | None => false end.
  Definition count_dates (l : list C) : nat := length (filter is_date l).

  (** Histories of a column.  An update comes with the values sampled from the batch. *)
  Inductive hist :=
  | HNew
  | HUpd (h : hist) (batch sample : list C)
  | HAdd (h1 h2 : hist).
  Fixpoint run (h : hist) : dcol :=
    match h with
    | HNew => new_date
    | HUpd h b s => date_update formats parse short_month may (run h) b s
    | HAdd h1 h2 => date_add (run h1) (run h2)
    end.
  Fixpoint values (h : hist) : list C :=
    match h with HNew => [] | HUpd h b _ => values h ++ b | HAdd h1 h2 => values h1 ++ values h2 end.

  (** [df_series.sample(min(50, len(df_series)))] *)
  Definition sample_of (batch sample : list C) : Prop :=
    exists p, Permutation batch p /\ sample = firstn (Nat.min 50 (length batch)) p.
  Fixpoint sampled (h : hist) : Prop :=
    match h with HNew => True | HUpd h b s => sampled h /\ sample_of b s | HAdd h1 h2 => sampled h1 /\ sampled h2 end.

  (** A format with a short name of the month fits a value that is not in May, if it is the first that fits some value *)
  Definition clear_months (fs : list F) (rows : list C) : Prop :=
    forall f c t, short_month f = true -> In c rows -> first_format fs c = Some (f, t) ->
    exists c' t', In c' rows /\ first_format fs c' = Some (f, t') /\ may t' = false.

  (** Every batch has clear months, and a tenth of the sample are recognised as dates *)
  Fixpoint recognised (h : hist) : Prop :=
    match h with
    | HNew => True
    | HUpd h b s => recognised h /\ clear_months formats b /\ length s <= 10 * fd_match (datetime_profile formats parse short_month may s)
    | HAdd h1 h2 => recognised h1 /\ recognised h2
    end.

  (** The value of a set of values that is the earliest, if there is any *)
  Definition extreme (le : Z -> Z -> Prop) (o : option (C * Z)) (P : C * Z -> Prop) : Prop :=
    match o with
    | None => forall x, ~ P x
    | Some x => P x /\ forall y, P y -> le (snd x) (snd y)
    end.
  Definition later : Z -> Z -> Prop := fun a b => (b <= a)%Z.
  Definition dated (rows : list C) (d : C * Z) : Prop := In (fst d) rows /\ exists f, reading (fst d) = Some (f, snd d).

  (** ** Proofs *)
  Lemma first_min_spec l : extreme Z.le (first_min l) (fun x => In x l).
  Proof.
    induction l as [|x r IH]; [intros x []|]. cbn [first_min]. destruct (first_min r) as [y|].
    - destruct IH as [Hy IH]. destruct (Z.leb_spec (snd x) (snd y)).
      + split; [left; reflexivity|]. intros z [<-|Hz]; [apply Z.le_refl|]. specialize (IH z Hz). lia.
      + split; [right; exact Hy|]. intros z [<-|Hz]; [lia|apply IH, Hz].
    - split; [left; reflexivity|]. intros z [<-|Hz]; [apply Z.le_refl|destruct (IH z Hz)].
  Qed.
  Lemma first_max_spec l : extreme later (first_max l) (fun x => In x l).
  Proof.
    unfold later. induction l as [|x r IH]; [intros x []|]. cbn [first_max]. destruct (first_max r) as [y|].
    - destruct IH as [Hy IH]. destruct (Z.leb_spec (snd y) (snd x)).
      + split; [left; reflexivity|]. intros z [<-|Hz]; [apply Z.le_refl|]. specialize (IH z Hz). cbn in *. lia.
      + split; [right; exact Hy|]. intros z [<-|Hz]; [lia|apply IH, Hz].
    - split; [left; reflexivity|]. intros z [<-|Hz]; [apply Z.le_refl|destruct (IH z Hz)].
  Qed.
  Lemma extreme_ext le o (P Q : C * Z -> Prop) : (forall x, P x <-> Q x) -> extreme le o P -> extreme le o Q.
  Proof. intros H. destruct o as [x|]; cbn [extreme]; [intros [H1 H2]; split; [apply H, H1|intros y Hy; apply H2, H, Hy]|]. intros H1 x Hx. apply (H1 x), H, Hx. Qed.
  Lemma smaller_spec a b P Q : extreme Z.le a P -> extreme Z.le b Q -> extreme Z.le (smaller a b) (fun x => P x \/ Q x).
  Proof.
    destruct a as [x|], b as [y|]; cbn [smaller extreme].
    - intros [Hx HP] [Hy HQ]. destruct (Z.ltb_spec (snd y) (snd x)); (split; [auto|]); intros z [Hz|Hz]; try (specialize (HP z Hz)); try (specialize (HQ z Hz)); lia.
    - intros [Hx HP] HQ. split; [auto|]. intros z [Hz|Hz]; [apply HP, Hz|destruct (HQ z Hz)].
    - intros HP [Hy HQ]. split; [auto|]. intros z [Hz|Hz]; [destruct (HP z Hz)|apply HQ, Hz].
    - intros HP HQ z [Hz|Hz]; [exact (HP z Hz)|exact (HQ z Hz)].
  Qed.
  Lemma larger_spec a b P Q : extreme later a P -> extreme later b Q -> extreme later (larger a b) (fun x => P x \/ Q x).
  Proof.
    unfold later. destruct a as [x|], b as [y|]; cbn [larger extreme].
    - intros [Hx HP] [Hy HQ]. destruct (Z.ltb_spec (snd x) (snd y)); (split; [auto|]); intros z [Hz|Hz]; try (specialize (HP z Hz)); try (specialize (HQ z Hz)); cbn in *; lia.
    - intros [Hx HP] HQ. split; [auto|]. intros z [Hz|Hz]; [apply HP, Hz|destruct (HQ z Hz)].
    - intros HP [Hy HQ]. split; [auto|]. intros z [Hz|Hz]; [destruct (HP z Hz)|apply HQ, Hz].
    - intros HP HQ z [Hz|Hz]; [exact (HP z Hz)|exact (HQ z Hz)].
  Qed.
  Lemma merge_min_spec a b P Q : extreme Z.le a P -> extreme Z.le b Q -> extreme Z.le (merge_min a b) (fun x => P x \/ Q x).
  Proof.
    destruct a as [x|], b as [y|]; cbn [merge_min extreme].
    - intros [Hx HP] [Hy HQ]. destruct (Z.ltb_spec (snd x) (snd y)); (split; [auto|]); intros z [Hz|Hz]; try (specialize (HP z Hz)); try (specialize (HQ z Hz)); lia.
    - intros [Hx HP] HQ. split; [auto|]. intros z [Hz|Hz]; [apply HP, Hz|destruct (HQ z Hz)].
    - intros HP [Hy HQ]. split; [auto|]. intros z [Hz|Hz]; [destruct (HP z Hz)|apply HQ, Hz].
    - intros HP HQ z [Hz|Hz]; [exact (HP z Hz)|exact (HQ z Hz)].
  Qed.
  Lemma merge_max_spec a b P Q : extreme later a P -> extreme later b Q -> extreme later (merge_max a b) (fun x => P x \/ Q x).
  Proof.
    unfold later. destruct a as [x|], b as [y|]; cbn [merge_max extreme].
    - intros [Hx HP] [Hy HQ]. destruct (Z.ltb_spec (snd y) (snd x)); (split; [auto|]); intros z [Hz|Hz]; try (specialize (HP z Hz)); try (specialize (HQ z Hz)); cbn in *; lia.
    - intros [Hx HP] HQ. split; [auto|]. intros z [Hz|Hz]; [apply HP, Hz|destruct (HQ z Hz)].
    - intros HP [Hy HQ]. split; [auto|]. intros z [Hz|Hz]; [destruct (HP z Hz)|apply HQ, Hz].
    - intros HP HQ z [Hz|Hz]; [exact (HP z Hz)|exact (HQ z Hz)].
  Qed.

  Definition unread (f : F) (rows : list C) : list C := filter (fun c => match parse f c with None => true | Some _ => false end) rows.
  Lemma valid_In f rows d : In d (valid parse f rows) <-> In (fst d) rows /\ parse f (fst d) = Some (snd d).
  Proof.
    unfold valid. rewrite in_flat_map. split.
    - intros (c & Hc & Hd). destruct (parse f c) as [t|] eqn:EP; [|destruct Hd]. destruct Hd as [<-|[]]. cbn [fst snd]. auto.
    - intros [Hc EP]. exists (fst d). split; [exact Hc|]. rewrite EP. left. destruct d; reflexivity.
  Qed.
  Lemma unread_In f rows c : In c (unread f rows) <-> In c rows /\ parse f c = None.
  Proof. unfold unread. rewrite filter_In. destruct (parse f c); split; intros [H1 H2]; split; congruence || auto. Qed.
  Lemma valid_unread f rows : length (valid parse f rows) + length (unread f rows) = length rows.
  Proof. induction rows as [|c rows IH]; [reflexivity|]. unfold valid, unread in *. cbn [flat_map filter length]. destruct (parse f c); cbn [app length]; lia. Qed.
  Lemma valid_length f rows : valid parse f rows = [] <-> length (unread f rows) = length rows.
  Proof. pose proof (valid_unread f rows). split; [intro E0; rewrite E0 in *; cbn in *; lia|]. intro. apply length_zero_iff_nil. lia. Qed.

  Definition dropped (f : F) (rows : list C) : bool :=
    short_month f && match valid parse f rows with [] => false | _ => true end && forallb (fun d => may (snd d)) (valid parse f rows).
  Definition read (f : F) (rows : list C) (acc : found) : found :=
    mkFound (if length (unread f rows) <? length rows then fd_formats acc ++ [f] else fd_formats acc)
      (smaller (fd_min acc) (first_min (valid parse f rows))) (larger (fd_max acc) (first_max (valid parse f rows)))
      (fd_match acc + length (valid parse f rows)).
  Lemma date_loop_cons f fs rows acc : rows <> [] -> date_loop parse short_month may (f :: fs) rows acc =
    if dropped f rows then date_loop parse short_month may fs rows acc else date_loop parse short_month may fs (unread f rows) (read f rows acc).
  Proof.
    intro H. destruct rows as [|c rows]; [contradiction|]. cbn [date_loop]. fold (dropped f (c :: rows)). fold (unread f (c :: rows)). destruct (dropped f (c :: rows)).
    - rewrite Nat.ltb_irrefl. cbn [first_min first_max length]. rewrite Nat.add_0_r. destruct acc as [a b d e]. cbn [fd_formats fd_min fd_max fd_match]. destruct b, d; reflexivity.
    - reflexivity.
  Qed.

  Lemma not_dropped f fs rows : clear_months (f :: fs) rows -> dropped f rows = false.
  Proof.
    intro H. unfold dropped. destruct (short_month f) eqn:ES; [|reflexivity]. destruct (valid parse f rows) as [|d ds] eqn:EV; [reflexivity|]. cbn [andb].
    assert (In d (valid parse f rows)) as Hd by (rewrite EV; left; reflexivity). apply valid_In in Hd as [Hc Hp].
    destruct (H f (fst d) (snd d) ES Hc) as (c' & t' & Hc' & Hf' & Hm); [cbn [first_format]; rewrite Hp; reflexivity|].
    cbn [first_format] in Hf'. apply not_true_is_false. intro Hall. rewrite forallb_forall in Hall.
    assert (parse f c' = Some t') as Hp'. { destruct (parse f c') as [t''|] eqn:E'; [congruence|]. exfalso. clear -Hf' E'. revert Hf'. induction fs as [|g fs IH]; cbn [first_format]; [discriminate|]. destruct (parse g c') as [u|] eqn:Eg; [|exact IH]. intro H. injection H as -> ->. congruence. }
    specialize (Hall (c', t')). rewrite <- EV in Hall. cbn [snd] in Hall. rewrite Hall in Hm; [discriminate|]. apply valid_In. auto.
  Qed.
  Lemma clear_next f fs rows : NoDup (f :: fs) -> clear_months (f :: fs) rows -> clear_months fs (unread f rows).
  Proof.
    intros HN H g c t Hg Hc Hf. apply unread_In in Hc as [Hc Hp]. destruct (H g c t Hg Hc) as (c' & t' & Hc' & Hf' & Hm); [cbn [first_format]; rewrite Hp; exact Hf|].
    exists c', t'. cbn [first_format] in Hf'. destruct (parse f c') as [u|] eqn:EP.
    - injection Hf' as -> ->. exfalso. apply NoDup_cons_iff in HN as [HN _]. apply HN. clear -Hf. revert Hf. induction fs as [|h fs IH]; cbn [first_format]; [discriminate|]. destruct (parse h c); [intro H; injection H as -> ->; left; reflexivity|intro H; right; auto].
    - split; [apply unread_In; auto|]. auto.
  Qed.

  Definition dated_in (fs : list F) (rows : list C) (d : C * Z) : Prop := In (fst d) rows /\ exists f, first_format fs (fst d) = Some (f, snd d).
  Lemma loop_spec fs rows acc P : NoDup fs -> clear_months fs rows -> extreme Z.le (fd_min acc) P -> extreme later (fd_max acc) P ->
    let r := date_loop parse short_month may fs rows acc in
    fd_match r = fd_match acc + length (filter (fun c => match first_format fs c with Some _ => true | None => false end) rows) /\
    (forall f, In f (fd_formats r) <-> In f (fd_formats acc) \/ exists c t, In c rows /\ first_format fs c = Some (f, t)) /\
    extreme Z.le (fd_min r) (fun d => P d \/ dated_in fs rows d) /\ extreme later (fd_max r) (fun d => P d \/ dated_in fs rows d).
  Proof.
    revert rows acc P. induction fs as [|f fs IH]; intros rows acc P HN HM H1 H2; cbv zeta.
    - cbn [date_loop first_format]. assert (filter (fun _ : C => false) rows = []) as -> by (clear; induction rows; auto). cbn [length]. split; [lia|]. split.
      + intro f. split; [auto|]. intros [H|(c & t & _ & H)]; [exact H|discriminate].
      + split; (eapply extreme_ext; [|eassumption]); intro x; (split; [auto|]); intros [H|[_ [f H]]]; [exact H|discriminate|exact H|discriminate].
    - destruct rows as [|c rows0] eqn:ER.
      { cbn [date_loop filter length]. split; [lia|]. split.
        - intro g. split; [auto|]. intros [H|(c & t & [] & _)]. exact H.
        - split; (eapply extreme_ext; [|eassumption]); intro x; (split; [auto|]); intros [H|[[] _]]; exact H. }
      rewrite <- ER in *. rewrite date_loop_cons by (rewrite ER; discriminate). rewrite (not_dropped f fs rows HM).
      assert (extreme Z.le (fd_min (read f rows acc)) (fun d => P d \/ In d (valid parse f rows))) as N1 by (apply smaller_spec; [exact H1|apply first_min_spec]).
      assert (extreme later (fd_max (read f rows acc)) (fun d => P d \/ In d (valid parse f rows))) as N2 by (apply larger_spec; [exact H2|apply first_max_spec]).
      pose proof (clear_next f fs rows HN HM) as HM'. apply NoDup_cons_iff in HN as [HN1 HN2].
      destruct (IH (unread f rows) (read f rows acc) _ HN2 HM' N1 N2) as (R1 & R2 & R3 & R4). split; [|split; [|]].
      + rewrite R1. cbn [read fd_match]. rewrite <- Nat.add_assoc. f_equal. clear. induction rows as [|c rows IH]; [reflexivity|].
        unfold valid, unread in *. cbn [flat_map filter first_format] in IH |- *. destruct (parse f c); cbn [app length filter]; [lia|]. destruct (first_format fs c); cbn [length]; lia.
      + intro g. rewrite R2. cbn [read fd_formats].
        assert (In g (if length (unread f rows) <? length rows then fd_formats acc ++ [f] else fd_formats acc) <-> In g (fd_formats acc) \/ (g = f /\ exists c t, In c rows /\ parse f c = Some t)) as ->.
        { destruct (Nat.ltb_spec (length (unread f rows)) (length rows)) as [L|L].
          - rewrite in_app_iff. cbn [In]. split; [intros [H|[<-|[]]]; [auto|right; split; [reflexivity|]]|intros [H|[-> _]]; auto].
            destruct (valid parse f rows) as [|d ds] eqn:EV; [apply valid_length in EV; lia|]. exists (fst d), (snd d). apply valid_In. rewrite EV. left. reflexivity.
          - split; [auto|]. intros [H|(-> & c' & t & Hc & Hp)]; [exact H|]. exfalso.
            assert (valid parse f rows = []) as EV. { apply valid_length. pose proof (valid_unread f rows). lia. }
            assert (In (c', t) (valid parse f rows)) as Hi by (apply valid_In; auto). rewrite EV in Hi. exact Hi. }
        split.
        * intros [[H|(-> & c' & t & Hc & Hp)]|(c' & t & Hc & Hf)]; [auto| |].
          -- right. exists c', t. split; [exact Hc|]. cbn [first_format]. rewrite Hp. reflexivity.
          -- apply unread_In in Hc as [Hc Hp]. right. exists c', t. split; [exact Hc|]. cbn [first_format]. rewrite Hp. exact Hf.
        * intros [H|(c' & t & Hc & Hf)]; [auto|]. cbn [first_format] in Hf. destruct (parse f c') as [u|] eqn:Ep.
          -- injection Hf as <- <-. left. right. split; [reflexivity|]. exists c', u. auto.
          -- right. exists c', t. split; [apply unread_In; auto|exact Hf].
      + assert (forall d, (P d \/ In d (valid parse f rows)) \/ dated_in fs (unread f rows) d <-> P d \/ dated_in (f :: fs) rows d) as EQ.
        { intro d. unfold dated_in. rewrite valid_In, unread_In. cbn [first_format]. split.
          - intros [[H|[Hc Hp]]|[[Hc Hp] [g Hf]]]; [auto| |]; right; (split; [exact Hc|]); rewrite Hp; [exists f; reflexivity|exists g; exact Hf].
          - intros [H|[Hc [g Hf]]]; [auto|]. destruct (parse f (fst d)) as [u|] eqn:Ep; [left; right; split; [exact Hc|congruence]|right; split; [auto|exists g; exact Hf]]. }
        split; (eapply extreme_ext; [exact EQ|]); assumption.
  Qed.

  Lemma count_app a b : count_dates (a ++ b) = count_dates a + count_dates b.
  Proof. unfold count_dates. rewrite filter_app, app_length. reflexivity. Qed.
  Lemma dated_app a b d : dated (a ++ b) d <-> dated a d \/ dated b d.
  Proof. unfold dated. rewrite in_app_iff. tauto. Qed.
  Lemma combine_In (a b : list F) f : In f (combine a b) <-> In f a \/ In f b.
  Proof. unfold combine. rewrite distinct_In, in_app_iff. reflexivity. Qed.

  (** C71.  If the batches are recognised, then for all histories the number of dates is the number of values that some
      format fits, the formats are the first that fit the values, without repetition, and the earliest and latest date
      are those of the values. *)
  Theorem C71_dates h : recognised h -> let r := run h in let l := values h in
    dt_n r = length l /\ dt_match r = count_dates l /\
    NoDup (dt_formats r) /\ (forall f, In f (dt_formats r) <-> exists c t, In c l /\ reading c = Some (f, t)) /\
    extreme Z.le (dt_min r) (dated l) /\ extreme later (dt_max r) (dated l).
  Proof.
    induction h as [|h IH b s|h1 IH1 h2 IH2]; intro H; cbv zeta; cbn [run values].
    - repeat split; try (intros; cbn in *; contradiction || (repeat split; constructor)); try constructor.
      + intros (c & t & [] & _).
      + intros x [[] _].
      + intros x [[] _].
    - destruct H as (Hh & Hm & Ha). destruct (IH Hh) as (R1 & R2 & R3 & R4 & R5 & R6). clear IH. unfold date_update. destruct b as [|c b0] eqn:EB.
      { rewrite app_nil_r. auto 10. }
      rewrite <- EB in *. assert (is_subset_datetime formats parse short_month may b s = true) as -> by (unfold is_subset_datetime; rewrite (proj2 (Nat.ltb_ge _ _) Ha), EB; reflexivity). cbn [dt_n dt_match dt_formats dt_min dt_max].
      destruct (loop_spec formats b (mkFound [] None None 0) (fun _ => False) formats_differ Hm (fun _ H => H) (fun _ H => H)) as (S1 & S2 & S3 & S4).
      fold (datetime_profile formats parse short_month may b) in S1, S2, S3, S4. cbn [fd_match fd_formats Nat.add] in S1, S2.
      assert (forall d, dated (values h) d \/ (False \/ dated_in formats b d) <-> dated (values h ++ b) d) as EQ by (intro d; rewrite dated_app; unfold dated at 3, dated_in, reading; tauto).
      split; [rewrite R1, app_length; reflexivity|]. split; [rewrite R2, S1, count_app; reflexivity|]. split.
      { destruct (fd_formats _); [exact R3|apply distinct_NoDup]. }
      split; [|split; (eapply extreme_ext; [exact EQ|]); [apply smaller_spec|apply larger_spec]; assumption].
      intro f.
      assert (In f (match fd_formats (datetime_profile formats parse short_month may b) with [] => dt_formats (run h) | fs => combine (dt_formats (run h)) fs end) <->
        In f (dt_formats (run h)) \/ In f (fd_formats (datetime_profile formats parse short_month may b))) as ->.
      { destruct (fd_formats _); [cbn [In]; tauto|apply combine_In]. }
      rewrite R4, S2. cbn [In]. split.
      + intros [(c' & t & Hc & Hr)|[[]|(c' & t & Hc & Hr)]]; exists c', t; rewrite in_app_iff; auto.
      + intros (c' & t & Hc & Hr). apply in_app_or in Hc as [Hc|Hc]; [left|right; right]; exists c', t; auto.
    - destruct H as [Hh1 Hh2]. destruct (IH1 Hh1) as (R1 & R2 & R3 & R4 & R5 & R6). destruct (IH2 Hh2) as (S1 & S2 & S3 & S4 & S5 & S6). clear IH1 IH2. cbn [date_add dt_n dt_match dt_formats dt_min dt_max].
      split; [rewrite R1, S1, app_length; reflexivity|]. split; [rewrite R2, S2, count_app; reflexivity|]. split; [apply distinct_NoDup|]. split.
      + intro f. rewrite combine_In, R4, S4. split.
        * intros [(c' & t & Hc & Hr)|(c' & t & Hc & Hr)]; exists c', t; rewrite in_app_iff; auto.
        * intros (c' & t & Hc & Hr). apply in_app_or in Hc as [Hc|Hc]; [left|right]; exists c', t; auto.
      + assert (forall d, dated (values h1) d \/ dated (values h2) d <-> dated (values h1 ++ values h2) d) as EQ by (intro d; rewrite dated_app; tauto).
        split; (eapply extreme_ext; [exact EQ|]); [apply merge_min_spec|apply merge_max_spec]; assumption.
  Qed.

  (** Without the condition *)
  Definition fits (rows : list C) (d : C * Z) : Prop := In (fst d) rows /\ exists f, In f formats /\ parse f (fst d) = Some (snd d).
  Definition one_of (o : option (C * Z)) (P : C * Z -> Prop) : Prop := match o with Some d => P d | None => True end.
  Lemma one_of_extreme le o P : extreme le o P -> one_of o P.
  Proof. destruct o; [intros [H _]; exact H|exact (fun _ => I)]. Qed.
  Lemma loop_sound fs rows acc (P : C * Z -> Prop) : incl fs formats -> one_of (fd_min acc) P -> one_of (fd_max acc) P -> (forall d, fits rows d -> P d) ->
    let r := date_loop parse short_month may fs rows acc in
    fd_match r <= fd_match acc + length (filter (fun c => match first_format fs c with Some _ => true | None => false end) rows) /\
    (forall f, In f (fd_formats r) -> In f (fd_formats acc) \/ exists d, fits rows d /\ parse f (fst d) = Some (snd d)) /\
    one_of (fd_min r) P /\ one_of (fd_max r) P.
  Proof.
    revert rows acc. induction fs as [|f fs IH]; intros rows acc HI H1 H2 HP; cbv zeta.
    - cbn [date_loop]. split; [lia|]. auto.
    - assert (incl fs formats) as HI' by (intros g Hg; apply HI; right; exact Hg). assert (In f formats) as Hf by (apply HI; left; reflexivity).
      destruct rows as [|c rows0] eqn:ER; [cbn [date_loop]; split; [lia|]; auto|]. rewrite <- ER in *. rewrite date_loop_cons by (rewrite ER; discriminate). clear ER c rows0. destruct (dropped f rows).
      + destruct (IH rows acc HI' H1 H2 HP) as (R1 & R2 & R3). split; [|auto]. eapply Nat.le_trans; [exact R1|]. apply Nat.add_le_mono_l. clear. induction rows as [|c rows IH]; [apply le_n|]. cbn [filter first_format] in *. destruct (parse f c), (first_format fs c); cbn [length]; lia.
      + assert (forall d, In d (valid parse f rows) -> P d) as HV. { intros d Hd. apply valid_In in Hd as [Hc Hp]. apply HP. split; [exact Hc|]. exists f. auto. }
        assert (one_of (fd_min (read f rows acc)) P) as N1.
        { cbn [read fd_min]. pose proof (first_min_spec (valid parse f rows)) as HS. destruct (first_min (valid parse f rows)) as [d|], (fd_min acc) as [d'|]; cbn [smaller one_of extreme] in *; try exact I; try exact H1; try exact H2; (destruct HS as [HS _]; try (destruct (_ <? _)%Z; cbn [one_of]); auto). }
        assert (one_of (fd_max (read f rows acc)) P) as N2.
        { cbn [read fd_max]. pose proof (first_max_spec (valid parse f rows)) as HS. destruct (first_max (valid parse f rows)) as [d|], (fd_max acc) as [d'|]; cbn [larger one_of extreme] in *; try exact I; try exact H1; try exact H2; (destruct HS as [HS _]; try (destruct (_ <? _)%Z; cbn [one_of]); auto). }
        assert (forall d, fits (unread f rows) d -> fits rows d) as HU. { intros d [Hc HF]. apply unread_In in Hc as [Hc _]. split; assumption. }
        destruct (IH (unread f rows) (read f rows acc) HI' N1 N2 (fun d Hd => HP d (HU d Hd))) as (R1 & R2 & R3). split; [|split; [|exact R3]].
        * eapply Nat.le_trans; [exact R1|]. cbn [read fd_match]. rewrite <- Nat.add_assoc. apply Nat.add_le_mono_l. clear. induction rows as [|c rows IH]; [apply le_n|].
          unfold valid, unread in *. cbn [flat_map filter first_format] in IH |- *. destruct (parse f c); cbn [app length filter]; [lia|]. destruct (first_format fs c); cbn [length]; lia.
        * intros g Hg. apply R2 in Hg as [Hg|(d & Hd & Hp)]; [|right; exists d; auto]. cbn [read fd_formats] in Hg. destruct (Nat.ltb_spec (length (unread f rows)) (length rows)) as [L|L]; [|auto].
          apply in_app_or in Hg as [Hg|[<-|[]]]; [auto|]. right. destruct (valid parse f rows) as [|d ds] eqn:EV; [apply valid_length in EV; lia|].
          assert (In d (valid parse f rows)) as Hd by (rewrite EV; left; reflexivity). apply valid_In in Hd as [Hc Hp]. exists d. split; [|exact Hp]. split; [exact Hc|]. exists f. auto.
  Qed.

  Lemma fits_app a b d : fits (a ++ b) d <-> fits a d \/ fits b d.
  Proof. unfold fits. rewrite in_app_iff. tauto. Qed.
  Lemma one_of_weaken o (P Q : C * Z -> Prop) : (forall d, P d -> Q d) -> one_of o P -> one_of o Q.
  Proof. destruct o; cbn [one_of]; auto. Qed.

  (** C71.  For all histories and samples: the number of values is right, there are never more dates than values that some
      format fits, every format reported fits some value, and the earliest and latest dates are values with their dates. *)
  Theorem C71_sound h : let r := run h in let l := values h in
    dt_n r = length l /\ dt_match r <= count_dates l /\
    (forall f, In f (dt_formats r) -> exists d, fits l d /\ parse f (fst d) = Some (snd d)) /\
    one_of (dt_min r) (fits l) /\ one_of (dt_max r) (fits l).
  Proof.
    induction h as [|h IH b s|h1 IH1 h2 IH2]; cbv zeta; cbn [run values].
    - repeat split; try (intros f []); cbn; lia.
    - destruct IH as (R1 & R2 & R3 & R4 & R5). unfold date_update. destruct b as [|c b0] eqn:EB; [rewrite app_nil_r; auto 10|]. rewrite <- EB in *. clear EB c b0.
      assert (forall d, fits (values h) d -> fits (values h ++ b) d) as HW by (intros d Hd; apply fits_app; auto).
      destruct (is_subset_datetime formats parse short_month may b s); cbn [dt_n dt_match dt_formats dt_min dt_max].
      + destruct (loop_sound formats b (mkFound [] None None 0) (fits b) (incl_refl _) I I (fun d H => H)) as (S1 & S2 & S3 & S4).
        fold (datetime_profile formats parse short_month may b) in S1, S2, S3, S4. cbn [fd_match fd_formats Nat.add] in S1, S2.
        split; [rewrite R1, app_length; reflexivity|]. split; [rewrite count_app; unfold count_dates at 2; unfold is_date, reading; lia|]. split; [|split].
        * intros f Hf. assert (In f (dt_formats (run h)) \/ In f (fd_formats (datetime_profile formats parse short_month may b))) as [Hg|Hg].
          { destruct (fd_formats _); [auto|apply combine_In in Hf; exact Hf]. }
          -- destruct (R3 f Hg) as (d & Hd & Hp). exists d. auto.
          -- apply S2 in Hg as [[]|(d & Hd & Hp)]. exists d. split; [apply fits_app; auto|exact Hp].
        * apply (one_of_weaken _ _ _ HW) in R4. apply (one_of_weaken _ _ (fits (values h ++ b))) in S3; [|intros d Hd; apply fits_app; auto]. unfold update_min. destruct (dt_min (run h)) as [x|], (fd_min _) as [y|]; cbn [smaller one_of] in *; auto. destruct (_ <? _)%Z; assumption.
        * apply (one_of_weaken _ _ _ HW) in R5. apply (one_of_weaken _ _ (fits (values h ++ b))) in S4; [|intros d Hd; apply fits_app; auto]. unfold update_max. destruct (dt_max (run h)) as [x|], (fd_max _) as [y|]; cbn [larger one_of] in *; auto. destruct (_ <? _)%Z; assumption.
      + split; [rewrite R1, app_length; reflexivity|]. split; [rewrite count_app; lia|]. split; [|split; eapply one_of_weaken; eauto].
        intros f Hf. destruct (R3 f Hf) as (d & Hd & Hp). exists d. auto.
    - destruct IH1 as (R1 & R2 & R3 & R4 & R5), IH2 as (S1 & S2 & S3 & S4 & S5). cbn [date_add dt_n dt_match dt_formats dt_min dt_max].
      assert (forall d, fits (values h1) d -> fits (values h1 ++ values h2) d) as W1 by (intros d Hd; apply fits_app; auto).
      assert (forall d, fits (values h2) d -> fits (values h1 ++ values h2) d) as W2 by (intros d Hd; apply fits_app; auto).
      split; [rewrite R1, S1, app_length; reflexivity|]. split; [rewrite count_app; lia|]. split; [|split].
      + intros f Hf. apply combine_In in Hf as [Hf|Hf]; [destruct (R3 f Hf) as (d & Hd & Hp)|destruct (S3 f Hf) as (d & Hd & Hp)]; exists d; auto.
      + apply (one_of_weaken _ _ _ W1) in R4. apply (one_of_weaken _ _ _ W2) in S4. destruct (dt_min (run h1)) as [x|], (dt_min (run h2)) as [y|]; cbn [merge_min one_of] in *; auto. destruct (_ <? _)%Z; assumption.
      + apply (one_of_weaken _ _ _ W1) in R5. apply (one_of_weaken _ _ _ W2) in S5. destruct (dt_max (run h1)) as [x|], (dt_max (run h2)) as [y|]; cbn [merge_max one_of] in *; auto. destruct (_ <? _)%Z; assumption.
  Qed.

  (** A batch with a recognised sample has a date: the [datetime.max] put for a batch without dates is never stored *)
  Lemma sample_date batch sample : sample_of batch sample -> 0 < fd_match (datetime_profile formats parse short_month may sample) ->
    0 < fd_match (datetime_profile formats parse short_month may batch).
  Proof.
    intros (p & HP & ->). assert (incl (firstn (Nat.min 50 (length batch)) p) batch) as HI. { intros c Hc. apply In_firstn in Hc. apply (Permutation_in c (Permutation_sym HP) Hc). }
    generalize dependent (firstn (Nat.min 50 (length batch)) p). intros s HI Hs. destruct (Nat.eq_dec (fd_match (datetime_profile formats parse short_month may batch)) 0) as [E0|]; [|lia]. exfalso.
    unfold datetime_profile in *.
    assert (forall fs rows acc, fd_match acc <= fd_match (date_loop parse short_month may fs rows acc)) as Mono.
    { induction fs as [|f fs IH]; intros rows acc; [apply le_n|]. destruct rows as [|c rows]; [apply le_n|]. rewrite date_loop_cons by discriminate. destruct (dropped f (c :: rows)); [apply IH|]. eapply Nat.le_trans; [|apply IH]. cbn [read fd_match]. lia. }
    assert (forall f rows, valid parse f rows = [] -> unread f rows = rows) as UN.
    { intros f rows. clear. induction rows as [|c rows IH]; [reflexivity|]. unfold valid, unread. cbn [flat_map filter]. destruct (parse f c); [discriminate|]. intro H. f_equal. apply IH, H. }
    assert (forall fs accb accs, fd_match (date_loop parse short_month may fs batch accb) = 0 -> fd_match accs = 0 -> fd_match (date_loop parse short_month may fs s accs) = 0) as Key.
    { induction fs as [|f fs IH]; intros accb accs HB HS; [exact HS|]. destruct s as [|c s0] eqn:Es; [exact HS|]. rewrite <- Es in *. rewrite date_loop_cons by (rewrite Es; discriminate).
      assert (batch <> []) as NB. { intros ->. rewrite Es in HI. apply (HI c). left. reflexivity. } rewrite date_loop_cons in HB by exact NB.
      assert (forall d, In d (valid parse f s) -> In d (valid parse f batch)) as IV. { intros d Hd. apply valid_In in Hd as [Hc Hp]. apply valid_In. auto. }
      destruct (dropped f batch) eqn:ED.
      - destruct (dropped f s) eqn:EDs; [exact (IH _ _ HB HS)|]. assert (valid parse f s = []) as EV.
        { unfold dropped in ED, EDs. apply andb_true_iff in ED as [ED1 ED2]. apply andb_true_iff in ED1 as [ED0 _]. rewrite ED0 in EDs. destruct (valid parse f s) as [|d ds] eqn:EV; [reflexivity|]. cbn [andb] in EDs. exfalso. apply not_true_iff_false in EDs. apply EDs. rewrite forallb_forall in *. intros x Hx. apply ED2, IV, Hx. }
        rewrite (UN _ _ EV). apply (IH _ _ HB). cbn [read fd_match]. rewrite EV. cbn. lia.
      - assert (valid parse f batch = []) as EV. { pose proof (Mono fs (unread f batch) (read f batch accb)) as M. rewrite HB in M. cbn [read fd_match] in M. apply length_zero_iff_nil. lia. }
        assert (valid parse f s = []) as EVs. { destruct (valid parse f s) as [|d ds]; [reflexivity|]. exfalso. specialize (IV d (or_introl eq_refl)). rewrite EV in IV. exact IV. }
        rewrite (UN _ _ EV) in HB. assert (dropped f s = false) as -> by (unfold dropped; rewrite EVs, andb_false_r; reflexivity). rewrite (UN _ _ EVs). apply (IH _ _ HB). cbn [read fd_match]. rewrite EVs. cbn. lia. }
    specialize (Key formats _ (mkFound [] None None 0) E0 eq_refl). lia.
  Qed.

  (** C71.  If the first format that fits each value has no short name of a month, every value is counted as a date,
      whatever is sampled. *)
  Theorem C71_all_dates h : sampled h -> (forall c, In c (values h) -> exists f t, reading c = Some (f, t) /\ short_month f = false) ->
    recognised h /\ dt_match (run h) = dt_n (run h).
  Proof.
    intros HS HA. assert (recognised h) as HR.
    { assert (forall rows, (forall c, In c rows -> exists f t, reading c = Some (f, t) /\ short_month f = false) -> clear_months formats rows) as Clear.
      { intros rows H f c t Hf Hc Hr. destruct (H c Hc) as (g & u & Hg & Hs). unfold reading in Hg. congruence. }
      induction h as [|h IH b s|h1 IH1 h2 IH2]; [exact I| |].
      - destruct HS as [HS Hs]. cbn [values] in HA. assert (forall c, In c b -> exists f t, reading c = Some (f, t) /\ short_month f = false) as Hb by (intros c Hc; apply HA, in_or_app; auto).
        split; [apply IH; [exact HS|]; intros c Hc; apply HA, in_or_app; auto|]. split; [apply Clear, Hb|].
        assert (forall c, In c s -> exists f t, reading c = Some (f, t) /\ short_month f = false) as Hc.
        { intros c Hc. apply Hb. destruct Hs as (p & HP & ->). apply In_firstn in Hc. apply (Permutation_in c (Permutation_sym HP) Hc). }
        destruct (loop_spec formats s (mkFound [] None None 0) (fun _ => False) formats_differ (Clear s Hc) (fun _ H => H) (fun _ H => H)) as (S1 & _).
        fold (datetime_profile formats parse short_month may s) in S1. rewrite S1. cbn [fd_match Nat.add].
        assert (filter (fun c => match first_format formats c with Some _ => true | None => false end) s = s) as ->; [|lia].
        clear -Hc. induction s as [|c s IH]; [reflexivity|]. cbn [filter]. destruct (Hc c (or_introl eq_refl)) as (f & t & Hr & _). unfold reading in Hr. rewrite Hr. f_equal. apply IH. intros c' Hc'. apply Hc. right. exact Hc'.
      - destruct HS as [HS1 HS2]. split; [apply IH1|apply IH2]; try assumption; intros c Hc; apply HA; cbn [values]; apply in_or_app; auto. }
    split; [exact HR|]. destruct (C71_dates h HR) as (-> & -> & _). unfold count_dates. f_equal. clear -HA. induction (values h) as [|c l IH]; [reflexivity|]. cbn [filter]. destruct (HA c (or_introl eq_refl)) as (f & t & Hr & _). unfold is_date. rewrite Hr. f_equal. apply IH. intros c' Hc'. apply HA. right. exact Hc'.
  Qed.
End Props.

(** ** Examples with the formats of the program: dates as numbers of the form year, month, day *)
Local Open Scope string_scope.
Local Open Scope list_scope.
Definition all_formats : list string :=
  ["%Y-%m-%d %H:%M:%S"; "%Y-%m-%dT%H:%M:%S"; "%Y-%m-%dT%H:%M:%S.%fZ"; "%Y-%m-%dt%H:%M:%S.%fz"; "%m/%d/%y %H:%M"; "%m/%d/%Y %H:%M"; "%Y%m%dT%H%M%S"; "%Y-%m-%d";
   "%m/%d/%Y"; "%m/%d/%y"; "%b %d, %Y"; "%B %d, %Y"; "%d%b%y"; "%b-%d-%y"; "%m%d%Y"; "%H:%M:%S.%f"].
Definition eg_short (f : string) : bool := lmem ["%b %d, %Y"; "%d%b%y"; "%b-%d-%y"] f.
Definition eg_may (t : Z) : bool := (Z.div t 100 mod 100 =? 5)%Z.
(** What [strptime] gives for some values *)
Definition eg_parse (f c : string) : option Z :=
  dget (match dget [("%Y-%m-%d", [("2013-03-07", 20130307%Z); ("2014-05-01", 20140501%Z)]);
              ("%b %d, %Y", [("Mar 11, 2013", 20130311%Z); ("May 2, 2013", 20130502%Z)]); ("%B %d, %Y", [("May 2, 2013", 20130502%Z); ("June 1, 2012", 20120601%Z)]);
              ("%d%b%y", [("12Mar13", 20130312%Z); ("12May13", 20130512%Z); ("13May13", 20130513%Z)])] f with Some d => d | None => [] end) c.
Definition eg_run (h : @hist string) : @dcol string string := run all_formats eg_parse eg_short eg_may h.

Lemma all_formats_differ : NoDup all_formats.
Proof. apply (NoDup_count_occ' String.string_dec). intros x Hx. unfold all_formats in Hx. cbn [In] in Hx. repeat destruct Hx as [<-|Hx]; reflexivity || destruct Hx. Qed.

Example C71_example :
  let h := HAdd (HUpd HNew ["2014-05-01"; "x"; "May 2, 2013"; "Mar 11, 2013"] ["x"; "Mar 11, 2013"; "May 2, 2013"; "2014-05-01"]) (HUpd HNew ["June 1, 2012"] ["June 1, 2012"]) in
  eg_run h = mkDate ["%Y-%m-%d"; "%b %d, %Y"; "%B %d, %Y"] (Some ("June 1, 2012", 20120601%Z)) (Some ("2014-05-01", 20140501%Z)) 4 5 /\
  recognised all_formats eg_parse eg_short eg_may h.
Proof.
  cbv zeta. split; [reflexivity|]. assert (forall rows, existsb (fun c => lmem ["Mar 11, 2013"] c) rows = true \/ (forall c, In c rows -> c = "June 1, 2012") -> incl rows ["2014-05-01"; "x"; "May 2, 2013"; "Mar 11, 2013"; "June 1, 2012"] -> clear_months eg_parse eg_short eg_may all_formats rows) as Clear.
  { intros rows HM HI f c t Hf Hc Hr. specialize (HI c Hc). cbn [In] in HI. repeat destruct HI as [<-|HI]; try (vm_compute in Hr; first [discriminate Hr | injection Hr as <- <-; first [discriminate Hf | idtac]]); try destruct HI.
    - destruct HM as [HM|HM]; [|specialize (HM _ Hc); discriminate]. exists "Mar 11, 2013", 20130311%Z. split; [|split; reflexivity]. apply existsb_exists in HM as (y & Hy & E). apply lmem_In in E. destruct E as [<-|[]]. exact Hy.
    - exists "Mar 11, 2013", 20130311%Z. split; [exact Hc|split; reflexivity]. }
  cbn [recognised]. repeat split; try (vm_compute; lia); apply Clear; try (left; reflexivity); try (right; intros c [<-|[]]; reflexivity); intros c Hc; cbn [In] in *; intuition.
Qed.

(** Dates in the format of the example 12Mar13 are not recognised if all are in May: *)
Theorem C71_may_refuted : exists batch : list string,
  (forall c, In c batch -> is_date all_formats eg_parse c = true) /\ dt_match (eg_run (HUpd HNew batch batch)) = 0 /\ dt_n (eg_run (HUpd HNew batch batch)) = 2.
Proof. exists ["12May13"; "13May13"]. split; [intros c [<-|[<-|[]]]; reflexivity|split; reflexivity]. Qed.

(** so the number of dates depends on the batches: *)
Theorem C71_batching_refuted : exists a b : list string,
  dt_match (eg_run (HUpd HNew (a ++ b) (a ++ b))) = 2 /\ dt_match (eg_run (HUpd (HUpd HNew a a) b b)) = 1.
Proof. exists ["12Mar13"], ["12May13"]. split; reflexivity. Qed.

(** The number of dates of one batch depends on the random sample: *)
Theorem C71_sampling_refuted : exists batch s1 s2 : list string, sample_of batch s1 /\ sample_of batch s2 /\
  dt_match (eg_run (HUpd HNew batch s1)) = 5 /\ dt_match (eg_run (HUpd HNew batch s2)) = 0.
Proof.
  exists (repeat "2013-03-07" 5 ++ repeat "x" 46), (firstn 50 (repeat "2013-03-07" 5 ++ repeat "x" 46)), (firstn 50 (repeat "x" 46 ++ repeat "2013-03-07" 5)).
  split; [exists (repeat "2013-03-07" 5 ++ repeat "x" 46); split; [apply Permutation_refl|reflexivity]|]. split; [exists (repeat "x" 46 ++ repeat "2013-03-07" 5); split; [apply Permutation_app_comm|reflexivity]|].
  split; vm_compute; reflexivity.
Qed.
