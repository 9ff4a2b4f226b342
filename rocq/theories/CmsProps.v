(** Property C53: columns counted with a count-min sketch. *)
From Verif Require Import PyCommon PyDict ListFacts CategoricalModel CategoricalProofs CmsModel.
Local Open Scope nat_scope.

Section Dicts.
  Context {K : Type} {EK : EqDecB K}.

  Lemma dget_filter {V} (P : K * V -> bool) (d : dict K V) k : NoDup (dkeys d) ->
    dget (filter P d) k = match dget d k with Some v => if P (k, v) then Some v else None | None => None end.
  Proof.
    induction d as [|[k' v] d IH]; intro H; [reflexivity|]. cbn [dkeys map fst] in H. inversion H as [|? ? H1 H2]; subst. cbn [filter dget]. destruct (PyDict.eqb_spec k' k) as [->|N].
    - destruct (P (k, v)); cbn [dget]; [rewrite eqb_refl; reflexivity|]. rewrite (IH H2). apply dget_None in H1. rewrite H1. reflexivity.
    - destruct (P (k', v)); cbn [dget]; [|apply IH; exact H2]. apply eqb_neq in N. rewrite N. apply IH. exact H2.
  Qed.

  Lemma NoDup_filter_keys {V} (P : K * V -> bool) (d : dict K V) : NoDup (dkeys d) -> NoDup (dkeys (filter P d)).
  Proof.
    induction d as [|[k v] d IH]; intro H; [constructor|]. cbn [dkeys map fst] in H. inversion H as [|? ? H1 H2]; subst. cbn [filter]. destruct (P (k, v)); [|apply IH; exact H2].
    cbn [dkeys map fst]. constructor; [|apply IH; exact H2]. intro Hi. apply H1. apply in_map_iff in Hi. destruct Hi as ([k2 v2] & E & Hi). apply filter_In in Hi. cbn in E. subst k2. apply (in_map fst) in Hi || idtac.
    destruct Hi as [Hi _]. apply (in_map fst) in Hi. exact Hi.
  Qed.

  Lemma dget_dupdate {V} (e : dict K V) : NoDup (dkeys e) -> forall d k, dget (dupdate d e) k = match dget e k with Some v => Some v | None => dget d k end.
  Proof.
    unfold dupdate. induction e as [|[k' v] e IH]; intros H d k; [reflexivity|]. cbn [dkeys map fst] in H. inversion H as [|? ? H1 H2]; subst. cbn [fold_left fst snd dget]. rewrite (IH H2), dget_dset.
    destruct (PyDict.eqb_spec k' k) as [->|]; [|reflexivity]. apply dget_None in H1. rewrite H1. reflexivity.
  Qed.
  Lemma NoDup_dupdate {V} (e d : dict K V) : NoDup (dkeys d) -> NoDup (dkeys (dupdate d e)).
  Proof. unfold dupdate. revert d. induction e as [|[k v] e IH]; intros d H; [exact H|]. cbn [fold_left fst snd]. apply IH. apply NoDup_dset. exact H. Qed.
End Dicts.

Section Cms.
  Context {K : Type} {EK : EqDecB K}.
  Variable hash : nat -> K -> nat.
  Notation estimate := (estimate hash).
  Notation bucket := (bucket hash).

  (** ** Specification *)

  (** The number of values that fall into the same bucket as [v] in row [i] *)
  Definition colliding (w i : nat) (v : K) (vs : list K) : nat := length (filter (fun x => hash i x mod w =? hash i v mod w) vs).

  Fixpoint values (h : hist K) : list K :=
    match h with HNew _ _ _ => [] | HUpd h vs => vs ++ values h | HAdd h1 h2 => values h1 ++ values h2 end.
  Fixpoint limit (h : hist K) : nat :=
    match h with HNew _ _ m => m | HUpd h _ => limit h | HAdd h1 h2 => Nat.min (limit h1) (limit h2) end.

  (** ** The sketch *)
  Definition holds (s : sketch) (vs : list K) : Prop :=
    forall i b, sk_cell s i b = length (filter (fun x => hash i x mod sk_buckets s =? b) vs).

  Lemma fold_min l : forall a, fold_left Nat.min l a <= a /\ (forall x, In x l -> fold_left Nat.min l a <= x) /\ (fold_left Nat.min l a = a \/ In (fold_left Nat.min l a) l).
  Proof.
    induction l as [|x l IH]; intro a; cbn [fold_left]; [split; [lia|]; split; [intros x []|auto]|]. destruct (IH (Nat.min a x)) as (H1 & H2 & H3). split; [lia|]. split.
    - intros y [->|Hy]; [lia|apply H2; exact Hy].
    - destruct H3 as [H3|H3]; [|right; right; exact H3]. destruct (Nat.min_dec a x) as [E|E]; rewrite E in *; [left; exact H3|right; left; symmetry; exact H3].
  Qed.

  Lemma estimate_le s v i : i < Nat.max 1 (sk_hashes s) -> estimate s v <= sk_cell s i (bucket s i v).
  Proof.
    intro Hi. unfold CmsModel.estimate. destruct (fold_min (map (fun i => sk_cell s i (bucket s i v)) (seq 1 (sk_hashes s - 1))) (sk_cell s 0 (bucket s 0 v))) as (H1 & H2 & _).
    destruct i as [|i]; [exact H1|]. apply H2. apply in_map_iff. exists (S i). split; [reflexivity|]. apply in_seq. lia.
  Qed.

  Lemma estimate_is s v : exists i, i < Nat.max 1 (sk_hashes s) /\ estimate s v = sk_cell s i (bucket s i v).
  Proof.
    unfold CmsModel.estimate. destruct (fold_min (map (fun i => sk_cell s i (bucket s i v)) (seq 1 (sk_hashes s - 1))) (sk_cell s 0 (bucket s 0 v))) as (_ & _ & [->|H]); [exists 0; split; [lia|reflexivity]|].
    apply in_map_iff in H. destruct H as (i & E & Hi). apply in_seq in Hi. exists i. split; [lia|]. symmetry. exact E.
  Qed.

  Lemma occ_colliding w i v vs : occ v vs <= colliding w i v vs.
  Proof.
    unfold colliding. induction vs as [|x vs IH]; [cbn; lia|]. cbn [filter occ]. destruct (PyDict.eqb_spec x v) as [->|].
    - rewrite Nat.eqb_refl. cbn [length]. lia.
    - destruct (Nat.eqb _ _); cbn [length]; lia.
  Qed.

  Lemma holds_cell s vs v i : holds s vs -> sk_cell s i (bucket s i v) = colliding (sk_buckets s) i v vs.
  Proof. intro H. apply H. Qed.

  Lemma estimate_occ s vs v : holds s vs -> occ v vs <= estimate s v.
  Proof. intro H. destruct (estimate_is s v) as (i & _ & ->). rewrite (holds_cell s vs v i H). apply occ_colliding. Qed.

  Lemma holds_update s vs v : holds s vs -> holds (sk_update hash s v) (vs ++ [v]).
  Proof.
    intros H i b. cbn [sk_update sk_cell sk_buckets]. rewrite filter_app, app_length, (H i b). f_equal. cbn [filter]. unfold CmsModel.bucket. rewrite Nat.eqb_sym. destruct (_ =? _); reflexivity.
  Qed.

  Lemma estimate_update s v x : estimate s x <= estimate (sk_update hash s v) x.
  Proof. destruct (estimate_is (sk_update hash s v) x) as (i & Hi & ->). pose proof (estimate_le s x i Hi) as H. cbn [sk_update sk_cell]. unfold CmsModel.bucket in *. cbn [sk_update sk_buckets]. lia. Qed.

  Lemma holds_merge s t u vs ws : holds s vs -> holds t ws -> sk_merge s t = Ok u ->
    holds u (vs ++ ws) /\ sk_hashes u = sk_hashes s /\ sk_buckets u = sk_buckets s /\ sk_hashes t = sk_hashes s /\ sk_buckets t = sk_buckets s.
  Proof.
    unfold sk_merge. intros Hs Ht H. destruct (Nat.eqb_spec (sk_hashes s) (sk_hashes t)) as [E1|]; [|discriminate]. destruct (Nat.eqb_spec (sk_buckets s) (sk_buckets t)) as [E2|]; [|discriminate].
    injection H as <-. split; [|auto]. intros i b. cbn [sk_cell sk_buckets]. rewrite filter_app, app_length, (Hs i b), (Ht i b), E2. reflexivity.
  Qed.

  Lemma estimate_sum s t u vs ws v : holds s vs -> holds t ws -> holds u (vs ++ ws) ->
    sk_hashes u = sk_hashes s -> sk_buckets u = sk_buckets s -> sk_hashes t = sk_hashes s -> sk_buckets t = sk_buckets s ->
    estimate s v + estimate t v <= estimate u v.
  Proof.
    intros Hs Ht Hu E1 E2 E3 E4. destruct (estimate_is u v) as (i & Hi & ->). pose proof (estimate_le s v i ltac:(lia)) as A. pose proof (estimate_le t v i ltac:(lia)) as B.
    rewrite (holds_cell _ _ v i Hs) in A. rewrite (holds_cell _ _ v i Ht) in B. rewrite (holds_cell _ _ v i Hu). unfold colliding in *. rewrite filter_app, app_length. rewrite E2, E4 in *. lia.
  Qed.

  (** ** The heavy hitters of a batch *)
  Definition within (s : sketch) (vs : list K) (d : dict K nat) : Prop :=
    NoDup (dkeys d) /\ forall v c, dget d v = Some c -> occ v vs <= c /\ c <= estimate s v.

  Section Hitters.
    Variables (old : sketch) (old_vs : list K) (n len max : nat).
    Hypothesis Hold : holds old old_vs.

    Definition hit_inv (pre : list K) (st : sketch * dict K nat * dict K nat) : Prop :=
      let '(cms, heavy, missing) := st in
      holds cms pre /\ within cms pre heavy /\ (forall v c, dget heavy v = Some c -> len / max <= c) /\
      NoDup (dkeys missing) /\
      (forall v c, dget missing v = Some c -> occ v pre + occ v old_vs <= c /\ c <= estimate cms v + estimate old v /\ (n + len) / max <= c) /\
      (forall v, In v pre -> dget heavy v = None -> dget missing v = None -> occ v pre + occ v old_vs < (n + len) / max).

    Lemma hitters_inv vs : forall pre st, hit_inv pre st ->
      hit_inv (pre ++ vs) (hitters hash old n len max vs st) /\
      sk_hashes (fst (fst (hitters hash old n len max vs st))) = sk_hashes (fst (fst st)) /\ sk_buckets (fst (fst (hitters hash old n len max vs st))) = sk_buckets (fst (fst st)).
    Proof.
      induction vs as [|v vs IH]; intros pre [[cms heavy] missing] H; cbn [hitters]; [rewrite app_nil_r; auto|].
      set (st' := if _ <=? _ then _ else _).
      assert (hit_inv (pre ++ [v]) st' /\ sk_hashes (fst (fst st')) = sk_hashes cms /\ sk_buckets (fst (fst st')) = sk_buckets cms) as (H' & E1 & E2).
      { clear IH. destruct H as (Hc & (Nh & Wh) & Th & Nm & Wm & Abs). set (cms' := sk_update hash cms v) in *. assert (holds cms' (pre ++ [v])) as Hc' by (apply holds_update; exact Hc).
        assert (forall x, estimate cms x <= estimate cms' x) as Mono by (intro x; apply estimate_update). pose proof (estimate_occ cms' _ v Hc') as Ov. pose proof (estimate_occ old _ v Hold) as Oo.
        assert (forall x, x <> v -> occ x (pre ++ [v]) = occ x pre) as Oc.
        { intros x N. rewrite occ_app. cbn [occ]. destruct (PyDict.eqb_spec v x); [congruence|]. lia. }
        unfold st'. destruct (Nat.leb_spec (len / max) (estimate cms' v)) as [L1|L1]; [|destruct (Nat.leb_spec ((n + len) / max) (estimate cms' v + estimate old v)) as [L2|L2]].
        - split; [|split; reflexivity]. unfold hit_inv, within. split; [exact Hc'|]. split; [split; [apply NoDup_dset; exact Nh|]|].
          { intros x c. rewrite dget_dset. destruct (PyDict.eqb_spec v x) as [<-|N]; [intro E; injection E as <-; split; [exact Ov|apply le_n]|]. intro E. destruct (Wh x c E). rewrite Oc by congruence. specialize (Mono x). lia. }
          split; [intros x c; rewrite dget_dset; destruct (PyDict.eqb_spec v x) as [<-|N]; [intro E; injection E as <-; exact L1|apply Th]|].
          split; [apply NoDup_ddel; exact Nm|]. split.
          { intros x c. rewrite dget_ddel by exact Nm. destruct (PyDict.eqb_spec v x) as [<-|N]; [discriminate|]. intro E. destruct (Wm x c E) as (A & B & C). rewrite Oc by congruence. specialize (Mono x). lia. }
          intros x Hx. rewrite dget_dset, dget_ddel by exact Nm. destruct (PyDict.eqb_spec v x) as [<-|N]; [discriminate|]. rewrite Oc by congruence. apply Abs. apply in_app_or in Hx. destruct Hx as [Hx|[->|[]]]; [exact Hx|contradiction].
        - split; [|split; reflexivity]. unfold hit_inv, within. split; [exact Hc'|]. split; [split; [apply NoDup_ddel; exact Nh|]|].
          { intros x c. rewrite dget_ddel by exact Nh. destruct (PyDict.eqb_spec v x) as [<-|N]; [discriminate|]. intro E. destruct (Wh x c E). rewrite Oc by congruence. specialize (Mono x). lia. }
          split; [intros x c; rewrite dget_ddel by exact Nh; destruct (PyDict.eqb_spec v x) as [<-|N]; [discriminate|apply Th]|].
          split; [apply NoDup_dset; exact Nm|]. split.
          { intros x c. rewrite dget_dset. destruct (PyDict.eqb_spec v x) as [<-|N]; [intro E; injection E as <-; lia|]. intro E. destruct (Wm x c E) as (A & B & C). rewrite Oc by congruence. specialize (Mono x). lia. }
          intros x Hx. rewrite dget_dset, dget_ddel by exact Nh. destruct (PyDict.eqb_spec v x) as [<-|N]; [discriminate|]. rewrite Oc by congruence. apply Abs. apply in_app_or in Hx. destruct Hx as [Hx|[->|[]]]; [exact Hx|contradiction].
        - split; [|split; reflexivity]. pose proof (Mono v) as Mv. assert (dget heavy v = None) as Hv.
          { destruct (dget heavy v) as [c|] eqn:E; [|reflexivity]. exfalso. destruct (Wh v c E). specialize (Th v c E). lia. }
          assert (dget missing v = None) as Hm.
          { destruct (dget missing v) as [c|] eqn:E; [|reflexivity]. exfalso. destruct (Wm v c E) as (A & B & C). lia. }
          unfold hit_inv, within. split; [exact Hc'|]. split; [split; [exact Nh|]|].
          { intros x c E. destruct (Wh x c E). rewrite Oc by congruence. specialize (Mono x). lia. }
          split; [exact Th|]. split; [exact Nm|]. split.
          { intros x c E. destruct (Wm x c E) as (A & B & C). rewrite Oc by congruence. specialize (Mono x). lia. }
          intros x Hx E1 E2. destruct (PyDict.eqb_spec v x) as [<-|N]; [lia|]. rewrite Oc by congruence. apply Abs; [|exact E1|exact E2]. apply in_app_or in Hx. destruct Hx as [Hx|[->|[]]]; [exact Hx|contradiction]. }
      destruct (IH _ _ H') as (I1 & I2 & I3). rewrite <- app_assoc in I1. cbn [app] in I1. split; [exact I1|]. split; [rewrite I2; exact E1|rewrite I3; exact E2].
    Qed.
  End Hitters.

  (** ** Merging *)
  Lemma recollect_get a b s k : dget (recollect hash a b s) k = match dget b k with Some c => Some c | None => if dmem a k then Some (estimate s k) else None end.
  Proof.
    unfold recollect. assert (forall l d, dget (fold_left (fun d k => if dmem b k then d else dset d k (estimate s k)) l d) k = if lmem l k && negb (dmem b k) then Some (estimate s k) else dget d k) as A.
    { induction l as [|x l IH]; intro d; [reflexivity|]. cbn [fold_left lmem]. rewrite IH. destruct (PyDict.eqb_spec x k) as [->|N].
      - replace (existsb (PyDict.eqb k) (k :: l)) with true by (cbn; rewrite eqb_refl; reflexivity) || idtac. destruct (dmem b k); [rewrite !andb_false_r; reflexivity|]. rewrite dget_dset, eqb_refl. cbn [negb]. rewrite !andb_true_r.
        destruct (lmem l k); destruct (lmem (k :: l) k) eqn:E; try reflexivity; apply lmem_false in E; exfalso; apply E; left; reflexivity.
      - replace (lmem (x :: l) k) with (lmem l k) by (destruct (lmem l k) eqn:E; symmetry; [apply lmem_In in E; apply lmem_In; right; exact E|apply lmem_false in E; apply lmem_false; intros [H|H]; contradiction]).
        destruct (lmem l k && negb (dmem b k)); [reflexivity|]. destruct (dmem b x); [reflexivity|]. rewrite dget_dset. apply eqb_neq in N. rewrite N. reflexivity. }
    rewrite A. unfold dmem at 1. destruct (dget b k) eqn:E; [rewrite andb_false_r; reflexivity|]. rewrite andb_true_r.
    destruct (dmem a k) eqn:F; destruct (lmem (dkeys a) k) eqn:G; try reflexivity; [apply dmem_true in F; apply lmem_false in G; contradiction|apply dmem_false in F; apply lmem_In in G; contradiction].
  Qed.

  Lemma recollect_nodup a b s : NoDup (dkeys b) -> NoDup (dkeys (recollect hash a b s)).
  Proof. unfold recollect. generalize (dkeys a). intros l. generalize b at 1 3. induction l as [|x l IH]; intros d H; [exact H|]. cbn [fold_left]. apply IH. destruct (dmem b x); [exact H|apply NoDup_dset; exact H]. Qed.

  Lemma merge_cms_spec d w cms1 heavy1 len1 missing cms2 heavy2 len2 max vs1 vs2 cms3 cats :
    holds cms1 vs1 -> holds cms2 vs2 -> within cms1 vs1 heavy1 -> within cms2 vs2 heavy2 -> NoDup (dkeys missing) ->
    (forall v c, dget missing v = Some c -> occ v vs1 + occ v vs2 <= c /\ c <= estimate cms1 v + estimate cms2 v) ->
    merge_cms hash (Some (d, w)) cms1 heavy1 len1 missing cms2 heavy2 len2 max = Ok (cms3, cats) ->
    holds cms3 (vs1 ++ vs2) /\ (sk_hashes cms1 = d /\ sk_buckets cms1 = w) /\ (sk_hashes cms2 = d /\ sk_buckets cms2 = w) /\ (sk_hashes cms3 = d /\ sk_buckets cms3 = w) /\
    within cms3 (vs1 ++ vs2) cats /\ (forall v c, dget cats v = Some c -> len1 + len2 <= c * max) /\
    (forall v, dget heavy1 v <> None \/ dget heavy2 v <> None \/ dget missing v <> None -> len1 + len2 <= occ v (vs1 ++ vs2) * max -> dget cats v <> None).
  Proof.
    intros H1 H2 [N1 W1] [N2 W2] Nm Wm. unfold merge_cms. cbn [new_sketch bind].
    destruct (sk_merge (mkSketch d w (fun _ _ => 0)) cms1) as [s1|] eqn:E1; cbn [bind]; [|discriminate]. destruct (sk_merge s1 cms2) as [s3|] eqn:E2; cbn [bind]; [|discriminate].
    destruct (holds_merge (mkSketch d w (fun _ _ => 0)) _ _ [] vs1 ltac:(intros i b; reflexivity) H1 E1) as (G1 & G2 & G3 & G4 & G5). cbn [app sk_hashes sk_buckets] in *.
    destruct (holds_merge _ _ _ vs1 vs2 G1 H2 E2) as (F1 & F2 & F3 & F4 & F5). destruct (_ && _); [discriminate|]. intro H. injection H as <- <-.
    set (h2 := recollect hash heavy1 heavy2 cms2). set (h1 := recollect hash h2 heavy1 cms1). set (cats := dupdate (add_nested_dictionaries h2 h1) missing).
    assert (NoDup (dkeys h2)) as Nh2 by (apply recollect_nodup; exact N2). assert (NoDup (dkeys h1)) as Nh1 by (apply recollect_nodup; exact N1).
    assert (NoDup (dkeys cats)) as Nc by (apply NoDup_dupdate, add_nested_NoDup).
    assert (forall v, dget h2 v = match dget heavy2 v with Some c => Some c | None => if dmem heavy1 v then Some (estimate cms2 v) else None end) as D2 by (intro v; apply recollect_get).
    assert (forall v, dget h1 v = match dget heavy1 v with Some c => Some c | None => if dmem h2 v then Some (estimate cms1 v) else None end) as D1 by (intro v; apply recollect_get).
    assert (forall v, estimate cms1 v + estimate cms2 v <= estimate s3 v) as Es by (intro v; apply (estimate_sum cms1 cms2 s3 vs1 vs2); auto; congruence).
    assert (forall v c, dget cats v = Some c -> occ v vs1 + occ v vs2 <= c /\ c <= estimate s3 v) as Wc.
    { intros v c. unfold cats. rewrite dget_dupdate by exact Nm. specialize (Es v). pose proof (estimate_occ cms1 vs1 v H1) as O1. pose proof (estimate_occ cms2 vs2 v H2) as O2.
      destruct (dget missing v) as [m|] eqn:Em; [intro E; injection E as <-; destruct (Wm v m Em); lia|]. rewrite add_nested_get by assumption. rewrite D1, D2. unfold dmem. rewrite D2. unfold dmem.
      destruct (dget heavy1 v) as [c1|] eqn:X1; [pose proof (W1 v c1 X1)|]; (destruct (dget heavy2 v) as [c2|] eqn:X2; [pose proof (W2 v c2 X2)|]); intro E; try discriminate; injection E as <-; lia. }
    split; [exact F1|]. split; [split; congruence|]. split; [split; congruence|]. split; [split; congruence|]. split; [split; [apply NoDup_filter_keys; exact Nc|]|split].
    - intros v c. rewrite dget_filter by exact Nc. destruct (dget cats v) as [x|] eqn:E; [|discriminate]. destruct (negb _); [|discriminate]. intro H. injection H as <-. rewrite occ_app. apply Wc. exact E.
    - intros v c. rewrite dget_filter by exact Nc. cbn [snd]. destruct (dget cats v) as [x|] eqn:E; [|discriminate]. destruct (Nat.ltb_spec (x * max) (len1 + len2)); cbn [negb]; [discriminate|]. intro H'. injection H' as <-. lia.
    - intros v Hin Hl. rewrite dget_filter by exact Nc. cbn [snd]. assert (dget cats v <> None) as Hc.
      { unfold cats. rewrite dget_dupdate by exact Nm. destruct (dget missing v); [discriminate|]. rewrite add_nested_get by assumption. rewrite D1, D2. unfold dmem. rewrite D2. unfold dmem.
        destruct (dget heavy1 v), (dget heavy2 v); try discriminate. destruct Hin as [X|[X|X]]; contradiction. }
      destruct (dget cats v) as [x|] eqn:E; [|contradiction]. destruct (Wc v x E) as [A _]. rewrite occ_app in Hl. destruct (Nat.ltb_spec (x * max) (len1 + len2)); cbn [negb]; [|discriminate]. nia.
  Qed.

  (** ** All histories *)
  Notation run := (run hash).

  Definition inv (c : col) (vs : list K) (max : nat) : Prop :=
    c_max c = max /\ c_n c = length vs /\ holds (c_cms c) vs /\ within (c_cms c) vs (c_cats c) /\
    (forall d w, c_cfg c = Some (d, w) -> sk_hashes (c_cms c) = d /\ sk_buckets (c_cms c) = w) /\
    (forall v x, dget (c_cats c) v = Some x -> length vs <= x * max) /\
    (forall v, 0 < occ v vs -> length vs <= occ v vs * max -> dget (c_cats c) v <> None).

  Lemma run_inv h : forall c, run h = Ok c -> inv c (values h) (limit h).
  Proof.
    induction h as [d w m|h IH vs|h1 IH1 h2 IH2]; intro c; cbn [CmsModel.run values limit].
    - intro H. injection H as <-. unfold inv, within, holds. cbn. split; [reflexivity|]. split; [reflexivity|]. split; [reflexivity|]. split; [split; [constructor|discriminate]|].
      split; [intros d' w' H; injection H as <- <-; auto|]. split; [discriminate|]. intros v Hv. lia.
    - destruct (run h) as [c0|] eqn:E; cbn [bind]; [|discriminate]. specialize (IH c0 eq_refl). unfold update. destruct vs as [|v0 vs0]; [intro H; injection H as <-; exact IH|].
      set (vs := v0 :: vs0). assert (vs <> []) as Hne by discriminate. clearbody vs. destruct IH as (Mx & Nn & Hh & Hw & Cf & Lo & Co).
      destruct (c_cfg c0) as [[d w]|] eqn:Ec; cbn [new_sketch bind]; [|discriminate]. destruct (Nat.eqb_spec (c_max c0) 0) as [|M0]; [discriminate|].
      pose proof (hitters_inv (c_cms c0) (values h) (c_n c0) (length vs) (c_max c0) Hh vs [] (mkSketch d w (fun _ _ => 0), [], [])) as Hi.
      destruct Hi as (Hi & E1 & E2).
      { unfold hit_inv, within, holds. cbn. repeat split; try constructor; intros; try discriminate; contradiction. }
      destruct (hitters hash (c_cms c0) (c_n c0) (length vs) (c_max c0) vs (mkSketch d w (fun _ _ => 0), [], [])) as [[cms heavy] missing] eqn:Et. cbn [app] in Hi. destruct Hi as (Hc & Wh & Th & Nm & Wm & Abs).
      destruct (merge_cms _ _ _ _ _ _ _ _ _ _) as [[cms3 cats]|] eqn:Em; cbn [bind]; [|discriminate]. cbn [fst snd]. intro H. injection H as <-.
      destruct (merge_cms_spec d w cms heavy (length vs) missing (c_cms c0) (c_cats c0) (c_n c0) (c_max c0) vs (values h) cms3 cats Hc Hh Wh Hw Nm ltac:(intros v x Hx; destruct (Wm v x Hx) as (A & B & _); auto) Em)
        as (R1 & _ & _ & R3 & R4 & R5 & R6).
      unfold inv. cbn [c_cfg c_cms c_cats c_n c_max]. split; [exact Mx|]. split; [rewrite app_length; lia|]. split; [exact R1|]. split; [exact R4|]. split; [intros d' w' H; injection H as <- <-; exact R3|].
      rewrite app_length. split; [intros v x Hx; rewrite <- Mx, <- Nn; apply (R5 v x Hx)|].
      intros v Hv Hl. rewrite <- Mx, <- Nn in Hl. apply R6; [|exact Hl]. rewrite occ_app in Hv, Hl. destruct (dget heavy v) eqn:X1; [left; discriminate|]. destruct (dget missing v) eqn:X3; [right; right; discriminate|].
      right. left. destruct (Nat.eq_dec (occ v vs) 0) as [Z|P].
      + apply Co; [lia|]. rewrite <- Mx, <- Nn. nia.
      + exfalso. assert (In v vs) as Hin by (apply occ_pos; lia). specialize (Abs v Hin X1 X3). pose proof (Nat.mul_div_le (c_n c0 + length vs) (c_max c0) M0). nia.
    - destruct (run h1) as [a|] eqn:E1; cbn [bind]; [|discriminate]. destruct (run h2) as [b|] eqn:E2; cbn [bind]; [|discriminate]. specialize (IH1 a eq_refl). specialize (IH2 b eq_refl).
      destruct IH1 as (Mx & Nn & Hh & Hw & Cf & Lo & Co). destruct IH2 as (Mx2 & Nn2 & Hh2 & Hw2 & Cf2 & Lo2 & Co2). unfold merge.
      destruct (c_cfg a) as [[d w]|] eqn:Ec; [|cbn [merge_cms new_sketch bind]; unfold merge_cms; cbn [new_sketch bind]; discriminate].
      destruct (merge_cms _ _ _ _ _ _ _ _ _ _) as [[cms3 cats]|] eqn:Em; cbn [bind]; [|discriminate]. cbn [fst snd]. intro H. injection H as <-.
      destruct (merge_cms_spec d w (c_cms a) (c_cats a) (c_n a) [] (c_cms b) (c_cats b) (c_n b) _ (values h1) (values h2) cms3 cats Hh Hh2 Hw Hw2 ltac:(constructor) ltac:(intros v x Hx; discriminate) Em) as (R1 & _ & _ & R3 & R4 & R5 & R6).
      unfold inv. cbn [c_cfg c_cms c_cats c_n c_max]. split; [congruence|]. split; [rewrite app_length; lia|]. split; [exact R1|]. split; [exact R4|]. split; [intros d' w' H; discriminate|].
      rewrite app_length, <- Mx, <- Mx2, <- Nn, <- Nn2. split; [exact R5|]. intros v Hv Hl. apply R6; [|exact Hl]. rewrite occ_app in Hv, Hl. set (m := Nat.min (c_max a) (c_max b)) in *.
      assert (m <= limit h1) as M1 by (unfold m; lia). assert (m <= limit h2) as M2 by (unfold m; lia). specialize (Co v). specialize (Co2 v). rewrite <- Nn in Co. rewrite <- Nn2 in Co2.
      destruct (Nat.eq_dec (occ v (values h1)) 0) as [Z|P].
      + right. left. apply Co2; [lia|]. nia.
      + destruct (le_lt_dec (c_n a) (occ v (values h1) * m)) as [L|L]; [left; apply Co; [lia|nia]|]. right. left. assert (0 < occ v (values h2)) by nia. apply Co2; [lia|nia].
  Qed.

  (** No frequent value is missed: one that makes up at least the share 1/limit of all values is reported. *)
  Theorem C53_frequent_reported h c v : run h = Ok c -> In v (values h) -> length (values h) <= occ v (values h) * limit h ->
    exists x, dget (c_cats c) v = Some x.
  Proof. intros H Hv Hl. destruct (run_inv h c H) as (_ & _ & _ & _ & _ & _ & Co). specialize (Co v ltac:(apply occ_pos; exact Hv) Hl). destruct (dget (c_cats c) v); [eauto|contradiction]. Qed.

  (** A reported count is never too small, and too large by no more than the values that fall into the same bucket,
      whatever the hash function; and only counts of at least the share 1/limit are reported. *)
  Theorem C53_reported_counts h c v x : run h = Ok c -> dget (c_cats c) v = Some x ->
    occ v (values h) <= x /\ (forall i, i < sk_hashes (c_cms c) -> x <= colliding (sk_buckets (c_cms c)) i v (values h)) /\ length (values h) <= x * limit h.
  Proof.
    intros H Hx. destruct (run_inv h c H) as (_ & _ & Hh & [_ Hw] & _ & Lo & _). destruct (Hw v x Hx) as [A B]. split; [exact A|]. split; [|exact (Lo v x Hx)].
    intros i Hi. rewrite <- (holds_cell _ _ v i Hh). pose proof (estimate_le (c_cms c) v i ltac:(lia)). lia.
  Qed.

  (** The count is exact if some hash function separates the value from all others. *)
  Theorem C53_exact h c v x i : run h = Ok c -> dget (c_cats c) v = Some x -> i < sk_hashes (c_cms c) ->
    (forall u, In u (values h) -> hash i u mod sk_buckets (c_cms c) = hash i v mod sk_buckets (c_cms c) -> u = v) -> x = occ v (values h).
  Proof.
    intros H Hx Hi Hs. destruct (C53_reported_counts h c v x H Hx) as (A & B & _). specialize (B i Hi). enough (colliding (sk_buckets (c_cms c)) i v (values h) <= occ v (values h)) by lia.
    clear - Hs. unfold colliding. induction (values h) as [|u l IH]; [cbn; lia|]. cbn [filter occ]. specialize (IH ltac:(intros y Hy; apply Hs; right; exact Hy)).
    destruct (Nat.eqb_spec (hash i u mod sk_buckets (c_cms c)) (hash i v mod sk_buckets (c_cms c))) as [E|E].
    - rewrite (Hs u (or_introl eq_refl) E), eqb_refl. cbn [length]. lia.
    - destruct (PyDict.eqb u v); cbn [length]; lia.
  Qed.

  Theorem C53_sample_size h c : run h = Ok c -> c_n c = length (values h) /\ c_max c = limit h.
  Proof. intro H. destruct (run_inv h c H) as (A & B & _). auto. Qed.

  (** ** When it works *)
  Fixpoint unmerged (h : hist K) : Prop := match h with HNew _ _ _ => True | HUpd h _ => unmerged h | HAdd _ _ => False end.

  (** No merged profile is updated, nor is it the first operand of a merge. *)
  Fixpoint usable (h : hist K) : Prop :=
    match h with
    | HNew _ _ _ => True
    | HUpd h vs => usable h /\ (vs = [] \/ unmerged h)
    | HAdd h1 h2 => usable h1 /\ usable h2 /\ unmerged h1
    end.

  (** All profiles of the history are created with [d] hash functions, [w] buckets and a positive limit. *)
  Fixpoint uniform (d w : nat) (h : hist K) : Prop :=
    match h with HNew d' w' m => d' = d /\ w' = w /\ 0 < m | HUpd h _ => uniform d w h | HAdd h1 h2 => uniform d w h1 /\ uniform d w h2 end.

  Lemma uniform_limit d w h : uniform d w h -> 0 < limit h.
  Proof. induction h as [d' w' m|h IH vs|h1 IH1 h2 IH2]; cbn; [tauto|tauto|]. intros [A B]. specialize (IH1 A). specialize (IH2 B). lia. Qed.

  Lemma sizes d w h : uniform d w h -> forall c, run h = Ok c -> sk_hashes (c_cms c) = d /\ sk_buckets (c_cms c) = w.
  Proof.
    induction h as [d' w' m|h IH vs|h1 IH1 h2 IH2]; cbn [uniform CmsModel.run].
    - intros (-> & -> & _) c H. injection H as <-. auto.
    - intros U c H. destruct (run h) as [c0|] eqn:E; cbn [bind] in H; [|discriminate]. specialize (IH U c0 eq_refl). unfold update in H. destruct vs as [|v0 vs0]; [injection H as <-; exact IH|].
      destruct (new_sketch (c_cfg c0)) as [s0|]; cbn [bind] in H; [|discriminate]. destruct (c_max c0 =? 0); [discriminate|]. destruct (hitters _ _ _ _ _ _ _) as [[cms heavy] missing].
      unfold merge_cms in H. destruct (new_sketch (c_cfg c0)) as [s1|]; cbn [bind] in H; [|discriminate]. destruct (sk_merge s1 cms) as [s2|]; cbn [bind] in H; [|discriminate].
      destruct (sk_merge s2 (c_cms c0)) as [s3|] eqn:E3; cbn [bind] in H; [|discriminate]. destruct (_ && _) in H; [discriminate|]. cbn [bind fst snd] in H. injection H as <-. cbn [c_cms].
      unfold sk_merge in E3. destruct (Nat.eqb_spec (sk_hashes s2) (sk_hashes (c_cms c0))) as [A|]; [|discriminate]. destruct (Nat.eqb_spec (sk_buckets s2) (sk_buckets (c_cms c0))) as [B|]; [|discriminate].
      injection E3 as <-. cbn. rewrite A, B. exact IH.
    - intros [U1 U2] c H. destruct (run h1) as [a|] eqn:E; cbn [bind] in H; [|discriminate]. destruct (run h2) as [b|] eqn:E2; cbn [bind] in H; [|discriminate]. specialize (IH2 U2 b eq_refl).
      unfold merge, merge_cms in H. destruct (new_sketch (c_cfg a)) as [s1|]; cbn [bind] in H; [|discriminate]. destruct (sk_merge s1 (c_cms a)) as [s2|]; cbn [bind] in H; [|discriminate].
      destruct (sk_merge s2 (c_cms b)) as [s3|] eqn:E3; cbn [bind] in H; [|discriminate]. destruct (_ && _) in H; [discriminate|]. cbn [bind fst snd] in H. injection H as <-. cbn [c_cms].
      unfold sk_merge in E3. destruct (Nat.eqb_spec (sk_hashes s2) (sk_hashes (c_cms b))) as [A|]; [|discriminate]. destruct (Nat.eqb_spec (sk_buckets s2) (sk_buckets (c_cms b))) as [B|]; [|discriminate].
      injection E3 as <-. cbn. rewrite A, B. exact IH2.
  Qed.

  Lemma cfg_of d w h : uniform d w h -> forall c, run h = Ok c -> (unmerged h -> c_cfg c = Some (d, w)) /\ (~ unmerged h -> c_cfg c = None).
  Proof.
    induction h as [d' w' m|h IH vs|h1 IH1 h2 IH2]; cbn [uniform CmsModel.run unmerged].
    - intros (-> & -> & _) c H. injection H as <-. split; [reflexivity|tauto].
    - intros U c H. destruct (run h) as [c0|] eqn:E; cbn [bind] in H; [|discriminate]. specialize (IH U c0 eq_refl). unfold update in H. destruct vs as [|v0 vs0]; [injection H as <-; exact IH|].
      destruct (new_sketch (c_cfg c0)) as [s0|]; cbn [bind] in H; [|discriminate]. destruct (c_max c0 =? 0); [discriminate|]. destruct (hitters _ _ _ _ _ _ _) as [[cms heavy] missing].
      destruct (merge_cms _ _ _ _ _ _ _ _ _ _) as [r|]; cbn [bind] in H; [|discriminate]. injection H as <-. exact IH.
    - intros [U1 U2] c H. destruct (run h1) as [a|]; cbn [bind] in H; [|discriminate]. destruct (run h2) as [b|]; cbn [bind] in H; [|discriminate]. unfold merge in H.
      destruct (merge_cms _ _ _ _ _ _ _ _ _ _) as [r|]; cbn [bind] in H; [|discriminate]. injection H as <-. split; [tauto|reflexivity].
  Qed.

  Lemma merge_cms_ok d w cms1 heavy1 len1 missing cms2 heavy2 len2 max : 0 < max ->
    sk_hashes cms1 = d -> sk_buckets cms1 = w -> sk_hashes cms2 = d -> sk_buckets cms2 = w ->
    exists r, merge_cms hash (Some (d, w)) cms1 heavy1 len1 missing cms2 heavy2 len2 max = Ok r.
  Proof.
    intros Hm A B C D. unfold merge_cms, sk_merge. cbn [new_sketch bind sk_hashes sk_buckets]. rewrite A, B, !Nat.eqb_refl. cbn [andb bind sk_hashes sk_buckets]. rewrite C, D, !Nat.eqb_refl. cbn [andb bind].
    destruct (Nat.eqb_spec max 0); [lia|]. cbn [andb]. eauto.
  Qed.

  (** With the same sketch sizes everywhere, counting fails exactly if a merged profile is updated with values or is
      the first operand of a merge. *)
  Theorem C53_succeeds d w h : uniform d w h -> (usable h <-> exists c, run h = Ok c).
  Proof.
    induction h as [d' w' m|h IH vs|h1 IH1 h2 IH2]; cbn [uniform usable].
    - intros _. split; [cbn; eauto|auto].
    - intro U. specialize (IH U). cbn [CmsModel.run]. split.
      + intros [Hu Hv]. apply IH in Hu. destruct Hu as [c0 E]. rewrite E. cbn [bind]. unfold update. destruct vs as [|v0 vs0]; [eauto|]. destruct Hv as [Hv|Hv]; [discriminate|].
        destruct (cfg_of d w h U c0 E) as [Cf _]. rewrite (Cf Hv). cbn [new_sketch bind]. destruct (C53_sample_size h c0 E) as [_ M]. pose proof (uniform_limit d w h U) as P. rewrite M.
        destruct (Nat.eqb_spec (limit h) 0); [lia|]. destruct (sizes d w h U c0 E) as [S1 S2]. destruct (run_inv h c0 E) as (_ & _ & Hh & _).
        destruct (hitters_inv (c_cms c0) (values h) (c_n c0) (length (v0 :: vs0)) (limit h) Hh (v0 :: vs0) [] (mkSketch d w (fun _ _ => 0), [], [])) as (_ & E1 & E2).
        { unfold hit_inv, within, holds. cbn. repeat split; try constructor; intros; try discriminate; contradiction. }
        destruct (hitters _ _ _ _ _ _ _) as [[cms heavy] missing]. cbn [fst sk_hashes sk_buckets] in E1, E2.
        destruct (merge_cms_ok d w cms heavy (length (v0 :: vs0)) missing (c_cms c0) (c_cats c0) (c_n c0) (limit h) P E1 E2 S1 S2) as [r Er]. rewrite Er. cbn [bind]. eauto.
      + intros [c H]. destruct (run h) as [c0|] eqn:E; cbn [bind] in H; [|discriminate]. split; [apply IH; eauto|]. unfold update in H. destruct vs as [|v0 vs0]; [auto|]. right.
        assert (forall h, unmerged h \/ ~ unmerged h) as Dec by (clear; induction h; cbn; tauto). destruct (Dec h) as [X|X]; [exact X|]. exfalso. destruct (cfg_of d w h U c0 E) as [_ Cf]. rewrite (Cf X) in H. discriminate.
    - intros [U1 U2]. specialize (IH1 U1). specialize (IH2 U2). cbn [CmsModel.run]. split.
      + intros (Hu1 & Hu2 & Hm). apply IH1 in Hu1. apply IH2 in Hu2. destruct Hu1 as [a Ea], Hu2 as [b Eb]. rewrite Ea, Eb. cbn [bind]. unfold merge. destruct (cfg_of d w h1 U1 a Ea) as [Cf _]. rewrite (Cf Hm).
        destruct (sizes d w h1 U1 a Ea) as [S1 S2]. destruct (sizes d w h2 U2 b Eb) as [S3 S4]. destruct (C53_sample_size h1 a Ea) as [_ M1]. destruct (C53_sample_size h2 b Eb) as [_ M2].
        pose proof (uniform_limit d w h1 U1). pose proof (uniform_limit d w h2 U2). destruct (merge_cms_ok d w (c_cms a) (c_cats a) (c_n a) [] (c_cms b) (c_cats b) (c_n b) (Nat.min (c_max a) (c_max b)) ltac:(lia) S1 S2 S3 S4) as [r Er].
        rewrite Er. cbn [bind]. eauto.
      + intros [c H]. destruct (run h1) as [a|] eqn:E1; cbn [bind] in H; [|discriminate]. destruct (run h2) as [b|] eqn:E2; cbn [bind] in H; [|discriminate]. split; [apply IH1; eauto|]. split; [apply IH2; eauto|].
        assert (forall h, unmerged h \/ ~ unmerged h) as Dec by (clear; induction h; cbn; tauto). destruct (Dec h1) as [X|X]; [exact X|]. exfalso. destruct (cfg_of d w h1 U1 a E1) as [_ Cf].
        unfold merge, merge_cms in H. rewrite (Cf X) in H. discriminate.
  Qed.
End Cms.

Notation demo := (run (fun i v => v * (i + 1))).

Example C53_example :
  match demo (HAdd (HUpd (HUpd (HNew 2 5 3) [1; 1; 2]) [1; 7]) (HUpd (HNew 2 5 2) [2; 1])) with
  | Ok c => c_cats c = [(1, 4)] /\ c_n c = 7 /\ c_max c = 2
  | Err _ => False
  end.
Proof. vm_compute. auto. Qed.

(** A user expects that a merged profile can be updated further.  It lacks the sizes of its sketch. *)
Theorem C53_update_after_merge_refuted :
  ~ (forall (h1 h2 : hist nat) vs c1 c2, uniform 2 5 h1 -> uniform 2 5 h2 -> demo (HUpd h1 vs) = Ok c1 -> demo (HUpd h2 vs) = Ok c2 -> exists c, demo (HUpd (HAdd h1 h2) vs) = Ok c).
Proof.
  intro H. destruct (demo (HUpd (HNew 2 5 3) [1])) as [c1|] eqn:E; [|discriminate].
  destruct (H (HNew 2 5 3) (HNew 2 5 3) [1] c1 c1 ltac:(cbn; lia) ltac:(cbn; lia) E E) as [c Hc]. discriminate.
Qed.

(** A user expects that it does not matter which of three profiles are merged first. *)
Theorem C53_associative_refuted :
  ~ (forall (h1 h2 h3 : hist nat) c, demo (HAdd h1 (HAdd h2 h3)) = Ok c -> exists c', demo (HAdd (HAdd h1 h2) h3) = Ok c').
Proof.
  intro H. destruct (demo (HAdd (HNew 2 5 3) (HAdd (HNew 2 5 3) (HNew 2 5 3)))) as [c|] eqn:E; [|discriminate]. destruct (H _ _ _ c E) as [c' Hc]. discriminate.
Qed.

(** The code means to raise the [ValueError] about sketches of different sizes again; it calls it instead, so that
    the user sees a [TypeError]. *)
Theorem C53_incompatible_sizes_refuted :
  ~ (forall (h1 h2 : hist nat) d w d' w', uniform d w h1 -> uniform d' w' h2 -> (d, w) <> (d', w') -> unmerged h1 -> unmerged h2 -> demo (HAdd h1 h2) = Err ValueError).
Proof. intro H. specialize (H (HNew 2 5 3) (HNew 2 6 3) 2 5 2 6 ltac:(cbn; lia) ltac:(cbn; lia) ltac:(discriminate) I I). discriminate. Qed.

Print Assumptions C53_frequent_reported.
Print Assumptions C53_reported_counts.
Print Assumptions C53_exact.
Print Assumptions C53_sample_size.
Print Assumptions C53_succeeds.
