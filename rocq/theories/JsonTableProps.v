(** * Properties of tables from JSON *)
From Coq Require Import List Arith Bool ZArith Lia Ascii.
Import ListNotations.
From Coq Require String.
From Verif Require Import PyCommon PyDict PyString JsonTableModel.
Local Open Scope string_scope.
Local Open Scope nat_scope.

(** ** What stands in a document *)
(** The value under a path of keys that is no object itself *)
Inductive leaf : json -> list string -> json -> Prop :=
| leaf_here v : (forall d, v <> JObj d) -> leaf v [] v
| leaf_in d k x p v : In (k, x) d -> leaf x p v -> leaf (JObj d) (k :: p) v.

(** Every object has every key once *)
Inductive unique : json -> Prop :=
| unique_val v : (forall d, v <> JObj d) -> unique v
| unique_obj d : NoDup (map fst d) -> Forall (fun e => unique (snd e)) d -> unique (JObj d).

(** Keys are not empty and have no point *)
Definition plain_key (k : string) : Prop :=
  k <> "" /\ ~ In "."%char (String.list_ascii_of_string k).
Inductive plain_keys : json -> Prop :=
| pk_val v : (forall d, v <> JObj d) -> plain_keys v
| pk_obj d : Forall (fun e => plain_key (fst e) /\ plain_keys (snd e)) d -> plain_keys (JObj d).

(** The name of the column for a path: its keys with points between them *)
Definition dotted (p : list string) : string := String.concat "." p.

Section Ind.
  Variable P : json -> Prop.
  Variable HV : forall v, (forall d, v <> JObj d) -> P v.
  Variable HO : forall d, Forall (fun e => P (snd e)) d -> P (JObj d).
  Fixpoint json_rec' (v : json) : P v :=
    match v with
    | JObj d => HO d ((fix go d : Forall (fun e => P (snd e)) d :=
                         match d with
                         | [] => Forall_nil _
                         | (k, x) :: r => Forall_cons (k, x) (json_rec' x) (go r)
                         end) d)
    | JNull => HV JNull ltac:(discriminate)
    | JBool b => HV (JBool b) ltac:(discriminate)
    | JInt z => HV (JInt z) ltac:(discriminate)
    | JFloat t => HV (JFloat t) ltac:(discriminate)
    | JStr s => HV (JStr s) ltac:(discriminate)
    | JList l => HV (JList l) ltac:(discriminate)
    end.
End Ind.

Lemma is_obj_iff v : is_obj v = true <-> exists d, v = JObj d.
Proof. destruct v; cbn; split; try discriminate; try (intros (d & E); discriminate E); eauto. Qed.
Lemma is_obj_false v : is_obj v = false <-> forall d, v <> JObj d.
Proof.
  destruct v; cbn; split; try discriminate; try reflexivity.
  intros H. exfalso. exact (H d eq_refl).
Qed.

(** ** Joined keys *)
Definition names (key : string) (p : list string) : string := fold_left longer p key.

Fixpoint leaves (v : json) (key : string) : list (string * json) :=
  match v with
  | JObj d =>
      (fix go d := match d with
                   | [] => []
                   | (k, x) :: r => leaves x (longer key k) ++ go r
                   end) d
  | _ => [(key, v)]
  end.

Lemma leaves_obj d key : leaves (JObj d) key = flat_map (fun e => leaves (snd e) (longer key (fst e))) d.
Proof. induction d as [|[k x] r IH]; [reflexivity|]. cbn. f_equal. exact IH. Qed.

Lemma leaves_val v key : (forall d, v <> JObj d) -> leaves v key = [(key, v)].
Proof. intros H. destruct v; try reflexivity. exfalso. exact (H d eq_refl). Qed.

Lemma normalise_leaves v : forall key acc, normalise v key acc = dupdate acc (leaves v key).
Proof.
  induction v as [v H|d H] using json_rec'; intros key acc.
  - rewrite (leaves_val v key H). destruct v; try reflexivity. exfalso. exact (H d eq_refl).
  - rewrite leaves_obj. cbn [normalise]. revert acc.
    induction H as [|[k x] r Hx H IH]; intros acc; [reflexivity|].
    cbn [flat_map fst snd]. unfold dupdate in *. rewrite fold_left_app, <- Hx. apply IH.
Qed.

Lemma leaves_iff v : forall key c w, In (c, w) (leaves v key) <-> exists p, leaf v p w /\ c = names key p.
Proof.
  induction v as [v H|d H] using json_rec'; intros key c w.
  - rewrite (leaves_val v key H). split.
    + intros [E|[]]. injection E as <- <-. exists []. split; [constructor; exact H|reflexivity].
    + intros (p & L & ->). inversion L; subst; [left; reflexivity|]. exfalso. exact (H _ eq_refl).
  - rewrite leaves_obj, in_flat_map. rewrite Forall_forall in H. split.
    + intros ([k x] & I & L). apply (H _ I) in L. destruct L as (p & L & ->).
      exists (k :: p). split; [eapply leaf_in; eassumption|reflexivity].
    + intros (p & L & ->). inversion L as [? F|? k x p' ? I L']; subst; [exfalso; exact (F _ eq_refl)|].
      exists (k, x). split; [exact I|]. apply (H _ I). exists p'. auto.
Qed.

Lemma dget_dupdate (d e : dict string json) c :
  match dget (dupdate d e) c with
  | Some v => In (c, v) e \/ (~ In c (map fst e) /\ dget d c = Some v)
  | None => ~ In c (map fst e) /\ dget d c = None
  end.
Proof.
  unfold dupdate. revert d. induction e as [|[k x] e IH]; intros d; cbn [fold_left fst snd map].
  - destruct (dget d c) eqn:E; [right|]; auto.
  - specialize (IH (dset d k x)).
    destruct (dget (fold_left _ e (dset d k x)) c) as [v|].
    + destruct IH as [I|[N E]]; [left; right; exact I|].
      rewrite dget_dset in E. destruct (PyDict.eqb k c) eqn:Ek.
      * apply (proj1 (PyDict.eqb_eq _ _)) in Ek. subst k. injection E as ->. left. left. reflexivity.
      * apply PyDict.eqb_neq in Ek. right. split; [|exact E]. intros [F|F]; [congruence|contradiction].
    + destruct IH as [N E]. rewrite dget_dset in E. destruct (PyDict.eqb k c) eqn:Ek; [discriminate E|].
      apply PyDict.eqb_neq in Ek. split; [|exact E]. intros [F|F]; [congruence|contradiction].
Qed.

Lemma in_fst (e : list (string * json)) c : In c (map fst e) <-> exists v, In (c, v) e.
Proof.
  rewrite in_map_iff. split.
  - intros ([k v] & E & I). cbn in E. subst k. eauto.
  - intros (v & I). exists (c, v). auto.
Qed.

Lemma NoDup_dupdate (e : dict string json) : forall d, NoDup (dkeys d) -> NoDup (dkeys (dupdate d e)).
Proof.
  unfold dupdate. induction e as [|x e IH]; intros d H; [exact H|].
  cbn [fold_left]. apply IH. apply NoDup_dset. exact H.
Qed.

(** The leaves of the record that are found by either part *)
Lemma split_leaves d c v :
  (exists p, leaf (JObj d) p v /\ c = names "" p) <->
  In (c, v) (filter (fun e => negb (is_obj (snd e))) d) \/
  In (c, v) (leaves (JObj (filter (fun e => is_obj (snd e)) d)) "").
Proof.
  rewrite leaves_iff, filter_In. split.
  - intros (p & L & ->). inversion L as [? F|? k x p' ? I L']; subst; [exfalso; exact (F _ eq_refl)|].
    destruct (is_obj x) eqn:E.
    + right. exists (k :: p'). split; [|reflexivity]. eapply leaf_in; [|exact L'].
      apply filter_In. auto.
    + left. inversion L' as [? F E1|? k2 x2 p2 ? I2 L2]; subst.
      * split; [exact I|]. cbn. rewrite E. reflexivity.
      * discriminate E.
  - intros [(I & E)|(p & L & ->)].
    + exists [c]. split; [|reflexivity]. eapply leaf_in; [exact I|]. constructor.
      apply is_obj_false. cbn in E. destruct (is_obj v); [discriminate E|reflexivity].
    + exists p. split; [|reflexivity]. inversion L as [? F|? k x p' ? I L']; subst; [exfalso; exact (F _ eq_refl)|].
      apply filter_In in I. destruct I as [I _]. eapply leaf_in; eassumption.
Qed.

(** A cell is missing exactly if nothing has its name, and otherwise has one of the values with this
    name. *)
Lemma cell_any d c :
  match dget (normalise_ordered d) c with
  | Some v => exists p, leaf (JObj d) p v /\ c = names "" p
  | None => forall p v, leaf (JObj d) p v -> c <> names "" p
  end.
Proof.
  unfold normalise_ordered. rewrite normalise_leaves.
  set (top := filter (fun e => negb (is_obj (snd e))) d).
  set (low := leaves (JObj (filter (fun e => is_obj (snd e)) d)) "").
  pose proof (dget_dupdate top (dupdate [] low) c) as G.
  assert (L : forall v, In (c, v) (dupdate [] low) -> In (c, v) low).
  { intros v I. pose proof (NoDup_dupdate low [] (NoDup_nil _)) as ND.
    apply (dget_In _ _ _ ND) in I. pose proof (dget_dupdate [] low c) as G2. rewrite I in G2.
    destruct G2 as [G2|[_ G2]]; [exact G2|discriminate G2]. }
  assert (L2 : In c (map fst low) -> In c (map fst (dupdate [] low))).
  { intros I. pose proof (dget_dupdate [] low c) as G2.
    destruct (dget (dupdate [] low) c) as [v|] eqn:E; [|tauto].
    apply in_fst. exists v. apply dget_Some_In. exact E. }
  destruct (dget (dupdate top (dupdate [] low)) c) as [v|].
  - apply split_leaves. destruct G as [I|[_ E]]; [right; apply L; exact I|left].
    apply dget_Some_In. exact E.
  - intros p v Lf ->. destruct G as [N E].
    assert (X : In (names "" p, v) top \/ In (names "" p, v) low) by (apply split_leaves; eauto).
    destruct X as [X|X].
    + apply dget_None in E. apply E. apply in_fst. eauto.
    + apply N, L2, in_fst. eauto.
Qed.

(** ** Plain keys *)
Lemma eqb_empty k : k <> "" -> PyDict.eqb k "" = false.
Proof. intros H. apply PyDict.eqb_neq. exact H. Qed.

Lemma append_assoc a b c : String.append (String.append a b) c = String.append a (String.append b c).
Proof. induction a as [|x a IH]; [reflexivity|]. cbn. rewrite IH. reflexivity. Qed.

Lemma names_dotted p : Forall plain_key p -> names "" p = dotted p.
Proof.
  assert (G : forall p k, k <> "" -> names k p = match p with [] => k | _ => String.append k (String.append "." (dotted p)) end).
  { clear. intros p. unfold names. induction p as [|x p IH]; intros k Hk; [reflexivity|].
    cbn [fold_left]. unfold longer at 2. rewrite (eqb_empty k Hk). rewrite IH.
    - destruct p as [|y p]; [reflexivity|].
      change (dotted (x :: y :: p)) with (String.append x (String.append "." (dotted (y :: p)))).
      rewrite !append_assoc. reflexivity.
    - destruct k; [congruence|discriminate]. }
  intros H. destruct p as [|x p]; [reflexivity|]. inversion H as [|? ? [Hx _] _]; subst.
  unfold names. cbn [fold_left]. change (longer "" x) with x. fold (names x p). rewrite G by exact Hx.
  destruct p; reflexivity.
Qed.

(** What may follow the first key *)
Definition tail_ok (r : string) : Prop := r = "" \/ exists t, r = String.String "."%char t.

Lemma dot_split k : forall k' r r', ~ In "."%char (String.list_ascii_of_string k) ->
  ~ In "."%char (String.list_ascii_of_string k') -> tail_ok r -> tail_ok r' ->
  String.append k r = String.append k' r' -> k = k' /\ r = r'.
Proof.
  induction k as [|c k IH]; intros [|c' k'] r r' N N' T T' E.
  - auto.
  - cbn in E. exfalso. destruct T as [->|(t & ->)]; [discriminate E|]. injection E as E _.
    apply N'. cbn. left. congruence.
  - cbn in E. exfalso. destruct T' as [->|(t & ->)]; [discriminate E|]. injection E as E _.
    apply N. cbn. left. congruence.
  - cbn in E. injection E as -> E. destruct (IH k' r r') as [-> ->]; auto.
    + intros F. apply N. right. exact F.
    + intros F. apply N'. right. exact F.
Qed.

Definition rest (p : list string) : string := match p with [] => "" | _ => String.append "." (dotted p) end.
Lemma dotted_cons k p : dotted (k :: p) = String.append k (rest p).
Proof.
  destruct p; [|reflexivity]. cbn. induction k as [|c k IH]; [reflexivity|]. cbn. rewrite <- IH. reflexivity.
Qed.
Lemma rest_ok p : tail_ok (rest p).
Proof. destruct p; [left; reflexivity|right]. eexists. reflexivity. Qed.

Lemma dotted_inj p : forall p', Forall plain_key p -> Forall plain_key p' -> dotted p = dotted p' -> p = p'.
Proof.
  induction p as [|k p IH]; intros [|k' p'] H H' E.
  - reflexivity.
  - exfalso. rewrite dotted_cons in E. inversion H' as [|? ? [Hk _] _]; subst.
    destruct k'; [congruence|discriminate E].
  - exfalso. rewrite dotted_cons in E. inversion H as [|? ? [Hk _] _]; subst.
    destruct k; [congruence|discriminate E].
  - inversion H as [|? ? [Hk Nk] Hp]; inversion H' as [|? ? [Hk' Nk'] Hp']; subst.
    rewrite !dotted_cons in E. apply dot_split in E; auto using rest_ok. destruct E as [-> E].
    f_equal. destruct p as [|x p], p' as [|x' p']; cbn [rest] in E; try discriminate E; [reflexivity|].
    apply IH; auto. cbn in E. injection E as E. exact E.
Qed.

Lemma leaf_keys v p w : leaf v p w -> plain_keys v -> Forall plain_key p.
Proof.
  induction 1 as [v H|d k x p v I L IH]; intros K; [constructor|].
  inversion K as [? F|? F]; subst; [exfalso; exact (F _ eq_refl)|].
  rewrite Forall_forall in F. destruct (F _ I) as [F1 F2]. constructor; [exact F1|apply IH; exact F2].
Qed.

Lemma NoDup_value (d : list (string * json)) k x y : NoDup (map fst d) -> In (k, x) d -> In (k, y) d -> x = y.
Proof.
  intros N I J. apply (dget_In d k) in I; [|exact N]. apply (dget_In d k) in J; [|exact N]. congruence.
Qed.

Lemma leaf_one v p w : leaf v p w -> unique v -> forall w', leaf v p w' -> w = w'.
Proof.
  induction 1 as [v H|d k x p v I L IH]; intros U w' L'.
  - inversion L'; subst; reflexivity.
  - inversion U as [? F|? N F]; subst; [exfalso; exact (F _ eq_refl)|].
    inversion L' as [? G|? k2 x2 p2 ? I2 L2]; subst.
    rewrite (NoDup_value d k x2 x N I2 I) in L2. apply IH; [|exact L2].
    rewrite Forall_forall in F. exact (F _ I).
Qed.

Lemma cell_plain d c v : unique (JObj d) -> plain_keys (JObj d) ->
  dget (normalise_ordered d) c = Some v <-> exists p, leaf (JObj d) p v /\ c = dotted p.
Proof.
  intros U K. pose proof (cell_any d c) as G.
  assert (D : forall p w, leaf (JObj d) p w -> names "" p = dotted p)
    by (intros p w L; apply names_dotted; eapply leaf_keys; eassumption).
  split.
  - intros E. rewrite E in G. destruct G as (p & L & ->). exists p. split; [exact L|]. eapply D. exact L.
  - intros (p & L & E). destruct (dget (normalise_ordered d) c) as [w|].
    + destruct G as (p2 & L2 & E2). rewrite (D _ _ L2) in E2.
      assert (p2 = p) by (apply dotted_inj; [eapply leaf_keys; eassumption|eapply leaf_keys; eassumption|congruence]).
      subst p2. f_equal. eapply leaf_one; eassumption.
    + exfalso. apply (G _ _ L). rewrite (D _ _ L). exact E.
Qed.

(** ** Tables *)
Lemma keys_add r : forall ks, NoDup ks ->
  let ks' := fold_left (fun ks (e : string * json) => if lmem ks (fst e) then ks else ks ++ [fst e]) r ks in
  NoDup ks' /\ forall k, In k ks' <-> In k ks \/ In k (map fst r).
Proof.
  induction r as [|[x y] r IH]; intros ks N; cbn [fold_left map fst].
  - split; [exact N|]. cbn. tauto.
  - destruct (lmem ks x) eqn:E.
    + apply lmem_In in E. destruct (IH ks N) as [A B]. split; [exact A|]. intros k. rewrite B. cbn.
      split; [tauto|]. intros [H|[<-|H]]; auto.
    + apply lmem_false in E. destruct (IH (ks ++ [x]) (NoDup_snoc ks x N E)) as [A B]. split; [exact A|].
      intros k. rewrite B, in_app_iff. cbn. tauto.
Qed.

Lemma keys_spec recs : NoDup (keys_of recs) /\
  forall k, In k (keys_of recs) <-> exists r, In r recs /\ In k (map fst r).
Proof.
  unfold keys_of.
  assert (G : forall ks, NoDup ks ->
    let ks' := fold_left (fun ks r => fold_left (fun ks (e : string * json) => if lmem ks (fst e) then ks else ks ++ [fst e]) r ks) recs ks in
    NoDup ks' /\ forall k, In k ks' <-> In k ks \/ exists r, In r recs /\ In k (map fst r)).
  { induction recs as [|r recs IH]; intros ks N; cbn [fold_left].
    - split; [exact N|]. intros k. split; [auto|]. intros [H|(r & [] & _)]. exact H.
    - destruct (keys_add r ks N) as [A B]. cbv zeta in A, B.
      destruct (IH _ A) as [C D]. split; [exact C|]. intros k. rewrite D, B. split.
      + intros [[H|H]|(q & I & H)]; [auto|right; exists r; split; [left; reflexivity|exact H]|right; exists q; split; [right; exact I|exact H]].
      + intros [H|(q & [<-|I] & H)]; auto. right. eauto. }
  destruct (G [] (NoDup_nil _)) as [A B]. split; [exact A|]. intros k. rewrite B. cbn. tauto.
Qed.

(** The cell in row [i] and column [c]; [None] if there is no such row or column *)
Definition cell (f : frame) (i : nat) (c : cname) : option (option json) :=
  match position (f_cols f) c, nth_error (f_rows f) i with
  | Some j, Some row => nth_error row j
  | _, _ => None
  end.

Lemma cname_eqb_eq a b : cname_eqb a b = true <-> a = b.
Proof.
  destruct a as [s|m], b as [t|n]; cbn [cname_eqb]; try (split; discriminate).
  - rewrite PyDict.eqb_eq. split; congruence.
  - rewrite Nat.eqb_eq. split; congruence.
Qed.

Fixpoint pos_from (i : nat) (l : list cname) (c : cname) : option nat :=
  match l with [] => None | x :: r => if cname_eqb x c then Some i else pos_from (S i) r c end.
Lemma position_from cols c : position cols c = pos_from 0 cols c.
Proof.
  unfold position. generalize 0. induction cols as [|x r IH]; intros i; [reflexivity|].
  cbn. destruct (cname_eqb x c); [reflexivity|apply IH].
Qed.

Lemma pos_from_spec l c : forall i,
  match pos_from i l c with
  | Some j => i <= j /\ nth_error l (j - i) = Some c
  | None => ~ In c l
  end.
Proof.
  induction l as [|x r IH]; intros i; cbn [pos_from]; [auto|].
  destruct (cname_eqb x c) eqn:E.
  - apply cname_eqb_eq in E. subst x. split; [lia|]. rewrite Nat.sub_diag. reflexivity.
  - specialize (IH (S i)). destruct (pos_from (S i) r c) as [j|].
    + destruct IH as [A B]. split; [lia|]. replace (j - i) with (S (j - S i)) by lia. exact B.
    + intros [F|F]; [|contradiction]. subst x. rewrite (proj2 (cname_eqb_eq c c) eq_refl) in E. discriminate E.
Qed.

Lemma position_spec cols c :
  match position cols c with Some j => nth_error cols j = Some c | None => ~ In c cols end.
Proof.
  rewrite position_from. pose proof (pos_from_spec cols c 0) as H.
  destruct (pos_from 0 cols c); [|exact H]. destruct H as [_ H]. rewrite Nat.sub_0_r in H. exact H.
Qed.

Lemma dicts_frame (recs : list (dict string json)) : let f := frame_of_dicts recs in
  length (f_rows f) = length recs /\ NoDup (f_cols f) /\
  (forall c, In c (f_cols f) <-> exists k r, c = CKey k /\ In r recs /\ In k (map fst r)) /\
  (forall i k, cell f i (CKey k) =
     match nth_error recs i with
     | Some r => if lmem (keys_of recs) k then Some (dget r k) else None
     | None => None
     end).
Proof.
  destruct (keys_spec recs) as [N K]. unfold frame_of_dicts. cbn [f_rows f_cols].
  split; [apply map_length|]. split; [|split].
  - clear K. induction N as [|x l H N IH]; cbn; constructor; [|exact IH].
    rewrite in_map_iff. intros (y & E & I). injection E as ->. contradiction.
  - intros c. rewrite in_map_iff. split.
    + intros (k & <- & I). apply K in I. destruct I as (r & I & H). eauto 6.
    + intros (k & r & -> & I & H). exists k. split; [reflexivity|]. apply K. eauto.
  - intros i k. unfold cell. cbn [f_cols f_rows]. rewrite nth_error_map.
    pose proof (position_spec (map CKey (keys_of recs)) (CKey k)) as P.
    destruct (position (map CKey (keys_of recs)) (CKey k)) as [j|].
    + rewrite nth_error_map in P. destruct (nth_error (keys_of recs) j) as [k2|] eqn:E; [|discriminate P].
      cbn in P. injection P as ->. assert (lmem (keys_of recs) k = true) as -> by (apply lmem_In; eapply nth_error_In; exact E).
      destruct (nth_error recs i) as [r|]; cbn [option_map]; [|reflexivity].
      rewrite nth_error_map, E. reflexivity.
    + assert (lmem (keys_of recs) k = false) as ->.
      { apply lmem_false. intros I. apply P. apply in_map. exact I. }
      destruct (nth_error recs i); reflexivity.
Qed.

Lemma same_obj lines d r : lines = JObj d :: r -> (forall v, In v lines -> exists d, v = JObj d) ->
  forallb (same_type (JObj d)) lines = true.
Proof.
  intros -> H. apply forallb_forall. intros v I. destruct (H v I) as (e & ->). reflexivity.
Qed.

(** A list of records from one document: as many rows as records; a column for every path to a value
    in some record; and every cell has the value under its path, or is missing if there is none. *)
Theorem C101_document : forall lines, lines <> [] ->
  (forall v, In v lines -> (exists d, v = JObj d) /\ unique v /\ plain_keys v) ->
  exists f, to_frame true lines [] = Ok f /\ length (f_rows f) = length lines /\ NoDup (f_cols f) /\
    (forall c, In c (f_cols f) <-> exists rec p v, In rec lines /\ leaf rec p v /\ c = CKey (dotted p)) /\
    (forall i rec c, nth_error lines i = Some rec -> In (CKey c) (f_cols f) ->
       exists x, cell f i (CKey c) = Some x /\ forall v, x = Some v <-> exists p, leaf rec p v /\ c = dotted p).
Proof.
  intros lines N H. destruct lines as [|first r] eqn:El; [congruence|]. rewrite <- El in *.
  destruct (H first) as ((d & ->) & _); [rewrite El; left; reflexivity|].
  unfold to_frame. rewrite El. rewrite <- El.
  rewrite (same_obj lines d r El) by (intros v I; apply H; exact I). cbn [select].
  eexists. split; [reflexivity|].
  set (recs := map (fun v => normalise_ordered (obj_of v)) lines).
  destruct (dicts_frame recs) as (A & B & C & D). cbv zeta in A, B, C, D.
  split; [rewrite A; apply map_length|]. split; [exact B|].
  assert (KK : forall rec, In rec lines -> forall c, In c (map fst (normalise_ordered (obj_of rec))) <->
            exists p v, leaf rec p v /\ c = dotted p).
  { intros rec I c. destruct (H rec I) as ((e & ->) & U & K). cbn [obj_of]. rewrite in_fst. split.
    - intros (v & J). pose proof (proj2 (dget_None (normalise_ordered e) c)) as F.
      destruct (dget (normalise_ordered e) c) as [w|] eqn:E.
      + apply (cell_plain e c w U K) in E. destruct E as (p & L & ->). eauto.
      + exfalso. apply dget_None in E. apply E. apply in_fst. eauto.
    - intros (p & v & L & ->). exists v. apply dget_Some_In. apply cell_plain; eauto. }
  split.
  - intros c. rewrite C. split.
    + intros (k & q & -> & I & J). unfold recs in I. apply in_map_iff in I. destruct I as (rec & <- & I).
      apply (KK rec I) in J. destruct J as (p & v & L & ->). exists rec, p, v. auto.
    + intros (rec & p & v & I & L & ->). exists (dotted p), (normalise_ordered (obj_of rec)).
      split; [reflexivity|]. split; [unfold recs; apply (in_map (fun v => normalise_ordered (obj_of v))); exact I|]. apply (KK rec I). eauto.
  - intros i rec c E I. rewrite D. unfold recs at 1. rewrite nth_error_map, E. cbn [option_map].
    assert (lmem (keys_of recs) c = true) as ->.
    { apply lmem_In. apply keys_spec. apply C in I. destruct I as (k & q & F & I & J). injection F as <-. eauto. }
    eexists. split; [reflexivity|]. intros v. apply nth_error_In in E.
    destruct (H rec E) as ((e & ->) & U & K). cbn [obj_of]. apply cell_plain; assumption.
Qed.

(** Without conditions on the keys: no value is made up, and a cell is missing only if no path has its
    name. [joined] is the name of a path if empty keys at its beginning are left out. *)
Fixpoint joined (p : list string) : string :=
  match p with
  | [] => ""
  | k :: r => if PyDict.eqb k "" then joined r else match r with [] => k | _ => String.append k (String.append "." (dotted r)) end
  end.
Theorem C101_any_keys : forall lines i d c x, nth_error lines i = Some (JObj d) ->
  forall f, to_frame true lines [] = Ok f -> cell f i (CKey c) = Some x ->
  match x with
  | Some v => exists p, leaf (JObj d) p v /\ c = joined p
  | None => forall p v, leaf (JObj d) p v -> c <> joined p
  end.
Proof.
  assert (J : forall p, names "" p = joined p).
  { assert (G : forall p k, k <> "" -> names k p = match p with [] => k | _ => String.append k (String.append "." (dotted p)) end).
    { clear. intros p. unfold names. induction p as [|x p IH]; intros k Hk; [reflexivity|].
      cbn [fold_left]. unfold longer at 2. rewrite (eqb_empty k Hk). rewrite IH.
      - destruct p as [|y p]; [reflexivity|].
        change (dotted (x :: y :: p)) with (String.append x (String.append "." (dotted (y :: p)))).
        rewrite !append_assoc. reflexivity.
      - destruct k; [congruence|discriminate]. }
    induction p as [|k p IH]; [reflexivity|]. unfold names in *. cbn [fold_left joined].
    change (longer "" k) with k. destruct (PyDict.eqb k "") eqn:E.
    - apply (proj1 (PyDict.eqb_eq _ _)) in E. subst k. exact IH.
    - apply PyDict.eqb_neq in E. apply (G p k E). }
  intros lines i d c x E f T Hc. unfold to_frame in T. destruct lines as [|first r] eqn:El; [destruct i; discriminate E|].
  rewrite <- El in *. destruct (forallb (same_type first) lines) eqn:S; [|discriminate T].
  rewrite forallb_forall in S. pose proof (S _ (nth_error_In _ _ E)) as S1.
  destruct first as [| | | | | |d0]; try discriminate S1. cbn [select] in T. injection T as <-.
  set (recs := map (fun v => normalise_ordered (obj_of v)) lines) in *.
  destruct (dicts_frame recs) as (_ & _ & _ & D). cbv zeta in D. rewrite D in Hc.
  unfold recs in Hc at 1. rewrite nth_error_map, E in Hc. cbn [option_map obj_of] in Hc.
  destruct (lmem (keys_of recs) c); [|discriminate Hc]. injection Hc as <-.
  pose proof (cell_any d c) as G. destruct (dget (normalise_ordered d) c).
  - destruct G as (p & L & ->). exists p. rewrite J. auto.
  - intros p v L. rewrite <- J. eauto.
Qed.

(** JSON lines: one row for every line, a column for every key of a line and the value under it,
    objects included. *)
Theorem C101_lines : forall lines, lines <> [] -> (forall v, In v lines -> exists d, v = JObj d) ->
  exists f, to_frame false lines [] = Ok f /\ length (f_rows f) = length lines /\ NoDup (f_cols f) /\
    (forall c, In c (f_cols f) <-> exists d k v, In (JObj d) lines /\ In (k, v) d /\ c = CKey k) /\
    (forall i d k, nth_error lines i = Some (JObj d) -> In (CKey k) (f_cols f) -> cell f i (CKey k) = Some (dget d k)).
Proof.
  intros lines N H. destruct lines as [|first r] eqn:El; [congruence|]. rewrite <- El in *.
  destruct (H first) as (d & ->); [rewrite El; left; reflexivity|].
  unfold to_frame. rewrite El. rewrite <- El.
  rewrite (same_obj lines d r El H). cbn [select].
  eexists. split; [reflexivity|].
  destruct (dicts_frame (map obj_of lines)) as (A & B & C & D). cbv zeta in A, B, C, D.
  split; [rewrite A; apply map_length|]. split; [exact B|]. split.
  - intros c. rewrite C. split.
    + intros (k & q & -> & I & J). apply in_map_iff in I. destruct I as (rec & <- & I).
      destruct (H rec I) as (e & ->). cbn [obj_of] in J. apply in_fst in J. destruct J as (v & J). eauto 7.
    + intros (e & k & v & I & J & ->). exists k, e. split; [reflexivity|]. split.
      * change e with (obj_of (JObj e)). apply in_map. exact I.
      * apply in_fst. eauto.
  - intros i e k E I. rewrite D, nth_error_map, E. cbn [option_map obj_of].
    assert (lmem (keys_of (map obj_of lines)) k = true) as ->; [|reflexivity].
    apply lmem_In. apply keys_spec. apply C in I. destruct I as (k2 & q & F & I & J). injection F as <-. eauto.
Qed.

(** Records without objects in them: the same table from a document and from lines. *)
Definition flat_record (v : json) : Prop := exists d, v = JObj d /\ forall k x, In (k, x) d -> is_obj x = false.
Theorem C101_flat : forall lines sel, (forall v, In v lines -> flat_record v) ->
  to_frame true lines sel = to_frame false lines sel.
Proof.
  intros lines sel H. unfold to_frame. destruct lines as [|first r] eqn:El; [reflexivity|]. rewrite <- El in *.
  destruct (H first) as (d & -> & _); [rewrite El; left; reflexivity|].
  replace (map (fun v => normalise_ordered (obj_of v)) lines) with (map obj_of lines); [reflexivity|].
  apply map_ext_in. intros v I. destruct (H v I) as (e & -> & F). cbn [obj_of]. unfold normalise_ordered.
  assert (filter (fun x => negb (is_obj (snd x))) e = e /\ filter (fun x : string * json => is_obj (snd x)) e = []) as [-> ->]; [|reflexivity].
  clear H I El. induction e as [|[k x] e IH]; [split; reflexivity|]. cbn [filter snd].
  rewrite (F k x) by (left; reflexivity). cbn [negb]. destruct IH as [A B]; [intros k2 x2 J; apply (F k2 x2); right; exact J|].
  rewrite A, B. split; reflexivity.
Qed.

(** Rows given as lists: columns are numbered and every cell is the value at its position. *)
Theorem C101_lists : forall plain rows, rows <> [] ->
  exists f, to_frame plain (map JList rows) [] = Ok f /\ length (f_rows f) = length rows /\
    (forall c, In c (f_cols f) <-> exists j, c = CPos j /\ exists r, In r rows /\ j < length r) /\
    (forall i r j, nth_error rows i = Some r -> In (CPos j) (f_cols f) -> cell f i (CPos j) = Some (nth_error r j)).
Proof.
  intros plain rows N. unfold to_frame. destruct rows as [|r0 rows0] eqn:Er; [congruence|]. rewrite <- Er in *.
  replace (map JList rows) with (JList r0 :: map JList rows0) by (rewrite Er; reflexivity).
  assert (forallb (same_type (JList r0)) (JList r0 :: map JList rows0) = true) as ->.
  { apply forallb_forall. intros v [<-|I]; [reflexivity|]. apply in_map_iff in I. destruct I as (x & <- & _). reflexivity. }
  cbn [select].
  replace (map list_of (JList r0 :: map JList rows0)) with rows.
  2:{ rewrite Er. cbn. f_equal. rewrite map_map. cbn. symmetry. apply map_id. }
  clear Er r0 rows0. eexists. split; [reflexivity|]. unfold frame_of_lists. cbn [f_rows f_cols].
  set (w := list_max (map (@length json) rows)).
  assert (W : forall j, j < w <-> exists r, In r rows /\ j < length r).
  { intros j. unfold w. clear w N. induction rows as [|r rows IH]; cbn; [split; [lia|intros (r & [] & _)]|].
    rewrite Nat.max_lt_iff, IH. split.
    - intros [H|(q & I & H)]; [exists r; auto|exists q; auto].
    - intros (q & [<-|I] & H); [auto|right; eauto]. }
  split; [apply map_length|]. split.
  - intros c. rewrite in_map_iff. split.
    + intros (j & <- & I). apply in_seq in I. exists j. split; [reflexivity|]. apply W. lia.
    + intros (j & -> & H). apply W in H. exists j. split; [reflexivity|]. apply in_seq. lia.
  - intros i r j E I. unfold cell. cbn [f_cols f_rows].
    pose proof (position_spec (map CPos (seq 0 w)) (CPos j)) as P.
    destruct (position (map CPos (seq 0 w)) (CPos j)) as [j2|]; [|contradiction].
    rewrite nth_error_map in P. destruct (nth_error (seq 0 w) j2) as [j3|] eqn:E3; [|discriminate P].
    cbn in P. injection P as ->. rewrite nth_error_map, E. cbn [option_map]. rewrite nth_error_map, E3. reflexivity.
Qed.

(** Anything else: one column with the values. *)
Theorem C101_values : forall plain first lines,
  (forall d, first <> JObj d) -> (forall l, first <> JList l) -> forallb (same_type first) (first :: lines) = true ->
  to_frame plain (first :: lines) [] = Ok (mkFrame [CPos 0] (map (fun v => [Some v]) (first :: lines))).
Proof.
  intros plain first lines A B C. unfold to_frame. rewrite C.
  destruct first; try reflexivity; exfalso; [eapply B|eapply A]; reflexivity.
Qed.

(** The type of values, as one tells them apart. *)
Inductive jtype := TNull | TBool | TInt | TFloat | TStr | TList | TObj.
Definition type_of (v : json) : jtype :=
  match v with
  | JNull => TNull | JBool _ => TBool | JInt _ => TInt | JFloat _ => TFloat | JStr _ => TStr
  | JList _ => TList | JObj _ => TObj
  end.

(** A list is refused if and only if some value does not have the type of the first; only truth
    values are accepted after a whole number first. *)
Theorem C101_mixed : forall plain first lines,
  (exists f, to_frame plain (first :: lines) [] = Ok f) <->
  (forall v, In v lines -> type_of v = type_of first \/ type_of first = TInt /\ type_of v = TBool).
Proof.
  intros plain first lines. unfold to_frame.
  assert (F0 : same_type first first = true) by (destruct first; reflexivity).
  assert (S : forall v, same_type first v = true <-> type_of v = type_of first \/ type_of first = TInt /\ type_of v = TBool).
  { intros v. destruct first, v; cbn; intuition discriminate. }
  destruct (forallb (same_type first) (first :: lines)) eqn:E.
  - split; [|intros _; eexists; reflexivity]. intros _ v I. apply S. rewrite forallb_forall in E. apply E. right. exact I.
  - split; [intros (f & H); discriminate H|]. intros H. exfalso. apply not_true_iff_false in E. apply E.
    apply forallb_forall. intros v [<-|I]; [exact F0|]. apply S. auto.
Qed.

Theorem C101_mixed_error : forall plain lines sel,
  match to_frame plain lines [] with
  | Err e => e = ValueError /\ to_frame plain lines sel = Err ValueError
  | Ok _ => True
  end.
Proof.
  intros plain lines sel. unfold to_frame. destruct lines as [|first r]; [exact I|].
  destruct (forallb (same_type first) (first :: r)); [exact I|split; reflexivity].
Qed.

Lemma all_some_spec {A} (l : list (option A)) :
  match all_some l with
  | Some s => l = map Some s
  | None => In None l
  end.
Proof.
  induction l as [|[x|] l IH]; cbn; [reflexivity| |left; reflexivity].
  destruct (all_some l); [cbn; rewrite IH; reflexivity|right; exact IH].
Qed.

(** Rows have as many cells as there are columns, whatever the values are *)
Theorem C101_rows : forall plain lines sel f, to_frame plain lines sel = Ok f ->
  forall row, In row (f_rows f) -> length row = length (f_cols f).
Proof.
  intros plain lines sel f. unfold to_frame. destruct lines as [|first r].
  - intros E. injection E as <-. intros row [].
  - destruct (forallb (same_type first) (first :: r)); [|discriminate 1].
    match goal with |- context [select ?g sel] => set (fr := g) end. intros E row I.
    assert (G : forall q, In q (f_rows fr) -> length q = length (f_cols fr)).
    { intros q. unfold fr. destruct first; try (cbn [f_rows f_cols]; rewrite in_map_iff; intros (v & <- & _); reflexivity).
      - unfold frame_of_lists. cbn [f_rows f_cols]. rewrite in_map_iff. intros (v & <- & _). rewrite !map_length. reflexivity.
      - destruct plain; unfold frame_of_dicts; cbn [f_rows f_cols]; rewrite in_map_iff; intros (v & <- & _); rewrite !map_length; reflexivity. }
    unfold select in E. destruct sel as [|s sel]; [injection E as <-; auto|].
    pose proof (all_some_spec (map (fun s => position (f_cols fr) (CKey s)) (s :: sel))) as P.
    destruct (all_some (map (fun s => position (f_cols fr) (CKey s)) (s :: sel))) as [ps|]; [|discriminate E].
    injection E as <-. cbn [f_rows f_cols] in *. apply in_map_iff in I. destruct I as (q & <- & _).
    rewrite !map_length. apply (f_equal (@length _)) in P. rewrite !map_length in P. rewrite <- P. change (CKey s :: map CKey sel) with (map CKey (s :: sel)). rewrite map_length. reflexivity.
Qed.

Lemma nth_error_combine_pos {A B} (g : A -> option B) l ps : map g l = map Some ps ->
  forall j a, nth_error l j = Some a -> exists b, nth_error ps j = Some b /\ g a = Some b.
Proof.
  revert ps. induction l as [|x l IH]; intros [|b ps] E; try discriminate E; intros [|j] a H; try discriminate H.
  - injection H as <-. injection E as E1 E2. exists b. auto.
  - injection E as E1 E. exact (IH ps E j a H).
Qed.

(** With columns selected: a KeyError if and only if one of them is missing; otherwise the table has
    the columns selected, with the same cells. *)
Theorem C101_selected : forall plain lines f sel, lines <> [] -> sel <> [] -> to_frame plain lines [] = Ok f ->
  match to_frame plain lines sel with
  | Err e => e = KeyError /\ exists s, In s sel /\ ~ In (CKey s) (f_cols f)
  | Ok g => f_cols g = map CKey sel /\ length (f_rows g) = length (f_rows f) /\
      (forall s, In s sel -> In (CKey s) (f_cols f)) /\
      (forall i s, In s sel -> cell g i (CKey s) = cell f i (CKey s))
  end.
Proof.
  intros plain lines f sel NL NS Hf. pose proof (C101_rows plain lines [] f Hf) as LR. revert Hf LR.
  unfold to_frame. destruct lines as [|first r]; [congruence|].
  destruct (forallb (same_type first) (first :: r)); [|discriminate 1].
  match goal with |- context [select ?g []] => set (fr := g) end. cbn [select]. intros E. injection E as <-. intros LR.
  unfold select. destruct sel as [|s0 sel0] eqn:Es; [congruence|]. rewrite <- Es in *.
  pose proof (all_some_spec (map (fun s => position (f_cols fr) (CKey s)) sel)) as P.
  destruct (all_some (map (fun s => position (f_cols fr) (CKey s)) sel)) as [ps|].
  - cbn [f_cols f_rows]. split; [reflexivity|]. split; [apply map_length|]. split.
    + intros s I. pose proof (position_spec (f_cols fr) (CKey s)) as Q.
      assert (J : In (position (f_cols fr) (CKey s)) (map Some ps)) by (rewrite <- P; apply (in_map (fun s => position (f_cols fr) (CKey s))); exact I).
      apply in_map_iff in J. destruct J as (b & J & _). rewrite <- J in Q. eapply nth_error_In. exact Q.
    + intros i s I. unfold cell. cbn [f_cols f_rows].
      pose proof (position_spec (map CKey sel) (CKey s)) as Q.
      destruct (position (map CKey sel) (CKey s)) as [j|]; [|exfalso; apply Q; apply in_map; exact I].
      rewrite nth_error_map in Q. destruct (nth_error sel j) as [s2|] eqn:Ej; [|discriminate Q].
      cbn in Q. injection Q as ->.
      destruct (nth_error_combine_pos _ _ _ P j s Ej) as (b & Hb & Gb). rewrite Gb.
      rewrite nth_error_map. destruct (nth_error (f_rows fr) i) as [row|] eqn:Er; cbn [option_map]; [|reflexivity].
      rewrite nth_error_map, Hb. cbn [option_map].
      pose proof (LR _ (nth_error_In _ _ Er)) as LC.
      pose proof (position_spec (f_cols fr) (CKey s)) as Q2. rewrite Gb in Q2.
      assert (b < length row) by (rewrite LC; apply nth_error_Some; congruence).
      symmetry. apply nth_error_nth'. assumption.
  - split; [reflexivity|]. apply in_map_iff in P. destruct P as (s & E & I). exists s. split; [exact I|].
    pose proof (position_spec (f_cols fr) (CKey s)) as Q. rewrite E in Q. exact Q.
Qed.

(** ** Files *)
Definition bad (l : line) : bool := match l with LBad => true | _ => false end.
(** Lines that have a ":" or "[" and are JSON *)
Definition valid_line (l : line) : bool := match l with LText true (Some _) => true | _ => false end.

Lemma scan_spec k : forall ls v t,
  scan k ls v t = if existsb bad (firstn k ls) then None
                  else Some (v + length (filter valid_line (firstn k ls)), t + Nat.min (S (length ls)) k).
Proof.
  induction k as [|k IH]; intros ls v t; cbn [scan firstn].
  - cbn [existsb filter length]. rewrite Nat.min_0_r, !Nat.add_0_r. reflexivity.
  - destruct ls as [|[|mark x] ls].
    + cbn [existsb filter length Nat.min]. f_equal. f_equal; lia.
    + reflexivity.
    + rewrite IH. cbn [existsb filter bad]. destruct (existsb bad (firstn k ls)); [reflexivity|].
      cbn [length]. assert (t + Nat.min (S (S (length ls))) (S k) = S t + Nat.min (S (length ls)) k) as ->.
      { change (Nat.min (S (S (length ls))) (S k)) with (S (Nat.min (S (length ls)) k)). apply Nat.add_succ_r. }
      destruct mark, x; cbn [valid_line andb length]; rewrite ?Nat.add_succ_r; reflexivity.
Qed.

(** A file is recognised as JSON if and only if it is one document, or all of its first thousand lines
    can be decoded and at least half of them, the end of the file counted as a line, are JSON with a
    ":" or a "[". *)
Theorem C101_recognised : forall f,
  is_match f = true <-> whole_doc f <> None \/
    let first := firstn 1000 (file_lines f) in
    (forall l, In l first -> l <> LBad) /\
    Nat.min (length (file_lines f) + 1) 1000 <= 2 * length (filter valid_line first).
Proof.
  intros [w ls]. unfold is_match. cbn [whole_doc file_lines]. destruct w as [w|].
  { split; [intros _; left; discriminate|reflexivity]. }
  rewrite scan_spec. cbv zeta. destruct (existsb bad (firstn 1000 ls)) eqn:E.
  - split; [discriminate 1|]. intros [H|[H _]]; [congruence|]. apply existsb_exists in E. destruct E as (l & I & B).
    exfalso. apply (H l I). destruct l; [reflexivity|discriminate B].
  - rewrite Nat.leb_le. rewrite !Nat.add_0_l. replace (length ls + 1) with (S (length ls)) by lia. split.
    + intros H. right. split; [|exact H]. intros l I ->. apply not_true_iff_false in E. apply E.
      apply existsb_exists. exists LBad. auto.
    + intros [H|[_ H]]; [congruence|exact H].
Qed.

(** A file of lines that is recognised and can be decoded is loaded: the values of the lines that are
    JSON, in order. *)
Theorem C101_loaded : forall f, is_match f = true -> (forall l, In l (file_lines f) -> l <> LBad) ->
  match whole_doc f with
  | Some v => load f = Ok (true, v)
  | None => exists vs, vs <> [] /\ load f = Ok (false, JList vs) /\
      vs = flat_map (fun l => match l with LText _ (Some v) => [v] | _ => [] end) (file_lines f)
  end.
Proof.
  intros [w ls] M H. unfold load. cbn [whole_doc file_lines] in *. destruct w as [w|]; [reflexivity|].
  apply C101_recognised in M. cbn [whole_doc file_lines] in M. destruct M as [M|[_ M]]; [congruence|].
  set (vs := flat_map _ ls).
  assert (NE : vs <> []).
  { assert (exists l, In l (filter valid_line (firstn 1000 ls))) as (l & I).
    { destruct (filter valid_line (firstn 1000 ls)) as [|l q]; [|exists l; left; reflexivity].
      change (2 * length (@nil line)) with 0 in M. exfalso.
      destruct (Nat.min_spec (length ls + 1) 1000) as [[? Q]|[? Q]]; rewrite Q in M; [lia|].
      apply (Nat.nle_succ_0 999). exact M. }
    apply filter_In in I. destruct I as [I V]. destruct l as [|[] [v|]]; try discriminate V.
    intros F. assert (J : In v vs).
    { unfold vs. apply in_flat_map. exists (LText true (Some v)). split; [|left; reflexivity].
      rewrite <- (firstn_skipn 1000 ls). apply in_or_app. left. exact I. }
    rewrite F in J. exact J. }
  exists vs. split; [exact NE|]. split; [|reflexivity].
  unfold read_lines. fold vs. destruct (existsb (fun l => match l with LBad => true | _ => false end) ls) eqn:E.
  - exfalso. apply existsb_exists in E. destruct E as (l & I & B). apply (H l I). destruct l; [reflexivity|discriminate B].
  - destruct vs; [congruence|reflexivity].
Qed.

(** ** What does not hold *)
(** The same records give the same table, in one document or in lines: *)
Theorem C101_same_table_refuted : exists recs, (forall v, In v recs -> unique v /\ plain_keys v) /\
  file_frame (mkFile (Some (JList recs)) []) [] <> file_frame (mkFile None (map (fun v => LText true (Some v)) recs)) [].
Proof.
  exists [JObj [("a", JObj [("b", JInt 1)])]]. split.
  - intros v [<-|[]]. split.
    + apply unique_obj; [repeat constructor; intros []|]. constructor; [|constructor].
      apply unique_obj; [repeat constructor; intros []|]. constructor; [|constructor]. apply unique_val. discriminate.
    + apply pk_obj. constructor; [|constructor]. split; [split; [discriminate|intros [F|[]]; discriminate F]|].
      apply pk_obj. constructor; [|constructor]. split; [split; [discriminate|intros [F|[]]; discriminate F]|].
      apply pk_val. discriminate.
  - vm_compute. discriminate.
Qed.

(** Every key of a record has a column: *)
Theorem C101_every_key_refuted : exists d k, In k (map fst d) /\
  exists f, to_frame true [JObj d] [] = Ok f /\ f_cols f = [] /\ f_rows f = [[]].
Proof. exists [("a", JObj [])], "a". split; [left; reflexivity|]. eexists. split; [vm_compute; reflexivity|split; reflexivity]. Qed.

(** Every value of a record is in its row: *)
Theorem C101_every_value_refuted : exists d, unique (JObj d) /\ leaf (JObj d) ["a.b"] (JInt 1) /\
  exists f, to_frame true [JObj d] [] = Ok f /\ f_rows f = [[Some (JInt 2)]].
Proof.
  exists [("a.b", JInt 1); ("a", JObj [("b", JInt 2)])]. split; [|split].
  - apply unique_obj; [repeat constructor; cbn; intuition discriminate|].
    constructor; [apply unique_val; discriminate|]. constructor; [|constructor].
    apply unique_obj; [repeat constructor; intros []|]. constructor; [apply unique_val; discriminate|constructor].
  - eapply leaf_in; [left; reflexivity|]. apply leaf_here. discriminate.
  - eexists. split; vm_compute; reflexivity.
Qed.

(** Whether a list is accepted does not depend on the order: *)
Theorem C101_order_refuted : exists a b,
  (exists f, to_frame true [a; b] [] = Ok f) /\ to_frame true [b; a] [] = Err ValueError.
Proof. exists (JInt 1), (JBool true). split; [eexists|]; reflexivity. Qed.

(** A file is recognised if half of its lines are JSON: *)
Theorem C101_half_refuted : exists ls, whole_doc (mkFile None ls) = None /\
  length ls <= 2 * length (filter valid_line ls) /\ is_match (mkFile None ls) = false.
Proof.
  exists [LText true (Some (JObj [("a", JInt 1)])); LText false None]. split; [reflexivity|]. split; [cbn; lia|]. reflexivity.
Qed.

(** A file that is recognised gives a table: *)
Theorem C101_table_refuted : exists v, is_match (mkFile (Some v) []) = true /\
  file_frame (mkFile (Some v) []) [] = Err TypeError.
Proof. exists (JInt 5). split; reflexivity. Qed.

(** Examples *)
Definition people : list json :=
  [JObj [("name", JObj [("first", JStr "Ann"); ("last", JStr "Lee")]); ("age", JInt 31)];
   JObj [("age", JInt 40); ("tags", JList [JStr "x"])]].

Theorem C101_example :
  to_frame true people [] =
    Ok (mkFrame [CKey "age"; CKey "name.first"; CKey "name.last"; CKey "tags"]
         [[Some (JInt 31); Some (JStr "Ann"); Some (JStr "Lee"); None];
          [Some (JInt 40); None; None; Some (JList [JStr "x"])]]) /\
  to_frame false people [] =
    Ok (mkFrame [CKey "name"; CKey "age"; CKey "tags"]
         [[Some (JObj [("first", JStr "Ann"); ("last", JStr "Lee")]); Some (JInt 31); None];
          [None; Some (JInt 40); Some (JList [JStr "x"])]]) /\
  to_frame true people ["age"; "name.last"] =
    Ok (mkFrame [CKey "age"; CKey "name.last"] [[Some (JInt 31); Some (JStr "Lee")]; [Some (JInt 40); None]]) /\
  to_frame true people ["name"] = Err KeyError /\
  to_frame true [JList [JInt 1]; JList [JInt 2; JInt 3]] [] =
    Ok (mkFrame [CPos 0; CPos 1] [[Some (JInt 1); None]; [Some (JInt 2); Some (JInt 3)]]) /\
  to_frame true [JInt 1; JStr "a"] [] = Err ValueError /\
  is_match (mkFile None (map (fun v => LText true (Some v)) people)) = true /\
  is_match (mkFile None (LBad :: map (fun v => LText true (Some v)) people)) = false /\
  file_frame (mkFile None (LText false None :: map (fun v => LText true (Some v)) people)) ["age"] =
    Ok (mkFrame [CKey "age"] [[Some (JInt 31)]; [Some (JInt 40)]]).
Proof. vm_compute. repeat split. Qed.
