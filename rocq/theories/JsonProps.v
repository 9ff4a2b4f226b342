(** Properties C34 (flattened JSON), C51 (lines of JSON) and C67 (cutting data into lines). *)
From Coq Require Import Permutation.
From Verif Require Import PyCommon PyDict PyEq ListFacts JsonModel.
Local Open Scope nat_scope.

(** ** C51 *)
Section Lines.
  Context {Line Obj : Type}.
  Variable parse : Line -> option Obj.
  Variable falsy : Line -> bool.

  (** The objects of the lines that can be parsed, in order *)
  Definition parsed (ls : list Line) : list Obj := concat (map (fun l => match parse l with Some o => [o] | None => [] end) ls).

  Lemma read_loop_spec ls rest : (forall l, In l ls -> falsy l = false) -> match rest with [] => True | l :: _ => falsy l = true end ->
    forall acc k, read_loop parse falsy (ls ++ rest) acc k = (acc ++ parsed ls, k + length ls).
  Proof.
    intros Hl Hr. induction ls as [|l ls IH]; intros acc k; cbn [app read_loop].
    - cbn. rewrite app_nil_r, Nat.add_0_r. destruct rest as [|r rest]; [reflexivity|]. cbn [read_loop]. rewrite Hr. reflexivity.
    - rewrite (Hl l (or_introl eq_refl)). rewrite (IH ltac:(intros x Hx; apply Hl; right; exact Hx)). unfold parsed at 2. cbn [map concat]. fold (parsed ls).
      destruct (parse l); rewrite <- ?app_assoc; f_equal; cbn [length]; lia.
  Qed.

  (** Up to the first empty line, every line that is JSON is returned once and in order; what is not JSON is skipped;
      an error is raised exactly if there are lines but none is JSON. *)
  Theorem C51_lines ls rest : (forall l, In l ls -> falsy l = false) -> match rest with [] => True | l :: _ => falsy l = true end ->
    read_json parse falsy (ls ++ rest) = match parsed ls with [] => match ls with [] => Ok [] | _ => Err ValueError end | os => Ok os end.
  Proof.
    intros Hl Hr. unfold read_json. rewrite (read_loop_spec ls rest Hl Hr). cbn [app Nat.add]. destruct (parsed ls) as [|o os]; [|reflexivity].
    destruct ls; reflexivity.
  Qed.
End Lines.

Example C51_example : read_json (fun n => if n <? 5 then Some n else None) (fun n => n =? 0) [1; 7; 2; 0; 3] = Ok [1; 2].
Proof. reflexivity. Qed.

(** A user expects all lines that are JSON to be read.  Those behind an empty line are not. *)
Theorem C51_all_lines_refuted :
  ~ (forall (parse : nat -> option nat) ls os, parse 0 = None -> read_json parse (fun n => n =? 0) ls = Ok os -> os = parsed parse ls).
Proof.
  intro H. specialize (H (fun n => if n =? 0 then None else Some n) [1; 0; 2] [1] eq_refl eq_refl). discriminate.
Qed.

(** ** C67 *)
Section Cut.
  Context {A : Type}.

  Lemma cut_groups n (data : list A) : 0 < n -> forall m, m * n <= length data + n - 1 ->
    concat (map (fun i => slice data (i * n) ((i + 1) * n)) (seq 0 m)) = firstn (m * n) data.
  Proof.
    intros Hn m. induction m as [|m IH]; intro Hm; [reflexivity|]. rewrite seq_S, map_app, concat_app, IH by lia. cbn [Nat.add map concat]. rewrite app_nil_r. unfold slice.
    replace ((m + 1) * n - m * n) with n by nia. replace (S m * n) with (m * n + n) by nia. rewrite <- (firstn_skipn (m * n) (firstn (m * n + n) data)). rewrite firstn_firstn. f_equal; [f_equal; lia|].
    rewrite skipn_firstn_comm. f_equal. lia.
  Qed.

  Lemma ceil_bounds a n : 0 < n -> n * ((a + n - 1) / n) <= a + n - 1 /\ a <= n * ((a + n - 1) / n).
  Proof. intro H. pose proof (Nat.mul_div_le (a + n - 1) n ltac:(lia)). pose proof (Nat.mul_succ_div_gt (a + n - 1) n ltac:(lia)). split; [assumption|nia]. Qed.

  Lemma cut_spec n (data : list A) ls : cut n data = Ok ls -> 0 < n /\ concat ls = data /\
    (forall i line, nth_error ls i = Some line -> 0 < length line <= n /\ (S i < length ls -> length line = n)).
  Proof.
    unfold cut. destruct (Nat.eqb_spec n 0) as [|Hn]; [discriminate|]. intro H. injection H as <-. destruct (ceil_bounds (length data) n ltac:(lia)) as [B1 B2]. set (m := (length data + n - 1) / n) in *.
    split; [lia|]. split; [rewrite cut_groups by (try lia; nia); apply firstn_all2; nia|].
    intros i line Hi. rewrite nth_error_map in Hi. destruct (nth_error (seq 0 m) i) as [j|] eqn:E; [|discriminate]. injection Hi as <-.
    rewrite map_length, seq_length. assert (i < m) as Hm by (rewrite <- (seq_length m 0); apply nth_error_Some; congruence).
    rewrite nth_error_seq in E by exact Hm. injection E as <-. cbn [Nat.add]. unfold slice. rewrite firstn_length, skipn_length. split; [nia|]. intro Hs. nia.
  Qed.

  (** The lines of a text make up the text; every line is full but the last, which is not empty. *)
  Theorem C67_text_lines per_line (data : list A) : 0 < per_line -> exists ls, text_lines per_line data = Ok ls /\ concat ls = data /\
    (forall i line, nth_error ls i = Some line -> 0 < length line <= per_line /\ (S i < length ls -> length line = per_line)).
  Proof.
    intro Hp. unfold text_lines. set (n := Nat.min (Nat.max (length data) 1) per_line). destruct (cut n data) as [ls|] eqn:E.
    - exists ls. split; [reflexivity|]. destruct (cut_spec n data ls E) as (Hn & Hc & Hl). split; [exact Hc|]. intros i line Hi. destruct (Hl i line Hi) as [H1 H2]. split; [lia|]. intro Hs. rewrite (H2 Hs).
      assert (2 <= length ls) as H3 by lia. destruct ls as [|l0 [|l1 ls]]; [cbn in H3; lia|cbn in H3; lia|]. destruct (Hl 0 l0 eq_refl) as [_ F0]. destruct (Hl 1 l1 eq_refl) as [F1 _].
      specialize (F0 ltac:(cbn; lia)). assert (length data = length l0 + (length l1 + length (concat ls))) as L by (rewrite <- Hc; cbn; rewrite !app_length; reflexivity). lia.
    - unfold cut in E. destruct (Nat.eqb_spec n 0) as [Z|]; [|discriminate]. lia.
  Qed.

  Lemma join_app (nl : list A) a b : a <> [] -> b <> [] -> join nl (a ++ b) = join nl a ++ nl ++ join nl b.
  Proof.
    intros Ha Hb. induction a as [|x a IH]; [contradiction|]. destruct a as [|y a].
    - cbn [app join]. destruct b as [|z b]; [contradiction|reflexivity].
    - change ((x :: y :: a) ++ b) with (x :: (y :: a) ++ b). cbn [join app] in *. rewrite IH by discriminate. rewrite <- !app_assoc. reflexivity.
  Qed.

  Lemma join_groups (nl : list A) gs : (forall g, In g gs -> g <> []) -> join nl (map (join nl) gs) = join nl (concat gs).
  Proof.
    induction gs as [|g gs IH]; intro H; [reflexivity|]. cbn [map concat]. assert (g <> []) as Hg by (apply H; left; reflexivity). specialize (IH ltac:(intros x Hx; apply H; right; exact Hx)).
    destruct gs as [|g2 gs].
    - cbn [map join concat]. rewrite app_nil_r. reflexivity.
    - rewrite join_app; [|exact Hg|]. 2:{ cbn [concat]. pose proof (H g2 (or_intror (or_introl eq_refl))). destruct g2; [contradiction|discriminate]. }
      rewrite <- IH. reflexivity.
  Qed.

  (** The lines of records, joined by newlines, are the records joined by newlines. *)
  Theorem C67_record_lines nl per_line (data : list (list A)) : 0 < per_line -> data <> [] ->
    exists ls, record_lines nl per_line data = Ok ls /\ join nl ls = join nl data.
  Proof.
    intros Hp Hd. unfold record_lines. assert (0 < length data) as Hl by (destruct data; [contradiction|cbn; lia]).
    assert (0 < Nat.min (length data) per_line) as Hn by lia. set (n := Nat.min (length data) per_line) in *. clearbody n.
    assert (exists gs, cut n data = Ok gs) as [gs E] by (unfold cut; destruct (Nat.eqb_spec n 0); [lia|eauto]). rewrite E. cbn [bind]. eexists. split; [reflexivity|].
    assert (0 < n /\ concat gs = data /\ (forall g, In g gs -> g <> [])) as (_ & Hc & Hne).
    { unfold cut in E. destruct (Nat.eqb_spec n 0) as [|Hn0]; [discriminate|]. injection E as <-. destruct (ceil_bounds (length data) n ltac:(lia)) as [B1 B2]. set (m := (length data + n - 1) / n) in *.
      assert (forall (X : list (list A)), 0 < n -> forall m, m * n <= length X + n - 1 -> concat (map (fun i => slice X (i * n) ((i + 1) * n)) (seq 0 m)) = firstn (m * n) X) as G.
      { intros X Hnn q. induction q as [|q IH]; intro Hm; [reflexivity|]. rewrite seq_S, map_app, concat_app, IH by lia. cbn [Nat.add map concat]. rewrite app_nil_r. unfold slice.
        replace ((q + 1) * n - q * n) with n by nia. replace (S q * n) with (q * n + n) by nia. rewrite <- (firstn_skipn (q * n) (firstn (q * n + n) X)). rewrite firstn_firstn. f_equal; [f_equal; lia|].
        rewrite skipn_firstn_comm. f_equal. lia. }
      split; [exact Hn|]. split; [rewrite G by (try lia; nia); apply firstn_all2; nia|]. intros g Hg. apply in_map_iff in Hg. destruct Hg as (i & <- & Hi). apply in_seq in Hi. intro E.
      apply (f_equal (@length (list A))) in E. unfold slice in E. rewrite firstn_length, skipn_length in E. cbn [length] in E. nia. }
    rewrite join_groups by exact Hne. rewrite Hc. reflexivity.
  Qed.

  (** JSON and Parquet text shorter than the limit is one line. *)
  Theorem C67_one_line per_line (data : list A) : data <> [] -> length data <= per_line -> zip_lines per_line data = [data].
  Proof.
    intros Hd Hl. unfold zip_lines. replace (Nat.min (length data) per_line) with (length data) by lia. assert (0 < length data) by (destruct data; [contradiction|cbn; lia]).
    rewrite Nat.div_same by lia. cbn [seq map]. unfold slice. rewrite Nat.mul_0_l, Nat.mul_1_l, Nat.sub_0_r. cbn [Nat.add skipn]. rewrite firstn_all2 by lia. reflexivity.
  Qed.

  (** In general only whole lines are returned. *)
  Theorem C67_whole_lines per_line (data : list A) : 0 < per_line -> per_line <= length data ->
    concat (zip_lines per_line data) = firstn (length data / per_line * per_line) data.
  Proof.
    intros Hp Hl. unfold zip_lines. replace (Nat.min (length data) per_line) with per_line by lia. apply cut_groups; [exact Hp|]. pose proof (Nat.mul_div_le (length data) per_line ltac:(lia)). nia.
  Qed.
End Cut.

Example C67_example : text_lines 2 [1; 2; 3] = Ok [[1; 2]; [3]] /\ record_lines [0] 2 [[1]; [2]; [3]] = Ok [[1; 0; 2]; [3]].
Proof. split; reflexivity. Qed.

(** A user expects no records for data without rows.  The number of records is divided by the number of rows. *)
Theorem C67_no_records_refuted : ~ (forall (nl : list nat) per_line data, 0 < per_line -> exists ls, record_lines nl per_line data = Ok ls).
Proof. intro H. destruct (H [0] 1 [] ltac:(lia)) as [ls E]. discriminate. Qed.

(** A user expects the lines of JSON text to make up the text.  A last line that is not full is dropped. *)
Theorem C67_all_text_refuted : ~ (forall per_line (data : list nat), 0 < per_line -> concat (zip_lines per_line data) = data).
Proof. intro H. specialize (H 2 [1; 2; 3] ltac:(lia)). discriminate. Qed.

(** ** C34 *)
Section JsonInd.
  Context {A V : Type}.
  Variable P : json A V -> Prop.
  Hypothesis HV : forall v, P (JVal v).
  Hypothesis HD : forall d, (forall k x, In (k, x) d -> P x) -> P (JDict d).
  Hypothesis HL : forall l, (forall x, In x l -> P x) -> P (JList l).
  Fixpoint json_induction (j : json A V) : P j :=
    match j with
    | JVal v => HV v
    | JDict d => HD d ((fix over (d : list (list A * json A V)) : forall k x, In (k, x) d -> P x :=
        match d with
        | [] => fun k x H => match H with end
        | (k0, x0) :: r => fun k x H => match H with or_introl E => eq_ind x0 P (json_induction x0) x (f_equal snd E) | or_intror H => over r k x H end
        end) d)
    | JList l => HL l ((fix over (l : list (json A V)) : forall x, In x l -> P x :=
        match l with
        | [] => fun x H => match H with end
        | x0 :: r => fun x H => match H with or_introl E => eq_ind x0 P (json_induction x0) x E | or_intror H => over r x H end
        end) l)
    end.
End JsonInd.

Section Flatten.
  Context {A V : Type} {EA : EqDecB A}.
  Notation key := (list A).
  Notation json := (json A V).
  Variable sep : list A.

  (** The values of a document with the keys that lead to them.  A list of dictionaries has the values of all of them;
      any other list is a value. *)
  Fixpoint leaves (j : json) : list (list key * json) :=
    match j with
    | JVal _ => [([], j)]
    | JDict d => (fix over (d : list (key * json)) : list (list key * json) :=
                    match d with [] => [] | (k, x) :: r => map (fun pv => (k :: fst pv, snd pv)) (leaves x) ++ over r end) d
    | JList l => if forallb is_dict l
                 then (fix over (l : list json) : list (list key * json) := match l with [] => [] | x :: r => leaves x ++ over r end) l
                 else [([], j)]
    end.

  (** Keys that cannot be confused with a separator: the last character is not the last one of the separator. *)
  Definition plain_key (k : key) : Prop := exists k' c s' s, k = k' ++ [c] /\ sep = s' ++ [s] /\ c <> s.

  Inductive plain : json -> Prop :=
  | plain_val v : plain (JVal v)
  | plain_dict d : (forall k x, In (k, x) d -> plain_key k /\ plain x) -> plain (JDict d)
  | plain_list l : (forall x, In x l -> plain x) -> plain (JList l).

  Lemma plain_open (P k : key) : plain_key k -> open_path sep (P ++ k) = (P ++ k) ++ sep.
  Proof.
    intros (k' & c & s' & s & -> & -> & N). unfold open_path. destruct (P ++ k' ++ [c]) as [|x y] eqn:E; [exfalso; destruct P; [destruct k'; discriminate|discriminate]|]. rewrite <- E. clear x y E.
    replace (ends_with_sep (s' ++ [s]) (P ++ k' ++ [c])) with false; [reflexivity|]. symmetry. unfold ends_with_sep. destruct (PyDict.eqb_spec (skipn (length (P ++ k' ++ [c]) - length (s' ++ [s])) (P ++ k' ++ [c])) (s' ++ [s])) as [E|]; [|reflexivity].
    exfalso. set (n := length (P ++ k' ++ [c]) - length (s' ++ [s])) in E. pose proof (firstn_skipn n (P ++ k' ++ [c])) as F. rewrite E in F. rewrite !app_assoc in F. apply app_inj_tail in F. destruct F as [_ F]. congruence.
  Qed.

  Lemma ends_app (p : key) : ends_with_sep sep (p ++ sep) = true.
  Proof. unfold ends_with_sep. rewrite app_length. replace (length p + length sep - length sep) with (length p) by lia. rewrite skipn_app, skipn_all, Nat.sub_diag. cbn [skipn app]. apply eqb_refl. Qed.

  Lemma open_opened (P : key) : P = [] \/ (exists p, P = p ++ sep) -> open_path sep P = P.
  Proof. intros [->|[p ->]]; [reflexivity|]. unfold open_path. destruct (p ++ sep) as [|x y] eqn:E; [reflexivity|]. rewrite <- E, ends_app. reflexivity. Qed.

  Lemma close_app (p : key) : close_path sep (p ++ sep) = p.
  Proof. unfold close_path. rewrite app_length. replace (length p + length sep - length sep) with (length p) by lia. rewrite firstn_app, firstn_all, Nat.sub_diag. cbn. apply app_nil_r. Qed.

  Definition place_at (P : key) (pv : list key * json) : key * json := (match fst pv with [] => close_path sep P | _ => P ++ join sep (fst pv) end, snd pv).

  Lemma find_data_spec j : plain j -> forall P path, (P = [] \/ exists p, P = p ++ sep) -> open_path sep path = P ->
    find_data sep j path = map (place_at P) (leaves j).
  Proof.
    induction j as [v|d IH|l IH] using json_induction; intros Hp P path HP Ho.
    - cbn [find_data leaves map]. rewrite Ho. reflexivity.
    - inversion Hp as [|? Hd|]; subst d0. cbn [find_data leaves]. rewrite Ho. clear Ho path Hp. induction d as [|[k x] d IHd]; [reflexivity|]. rewrite map_app, map_map. f_equal.
      2:{ apply IHd; [intros k' x' Hx; apply (IH k' x'); right; exact Hx|intros k' x' Hx; apply Hd; right; exact Hx]. }
      destruct (Hd k x (or_introl eq_refl)) as [Hk Hx]. destruct x as [v|d'|l'] eqn:Ex; cbn [is_value].
      + cbn [leaves map fst snd]. reflexivity.
      + rewrite (IH k (JDict d') (or_introl eq_refl) Hx ((P ++ k) ++ sep) (P ++ k) ltac:(right; eauto) (plain_open P k Hk)). apply map_ext. intros [ks y]. unfold place_at. cbn [fst snd]. f_equal.
        destruct ks as [|k2 ks]; [rewrite close_app; reflexivity|]. cbn [join]. rewrite <- !app_assoc. reflexivity.
      + rewrite (IH k (JList l') (or_introl eq_refl) Hx ((P ++ k) ++ sep) (P ++ k) ltac:(right; eauto) (plain_open P k Hk)). apply map_ext. intros [ks y]. unfold place_at. cbn [fst snd]. f_equal.
        destruct ks as [|k2 ks]; [rewrite close_app; reflexivity|]. cbn [join]. rewrite <- !app_assoc. reflexivity.
    - inversion Hp as [| |? Hl]; subst l0. cbn [find_data leaves]. rewrite Ho. destruct (forallb is_dict l); [|reflexivity]. clear Ho path Hp. induction l as [|x l IHl]; [reflexivity|]. rewrite map_app. f_equal.
      + apply (IH x (or_introl eq_refl) (Hl x (or_introl eq_refl)) P P HP). apply open_opened. exact HP.
      + apply IHl; [intros y Hy; apply IH; right; exact Hy|intros y Hy; apply Hl; right; exact Hy].
  Qed.

  (** ** Coalescing *)
  Context {X : Type}.
  Implicit Types (items : list (key * X)) (rows : list (dict key X)).

  (** The values given to a key, in order *)
  Definition values_of (k : key) items : list X := map snd (filter (fun it => PyDict.eqb (fst it) k) items).

  Lemma place_get k v : forall rows c, (forall j, dget (nth j rows []) k <> None <-> j < c) -> forall j k',
    dget (nth j (place (k, v) rows) []) k' = if PyDict.eqb k k' && (j =? c) then Some v else dget (nth j rows []) k'.
  Proof.
    induction rows as [|d rows IH]; intros c Hc j k'; cbn [place fst snd].
    - assert (c = 0) as ->. { destruct c; [reflexivity|]. exfalso. assert (0 < S c) as H by lia. apply Hc in H. apply H. reflexivity. }
      destruct j as [|j]; cbn [nth dget]; [destruct (PyDict.eqb k k'); reflexivity|]. destruct j; rewrite andb_false_r; reflexivity.
    - destruct (dmem d k) eqn:E.
      + assert (0 < c) as C0. { apply Hc. cbn [nth]. unfold dmem in E. destruct (dget d k); [discriminate|discriminate]. }
        destruct j as [|j]; cbn [nth].
        * destruct c; [lia|]. rewrite andb_false_r. reflexivity.
        * rewrite (IH (c - 1)). { destruct c; [lia|]. cbn [Nat.sub Nat.eqb]. rewrite Nat.sub_0_r. reflexivity. }
          intro i. specialize (Hc (S i)). cbn [nth] in Hc. rewrite Hc. lia.
      + assert (c = 0) as ->. { destruct c; [reflexivity|]. exfalso. assert (0 < S c) as H by lia. apply Hc in H. cbn [nth] in H. unfold dmem in E. destruct (dget d k); [discriminate|contradiction]. }
        destruct j as [|j]; cbn [nth Nat.eqb]; [rewrite dget_dset, andb_true_r; reflexivity|]. rewrite andb_false_r. reflexivity.
  Qed.

  Lemma coalesce_snoc items it : coalesce (items ++ [it]) = place it (coalesce items).
  Proof. unfold coalesce. rewrite fold_left_app. reflexivity. Qed.

  (** Row number [j] has, for each key, the value that is number [j] of this key; so nothing is lost or added. *)
  Theorem C34_rows items j k : dget (nth j (coalesce items) []) k = nth_error (values_of k items) j.
  Proof.
    revert j k. induction items as [|[k0 v0] items IH] using rev_ind; intros j k.
    - cbn. destruct j as [|[|j]]; reflexivity.
    - rewrite coalesce_snoc. rewrite (place_get k0 v0 (coalesce items) (length (values_of k0 items))).
      + assert (values_of k (items ++ [(k0, v0)]) = values_of k items ++ map snd (if PyDict.eqb k0 k then [(k0, v0)] else [])) as -> by (unfold values_of; rewrite filter_app, map_app; reflexivity). destruct (PyDict.eqb_spec k0 k) as [->|N]; cbn [andb map snd]; [|rewrite app_nil_r; apply IH].
        rewrite IH. destruct (Nat.eqb_spec j (length (values_of k items))) as [->|Nj]; [rewrite nth_error_app2, Nat.sub_diag by lia; reflexivity|].
        destruct (Nat.lt_ge_cases j (length (values_of k items))); [rewrite nth_error_app1 by lia; reflexivity|]. rewrite nth_error_app2 by lia. rewrite (proj2 (nth_error_None _ _)) by lia.
        destruct (j - length (values_of k items)) as [|[|i]] eqn:E; [lia|reflexivity|reflexivity].
      + intro i. rewrite IH. apply nth_error_Some.
  Qed.

  Lemma place_nodup it rows : (forall d, In d rows -> NoDup (dkeys d)) -> forall d, In d (place it rows) -> NoDup (dkeys d).
  Proof.
    induction rows as [|d0 rows IH]; cbn [place]; intros H d.
    - intros [<-|[]]. cbn. constructor; [intros []|constructor].
    - destruct (dmem d0 (fst it)).
      + intros [<-|Hd]; [apply H; left; reflexivity|]. apply IH; [intros x Hx; apply H; right; exact Hx|exact Hd].
      + intros [<-|Hd]; [apply NoDup_dset, H; left; reflexivity|apply H; right; exact Hd].
  Qed.

  Lemma place_perm it rows : Permutation (concat (place it rows)) (it :: concat rows).
  Proof.
    induction rows as [|d rows IH]; cbn [place concat]; [reflexivity|]. destruct (dmem d (fst it)) eqn:E; cbn [concat].
    - rewrite IH. symmetry. apply Permutation_middle.
    - assert (dset d (fst it) (snd it) = d ++ [it]) as ->.
      { apply dmem_false in E. destruct it as [k v]. cbn [fst snd] in *. induction d as [|[k' v'] d IHd]; [reflexivity|]. cbn [dset app]. destruct (PyDict.eqb_spec k' k) as [->|N]; [exfalso; apply E; left; reflexivity|].
        f_equal. apply IHd. intro H. apply E. right. exact H. }
      rewrite <- app_assoc. cbn [app]. symmetry. apply Permutation_middle.
  Qed.

  (** The rows together have exactly the given keys and values; no row has a key twice; there are no more rows than
      values of some key. *)
  Theorem C34_nothing_lost items :
    Permutation (concat (coalesce items)) items /\ (forall d, In d (coalesce items) -> NoDup (dkeys d)) /\
    (length (coalesce items) = 1 \/ exists k, length (coalesce items) = length (values_of k items)).
  Proof.
    split; [|split].
    - induction items as [|it items IH] using rev_ind; [reflexivity|]. rewrite coalesce_snoc, place_perm, IH. apply Permutation_cons_append.
    - induction items as [|it items IH] using rev_ind; [intros d [<-|[]]; constructor|]. rewrite coalesce_snoc. apply place_nodup. exact IH.
    - assert (length (coalesce items) = 1 \/ (2 <= length (coalesce items) /\ last (coalesce items) [] <> [])) as [H|[H1 H2]].
      { induction items as [|it items IH] using rev_ind; [left; reflexivity|]. rewrite coalesce_snoc.
        assert (coalesce items <> []) as Hne. { intro E. rewrite E in IH. cbn in IH. destruct IH as [IH|[IH _]]; [discriminate|lia]. }
        revert IH Hne. generalize (coalesce items) as rows. induction rows as [|d rows IHr]; intros IH Hne; [contradiction|]. cbn [place]. destruct (dmem d (fst it)).
        - right. destruct rows as [|d2 rows]; [cbn; split; [lia|discriminate]|]. split.
          { cbn [length]. destruct (place it (d2 :: rows)) eqn:E; [cbn [place] in E; destruct (dmem d2 (fst it)); discriminate|cbn; lia]. }
          destruct (IHr ltac:(destruct IH as [IH|[IH1 IH2]]; [cbn in IH; lia|destruct rows; [left; reflexivity|right; split; [cbn; lia|exact IH2]]]) ltac:(discriminate)) as [L|[L1 L2]].
          + destruct (place it (d2 :: rows)) as [|e [|? ?]] eqn:E; [discriminate| |discriminate]. cbn [last]. intro Z. subst e. cbn [place] in E. destruct (dmem d2 (fst it)).
            * injection E as E1 E2. destruct rows; [discriminate E2|cbn [place] in E2; destruct (dmem d0 (fst it)); discriminate].
            * injection E as E1 E2. destruct d2 as [|[k' v'] d2]; cbn [dset] in E1; [discriminate|destruct (PyDict.eqb k' (fst it)); discriminate].
          + destruct (place it (d2 :: rows)) as [|e1 es] eqn:E; [cbn in L1; lia|]. change (last (d :: e1 :: es) []) with (last (e1 :: es) []). exact L2.
        - destruct IH as [IH|[IH1 IH2]].
          + left. cbn in *. exact IH.
          + right. destruct rows as [|d2 rows]; [cbn in IH1; lia|]. split; [exact IH1|exact IH2]. }
      + left. exact H.
      + right. destruct (last (coalesce items) []) as [|[k v] d] eqn:E; [contradiction|]. exists k. set (n := length (coalesce items)) in *.
        assert (nth (n - 1) (coalesce items) [] = (k, v) :: d) as E2. { rewrite <- E. unfold n. clear. induction (coalesce items) as [|a [|b l] IH]; [reflexivity|reflexivity|]. change (last (a :: b :: l) []) with (last (b :: l) []). rewrite <- IH. cbn [length]. replace (S (S (length l)) - 1) with (S (S (length l) - 1)) by lia. reflexivity. }
        pose proof (C34_rows items (n - 1) k) as G. rewrite E2 in G. cbn [dget] in G. rewrite eqb_refl in G. assert (n - 1 < length (values_of k items)) as L by (apply nth_error_Some; congruence).
        pose proof (C34_rows items n k) as G2. rewrite nth_overflow in G2 by (unfold n; lia). cbn [dget] in G2. symmetry in G2. apply nth_error_None in G2. lia.
  Qed.
End Flatten.

Section Document.
  Context {A V : Type} {EA : EqDecB A}.
  Variable sep : list A.

  (** The table of a document has, under the joined keys, the values of the document. *)
  Theorem C34_document (d : list (list A * json A V)) : plain sep (JDict d) ->
    Permutation (concat (flatten sep d None)) (map (fun pv => (join sep (fst pv), snd pv)) (leaves (JDict d))).
  Proof.
    intro Hp. unfold flatten. destruct (C34_nothing_lost (concat (map (fun kv : list A * json A V => find_data sep (snd kv) (fst kv)) d))) as [H _]. rewrite H. clear H.
    inversion Hp as [|? Hd|]; subst d0. clear Hp. cbn [leaves]. induction d as [|[k x] d IH]; [reflexivity|]. cbn [map concat fst snd]. rewrite map_app, map_map.
    destruct (Hd k x (or_introl eq_refl)) as [Hk Hx]. rewrite (find_data_spec sep x Hx (k ++ sep) k ltac:(right; eauto) (plain_open sep [] k Hk)).
    rewrite IH by (intros k' x' Hx'; apply Hd; right; exact Hx'). apply Permutation_app_tail. match goal with |- Permutation ?a ?b => replace b with a; [reflexivity|] end. apply map_ext. intros [ks y]. unfold place_at. cbn [fst snd]. f_equal.
    destruct ks as [|k2 ks]; [apply close_app|]. cbn [join]. rewrite <- app_assoc. reflexivity.
  Qed.

  (** The payload chosen as data has the most rows; none is chosen exactly if none has rows. *)
  Theorem C34_payload (payloads : list (list A * nat)) :
    match select_payload payloads with
    | Some k => exists n, In (k, n) payloads /\ 0 < n /\ forall k' n', In (k', n') payloads -> n' <= n
    | None => forall k n, In (k, n) payloads -> n = 0
    end.
  Proof.
    unfold select_payload. assert (forall (ps : list (list A * nat)) (best : nat * option (list A)), let r := fold_left (fun (best : nat * option (list A)) p => if fst best <? snd p then (snd p, Some (fst p)) else best) ps best in
      fst best <= fst r /\ (forall k n, In (k, n) ps -> n <= fst r) /\ (r = best \/ exists k, snd r = Some k /\ In (k, fst r) ps /\ 0 < fst r)) as G.
    { induction ps as [|[k n] ps IH]; intro best; cbn zeta; cbn [fold_left]; [split; [lia|]; split; [intros ? ? []|left; reflexivity]|]. cbn [fst snd].
      destruct (IH (if fst best <? n then (n, Some k) else best)) as (I1 & I2 & I3). cbn zeta in *. destruct (Nat.ltb_spec (fst best) n) as [L|L]; cbn [fst snd] in *.
      - split; [lia|]. split; [intros k' n' [E|H]; [injection E as <- <-; exact I1|apply (I2 k'); exact H]|]. right. destruct I3 as [->|(k' & E & H & P)]; [exists k; cbn [fst snd]; split; [reflexivity|]; split; [left; reflexivity|lia]|].
        exists k'. split; [exact E|]. split; [right; exact H|exact P].
      - split; [exact I1|]. split; [intros k' n' [E|H]; [injection E as <- <-; lia|apply (I2 k'); exact H]|]. destruct I3 as [->|(k' & E & H & P)]; [left; reflexivity|]. right. exists k'. split; [exact E|]. split; [right; exact H|exact P]. }
    destruct (G payloads (0, None)) as (_ & G2 & G3). cbn zeta in *. set (r := fold_left _ payloads (0, None)) in *. destruct G3 as [E|(k & E & H & P)].
    - rewrite E in *. cbn [fst snd] in *. intros k n H. specialize (G2 k n H). lia.
    - rewrite E. exists (fst r). split; [exact H|]. split; [exact P|exact G2].
  Qed.
End Document.

Notation doc l := (flatten [0] [([9], JList l)] None).
Example C34_example :
  doc [JDict [([1], JVal 11); ([2], JVal 12)]; JDict [([1], JVal 21); ([2], JDict [([3], JVal 23)])]] =
    [[([9; 0; 1], JVal 11); ([9; 0; 2], JVal 12); ([9; 0; 2; 0; 3], JVal 23)]; [([9; 0; 1], JVal 21)]].
Proof. vm_compute. reflexivity. Qed.

(** A user expects the values of a record to be in the same row.  A record that lacks a key takes the value of a later
    record. *)
Theorem C34_records_stay_together_refuted :
  ~ (forall (records : list (list (list nat * nat))) r, In r records -> (forall k v, In (k, v) r -> plain_key [0] k) ->
       exists row, In row (doc (map (fun r => JDict (map (fun kv => (fst kv, JVal (snd kv))) r)) records)) /\
                   forall k v, In (k, v) r -> In ([9; 0] ++ k, JVal v) row).
Proof.
  intro H. destruct (H [[([1], 11)]; [([1], 21); ([2], 22)]] [([1], 21); ([2], 22)] ltac:(right; left; reflexivity)) as (row & Hr & Hin).
  - intros k v [E|[E|[]]]; injection E as <- <-; [exists [], 1, [], 0|exists [], 2, [], 0]; repeat split; discriminate.
  - pose proof (Hin [1] 21 ltac:(left; reflexivity)) as H1. pose proof (Hin [2] 22 ltac:(right; left; reflexivity)) as H2. vm_compute in Hr.
    destruct Hr as [<-|[<-|[]]]; cbn in H1, H2; intuition discriminate.
Qed.

Print Assumptions C51_lines.
Print Assumptions C67_text_lines.
Print Assumptions C67_record_lines.
Print Assumptions C67_one_line.
Print Assumptions C67_whole_lines.
Print Assumptions C34_rows.
Print Assumptions C34_nothing_lost.
Print Assumptions C34_document.
Print Assumptions C34_payload.
