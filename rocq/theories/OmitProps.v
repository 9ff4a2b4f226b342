(** Property C70: keys omitted from a report. *)
From Coq Require Import ZArith.
From Verif Require Import PyCommon PyDict PyString ListFacts ReportModel DiffProofs.
Local Open Scope string_scope.
Local Open Scope list_scope.

(** ** What is expected *)

(** The parts of an omitted key, separated by dots *)
Fixpoint parts (s : string) : list string :=
  match s with
  | String.EmptyString => [""]
  | String.String c r =>
      if Ascii.eqb c dot then "" :: parts r
      else match parts r with h :: t => String.String c h :: t | [] => [String.String c ""] end
  end.

(** A step into a report: a key of a dictionary, or the column at a position with its name *)
Inductive step := SKey (k : key) | SCol (i : nat) (name : string).

(** A part selects a key if they are equal or it is the wildcard *)
Definition selects (p : string) (s : step) : bool :=
  String.eqb p "*" || match s with SKey k => eqb k (KStr p) | SCol _ name => String.eqb name p end.

(** All parts select the first steps of a path *)
Fixpoint covers (ps : list string) (path : list step) : bool :=
  match ps, path with
  | p :: ps, s :: path => selects p s && match ps with [] => true | _ => covers ps path end
  | _, _ => false
  end.

(** Some omitted key covers the path *)
Definition omitted (omit : list string) (path : list step) : bool := existsb (fun o => covers (parts o) path) omit.

Fixpoint no_dots (s : string) : Prop :=
  match s with String.EmptyString => True | String.String c r => c <> dot /\ no_dots r end.

Section RvalInd.
  Context {V : Type}.
  Variable P : rval V -> Prop.
  Hypothesis HO : forall v, P (VOne v).
  Hypothesis HZ : P VNone.
  Hypothesis HD : forall d, (forall k x, In (k, x) d -> P x) -> P (VDict d).
  Hypothesis HL : forall l, (forall x, In x l -> P x) -> P (VList l).
  Fixpoint rval_induction (r : rval V) : P r :=
    match r with
    | VOne v => HO v
    | VNone => HZ
    | VDict d => HD d ((fix over (d : list (key * rval V)) : forall k x, In (k, x) d -> P x :=
        match d with
        | [] => fun k x H => match H with end
        | (k0, x0) :: r => fun k x H => match H with or_introl E => eq_ind x0 P (rval_induction x0) x (f_equal snd E) | or_intror H => over r k x H end
        end) d)
    | VList l => HL l ((fix over (l : list (rval V)) : forall x, In x l -> P x :=
        match l with
        | [] => fun x H => match H with end
        | x0 :: r => fun x H => match H with or_introl E => eq_ind x0 P (rval_induction x0) x E | or_intror H => over r x H end
        end) l)
    end.
End RvalInd.

Section Report.
  Context {V : Type}.
  Variable show : V -> string.

  (** The entries of a report with the steps that lead to them: dictionaries are entered, except the profile schema, and so
      are the columns listed under data_stats; an omitted column has no entries *)
  Definition name_of (r : rval V) : string := match r with VDict d => col_name show d | _ => "None" end.
  Definition down (s : step) (e : list step * rval V) : list step * rval V := (s :: fst e, snd e).

  Fixpoint entries (r : rval V) : list (list step * rval V) :=
    match r with
    | VDict d =>
        (fix over (d : list (key * rval V)) :=
           match d with
           | [] => []
           | (k, v) :: rest =>
               map (down (SKey k))
                 (match v with
                  | VDict _ => if eqb k (KStr "profile_schema") then [([], v)] else entries v
                  | VList cols =>
                      if eqb k (KStr "data_stats") then
                        (fix columns (i : nat) (cols : list (rval V)) :=
                           match cols with
                           | [] => []
                           | c :: cols => map (down (SCol i (name_of c))) (match c with VDict _ => entries c | _ => [] end) ++ columns (S i) cols
                           end) 0 cols
                      else [([], v)]
                  | _ => [([], v)]
                  end) ++ over rest
           end) d
    | _ => [([], r)]
    end.

  (** Reports: the keys of a dictionary differ, are not empty and have no dots, nor have the names of columns; what is listed
      under data_stats are dictionaries *)
  Inductive proper : rval V -> Prop :=
  | P_one v : proper (VOne v)
  | P_none : proper VNone
  | P_list l : (forall x, In x l -> proper x) -> proper (VList l)
  | P_dict d : NoDup (dkeys d) ->
      (forall k v, In (k, v) d -> k <> KStr "" /\ (forall s, k = KStr s -> no_dots s) /\ proper v /\
         (k = KStr "data_stats" -> forall cols c, v = VList cols -> In c cols -> exists d', c = VDict d' /\ no_dots (col_name show d'))) ->
      proper (VDict d).

  (** Forget the names of columns *)
  Definition place (s : step) : key + nat := match s with SKey k => inl k | SCol i _ => inr i end.
  Definition placed (e : list step * rval V) : list (key + nat) * rval V := (map place (fst e), snd e).

  (** ** Dots *)
  Lemma parts_split s : parts s = match split1 s with None => [s] | Some (a, b) => a :: parts b end.
  Proof.
    induction s as [|c s IH]; [reflexivity|]. cbn [parts split1]. destruct (Ascii.eqb c dot); [reflexivity|]. rewrite IH. destruct (split1 s) as [[a b]|]; reflexivity.
  Qed.
  Lemma split1_some s a b : split1 s = Some (a, b) -> s = a +++ "." +++ b /\ no_dots a.
  Proof.
    revert a b. induction s as [|c s IH]; intros a b; cbn [split1]; [discriminate|]. destruct (Ascii.eqb_spec c dot) as [->|N].
    - intro H. injection H as <- <-. split; reflexivity.
    - destruct (split1 s) as [[a' b']|]; [|discriminate]. intro H. injection H as <- <-. destruct (IH a' b' eq_refl) as [-> Ha]. split; [reflexivity|]. split; assumption.
  Qed.
  Lemma split1_dot a b : no_dots a -> split1 (a +++ "." +++ b) = Some (a, b).
  Proof.
    induction a as [|c a IH]; intro H; [reflexivity|]. destruct H as [Hc Ha]. change (String.String c a +++ "." +++ b) with (String.String c (a +++ "." +++ b)). cbn [split1]. rewrite IH by exact Ha. destruct (Ascii.eqb_spec c dot); [contradiction|reflexivity].
  Qed.
  Lemma split1_none s : split1 s = None <-> no_dots s.
  Proof.
    induction s as [|c s IH]; cbn [split1 no_dots]; [tauto|]. destruct (Ascii.eqb_spec c dot) as [->|N]; [split; [discriminate|tauto]|]. destruct (split1 s) as [[a b]|]; [split; [discriminate|]|tauto].
    intros [_ H]. apply IH in H. discriminate.
  Qed.

  Lemma parts_nonempty s : parts s <> [].
  Proof. rewrite parts_split. destruct (split1 s) as [[a b]|]; discriminate. Qed.
  Lemma covers_cons p ps s path : ps <> [] -> covers (p :: ps) (s :: path) = selects p s && covers ps path.
  Proof. destruct ps; [contradiction|reflexivity]. Qed.
  Lemma covers_split o a b s path : split1 o = Some (a, b) -> covers (parts o) (s :: path) = selects a s && covers (parts b) path.
  Proof. intro H. rewrite parts_split, H. apply covers_cons, parts_nonempty. Qed.
  Lemma covers_one o s path : split1 o = None -> covers (parts o) (s :: path) = selects o s.
  Proof. intro H. rewrite parts_split, H. cbn [covers]. apply andb_true_r. Qed.
  Lemma omitted_nil omit : omitted omit [] = false.
  Proof. unfold omitted. induction omit as [|o omit IH]; [reflexivity|]. cbn [existsb]. rewrite IH. destruct (parts o); reflexivity. Qed.
  Lemma omitted_app o1 o2 path : omitted (o1 ++ o2) path = omitted o1 path || omitted o2 path.
  Proof. apply existsb_app. Qed.

  Lemma in_omit_In omit s : in_omit omit s = true <-> In s omit.
  Proof. unfold in_omit. rewrite existsb_exists. split; [intros (x & H & E); apply String.eqb_eq in E; subst; exact H|]. intro H. exists s. split; [exact H|apply String.eqb_refl]. Qed.

  Definition key_ok (k : key) : Prop := k <> KStr "" /\ forall s, k = KStr s -> no_dots s.

  Lemma omitted_here omit k path : key_ok k -> key_omitted omit k || in_omit omit "*" = true -> omitted omit (SKey k :: path) = true.
  Proof.
    intros [_ Hk] H. apply orb_true_iff in H. unfold omitted. apply existsb_exists. destruct H as [H|H].
    - destruct k as [s|z]; [|discriminate]. cbn [key_omitted] in H. apply in_omit_In in H. exists s. split; [exact H|]. rewrite covers_one by (apply split1_none; apply Hk; reflexivity).
      unfold selects. rewrite (PyDict.eqb_refl (KStr s)), orb_true_r. reflexivity.
    - apply in_omit_In in H. exists "*". split; [exact H|]. reflexivity.
  Qed.

  (** Paths within a dictionary *)
  Definition dict_path (path : list step) : Prop := match path with [] => True | SKey k :: _ => k <> KStr "" | SCol _ _ :: _ => False end.

  Lemma covers_empty path : dict_path path -> covers (parts "") path = false.
  Proof. destruct path as [|[k|i n] path]; cbn [dict_path]; [reflexivity| |intros []]. intro H. cbn [parts covers]. unfold selects. cbn [orb]. destruct (PyDict.eqb_spec k (KStr "")); [contradiction|reflexivity]. Qed.

  Lemma selects_key p k : selects p (SKey k) = String.eqb p "*" || eqb k (KStr p).
  Proof. reflexivity. Qed.

  Lemma omitted_next omit k path : key_omitted omit k || in_omit omit "*" = false -> dict_path path ->
    omitted omit (SKey k :: path) = omitted (next_omit k omit) path.
  Proof.
    intros H Hp. induction omit as [|o omit IH]; [reflexivity|]. apply orb_false_iff in H as [H1 H2]. cbn [in_omit existsb] in H2. apply orb_false_iff in H2 as [H2 H2'].
    assert (eqb k (KStr o) = false /\ key_omitted omit k = false) as [H3 H1'].
    { destruct k as [s|z]; [|split; reflexivity]. cbn [key_omitted in_omit existsb] in H1. apply orb_false_iff in H1 as [H1 H1']. split; [|exact H1']. change (eqb (KStr s) (KStr o)) with (String.eqb s o). exact H1. }
    unfold next_omit. cbn [flat_map]. rewrite omitted_app. fold (next_omit k omit). rewrite <- IH by (rewrite H1'; exact H2'). unfold omitted at 1 2. cbn [existsb]. fold (omitted omit (SKey k :: path)). f_equal.
    destruct (split1 o) as [[a b]|] eqn:E.
    - rewrite (covers_split o a b) by exact E. destruct (String.eqb_spec b "") as [->|Nb]; [rewrite covers_empty by exact Hp; apply andb_false_r|].
      rewrite selects_key. destruct (String.eqb a "*" || eqb k (KStr a)); [cbn [existsb andb]; rewrite orb_false_r; reflexivity|reflexivity].
    - rewrite covers_one by exact E. rewrite selects_key, H3, orb_false_r. apply String.eqb_neq. intros ->. discriminate.
  Qed.

  (** Paths within a column *)
  Lemma star_name name o : no_dots name -> String.eqb o ("*." +++ name) = true -> split1 o = Some ("*", name).
  Proof. intros H E. apply String.eqb_eq in E. subst o. reflexivity. Qed.

  Lemma column_cases name omit acc : no_dots name -> ~ In "*.*" omit -> ~ In "*" omit -> ~ In "data_stats" omit ->
    (column_omit name omit acc = Ok None /\ forall i path, omitted omit (SKey (KStr "data_stats") :: SCol i name :: path) = true) \/
    (exists new, column_omit name omit acc = Ok (Some (acc ++ new)) /\ (forall o', In o' new -> exists o a b, In o omit /\ parts o = a :: b :: parts o') /\
       forall i path, omitted omit (SKey (KStr "data_stats") :: SCol i name :: path) = omitted new path).
  Proof.
    intros Hn. revert acc. induction omit as [|o omit IH]; intros acc H1 H2 H3.
    - right. exists []. rewrite app_nil_r. split; [reflexivity|]. split; [intros o' []|reflexivity].
    - cbn [column_omit]. set (ds := KStr "data_stats").
      assert (forall acc, (column_omit name omit acc = Ok None /\ forall i path, omitted omit (SKey ds :: SCol i name :: path) = true) \/
        (exists new, column_omit name omit acc = Ok (Some (acc ++ new)) /\ (forall o', In o' new -> exists o a b, In o omit /\ parts o = a :: b :: parts o') /\
          forall i path, omitted omit (SKey ds :: SCol i name :: path) = omitted new path)) as IH'.
      { intro acc'. apply IH; intro Hi; [apply H1|apply H2|apply H3]; right; exact Hi. }
      clear IH.
      (* an omitted key that does not concern the column, or selects in it *)
      assert (forall extra, (forall i path, covers (parts o) (SKey ds :: SCol i name :: path) = omitted extra path) -> (forall o', In o' extra -> exists a b, parts o = a :: b :: parts o') ->
        (column_omit name omit (acc ++ extra) = Ok None /\ forall i path, omitted (o :: omit) (SKey ds :: SCol i name :: path) = true) \/
        (exists new, column_omit name omit (acc ++ extra) = Ok (Some (acc ++ new)) /\ (forall o', In o' new -> exists o0 a b, In o0 (o :: omit) /\ parts o0 = a :: b :: parts o') /\
          forall i path, omitted (o :: omit) (SKey ds :: SCol i name :: path) = omitted new path)) as Step.
      { intros extra HE HP. destruct (IH' (acc ++ extra)) as [[E F]|(new & E & Hnew & F)].
        - left. split; [exact E|]. intros i path. cbn [omitted existsb]. unfold omitted in F |- *. cbn [existsb]. rewrite F. apply orb_true_r.
        - right. exists (extra ++ new). split; [rewrite E, app_assoc; reflexivity|]. split.
          + intros o' Ho. apply in_app_or in Ho as [Ho|Ho]; [destruct (HP o' Ho) as (a & b & Eab); exists o, a, b; split; [left; reflexivity|exact Eab]|].
            destruct (Hnew o' Ho) as (o0 & a & b & Hi & Eab). exists o0, a, b. split; [right; exact Hi|exact Eab].
          + intros i path. rewrite omitted_app, <- (HE i path), <- (F i path). reflexivity. }
      pose proof (Step []) as Step0. rewrite app_nil_r in Step0.
      destruct (String.eqb o ("*." +++ name) || String.eqb o "data_stats.*" || String.eqb o ("data_stats." +++ name)) eqn:EO.
      + left. split; [reflexivity|]. intros i path. unfold omitted. cbn [existsb]. apply orb_true_iff. left.
        assert (split1 o = Some ("*", name) \/ split1 o = Some ("data_stats", "*") \/ split1 o = Some ("data_stats", name)) as HS.
        { apply orb_true_iff in EO as [EO|EO]; [apply orb_true_iff in EO as [EO|EO]|]; apply String.eqb_eq in EO; subst o; auto. }
        destruct HS as [HS|[HS|HS]]; rewrite (covers_split _ _ _ _ _ HS).
        * rewrite (covers_one name) by (apply split1_none; exact Hn). unfold selects. rewrite (String.eqb_refl name), !orb_true_r. reflexivity.
        * reflexivity.
        * rewrite (covers_one name) by (apply split1_none; exact Hn). unfold selects. rewrite (String.eqb_refl name), !orb_true_r. reflexivity.
      + apply orb_false_iff in EO as [EO E3]. apply orb_false_iff in EO as [E1 E2].
        destruct (split1 o) as [[prior next]|] eqn:ES.
        2:{ apply Step0; [|intros o' []]. intros i path. rewrite covers_one by exact ES. unfold selects.
            destruct (String.eqb_spec o "*") as [->|]; [exfalso; apply H2; left; reflexivity|]. destruct (PyDict.eqb_spec ds (KStr o)) as [E|]; [|reflexivity]. injection E as <-. exfalso. apply H3. left. reflexivity. }
        destruct (split1_some _ _ _ ES) as [Eo Hprior].
        assert (selects prior (SKey ds) = (String.eqb prior "data_stats" || String.eqb prior "*")) as Sel.
        { rewrite selects_key, orb_comm. f_equal. change (eqb ds (KStr prior)) with (String.eqb "data_stats" prior). apply String.eqb_sym. }
        destruct (String.eqb prior "data_stats" || String.eqb prior "*") eqn:EP.
        2:{ apply Step0; [|intros o' []]. intros i path. rewrite (covers_split o prior next) by exact ES. rewrite Sel. reflexivity. }
        destruct (split1 next) as [[a b]|] eqn:EN.
        * destruct (String.eqb a "*" || String.eqb a name) eqn:EA.
          -- apply (Step [b]).
             ++ intros i path. rewrite (covers_split o prior next), (covers_split next a b) by assumption. rewrite Sel. unfold selects. rewrite (String.eqb_sym name a), EA. cbn [andb omitted existsb]. rewrite orb_false_r. reflexivity.
             ++ intros o' [<-|[]]. exists prior, a. rewrite parts_split, ES, (parts_split next), EN. reflexivity.
          -- apply Step0; [|intros o' []]. intros i path. rewrite (covers_split o prior next), (covers_split next a b) by assumption. rewrite Sel. unfold selects. rewrite (String.eqb_sym name a), EA. reflexivity.
        * destruct (String.eqb next "*" || String.eqb next name) eqn:EA.
          -- exfalso. apply orb_true_iff in EP. apply orb_true_iff in EA. destruct EP as [EP|EP], EA as [EA|EA]; apply String.eqb_eq in EP; apply String.eqb_eq in EA; subst; [discriminate| | |].
             ++ rewrite String.eqb_refl in E3. discriminate.
             ++ apply H1. left. reflexivity.
             ++ rewrite String.eqb_refl in E1. discriminate.
          -- apply Step0; [|intros o' []]. intros i path. rewrite (covers_split o prior next), (covers_one next) by assumption. rewrite Sel. unfold selects. rewrite (String.eqb_sym name next), EA. reflexivity.
  Qed.

  (** ** Going through a report *)
  Section Loops.
    Variable omit : list string.
    Fixpoint columns (cols : list (rval V)) (acc : list (rval V)) : result (list (rval V)) :=
      match cols with
      | [] => Ok acc
      | cv :: cols =>
          match cv with
          | VDict c =>
          bind (column_omit (col_name show c) omit []) (fun o =>
          match o with
          | None => columns cols (acc ++ [VNone])
          | Some omit' => bind (prepare show cv omit') (fun c' => columns cols (acc ++ [c']))
          end)
          | _ => Err AttributeError
          end
      end.
    Fixpoint over (d : list (key * rval V)) (acc : list (key * rval V)) : result (list (key * rval V)) :=
      match d with
      | [] => Ok acc
      | (k, v) :: rest =>
          if key_omitted omit k then over rest acc
          else if in_omit omit "*" then over rest acc
          else
            match v with
            | VList cols =>
                if eqb k (KStr "data_stats") then bind (columns cols []) (fun cols' => over rest (dset acc k (VList cols')))
                else over rest (dset acc k v)
            | VDict _ =>
                if eqb k (KStr "profile_schema") then over rest (dset acc k v)
                else bind (prepare show v (next_omit k omit)) (fun v' => over rest (dset acc k v'))
            | _ => over rest (dset acc k v)
            end
      end.
  End Loops.
  Lemma prepare_dict d omit : prepare show (VDict d) omit = bind (over omit d []) (fun d' => Ok (VDict d')).
  Proof. reflexivity. Qed.

  Fixpoint column_entries (i : nat) (cols : list (rval V)) : list (list step * rval V) :=
    match cols with
    | [] => []
    | c :: cols => map (down (SCol i (name_of c))) (match c with VDict _ => entries c | _ => [] end) ++ column_entries (S i) cols
    end.
  Definition value_entries (k : key) (v : rval V) : list (list step * rval V) :=
    match v with
    | VDict _ => if eqb k (KStr "profile_schema") then [([], v)] else entries v
    | VList cols => if eqb k (KStr "data_stats") then column_entries 0 cols else [([], v)]
    | _ => [([], v)]
    end.
  Lemma entries_cons k v rest : entries (VDict ((k, v) :: rest)) = map (down (SKey k)) (value_entries k v) ++ entries (VDict rest).
  Proof. reflexivity. Qed.

  Lemma entries_paths r : proper r -> (exists d, r = VDict d) -> forall e, In e (entries r) -> dict_path (fst e) /\ fst e <> [].
  Proof.
    intros Hp [d ->]. inversion Hp as [| | |d' _ H]; subst d'. clear Hp. induction d as [|[k v] rest IH]; intros e He; [destruct He|]. rewrite entries_cons in He. apply in_app_or in He as [He|He].
    - apply in_map_iff in He as (e' & <- & _). cbn [down fst dict_path]. destruct (H k v (or_introl eq_refl)) as [Hk _]. split; [exact Hk|discriminate].
    - apply IH; [intros k' v' Hi; apply H; right; exact Hi|exact He].
  Qed.

  (** The keys to omit that end in two wildcards make columns fail *)
  Definition good (omit : list string) : Prop := forall o ps, In o omit -> parts o <> ps ++ ["*"; "*"].

  Lemma good_next omit k : good omit -> good (next_omit k omit).
  Proof.
    intros H o' ps Ho E. unfold next_omit in Ho. apply in_flat_map in Ho as (o & Ho & Hi). destruct (split1 o) as [[a b]|] eqn:ES; [|destruct Hi].
    destruct (String.eqb b ""); [destruct Hi|]. destruct (_ || _); [|destruct Hi]. destruct Hi as [<-|[]]. apply (H o (a :: ps) Ho). rewrite parts_split, ES, E. reflexivity.
  Qed.
  Lemma good_stars omit : good omit -> ~ In "*.*" omit.
  Proof. intros H Hi. apply (H "*.*" [] Hi). reflexivity. Qed.

  Definition keep (omit : list string) (pre : list step) (e : list step * rval V) : bool := negb (omitted omit (pre ++ fst e)).
  Definition result_of (r : rval V) (omit : list string) : Prop :=
    exists r', prepare show r omit = Ok r' /\ ((exists d, r = VDict d) -> exists d', r' = VDict d') /\
      map placed (entries r') = map placed (filter (keep omit []) (entries r)).

  Lemma filter_map_down s omit pre l : filter (keep omit pre) (map (down s) l) = map (down s) (filter (keep omit (pre ++ [s])) l).
  Proof.
    induction l as [|e l IH]; [reflexivity|]. cbn [map filter]. rewrite IH. assert (keep omit pre (down s e) = keep omit (pre ++ [s]) e) as -> by (unfold keep; cbn [down fst]; rewrite <- app_assoc; reflexivity). destruct (keep omit (pre ++ [s]) e); reflexivity.
  Qed.
  Lemma placed_down s l : map placed (map (down s) l) = map (fun p => (place s :: fst p, snd p)) (map placed l).
  Proof. rewrite !map_map. reflexivity. Qed.
  Lemma filter_false {X} (f : X -> bool) l : (forall x, In x l -> f x = false) -> filter f l = [].
  Proof. induction l as [|x l IH]; intro H; [reflexivity|]. cbn [filter]. rewrite (H x (or_introl eq_refl)). apply IH. intros y Hy. apply H. right. exact Hy. Qed.
  Lemma filter_ext_in' {X} (f g : X -> bool) l : (forall x, In x l -> f x = g x) -> filter f l = filter g l.
  Proof. apply filter_ext_in. Qed.

  Lemma columns_good omit cols acc i :
    good omit -> ~ In "*" omit -> ~ In "data_stats" omit ->
    (forall c, In c cols -> (exists d, c = VDict d /\ no_dots (col_name show d)) /\ (forall omit', good omit' -> result_of c omit')) ->
    exists cols', columns omit cols acc = Ok (acc ++ cols') /\
      map placed (column_entries i cols') = map placed (filter (keep omit [SKey (KStr "data_stats")]) (column_entries i cols)).
  Proof.
    intros G1 G2 G3. revert acc i. induction cols as [|c cols IH]; intros acc i H.
    - exists []. rewrite app_nil_r. split; reflexivity.
    - destruct (H c (or_introl eq_refl)) as [(d & -> & Hd) HR]. cbn [columns column_entries name_of]. rewrite filter_app, map_app.
      assert (forall c', In c' cols -> (exists d, c' = VDict d /\ no_dots (col_name show d)) /\ (forall omit', good omit' -> result_of c' omit')) as H' by (intros c' Hc; apply H; right; exact Hc).
      rewrite filter_map_down. cbn [app].
      destruct (column_cases (col_name show d) omit [] Hd (good_stars _ G1) G2 G3) as [[-> F]|(new & -> & Hnew & F)]; cbn [bind app].
      + destruct (IH (acc ++ [VNone]) (S i) H') as (cols' & E & EE). exists (VNone :: cols'). split; [rewrite E, <- app_assoc; reflexivity|]. cbn [column_entries map app]. rewrite EE.
        rewrite (filter_false (keep omit [SKey (KStr "data_stats"); SCol i (col_name show d)])); [reflexivity|]. intros e _. unfold keep. cbn [app]. rewrite F. reflexivity.
      + assert (good new) as Gn. { intros o' ps Ho E. destruct (Hnew o' Ho) as (o & a & b & Hi & Ep). apply (G1 o (a :: b :: ps) Hi). rewrite Ep, E. reflexivity. }
        destruct (HR new Gn) as (r' & Er & Dr & ER). rewrite Er. cbn [bind]. destruct (Dr (ex_intro _ d eq_refl)) as [d' ->].
        destruct (IH (acc ++ [VDict d']) (S i) H') as (cols' & E & EE). exists (VDict d' :: cols'). split; [rewrite E, <- app_assoc; reflexivity|]. cbn [column_entries]. rewrite map_app, EE. f_equal.
        rewrite !placed_down. cbn [place]. rewrite ER. do 2 f_equal. apply filter_ext_in'. intros e _. unfold keep. cbn [app]. rewrite F. reflexivity.
  Qed.

  Lemma over_good omit d acc : good omit -> NoDup (dkeys acc ++ dkeys d) ->
    (forall k v, In (k, v) d -> key_ok k /\ proper v /\ (forall omit', good omit' -> result_of v omit') /\
       (k = KStr "data_stats" -> forall cols c, v = VList cols -> In c cols -> (exists d', c = VDict d' /\ no_dots (col_name show d')) /\ (forall omit', good omit' -> result_of c omit'))) ->
    exists d', over omit d acc = Ok (acc ++ d') /\ map placed (entries (VDict d')) = map placed (filter (keep omit []) (entries (VDict d))).
  Proof.
    intro G. revert acc. induction d as [|[k v] rest IH]; intros acc HN H.
    - exists []. rewrite app_nil_r. split; reflexivity.
    - destruct (H k v (or_introl eq_refl)) as (Hk & Hp & HR & HC). cbn [over]. rewrite entries_cons, filter_app, map_app, filter_map_down. cbn [app].
      assert (forall k' v', In (k', v') rest -> key_ok k' /\ proper v' /\ (forall omit', good omit' -> result_of v' omit') /\
       (k' = KStr "data_stats" -> forall cols c, v' = VList cols -> In c cols -> (exists d', c = VDict d' /\ no_dots (col_name show d')) /\ (forall omit', good omit' -> result_of c omit'))) as H' by (intros k' v' Hi; apply H; right; exact Hi).
      cbn [dkeys map fst] in HN. fold (dkeys rest) in HN.
      assert (NoDup (dkeys acc ++ dkeys rest)) as HN1 by (apply NoDup_remove_1 in HN; exact HN).
      assert (~ In k (dkeys acc)) as Hka. { apply NoDup_remove_2 in HN. intro Hi. apply HN. apply in_or_app. left. exact Hi. }
      assert (forall w, NoDup (dkeys (acc ++ [(k, w)]) ++ dkeys rest)) as HN2. { intro w. unfold dkeys at 1. rewrite map_app, <- app_assoc. exact HN. }
      destruct (key_omitted omit k || in_omit omit "*") eqn:EO.
      { assert ((if key_omitted omit k then over omit rest acc else if in_omit omit "*" then over omit rest acc else
          match v with
            | VList cols =>
                if eqb k (KStr "data_stats") then bind (columns omit cols []) (fun cols' => over omit rest (dset acc k (VList cols')))
                else over omit rest (dset acc k v)
            | VDict _ =>
                if eqb k (KStr "profile_schema") then over omit rest (dset acc k v)
                else bind (prepare show v (next_omit k omit)) (fun v' => over omit rest (dset acc k v'))
            | _ => over omit rest (dset acc k v)
            end) = over omit rest acc) as ->. { apply orb_true_iff in EO as [-> | ->]; [reflexivity|]. destruct (key_omitted omit k); reflexivity. }
        destruct (IH acc HN1 H') as (d' & E & EE). exists d'. split; [exact E|]. rewrite EE. rewrite (filter_false (keep omit [SKey k])); [reflexivity|]. intros e _. unfold keep. cbn [app]. rewrite omitted_here by assumption. reflexivity. }
      pose proof EO as EO'. apply orb_false_iff in EO' as [-> Estar]. rewrite Estar.
      (* an entry kept as it is *)
      assert (value_entries k v = [([], v)] -> exists d', over omit rest (dset acc k v) = Ok (acc ++ d') /\ map placed (entries (VDict d')) =
        map placed (map (down (SKey k)) (filter (keep omit [SKey k]) (value_entries k v))) ++ map placed (filter (keep omit []) (entries (VDict rest)))) as Same.
      { intro EV. rewrite dset_fresh by exact Hka. destruct (IH (acc ++ [(k, v)]) (HN2 v) H') as (d' & E & EE). exists ((k, v) :: d'). split; [rewrite E, <- app_assoc; reflexivity|].
        rewrite entries_cons, map_app, EE, EV. f_equal. cbn [filter]. unfold keep. cbn [fst app]. rewrite omitted_next by (assumption || exact I). rewrite omitted_nil. reflexivity. }
      destruct v as [x| |dd|cols]; try (apply Same; reflexivity).
      + destruct (eqb k (KStr "profile_schema")) eqn:EK; [apply Same; cbn [value_entries]; rewrite EK; reflexivity|]. clear Same.
        destruct (HR (next_omit k omit) (good_next _ _ G)) as (v' & Ev & Dv & EV). rewrite Ev. cbn [bind]. destruct (Dv (ex_intro _ dd eq_refl)) as [dd' ->]. rewrite dset_fresh by exact Hka.
        destruct (IH (acc ++ [(k, VDict dd')]) (HN2 _) H') as (d' & E & EE). exists ((k, VDict dd') :: d'). split; [rewrite E, <- app_assoc; reflexivity|].
        rewrite entries_cons, map_app, EE. f_equal. rewrite !placed_down. f_equal. cbn [value_entries]. rewrite EK, EV. f_equal. apply filter_ext_in'. intros e He. unfold keep. cbn [app].
        rewrite omitted_next; [reflexivity|exact EO|]. apply (entries_paths (VDict dd) Hp (ex_intro _ dd eq_refl) e He).
      + destruct (PyDict.eqb_spec k (KStr "data_stats")) as [->|Nk]; [|apply Same; cbn [value_entries]; destruct (PyDict.eqb_spec k (KStr "data_stats")); [contradiction|reflexivity]].
        assert (~ In "*" omit) as N1 by (intro Hi; apply in_omit_In in Hi; congruence). assert (~ In "data_stats" omit) as N2. { intro Hi. apply in_omit_In in Hi. apply orb_false_iff in EO as [EO _]. cbn [key_omitted] in EO. congruence. }
        destruct (columns_good omit cols [] 0 G N1 N2) as (cols' & -> & EC). { intros c Hc. apply (HC eq_refl cols c eq_refl Hc). } cbn [bind app]. rewrite dset_fresh by exact Hka.
        destruct (IH (acc ++ [(KStr "data_stats", VList cols')]) (HN2 _) H') as (d' & E & EE). exists ((KStr "data_stats", VList cols') :: d'). split; [rewrite E, <- app_assoc; reflexivity|].
        rewrite entries_cons, map_app, EE. f_equal. rewrite !placed_down. f_equal. exact EC.
  Qed.

  Lemma all_good r : (proper r -> forall omit, good omit -> result_of r omit) /\ (forall l, r = VList l -> forall x, In x l -> proper x -> forall omit, good omit -> result_of x omit).
  Proof.
    assert (forall r, (forall d, r <> VDict d) -> forall omit, result_of r omit) as Other.
    { intros r' Hr omit. exists r'. destruct r' as [v| |d|l]; try (exfalso; eapply Hr; reflexivity); (split; [reflexivity|]; split; [intros [d E]; discriminate|]; cbn [entries filter]; unfold keep; cbn [app fst]; rewrite omitted_nil; reflexivity). }
    induction r as [v| |d IH|l IH] using rval_induction.
    - split; [intros _ omit _; apply Other; discriminate|discriminate].
    - split; [intros _ omit _; apply Other; discriminate|discriminate].
    - split; [|discriminate]. intros Hp omit G. inversion Hp as [| | |d' HN H]; subst d'. destruct (over_good omit d [] G HN) as (d' & E & EE).
      { intros k v Hi. destruct (H k v Hi) as (Hk & Hd & Hv & HC). split; [split; assumption|]. split; [exact Hv|]. split; [intros omit' G'; apply (IH k v Hi); assumption|].
        intros Ek cols c Ec Hc. split; [exact (HC Ek cols c Ec Hc)|]. intros omit' G'. apply (proj2 (IH k v Hi) cols Ec c Hc); [|exact G'].
        subst v. inversion Hv as [| |l Hl|]; subst. apply Hl. exact Hc. }
      exists (VDict d'). rewrite prepare_dict, E. cbn [bind app]. split; [reflexivity|]. split; [intros _; exists d'; reflexivity|exact EE].
    - split; [intros _ omit _; apply Other; discriminate|]. intros l' E x Hx Hpx omit G. injection E as <-. apply (IH x Hx); assumption.
  Qed.

  (** C70.  Unless a key to omit ends in two wildcards, a report has exactly the entries that no key to omit selects, at the
      same places, unchanged and in order.  A key to omit selects an entry if its parts, separated by dots, are equal to the
      first keys on the way to the entry or wildcards; the second part after data_stats stands for the name of a column. *)
  Theorem C70_omit d omit : proper (VDict d) -> (forall o ps, In o omit -> parts o <> ps ++ ["*"; "*"]) ->
    exists d', prepare show (VDict d) omit = Ok (VDict d') /\
      map placed (entries (VDict d')) = map placed (filter (fun e => negb (omitted omit (fst e))) (entries (VDict d))).
  Proof.
    intros Hp G. destruct (proj1 (all_good (VDict d)) Hp omit G) as (r' & E & D & EE). destruct (D (ex_intro _ d eq_refl)) as [d' ->]. exists d'. split; [exact E|exact EE].
  Qed.
End Report.

(** An example: two columns, three keys to omit *)
Definition report_ex : list (key * rval string) :=
  [(KStr "global_stats", VDict [(KStr "row_count", VOne "3"); (KStr "times", VDict [(KStr "row_stats", VOne "0.1")])]);
   (KStr "data_stats",
    VList [VDict [(KStr "column_name", VOne "id"); (KStr "statistics", VDict [(KStr "min", VOne "1"); (KStr "times", VOne "0.2"); (KInt 3, VOne "x")])];
           VDict [(KStr "column_name", VOne "city"); (KStr "statistics", VDict [(KStr "times", VOne "0.3"); (KStr "vocab", VOne "abc")])]])].
Example C70_example :
  prepare (fun s => s) (VDict report_ex) ["*.times"; "data_stats.city"; "data_stats.*.statistics.times"; "data_stats.id.*.min"] =
    Ok (VDict [(KStr "global_stats", VDict [(KStr "row_count", VOne "3")]);
               (KStr "data_stats", VList [VDict [(KStr "column_name", VOne "id"); (KStr "statistics", VDict [(KInt 3, VOne "x")])]; VNone])]) /\
  proper (fun s => s) (VDict report_ex) /\
  map (fun e => omitted ["*.times"; "data_stats.city"; "data_stats.*.statistics.times"; "data_stats.id.*.min"] (fst e)) (entries (fun s => s) (VDict report_ex)) =
    [false; true; false; true; true; false; true; true; true].
Proof.
  split; [reflexivity|]. split; [|reflexivity].
  repeat match goal with
    | |- proper _ (VOne _) => constructor
    | |- proper _ (VList _) => constructor
    | |- proper _ (VDict _) => apply P_dict; [repeat constructor; cbn [In dkeys map fst]; intuition discriminate|]
    | |- forall x, In x _ -> _ => let x := fresh in let H := fresh in intros x H; cbn [In] in H; repeat destruct H as [<-|H]; try destruct H
    | |- forall k v, In (k, v) _ -> _ => let x := fresh in let y := fresh in let H := fresh in intros x y H; cbn [In] in H;
        repeat (destruct H as [H|H]; [injection H as <- <-|]); try destruct H
    | |- _ /\ _ => split
    | |- KStr _ <> _ => discriminate
    | |- KInt _ <> _ => discriminate
    | |- forall s, KStr _ = KStr s -> _ => let s := fresh in let H := fresh in intros s H; injection H as <-; cbn; intuition discriminate
    | |- forall s, KInt _ = KStr s -> _ => discriminate
    | |- KStr ?a = KStr ?b -> _ => let H := fresh in intro H; try discriminate H
    | |- KInt _ = KStr _ -> _ => discriminate
    | |- forall cols c, VList _ = VList cols -> _ => let H := fresh in intros ? ? H; injection H as <-
    | |- forall cols c, _ = VList cols -> _ => discriminate
    | |- In _ _ -> _ => let H := fresh in intro H; cbn [In] in H; repeat destruct H as [<-|H]; try destruct H
    | |- exists d, _ => eexists; split; [reflexivity|cbn; intuition discriminate]
    end.
Qed.

(** The column of a report with the keys of its entries *)
Definition one_column (name : string) : rval string :=
  VDict [(KStr "data_stats", VList [VDict [(KStr "column_name", VOne name); (KStr "samples", VOne "[1, 2]")]])].

(** Two wildcards, that should omit everything below the first level, raise an error if there is a column: *)
Theorem C70_wildcards_refuted : forall name, name <> "*" -> prepare (fun s => s) (one_column name) ["*.*"] = Err IndexError.
Proof.
  intros name Hn. assert (column_omit name ["*.*"] [] = Err IndexError) as E.
  { cbn [column_omit]. destruct (String.eqb_spec "*.*" ("*." +++ name)) as [E|_]; [injection E as E; congruence|]. reflexivity. }
  unfold one_column. rewrite prepare_dict. cbn [over columns]. change (col_name _ _) with name. rewrite E. reflexivity.
Qed.

(** The entries of a column with a dot in its name cannot be omitted: *)
Theorem C70_dotted_name_refuted :
  prepare (fun s => s) (one_column "net.income") ["data_stats.net.income.samples"] = Ok (one_column "net.income").
Proof. reflexivity. Qed.

(** A compact report changes the list of keys of the caller, so that the next report with that list lacks entries: *)
Theorem C70_caller_list_refuted : exists (r : rval string) (omit : list string), let omit' := snd (prepare_report (fun s => s) true r omit) in
  omit' <> omit /\ fst (prepare_report (fun s => s) false r omit') <> fst (prepare_report (fun s => s) false r omit).
Proof.
  exists (VDict [(KStr "data_stats", VList [VDict [(KStr "column_name", VOne "id"); (KStr "statistics", VDict [(KStr "histogram", VOne "h")])]])]), [].
  split; cbn; discriminate.
Qed.
