(** Properties of tables that are read in part *)
From Coq Require Import List Arith Bool Lia Ascii Sorted.
Import ListNotations.
From Verif Require Import PyCommon SamplingModel SamplingProps TablePartModel.
Local Open Scope nat_scope.

Lemma Forall2_length {A B} (P : A -> B -> Prop) l m : Forall2 P l m -> length l = length m.
Proof. induction 1 as [|a b l m H F IH]; [reflexivity|]. cbn. rewrite IH. reflexivity. Qed.

(** ** Lines *)
Lemma is_nl_eq c : is_nl c = true <-> c = nl.
Proof. unfold is_nl. apply Ascii.eqb_eq. Qed.

(** A line: no line feed but perhaps at the end, and not empty *)
Definition line (l : text) : Prop := l <> [] /\ exists b, ~ In nl b /\ (l = b \/ l = b ++ [nl]).
Definition body_of (l b : text) : Prop := ~ In nl b /\ (l = b /\ b <> [] \/ l = b ++ [nl]).

Lemma lines_concat t : concat (lines t) = t.
Proof.
  induction t as [|c r IH]; [reflexivity|]. cbn [lines]. destruct (is_nl c) eqn:E.
  - cbn. rewrite IH. reflexivity.
  - destruct (lines r) as [|l ls] eqn:L.
    + cbn in IH |- *. rewrite <- IH. reflexivity.
    + cbn in IH |- *. rewrite IH. reflexivity.
Qed.

(** All lines but the last end with a line feed *)
Inductive file_lines : list text -> Prop :=
| fl_nil : file_lines []
| fl_last b : ~ In nl b -> b <> [] -> file_lines [b]
| fl_cons b ls : ~ In nl b -> file_lines ls -> file_lines ((b ++ [nl]) :: ls).

Lemma lines_ok t : file_lines (lines t).
Proof.
  induction t as [|c r IH]; [constructor|]. cbn [lines]. destruct (is_nl c) eqn:E.
  - apply is_nl_eq in E. subst c. apply (fl_cons []); [intros []|exact IH].
  - assert (N : c <> nl) by (intros F; apply is_nl_eq in F; congruence).
    inversion IH as [L|b Hb Nb L|b ls Hb Hl L]; subst.
    + apply fl_last; [intros [F|[]]; congruence|discriminate].
    + apply fl_last; [intros [F|F]; congruence|discriminate].
    + apply (fl_cons (c :: b)); [intros [F|F]; congruence|exact Hl].
Qed.

Lemma file_lines_body ls : file_lines ls -> forall l, In l ls -> exists b, body_of l b.
Proof.
  induction 1 as [|b Hb Nb|b ls Hb Hl IH]; intros l I; [destruct I| |].
  - destruct I as [<-|[]]. exists b. split; [exact Hb|left; auto].
  - destruct I as [<-|I]; [|auto]. exists b. split; [exact Hb|right; reflexivity].
Qed.

Lemma end_line_body l b : body_of l b -> end_line l = b ++ [nl].
Proof.
  intros [Hb [[-> N]| ->]]; unfold end_line, ends_nl.
  - destruct (rev b) as [|c r] eqn:E; [reflexivity|]. destruct (is_nl c) eqn:F; [|reflexivity].
    apply is_nl_eq in F. subst c. exfalso. apply Hb. rewrite <- (rev_involutive b), E. cbn. apply in_or_app. right. left. reflexivity.
  - rewrite rev_app_distr. cbn [rev app]. reflexivity.
Qed.

(** ** Records *)
Section Csv.
Variable delim : ascii.

Lemma parse_line skip b : ~ In nl b -> forall s f c bg o,
  parse delim skip s f c bg o (b ++ [nl]) = Err ValueError \/
  exists rs, parse delim skip s f c bg o (b ++ [nl]) = Ok rs /\ length rs <= 1 /\ (skip = false -> length rs = 1) /\
    forall rest, parse delim skip s f c bg o (b ++ nl :: rest) = bind (records delim skip rest) (fun x => Ok (rs ++ x)).
Proof.
  intros N. induction b as [|x b IH]; intros s f c bg o.
  - cbn [app].
    assert (G : forall s, s <> SQuoted -> parse delim skip s f c bg o [nl] = Ok (end_record skip f c o) /\
               forall rest, parse delim skip s f c bg o (nl :: rest) = bind (records delim skip rest) (fun x => Ok (end_record skip f c o ++ x))).
    { intros s' Hs. destruct s'; try congruence; (split; [cbn; rewrite app_nil_r; reflexivity|reflexivity]). }
    assert (L : length (end_record skip f c o) <= 1 /\ (skip = false -> length (end_record skip f c o) = 1)).
    { unfold end_record. destruct skip, o; cbn; split; auto; discriminate. }
    destruct s; try (right; eexists; split; [apply G; discriminate|split; [apply L|split; [apply L|apply G; discriminate]]]).
    left. reflexivity.
  - assert (Nb : ~ In nl b) by (intros F; apply N; right; exact F).
    assert (E : is_nl x = false).
    { destruct (is_nl x) eqn:E; [|reflexivity]. apply is_nl_eq in E. exfalso. apply N. left. exact E. }
    specialize (IH Nb). cbn [app parse]. rewrite E.
    destruct s; destruct (Ascii.eqb x delim), (Ascii.eqb x quote); apply IH.
Qed.

Lemma parse_last skip b : ~ In nl b -> forall s f c bg o, (b <> [] \/ bg = true) ->
  parse delim skip s f c bg o b = parse delim skip s f c bg o (b ++ [nl]).
Proof.
  intros N. induction b as [|x b IH]; intros s f c bg o H.
  - destruct H as [H| ->]; [congruence|]. destruct s; cbn; rewrite ?app_nil_r; reflexivity.
  - assert (Nb : ~ In nl b) by (intros F; apply N; right; exact F).
    assert (E : is_nl x = false).
    { destruct (is_nl x) eqn:E; [|reflexivity]. apply is_nl_eq in E. exfalso. apply N. left. exact E. }
    cbn [app parse]. rewrite E.
    destruct s; destruct (Ascii.eqb x delim), (Ascii.eqb x quote); apply IH; auto.
Qed.

(** A line that is a record by itself: no quotes are open at its end *)
Definition whole (l : text) : Prop := exists r, records delim false l = Ok [r].

(** The records of one line *)
Definition of_line (skip : bool) (l : text) : list (list text) :=
  match records delim skip l with Ok rs => rs | Err _ => [] end.

Lemma parse_skip b : forall s f c bg o, (exists e, parse delim false s f c bg o b = Err e) <-> (exists e, parse delim true s f c bg o b = Err e).
Proof.
  induction b as [|x b IH]; intros s f c bg o; cbn [parse].
  - destruct s; try (split; intros (e & H); discriminate H). split; eauto.
  - destruct s; destruct (is_nl x), (Ascii.eqb x delim), (Ascii.eqb x quote); try apply IH;
      (pose proof (IH SStart [] [] false true) as [A B];
       destruct (parse delim false SStart [] [] false true b) as [r1|e1], (parse delim true SStart [] [] false true b) as [r2|e2]; cbn [bind];
       [split; intros (e & H); discriminate H
       |destruct B as (e & H); [eauto|discriminate H]
       |destruct A as (e & H); [eauto|discriminate H]
       |split; eauto]).
Qed.

Lemma whole_records skip l b : body_of l b -> whole l ->
  exists rs, records delim skip l = Ok rs /\ records delim skip (end_line l) = Ok rs /\ length rs <= 1 /\ (skip = false -> length rs = 1) /\
    forall rest, records delim skip (end_line l ++ rest) = bind (records delim skip rest) (fun x => Ok (rs ++ x)).
Proof.
  intros B (r & W). rewrite (end_line_body l b B).
  assert (E : forall sk, records delim sk l = records delim sk (b ++ [nl])).
  { intros sk. destruct B as [Hb [[-> N]| ->]]; [|reflexivity]. apply parse_last; auto. }
  destruct B as [Hb _]. destruct (parse_line skip b Hb SStart [] [] false true) as [F|(rs & P & L1 & L2 & R)].
  - exfalso. rewrite E in W. destruct skip; [|unfold records in W; congruence].
    destruct (proj2 (parse_skip (b ++ [nl]) SStart [] [] false true)) as (e & G); [eauto|].
    unfold records in W. congruence.
  - exists rs. rewrite E. split; [exact P|]. split; [exact P|]. split; [exact L1|]. split; [exact L2|].
    intros rest. rewrite <- app_assoc. apply R.
Qed.

Lemma records_lines skip ls : (forall l, In l ls -> exists b, body_of l b) -> (forall l, In l ls -> whole l) ->
  records delim skip (concat (map end_line ls)) = Ok (concat (map (of_line skip) ls)).
Proof.
  induction ls as [|l ls IH]; intros B W; [reflexivity|]. cbn [map concat].
  destruct (B l) as (b & Bl); [left; reflexivity|].
  destruct (whole_records skip l b Bl (W l (or_introl eq_refl))) as (rs & R1 & _ & _ & _ & R2).
  rewrite R2, IH by (intros; (apply B || apply W); right; assumption). cbn [bind].
  unfold of_line at 2. rewrite R1. reflexivity.
Qed.

Lemma records_concat skip ls : file_lines ls -> (forall l, In l ls -> whole l) ->
  records delim skip (concat ls) = Ok (concat (map (of_line skip) ls)).
Proof.
  intros F. induction F as [|b Hb Nb|b ls Hb Hl IH]; intros W.
  - reflexivity.
  - cbn [concat map]. rewrite !app_nil_r.
    destruct (whole_records skip b b) as (rs & R1 & _); [split; [exact Hb|left; auto]|apply W; left; reflexivity|].
    unfold of_line. rewrite R1. reflexivity.
  - cbn [concat map].
    assert (B : body_of (b ++ [nl]) b) by (split; [exact Hb|right; reflexivity]).
    destruct (whole_records skip (b ++ [nl]) b B) as (rs & R1 & _ & _ & _ & R2); [apply W; left; reflexivity|].
    rewrite (end_line_body _ _ B) in R2. rewrite R2, IH by (intros; apply W; right; assumption). cbn [bind].
    unfold of_line at 2. rewrite R1. reflexivity.
Qed.

Lemma records_file skip t : (forall l, In l (lines t) -> whole l) ->
  records delim skip t = Ok (concat (map (of_line skip) (lines t))).
Proof. intros W. rewrite <- (records_concat skip (lines t) (lines_ok t) W), lines_concat. reflexivity. Qed.

Lemma of_line_one l : whole l -> exists r, of_line false l = [r].
Proof. intros (r & W). exists r. unfold of_line. rewrite W. reflexivity. Qed.

Definition the_record (l : text) : list text := hd [] (of_line false l).
Lemma of_line_map ls : (forall l, In l ls -> whole l) -> concat (map (of_line false) ls) = map the_record ls.
Proof.
  induction ls as [|l ls IH]; intros W; [reflexivity|]. cbn [map concat].
  rewrite IH by (intros; apply W; right; assumption).
  destruct (of_line_one l (W l (or_introl eq_refl))) as (r & E). unfold the_record at 2. rewrite E. reflexivity.
Qed.

Lemma nth_error_skipn {A} (l : list A) n i : nth_error (skipn n l) i = nth_error l (n + i).
Proof.
  revert l. induction n as [|n IH]; intros l; [reflexivity|]. destruct l; [destruct i; reflexivity|apply IH].
Qed.

Definition draws_ok (draws : nat -> rdraw) (k : nat) : Prop := forall t s r, draws t = DTake s r -> r < k.

(** With a header: the sample has the names of the file and, of its rows, as many as were asked for,
    each at most once. *)
Theorem C102_sample : forall draws t k h, draws_ok draws k -> 0 < k -> h < length (lines t) ->
  (forall l, In l (lines t) -> whole l) ->
  exists names rows some pos,
    read_csv_df delim draws t None (Some h) = Some (Ok (Some names, rows)) /\
    read_csv_df delim draws t (Some k) (Some h) = Some (Ok (Some names, some)) /\
    length some = Nat.min k (length rows) /\ NoDup pos /\
    Forall2 (fun q row => nth_error rows q = Some row) pos some.
Proof.
  intros draws t k h D K H W.
  destruct (nth_error (lines t) h) as [hl|] eqn:Eh; [|apply nth_error_None in Eh; lia].
  destruct (C02_reservoir_distinct_lines _ none_text draws (skipn (S h) (lines t)) k D K) as (out & pos & R & L & N & F).
  assert (IO : forall l, In l out -> In l (lines t)).
  { intros l I. clear - F I. induction F as [|q x pos out E F IH]; [destruct I|destruct I as [<-|I]; [|auto]].
    rewrite nth_error_skipn in E. eapply nth_error_In. exact E. }
  pose proof (nth_error_In _ _ Eh) as Ih.
  assert (Rf : records delim false t = Ok (map the_record (lines t))) by (rewrite records_file, of_line_map by exact W; reflexivity).
  exists (the_record hl), (map the_record (skipn (S h) (lines t))), (map the_record out), pos.
  split; [|split; [|split; [|split]]].
  - cbn [read_csv_df read]. rewrite Rf. cbn [bind]. rewrite nth_error_map, Eh. cbn [option_map].
    do 3 f_equal. apply skipn_map.
  - destruct k as [|k]; [lia|]. cbn [read_csv_df]. unfold rsample. rewrite Eh, R.
    cbn [read]. rewrite records_lines.
    + rewrite of_line_map by (intros l [<-|I]; auto). cbn [bind map nth_error skipn]. reflexivity.
    + intros l I. apply (file_lines_body (lines t) (lines_ok t)). destruct I as [<-|I]; auto.
    + intros l [<-|I]; auto.
  - rewrite !map_length. exact L.
  - exact N.
  - clear - F. induction F as [|q x pos out E F IH]; constructor; [|exact IH].
    rewrite nth_error_map, E. reflexivity.
Qed.

(** ... and all of them in order if there are no more than were asked for, whatever quotes there are
    in the lines after the header as long as the header is a record. *)
Lemma end_lines_concat ls : file_lines ls -> forall skip,
  records delim skip (concat (map end_line ls)) = records delim skip (concat ls) .
Proof.
  intros F skip. unfold records. generalize SStart, (@nil text), (@nil ascii), false, true.
  induction F as [|b Hb Nb|b ls Hb Hl IH]; intros s f c bg o.
  - reflexivity.
  - cbn [map concat]. rewrite !app_nil_r. rewrite (end_line_body b b) by (split; [exact Hb|left; auto]).
    symmetry. apply parse_last; auto.
  - cbn [map concat]. rewrite (end_line_body (b ++ [nl]) b) by (split; [exact Hb|right; reflexivity]).
    assert (G : forall b s f c bg o, parse delim skip s f c bg o (b ++ concat (map end_line ls)) = parse delim skip s f c bg o (b ++ concat ls)).
    { clear - IH. induction b as [|x b IHb]; intros s f c bg o; [apply IH|]. cbn [app parse].
      destruct s; destruct (is_nl x), (Ascii.eqb x delim), (Ascii.eqb x quote); rewrite ?IHb; reflexivity. }
    apply G.
Qed.

Lemma file_lines_skipn ls : file_lines ls -> forall n, file_lines (skipn n ls).
Proof.
  induction 1 as [|b Hb Nb|b ls Hb Hl IH]; intros [|n]; cbn; try (constructor; assumption); auto.
  destruct n; constructor.
Qed.

Theorem C102_small_file : forall draws t k, draws_ok draws k -> length (lines t) <= k -> 0 < k ->
  (forall header, header = None \/ header = Some 0 /\ lines t <> [] ->
     read_csv_df delim draws t (Some k) header = read_csv_df delim draws t None header).
Proof.
  intros draws t k D L K header [->|[-> N]].
  - destruct k as [|k]; [lia|]. cbn [read_csv_df]. unfold rsample.
    rewrite C02_reservoir_small_file by assumption. cbn [read].
    rewrite (end_lines_concat _ (lines_ok t)), lines_concat. reflexivity.
  - destruct k as [|k]; [lia|]. cbn [read_csv_df]. unfold rsample.
    destruct (lines t) as [|l ls] eqn:E; [congruence|]. cbn [nth_error skipn].
    rewrite C02_reservoir_small_file by (cbn in L; try assumption; lia). cbn [read].
    pose proof (end_lines_concat (lines t) (lines_ok t) false) as G. rewrite E in G. rewrite G, <- E, lines_concat. reflexivity.
Qed.

(** Without a header blank lines are left out of the table after they were drawn. *)
Lemma concat_pos (g : text -> list (list text)) ls : (forall l, In l ls -> length (g l) <= 1) ->
  forall q l r, nth_error ls q = Some l -> g l = [r] ->
  nth_error (concat (map g ls)) (length (concat (map g (firstn q ls)))) = Some r.
Proof.
  induction ls as [|x ls IH]; intros H [|q] l r E G; try discriminate E.
  - injection E as ->. cbn [firstn map concat length]. rewrite G. reflexivity.
  - cbn [firstn map concat]. rewrite app_length, nth_error_app2 by lia.
    replace (length (g x) + length (concat (map g (firstn q ls))) - length (g x)) with (length (concat (map g (firstn q ls)))) by lia.
    eapply IH; eauto. intros y I. apply H. right. exact I.
Qed.

Lemma firstn_S {A} (l : list A) q x : nth_error l q = Some x -> firstn (S q) l = firstn q l ++ [x].
Proof. revert q. induction l as [|y l IH]; intros [|q] E; try discriminate E; cbn in *; [congruence|]. rewrite (IH _ E). reflexivity. Qed.

Lemma pos_mono (g : text -> list (list text)) ls q q' l r : q < q' -> nth_error ls q = Some l -> g l = [r] ->
  length (concat (map g (firstn q ls))) < length (concat (map g (firstn q' ls))).
Proof.
  intros Q E G. assert (M : forall a b, a <= b -> length (concat (map g (firstn a ls))) <= length (concat (map g (firstn b ls)))).
  { intros a b Hab. replace (firstn a ls) with (firstn a (firstn b ls)) by (rewrite firstn_firstn; f_equal; lia).
    rewrite <- (firstn_skipn a (firstn b ls)) at 2. rewrite map_app, concat_app, app_length. lia. }
  specialize (M (S q) q' Q). rewrite (firstn_S _ _ _ E), map_app, concat_app, app_length in M. cbn in M.
  rewrite G in M. cbn in M. lia.
Qed.

Theorem C102_sample_no_header : forall draws t k, draws_ok draws k -> 0 < k ->
  (forall l, In l (lines t) -> whole l) ->
  exists rows some pos, records delim true t = Ok rows /\
    read_csv_df delim draws t (Some k) None = Some (match some with [] => Err ValueError | _ => Ok (None, some) end) /\
    read_csv_df delim draws t None None = Some (match rows with [] => Err ValueError | _ => Ok (None, rows) end) /\
    length some <= Nat.min k (length rows) /\ NoDup pos /\
    Forall2 (fun q row => nth_error rows q = Some row) pos some /\
    (length rows = length (lines t) -> length some = Nat.min k (length rows)).
Proof.
  intros draws t k D K W.
  destruct (C02_reservoir_distinct_lines _ none_text draws (lines t) k D K) as (out & pos & R & L & N & F).
  set (g := of_line true).
  assert (IO : forall l, In l out -> In l (lines t)).
  { intros l I. clear - F I. induction F as [|q x pos out E F IH]; [destruct I|destruct I as [<-|I]; [|auto]]. eapply nth_error_In. exact E. }
  assert (G1 : forall l, In l (lines t) -> length (g l) <= 1).
  { intros l I. destruct (file_lines_body _ (lines_ok t) l I) as (b & B).
    destruct (whole_records true l b B (W l I)) as (rs & R1 & _ & L1 & _). unfold g, of_line. rewrite R1. exact L1. }
  set (f := fun q => length (concat (map g (firstn q (lines t))))).
  exists (concat (map g (lines t))), (concat (map g out)).
  assert (Rf : records delim true t = Ok (concat (map g (lines t)))) by (apply records_file; exact W).
  assert (X : exists pos', NoDup pos' /\ (forall p, In p pos' -> exists q l r, In q pos /\ nth_error (lines t) q = Some l /\ g l = [r] /\ p = f q) /\
             Forall2 (fun q row => nth_error (concat (map g (lines t))) q = Some row) pos' (concat (map g out))).
  { clear L R. induction F as [|q x pos out E F IH]; [exists []; split; [constructor|split; [intros p []|constructor]]|].
    inversion N as [|? ? Nq Np]; subst.
    destruct (IH Np) as (pos' & A & B & C); [intros l I; apply IO; right; exact I|].
    pose proof (G1 x (nth_error_In _ _ E)) as Lx. cbn [map concat].
    destruct (g x) as [|r [|r2 rr]] eqn:Ex; [|  |cbn in Lx; lia].
    - exists pos'. split; [exact A|]. split; [|exact C]. intros p I. destruct (B p I) as (q2 & l2 & r2 & I2 & Z). exists q2, l2, r2. split; [right; exact I2|exact Z].
    - exists (f q :: pos'). split; [|split].
      + constructor; [|exact A]. intros I. destruct (B _ I) as (q2 & l2 & r2 & I2 & E2 & G2 & Z).
        assert (q <> q2) by (intros ->; contradiction). unfold f in Z.
        destruct (Nat.lt_ge_cases q q2) as [Q|Q].
        * pose proof (pos_mono g (lines t) q q2 x r Q E Ex). lia.
        * assert (q2 < q) as Q2 by lia. pose proof (pos_mono g (lines t) q2 q l2 r2 Q2 E2 G2). lia.
      + intros p [<-|I]; [exists q, x, r; split; [left; reflexivity|auto]|].
        destruct (B p I) as (q2 & l2 & r2 & I2 & Z). exists q2, l2, r2. split; [right; exact I2|exact Z].
      + cbn [app]. constructor; [|exact C]. eapply concat_pos; eassumption. }
  destruct X as (pos' & A & _ & C). exists pos'. split; [exact Rf|]. split; [|split; [|split; [|split; [exact A|split; [exact C|]]]]].
  - destruct k as [|k]; [lia|]. cbn [read_csv_df]. unfold rsample. rewrite R. cbn [read].
    rewrite records_lines.
    + cbn [bind]. fold g. reflexivity.
    + intros l I. apply (file_lines_body (lines t) (lines_ok t)). auto.
    + auto.
  - cbn [read_csv_df read]. rewrite Rf. reflexivity.
  - apply Nat.min_glb.
    + assert (length (concat (map g out)) <= length out); [|lia]. clear - G1 IO. induction out as [|x out IH]; [cbn; lia|].
      cbn [map concat]. rewrite app_length. pose proof (G1 x (IO x (or_introl eq_refl))).
      assert (length (concat (map g out)) <= length out) by (apply IH; intros l I; apply IO; right; exact I). cbn. lia.
    + assert (length pos' <= length (concat (map g (lines t)))).
      { rewrite <- (seq_length (length (concat (map g (lines t)))) 0). apply NoDup_incl_length; [exact A|].
        intros p I. apply in_seq. split; [lia|]. clear - C I. induction C as [|q row ps rs E C IH]; [destruct I|destruct I as [<-|I]; [|auto]].
        apply nth_error_Some. congruence. }
      apply Forall2_length in C. lia.
  - intros E. rewrite E. assert (Z : forall l, In l (lines t) -> length (g l) = 1).
    { clear - G1 E. induction (lines t) as [|x ls IH]; [intros l []|]. cbn [map concat length] in E. rewrite app_length in E.
      pose proof (G1 x (or_introl eq_refl)).
      assert (length (concat (map g ls)) <= length ls).
      { clear - G1. induction ls as [|y ls IH]; [cbn; lia|]. cbn [map concat]. rewrite app_length.
        pose proof (G1 y (or_intror (or_introl eq_refl))). cbn. enough (length (concat (map g ls)) <= length ls) by lia.
        apply IH. intros l [<-|I]; apply G1; [left; reflexivity|right; right; exact I]. }
      intros l [<-|I]; [lia|]. apply IH; [intros; apply G1; right; assumption|lia|exact I]. }
    rewrite <- L. clear - Z IO. induction out as [|x out IH]; [reflexivity|]. cbn [map concat length]. rewrite app_length.
    rewrite (Z x (IO x (or_introl eq_refl))), IH by (intros l I; apply IO; right; exact I). reflexivity.
Qed.

(** Whatever quotes there are: the text that is read has nothing but lines of the file, each at most
    once, and the line of the header first. *)
Theorem C102_lines : forall draws t k header, draws_ok draws k -> 0 < k ->
  match header with
  | None => exists out pos, rsample draws t k None = Some (Ok (concat (map end_line out), None)) /\
      length out = Nat.min k (length (lines t)) /\ NoDup pos /\
      Forall2 (fun q l => nth_error (lines t) q = Some l) pos out
  | Some h =>
      match nth_error (lines t) h with
      | None => rsample draws t k (Some h) = Some (Err GenericException)
      | Some hl => exists out pos, rsample draws t k (Some h) = Some (Ok (concat (map end_line (hl :: out)), Some 0)) /\
          length out = Nat.min k (length (lines t) - S h) /\ NoDup pos /\ (forall q, In q pos -> h < q) /\
          Forall2 (fun q l => nth_error (lines t) q = Some l) pos out
      end
  end.
Proof.
  intros draws t k [h|] D K.
  - destruct (nth_error (lines t) h) as [hl|] eqn:E.
    + destruct (C02_reservoir_distinct_lines _ none_text draws (skipn (S h) (lines t)) k D K) as (out & pos & R & L & N & F).
      exists out, (map (fun q => S h + q) pos). unfold rsample. rewrite E, R. split; [reflexivity|].
      split; [rewrite L, skipn_length; reflexivity|]. split; [|split].
      * clear - N. induction N as [|q pos Q N IH]; cbn [map]; constructor; [|exact IH].
        rewrite in_map_iff. intros (q2 & A & I). assert (q2 = q) by lia. subst. contradiction.
      * intros q I. apply in_map_iff in I. destruct I as (q2 & <- & _). lia.
      * clear - F. induction F as [|q x pos out Q F IH]; cbn [map]; constructor; [|exact IH]. rewrite <- nth_error_skipn. exact Q.
    + unfold rsample. rewrite E. reflexivity.
  - destruct (C02_reservoir_distinct_lines _ none_text draws (lines t) k D K) as (out & pos & R & L & N & F).
    exists out, pos. unfold rsample. rewrite R. auto.
Qed.

(** Asking for no rows reads them all *)
Theorem C102_zero_rows : forall draws t header,
  read_csv_df delim draws t (Some 0) header = read_csv_df delim draws t None header.
Proof. reflexivity. Qed.
End Csv.

(** ** What does not hold for CSV files *)
Definition tx (s : String.string) : text := String.list_ascii_of_string s.
Import String.StringSyntax.
Local Open Scope string_scope.
Definition lf : text := [nl].
(** Names: a; rows: "y LF z" in quotes, and x *)
Definition broken : text := tx "a" ++ lf ++ [quote] ++ tx "y" ++ lf ++ tx "z" ++ [quote] ++ lf ++ tx "x" ++ lf.

(** Rows of a sample are rows of the file: *)
Theorem C102_rows_refuted : exists draws t k names rows some, draws_ok draws k /\ 0 < k /\
  read_csv_df "," draws t None (Some 0) = Some (Ok (names, rows)) /\
  read_csv_df "," draws t (Some k) (Some 0) = Some (Ok (names, some)) /\
  exists r, In r some /\ ~ In r rows.
Proof.
  exists (fun t => match t with 0 => DTake 0 0 | _ => DStop end), broken, 1. eexists. eexists. eexists.
  split; [intros [|t] s r E; [injection E as <- <-; lia|discriminate E]|]. split; [lia|].
  split; [vm_compute; reflexivity|]. split; [vm_compute; reflexivity|].
  eexists. split; [left; reflexivity|]. cbn. intros [F|[F|[]]]; discriminate F.
Qed.

(** A file that can be read can be sampled: *)
Theorem C102_readable_refuted : exists draws t k names rows, draws_ok draws k /\ 0 < k /\
  read_csv_df "," draws t None (Some 0) = Some (Ok (names, rows)) /\
  read_csv_df "," draws t (Some k) (Some 0) = Some (Err ValueError).
Proof.
  exists (fun t => DStop), broken, 1. eexists. eexists.
  split; [intros t s r E; discriminate E|]. split; [lia|]. split; vm_compute; reflexivity.
Qed.

(** A sample has as many rows as were asked for if the file has them: *)
Theorem C102_count_refuted : exists draws t k rows some, draws_ok draws k /\
  read_csv_df "," draws t None None = Some (Ok (None, rows)) /\ k <= length rows /\
  read_csv_df "," draws t (Some k) None = Some (Ok (None, some)) /\ length some < k.
Proof.
  exists (fun t => DStop), (tx "x" ++ lf ++ lf ++ tx "y" ++ lf), 2. eexists. eexists.
  split; [intros t s r E; discriminate E|]. split; [vm_compute; reflexivity|]. split; [cbn; lia|].
  split; [vm_compute; reflexivity|]. cbn. lia.
Qed.

(** The names are those of the file: *)
Theorem C102_names_refuted : exists draws t k h n1 r1 n2 r2, draws_ok draws k /\ 0 < k /\
  read_csv_df "," draws t None (Some h) = Some (Ok (Some n1, r1)) /\
  read_csv_df "," draws t (Some k) (Some h) = Some (Ok (Some n2, r2)) /\ n1 <> n2.
Proof.
  exists (fun t => DStop), ([quote] ++ tx "t" ++ lf ++ tx "u" ++ [quote] ++ tx "v" ++ lf ++ tx "a,b" ++ lf ++ tx "1,2" ++ lf), 5, 1.
  eexists. eexists. eexists. eexists. split; [intros t s r E; discriminate E|]. split; [lia|].
  split; [vm_compute; reflexivity|]. split; [vm_compute; reflexivity|]. discriminate.
Qed.

(** ** Parquet *)
Section Parquet.
Variable R : Type.
Notation rd := (read_parquet R).

Lemma labelled_snd (l : list R) : map snd (labelled R l) = l.
Proof.
  unfold labelled. generalize 0. induction l as [|x l IH]; intros n; [reflexivity|]. cbn. rewrite IH. reflexivity.
Qed.
Lemma labelled_fst (l : list R) : map fst (labelled R l) = seq 0 (length l).
Proof.
  unfold labelled. generalize 0. induction l as [|x l IH]; intros n; [reflexivity|]. cbn. rewrite IH. reflexivity.
Qed.

Lemma read_all groups acc : fold_left (fun data g => data ++ labelled R g) groups acc = acc ++ concat (map (labelled R) groups).
Proof.
  revert acc. induction groups as [|g gs IH]; intros acc; cbn; [rewrite app_nil_r; reflexivity|].
  rewrite IH, app_assoc. reflexivity.
Qed.

(** Reading all: every row of every group, in order; each group has labels from 0. *)
Theorem C102_parquet : forall groups ids,
  map snd (rd groups None ids) = concat groups /\
  map fst (rd groups None ids) = concat (map (fun g => seq 0 (length g)) groups).
Proof.
  intros groups ids. unfold read_parquet. rewrite read_all. cbn [app].
  split.
  - rewrite concat_map, map_map. f_equal. rewrite <- (map_id groups) at 2. apply map_ext. intros g. apply labelled_snd.
  - rewrite concat_map, map_map. f_equal. apply map_ext. intros g. apply labelled_fst.
Qed.

Lemma labels_zero groups g : In g groups -> g <> [] -> In 0 (concat (map (fun g : list R => seq 0 (length g)) groups)).
Proof. intros I N. apply in_concat. exists (seq 0 (length g)). split; [apply (in_map (fun g => seq 0 (length g))); exact I|]. destruct g; [congruence|left; reflexivity]. Qed.

(** Labels are distinct if and only if at most one group has rows. *)
Theorem C102_parquet_labels : forall groups ids,
  NoDup (map fst (rd groups None ids)) <-> length (filter (fun g => negb (length g =? 0)) groups) <= 1.
Proof.
  intros groups ids. rewrite (proj2 (C102_parquet groups ids)). induction groups as [|g gs IH]; cbn [map concat filter].
  - cbn. split; [lia|constructor].
  - destruct g as [|x g]; [exact IH|].
    replace (negb (length (x :: g) =? 0)) with true by reflexivity. cbn [length seq app]. split.
    + intros N. inversion N as [|? ? Z _]; subst.
      assert (E : filter (fun g => negb (length g =? 0)) gs = []).
      { destruct (filter (fun g => negb (length g =? 0)) gs) as [|y l] eqn:E; [reflexivity|].
        exfalso. apply Z. apply in_or_app. right.
        assert (I : In y (filter (fun g => negb (length g =? 0)) gs)) by (rewrite E; left; reflexivity).
        apply filter_In in I. destruct I as [I M]. apply (labels_zero gs y I). intros ->. discriminate M. }
      rewrite E. cbn. lia.
    + intros L.
      assert (E : concat (map (fun g : list R => seq 0 (length g)) gs) = []).
      { destruct (filter (fun g => negb (length g =? 0)) gs) as [|y l] eqn:E; [|cbn in L; lia].
        clear - E. induction gs as [|z gs IH]; [reflexivity|]. cbn [filter] in E. destruct z as [|a z]; [exact (IH E)|discriminate E]. }
      rewrite E, app_nil_r. apply (seq_NoDup (S (length g)) 0).
Qed.

(** What random.sample gives: [k] distinct positions *)
Definition drawn (n k : nat) (ids : list nat) : Prop := NoDup ids /\ length ids = k /\ forall i, In i ids -> i < n.

Lemma masked_spec (p : nat -> bool) (l : list R) : forall s,
  Forall2 (fun i r => nth_error l (i - s) = Some r) (filter p (seq s (length l)))
    (masked R (map p (seq s (length l))) l).
Proof.
  unfold masked. induction l as [|x l IH]; intros s; [constructor|]. cbn [length seq map combine filter fst].
  assert (G : Forall2 (fun i r => nth_error (x :: l) (i - s) = Some r) (filter p (seq (S s) (length l)))
                (map snd (filter fst (combine (map p (seq (S s) (length l))) l)))).
  { assert (Z : forall i, In i (filter p (seq (S s) (length l))) -> S s <= i) by (intros i I; apply filter_In in I; destruct I as [I _]; apply in_seq in I; lia).
    specialize (IH (S s)). revert Z. induction IH as [|i r is rs E F IHF]; intros Z; constructor.
    - assert (S s <= i) by (apply Z; left; reflexivity). replace (i - s) with (S (i - S s)) by lia. exact E.
    - apply IHF. intros j J. apply Z. right. exact J. }
  destruct (p s); cbn [map snd]; [constructor; [rewrite Nat.sub_diag; reflexivity|exact G]|exact G].
Qed.

Lemma sorted_filter p l : StronglySorted lt l -> StronglySorted lt (filter p l).
Proof.
  induction 1 as [|x l S IH F]; cbn; [constructor|]. destruct (p x); [|exact IH]. constructor; [exact IH|].
  rewrite Forall_forall in *. intros y I. apply filter_In in I. apply F, I.
Qed.
Lemma sorted_seq n : forall s, StronglySorted lt (seq s n).
Proof.
  induction n as [|n IH]; intros s; cbn; constructor; [apply IH|]. apply Forall_forall. intros y I. apply in_seq in I. lia.
Qed.

Lemma mask_count n ids : NoDup ids -> (forall i, In i ids -> i < n) ->
  length (filter (fun i => existsb (Nat.eqb i) ids) (seq 0 n)) = length ids.
Proof.
  intros N H. apply Nat.le_antisymm; apply NoDup_incl_length.
  - apply NoDup_filter, seq_NoDup.
  - intros i I. apply filter_In in I. destruct I as [_ I]. apply existsb_exists in I. destruct I as (j & J & E).
    apply Nat.eqb_eq in E. subst. exact J.
  - exact N.
  - intros i I. apply filter_In. split; [apply in_seq; specialize (H i I); lia|]. apply existsb_exists. exists i. split; [exact I|apply Nat.eqb_refl].
Qed.

(** A sample: as many rows as asked for, or all; in the order of the file, numbered from 0. *)
Theorem C102_parquet_sample : forall groups k ids,
  (k < length (concat groups) -> drawn (length (concat groups)) k ids) ->
  exists pos, StronglySorted lt pos /\ length pos = Nat.min k (length (concat groups)) /\
    Forall2 (fun i r => nth_error (concat groups) i = Some r) pos (map snd (rd groups (Some k) ids)) /\
    map fst (rd groups (Some k) ids) = seq 0 (length pos) /\
    (k < length (concat groups) -> forall i, In i pos <-> In i ids).
Proof.
  intros groups k ids H. cbn [read_parquet]. unfold sample_parquet. rewrite labelled_snd, labelled_fst.
  set (rows := concat groups) in *. destruct (k <? length rows) eqn:E.
  - apply Nat.ltb_lt in E. destruct (H E) as (N & L & B).
    exists (filter (fun i => existsb (Nat.eqb i) ids) (seq 0 (length rows))).
    split; [apply sorted_filter, sorted_seq|]. split; [rewrite mask_count by assumption; lia|].
    pose proof (masked_spec (fun i => existsb (Nat.eqb i) ids) rows 0) as M. unfold mask_of.
    split; [|split].
    + revert M. generalize (filter (fun i => existsb (Nat.eqb i) ids) (seq 0 (length rows))). intros ps M.
      induction M as [|i r ps rs F M IH]; constructor; [|exact IH]. rewrite Nat.sub_0_r in F. exact F.
    + rewrite (Forall2_length _ _ _ M). reflexivity.
    + intros _ i. rewrite filter_In, in_seq, existsb_exists. split.
      * intros [_ (j & J & F)]. apply Nat.eqb_eq in F. subst. exact J.
      * intros I. specialize (B i I). split; [lia|]. exists i. split; [exact I|apply Nat.eqb_refl].
  - apply Nat.ltb_ge in E. exists (seq 0 (length rows)). split; [apply sorted_seq|]. split; [rewrite seq_length; lia|].
    assert (M : masked R (repeat true (length rows)) rows = rows).
    { unfold masked. clear. induction rows as [|x rows IH]; [reflexivity|]. cbn. rewrite IH. reflexivity. }
    rewrite M. split; [|split; [rewrite seq_length; reflexivity|lia]].
    clear. assert (G : forall pre, Forall2 (fun i r => nth_error (pre ++ rows) i = Some r) (seq (length pre) (length rows)) rows).
    { induction rows as [|x rows IH]; intros pre; [constructor|]. cbn [length seq]. constructor.
      - rewrite nth_error_app2, Nat.sub_diag by lia. reflexivity.
      - specialize (IH (pre ++ [x])). rewrite app_length, <- app_assoc in IH. cbn in IH. rewrite Nat.add_1_r in IH. exact IH. }
    exact (G []).
Qed.
End Parquet.

(** Rows of a Parquet file have distinct labels: *)
Theorem C102_labels_refuted : exists groups : list (list nat), ~ NoDup (map fst (read_parquet nat groups None [])).
Proof. exists [[5]; [6]]. rewrite C102_parquet_labels. cbn. lia. Qed.

(** ** Examples *)
Definition small : text := tx "a,b" ++ lf ++ tx "1,2" ++ lf ++ [quote] ++ tx "3,x" ++ [quote] ++ tx ",4" ++ lf ++ lf ++ tx "5,6".
Theorem C102_example :
  (forall l, In l (lines small) -> whole "," l) /\
  read_csv_df "," (fun _ => DStop) small None (Some 0) =
    Some (Ok (Some [tx "a"; tx "b"], [[tx "1"; tx "2"]; [tx "3,x"; tx "4"]; [[]]; [tx "5"; tx "6"]])) /\
  read_csv_df "," (fun t => match t with 0 => DTake 1 0 | _ => DStop end) small (Some 2) (Some 0) =
    Some (Ok (Some [tx "a"; tx "b"], [[tx "5"; tx "6"]; [tx "3,x"; tx "4"]])) /\
  read_csv_df "," (fun _ => DStop) small (Some 3) None =
    Some (Ok (None, [[tx "a"; tx "b"]; [tx "1"; tx "2"]; [tx "3,x"; tx "4"]])) /\
  read_parquet nat [[5; 6]; [7]] None [] = [(0, 5); (1, 6); (0, 7)] /\
  read_parquet nat [[5; 6]; [7]] (Some 2) [2; 0] = [(0, 5); (1, 7)] /\
  read_parquet nat [[5; 6]; [7]] (Some 4) [] = [(0, 5); (1, 6); (2, 7)].
Proof.
  split.
  - intros l I. vm_compute in I. repeat (destruct I as [<-|I]; [eexists; vm_compute; reflexivity|]). destruct I.
  - vm_compute. repeat split.
Qed.
