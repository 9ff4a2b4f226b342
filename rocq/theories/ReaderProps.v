(** Properties of making readers of data (C85), of the options of readers and of loading them anew (C86), and of the limit of
    downloads (C87). *)
From Coq Require Import ZArith QArith.
From Verif Require Import PyCommon PyDict PyString OptionsModel OptCheckModel JsonModel ReaderModel.
Local Open Scope nat_scope.
Local Open Scope string_scope.
Local Open Scope list_scope.

(** ** C85: which reader *)
Section Factory.
  Context {B D R : Type}.
  Variable is_url : string -> bool.
  Variable s3_bytes : string -> val -> result B.
  Variable url_bytes : string -> options -> result B.
  Variable is_match : kind -> option (input B) -> options -> result bool * options.
  Variable construct : kind -> option (input B) -> option D -> options -> result R.
  Notation make := (make is_url s3_bytes url_bytes is_match construct).
  Notation choose := (choose is_match construct).

  (** A file on this machine, or a buffer *)
  Definition local (i : input B) : Prop :=
    match i with IPath s => s <> "" /\ is_url s = false | IBuffer _ => True end.
  Definition no_type (t : option string) : Prop := t = None \/ t = Some "".

  (** Neither data nor a file, both, or data without a type: a ValueError, before anything is read. *)
  Theorem C85_arguments i (data : option D) t opts :
    (present i = false /\ data = None) \/ (present i = true /\ data <> None) \/ (data <> None /\ no_type t) ->
    make i data t opts = (Err ValueError, opts).
  Proof.
    intros H. unfold ReaderModel.make. destruct H as [[H1 H2] | [[H1 H2] | [H1 H2]]].
    - subst data. rewrite H1. reflexivity.
    - rewrite H1. destruct data; [reflexivity | contradiction].
    - destruct data as [d|]; [|contradiction]. cbn [some]. destruct (present i); [reflexivity|]. cbn [negb andb].
      destruct H2 as [-> | ->]; reflexivity.
  Qed.

  Lemma present_local i : local i -> present (Some i) = true.
  Proof.
    destruct i as [s|b]; cbn; [|reflexivity]. intros [H _]. destruct (String.eqb_spec s ""); [contradiction|reflexivity].
  Qed.

  Lemma make_local i t opts : local i -> make (Some i) None t opts = (choose data_classes (Some i) None t opts, opts).
  Proof.
    intros L. unfold ReaderModel.make. rewrite (present_local i L). cbn [some negb andb].
    destruct i as [s|b]; cbn [fetch]; [|reflexivity]. destruct L as [_ ->]. reflexivity.
  Qed.

  Lemma choose_spec ks i t opts r :
    choose ks i None t opts = Ok r <->
    exists pre k post o, ks = pre ++ k :: post /\
      (forall k', In k' pre -> fits t k' = false \/ exists o', is_match k' i opts = (Ok false, o')) /\
      fits t k = true /\ is_match k i opts = (Ok true, o) /\ construct k i None o = Ok r.
  Proof.
    induction ks as [|k ks IH]; cbn [ReaderModel.choose].
    { split; [discriminate|]. intros (pre & k & post & o & H & _). destruct pre; discriminate. }
    destruct (fits t k) eqn:F.
    - destruct (is_match k i opts) as [[[|]|e] o] eqn:M.
      + split.
        * intros H. exists [], k, ks, o. repeat split; auto. intros k' [].
        * intros (pre & k1 & post & o1 & E & H1 & F1 & M1 & C1). destruct pre as [|k0 pre]; cbn in E; injection E as -> ->.
          { rewrite M in M1. injection M1 as <-. exact C1. }
          { exfalso. destruct (H1 k0 (or_introl eq_refl)) as [H|[o' H]]; congruence. }
      + rewrite IH. split; intros (pre & k1 & post & o1 & E & H1 & F1 & M1 & C1).
        * exists (k :: pre), k1, post, o1. subst ks. repeat split; auto.
          intros k' [<-|H]; [right; eauto | apply H1, H].
        * destruct pre as [|k0 pre]; cbn in E; injection E as -> ->; [congruence|].
          exists pre, k1, post, o1. repeat split; auto. intros k' H. apply H1. right. exact H.
      + split; [discriminate|]. intros (pre & k1 & post & o1 & E & H1 & F1 & M1 & C1).
        destruct pre as [|k0 pre]; cbn in E; injection E as -> ->; [congruence|].
        exfalso. destruct (H1 k0 (or_introl eq_refl)) as [H|[o' H]]; congruence.
    - rewrite IH. split; intros (pre & k1 & post & o1 & E & H1 & F1 & M1 & C1).
      + exists (k :: pre), k1, post, o1. subst ks. repeat split; auto. intros k' [<-|H]; [left; exact F | apply H1, H].
      + destruct pre as [|k0 pre]; cbn in E; injection E as -> ->; [congruence|].
        exists pre, k1, post, o1. repeat split; auto. intros k' H. apply H1. right. exact H.
  Qed.

  (** A file without a type is read by the first of the classes JSON, graph, CSV, Parquet, AVRO, text that recognises it, with
      the options as that class left them. *)
  Theorem C85_first i t opts r : local i -> no_type t ->
    (fst (make (Some i) None t opts) = Ok r <->
     exists pre k post o, [KJson; KGraph; KCsv; KParquet; KAvro; KText] = pre ++ k :: post /\
       (forall k', In k' pre -> exists o', is_match k' (Some i) opts = (Ok false, o')) /\
       is_match k (Some i) opts = (Ok true, o) /\ construct k (Some i) None o = Ok r).
  Proof.
    intros L T. rewrite (make_local i t opts L). cbn [fst]. rewrite choose_spec.
    assert (F : forall k, fits t k = true) by (intros k; destruct T as [-> | ->]; reflexivity).
    split; intros (pre & k & post & o & E & H).
    - destruct H as (H1 & _ & H2 & H3). exists pre, k, post, o. repeat split; auto.
      intros k' I. destruct (H1 k' I) as [H|H]; [rewrite F in H; discriminate | exact H].
    - destruct H as (H1 & H2 & H3). exists pre, k, post, o. repeat split; auto.
  Qed.

  (** If a type is given, only its class is asked, and nothing else reads the file. *)
  Theorem C85_given i k s opts r : local i ->
    In (k, s) [(KJson, "json"); (KGraph, "graph"); (KCsv, "csv"); (KParquet, "parquet"); (KAvro, "avro"); (KText, "text")] ->
    (fst (make (Some i) None (Some s) opts) = Ok r <->
     exists o, is_match k (Some i) opts = (Ok true, o) /\ construct k (Some i) None o = Ok r) /\
    ((exists o, is_match k (Some i) opts = (Ok false, o)) -> fst (make (Some i) None (Some s) opts) = Err ValueError).
  Proof.
    intros L I. rewrite (make_local i (Some s) opts L). cbn [fst].
    assert (C : choose data_classes (Some i) None (Some s) opts =
                match is_match k (Some i) opts with
                | (Err e, _) => Err e | (Ok true, o) => construct k (Some i) None o | (Ok false, _) => Err ValueError end).
    { cbn [In] in I. repeat (destruct I as [I|I]; [injection I as <- <-; cbn; destruct (is_match _ (Some i) opts) as [[[|]|] ?]; reflexivity|]).
      destruct I. }
    rewrite C. destruct (is_match k (Some i) opts) as [[[|]|e] o] eqn:M.
    - split; [|intros [o' H]; discriminate]. split; [intros H; exists o; auto | intros (o' & H & H'); injection H as <-; exact H'].
    - split; [|reflexivity]. split; [discriminate | intros (o' & H & _); discriminate].
    - split; [|intros [o' H]; discriminate]. split; [discriminate | intros (o' & H & _); discriminate].
  Qed.

  (** Any other type, also in capitals, gives no reader. *)
  Theorem C85_unknown i (data : option D) s opts r :
    ~ In s ["json"; "graph"; "csv"; "parquet"; "avro"; "text"; ""] -> fst (make i data (Some s) opts) <> Ok r.
  Proof.
    intros N. cbn [In] in N.
    assert (F : forall k, fits (Some s) k = false).
    { intros k. cbn [fits]. destruct (String.eqb_spec s ""); [subst; tauto|]. cbn [orb].
      destruct (String.eqb_spec s (type_name k)) as [E|E]; [|reflexivity]. destruct k; cbn in E; subst; tauto. }
    assert (C : forall ks i1 opts1, choose ks i1 data (Some s) opts1 = Err ValueError).
    { induction ks as [|k ks IH]; intros i1 opts1; cbn [ReaderModel.choose]; [reflexivity|]. rewrite F. apply IH. }
    unfold ReaderModel.make. destruct (negb (present i) && negb (some data))%bool; [discriminate|].
    destruct (present i && some data)%bool; [discriminate|].
    match goal with |- context [if ?b then _ else _] => destruct b; [discriminate|] end.
    destruct (fetch is_url s3_bytes url_bytes i opts) as [[i1|e] opts1]; cbn [fst]; [|discriminate]. rewrite C. discriminate.
  Qed.

  (** Data in memory with a type goes to the class of that type; no file is looked at. *)
  Theorem C85_data k s (d : D) opts :
    In (k, s) [(KJson, "json"); (KGraph, "graph"); (KCsv, "csv"); (KParquet, "parquet"); (KAvro, "avro"); (KText, "text")] ->
    make None (Some d) (Some s) opts = (construct k None (Some d) opts, opts).
  Proof.
    intros I. cbn [In] in I. repeat (destruct I as [I|I]; [injection I as <- <-; reflexivity|]). destruct I.
  Qed.

  (** Every file is read by some class, if text takes all and no test fails with an error. *)
  Theorem C85_always i t opts :
    local i -> no_type t -> (forall k, exists b o, is_match k (Some i) opts = (Ok b, o)) ->
    (exists o, is_match KText (Some i) opts = (Ok true, o)) ->
    exists k o, is_match k (Some i) opts = (Ok true, o) /\ make (Some i) None t opts = (construct k (Some i) None o, opts).
  Proof.
    intros L T A [o0 M]. rewrite (make_local i t opts L).
    assert (F : forall k, fits t k = true) by (intros k; destruct T as [-> | ->]; reflexivity).
    unfold data_classes. cbn [ReaderModel.choose]. rewrite !F.
    destruct (A KJson) as ([|] & o1 & E1); rewrite E1; [exists KJson, o1; auto|].
    destruct (A KGraph) as ([|] & o2 & E2); rewrite E2; [exists KGraph, o2; auto|].
    destruct (A KCsv) as ([|] & o3 & E3); rewrite E3; [exists KCsv, o3; auto|].
    destruct (A KParquet) as ([|] & o4 & E4); rewrite E4; [exists KParquet, o4; auto|].
    destruct (A KAvro) as ([|] & o5 & E5); rewrite E5; [exists KAvro, o5; auto|].
    rewrite M. exists KText, o0. auto.
  Qed.

  (** The dictionary of options of the user is left as it was, but for the storage options with addresses of S3. *)
  Theorem C85_kept i (data : option D) t opts :
    snd (make i data t opts) = opts \/
    exists s, i = Some (IPath s) /\ is_url s = true /\ is_s3_uri s = true /\ snd (make i data t opts) = ddel opts "storage_options".
  Proof.
    unfold ReaderModel.make. destruct (negb (present i) && negb (some data))%bool; [left; reflexivity|].
    destruct (present i && some data)%bool; [left; reflexivity|].
    match goal with |- context [if ?b then _ else _] => destruct b; [left; reflexivity|] end.
    destruct i as [[s|b]|]; cbn [fetch]; [|left; reflexivity..].
    destruct (is_url s) eqn:U; [|left; reflexivity]. destruct (is_s3_uri s) eqn:S3; [|left; reflexivity].
    right. exists s. auto.
  Qed.

  (** What is read from an address is read as a buffer with its content would be. *)
  Theorem C85_remote s b t opts : s <> "" -> is_url s = true -> is_s3_uri s = false -> url_bytes s opts = Ok b ->
    make (Some (IPath s)) None t opts = make (Some (IBuffer b)) None t opts.
  Proof.
    intros N U S3 E. unfold ReaderModel.make. cbn [present some negb andb fetch]. destruct (String.eqb_spec s ""); [contradiction|].
    cbn [negb andb]. rewrite U, S3, E. reflexivity.
  Qed.
  Theorem C85_s3 s b t opts : s <> "" -> is_url s = true -> is_s3_uri s = true ->
    s3_bytes s (match dget opts "storage_options" with Some v => v | None => VDict [] end) = Ok b ->
    make (Some (IPath s)) None t opts = make (Some (IBuffer b)) None t (ddel opts "storage_options").
  Proof.
    intros N U S3 E. unfold ReaderModel.make. cbn [present some negb andb fetch]. destruct (String.eqb_spec s ""); [contradiction|].
    cbn [negb andb]. rewrite U, S3, E. reflexivity.
  Qed.
  (** Addresses of S3: s3:// or s3a://, after blanks. *)
  Theorem C85_prefix a rest : In a ["s3://"; "s3a://"; "  s3://"] -> is_s3_uri (String.append a rest) = true.
  Proof. cbn [In]. intros [<-|[<-|[<-|[]]]]; unfold is_s3_uri; cbn; destruct rest; reflexivity. Qed.
End Factory.

(** Finding: the storage options are taken out of the dictionary of the user; the same call with the same dictionary fails the
    second time. *)
Theorem C85_pop_refuted : exists (s3_bytes : string -> val -> result nat) (opts : options),
  let make opts := make (fun _ => true) s3_bytes (fun _ _ => Err ValueError) (fun _ _ o => (Ok true, o))
                        (fun k _ (_ : option nat) _ => Ok k) (Some (IPath "s3://bucket/key")) None None opts in
  fst (make opts) = Ok KJson /\ fst (make (snd (make opts))) = Err RuntimeErr.
Proof.
  exists (fun _ v => match v with VDict (_ :: _) => Ok 7 | _ => Err RuntimeErr end),
    [("storage_options", VDict [(VStr "region_name", VStr "us-east-1")])]. vm_compute. auto.
Qed.

(** Finding: an error in the test of one class stops the search, also if a later class reads the file. *)
Theorem C85_stops_refuted : exists is_match : kind -> option (input nat) -> options -> result bool * options,
  (forall i o, is_match KText i o = (Ok true, o)) /\
  fst (make (fun _ => false) (fun _ _ => Ok 0) (fun _ _ => Ok 0) is_match (fun k _ (_ : option nat) _ => Ok k)
         (Some (IPath "file.txt")) None None []) = Err ValueError.
Proof.
  exists (fun k _ o => (match k with KText => Ok true | KCsv => Err ValueError | _ => Ok false end, o)). split; reflexivity.
Qed.

Example C85_example :
  let is_match := fun k (_ : option (input nat)) o =>
    match k with KCsv => (Ok true, dset o "delimiter" (VStr ",")) | KText => (Ok true, o) | _ => (Ok false, dset o "encoding" (VStr "utf-8")) end in
  let make := make (fun _ => false) (fun _ _ => Ok 0) (fun _ _ => Ok 0) is_match (fun k _ (d : option nat) o => Ok (k, d, o)) in
  make (Some (IPath "a.csv")) None None [("x", VInt 1)] = (Ok (KCsv, None, [("x", VInt 1); ("delimiter", VStr ",")]), [("x", VInt 1)]) /\
  make (Some (IPath "a.csv")) None (Some "text") [] = (Ok (KText, None, []), []) /\
  make (Some (IPath "a.csv")) None (Some "CSV") [] = (Err ValueError, []) /\
  make None (Some 5) (Some "json") [] = (Ok (KJson, Some 5, []), []) /\
  make None (Some 5) None [] = (Err ValueError, []) /\ make (Some (IPath "")) None None [] = (Err ValueError, []).
Proof. vm_compute. auto 10. Qed.

(** ** C86: options of readers *)
Definition whole (v : val) (z : Z) : Prop :=
  v = VInt z \/ (v = VBool true /\ z = 1%Z) \/ (v = VBool false /\ z = 0%Z) \/ exists n, v = VFlag n /\ z = Z.of_nat n.
Lemma as_int_whole v z : as_int v = Some z <-> whole v z.
Proof.
  unfold whole. destruct v as [|b|n|q|s|n|n|l|d|n]; cbn; split; intros H;
    try discriminate; try (destruct H as [H|[[H H']|[[H H']|[m [H H']]]]]; try discriminate).
  - destruct b; injection H as <-; auto.
  - injection H as ->. subst. reflexivity.
  - injection H as ->. subst. reflexivity.
  - injection H as <-. auto.
  - injection H as <-. reflexivity.
  - injection H as <-. eauto 7.
  - injection H as <-. subst. reflexivity.
Qed.

Lemma at_least v least : match as_int v with Some z => (z <? least)%Z | None => true end = false <-> exists z, whole v z /\ (least <= z)%Z.
Proof.
  destruct (as_int v) as [z|] eqn:E.
  - rewrite Z.ltb_ge. split; intros H; [exists z; rewrite <- as_int_whole; auto|]. destruct H as (z' & W & H).
    apply as_int_whole in W. rewrite E in W. injection W as ->. exact H.
  - split; [discriminate|]. intros (z & W & _). apply as_int_whole in W. congruence.
Qed.

(** Which options pass *)
Theorem C86_exact opts :
  check_csv opts = None <->
  (forall v, dget opts "header" = Some v -> v = VStr "auto" \/ v = VNone \/ exists z, whole v z /\ (0 <= z)%Z) /\
  (forall v, dget opts "delimiter" = Some v -> v = VNone \/ exists s, v = VStr s) /\
  (forall v, dget opts "data_format" = Some v -> v = VStr "dataframe" \/ v = VStr "records") /\
  (forall v, dget opts "selected_columns" = Some v -> exists names, v = VList (map VStr names)) /\
  (forall v, dget opts "record_samples_per_line" = Some v -> exists z, whole v z /\ (0 <= z)%Z) /\
  (forall v, dget opts "sample_nrows" = Some v -> exists z, whole v z /\ (0 <= z)%Z).
Proof.
  unfold check_csv.
  assert (E : existsb (fun n => match dget opts n with Some v => bad_option n v | None => false end) checked_names = false <->
              forall n, In n checked_names -> forall v, dget opts n = Some v -> bad_option n v = false).
  { induction checked_names as [|n ns IH]; cbn [existsb In]; [split; [intros _ ? []|reflexivity]|].
    rewrite orb_false_iff, IH. split.
    - intros [H1 H2] m [<-|I] v G; [rewrite G in H1; exact H1 | apply (H2 m I v G)].
    - intros H. split; [|intros m I; apply H; right; exact I]. destruct (dget opts n) as [v|] eqn:G; [|reflexivity].
      apply (H n (or_introl eq_refl) v G). }
  transitivity (forall n, In n checked_names -> forall v, dget opts n = Some v -> bad_option n v = false).
  { rewrite <- E. match goal with |- context [existsb ?f ?l] => destruct (existsb f l) end; split; congruence. }
  clear E.
  assert (Hh : forall v, bad_option "header" v = false <-> v = VStr "auto" \/ v = VNone \/ exists z, whole v z /\ (0 <= z)%Z).
  { intros v. unfold bad_option. cbn [String.eqb Ascii.eqb Bool.eqb].
    assert (A : match as_int v with Some z => (z <=? -1)%Z | None => true end = false <-> exists z, whole v z /\ (0 <= z)%Z).
    { rewrite <- (at_least v 0). destruct (as_int v) as [z|]; [|reflexivity]. rewrite Z.leb_gt, Z.ltb_ge. lia. }
    destruct v as [|b|n|q|s|n|n|l|d|n]; try (rewrite A; split; [auto | intros [H|[H|H]]; [discriminate H|discriminate H|exact H]]).
    - split; auto.
    - destruct (String.eqb_spec s "auto") as [->|N]; cbn [negb]; split; intros H; auto; try discriminate.
      exfalso. destruct H as [H|[H|(z & [H|[[H _]|[[H _]|[n [H _]]]]] & _)]]; try discriminate. injection H as ->. apply N. reflexivity. }
  assert (Hd : forall v, bad_option "delimiter" v = false <-> v = VNone \/ exists s, v = VStr s).
  { intros v. unfold bad_option. cbn [String.eqb Ascii.eqb Bool.eqb].
    destruct v as [|b|n|q|s|n|n|l|d|n]; cbn; split; intros H; auto; try discriminate; try (destruct H as [H|H]; [discriminate | destruct H; discriminate]). eauto. }
  assert (Hf : forall v, bad_option "data_format" v = false <-> v = VStr "dataframe" \/ v = VStr "records").
  { intros v. unfold bad_option. cbn [String.eqb Ascii.eqb Bool.eqb].
    destruct v as [|b|n|q|s|n|n|l|d|n]; split; intros H; try discriminate; try (destruct H as [H|H]; discriminate).
    - apply negb_false_iff, lmem_In in H. cbn [In] in H. destruct H as [<-|[<-|[]]]; auto.
    - apply negb_false_iff, lmem_In. cbn [In]. destruct H as [H|H]; injection H as <-; auto. }
  assert (Hc : forall v, bad_option "selected_columns" v = false <-> exists names, v = VList (map VStr names)).
  { intros v. unfold bad_option. cbn [String.eqb Ascii.eqb Bool.eqb].
    destruct v as [|b|n|q|s|n|n|l|d|n]; split; intros H; try discriminate; try (destruct H; discriminate).
    - apply negb_false_iff in H. induction l as [|x l IH]; [exists []; reflexivity|]. cbn [forallb] in H.
      apply andb_true_iff in H. destruct H as [H1 H2]. destruct (IH H2) as [names E]. injection E as ->.
      destruct x; try discriminate. exists (s :: names). reflexivity.
    - apply negb_false_iff. destruct H as [names H]. injection H as ->. induction names; cbn; auto. }
  assert (Hr : forall n v, n = "record_samples_per_line" \/ n = "sample_nrows" ->
               (bad_option n v = false <-> exists z, whole v z /\ (0 <= z)%Z)).
  { intros n v [-> | ->]; unfold bad_option; cbn [String.eqb Ascii.eqb Bool.eqb orb]; apply at_least. }
  unfold checked_names. cbn [In]. split.
  - intros H. repeat split; intros v G.
    + apply Hh, H; auto.
    + apply Hd, H; auto.
    + apply Hf, H; auto.
    + apply Hc, H; auto.
    + apply (Hr "record_samples_per_line" v); [auto | apply H; auto 10].
    + apply (Hr "sample_nrows" v); [auto | apply H; auto 10].
  - intros (H1 & H2 & H3 & H4 & H5 & H6) n I v G.
    destruct I as [<-|[<-|[<-|[<-|[<-|[<-|[]]]]]]].
    + apply Hh, H1, G.
    + apply Hd, H2, G.
    + apply Hf, H3, G.
    + apply Hc, H4, G.
    + apply (Hr _ v); [auto | apply H5, G].
    + apply (Hr _ v); [auto | apply H6, G].
Qed.

Section Csv.
  Context {B T : Type}.
  Variable guess : string -> val * val.
  Variable guess_header : string -> val -> val -> val.
  Variable is_match : option (input B) -> options -> result bool * options.
  Notation new_csv := (@new_csv B T guess guess_header).
  Notation reload := (@reload B T guess guess_header is_match).

  (** A reader of a file has what the options say, and the documented defaults for the others. *)
  Theorem C86_file i opts : check_csv opts = None ->
    exists c, new_csv i None opts = Ok c /\ c_path c = i /\ c_options c = opts /\
      forall n v,
        In (n, v) [("header", c_header c); ("delimiter", c_delimiter c); ("quotechar", c_quote c); ("data_format", c_format c);
                   ("selected_columns", c_columns c); ("record_samples_per_line", c_per_line c); ("sample_nrows", c_nrows c)] ->
        match dget opts n with
        | Some w => v = w
        | None => In (n, v) [("header", VStr "auto"); ("delimiter", VNone); ("quotechar", VNone); ("data_format", VStr "dataframe");
                             ("selected_columns", VList []); ("record_samples_per_line", VInt 1); ("sample_nrows", VNone)]
        end.
  Proof.
    intros C. unfold ReaderModel.new_csv. rewrite C. eexists. split; [reflexivity|]. split; [reflexivity|]. split; [reflexivity|].
    intros n v I. cbn [In c_header c_delimiter c_quote c_format c_columns c_per_line c_nrows] in I.
    repeat (destruct I as [I|I]; [injection I as <- <-; unfold get_or;
      match goal with |- context [dget opts ?m] => destruct (dget opts m); [reflexivity | cbn [In]; auto 10] end|]).
    destruct I.
  Qed.
  Theorem C86_bad i data opts : check_csv opts <> None -> new_csv i data opts = Err ValueError.
  Proof.
    intros C. unfold ReaderModel.new_csv. destruct (check_csv opts) as [e|] eqn:E; [|contradiction].
    unfold check_csv in E. destruct (existsb _ _); [injection E as <-; reflexivity | discriminate].
  Qed.

  (** A table in memory: comma and double quote, unless others are given. *)
  Theorem C86_table i t opts : check_csv opts = None ->
    exists c, new_csv i (Some (MTable t)) opts = Ok c /\ c_loaded c = true /\
      (c_delimiter c = VStr "," \/ exists v, dget opts "delimiter" = Some v /\ c_delimiter c = v /\ truthy v = true) /\
      (c_quote c = VStr """" \/ exists v, dget opts "quotechar" = Some v /\ c_quote c = v /\ truthy v = true) /\
      (forall v, dget opts "delimiter" = Some v -> truthy v = true -> c_delimiter c = v) /\
      (forall v, dget opts "quotechar" = Some v -> truthy v = true -> c_quote c = v).
  Proof.
    intros C. unfold ReaderModel.new_csv. rewrite C. eexists. split; [reflexivity|]. cbn [c_loaded c_delimiter c_quote].
    unfold get_or, or_else. split; [reflexivity|].
    destruct (dget opts "delimiter") as [d|], (dget opts "quotechar") as [q|]; cbn [truthy];
      try destruct (truthy d) eqn:Td; try destruct (truthy q) eqn:Tq; repeat split; eauto 7; intros v H Hv; congruence.
  Qed.

  (** Loading anew without a test that changes options: header, delimiter and quote stay those of the reader, whatever the options
      say; everything else is as of a new reader with these options. *)
  Theorem C86_reload c i opts c' o' :
    (forall j o, snd (is_match j o) = o) -> reload c i None opts = (Ok c', o') ->
    c_header c' = c_header c /\ c_delimiter c' = c_delimiter c /\ c_quote c' = c_quote c /\
    c_format c' = get_or opts "data_format" (VStr "dataframe") /\ c_columns c' = get_or opts "selected_columns" (VList []) /\
    c_per_line c' = get_or opts "record_samples_per_line" (VInt 1) /\ c_nrows c' = get_or opts "sample_nrows" VNone /\
    c_path c' = (if present i then i else c_path c) /\ c_loaded c' = false.
  Proof.
    intros HM. unfold ReaderModel.reload.
    set (o := dset (dset (dset opts "header" (c_header c)) "delimiter" (c_delimiter c)) "quotechar" (c_quote c)).
    assert (Go : forall n, dget o n = if PyDict.eqb "quotechar" n then Some (c_quote c) else
                          if PyDict.eqb "delimiter" n then Some (c_delimiter c) else
                          if PyDict.eqb "header" n then Some (c_header c) else dget opts n).
    { intros n. unfold o. rewrite !dget_dset. reflexivity. }
    assert (N : forall j c1, new_csv j None o = Ok c1 ->
      c_header c1 = c_header c /\ c_delimiter c1 = c_delimiter c /\ c_quote c1 = c_quote c /\
      c_format c1 = get_or opts "data_format" (VStr "dataframe") /\ c_columns c1 = get_or opts "selected_columns" (VList []) /\
      c_per_line c1 = get_or opts "record_samples_per_line" (VInt 1) /\ c_nrows c1 = get_or opts "sample_nrows" VNone /\
      c_path c1 = j /\ c_loaded c1 = false).
    { intros j c1 H. unfold ReaderModel.new_csv in H. destruct (check_csv o); [discriminate|].
      apply (f_equal (fun r => match r with Ok x => x | Err _ => c1 end)) in H. subst c1.
      cbn [c_header c_delimiter c_quote c_format c_columns c_per_line c_nrows c_path c_loaded]. unfold get_or. rewrite !Go. cbn.
      auto 10. }
    destruct (present i).
    - destruct (is_match i o) as [[[|]|e] o1] eqn:M; try (intros H; discriminate). intros H. injection H as H _.
      assert (o1 = o) by (specialize (HM i o); rewrite M in HM; exact HM). subst o1. apply (N _ _ H).
    - intros H. injection H as H _. apply (N _ _ H).
  Qed.

  (** A file that is not recognised is refused; otherwise the reader is one of the new file. *)
  Theorem C86_refuse c i data opts : present i = true ->
    (forall o, exists o1, is_match i o = (Ok false, o1)) -> exists o', reload c i data opts = (Err ValueError, o').
  Proof.
    intros P H. unfold ReaderModel.reload. rewrite P. match goal with |- context [is_match i ?o] => destruct (H o) as [o1 ->] end. eauto.
  Qed.
End Csv.

(** Finding: the documentation of loading anew says that the options are replaced by those given; those for header, delimiter and
    quote are not: a file is read with the delimiter of the one before, though another is given; and the dictionary given is
    changed. *)
Theorem C86_reload_refuted : exists (c c' : csv nat) opts opts',
  check_csv opts = None /\ dget opts "delimiter" = Some (VStr ";") /\
  reload (T:=nat) (fun _ => (VNone, VNone)) (fun _ _ _ => VNone) (fun _ o => (Ok true, o)) c (Some (IPath "b.csv")) None opts = (Ok c', opts') /\
  c_delimiter c' = VStr "," /\ dget opts' "delimiter" = Some (VStr ",").
Proof.
  exists (mkCsv (Some (IPath "a.csv")) true [] (VInt 0) (VStr ",") (VStr """") true (VStr "dataframe") (VList []) (VInt 1) VNone).
  eexists. exists [("delimiter", VStr ";")]. eexists. split; [reflexivity|]. split; [reflexivity|]. split; [reflexivity|]. split; reflexivity.
Qed.

(** Finding: no samples per line pass the check, whose message asks for more than 0, and then no records can be had; truth values
    pass for numbers, so that True is the header in row 1. *)
Theorem C86_zero_refuted :
  check_csv [("record_samples_per_line", VInt 0)] = None /\
  (forall (A : Type) (newline : list A) lines, records newline 0 lines = Err ZeroDivisionError) /\
  check_csv [("header", VBool true); ("sample_nrows", VBool false)] = None.
Proof.
  split; [reflexivity|]. split; [|reflexivity]. intros A newline lines. unfold records, record_lines. cbn [Z.to_nat].
  rewrite Nat.min_0_r. reflexivity.
Qed.

(** *** Formats *)
(** A format can be set exactly if it is one of those of the reader, in any case; it is then the one the data is given in, and
    otherwise nothing changes. *)
Theorem C86_format k selected value :
  let allowed := match k with
                 | KCsv => ["dataframe"; "records"] | KParquet => ["dataframe"; "records"; "json"]
                 | KJson | KAvro => ["dataframe"; "records"; "json"; "flattened_dataframe"] | KText => ["text"] | KGraph => [] end in
  (In (lower_string value) allowed ->
   set_format k selected value = (VStr (lower_string value), None) /\ conversion k (VStr (lower_string value)) = Ok (Some (lower_string value))) /\
  (~ In (lower_string value) allowed -> set_format k selected value = (selected, Some ValueError)).
Proof.
  intros allowed. assert (E : formats k = allowed) by (destruct k; reflexivity). unfold set_format, conversion. rewrite E. split; intros I.
  - assert (M : lmem allowed (lower_string value) = true) by (apply lmem_In; exact I).
    split; [rewrite M; reflexivity|]. cbn [truthy].
    destruct (String.eqb_spec (lower_string value) "") as [Z|Z].
    + exfalso. rewrite Z in I. destruct k; cbn in I; intuition discriminate.
    + cbn [negb]. rewrite M. reflexivity.
  - assert (M : lmem allowed (lower_string value) = false) by (apply lmem_false; exact I). rewrite M. reflexivity.
Qed.
(** The format a reader starts with: it works if no other is given; whether it is structured. *)
Theorem C86_start k opts : dget opts "data_format" = None ->
  conversion k (first_format k opts) =
    Ok (match k with KCsv | KParquet => Some "dataframe" | KJson | KAvro => Some "flattened_dataframe" | KText => Some "text" | KGraph => None end) /\
  (k <> KGraph -> is_structured k (first_format k opts) = Ok (match k with KText => false | _ => true end)).
Proof. intros H. unfold first_format. destruct k; rewrite ?H; split; try reflexivity. contradiction. Qed.
(** Findings: formats that do not exist pass for readers other than CSV and fail only when the data is asked for; a graph cannot
    be asked whether it is structured. *)
Theorem C86_late_refuted : forall k, In k [KJson; KAvro; KParquet; KText] ->
  conversion k (first_format k [("data_format", VStr "Dataframe")]) = Err ValueError.
Proof. cbn [In]. intros k [<-|[<-|[<-|[<-|[]]]]]; reflexivity. Qed.
Theorem C86_graph_refuted : forall selected, is_structured KGraph selected = Err NotImplementedErr.
Proof. reflexivity. Qed.

(** An encoding can be set exactly if it is one of four, in any case, and is kept as written. *)
Theorem C86_encoding k current value : In k [KJson; KGraph; KCsv; KText] ->
  (forall s, value = Some s -> In (lower_string s) ["ascii"; "utf-8"; "utf-16"; "utf-32"] -> set_encoding k current value = (Some s, None)) /\
  ((value = None \/ exists s, value = Some s /\ ~ In (lower_string s) ["ascii"; "utf-8"; "utf-16"; "utf-32"]) ->
   set_encoding k current value = (current, Some ValueError)).
Proof.
  intros K. split.
  - intros s -> I. apply lmem_In in I. cbn [In] in K. destruct K as [<-|[<-|[<-|[<-|[]]]]]; unfold set_encoding; rewrite I; reflexivity.
  - intros [-> | [s [-> I]]].
    + cbn [In] in K. destruct K as [<-|[<-|[<-|[<-|[]]]]]; reflexivity.
    + apply lmem_false in I. cbn [In] in K. destruct K as [<-|[<-|[<-|[<-|[]]]]]; unfold set_encoding; rewrite I; reflexivity.
Qed.

Example C86_example :
  let new := new_csv (B:=nat) (T:=nat) (fun _ => (VStr ";", VStr "'")) (fun _ _ _ => VInt 2) in
  (match new None (Some (MText "a;b")) [("sample_nrows", VInt 3)] with
   | Ok c => (c_header c, c_delimiter c, c_quote c, c_nrows c, c_checked c) | Err _ => (VNone, VNone, VNone, VNone, true) end)
  = (VInt 2, VStr ";", VStr "'", VInt 3, false) /\
  new None (Some (MText "a;b")) [("sample_nrows", VInt (-1))] = Err ValueError /\
  new None (Some MOther) [] = Err ValueError /\
  check_csv [("selected_columns", VList [VStr "a"; VInt 1])] = Some ValueError /\
  set_format KJson (VStr "json") "DataFrame" = (VStr "dataframe", None) /\
  set_encoding KCsv None (Some "latin-1") = (None, Some ValueError) /\
  records [0] 2 [[1]; [2]; [3]] = Ok [[1; 0; 2]; [3]].
Proof. vm_compute. auto 10. Qed.

(** ** C87: downloads *)
Definition full {A} (c : list A) : Prop := length c = Z.to_nat 8192.
Lemma take_spec {A} (chunks : list (list A)) : forall total stream,
  take_chunks total stream chunks =
  if (limit <? total + 8192 * Z.of_nat (length chunks))%Z && negb (match chunks with [] => true | _ => false end)
  then Err ValueError else Ok (stream ++ concat chunks).
Proof.
  induction chunks as [|c chunks IH]; intros total stream; cbn [take_chunks length concat].
  - rewrite andb_false_r, app_nil_r. reflexivity.
  - rewrite IH. cbn [negb]. rewrite andb_true_r. rewrite Nat2Z.inj_succ.
    destruct (limit <? total + 8192)%Z eqn:E.
    + apply Z.ltb_lt in E. destruct (Z.ltb_spec limit (total + 8192 * Z.succ (Z.of_nat (length chunks)))); [reflexivity|]. lia.
    + apply Z.ltb_ge in E. rewrite <- app_assoc.
      replace (total + 8192 + 8192 * Z.of_nat (length chunks))%Z with (total + 8192 * Z.succ (Z.of_nat (length chunks)))%Z by lia.
      destruct chunks as [|c1 chunks].
      * cbn [negb]. rewrite andb_false_r. destruct (Z.ltb_spec limit (total + 8192 * Z.succ (Z.of_nat (@length (list A) []))))%Z;
          [cbn in *; lia | reflexivity].
      * cbn [negb]. rewrite andb_true_r. reflexivity.
Qed.

(** What is downloaded is all that was sent, in order; it fails exactly if the declared length is a gigabyte or more, or more than
    131072 pieces were sent. *)
Theorem C87_exact {A} declared (chunks : list (list A)) :
  ((exists n, declared = Some n /\ (1024 * 1024 * 1024 <= n)%Z) \/ (131072 < Z.of_nat (length chunks))%Z ->
   download declared chunks = Err ValueError) /\
  ((forall n, declared = Some n -> (n < 1024 * 1024 * 1024)%Z) -> (Z.of_nat (length chunks) <= 131072)%Z ->
   download declared chunks = Ok (concat chunks)).
Proof.
  unfold download. rewrite take_spec. cbn [app]. split.
  - intros [(n & -> & H) | H].
    + destruct (Z.leb_spec limit n); [reflexivity | unfold limit in *; lia].
    + destruct (match declared with Some n => (limit <=? n)%Z | None => false end); [reflexivity|].
      destruct (Z.ltb_spec limit (0 + 8192 * Z.of_nat (length chunks))); [|unfold limit in *; lia].
      destruct chunks; [cbn in H; lia | reflexivity].
  - intros H1 H2. destruct declared as [n|].
    + specialize (H1 n eq_refl). destruct (Z.leb_spec limit n); [unfold limit in *; lia|].
      destruct (Z.ltb_spec limit (0 + 8192 * Z.of_nat (length chunks))); [unfold limit in *; lia | reflexivity].
    + destruct (Z.ltb_spec limit (0 + 8192 * Z.of_nat (length chunks))); [unfold limit in *; lia | reflexivity].
Qed.

(** If every piece but the last has 8192 bytes, no more than a gigabyte is ever taken, and whatever has less is. *)
Lemma concat_full {A} (chunks : list (list A)) : (forall c, In c chunks -> full c) ->
  Z.of_nat (length (concat chunks)) = (8192 * Z.of_nat (length chunks))%Z.
Proof.
  induction chunks as [|c r IH]; intros H; [reflexivity|]. cbn [concat length]. rewrite app_length, Nat2Z.inj_add, IH by (intros; apply H; right; auto).
  rewrite (H c (or_introl eq_refl)), Z2Nat.id by lia. lia.
Qed.
Theorem C87_size {A} (chunks : list (list A)) (last : list A) :
  (forall c, In c chunks -> full c) -> last <> [] -> (Z.of_nat (length last) <= 8192)%Z ->
  let size := Z.of_nat (length (concat (chunks ++ [last]))) in
  ((size <= 1024 * 1024 * 1024)%Z -> download None (chunks ++ [last]) = Ok (concat (chunks ++ [last]))) /\
  ((1024 * 1024 * 1024 < size)%Z -> download None (chunks ++ [last]) = Err ValueError).
Proof.
  intros F N L size.
  assert (S : size = (8192 * Z.of_nat (length chunks) + Z.of_nat (length last))%Z).
  { unfold size. rewrite concat_app, app_length, Nat2Z.inj_add, (concat_full chunks F). cbn [concat]. rewrite app_nil_r. reflexivity. }
  assert (P : (0 < Z.of_nat (length last))%Z) by (destruct last; [contradiction | cbn [length]; lia]).
  split; intros H.
  - apply C87_exact; [discriminate|]. rewrite app_length. cbn [length]. lia.
  - apply C87_exact. right. rewrite app_length. cbn [length]. lia.
Qed.

(** Finding: a file of exactly one gigabyte is refused if its length is declared and taken if not. *)
Theorem C87_equal_refuted : forall {A} (chunks : list (list A)),
  (forall c, In c chunks -> full c) -> (Z.of_nat (length chunks) = 131072)%Z ->
  download (Some (Z.of_nat (length (concat chunks)))) chunks = Err ValueError /\ download None chunks = Ok (concat chunks).
Proof.
  intros A chunks F L. rewrite (concat_full chunks F), L. split.
  - apply C87_exact. left. eexists. split; [reflexivity|]. lia.
  - apply C87_exact; [discriminate|]. lia.
Qed.
(** Finding: pieces are counted as 8192 bytes each, so that a file sent in pieces of one byte is refused though it has 128 KB. *)
Theorem C87_small_refuted : exists chunks : list (list nat),
  (Z.of_nat (length (concat chunks)) = 131073)%Z /\ download None chunks = Err ValueError.
Proof.
  exists (repeat [0] (Z.to_nat 131073)). split.
  - assert (E : forall n, length (concat (repeat [0] n)) = n) by (induction n; cbn; congruence). rewrite E. apply Z2Nat.id. lia.
  - apply C87_exact. right. rewrite repeat_length, Z2Nat.id by lia. lia.
Qed.
Example C87_example : download (Some 5%Z) [[1; 2; 3]; [4; 5]] = Ok [1; 2; 3; 4; 5] /\ download (Some 1073741824%Z) [[1]] = Err ValueError.
Proof. split; reflexivity. Qed.
