(** C115: attributes of data sets. *)
From Verif Require Import PyCommon PyDict PyString AttrModel.
Local Open Scope string_scope.
Local Open Scope nat_scope.

Section Attributes.
  Variable V : Type.
  Variable cls : string.
  Variable members : string -> member V.
  Variable load : nat -> outcome (obj V).
  Variable depth : nat.
  Hypothesis some_depth : 0 < depth.

  Notation get := (get V cls members load depth).
  Notation len := (len V load depth).
  Notation run := (run V cls members load depth).

  (** The data of a state: those given or loaded before, or those that the next load gives *)
  Definition has (s : st V) (o : obj V) : Prop :=
    match s_data s with Some o' => o' = o | None => load (s_loads s) = inl o end.
  (** The next load fails *)
  Definition broken (s : st V) (e : error) : Prop := s_data s = None /\ load (s_loads s) = inr e.
  (** The state after the data were needed *)
  Definition filled (s : st V) (o : obj V) : st V :=
    match s_data s with Some _ => s | None => mkSt (Some o) (s_loads s + 1) end.

  Lemma data_has s o : has s o -> data V load depth s = (inl o, filled s o).
  Proof.
    intro H. unfold data. destruct depth as [|d]; [lia|]. cbn [data_at]. unfold try_load, has, filled in *. destruct (s_data s) as [o'|]; [subst; reflexivity|]. rewrite H. reflexivity.
  Qed.
  Lemma data_broken s e : broken s e -> (forall m, e <> EAttr m) -> data V load depth s = (inr e, mkSt None (s_loads s + 1)).
  Proof.
    intros [H1 H2] N. unfold data. destruct depth as [|d]; [lia|]. cbn [data_at]. unfold try_load. rewrite H1, H2. destruct e as [m| |x]; [destruct (N m eq_refl)|reflexivity|reflexivity].
  Qed.
  Lemma filled_has s o : has s o -> has (filled s o) o /\ filled (filled s o) o = filled s o.
  Proof. unfold has, filled. destruct (s_data s) eqn:E; intro H; [rewrite E; split; [exact H|reflexivity]|split; reflexivity]. Qed.

  (** What the data set stores itself is given without looking at the data. *)
  Theorem C115_own name v s : members name = Stored (inl v) -> get name s = (inl v, s).
  Proof. intro H. unfold AttrModel.get, own. rewrite H. reflexivity. Qed.

  (** What is computed from the data has the value for the data, and the length is that of the data. *)
  Theorem C115_computed name f v s o : members name = Computed f -> has s o -> f o = inl v -> get name s = (inl v, filled s o).
  Proof. intros H Ho Hf. unfold AttrModel.get, own. rewrite H, (data_has s o Ho), Hf. reflexivity. Qed.
  Theorem C115_length s o : has s o -> len s = (inl (o_len o), filled s o).
  Proof. intro Ho. unfold AttrModel.len. rewrite (data_has s o Ho). reflexivity. Qed.

  (** Other names are those of the data; a name that neither has is an AttributeError that says so. *)
  Theorem C115_forward name s o : members name = Absent -> has s o ->
    get name s = (match o_plain o name with
                  | Some (inl v) => inl v
                  | Some (inr (EAttr m)) => if String.string_dec m (no_attribute (o_class o) name) then inr (EAttr (neither cls (o_class o) name)) else inr (EAttr m)
                  | Some (inr e) => inr e
                  | None => inr (EAttr (neither cls (o_class o) name))
                  end, filled s o).
  Proof.
    intros H Ho. unfold AttrModel.get, own. rewrite H, (data_has s o Ho), String.eqb_refl. cbn [negb]. unfold plain.
    destruct (o_plain o name) as [[v|[m| |e]]|]; try reflexivity.
    - destruct (String.string_dec m (no_attribute (o_class o) name)) as [->|N]; [rewrite String.eqb_refl; reflexivity|].
      assert (String.eqb (no_attribute (o_class o) name) m = false) as -> by (apply String.eqb_neq; congruence). reflexivity.
    - rewrite String.eqb_refl. reflexivity.
  Qed.

  (** An AttributeError from inside an attribute of the data set is not taken for a missing attribute: it is raised, even if
      the data have an attribute of that name. *)
  Theorem C115_inner_error name m s o : (members name = Stored (inr (EAttr m)) \/ exists f, members name = Computed f /\ f o = inr (EAttr m)) ->
    has s o -> m <> no_attribute cls name -> get name s = (inr (EAttr m), filled s o).
  Proof.
    intros H Ho N. assert (String.eqb (no_attribute cls name) m = false) as E by (apply String.eqb_neq; congruence). destruct (filled_has s o Ho) as [Hf Hff].
    unfold AttrModel.get, own. destruct H as [H|(f & H & Hfo)]; rewrite H.
    - rewrite (data_has s o Ho), E. reflexivity.
    - rewrite (data_has s o Ho), Hfo, (data_has _ o Hf), E, Hff. reflexivity.
  Qed.
  (** Other errors are raised as they are. *)
  Theorem C115_other_error name e s : members name = Stored (inr (EOther e)) -> get name s = (inr (EOther e), s).
  Proof. intro H. unfold AttrModel.get, own. rewrite H. reflexivity. Qed.

  (** If the data cannot be loaded, asking for a missing attribute, for one computed from the data or for the length raises the
      error of the load, unless it is an AttributeError; nothing is loaded then. *)
  Theorem C115_load_error name s e : broken s (EOther e) -> (members name = Absent \/ exists f, members name = Computed f) ->
    get name s = (inr (EOther e), mkSt None (s_loads s + 1)) /\ len s = (inr (EOther e), mkSt None (s_loads s + 1)).
  Proof.
    intros B H. unfold AttrModel.len. pose proof (data_broken s _ B ltac:(discriminate)) as D. unfold AttrModel.get, own. split; [|rewrite D; reflexivity].
    destruct H as [H|[f H]]; rewrite H; rewrite ?D; reflexivity.
  Qed.

  (** A load that always fails with an AttributeError is tried again and again, and ends as an error of recursion. *)
  Theorem C115_load_attribute_error name m s : s_data s = None -> (forall n, load n = inr (EAttr m)) -> members name = Absent ->
    get name s = (inr ERecursion, mkSt None (s_loads s + depth)).
  Proof.
    intros H L HM. assert (forall d s, s_data s = None -> data_at V load d s = (inr ERecursion, mkSt None (s_loads s + d))) as G.
    { induction d as [|d IH]; intros [dt n] Hs; cbn [s_data s_loads] in *; subst dt; cbn [data_at]; [rewrite Nat.add_0_r; reflexivity|].
      unfold try_load. cbn [s_data s_loads]. rewrite L, IH by reflexivity. cbn [s_loads]. do 2 f_equal. lia. }
    unfold AttrModel.get, own, data. rewrite HM, G by exact H. reflexivity.
  Qed.

  (** However often the user asks, the data are loaded at most once if the load succeeds, and stay the same; they are not
      loaded if all that is asked for is stored in the data set. *)
  Lemma step_has s o a : has s o -> step V cls members load depth s a = s \/ step V cls members load depth s a = filled s o.
  Proof.
    intro Ho. destruct (filled_has s o Ho) as [Hf Hff]. destruct a as [name|]; cbn [step].
    - assert (forall r s', own V cls members load depth name s = (r, s') -> (s' = s \/ s' = filled s o) /\ has s' o) as HO.
      { unfold own. intros r s'. destruct (members name); [intro E; injection E as <- <-; auto|rewrite (data_has s o Ho); intro E; injection E as <- <-; auto|intro E; injection E as <- <-; auto]. }
      unfold AttrModel.get. destruct (own V cls members load depth name s) as [r s']. destruct (HO r s' eq_refl) as [Hs Hs'].
      destruct r as [v|[m| |e]]; cbn [snd]; try exact Hs. rewrite (data_has s' o Hs').
      assert (filled s' o = filled s o) as E by (destruct Hs as [-> | ->]; [reflexivity|exact Hff]). rewrite E. right.
      destruct (negb _); [reflexivity|]. destruct (plain V o name) as [v|[m'| |e]]; try reflexivity. destruct (negb _); reflexivity.
    - unfold AttrModel.len. rewrite (data_has s o Ho). right. reflexivity.
  Qed.
  Theorem C115_once s o l : has s o -> (run s l = s \/ run s l = filled s o) /\ has (run s l) o /\ s_loads (run s l) <= s_loads s + 1.
  Proof.
    intro Ho. assert ((run s l = s \/ run s l = filled s o) /\ has (run s l) o) as [H1 H2].
    { assert (forall s', (s' = s \/ s' = filled s o) -> run s' l = s \/ run s' l = filled s o) as G.
      { unfold AttrModel.run. induction l as [|a l IH]; [auto|]. intros s' Hs. cbn [fold_left]. apply IH. destruct (filled_has s o Ho) as [Hf Hff].
        destruct Hs as [-> | ->]; [apply step_has; exact Ho|]. destruct (step_has (filled s o) o a Hf) as [-> | ->]; [auto|]. right. exact Hff. }
      assert (run s l = s \/ run s l = filled s o) as H by (apply G; auto). split; [exact H|]. destruct H as [-> | ->]; [exact Ho|apply (filled_has s o Ho)]. }
    split; [exact H1|]. split; [exact H2|]. destruct H1 as [-> | ->]; [lia|]. unfold filled. destruct (s_data s); cbn [s_loads]; lia.
  Qed.
  Theorem C115_lazy s names : (forall n, In n names -> exists v, members n = Stored (inl v)) -> run s (map (@Attr) names) = s.
  Proof.
    unfold AttrModel.run. revert s. induction names as [|n names IH]; intros s H; [reflexivity|]. cbn [map fold_left step]. destruct (H n (or_introl eq_refl)) as [v Hv].
    rewrite (C115_own n v s Hv). apply IH. intros n' Hn. apply H. right. exact Hn.
  Qed.
End Attributes.

(** A data set of three rows with a column "age" *)
Definition frame : obj nat := mkObj "DataFrame" (fun n => if String.eqb n "size" then Some (inl 6) else if String.eqb n "length" then Some (inl 99) else None) (fun n => if String.eqb n "age" then Some 41 else None) 3.
Definition csv (n : string) : member nat := if String.eqb n "length" then Computed (fun o => inl (o_len o)) else if String.eqb n "options" then Stored (inl 7) else Absent.
Example C115_ex :
  get nat "CSVData" csv (fun _ => inl frame) 100 "size" new = (inl 6, mkSt (Some frame) 1) /\
  get nat "CSVData" csv (fun _ => inl frame) 100 "options" new = (inl 7, new) /\
  get nat "CSVData" csv (fun _ => inl frame) 100 "nope" new = (inr (EAttr "Neither 'CSVData' nor 'DataFrame' objects have attribute 'nope'"), mkSt (Some frame) 1) /\
  get nat "CSVData" csv (fun _ => inr (EOther ValueError)) 100 "size" new = (inr (EOther ValueError), mkSt None 1) /\
  get nat "CSVData" csv (fun _ => inr (EAttr "boom")) 100 "size" new = (inr ERecursion, mkSt None 100).
Proof. repeat split; reflexivity. Qed.

(** A user expects every attribute of the data to be one of the data set if that has none of that name.  Columns of a data
    frame are not. *)
Theorem C115_columns_refuted : ~ (forall cls members load depth name (o : obj nat) v, 0 < depth -> load 0 = inl o -> members name = Absent ->
  direct nat o name = inl v -> fst (get nat cls members load depth name new) = inl v).
Proof. intro H. specialize (H "CSVData" csv (fun _ => inl frame) 100 "age" frame 41 ltac:(lia) eq_refl eq_refl eq_refl). discriminate. Qed.

(** A user expects the error of a failed load to be raised.  An AttributeError is not. *)
Theorem C115_load_error_refuted : ~ (forall cls members (load : nat -> outcome (obj nat)) depth name e, 0 < depth -> (forall n, load n = inr e) -> members name = Absent ->
  fst (get nat cls members load depth name new) = inr e).
Proof. intro H. specialize (H "CSVData" csv (fun _ => inr (EAttr "boom")) 100 "size" (EAttr "boom") ltac:(lia) ltac:(reflexivity) eq_refl). discriminate. Qed.

Print Assumptions C115_own.
Print Assumptions C115_computed.
Print Assumptions C115_length.
Print Assumptions C115_forward.
Print Assumptions C115_inner_error.
Print Assumptions C115_other_error.
Print Assumptions C115_load_error.
Print Assumptions C115_load_attribute_error.
Print Assumptions C115_once.
Print Assumptions C115_lazy.
Print Assumptions C115_columns_refuted.
Print Assumptions C115_load_error_refuted.
