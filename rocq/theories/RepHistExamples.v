(** Refuted expectations about the histogram of the report, and examples. *)
From Coq Require Import QArith Qround.
From Verif Require Import PyCommon QFacts ListFacts HistModel HistProofs PyDict PyString
  RepHistModel RepHistProofs RepHistProofs2 RepHistProps.
Local Delimit Scope string_scope with string.
Open Scope list_scope.
Local Open Scope nat_scope.

(** A histogram with [n] bins of equal width between the smallest and the largest value, the last
    bin closed on the right, as [np.histogram] gives. *)
Definition lo_of (l : list Q) : Q := match l with [] => 0%Q | x :: r => fold_left qmin r x end.
Definition hi_of (l : list Q) : Q := match l with [] => 1%Q | x :: r => fold_left qmax r x end.
Definition bin_of (lo hi : Q) (n : nat) (v : Q) : nat :=
  Nat.min (n - 1) (Z.to_nat (Qfloor ((v - lo) * Qn n / (hi - lo)))).
Definition equal_width (n : nat) (l : list Q) : hist :=
  let ids := map (bin_of (lo_of l) (hi_of l) n) l in
  mkHist (map (fun i => Z.of_nat (occ i ids)) (seq 0 n)) (linspace (lo_of l) (hi_of l) n).

Lemma zsum_occ n : forall ids, (forall i, In i ids -> i < n) ->
  zsum (map (fun i => Z.of_nat (occ i ids)) (seq 0 n)) = Z.of_nat (length ids).
Proof.
  induction ids as [|x ids IH]; intro H.
  - cbn [length]. generalize (seq 0 n). induction l as [|y l IHl]; [reflexivity|].
    cbn [map]. rewrite zsum_cons, IHl. reflexivity.
  - rewrite (Nat2Z.inj_succ (length ids) : Z.of_nat (length (x :: ids)) = _).
    rewrite <- IH by (intros i Hi; apply H; right; exact Hi).
    assert (Hx : x < n) by (apply H; left; reflexivity). clear IH H.
    assert (G : forall s k, zsum (map (fun i => Z.of_nat (occ i (x :: ids))) (seq s k)) =
              (zsum (map (fun i => Z.of_nat (occ i ids)) (seq s k)) +
               (if ((s <=? x) && (x <? s + k))%nat then 1 else 0))%Z).
    { intros s k. revert s. induction k as [|k IHk]; intro s; cbn [seq map].
      - rewrite Nat.add_0_r. destruct (Nat.leb_spec s x), (Nat.ltb_spec x s); cbn; lia.
      - rewrite !zsum_cons, IHk. cbn [occ]. destruct (PyDict.eqb x s) eqn:E.
        + apply Nat.eqb_eq in E. subst s.
          destruct (Nat.leb_spec (S x) x); [lia|]. destruct (Nat.leb_spec x x); [|lia].
          destruct (Nat.ltb_spec x (x + S k)); [|lia]. cbn [andb]. lia.
        + apply Nat.eqb_neq in E.
          destruct (Nat.leb_spec (S s) x), (Nat.leb_spec s x), (Nat.ltb_spec x (S s + k)),
            (Nat.ltb_spec x (s + S k)); cbn [andb]; lia. }
    rewrite G. destruct (Nat.ltb_spec x (0 + n)); [cbn [andb Nat.leb]; lia|lia].
Qed.

Lemma equal_width_ok : np_ok equal_width.
Proof.
  intros n l Hn. unfold equal_width, wf_hist. cbn [h_counts h_edges].
  rewrite map_length, seq_length, linspace_length. split; [split; [reflexivity|]|split; [|reflexivity]].
  - apply Forall_forall. intros z Hz. apply in_map_iff in Hz. destruct Hz as (i & <- & _). lia.
  - rewrite zsum_occ, map_length; [reflexivity|].
    intros i Hi. apply in_map_iff in Hi. destruct Hi as (v & <- & _). unfold bin_of. lia.
Qed.

Definition two : binopt := BMethods ["rice"; "sqrt"]%string.

(** Estimates as they arise when the spread of the data changes. *)
Definition ex_est (m : string) (l : list Q) : nat :=
  if String.eqb m "rice" then (if length l =? 2 then 1000 else 10) else 5.
Lemma ex_est_ok : est_ok ex_est.
Proof. intros m l. unfold ex_est. destruct (String.eqb m "rice"); [destruct (length l =? 2)|]; lia. Qed.

(** ** The method with the smallest loss is not always chosen *)
(** After a merge the stored histogram has loss 0 on record, so a method that suggests just as many
    bins has loss 0, and the next method replaces it. *)
Definition ex_width (m : string) : option Q :=
  if String.eqb m "rice" then Some (4 # 1000)%Q else Some 2%Q.
Definition ex_merge : hop :=
  HAdd (Some 0%Q) (Some 4%Q) 4 ex_width (HUpd (HNew true two) [0; 1]%Q) (HUpd (HNew true two) [2; 4]%Q).

Lemma ex_merge_fine : fine ex_est equal_width ex_merge.
Proof.
  unfold ex_merge. cbn [fine hdata two opt_ok app]. repeat split; try discriminate.
  intros c1 c2 g1 g2 m _ _ _ _. unfold ex_width, merged_hi, merged_lo.
  destruct (String.eqb m "rice"); vm_compute; lia.
Qed.

Definition ex_merge_check (c : col) : bool :=
  match best_histogram c, c_selection c, c_user c with
  | Ok (c', Some g), None, None =>
      match c_selection c', losses c with
      | Some m, [(m1, l1); (m2, l2)] =>
          String.eqb m "sqrt" && String.eqb m1 "rice" && String.eqb m2 "sqrt" &&
          Qeq_bool l1 0 && negb (Qle_bool l2 0) && (length (h_counts g) =? 2)
      | _, _ => false
      end
  | _, _, _ => false
  end.

Theorem C90_smallest_loss_refuted :
  exists est np h c c' g m q x, est_ok est /\ np_ok np /\ fine est np h /\ hrun est np h = Ok c /\
    c_user c = None /\ c_selection c = None /\
    best_histogram c = Ok (c', Some g) /\ c_selection c' = Some m /\ In (m, q) (losses c) /\
    (forall q', In (m, q') (losses c) -> q' = q) /\
    In x (losses c) /\ (snd x < q)%Q.
Proof.
  assert (H : match hrun ex_est equal_width ex_merge with Ok c => ex_merge_check c | _ => false end = true)
    by (vm_compute; reflexivity).
  destruct (hrun ex_est equal_width ex_merge) as [c|] eqn:E; [|discriminate H].
  unfold ex_merge_check in H.
  destruct (best_histogram c) as [[c' [g|]]|] eqn:Eb; try discriminate H.
  destruct (c_selection c) eqn:Es; [discriminate H|]. destruct (c_user c) eqn:Eu; [discriminate H|].
  destruct (c_selection c') as [m|] eqn:Es'; [|discriminate H].
  destruct (losses c) as [|[m1 l1] [|[m2 l2] [|]]] eqn:El; try discriminate H.
  apply andb_true_iff in H. destruct H as [H _].
  apply andb_true_iff in H. destruct H as [H H5].
  apply andb_true_iff in H. destruct H as [H H4].
  apply andb_true_iff in H. destruct H as [H H3].
  apply andb_true_iff in H. destruct H as [H1 H2].
  apply String.eqb_eq in H1. apply String.eqb_eq in H2. apply String.eqb_eq in H3. subst.
  apply Qeq_bool_iff in H4. apply negb_true_iff in H5. apply Qle_bool_false in H5.
  exists ex_est, equal_width, ex_merge, c, c', g, "sqrt"%string, l2, ("rice"%string, l1).
  split; [apply ex_est_ok|]. split; [apply equal_width_ok|]. split; [apply ex_merge_fine|].
  repeat (split; [assumption|]). rewrite El.
  split; [right; left; reflexivity|]. split.
  { intros q' [X|[X|[]]]; congruence. }
  split; [left; reflexivity|]. cbn. lra.
Qed.
Print Assumptions C90_smallest_loss_refuted.

(** ** A report can change what later reports show *)
(** A method that suggests as many bins as are stored is given the stored histogram itself; from then
    on it shows whatever is stored, with another number of bins than it suggests. *)
Definition ex_first : hop := HUpd (HNew true two) [0; 1]%Q.
Definition bins_shown (c : col) : nat :=
  match best_histogram c with Ok (_, Some g) => length (h_counts g) | _ => 0 end.

Theorem C90_report_changes_later_refuted :
  exists est np h c c' o v, est_ok est /\ np_ok np /\ fine est np h /\ hrun est np h = Ok c /\
    best_histogram c = Ok (c', o) /\ v <> [] /\
    bins_shown (update est np c v) = 10 /\ bins_shown (update est np c' v) = 1000.
Proof.
  assert (H : match hrun ex_est equal_width ex_first with
              | Ok c => match best_histogram c with
                        | Ok (c', _) =>
                            (bins_shown (update ex_est equal_width c [1 # 2]%Q) =? 10) &&
                            (bins_shown (update ex_est equal_width c' [1 # 2]%Q) =? 1000)
                        | _ => false
                        end
              | _ => false
              end = true) by (vm_compute; reflexivity).
  destruct (hrun ex_est equal_width ex_first) as [c|] eqn:E; [|discriminate H].
  destruct (best_histogram c) as [[c' o]|] eqn:Eb; [|discriminate H].
  apply andb_true_iff in H. destruct H as [H1 H2]. apply Nat.eqb_eq in H1. apply Nat.eqb_eq in H2.
  exists ex_est, equal_width, ex_first, c, c', o, [1 # 2]%Q.
  split; [apply ex_est_ok|]. split; [apply equal_width_ok|]. split; [discriminate|].
  repeat (split; [assumption|]). split; [discriminate|]. split; assumption.
Qed.
Print Assumptions C90_report_changes_later_refuted.

(** ** After a merge the histogram shown can have more than 100000 bins *)
Definition narrow (m : string) : option Q := Some (1 # 100000)%Q.
Definition one_method : binopt := BMethod "fd"%string.
Definition ex_narrow : hop :=
  HAdd (Some 0%Q) (Some 4%Q) 4 narrow (HUpd (HNew true one_method) [0; 1]%Q) (HUpd (HNew true one_method) [2; 4]%Q).

Lemma narrow_bins m : bins_from_profile 4 (4 - 0)%Q (narrow m) = Z.to_nat 400000.
Proof.
  unfold bins_from_profile, narrow. cbn [Nat.eqb].
  assert (Qeq_bool (1 # 100000) 0 = false) as -> by reflexivity.
  f_equal.
Qed.
Lemma max_bins_Z : Z.of_nat max_bins = 100000%Z.
Proof. unfold max_bins. rewrite Nat2Z.inj_mul. reflexivity. Qed.

Theorem C90_bin_limit_after_merge_refuted :
  exists est np h c c' g, est_ok est /\ np_ok np /\ fine est np h /\ hrun est np h = Ok c /\
    c_user c = None /\ best_histogram c = Ok (c', Some g) /\ 100 * 1000 < length (h_counts g).
Proof.
  assert (F : fine ex_est equal_width ex_narrow).
  { unfold ex_narrow. cbn [fine hdata one_method opt_ok app]. repeat split; try discriminate.
    intros c1 c2 g1 g2 m _ _ _ _. unfold merged_hi, merged_lo. rewrite narrow_bins.
    apply Nat2Z.inj_lt. rewrite Z2Nat.id; [reflexivity|apply Z.leb_le; reflexivity]. }
  assert (H : match hrun ex_est equal_width ex_narrow with
              | Ok c => match c_user c with None => true | _ => false end | _ => false end = true)
    by (vm_compute; reflexivity).
  destruct (hrun ex_est equal_width ex_narrow) as [c|] eqn:E; [|discriminate H].
  destruct (c_user c) eqn:Eu; [discriminate H|].
  destruct (C90_bins_merged ex_est equal_width _ _ _ _ _ _ c ex_est_ok equal_width_ok F E Eu)
    as (c1 & c2 & g1 & g2 & c' & g & m & _ & _ & _ & _ & Eb & _ & _ & _ & L).
  exists ex_est, equal_width, ex_narrow, c, c', g.
  split; [apply ex_est_ok|]. split; [apply equal_width_ok|]. split; [exact F|]. split; [exact E|].
  split; [exact Eu|]. split; [exact Eb|]. rewrite L. unfold merged_hi, merged_lo. rewrite narrow_bins.
  change (100 * 1000) with max_bins. apply Nat2Z.inj_lt. rewrite max_bins_Z, Z2Nat.id; [reflexivity|apply Z.leb_le; reflexivity].
Qed.
Print Assumptions C90_bin_limit_after_merge_refuted.

(** ** Examples *)
(** Three updates with a report in between, a number of bins set by the user, and its merge with
    another profile, which has no report until the next update. *)
Definition ex_count : hop := HUpd (HRep (HUpd (HNew true (BCount 4)) [0; 1; 4]%Q)) [2; 3; 8]%Q.
Definition ex_count_merge : hop :=
  HAdd (Some 0%Q) (Some 8%Q) 8 (fun _ => None) ex_count (HUpd (HNew true (BCount 3)) [1; 5]%Q).

Example C90_example :
  (match hrun ex_est equal_width ex_count with
   | Ok c => match best_histogram c with Ok (_, Some g) => (h_counts g, map Qred (h_edges g)) | _ => ([], []) end
   | _ => ([], []) end) = ([2; 2; 1; 1]%Z, [0; 2; 4; 6; 8]%Q) /\
  (match hrun ex_est equal_width ex_count_merge with
   | Ok c => (match best_histogram c with Err KeyError => true | _ => false end) &&
             (bins_shown (update ex_est equal_width c [7]%Q) =? 4)
   | _ => false end) = true /\
  (match hrun ex_est equal_width ex_first with Ok c => bins_shown c | _ => 0 end) = 1000.
Proof. vm_compute. repeat split; reflexivity. Qed.
