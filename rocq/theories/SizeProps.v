(** Properties C48: how many rows are sampled, and C72: file properties. *)
From Coq Require Import ZArith QArith Qround.
From Verif Require Import PyCommon PyDict PyString SizeModel.
Local Open Scope nat_scope.

Lemma Z_to_nat_le a b : (a <= b)%Z -> Z.to_nat a <= Z.to_nat b.
Proof. lia. Qed.
Lemma floor_product ratio len : (0 < ratio)%Q -> (ratio <= 1)%Q ->
  let s := Z.to_nat (Qfloor (ratio * (Z.of_nat len # 1))) in
  s <= len /\ ((Z.of_nat s # 1) <= ratio * (Z.of_nat len # 1))%Q /\ (ratio * (Z.of_nat len # 1) < (Z.of_nat s + 1 # 1))%Q.
Proof.
  intros H0 H1. cbv zeta. assert (0 <= Z.of_nat len # 1)%Q as HL by (unfold Qle; cbn; lia).
  assert (0 <= ratio * (Z.of_nat len # 1))%Q as HP by (apply Qmult_le_0_compat; [apply Qlt_le_weak; exact H0|exact HL]).
  assert (0 <= Qfloor (ratio * (Z.of_nat len # 1)))%Z as HF. { change 0%Z with (Qfloor 0). apply Qfloor_resp_le. exact HP. }
  assert (ratio * (Z.of_nat len # 1) <= Z.of_nat len # 1)%Q as HU. { rewrite <- (Qmult_1_l (Z.of_nat len # 1)) at 2. apply Qmult_le_compat_r; assumption. }
  split.
  - apply Nat2Z.inj_le. rewrite Z2Nat.id by exact HF. apply Qfloor_resp_le in HU. change (Z.of_nat len # 1) with (inject_Z (Z.of_nat len)) in HU at 2. rewrite Qfloor_Z in HU. exact HU.
  - rewrite Z2Nat.id by exact HF. split; [apply Qfloor_le|]. apply Qlt_floor.
Qed.

(** C48.  Without a number given, all rows are sampled if there are at most the minimum; otherwise at least the minimum
    and at most all rows: the larger one of the minimum and the share of the rows, rounded down. *)
Theorem C48_size per_update min_size ratio len : (per_update = None \/ per_update = Some 0) -> valid_ratio ratio = true ->
  let s := get_sample_size per_update min_size ratio len in
  (len <= min_size -> s = len) /\
  (min_size < len -> min_size <= s <= len /\ (ratio * (Z.of_nat len # 1) < (Z.of_nat s + 1 # 1))%Q /\
     (s = min_size \/ ((Z.of_nat s # 1) <= ratio * (Z.of_nat len # 1))%Q)).
Proof.
  intros HP HR. cbv zeta. unfold valid_ratio in HR. destruct (0 ?= ratio)%Q eqn:EC; try discriminate. apply Qlt_alt in EC. apply Qle_bool_iff in HR.
  assert (get_sample_size per_update min_size ratio len = if len <=? min_size then len else Nat.max (Z.to_nat (Qfloor (ratio * (Z.of_nat len # 1)))) min_size) as -> by (destruct HP as [-> | ->]; reflexivity).
  destruct (floor_product ratio len EC HR) as (F1 & F2 & F3). set (f := Z.to_nat (Qfloor (ratio * (Z.of_nat len # 1)))) in *.
  destruct (Nat.leb_spec len min_size) as [L|L].
  - split; [reflexivity|lia].
  - split; [lia|]. intros _. destruct (Nat.max_spec f min_size) as [[M ->]|[M ->]].
    + split; [lia|]. split; [|auto]. eapply Qlt_le_trans; [exact F3|]. unfold Qle; cbn; lia.
    + split; [lia|]. split; [exact F3|auto].
Qed.

(** C48.  A larger data set is never sampled less. *)
Theorem C48_monotone per_update min_size ratio len len' : (0 <= ratio)%Q -> len <= len' ->
  get_sample_size per_update min_size ratio len <= get_sample_size per_update min_size ratio len'.
Proof.
  intros H0 HL. unfold get_sample_size. destruct per_update as [[|k]|]; [| reflexivity|];
  (destruct (Nat.leb_spec len min_size), (Nat.leb_spec len' min_size); try lia;
   assert (Z.to_nat (Qfloor (ratio * (Z.of_nat len # 1))) <= Z.to_nat (Qfloor (ratio * (Z.of_nat len' # 1)))) by
     (apply Z_to_nat_le; apply Qfloor_resp_le; rewrite !(Qmult_comm ratio); apply Qmult_le_compat_r; [unfold Qle; cbn; lia|exact H0]); lia).
Qed.

(** C48.  A number of rows given by the caller, for one update or for all, is used; 0 means that it is not given. *)
Theorem C48_given given per_update min_size ratio len : update_sample_size given per_update min_size ratio len =
  match given, per_update with
  | Some (S k), _ => S k
  | _, Some (S k) => S k
  | _, _ => get_sample_size None min_size ratio len
  end.
Proof. destruct given as [[|k]|], per_update as [[|j]|]; reflexivity. Qed.

(** C48.  Merged columns sample at least as much as either of them, for data sets larger than both minima. *)
Theorem C48_merged min1 min2 ratio1 ratio2 len : (0 <= ratio1)%Q -> (0 <= ratio2)%Q -> Nat.max min1 min2 < len ->
  column_sample_size min1 ratio1 len <= merged_column_size min1 min2 ratio1 ratio2 len /\
  column_sample_size min2 ratio2 len <= merged_column_size min1 min2 ratio1 ratio2 len.
Proof.
  intros H1 H2 HL. unfold merged_column_size, column_sample_size, get_sample_size.
  assert (ratio1 <= Qmax' ratio1 ratio2 /\ ratio2 <= Qmax' ratio1 ratio2)%Q as [M1 M2].
  { unfold Qmax'. destruct (Qle_bool ratio1 ratio2) eqn:EQ; [apply Qle_bool_iff in EQ; split; [exact EQ|apply Qle_refl]|]. split; [apply Qle_refl|].
    apply Qlt_le_weak. apply Qnot_le_lt. intro H. apply Qle_bool_iff in H. congruence. }
  destruct (Nat.leb_spec len min1), (Nat.leb_spec len min2), (Nat.leb_spec len (Nat.max min1 min2)); try lia.
  assert (forall r, (r <= Qmax' ratio1 ratio2)%Q -> Z.to_nat (Qfloor (r * (Z.of_nat len # 1))) <= Z.to_nat (Qfloor (Qmax' ratio1 ratio2 * (Z.of_nat len # 1)))) as HM3.
  { intros r Hr. apply Z_to_nat_le. apply Qfloor_resp_le. apply Qmult_le_compat_r; [exact Hr|unfold Qle; cbn; lia]. }
  pose proof (HM3 _ M1). pose proof (HM3 _ M2). lia.
Qed.

Example C48_example : get_sample_size None 50 (1 # 5) 40 = 40 /\ get_sample_size (Some 0) 50 (1 # 5) 60 = 50 /\
  get_sample_size None 50 (1 # 5) 259 = 51 /\ update_sample_size (Some 0) (Some 7) 50 (1 # 5) 60 = 7.
Proof. vm_compute. auto. Qed.

(** ** File properties *)
Local Open Scope string_scope.
Local Open Scope list_scope.

(** A profile made of one data set, or of merged ones *)
Inductive merged := One (s : source) | Both (a b : merged).
Fixpoint merge_all (m : merged) : props :=
  match m with One s => update_props new_props s | Both a b => add_props (merge_all a) (merge_all b) end.
Fixpoint sources (m : merged) : list source := match m with One s => [s] | Both a b => sources a ++ sources b end.

(** The value that all have, or the mark for several *)
Definition common (l : list (option string)) (r : option string) : Prop :=
  (exists x, (forall y, In y l -> y = x) /\ r = x) \/ ((exists x y, In x l /\ In y l /\ x <> y) /\ r = Some "multiple files").

Lemma opt_eqb_spec a b : reflect (a = b) (opt_eqb a b).
Proof. destruct a as [a|], b as [b|]; cbn; try (constructor; congruence). destruct (String.eqb_spec a b); constructor; congruence. Qed.
Lemma common_app l1 l2 r1 r2 : l1 <> [] -> l2 <> [] -> ~ In (Some "multiple files") (l1 ++ l2) -> common l1 r1 -> common l2 r2 ->
  common (l1 ++ l2) (if opt_eqb r1 r2 then r1 else Some "multiple files").
Proof.
  intros N1 N2 HM [(x & H1 & ->)|[(a & b & Ha & Hb & Hab) ->]] [(y & H2 & ->)|[(c & d & Hc & Hd & Hcd) ->]].
  - destruct (opt_eqb_spec x y) as [->|Nxy].
    + left. exists y. split; [|reflexivity]. intros z Hz. apply in_app_or in Hz as [Hz|Hz]; auto.
    + right. split; [|reflexivity]. destruct l1 as [|u l1]; [contradiction|]. destruct l2 as [|v l2]; [contradiction|]. exists u, v. split; [left; reflexivity|]. split; [apply in_or_app; right; left; reflexivity|].
      rewrite (H1 u (or_introl eq_refl)), (H2 v (or_introl eq_refl)). exact Nxy.
  - right. split; [exists c, d; rewrite !in_app_iff; auto|]. destruct (opt_eqb_spec x (Some "multiple files")) as [->|]; reflexivity.
  - right. split; [exists a, b; rewrite !in_app_iff; auto|]. destruct (opt_eqb_spec (Some "multiple files") y); reflexivity.
  - right. split; [exists a, b; rewrite !in_app_iff; auto|]. reflexivity.
Qed.

(** C72.  However profiles of single data sets are merged, the file type, and so the encoding, is that of all data sets if
    they agree, otherwise multiple files; the number of samples is the sum. *)
Theorem C72_merged m : (forall s, In s (sources m) -> s_len s <> 0 /\ s_type s <> "multiple files" /\ s_encoding s <> Some "multiple files") ->
  common (map (fun s => Some (s_type s)) (sources m)) (f_type (merge_all m)) /\
  common (map s_encoding (sources m)) (f_encoding (merge_all m)) /\
  f_total (merge_all m) = list_sum (map s_len (sources m)).
Proof.
  induction m as [s|a IHa b IHb]; intro H; cbn [merge_all sources].
  - destruct (H s (or_introl eq_refl)) as (Hl & _). cbn [map sources]. unfold update_props. destruct (Nat.eqb_spec (s_len s) 0); [contradiction|]. cbn [f_type f_encoding f_total new_props].
    split; [left; eexists; split; [|reflexivity]; intros y [<-|[]]; reflexivity|]. split; [left; eexists; split; [|reflexivity]; intros y [<-|[]]; destruct (s_encoding s); reflexivity|]. cbn. lia.
  - assert (forall x, sources x <> []) as NE by (induction x as [|x IHx y IHy]; cbn [sources]; [discriminate|]; destruct (sources x); [contradiction|discriminate]).
    destruct IHa as (A1 & A2 & A3); [intros s Hs; apply H; cbn [sources]; apply in_or_app; auto|]. destruct IHb as (B1 & B2 & B3); [intros s Hs; apply H; cbn [sources]; apply in_or_app; auto|].
    assert (forall X (f : source -> X) x, map f (sources x) <> []) as NM by (intros X f x Hx; apply map_eq_nil in Hx; exact (NE x Hx)).
    rewrite !map_app. cbn [add_props f_type f_encoding f_total]. split; [|split].
    + apply common_app; auto. rewrite <- map_app. intro Hi. apply in_map_iff in Hi as (s & Es & Hs). destruct (H s Hs) as (_ & Ht & _). congruence.
    + apply common_app; auto. rewrite <- map_app. intro Hi. apply in_map_iff in Hi as (s & Es & Hs). destruct (H s Hs) as (_ & _ & He). congruence.
    + rewrite list_sum_app, A3, B3. reflexivity.
Qed.

(** C72.  After updates the file type is that of the last data set that is not empty, the encoding that of the last one that
    has an encoding, and the number of samples the sum. *)
Definition updates (l : list source) : props := fold_left update_props l new_props.
Definition last_some {X} (l : list (option X)) : option X := fold_left (fun r x => match x with Some _ => x | None => r end) l None.
Theorem C72_updates l : let real := filter (fun s => negb (s_len s =? 0)) l in
  f_type (updates l) = last_some (map (fun s => Some (s_type s)) real) /\
  f_encoding (updates l) = last_some (map s_encoding real) /\ f_total (updates l) = list_sum (map s_len l).
Proof.
  cbv zeta. unfold updates, last_some.
  assert (forall p, f_type (fold_left update_props l p) = fold_left (fun r x => match x with Some _ => x | None => r end) (map (fun s => Some (s_type s)) (filter (fun s => negb (s_len s =? 0)) l)) (f_type p) /\
    f_encoding (fold_left update_props l p) = fold_left (fun r x => match x with Some _ => x | None => r end) (map s_encoding (filter (fun s => negb (s_len s =? 0)) l)) (f_encoding p) /\
    f_total (fold_left update_props l p) = f_total p + list_sum (map s_len l)) as G; [|apply G].
  induction l as [|s l IH]; intro p; [cbn; auto|]. cbn [fold_left filter map]. destruct (IH (update_props p s)) as (H1 & H2 & H3). rewrite H1, H2, H3. unfold update_props.
  destruct (Nat.eqb_spec (s_len s) 0) as [E0|N0]; cbn [negb map fold_left f_type f_encoding f_total list_sum fold_right].
  - rewrite E0. auto.
  - split; [reflexivity|]. split; [destruct (s_encoding s); reflexivity|]. unfold list_sum. lia.
Qed.

Definition csv_eg : source := mkSource 10 (Some "utf-8") "csv".
Definition json_eg : source := mkSource 4 (Some "utf-8") "json".
Definition frame_eg : source := mkSource 5 None "<class 'pandas.core.frame.DataFrame'>".

Example C72_example : merge_all (Both (One csv_eg) (Both (One json_eg) (One csv_eg))) = mkProps (Some "utf-8") (Some "multiple files") 24 /\
  updates [csv_eg; mkSource 0 (Some "ascii") "avro"; frame_eg] = mkProps (Some "utf-8") (Some "<class 'pandas.core.frame.DataFrame'>") 15.
Proof. split; reflexivity. Qed.

(** A profile of several files forgets this at the next update, and updates never give the mark: *)
Theorem C72_several_refuted : exists a b : source, f_type (add_props (updates [a]) (updates [b])) = Some "multiple files" /\
  f_type (update_props (add_props (updates [a]) (updates [b])) a) = Some (s_type a) /\ f_type (updates [a; b]) = Some (s_type b) /\ s_type a <> s_type b.
Proof. exists csv_eg, json_eg. repeat split; try reflexivity. discriminate. Qed.

(** The encoding reported need not be one of the data of the file type reported: *)
Theorem C72_encoding_refuted : exists l : list source, exists e t, updates l = mkProps (Some e) (Some t) 15 /\
  forall s, In s l -> s_type s = t -> s_encoding s <> Some e.
Proof. exists [csv_eg; frame_eg], "utf-8", "<class 'pandas.core.frame.DataFrame'>". split; [reflexivity|]. intros s [<-|[<-|[]]]; discriminate. Qed.

(** Merging with a profile of an empty data set makes multiple files of one: *)
Theorem C72_empty_refuted : exists s : source, f_type (add_props (updates [s]) new_props) = Some "multiple files".
Proof. exists csv_eg. reflexivity. Qed.
