(** Property C33: the quantiles shown in a report. *)
From Coq Require Import ZArith SpecFloat Sorted.
From Verif Require Import PyCommon QuantModel RowProofs.
Local Open Scope Z_scope.

Lemma collect_ok {X Y} (f : X -> result Y) (g : X -> Y) l : (forall x, In x l -> f x = Ok (g x)) -> collect f l = Ok (map g l).
Proof.
  induction l as [|x l IH]; intro H; [reflexivity|]. cbn [collect map]. rewrite (H x (or_introl eq_refl)), IH; [reflexivity|]. intros y Hy. apply H. right. exact Hy.
Qed.

(** The exact position is the number of quantiles at or below the fraction (ind + 1) / groups, rounded up *)
Lemma exact_spec n1 g i j : 0 < g -> exact_index n1 g i = j <-> j * g < (i + 1) * n1 <= (j + 1) * g.
Proof.
  intro Hg. unfold exact_index. pose proof (Z.div_mod ((i + 1) * n1 + g - 1) g ltac:(lia)) as D. pose proof (Z.mod_pos_bound ((i + 1) * n1 + g - 1) g Hg) as M.
  set (q := ((i + 1) * n1 + g - 1) / g) in *. set (r := ((i + 1) * n1 + g - 1) mod g) in *. split; [intros <-; nia|]. intro H. nia.
Qed.

Lemma exact_range n1 g i : 0 < g <= n1 -> 0 <= i < g - 1 -> 0 <= exact_index n1 g i < n1 - 1.
Proof.
  intros Hg Hi. destruct (proj1 (exact_spec n1 g i _ (proj1 Hg)) eq_refl) as [H1 H2]. set (j := exact_index n1 g i) in *. split; [nia|].
  assert (j * g < (n1 - 1) * g); [|nia]. assert ((i + 1) * n1 <= (g - 1) * n1) by nia. nia.
Qed.
Lemma exact_increasing n1 g i i' : 0 < g <= n1 -> i < i' -> exact_index n1 g i < exact_index n1 g i'.
Proof.
  intros Hg Hi. destruct (proj1 (exact_spec n1 g i _ (proj1 Hg)) eq_refl) as [H1 H2]. destruct (proj1 (exact_spec n1 g i' _ (proj1 Hg)) eq_refl) as [H3 H4]. nia.
Qed.

Definition effective (groups : option Z) (n : nat) : Z :=
  match groups with Some g => if (0 <? g) && (g <=? Z.of_nat n + 1) then g else 4 | None => 4 end.

(** C33.  With exact arithmetic, if the number of groups is valid, or at least three quantiles are stored: one value less
    than groups (four groups unless the number is valid), the value for the fraction [(i+1)/groups] being the first stored
    quantile at or above that fraction of the stored quantiles. *)
Theorem C33_values {X} groups (quantiles : list X) : let n := length quantiles in let g := effective groups n in
  g <= Z.of_nat n + 1 ->
  exists r, calculate_quantiles exact_index groups quantiles = Ok r /\ Z.of_nat (length r) = g - 1 /\
  forall i, (i < length r)%nat -> exists j, nth_error r i = nth_error quantiles j /\ (j < n)%nat /\
    Z.of_nat j * g < (Z.of_nat i + 1) * (Z.of_nat n + 1) <= (Z.of_nat j + 1) * g.
Proof.
  intros n g Hg. assert (0 < g) as G. { unfold g, effective. destruct groups as [z|]; [|lia]. destruct (0 <? z) eqn:E; cbn [andb]; [destruct (z <=? Z.of_nat n + 1); [apply Z.ltb_lt in E; exact E|lia]|lia]. }
  assert (quantiles = [] \/ exists x : X, True) as [E|[x0 _]] by (destruct quantiles; eauto).
  { assert (g = 1) as H by (unfold n in Hg; rewrite E in Hg; cbn in Hg; lia). exists []. unfold calculate_quantiles. fold n. change (match groups with Some g0 => if (0 <? g0) && (g0 <=? Z.of_nat n + 1) then g0 else 4 | None => 4 end) with g. rewrite H. split; [reflexivity|]. split; [reflexivity|]. cbn. lia. }
  exists (map (fun ind => nth (Z.to_nat (exact_index (Z.of_nat n + 1) g (Z.of_nat ind))) quantiles x0) (seq 0 (Z.to_nat (g - 1)))).
  split; [|split].
  - unfold calculate_quantiles. fold n. change (match groups with Some g0 => if (0 <? g0) && (g0 <=? Z.of_nat n + 1) then g0 else 4 | None => 4 end) with g.
    apply collect_ok. intros i Hi. apply in_seq in Hi. pose proof (exact_range (Z.of_nat n + 1) g (Z.of_nat i) ltac:(lia) ltac:(lia)) as R.
    unfold at_index. rewrite (nth_error_nth' quantiles x0) by (fold n; lia). reflexivity.
  - rewrite map_length, seq_length. lia.
  - intros i Hi. rewrite map_length, seq_length in Hi. pose proof (exact_range (Z.of_nat n + 1) g (Z.of_nat i) ltac:(lia) ltac:(lia)) as R.
    exists (Z.to_nat (exact_index (Z.of_nat n + 1) g (Z.of_nat i))). split; [|split].
    + rewrite nth_error_map. rewrite (nth_error_nth' (seq 0 (Z.to_nat (g - 1))) 0%nat) by (rewrite seq_length; lia). rewrite seq_nth by lia. cbn [option_map Nat.add].
      rewrite (nth_error_nth' quantiles x0) by (fold n; lia). reflexivity.
    + lia.
    + rewrite Z2Nat.id by lia. apply (exact_spec (Z.of_nat n + 1) g (Z.of_nat i)); [exact G|reflexivity].
Qed.

(** C33.  The values come in the order of the stored quantiles, without repetition of positions: sorted quantiles give
    sorted values. *)
Theorem C33_sorted {X} (le : X -> X -> Prop) groups (quantiles r : list X) :
  (forall i j x y, (i < j)%nat -> nth_error quantiles i = Some x -> nth_error quantiles j = Some y -> le x y) ->
  effective groups (length quantiles) <= Z.of_nat (length quantiles) + 1 ->
  calculate_quantiles exact_index groups quantiles = Ok r ->
  forall i j x y, (i < j)%nat -> nth_error r i = Some x -> nth_error r j = Some y -> le x y.
Proof.
  intros HS Hg Hr i j x y Hij Hx Hy. pose proof (C33_values groups quantiles Hg) as (r' & E & L & H). rewrite Hr in E. injection E as <-.
  assert (j < length r)%nat as Lj by (apply nth_error_Some; rewrite Hy; discriminate). assert (i < length r)%nat as Li by lia.
  destruct (H i Li) as (a & Ea & La & Ba). destruct (H j Lj) as (b & Eb & Lb & Bb). rewrite Hx in Ea. rewrite Hy in Eb. apply (HS a b x y); [|auto|auto].
  set (g := effective groups (length quantiles)) in *. nia.
Qed.

(** C33.  One group more than quantiles gives all of them. *)
Theorem C33_all {X} (quantiles : list X) : calculate_quantiles exact_index (Some (Z.of_nat (length quantiles) + 1)) quantiles = Ok quantiles.
Proof.
  set (n := length quantiles). assert (effective (Some (Z.of_nat n + 1)) n = Z.of_nat n + 1) as E. { unfold effective. rewrite Z.leb_refl. destruct (Z.ltb_spec 0 (Z.of_nat n + 1)); [reflexivity|lia]. }
  pose proof (C33_values (Some (Z.of_nat n + 1)) quantiles) as H. cbv zeta in H. fold n in H. rewrite E in H. destruct (H ltac:(lia)) as (r & -> & L & HR). f_equal.
  assert (length r = n) as Lr by lia. clear H. apply nth_error_ext. intro i. destruct (Nat.lt_ge_cases i n) as [Hi|Hi].
  - destruct (HR i ltac:(lia)) as (j & -> & Lj & B). f_equal. nia.
  - rewrite !(proj2 (nth_error_None _ _)); [reflexivity|fold n; lia|lia].
Qed.

(** C33.  The double precision arithmetic of the program gives the same values for the default 999 stored quantiles and
    up to 29 groups. *)
Theorem C33_floats {X} groups (quantiles : list X) : length quantiles = 999%nat -> effective groups 999 <= 29 ->
  calculate_quantiles float_index groups quantiles = calculate_quantiles exact_index groups quantiles.
Proof.
  intros L Hg. unfold calculate_quantiles. rewrite L. change (match groups with Some g => if (0 <? g) && (g <=? Z.of_nat 999 + 1) then g else 4 | None => 4 end) with (effective groups 999).
  set (g := effective groups 999) in *. assert (0 < g) as G. { unfold g, effective. destruct groups as [z|]; [|lia]. destruct (0 <? z) eqn:E; cbn [andb]; [destruct (z <=? Z.of_nat 999 + 1); [apply Z.ltb_lt in E; exact E|lia]|lia]. }
  clearbody g. change (Z.of_nat 999 + 1) with 1000.
  assert (forallb (fun g => forallb (fun i => float_index 1000 (Z.of_nat g) (Z.of_nat i) =? exact_index 1000 (Z.of_nat g) (Z.of_nat i)) (seq 0 (g - 1))) (seq 1 29) = true) as C by (vm_compute; reflexivity).
  rewrite forallb_forall in C. specialize (C (Z.to_nat g) ltac:(apply in_seq; lia)). rewrite forallb_forall in C.
  replace (Z.to_nat g - 1)%nat with (Z.to_nat (g - 1)) in C by lia. rewrite Z2Nat.id in C by lia.
  induction (seq 0 (Z.to_nat (g - 1))) as [|i l IH]; [reflexivity|]. cbn [collect]. rewrite (proj1 (Z.eqb_eq _ _) (C i (or_introl eq_refl))). rewrite IH; [reflexivity|].
  intros x Hx. apply C. right. exact Hx.
Qed.

(** With 30 groups the double precision numbers round 500 up to 501, so that the median shown is not the stored one: *)
Theorem C33_rounding_refuted : exists (groups : option Z) (quantiles r r' : list nat), length quantiles = 999%nat /\
  calculate_quantiles float_index groups quantiles = Ok r /\ calculate_quantiles exact_index groups quantiles = Ok r' /\
  nth_error r 14 = Some 501%nat /\ nth_error r' 14 = Some 500%nat.
Proof. exists (Some 30), (seq 1 999). do 2 eexists. vm_compute. repeat split; reflexivity. Qed.

(** One or two stored quantiles and the default number of groups, or any number that is too large, raise an error: *)
Theorem C33_few_quantiles_refuted : forall X (a b : X),
  calculate_quantiles float_index (Some 4) [a] = Err IndexError /\ calculate_quantiles float_index (Some 4) [a; b] = Err IndexError.
Proof. intros. split; reflexivity. Qed.

Example C33_example : calculate_quantiles float_index (Some 4) [10; 20; 30; 40; 50; 60; 70] = Ok [20; 40; 60] /\
  calculate_quantiles float_index (Some 100) [10; 20; 30] = Ok [10; 20; 30] /\ calculate_quantiles exact_index (Some 3) [10; 20; 30] = Ok [20; 30].
Proof. vm_compute. repeat split; reflexivity. Qed.
