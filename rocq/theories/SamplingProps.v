(** Properties C01, C02, C03, C36, C37: sampling, chunking and merging of lists. *)
From Verif Require Import PyCommon ListFacts SamplingModel SamplingProofs.
From Coq Require Import Permutation.

(** C01. [j <= draw j < n] is the range asked of the generator for position [j]. *)
Theorem C01_shuffle_is_permutation : forall (n c : nat) (draw : nat -> nat),
  0 < c -> (forall j, j < n -> j <= draw j < n) ->
  Permutation (concat (shuffle_in_chunks draw n c)) (seq 0 n) /\
  map (@length nat) (shuffle_in_chunks draw n c)
    = repeat c (n / c) ++ (if n mod c =? 0 then [] else [n mod c]).
Proof. exact shuffle_permutation. Qed.
Print Assumptions C01_shuffle_is_permutation.

(** Different draws give different orders, so uniform draws give each order the same
    probability. *)
Theorem C01_shuffle_is_unbiased : forall (n c : nat) (d1 d2 : nat -> nat),
  0 < c -> (forall j, j < n -> j <= d1 j < n) -> (forall j, j < n -> j <= d2 j < n) ->
  concat (shuffle_in_chunks d1 n c) = concat (shuffle_in_chunks d2 n c) ->
  forall j, j < n -> d1 j = d2 j.
Proof. exact shuffle_injective. Qed.
Print Assumptions C01_shuffle_is_unbiased.

Definition ex_draw (j : nat) : nat := nth j [3; 1; 4; 3; 4] 0.
Example C01_example :
  (forall j, j < 5 -> j <= ex_draw j < 5) /\
  shuffle_in_chunks ex_draw 5 2 = [[3; 1]; [4; 0]; [2]].
Proof.
  split; [|reflexivity].
  intros j Hj. do 5 (destruct j as [|j]; [cbn; lia|]). lia.
Qed.

(** partition: consecutive pieces, nothing lost. *)
Theorem C37_partition : forall (A : Type) (data : list A) (c : nat), 0 < c ->
  exists parts, partition data c = Ok parts /\ concat parts = data /\
    map (@length A) parts
      = repeat c (length data / c) ++ (if length data mod c =? 0 then [] else [length data mod c]).
Proof. exact @partition_spec. Qed.
Print Assumptions C37_partition.

(** C02. *)
Theorem C02_reservoir_distinct_lines :
  forall (A : Type) (dummy : A) (draws : nat -> rdraw) (file : list A) (k : nat),
  (forall t s r, draws t = DTake s r -> r < k) -> 0 < k ->
  exists out pos, reservoir dummy draws file k = Some (Ok out) /\
    length out = Nat.min k (length file) /\ NoDup pos /\
    Forall2 (fun q x => nth_error file q = Some x) pos out.
Proof. exact @reservoir_spec. Qed.
Print Assumptions C02_reservoir_distinct_lines.

Theorem C02_reservoir_small_file :
  forall (A : Type) (dummy : A) (draws : nat -> rdraw) (file : list A) (k : nat),
  0 < k -> length file <= k -> reservoir dummy draws file k = Some (Ok file).
Proof. exact @reservoir_all. Qed.
Print Assumptions C02_reservoir_small_file.

Definition ex_rdraws (t : nat) : rdraw :=
  match t with 0 => DTake 1 0 | 1 => DTake 0 1 | 2 => DTake 0 0 | _ => DStop end.
Example C02_example :
  (forall t s r, ex_rdraws t = DTake s r -> r < 2) /\
  reservoir 99 ex_rdraws [10; 11; 12; 13; 14; 15; 16] 2 = Some (Ok [15; 14]).
Proof.
  split; [|reflexivity].
  intros [|[|[|t]]] s r H; cbn in H; try discriminate; injection H; lia.
Qed.

(** C03. A binary tree records how a list of profiles was merged. *)
Theorem C03_merge_list_is_ordered_tree :
  forall (A : Type) (plus : A -> A -> result A) (l : list A), l <> [] ->
  match merge_profile_list plus l with
  | None => False
  | Some (Ok r) => exists t, leaves t = l /\ eval plus t = Ok r
      /\ depth t <= Nat.log2_up (length l)
  | Some (Err e) => exists x y, plus x y = Err e
  end.
Proof. exact @merge_profile_list_tree. Qed.
Print Assumptions C03_merge_list_is_ordered_tree.

Theorem C03_merge_list_is_fold : forall (A : Type) (f : A -> A -> A) (x : A) (r : list A),
  (forall x y z, f x (f y z) = f (f x y) z) ->
  merge_profile_list (fun a b => Ok (f a b)) (x :: r) = Some (Ok (fold_left f r x)).
Proof. exact @merge_profile_list_fold. Qed.
Print Assumptions C03_merge_list_is_fold.

Example C03_example :
  (forall x y z : list nat, x ++ (y ++ z) = (x ++ y) ++ z) /\
  merge_profile_list (fun a b => Ok (a ++ b)) [[1]; [2]; [3]; [4]; [5]] = Some (Ok [1; 2; 3; 4; 5]).
Proof. split; [intros; apply app_assoc|reflexivity]. Qed.

(** The list of no profiles is rejected. *)
Example C03_empty : merge_profile_list (fun a b : nat => Ok (a + b)) [] = Some (Err IndexError).
Proof. reflexivity. Qed.

(** C36. [text_of d] is the concatenation of the strings of [d], [None] if an element is no
    string. *)
Theorem C36_text_chunks : forall (C : Type) (spl : nat) (d : tdata C) (t : list C),
  0 < spl -> text_of d = Some t ->
  exists ls, get_data_as_text spl d = Ok ls /\ concat ls = t /\
    map (@length C) ls
      = repeat spl (length t / spl) ++ (if length t mod spl =? 0 then [] else [length t mod spl]).
Proof. exact @get_data_as_text_spec. Qed.
Print Assumptions C36_text_chunks.

Theorem C36_not_text_is_an_error : forall (C : Type) (spl : nat) (d : tdata C),
  text_of d = None -> exists e, get_data_as_text spl d = Err e.
Proof. exact @get_data_as_text_error. Qed.
Print Assumptions C36_not_text_is_an_error.

Example C36_example :
  text_of (DList [TStr [1; 2]; TStr []; TStr [3; 4; 5]]) = Some [1; 2; 3; 4; 5] /\
  get_data_as_text 2 (DList [TStr [1; 2]; TStr []; TStr [3; 4; 5]]) = Ok [[1; 2]; [3; 4]; [5]] /\
  text_of (DList [TStr [1]; @TOther nat]) = None.
Proof. repeat split. Qed.

(** C37. *)
Theorem C37_batches_cover_each_row_once :
  forall (A : Type) (data : list A) (perm : list nat) (b : nat),
  0 < b -> Permutation perm (seq 0 (length data)) ->
  exists bs, get_batch_generator data perm b = Ok bs /\ Permutation (concat bs) data /\
    Forall2 (fun k x => nth_error data k = Some x) perm (concat bs) /\
    map (@length A) bs
      = repeat b (length data / b) ++ (if length data mod b =? 0 then [] else [length data mod b]).
Proof. exact @batch_generator_spec. Qed.
Print Assumptions C37_batches_cover_each_row_once.

Example C37_example :
  Permutation [2; 0; 1] (seq 0 (length [7; 8; 9])) /\
  get_batch_generator [7; 8; 9] [2; 0; 1] 2 = Ok [[9; 7]; [8]].
Proof.
  split; [|reflexivity]. cbn.
  apply perm_trans with [0; 2; 1]; repeat constructor.
Qed.
