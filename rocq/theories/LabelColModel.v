(** Model of profilers/data_labeler_column_profile.py: the votes for the labels of a column, their shares, the average
    confidences and the label reported.

    The confidences predicted by the labeler for a sampled value are a row of numbers, one per label; numbers are exact.
    [best] is the position of a largest number, chosen by numpy (which one of equal ones is left open). *)
From Coq Require Import ZArith QArith.
From Verif Require Import PyCommon PyDict.
Local Open Scope nat_scope.

Section Labels.
  Context {L : Type} {E : EqDecB L}.
  (** data_labeler.reverse_label_mapping: the label of a position *)
  Variable mapping : dict nat L.
  (** model.requires_zero_mapping: position 0 is the PAD label *)
  Variable zero : bool.
  (** model.num_labels *)
  Variable num_labels : nat.
  (** [np.argpartition(conf, kth=-1)[-1]] *)
  Variable best : list Q -> nat.

  Definition start : nat := if zero then 1 else 0.
  Definition width : nat := if zero then num_labels - 1 else num_labels.
  (** reverse_label_mapping, 196-203 *)
  Definition reverse_mapping : dict nat L := if zero then ddel mapping 0 else mapping.

  (** possible_data_labels, 205-216: the labels sorted by their positions *)
  Fixpoint insert_key (x : nat * L) (l : list (nat * L)) : list (nat * L) :=
    match l with [] => [x] | y :: r => if fst x <=? fst y then x :: y :: r else y :: insert_key x r end.
  Definition sort_keys (l : list (nat * L)) : list (nat * L) := fold_right insert_key [] l.
  Definition labels : list L := map snd (sort_keys reverse_mapping).

  Record lcol := mkLabels {
    l_votes : option (dict L nat);       (* _rank_distribution *)
    l_sums : option (list Q);            (* _sum_predictions *)
    l_n : nat }.                         (* sample_size *)
  Definition new_labels : lcol := mkLabels None None 0.

  (** rank_distribution, 218-223, and sum_predictions, 225-233: initialised when first needed *)
  Definition votes_of (c : lcol) : dict L nat :=
    match l_votes c with Some v => v | None => fold_left (fun d l => dset d l 0) labels [] end.
  Definition sums_of (c : lcol) : list Q :=
    match l_sums c with Some s => s | None => repeat 0%Q width end.

  Definition vadd (a b : list Q) : list Q := map (fun p => (fst p + snd p)%Q) (combine a b).
  (** 419-420 *)
  Definition delete_pad (row : list Q) : list Q := if zero then tl row else row.

  (** 425-437 with _top_k_voting = 1 and _min_voting_prob = 0.20: one vote for the best label if it is above 0.20 *)
  Definition above (q : Q) : bool := match Qcompare (1 # 5) q with Lt => true | _ => false end.
  Definition vote (d : dict L nat) (row : list Q) : result (dict L nat) :=
    match row with
    | [] => Err ValueError
    | _ =>
        let v := best row in
        if above (nth v row 0%Q) then
          match dget reverse_mapping (v + start) with
          | Some l => match dget d l with Some k => Ok (dset d l (k + 1)) | None => Err KeyError end
          | None => Err KeyError
          end
        else Ok d
    end.
  Fixpoint vote_all (d : dict L nat) (rows : list (list Q)) : result (dict L nat) :=
    match rows with [] => Ok d | r :: rs => bind (vote d r) (fun d => vote_all d rs) end.

  (** Whether a row gives a vote: only then the votes are touched (434-437) *)
  Definition voted (row : list Q) : bool := match row with [] => false | _ => above (nth (best row) row 0%Q) end.

  (** update, 451-479, with _update_predictions, 395-437; [rows] are the confidences of the sampled values *)
  Definition update_labels (c : lcol) (rows : list (list Q)) : result lcol :=
    match rows with
    | [] => Ok c
    | _ =>
        let rows := map delete_pad rows in
        if forallb (fun r => length r =? length (sums_of c)) rows then
          let sums := fold_left vadd rows (sums_of c) in
          bind (vote_all (votes_of c) rows) (fun votes => 
            Ok (mkLabels (if existsb voted rows then Some votes else l_votes c) (Some sums) (l_n c + length rows)))
        else Err ValueError
    end.

  (** [d.get(key, 0)] *)
  Definition get0 (d : dict L nat) (l : L) : nat := match dget d l with Some k => k | None => 0 end.
  (** __add__, 131-194; [order] gives the order of a set *)
  Definition add_labels (order : list L -> list L) (a b : lcol) : result lcol :=
    if (l_n a =? 0) && (l_n b =? 0) then Ok (mkLabels None None (l_n a + l_n b))
    else
      match l_votes a, l_votes b with
      | Some va, Some vb =>
          let votes := map (fun l => (l, get0 va l + get0 vb l)) (order (distinct (dkeys va ++ dkeys vb))) in
          match l_sums a, l_sums b with
          | Some sa, Some sb => if length sa =? length sb then Ok (mkLabels (Some votes) (Some (vadd sa sb)) (l_n a + l_n b)) else Err ValueError
          | _, _ => Err TypeError
          end
      | _, _ => Err TypeError
      end.

  (** Reading a report (240-308) of a column with data makes the votes if there are none yet (218-223) *)
  Definition read_report (c : lcol) : lcol :=
    match l_n c with 0 => c | _ => mkLabels (Some (votes_of c)) (l_sums c) (l_n c) end.

  Definition total (c : lcol) : nat := list_sum (dvals (votes_of c)).
  Definition share (k n : nat) : Q := match n with 0 => (Z.of_nat k # 1)%Q | S m => (Z.of_nat k # Pos.of_succ_nat m)%Q end.

  Fixpoint shares (d : dict L nat) (n : nat) (ls : list L) : result (dict L Q) :=
    match ls with
    | [] => Ok []
    | l :: r => match dget d l with
                | Some k => bind (shares d n r) (fun rest => Ok ((l, share k n) :: rest))
                | None => Err KeyError
                end
    end.
  (** label_representation, 280-297 *)
  Definition label_representation (c : lcol) : option (result (dict L Q)) :=
    match l_n c with 0 => None | _ => Some (shares (votes_of c) (Nat.max 1 (total c)) labels) end.

  (** avg_predictions, 271-278 *)
  Definition avg_predictions (c : lcol) : option (dict L Q) :=
    match l_n c with
    | 0 => None
    | S k => Some (combine labels (map (fun s => s / (Z.of_nat (S k) # 1))%Q (sums_of c)))
    end.

  (** [sorted(items, key=itemgetter(1), reverse=True)]: stable *)
  Fixpoint insert_votes (x : L * nat) (l : list (L * nat)) : list (L * nat) :=
    match l with [] => [x] | y :: r => if snd y <=? snd x then x :: y :: r else y :: insert_votes x r end.
  Definition sort_votes (l : list (L * nat)) : list (L * nat) := fold_right insert_votes [] l.

  (** data_label, 240-269; [Some None] is could not determine *)
  Definition close (top n : nat) (x : L * nat) : bool := Qle_bool (share top n - (1 # 5)) (share (snd x) n).
  Definition data_label (c : lcol) : option (result (option (list L))) :=
    match l_n c with
    | 0 => None
    | _ =>
        Some
          match firstn 3 (sort_votes (votes_of c)) with
          | [] => Err IndexError
          | (l, k) :: r =>
              if Qle_bool (35 # 100) (share k (Nat.max 1 (total c))) then Ok (Some (map fst (filter (close k (total c)) ((l, k) :: r))))
              else Ok None
          end
    end.
End Labels.

(** The comparison of 249-251 in double precision: [k / n - top / n >= -0.2] *)
From Coq Require Import SpecFloat.
Definition float_of (n : nat) : spec_float := binary_normalize 53 1024 (Z.of_nat n) 0 false.
Definition close_float (top n k : nat) : bool :=
  let div a b := SFdiv 53 1024 (float_of a) (float_of b) in
  SFleb (SFopp (div 1 5)) (SFsub 53 1024 (div k n) (div top n)).
