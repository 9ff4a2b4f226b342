(** Model of profilers/data_labeler_column_profile.py for labelers that change: which cells are labelled
    (update 451-479), the labels a column goes by (reverse_label_mapping 196-203, possible_data_labels
    205-216, rank_distribution 218-223, sum_predictions 225-233), what a failed update leaves behind
    (_update_predictions 395-437) and when columns can be merged (assert_equal_conditions 77-129,
    __add__ 131-194).

    The labeler is an object that others may change between the calls: its state is an argument of every
    function. The limits for voting and labels are the fixed ones of the constructor (60-67). Numbers are
    exact. [best] as in LabelColModel. *)
From Coq Require Import ZArith QArith.
From Verif Require Import PyCommon PyDict PyString LabelColModel.
Local Open Scope nat_scope.

Section Names.
  Context {L X : Type} {E : EqDecB L}.

  (** What a column asks its labeler for *)
  Record labeler := mkLabeler {
    b_mapping : dict nat L;             (* reverse_label_mapping *)
    b_zero : bool;                      (* model.requires_zero_mapping *)
    b_num : nat;                        (* model.num_labels *)
    b_predict : X -> list Q             (* confidences of a cell, predict(...)["conf"] *)
  }.
  Variable best : list Q -> nat.
  (** [df_series.sample(k)] *)
  Variable sample : nat -> list X -> list X.

  Record col := mkCol {
    k_name : string;
    k_max : nat;                        (* _max_sample_size *)
    k_reverse : option (dict nat L);    (* _reverse_label_mapping *)
    k_labels : option (list L);         (* _possible_data_labels *)
    k_votes : option (dict L nat);      (* _rank_distribution *)
    k_sums : option (list Q);           (* _sum_predictions *)
    k_n : nat                           (* sample_size *)
  }.
  (** __init__ 33-42: [if options.max_sample_size] *)
  Definition new_col (name : string) (max_sample_size : option nat) : col :=
    mkCol name (match max_sample_size with Some (S k) => S k | _ => 1000 end) None None None None 0.

  (** reverse_label_mapping *)
  Definition get_reverse (b : labeler) (c : col) : dict nat L * col :=
    match k_reverse c with
    | Some r => (r, c)
    | None => let r := reverse_mapping (b_mapping b) (b_zero b) in
              (r, mkCol (k_name c) (k_max c) (Some r) (k_labels c) (k_votes c) (k_sums c) (k_n c))
    end.
  (** possible_data_labels *)
  Definition get_labels (b : labeler) (c : col) : list L * col :=
    match k_labels c with
    | Some l => (l, c)
    | None => let '(r, c) := get_reverse b c in
              let l := map snd (sort_keys r) in
              (l, mkCol (k_name c) (k_max c) (k_reverse c) (Some l) (k_votes c) (k_sums c) (k_n c))
    end.
  (** rank_distribution *)
  Definition get_votes (b : labeler) (c : col) : dict L nat * col :=
    match k_votes c with
    | Some v => (v, c)
    | None => let '(l, c) := get_labels b c in
              let v := fold_left (fun d l => dset d l 0) l [] in
              (v, mkCol (k_name c) (k_max c) (k_reverse c) (k_labels c) (Some v) (k_sums c) (k_n c))
    end.
  Definition get_sums (b : labeler) (c : col) : list Q :=
    match k_sums c with Some s => s | None => repeat 0%Q (width (b_zero b) (b_num b)) end.
  Definition with_votes (c : col) (v : dict L nat) : col :=
    mkCol (k_name c) (k_max c) (k_reverse c) (k_labels c) (Some v) (k_sums c) (k_n c).

  (** [self.rank_distribution[self.reverse_label_mapping[value + start_index]] += 1] (434-437) *)
  Definition vote_row (b : labeler) (c : col) (row : list Q) : col * option exn :=
    match row with
    | [] => (c, Some ValueError)
    | _ =>
        let v := best row in
        if above (nth v row 0%Q) then
          let '(d, c) := get_votes b c in
          let '(r, c) := get_reverse b c in
          match dget r (v + start (b_zero b)) with
          | Some l => match dget d l with Some k => (with_votes c (dset d l (k + 1)), None) | None => (c, Some KeyError) end
          | None => (c, Some KeyError)
          end
        else (c, None)
    end.
  Fixpoint vote_rows (b : labeler) (c : col) (rows : list (list Q)) : col * option exn :=
    match rows with
    | [] => (c, None)
    | r :: rs => let '(c, e) := vote_row b c r in match e with Some x => (c, Some x) | None => vote_rows b c rs end
    end.

  (** update 451-479: the cells that are labelled *)
  Definition labelled (c : col) (cells : list X) : list X :=
    match cells with [] => [] | _ => sample (Nat.min (length cells) (k_max c)) cells end.
  (** The sums (417-423) come first, then the votes, then the number of cells (479). [+=] of two vectors needs
      equal lengths, or a second one of length one *)
  Definition add_rows (s : list Q) (w : nat) (rows : list (list Q)) : option (list Q) :=
    if length s =? w then Some (fold_left vadd rows s)
    else if w =? 1 then Some (map (fun x => fold_left (fun a r => (a + nth 0 r 0)%Q) rows x) s)
    else None.
  Definition update (b : labeler) (c : col) (cells : list X) : col * option exn :=
    match cells with
    | [] => (c, None)
    | _ =>
        let rows := map (fun x => delete_pad (b_zero b) (b_predict b x)) (labelled c cells) in
        let s := get_sums b c in
        match add_rows s (width (b_zero b) (b_num b)) rows with
        | None => (mkCol (k_name c) (k_max c) (k_reverse c) (k_labels c) (k_votes c) (Some s) (k_n c), Some ValueError)
        | Some s' =>
            let c := mkCol (k_name c) (k_max c) (k_reverse c) (k_labels c) (k_votes c) (Some s') (k_n c) in
            let '(c, e) := vote_rows b c rows in
            match e with
            | Some x => (c, Some x)
            | None => (mkCol (k_name c) (k_max c) (k_reverse c) (k_labels c) (k_votes c) (k_sums c) (k_n c + Nat.min (length cells) (k_max c)), None)
            end
        end
    end.

  (** label_representation 280-297 and avg_predictions 271-278, as report (299-308, 347-357) reads them *)
  Definition representation (b : labeler) (c : col) : option (result (dict L Q)) * col :=
    match k_n c with
    | 0 => (None, c)
    | _ => let '(l, c) := get_labels b c in
           let '(v, c) := get_votes b c in
           (Some (shares v (Nat.max 1 (list_sum (dvals v))) l), c)
    end.
  Definition averages (b : labeler) (c : col) : option (dict L Q) * col :=
    match k_n c with
    | 0 => (None, c)
    | S k => let '(l, c) := get_labels b c in
             (Some (combine l (map (fun s => s / (Z.of_nat (S k) # 1))%Q (get_sums b c))), c)
    end.

  (** [==] of lists of labels *)
  Fixpoint same_labels (a b : list L) : bool :=
    match a, b with
    | [], [] => true
    | x :: a, y :: b => PyDict.eqb x y && same_labels a b
    | _, _ => false
    end.

  (** __add__ 131-194 with assert_equal_conditions: [same] is the comparison of the labelers. The operands are returned too:
      comparing their labels (109) makes them. *)
  Definition add (same : bool) (order : list L -> list L) (b1 b2 : labeler) (c1 c2 : col) : result col * col * col :=
    if negb same || negb (k_max c1 =? k_max c2) then (Err AttributeError, c1, c2)
    else
      let '(l1, c1) := get_labels b1 c1 in
      let '(l2, c2) := get_labels b2 c2 in
      if negb (same_labels l1 l2) then (Err ValueError, c1, c2)
      else if negb (String.eqb (k_name c1) (k_name c2)) then (Err ValueError, c1, c2)
      else
        let merged v s := mkCol (k_name c1) (k_max c1) None (k_labels c1) v s (k_n c1 + k_n c2) in
        if (k_n c1 =? 0) && (k_n c2 =? 0) then (Ok (merged None None), c1, c2)
        else
          match k_votes c1, k_votes c2 with
          | Some v1, Some v2 =>
              let v := map (fun l => (l, get0 v1 l + get0 v2 l)) (order (distinct (dkeys v1 ++ dkeys v2))) in
              match k_sums c1, k_sums c2 with
              | Some s1, Some s2 =>
                  if length s1 =? length s2 then (Ok (merged (Some v) (Some (vadd s1 s2))), c1, c2) else (Err ValueError, c1, c2)
              | _, _ => (Err TypeError, c1, c2)
              end
          | _, _ => (Err TypeError, c1, c2)
          end.
End Names.
Arguments labeler : clear implicits.
Arguments col : clear implicits.
