(** Scores of predictions: labelers/labeler_utils.py (evaluate_accuracy) and
    labelers/classification_report_utils.py.

    Labels are numbers below [num_labels].  A confusion matrix is a function of row (true label) and column
    (predicted label).  Scores are exact numbers.  [entity_rev_dict] is given sorted by number.  The printed
    report, the confusion matrix file and sample weights are left out. *)
From Coq Require Import QArith.
From Verif Require Import PyCommon PyDict PyString QFacts.
Local Open Scope nat_scope.

Definition cmatrix := nat -> nat -> nat.

Definition sum_to (n : nat) (f : nat -> nat) : nat := list_sum (map f (seq 0 n)).

(** ** classification_report_utils.py *)

(** One row of the MCM: 36-54 *)
Record mcm := mkMcm { tp : nat; fn : nat; fp : nat; tn : Z }.

Definition mcm_of (n : nat) (c : cmatrix) (i : nat) : mcm :=
  let t := sum_to n (fun j => if i =? j then c i j else 0) in
  let f_neg := sum_to n (fun j => if i =? j then 0 else c i j) in
  let f_pos := sum_to n (fun j => if i =? j then 0 else c j i) in
  mkMcm t f_neg f_pos (Z.of_nat (sum_to n (fun a => sum_to n (c a))) - Z.of_nat f_neg - Z.of_nat f_pos - Z.of_nat t).

(** sklearn's _prf_divide: 0 on division by 0 *)
Definition prf_divide (a b : nat) : Q := if b =? 0 then 0%Q else (Qn a / Qn b)%Q.

(** 200-202: [denom[denom == 0.0] = 1] *)
Definition f_score (beta2 p r : Q) : Q :=
  let denom := (beta2 * p + r)%Q in ((1 + beta2) * p * r / (if Qeq_bool denom 0 then 1 else denom))%Q.

Record scores := mkScores { s_p : Q; s_r : Q; s_f : Q }.

Definition scores_of (beta2 : Q) (t p a : nat) : scores :=
  let pr := prf_divide t p in let re := prf_divide t a in mkScores pr re (f_score beta2 pr re).

Definition class_scores (beta2 : Q) (m : mcm) : scores := scores_of beta2 (tp m) (tp m + fp m) (tp m + fn m).

Definition support (m : mcm) : nat := tp m + fn m.

(** precision_recall_fscore_support without averaging, 177-228 *)
Definition prf_none (beta2 : Q) (ms : list mcm) : list scores := map (class_scores beta2) ms.

(** average="micro", 182-185; the average of one value *)
Definition prf_micro (beta2 : Q) (ms : list mcm) : scores :=
  scores_of beta2 (list_sum (map tp ms)) (list_sum (map (fun m => tp m + fp m) ms)) (list_sum (map (fun m => tp m + fn m) ms)).

(** average="macro": [np.average] without weights, no value ([None]) for no labels *)
Definition prf_macro (beta2 : Q) (ms : list mcm) : option scores :=
  match ms with
  | [] => None
  | _ => let l := prf_none beta2 ms in Some (mkScores (qmean (map s_p l)) (qmean (map s_r l)) (qmean (map s_f l)))
  end.

(** average="weighted", 205-209 and 216-223 *)
Definition wmean (w : list nat) (l : list Q) : Q :=
  (qsum (map (fun wx => Qn (fst wx) * snd wx)%Q (combine w l)) / Qn (list_sum w))%Q.

Definition prf_weighted (beta2 : Q) (ms : list mcm) : scores :=
  let w := map support ms in
  if list_sum w =? 0 then mkScores 0 0 0
  else let l := prf_none beta2 ms in mkScores (wmean w (map s_p l)) (wmean w (map s_r l)) (wmean w (map s_f l)).

(** precision_recall_fscore_support 157-228 with its checks; [np.take] fails for a label out of range *)
Inductive average := ANoAverage | AMicro | AMacro | AWeighted.

Definition prf (beta : Q) (avg : average) (n : nat) (c : cmatrix) (labels : list nat) : result (list (option scores)) :=
  if Qle_bool beta 0 then Err ValueError
  else if existsb (fun l => n <=? l) labels then Err IndexError
  else
    let ms := map (mcm_of n c) labels in
    let b2 := (beta * beta)%Q in
    Ok (match avg with
        | ANoAverage => map Some (prf_none b2 ms)
        | AMicro => [Some (prf_micro b2 ms)]
        | AMacro => [prf_macro b2 ms]
        | AWeighted => [Some (prf_weighted b2 ms)]
        end).

(** ** labeler_utils.py *)

(** 125-128: rows of the true labels are filled with 0 up to the length of the first prediction *)
Definition pad_row (max_len : nat) (row : list nat) : result (list nat) :=
  if max_len <? length row then Err ValueError else Ok (row ++ repeat 0 (max_len - length row)).

Fixpoint pad_rows (max_len : nat) (rows : list (list nat)) : result (list (list nat)) :=
  match rows with
  | [] => Ok []
  | r :: rs => bind (pad_row max_len r) (fun r' => bind (pad_rows max_len rs) (fun rs' => Ok (r' :: rs')))
  end.

(** [scipy.sparse.coo_matrix((ones, (true, pred)), shape).toarray()]: counts the pairs *)
Definition count_pair (i j : nat) (ps : list (nat * nat)) : nat :=
  length (filter (fun p => (fst p =? i) && (snd p =? j)) ps).

Definition coo (n : nat) (t p : list nat) : result cmatrix :=
  if negb (length t =? length p) then Err ValueError
  else if existsb (fun x => n <=? x) (t ++ p) then Err ValueError
  else Ok (fun i j => count_pair i j (combine t p)).

(** The loop over batches, 142-154; [k] is the number of batches to go, [b] batch_ind *)
Fixpoint conf_loop (n bs : nat) (t p : list nat) (k b : nat) (acc : cmatrix) : result cmatrix :=
  match k with
  | 0 => Ok acc
  | S k' =>
      bind (coo n (slice t (bs * b) ((b + 1) * bs)) (slice p (bs * b) ((b + 1) * bs))) (fun c =>
      conf_loop n bs t p k' (S b) (fun i j => acc i j + c i j))
  end.

(** 123-154; [limit] is 2**20 *)
Definition confusion (limit n : nat) (pred true_ : list (list nat)) : result cmatrix :=
  match pred with
  | [] => Err IndexError
  | p0 :: _ =>
      bind (pad_rows (length p0) true_) (fun padded =>
      let t := concat padded in
      let p := concat pred in
      let bs := Nat.min limit (length t) in
      if bs =? 0 then Err ZeroDivisionError
      else conf_loop n bs t p (length t / bs + 1) 0 (fun _ _ => 0))
  end.

Local Open Scope string_scope.
Local Open Scope nat_scope.

(** 109-121: names and numbers of the labels that are not omitted *)
Definition kept_labels (omitted : list string) (rev : list (nat * string)) : list (nat * string) :=
  filter (fun x => negb (lmem omitted (snd x))) rev.

Definition reserved : list string := ["accuracy"; "macro avg"; "weighted avg"; "micro avg"].

(** Rows of the report: classification_report 345-355, a dictionary by name; only the support is used
    afterwards.  The averages are added under reserved names. *)
Definition report_rows (names : list string) (ms : list mcm) : dict string nat :=
  fold_left (fun d kv => dset d (fst kv) (snd kv)) (combine names (map support ms)) [].

(** 183-189: the number of rows with positive support *)
Definition supported (rows : dict string nat) : nat :=
  length (filter (fun kv => negb (lmem reserved (fst kv)) && negb (snd kv =? 0)) rows).

(** evaluate_accuracy 80-214: the returned score.  [rev] is [None] if no entity_rev_dict (or an empty one) is
    given: then all labels count, under their printed numbers [show].  [Ok None] is NaN. *)
Definition evaluate (show : nat -> string) (limit n : nat) (pred true_ : list (list nat)) (omitted : list string)
    (rev : option (list (nat * string))) : result (option Q) :=
  bind (confusion limit n pred true_) (fun c =>
  let kept := match rev with Some r => kept_labels omitted r | None => [] end in
  let names := match rev with Some _ => map snd kept | None => map show (seq 0 n) end in
  let idx := match rev with Some _ => map fst kept | None => seq 0 n end in
  if existsb (fun l => n <=? l) idx then Err IndexError
  else if length idx =? 0 then Err TypeError   (* the empty array of labels has no integer type *)
  else
    let ms := map (mcm_of n c) idx in
    let pos := supported (report_rows names ms) in
    match prf_macro 1 ms with
    | None => Ok None
    | Some sc =>
        if pos =? 0 then Ok None
        else match rev with
             | None => Ok (Some 0%Q)
             | Some _ => Ok (Some (s_f sc * (Qn (length names) / Qn pos))%Q)
             end
    end).
