(** Regular-expression labelling: labelers/regex_model.py (predict) and labelers/data_processing.py
    (RegexPostProcessor, StructRegexPostProcessor, StructCharPostprocessor.convert_to_structured_analysis).

    Texts, patterns and label names are of arbitrary types; the regular-expression engine is an arbitrary
    function from a pattern and a text to the list of spans found.  Votes are counts, confidences exact
    numbers.  The verbose output is left out. *)
From Coq Require Import QArith.
From Verif Require Import PyCommon PyDict PyString RowModel QFacts.
Local Open Scope nat_scope.

Definition matrix := list (list nat).      (* characters x labels *)

Section Predict.
  Context {N T P : Type} {EN : EqDecB N}.
  Variable tlen : T -> nat.
  Variable finds : P -> T -> list (nat * nat).     (* [finditer] of the compiled pattern: spans *)

  (** base_model.py 147-149; the mapping is not empty where this is used *)
  Definition num_labels (m : dict N nat) : nat := S (List.list_max (dvals m)).

  Definition inside (sp : nat * nat) (i : nat) : bool := (fst sp <=? i) && (i <? snd sp).

  (** regex_model.py 244-245: [pred[b:e, default_ind] = 0; pred[b:e, entity_id] = 1] *)
  Definition paint (d ent : nat) (pred : matrix) (sp : nat * nat) : matrix :=
    map (fun ir : nat * list nat => let (i, row) := ir in
           if inside sp i then set_nth (set_nth row d 0) ent 1 else row)
        (combine (seq 0 (length pred)) pred).

  (** The loop over labels, patterns and finds for one text, 233-245 *)
  Definition predict_one (m : dict N nat) (pats : dict N (list P)) (d : nat) (t : T) : result matrix :=
    fold_left (fun acc lp =>
      bind acc (fun pred =>
        match dget m (fst lp) with
        | None => Err KeyError
        | Some ent =>
            Ok (fold_left (fun pr p => fold_left (paint d ent) (finds p t) pr) (snd lp) pred)
        end)) pats
      (Ok (repeat (set_nth (repeat 0 (num_labels m)) d 1) (tlen t))).

  (** One round of the loop over the data, 225-249; [None] is the place holder [np.empty((0,))] *)
  Definition store (preds : list (option matrix)) (i : nat) (pred : matrix) : list (option matrix) :=
    set_nth (if length preds <=? i then preds ++ repeat None (length preds) else preds) i (Some pred).

  Fixpoint predict_loop m pats d (data : list T) (i : nat) (preds : list (option matrix)) : result (list (option matrix)) :=
    match data with
    | [] => Ok preds
    | t :: r => bind (predict_one m pats d t) (fun pred => predict_loop m pats d r (S i) (store preds i pred))
    end.

  (** RegexModel.predict 177-265, the part that yields "pred"; [i] stays 0 when there is no data *)
  Definition predict (m : dict N nat) (pats : dict N (list P)) (default : N) (data : list T)
    : result (list (option matrix)) :=
    match dget m default with
    | None => Err KeyError
    | Some d => bind (predict_loop m pats d data 0 (repeat None 100)) (fun preds => Ok (firstn (S (length data - 1)) preds))
    end.
End Predict.

(** [x / np.linalg.norm(x, axis=1, ord=1, keepdims=True)] for one row, regex_model.py 258-263 and
    data_processing.py 2024-2027; [None] is NaN (a row without votes). *)
Definition share_row (row : list nat) : option (list Q) :=
  if list_sum row =? 0 then None else Some (map (fun v => (Qn v / Qn (list_sum row))%Q) row).

(** First index of a largest element, [np.argmax]; [lt best x] says that [x] is larger. *)
Fixpoint argmax_from {X} (lt : X -> X -> bool) (best : X) (bi i : nat) (l : list X) : nat :=
  match l with
  | [] => bi
  | x :: r => if lt best x then argmax_from lt x i (S i) r else argmax_from lt best bi (S i) r
  end.

Definition argmax {X} (lt : X -> X -> bool) (l : list X) : option nat :=
  match l with [] => None | x :: r => Some (argmax_from lt x 0 1 r) end.

Fixpoint takes_at {X} (row : list X) (order : list nat) : option (list X) :=
  match order with
  | [] => Some []
  | j :: r => match nth_error row j, takes_at row r with Some v, Some vs => Some (v :: vs) | _, _ => None end
  end.

(** priority_prediction, data_processing.py 1997-2013, for one character:
    [entity_priority_order[np.argmax(pred[:, entity_priority_order])]] *)
Definition priority_row (order : list nat) (row : list nat) : result nat :=
  match takes_at row order with
  | None => Err IndexError
  | Some vs =>
      match argmax Nat.ltb vs with
      | None => Err ValueError
      | Some k => match nth_error order k with Some l => Ok l | None => Err IndexError end
      end
  end.

Inductive agg := Split | Priority | Random.

Inductive votes := VShares (r : list (list (option (list Q)))) | VLabels (r : list (list nat)).

Fixpoint mapR {X Y} (f : X -> result Y) (l : list X) : result (list Y) :=
  match l with [] => Ok [] | x :: r => bind (f x) (fun y => bind (mapR f r) (fun ys => Ok (y :: ys))) end.

(** RegexPostProcessor.process, 2029-2058; [order] is the stored priority order ([None] if unset: an
    array that cannot index), [shuffled] what [random_state.shuffle] makes of [range(num_labels)]. *)
Definition regex_process (a : agg) (order : option (list nat)) (shuffled : list nat) (preds : list matrix) : result votes :=
  match a with
  | Split => Ok (VShares (map (map share_row) preds))
  | Priority => match order with
                | None => Err IndexError
                | Some o => bind (mapR (mapR (priority_row o)) preds) (fun r => Ok (VLabels r))
                end
  | Random => bind (mapR (mapR (priority_row shuffled)) preds) (fun r => Ok (VLabels r))
  end.

(** StructRegexPostProcessor.process, 2167-2195, for one cell: mean of the shares over the characters,
    then the first largest.  The mean is NaN (no number) for a cell without characters or with a
    character without votes, and [np.argmax] of NaNs is 0. *)
Fixpoint seqO {X} (l : list (option X)) : option (list X) :=
  match l with
  | [] => Some []
  | None :: _ => None
  | Some x :: r => match seqO r with Some xs => Some (x :: xs) | None => None end
  end.

Definition column (j : nat) (rows : list (list Q)) : list Q := map (fun r => nth j r 0%Q) rows.

Definition cell_means (nl : nat) (rows : list (option (list Q))) : option (list Q) :=
  match seqO rows with
  | None => None
  | Some [] => None
  | Some rs => Some (map (fun j => qmean (column j rs)) (seq 0 nl))
  end.

Definition Qltb (a b : Q) : bool := negb (Qle_bool b a).

Definition struct_cell (nl : nat) (cell : matrix) : nat * option (list Q) :=
  let means := cell_means nl (map share_row cell) in
  (match means with
   | None => 0
   | Some ms => match argmax Qltb ms with Some k => k | None => 0 end
   end, means).

Definition struct_process (nl : nat) (preds : list matrix) : list (nat * option (list Q)) := map (struct_cell nl) preds.

(** convert_to_structured_analysis, 1740-1805, for one cell.  [labels] is what the model predicted,
    [n] is [len(str(sample))], [choose] the random choice. *)
Section Mode.
  Variable choose : list nat -> nat.     (* [random_state.choice] *)

  (** [Counter(column_labels[:n])], 1782 *)
  Definition tally (ls : list nat) : dict nat nat :=
    fold_left (fun d l => dset d l (S (match dget d l with Some c => c | None => 0 end))) ls [].

  (** [column_label_counter.pop(ignore_value, None)], 1783 *)
  Definition cell_counter (pad n : nat) (labels : list nat) : dict nat nat := ddel (tally (firstn n labels)) pad.

  (** The labels that share the largest count, 1784-1788.  [most_common] sorts by count, equal counts
      in order of first occurrence, so the labels with the largest count come in that order. *)
  Definition modes (c : dict nat nat) : list nat :=
    map fst (filter (fun kv => snd kv =? List.list_max (dvals c)) c).

  (** [modes.remove(default_ind)], 1796 (first occurrence) *)
  Fixpoint remove1 (x : nat) (l : list nat) : list nat :=
    match l with [] => [] | y :: r => if x =? y then r else y :: remove1 x r end.

  (** 1789-1797; [None] is NaN *)
  Definition cell_label (bg : nat) (c : dict nat nat) : option nat :=
    match modes c with
    | [] => None
    | [x] => Some x
    | ms => Some (choose (if lmem ms bg then remove1 bg ms else ms))
    end.

  (** 1798-1801 *)
  Definition cell_conf (nl : nat) (c : dict nat nat) : list Q :=
    fold_left (fun row kv => set_nth row (fst kv) (Qn (snd kv) / Qn (list_sum (dvals c)))%Q) c (repeat 0%Q nl).

  Definition structured_cell (bg pad nl n : nat) (labels : list nat) : option nat * list Q :=
    let c := cell_counter pad n labels in (cell_label bg c, cell_conf nl c).
End Mode.

(** Parameters of RegexPostProcessor: _validate_parameters 1915-1964 and BaseDataProcessor.set_params
    121-127.  The random state is left out. *)
Local Open Scope string_scope.
Local Open Scope nat_scope.

Inductive pv := PStr (s : string) | PNone | PList (l : list nat) | POther.

Definition agg_of (s : string) : option agg :=
  let l := lower_string s in
  if PyDict.eqb l "split" then Some Split else if PyDict.eqb l "priority" then Some Priority
  else if PyDict.eqb l "random" then Some Random else None.

(** One turn of the loop over the parameters; [true] if an error is recorded *)
Definition bad_param (stored kwargs : dict string pv) (p : string) (v : pv) : bool :=
  if PyDict.eqb p "aggregation_func" then
    match v with PStr s => match agg_of s with None => true | Some _ => false end | _ => true end
  else if PyDict.eqb p "priority_order" then
    match v with
    | PNone =>
        match (match dget kwargs "aggregation_func" with Some a => Some a | None => dget stored "aggregation_func" end) with
        | Some (PStr s) => PyDict.eqb s "priority"
        | _ => false
        end
    | PList _ => false
    | _ => true
    end
  else true.

Definition set_params (stored kwargs : dict string pv) : result (dict string pv) :=
  if existsb (fun kv => bad_param stored kwargs (fst kv) (snd kv)) kwargs then Err ValueError
  else Ok (dupdate stored kwargs).

(** __init__ 1871-1910: all parameters are given, none is stored *)
Definition new_processor (a o : pv) : result (dict string pv) :=
  set_params [] [("aggregation_func", a); ("priority_order", o)].

(** Calls of set_params on one processor; a call that fails leaves it as it is *)
Definition configure (st : dict string pv) (calls : list (dict string pv)) : dict string pv :=
  fold_left (fun st kw => match set_params st kw with Ok st' => st' | Err _ => st end) calls st.

(** process 2029-2058 with the stored parameters *)
Definition run_process (st : dict string pv) (shuffled : list nat) (preds : list matrix) : result votes :=
  match dget st "aggregation_func" with
  | Some (PStr s) =>
      match agg_of s with
      | Some a => regex_process a (match dget st "priority_order" with Some (PList l) => Some l | _ => None end) shuffled preds
      | None => Err ValueError
      end
  | _ => Err AttributeError
  end.
