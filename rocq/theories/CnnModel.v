(** * The character model: its labels and its predictions

    labelers/character_level_cnn_model.py, class CharacterLevelCnnModel:
    set_label_mapping (346-375), _need_to_reconstruct_model (377-389), save_to_disk (391-410), when a net
    is built (_construct_model 478-594, reset_weights 596-602, _reconstruct_model
    604-655, fit 657-746, load_from_disk 413-453) and predict (808-903).

    The net itself is an oracle: it is given a batch of samples and returns a row
    for every sample.  Training is not modelled beyond when the net is rebuilt, and
    never fails.  Numbers of labels are natural numbers as in LabelModel. *)
From Coq Require Import List Arith Bool Lia.
Import ListNotations.
From Verif Require Import PyCommon PyDict PyString LabelModel.
Local Open Scope string_scope.
Local Open Scope nat_scope.

(** The mapping of labels, the parameter [default_label], and for a model with a
    net [_model_num_labels] and [_model_default_ind] *)
Record cnn := mkCnn {
  c_map : dict string nat;
  c_default : string;
  c_net : option (nat * nat)
}.

(** set_label_mapping, 346-375; a call that fails leaves the mapping as it is *)
Definition cnn_set (m : cnn) (a : mapping_arg) : cnn * option exn :=
  let put (a' : mapping_arg) :=
    match set_label_mapping true a' with
    | Ok d => (mkCnn d (c_default m) (c_net m), None)
    | Err e => (m, Some e)
    end in
  match a with
  | MOther => (m, Some TypeError)
  | MList l =>
      let l' := if lmem l "PAD" then l else "PAD" :: l in
      if lmem l' (c_default m) then put (MList l') else (m, Some ValueError)
  | MDict d =>
      let d' := if dmem d "PAD" then d
                else if lmem (dvals d) 0 then d else dset d "PAD" 0 in
      match dget d' "PAD" with
      | Some 0 => if dmem d' (c_default m) then put (MDict d') else (m, Some ValueError)
      | _ => (m, Some ValueError)
      end
  end.

(** _need_to_reconstruct_model, 377-389 *)
Definition need_to_reconstruct (m : cnn) : result bool :=
  match c_net m with
  | None => Ok false
  | Some (n, d) =>
      match dget (c_map m) (c_default m) with
      | None => Err KeyError
      | Some i => Ok (negb (num_labels (c_map m) =? n) || negb (i =? d))
      end
  end.

(** The numbers that a net is built with: 486-487 and 593-594, 613-614 and 654-655 *)
Definition build (m : cnn) : cnn * option exn :=
  match dget (c_map m) (c_default m) with
  | None => (m, Some KeyError)
  | Some i => (mkCnn (c_map m) (c_default m) (Some (num_labels (c_map m), i)), None)
  end.

(** fit, 689-695; save_to_disk, 399-402, rebuilds the net in the same way *)
Definition cnn_fit (m : cnn) : cnn * option exn :=
  match c_net m with
  | None => build m
  | Some _ =>
      match need_to_reconstruct m with
      | Err e => (m, Some e)
      | Ok true => build m
      | Ok false => (m, None)
      end
  end.

(** The checks at the beginning of predict, 829-840 *)
Definition may_predict (m : cnn) : result unit :=
  match c_net m with
  | None => Err ValueError
  | Some _ =>
      match need_to_reconstruct m with
      | Err e => Err e
      | Ok true => Err RuntimeErr
      | Ok false => Ok tt
      end
  end.

(** Calls of the model; [KDefault] is set_params(default_label=...) with a text,
    base_model.py 188-194 *)
Inductive kcall := KSet (a : mapping_arg) | KAdd (label same_as : arg) | KDefault (d : string) | KFit | KSave | KReset.

Definition kexec (m : cnn) (c : kcall) : cnn * option exn :=
  match c with
  | KSet a => cnn_set m a
  | KAdd l s =>
      match add_label (c_map m) l s with
      | Ok d => (mkCnn d (c_default m) (c_net m), None)
      | Err e => (m, Some e)
      end
  | KDefault d => (mkCnn (c_map m) d (c_net m), None)
  | KFit | KSave => cnn_fit m
  | KReset => build m
  end.

Definition krun (m : cnn) (cs : list kcall) : cnn := fold_left (fun m c => fst (kexec m c)) cs m.

(** ** predict *)
Section Predict.
Variable T P F : Type.
(** [len(x[0])] of a sample *)
Variable tlen : T -> nat.
(** What [np.zeros] has in the rows for predictions and for confidences *)
Variable zp : list P.
Variable zf : list F.
(** The outputs 1 and 0 of the net *)
Variable net : list T -> list (list P).
Variable netc : list T -> list (list F).

Record arrays := mkArr { a_pred : list (list P); a_len : list nat; a_conf : list (list F) }.

(** [array[start : start + len(rows)] = rows] of numpy: one row is broadcast *)
Definition assign {A : Type} (arr : list A) (start : nat) (rows : list A) : result (list A) :=
  let n := length rows in
  if Nat.min n (length arr - start) =? n
  then Ok (firstn start arr ++ rows ++ skipn (start + n) arr)
  else if n =? 1 then Ok arr else Err ValueError.

(** 859-874: twice as many rows.  The array of confidences grows by the new number
    of rows for predictions. *)
Definition grow (show : bool) (a : arrays) (start : nat) : arrays :=
  if length (a_pred a) <=? start
  then let p := a_pred a ++ repeat zp (length (a_pred a)) in
       mkArr p (a_len a ++ repeat 0 (length (a_len a)))
         (if show then a_conf a ++ repeat zf (length p) else a_conf a)
  else a.

(** 852-887: one batch, and the next value of allocation_index *)
Definition batch_step (show : bool) (bs k : nat) (a : arrays) (b : list T) : result (arrays * nat) :=
  let start := k * bs in
  let a1 := grow show a start in
  match (if show then assign (a_conf a1) start (netc b) else Ok (a_conf a1)) with
  | Err e => Err e
  | Ok c =>
      match assign (a_pred a1) start (net b) with
      | Err e => Err e
      | Ok p =>
          match assign (a_len a1) start (map tlen b) with
          | Err e => Err e
          | Ok l => Ok (mkArr p l c, start + length b)
          end
      end
  end.

Fixpoint batch_loop (show : bool) (bs k : nat) (a : arrays) (alloc : nat) (data : list (list T))
    : result (arrays * nat) :=
  match data with
  | [] => Ok (a, alloc)
  | b :: r =>
      match batch_step show bs k a b with
      | Err e => Err e
      | Ok (a', alloc') => batch_loop show bs (S k) a' alloc' r
      end
  end.

(** What stands in a list of results: the number put there in 890-893, or a row *)
Inductive item (A : Type) := INum (i : nat) | IRow (l : list A).
Arguments INum {A}. Arguments IRow {A}.

(** 889-899 *)
Definition cut {A : Type} (lens : list nat) (rows : list (list A)) (alloc : nat) : list (item A) :=
  map (fun i => match nth_error lens i with
                | Some n => IRow (firstn n (nth i rows []))
                | None => INum i
                end) (seq 0 alloc).

(** 808-903 *)
Definition predict (m : cnn) (data : list (list T)) (bs : nat) (show : bool)
    : result (list (item P) * option (list (item F))) :=
  match may_predict m with
  | Err e => Err e
  | Ok _ =>
      let a0 := mkArr (repeat zp bs) (repeat 0 bs) (if show then repeat zf bs else []) in
      match batch_loop show bs 0 a0 0 data with
      | Err e => Err e
      | Ok (a, alloc) =>
          Ok (cut (a_len a) (a_pred a) alloc,
              if show then Some (cut (a_len a) (a_conf a) alloc) else None)
      end
  end.

End Predict.
Arguments INum {A}. Arguments IRow {A}.
