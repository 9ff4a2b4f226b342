(** The order of a column: profilers/order_column_profile.py.

    Cells are text ([C]).  [parse] is [float(cell)] ([None] where it raises ValueError) and [show] is
    [str(number)].  Both and the two orders are arbitrary; Python's [float] comparisons are total on
    numbers, NaN is removed as a null value before the profile sees the data. *)
From Coq Require Import List Bool Arith Lia.
Import ListNotations.

(** The values of [self.order] other than None. *)
Inductive ord := Asc | Desc | Const | Random.

Definition ord_eqb (a b : ord) : bool :=
  match a, b with
  | Asc, Asc | Desc, Desc | Const, Const | Random, Random => true
  | _, _ => false
  end.

Section Order.
  Context {N C : Type}.
  Variable nltb : N -> N -> bool.   (* < on numbers *)
  Variable cltb : C -> C -> bool.   (* < on text *)
  Variable parse : C -> option N.
  Variable show : N -> C.

  (** What a profile stores as first and last value: a number or a text. *)
  Inductive value := VN (n : N) | VS (c : C).

  (** Python's [<].  A number is never compared with a text: [C17_values_of_one_kind]. *)
  Definition vltb (a b : value) : bool :=
    match a, b with
    | VN x, VN y => nltb x y
    | VS x, VS y => cltb x y
    | _, _ => false
    end.

  (** [v1 == v2] for values of a total order. *)
  Definition veqb (a b : value) : bool := negb (vltb a b) && negb (vltb b a).

  (** Python's [min] and [max]: the first of several equal values. *)
  Definition vmin (a b : value) : value := if vltb b a then b else a.
  Definition vmax (a b : value) : value := if vltb a b then b else a.

  (** order, _first_value, _last_value, _piecewise, _data_store_type is str
      (order_column_profile.py:53-57).  Before the first value order and both values are None; the
      profile is then in its initial state, which is [None] below. *)
  Record info := mkInfo {
    i_order : ord;
    i_first : value;
    i_last : value;
    i_piecewise : bool;
    i_text : bool
  }.

  (** order_column_profile.py:63-100 *)
  Definition is_intersecting (f1 l1 f2 l2 : value) : bool :=
    let low1 := vmin f1 l1 in
    let high1 := vmax f1 l1 in
    let low2 := vmin f2 l2 in
    let high2 := vmax f2 l2 in
    (vltb low2 low1 && vltb low1 high2)
    || (vltb low2 high1 && vltb high1 high2)
    || (vltb low1 low2 && vltb low2 high1)
    || (vltb low1 high2 && vltb high2 high1)
    || (veqb low1 low2 && veqb high1 high2).

  (** order_column_profile.py:102-131 *)
  Definition is_enveloping (f1 l1 f2 l2 : value) : bool :=
    let low1 := vmin f1 l1 in
    let high1 := vmax f1 l1 in
    let low2 := vmin f2 l2 in
    let high2 := vmax f2 l2 in
    vltb low1 low2 && vltb high2 high1.

  (** [str(v)] *)
  Definition vstr (v : value) : value :=
    match v with
    | VN n => VS (show n)
    | VS c => VS c
    end.

  (** order_column_profile.py:134-262, both orders present *)
  Definition merge_info (a b : info) : info :=
    let text := i_text a || i_text b in
    let coerce v := if text then vstr v else v in
    let f1 := coerce (i_first a) in
    let l1 := coerce (i_last a) in
    let f2 := coerce (i_first b) in
    let l2 := coerce (i_last b) in
    let o1 := i_order a in
    let o2 := i_order b in
    let p1 := i_piecewise a in
    let p2 := i_piecewise b in
    let inter := is_intersecting f1 l1 f2 l2 in
    let self_env := is_enveloping f1 l1 f2 l2 in
    let other_env := is_enveloping f2 l2 f1 l1 in
    let o :=
      if ord_eqb o1 Random || ord_eqb o2 Random then Random
      else if ord_eqb o1 o2 then
        if negb inter || (p1 && p2) then o1
        else if p1 && self_env then o1
        else if p2 && other_env then o1
        else if ord_eqb o1 Const then o1
        else Random
      else if (ord_eqb o1 Asc && ord_eqb o2 Desc) || (ord_eqb o1 Desc && ord_eqb o2 Asc) then Random
      else if negb inter then
        if ord_eqb o1 Asc || ord_eqb o2 Asc then Asc else Desc
      else if ord_eqb o1 Const && p2 then o2
      else if ord_eqb o2 Const && p1 then o1
      else Random in
    let first :=
      match o with
      | Asc => vmin f1 f2
      | Desc => vmax f1 f2
      | Random | Const => vmin (vmin (vmin f1 f2) l1) l2
      end in
    let last :=
      match o with
      | Asc => vmax l1 l2
      | Desc => vmin l1 l2
      | Random | Const => vmax (vmax (vmax f1 f2) l1) l2
      end in
    let piecewise := negb ((ord_eqb o Const && veqb first last) || ord_eqb o Random) in
    mkInfo o first last piecewise text.

  (** order_column_profile.py:174-178: an empty side leaves the other unchanged *)
  Definition merge_order (a b : option info) : option info :=
    match a, b with
    | None, _ => b
    | _, None => a
    | Some x, Some y => Some (merge_info x y)
    end.

  (** The loop of order_column_profile.py:398-409 with [last_value]; [None] is no order yet. *)
  Fixpoint scan (order : option ord) (last : value) (vs : list value) : option ord * value :=
    match vs with
    | [] => (order, last)
    | v :: r =>
        match order with
        | Some Asc => if vltb v last then (Some Random, last) else scan order v r
        | Some Desc => if vltb last v then (Some Random, last) else scan order v r
        | None => if vltb v last then scan (Some Desc) v r
                  else if vltb last v then scan (Some Asc) v r
                  else scan None v r
        | _ => scan order v r
        end
    end.

  (** [df_series.astype(float)]: [None] where it raises ValueError *)
  Fixpoint parse_all (b : list C) : option (list value) :=
    match b with
    | [] => Some []
    | c :: r =>
        match parse c, parse_all r with
        | Some n, Some l => Some (VN n :: l)
        | _, _ => None
        end
    end.

  (** order_column_profile.py:388-392: the values examined and whether they are text *)
  Definition convert (text : bool) (b : list C) : list value * bool :=
    if text then (map VS b, true)
    else match parse_all b with
         | Some l => (l, false)
         | None => (map VS b, true)
         end.

  (** order_column_profile.py:372-413, for a non-empty batch *)
  Definition get_data_order (text : bool) (b : list C) : option info :=
    let '(vs, t) := convert text b in
    match vs with
    | [] => None
    | v :: _ =>
        let '(o, l) := scan None v vs in
        Some (mkInfo (match o with Some x => x | None => Const end) v l false t)
    end.

  (** An OrderColumn. *)
  Record col := mkCol { c_info : option info; c_size : nat }.

  Definition new_col : col := mkCol None 0.

  (** _update_order (415-462) *)
  Definition update_order (s : option info) (b : list C) : option info :=
    match s with
    | Some i => if ord_eqb (i_order i) Random then s
                else merge_order s (get_data_order (i_text i) b)
    | None => merge_order s (get_data_order false b)
    end.

  (** update (476-499) *)
  Definition update (s : col) (b : list C) : col :=
    match b with
    | [] => s
    | _ => mkCol (update_order (c_info s) b) (c_size s + length b)
    end.

  (** __add__ (264-305) *)
  Definition add (a b : col) : col :=
    mkCol (merge_order (c_info a) (c_info b)) (c_size a + c_size b).

  (** Every way to build an order profile. *)
  Inductive hist :=
  | HNew
  | HUpd (h : hist) (batch : list C)
  | HAdd (h1 h2 : hist).

  Fixpoint run (h : hist) : col :=
    match h with
    | HNew => new_col
    | HUpd h b => update (run h) b
    | HAdd h1 h2 => add (run h1) (run h2)
    end.

  (** report()['order'] *)
  Definition report_order (s : col) : option ord :=
    match c_info s with
    | Some i => Some (i_order i)
    | None => None
    end.
End Order.

Arguments value N C : clear implicits.
Arguments info N C : clear implicits.
Arguments col N C : clear implicits.
Arguments hist C : clear implicits.
