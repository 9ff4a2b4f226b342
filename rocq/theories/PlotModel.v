(** * Plots of histograms and of missing values

    reports/graphs.py: plot_histograms (31-148), plot_col_histogram (152-186),
    plot_missing_values_matrix (190-210), plot_col_missing_values (214-358).

    Left out: texts, sizes and styles of the figures; colours are numbers.  Which
    histogram a column has is C90; here a column has one or none.  A column's name is a
    text or a number.  Exact numbers. *)
From Coq Require Import QArith List Arith ZArith Bool Lia.
Import ListNotations.
From Verif Require Import PyCommon QFacts PyDict PyString.
Local Open Scope nat_scope.

(** ** Histograms *)
Inductive cname := CText (s : string) | CNumber (n : Z).
Inductive ctype := TInt | TFloat | TOther.
Record hist := mkHist { edges : list Q; counts : list nat }.
Record column := mkCol { c_name : cname; c_type : ctype; c_hist : option hist }.

(** Arguments [column_names] and [column_inds] *)
Inductive item := IText (s : string) | INumber (z : Z) | IOther.
Inductive arg := ANone | AList (l : list item) | AOther (truthy : bool).
Definition truth (a : arg) : bool := match a with ANone => false | AList l => negb (length l =? 0) | AOther b => b end.
Definition is_text (i : item) : bool := match i with IText _ => true | _ => false end.
Definition is_number (i : item) : bool := match i with INumber _ => true | _ => false end.

(** Indexes from the end are negative *)
Definition py_index (n : nat) (z : Z) : option nat :=
  if ((0 <=? z) && (z <? Z.of_nat n))%Z then Some (Z.to_nat z)
  else if ((- Z.of_nat n <=? z) && (z <? 0))%Z then Some (Z.to_nat (z + Z.of_nat n))
  else None.

(** profile_builder.py 2811-2818: positions of a name in lower case *)
Definition positions (cols : list column) (s : string) : list nat :=
  filter (fun i => match nth_error cols i with
                   | Some c => match c_name c with CText t => String.eqb (lower_string t) s | CNumber _ => false end
                   | None => false
                   end) (seq 0 (length cols)).

(** 75-83 *)
Fixpoint by_names (cols : list column) (l : list item) : result (list Z) :=
  match l with
  | [] => Ok []
  | IText s :: t =>
      match positions cols (lower_string s) with
      | [] => Err ValueError
      | ps => bind (by_names cols t) (fun r => Ok (map Z.of_nat ps ++ r))
      end
  | _ :: t => Err ValueError
  end.

(** 49-83; the result of [sorted] at 86 is not used *)
Definition selected (cols : list column) (names inds : arg) : result (list Z) :=
  if truth names && truth inds then Err ValueError
  else if match names with ANone => false | AList l => negb (forallb is_text l) | AOther _ => true end then Err ValueError
  else if match inds with ANone => false | AList l => negb (forallb is_number l) | AOther _ => true end then Err ValueError
  else match inds with
       | AList ((_ :: _) as l) => Ok (flat_map (fun i => match i with INumber z => [z] | _ => [] end) l)
       | _ => match names with
              | AList ((_ :: _) as l) => by_names cols l
              | _ => Ok (map Z.of_nat (seq 0 (length cols)))
              end
       end.

(** 89-104: [filter] with is_index_graphable_column *)
Definition numeric (c : column) : bool := match c_type c with TInt | TFloat => true | TOther => false end.
Fixpoint graphable (cols : list column) (l : list Z) : result (list column) :=
  match l with
  | [] => Ok []
  | z :: t =>
      match match py_index (length cols) z with Some i => nth_error cols i | None => None end with
      | None => Err IndexError
      | Some c => bind (graphable cols t) (fun r => Ok (if numeric c then c :: r else r))
      end
  end.

(** 175-180: sns.histplot(x=edges[:-1], bins=edges, weights=counts).  The bins are
    numpy's: closed on the left, the last one on both sides. *)
Definition in_bin (last : bool) (lo hi x : Q) : bool :=
  Qle_bool lo x && (if last then Qle_bool x hi else negb (Qle_bool hi x)).
Fixpoint bins_of (es : list Q) : list (Q * Q) :=
  match es with a :: ((b :: _) as t) => (a, b) :: bins_of t | _ => [] end.
Definition bar (xs : list (Q * nat)) (last : bool) (b : Q * Q) : nat :=
  list_sum (map snd (filter (fun xw => in_bin last (fst b) (snd b) (fst xw)) xs)).
Definition bars (h : hist) : list nat :=
  let xs := combine (removelast (edges h)) (counts h) in
  let bs := bins_of (edges h) in
  map (fun ib => bar xs (S (fst ib) =? length bs) (snd ib)) (combine (seq 0 (length bs)) bs).

(** 168-180 *)
Definition plot_col (c : column) : result (list nat) :=
  match c_hist c with None => Err ValueError | Some h => Ok (bars h) end.

(** 106-142: the grid, the plots in order, and the number of axes switched off *)
Inductive figure := NoFigure | Figure (rows cols : nat) (plots : list (column * list nat)) (off : nat).

Fixpoint plot_all (cs : list column) : result (list (column * list nat)) :=
  match cs with
  | [] => Ok []
  | c :: t => bind (plot_col c) (fun b => bind (plot_all t) (fun r => Ok ((c, b) :: r)))
  end.

Definition grid_cols (n : nat) : nat := Nat.sqrt_up n.
Definition grid_rows (n : nat) : nat := (n + grid_cols n - 1) / grid_cols n.

Definition plot_histograms (table : list column) (names inds : arg) : result figure :=
  bind (selected table names inds) (fun zs =>
  bind (graphable table zs) (fun cs =>
  match cs with
  | [] => Ok NoFigure
  | _ =>
      let n := length cs in
      let axes := grid_rows n * grid_cols n in
      bind (plot_all (firstn axes cs)) (fun ps => Ok (Figure (grid_rows n) (grid_cols n) ps (axes - n)))
  end)).

(** ** Missing values *)
(** A bar: the row where it starts and its height; bars of negative height hang down *)
Definition rect := (Z * Z)%type.
Definition covers (b : rect) (i : Z) : Prop :=
  (fst b <= i < fst b + snd b)%Z \/ (fst b + snd b <= i < fst b)%Z.

(** 305-323; the list starts with the current value, the next one comes second *)
Fixpoint null_bars (y_start y_end : Z) (l : list Z) : list rect :=
  match l with
  | [] => []
  | v :: t =>
      match t with
      | [] => [(y_start, (v - y_start + 1)%Z)]  (* 324-336 *)
      | next :: _ =>
          if (next - v =? 1)%Z then null_bars y_start next t
          else (y_start, (y_end - y_start + 1)%Z) :: null_bars next y_end t
      end
  end.

(** 301-336 for the sorted rows of one kind of missing value *)
Definition draw (l : list Z) : result (list rect) :=
  match l with [] => Err IndexError | v :: _ => Ok (null_bars v v l) end.

(** 255-256 and 293-298: colours, given in the order in which kinds of missing values are met; the
    first colour is that of the background *)
Record colours := mkColours { given : dict string nat; remaining : list nat }.
Definition take_colour (cycle : list nat) (s : colours) (kind : string) : result colours :=
  match dget (given s) kind with
  | Some _ => Ok s
  | None =>
      match remaining s with
      | [] => Err IndexError
      | c :: t => Ok (mkColours (dset (given s) kind c) (match t with [] => tl cycle | _ => t end))
      end
  end.

Record missing := mkMissing { m_size : nat; m_nulls : list (string * list Z) }.
(** What is drawn for one column: the background, and bars with their colour and kind *)
Record drawn := mkDrawn { d_size : nat; d_bars : list (string * (nat * list rect)) }.

Fixpoint draw_kinds (cycle : list nat) (s : colours) (l : list (string * list Z)) : result (colours * list (string * (nat * list rect))) :=
  match l with
  | [] => Ok (s, [])
  | (kind, rows) :: t =>
      bind (take_colour cycle s kind) (fun s1 =>
      bind (draw rows) (fun bs =>
      bind (draw_kinds cycle s1 t) (fun r =>
      Ok (fst r, (kind, (match dget (given s1) kind with Some c => c | None => 0 end, bs)) :: snd r))))
  end.

Fixpoint draw_columns (cycle : list nat) (s : colours) (l : list missing) : result (list drawn) :=
  match l with
  | [] => Ok []
  | m :: t =>
      bind (draw_kinds cycle s (m_nulls m)) (fun r =>
      bind (draw_columns cycle (fst r) t) (fun ds => Ok (mkDrawn (m_size m) (snd r) :: ds)))
  end.

(** 214-358; [None] for no columns, with a warning.  The types of the arguments (208-209,
    232-241) are left out. *)
Definition plot_missing (cycle : list nat) (l : list missing) : result (option (list drawn)) :=
  match l with
  | [] => Ok None
  | _ => bind (draw_columns cycle (mkColours [] (tl cycle)) l) (fun ds => Ok (Some ds))
  end.
