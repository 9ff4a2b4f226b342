(** Attributes of data sets: data_readers/base_data.py (data 66-82, __len__ 195-201, length 203-210, __getattribute__ 212-245).

    What is loaded is shown as the object the selected data format gives (data formats are modelled in ReaderModel);
    a load that fails leaves nothing loaded, and the message of its AttributeError is not the one that says that the data
    set has no attribute "data".  [load n] is the outcome of the load after [n] others, so loads may fail now and then. *)
From Verif Require Import PyCommon PyDict PyString.
Local Open Scope string_scope.
Local Open Scope nat_scope.

(** Errors: AttributeError with its message, too deep a recursion, or another one *)
Inductive error := EAttr (message : string) | ERecursion | EOther (e : exn).
Definition outcome (V : Type) := (V + error)%type.

(** The message of object.__getattribute__ *)
Definition no_attribute (cls name : string) : string :=
  String.append "'" (String.append cls (String.append "' object has no attribute '" (String.append name "'"))).
(** 239-243 *)
Definition neither (cls cls' name : string) : string :=
  String.append "Neither '" (String.append cls (String.append "' nor '" (String.append cls' (String.append "' objects have attribute '" (String.append name "'"))))).

Section Attributes.
  Variable V : Type.

  (** What an object answers by itself: its class, what object.__getattribute__ finds (or the error of a property), what its
      own __getattr__ would add (columns of a data frame), and its length *)
  Record obj := mkObj { o_class : string; o_plain : string -> option (outcome V); o_extra : string -> option V; o_len : nat }.
  Definition plain (o : obj) (name : string) : outcome V :=
    match o_plain o name with Some r => r | None => inr (EAttr (no_attribute (o_class o) name)) end.
  (** [o.name] for a user who has the object *)
  Definition direct (o : obj) (name : string) : outcome V :=
    match plain o name with
    | inr (EAttr m) => match o_extra o name with Some v => inl v | None => inr (EAttr m) end
    | r => r
    end.

  (** Attributes of the data set: stored, computed from the data, or none *)
  Inductive member := Stored (r : outcome V) | Computed (f : obj -> outcome V) | Absent.
  Variable cls : string.
  Variable members : string -> member.
  Variable load : nat -> outcome obj.
  (** How deep calls may be nested *)
  Variable depth : nat.

  Record st := mkSt { s_data : option obj; s_loads : nat }.
  Definition new : st := mkSt None 0.
  Definition given (o : obj) : st := mkSt (Some o) 0.

  (** The getter of [data], 66-82 *)
  Definition try_load (s : st) : outcome obj * st :=
    match s_data s with
    | Some o => (inl o, s)
    | None => match load (s_loads s) with
              | inl o => (inl o, mkSt (Some o) (s_loads s + 1))
              | inr e => (inr e, mkSt None (s_loads s + 1))
              end
    end.

  (** [self.data] is itself found by __getattribute__, which asks for [self.data] again if the getter raises an AttributeError *)
  Fixpoint data_at (d : nat) (s : st) : outcome obj * st :=
    match d with
    | 0 => (inr ERecursion, s)
    | S d =>
        match try_load s with
        | (inr (EAttr m), s) => match data_at d s with (inl _, s) => (inr (EAttr m), s) | (inr e, s) => (inr e, s) end
        | r => r
        end
    end.
  Definition data (s : st) : outcome obj * st := data_at depth s.

  (** [object.__getattribute__(self, name)] *)
  Definition own (name : string) (s : st) : outcome V * st :=
    match members name with
    | Stored r => (r, s)
    | Computed f => match data s with (inl o, s) => (f o, s) | (inr e, s) => (inr e, s) end
    | Absent => (inr (EAttr (no_attribute cls name)), s)
    end.

  (** __getattribute__, 212-245; the data are asked for before the messages are compared *)
  Definition get (name : string) (s : st) : outcome V * st :=
    match own name s with
    | (inr (EAttr m), s) =>
        match data s with
        | (inr e, s) => (inr e, s)
        | (inl o, s) =>
            if negb (String.eqb (no_attribute cls name) m) then (inr (EAttr m), s)
            else match plain o name with
                 | inr (EAttr m') =>
                     if negb (String.eqb (no_attribute (o_class o) name) m') then (inr (EAttr m'), s)
                     else (inr (EAttr (neither cls (o_class o) name)), s)
                 | r => (r, s)
                 end
        end
    | r => r
    end.

  (** __len__, 195-201 *)
  Definition len (s : st) : outcome nat * st :=
    match data s with (inl o, s) => (inl (o_len o), s) | (inr e, s) => (inr e, s) end.

  (** A user asks for attributes and the length, one after another *)
  Inductive ask := Attr (name : string) | Len.
  Definition step (s : st) (a : ask) : st := match a with Attr n => snd (get n s) | Len => snd (len s) end.
  Definition run (s : st) (l : list ask) : st := fold_left step l s.
End Attributes.
Arguments mkObj {V}. Arguments o_class {V}. Arguments o_plain {V}. Arguments o_extra {V}. Arguments o_len {V}.
Arguments Stored {V}. Arguments Computed {V}. Arguments Absent {V}. Arguments new {V}. Arguments given {V}. Arguments s_data {V}. Arguments s_loads {V}. Arguments mkSt {V}.
