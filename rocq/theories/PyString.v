(** Strings as dictionary keys. *)
From Coq Require String Ascii.
From Verif Require Import PyCommon PyDict.
Export String.StringSyntax.
Notation string := String.string.

Global Program Instance EqDecB_string : EqDecB string := {| eqb := String.eqb |}.
Next Obligation. apply String.eqb_spec. Qed.

(** [str.lower] on ASCII letters *)
Definition lower_ascii (c : Ascii.ascii) : Ascii.ascii :=
  let n := Ascii.nat_of_ascii c in
  if (65 <=? n) && (n <=? 90) then Ascii.ascii_of_nat (n + 32) else c.

Fixpoint lower_string (s : string) : string :=
  match s with
  | String.EmptyString => String.EmptyString
  | String.String c r => String.String (lower_ascii c) (lower_string r)
  end.

Lemma lower_ascii_idem c : lower_ascii (lower_ascii c) = lower_ascii c.
Proof.
  unfold lower_ascii at 2 3. destruct ((65 <=? Ascii.nat_of_ascii c) && (Ascii.nat_of_ascii c <=? 90)) eqn:E.
  - apply andb_true_iff in E. destruct E as [E1 E2]. apply Nat.leb_le in E1, E2.
    unfold lower_ascii. rewrite Ascii.nat_ascii_embedding by lia.
    destruct (Nat.leb_spec (Ascii.nat_of_ascii c + 32) 90); [lia|]. rewrite andb_false_r. reflexivity.
  - unfold lower_ascii. rewrite E. reflexivity.
Qed.

Lemma lower_string_idem s : lower_string (lower_string s) = lower_string s.
Proof. induction s as [|c s IH]; cbn; [reflexivity|]. rewrite lower_ascii_idem, IH. reflexivity. Qed.
