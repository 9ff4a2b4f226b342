(** Decidable equality for lists, pairs and options. *)
From Verif Require Import PyCommon PyDict.

Section Eq.
  Context {A B : Type} {EA : EqDecB A} {EB : EqDecB B}.

  Fixpoint list_eqb (l l' : list A) : bool :=
    match l, l' with
    | [], [] => true
    | x :: r, y :: r' => eqb x y && list_eqb r r'
    | _, _ => false
    end.

  Lemma list_eqb_spec : forall l l', reflect (l = l') (list_eqb l l').
  Proof.
    induction l as [|x r IH]; intros [|y r']; cbn; try (constructor; congruence).
    destruct (eqb_spec x y) as [->|N]; cbn; [|constructor; congruence].
    destruct (IH r') as [->|N]; constructor; congruence.
  Qed.

  Definition pair_eqb (p q : A * B) : bool := eqb (fst p) (fst q) && eqb (snd p) (snd q).

  Lemma pair_eqb_spec : forall p q, reflect (p = q) (pair_eqb p q).
  Proof.
    intros [a b] [a' b']. unfold pair_eqb. cbn. destruct (eqb_spec a a') as [->|N]; cbn; [|constructor; congruence].
    destruct (eqb_spec b b') as [->|N]; constructor; congruence.
  Qed.

  Definition option_eqb (p q : option A) : bool :=
    match p, q with Some x, Some y => eqb x y | None, None => true | _, _ => false end.

  Lemma option_eqb_spec : forall p q, reflect (p = q) (option_eqb p q).
  Proof.
    intros [a|] [b|]; cbn; try (constructor; congruence). destruct (eqb_spec a b) as [->|N]; constructor; congruence.
  Qed.

  Global Instance EqDecB_list : EqDecB (list A) := {| eqb := list_eqb; eqb_spec := list_eqb_spec |}.
  Global Instance EqDecB_pair : EqDecB (A * B) := {| eqb := pair_eqb; eqb_spec := pair_eqb_spec |}.
  Global Instance EqDecB_option : EqDecB (option A) := {| eqb := option_eqb; eqb_spec := option_eqb_spec |}.
End Eq.
