(** * L1ChanceSpec: chances when the draws after construction are given.

    The rules L1 and L2 keep drawing random numbers while sites are placed.
    [then_draws L t w Q] is the property [Q] under the condition that, after the
    [L*L - 1] draws of the construction begun at draw number [t], the random
    generator hands out the numbers [w 0], [w 1], ...  A share proved for every
    [w] is also the share when the later draws are random themselves. *)
From Coq Require Import ZArith List.
From Verif Require Import Py Perc History ChanceSpec.
Import ListNotations.
Open Scope Z_scope.

Definition later_draws (L : Z) (t : nat) (w : nat -> Z) (E : env) : Prop :=
  forall m, e_draw E (t + (Z.to_nat (L * L) - 1) + m) = w m.
Definition then_draws (L : Z) (t : nat) (w : nat -> Z) (Q : env -> perc -> Prop) (E : env) (s : perc) : Prop :=
  later_draws L t w E -> Q E s.
