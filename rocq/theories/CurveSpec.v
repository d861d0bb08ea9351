(** * CurveSpec: what "a percolation curve" is, for the statement of C82.

    Nothing here is part of the model. *)
From Coq Require Import ZArith List Reals.
From Verif Require Import Py Perc.
Open Scope R_scope.

(** Row [i] (of the L^2 rows) holds the values after [i+1] sites were occupied:
    [h] the entropy, [l] the order parameter of the largest cluster, [w] that of
    the wrapping cluster. *)
Definition curve (L : Z) (h l w : nat -> R) : Prop :=
  let n := Z.to_nat (L * L) in
  (forall i j, (i <= j < n)%nat -> h j <= h i /\ l i <= l j /\ w i <= w j) /\
  (forall i, (i < n)%nat -> 0 <= h i <= ln (IZR (2 * (L * L))) /\ 0 <= w i <= l i /\ 0 < l i <= 1) /\
  h (n - 1)%nat = 0 /\ l (n - 1)%nat = 1 /\ ((3 <= L)%Z -> w (n - 1)%nat = 1).
