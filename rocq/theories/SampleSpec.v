(** * SampleSpec: the range of the values in the files. *)
From Coq Require Import ZArith Reals.
From Verif Require Import FloatMeanSpec.
Open Scope R_scope.

(** Entropies lie between 0 and the logarithm of the number of bonds, the other columns between 0 and 1. *)
Definition curve_range (j : nat) (L : Z) : R := match j with 1%nat => ln (IZR (2 * (L * L))) | _ => 1 end.
(** Chebyshev's bound on the share of bad luck for [n] realizations of a value in an interval of length [r]. *)
Definition bad_luck (r : R) (n : Z) (eps : R) : R := r ^ 2 / (4 * IZR n * eps ^ 2).
(** The error of floating-point averaging in row [i] of column [j] (FloatMeanSpec.v). *)
Definition curve_error (j : nat) (L n : Z) (i : nat) : R := match j with 1%nat => entropy_bound L n i | _ => ratio_bound n end.
