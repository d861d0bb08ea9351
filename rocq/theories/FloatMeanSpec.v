(** * FloatMeanSpec: the accuracy of averaged numbers. *)
From Coq Require Import ZArith Reals.
From Flocq Require Import Core.
Open Scope R_scope.

(** The bounds on the difference between the number in the file and the exact average over [n]
    realizations, in row [i] (from 0) of a lattice of length [L]: 2^-53 is half a unit in the last place of 1. *)
Definition ulp : R := bpow radix2 (-53).
Definition ratio_bound (n : Z) : R := (2 * IZR n + 5) * ulp.
Definition entropy_bound (L n : Z) (i : nat) : R :=
  let lb := ln (IZR (2 * (L * L))) in (INR (i + 2) * (72 + 2 * lb) + (IZR n + 2) * (lb + 2)) * ulp.
(** The number [y] read from the file is within [b] of [m], apart from the rounding to eleven digits. *)
Definition read_close (y m b : R) : Prop := Rabs (y - m) <= b + 5 / 100000000000 * (Rabs m + b).
