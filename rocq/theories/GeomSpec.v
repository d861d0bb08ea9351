(** * GeomSpec: distance on a ring. *)
From Coq Require Import ZArith.
Open Scope Z_scope.

(** The least number of steps from [x] to [y] on a ring of [L] places. *)
Definition ring_distance (L x y m : Z) : Prop :=
  (exists k, m = Z.abs (x - y + k * L)) /\ forall k, m <= Z.abs (x - y + k * L).
