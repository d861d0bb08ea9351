(** * MeanSpec: what the curves in the files should show, for one set of occupied sites. *)
From Coq Require Import ZArith List Reals.
From Verif Require Import Py Perc Spec History SymSpec CanonSpec Real.
Import ListNotations.
Open Scope Z_scope.

(** [h] is the entropy of the cluster sizes when exactly the sites [S] are occupied:
    every bond contributes the logarithm of its cluster's share of the bonds. *)
Definition entropy_of (L : Z) (S : list Z) (h : R) : Prop :=
  exists size, (forall b, is_bond L b -> counts (bonds_like L S b) (size b)) /\
    h = (- rsum (fun b => / IZR (2 * (L * L)) * ln (IZR (size b) / IZR (2 * (L * L)))) (zrange (2 * (L * L))))%R.
(** What columns 1 and 2 of the files are about: entropy, share of the largest cluster. *)
Definition curve_value (j : nat) (L : Z) (S : list Z) (v : R) : Prop :=
  match j with
  | 1%nat => entropy_of L S v
  | _ => exists z, largest_of L S z /\ v = (IZR z / IZR (2 * (L * L)))%R
  end.
(** The reported threshold as a number. *)
Definition threshold (s : perc) : R := match get_pc s with Ok p => feval p | Err _ => 0%R end.
