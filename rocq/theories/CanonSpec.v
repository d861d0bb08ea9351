(** * CanonSpec: sets of sites, each written once.

    A set of [m] sites is written as the strictly increasing list of its ids.
    Nothing here refers to the model of the code. *)
From Coq Require Import ZArith List Sorted.
From Verif Require Import Py Lattice Spec SymSpec.
Import ListNotations.
Open Scope Z_scope.

(** [S] is a set of [m] sites of the lattice of length [L]. *)
Definition site_set (L : Z) (m : nat) (S : list Z) : Prop :=
  StronglySorted Z.lt S /\ Forall (is_site L) S /\ length S = m.
(** [v] is the number of bonds of a largest cluster when exactly the sites [S] are occupied. *)
Definition largest_of (L : Z) (S : list Z) (v : Z) : Prop :=
  (exists b, is_bond L b /\ counts (bonds_like L S b) v) /\
  (forall b n, is_bond L b -> counts (bonds_like L S b) n -> n <= v).
