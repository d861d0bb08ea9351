(** * Real: exact real values of the floating-point expressions, and Shannon entropy.

    The model keeps the expression the code evaluates; [feval] is its value in
    exact real arithmetic (IEEE rounding is not modelled). *)
From Coq Require Import ZArith List Reals.
From Verif Require Import Py Lattice Cluster Perc History.
Import ListNotations.
Open Scope Z_scope.

(** The value of an expression. *)
Fixpoint feval (e : fexpr) : R :=
  match e with
  | FZ n => IZR n
  | FDiv a b => (feval a / feval b)%R
  | FAdd a b => (feval a + feval b)%R
  | FSub a b => (feval a - feval b)%R
  | FMul a b => (feval a * feval b)%R
  | FNeg a => (- feval a)%R
  | FLog a => ln (feval a)
  end.

(** Sum of [f] over a list. *)
Definition rsum (f : Z -> R) (l : list Z) : R := fold_right (fun x a => (f x + a)%R) 0%R l.

(** Fraction of all bonds that belong to cluster [c]. *)
Definition bond_share (L : Z) (s : perc) (c : Z) : R := (INR (length (cluster_bonds s c)) / IZR (2 * (L * L)))%R.
(** Shannon entropy of the partition of the bonds into clusters; empty clusters
    contribute 0. *)
Definition shannon (L : Z) (s : perc) : R :=
  (- rsum (fun c => bond_share L s c * ln (bond_share L s c)) (zrange (2 * (L * L))))%R.
