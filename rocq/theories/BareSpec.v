(** * BareSpec: histories of a plain percolation object. *)
From Coq Require Import ZArith List Bool.
From Verif Require Import Py Lattice Cluster Perc Spec LatSpec Bare.
Import ListNotations.
Open Scope Z_scope.

(** The object after the calls [cs], whether they raised or not. *)
Definition bare_after (cs : list bcall2) (b : bare) : bare := fold_left (fun b c => fst (bare_do c b)) cs b.
(** Some history of a new object of length [L], with any arguments. *)
Definition handled (L : Z) (b : bare) : Prop := exists b0 cs, new_bare L = Ok b0 /\ b = bare_after cs b0.

(** The site or bond a Python index means in a list of [n]: negative ones count from the end. *)
Definition means (n x i : Z) : Prop := 0 <= i < n /\ (x = i \/ x = i - n).
(** [after] has the label [g] on everything listed in [l] and otherwise the labels of [before]. *)
Definition relabelled (n : Z) (l : list Z) (g : Z) (before after : Z -> Z) : Prop :=
  forall i, 0 <= i < n ->
    ((exists x, In x l /\ means n x i) -> after i = g) /\ ((forall x, In x l -> ~ means n x i) -> after i = before i).
(** The ids an index list may contain. *)
Definition valid (n : Z) (l : list Z) : Prop := Forall (fun x => - n <= x < n) l.
