(** * RootSpec: root sites, as seen through the lattice. *)
From Coq Require Import ZArith List.
From Verif Require Import Py Lattice Perc Extra.

(** What [get_site_by_id(i).is_root()] says. *)
Definition is_root (s : perc) (i : Z) : Prop := exists t, get_site_by_id (lat s) i = Ok t /\ site_is_root t = true.
