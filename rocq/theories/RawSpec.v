(** * RawSpec: lattices full of objects, lattices full of placeholders. *)
From Coq Require Import ZArith List Bool.
From Verif Require Import Py Lattice Raw.
Import ListNotations.
Open Scope Z_scope.

(** The lattice of [Lattice.v] with every entry an object. *)
Definition raw_of (lat : lattice) : raw := mkRaw (l_length lat) (l_bond_count lat) (l_site_count lat) (map Obj (l_sites lat)) (map Obj (l_bonds lat)).
(** The lattice that contains only placeholders. *)
Definition zeros (L : Z) : raw := mkRaw L (2 * (L * L)) (L * L) (repeat Zero (Z.to_nat (L * L))) (repeat Zero (Z.to_nat (2 * (L * L)))).
(** The exception for entry [i] of [n] placeholders: the index is wrong, or the entry is not an object. *)
Definition bad (n i : Z) : exn := if (- n <=? i) && (i <? n) then AttributeError else IndexError.
(** The same result, with the lattice in the other form. *)
Definition emb (r : res lattice) : res raw := l <- r ;; Ok (raw_of l).
