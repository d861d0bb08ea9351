(** * LatSpec: lattices whose labels and displacements have been edited by hand
    through the public setters of [Lattice]. *)
From Coq Require Import ZArith List Bool.
From Verif Require Import Py Lattice Spec.
Import ListNotations.
Open Scope Z_scope.

Inductive edit :=
| ESite (i g : Z)                 (* set_site_gid_by_id(i, g) *)
| EBond (b g : Z)                 (* set_bond_gid_by_id(b, g) *)
| ERel (i : Z) (r : index)        (* set_relative_index(i, r) *)
| EInit (i : Z)                   (* init_relative_index(i) *)
| EReset.                         (* reset() *)
Definition edit_ok (L : Z) (e : edit) : Prop :=
  match e with
  | ESite i _ | ERel i _ | EInit i => is_site L i
  | EBond b _ => is_bond L b
  | EReset => True
  end.
Definition do_edit (lat : lattice) (e : edit) : res lattice :=
  match e with
  | ESite i g => set_site_gid_by_id lat i g
  | EBond b g => set_bond_gid_by_id lat b g
  | ERel i r => lat_set_relative_index lat i r
  | EInit i => lat_init_relative_index lat i
  | EReset => Ok (lattice_reset lat)
  end.
(** A new lattice of length [L] after any sequence of edits. *)
Definition edited (L : Z) (lat : lattice) : Prop :=
  exists lat0 es, new_lattice L = Ok lat0 /\ Forall (edit_ok L) es /\ foldM do_edit es lat0 = Ok lat.

(** What the getters report. *)
Definition site_gid (lat : lattice) (i : Z) : Z :=
  match get_site_gid_by_id lat i with Ok g => g | Err _ => -1 end.
Definition bond_gid (lat : lattice) (b : Z) : Z :=
  match get_bond_gid_by_id lat b with Ok g => g | Err _ => -1 end.
Definition site_rel (lat : lattice) (i : Z) : Z * Z :=
  match get_site_by_id lat i with Ok t => s_rel t | Err _ => (0, 0) end.
(** Two displacements one step or one turn around the lattice apart in some coordinate. *)
Definition one_apart (L : Z) (p q : Z * Z) : Prop :=
  Z.abs (fst p - fst q) = 1 \/ Z.abs (fst p - fst q) = L - 1 \/
  Z.abs (snd p - snd q) = 1 \/ Z.abs (snd p - snd q) = L - 1.
