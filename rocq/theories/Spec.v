(** * Spec: the vocabulary of the properties, independent of the model.

    Nothing here mentions the model's data structures or helpers: sites and
    bonds are integers, the torus is arithmetic on rows and columns, and
    connectivity and wrapping are statements about walks. *)
From Coq Require Import ZArith List.
Import ListNotations.
Open Scope Z_scope.

(** The L*L sites and 2*L*L bonds. *)
Definition is_site (L s : Z) : Prop := 0 <= s < L * L.
Definition is_bond (L b : Z) : Prop := 0 <= b < 2 * (L * L).

Definition row (L s : Z) : Z := s / L.
Definition col (L s : Z) : Z := s mod L.
(** The site at row r, column c of the periodic lattice (any integers r, c). *)
Definition at_rc (L r c : Z) : Z := (r mod L) * L + c mod L.

Inductive dir := DRight | DDown | DLeft | DUp.
Definition all_dirs : list dir := [DRight; DDown; DLeft; DUp].
Definition opp (d : dir) : dir :=
  match d with DRight => DLeft | DLeft => DRight | DDown => DUp | DUp => DDown end.
(** Displacement (rows, columns) of one step. *)
Definition step (d : dir) : Z * Z :=
  match d with DRight => (0, 1) | DDown => (1, 0) | DLeft => (0, -1) | DUp => (-1, 0) end.
Definition vadd (a b : Z * Z) : Z * Z := (fst a + fst b, snd a + snd b).
Definition vsub (a b : Z * Z) : Z * Z := (fst a - fst b, snd a - snd b).

(** The neighbour of site s in direction d on the torus. *)
Definition nbr (L s : Z) (d : dir) : Z :=
  at_rc L (row L s + fst (step d)) (col L s + snd (step d)).

(** The two ends of a bond: bond r*L+c joins (r,c) with (r,c+1); bond
    L*L + r*L+c joins (r,c) with (r+1,c). *)
Definition end1 (L b : Z) : Z := if b <? L * L then b else b - L * L.
Definition end2 (L b : Z) : Z :=
  if b <? L * L then nbr L b DRight else nbr L (b - L * L) DDown.
Definition touches (L b s : Z) : Prop := s = end1 L b \/ s = end2 L b.

(** Walks through sites satisfying [occ]; [ds] is the list of steps. *)
Inductive walk (L : Z) (occ : Z -> Prop) : Z -> list dir -> Z -> Prop :=
| walk_nil s : is_site L s -> occ s -> walk L occ s [] s
| walk_cons s d ds t :
    is_site L s -> occ s -> walk L occ (nbr L s d) ds t -> walk L occ s (d :: ds) t.

Fixpoint disp (ds : list dir) : Z * Z :=
  match ds with [] => (0, 0) | d :: ds' => vadd (step d) (disp ds') end.

Definition connected (L : Z) (occ : Z -> Prop) (s t : Z) : Prop :=
  exists ds, walk L occ s ds t.

(** A non-contractible loop: a closed walk whose steps do not cancel. *)
Definition wraps_at (L : Z) (occ : Z -> Prop) (s : Z) : Prop :=
  exists ds, walk L occ s ds s /\ disp ds <> (0, 0).
Definition wraps (L : Z) (occ : Z -> Prop) : Prop := exists s, wraps_at L occ s.

(** Two bonds belong together: equal, or joined through occupied sites. *)
Definition bonds_joined (L : Z) (occ : Z -> Prop) (b b' : Z) : Prop :=
  b = b' \/
  exists s s', touches L b s /\ touches L b' s' /\ connected L occ s s'.
