(** * RulesSymSpec: the symmetries of the selection rules L1 and L2. *)
From Coq Require Import ZArith List.
From Verif Require Import Py Perc Spec History SymSpec RulesLawSpec.
Import ListNotations.
Open Scope Z_scope.

(** [f] takes the steps across the edge of the index range, and no others, to such steps. *)
Definition keeps_edge (L : Z) (f : Z -> Z) (D : dir -> dir) : Prop :=
  forall i d, is_site L i -> (straddles L i d <-> straddles L (f i) (D d)).
(** L1 knows the torus only; L2 also sees where the index range ends (C36). *)
Definition rule_symmetry (k : pkind) (L : Z) (f : Z -> Z) (D : dir -> dir) : Prop :=
  symmetry L f D /\ (k = KL1 \/ k = KL2 /\ keeps_edge L f D).
(** The picture turned left to right: column [c] becomes column [L-1-c]. *)
Definition flip (L i : Z) : Z := at_rc L (row L i) (L - 1 - col L i).
(** Only sites are placed and looked at. *)
Definition growing (c : call) : Prop := c = CPlace \/ c = CDetect.
(** [A] holds of the order in which the calls [cs] place sites whenever the next words drawn are [w]. *)
Definition ordering (ord : list Z -> list Z) (M : Z) (W : nat) (s : perc) (cs : list call) (A : list Z -> Prop) (w : list Z) : Prop :=
  words M W w /\ forall d, (forall i, (i < W)%nat -> d (tick s + i)%nat = nth i w 0) -> A (placed_order (events (mkEnv ord d) s cs)).
(** [Q'] says about the moved picture what [Q] says about the picture. *)
Definition moved_question (L : Z) (f : Z -> Z) (Q Q' : perc -> Prop) : Prop :=
  forall s t, same_set_values L f s t -> same_loop_values L f s t -> (Q s <-> Q' t).
