(** * Properties C01-C05, C08, C09: geometry of a newly built lattice. *)
From Coq Require Import ZArith List Bool Lia.
From Verif Require Import Py Lattice Perc Spec GeomProps.
Import ListNotations.
Open Scope Z_scope.

(** The hypothesis of every theorem below is met, e.g. by the 3x3 lattice. *)
Example ex_lattice3 : exists lat, new_lattice 3 = Ok lat /\
  get_all_neighbor_sites lat 2 = Ok [0; 5; 1; 8] /\
  get_four_neighbor_sites lat 2 = Err AssertionError /\
  get_four_neighbor_sites lat 4 = Ok [5; 7; 3; 1].
Proof. eexists. split; [vm_compute; reflexivity|]. split; [vm_compute; reflexivity|].
  split; vm_compute; reflexivity. Qed.

Theorem C01_site_id_index : forall L lat, new_lattice L = Ok lat ->
  (forall i, 0 <= i < L * L ->
     exists s, get_site_by_id lat i = Ok s /\ s_id s = i /\ s_index s = (i / L, i mod L)) /\
  (forall r c, 0 <= r < L -> 0 <= c < L ->
     exists s, get_site_by_index lat (r, c) = Ok s /\ s_index s = (r, c) /\
       0 <= s_id s < L * L /\
       get_site_by_id lat (s_id s) = Ok s /\
       get_id_from_index lat r c = s_id s /\ calculate_id_from_index lat [r; c] = s_id s).
Proof. exact g_C01. Qed.
Print Assumptions C01_site_id_index.

Theorem C02_bond_id_index : forall L lat, new_lattice L = Ok lat ->
  (forall i, 0 <= i < 2 * (L * L) ->
     exists b, get_bond_by_id lat i = Ok b /\ b_id b = i /\
       b_type b = i / (L * L) /\ b_row b = (i mod (L * L)) / L /\ b_col b = i mod L) /\
  (forall t r c, 0 <= t < 2 -> 0 <= r < L -> 0 <= c < L ->
     exists b, get_bond_by_index lat r c t = Ok b /\ b_type b = t /\ b_row b = r /\ b_col b = c /\
       0 <= b_id b < 2 * (L * L) /\
       get_bond_by_id lat (b_id b) = Ok b /\ calculate_id_from_index lat [t; r; c] = b_id b).
Proof. exact g_C02. Qed.
Print Assumptions C02_bond_id_index.

Theorem C03_coordination : forall L lat, new_lattice L = Ok lat ->
  (forall i, 0 <= i < L * L -> exists s, get_site_by_id lat i = Ok s /\ length (s_bonds s) = 4%nat /\
     (2 <= L -> NoDup (s_bonds s)) /\ (forall b, In b (s_bonds s) -> 0 <= b < 2 * (L * L))) /\
  (forall i, 0 <= i < 2 * (L * L) -> exists b, get_bond_by_id lat i = Ok b /\ length (b_sites b) = 2%nat /\
     (2 <= L -> NoDup (b_sites b)) /\ (forall s, In s (b_sites b) -> 0 <= s < L * L)) /\
  (L = 1 -> get_neighbor_bonds lat 0 = Ok [0; 1; 0; 1] /\
            get_neighbor_sites lat 0 = Ok [0; 0] /\ get_neighbor_sites lat 1 = Ok [0; 0]).
Proof. exact g_C03. Qed.
Print Assumptions C03_coordination.

Theorem C04_incidence : forall L lat, new_lattice L = Ok lat ->
  (forall r c, 0 <= r < L -> 0 <= c < L ->
     (exists b l, get_bond_by_index lat r c 0 = Ok b /\ b_sites b = l /\
        forall s, In s l <-> s = r * L + c \/ s = r * L + (c + 1) mod L) /\
     (exists b l, get_bond_by_index lat r c 1 = Ok b /\ b_sites b = l /\
        forall s, In s l <-> s = r * L + c \/ s = ((r + 1) mod L) * L + c)) /\
  (forall s b, 0 <= s < L * L -> 0 <= b < 2 * (L * L) ->
     exists ls lb, get_neighbor_bonds lat s = Ok ls /\ get_neighbor_sites lat b = Ok lb /\
       (In b ls <-> In s lb)).
Proof. exact g_C04. Qed.
Print Assumptions C04_incidence.

Theorem C05_neighbours : forall L lat, new_lattice L = Ok lat ->
  (forall r c, 0 <= r < L -> 0 <= c < L ->
     let four := [at_rc L r (c + 1); at_rc L (r + 1) c; at_rc L r (c - 1); at_rc L (r - 1) c] in
     get_all_neighbor_sites lat (r * L + c) = Ok four /\
     get_site_neighbor_of_site lat (r * L + c) = Ok four) /\
  (forall s t, 0 <= s < L * L -> 0 <= t < L * L ->
     exists ls lt, get_all_neighbor_sites lat s = Ok ls /\ get_all_neighbor_sites lat t = Ok lt /\
       (In t ls <-> In s lt)).
Proof. exact g_C05. Qed.
Print Assumptions C05_neighbours.

Theorem C08_distance_adjacent : forall L lat, new_lattice L = Ok lat -> 2 <= L ->
  (forall r c r' c', 0 <= r < L -> 0 <= c < L -> 0 <= r' < L -> 0 <= c' < L ->
     (r' = r /\ (c' = (c + 1) mod L \/ c' = (c - 1) mod L) ->
        distance_btn_sites lat (r, c) (r', c') = (0, 1)) /\
     (c' = c /\ (r' = (r + 1) mod L \/ r' = (r - 1) mod L) ->
        distance_btn_sites lat (r, c) (r', c') = (1, 0)) /\
     distance_btn_sites lat (r, c) (r', c') = distance_btn_sites lat (r', c') (r, c)).
Proof. exact g_C08. Qed.
Print Assumptions C08_distance_adjacent.

(** Not the periodic distance in general: columns 0 and 3 of a 5x5 torus are two
    steps apart, the function says 3. *)
Theorem C08_distance_periodic_refuted : exists lat, new_lattice 5 = Ok lat /\
  distance_btn_sites lat (0, 0) (0, 3) = (0, 3) /\ (0 - 2) mod 5 = 3.
Proof. eexists. split; [vm_compute; reflexivity|]. split; vm_compute; reflexivity. Qed.
Print Assumptions C08_distance_periodic_refuted.

(** Exactly which sites get_four_neighbor_sites fails on. *)
Theorem C09_four_neighbours : forall L lat, new_lattice L = Ok lat -> 3 <= L ->
  forall r c, 0 <= r < L -> 0 <= c < L ->
  get_four_neighbor_sites lat (r * L + c) =
    if ((r =? 0) && negb (c =? 0)) || ((r =? L - 1) && (c =? 0)) || (negb (r =? L - 1) && (c =? L - 1))
    then Err AssertionError
    else Ok [at_rc L r (c + 1); at_rc L (r + 1) c; at_rc L r (c - 1); at_rc L (r - 1) c].
Proof. exact g_C09. Qed.
Print Assumptions C09_four_neighbours.
