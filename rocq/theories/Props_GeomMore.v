(** * Distances and four-neighbour lists for every lattice size: C08, C09.

    [ring_distance L x y m] (GeomSpec.v): m is the least number of steps from x to y on a
    ring of L places.  [at_rc L r c] (Spec.v): the site in row r, column c modulo L. *)
From Coq Require Import ZArith List Bool Lia.
From Verif Require Import Py Lattice Perc Spec GeomSpec GeomMore.
Import ListNotations.
Open Scope Z_scope.

Example ex_C08_exact : exists lat, new_lattice 7 = Ok lat /\ ring_distance 7 0 4 3 /\ ring_distance 7 6 0 1 /\ distance_btn_sites lat (0, 6) (4, 0) = (4, 1).
Proof.
  eexists. split; [vm_compute; reflexivity|]. split; [exact (ring_min 7 0 4 ltac:(lia) ltac:(lia) ltac:(lia))|]. split; [exact (ring_min 7 6 0 ltac:(lia) ltac:(lia) ltac:(lia))|]. vm_compute. reflexivity.
Qed.
Theorem C08_distance_exact : forall L lat, new_lattice L = Ok lat ->
  forall r c r' c' m n, 0 <= r < L -> 0 <= c < L -> 0 <= r' < L -> 0 <= c' < L -> ring_distance L r r' m -> ring_distance L c c' n ->
  let d := distance_btn_sites lat (r, c) (r', c') in
  m <= fst d /\ n <= snd d /\
  (fst d = m <-> L <> 1 /\ (2 * Z.abs (r - r') <= L \/ Z.abs (r - r') = L - 1)) /\
  (snd d = n <-> L <> 1 /\ (2 * Z.abs (c - c') <= L \/ Z.abs (c - c') = L - 1)) /\
  (L = 1 -> d = (1, 1)).
Proof. exact g_C08_exact. Qed.
Print Assumptions C08_distance_exact.

Example ex_C09_sizes : exists lat, new_lattice 2 = Ok lat /\ get_four_neighbor_sites lat 0 = Ok [1; 2; 1; 2] /\ get_four_neighbor_sites lat 1 = Err AssertionError.
Proof. eexists. split; [vm_compute; reflexivity|]. split; vm_compute; reflexivity. Qed.
Theorem C09_all_sizes : forall L lat, new_lattice L = Ok lat -> forall r c, 0 <= r < L -> 0 <= c < L ->
  get_four_neighbor_sites lat (r * L + c) =
    if negb (L =? 1) && (((r =? 0) && negb (c =? 0)) || ((r =? L - 1) && (c =? 0)) || (negb (r =? L - 1) && (c =? L - 1)))
    then Err AssertionError
    else Ok [at_rc L r (c + 1); at_rc L (r + 1) c; at_rc L r (c - 1); at_rc L (r - 1) c].
Proof. exact g_C09_sizes. Qed.
Print Assumptions C09_all_sizes.
