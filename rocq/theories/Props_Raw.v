(** * Lattices of every integer length, with the placeholders they are built from: C120.

    Raw.v models the lattice with entries that are the integer 0 or an object.  [raw_of lat]:
    the lattice of Lattice.v with every entry an object; [zeros L]: only placeholders; [bad n i]:
    AttributeError if i is an index into n entries, IndexError otherwise; [emb]: a result of
    Lattice.v in this form (all in RawSpec.v). *)
From Coq Require Import ZArith List Bool Lia.
From Verif Require Import Py Lattice Cluster Perc Demo Raw RawSpec RawProps.
Import ListNotations.
Open Scope Z_scope.

Example ex_C120_nonneg : match w_new 2, new_lattice 2 with Ok w, Ok lat => w = raw_of lat /\ zlen (w_sites w) = 4 /\ w_get_bond_by_id w 7 = Ok (Obj (mkBond 7 (-1) 1 1 1 [1; 3])) | _, _ => False end.
Proof. vm_compute. repeat split; reflexivity. Qed.
Theorem C120_nonneg : forall L, 0 <= L -> exists lat, new_lattice L = Ok lat /\ w_new L = Ok (raw_of lat).
Proof. exact p_C120_nonneg. Qed.
Print Assumptions C120_nonneg.

Example ex_C120_negative : w_new (-2) = Ok (zeros (-2)) /\ zlen (w_sites (zeros (-2))) = 4 /\ zlen (w_bonds (zeros (-2))) = 8.
Proof. vm_compute. repeat split; reflexivity. Qed.
Theorem C120_negative : forall L, L < 0 -> w_new L = Ok (zeros L) /\ w_init_lattice (zeros L) = Ok (zeros L) /\ w_init_ids (zeros L) = Ok (zeros L).
Proof. exact p_C120_negative. Qed.
Print Assumptions C120_negative.

Example ex_C120_unusable : w_set_site_gid_by_id (zeros (-2)) (-4) 1 = Err AttributeError /\ w_set_site_gid_by_id (zeros (-2)) 4 1 = Err IndexError /\ w_get_site_by_id (zeros (-2)) 3 = Ok Zero.
Proof. vm_compute. repeat split; reflexivity. Qed.
Theorem C120_unusable : forall L, L < 0 -> let w := zeros L in let n := L * L in
  w_reset w = (w, Err AttributeError) /\
  (forall i, - n <= i < n -> w_get_site_by_id w i = Ok Zero) /\ (forall i, - (2 * n) <= i < 2 * n -> w_get_bond_by_id w i = Ok Zero) /\
  (forall i g, w_set_site_gid_by_id w i g = Err (bad n i) /\ w_get_site_gid_by_id w i = Err (bad n i)) /\
  (forall i g, w_set_bond_gid_by_id w i g = Err (bad (2 * n) i) /\ w_get_bond_gid_by_id w i = Err (bad (2 * n) i)) /\
  (forall i, w_get_neighbor_bonds w i = Err (bad n i) /\ w_get_site_neighbor_of_site w i = Err (bad n i) /\ w_get_sites_for_wrapping_test w i = Err (bad n i) /\ w_get_all_neighbor_sites w i = Err (bad n i)) /\
  (forall i, w_get_neighbor_sites w i = Err (bad (2 * n) i)) /\
  (forall i r, w_set_relative_index w i r = Err (bad n i)) /\
  w_scan_sites w = Err AttributeError /\ w_scan_bonds w = Err AttributeError /\
  w_test_neighbor_count w = Err AttributeError /\ (forall g, w_test_lattice w g = Err AttributeError) /\
  w_init_clusters w = Err AttributeError.
Proof. exact p_C120_unusable. Qed.
Print Assumptions C120_unusable.

Example ex_C120_agree : match new_lattice 3 with Ok lat => w_get_site_neighbor_of_site (raw_of lat) 4 = Ok [5; 7; 3; 1] /\ w_scan_sites (raw_of lat) = Ok tt /\ w_test_lattice (raw_of lat) 0 = Err AssertionError | Err _ => False end.
Proof. vm_compute. repeat split; reflexivity. Qed.
Theorem C120_agree : forall lat, w_reset (raw_of lat) = (raw_of (lattice_reset lat), Ok tt) /\
  (forall i g, w_set_site_gid_by_id (raw_of lat) i g = emb (set_site_gid_by_id lat i g)) /\
  (forall i g, w_set_bond_gid_by_id (raw_of lat) i g = emb (set_bond_gid_by_id lat i g)) /\
  (forall i r, w_set_relative_index (raw_of lat) i r = emb (lat_set_relative_index lat i r)) /\
  (forall i, w_get_site_by_id (raw_of lat) i = (s <- get_site_by_id lat i ;; Ok (Obj s))) /\
  (forall i, w_get_bond_by_id (raw_of lat) i = (b <- get_bond_by_id lat i ;; Ok (Obj b))) /\
  (forall i, w_get_site_gid_by_id (raw_of lat) i = get_site_gid_by_id lat i) /\
  (forall i, w_get_bond_gid_by_id (raw_of lat) i = get_bond_gid_by_id lat i) /\
  (forall i, w_get_neighbor_bonds (raw_of lat) i = get_neighbor_bonds lat i) /\
  (forall i, w_get_neighbor_sites (raw_of lat) i = get_neighbor_sites lat i) /\
  (forall i, w_get_site_neighbor_of_site (raw_of lat) i = get_site_neighbor_of_site lat i) /\
  (forall i, w_get_sites_for_wrapping_test (raw_of lat) i = get_sites_for_wrapping_test lat i) /\
  (forall i, w_get_all_neighbor_sites (raw_of lat) i = get_all_neighbor_sites lat i) /\
  w_scan_sites (raw_of lat) = scan_sites lat /\ w_scan_bonds (raw_of lat) = scan_bonds lat /\
  w_test_neighbor_count (raw_of lat) = test_neighbor_count lat /\ (forall g, w_test_lattice (raw_of lat) g = lat_test_lattice lat g) /\
  w_init_ids (raw_of lat) = emb (init_ids lat) /\
  w_init_clusters (raw_of lat) = ('(p, l) <- init_clusters lat ;; Ok (p, raw_of l)).
Proof. exact p_C120_agree. Qed.
Print Assumptions C120_agree.

Example ex_C120_constructor : new_perc demo_env KL1 (-3) 0 = Err AttributeError /\ match w_new 1 with Ok w => match w_init_clusters w with Ok (p, w) => zlen (p_list p) = 2 | Err _ => False end | Err _ => False end.
Proof. vm_compute. repeat split; reflexivity. Qed.
Theorem C120_constructor : forall E k L t0, (0 <= L -> exists lat w, new_lattice L = Ok lat /\ w_new L = Ok w /\ w_init_clusters w = ('(p, l) <- init_clusters lat ;; Ok (p, raw_of l))) /\
  (L < 0 -> exists w, w_new L = Ok w /\ w_init_clusters w = Err AttributeError /\ new_perc E k L t0 = Err AttributeError).
Proof. exact p_C120_constructor. Qed.
Print Assumptions C120_constructor.
