(** * Self-checks, printing and re-initialisation: C68 to C73.

    [edited L lat]: a new lattice of length [L] after any sequence of calls of its setters (LatSpec.v).
    [lines], [line], [ints]: the lines of a printed text and the integers written in a line (ViewSpec.v). *)
From Coq Require Import String ZArith List Bool Sorting.Sorted Lia.
From Verif Require Import Py Lattice Cluster Perc Run Spec History Demo View LatSpec ViewSpec SelfTest Reinit SelfWitness ViewProps.
Import ListNotations.
Open Scope Z_scope.

Example ex_C68 : 2 <= 3 /\ edited 3 demo_lat /\
  (site_gid demo_lat 0 = 3 /\ site_gid demo_lat 1 = 3 /\ site_gid demo_lat 2 = -1 /\ site_rel demo_lat 1 = (0, 1) /\
   bond_gid demo_lat 0 = 3 /\ bond_gid demo_lat 1 = -1).
Proof. split; [lia|]. split; [apply demo_lat_edited|]. vm_compute. auto 10. Qed.
Theorem C68_self_checks : forall L lat, 2 <= L -> edited L lat ->
  test_neighbor_count lat = Ok tt /\ scan_sites lat = Ok tt /\ scan_bonds lat = Ok tt /\
  (let good := forall i d, is_site L i -> 0 <= site_gid lat i -> 0 <= site_gid lat (nbr L i d) ->
     exists d', 0 <= site_gid lat (nbr L i d') /\ one_apart L (site_rel lat i) (site_rel lat (nbr L i d')) in
   (good /\ test_relative_index lat = Ok tt) \/ (~ good /\ test_relative_index lat = Err AssertionError)) /\
  forall g,
   let good := (forall i, is_site L i -> site_gid lat i = g) /\ (forall b, is_bond L b -> bond_gid lat b = g) in
   (good /\ lat_test_lattice lat g = Ok tt) \/ (~ good /\ lat_test_lattice lat g = Err AssertionError).
Proof. exact p_C68. Qed.
Print Assumptions C68_self_checks.

Example ex_C69 : env_ok demo_env /\ reachable demo_env 3 demo_a /\ ~ wraps 3 (occupied demo_a) /\
  site_label demo_a 0 = site_label demo_a 1 /\ 0 <= site_label demo_a 0.
Proof. split; [apply demo_env_ok|]. split; [apply demo_a_reachable|]. split; [apply demo_a_no_wrap|]. split; vm_compute; [reflexivity|discriminate]. Qed.
Theorem C69_row_scan : forall E L s, env_ok E -> reachable E L s -> ~ wraps L (occupied s) -> test_rwo_col_scan (lat s) = Ok tt.
Proof. exact p_C69. Qed.
Print Assumptions C69_row_scan.

(** In [demo_lat] the neighbours 0 and 1 carry the same label, so the scan compares them. *)
Example ex_C69_exact : edited 3 demo_lat /\ site_gid demo_lat 0 = 3 /\ site_gid demo_lat 1 = 3 /\ test_rwo_col_scan demo_lat = Ok tt.
Proof. split; [apply demo_lat_edited|]. vm_compute. auto. Qed.
Theorem C69_row_scan_exact : forall L lat, 1 <= L -> edited L lat ->
  let good := forall r c, 0 <= r < L -> 0 <= c < L - 1 ->
    0 <= site_gid lat (r * L + c) -> site_gid lat (r * L + (c + 1)) = site_gid lat (r * L + c) ->
    let d := Z.abs (snd (site_rel lat (r * L + c)) - snd (site_rel lat (r * L + (c + 1)))) in d = 1 \/ d = L - 1 in
  (good /\ test_rwo_col_scan lat = Ok tt) \/ (~ good /\ test_rwo_col_scan lat = Err AssertionError).
Proof. exact p_C69_exact. Qed.
Print Assumptions C69_row_scan_exact.

Theorem C69_row_scan_wrapped_refuted : exists E L s, env_ok E /\ reachable_tracked E L s /\
  test_rwo_col_scan (lat s) = Err AssertionError /\ test_relative_index (lat s) = Ok tt.
Proof. exact p_C69_refuted. Qed.
Print Assumptions C69_row_scan_wrapped_refuted.

Example ex_C70 : env_ok demo_env /\ reachable demo_env 3 demo_a /\
  match viewLattice demo_a 4 with
  | Ok t => line t 10 = "  0 | 15| 15| -1|"%string /\ ints (line t 11) = [1; -1; 15; -1]
  | Err _ => False
  end.
Proof. split; [apply demo_env_ok|]. split; [apply demo_a_reachable|]. vm_compute. auto. Qed.
Theorem C70_view_lattice : forall E L s format, env_ok E -> reachable E L s ->
  exists text, viewLattice s format = Ok text /\
  (format < 0 -> lines text = ["undefined format"; ""]%string) /\
  (format = 3 -> length (lines text) = (13 + Z.to_nat L)%nat /\
    forall r, 0 <= r < L -> ints (line text (10 + Z.to_nat r)) =
      r :: flat_map (fun c => let i := r * L + c in [site_label s i; fst (rel_index s i); snd (rel_index s i)]) (zrange L)) /\
  (format = 4 -> length (lines text) = (13 + Z.to_nat L)%nat /\
    forall r, 0 <= r < L -> ints (line text (10 + Z.to_nat r)) = r :: map (fun c => site_label s (r * L + c)) (zrange L)) /\
  (0 <= format -> format <> 3 -> format <> 4 -> length (lines text) = (8 + 3 * Z.to_nat L)%nat /\
    forall r, 0 <= r < L ->
      ints (line text (6 + 3 * Z.to_nat r)) =
        flat_map (fun c => shown_site L s format r c ++ shown_bond s format (r * L + c) r c) (zrange L) /\
      ints (line text (7 + 3 * Z.to_nat r)) =
        flat_map (fun c => shown_bond s format (L * L + (r * L + c)) r c) (zrange L)).
Proof. exact p_C70. Qed.
Print Assumptions C70_view_lattice.

Example ex_C71 : env_ok demo_env /\ reachable demo_env 3 demo_a /\
  line (viewCluster demo_a) 1 = "cluster [ 5 ] (gid  5 ) :{"%string /\
  line (viewCluster demo_a) 30 = "  sites (3)  [0, 1, 4]"%string /\ length (lines (viewCluster demo_a)) = 41%nat.
Proof. split; [apply demo_env_ok|]. split; [apply demo_a_reachable|]. vm_compute. auto. Qed.
Theorem C71_view_clusters : forall E L s, env_ok E -> reachable E L s ->
  exists cs, StronglySorted Z.lt cs /\ (forall c, In c cs <-> exists b, is_bond L b /\ bond_label s b = c) /\
  length (lines (viewCluster s)) = (5 + 4 * length cs)%nat /\
  line (viewCluster s) 0 = "View cluster < BEGIN"%string /\
  line (viewCluster s) (2 + 4 * length cs) = " View cluster END >"%string /\
  ints (line (viewCluster s) (3 + 4 * length cs)) = [zlen cs] /\
  forall n, (n < length cs)%nat -> let c := nth n cs 0 in
    ints (line (viewCluster s) (1 + 4 * n)) = [c; c] /\
    (exists ss, ints (line (viewCluster s) (2 + 4 * n)) = zlen ss :: ss /\ NoDup ss /\
       forall i, In i ss <-> is_site L i /\ site_label s i = c) /\
    (exists bs, ints (line (viewCluster s) (3 + 4 * n)) = zlen bs :: bs /\ NoDup bs /\
       forall b, In b bs <-> is_bond L b /\ bond_label s b = c) /\
    line (viewCluster s) (4 + 4 * n) = "}"%string.
Proof. exact p_C71. Qed.
Print Assumptions C71_view_clusters.

Example ex_C72 : 0 < 3 /\ edited 3 demo_lat /\
  line (list_all_sites demo_lat) 2 = "1   3   (  0,  1)   <  0,  1>   [1, 10, 0, 16]"%string /\
  line (list_all_bonds demo_lat) 1 = "0   3   (0, 0, 0)   [0, 1]"%string.
Proof. split; [lia|]. split; [apply demo_lat_edited|]. vm_compute. auto 10. Qed.
Theorem C72_listings : forall L lat, 0 < L -> edited L lat ->
  (length (lines (list_all_sites lat)) = (2 + Z.to_nat (L * L))%nat /\
   forall i, is_site L i -> exists bs,
     ints (line (list_all_sites lat) (1 + Z.to_nat i)) =
       [i; site_gid lat i; i / L; i mod L; fst (site_rel lat i); snd (site_rel lat i)] ++ bs /\
     length bs = 4%nat /\ forall b, In b bs <-> is_bond L b /\ touches L b i) /\
  (length (lines (list_all_bonds lat)) = (2 + Z.to_nat (2 * (L * L)))%nat /\
   forall b, is_bond L b ->
     ints (line (list_all_bonds lat) (1 + Z.to_nat b)) =
       [b; bond_gid lat b; if b <? L * L then 0 else 1; end1 L b / L; end1 L b mod L;
        Z.min (end1 L b) (end2 L b); Z.max (end1 L b) (end2 L b)]) /\
  (exists text, print_bonds lat = Ok text /\ length (lines text) = (2 + Z.to_nat (2 * (L * L)))%nat /\
   forall b, is_bond L b -> ints (line text (1 + Z.to_nat b)) =
     [b; bond_gid lat b; b; Z.min (end1 L b) (end2 L b); Z.max (end1 L b) (end2 L b)]) /\
  (exists text, print_sites lat = Ok text /\ length (lines text) = (2 + Z.to_nat (L * L))%nat /\
   forall i, is_site L i -> exists bs, ints (line text (1 + Z.to_nat i)) = [i; site_gid lat i; i] ++ bs /\
     length bs = 4%nat /\ forall b, In b bs <-> is_bond L b /\ touches L b i).
Proof. exact p_C72. Qed.
Print Assumptions C72_listings.

Example ex_C73 : 0 < 3 /\ edited 3 demo_lat /\ new_lattice 3 <> Ok demo_lat.
Proof. split; [lia|]. split; [apply demo_lat_edited|]. vm_compute. discriminate. Qed.
Theorem C73_reinitialise : forall L lat, 0 < L -> edited L lat ->
  init_ids lat = Ok lat /\
  exists lat1, init_lattice lat = Ok lat1 /\ init_ids lat1 = new_lattice L.
Proof. exact p_C73. Qed.
Print Assumptions C73_reinitialise.
