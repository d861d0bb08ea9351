(** * Properties of every reachable state: C06, C07, C10-C16, C20-C22, C25-C30, C37, C55.

    [reachable E L s]: [s] is the state of an object of any of the five classes
    and of length [L], after any finite list of calls (History.v), with any set
    iteration order and any random stream [E].  [demo_a] and [demo_b] (Demo.v)
    are two such states on the 3x3 lattice. *)
From Coq Require Import ZArith List Bool Lia Permutation.
From Verif Require Import Py Lattice Cluster Perc Spec History Demo StateProps StateProps2.
Import ListNotations.
Open Scope Z_scope.

Example ex_reachable : env_ok demo_env /\ reachable demo_env 3 demo_a /\ reachable demo_env 3 demo_b.
Proof. exact (conj demo_env_ok (conj demo_a_reachable demo_b_reachable)). Qed.

Theorem C06_construction : forall E k L t0, (0 < L -> exists s, new_perc E k L t0 = Ok s /\ kind s = k /\
     (forall i, is_site L i -> site_label s i = -1) /\
     zlen (p_list (pool s)) = 2 * (L * L) /\
     (forall b, is_bond L b -> bond_label s b = b /\ cluster_bonds s b = [b] /\ cluster_sites s b = []) /\
     Permutation (zrange (L * L)) (get_site_id_sequence s)) /\
  (L = 0 -> new_perc E k L t0 = Err ValueError) /\
  (L < 0 -> new_perc E k L t0 = Err AttributeError).
Proof. exact p_C06. Qed.
Print Assumptions C06_construction.

Theorem C07_geometry_constant : forall E L s, env_ok E -> reachable E L s ->
  exists lat0, new_lattice L = Ok lat0 /\
    l_length (lat s) = l_length lat0 /\ l_site_count (lat s) = l_site_count lat0 /\
    l_bond_count (lat s) = l_bond_count lat0 /\
    map site_geometry (l_sites (lat s)) = map site_geometry (l_sites lat0) /\
    map bond_geometry (l_bonds (lat s)) = map bond_geometry (l_bonds lat0).
Proof. exact p_C07. Qed.
Print Assumptions C07_geometry_constant.

Example ex_C10 : snd (place_one_site demo_env demo_a) = Ok true /\ sel_flag (fst (place_one_site demo_env demo_a)) = Some SUCESS /\
  sel_id (fst (place_one_site demo_env demo_a)) = Some 2 /\ site_label demo_a 2 = -1.
Proof. vm_compute. repeat split; reflexivity. Qed.
Theorem C10_placement_effect : forall E L s, env_ok E -> reachable E L s ->
  match place_one_site E s with
  | (s', Ok true) =>
      match sel_flag s' with
      | Some SUCESS => exists x, is_site L x /\ sel_id s' = Some x /\ ~ occupied s x /\
          (forall i, is_site L i -> (occupied s' i <-> i = x \/ occupied s i)) /\
          occ_count s' = occ_count s + 1
      | Some CURRENT_SITE_NOT_EMPTY => nothing_changed L s s'
      | _ => False
      end
  | (s', Ok false) => sel_flag s' = Some EMPTY_SITE_LIST /\ nothing_changed L s s'
  | (s', Err _) => nothing_changed L s s'
  end.
Proof. exact p_C10. Qed.
Print Assumptions C10_placement_effect.

Example ex_C11 : occupied_sites 3 demo_a = [0; 1; 4] /\ occ_count demo_a = 3.
Proof. vm_compute. repeat split; reflexivity. Qed.
Theorem C11_occupation_count : forall E L s, env_ok E -> reachable E L s ->
  let n := Z.of_nat (length (occupied_sites L s)) in
  occ_count s = n /\ 0 <= n <= L * L /\ occupation_prob s = Ok (FDiv (FZ n) (FZ (L * L))).
Proof. exact p_C11. Qed.
Print Assumptions C11_occupation_count.

Example ex_C12 : length (cluster_bonds demo_a (bond_label demo_a 0)) = 10%nat.
Proof. vm_compute. repeat split; reflexivity. Qed.
Theorem C12_bond_partition : forall E L s, env_ok E -> reachable E L s ->
  let clusters := 2 * (L * L) in
  zlen (p_list (pool s)) = clusters /\
  (forall b, is_bond L b -> 0 <= bond_label s b < clusters) /\
  (forall c, 0 <= c < clusters ->
     NoDup (cluster_bonds s c) /\
     (forall b, In b (cluster_bonds s c) <-> is_bond L b /\ bond_label s b = c)) /\
  sum_over (fun c => zlen (cluster_bonds s c)) clusters = 2 * (L * L).
Proof. exact p_C12. Qed.
Print Assumptions C12_bond_partition.

Example ex_C13 : cluster_sites demo_a (site_label demo_a 4) = [0; 1; 4] /\ site_label demo_a 8 = -1.
Proof. vm_compute. split; reflexivity. Qed.
Theorem C13_site_partition : forall E L s, env_ok E -> reachable E L s ->
  let clusters := 2 * (L * L) in
  (forall i, is_site L i -> occupied s i -> 0 <= site_label s i < clusters) /\
  (forall i, is_site L i -> ~ occupied s i -> site_label s i = -1) /\
  (forall c, 0 <= c < clusters ->
     NoDup (cluster_sites s c) /\
     (forall i, In i (cluster_sites s c) <-> is_site L i /\ occupied s i /\ site_label s i = c)) /\
  sum_over (fun c => zlen (cluster_sites s c)) clusters = Z.of_nat (length (occupied_sites L s)).
Proof. exact p_C13. Qed.
Print Assumptions C13_site_partition.

Example ex_C14 : site_label demo_a 4 = site_label demo_a 0 /\ 0 <= site_label demo_a 0.
Proof. vm_compute. split; [reflexivity|discriminate]. Qed.
Theorem C14_components : forall E L s, env_ok E -> reachable E L s ->
  forall i j, is_site L i -> is_site L j -> occupied s i -> occupied s j ->
  (site_label s i = site_label s j <-> connected L (occupied s) i j).
Proof. exact p_C14. Qed.
Print Assumptions C14_components.

Example ex_C15 : bond_label demo_a 0 = site_label demo_a 0 /\ bond_label demo_a 0 = bond_label demo_a 4 /\ bond_label demo_a 7 = 7.
Proof. vm_compute. repeat split; reflexivity. Qed.
Theorem C15_bond_components : forall E L s, env_ok E -> reachable E L s ->
  (forall b b', is_bond L b -> is_bond L b' ->
     (bond_label s b = bond_label s b' <-> bonds_joined L (occupied s) b b')) /\
  (forall b i, is_bond L b -> is_site L i -> occupied s i -> touches L b i -> bond_label s b = site_label s i).
Proof. exact p_C15. Qed.
Print Assumptions C15_bond_components.

Example ex_C16 : largest_cluster demo_a = 10 /\ largest_cluster demo_b = 12.
Proof. vm_compute. repeat split; reflexivity. Qed.
Theorem C16_largest : forall E L s, env_ok E -> reachable E L s ->
  ((forall i, is_site L i -> ~ occupied s i) -> largest_cluster s = 0) /\
  ((exists i, is_site L i /\ occupied s i) ->
     (forall c, 0 <= c < 2 * (L * L) -> zlen (cluster_bonds s c) <= largest_cluster s) /\
     0 <= largest_id s < 2 * (L * L) /\ zlen (cluster_bonds s (largest_id s)) = largest_cluster s).
Proof. exact p_C16. Qed.
Print Assumptions C16_largest.

Example ex_C20 : order_param_largest_clstr demo_a = Ok (FDiv (FZ 10) (FZ 18)).
Proof. vm_compute. repeat split; reflexivity. Qed.
Theorem C20_order_param_largest : forall E L s, env_ok E -> reachable E L s ->
  order_param_largest_clstr s = Ok (FDiv (FZ (largest_cluster s)) (FZ (2 * (L * L)))) /\
  0 <= largest_cluster s <= 2 * (L * L) /\
  ((forall i, is_site L i -> occupied s i) -> largest_cluster s = 2 * (L * L)) /\
  largest_cluster s <= largest_cluster (fst (place_one_site E s)).
Proof. exact p_C20. Qed.
Print Assumptions C20_order_param_largest.

Example ex_C21 : order_param_wrapping demo_a = Ok (FZ 0) /\ after_wrap demo_b = true /\ order_param_wrapping demo_b = Ok (FDiv (FZ 12) (FZ 18)).
Proof. vm_compute. repeat split; reflexivity. Qed.
Theorem C21_order_param_wrapping : forall E L s, env_ok E -> reachable E L s ->
  (after_wrap s = false -> order_param_wrapping s = Ok (FZ 0)) /\
  (after_wrap s = true -> let n := zlen (cluster_bonds s (wid s)) in
     order_param_wrapping s = Ok (FDiv (FZ n) (FZ (2 * (L * L)))) /\
     0 < n <= largest_cluster s /\ largest_cluster s <= 2 * (L * L) /\
     let s' := fst (place_one_site E s) in
     after_wrap s' = true /\ n <= zlen (cluster_bonds s' (wid s'))).
Proof. exact p_C21. Qed.
Print Assumptions C21_order_param_wrapping.

Example ex_C22 : snd (detect_wrapping demo_b) = Ok true /\ snd (detect_wrapping demo_a) = Ok false.
Proof. vm_compute. repeat split; reflexivity. Qed.
Theorem C22_wrapping_sound : forall E L s, env_ok E -> reachable E L s ->
  let s' := fst (detect_wrapping s) in
  snd (detect_wrapping s) = Ok true \/ after_wrap s' = true ->
  after_wrap s' = true /\ 0 <= wid s' < 2 * (L * L) /\
  exists i, is_site L i /\ occupied s' i /\ site_label s' i = wid s' /\
    wraps_at L (fun j => site_label s' j = wid s') i /\ wraps_at L (occupied s') i.
Proof. exact p_C22. Qed.
Print Assumptions C22_wrapping_sound.

Theorem C25_small_lattices_never_wrap : forall E L s, env_ok E -> reachable E L s -> L <= 2 ->
  after_wrap s = false /\ snd (detect_wrapping s) <> Ok true /\
  get_pc s = Ok (FZ 0) /\ order_param_wrapping s = Ok (FZ 0) /\
  ((forall i, is_site L i -> occupied s i) -> wraps L (occupied s)).
Proof. exact p_C25. Qed.
Print Assumptions C25_small_lattices_never_wrap.

Example ex_C26 : after_wrap demo_b = true /\ ~ In CReset [CPlace; CDetect].
Proof. split; [vm_compute; reflexivity|]. intros [H|[H|[]]]; discriminate. Qed.
Theorem C26_wrapping_permanent : forall E L s cs, env_ok E -> reachable E L s -> Forall (call_ok L) cs -> ~ In CReset cs ->
  after_wrap s = true ->
  let s' := after E s cs in
  after_wrap s' = true /\ wid s' = wid s /\ snd (detect_wrapping s') = Ok true /\
  (forall i, is_site L i -> site_label s i = wid s -> site_label s' i = wid s) /\
  (forall b, is_bond L b -> bond_label s b = wid s -> bond_label s' b = wid s).
Proof. exact p_C26. Qed.
Print Assumptions C26_wrapping_permanent.

Example ex_C27 : get_pc demo_b = Ok (FDiv (FZ 4) (FZ 9)) /\ get_site_count_wrapping_cluster_pc demo_b = 4 /\ get_pc demo_a = Ok (FZ 0).
Proof. vm_compute. repeat split; reflexivity. Qed.
Theorem C27_critical_values_frozen : forall E L s, env_ok E -> reachable E L s ->
  (after_wrap s = false -> get_pc s = Ok (FZ 0) /\ get_site_count_wrapping_cluster_pc s = 0 /\
     get_bond_count_wrapping_cluster_pc s = 0) /\
  (after_wrap s = true -> exists n, get_pc s = Ok (FDiv (FZ n) (FZ (L * L))) /\
     L <= get_site_count_wrapping_cluster_pc s <= n /\ n <= occ_count s <= L * L /\
     0 < get_bond_count_wrapping_cluster_pc s <= 2 * (L * L) /\
     forall cs, Forall (call_ok L) cs -> ~ In CReset cs ->
       get_pc (after E s cs) = get_pc s /\
       get_site_count_wrapping_cluster_pc (after E s cs) = get_site_count_wrapping_cluster_pc s /\
       get_bond_count_wrapping_cluster_pc (after E s cs) = get_bond_count_wrapping_cluster_pc s).
Proof. exact p_C27. Qed.
Print Assumptions C27_critical_values_frozen.

Example ex_C28 : rel_index demo_a 4 = (1, 1) /\ rel_index demo_a 0 = (0, 0).
Proof. vm_compute. repeat split; reflexivity. Qed.
Theorem C28_displacement : forall E L s, env_ok E -> reachable E L s ->
  forall i j, is_site L i -> is_site L j -> occupied s i -> site_label s i = site_label s j ->
  exists ds, walk L (occupied s) i ds j /\ disp ds = vsub (rel_index s j) (rel_index s i) /\
    (row L i + (fst (rel_index s j) - fst (rel_index s i))) mod L = row L j /\
    (col L i + (snd (rel_index s j) - snd (rel_index s i))) mod L = col L j.
Proof. exact p_C28a. Qed.
Print Assumptions C28_displacement.

Example ex_C29 : get_relative_index (lat demo_a) 0 (nbr 3 0 DLeft) = Ok (0, -1).
Proof. vm_compute. repeat split; reflexivity. Qed.
Theorem C29_neighbour_offset : forall E L s, env_ok E -> reachable E L s ->
  (3 <= L -> forall i d, is_site L i ->
     get_relative_index (lat s) i (nbr L i d) = Ok (vadd (rel_index s i) (step d))) /\
  (forall x y, -1 <= x <= 1 -> -1 <= y <= 1 -> wrapping_correction_relative_index (x, y) = (x, y)).
Proof. exact p_C29. Qed.
Print Assumptions C29_neighbour_offset.

Example ex_C30 : site_label demo_a 8 = -1.
Proof. vm_compute. repeat split; reflexivity. Qed.
Theorem C30_self_checks : forall E L s, env_ok E -> reachable E L s -> 2 <= L ->
  (exists i, is_site L i /\ ~ occupied s i) -> test_lattice s = Ok tt.
Proof. exact p_C30. Qed.
Print Assumptions C30_self_checks.

Theorem C37_reset_fresh : forall E L s, env_ok E -> reachable E L s ->
  exists s', reset E s = (s', Ok tt) /\
  forall E' k t0 s0, new_perc E' k L t0 = Ok s0 ->
    kind s' = kind s /\ lat s' = lat s0 /\ pool s' = pool s0 /\ cur_idx s' = cur_idx s0 /\
    occ_count s' = occ_count s0 /\ pc_occ s' = pc_occ s0 /\ cluster_count s' = cluster_count s0 /\
    largest_sz s' = largest_sz s0 /\ largest_id s' = largest_id s0 /\
    max_ent s' = max_ent s0 /\ ent s' = ent s0 /\ after_wrap s' = after_wrap s0 /\ wid s' = wid s0 /\
    pc_bonds s' = pc_bonds s0 /\ pc_sites s' = pc_sites s0 /\ sel_flag s' = sel_flag s0 /\
    h_arr s' = h_arr s0 /\ pw_arr s' = pw_arr s0 /\ pl_arr s' = pl_arr s0 /\
    (first_run s = true -> p_arr s' = p_arr s0).
Proof. exact p_C37. Qed.
Print Assumptions C37_reset_fresh.

Example ex_C55 : length (cluster_sites demo_b (wid demo_b)) = 4%nat /\ length (cluster_bonds demo_b (wid demo_b)) = 12%nat.
Proof. vm_compute. repeat split; reflexivity. Qed.
Theorem C55_sizes : forall E L s, env_ok E -> reachable E L s ->
  forall c, 0 <= c < 2 * (L * L) ->
  let n := zlen (cluster_sites s c) in let b := zlen (cluster_bonds s c) in
  2 * n <= b <= 3 * n + 1.
Proof. exact p_C55. Qed.
Print Assumptions C55_sizes.
