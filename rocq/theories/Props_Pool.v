(** * Root sites, the first merging step, label queries and direct use of the pool: C101 to C104.

    [is_root s i]: the site reports that it is the root of its cluster (RootSpec.v).
    [merge_clusters] is perc:481-503, [get_bond_gids] and [get_site_gids] the two label
    queries (Extra.v, Perc.v).  [pooled L (lat, p)]: a lattice and a cluster pool used
    directly and sensibly, from new; [do_pcall]: one such use; [live p c]: cluster c exists
    and was not absorbed; [sites_in], [bonds_in]: what the pool lists (PoolSpec.v). *)
From Coq Require Import ZArith List Bool Lia.
From Verif Require Import Py Lattice Cluster Perc Spec LatSpec History Demo Extra RootSpec Root MergeV1 PoolSpec PoolProps.
Import ListNotations.
Open Scope Z_scope.

Example ex_C101 : reachable demo_env 3 demo_a /\ occupied demo_a 4 /\ rel_index demo_a 4 = (1, 1) /\ is_root demo_a 0.
Proof. split; [apply demo_a_reachable|]. split; [vm_compute; discriminate|]. split; [vm_compute; reflexivity|]. eexists. split; vm_compute; reflexivity. Qed.
Theorem C101_one_root : forall E L s i, env_ok E -> reachable E L s -> is_site L i -> occupied s i ->
  exists r, is_site L r /\ is_root s r /\ site_label s r = site_label s i /\
    (forall r', is_site L r' -> is_root s r' -> site_label s r' = site_label s i -> r' = r) /\
    exists ds, walk L (occupied s) r ds i /\ disp ds = rel_index s i.
Proof. exact p_one_root. Qed.
Print Assumptions C101_one_root.

Example ex_C101_unoccupied : is_site 3 8 /\ ~ occupied demo_a 8.
Proof. split; [unfold is_site; lia|]. vm_compute. auto. Qed.
Theorem C101_unoccupied : forall E L s i, env_ok E -> reachable E L s -> is_site L i -> ~ occupied s i -> is_root s i /\ rel_index s i = (0, 0).
Proof. exact p_empty_root. Qed.
Print Assumptions C101_unoccupied.

Example ex_C102 : Forall (is_bond 3) [0; 1; 5; 9] /\
  let s' := fst (merge_clusters demo_env [0; 1; 5; 9] demo_a) in
  snd (merge_clusters demo_env [0; 1; 5; 9] demo_a) = Ok 15 /\ sum_over (fun c => zlen (cluster_bonds s' c)) 18 = 19.
Proof. split; [repeat constructor; unfold is_bond; lia|]. split; vm_compute; reflexivity. Qed.
Theorem C102_merge_clusters : forall E L s bs, env_ok E -> reachable E L s -> Forall (is_bond L) bs -> bs <> [] ->
  let joined b := exists b', In b' bs /\ bond_label s b' = bond_label s b in
  let touched i := exists b', In b' bs /\ bond_label s b' = site_label s i in
  let size t c := zlen (cluster_bonds t c) in
  exists s' root, merge_clusters E bs s = (s', Ok root) /\
    (exists b, In b bs /\ bond_label s b = root) /\ (forall b, In b bs -> size s (bond_label s b) <= size s root) /\
    (forall b, is_bond L b -> (joined b -> bond_label s' b = root) /\ (~ joined b -> bond_label s' b = bond_label s b)) /\
    (forall i, is_site L i -> (touched i -> site_label s' i = root) /\ (~ touched i -> site_label s' i = site_label s i)) /\
    (forall c, 0 <= c < 2 * (L * L) -> c <> root -> cluster_bonds s' c = cluster_bonds s c /\ cluster_sites s' c = cluster_sites s c) /\
    2 * (L * L) <= sum_over (size s') (2 * (L * L)) /\
    (sum_over (size s') (2 * (L * L)) = 2 * (L * L) <-> forall b b', In b bs -> In b' bs -> bond_label s b = bond_label s b').
Proof. exact p_merge_v1. Qed.
Print Assumptions C102_merge_clusters.

Theorem C102_no_bonds : forall E s, env_ok E -> merge_clusters E [] s = (s, Ok 0).
Proof. exact p_merge_v1_empty. Qed.
Print Assumptions C102_no_bonds.

Example ex_C103 : Forall (is_bond 3) [0; 1; 5; 9; 12] /\ get_bond_gids demo_env (lat demo_a) [0; 1; 5; 9; 12] = Ok [5; 15; 12].
Proof. split; [repeat constructor; unfold is_bond; lia|vm_compute; reflexivity]. Qed.
Theorem C103_bond_labels : forall E L s bs, env_ok E -> reachable E L s -> Forall (is_bond L) bs ->
  exists gs, get_bond_gids E (lat s) bs = Ok gs /\ NoDup gs /\ forall g, In g gs <-> exists b, In b bs /\ bond_label s b = g.
Proof. exact p_bond_gids. Qed.
Print Assumptions C103_bond_labels.

Example ex_C103_sites : Forall (is_site 3) [0; 1; 5; 8] /\ get_site_gids demo_env (lat demo_a) [0; 1; 5; 8] = Ok [15; -1].
Proof. split; [repeat constructor; unfold is_site; lia|vm_compute; reflexivity]. Qed.
Theorem C103_site_labels : forall E L s is, env_ok E -> reachable E L s -> Forall (is_site L) is ->
  exists gs, get_site_gids E (lat s) is = Ok gs /\ NoDup gs /\ forall g, In g gs <-> exists i, In i is /\ site_label s i = g.
Proof. exact p_site_gids. Qed.
Print Assumptions C103_site_labels.

Example ex_C104 : exists lat p, pooled 3 (lat, p) /\ live p 0 /\ ~ live p 1 /\ live p 2 /\
  sites_in p 0 = [0; 1; 4] /\ bonds_in p 0 = [0; 3; 7; 8] /\ bonds_in p 2 = [10] /\ site_gid lat 4 = 0 /\ bond_gid lat 10 = 2.
Proof. exact pool_demo. Qed.
Theorem C104_consistent : forall L lat p, 0 < L -> pooled L (lat, p) ->
  (forall i, is_site L i -> site_gid lat i = -1 \/ live p (site_gid lat i)) /\
  (forall b, is_bond L b -> bond_gid lat b = -1 \/ live p (bond_gid lat b)) /\
  (forall c, 0 <= c < zlen (p_list p) ->
     NoDup (sites_in p c) /\ (forall i, In i (sites_in p c) <-> is_site L i /\ site_gid lat i = c) /\
     NoDup (bonds_in p c) /\ (forall b, In b (bonds_in p c) <-> is_bond L b /\ bond_gid lat b = c) /\
     (~ live p c -> sites_in p c = [] /\ bonds_in p c = [])).
Proof. exact p_pool_state. Qed.
Print Assumptions C104_consistent.

Theorem C104_calls : forall L lat p c, 0 < L -> pooled L (lat, p) -> pcall_ok L (lat, p) c ->
  exists lat' p', do_pcall (lat, p) c = Ok (lat', p') /\
  match c with
  | PCreate ss bs => let g := zlen (p_list p) in
      zlen (p_list p') = g + 1 /\ live p' g /\ sites_in p' g = ss /\ bonds_in p' g = bs /\
      (forall d, live p' d <-> d = g \/ live p d) /\
      (forall i, is_site L i -> (In i ss -> site_gid lat' i = g) /\ (~ In i ss -> site_gid lat' i = site_gid lat i)) /\
      (forall b, is_bond L b -> (In b bs -> bond_gid lat' b = g) /\ (~ In b bs -> bond_gid lat' b = bond_gid lat b))
  | PJoin a b =>
      zlen (p_list p') = zlen (p_list p) /\ (forall d, live p' d <-> d <> b /\ live p d) /\
      sites_in p' a = sites_in p a ++ sites_in p b /\ bonds_in p' a = bonds_in p a ++ bonds_in p b /\
      (forall i, is_site L i -> site_gid lat' i = if site_gid lat i =? b then a else site_gid lat i) /\
      (forall x, is_bond L x -> bond_gid lat' x = if bond_gid lat x =? b then a else bond_gid lat x)
  end.
Proof. exact p_pool_call. Qed.
Print Assumptions C104_calls.

Theorem C104_misuse : forall L lat p, 0 < L -> pooled L (lat, p) ->
  (forall a, live p a -> exists p' lat', merge_cluster_with p a a lat = Ok (p', lat') /\
     sites_in p' a = sites_in p a ++ sites_in p a /\ bonds_in p' a = bonds_in p a ++ bonds_in p a) /\
  (forall a b, live p a -> live p b -> a <> b -> exists p' lat', merge_cluster_with p a b lat = Ok (p', lat') /\
     sites_in p' a = sites_in p a ++ sites_in p b /\ bonds_in p' a = bonds_in p a ++ bonds_in p b /\
     sites_in p' b = sites_in p b /\ bonds_in p' b = bonds_in p b) /\
  (forall a b, 0 <= a < zlen (p_list p) -> ~ live p a -> live p b -> exists p' lat', merge_cluster_with p a b lat = Ok (p', lat') /\
     bonds_in p' a = bonds_in p b /\ (forall i, In i (sites_in p b) -> site_gid lat' i = -1) /\ (forall x, In x (bonds_in p b) -> bond_gid lat' x = -1)).
Proof. exact p_pool_misuse. Qed.
Print Assumptions C104_misuse.

Example ex_C104_lookup : get_cluster (pool demo_a) 18 = Ok None /\ get_cluster (pool demo_a) (-19) = Err IndexError /\ get_cluster (pool demo_a) (-3) = get_cluster (pool demo_a) 15.
Proof. vm_compute. auto. Qed.
Theorem C104_lookup : forall p id, let n := zlen (p_list p) in
  (n <= id -> get_cluster p id = Ok None) /\
  (id < - n -> get_cluster p id = Err IndexError) /\
  (- n <= id < 0 -> get_cluster p id = get_cluster p (id + n)) /\
  (- n <= id < n -> exists c, get_cluster p id = Ok (Some c) /\
     pool_get_sites p id = Ok (c_sites c) /\ pool_get_bonds p id = Ok (c_bonds c) /\
     get_cluster_site_count p id = Ok (zlen (c_sites c)) /\ get_cluster_bond_count p id = Ok (zlen (c_bonds c))).
Proof. exact p_pool_lookup. Qed.
Print Assumptions C104_lookup.

Example ex_C104_add : 0 <= 15 < zlen (p_list (pool demo_a)) /\ sites_in (pool demo_a) 15 <> [].
Proof. vm_compute. repeat split; discriminate. Qed.
Theorem C104_add : forall p idx l, let n := zlen (p_list p) in 0 <= idx < n ->
  (exists p', pool_add_sites p idx l = Ok p' /\ zlen (p_list p') = n /\
     sites_in p' idx = sites_in p idx ++ l /\ bonds_in p' idx = bonds_in p idx /\
     forall c, 0 <= c < n -> c <> idx -> sites_in p' c = sites_in p c /\ bonds_in p' c = bonds_in p c) /\
  (exists p', pool_add_bonds p idx l = Ok p' /\ zlen (p_list p') = n /\
     bonds_in p' idx = bonds_in p idx ++ l /\ sites_in p' idx = sites_in p idx /\
     forall c, 0 <= c < n -> c <> idx -> sites_in p' c = sites_in p c /\ bonds_in p' c = bonds_in p c).
Proof. exact p_pool_add. Qed.
Print Assumptions C104_add.
