(** * The plain classes Percolation and BondPercolation: C119.

    Bare.v models objects that have a lattice and a cluster pool and no placing method, with
    every call a user can make on the lattice and the pool.  [handled L b]: b is a new object of
    length L after any calls with any arguments, whether they raised or not; [means n x i]: the
    Python index x, negative ones counting from the end, is entry i of n; [valid n l]: every
    index in l is one of a list of n; [relabelled n l g before after]: everything listed in l
    has the label g, everything else its old label (all in BareSpec.v); [site_gid], [bond_gid],
    [site_rel]: what the lattice reports (LatSpec.v). *)
From Coq Require Import ZArith List Bool Lia.
From Verif Require Import Py Lattice Cluster Perc Extra Spec LatSpec Demo Bare BareSpec BareProps.
Import ListNotations.
Open Scope Z_scope.

Example ex_C119_new : exists b, new_bare 3 = Ok b /\ zlen (l_sites (ba_lat b)) = 9 /\ zlen (l_bonds (ba_lat b)) = 18.
Proof. destruct (new_bare 3) as [b|] eqn:E; vm_compute in E; [|discriminate]. exists b. injection E as <-. repeat split; reflexivity. Qed.
Theorem C119_new : forall L, 0 < L -> exists b, new_bare L = Ok b /\ edited L (ba_lat b) /\ p_list (ba_pool b) = [] /\
  (forall i, is_site L i -> site_gid (ba_lat b) i = -1 /\ site_rel (ba_lat b) i = (0, 0)) /\ (forall i, is_bond L i -> bond_gid (ba_lat b) i = -1).
Proof. exact p_C119_new. Qed.
Print Assumptions C119_new.

Example ex_C119_reset : forall b0, new_bare 3 = Ok b0 -> handled 3 (bare_after [RCreate [4; -9] [0; 17]; RCreate [1; 9; 2] []; RAddSites 0 [50]; RCreate [4; 5] [-18]; RReduce1 3; RLat (ERel 4 (2, 0)); RMerge 1 (-1)] b0) /\
  let b := bare_after [RCreate [4; -9] [0; 17]; RCreate [1; 9; 2] []; RAddSites 0 [50]; RCreate [4; 5] [-18]; RReduce1 3; RLat (ERel 4 (2, 0)); RMerge 1 (-1)] b0 in
  map (site_gid (ba_lat b)) [0; 1; 2; 4; 5] = [0; 1; -1; 1; 1] /\ bare_do RReset b = (b0, Ok tt).
Proof. intros b0 E. split; [now apply handled_calls|]. vm_compute in E. injection E as <-. vm_compute. repeat split; reflexivity. Qed.
Theorem C119_reset : forall L b, 0 < L -> handled L b -> exists b0, new_bare L = Ok b0 /\ bare_do RReset b = (b0, Ok tt).
Proof. exact p_C119_reset. Qed.
Print Assumptions C119_reset.

Example ex_C119_geometry : forall b0, new_bare 3 = Ok b0 -> handled 3 (bare_after [RCreate [4; -9] [0; 17]; RCreate [1; 9; 2] []; RAddSites 0 [50]; RCreate [4; 5] [-18]; RReduce1 3; RLat (ERel 4 (2, 0)); RMerge 1 (-1)] b0) /\
  let b := bare_after [RCreate [4; -9] [0; 17]; RCreate [1; 9; 2] []; RAddSites 0 [50]; RCreate [4; 5] [-18]; RReduce1 3; RLat (ERel 4 (2, 0)); RMerge 1 (-1)] b0 in
  p_next (ba_pool b) = 2 /\ match get_site_by_id (ba_lat b) 3 with Ok t => s_index t = (1, 0) /\ s_nn1 t = 3 | Err _ => False end.
Proof. intros b0 E. split; [now apply handled_calls|]. vm_compute in E. injection E as <-. vm_compute. repeat split; reflexivity. Qed.
Theorem C119_geometry : forall L b b0, 0 < L -> new_bare L = Ok b0 -> handled L b ->
  (forall i, is_site L i -> exists t t0, get_site_by_id (ba_lat b) i = Ok t /\ get_site_by_id (ba_lat b0) i = Ok t0 /\
     s_id t = i /\ s_index t = (i / L, i mod L) /\ s_bonds t = s_bonds t0 /\ s_index t0 = s_index t) /\
  (forall i, is_bond L i -> exists t t0, get_bond_by_id (ba_lat b) i = Ok t /\ get_bond_by_id (ba_lat b0) i = Ok t0 /\
     b_id t = i /\ b_sites t = b_sites t0 /\ b_type t = b_type t0 /\ b_row t = b_row t0 /\ b_col t = b_col t0) /\
  zlen (l_sites (ba_lat b)) = L * L /\ zlen (l_bonds (ba_lat b)) = 2 * (L * L) /\
  p_next (ba_pool b) = zlen (p_list (ba_pool b)).
Proof. exact p_C119_geometry. Qed.
Print Assumptions C119_geometry.

Example ex_C119_create : forall b0, new_bare 3 = Ok b0 -> handled 3 (bare_after [RCreate [4; -9] [0; 17]; RCreate [1; 9; 2] []; RAddSites 0 [50]; RCreate [4; 5] [-18]; RReduce1 3; RLat (ERel 4 (2, 0)); RMerge 1 (-1)] b0) /\
  let b := bare_after [RCreate [4; -9] [0; 17]; RCreate [1; 9; 2] []; RAddSites 0 [50]; RCreate [4; 5] [-18]; RReduce1 3; RLat (ERel 4 (2, 0)); RMerge 1 (-1)] b0 in
  snd (bare_do (RCreate [-1; 3] [-1]) b) = Ok tt /\ site_gid (ba_lat (fst (bare_do (RCreate [-1; 3] [-1]) b))) 8 = 2 /\ bond_gid (ba_lat (fst (bare_do (RCreate [-1; 3] [-1]) b))) 17 = 2 /\
  snd (bare_do (RCreate [7; 9; 3] [2]) b) = Err IndexError /\ map (site_gid (ba_lat (fst (bare_do (RCreate [7; 9; 3] [2]) b)))) [7; 3] = [2; -1].
Proof. intros b0 E. split; [now apply handled_calls|]. vm_compute in E. injection E as <-. vm_compute. repeat split; reflexivity. Qed.
Theorem C119_create : forall L b sites bonds, 0 < L -> handled L b ->
  let g := zlen (p_list (ba_pool b)) in let '(b', r) := bare_do (RCreate sites bonds) b in
  (valid (L * L) sites /\ valid (2 * (L * L)) bonds ->
     r = Ok tt /\ p_list (ba_pool b') = p_list (ba_pool b) ++ [mkCluster sites bonds g g] /\
     relabelled (L * L) sites g (site_gid (ba_lat b)) (site_gid (ba_lat b')) /\
     relabelled (2 * (L * L)) bonds g (bond_gid (ba_lat b)) (bond_gid (ba_lat b'))) /\
  (~ (valid (L * L) sites /\ valid (2 * (L * L)) bonds) ->
     r = Err IndexError /\ ba_pool b' = ba_pool b /\
     exists ps pb, valid (L * L) ps /\ valid (2 * (L * L)) pb /\
       relabelled (L * L) ps g (site_gid (ba_lat b)) (site_gid (ba_lat b')) /\
       relabelled (2 * (L * L)) pb g (bond_gid (ba_lat b)) (bond_gid (ba_lat b')) /\
       ((exists x t, sites = ps ++ x :: t /\ ~ (- (L * L) <= x < L * L) /\ pb = []) \/
        (sites = ps /\ exists x t, bonds = pb ++ x :: t /\ ~ (- (2 * (L * L)) <= x < 2 * (L * L))))) /\
  (forall i, is_site L i -> site_rel (ba_lat b') i = site_rel (ba_lat b) i).
Proof. exact p_C119_create. Qed.
Print Assumptions C119_create.

Example ex_C119_merge : forall b0, new_bare 3 = Ok b0 -> handled 3 (bare_after [RCreate [4; -9] [0; 17]; RCreate [1; 9; 2] []; RAddSites 0 [50]; RCreate [4; 5] [-18]; RReduce1 3; RLat (ERel 4 (2, 0)); RMerge 1 (-1)] b0) /\
  let b := bare_after [RCreate [4; -9] [0; 17]; RCreate [1; 9; 2] []; RAddSites 0 [50]; RCreate [4; 5] [-18]; RReduce1 3; RLat (ERel 4 (2, 0)); RMerge 1 (-1)] b0 in
  snd (bare_do (RMerge 1 0) b) = Err IndexError /\ map (site_gid (ba_lat b)) [4; 0; 5] = [1; 0; 1] /\ map (site_gid (ba_lat (fst (bare_do (RMerge 1 0) b)))) [4; 0; 5] = [1; 1; 1] /\
  snd (bare_do (RMerge 0 1) b) = Ok tt /\ map c_sites (p_list (ba_pool (fst (bare_do (RMerge 0 1) b)))) = [[4; -9; 50; 4; 5; 4; 5]; [4; 5; 4; 5]].
Proof. intros b0 E. split; [now apply handled_calls|]. vm_compute in E. injection E as <-. vm_compute. repeat split; reflexivity. Qed.
Theorem C119_merge : forall L b a c i j ca cb, 0 < L -> handled L b ->
  means (zlen (p_list (ba_pool b))) a i -> means (zlen (p_list (ba_pool b))) c j ->
  lget (p_list (ba_pool b)) i = Ok ca -> lget (p_list (ba_pool b)) j = Ok cb ->
  let '(b', r) := bare_do (RMerge a c) b in
  (valid (L * L) (c_sites cb) /\ valid (2 * (L * L)) (c_bonds cb) ->
     r = Ok tt /\ zlen (p_list (ba_pool b')) = zlen (p_list (ba_pool b)) /\
     (forall k, 0 <= k < zlen (p_list (ba_pool b)) -> lget (p_list (ba_pool b')) k =
        if k =? i then Ok (mkCluster (c_sites ca ++ c_sites cb) (c_bonds ca ++ c_bonds cb) (c_gid ca) (c_id ca)) else lget (p_list (ba_pool b)) k) /\
     relabelled (L * L) (c_sites cb) (c_gid ca) (site_gid (ba_lat b)) (site_gid (ba_lat b')) /\
     relabelled (2 * (L * L)) (c_bonds cb) (c_gid ca) (bond_gid (ba_lat b)) (bond_gid (ba_lat b'))) /\
  (~ (valid (L * L) (c_sites cb) /\ valid (2 * (L * L)) (c_bonds cb)) ->
     r = Err IndexError /\ ba_pool b' = ba_pool b /\
     exists ps pb, valid (L * L) ps /\ valid (2 * (L * L)) pb /\
       relabelled (L * L) ps (c_gid ca) (site_gid (ba_lat b)) (site_gid (ba_lat b')) /\
       relabelled (2 * (L * L)) pb (c_gid ca) (bond_gid (ba_lat b)) (bond_gid (ba_lat b')) /\
       ((exists x t, c_bonds cb = pb ++ x :: t /\ ~ (- (2 * (L * L)) <= x < 2 * (L * L)) /\ ps = []) \/
        (c_bonds cb = pb /\ exists x t, c_sites cb = ps ++ x :: t /\ ~ (- (L * L) <= x < L * L)))) /\
  (forall k, is_site L k -> site_rel (ba_lat b') k = site_rel (ba_lat b) k).
Proof. exact p_C119_merge. Qed.
Print Assumptions C119_merge.

Example ex_C119_missing : forall b0, new_bare 3 = Ok b0 -> handled 3 (bare_after [RCreate [4; -9] [0; 17]; RCreate [1; 9; 2] []; RAddSites 0 [50]; RCreate [4; 5] [-18]; RReduce1 3; RLat (ERel 4 (2, 0)); RMerge 1 (-1)] b0) /\
  let b := bare_after [RCreate [4; -9] [0; 17]; RCreate [1; 9; 2] []; RAddSites 0 [50]; RCreate [4; 5] [-18]; RReduce1 3; RLat (ERel 4 (2, 0)); RMerge 1 (-1)] b0 in
  bare_do (RMerge 0 2) b = (b, Err IndexError) /\ bare_do (RMerge (-3) 0) b = (b, Err IndexError).
Proof. intros b0 E. split; [now apply handled_calls|]. vm_compute in E. injection E as <-. vm_compute. repeat split; reflexivity. Qed.
Theorem C119_missing : forall b a c, ~ (- zlen (p_list (ba_pool b)) <= a < zlen (p_list (ba_pool b))) \/ ~ (- zlen (p_list (ba_pool b)) <= c < zlen (p_list (ba_pool b))) ->
  bare_do (RMerge a c) b = (b, Err IndexError).
Proof. exact p_C119_missing. Qed.
Print Assumptions C119_missing.

Example ex_C119_agree : forall b0, new_bare 3 = Ok b0 -> handled 3 (bare_after [RCreate [4; -9] [0; 17]; RCreate [1; 9; 2] []; RAddSites 0 [50]; RCreate [4; 5] [-18]; RReduce1 3; RLat (ERel 4 (2, 0)); RMerge 1 (-1)] b0) /\
  let b := bare_after [RCreate [4; -9] [0; 17]; RCreate [1; 9; 2] []; RAddSites 0 [50]; RCreate [4; 5] [-18]; RReduce1 3; RLat (ERel 4 (2, 0)); RMerge 1 (-1)] b0 in
  (exists r, merge_cluster_with (ba_pool b) 0 1 (ba_lat b) = Ok r) /\ create_new_cluster (ba_pool b) [9] [] (ba_lat b) = Err IndexError.
Proof. intros b0 E. split; [now apply handled_calls|]. vm_compute in E. injection E as <-. split; [vm_compute; eexists; reflexivity|vm_compute; reflexivity]. Qed.
Theorem C119_agree : forall sites bonds a c b, match create_new_cluster (ba_pool b) sites bonds (ba_lat b) with
  | Ok (p, l) => bare_do (RCreate sites bonds) b = (mkBare l p (ba_pcb b) (ba_pcs b), Ok tt)
  | Err e => snd (bare_do (RCreate sites bonds) b) = Err e
  end /\
  match merge_cluster_with (ba_pool b) a c (ba_lat b) with
  | Ok (p, l) => bare_do (RMerge a c) b = (mkBare l p (ba_pcb b) (ba_pcs b), Ok tt)
  | Err e => snd (bare_do (RMerge a c) b) = Err e
  end.
Proof. exact p_C119_agree. Qed.
Print Assumptions C119_agree.

Example ex_C119_offset : forall b0, new_bare 3 = Ok b0 -> handled 3 (bare_after [RCreate [4; -9] [0; 17]; RCreate [1; 9; 2] []; RAddSites 0 [50]; RCreate [4; 5] [-18]; RReduce1 3; RLat (ERel 4 (2, 0)); RMerge 1 (-1)] b0) /\
  let b := bare_after [RCreate [4; -9] [0; 17]; RCreate [1; 9; 2] []; RAddSites 0 [50]; RCreate [4; 5] [-18]; RReduce1 3; RLat (ERel 4 (2, 0)); RMerge 1 (-1)] b0 in
  site_rel (ba_lat b) 4 = (2, 0) /\ get_relative_index (ba_lat b) 4 5 = Ok (2, 1).
Proof. intros b0 E. split; [now apply handled_calls|]. vm_compute in E. injection E as <-. vm_compute. repeat split; reflexivity. Qed.
Theorem C119_offset : forall L b, 3 <= L -> handled L b -> forall i d, is_site L i ->
  get_relative_index (ba_lat b) i (nbr L i d) = Ok (vadd (site_rel (ba_lat b) i) (step d)).
Proof. exact p_C119_offset. Qed.
Print Assumptions C119_offset.

Example ex_C119_labels : forall b0, new_bare 3 = Ok b0 -> handled 3 (bare_after [RCreate [4; -9] [0; 17]; RCreate [1; 9; 2] []; RAddSites 0 [50]; RCreate [4; 5] [-18]; RReduce1 3; RLat (ERel 4 (2, 0)); RMerge 1 (-1)] b0) /\
  let b := bare_after [RCreate [4; -9] [0; 17]; RCreate [1; 9; 2] []; RAddSites 0 [50]; RCreate [4; 5] [-18]; RReduce1 3; RLat (ERel 4 (2, 0)); RMerge 1 (-1)] b0 in
  env_ok demo_env /\ get_site_gids demo_env (ba_lat b) [4; 5; 0; 1] = Ok [0; 1].
Proof. intros b0 E. split; [now apply handled_calls|]. vm_compute in E. injection E as <-. split; [exact demo_env_ok|vm_compute; reflexivity]. Qed.
Theorem C119_labels : forall E L b bs ss, env_ok E -> 0 < L -> handled L b -> Forall (is_bond L) bs -> Forall (is_site L) ss ->
  (exists l, get_bond_gids E (ba_lat b) bs = Ok l /\ NoDup l /\ forall g, In g l <-> exists x, In x bs /\ bond_gid (ba_lat b) x = g) /\
  (exists l, get_site_gids E (ba_lat b) ss = Ok l /\ NoDup l /\ forall g, In g l <-> exists x, In x ss /\ site_gid (ba_lat b) x = g).
Proof. exact p_C119_labels. Qed.
Print Assumptions C119_labels.
