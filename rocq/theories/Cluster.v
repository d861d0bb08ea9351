(** * Cluster: model of /repo/source_py/simulation/cluster.py *)
From Coq Require Import ZArith List Bool.
From Verif Require Import Py Lattice.
Import ListNotations.
Open Scope Z_scope.

(** cluster.py:2-12 [OneCluster]. *)
Record cluster := mkCluster {
  c_sites : list Z;
  c_bonds : list Z;
  c_gid : Z;
  c_id : Z
}.

(** cluster.py:94-101 [ClusterPool]. *)
Record cpool := mkPool {
  p_list : list cluster;
  p_next : Z               (* cluster.py:100 cluster_id *)
}.

(** cluster.py:77-82 [OneCluster.clear]. *)
Definition cluster_clear (c : cluster) : cluster := mkCluster [] [] (-1) (-1).
(** cluster.py:19-22 [is_empty]. *)
Definition cluster_is_empty (c : cluster) : bool :=
  (zlen (c_sites c) =? 0) && (zlen (c_bonds c) =? 0).
(** cluster.py:98-106 [ClusterPool()] and [reset]. *)
Definition empty_pool : cpool := mkPool [] 0.

(** cluster.py:108-112 *)
Definition get_cluster_bond_count (p : cpool) (id : Z) : res Z :=
  c <- lget (p_list p) id ;; Ok (zlen (c_bonds c)).
Definition get_cluster_site_count (p : cpool) (id : Z) : res Z :=
  c <- lget (p_list p) id ;; Ok (zlen (c_sites c)).

(** cluster.py:114-133 [create_new_cluster], list arguments. *)
Definition create_new_cluster (p : cpool) (site_ids bond_ids : list Z) (lat : lattice)
  : res (cpool * lattice) :=
  let g := p_next p in
  lat <- foldM (fun lat ss => set_site_gid_by_id lat ss g) site_ids lat ;;
  lat <- foldM (fun lat bb => set_bond_gid_by_id lat bb g) bond_ids lat ;;
  Ok (mkPool (p_list p ++ [mkCluster site_ids bond_ids g g]) (g + 1), lat).

(** cluster.py:135-137 [add_sites] with an integer argument (cluster.py:53). *)
Definition pool_add_site (p : cpool) (idx s : Z) : res cpool :=
  c <- lget (p_list p) idx ;;
  l <- lset (p_list p) idx (mkCluster (c_sites c ++ [s]) (c_bonds c) (c_gid c) (c_id c)) ;;
  Ok (mkPool l (p_next p)).
(** cluster.py:143-147 *)
Definition pool_get_sites (p : cpool) (idx : Z) : res (list Z) :=
  c <- lget (p_list p) idx ;; Ok (c_sites c).
Definition pool_get_bonds (p : cpool) (idx : Z) : res (list Z) :=
  c <- lget (p_list p) idx ;; Ok (c_bonds c).
(** cluster.py:155-157 [clear_cluster]. *)
Definition clear_cluster (p : cpool) (idx : Z) : res cpool :=
  c <- lget (p_list p) idx ;;
  l <- lset (p_list p) idx (cluster_clear c) ;; Ok (mkPool l (p_next p)).

(** cluster.py:159-187 [merge_cluster_with]: relabels B's bonds then sites with
    A's gid and appends B's contents to A; B itself is left as it is. *)
Definition merge_cluster_with (p : cpool) (a b : Z) (lat : lattice)
  : res (cpool * lattice) :=
  ca <- lget (p_list p) a ;;
  let gid := c_gid ca in
  cb <- lget (p_list p) b ;;
  lat <- foldM (fun lat bb => set_bond_gid_by_id lat bb gid) (c_bonds cb) lat ;;
  lat <- foldM (fun lat ss => set_site_gid_by_id lat ss gid) (c_sites cb) lat ;;
  ca <- lget (p_list p) a ;;
  l <- lset (p_list p) a (mkCluster (c_sites ca) (c_bonds ca ++ c_bonds cb) (c_gid ca) (c_id ca)) ;;
  ca <- lget l a ;;
  cb <- lget l b ;;
  l <- lset l a (mkCluster (c_sites ca ++ c_sites cb) (c_bonds ca) (c_gid ca) (c_id ca)) ;;
  Ok (mkPool l (p_next p), lat).
