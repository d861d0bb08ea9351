(** * Extra: the remaining small methods of sites, clusters and the percolation object.

    site = source_py/simulation/site.py, cluster = source_py/simulation/cluster.py,
    perc = source_py/simulation/percolation_sq_lattice.py, lat = source_py/simulation/lattice.py. *)
From Coq Require Import ZArith List Bool.
From Verif Require Import Py Lattice Cluster Perc.
Import ListNotations.
Open Scope Z_scope.

(** site.py:119-120 [Site.is_root]. *)
Definition site_is_root (t : site) : bool := (fst (s_rel t) =? 0) && (snd (s_rel t) =? 0).
(** site.py:42-43 [Site.get_nn_count]. *)
Definition site_get_nn_count (t : site) : Z * Z := (s_nn1 t, s_nn2 t).

(** perc:62-69 [get_site_gids] (the printing aside); [e_ord] is the order in which
    Python lists a set. *)
Definition get_site_gids (E : env) (lat : lattice) (site_ids : list Z) : res (list Z) :=
  gs <- mapM (fun ss => t <- get_site_by_id lat ss ;; Ok (s_gid t)) site_ids ;; Ok (e_ord E gs).

(** cluster.py:139-141 [add_bonds] and 135-137 [add_sites] with a list argument (cluster.py:48-50, 60-62). *)
Definition pool_add_sites (p : cpool) (idx : Z) (l : list Z) : res cpool :=
  c <- lget (p_list p) idx ;;
  q <- lset (p_list p) idx (mkCluster (c_sites c ++ l) (c_bonds c) (c_gid c) (c_id c)) ;;
  Ok (mkPool q (p_next p)).
Definition pool_add_bonds (p : cpool) (idx : Z) (l : list Z) : res cpool :=
  c <- lget (p_list p) idx ;;
  q <- lset (p_list p) idx (mkCluster (c_sites c) (c_bonds c ++ l) (c_gid c) (c_id c)) ;;
  Ok (mkPool q (p_next p)).
(** cluster.py:149-153 [get_cluster]: [None] past the end, Python indexing otherwise. *)
Definition get_cluster (p : cpool) (id : Z) : res (option cluster) :=
  if zlen (p_list p) <=? id then Ok None else c <- lget (p_list p) id ;; Ok (Some c).

(** perc:481-503 [merge_clusters], the first version of the merging step. It is not
    called by the library.  First loop: the root cluster. *)
Fixpoint root_loop_v1 (p : cpool) (l : list Z) (ref_sz root : Z) : res Z :=
  match l with
  | [] => Ok root
  | bb :: l' =>
      sz <- get_cluster_bond_count p bb ;;
      if ref_sz <=? sz then root_loop_v1 p l' sz bb else root_loop_v1 p l' ref_sz root
  end.
Definition merge_clusters_in (E : env) (lat : lattice) (p : cpool) (bond_neighbors : list Z)
  : res (lattice * cpool * Z) :=
  bond_gids <- get_bond_gids E lat bond_neighbors ;;
  root <- root_loop_v1 p bond_gids 0 0 ;;
  '(lat, p) <- foldM (fun '(lat, p) bb =>
      if bb =? root then Ok (lat, p) else
      '(p, lat) <- merge_cluster_with p root bb lat ;; Ok (lat, p))
    bond_gids (lat, p) ;;
  Ok (lat, p, root).
(** The same as a method of the object. Simplification: if the loop raised, the partial
    updates would be dropped by the model; MergeV1.v proves that it does not raise on
    lists of existing bonds. *)
Definition merge_clusters (E : env) (bond_neighbors : list Z) : M Z :=
  do s <~ get ;
  do '(lat, p, root) <~ lift (merge_clusters_in E (lat s) (pool s) bond_neighbors) ;
  run modify (fun s => set_pool p (set_lat lat s)) ;
  ret root.
