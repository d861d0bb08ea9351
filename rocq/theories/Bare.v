(** * Bare: the classes [Percolation] and [BondPercolation], driven through their lattice and
    cluster pool.

    perc = source_py/simulation/percolation_sq_lattice.py.  An object of these classes has a
    lattice and an empty cluster pool and no method that places anything; the user sets labels
    and makes clusters through [lattice_ref] and [cluster_pool_ref].  Calls that raise keep
    what they did before. *)
From Coq Require Import ZArith List Bool.
From Verif Require Import Py Lattice Cluster Perc Extra LatSpec.
Import ListNotations.
Open Scope Z_scope.

(** perc:24-28: the attributes. *)
Record bare := mkBare {
  ba_lat : lattice;            (* lattice_ref *)
  ba_pool : cpool;             (* cluster_pool_ref *)
  ba_pcb : option Z;           (* pc_bond_count_wrapping_cluster *)
  ba_pcs : option Z            (* pc_site_count_wrapping_cluster *)
}.
(** perc:15-28 [Percolation(length=...)]; perc:897-900 [BondPercolation(length=...)] adds nothing.
    The optional seed only concerns the generator, which these classes never use. *)
Definition new_bare (len : Z) : res bare := lat <- new_lattice len ;; Ok (mkBare lat empty_pool None None).
(** perc:30-35 [reset]. *)
Definition bare_reset (b : bare) : bare := mkBare (lattice_reset (ba_lat b)) empty_pool None None.

(** cluster.py:124-129, 171-178: the loops that give a label to every listed site or bond;
    the labels set before an exception stay. *)
Fixpoint label_all (set : lattice -> Z -> Z -> res lattice) (l : list Z) (g : Z) (lat : lattice) : lattice * res unit :=
  match l with
  | [] => (lat, Ok tt)
  | x :: l => match set lat x g with Ok lat' => label_all set l g lat' | Err e => (lat, Err e) end
  end.
(** Calls through [lattice_ref], [cluster_pool_ref] and the object itself. *)
Inductive bcall2 :=
| RLat (e : edit)                     (* lattice_ref.set_..., init_relative_index, reset *)
| RReduce1 (i : Z)                    (* lattice_ref.get_site_by_id(i).reduce_1st_nn() *)
| RReduce2 (i : Z)                    (* lattice_ref.get_site_by_id(i).reduce_2st_directional_nn() *)
| RCreate (sites bonds : list Z)      (* cluster_pool_ref.create_new_cluster(sites, bonds, lattice_ref) *)
| RMerge (a b : Z)                    (* cluster_pool_ref.merge_cluster_with(a, b, lattice_ref) *)
| RClear (c : Z)                      (* cluster_pool_ref.clear_cluster(c) *)
| RAddSites (c : Z) (l : list Z)      (* cluster_pool_ref.add_sites(c, l) *)
| RAddBonds (c : Z) (l : list Z)      (* cluster_pool_ref.add_bonds(c, l) *)
| RReset.                             (* reset() *)

Definition put_lat (l : lattice) (b : bare) : bare := mkBare l (ba_pool b) (ba_pcb b) (ba_pcs b).
Definition put_pool (p : cpool) (b : bare) : bare := mkBare (ba_lat b) p (ba_pcb b) (ba_pcs b).
Definition lat_call (r : res lattice) (b : bare) : bare * res unit :=
  match r with Ok l => (put_lat l b, Ok tt) | Err e => (b, Err e) end.
Definition pool_call (r : res cpool) (b : bare) : bare * res unit :=
  match r with Ok p => (put_pool p b, Ok tt) | Err e => (b, Err e) end.

(** cluster.py:114-133 [create_new_cluster] with lists: the cluster is entered only after the loops. *)
Definition bare_create (sites bonds : list Z) (b : bare) : bare * res unit :=
  let g := p_next (ba_pool b) in
  match label_all set_site_gid_by_id sites g (ba_lat b) with
  | (lat, Err e) => (put_lat lat b, Err e)
  | (lat, Ok _) =>
      match label_all set_bond_gid_by_id bonds g lat with
      | (lat, Err e) => (put_lat lat b, Err e)
      | (lat, Ok _) => (mkBare lat (mkPool (p_list (ba_pool b) ++ [mkCluster sites bonds g g]) (g + 1)) (ba_pcb b) (ba_pcs b), Ok tt)
      end
  end.
(** cluster.py:159-187 [merge_cluster_with]: both clusters are looked up, the loops run, then the
    lists are joined. *)
Definition bare_merge (a c : Z) (b : bare) : bare * res unit :=
  let p := ba_pool b in
  match lget (p_list p) a with
  | Err e => (b, Err e)
  | Ok ca =>
      match lget (p_list p) c with
      | Err e => (b, Err e)
      | Ok cb =>
          match label_all set_bond_gid_by_id (c_bonds cb) (c_gid ca) (ba_lat b) with
          | (lat, Err e) => (put_lat lat b, Err e)
          | (lat, Ok _) =>
              match label_all set_site_gid_by_id (c_sites cb) (c_gid ca) lat with
              | (lat, Err e) => (put_lat lat b, Err e)
              | (lat, Ok _) =>
                  pool_call (l <- lset (p_list p) a (mkCluster (c_sites ca) (c_bonds ca ++ c_bonds cb) (c_gid ca) (c_id ca)) ;;
                             ca <- lget l a ;;
                             cb <- lget l c ;;
                             l <- lset l a (mkCluster (c_sites ca ++ c_sites cb) (c_bonds ca) (c_gid ca) (c_id ca)) ;;
                             Ok (mkPool l (p_next p))) (put_lat lat b)
              end
          end
      end
  end.
Definition bare_do (c : bcall2) (b : bare) : bare * res unit :=
  match c with
  | RLat e => lat_call (do_edit (ba_lat b) e) b
  | RReduce1 i => lat_call (update_site (ba_lat b) i site_reduce_1st_nn) b
  | RReduce2 i => lat_call (update_site (ba_lat b) i site_reduce_2st_directional_nn) b
  | RCreate sites bonds => bare_create sites bonds b
  | RMerge a c => bare_merge a c b
  | RClear c => pool_call (clear_cluster (ba_pool b) c) b
  | RAddSites c l => pool_call (pool_add_sites (ba_pool b) c l) b
  | RAddBonds c l => pool_call (pool_add_bonds (ba_pool b) c l) b
  | RReset => (bare_reset b, Ok tt)
  end.
