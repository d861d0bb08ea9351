(** * PoolSpec: a cluster pool and a lattice used directly, without a percolation object. *)
From Coq Require Import ZArith List Bool.
From Verif Require Import Py Lattice Cluster Spec LatSpec.
Import ListNotations.
Open Scope Z_scope.

Inductive pcall :=
| PCreate (sites bonds : list Z)   (* create_new_cluster(sites, bonds, lattice) *)
| PJoin (a b : Z).                 (* merge_cluster_with(a, b, lattice); clear_cluster(b) *)
Definition do_pcall (st : lattice * cpool) (c : pcall) : res (lattice * cpool) :=
  let '(lat, p) := st in
  match c with
  | PCreate sites bonds => '(p, lat) <- create_new_cluster p sites bonds lat ;; Ok (lat, p)
  | PJoin a b => '(p, lat) <- merge_cluster_with p a b lat ;; p <- clear_cluster p b ;; Ok (lat, p)
  end.
(** What the pool reports. *)
Definition sites_in (p : cpool) (c : Z) : list Z := match pool_get_sites p c with Ok l => l | Err _ => [] end.
Definition bonds_in (p : cpool) (c : Z) : list Z := match pool_get_bonds p c with Ok l => l | Err _ => [] end.
(** A cluster that exists and has not been absorbed. *)
Definition live (p : cpool) (c : Z) : Prop := 0 <= c < zlen (p_list p) /\ exists k, lget (p_list p) c = Ok k /\ c_gid k = c.
(** Sensible use: new clusters take existing sites and bonds that belong to none yet, and
    only different, live clusters are joined. *)
Definition pcall_ok (L : Z) (st : lattice * cpool) (c : pcall) : Prop :=
  let '(lat, p) := st in
  match c with
  | PCreate sites bonds => NoDup sites /\ NoDup bonds /\
      (forall i, In i sites -> is_site L i /\ site_gid lat i = -1) /\ (forall b, In b bonds -> is_bond L b /\ bond_gid lat b = -1)
  | PJoin a b => live p a /\ live p b /\ a <> b
  end.
(** States reached from a new lattice and an empty pool by sensible use. *)
Inductive pooled (L : Z) : lattice * cpool -> Prop :=
| pooled_new lat : new_lattice L = Ok lat -> pooled L (lat, empty_pool)
| pooled_call st c st' : pooled L st -> pcall_ok L st c -> do_pcall st c = Ok st' -> pooled L st'.
