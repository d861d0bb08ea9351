(** * HeapSpec: words for the properties about kept objects. *)
From Coq Require Import ZArith List Bool.
From Verif Require Import Py Lattice Cluster Perc History Heap.
Import ListNotations.
Open Scope Z_scope.

(** The store after the constructor and the calls [cs]. *)
Definition life (E : env) (k : pkind) (L : Z) (t0 : nat) (cs : list call) (h : heap) : Prop :=
  exists h0, h_new E k L t0 = Ok h0 /\ Forall (call_ok L) cs /\ h = hafter E h0 cs.
(** Object [a] is what [get_cluster(g)] returns. *)
Definition is_cluster (h : heap) (g : Z) (a : nat) : Prop := 0 <= g /\ get_cluster h g = Ok (Some a).
(** The list object [r] is what [get_sites()] or [get_bonds()] of cluster object [a] returns. *)
Definition is_list_of (h : heap) (a r : nat) : Prop := r = sites_list h a \/ r = bonds_list h a.
(** The object [r] is what [get_relative_index()] of site [i] returns. *)
Definition is_index_of (h : heap) (i : Z) (r : nat) : Prop := 0 <= i /\ rel_addr h i = Ok r.
Definition no_reset (cs : list call) : Prop := Forall (fun c => c <> CReset) cs.
(** What the caller does with an object they hold: [r.normalize()] and [l += ys]. *)
Definition caller_normalizes (h : heap) (r : nat) : heap := put_idx (upd (h_idx h) r (inormalize (idx_at h r))) (h_rel h) h.
Definition caller_extends (h : heap) (r : nat) (ys : list Z) : heap := put_lists (upd (h_lists h) r (contents h r ++ ys)) h.
