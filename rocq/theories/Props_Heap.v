(** * Cluster objects, lists and index objects that a caller has kept: C114.

    Heap.v models the methods again with [OneCluster] objects, their lists and the index objects
    of the sites as objects with addresses; [load h] is the object of Perc.v the store amounts to.
    [life E k L t0 cs h]: h is the store after the constructor and the calls cs;
    [is_cluster h g a]: a is the object get_cluster(g) returns; [is_list_of h a r]: r is the list
    object get_sites() or get_bonds() of a returns; [is_index_of h i r]: r is the object
    get_relative_index() of site i returns; [contents h r], [shown h a], [idx_at h r]: what the
    caller reads from it now; [caller_normalizes], [caller_extends]: what happens when the caller
    changes it (Heap.v, HeapSpec.v).  [hdemo], [hjoined]: HeapDemo.v. *)
From Coq Require Import ZArith List Bool Lia.
From Verif Require Import Py Lattice Cluster Perc Spec History Demo Heap HeapSpec HeapDemo HeapProps.
Import ListNotations.
Open Scope Z_scope.

Example ex_C114_exists : new_perc demo_env KL0 3 0 = Ok (demo0 KL0 3) /\ load hdemo0 = demo0 KL0 3 /\ zlen (h_cl hdemo0) = 18.
Proof. vm_compute. repeat split; reflexivity. Qed.
Theorem C114_exists : forall E k L t0 s0, env_ok E -> new_perc E k L t0 = Ok s0 -> exists h0, life E k L t0 [] h0 /\ load h0 = s0.
Proof. exact p_C114_exists. Qed.
Print Assumptions C114_exists.

Example ex_C114_refines : env_ok demo_env /\ life demo_env KL0 3 0 [CPlace; CPlace; CPlace] hdemo /\ load hdemo = after demo_env (demo0 KL0 3) [CPlace; CPlace; CPlace] /\ snd (h_place_one_site demo_env hdemo) = Ok true.
Proof.
  split; [exact demo_env_ok|]. split; [exact hdemo_life|]. vm_compute. repeat split; reflexivity.
Qed.
Theorem C114_refines : forall E k L t0 cs h, env_ok E -> life E k L t0 cs h -> exists s0, new_perc E k L t0 = Ok s0 /\ load h = after E s0 cs /\
  (forall h' r, h_place_one_site E h = (h', r) -> place_one_site E (load h) = (load h', r)) /\
  (forall h' r, h_detect_wrapping h = (h', r) -> detect_wrapping (load h) = (load h', r)) /\
  (forall h' r, h_reset E h = (h', r) -> reset E (load h) = (load h', r)) /\
  (forall n h' r, h_run_once E n h = (h', r) -> run_once E n (load h) = (load h', r)) /\
  (forall n h' r, h_test_run_once E n h = (h', r) -> test_run_once E n (load h) = (load h', r)).
Proof. exact p_C114_refines. Qed.
Print Assumptions C114_refines.

Example ex_C114_cluster : env_ok demo_env /\ life demo_env KL0 3 0 [CPlace; CPlace; CPlace] hdemo /\ is_cluster hdemo 9 9 /\
  cluster_sites (load hdemo) 9 = [3] /\ cluster_sites (load hjoined) 9 = [] /\ is_cluster hjoined 9 9 /\
  shown hdemo 9 = mkCluster [3] [9; 3; 12; 5] 9 9 /\ shown (hafter demo_env hdemo [CReset; CPlace]) 9 = shown hdemo 9 /\ is_cluster (hafter demo_env hdemo [CReset]) 9 27.
Proof.
  split; [exact demo_env_ok|]. split; [exact hdemo_life|]. vm_compute; repeat split; (reflexivity || discriminate || intuition discriminate).
Qed.
Theorem C114_cluster : forall E k L t0 cs h g a, env_ok E -> life E k L t0 cs h -> is_cluster h g a ->
  (forall cs', Forall (call_ok L) cs' -> no_reset cs' -> let h' := hafter E h cs' in
     is_cluster h' g a /\ contents h' (sites_list h' a) = cluster_sites (load h') g /\ contents h' (bonds_list h' a) = cluster_bonds (load h') g) /\
  (forall cs', Forall (call_ok L) cs' -> let h' := hafter E h (CReset :: cs') in (forall g', ~ is_cluster h' g' a) /\ shown h' a = shown h a).
Proof. exact p_C114_cluster. Qed.
Print Assumptions C114_cluster.

Example ex_C114_list : env_ok demo_env /\ life demo_env KL0 3 0 [CPlace; CPlace; CPlace] hdemo /\ is_cluster hdemo 9 9 /\ is_list_of hdemo 9 18 /\ is_cluster hdemo 16 16 /\ is_list_of hdemo 16 32 /\
  ~ is_list_of hjoined 9 18 /\ o_gid (obj_at hjoined 9) = -1 /\ contents hjoined 18 = [3] /\ contents hdemo 18 = [3] /\
  is_list_of hjoined 16 32 /\ contents hdemo 32 = [1; 2] /\ contents hjoined 32 = [1; 2; 4; 3].
Proof.
  split; [exact demo_env_ok|]. split; [exact hdemo_life|].
  split; [split; [lia|vm_compute; reflexivity]|]. split; [left; vm_compute; reflexivity|].
  split; [split; [lia|vm_compute; reflexivity]|]. split; [left; vm_compute; reflexivity|].
  split; [vm_compute; intros [Q|Q]; discriminate|]. split; [vm_compute; reflexivity|]. split; [vm_compute; reflexivity|]. split; [vm_compute; reflexivity|].
  split; [left; vm_compute; reflexivity|]. vm_compute. split; reflexivity.
Qed.
Theorem C114_list : forall E k L t0 cs h g a r, env_ok E -> life E k L t0 cs h -> is_cluster h g a -> is_list_of h a r ->
  (forall cs', Forall (call_ok L) cs' -> no_reset cs' -> let h' := hafter E h cs' in o_gid (obj_at h' a) <> -1 ->
     sites_list h' a = sites_list h a /\ bonds_list h' a = bonds_list h a) /\
  (forall cs', Forall (call_ok L) cs' -> let h' := hexec E h CPlace in ~ is_list_of h' a r -> contents (hafter E h' cs') r = contents h r) /\
  (forall cs' cs'', Forall (call_ok L) cs' -> Forall (call_ok L) cs'' -> no_reset cs' -> let h' := hafter E h cs' in ~ is_list_of h' a r ->
     contents (hafter E h' cs'') r = contents h' r) /\
  (forall cs', Forall (call_ok L) cs' -> contents (hafter E h (CReset :: cs')) r = contents h r) /\
  (forall cs', Forall (call_ok L) cs' -> exists l, contents (hafter E h cs') r = contents h r ++ l) /\
  (forall g' a', is_cluster h g' a' -> is_list_of h a' r -> g' = g /\ a' = a) /\
  sites_list h a <> bonds_list h a.
Proof. exact p_C114_list. Qed.
Print Assumptions C114_list.

Example ex_C114_index : env_ok demo_env /\ life demo_env KL0 3 0 [CPlace; CPlace; CPlace] hdemo /\ is_index_of hdemo 3 12 /\ ~ is_index_of hjoined 3 12 /\
  as_list (idx_at hdemo 12) = (0, 0) /\ rel_index (load hjoined) 3 = (1, -1) /\ as_list (idx_at hjoined 12) = (0, 0).
Proof.
  split; [exact demo_env_ok|]. split; [exact hdemo_life|].
  split; [split; [lia|vm_compute; reflexivity]|]. split; [vm_compute; intros (_ & Q); discriminate|]. vm_compute. repeat split; reflexivity.
Qed.
Theorem C114_index : forall E k L t0 cs h i r, env_ok E -> life E k L t0 cs h -> is_index_of h i r ->
  (forall cs', Forall (call_ok L) cs' -> idx_at (hafter E h cs') r = idx_at h r) /\
  i_cls (idx_at h r) = CRel /\ as_list (idx_at h r) = rel_index (load h) i /\
  (forall j, is_index_of h j r -> j = i) /\
  (forall j, ~ is_index_of (hexec E h CReset) j r).
Proof. exact p_C114_index. Qed.
Print Assumptions C114_index.

Example ex_C114_normalize : exists h, life demo_env KBase 4 0 [CSetIds [0; 1; 2] false; CPlace; CPlace; CPlace] h /\ is_index_of h 2 20 /\
  rel_index (load h) 2 = (0, 2) /\ rel_index (load (caller_normalizes h 20)) 2 = (0, 1).
Proof.
  exists (hafter demo_env hrow0 [CSetIds [0; 1; 2] false; CPlace; CPlace; CPlace]).
  split; [exists hrow0; split; [vm_compute; reflexivity|]; split; [repeat constructor|reflexivity]|].
  split; [split; [lia|vm_compute; reflexivity]|]. vm_compute. repeat split; reflexivity.
Qed.
Theorem C114_normalize : forall E k L t0 cs h i r, env_ok E -> life E k L t0 cs h -> is_index_of h i r -> let h' := caller_normalizes h r in
  rel_index (load h') i = index_normalize (rel_index (load h) i) /\
  (forall j, is_site L j -> j <> i -> rel_index (load h') j = rel_index (load h) j) /\
  (forall j, site_label (load h') j = site_label (load h) j) /\ (forall b, bond_label (load h') b = bond_label (load h) b) /\
  pool (load h') = pool (load h).
Proof. exact p_C114_normalize. Qed.
Print Assumptions C114_normalize.

Example ex_C114_extend : env_ok demo_env /\ life demo_env KL0 3 0 [CPlace; CPlace; CPlace] hdemo /\ is_cluster hdemo 9 9 /\ sites_list hdemo 9 = 18%nat /\
  cluster_sites (load (caller_extends hdemo 18 [7])) 9 = [3; 7] /\ site_label (load (caller_extends hdemo 18 [7])) 7 = -1.
Proof.
  split; [exact demo_env_ok|]. split; [exact hdemo_life|]. vm_compute; repeat split; (reflexivity || discriminate || intuition discriminate).
Qed.
Theorem C114_extend : forall E k L t0 cs h g a ys, env_ok E -> life E k L t0 cs h -> is_cluster h g a -> let h' := caller_extends h (sites_list h a) ys in
  cluster_sites (load h') g = cluster_sites (load h) g ++ ys /\
  (forall g', 0 <= g' -> g' <> g -> cluster_sites (load h') g' = cluster_sites (load h) g') /\
  (forall g', 0 <= g' -> cluster_bonds (load h') g' = cluster_bonds (load h) g') /\
  lat (load h') = lat (load h).
Proof. exact p_C114_extend. Qed.
Print Assumptions C114_extend.
