(** * Site, bond and index objects used on their own: C117 and C118.

    Element.v models the classes with any arguments and any order of calls.  [site_after cs s],
    [bond_after cs b]: the object after the calls cs; [site_offers cs]: the ids offered by the
    calls of [add_connecting_bond], a list counting only if it has four entries; [gathered n
    offers ids]: offers are taken whole and in order while fewer than n ids are there; [times1],
    [times2]: how often the counters were reduced; [clean cs]: no call was made yet, or the last
    one was [reset]; [site_like s m]: s has the attributes of the lattice's site m; [stands_for x
    z]: z is x, cut off towards zero (all in ElementSpec.v). *)
From Coq Require Import String ZArith QArith Qabs List Bool Lia.
From Verif Require Import Py Lattice Cluster Perc Spec History Demo Heap Run View Element ElementSpec ElementProps.
Import ListNotations.
Open Scope Z_scope.

Example ex_C117_site_bonds : site_offers [SAdd (One 3); SAdd (Many [1; 2]); SSetGid 5; SReduce1; SAdd (Many [4; 5; 6; 7]); SSetId 9; SAdd (One 8)] = [[3]; [4; 5; 6; 7]; [8]] /\ ls_connecting_bonds (site_after [SAdd (One 3); SAdd (Many [1; 2]); SSetGid 5; SReduce1; SAdd (Many [4; 5; 6; 7]); SSetId 9; SAdd (One 8)] (lone_site_new 0 0)) = [3; 4; 5; 6; 7].
Proof. vm_compute. repeat split; auto. Qed.
Theorem C117_site_bonds : forall cs row col l, ls_connecting_bonds (site_after cs (lone_site_new row col)) = l <-> gathered 4 (site_offers cs) l.
Proof. exact p_C117_site_bonds. Qed.
Print Assumptions C117_site_bonds.

Example ex_C117_site_limit : length (ls_connecting_bonds (site_after [SAdd (One 3); SAdd (One 3); SAdd (One 3); SAdd (Many [4; 5; 6; 7])] (lone_site_new 0 0))) = 7%nat /\
  Forall (fun g => length g = 1%nat) (site_offers [SAdd (One 3); SAdd (Many []); SAdd (One 4)]) /\ site_offers [SReset; SAdd (Many [4; 5; 6; 7]); SAdd (One 4)] = [[4; 5; 6; 7]; [4]].
Proof. vm_compute. repeat split; auto. Qed.
Theorem C117_site_limit : forall cs row col, let l := ls_connecting_bonds (site_after cs (lone_site_new row col)) in
  (length l <= 7)%nat /\
  ((4 < length l)%nat <-> exists singles g rest, site_offers cs = singles ++ g :: rest /\ Forall (fun x => length x = 1%nat) singles /\
     (1 <= length singles <= 3)%nat /\ length g = 4%nat) /\
  (Forall (fun g => length g = 1%nat) (site_offers cs) -> l = firstn 4 (List.concat (site_offers cs))) /\
  (forall g rest, site_offers cs = g :: rest -> length g = 4%nat -> l = g).
Proof. exact p_C117_site_limit. Qed.
Print Assumptions C117_site_limit.

Example ex_C117_tests : ls_test (site_after [SAdd (Many [4; 5; 6; 7])] (lone_site_new 0 0)) = Ok tt /\ ls_test (site_after [SAdd (Many [4; 5; 6; 4])] (lone_site_new 0 0)) = Err AssertionError /\
  lb_test (bond_after [BdAdd (One 4); BdAdd (Many [5; 6])] (lone_bond_new 0 0 1)) = Err AssertionError.
Proof. vm_compute. repeat split; auto. Qed.
Theorem C117_tests : forall s b, (ls_test s = Ok tt <-> length (ls_connecting_bonds s) = 4%nat /\ NoDup (ls_connecting_bonds s)) /\
  (ls_test s = Ok tt \/ ls_test s = Err AssertionError) /\
  (lb_test b = Ok tt <-> length (lb_connected_sites b) = 2%nat /\ NoDup (lb_connected_sites b)) /\
  (lb_test b = Ok tt \/ lb_test b = Err AssertionError).
Proof. exact p_C117_tests. Qed.
Print Assumptions C117_tests.

Example ex_C117_site_counts : clean [SReduce2; SReset] /\ ~ In SReset [SReduce1; SReduce1; SSetGid 4; SReduce1; SReduce1; SReduce1] /\
  ls_is_removable 1 (site_after [SReduce1; SReduce1; SSetGid 4; SReduce1; SReduce1; SReduce1] (lone_site_new 0 0)) = true /\
  ls_is_removable 1 (site_after [SReduce1; SReduce1; SReset; SReduce1; SReduce1; SReduce1] (lone_site_new 0 0)) = false.
Proof. split; [right; now exists [SReduce2]|]. split; [cbn; intuition discriminate|]. split; vm_compute; reflexivity. Qed.
Theorem C117_site_counts : forall cs ds row col, clean cs -> ~ In SReset ds ->
  let s := site_after (cs ++ ds) (lone_site_new row col) in
  ls_get_nn_count s = (Z.max 0 (4 - times1 ds), Z.max 0 (4 - times2 ds)) /\
  (forall type, ls_is_removable type s = true <-> (type = 1 /\ 4 <= times1 ds) \/ (type = 2 /\ 4 <= times2 ds)) /\
  (forall c, snd (site_do c s) = Ok tt).
Proof. exact p_C117_site_counts. Qed.
Print Assumptions C117_site_counts.

Example ex_C117_site_id : ls_id (site_after [SReset; SSetGid 2] (lone_site_new 1 2)) = None /\ ls_id (site_after [SSetId 4; SReset; SSetId 5; SReset] (lone_site_new 1 2)) = Some 5.
Proof. vm_compute. repeat split; auto. Qed.
Theorem C117_site_id : forall cs row col, let s := site_after cs (lone_site_new row col) in
  ls_index s = new_index row col /\
  (ls_id s = None <-> forall i, ~ In (SSetId i) cs) /\
  (forall i ds, (forall j, ~ In (SSetId j) ds) -> ls_id (site_after (cs ++ SSetId i :: ds) (lone_site_new row col)) = Some i).
Proof. exact p_C117_site_id. Qed.
Print Assumptions C117_site_id.

Example ex_C117_site_gid : (forall g, ~ In (SSetGid g) [SReduce1; SSetId 3]) /\ ~ In SReset [SReduce1; SSetId 3] /\ ls_is_occupied (site_after [SReset; SSetGid 0; SReduce1; SSetId 3] (lone_site_new 1 2)) = true.
Proof. split; [intros g; cbn; intuition discriminate|]. split; [cbn; intuition discriminate|]. reflexivity. Qed.
Theorem C117_site_gid : forall cs ds row col, (forall g, ~ In (SSetGid g) ds) -> ~ In SReset ds ->
  (clean cs -> let s := site_after (cs ++ ds) (lone_site_new row col) in ls_get_gid s = -1 /\ ls_is_occupied s = false) /\
  (forall g, let s := site_after (cs ++ SSetGid g :: ds) (lone_site_new row col) in
     ls_get_gid s = g /\ (ls_is_occupied s = true <-> 0 <= g)).
Proof. exact p_C117_site_gid. Qed.
Print Assumptions C117_site_gid.

Example ex_C117_site_rel : ls_is_root (site_after [SSetRel (new_index 0 0)] (lone_site_new 1 2)) = true /\ ls_is_root (site_after [SSetRel (new_rel 0 1); SSetGid 3] (lone_site_new 1 2)) = false /\ ls_is_root (site_after [SSetRel (new_rel 0 1); SInitRel] (lone_site_new 1 2)) = true.
Proof. vm_compute. repeat split; auto. Qed.
Theorem C117_site_rel : forall cs ds row col, (forall r, ~ In (SSetRel r) ds) -> ~ In SInitRel ds -> ~ In SReset ds ->
  (clean cs \/ (exists c, cs = c ++ [SInitRel]) -> let s := site_after (cs ++ ds) (lone_site_new row col) in ls_rel s = new_rel 0 0 /\ ls_is_root s = true) /\
  (forall r, let s := site_after (cs ++ SSetRel r :: ds) (lone_site_new row col) in
     ls_rel s = r /\ (ls_is_root s = true <-> as_list r = (0, 0))).
Proof. exact p_C117_site_rel. Qed.
Print Assumptions C117_site_rel.

Example ex_C117_site_prints : snd (fst (site_do (SAdd (Many [])) (site_after [SAdd (One 3); SAdd (Many [1; 2]); SSetGid 5; SReduce1; SAdd (Many [4; 5; 6; 7]); SSetId 9; SAdd (One 8)] (lone_site_new 0 0)))) = ["A site connects only four bonds"%string] /\ snd (fst (site_do (SSetGid 1) (lone_site_new 0 0))) = ["!!warning!! id is not set."%string].
Proof. vm_compute. repeat split; auto. Qed.
Theorem C117_site_prints : forall cs c row col, let s := site_after cs (lone_site_new row col) in
  let out := snd (fst (site_do c s)) in
  out = [] \/
  (exists a, c = SAdd a /\ (4 <= length (ls_connecting_bonds s))%nat /\ out = ["A site connects only four bonds"%string]) \/
  (exists g, c = SSetGid g /\ (forall i, ~ In (SSetId i) cs) /\ out = ["!!warning!! id is not set."%string]).
Proof. exact p_C117_site_prints. Qed.
Print Assumptions C117_site_prints.

Example ex_C117_site_warns : ls_get_str 2 (lone_site_new 0 0) = Err TypeError /\ ls_get_str 2 (site_after [SSetId 7] (lone_site_new 0 1)) = Ok "  7  (  0  ,  1  )"%string.
Proof. vm_compute. repeat split; auto. Qed.
Theorem C117_site_warns : forall cs row col, let s := site_after cs (lone_site_new row col) in
  ((4 <= length (ls_connecting_bonds s))%nat -> forall a, site_do (SAdd a) s = (s, ["A site connects only four bonds"%string], Ok tt)) /\
  ((forall i, ~ In (SSetId i) cs) -> forall g, snd (fst (site_do (SSetGid g) s)) = ["!!warning!! id is not set."%string]) /\
  (forall f, ls_get_str f s = Err TypeError <-> (f = 1 \/ f = 2) /\ (forall i, ~ In (SSetId i) cs)) /\
  (exists x, ls_str s = Ok x).
Proof. exact p_C117_site_warns. Qed.
Print Assumptions C117_site_warns.

Example ex_C117_bond_sites : lb_connected_sites (bond_after [BdAdd (One 4); BdReset; BdAdd (Many [1]); BdAdd (Many [5; 6]); BdAdd (One 9)] (lone_bond_new 0 0 1)) = [4; 5; 6].
Proof. vm_compute. repeat split; auto. Qed.
Theorem C117_bond_sites : forall cs row col type, let l := lb_connected_sites (bond_after cs (lone_bond_new row col type)) in
  gathered 2 (bond_offers cs) l /\ (length l <= 3)%nat /\
  (Forall (fun g => length g = 1%nat) (bond_offers cs) -> l = firstn 2 (List.concat (bond_offers cs))) /\
  (length l = 3%nat <-> exists x y z rest, bond_offers cs = [x] :: [y; z] :: rest).
Proof. exact p_C117_bond_sites. Qed.
Print Assumptions C117_bond_sites.

Example ex_C117_bond_rest : lb_str (bond_after [BdSetGid 3] (lone_bond_new 0 0 1)) = Err TypeError /\ lb_str (bond_after [BdSetGid 3; BdSetId 12] (lone_bond_new 0 0 1)) = Ok "(  3  ,  12  )"%string.
Proof. vm_compute. repeat split; auto. Qed.
Theorem C117_bond_rest : forall cs c row col type, let b := bond_after cs (lone_bond_new row col type) in
  lb_get_index b = (type, row, col) /\
  (lb_id b = None <-> forall i, ~ In (BdSetId i) cs) /\
  (snd (bond_do c b) = [] \/
   (exists a, c = BdAdd a /\ (2 <= length (lb_connected_sites b))%nat /\ fst (bond_do c b) = b /\ snd (bond_do c b) = ["A bond connects only two sites"%string]) \/
   (exists g, c = BdSetGid g /\ (forall i, ~ In (BdSetId i) cs) /\ snd (bond_do c b) = ["!!warning!! id is not set."%string])) /\
  ((2 <= length (lb_connected_sites b))%nat -> forall a, bond_do (BdAdd a) b = (b, ["A bond connects only two sites"%string])) /\
  (lb_str b = Err TypeError <-> forall i, ~ In (BdSetId i) cs) /\
  (forall ds, (forall j, ~ In (BdSetId j) ds) -> forall i, lb_id (bond_after (cs ++ BdSetId i :: ds) (lone_bond_new row col type)) = Some i) /\
  (forall ds, (forall j, ~ In (BdSetGid j) ds) -> ~ In BdReset ds ->
     (forall g, lb_gid (bond_after (cs ++ BdSetGid g :: ds) (lone_bond_new row col type)) = g) /\
     (clean_bond cs -> lb_gid (bond_after (cs ++ ds) (lone_bond_new row col type)) = -1)).
Proof. exact p_C117_bond_rest. Qed.
Print Assumptions C117_bond_rest.

Example ex_C117_in_lattice : site_like (site_after [SSetId 5] (lone_site_new 1 2)) (new_site 1 2 5).
Proof. vm_compute. repeat split; auto. Qed.
Theorem C117_in_lattice : forall s m, site_like s m ->
  (forall g, site_like (fst (fst (site_do (SSetGid g) s))) (site_set_gid m g)) /\
  site_like (fst (fst (site_do SReset s))) (site_reset m) /\
  (forall l, site_like (fst (fst (site_do (SAdd (Many l)) s))) (site_add_connecting_bonds m l)) /\
  (forall r, site_like (fst (fst (site_do (SSetRel r) s))) (site_set_rel m (as_list r))) /\
  (forall m', site_reduce_1st_nn m = Ok m' -> site_like (fst (fst (site_do SReduce1 s))) m') /\
  (forall m', site_reduce_2st_directional_nn m = Ok m' -> site_like (fst (fst (site_do SReduce2 s))) m') /\
  ls_test s = site_test m /\ (forall t, ls_is_removable t s = site_is_removable m t) /\ ls_is_occupied s = site_is_occupied m /\
  (forall f, ls_get_str f s = Ok (site_str m f)).
Proof. exact p_C117_in_lattice. Qed.
Print Assumptions C117_in_lattice.

Example ex_C117_bond_in_lattice : bond_like (bond_after [BdSetId 14] (lone_bond_new 1 2 1)) (new_bond 1 2 1 14).
Proof. vm_compute. repeat split; auto. Qed.
Theorem C117_bond_in_lattice : forall b m, bond_like b m ->
  (forall g, bond_like (fst (bond_do (BdSetGid g) b)) (bond_set_gid m g)) /\
  bond_like (fst (bond_do BdReset b)) (bond_reset m) /\
  (forall x, bond_like (fst (bond_do (BdAdd (One x)) b)) (bond_add_connected_site m x)) /\
  lb_test b = bond_test m /\ (forall f, lb_get_str f b = Ok (bond_str m f)).
Proof. exact p_C117_bond_in_lattice. Qed.
Print Assumptions C117_bond_in_lattice.

Example ex_C117_id_lists : reachable_k demo_env KBase 3 demo_a /\ get_site_id_list (lat demo_a) = [0; 1; 2; 3; 4; 5; 6; 7; 8] /\ length (get_bond_id_list (lat demo_a)) = 18%nat.
Proof. split; [apply demo_a_reachable_k|]. split; vm_compute; reflexivity. Qed.
Theorem C117_id_lists : forall E k L s, env_ok E -> reachable_k E k L s ->
  (forall i, In i (get_site_id_list (lat s)) <-> is_site L i) /\
  (forall b, In b (get_bond_id_list (lat s)) <-> is_bond L b) /\
  (forall n, (n < length (get_site_id_list (lat s)))%nat -> nth n (get_site_id_list (lat s)) (-1) = Z.of_nat n) /\
  (forall n, (n < length (get_bond_id_list (lat s)))%nat -> nth n (get_bond_id_list (lat s)) (-1) = Z.of_nat n).
Proof. exact p_C117_id_lists. Qed.
Print Assumptions C117_id_lists.

Example ex_C118_sum : iadd (new_rel 1 2) (new_rel 3 (-4)) = new_index 4 (-2) /\ isub (new_rel 1 2) (new_index 3 (-4)) = new_rel (-2) 6.
Proof. vm_compute. repeat split; auto. Qed.
Theorem C118_sum : forall a b, as_list (iadd a b) = (i_1 a + i_1 b, i_2 a + i_2 b) /\ i_cls (iadd a b) = CIndex /\
  as_list (isub a b) = (i_1 a - i_1 b, i_2 a - i_2 b) /\ i_cls (isub a b) = i_cls a /\
  as_list (isub (iadd a b) b) = as_list a /\ as_list (iadd (isub a b) b) = as_list a /\
  as_list (iadd a b) = as_list (iadd b a).
Proof. exact p_C118_sum. Qed.
Print Assumptions C118_sum.

Example ex_C118_normalize : inormalize (new_rel 0 (-4)) = new_rel 0 (-1) /\ inormalize (new_index 3 3) = new_index 3 3 /\ inormalize (new_index 0 0) = new_index 0 0.
Proof. vm_compute. repeat split; auto. Qed.
Theorem C118_normalize : forall a, i_cls (inormalize a) = i_cls a /\
  ((i_1 a = 0 \/ i_2 a = 0) -> as_list (inormalize a) = (Z.sgn (i_1 a), Z.sgn (i_2 a))) /\
  ((i_1 a <> 0 /\ i_2 a <> 0) -> inormalize a = a) /\
  inormalize (inormalize a) = inormalize a.
Proof. exact p_C118_normalize. Qed.
Print Assumptions C118_normalize.

Example ex_C118_make : index_make (NFloat (-5 # 2)) (NBool true) = (new_index (-2) 1, ["warning : row index is not integer"%string; "warning : col index is not integer"%string]).
Proof. vm_compute. repeat split; auto. Qed.
Theorem C118_make : forall row col, exists o out, index_make row col = (o, out) /\
  i_cls o = CIndex /\ stands_for row (i_1 o) /\ stands_for col (i_2 o) /\
  (forall m, In m out <-> (m = "warning : row index is not integer"%string /\ forall z, row <> NInt z) \/
                          (m = "warning : col index is not integer"%string /\ forall z, col <> NInt z)) /\
  NoDup out.
Proof. exact p_C118_make. Qed.
Print Assumptions C118_make.

Example ex_C118_relative : rel_make (NInt 1) (NInt 2) (XIndex (new_index 5 6)) = (Some (new_rel 5 6), []) /\ comp_1 (fst (rel_make (NInt 1) (NInt 2) XOther)) = Err AttributeError.
Proof. vm_compute. repeat split; auto. Qed.
Theorem C118_relative : forall x y index, (forall a, index = XIndex a -> exists o, rel_make x y index = (Some o, []) /\ as_list o = as_list a /\ i_cls o = CRel) /\
  (index = XNone -> exists o, rel_make x y index = (Some o, snd (index_make x y)) /\ as_list o = as_list (fst (index_make x y)) /\ i_cls o = CRel) /\
  (index = XOther -> snd (rel_make x y index) = ["Wrong type. RelativeIndex"%string] /\
     comp_1 (fst (rel_make x y index)) = Err AttributeError /\ comp_2 (fst (rel_make x y index)) = Err AttributeError) /\
  (index <> XOther -> exists o, comp_1 (fst (rel_make x y index)) = Ok (i_1 o) /\ comp_2 (fst (rel_make x y index)) = Ok (i_2 o)).
Proof. exact p_C118_relative. Qed.
Print Assumptions C118_relative.
