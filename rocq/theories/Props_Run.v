(** * Runs and custom sequences: C31, C39-C43, C48.

    [fresh_plain]: a new object, or one reset after any history without custom
    lists.  [fresh_object]: a new object, or one reset after any history. *)
From Coq Require Import ZArith List Bool Lia Permutation.
From Verif Require Import Py Lattice Cluster Perc Spec History Demo RunProps RunProps2.
Import ListNotations.
Open Scope Z_scope.

Example ex_fresh : env_ok demo_env /\ fresh_plain demo_env KBase 3 (demo0 KBase 3) /\
  fresh_plain demo_env KSP 3 (fst (reset demo_env demo_d)) /\ fresh_object demo_env KBase 3 (fst (reset demo_env demo_a)).
Proof. exact (conj demo_env_ok (conj (demo0_fresh KBase) (conj demo_d_fresh demo_a_fresh))). Qed.

Example ex_C31 : occ_count (trace demo_env 4 (demo0 KBase 3)) = 4 /\ sel_id (trace demo_env 4 (demo0 KBase 3)) = Some 4.
Proof. vm_compute. repeat split; reflexivity. Qed.
Theorem C31_run_length : forall E k L s f, env_ok E -> k = KBase \/ k = KL0 -> fresh_plain E k L s -> (Z.to_nat (L * L) < f)%nat ->
  let n := Z.to_nat (L * L) in
  (forall j, (j < n)%nat -> snd (place_one_site E (trace E j s)) = Ok true /\
     sel_flag (fst (place_one_site E (trace E j s))) = Some SUCESS /\ occ_count (trace E j s) = Z.of_nat j) /\
  exists s', run_once E f s = (s', Ok tt) /\
    snd (place_one_site E s') = Ok false /\
    occ_count s' = L * L /\ (forall i, is_site L i -> occupied s' i) /\
    (first_run s = true -> p_arr s' = map (fun j => FDiv (FZ (Z.of_nat j)) (FZ (L * L))) (seq 1 n)) /\
    (first_run s = false -> p_arr s' = p_arr s) /\
    h_arr s' = map (fun j => entropy_v2 (trace E j s)) (seq 1 n) /\
    map Ok (pw_arr s') = map (fun j => order_param_wrapping (trace E j s)) (seq 1 n) /\
    map Ok (pl_arr s') = map (fun j => order_param_largest_clstr (trace E j s)) (seq 1 n).
Proof. exact p_C31. Qed.
Print Assumptions C31_run_length.

Example ex_C39 : ~ (0 <= 9 < 3 * 3) /\ ~ (0 <= 2 * 3 + 5 < 3 * 3).
Proof. lia. Qed.
Theorem C39_bad_lists : forall E L s, env_ok E -> reachable E L s -> forall sh,
  set_custome_site_id_list E [] sh s = (s, Err ValueError) /\
  set_custome_site_index_list E [] sh s = (s, Err ValueError) /\
  (forall l, (exists x, In x l /\ ~ (0 <= x < L * L)) -> set_custome_site_id_list E l sh s = (s, Ok tt)) /\
  (forall ixs, (exists r c, In (r, c) ixs /\ ~ (0 <= r * L + c < L * L)) ->
     set_custome_site_index_list E (map (fun '(r, c) => [r; c]) ixs) sh s = (s, Ok tt)).
Proof. exact p_C39. Qed.
Print Assumptions C39_bad_lists.

Example ex_C40 : get_site_id_sequence (fst (set_custome_site_id_list demo_env [5; 2; 7] false (demo0 KL0 3))) = [5; 2; 7].
Proof. vm_compute. repeat split; reflexivity. Qed.
Theorem C40_custom_ids : forall E k L s l, env_ok E -> k <> KL1 -> k <> KL2 -> fresh_object E k L s ->
  l <> [] -> NoDup l -> Forall (is_site L) l ->
  let s1 := fst (set_custome_site_id_list E l false s) in
  snd (set_custome_site_id_list E l false s) = Ok tt /\ get_site_id_sequence s1 = l /\
  forall cs, Forall (fun c => c = CPlace \/ c = CDetect) cs ->
    let t := after E s1 cs in
    (forall i, is_site L i -> (occupied t i <-> In i (firstn (placements cs) l))) /\
    get_site_id_sequence t = l /\
    (forall x, nth_error l (placements cs) = Some x ->
       snd (place_one_site E t) = Ok true /\ sel_id (fst (place_one_site E t)) = Some x /\
       forall i, is_site L i -> (occupied (fst (place_one_site E t)) i <-> i = x \/ occupied t i)) /\
    ((length l <= placements cs)%nat -> snd (place_one_site E t) = Ok false).
Proof. exact p_C40. Qed.
Print Assumptions C40_custom_ids.

Example ex_C40i : get_index_sequence (fst (set_custome_site_index_list demo_env [[1; 2]; [0; 2]] false (demo0 KL0 3))) = Ok [(1, 2); (0, 2)].
Proof. vm_compute. repeat split; reflexivity. Qed.
Theorem C40_custom_indices : forall E k L s ixs, env_ok E -> k <> KL1 -> k <> KL2 -> fresh_object E k L s ->
  ixs <> [] -> NoDup ixs -> Forall (fun ix => 0 <= fst ix < L /\ 0 <= snd ix < L) ixs ->
  let l := map (fun ix => fst ix * L + snd ix) ixs in
  let r := set_custome_site_index_list E (map (fun ix => [fst ix; snd ix]) ixs) false s in
  let s1 := fst r in
  snd r = Ok tt /\ get_index_sequence s1 = Ok ixs /\ get_site_id_sequence s1 = l /\
  forall cs, Forall (fun c => c = CPlace \/ c = CDetect) cs ->
    let t := after E s1 cs in
    (forall i, is_site L i -> (occupied t i <-> In i (firstn (placements cs) l))) /\
    get_site_id_sequence t = l /\
    (forall x, nth_error l (placements cs) = Some x ->
       snd (place_one_site E t) = Ok true /\ sel_id (fst (place_one_site E t)) = Some x /\
       forall i, is_site L i -> (occupied (fst (place_one_site E t)) i <-> i = x \/ occupied t i)) /\
    ((length l <= placements cs)%nat -> snd (place_one_site E t) = Ok false).
Proof. exact p_C40i. Qed.
Print Assumptions C40_custom_indices.

Theorem C41_index_alias : forall E L s, env_ok E -> reachable E L s ->
  (forall a b sh, set_custome_site_index_list E (a ++ [0; L] :: b) sh s = set_custome_site_index_list E (a ++ [1; 0] :: b) sh s) /\
  (2 <= L -> forall s', fst (set_custome_site_index_list E [[0; L]] false s) = s' ->
     snd (set_custome_site_index_list E [[0; L]] false s) = Ok tt /\ get_site_id_sequence s' = [L] /\
     (kind s <> KL1 -> get_index_sequence s' = Ok [(1, 0)])).
Proof. exact p_C41. Qed.
Print Assumptions C41_index_alias.

Example ex_C42 : reachable_k demo_env KL0 3 demo_e.
Proof. exact demo_e_reachable. Qed.
Example ex_C42_hyp : cur_idx demo_e = 1 /\ lget (get_site_id_sequence demo_e) 1 = Ok 4 /\ 0 <= site_label demo_e 4.
Proof. vm_compute. repeat split; discriminate. Qed.
Theorem C42_duplicate : forall E k L s x, env_ok E -> k <> KL1 -> k <> KL2 -> reachable_k E k L s ->
  0 <= cur_idx s -> lget (get_site_id_sequence s) (cur_idx s) = Ok x -> occupied s x ->
  snd (place_one_site E s) = Err AssertionError /\ nothing_changed L s (fst (place_one_site E s)) /\
  cur_idx (fst (place_one_site E s)) = cur_idx s /\
  forall cs, Forall (fun c => match c with CPlace | CDetect | CRun _ | CTestRun _ => True | _ => False end) cs ->
    snd (place_one_site E (after E s cs)) = Err AssertionError /\
    occ_count (after E s cs) = occ_count s /\ lat (after E s cs) = lat s /\ pool (after E s cs) = pool s.
Proof. exact p_C42. Qed.
Print Assumptions C42_duplicate.

Example ex_C43 : user_list (fst (set_custome_site_id_list demo_env [5; 2; 7] true (demo0 KL0 3))) = [2; 7; 5] /\
  user_list (fst (reset demo_env (fst (set_custome_site_id_list demo_env [5; 2; 7] true (demo0 KL0 3))))) = [7; 5; 2].
Proof. vm_compute. repeat split; reflexivity. Qed.
Theorem C43_aliased_list : forall E k L s l, env_ok E -> k <> KL1 -> k <> KL2 -> reachable_k E k L s -> l <> [] -> Forall (is_site L) l ->
  let s1 := fst (set_custome_site_id_list E l true s) in
  snd (set_custome_site_id_list E l true s) = Ok tt /\
  user_list s1 = fst (random_shuffle E (tick s) l) /\
  forall cs, Forall plain cs ->
    let t := after E s1 cs in
    Permutation l (user_list t) /\ get_site_id_sequence t = user_list t /\
    user_list (fst (reset E t)) = fst (random_shuffle E (tick t) (user_list t)).
Proof. exact p_C43. Qed.
Print Assumptions C43_aliased_list.

Example ex_C48 : 0 <= site_label demo_a 4.
Proof. vm_compute. discriminate. Qed.
Theorem C48_detect_unplaced : forall E k L, env_ok E ->
  (forall t0 s, new_perc E k L t0 = Ok s -> detect_wrapping s = (s, Err TypeError)) /\
  (forall s0, reachable E L s0 -> (exists i, is_site L i /\ occupied s0 i) ->
     let s := fst (reset E s0) in
     (forall i, is_site L i -> ~ occupied s i) /\ detect_wrapping s = (s, Ok false)).
Proof. exact p_C48. Qed.
Print Assumptions C48_detect_unplaced.
