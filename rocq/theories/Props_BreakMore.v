(** * Any call of the simulation API, broken off between two statements: C116.

    BreakMore.v executes the two [set_custome_...] methods, [swap_ids] and [test_run_once] one
    statement at a time, as Break.v does with the others.  [leaves E c n i]: what is left of i
    when the call c is broken off after n statements (or ends before that); [leaves_all]: after
    several such calls; [accepted L l]: l is a sequence of sites that is not empty; [settled s]:
    the number of sites that may be placed is the length of the sequence; [installed l ul share
    sh n s t]: t is s after n statements of installing the sequence l; [repeated x l]: x occurs
    twice in l; [list_call_whole], [keeps_sequence]: BreakMoreSpec.v.  [complete], [agrees],
    [like_new]: BreakSpec.v; [described], [loop_described]: everything the object reports is the
    right function of the sites placed (SymSpec.v). *)
From Coq Require Import ZArith List Bool Lia Permutation.
From Verif Require Import Py Lattice Cluster Perc Spec History Demo SymSpec Break BreakSpec BreakMore BreakMoreSpec BreakMoreFacts BreakMoreProps.
Import ListNotations.
Open Scope Z_scope.

Example ex_C116_unbroken : snd (b_set_ids demo_env [4; 0; 7] true (whole demo_a) 3%nat) = Cut /\ snd (b_set_ids demo_env [4; 0; 7] true (whole demo_a) 100%nat) = Fin (Ok tt) /\
  snd (b_test_run demo_env 9 (whole demo_a) 30%nat) = Cut /\ snd (b_swap 0 5 (whole demo_d) 2%nat) = Cut /\ snd (b_swap 0 5 (whole demo_d) 4%nat) = Fin (Ok tt).
Proof. vm_compute. auto. Qed.
Theorem C116_unbroken : forall E s, (forall l sh, agrees (b_set_ids E l sh) (set_custome_site_id_list E l sh) s) /\
  (forall ixs sh, agrees (b_set_indices E ixs sh) (set_custome_site_index_list E ixs sh) s) /\
  (forall a b, agrees (b_swap a b) (swap_ids a b) s) /\
  (forall f, agrees (b_test_run E f) (test_run_once E f) s).
Proof. exact p_C116_unbroken. Qed.
Print Assumptions C116_unbroken.

Example ex_C116_recover : let cs := [(AOld BPlace, 12%nat); (ASetIds [4; 0; 7] true, 100%nat); (ATestRun 5, 30%nat); (ASwap 4 0, 2%nat); (ASetIndices [[1; 2]; [0; 0]] false, 2%nat)] in let i := leaves_all demo_env cs (whole demo_a) in
  reachable_k demo_env KBase 3 demo_a /\ Forall (fun c => acall_ok 3 (fst c)) cs /\ complete i /\ ids (obj i) = [5; 0] /\ max_iter (obj i) = 3 /\ occ_count (obj i) <> 0.
Proof.
  cbv zeta. split; [apply demo_a_reachable_k|]. split; [repeat (apply Forall_cons || apply Forall_nil); cbn; unfold is_site; try exact I; lia|]. split; [vm_compute; auto|]. split; [vm_compute; reflexivity|]. split; [vm_compute; reflexivity|]. vm_compute. discriminate.
Qed.
Theorem C116_recover : forall E k L s cs, env_ok E -> reachable_k E k L s -> Forall (fun c => acall_ok L (fst c)) cs ->
  let i := leaves_all E cs (whole s) in complete i ->
  exists s', reset E (obj i) = (s', Ok tt) /\
  (exists m, forall n, (m <= n)%nat -> b_reset E i n = (whole s', (n - m)%nat, Fin (Ok tt))) /\
  kind s' = k /\ (k = KL1 \/ k = KL2 -> ids s' = zrange (L * L)) /\ (k <> KL1 -> k <> KL2 -> Permutation (ids (obj i)) (ids s') /\ accepted L (ids s')) /\
  max_iter s' = max_iter (obj i) /\ mode_custom s' = mode_custom (obj i) /\ do_shuffle s' = do_shuffle (obj i) /\
  (first_run (obj i) = true -> p_arr s' = []) /\
  forall E' k' t0 s0, new_perc E' k' L t0 = Ok s0 -> like_new s' s0.
Proof. exact p_C116_recover. Qed.
Print Assumptions C116_recover.

Example ex_C116_settled : let cs := [(AOld BPlace, 12%nat); (ASetIds [4; 0; 7] true, 100%nat); (ATestRun 5, 30%nat); (ASwap 4 0, 2%nat); (ASetIndices [[1; 2]; [0; 0]] false, 4%nat)] in
  reachable_k demo_env KBase 3 demo_a /\ Forall (fun c => acall_ok 3 (fst c)) cs /\ Forall list_call_whole cs.
Proof.
  cbv zeta. split; [apply demo_a_reachable_k|]. split; [repeat (apply Forall_cons || apply Forall_nil); cbn; unfold is_site; try exact I; lia|]. repeat (apply Forall_cons || apply Forall_nil); cbn; try exact I; right; lia.
Qed.
Theorem C116_settled : forall E k L s cs, env_ok E -> k <> KL1 -> k <> KL2 -> reachable_k E k L s ->
  Forall (fun c => acall_ok L (fst c)) cs -> Forall list_call_whole cs -> settled (obj (leaves_all E cs (whole s))).
Proof. exact p_C116_settled. Qed.
Print Assumptions C116_settled.

Example ex_C116_resume : let cs := [(AOld BPlace, 12%nat); (ASetIds [4; 0; 7] true, 100%nat); (ATestRun 5, 30%nat); (ASwap 4 0, 2%nat); (ASetIndices [[1; 2]; [0; 0]] false, 4%nat)] in let i := leaves_all demo_env cs (whole demo_a) in
  reachable_k demo_env KBase 3 demo_a /\ Forall (fun c => acall_ok 3 (fst c)) cs /\ complete i /\ settled (obj i) /\
  placed_order (events demo_env (fst (reset demo_env (obj i))) [CPlace; CDetect; CPlace; CDetect]) = [5; 0] /\ tracked [CPlace; CDetect; CPlace; CDetect].
Proof.
  cbv zeta. split; [apply demo_a_reachable_k|]. split; [repeat (apply Forall_cons || apply Forall_nil); cbn; unfold is_site; try exact I; lia|]. split; [vm_compute; auto|]. split; [vm_compute; reflexivity|]. split; [vm_compute; reflexivity|]. repeat (apply tr_place || apply tr_nil).
Qed.
Theorem C116_resume : forall E k L s cs, env_ok E -> reachable_k E k L s -> Forall (fun c => acall_ok L (fst c)) cs ->
  let i := leaves_all E cs (whole s) in (k <> KL1 -> k <> KL2 -> settled (obj i)) ->
  let s' := fst (reset E (obj i)) in
  forall more, Forall (call_ok L) more -> Forall stepwise more ->
  let xs := placed_order (events E s' (CPlace :: more)) in
  let s2 := after E s' (CPlace :: more) in
  described L xs s2 /\ (3 <= L -> tracked (CPlace :: more) -> loop_described L xs s2).
Proof. exact p_C116_resume. Qed.
Print Assumptions C116_resume.

Example ex_C116_list_points : accepted 3 [4; 0; 7] /\ map (calculate_id_from_index (lat (obj (whole demo_a)))) [[1; 2]; [0; 0]] = [5; 0] /\ ~ accepted 3 [4; 9] /\
  max_iter (obj (leaves demo_env (ASetIds [4; 0; 7] true) 3 (whole demo_a))) = 5 /\ ids (obj (leaves demo_env (ASetIds [4; 0; 7] true) 3 (whole demo_a))) = [4; 0; 7].
Proof.
  split; [split; [discriminate|repeat (apply Forall_cons || apply Forall_nil); unfold is_site; lia]|]. split; [vm_compute; reflexivity|].
  split; [intros (_ & H); rewrite Forall_forall in H; specialize (H 9); cbn in H; unfold is_site in H; lia|]. split; vm_compute; reflexivity.
Qed.
Theorem C116_list_points : forall E k L s cs n l ixs sh, env_ok E -> reachable_k E k L s -> Forall (fun c => acall_ok L (fst c)) cs ->
  let i := leaves_all E cs (whole s) in
  let l' := map (calculate_id_from_index (lat (obj i))) ixs in
  (accepted L l -> installed l l true sh n (obj i) (obj (leaves E (ASetIds l sh) n i))) /\
  (~ accepted L l -> leaves E (ASetIds l sh) n i = i) /\
  (accepted L l' -> installed l' (user_list (obj i)) false sh n (obj i) (obj (leaves E (ASetIndices ixs sh) n i))) /\
  (~ accepted L l' -> leaves E (ASetIndices ixs sh) n i = i).
Proof. exact p_C116_list_points. Qed.
Print Assumptions C116_list_points.

Theorem C116_list_short_refuted : exists E k L s l n, env_ok E /\ reachable_k E k L s /\ accepted L l /\ NoDup l /\
  let i := leaves E (ASetIds l false) n (whole s) in complete i /\ snd (reset E (obj i)) = Ok tt /\
  let s' := fst (reset E (obj i)) in ids s' = l /\
  let s2 := after E s' (repeat CPlace (length l)) in placed_order (events E s' (repeat CPlace (length l))) = l /\
  snd (place_one_site E s2) = Err IndexError.
Proof. exact p_C116_short. Qed.
Print Assumptions C116_list_short_refuted.

Theorem C116_list_long_refuted : exists E k L s l n, env_ok E /\ reachable_k E k L s /\ accepted L l /\ NoDup l /\
  let i := leaves E (ASetIds l false) n (whole s) in complete i /\ snd (reset E (obj i)) = Ok tt /\
  let s' := fst (reset E (obj i)) in ids s' = l /\
  exists m, (m < length l)%nat /\ let s2 := after E s' (repeat CPlace m) in placed_order (events E s' (repeat CPlace m)) = firstn m l /\
  snd (place_one_site E s2) = Ok false.
Proof. exact p_C116_long. Qed.
Print Assumptions C116_list_long_refuted.

Example ex_C116_unsettled : let cs := [(ASetIds [4; 0; 7] false, 100%nat); (AOld BPlace, 12%nat); (ASetIndices [[1; 2]; [0; 0]] false, 3%nat)] in let i := leaves_all demo_env cs (whole demo_a) in let s' := fst (reset demo_env (obj i)) in
  reachable_k demo_env KBase 3 demo_a /\ Forall (fun c => acall_ok 3 (fst c)) cs /\ complete i /\ NoDup (ids (obj i)) /\ ids s' = [5; 0] /\ max_iter s' = 3 /\ snd (run_once demo_env 4 s') = Err IndexError.
Proof.
  cbv zeta. split; [apply demo_a_reachable_k|]. split; [repeat (apply Forall_cons || apply Forall_nil); cbn; unfold is_site; try exact I; lia|]. split; [vm_compute; auto|]. split; [vm_compute; repeat constructor; cbn; intuition discriminate|]. split; [vm_compute; reflexivity|]. split; [vm_compute; reflexivity|]. vm_compute. reflexivity.
Qed.
Theorem C116_unsettled : forall E k L s cs f, env_ok E -> k = KBase \/ k = KL0 -> reachable_k E k L s -> Forall (fun c => acall_ok L (fst c)) cs ->
  let i := leaves_all E cs (whole s) in complete i -> NoDup (ids (obj i)) ->
  let s' := fst (reset E (obj i)) in Z.min (max_iter s') (zlen (ids s')) < Z.of_nat f ->
  (zlen (ids s') < max_iter s' -> snd (run_once E f s') = Err IndexError) /\
  (0 <= max_iter s' <= zlen (ids s') -> exists t, run_once E f s' = (t, Ok tt) /\ forall x, is_site L x -> (occupied t x <-> In x (firstn (Z.to_nat (max_iter s')) (ids s')))).
Proof. exact p_C116_unsettled. Qed.
Print Assumptions C116_unsettled.

Example ex_C116_swap_points : reachable_no_custom demo_env KSP 3 demo_d /\ is_site 3 1 /\ is_site 3 8 /\
  ids (obj (leaves demo_env (ASwap 1 8) 1 (whole demo_d))) <> ids demo_d /\ ids (obj (leaves demo_env (ASwap 1 8) 1 (whole demo_d))) <> ids (obj (leaves demo_env (ASwap 1 8) 2 (whole demo_d))).
Proof. split; [exact demo_d_reachable|]. split; [unfold is_site; lia|]. split; [unfold is_site; lia|]. split; vm_compute; discriminate. Qed.
Theorem C116_swap_points : forall E k L s a b n, env_ok E -> k <> KL1 -> k <> KL2 -> reachable_no_custom E k L s -> is_site L a -> is_site L b -> a <> b ->
  let t := obj (leaves E (ASwap a b) n (whole s)) in
  exists p q, 0 <= p < L * L /\ 0 <= q < L * L /\ p <> q /\ lget (ids s) p = Ok a /\ lget (ids s) q = Ok b /\
  (forall j, 0 <= j < L * L -> lget (ids t) j = if (j =? p) && (1 <=? n)%nat then Ok b else if (j =? q) && (2 <=? n)%nat then Ok a else lget (ids s) j) /\
  (forall x, is_site L x -> lget (rev_ids t) x = if (x =? b) && (3 <=? n)%nat then Ok p else if (x =? a) && (4 <=? n)%nat then Ok q else lget (rev_ids s) x) /\
  t = set_rev (rev_ids t) (mutate_ids (ids t) s).
Proof. exact p_C116_swap_points. Qed.
Print Assumptions C116_swap_points.

Example ex_C116_swap_lost : let cs := [(AOld BPlace, 12%nat); (ATestRun 5, 30%nat); (AOld BPlace, 12%nat)] in let j := leaves_all demo_env ((ASwap 1 8, 1%nat) :: cs) (whole (demo KL0 3 [CPlace])) in
  reachable_no_custom demo_env KL0 3 (demo KL0 3 [CPlace]) /\ Forall keeps_sequence cs /\ complete j /\ ids (obj j) = [8; 2; 3; 4; 5; 6; 7; 8; 0] /\
  snd (run_once demo_env 10 (fst (reset demo_env (obj j)))) = Err AssertionError.
Proof.
  cbv zeta. split; [exists 0%nat, (demo0 KL0 3), [CPlace]; split; [apply demo0_ok|]; split; [|split; [|reflexivity]]; repeat (apply Forall_cons || apply Forall_nil); exact I|].
  split; [repeat (apply Forall_cons || apply Forall_nil); exact I|]. split; [vm_compute; auto|]. split; vm_compute; reflexivity.
Qed.
Theorem C116_swap_lost : forall E k L s a b cs, env_ok E -> k <> KL1 -> k <> KL2 -> reachable_no_custom E k L s -> is_site L a -> is_site L b -> a <> b -> Forall keeps_sequence cs ->
  let j := leaves_all E ((ASwap a b, 1%nat) :: cs) (whole s) in
  (~ In a (ids (obj j)) /\ repeated b (ids (obj j))) /\
  (complete j ->
   let s' := fst (reset E (obj j)) in
   snd (reset E (obj j)) = Ok tt /\ ~ In a (ids s') /\ repeated b (ids s') /\
   (k = KBase \/ k = KL0 -> forall f, L * L < Z.of_nat f -> snd (run_once E f s') = Err AssertionError)).
Proof. exact p_C116_swap_lost. Qed.
Print Assumptions C116_swap_lost.
