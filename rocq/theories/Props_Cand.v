(** * The L1 and L2 rules and repeated runs: C33-C36, C44, C49.

    [candidates], [straddles], [chances], [drawn] and [drawn_dir] (History.v) name
    what the rules look at; [run_log] lists the objects observed after the
    successful iterations of a run. *)
From Coq Require Import ZArith List Bool Lia Permutation.
From Verif Require Import Py Lattice Cluster Perc Spec History Demo Cycle CandRun CandProps.
Import ListNotations.
Open Scope Z_scope.

Example ex_cand : env_ok demo_env /\ fresh_object demo_env KL1 3 (demo0 KL1 3) /\ fresh_object demo_env KL2 3 (fst (reset demo_env (demo_f KL2))) /\
  reachable_k demo_env KL1 3 (demo_f KL1) /\ reachable_k demo_env KL2 3 (demo_f KL2).
Proof.
  exact (conj demo_env_ok (conj (demo0_fresh_object KL1) (conj (demo_f_fresh KL2)
    (conj (demo_f_reachable KL1) (demo_f_reachable KL2))))).
Qed.

Example ex_C33 : successes demo_env (demo0 KL1 3) [CPlace; CPlace; CPlace] = 2%nat.
Proof. vm_compute. repeat split; reflexivity. Qed.
Theorem C33_C34_iterations : forall E k L s, env_ok E -> k = KL1 \/ k = KL2 -> fresh_object E k L s ->
  forall cs, Forall (fun c => c = CPlace \/ c = CDetect) cs ->
    let t := after E s cs in
    occ_count t = Z.of_nat (successes E s cs) /\
    (Z.of_nat (placements cs) < 5 * (L * L) -> snd (place_one_site E t) = Ok true) /\
    (5 * (L * L) <= Z.of_nat (placements cs) ->
       snd (place_one_site E t) = Ok false /\ Z.of_nat (successes E s cs) = L * L /\ forall i, is_site L i -> occupied t i).
Proof. exact p_C33. Qed.
Print Assumptions C33_C34_iterations.

Theorem C33_C34_run : forall E k L s f, env_ok E -> k = KL1 \/ k = KL2 -> fresh_object E k L s -> 5 * (L * L) < Z.of_nat f ->
  let n := Z.to_nat (L * L) in
  let lg := run_log E (Z.to_nat (5 * (L * L))) s in
  length lg = n /\
  exists s', run_once E f s = (s', Ok tt) /\
    snd (place_one_site E s') = Ok false /\ occ_count s' = L * L /\ (forall i, is_site L i -> occupied s' i) /\
    (first_run s = true -> p_arr s' = map (fun j => FDiv (FZ (Z.of_nat j)) (FZ (L * L))) (seq 1 n)) /\
    (first_run s = false -> p_arr s' = p_arr s) /\
    h_arr s' = map entropy_v2 lg /\
    map Ok (pw_arr s') = map order_param_wrapping lg /\ map Ok (pl_arr s') = map order_param_largest_clstr lg.
Proof. exact p_C33r. Qed.
Print Assumptions C33_C34_run.

Example ex_C35 : cur_idx (demo_f KL2) = 0 /\ candidates (demo_f KL2) = [1; 2; 3; 4; 5; 6; 7; 8; 0] /\
  (drawn demo_env (demo_f KL2), drawn_dir demo_env (demo_f KL2)) = (1, DRight) /\ chances KL2 (demo_f KL2) 1 = 4.
Proof. vm_compute. repeat split; reflexivity. Qed.
Theorem C35_C36_placement : forall E k L s, env_ok E -> k = KL1 \/ k = KL2 -> reachable_k E k L s -> cur_idx s < L * L -> candidates s <> [] ->
  let X := drawn E s in let Y := nbr L X (drawn_dir E s) in let V := nbr L Y (drawn_dir E s) in
  let s' := fst (place_one_site E s) in
  let taken x := sel_flag s' = Some SUCESS /\ sel_id s' = Some x /\ candidates s' = candidates s /\
    (forall i, is_site L i -> chances k s' i = chances k s i) in
  let rejected := sel_flag s' = Some CURRENT_SITE_NOT_EMPTY /\ chances k s' X = Z.max 0 (chances k s X - 1) /\
    (forall i, is_site L i -> i <> X -> chances k s' i = chances k s i) /\
    (if chances k s' X =? 0 then Permutation (candidates s) (X :: candidates s') else candidates s' = candidates s) in
  snd (place_one_site E s) = Ok true /\ In X (candidates s) /\ is_site L X /\
  (~ occupied s X -> taken X) /\
  (occupied s X -> ~ occupied s Y -> taken Y) /\
  (occupied s X -> occupied s Y -> k = KL1 -> rejected) /\
  (occupied s X -> occupied s Y -> k = KL2 ->
     (straddles L X (drawn_dir E s) -> rejected) /\
     (~ straddles L X (drawn_dir E s) -> ~ occupied s V -> taken V) /\
     (~ straddles L X (drawn_dir E s) -> occupied s V -> rejected)).
Proof. exact place_L12. Qed.
Print Assumptions C35_C36_placement.

Example ex_C35_hyp : let s := demo KL1 3 [CPlace] in
  snd (place_one_site demo_env s) = Ok true /\ sel_flag (fst (place_one_site demo_env s)) = Some SUCESS /\ sel_id (fst (place_one_site demo_env s)) = Some 2.
Proof. vm_compute. repeat split; reflexivity. Qed.
Theorem C35_selected_L1 : forall E L s x, env_ok E -> reachable_k E KL1 L s ->
  snd (place_one_site E s) = Ok true -> sel_flag (fst (place_one_site E s)) = Some SUCESS -> sel_id (fst (place_one_site E s)) = Some x ->
  is_site L x /\ ~ occupied s x /\
  (In x (candidates s) \/ exists X d, In X (candidates s) /\ occupied s X /\ x = nbr L X d).
Proof. exact p_C35. Qed.
Print Assumptions C35_selected_L1.

Example ex_C36_hyp : snd (place_one_site demo_env (demo_f KL2)) = Ok true /\ sel_flag (fst (place_one_site demo_env (demo_f KL2))) = Some SUCESS /\
  sel_id (fst (place_one_site demo_env (demo_f KL2))) = Some 0.
Proof. vm_compute. repeat split; reflexivity. Qed.
Theorem C36_selected_L2 : forall E L s x, env_ok E -> reachable_k E KL2 L s ->
  snd (place_one_site E s) = Ok true -> sel_flag (fst (place_one_site E s)) = Some SUCESS -> sel_id (fst (place_one_site E s)) = Some x ->
  is_site L x /\ ~ occupied s x /\
  (In x (candidates s) \/
   (exists X d, In X (candidates s) /\ occupied s X /\ x = nbr L X d) \/
   (exists X d, In X (candidates s) /\ occupied s X /\ occupied s (nbr L X d) /\ ~ straddles L X d /\ x = nbr L (nbr L X d) d)).
Proof. exact p_C36. Qed.
Print Assumptions C36_selected_L2.

Example ex_C44 : snd (set_custome_site_id_list demo_env [4; 7] false (demo0 KL1 3)) = Ok tt.
Proof. vm_compute. repeat split; reflexivity. Qed.
Theorem C44_short_list : forall E k L s l sh, env_ok E -> k = KL1 \/ k = KL2 -> fresh_object E k L s ->
  l <> [] -> Forall (is_site L) l -> Z.of_nat (length l) < L * L ->
  let s1 := fst (set_custome_site_id_list E l sh s) in
  snd (set_custome_site_id_list E l sh s) = Ok tt /\
  (forall cs, Forall (fun c => c = CPlace \/ c = CDetect) cs ->
     let t := after E s1 cs in
     (snd (place_one_site E t) = Ok true \/ place_one_site E t = (t, Err ValueError)) /\
     (6 * (L * L) <= Z.of_nat (placements cs) -> place_one_site E t = (t, Err ValueError))) /\
  (forall f, 6 * (L * L) <= Z.of_nat f -> snd (run_once E f s1) = Err ValueError).
Proof. exact p_C44. Qed.
Print Assumptions C44_short_list.

Example ex_C49 : cycled demo_env KL1 1 (fst (run_once demo_env 6 (demo0 KL1 1))).
Proof.
  apply cy_first with 0%nat (demo0 KL1 1) 6%nat; [vm_compute; reflexivity|].
  assert (Q : snd (run_once demo_env 6 (demo0 KL1 1)) = Ok tt) by (vm_compute; reflexivity).
  rewrite <- Q. apply surjective_pairing.
Qed.
Theorem C49_cycles : forall E k L s, env_ok E -> k <> KSP -> cycled E k L s ->
  exists rows, get_data_array s = Ok rows /\ length rows = Z.to_nat (L * L) /\
    forall j, (j < Z.to_nat (L * L))%nat -> exists h pl pw,
      nth_error rows j = Some [FDiv (FZ (Z.of_nat (S j))) (FZ (L * L)); h; pl; pw] /\
      nth_error (h_arr s) j = Some h /\ nth_error (pl_arr s) j = Some pl /\ nth_error (pw_arr s) j = Some pw.
Proof. exact p_C49a. Qed.
Print Assumptions C49_cycles.

Example ex_C49b : cycled demo_env KL0 2 (fst (run_once demo_env 5 (demo0 KL0 2))).
Proof.
  apply cy_first with 0%nat (demo0 KL0 2) 5%nat; [vm_compute; reflexivity|].
  assert (Q : snd (run_once demo_env 5 (demo0 KL0 2)) = Ok tt) by (vm_compute; reflexivity).
  rewrite <- Q. apply surjective_pairing.
Qed.
Theorem C49_other_length : forall E k L s l f, env_ok E -> k = KBase \/ k = KL0 -> cycled E k L s ->
  l <> [] -> NoDup l -> Forall (is_site L) l -> length l <> Z.to_nat (L * L) -> (length l < f)%nat ->
  forall sh, exists s', run_once E f (fst (set_custome_site_id_list E l sh (fst (reset E s)))) = (s', Ok tt) /\
    length (h_arr s') = length l /\ get_data_array s' = Err ValueError.
Proof. exact p_C49b. Qed.
Print Assumptions C49_other_length.
