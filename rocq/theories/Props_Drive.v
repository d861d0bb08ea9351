(** * Where the wrapping happens, and the loops of the shipped scripts: C74 to C79.

    [drive E stop f]: the loop of the demo and test functions (Script.v); [stop]
    tells whether it ends at the first detected wrapping.  [occupied_summary] is
    what the two-candidate classes print about their choices; [occupied_draws] counts
    the iterations in which the candidate drawn was occupied (SummarySpec.v). *)
From Coq Require Import ZArith List Bool Lia.
From Verif Require Import Py Lattice Cluster Perc Script Spec History Demo Critical Drive SummarySpec Summary TwoRows.
Import ListNotations.
Open Scope Z_scope.

Example ex_C74 : env_ok demo_env /\ reachable_tracked demo_env 3 demo_b /\ after_wrap demo_b = true /\
  get_pc demo_b = Ok (FDiv (FZ 4) (FZ 9)) /\ sel_id demo_b = Some 2.
Proof. split; [apply demo_env_ok|]. split; [apply demo_b_tracked|]. vm_compute. auto. Qed.
Theorem C74_critical_site : forall E L s, env_ok E -> 3 <= L -> reachable_tracked E L s -> after_wrap s = true ->
  exists x prev, NoDup (x :: prev) /\ (forall i, In i (x :: prev) -> is_site L i /\ occupied s i) /\
    ~ wraps L (fun i => In i prev) /\ wraps L (fun i => In i (x :: prev)) /\
    get_pc s = Ok (FDiv (FZ (zlen (x :: prev))) (FZ (L * L))).
Proof. exact p_C74. Qed.
Print Assumptions C74_critical_site.

Example ex_C75 : env_ok demo_env /\ reachable_tracked demo_env 3 demo_b /\ 3 * 3 - 3 < occ_count (fst (run_once demo_env 10 (demo0 KBase 3))).
Proof. split; [apply demo_env_ok|]. split; [apply demo_b_tracked|]. vm_compute. reflexivity. Qed.
Theorem C75_critical_range : forall E L s, env_ok E -> reachable E L s ->
  (L * L - L < occ_count s -> wraps L (occupied s)) /\
  (3 <= L -> reachable_tracked E L s ->
     (L * L - L < occ_count s -> after_wrap s = true) /\
     (after_wrap s = true -> exists n, get_pc s = Ok (FDiv (FZ n) (FZ (L * L))) /\ L <= n <= L * L - L + 1)).
Proof. exact p_C75. Qed.
Print Assumptions C75_critical_range.

Example ex_C76 : env_ok demo_env /\ fresh_plain demo_env KL2 3 (demo0 KL2 3) /\ 5 * (3 * 3) < Z.of_nat 46 /\
  snd (drive demo_env true 46 (demo0 KL2 3)) = Ok 3.
Proof. split; [apply demo_env_ok|]. split; [apply demo0_fresh|]. vm_compute. auto. Qed.
Theorem C76_drive_to_wrapping : forall E k L s f, env_ok E -> fresh_plain E k L s -> 5 * (L * L) < Z.of_nat f ->
  exists n t, drive E true f s = (t, Ok n) /\ 0 <= n <= 5 * (L * L) /\ (k <> KL1 -> k <> KL2 -> n = occ_count t) /\
    get_pc (fst (run_once E f s)) = get_pc t /\
    (3 <= L -> snd (detect_wrapping t) = Ok true /\ wraps L (occupied t) /\ get_pc t = occupation_prob t /\
       exists x, sel_id t = Some x /\ is_site L x /\ occupied t x /\ ~ wraps L (fun i => occupied t i /\ i <> x)) /\
    (L <= 2 -> snd (detect_wrapping t) = Ok false /\ get_pc t = Ok (FZ 0) /\ forall i, is_site L i -> occupied t i).
Proof. exact p_C76. Qed.
Print Assumptions C76_drive_to_wrapping.

Example ex_C77 : env_ok demo_env /\ fresh_plain demo_env KL1 3 (demo0 KL1 3) /\ 5 * (3 * 3) < Z.of_nat 46 /\
  snd (drive demo_env false 46 (demo0 KL1 3)) = Ok 45.
Proof. split; [apply demo_env_ok|]. split; [apply demo0_fresh|]. vm_compute. auto. Qed.
Theorem C77_drive_to_end : forall E k L s f, env_ok E -> fresh_plain E k L s -> 5 * (L * L) < Z.of_nat f ->
  exists t, drive E false f s = (t, Ok (match k with KL1 | KL2 => 5 * (L * L) | _ => L * L end)) /\
    (forall i, is_site L i -> occupied t i) /\ snd (place_one_site E t) = Ok false /\
    order_param_largest_clstr t = Ok (FDiv (FZ (2 * (L * L))) (FZ (2 * (L * L)))) /\
    (3 <= L -> order_param_wrapping t = Ok (FDiv (FZ (2 * (L * L))) (FZ (2 * (L * L)))) /\ test_clusters t = Ok tt /\ test_lattice t = Ok tt) /\
    (k <> KSP -> exists p h pw pl, run_once E f s = (set_first_run false (set_arrs p h pw pl t), Ok tt)).
Proof. exact p_C77. Qed.
Print Assumptions C77_drive_to_end.

Example ex_C78 : env_ok demo_env /\ fresh_object demo_env KL2 3 (demo0 KL2 3) /\
  let cs := concat (repeat [CPlace; CDetect] 16) in successes demo_env (demo0 KL2 3) cs = 6%nat /\
  map snd (occupied_summary (after demo_env (demo0 KL2 3) cs)) = [14; 10].
Proof. split; [apply demo_env_ok|]. split; [apply demo0_fresh_object|]. vm_compute. auto. Qed.
Theorem C78_summary : forall E k L s cs, env_ok E -> k = KL1 \/ k = KL2 -> fresh_object E k L s -> Forall (fun c => c = CPlace \/ c = CDetect) cs ->
  let t := after E s cs in
  let good := Z.of_nat (successes E s cs) in
  let bad := Z.min (Z.of_nat (placements cs)) (5 * (L * L)) - good in
  exists x, map snd (occupied_summary t) = match k with KL2 => [x; bad] | _ => [x] end /\
    bad <= x <= bad + Z.max 0 (good - 1).
Proof. exact p_C78. Qed.
Print Assumptions C78_summary.

Example ex_C78_exact : let cs := concat (repeat [CPlace; CDetect] 16) in
  occupied_draws demo_env (demo0 KL2 3) cs = 14%nat /\ occupied_draws demo_env (demo0 KL1 3) cs = 14%nat.
Proof. vm_compute. auto. Qed.
Theorem C78_first_number : forall E k L s cs, env_ok E -> k = KL1 \/ k = KL2 -> fresh_object E k L s -> Forall (fun c => c = CPlace \/ c = CDetect) cs ->
  hd_error (map snd (occupied_summary (after E s cs))) = Some (Z.of_nat (occupied_draws E s cs)).
Proof. exact p_C78_exact. Qed.
Print Assumptions C78_first_number.

Example ex_C78_run : map snd (occupied_summary (fst (run_once demo_env 46 (demo0 KL2 3)))) = [42; 36].
Proof. vm_compute. reflexivity. Qed.
Theorem C78_summary_of_a_run : forall E k L s f, env_ok E -> k = KL1 \/ k = KL2 -> fresh_plain E k L s -> 5 * (L * L) < Z.of_nat f ->
  exists x, map snd (occupied_summary (fst (run_once E f s))) = match k with KL2 => [x; 4 * (L * L)] | _ => [x] end /\
    4 * (L * L) <= x <= 5 * (L * L) - 1.
Proof. exact p_C78r. Qed.
Print Assumptions C78_summary_of_a_run.

Theorem C79_two_wrapping_clusters_refuted : exists E L s a b m n, env_ok E /\ 3 <= L /\ reachable_tracked E L s /\
  wraps_at L (occupied s) a /\ wraps_at L (occupied s) b /\ ~ connected L (occupied s) a b /\ after_wrap s = true /\
  order_param_wrapping s = Ok (FDiv (FZ m) (FZ (2 * (L * L)))) /\
  order_param_largest_clstr s = Ok (FDiv (FZ n) (FZ (2 * (L * L)))) /\ m < n.
Proof. exact p_C79_refuted. Qed.
Print Assumptions C79_two_wrapping_clusters_refuted.
