(** * What the demonstration functions print: C88 to C92.

    The functions are modelled in Programs.v as programs that return the list of their
    [print] calls.  [trace E n s]: after [n] placements, each followed by detection
    (History.v); [placed E n s]: after [n] placements; [first_hit], [announced], [shown],
    [line_with], [each]: ProgSpec.v; [realization E f s0 e]: the object after its e-th
    reset and run (EnsSpec.v). *)
From Coq Require Import String ZArith List Bool Lia.
From Verif Require Import Py Lattice Cluster Perc Run View Script Spec History Demo LatSpec EnsSpec EnsWitness Programs ProgSpec ProgProps ProgProps2.
Import ListNotations.
Open Scope Z_scope.

Example ex_C88 : env_ok demo_env /\ new_perc demo_env KBase 3 0 = Ok (demo0 KBase 3) /\ 3 * 3 < Z.of_nat 10 /\
  match test_relative_index_L0 demo_env 10 3 0, test_reset_relative_index demo_env 10 3 0 with
  | Ok a, Ok b => length a = 14%nat /\ length b = 30%nat
  | _, _ => False
  end.
Proof. split; [apply demo_env_ok|]. split; [apply demo0_ok|]. vm_compute. auto. Qed.
Theorem C88_announcements : forall E L t0 s0 f, env_ok E -> new_perc E KBase L t0 = Ok s0 -> L * L < Z.of_nat f ->
  let N := Z.to_nat (L * L) in
  let final s := fst (place_one_site E (trace E N s)) in
  let s1 := fst (reset E (final s0)) in
  exists m0 m1, first_hit E s0 N m0 /\ first_hit E s1 N m1 /\
    (3 <= L -> get_pc (final s0) = Ok (FDiv (FZ (Z.of_nat m0)) (FZ (L * L))) /\ (m0 <= N)%nat /\
               get_pc (final s1) = Ok (FDiv (FZ (Z.of_nat m1)) (FZ (L * L))) /\ (m1 <= N)%nat) /\
    (L <= 2 -> m0 = S N /\ m1 = S N) /\
    test_relative_index_L0 E f L t0 = Ok (announced E m0 N s0) /\
    test_reset_relative_index E f L t0 =
      Ok (announced E m0 N s0 ++ [[TStr "Resetting now ************** <<<<<<<<<<"%string]] ++ announced E m1 N s1).
Proof. exact p_C88. Qed.
Print Assumptions C88_announcements.

Example ex_C89 : new_perc demo_env KBase 3 0 = Ok (demo0 KBase 3) /\ 3 * 3 < Z.of_nat 10 /\
  match test_detect_wrapping_base demo_env 10 3 0, test_relative_index_base demo_env 3 0, test_site_percolation demo_env 10 3 0 with
  | Ok a, Ok b, Ok c => length a = 9%nat /\ length b = 17%nat /\ length c = 8%nat
  | _, _, _ => False
  end.
Proof. split; [apply demo0_ok|]. vm_compute. auto. Qed.
Theorem C89_without_detection : forall E L t0 s0 f, env_ok E -> new_perc E KBase L t0 = Ok s0 -> L * L < Z.of_nat f ->
  let N := Z.to_nat (L * L) in
  let sN := placed E N s0 in
  (forall i, is_site L i -> occupied sN i) /\
  test_detect_wrapping_base E f L t0 = Ok (each (fun n => let s := placed E n s0 in
    [TStr "p= "; TNum (FDiv (FZ (Z.of_nat n)) (FZ (L * L))); TStr " entropy_v1 "; num (entropy_v1 s); TStr " entropy_v2 "; TNum (entropy_v2 s);
     TStr " order "; TNum (FZ 0)]%string) N) /\
  test_relative_index_base E L t0 =
    Ok (flat_map (fun n => shown 3 (placed E n s0) :: if (12 <=? n)%nat then [shown 4 (placed E n s0)] else []) (seq 1 14)) /\
  exists bonds sites, print_bonds (lat s0) = Ok bonds /\ print_sites (lat s0) = Ok sites /\
  test_site_percolation E f L t0 = Ok [[TStr bonds]; [TStr sites]; [TStr (viewCluster s0)]; shown 1 s0; shown 1 sN; shown 2 sN; shown 0 sN; [TStr (viewCluster sN)]].
Proof. exact p_C89. Qed.
Print Assumptions C89_without_detection.

Example ex_C89_L2 : new_perc demo_env KL2 3 0 = Ok (demo0 KL2 3) /\ 5 * (3 * 3) < Z.of_nat 46 /\
  match test_L2 demo_env 46 3 0 with Ok a => length a = 50%nat | _ => False end.
Proof. split; [apply demo0_ok|]. vm_compute. auto. Qed.
Theorem C89_L2 : forall E L t0 s0 f, env_ok E -> new_perc E KL2 L t0 = Ok s0 -> 5 * (L * L) < Z.of_nat f ->
  let N := Z.to_nat (5 * (L * L)) in
  let sN := placed E N s0 in
  (forall i, is_site L i -> occupied sN i) /\
  test_L2 E f L t0 = Ok (each (fun n => shown 3 (placed E n s0)) N ++
    [[TStr "SitePercolationL2.occupied_summary"];
     [TStr "  1st neighor selected "; TNum (FZ (x_occ sN)); TStr " times"];
     [TStr "  2nd neighor selected "; TNum (FZ (y_occ sN)); TStr " times"];
     shown 1 sN; [TStr (viewCluster sN)]]%string).
Proof. exact p_C89_L2. Qed.
Print Assumptions C89_L2.

Example ex_C90_L0 : new_perc demo_env KL0 3 0 = Ok (demo0 KL0 3) /\ 3 * 3 < Z.of_nat 10 /\
  match test_detect_wrapping_L0 demo_env 10 3 0 with Ok a => length a = 7%nat | _ => False end.
Proof. split; [apply demo0_ok|]. vm_compute. auto. Qed.
Theorem C90_L0 : forall E L t0 s0 f, env_ok E -> new_perc E KL0 L t0 = Ok s0 -> L * L < Z.of_nat f ->
  let N := Z.to_nat (L * L) in
  let p n := FDiv (FZ (Z.of_nat n)) (FZ (L * L)) in
  exists m, first_hit E s0 N m /\ (3 <= L -> (m <= N)%nat) /\ (L <= 2 -> m = S N) /\
  test_detect_wrapping_L0 E f L t0 =
    Ok (each (fun n => line_with (p n) (FZ 0) (trace E n s0)) (Nat.min m N) ++
        if (m <=? N)%nat then
          [[TStr "p= "; TNum (p m); TStr " entropy "; TNum (entropy_v2 (trace E m s0)); TStr " order "; num (order_param_largest_clstr (trace E m s0))];
           [TStr "Wrapping detected ***************** <<<"]]%string
        else []).
Proof. exact p_C90_L0. Qed.
Print Assumptions C90_L0.

Example ex_C90_L1 : new_perc demo_env KL1 3 0 = Ok (demo0 KL1 3) /\ 5 * (3 * 3) < Z.of_nat 46 /\
  match test_L1 demo_env 46 3 0, test_detect_wrapping_L1L2 demo_env 46 3 0 with
  | Ok a, Ok b => length a = 49%nat /\ length b = 45%nat
  | _, _ => False
  end.
Proof. split; [apply demo0_ok|]. vm_compute. auto. Qed.
Theorem C90_L1 : forall E L t0 s0 f, env_ok E -> new_perc E KL1 L t0 = Ok s0 -> 5 * (L * L) < Z.of_nat f ->
  let N := Z.to_nat (5 * (L * L)) in
  let sN := trace E N s0 in
  exists m pc, first_hit E s0 N m /\ (3 <= L -> (m <= N)%nat /\ pc = FDiv (FZ (occ_count (trace E m s0))) (FZ (L * L))) /\
    (L <= 2 -> m = S N /\ pc = FZ 0) /\ (forall i, is_site L i -> occupied sN i) /\
    test_L1 E f L t0 = Ok (each (fun n => shown 3 (trace E n s0)) N ++
      [[TStr "tc = "; TNum pc]; [TStr "SitePercolationL1.occupied_summary"];
       [TStr "  1st neighor selected "; TNum (FZ (x_occ sN)); TStr " times"]; [TStr (viewCluster sN)]]%string) /\
    exists order, 
      (forall n, (1 <= n <= m)%nat -> order n = FZ 0) /\
      (forall n, (m < n <= N)%nat -> exists b, 0 < b <= 2 * (L * L) /\ order n = FDiv (FZ b) (FZ (2 * (L * L))) /\
         order_param_wrapping (trace E n s0) = Ok (order n)) /\
      test_detect_wrapping_L1L2 E f L t0 =
        Ok (each (fun n => line_with (FDiv (FZ (occ_count (trace E n s0))) (FZ (L * L))) (order n) (trace E n s0)) N).
Proof. exact p_C90_L1. Qed.
Print Assumptions C90_L1.

Example ex_C91 : new_perc demo_env KSP 3 0 = Ok (demo0 KSP 3) /\ 5 * (3 * 3) < Z.of_nat 46 /\
  ensemble_shortest_path_v1 demo_env 46 3 2 0 =
    Ok [[TStr "iteration "; TNum (FZ 1); TStr " p*= "; TNum (FDiv (FZ 4) (FZ 9))]; [TStr "iteration "; TNum (FZ 2); TStr " p*= "; TNum (FDiv (FZ 3) (FZ 9))]]%string.
Proof. split; [apply demo0_ok|]. vm_compute. auto. Qed.
Theorem C91_shortest_path_programs : forall E L t0 s0 f n, env_ok E -> new_perc E KSP L t0 = Ok s0 -> 5 * (L * L) < Z.of_nat f ->
  ensemble_shortest_path_v1 E f L n t0 =
    Ok (each (fun e => [TStr "iteration "; TNum (FZ (Z.of_nat e)); TStr " p*= "; TNum (sp_p (realization E f s0 e))]%string) (Z.to_nat n)) /\
  (exists s, run_once E f s0 = (s, Ok tt) /\ run_shortest_path E f L t0 = Ok [shown 3 s; [TNum (sp_p s)]] /\
    (3 <= L -> exists q, sp_p s = FDiv (FZ q) (FZ (L * L)) /\ L <= q <= L * L /\ occ_count s = q /\ on_full_line L s) /\ (L <= 2 -> sp_p s = FZ 0)).
Proof. exact p_C91. Qed.
Print Assumptions C91_shortest_path_programs.

Example ex_C92 : 0 < 5 /\ test_neighbors 5 = Ok tt /\ match mTest_neighbors 5 with Ok a => length a = 5%nat | _ => False end.
Proof. vm_compute. auto. Qed.
Theorem C92_lattice_programs : forall L, 0 < L -> exists lat v0 v1 v2, new_lattice L = Ok lat /\ edited L lat /\
  lat_view lat 0 = Ok v0 /\ lat_view lat 1 = Ok v1 /\ lat_view lat 2 = Ok v2 /\
  mTest_neighbors L = Ok [[TStr v0]; [TStr v1]; [TStr v2]; [TStr (list_all_sites lat)]; [TStr (list_all_bonds lat)]] /\
  test_index L = Ok [[TStr "index "; TStr "(0, 1, 2)"; TStr " id "; TNum (FZ (L + 2))]; [TStr (list_all_bonds lat)];
                     [TStr "index "; TStr "(3, 2)"; TStr " id "; TNum (FZ (3 * L + 2))]; [TStr (list_all_sites lat)]]%string /\
  (2 <= L -> test_neighbors L = Ok tt).
Proof. exact p_C92. Qed.
Print Assumptions C92_lattice_programs.

Example ex_C92_drivers : let W i := mkMachine demo_env (Z.to_nat i) stamp in (forall i, env_ok (m_env (W i))) /\ 500 < Z.of_nat 501 /\
  match run_simulation_threads_v3 W 60 3 5 2 with Ok [Ok [d1; c1]; Ok [d2; c2]] => o_ensemble d1 = 2 /\ o_ensemble d2 = 2 | _ => False end.
Proof. cbv zeta. split; [intros i; apply demo_env_ok|]. vm_compute. auto. Qed.
Theorem C92_drivers : (forall W f L En th, run_simulation_threads_v3 W f L En th = run_simulation_threads_v4 W f L En th 0) /\
  (forall E E' f t0 t0' time d, e_ord E = e_ord E' -> run_simulations E f t0 time d = run_simulations E' f t0' time d) /\
  (forall W f, (forall i, env_ok (m_env (W i))) -> 500 < Z.of_nat f ->
     exists a b, main_script W f = Ok [a; b] /\
     forall i r, (i = 0 /\ r = a) \/ (i = 1 /\ r = b) -> exists s0 d c, new_perc (m_env (W i)) KL1 10 (m_tick (W i)) = Ok s0 /\ r = Ok [d; c] /\
       o_length d = 10 /\ o_ensemble d = 50 /\ o_ensemble c = 50 /\
       averages (m_env (W i)) f s0 10 50 (o_rows d) /\ critical_rows (m_env (W i)) f s0 50 (o_rows c)).
Proof. exact p_C92_drivers. Qed.
Print Assumptions C92_drivers.
