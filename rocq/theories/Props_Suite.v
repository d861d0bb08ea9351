(** * Shortest-path ensembles, late detection, growing lists and the shipped tests: C83 to C87.

    [realization E f s0 e]: the object after its e-th reset and run (EnsSpec.v).
    [wraps L occ]: some closed walk through occupied sites winds around the torus (Spec.v).
    The tests of /repo/test_py are modelled in TestSuite.v; [Ok tt] means that the test passes. *)
From Coq Require Import String ZArith List Bool Lia Permutation.
From Verif Require Import Py Lattice Cluster Perc Run Script Spec History Demo EnsSpec EnsWitness TestSuite ShortEns Late Grow SuiteProps SuiteWitness.
Import ListNotations.
Open Scope Z_scope.

Example ex_C83 : new_perc demo_env KSP 3 0 = Ok (demo0 KSP 3) /\ 5 * (3 * 3) < Z.of_nat 60 /\
  match ensemble_shortest_path_v2_thread demo_env 60 0 stamp (AClass KSP) 3 2 0 None with
  | Ok [d] => o_rows d = [[FDiv (FZ 4) (FZ 9); FDiv (FZ 4) (FZ 9)]; [FDiv (FZ 3) (FZ 9); FDiv (FZ 3) (FZ 9)]]
  | _ => False
  end.
Proof. split; [apply demo0_ok|]. vm_compute. auto. Qed.
Theorem C83_shortest_path_ensemble : forall E L t0 s0 f n i time, env_ok E -> new_perc E KSP L t0 = Ok s0 -> 5 * (L * L) < Z.of_nat f ->
  exists d, ensemble_shortest_path_v2_thread E f t0 time (AClass KSP) L n i None = Ok [d] /\
    o_length d = L /\ o_ensemble d = n /\ o_columns d = ["pc"; "p*"]%string /\ length (o_rows d) = Z.to_nat n /\
    forall e, (1 <= e <= Z.to_nat n)%nat -> let s := realization E f s0 e in
      exists pc, get_pc s = Ok pc /\ nth_error (o_rows d) (e - 1) = Some [pc; sp_p s] /\
        (3 <= L -> exists m q, pc = FDiv (FZ m) (FZ (L * L)) /\ sp_p s = FDiv (FZ q) (FZ (L * L)) /\
           L <= m <= q /\ q <= L * L /\ m <= L * L - L + 1 /\ occ_count s = q /\ on_full_line L s) /\
        (L <= 2 -> pc = FZ 0 /\ sp_p s = FZ 0).
Proof. exact p_C83. Qed.
Print Assumptions C83_shortest_path_ensemble.

Example ex_C83_pool : let W i := mkMachine demo_env (Z.to_nat i) stamp in (forall i, env_ok (m_env (W i))) /\ 0 < 3 /\ 5 * (3 * 3) < Z.of_nat 60 /\
  match run_simulation_shortest_path_threads W 60 3 5 2 with Ok [Ok [d]; Ok [c]] => o_ensemble d = 2 /\ length (o_rows c) = 2%nat | _ => False end.
Proof. cbv zeta. split; [intros i; apply demo_env_ok|]. vm_compute. auto. Qed.
Theorem C83_worker_pools : forall W f L En th, (forall i, env_ok (m_env (W i))) -> 0 < L -> 5 * (L * L) < Z.of_nat f ->
  (th = 0 -> run_simulation_shortest_path_threads W f L En th = Err ZeroDivisionError) /\
  (th < 0 -> run_simulation_shortest_path_threads W f L En th = Ok []) /\
  (0 < th -> exists results, run_simulation_shortest_path_threads W f L En th = Ok results /\ length results = Z.to_nat th /\
     let each := (En - En mod th) / th in
     forall i, 0 <= i < th -> exists s0 d, new_perc (m_env (W i)) KSP L (m_tick (W i)) = Ok s0 /\
       nth_error results (Z.to_nat i) = Some (Ok [d]) /\ o_length d = L /\ o_ensemble d = each /\ length (o_rows d) = Z.to_nat each /\
       forall e, (1 <= e <= Z.to_nat each)%nat -> let s := realization (m_env (W i)) f s0 e in
         exists pc, get_pc s = Ok pc /\ nth_error (o_rows d) (e - 1) = Some [pc; sp_p s]).
Proof. exact p_C83_pool. Qed.
Print Assumptions C83_worker_pools.

Example ex_C84 : env_ok demo_env /\ 3 <= 3 /\ reachable demo_env 3 demo_skip /\ ~ wraps 3 (occupied demo_skip) /\
  place_one_site demo_env demo_skip = (demo_hit, Ok true) /\ flag_is_success demo_hit = true /\ snd (detect_wrapping demo_hit) = Ok true.
Proof.
  split; [apply demo_env_ok|]. split; [lia|]. split; [apply demo_skip_reachable|]. split; [apply demo_skip_no_wrap|].
  split; [apply demo_hit_ok|]. split; [apply demo_hit_ok|]. vm_compute. reflexivity.
Qed.
Theorem C84_late_detection : forall E L s s1, env_ok E -> 3 <= L -> reachable E L s -> ~ wraps L (occupied s) ->
  place_one_site E s = (s1, Ok true) -> flag_is_success s1 = true ->
  let s2 := fst (detect_wrapping s1) in
  exists b, snd (detect_wrapping s1) = Ok b /\ (b = true <-> wraps L (occupied s1)) /\
    after_wrap s2 = b /\ (b = true -> get_pc s2 = occupation_prob s1).
Proof. exact p_C84. Qed.
Print Assumptions C84_late_detection.

Example ex_C85 : env_ok demo_env /\ fresh_object demo_env KBase 3 (demo0 KBase 3) /\ NoDup ([4; 7; 1] ++ [0; 8]) /\ Forall (is_site 3) ([4; 7; 1] ++ [0; 8]) /\
  get_site_id_sequence (fst (set_custome_site_id_list demo_env [4; 7; 1] true (demo0 KBase 3))) = [7; 1; 4].
Proof.
  split; [apply demo_env_ok|]. split; [apply demo0_fresh_object|].
  split; [repeat (constructor; [cbn [In]; lia|]); constructor|]. split; [unfold is_site; repeat (constructor; [lia|]); constructor|].
  vm_compute. reflexivity.
Qed.
Theorem C85_growing_lists : forall E k L s l sh m cs1, env_ok E -> k <> KL1 -> k <> KL2 -> fresh_object E k L s -> l <> [] -> NoDup (l ++ m) -> Forall (is_site L) (l ++ m) ->
  Forall (fun c => c = CPlace \/ c = CDetect) cs1 ->
  let r := set_custome_site_id_list E l sh s in
  let s1 := fst r in
  let l' := get_site_id_sequence s1 in
  snd r = Ok tt /\ Permutation l l' /\ (sh = false -> l' = l) /\ user_list s1 = l' /\
  let t1 := after E s1 cs1 in
  let n1 := Nat.min (placements cs1) (length l) in
  (forall i, is_site L i -> (occupied t1 i <-> In i (firstn n1 l'))) /\
  let r2 := set_custome_site_id_list E (l' ++ m) false t1 in
  let s2 := fst r2 in
  snd r2 = Ok tt /\ (forall i, is_site L i -> (occupied s2 i <-> occupied t1 i)) /\
  forall cs2, Forall (fun c => c = CPlace \/ c = CDetect) cs2 ->
    let t := after E s2 cs2 in
    let n := (n1 + placements cs2)%nat in
    (forall i, is_site L i -> (occupied t i <-> In i (firstn n (l' ++ m)))) /\
    (forall x, nth_error (l' ++ m) n = Some x ->
       snd (place_one_site E t) = Ok true /\ sel_id (fst (place_one_site E t)) = Some x /\
       forall i, is_site L i -> (occupied (fst (place_one_site E t)) i <-> i = x \/ occupied t i)) /\
    ((length (l ++ m) <= n)%nat -> snd (place_one_site E t) = Ok false).
Proof. exact p_C85. Qed.
Print Assumptions C85_growing_lists.

Example ex_C86 : env_ok demo_env /\ 5 * (3 * 3) < Z.of_nat 50 /\ test_simulation_seed demo_env 50 KL2 3 0 = Ok tt /\
  test_simulation_parametrize demo_env 50 KL1 2 0 = Err AssertionError.
Proof. split; [apply demo_env_ok|]. vm_compute. auto. Qed.
Theorem C86_simulation_tests : forall E k L t0 f, env_ok E -> 0 < L -> k <> KSP -> 5 * (L * L) < Z.of_nat f ->
  let outcome := if 3 <=? L then Ok tt else Err AssertionError in
  test_simulation_seed E f k L t0 = outcome /\ test_simulation_reset E f k L t0 = outcome /\
  test_simulation_length E f k L t0 = outcome /\ test_simulation_parametrize E f k L t0 = outcome.
Proof. exact p_C86. Qed.
Print Assumptions C86_simulation_tests.

Example ex_C87 : env_ok demo_env /\ (13 <= 50)%nat /\ custome_lattice_config_1 demo_env 50 0 = Ok tt /\ test_custome_lattice demo_env 50 0 = Ok tt /\
  test_large_lattice demo_env 50 3 0 = Ok tt.
Proof. split; [apply demo_env_ok|]. split; [lia|]. vm_compute. auto. Qed.
Theorem C87_config_1 : forall E f t0, env_ok E -> (13 <= f)%nat -> custome_lattice_config_1 E f t0 = Ok tt.
Proof. exact p_C87_config1. Qed.
Print Assumptions C87_config_1.

Theorem C87_config_2 : forall E k f t0, env_ok E -> (217 <= f)%nat ->
  custome_lattice_config_2 E f k t0 = match k with KL1 | KL2 => Err ValueError | _ => Ok tt end.
Proof. exact p_C87_config2. Qed.
Print Assumptions C87_config_2.

Theorem C87_large_lattice : forall E L f t0, env_ok E -> 0 < L -> 5 * (L * L) < Z.of_nat f -> test_large_lattice E f L t0 = Ok tt.
Proof. exact p_C87_large. Qed.
Print Assumptions C87_large_lattice.

Theorem C87_custome_lattice : forall E f t0, env_ok E -> (9 <= f)%nat -> test_custome_lattice E f t0 = Ok tt.
Proof. exact p_C87_custom. Qed.
Print Assumptions C87_custome_lattice.
