(** * The ensemble drivers: C56, C57 and the set-order part of C64.

    [realization E f s0 e] is the object after its [e]-th cycle of reset and run,
    [averages] and [critical_rows] say what the two data files must contain
    (EnsSpec.v); [feval] gives the real number a float expression denotes in exact
    arithmetic. *)
From Coq Require Import String ZArith List Bool Lia Reals.
From Verif Require Import Py Lattice Cluster Perc Spec History Real Demo Run EnsSpec UtilSpec Ens Seeded EnsWitness.
Import ListNotations.
Open Scope Z_scope.

Example ex_C56 : new_perc demo_env KL1 3 0 = Ok (demo0 KL1 3) /\ 5 * (3 * 3) < Z.of_nat 60 /\
  map (fun d => length (o_rows d)) (demo_files KL1) = [9%nat; 2%nat] /\
  map o_name (demo_files KL1) = ["./data/SitePercolationL1__entropy_order_L3_20261116_173332.txt";
    "./data/SitePercolationL1__critical_values_L3_20261116_173332.txt"]%string.
Proof. split; [apply demo0_ok|]. split; [vm_compute; reflexivity|]. split; vm_compute; reflexivity. Qed.
Theorem C56_ensembles : forall E k L t0 s0 f n time, env_ok E -> k <> KSP -> new_perc E k L t0 = Ok s0 -> 5 * (L * L) < Z.of_nat f -> 1 <= n ->
  let m := Z.to_nat n in
  realized E f s0 m /\
  (exists d c, run_ensemble_entropy_order E f t0 time (AClass k) L n = Ok [d; c] /\
     o_length d = L /\ o_ensemble d = n /\ o_length c = L /\ o_ensemble c = n /\
     averages E f s0 L m (o_rows d) /\ critical_rows E f s0 m (o_rows c)) /\
  (forall i, exists d, run_ensemble_entropy_order_threads E f t0 time (AClass k) L n i = Ok [d] /\
     o_length d = L /\ o_ensemble d = n /\ averages E f s0 L m (o_rows d)) /\
  (forall i, exists d c, run_ensemble_entropy_order_threads_v2 E f t0 time (AClass k) L n i None = Ok [d; c] /\
     o_length d = L /\ o_ensemble d = n /\ o_length c = L /\ o_ensemble c = n /\
     averages E f s0 L m (o_rows d) /\ critical_rows E f s0 m (o_rows c)).
Proof. exact p_C56. Qed.
Print Assumptions C56_ensembles.

Example ex_C56_empty : run_ensemble_entropy_order demo_env 60 0 stamp (AClass KL0) 3 0 = Err TypeError.
Proof. vm_compute. repeat split; reflexivity. Qed.
Theorem C56_empty_ensemble : forall E k L t0 f n time i seed, 0 < L -> n <= 0 ->
  run_ensemble_entropy_order E f t0 time (AClass k) L n = Err TypeError /\
  run_ensemble_entropy_order_threads E f t0 time (AClass k) L n i = Err TypeError /\
  run_ensemble_entropy_order_threads_v2 E f t0 time (AClass k) L n i seed = Err TypeError.
Proof. exact p_C56_empty. Qed.
Print Assumptions C56_empty_ensemble.

Example ex_C56_pool : length (demo_pool 1) = 2%nat /\ (5 - 5 mod 2) / 2 = 2 /\
  match nth 1 (demo_pool 1) (Err TypeError) with Ok [d; c] => length (o_rows d) = 9%nat /\ length (o_rows c) = 2%nat | _ => False end.
Proof. vm_compute. repeat split. Qed.
Theorem C56_worker_pools : forall W f L En th x, (forall i, env_ok (m_env (W i))) -> 0 < L -> 5 * (L * L) < Z.of_nat f ->
  let k := if x =? 1 then KL1 else if x =? 2 then KL2 else KL0 in
  (th = 0 -> run_simulation_threads_v4 W f L En th x = Err ZeroDivisionError) /\
  (th < 0 -> run_simulation_threads_v4 W f L En th x = Ok []) /\
  (0 < th -> exists results, run_simulation_threads_v4 W f L En th x = Ok results /\ length results = Z.to_nat th /\
     forall i, 0 <= i < th -> exists s0, new_perc (m_env (W i)) k L (m_tick (W i)) = Ok s0 /\
       if En <? th then nth_error results (Z.to_nat i) = Some (Err TypeError)
       else exists d c, nth_error results (Z.to_nat i) = Some (Ok [d; c]) /\ o_ensemble d = (En - En mod th) / th /\
         averages (m_env (W i)) f s0 L (Z.to_nat ((En - En mod th) / th)) (o_rows d) /\
         critical_rows (m_env (W i)) f s0 (Z.to_nat ((En - En mod th) / th)) (o_rows c)).
Proof. exact p_C56_pool. Qed.
Print Assumptions C56_worker_pools.

Theorem C56_wrong_arguments : forall W f, run_simulation_threads W f = [Err TypeError; Err TypeError; Err TypeError] /\
  run_simulation_threads_v2 W f = [Err TypeError; Err TypeError].
Proof. exact p_C56_wrong_arguments. Qed.
Print Assumptions C56_wrong_arguments.

Example ex_C57 : match demo_files KL2 with d :: _ => nth 8 (o_rows d) [] <> [] | [] => False end /\ new_perc demo_env KL2 3 0 = Ok (demo0 KL2 3).
Proof. split; [vm_compute; discriminate|apply demo0_ok]. Qed.
Theorem C57_columns : forall E k L t0 s0 f n time, env_ok E -> k <> KSP -> new_perc E k L t0 = Ok s0 -> 5 * (L * L) < Z.of_nat f -> 1 <= n ->
  let third rows i := nth 2 (nth i rows []) (FZ 0) in
  let fourth rows i := nth 3 (nth i rows []) (FZ 0) in
  let largest i := mean (Z.to_nat n) (fun e => feval (entry (pl_arr (realization E f s0 e)) i)) in
  let wrapping i := mean (Z.to_nat n) (fun e => feval (entry (pw_arr (realization E f s0 e)) i)) in
  let holds rows := forall i, (i < Z.to_nat (L * L))%nat -> feval (third rows i) = largest i /\ feval (fourth rows i) = wrapping i in
  (forall files d, run_ensemble_entropy_order E f t0 time (AClass k) L n = Ok files \/
                   (exists i, run_ensemble_entropy_order_threads_v2 E f t0 time (AClass k) L n i None = Ok files) ->
     nth_error files 0 = Some d ->
     o_columns d = ["p"; "H"; "P1"; "P2"]%string /\
     nth 2 (o_desc d) ""%string = "P1=order parameter by wrapping cluster"%string /\
     nth 3 (o_desc d) ""%string = "P2=order parameter by largest cluster"%string /\ holds (o_rows d)) /\
  (forall files d i, run_ensemble_entropy_order_threads E f t0 time (AClass k) L n i = Ok files -> nth_error files 0 = Some d ->
     o_columns d = ["p"; "H"; "P1"; "P2"]%string /\
     nth 2 (o_desc d) ""%string = "P2=order parameter by wrapping cluster"%string /\
     nth 3 (o_desc d) ""%string = "P1=order parameter by largest cluster"%string /\ holds (o_rows d)).
Proof. exact p_C57. Qed.
Print Assumptions C57_columns.

Theorem C57_labels_refuted : exists E k L s0 f n time d c i, env_ok E /\ new_perc E k L 0 = Ok s0 /\
  run_ensemble_entropy_order E f 0 time (AClass k) L n = Ok [d; c] /\ (i < length (o_rows d))%nat /\
  nth 2 (o_columns d) ""%string = "P1"%string /\ nth 2 (o_desc d) ""%string = "P1=order parameter by wrapping cluster"%string /\
  feval (nth 2 (nth i (o_rows d) []) (FZ 0)) <>
    mean (Z.to_nat n) (fun e => feval (entry (pw_arr (realization E f s0 e)) i)).
Proof. exact p_C57_refuted. Qed.
Print Assumptions C57_labels_refuted.

Example ex_C64_orders : env_ok demo_env /\ KL2 <> KSP /\ 5 * (3 * 3) < Z.of_nat 60.
Proof. split; [exact demo_env_ok|]. split; [discriminate|vm_compute; reflexivity]. Qed.
Theorem C64_set_orders : forall E1 E2 f t1 t2 time k L n i d, env_ok E1 -> env_ok E2 -> k <> KSP -> 0 < L -> 5 * (L * L) < Z.of_nat f -> 1 <= n ->
  exists d1 c1 d2 c2,
    run_ensemble_entropy_order_threads_v2 E1 f t1 time (AClass k) L n i (Some d) = Ok [d1; c1] /\
    run_ensemble_entropy_order_threads_v2 E2 f t2 time (AClass k) L n i (Some d) = Ok [d2; c2] /\
    o_name d1 = o_name d2 /\ o_name c1 = o_name c2 /\
    map (map feval) (o_rows d1) = map (map feval) (o_rows d2) /\ o_rows c1 = o_rows c2.
Proof. exact p_C64_orders. Qed.
Print Assumptions C64_set_orders.
