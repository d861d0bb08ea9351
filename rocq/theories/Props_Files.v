(** * Recorded realizations: C65.

    [single_realization] runs an object and collects what its file records;
    [replay_file] feeds the recorded site indices to a new L0 object and returns
    what the cross-check compares with the file (Run.v). *)
From Coq Require Import ZArith List Bool Lia Reals.
From Verif Require Import Py Lattice Cluster Perc Run Spec History Demo Real Files FilesWitness.
Import ListNotations.
Open Scope Z_scope.

Example ex_C65 : single_realization (spread 2) 130 0 KL1 4 = Ok (demo_check 2 KL1 4) /\ env_ok (spread 2) /\
  x_indices (demo_check 2 KL1 4) = [(1, 1); (1, 0); (3, 1); (0, 0); (2, 0); (2, 2); (1, 2); (1, 3); (0, 2); (3, 2); (0, 3); (2, 1); (2, 3); (3, 3); (3, 0); (0, 1)] /\
  x_sites (demo_check 2 KL1 4) = 7.
Proof. split; [vm_compute; reflexivity|]. split; [apply spread_ok|]. vm_compute. auto. Qed.
Theorem C65_files_replay : forall E1 E2 k L f g t1 t2 x, env_ok E1 -> env_ok E2 -> k = KBase \/ k = KL0 \/ k = KL1 ->
  single_realization E1 f t1 k L = Ok x -> L * L < Z.of_nat g ->
  exists h, replay_file E2 g t2 x = Ok (x_pc x, x_sites x, x_bonds x, h, x_largest x, x_wrapping x) /\
    map feval h = map feval (x_entropy x) /\
    ((forall l, e_ord E1 l = e_ord E2 l) -> h = x_entropy x).
Proof. exact p_C65. Qed.
Print Assumptions C65_files_replay.

Example ex_C65_exist : env_ok (spread 1) /\ KL2 <> KSP /\ 5 * (3 * 3) < Z.of_nat 46.
Proof. split; [apply spread_ok|]. split; [discriminate|lia]. Qed.
Theorem C65_files_exist : forall E k L f t0, env_ok E -> k <> KSP -> 0 < L -> 5 * (L * L) < Z.of_nat f ->
  exists x, single_realization E f t0 k L = Ok x /\ x_length x = L /\
    length (x_largest x) = Z.to_nat (L * L) /\ length (x_wrapping x) = Z.to_nat (L * L) /\ length (x_entropy x) = Z.to_nat (L * L).
Proof. exact p_C65_total. Qed.
Print Assumptions C65_files_exist.

Theorem C65_L2_files_refuted : exists E L f x, env_ok E /\ single_realization E f 0 KL2 L = Ok x /\ ~ NoDup (x_indices x) /\
  replay_file E (S (Z.to_nat (L * L))) 0 x = Err AssertionError.
Proof. exact p_C65_refuted. Qed.
Print Assumptions C65_L2_files_refuted.
