(** * EnsWitness: concrete ensembles. *)
From Coq Require Import String ZArith List Bool Lia Reals Lra.
From Verif Require Import Py Lattice Cluster Perc Spec History Real PyFacts Demo Run EnsSpec UtilSpec Ens.
Import ListNotations.
Open Scope Z_scope.

Definition stamp : string := "20261116_173332"%string.
(** Two realizations of a 3x3 L0 object. *)
Definition demo_files (k : pkind) : list out_file :=
  match run_ensemble_entropy_order demo_env 60 0 stamp (AClass k) 3 2 with Ok l => l | Err _ => [] end.
Lemma demo_files_ok k : k <> KSP -> run_ensemble_entropy_order demo_env 60 0 stamp (AClass k) 3 2 = Ok (demo_files k).
Proof. destruct k; intros H; try congruence; vm_compute; reflexivity. Qed.
Definition demo_pool (x : Z) : list (res (list out_file)) :=
  match run_simulation_threads_v4 (fun i => mkMachine demo_env (Z.to_nat i) stamp) 60 3 5 2 x with Ok l => l | Err _ => [] end.

Lemma p_C57_refuted : exists E k L s0 f n time d c i, env_ok E /\ new_perc E k L 0 = Ok s0 /\
  run_ensemble_entropy_order E f 0 time (AClass k) L n = Ok [d; c] /\ (i < length (o_rows d))%nat /\
  nth 2 (o_columns d) ""%string = "P1"%string /\ nth 2 (o_desc d) ""%string = "P1=order parameter by wrapping cluster"%string /\
  feval (nth 2 (nth i (o_rows d) []) (FZ 0)) <>
    mean (Z.to_nat n) (fun e => feval (entry (pw_arr (realization E f s0 e)) i)).
Proof.
  exists demo_env, KL0, 3, (demo0 KL0 3), 60%nat, 2, stamp.
  exists (nth 0 (demo_files KL0) (mkOut "" 0 0 [] [] [])), (nth 1 (demo_files KL0) (mkOut "" 0 0 [] [] [])), 0%nat.
  split; [exact demo_env_ok|]. split; [apply demo0_ok|]. split; [rewrite (demo_files_ok KL0) by discriminate; vm_compute; reflexivity|].
  split; [vm_compute; lia|]. split; [vm_compute; reflexivity|]. split; [vm_compute; reflexivity|].
  replace (nth 2 (nth 0 (o_rows (nth 0 (demo_files KL0) (mkOut "" 0 0 [] [] []))) []) (FZ 0))
    with (FDiv (FAdd (FDiv (FZ 4) (FZ 18)) (FDiv (FZ 4) (FZ 18))) (FZ 2)) by (vm_compute; reflexivity).
  unfold mean, total. change (seq 1 (Z.to_nat 2)) with [1%nat; 2%nat]. cbn [map fold_right].
  replace (entry (pw_arr (realization demo_env 60 (demo0 KL0 3) 1)) 0) with (FZ 0) by (vm_compute; reflexivity).
  replace (entry (pw_arr (realization demo_env 60 (demo0 KL0 3) 2)) 0) with (FZ 0) by (vm_compute; reflexivity).
  change (INR (Z.to_nat 2)) with (1 + 1)%R. cbn [feval]. lra.
Qed.
