(** * The curves a user plots: C82.

    [curve] (CurveSpec.v): the shape of the recorded columns; [realization E f s0 e]:
    the object after its e-th reset and run; [entry l i]: entry [i] of a recorded list.
    All values are exact ([feval]); C80 and C81 tell how doubles differ from them. *)
From Coq Require Import ZArith List Reals.
From Verif Require Import Py Lattice Cluster Perc Run Spec History Real EnsSpec CurveSpec Demo EnsWitness Curves.
Import ListNotations.
Open Scope R_scope.

Example ex_C82 : env_ok demo_env /\ fresh_plain demo_env KL1 3 (demo0 KL1 3) /\ (5 * (3 * 3) < Z.of_nat 46)%Z /\
  get_pc (fst (run_once demo_env 46 (demo0 KL1 3))) = Ok (FDiv (FZ 3) (FZ 9)) /\
  map (fun w => match w with FDiv (FZ n) _ => n | _ => 0%Z end) (pw_arr (fst (run_once demo_env 46 (demo0 KL1 3)))) = [0; 0; 9; 12; 14; 15; 17; 18; 18]%Z.
Proof. split; [apply demo_env_ok|]. split; [apply demo0_fresh|]. vm_compute. auto. Qed.
Theorem C82_run_curve : forall E k L s f, env_ok E -> k <> KSP -> fresh_plain E k L s -> (5 * (L * L) < Z.of_nat f)%Z ->
  exists s', run_once E f s = (s', Ok tt) /\
    let h i := feval (entry (h_arr s') i) in
    let l i := feval (entry (pl_arr s') i) in
    let w i := feval (entry (pw_arr s') i) in
    curve L h l w /\
    ((3 <= L)%Z -> exists m, get_pc s' = Ok (FDiv (FZ m) (FZ (L * L))) /\ (L <= m <= L * L - L + 1)%Z /\
       forall i, (i < Z.to_nat (L * L))%nat -> (0 < w i <-> (m <= Z.of_nat (S i))%Z)).
Proof. exact p_C82. Qed.
Print Assumptions C82_run_curve.

Example ex_C82a : new_perc demo_env KL2 3 0 = Ok (demo0 KL2 3) /\ (5 * (3 * 3) < Z.of_nat 60)%Z /\
  run_ensemble_entropy_order demo_env 60 0 stamp (AClass KL2) 3 2 = Ok (demo_files KL2) /\
  option_map (fun d => length (o_rows d)) (nth_error (demo_files KL2) 0) = Some 9%nat.
Proof. split; [apply demo0_ok|]. split; [vm_compute; reflexivity|]. split; [now apply demo_files_ok|]. vm_compute. reflexivity. Qed.
Theorem C82_average_curve : forall E k L t0 s0 f n time files d, env_ok E -> k <> KSP -> new_perc E k L t0 = Ok s0 -> (5 * (L * L) < Z.of_nat f)%Z -> (1 <= n)%Z ->
  run_ensemble_entropy_order E f t0 time (AClass k) L n = Ok files \/
  (exists i, run_ensemble_entropy_order_threads E f t0 time (AClass k) L n i = Ok files) \/
  (exists i, run_ensemble_entropy_order_threads_v2 E f t0 time (AClass k) L n i None = Ok files) ->
  nth_error files 0 = Some d ->
  let col c i := feval (nth c (nth i (o_rows d) []) (FZ 0)) in
  (forall i, (i < Z.to_nat (L * L))%nat -> col 0%nat i = INR (S i) / IZR (L * L)) /\ curve L (col 1%nat) (col 2%nat) (col 3%nat) /\
  ((3 <= L)%Z -> forall i, (i < Z.to_nat (L * L))%nat ->
     (0 < col 3%nat i <-> exists e q, (1 <= e <= Z.to_nat n)%nat /\ get_pc (realization E f s0 e) = Ok q /\ feval q <= col 0%nat i)).
Proof. exact p_C82a. Qed.
Print Assumptions C82_average_curve.
