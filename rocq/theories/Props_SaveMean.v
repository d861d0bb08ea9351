(** * The numbers in the files of curves: C125.

    [writes E f t0 k L n F]: one of the ensemble programs writes F (AverageSpec.v).  [fl lg e]: the
    binary64 value of e when lg is the library's logarithm, of which [log_accurate] is assumed (Float.v).
    [mean], [realization], [entry]: EnsSpec.v.  [ratio_bound], [entropy_bound], [read_close]: the bounds
    (FloatMeanSpec.v).  [file_text]: the text of the file (Savetxt.v); [read_table], [gives], [one_line]:
    SavetxtSpec.v. *)
From Coq Require Import String ZArith List Bool Lia Lra Reals.
From Flocq Require Import Core.
From Verif Require Import Py Lattice Cluster Perc Spec History Demo Run EnsSpec UtilSpec EnsWitness Real AverageSpec View ViewSpec Float FloatProps FloatEnt FloatMeanSpec FloatMean Savetxt SavetxtSpec SavetxtProps SavetxtMean.
Import ListNotations.
Open Scope R_scope.

Example ex_C125_accuracy : exists F, writes demo_env 60 0 KL0 3 2 F /\ length (o_rows F) = 9%nat /\ log_accurate (fun x => rnd (ln x)).
Proof.
  exists (nth 0 (demo_files KL0) (mkOut "" 0 0 [] [] [])). split; [|split; [vm_compute; reflexivity|exact rounded_log_accurate]].
  exists (demo_files KL0). split; [vm_compute; reflexivity|]. left. exists stamp. now apply demo_files_ok.
Qed.
Theorem C125_accuracy : forall E k L t0 s0 f n F lg, env_ok E -> k <> KSP -> new_perc E k L t0 = Ok s0 -> (5 * (L * L) < Z.of_nat f)%Z -> (1 <= n <= 2 ^ 50)%Z ->
  (L <= 2 ^ 20)%Z -> log_accurate lg -> writes E f t0 k L n F ->
  length (o_rows F) = Z.to_nat (L * L) /\
  forall i, (i < Z.to_nat (L * L))%nat -> exists p h l w, nth_error (o_rows F) i = Some [p; h; l; w] /\
    Rabs (fl lg p - INR (S i) / IZR (L * L)) <= ratio_bound n /\
    Rabs (fl lg h - mean (Z.to_nat n) (fun e => feval (entry (h_arr (realization E f s0 e)) i))) <= entropy_bound L n i /\
    Rabs (fl lg l - mean (Z.to_nat n) (fun e => feval (entry (pl_arr (realization E f s0 e)) i))) <= ratio_bound n /\
    Rabs (fl lg w - mean (Z.to_nat n) (fun e => feval (entry (pw_arr (realization E f s0 e)) i))) <= ratio_bound n.
Proof. exact p_C125_accuracy. Qed.
Print Assumptions C125_accuracy.

Example ex_C125_text : exists F, writes demo_env 60 0 KBase 3 2 F /\ (3 * 3 <= 9 * 10 ^ 9)%Z /\ (2 * (3 * 3) <= 10 ^ 14)%Z /\ one_line "2026.01.01" /\ log_accurate (fun x => rnd (ln x)).
Proof.
  exists (nth 0 (demo_files KBase) (mkOut "" 0 0 [] [] [])). split; [|split; [lia|split; [lia|split; [reflexivity|exact rounded_log_accurate]]]].
  exists (demo_files KBase). split; [vm_compute; reflexivity|]. left. exists stamp. now apply demo_files_ok.
Qed.
Theorem C125_text : forall E k L t0 s0 f n F lg date clock, env_ok E -> k <> KSP -> new_perc E k L t0 = Ok s0 -> (5 * (L * L) < Z.of_nat f)%Z -> (1 <= n <= 2 ^ 50)%Z ->
  (L <= 2 ^ 20)%Z -> log_accurate lg -> one_line date -> one_line clock -> writes E f t0 k L n F ->
  exists table, read_table (file_text lg date clock F) = map (map Some) table /\ length table = Z.to_nat (L * L) /\
  forall i, (i < Z.to_nat (L * L))%nat -> exists p h l w, nth_error table i = Some [p; h; l; w] /\
    ((L * L <= 9 * 10 ^ 9)%Z -> (n * (L * L) <= 10 ^ 14)%Z -> gives (L * L) p (INR (S i) / IZR (L * L))) /\
    read_close p (INR (S i) / IZR (L * L)) (ratio_bound n) /\
    read_close h (mean (Z.to_nat n) (fun e => feval (entry (h_arr (realization E f s0 e)) i))) (entropy_bound L n i) /\
    read_close l (mean (Z.to_nat n) (fun e => feval (entry (pl_arr (realization E f s0 e)) i))) (ratio_bound n) /\
    read_close w (mean (Z.to_nat n) (fun e => feval (entry (pw_arr (realization E f s0 e)) i))) (ratio_bound n).
Proof. exact p_C125_text. Qed.
Print Assumptions C125_text.
