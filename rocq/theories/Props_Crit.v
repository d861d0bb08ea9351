(** * What the file of critical values estimates: C123.

    [writes_critical]: a program that keeps critical values writes this file; [row_mean phi F]: the
    mean of phi over the rows of F; [first_number]: the threshold in a row; [at_most x]: 1 if it is
    at most x, else 0; [critical_numbers s]: the numbers a realization is described by (CritSpec.v).
    [site_set L m S]: S lists m sites in increasing order (CanonSpec.v).  [average], [choice_lists],
    [drawn], [rarely]: AverageSpec.v.  [random_choices], [choices], [how_many]: ChanceSpec.v. *)
From Coq Require Import String ZArith List Bool Lia Sorted Reals.
From Verif Require Import Py Lattice Cluster Perc Spec History Demo SymSpec Symmetry ChanceSpec CanonSpec Canon Thin Real IidSpec Run EnsSpec UtilSpec EnsWitness AverageSpec MeanSpec Mean CritSpec Crit.
Import ListNotations.
Open Scope Z_scope.

Example ex_C123_rows : exists F, writes_critical demo_env 60 0 KSP 3 2 F /\ o_rows F = [[FDiv (FZ 4) (FZ 9); FDiv (FZ 4) (FZ 9)]; [FDiv (FZ 3) (FZ 9); FDiv (FZ 3) (FZ 9)]].
Proof.
  exists (match ensemble_shortest_path_v2_thread demo_env 60 0 stamp (AClass KSP) 3 2 0 None with Ok [d] => d | _ => mkOut "" 0 0 [] [] [] end).
  split; [|vm_compute; reflexivity]. right. split; [reflexivity|]. exists stamp, 0. vm_compute. reflexivity.
Qed.
Theorem C123_rows : forall ord d0 k L f phi, env_ok (mkEnv ord d0) -> k <> KL1 -> k <> KL2 -> 0 < L -> 5 * (L * L) < Z.of_nat f ->
  let N := Z.to_nat (L * L) in
  exists one mu v,
    (forall d t s, new_perc (mkEnv ord d) k L t = Ok s -> phi (critical_numbers (after (mkEnv ord d) s [CRun f])) = one (choices (mkEnv ord d) t N)) /\
    average (random_choices N) one mu /\ average (random_choices N) (fun c => (one c - mu) ^ 2)%R v /\
    forall t0 n, 1 <= n -> let m := S (Z.to_nat n) in exists all,
      (forall d c F, choice_lists N m c -> drawn (mkEnv ord d) t0 N c -> writes_critical (mkEnv ord d) f t0 k L n F -> row_mean phi F = all c) /\
      average (choice_lists N m) all mu /\ average (choice_lists N m) (fun c => (all c - mu) ^ 2)%R (v / IZR n).
Proof. exact p_C123_rows. Qed.
Print Assumptions C123_rows.

Example ex_C123_threshold : exists F, writes_critical demo_env 60 0 KL0 3 2 F /\ map (fun r => nth 0 r (FZ 0)) (o_rows F) = [FDiv (FZ 4) (FZ 9); FDiv (FZ 3) (FZ 9)].
Proof.
  exists (nth 1 (demo_files KL0) (mkOut "" 0 0 [] [] [])). split; [|vm_compute; reflexivity].
  left. split; [discriminate|]. exists (demo_files KL0). split; [vm_compute; reflexivity|]. left. exists stamp. now apply demo_files_ok.
Qed.
Theorem C123_threshold : forall ord d0 k L f, env_ok (mkEnv ord d0) -> k <> KL1 -> k <> KL2 -> 3 <= L -> 5 * (L * L) < Z.of_nat f ->
  let N := Z.to_nat (L * L) in
  exists (w c : nat -> Z) mu v,
    (forall m, (m < N)%nat -> 0 < c m /\ how_many (site_set L m) (c m) /\ how_many (fun S => site_set L m S /\ wraps L (among S)) (w m)) /\
    mu = (sum_of (map (fun m => 1 - IZR (w m) / IZR (c m)) (seq 0 N)) / INR N)%R /\
    (forall t0 n, 1 <= n -> let m := S (Z.to_nat n) in exists all,
      (forall d c F, choice_lists N m c -> drawn (mkEnv ord d) t0 N c -> writes_critical (mkEnv ord d) f t0 k L n F -> row_mean first_number F = all c) /\
      average (choice_lists N m) all mu /\ average (choice_lists N m) (fun c => (all c - mu) ^ 2)%R (v / IZR n)) /\
    (forall eps share, (0 < eps)%R -> (0 < share)%R -> exists n0, forall t0 n, n0 <= n -> let m := S (Z.to_nat n) in exists all,
      (forall d c F, choice_lists N m c -> drawn (mkEnv ord d) t0 N c -> writes_critical (mkEnv ord d) f t0 k L n F -> row_mean first_number F = all c) /\
      rarely (choice_lists N m) (fun c => eps <= Rabs (all c - mu))%R share).
Proof. exact p_C123_threshold. Qed.
Print Assumptions C123_threshold.

Example ex_C123_wrapping : site_set 3 3 [1; 4; 7] /\ wraps 3 (among [1; 4; 7]) /\ site_set 3 3 [0; 1; 3] /\ ~ wraps 3 (among [0; 1; 3]).
Proof.
  split; [split; [repeat constructor|]; split; [repeat constructor; unfold is_site; lia|reflexivity]|].
  split; [exact (line_wraps 3 4 ltac:(lia) ltac:(lia))|].
  assert (S : site_set 3 3 [0; 1; 3]) by (split; [repeat constructor|]; split; [repeat constructor; unfold is_site; lia|reflexivity]).
  split; [exact S|]. intros W. apply thin_wraps in W; [|lia|apply S|reflexivity].
  destruct W as [(r & Hr & W)|(c & Hc & W)]; specialize (W 2); [assert (r = 0 \/ r = 1 \/ r = 2) as [-> |[-> | ->]] by lia|assert (c = 0 \/ c = 1 \/ c = 2) as [-> |[-> | ->]] by lia]; vm_compute in W; intuition discriminate.
Qed.
Theorem C123_wrapping : forall ord d0 k L f m, env_ok (mkEnv ord d0) -> k <> KL1 -> k <> KL2 -> 3 <= L -> 5 * (L * L) < Z.of_nat f ->
  let N := Z.to_nat (L * L) in (m <= N)%nat -> let phi := at_most (INR m / IZR (L * L)) in
  exists w c, 0 < c /\ how_many (site_set L m) c /\ how_many (fun S => site_set L m S /\ wraps L (among S)) w /\ let mu := (IZR w / IZR c)%R in
    (forall t0 n, 1 <= n -> let q := S (Z.to_nat n) in exists all,
      (forall d c F, choice_lists N q c -> drawn (mkEnv ord d) t0 N c -> writes_critical (mkEnv ord d) f t0 k L n F -> row_mean phi F = all c) /\
      average (choice_lists N q) all mu /\ average (choice_lists N q) (fun c => (all c - mu) ^ 2)%R (mu * (1 - mu) / IZR n)) /\
    (forall eps share, (0 < eps)%R -> (0 < share)%R -> exists n0, forall t0 n, n0 <= n -> let q := S (Z.to_nat n) in exists all,
      (forall d c F, choice_lists N q c -> drawn (mkEnv ord d) t0 N c -> writes_critical (mkEnv ord d) f t0 k L n F -> row_mean phi F = all c) /\
      rarely (choice_lists N q) (fun c => eps <= Rabs (all c - mu))%R share).
Proof. exact p_C123_wrapping. Qed.
Print Assumptions C123_wrapping.
