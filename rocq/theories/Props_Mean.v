(** * What the files and the threshold estimate is an average over sets of sites: C122.

    [site_set L m S]: S lists m sites in increasing order (CanonSpec.v).  [curve_value j L S v]:
    v is the entropy (j = 1) or the share of the largest cluster (j = 2) when exactly the sites S
    are occupied; [threshold s]: the number [get_pc] returns (MeanSpec.v).  [average P f m]: finitely
    many values satisfy P and the average of f over them is m; [choice_lists], [drawn], [writes],
    [cell], [series], [rarely]: AverageSpec.v.  [random_choices], [choices], [how_many]: ChanceSpec.v. *)
From Coq Require Import ZArith List Bool Lia Sorted Reals.
From Verif Require Import Py Lattice Cluster Perc Spec History Demo SymSpec Symmetry ChanceSpec CanonSpec Canon Thin Real IidSpec Run EnsSpec AverageSpec MeanSpec Mean.
Import ListNotations.
Open Scope Z_scope.

Example ex_C122_curves : new_perc demo_env KBase 3 0 = Ok (demo0 KBase 3) /\ site_set 3 2 [1; 2] /\ placed_order (events demo_env (demo0 KBase 3) (pairs 2)) = [1; 2] /\
  largest_cluster (after demo_env (demo0 KBase 3) (pairs 2)) = 7.
Proof.
  split; [apply demo0_ok|]. split; [|vm_compute; repeat split; reflexivity].
  split; [repeat constructor|]. split; [repeat constructor; unfold is_site; lia|reflexivity].
Qed.
Theorem C122_curves : forall ord d0 k L f j i, env_ok (mkEnv ord d0) -> k = KBase \/ k = KL0 -> 0 < L -> 5 * (L * L) < Z.of_nat f ->
  (1 <= j <= 2)%nat -> let N := Z.to_nat (L * L) in (i < N)%nat ->
  exists x mu, (forall S, site_set L (Datatypes.S i) S -> curve_value j L S (x S)) /\ average (site_set L (Datatypes.S i)) x mu /\
    (forall t0 n, 1 <= n -> let m := Datatypes.S (Z.to_nat n) in exists all,
      (forall d c F, choice_lists N m c -> drawn (mkEnv ord d) t0 N c -> writes (mkEnv ord d) f t0 k L n F -> cell F i j = all c) /\
      average (choice_lists N m) all mu) /\
    (forall eps share, (0 < eps)%R -> (0 < share)%R -> exists n0, forall t0 n, n0 <= n -> let m := Datatypes.S (Z.to_nat n) in exists all,
      (forall d c F, choice_lists N m c -> drawn (mkEnv ord d) t0 N c -> writes (mkEnv ord d) f t0 k L n F -> cell F i j = all c) /\
      rarely (choice_lists N m) (fun c => eps <= Rabs (all c - mu))%R share).
Proof. exact p_C122_curves. Qed.
Print Assumptions C122_curves.

Example ex_C122_threshold : new_perc demo_env KL0 3 0 = Ok (demo0 KL0 3) /\ get_pc (after demo_env (demo0 KL0 3) [CRun 50]) = Ok (FDiv (FZ 5) (FZ 9)) /\
  site_set 3 3 [1; 4; 7] /\ wraps 3 (among [1; 4; 7]).
Proof.
  split; [apply demo0_ok|]. split; [vm_compute; reflexivity|].
  split; [split; [repeat constructor|]; split; [repeat constructor; unfold is_site; lia|reflexivity]|].
  exact (line_wraps 3 4 ltac:(lia) ltac:(lia)).
Qed.
Theorem C122_threshold : forall ord d0 k L f, env_ok (mkEnv ord d0) -> k <> KL1 -> k <> KL2 -> 3 <= L -> 5 * (L * L) < Z.of_nat f ->
  let N := Z.to_nat (L * L) in
  exists (w c : nat -> Z) one mu,
    (forall m, (m < N)%nat -> 0 < c m /\ how_many (site_set L m) (c m) /\ how_many (fun S => site_set L m S /\ wraps L (among S)) (w m)) /\
    mu = (sum_of (map (fun m => 1 - IZR (w m) / IZR (c m)) (seq 0 N)) / INR N)%R /\
    (forall d t s, new_perc (mkEnv ord d) k L t = Ok s -> threshold (after (mkEnv ord d) s [CRun f]) = one (choices (mkEnv ord d) t N)) /\
    average (random_choices N) one mu /\
    forall eps share, (0 < eps)%R -> (0 < share)%R -> exists n0, forall E0 s0 n, env_ok E0 -> reachable_no_custom E0 k L s0 -> (n0 <= n)%nat -> exists all,
      (forall d c, choice_lists N n c -> drawn (mkEnv ord d) (tick s0) N c ->
         mean_of (map threshold (series (mkEnv ord d) (exec (mkEnv ord d) s0 CReset) [CRun f] n)) = all c) /\
      rarely (choice_lists N n) (fun c => eps <= Rabs (all c - mu))%R share.
Proof. exact p_C122_threshold. Qed.
Print Assumptions C122_threshold.
