(** * Averages over realizations estimate the average over all streams: C115.

    [series E s cs n]: the object after each of n realizations, made by the calls cs, with a
    reset between two of them; [mean_of]: the arithmetic mean; [average P f m]: P holds of finitely
    many values, at least one, and the mean of f over them is m; [rarely P Q x]: of the values
    satisfying P at most the share x satisfies Q.  [random_choices N]: the index lists one
    shuffle can draw; [choice_lists N n]: those n shuffles can draw; [drawn E t N c]: the shuffles
    from position t of the stream on draw c.  [words M W], [goes_on d t w], [fair], [at_start]:
    lists of random words, and the stream going on with them (RulesLawSpec.v).  [writes E f t0 k
    L n F]: an ensemble program run for n realizations writes the file F; [cell F i j]: its entry
    in row i, column j; [column j i s]: what one realization contributes there (AverageSpec.v).
    [same_realization], [same_growth]: IidSpec.v, RulesLawSpec.v. *)
From Coq Require Import ZArith List Bool Lia Permutation Reals.
From Verif Require Import Py Lattice Cluster Perc Spec History Demo ChanceSpec IidSpec RulesLawSpec Real Run EnsSpec Ens AverageSpec AverageProps RulesJoint EnsWitness.
Import ListNotations.
Open Scope Z_scope.

Example ex_C115_series : let X s := IZR (largest_sz s) in let cs := [CPlace; CPlace] in
  env_ok demo_env /\ reachable_no_custom demo_env KSP 3 demo_d /\ Forall realizing cs /\ starts cs /\ (forall s s', same_realization s s' -> X s = X s') /\
  (exists d s, new_perc (mkEnv (e_ord demo_env) d) KSP 3 0 = Ok s /\ largest_sz (after (mkEnv (e_ord demo_env) d) s cs) = 7) /\ (exists d s, new_perc (mkEnv (e_ord demo_env) d) KSP 3 0 = Ok s /\ largest_sz (after (mkEnv (e_ord demo_env) d) s cs) = 4).
Proof.
  cbv zeta. split; [exact demo_env_ok|]. split; [exact demo_d_reachable|]. split; [repeat constructor|]. split; [exact I|]. split; [intros s s' Q; unfold same_realization in Q; f_equal; tauto|]. split; [exists (fun n => 8 - Z.of_nat n); eexists; split; [vm_compute; reflexivity|]; vm_compute; reflexivity|exists (fun n => if Nat.eqb n 4 then 1 else 8 - Z.of_nat n); eexists; split; [vm_compute; reflexivity|]; vm_compute; reflexivity].
Qed.
Theorem C115_series : forall ord d0 k L cs X, env_ok (mkEnv ord d0) -> k <> KL1 -> k <> KL2 -> 0 < L ->
  Forall realizing cs -> starts cs -> (forall s s', same_realization s s' -> X s = X s') -> let N := Z.to_nat (L * L) in
  exists one mu v,
    (forall d t s, new_perc (mkEnv ord d) k L t = Ok s -> X (after (mkEnv ord d) s cs) = one (choices (mkEnv ord d) t N)) /\
    average (random_choices N) one mu /\ average (random_choices N) (fun c => (one c - mu) ^ 2)%R v /\
    forall E0 s0 n, env_ok E0 -> reachable_no_custom E0 k L s0 -> (1 <= n)%nat -> exists all,
      (forall d c, choice_lists N n c -> drawn (mkEnv ord d) (tick s0) N c ->
         mean_of (map X (series (mkEnv ord d) (exec (mkEnv ord d) s0 CReset) cs n)) = all c) /\
      average (choice_lists N n) all mu /\ average (choice_lists N n) (fun c => (all c - mu) ^ 2)%R (v / INR n).
Proof. exact p_C115_series. Qed.
Print Assumptions C115_series.

Example ex_C115_files :  env_ok demo_env /\ 5 * (3 * 3) < Z.of_nat 60 /\ exists F, writes demo_env 60 0 KL0 3 2 F /\ length (o_rows F) = 9%nat.
Proof.
  split; [exact demo_env_ok|]. split; [vm_compute; reflexivity|]. destruct (demo_files KL0) as [|F l] eqn:D; [vm_compute in D; discriminate|]. exists F. split; [|apply (f_equal (fun l => match l with F :: _ => length (o_rows F) | [] => O end)) in D; rewrite <- D; vm_compute; reflexivity].
  exists (F :: l). split; [reflexivity|]. left. exists stamp. rewrite <- D. vm_compute. reflexivity.
Qed.
Theorem C115_files : forall ord d0 k L f j i, env_ok (mkEnv ord d0) -> k <> KL1 -> k <> KL2 -> k <> KSP -> 0 < L -> 5 * (L * L) < Z.of_nat f ->
  (1 <= j <= 3)%nat -> let N := Z.to_nat (L * L) in (i < N)%nat ->
  exists one mu v,
    (forall d t s, new_perc (mkEnv ord d) k L t = Ok s -> column j i (after (mkEnv ord d) s [CRun f]) = one (choices (mkEnv ord d) t N)) /\
    average (random_choices N) one mu /\ average (random_choices N) (fun c => (one c - mu) ^ 2)%R v /\
    forall t0 n, 1 <= n -> let m := S (Z.to_nat n) in exists all,
      (forall d c F, choice_lists N m c -> drawn (mkEnv ord d) t0 N c -> writes (mkEnv ord d) f t0 k L n F -> cell F i j = all c) /\
      average (choice_lists N m) all mu /\ average (choice_lists N m) (fun c => (all c - mu) ^ 2)%R (v / IZR n).
Proof. exact p_C115_files. Qed.
Print Assumptions C115_files.

Example ex_C115_rules : let X s := IZR (largest_sz s) in let cs := [CPlace; CPlace] in
  env_ok demo_env /\ fair 2520 (3 * 3) /\ at_start (e_ord demo_env) KL1 3 (demo0 KL1 3) /\ Permutation (zrange (3 * 3)) (ids (demo0 KL1 3)) /\ Forall realizing cs /\ starts cs /\ (forall s s', same_growth s s' -> X s = X s') /\
  (exists d s, new_perc (mkEnv (e_ord demo_env) d) KL1 3 0 = Ok s /\ largest_sz (after (mkEnv (e_ord demo_env) d) s cs) = 7) /\ (exists d s, new_perc (mkEnv (e_ord demo_env) d) KL1 3 0 = Ok s /\ largest_sz (after (mkEnv (e_ord demo_env) d) s cs) = 4).
Proof.
  cbv zeta. split; [exact demo_env_ok|]. assert (F : fair 2520 (3 * 3)).
  { split; [lia|]. split; [now exists 630|]. intros m Hm. assert (m = 1 \/ m = 2 \/ m = 3 \/ m = 4 \/ m = 5 \/ m = 6 \/ m = 7 \/ m = 8 \/ m = 9) as Q by lia.
    exists (2520 / m). repeat destruct Q as [-> | Q]; [reflexivity..|]. now subst m. }
  split; [exact F|]. split; [apply (start_new _ _ _ (e_draw demo_env) 0); vm_compute; reflexivity|]. split; [apply NoDup_Permutation; [vm_compute; repeat constructor; cbn; intuition discriminate..|]; intros x; vm_compute; tauto|]. split; [repeat constructor|]. split; [exact I|]. split; [intros s s' Q; unfold same_growth in Q; f_equal; tauto|]. split; [exists (fun _ => 0); eexists; split; [vm_compute; reflexivity|]; vm_compute; reflexivity|exists (fun n => 8 - Z.of_nat n); eexists; split; [vm_compute; reflexivity|]; vm_compute; reflexivity].
Qed.
Theorem C115_rules : forall ord d0 k L Mx cs X, env_ok (mkEnv ord d0) -> k = KL1 \/ k = KL2 -> 0 < L -> fair Mx (L * L) ->
  Forall realizing cs -> starts cs -> (forall s s', same_growth s s' -> X s = X s') -> let W := (2 * all_tries cs)%nat in let N := Z.to_nat (L * L) in
  exists mu v, forall s, at_start ord k L s -> Permutation (zrange (L * L)) (ids s) ->
    (exists one, (forall d w, words Mx W w -> goes_on d (tick s) w -> X (after (mkEnv ord d) s cs) = one w) /\
      average (words Mx W) one mu /\ average (words Mx W) (fun w => (one w - mu) ^ 2)%R v) /\
    forall n, (1 <= n)%nat -> let Wn := (n * (W + (N - 1)))%nat in exists all,
      (forall d w, words Mx Wn w -> goes_on d (tick s) w -> mean_of (map X (series (mkEnv ord d) s cs n)) = all w) /\
      average (words Mx Wn) all mu /\ average (words Mx Wn) (fun w => (all w - mu) ^ 2)%R (v / INR n).
Proof. exact p_C115_rules. Qed.
Print Assumptions C115_rules.

Example ex_C115_rules_files : fair 2520 (3 * 3) /\ env_ok demo_env /\ 5 * (3 * 3) < Z.of_nat 60 /\ exists F, writes demo_env 60 0 KL1 3 2 F /\ length (o_rows F) = 9%nat.
Proof.
  assert (F : fair 2520 (3 * 3)).
  { split; [lia|]. split; [now exists 630|]. intros m Hm. assert (m = 1 \/ m = 2 \/ m = 3 \/ m = 4 \/ m = 5 \/ m = 6 \/ m = 7 \/ m = 8 \/ m = 9) as Q by lia.
    exists (2520 / m). repeat destruct Q as [-> | Q]; [reflexivity..|]. now subst m. }
  split; [exact F|]. clear F. split; [exact demo_env_ok|]. split; [vm_compute; reflexivity|]. destruct (demo_files KL1) as [|F l] eqn:D; [vm_compute in D; discriminate|]. exists F. split; [|apply (f_equal (fun l => match l with F :: _ => length (o_rows F) | [] => O end)) in D; rewrite <- D; vm_compute; reflexivity].
  exists (F :: l). split; [reflexivity|]. left. exists stamp. rewrite <- D. vm_compute. reflexivity.
Qed.
Theorem C115_rules_files : forall ord d0 k L Mx f j i, env_ok (mkEnv ord d0) -> k = KL1 \/ k = KL2 -> 0 < L -> fair Mx (L * L) -> 5 * (L * L) < Z.of_nat f ->
  (1 <= j <= 3)%nat -> let N := Z.to_nat (L * L) in (i < N)%nat -> exists mu v,
    (forall t, let W := ((N - 1) + 2 * f)%nat in exists one,
      (forall d w s, words Mx W w -> goes_on d t w -> new_perc (mkEnv ord d) k L t = Ok s -> column j i (after (mkEnv ord d) s [CRun f]) = one w) /\
      average (words Mx W) one mu /\ average (words Mx W) (fun w => (one w - mu) ^ 2)%R v) /\
    forall t0 n, 1 <= n -> let W := (2 * (N - 1) + Z.to_nat n * (2 * f + (N - 1)))%nat in exists all,
      (forall d w F, words Mx W w -> goes_on d t0 w -> writes (mkEnv ord d) f t0 k L n F -> cell F i j = all w) /\
      average (words Mx W) all mu /\ average (words Mx W) (fun w => (all w - mu) ^ 2)%R (v / IZR n).
Proof. exact p_C115_rules_files. Qed.
Print Assumptions C115_rules_files.

Example ex_C115_streams : choice_lists 4 2 [[3; 0; 1]; [0; 2; 0]] /\ words 12 3 [11; 0; 5].
Proof.
  split; [split; [reflexivity|]|split; [reflexivity|repeat constructor; lia]].
  apply Forall_cons; [|apply Forall_cons; [|apply Forall_nil]]; (split; [reflexivity|]); intros m Hm; assert (m = 0 \/ m = 1 \/ m = 2)%nat as [-> | [-> | ->]] by lia; cbn; lia.
Qed.
Theorem C115_streams : forall ord t N n Mx, (1 <= N)%nat -> 0 < Mx ->
  (forall c, choice_lists N n c -> exists d, drawn (mkEnv ord d) t N c) /\
  (forall E, exists c, choice_lists N n c /\ drawn E t N c) /\
  (forall w, words Mx n w -> exists d, (forall m, 0 <= d m < Mx) /\ goes_on d t w) /\
  (forall d, (forall m, 0 <= d m < Mx) -> exists w, words Mx n w /\ goes_on d t w).
Proof. exact p_C115_streams. Qed.
Print Assumptions C115_streams.

Example ex_C115_deviations : average (words 2 1) (fun w => IZR (nth 0 w 0%Z)) (1 / 2) /\ average (words 2 1) (fun w => (IZR (nth 0 w 0%Z) - 1 / 2) ^ 2)%R (1 / 4).
Proof.
  assert (W : forall w, In w [[0]; [1]] <-> words 2 1 w).
  { intros w. split; [intros [<-|[<-|[]]]; (split; [reflexivity|repeat constructor; lia])|]. intros (H1 & H2). destruct w as [|x [|]]; try discriminate. apply Forall_cons_iff in H2 as (H2 & _). cbn. assert (x = 0 \/ x = 1) as [-> | ->] by lia; auto. }
  split; (exists [[0]; [1]]; split; [repeat constructor; cbn; intuition discriminate|]; split; [exact W|]; split; [discriminate|]; unfold mean_of, sum_of; cbn; field).
Qed.
Theorem C115_deviations : forall (A : Type) (P : A -> Prop) f mu v eps, average P f mu -> average P (fun c => (f c - mu) ^ 2)%R v -> (0 < eps)%R ->
  rarely P (fun c => eps <= Rabs (f c - mu))%R (v / eps ^ 2).
Proof. exact p_C115_deviations. Qed.
Print Assumptions C115_deviations.

Example ex_C115_converge : let X s := IZR (largest_sz s) in let cs := [CPlace; CPlace] in
  env_ok demo_env /\ reachable_no_custom demo_env KSP 3 demo_d /\ Forall realizing cs /\ starts cs /\ (forall s s', same_realization s s' -> X s = X s') /\
  (exists d s, new_perc (mkEnv (e_ord demo_env) d) KSP 3 0 = Ok s /\ largest_sz (after (mkEnv (e_ord demo_env) d) s cs) = 7) /\ (exists d s, new_perc (mkEnv (e_ord demo_env) d) KSP 3 0 = Ok s /\ largest_sz (after (mkEnv (e_ord demo_env) d) s cs) = 4).
Proof. exact ex_C115_series. Qed.
Theorem C115_converge : forall ord d0 k L cs X, env_ok (mkEnv ord d0) -> k <> KL1 -> k <> KL2 -> 0 < L ->
  Forall realizing cs -> starts cs -> (forall s s', same_realization s s' -> X s = X s') -> let N := Z.to_nat (L * L) in
  exists one mu,
    (forall d t s, new_perc (mkEnv ord d) k L t = Ok s -> X (after (mkEnv ord d) s cs) = one (choices (mkEnv ord d) t N)) /\
    average (random_choices N) one mu /\
    forall eps share, (0 < eps)%R -> (0 < share)%R -> exists n0, forall E0 s0 n, env_ok E0 -> reachable_no_custom E0 k L s0 -> (n0 <= n)%nat -> exists all,
      (forall d c, choice_lists N n c -> drawn (mkEnv ord d) (tick s0) N c ->
         mean_of (map X (series (mkEnv ord d) (exec (mkEnv ord d) s0 CReset) cs n)) = all c) /\
      rarely (choice_lists N n) (fun c => eps <= Rabs (all c - mu))%R share.
Proof. exact p_C115_converge. Qed.
Print Assumptions C115_converge.

Example ex_C115_files_converge :  env_ok demo_env /\ 5 * (3 * 3) < Z.of_nat 60 /\ exists F, writes demo_env 60 0 KL0 3 2 F /\ length (o_rows F) = 9%nat.
Proof. exact ex_C115_files. Qed.
Theorem C115_files_converge : forall ord d0 k L f j i, env_ok (mkEnv ord d0) -> k <> KL1 -> k <> KL2 -> k <> KSP -> 0 < L -> 5 * (L * L) < Z.of_nat f ->
  (1 <= j <= 3)%nat -> let N := Z.to_nat (L * L) in (i < N)%nat ->
  exists one mu,
    (forall d t s, new_perc (mkEnv ord d) k L t = Ok s -> column j i (after (mkEnv ord d) s [CRun f]) = one (choices (mkEnv ord d) t N)) /\
    average (random_choices N) one mu /\
    forall eps share, (0 < eps)%R -> (0 < share)%R -> exists n0, forall t0 n, n0 <= n -> let m := S (Z.to_nat n) in exists all,
      (forall d c F, choice_lists N m c -> drawn (mkEnv ord d) t0 N c -> writes (mkEnv ord d) f t0 k L n F -> cell F i j = all c) /\
      rarely (choice_lists N m) (fun c => eps <= Rabs (all c - mu))%R share.
Proof. exact p_C115_files_converge. Qed.
Print Assumptions C115_files_converge.

Example ex_C115_rules_converge : let X s := IZR (largest_sz s) in let cs := [CPlace; CPlace] in
  env_ok demo_env /\ fair 2520 (3 * 3) /\ at_start (e_ord demo_env) KL1 3 (demo0 KL1 3) /\ Permutation (zrange (3 * 3)) (ids (demo0 KL1 3)) /\ Forall realizing cs /\ starts cs /\ (forall s s', same_growth s s' -> X s = X s') /\
  (exists d s, new_perc (mkEnv (e_ord demo_env) d) KL1 3 0 = Ok s /\ largest_sz (after (mkEnv (e_ord demo_env) d) s cs) = 7) /\ (exists d s, new_perc (mkEnv (e_ord demo_env) d) KL1 3 0 = Ok s /\ largest_sz (after (mkEnv (e_ord demo_env) d) s cs) = 4).
Proof. exact ex_C115_rules. Qed.
Theorem C115_rules_converge : forall ord d0 k L Mx cs X, env_ok (mkEnv ord d0) -> k = KL1 \/ k = KL2 -> 0 < L -> fair Mx (L * L) ->
  Forall realizing cs -> starts cs -> (forall s s', same_growth s s' -> X s = X s') -> let W := (2 * all_tries cs)%nat in let N := Z.to_nat (L * L) in
  exists mu,
    (forall s, at_start ord k L s -> Permutation (zrange (L * L)) (ids s) -> exists one,
      (forall d w, words Mx W w -> goes_on d (tick s) w -> X (after (mkEnv ord d) s cs) = one w) /\ average (words Mx W) one mu) /\
    forall eps share, (0 < eps)%R -> (0 < share)%R -> exists n0, forall s n, at_start ord k L s -> Permutation (zrange (L * L)) (ids s) -> (n0 <= n)%nat ->
      let Wn := (n * (W + (N - 1)))%nat in exists all,
      (forall d w, words Mx Wn w -> goes_on d (tick s) w -> mean_of (map X (series (mkEnv ord d) s cs n)) = all w) /\
      rarely (words Mx Wn) (fun w => eps <= Rabs (all w - mu))%R share.
Proof. exact p_C115_rules_converge. Qed.
Print Assumptions C115_rules_converge.

Example ex_C115_rules_files_converge : fair 2520 (3 * 3) /\ env_ok demo_env /\ 5 * (3 * 3) < Z.of_nat 60 /\ exists F, writes demo_env 60 0 KL1 3 2 F /\ length (o_rows F) = 9%nat.
Proof. exact ex_C115_rules_files. Qed.
Theorem C115_rules_files_converge : forall ord d0 k L Mx f j i, env_ok (mkEnv ord d0) -> k = KL1 \/ k = KL2 -> 0 < L -> fair Mx (L * L) -> 5 * (L * L) < Z.of_nat f ->
  (1 <= j <= 3)%nat -> let N := Z.to_nat (L * L) in (i < N)%nat -> exists mu,
    (forall t, let W := ((N - 1) + 2 * f)%nat in exists one,
      (forall d w s, words Mx W w -> goes_on d t w -> new_perc (mkEnv ord d) k L t = Ok s -> column j i (after (mkEnv ord d) s [CRun f]) = one w) /\
      average (words Mx W) one mu) /\
    forall eps share, (0 < eps)%R -> (0 < share)%R -> exists n0, forall t0 n, n0 <= n -> let W := (2 * (N - 1) + Z.to_nat n * (2 * f + (N - 1)))%nat in exists all,
      (forall d w F, words Mx W w -> goes_on d t0 w -> writes (mkEnv ord d) f t0 k L n F -> cell F i j = all w) /\
      rarely (words Mx W) (fun w => eps <= Rabs (all w - mu))%R share.
Proof. exact p_C115_rules_files_converge. Qed.
Print Assumptions C115_rules_files_converge.
