(** * How many realizations are enough: C126.

    [bad_luck r n eps]: Chebyshev's bound r^2/(4 n eps^2); [curve_range], [curve_error]: the range of
    a column and its floating-point error (SampleSpec.v).  [rarely P Q share]: at most this share of
    the P are Q; [average], [choice_lists], [drawn], [writes], [cell]: AverageSpec.v.  [read_table]:
    the numbers in a text; [one_line]: SavetxtSpec.v; [file_text]: the text written (Savetxt.v).
    [read_close]: FloatMeanSpec.v.  [first_number], [writes_critical]: CritSpec.v.  [site_set]:
    CanonSpec.v.  [curve_value]: MeanSpec.v.  [how_many]: ChanceSpec.v. *)
From Coq Require Import String ZArith List Bool Lia Lra Reals.
From Flocq Require Import Core.
From Verif Require Import Py Lattice Cluster Perc Spec History Demo SymSpec ChanceSpec Chance CanonSpec Real IidSpec Run EnsSpec UtilSpec EnsWitness AverageSpec MeanSpec CritSpec View ViewSpec Float FloatProps FloatEnt FloatMeanSpec FloatMean Savetxt SavetxtSpec SampleSpec Sample.
Import ListNotations.
Open Scope R_scope.

Example ex_C126_curves : bad_luck 1 1000000 (1 / 100) = 1 / 400 /\ log_accurate (fun x => rnd (ln x)) /\ (exists c F, choice_lists 9 3 c /\ drawn demo_env 0 9 c /\ writes demo_env 60 0 KL0 3 2 F).
Proof.
  split; [unfold bad_luck; lra|]. split; [exact rounded_log_accurate|]. eexists. exists (nth 0 (demo_files KL0) (mkOut "" 0 0 [] [] [])). split; [apply demo_choices|]. split; [apply demo_choices|].
  exists (demo_files KL0). split; [vm_compute; reflexivity|]. left. exists stamp. now apply demo_files_ok.
Qed.
Theorem C126_curves : forall ord d0 k L f j i, env_ok (mkEnv ord d0) -> k = KBase \/ k = KL0 -> (0 < L)%Z -> (5 * (L * L) < Z.of_nat f)%Z ->
  (1 <= j <= 2)%nat -> let N := Z.to_nat (L * L) in (i < N)%nat ->
  exists x mu, (forall S, site_set L (Datatypes.S i) S -> curve_value j L S (x S)) /\ average (site_set L (Datatypes.S i)) x mu /\
    forall t0 n eps, (1 <= n)%Z -> 0 < eps -> let m := Datatypes.S (Z.to_nat n) in
      exists bad, rarely (choice_lists N m) bad (bad_luck (curve_range j L) n eps) /\
        forall d c F, choice_lists N m c -> drawn (mkEnv ord d) t0 N c -> writes (mkEnv ord d) f t0 k L n F -> ~ bad c ->
          Rabs (cell F i j - mu) < eps /\
          forall lg date clock, (L <= 2 ^ 20)%Z -> (n <= 2 ^ 50)%Z -> log_accurate lg -> one_line date -> one_line clock ->
            exists table y, read_table (file_text lg date clock F) = map (map Some) table /\ nth_error (nth i table []) j = Some y /\
              read_close y mu (eps + curve_error j L n i).
Proof. exact p_C126_curves. Qed.
Print Assumptions C126_curves.

Example ex_C126_threshold : bad_luck 1 10000 (1 / 20) = 1 / 100 /\ (exists c F, choice_lists 9 3 c /\ drawn demo_env 0 9 c /\ writes_critical demo_env 60 0 KL0 3 2 F).
Proof.
  split; [unfold bad_luck; lra|]. eexists. exists (nth 1 (demo_files KL0) (mkOut "" 0 0 [] [] [])). split; [apply demo_choices|]. split; [apply demo_choices|].
  left. split; [discriminate|]. exists (demo_files KL0). split; [vm_compute; reflexivity|]. left. exists stamp. now apply demo_files_ok.
Qed.
Theorem C126_threshold : forall ord d0 k L f, env_ok (mkEnv ord d0) -> k <> KL1 -> k <> KL2 -> (3 <= L)%Z -> (5 * (L * L) < Z.of_nat f)%Z ->
  let N := Z.to_nat (L * L) in
  exists (w c : nat -> Z) mu,
    (forall m, (m < N)%nat -> (0 < c m)%Z /\ how_many (site_set L m) (c m) /\ how_many (fun S => site_set L m S /\ wraps L (among S)) (w m)) /\
    mu = sum_of (map (fun m => 1 - IZR (w m) / IZR (c m)) (seq 0 N)) / INR N /\
    forall t0 n eps, (1 <= n)%Z -> 0 < eps -> let q := S (Z.to_nat n) in
      exists bad, rarely (choice_lists N q) bad (bad_luck 1 n eps) /\
        forall d c F, choice_lists N q c -> drawn (mkEnv ord d) t0 N c -> writes_critical (mkEnv ord d) f t0 k L n F -> ~ bad c ->
          forall lg date clock, (L * L <= 9 * 10 ^ 9)%Z -> one_line date -> one_line clock ->
            exists table ms, read_table (file_text lg date clock F) = map (map Some) table /\ length table = Z.to_nat n /\
              Forall2 (fun r m => Rabs (first_number r * IZR (L * L) - IZR m) < / 2) table ms /\
              Rabs (mean_of (map (fun m => IZR m / IZR (L * L)) ms) - mu) < eps.
Proof. exact p_C126_threshold. Qed.
Print Assumptions C126_threshold.

Example ex_C126_wrapping : bad_luck 1 10000 (1 / 20) = 1 / 100 /\ (exists c F, choice_lists 9 3 c /\ drawn demo_env 0 9 c /\ writes_critical demo_env 60 0 KBase 3 2 F).
Proof.
  split; [unfold bad_luck; lra|]. eexists. exists (nth 1 (demo_files KBase) (mkOut "" 0 0 [] [] [])). split; [apply demo_choices|]. split; [apply demo_choices|].
  left. split; [discriminate|]. exists (demo_files KBase). split; [vm_compute; reflexivity|]. left. exists stamp. now apply demo_files_ok.
Qed.
Theorem C126_wrapping : forall ord d0 k L f m, env_ok (mkEnv ord d0) -> k <> KL1 -> k <> KL2 -> (3 <= L)%Z -> (5 * (L * L) < Z.of_nat f)%Z ->
  let N := Z.to_nat (L * L) in (m <= N)%nat ->
  exists w c, (0 < c)%Z /\ how_many (site_set L m) c /\ how_many (fun S => site_set L m S /\ wraps L (among S)) w /\
    forall t0 n eps, (1 <= n)%Z -> 0 < eps -> let q := S (Z.to_nat n) in
      exists bad, rarely (choice_lists N q) bad (bad_luck 1 n eps) /\
        forall d x F, choice_lists N q x -> drawn (mkEnv ord d) t0 N x -> writes_critical (mkEnv ord d) f t0 k L n F -> ~ bad x ->
          forall lg date clock, (L * L <= 9 * 10 ^ 9)%Z -> one_line date -> one_line clock ->
            exists table ms, read_table (file_text lg date clock F) = map (map Some) table /\ length table = Z.to_nat n /\
              Forall2 (fun r m => Rabs (first_number r * IZR (L * L) - IZR m) < / 2) table ms /\
              Rabs (mean_of (map (fun h => if Z.leb h (Z.of_nat m) then 1 else 0) ms) - IZR w / IZR c) < eps.
Proof. exact p_C126_wrapping. Qed.
Print Assumptions C126_wrapping.
