(** * The shape of what the files estimate: C127.

    [site_set L m S]: S lists m sites in increasing order (CanonSpec.v).  [curve_value j L S v]: v is
    the entropy (j = 1) or the largest cluster's share of bonds (j = 2) of the set S (MeanSpec.v).
    [average], [choice_lists], [drawn], [writes], [cell]: AverageSpec.v.  [curve_range]: SampleSpec.v.
    [writes_critical], [row_mean], [first_number]: CritSpec.v.  [how_many]: ChanceSpec.v. *)
From Coq Require Import String ZArith List Bool Lia Lra Reals.
From Verif Require Import Py Lattice Cluster Perc Spec History Demo SymSpec Symmetry ChanceSpec Chance CanonSpec Canon Thin Real IidSpec Run EnsSpec UtilSpec EnsWitness AverageSpec MeanSpec CritSpec SampleSpec Sample Expected.
Import ListNotations.
Open Scope R_scope.

Example ex_C127_curves : exists c F, choice_lists 9 3 c /\ drawn demo_env 0 9 c /\ writes demo_env 60 0 KL0 3 2 F /\ cell F 0 2 < cell F 8 2.
Proof.
  eexists. exists (nth 0 (demo_files KL0) (mkOut "" 0 0 [] [] [])). split; [apply demo_choices|]. split; [apply demo_choices|].
  split; [exists (demo_files KL0); split; [vm_compute; reflexivity|]; left; exists stamp; now apply demo_files_ok|].
  unfold cell. match goal with |- feval ?a < feval ?b => let a' := eval vm_compute in a in let b' := eval vm_compute in b in change (feval a' < feval b') end. cbn [feval]. lra.
Qed.
Theorem C127_curves : forall ord d0 k L f j i i', env_ok (mkEnv ord d0) -> k = KBase \/ k = KL0 -> (0 < L)%Z -> (5 * (L * L) < Z.of_nat f)%Z ->
  (1 <= j <= 2)%nat -> let N := Z.to_nat (L * L) in (i <= i' < N)%nat ->
  exists x x' mu mu',
    (forall S, site_set L (Datatypes.S i) S -> curve_value j L S (x S)) /\ average (site_set L (Datatypes.S i)) x mu /\
    (forall S, site_set L (Datatypes.S i') S -> curve_value j L S (x' S)) /\ average (site_set L (Datatypes.S i')) x' mu' /\
    (forall t0 n, (1 <= n)%Z -> let m := Datatypes.S (Z.to_nat n) in exists all all',
      (forall d c F, choice_lists N m c -> drawn (mkEnv ord d) t0 N c -> writes (mkEnv ord d) f t0 k L n F -> cell F i j = all c /\ cell F i' j = all' c) /\
      average (choice_lists N m) all mu /\ average (choice_lists N m) all' mu') /\
    (j = 1%nat -> mu' <= mu) /\ (j = 2%nat -> mu <= mu') /\ 0 <= mu <= curve_range j L /\ 0 <= mu' <= curve_range j L /\
    (i' = (N - 1)%nat -> mu' = match j with 1%nat => 0 | _ => 1 end).
Proof. exact p_C127_curves. Qed.
Print Assumptions C127_curves.

Example ex_C127_threshold : (exists c F, choice_lists 9 3 c /\ drawn demo_env 0 9 c /\ writes_critical demo_env 60 0 KL0 3 2 F) /\ IZR 3 / IZR (3 * 3) < IZR (3 * 3 - 3 + 1) / IZR (3 * 3).
Proof.
  split; [|cbn; lra]. eexists. exists (nth 1 (demo_files KL0) (mkOut "" 0 0 [] [] [])). split; [apply demo_choices|]. split; [apply demo_choices|].
  left. split; [discriminate|]. exists (demo_files KL0). split; [vm_compute; reflexivity|]. left. exists stamp. now apply demo_files_ok.
Qed.
Theorem C127_threshold : forall ord d0 k L f, env_ok (mkEnv ord d0) -> k <> KL1 -> k <> KL2 -> (3 <= L)%Z -> (5 * (L * L) < Z.of_nat f)%Z ->
  let N := Z.to_nat (L * L) in
  exists (w c : nat -> Z) mu,
    (forall m, (m < N)%nat -> (0 < c m)%Z /\ how_many (site_set L m) (c m) /\ how_many (fun S => site_set L m S /\ wraps L (among S)) (w m)) /\
    (forall t0 n, (1 <= n)%Z -> let q := S (Z.to_nat n) in exists all,
      (forall d c F, choice_lists N q c -> drawn (mkEnv ord d) t0 N c -> writes_critical (mkEnv ord d) f t0 k L n F -> row_mean first_number F = all c) /\
      average (choice_lists N q) all mu) /\
    (forall m m', (m <= m' < N)%nat -> IZR (w m) / IZR (c m) <= IZR (w m') / IZR (c m')) /\
    (forall m, (Z.of_nat m < L)%Z -> w m = 0%Z) /\
    (forall m, (m < N)%nat -> (L * L - L + 1 <= Z.of_nat m)%Z -> w m = c m) /\
    IZR L / IZR (L * L) <= mu <= IZR (L * L - L + 1) / IZR (L * L).
Proof. exact p_C127_threshold. Qed.
Print Assumptions C127_threshold.
