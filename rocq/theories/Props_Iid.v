(** * Realizations of one object are independent and equally distributed: C111.

    [realizing c]: c places, detects, runs or test-runs; [starts cs]: the first of the calls
    places a site.  [how_many P m]: exactly m values satisfy P.  [realized_with ord n t made Q c]:
    Q holds of the object made when the shuffle at position t of the random stream draws the
    indices c; [made_new], [made_by_reset s]: by the constructor, by [reset] of s.
    [about_realization R]: R only looks at what [same_realization] lists.  [plan]: calls and
    questions of several realizations of one object with a reset between two of them;
    [jointly_with ord k L t p c]: every question of the plan has the answer yes when the j-th
    shuffle draws nth j c (IidSpec.v, ChanceSpec.v). *)
From Coq Require Import ZArith List Bool Lia Permutation Factorial.
From Verif Require Import Py Lattice Cluster Perc Spec History Demo ChanceSpec IidSpec Iid.
Import ListNotations.
Open Scope Z_scope.

Example ex_C111_next : let cs := [CRun 12; CDetect] in let R s := get_site_id_sequence s = zrange 9 in
  env_ok demo_env /\ reachable_no_custom demo_env KSP 3 demo_d /\ Forall realizing cs /\ starts cs /\ about_realization R /\
  how_many (realized_with (e_ord demo_env) (Z.to_nat (3 * 3)) 0 (made_new KSP 3 0) (fun E z => R (after E z cs))) 1.
Proof.
  cbv zeta. split; [exact demo_env_ok|]. split; [exact demo_d_reachable|]. split; [repeat constructor|]. split; [exact I|]. split; [apply about_seq|].
  apply seq_count; [discriminate|discriminate|lia|repeat constructor|exact I|apply Permutation_refl].
Qed.
Theorem C111_next : forall ord E0 k L s t cs R m, env_ok E0 -> k <> KL1 -> k <> KL2 -> reachable_no_custom E0 k L s ->
  Forall realizing cs -> starts cs -> about_realization R -> let n := Z.to_nat (L * L) in
  (how_many (realized_with ord n t (made_new k L t) (fun E z => R (after E z cs))) m <->
   how_many (realized_with ord n (tick s) (made_by_reset s) (fun E z => R (after E z cs))) m).
Proof. exact p_C111_next. Qed.
Print Assumptions C111_next.

Example ex_C111_joint : let p := [([CRun 12], fun s => get_site_id_sequence s = zrange 9); ([CPlace; CDetect; CPlace], fun _ => True)] in let ms := [1; Z.of_nat (fact (Z.to_nat (3 * 3)))] in
  env_ok demo_env /\ Forall (fun q => Forall realizing (fst q) /\ starts (fst q) /\ about_realization (snd q)) p /\
  Forall2 (fun q m => how_many (realized_with (e_ord demo_env) (Z.to_nat (3 * 3)) 0 (made_new KBase 3 0) (fun E z => snd q (after E z (fst q)))) m) p ms.
Proof.
  cbv zeta. split; [exact demo_env_ok|]. split.
  - constructor; [|constructor; [|constructor]]; cbn [fst snd]; (split; [repeat constructor|]); (split; [exact I|]); [apply about_seq|apply about_true].
  - constructor; [|constructor; [|constructor]]; cbn [fst snd]; [|apply (any_count _ _ _ _ []); lia].
    apply seq_count; [discriminate|discriminate|lia|repeat constructor|exact I|apply Permutation_refl].
Qed.
Theorem C111_joint : forall ord d0 k L t p ms, env_ok (mkEnv ord d0) -> k <> KL1 -> k <> KL2 -> 0 < L ->
  Forall (fun q => Forall realizing (fst q) /\ starts (fst q) /\ about_realization (snd q)) p ->
  Forall2 (fun q m => how_many (realized_with ord (Z.to_nat (L * L)) t (made_new k L t) (fun E z => snd q (after E z (fst q)))) m) p ms ->
  how_many (jointly_with ord k L t p) (fold_right Z.mul 1 ms).
Proof. exact p_C111_joint. Qed.
Print Assumptions C111_joint.

Example ex_C111_sequences : let css := [[CRun 12]; [CTestRun 3; CPlace]; [CPlace]] in let ls := [zrange (3 * 3); rev (zrange (3 * 3)); zrange (3 * 3)] in
  env_ok demo_env /\ Forall (fun cs => Forall realizing cs /\ starts cs) css /\ length ls = length css /\ Forall (Permutation (zrange (3 * 3))) ls.
Proof.
  cbv zeta. split; [exact demo_env_ok|]. split; [repeat constructor|]. split; [reflexivity|].
  constructor; [apply Permutation_refl|]. constructor; [apply Permutation_rev|]. constructor; [apply Permutation_refl|constructor].
Qed.
Theorem C111_sequences : forall ord d0 k L t css ls, env_ok (mkEnv ord d0) -> k <> KL1 -> k <> KL2 -> 0 < L ->
  Forall (fun cs => Forall realizing cs /\ starts cs) css -> length ls = length css -> Forall (Permutation (zrange (L * L))) ls ->
  how_many (jointly_with ord k L t (combine css (map (fun l s => get_site_id_sequence s = l) ls))) 1.
Proof. exact p_C111_sequences. Qed.
Print Assumptions C111_sequences.
