(** * After m placements every set of m sites is equally likely: C121.

    [site_set L m S]: S lists m sites in increasing order; [largest_of L S v]: v is the number
    of bonds of a largest cluster when exactly the sites S are occupied (CanonSpec.v).
    [how_many P n]: exactly n values satisfy P; [share k L t Q a b]: Q holds for the share
    a / b of all random choices of the constructor (ChanceSpec.v).  [pairs m]: m placements,
    each followed by detection; [wraps], [among]: Spec.v and SymSpec.v. *)
From Coq Require Import ZArith List Bool Lia Factorial Sorted.
From Verif Require Import Py Lattice Cluster Perc Spec History Demo SymSpec Symmetry ChanceSpec CanonSpec Canon Thin.
Import ListNotations.
Open Scope Z_scope.

Example ex_C121_sets : site_set 3 2 [1; 2] /\ placed_order (events demo_env (demo0 KBase 3) (pairs 2)) = [1; 2].
Proof. split; [|vm_compute; repeat split; reflexivity]. split; [repeat constructor|]. split; [repeat constructor; unfold is_site; lia|reflexivity]. Qed.
Theorem C121_sets : forall k L t m, 0 < L -> k <> KL1 -> k <> KL2 -> let n := Z.to_nat (L * L) in (m <= n)%nat ->
  exists c, 0 < c /\ how_many (site_set L m) c /\ c * (Z.of_nat (fact m) * Z.of_nat (fact (n - m))) = Z.of_nat (fact n) /\
  forall S, site_set L m S ->
    share k L t (fun E s => forall i, is_site L i -> (occupied (after E s (pairs m)) i <-> In i S)) 1 c.
Proof. exact p_C121_sets. Qed.
Print Assumptions C121_sets.

Example ex_C121_law : site_set 3 4 [0; 1; 4; 8] /\ new_perc demo_env KSP 3 0 = Ok (demo0 KSP 3).
Proof. split; [|apply demo0_ok]. split; [repeat constructor|]. split; [repeat constructor; unfold is_site; lia|reflexivity]. Qed.
Theorem C121_law : forall k L t m Q R c w, 0 < L -> k <> KL1 -> k <> KL2 -> (m <= Z.to_nat (L * L))%nat ->
  (forall E s S, env_ok E -> new_perc E k L t = Ok s -> site_set L m S ->
     (forall i, is_site L i -> (occupied (after E s (pairs m)) i <-> In i S)) -> (Q E s <-> R S)) ->
  how_many (site_set L m) c -> how_many (fun S => site_set L m S /\ R S) w -> share k L t Q w c.
Proof. exact p_C121_law. Qed.
Print Assumptions C121_law.

Example ex_C121_joint : Forall (is_site 3) [1; 2] /\ placed_order (events demo_env (demo0 KL0 3) (pairs 2)) = [1; 2].
Proof. split; [constructor; [unfold is_site; lia|constructor; [unfold is_site; lia|constructor]]|vm_compute; reflexivity]. Qed.
Theorem C121_joint : forall k L t m, 0 < L -> k <> KL1 -> k <> KL2 -> let n := Z.to_nat (L * L) in (m <= n)%nat ->
  (forall T, NoDup T -> Forall (is_site L) T -> (length T <= m)%nat ->
     share k L t (fun E s => forall i, In i T -> occupied (after E s (pairs m)) i)
       (Z.of_nat (fact m) * Z.of_nat (fact (n - length T))) (Z.of_nat (fact n) * Z.of_nat (fact (m - length T)))) /\
  (forall x y, is_site L x -> is_site L y -> x <> y ->
     share k L t (fun E s => occupied (after E s (pairs m)) x /\ occupied (after E s (pairs m)) y)
       (Z.of_nat m * (Z.of_nat m - 1)) (L * L * (L * L - 1))).
Proof. exact p_C121_joint. Qed.
Print Assumptions C121_joint.

Example ex_C121_wrapping : site_set 3 3 [1; 4; 7] /\ wraps 3 (among [1; 4; 7]) /\ after_wrap (after demo_env (demo0 KBase 3) (pairs 4)) = false /\ after_wrap (after demo_env (demo0 KBase 3) (pairs 5)) = true.
Proof.
  split; [split; [repeat constructor|]; split; [repeat constructor; unfold is_site; lia|reflexivity]|].
  split; [exact (line_wraps 3 4 ltac:(lia) ltac:(lia))|]. vm_compute. repeat split; reflexivity.
Qed.
Theorem C121_wrapping : forall k L t m, 3 <= L -> k <> KL1 -> k <> KL2 -> (m <= Z.to_nat (L * L))%nat ->
  exists c w, 0 < c /\ how_many (site_set L m) c /\ how_many (fun S => site_set L m S /\ wraps L (among S)) w /\
  share k L t (fun E s => after_wrap (after E s (pairs m)) = true) w c.
Proof. exact p_C121_wrapping. Qed.
Print Assumptions C121_wrapping.

Example ex_C121_earliest : map (line 3) [0; 1; 2; 3; 4; 5] = [[0; 1; 2]; [3; 4; 5]; [6; 7; 8]; [0; 3; 6]; [1; 4; 7]; [2; 5; 8]].
Proof. vm_compute. repeat split; reflexivity. Qed.
Theorem C121_earliest : forall k L t, 3 <= L -> k <> KL1 -> k <> KL2 -> let n := Z.to_nat (L * L) in let l := Z.to_nat L in
  exists c, 0 < c /\ c * (Z.of_nat (fact l) * Z.of_nat (fact (n - l))) = Z.of_nat (fact n) /\
  share k L t (fun E s => after_wrap (after E s (pairs l)) = true) (2 * L) c.
Proof. exact p_C121_earliest. Qed.
Print Assumptions C121_earliest.

Example ex_C121_largest : site_set 3 2 [1; 2] /\ largest_cluster (after demo_env (demo0 KBase 3) (pairs 2)) = 7.
Proof. split; [|vm_compute; repeat split; reflexivity]. split; [repeat constructor|]. split; [repeat constructor; unfold is_site; lia|reflexivity]. Qed.
Theorem C121_largest : forall k L t m v, 0 < L -> k <> KL1 -> k <> KL2 -> (1 <= m <= Z.to_nat (L * L))%nat ->
  exists c w, 0 < c /\ how_many (site_set L m) c /\ how_many (fun S => site_set L m S /\ largest_of L S v) w /\
  share k L t (fun E s => largest_cluster (after E s (pairs m)) = v) w c.
Proof. exact p_C121_largest. Qed.
Print Assumptions C121_largest.
