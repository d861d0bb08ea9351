(** * Entropy in exact real arithmetic: C17-C19, C32.

    [feval] gives the real value of the expression the code evaluates and
    [shannon] is the entropy of the partition of the bonds (Real.v). *)
From Coq Require Import ZArith List Bool Lia Reals.
From Verif Require Import Py Lattice Cluster Perc Spec History Demo Real Entropy.
Import ListNotations.
Open Scope Z_scope.

Example ex_entropy : env_ok demo_env /\ reachable demo_env 3 demo_a /\
  filter (fun n => negb (n =? 0)%nat) (map (fun c => length (cluster_bonds demo_a c)) (zrange 18)) = [1; 1; 1; 1; 1; 1; 1; 10; 1]%nat.
Proof. split; [exact demo_env_ok|]. split; [exact demo_a_reachable|]. vm_compute. reflexivity. Qed.

Theorem C17_entropy_exact : forall E L s, env_ok E -> reachable E L s ->
  feval (entropy_v2 s) = shannon L s /\ exists v, entropy_v1 s = Ok v /\ feval v = shannon L s.
Proof. exact p_C17. Qed.
Print Assumptions C17_entropy_exact.

Example ex_C18 : fresh_object demo_env KBase 3 (fst (reset demo_env demo_a)).
Proof. exact demo_a_fresh. Qed.
Theorem C18_entropy_bounds : forall E L s, env_ok E -> reachable E L s ->
  (0 <= feval (entropy_v2 s) <= ln (IZR (2 * (L * L))))%R /\
  (forall k, fresh_object E k L s -> feval (entropy_v2 s) = ln (IZR (2 * (L * L)))) /\
  ((forall i, is_site L i -> occupied s i) -> feval (entropy_v2 s) = 0%R).
Proof. exact p_C18. Qed.
Print Assumptions C18_entropy_bounds.

Example ex_C19 : let s' := after demo_env demo_a [CPlace; CDetect] in
  bond_label s' 17 = bond_label s' 0 /\ bond_label demo_a 17 <> bond_label demo_a 0.
Proof. vm_compute. split; [reflexivity|discriminate]. Qed.
Theorem C19_entropy_decreases : forall E L s cs, env_ok E -> reachable E L s -> Forall (call_ok L) cs -> ~ In CReset cs ->
  let s' := after E s cs in
  (feval (entropy_v2 s') <= feval (entropy_v2 s))%R /\
  (feval (entropy_v2 s') = feval (entropy_v2 s) <->
   forall b b', is_bond L b -> is_bond L b' -> bond_label s' b = bond_label s' b' -> bond_label s b = bond_label s b').
Proof. exact p_C19. Qed.
Print Assumptions C19_entropy_decreases.

Example ex_C32 : fresh_plain demo_env KL1 3 (demo0 KL1 3) /\ fresh_plain demo_env KBase 3 (demo0 KBase 3).
Proof. exact (conj (demo0_fresh KL1) (demo0_fresh KBase)). Qed.
Theorem C32_final_state : forall E k L s f, env_ok E -> k <> KSP -> fresh_plain E k L s -> 5 * (L * L) < Z.of_nat f ->
  exists s' c, run_once E f s = (s', Ok tt) /\
    (forall i, is_site L i -> site_label s' i = c) /\ (forall b, is_bond L b -> bond_label s' b = c) /\
    largest_cluster s' = 2 * (L * L) /\ feval (entropy_v2 s') = 0%R /\
    order_param_largest_clstr s' = Ok (FDiv (FZ (2 * (L * L))) (FZ (2 * (L * L)))) /\
    (3 <= L -> after_wrap s' = true /\ wid s' = c /\
       order_param_wrapping s' = Ok (FDiv (FZ (2 * (L * L))) (FZ (2 * (L * L)))) /\
       test_clusters s' = Ok tt /\ test_lattice s' = Ok tt).
Proof. exact p_C32. Qed.
Print Assumptions C32_final_state.
