(** * Labels of merged clusters: C66, C67.

    [meets L s x g]: a bond of the cluster labelled [g] ends at site [x].
    [relabels E s cs b]: how often the label of bond [b] changes during [cs] (History.v). *)
From Coq Require Import ZArith List Bool Lia.
From Verif Require Import Py Lattice Cluster Perc Spec History Demo Label.
Import ListNotations.
Open Scope Z_scope.

Example ex_C66 : env_ok demo_env /\ reachable demo_env 3 demo_a /\
  (let s' := fst (place_one_site demo_env demo_a) in
   place_one_site demo_env demo_a = (s', Ok true) /\ flag_is_success s' = true /\ sel_id s' = Some 2 /\
   site_label demo_a 0 = 15 /\ site_label s' 2 = 15 /\ bond_label demo_a 17 = 17 /\ bond_label s' 17 = 15 /\
   length (cluster_bonds demo_a 15) = 10%nat /\ length (cluster_bonds demo_a 17) = 1%nat).
Proof. split; [apply demo_env_ok|]. split; [apply demo_a_reachable|]. vm_compute. auto 10. Qed.
Theorem C66_merged_label : forall E L s s' x, env_ok E -> reachable E L s ->
  place_one_site E s = (s', Ok true) -> flag_is_success s' = true -> sel_id s' = Some x ->
  let new := site_label s' x in
  let size g := length (cluster_bonds s g) in
  (forall b, is_bond L b -> (meets L s x (bond_label s b) -> bond_label s' b = new) /\
                            (~ meets L s x (bond_label s b) -> bond_label s' b = bond_label s b)) /\
  meets L s x new /\
  (after_wrap s = true -> meets L s x (wid s) -> new = wid s) /\
  (~ (after_wrap s = true /\ meets L s x (wid s)) ->
   exists l a b, (forall g, In g l <-> meets L s x g) /\ e_ord E l = a ++ new :: b /\
     (forall g, In g a -> (size g <= size new)%nat) /\ (forall g, In g b -> (size g < size new)%nat)).
Proof. exact p_C66. Qed.
Print Assumptions C66_merged_label.

Example ex_C67 : env_ok demo_env /\ reachable demo_env 3 (demo0 KBase 3) /\ Forall (call_ok 3) calls_b /\ ~ In CReset calls_b /\
  relabels demo_env (demo0 KBase 3) calls_b 3 = 2%nat /\ Z.log2 (2 * (3 * 3)) = 4.
Proof.
  split; [apply demo_env_ok|]. split; [exists KBase, 0%nat, (demo0 KBase 3), []; split; [apply demo0_ok|split; [constructor|cbn [after fold_left]; reflexivity]]|].
  split; [repeat (apply Forall_cons || apply Forall_nil); exact I|].
  split; [intros H; cbn in H; repeat (destruct H as [H|H]; [discriminate|]); exact H|]. split; vm_compute; reflexivity.
Qed.
Theorem C67_few_relabellings : forall E L s cs b, env_ok E -> reachable E L s -> Forall (call_ok L) cs -> ~ In CReset cs ->
  0 <= b < 2 * (L * L) -> Z.of_nat (relabels E s cs b) <= Z.log2 (2 * (L * L)) + 1.
Proof. exact p_C67. Qed.
Print Assumptions C67_few_relabellings.

Example ex_C67_total : sum_over (fun b => Z.of_nat (relabels demo_env (demo0 KBase 3) calls_b b)) 18 = 14.
Proof. vm_compute. reflexivity. Qed.
Theorem C67_total : forall E L s cs, env_ok E -> reachable E L s -> Forall (call_ok L) cs -> ~ In CReset cs ->
  sum_over (fun b => Z.of_nat (relabels E s cs b)) (2 * (L * L)) <= 2 * (L * L) * (Z.log2 (2 * (L * L)) + 1).
Proof. exact p_C67_total. Qed.
Print Assumptions C67_total.
