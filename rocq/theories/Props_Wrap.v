(** * Wrapping is detected exactly, and the site sequence: C23, C24, C28, C38, C54.

    [reachable_tracked]: every placement is followed by [detect_wrapping()], as
    [run_once] does.  [reachable_no_custom]: no custom lists, [swap_ids] allowed. *)
From Coq Require Import ZArith List Bool Lia Permutation.
From Verif Require Import Py Lattice Cluster Perc Spec History Demo Wrap Seq Witness.
Import ListNotations.
Open Scope Z_scope.

Example ex_tracked : env_ok demo_env /\ reachable_tracked demo_env 3 demo_a /\ reachable_tracked demo_env 3 demo_b.
Proof. exact (conj demo_env_ok (conj demo_a_tracked demo_b_tracked)). Qed.

Example ex_C23 : after_wrap demo_a = false /\ after_wrap demo_b = true.
Proof. vm_compute. repeat split; reflexivity. Qed.
Theorem C23_wrapping_exact : forall E L s, env_ok E -> 3 <= L -> reachable_tracked E L s ->
  (after_wrap s = true <-> wraps L (occupied s)).
Proof. exact p_C23. Qed.
Print Assumptions C23_wrapping_exact.

Theorem C24_skipped_detection_refuted : exists E L s, env_ok E /\ 3 <= L /\ reachable E L s /\
  wraps L (occupied s) /\ snd (detect_wrapping s) = Ok false.
Proof. exact p_C24. Qed.
Print Assumptions C24_skipped_detection_refuted.

Example ex_C28b : after_wrap demo_a = false /\ site_label demo_a 1 = site_label demo_a 4 /\ nbr 3 1 DDown = 4 /\ rel_index demo_a 1 = (0, 1) /\ rel_index demo_a 4 = (1, 1).
Proof. vm_compute. repeat split; reflexivity. Qed.
Theorem C28_unit_offsets : forall E L s, env_ok E -> 3 <= L -> reachable_tracked E L s -> after_wrap s = false ->
  forall i d, is_site L i -> occupied s i -> occupied s (nbr L i d) ->
  rel_index s (nbr L i d) = vadd (rel_index s i) (step d).
Proof. exact p_C28b. Qed.
Print Assumptions C28_unit_offsets.

Example ex_C38 : reachable_no_custom demo_env KSP 3 demo_d.
Proof. exact demo_d_reachable. Qed.
Theorem C38_permutation : forall E k L s, env_ok E -> k <> KL1 -> k <> KL2 -> reachable_no_custom E k L s ->
  Permutation (zrange (L * L)) (get_site_id_sequence s) /\
  (forall i, 0 <= i < L * L ->
     exists x, lget (get_site_id_sequence s) i = Ok x /\ 0 <= x < L * L /\ lget (rev_ids s) x = Ok i).
Proof. exact p_C38. Qed.
Print Assumptions C38_permutation.

Example ex_C54 : get_site_id_sequence demo_d = [2; 3; 4; 1; 6; 7; 0; 8; 5] /\ rev_ids demo_d = [6; 3; 0; 1; 2; 8; 4; 5; 7].
Proof. vm_compute. repeat split; reflexivity. Qed.
Theorem C54_swap_ids : forall L s a b, 0 < L -> Permutation (zrange (L * L)) (get_site_id_sequence s) ->
  zlen (rev_ids s) = L * L ->
  (forall i, 0 <= i < L * L -> exists x, lget (get_site_id_sequence s) i = Ok x /\ 0 <= x < L * L /\ lget (rev_ids s) x = Ok i) ->
  0 <= a < L * L -> 0 <= b < L * L ->
  exists s', swap_ids a b s = (s', Ok tt) /\
    get_site_id_sequence s' = map (fun x => if x =? a then b else if x =? b then a else x) (get_site_id_sequence s) /\
    zlen (rev_ids s') = L * L /\
    (forall i, 0 <= i < L * L -> exists x, lget (get_site_id_sequence s') i = Ok x /\ 0 <= x < L * L /\ lget (rev_ids s') x = Ok i).
Proof. exact p_C54. Qed.
Print Assumptions C54_swap_ids.
