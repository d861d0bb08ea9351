(** * The reported values as functions of the placed sites, and symmetry: C93 to C95.

    [placed_order]: the sites placed since the last reset, in order; [described],
    [loop_described]: what the getters should return for a list of placed sites, said
    with walks on the torus only; [symmetry], [translate], [transpose], [mirror];
    [same_set_values], [same_loop_values]: equal observables up to a relabelling of the
    sites (all in SymSpec.v).  [pairs n]: n placements, each followed by detection.  [events], [stepwise], [tracked]: History.v. *)
From Coq Require Import ZArith List Bool Lia.
From Verif Require Import Py Lattice Cluster Perc Spec History Demo Real SymSpec Describe Symmetry.
Import ListNotations.
Open Scope Z_scope.

Example ex_C93 : let cs := pairs 6 in
  env_ok demo_env /\ new_perc demo_env KBase 3 0 = Ok (demo0 KBase 3) /\ tracked cs /\ Forall (call_ok 3) cs /\ Forall stepwise cs /\
  placed_order (events demo_env (demo0 KBase 3) cs) = [1; 2; 3; 4; 5; 6] /\ after_wrap (after demo_env (demo0 KBase 3) cs) = true.
Proof. cbv zeta. split; [apply demo_env_ok|]. split; [apply demo0_ok|]. destruct (pairs_ok 6) as (A & B & C). do 3 (split; [assumption|]). vm_compute. auto. Qed.
Theorem C93_described : forall E k L t0 s0 cs, env_ok E -> new_perc E k L t0 = Ok s0 -> Forall (call_ok L) cs -> Forall stepwise cs ->
  let xs := placed_order (events E s0 cs) in
  let s := after E s0 cs in
  described L xs s /\ (3 <= L -> tracked cs -> loop_described L xs s).
Proof. exact p_C93. Qed.
Print Assumptions C93_described.

Example ex_C93_runs : let s := after demo_env (demo0 KL0 3) [CRun 20] in
  reachable_tracked demo_env 3 s /\ after_wrap s = true /\ occ_count s = 9.
Proof.
  cbv zeta. split; [|vm_compute; auto]. exists KL0, O, (demo0 KL0 3), [CRun 20]. split; [apply demo0_ok|].
  split; [constructor; [exact I|constructor]|]. split; [apply tr_other; [discriminate|constructor]|reflexivity].
Qed.
Theorem C93_any_history : forall E L s, env_ok E -> reachable E L s ->
  (exists xs, described L xs s) /\
  (3 <= L -> reachable_tracked E L s -> exists xs, described L xs s /\ loop_described L xs s).
Proof. exact p_C93_runs. Qed.
Print Assumptions C93_any_history.

Example ex_C94 : let cs := pairs 6 in
  let ds := CSetIds [3; 4; 8; 6; 7; 2] false :: pairs 6 in
  env_ok demo_rev /\ tracked ds /\ Forall (call_ok 3) ds /\ Forall stepwise ds /\
  placed_order (events demo_rev (demo0 KSP 3) ds) = map (translate 3 1 2) (placed_order (events demo_env (demo0 KBase 3) cs)).
Proof.
  cbv zeta. split; [apply demo_rev_ok|]. destruct (pairs_ok 6) as (A & B & C). split; [apply tr_other; [discriminate|assumption]|].
  do 2 (split; [constructor; [exact I|assumption]|]). vm_compute. reflexivity.
Qed.
Theorem C94_symmetric_histories : forall E1 E2 k1 k2 L a b s0 t0 cs ds f D, env_ok E1 -> env_ok E2 -> new_perc E1 k1 L a = Ok s0 -> new_perc E2 k2 L b = Ok t0 ->
  Forall (call_ok L) cs -> Forall (call_ok L) ds -> Forall stepwise cs -> Forall stepwise ds -> symmetry L f D ->
  let xs := placed_order (events E1 s0 cs) in
  let ys := placed_order (events E2 t0 ds) in
  let s := after E1 s0 cs in
  let t := after E2 t0 ds in
  ((forall i, is_site L i -> (In i xs <-> In (f i) ys)) ->
     same_set_values L f s t /\ (3 <= L -> tracked cs -> tracked ds -> after_wrap s = after_wrap t)) /\
  (ys = map f xs -> same_set_values L f s t /\ (3 <= L -> tracked cs -> tracked ds -> same_loop_values L f s t)).
Proof. exact p_C94. Qed.
Print Assumptions C94_symmetric_histories.

Example ex_C94_group : map (translate 3 1 2) [0; 4; 8] = [5; 6; 1] /\ map (transpose 3) [0; 1; 5] = [0; 3; 7] /\ map (mirror 3) [0; 1; 5] = [0; 2; 4].
Proof. vm_compute. auto. Qed.
Theorem C94_symmetries : forall L, 0 < L ->
  symmetry L (fun i => i) (fun d => d) /\ (forall r c, symmetry L (translate L r c) (fun d => d)) /\
  symmetry L (transpose L) transpose_dir /\ symmetry L (mirror L) mirror_dir /\
  (forall f D g F, symmetry L f D -> symmetry L g F -> symmetry L (fun i => f (g i)) (fun d => D (F d))).
Proof. exact p_C94_group. Qed.
Print Assumptions C94_symmetries.

Example ex_C95 : let ds := CSetIds [6; 2; 4; 1; 3; 5] false :: pairs 6 in
  placed_order (events demo_rev (demo0 KL0 3) ds) = [6; 2; 4; 1; 3; 5] /\
  get_pc (after demo_rev (demo0 KL0 3) ds) <> get_pc (after demo_env (demo0 KBase 3) (pairs 6)).
Proof. vm_compute. split; [reflexivity|discriminate]. Qed.
Theorem C95_order_irrelevant : forall E1 E2 k1 k2 L a b s0 t0 cs ds, env_ok E1 -> env_ok E2 -> new_perc E1 k1 L a = Ok s0 -> new_perc E2 k2 L b = Ok t0 ->
  Forall (call_ok L) cs -> Forall (call_ok L) ds -> Forall stepwise cs -> Forall stepwise ds ->
  (forall i, In i (placed_order (events E1 s0 cs)) <-> In i (placed_order (events E2 t0 ds))) ->
  let s := after E1 s0 cs in
  let t := after E2 t0 ds in
  same_set_values L (fun i => i) s t /\
  (forall c c', is_bond L c -> is_bond L c' -> (bond_label s c = bond_label s c' <-> bond_label t c = bond_label t c')) /\
  (3 <= L -> tracked cs -> tracked ds -> after_wrap s = after_wrap t).
Proof. exact p_C95. Qed.
Print Assumptions C95_order_irrelevant.
