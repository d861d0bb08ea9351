(** * Independence of set order and of the way the sites were chosen: C46, C53, C60.

    [same_physics] compares everything observable on the lattice except the names
    of the labels, [outcome] is what a call returns or raises and [events] lists
    what a history does to the lattice (History.v). *)
From Coq Require Import ZArith List Bool Lia Reals.
From Verif Require Import Py Lattice Cluster Perc Spec History Demo Real Sim Replay.
Import ListNotations.
Open Scope Z_scope.

Example ex_C46 : env_ok demo_env /\ env_ok demo_rev /\ (forall n, e_draw demo_env n = e_draw demo_rev n) /\
  site_label (after demo_env (demo0 KBase 3) calls_b) 0 = 15 /\ site_label (after demo_rev (demo0 KBase 3) calls_b) 0 = 4.
Proof. split; [exact demo_env_ok|]. split; [exact demo_rev_ok|]. split; [reflexivity|]. vm_compute. auto. Qed.
Theorem C46_set_order : forall E1 E2 k L t0 s0 cs, env_ok E1 -> env_ok E2 -> (forall n, e_draw E1 n = e_draw E2 n) ->
  new_perc E1 k L t0 = Ok s0 -> Forall (call_ok L) cs ->
  new_perc E2 k L t0 = Ok s0 /\
  let s := after E1 s0 cs in
  let t := after E2 s0 cs in
  same_physics L s t /\
  feval (entropy_v2 s) = feval (entropy_v2 t) /\
  get_site_id_sequence s = get_site_id_sequence t /\ get_index_sequence s = get_index_sequence t /\
  sel_flag s = sel_flag t /\ sel_id s = sel_id t /\
  p_arr s = p_arr t /\ pw_arr s = pw_arr t /\ pl_arr s = pl_arr t /\ map feval (h_arr s) = map feval (h_arr t) /\
  sp_p s = sp_p t /\
  forall c, call_ok L c -> outcome E1 s c = outcome E2 t c.
Proof. exact p_C46. Qed.
Print Assumptions C46_set_order.

Example ex_C53 : snd (run_once demo_env 46 (demo0 KL1 3)) = Ok tt /\ fresh_object demo_env KL1 3 (demo0 KL1 3) /\
  get_index_sequence (fst (run_once demo_env 46 (demo0 KL1 3))) =
  Ok [(0, 1); (0, 2); (0, 0); (1, 0); (1, 1); (1, 2); (2, 0); (2, 1); (2, 2)].
Proof. split; [vm_compute; reflexivity|]. split; [left; exists 0%nat; apply demo0_ok|]. vm_compute. reflexivity. Qed.
Theorem C53_replay_L1 : forall E1 E2 k L s b f g s' ixs, env_ok E1 -> env_ok E2 -> k = KBase \/ k = KL0 ->
  fresh_object E1 KL1 L s -> run_once E1 f s = (s', Ok tt) -> get_index_sequence s' = Ok ixs ->
  fresh_object E2 k L b -> L * L < Z.of_nat g ->
  exists b1 b',
    set_custome_site_index_list E2 (map (fun '(r, c) => [r; c]) ixs) false b = (b1, Ok tt) /\
    run_once E2 g b1 = (b', Ok tt) /\
    same_physics L s' b' /\ feval (entropy_v2 s') = feval (entropy_v2 b') /\
    pw_arr s' = pw_arr b' /\ pl_arr s' = pl_arr b' /\ map feval (h_arr s') = map feval (h_arr b') /\
    (first_run s = true -> first_run b = true -> p_arr s' = p_arr b') /\
    ((forall l, e_ord E1 l = e_ord E2 l) ->
      entropy_v2 s' = entropy_v2 b' /\ h_arr s' = h_arr b' /\
      (forall i, is_site L i -> site_label s' i = site_label b' i) /\ (forall j, is_bond L j -> bond_label s' j = bond_label b' j)).
Proof. exact p_C53. Qed.
Print Assumptions C53_replay_L1.

Example ex_C60 : events demo_env (demo0 KL1 3) [CPlace; CDetect; CPlace; CDetect; CPlace] = [EPlace 1; ECheck 1; EPlace 2; ECheck 2] /\
  events demo_rev (demo0 KBase 3) [CSetIds [1; 2; 3] false; CPlace; CDetect; CPlace; CDetect] = [EPlace 1; ECheck 1; EPlace 2; ECheck 2].
Proof. vm_compute. repeat split; reflexivity. Qed.
Theorem C60_same_events : forall E1 E2 k1 k2 L a b s t cs ds, env_ok E1 -> env_ok E2 -> new_perc E1 k1 L a = Ok s -> new_perc E2 k2 L b = Ok t ->
  Forall (call_ok L) cs -> Forall (call_ok L) ds -> Forall stepwise cs -> Forall stepwise ds ->
  events E1 s cs = events E2 t ds ->
  let u := after E1 s cs in
  let v := after E2 t ds in
  same_physics L u v /\ feval (entropy_v2 u) = feval (entropy_v2 v) /\
  ((forall l, e_ord E1 l = e_ord E2 l) ->
    entropy_v2 u = entropy_v2 v /\
    (forall i, is_site L i -> site_label u i = site_label v i) /\ (forall j, is_bond L j -> bond_label u j = bond_label v j)).
Proof. exact p_C60. Qed.
Print Assumptions C60_same_events.
