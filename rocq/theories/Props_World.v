(** * Several simulations in one process: C108.

    World.v: the objects of a process draw from the one generator of the module random.
    [wrun ord w es]: the process after the constructors, calls and foreign draws es;
    [calls_to i es]: the calls made to object i; [answers_of ord i w es]: what they answered;
    [after], [answers]: the same for an object alone with its own stream of words;
    [drawless k c]: the call takes nothing from the generator (WorldSpec.v).  [set_tick]
    only changes the position in the stream. *)
From Coq Require Import ZArith List Bool Lia.
From Verif Require Import Py Lattice Cluster Perc Spec History Demo World WorldSpec WorldProps.
Import ListNotations.
Open Scope Z_scope.

Example ex_C108_as_alone : let w := mkWorld [] (fun _ => 0) 0 in let ord := nodup Z.eq_dec in
  let es := [ENew KBase 3 None; ECall 0 CPlace; ECall 1 CPlace; EOther count_up 2; ECall 0 CReset; ECall 1 CPlace; ECall 0 CPlace] in
  calls_to 0 es = [CPlace; CReset; CPlace] /\ calls_to 1 es = [CPlace; CPlace] /\
  answers_of ord 1 (wnew ord w KL2 3 None) es = [Some (Ok true); Some (Ok true)] /\
  map occ_count (w_objs (wrun ord w (ENew KL2 3 None :: es))) = [1; 2].
Proof. vm_compute. auto. Qed.
Theorem C108_as_alone : forall ord w k L seed es, 0 < L -> let i := length (w_objs w) in
  exists d s0, new_perc (mkEnv ord d) k L 0 = Ok s0 /\
    nth_error (w_objs (wrun ord w (ENew k L seed :: es))) i = Some (set_tick 0 (after (mkEnv ord d) s0 (calls_to i es))) /\
    answers_of ord i (wnew ord w k L seed) es = answers (mkEnv ord d) s0 (calls_to i es).
Proof. exact p_C108. Qed.
Print Assumptions C108_as_alone.

Example ex_C108_reachable : let w := mkWorld [] (fun _ => 0) 0 in let ord := nodup Z.eq_dec in
  let es := [ENew KBase 3 None; ECall 0 CPlace; ECall 1 CPlace; EOther count_up 2; ECall 0 CReset; ECall 1 CPlace; ECall 0 CPlace] in
  Forall (call_ok 3) (calls_to 0 es) /\ length (w_objs (wrun ord w (ENew KL2 3 None :: es))) = 2%nat.
Proof. cbv zeta. split; [repeat constructor|vm_compute; reflexivity]. Qed.
Theorem C108_reachable : forall ord w k L seed es, 0 < L -> let i := length (w_objs w) in Forall (call_ok L) (calls_to i es) ->
  exists d t o, nth_error (w_objs (wrun ord w (ENew k L seed :: es))) i = Some o /\ reachable_k (mkEnv ord d) k L (set_tick t o).
Proof. exact p_C108_reach. Qed.
Print Assumptions C108_reachable.

Example ex_C108_seed : let ord := nodup Z.eq_dec in let w := wnew ord (mkWorld [] (fun _ => 0) 0) KBase 3 None in
  let es := [ECall 0 CPlace; ECall 1 CReset; ECall 0 CPlace; ECall 1 (CRun 50)] in
  map kind (w_objs w) = [KBase] /\ calls_to 0 es = [CPlace; CPlace] /\ drawless KBase CPlace /\
  map occ_count (w_objs (wrun ord w (ENew KL1 3 (Some count_up) :: es))) = [2; 9].
Proof. cbv zeta. split; [vm_compute; reflexivity|]. split; [reflexivity|]. split; [split; discriminate|vm_compute; reflexivity]. Qed.
Theorem C108_seed : forall ord w k L d es, 0 < L -> let i := length (w_objs w) in
  (forall e, In e es -> exists j c, e = ECall j c) ->
  (forall j o, nth_error (w_objs w) j = Some o -> Forall (drawless (kind o)) (calls_to j es)) ->
  exists s0, new_perc (mkEnv ord d) k L 0 = Ok s0 /\
    nth_error (w_objs (wrun ord w (ENew k L (Some d) :: es))) i = Some (set_tick 0 (after (mkEnv ord d) s0 (calls_to i es))) /\
    answers_of ord i (wnew ord w k L (Some d)) es = answers (mkEnv ord d) s0 (calls_to i es).
Proof. exact p_C108_seed. Qed.
Print Assumptions C108_seed.

Example ex_C108_interleave : let ord := nodup Z.eq_dec in let w := wrun ord (mkWorld [] count_up 0) [ENew KBase 3 None; ENew KL0 3 None] in
  let es := [ECall 0 CPlace; ECall 1 CPlace; ECall 1 CDetect; ECall 0 (CRun 20)] in
  map kind (w_objs w) = [KBase; KL0] /\ map ids (w_objs w) <> [zrange 9; zrange 9] /\
  drawless KBase (CRun 20) /\ drawless KL0 CDetect /\ map occ_count (w_objs (wrun ord w es)) = [9; 1].
Proof. cbv zeta. split; [vm_compute; reflexivity|]. split; [vm_compute; discriminate|]. split; [split; discriminate|]. split; [exact I|vm_compute; reflexivity]. Qed.
Theorem C108_interleave : forall ord w es, (forall e, In e es -> exists i c, e = ECall i c) ->
  (forall i o, nth_error (w_objs w) i = Some o -> Forall (drawless (kind o)) (calls_to i es)) ->
  let w' := wrun ord w es in
  w_stream w' = w_stream w /\ w_pos w' = w_pos w /\ length (w_objs w') = length (w_objs w) /\
  forall i o, nth_error (w_objs w) i = Some o -> forall d p,
    answers_of ord i w es = answers (mkEnv ord d) (set_tick p o) (calls_to i es) /\
    (calls_to i es <> [] -> nth_error (w_objs w') i = Some (set_tick 0 (after (mkEnv ord d) (set_tick p o) (calls_to i es)))) /\
    (calls_to i es = [] -> nth_error (w_objs w') i = Some o).
Proof. exact p_C108_interleave. Qed.
Print Assumptions C108_interleave.

Example ex_C108_orders : let a := [ECall 0 CPlace; ECall 1 CPlace; ECall 0 (CRun 20)] in let b := [ECall 1 CPlace; ECall 0 CPlace; ECall 0 (CRun 20)] in
  a <> b /\ (forall i, calls_to i a = calls_to i b).
Proof. split; [discriminate|]. intros [|[|i]]; reflexivity. Qed.
Theorem C108_orders : forall ord w es es', (forall e, In e (es ++ es') -> exists i c, e = ECall i c) ->
  (forall i o, nth_error (w_objs w) i = Some o -> Forall (drawless (kind o)) (calls_to i es)) ->
  (forall i, calls_to i es = calls_to i es') ->
  wrun ord w es = wrun ord w es' /\ forall i, (i < length (w_objs w))%nat -> answers_of ord i w es = answers_of ord i w es'.
Proof. exact p_C108_orders. Qed.
Print Assumptions C108_orders.

Theorem C108_seed_refuted : exists d d', let ord := nodup Z.eq_dec in let w := mkWorld [] d 0 in
  nth_error (w_objs (wrun ord w [ENew KBase 3 (Some d); ECall 0 CReset])) 0 <>
    nth_error (w_objs (wrun ord w [ENew KBase 3 (Some d); ENew KBase 3 None; ECall 0 CReset])) 0 /\
  nth_error (w_objs (wrun ord w [ENew KBase 3 (Some d); ECall 0 CReset])) 0 <>
    nth_error (w_objs (wrun ord w [ENew KBase 3 (Some d); ENew KBase 3 (Some d'); ECall 0 CReset])) 0.
Proof. exact p_C108_seed_refuted. Qed.
Print Assumptions C108_seed_refuted.
