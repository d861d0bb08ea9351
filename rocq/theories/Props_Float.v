(** * The floating-point numbers the user sees: C80 and C81.

    [fl lg e]: the binary64 value of the expression [e], every operation rounded
    (Float.v); [feval e]: its exact value; [lg]: the logarithm of the C library,
    about which C80 assumes nothing and C81 assumes [log_accurate]. *)
From Coq Require Import ZArith List Reals.
From Flocq Require Import Core.
From Verif Require Import Py Lattice Cluster Perc Spec History Real Demo Float FloatProps FloatEnt.
Import ListNotations.
Open Scope R_scope.

Example ex_C80 : env_ok demo_env /\ (3 <= 2 ^ 24)%Z /\ reachable demo_env 3 demo_a /\ reachable demo_env 3 demo_b /\
  occupation_prob demo_a = Ok (FDiv (FZ 3) (FZ 9)) /\ get_pc demo_b = Ok (FDiv (FZ 4) (FZ 9)).
Proof. split; [apply demo_env_ok|]. split; [discriminate|]. split; [apply demo_a_reachable|]. split; [apply demo_b_reachable|]. vm_compute. auto. Qed.
Theorem C80_float_ratios : forall E L s t f g lg, env_ok E -> (L <= 2 ^ 24)%Z -> reachable E L s -> reachable E L t ->
  (In f [occupation_prob; get_pc] /\ In g [occupation_prob; get_pc]) \/
  (In f [order_param_largest_clstr; order_param_wrapping] /\ In g [order_param_largest_clstr; order_param_wrapping]) ->
  exists x y, f s = Ok x /\ g t = Ok y /\
    (fl lg x < fl lg y <-> feval x < feval y) /\ (fl lg x = fl lg y <-> feval x = feval y) /\
    0 <= fl lg x <= 1 /\ is_double (fl lg x) /\ Rabs (fl lg x - feval x) <= bpow radix2 (-53).
Proof. exact p_C80. Qed.
Print Assumptions C80_float_ratios.

Example ex_C81 : env_ok demo_env /\ (3 <= 2 ^ 20)%Z /\ log_accurate (fun x => rnd (ln x)) /\ reachable demo_env 3 demo_b.
Proof. split; [apply demo_env_ok|]. split; [discriminate|]. split; [apply rounded_log_accurate|apply demo_b_reachable]. Qed.
Theorem C81_float_entropy : forall E L s lg, env_ok E -> (L <= 2 ^ 20)%Z -> log_accurate lg -> reachable E L s ->
  let B := IZR (2 * (L * L)) in
  Rabs (fl lg (entropy_v2 s) - shannon L s) <= IZR (occ_count s + 1) * (bpow radix2 (-53) * (72 + 2 * ln B)) /\
  exists v, entropy_v1 s = Ok v /\ Rabs (fl lg v - shannon L s) <= B * (bpow radix2 (-53) * (10 + ln B)).
Proof. exact p_C81. Qed.
Print Assumptions C81_float_entropy.

Example ex_C81m : Forall (call_ok 3) [CPlace; CDetect; CPlace] /\ ~ In CReset [CPlace; CDetect; CPlace] /\
  occ_count (after demo_env demo_a [CPlace; CDetect; CPlace]) = (occ_count demo_a + 2)%Z.
Proof. split; [repeat (apply Forall_cons || apply Forall_nil); exact I|]. split; [intros [|[|[|[]]]]; discriminate|]. vm_compute. reflexivity. Qed.
Theorem C81_float_entropy_monotone : forall E L s cs lg, env_ok E -> (L <= 2 ^ 20)%Z -> log_accurate lg -> reachable E L s -> Forall (call_ok L) cs -> ~ In CReset cs ->
  let s' := after E s cs in
  fl lg (entropy_v2 s') <= fl lg (entropy_v2 s) + IZR (occ_count s' - occ_count s) * (bpow radix2 (-53) * (72 + 2 * ln (IZR (2 * (L * L))))).
Proof. exact p_C81m. Qed.
Print Assumptions C81_float_entropy_monotone.
