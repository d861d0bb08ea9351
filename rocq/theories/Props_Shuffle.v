(** * The shuffle is unbiased: C61.

    [choices E t n] are the random indices drawn while shuffling [n] entries, the
    [m]-th one among [n-m] values (History.v).  There are n * (n-1) * ... * 2 = n!
    lists of choices; each one can occur, different ones give different orders of
    the sites, and every order is obtained.  So if the choices are uniform and
    independent, every order has the same probability. *)
From Coq Require Import ZArith List Bool Lia Permutation.
From Verif Require Import Py Lattice Cluster Perc Spec History Demo Unbiased.
Import ListNotations.
Open Scope Z_scope.

Example ex_C61 : get_site_id_sequence (demo0 KL0 2) = [1; 2; 3; 0] /\ choices demo_env 0 4 = [0; 0; 0].
Proof. vm_compute. repeat split; reflexivity. Qed.
Theorem C61_new_object : forall k L t, 0 < L -> let n := Z.to_nat (L * L) in
  (forall E, exists s, new_perc E k L t = Ok s) /\
  (forall E E' s s', new_perc E k L t = Ok s -> new_perc E' k L t = Ok s' ->
     (get_site_id_sequence s = get_site_id_sequence s' <-> choices E t n = choices E' t n)) /\
  (forall l, Permutation (zrange (L * L)) l -> exists E s, env_ok E /\ new_perc E k L t = Ok s /\ get_site_id_sequence s = l) /\
  (forall c, length c = (n - 1)%nat -> (forall m, (m < n - 1)%nat -> 0 <= nth m c 0 < Z.of_nat (n - m)) ->
     exists E, env_ok E /\ choices E t n = c).
Proof. exact p_C61. Qed.
Print Assumptions C61_new_object.

Example ex_C61_reset : reachable_no_custom demo_env KSP 3 demo_d /\ tick demo_d = 16%nat /\
  get_site_id_sequence (fst (reset demo_env demo_d)) <> get_site_id_sequence (fst (reset (mkEnv (e_ord demo_env) (fun n => Z.of_nat n)) demo_d)).
Proof. split; [exact demo_d_reachable|]. split; [vm_compute; reflexivity|]. vm_compute. discriminate. Qed.
Theorem C61_reset : forall E0 k L s, env_ok E0 -> k <> KL1 -> k <> KL2 -> reachable_no_custom E0 k L s -> let n := Z.to_nat (L * L) in
  (forall E E', get_site_id_sequence (fst (reset E s)) = get_site_id_sequence (fst (reset E' s)) <->
                choices E (tick s) n = choices E' (tick s) n) /\
  (forall l, Permutation (zrange (L * L)) l -> exists E, env_ok E /\ get_site_id_sequence (fst (reset E s)) = l).
Proof. exact p_C61_reset. Qed.
Print Assumptions C61_reset.

Example ex_C61_custom : get_site_id_sequence (fst (set_custome_site_id_list demo_env [4; 0; 1; 2; 8] true demo_b)) = [0; 1; 2; 8; 4] /\
  reachable demo_env 3 demo_b.
Proof. split; [vm_compute; reflexivity|exact demo_b_reachable]. Qed.
Theorem C61_custom_list : forall E0 L s l, env_ok E0 -> reachable E0 L s -> NoDup l -> l <> [] -> Forall (is_site L) l ->
  (forall E E', get_site_id_sequence (fst (set_custome_site_id_list E l true s)) = get_site_id_sequence (fst (set_custome_site_id_list E' l true s)) <->
                choices E (tick s) (length l) = choices E' (tick s) (length l)) /\
  (forall l', Permutation l l' -> exists E, env_ok E /\ get_site_id_sequence (fst (set_custome_site_id_list E l true s)) = l').
Proof. exact p_C61_custom. Qed.
Print Assumptions C61_custom_list.
