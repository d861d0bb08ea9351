(** * The recorded curves as lists that the caller keeps: C110.

    Arrays.v: the four curves are list objects in a store; the getters return the object's
    own lists.  [krun E a xs]: the object and the store after the accesses xs, each a method
    call or a write of the caller into some list; [contents a r]: what list r contains now;
    [kload a]: the object with its curves as they are now.  [kept E L a]: reached from a new
    object by any accesses; [only_calls]: the caller only reads; [in_use a r]: the object has
    list r as one of its curves; [bare]: the object without its curves (ArraysSpec.v). *)
From Coq Require Import ZArith List Bool Lia.
From Verif Require Import Py Lattice Cluster Perc Spec History Demo Arrays ArraysSpec ArraysProps.
Import ListNotations.
Open Scope Z_scope.

Example ex_C110_contents : let xs := [ACall (CRun 12); ACall CReset; ACall (CRun 12); ACall CPlace] in
  let a := krun demo_env (kstart (demo0 KBase 3)) xs in new_perc demo_env KBase 3 0 = Ok (demo0 KBase 3) /\ only_calls xs /\
  (get_occupation_prob_array a, get_entropy_array a) = (0%nat, 4%nat) /\ map (@length fexpr) (k_store a) = [9; 9; 9; 9; 9; 9; 9]%nat.
Proof.
  cbv zeta. split; [vm_compute; reflexivity|]. split; [|vm_compute; auto]. intros r l H. cbn [In] in H. repeat (destruct H as [H|H]; [discriminate|]). exact H.
Qed.
Theorem C110_contents : forall E k L t0 s0 xs, env_ok E -> new_perc E k L t0 = Ok s0 -> accesses_ok L xs -> only_calls xs ->
  let a := krun E (kstart s0) xs in let s := after E s0 (calls_of xs) in
  contents a (get_occupation_prob_array a) = p_arr s /\ contents a (get_entropy_array a) = h_arr s /\
  contents a (get_order_param_wrapping_array a) = pw_arr s /\ contents a (get_order_param_largest_array a) = pl_arr s /\ kload a = s.
Proof. exact p_C110_contents. Qed.
Print Assumptions C110_contents.

Example ex_C110_live : let xs := [ACall (CRun 12); ACall CReset] in
  let a := krun demo_env (kstart (demo0 KBase 3)) xs in kept demo_env 3 (krun demo_env (kstart (demo0 KBase 3)) xs) /\
  get_entropy_array a = 4%nat /\ map (@length fexpr) (k_store a) = [9; 9; 9; 9; 0; 0; 0]%nat /\
  map (@length fexpr) (k_store (krun demo_env a [ACall (CRun 12)])) = [9; 9; 9; 9; 9; 9; 9]%nat.
Proof.
  cbv zeta. split; [|vm_compute; auto].
  exists KBase, 0%nat, (demo0 KBase 3). eexists. split; [vm_compute; reflexivity|]. split; [|reflexivity]. intros c Hc. cbn [In] in Hc. repeat (destruct Hc as [Hc|Hc]; [try discriminate; injection Hc as <-; exact I|]). destruct Hc.
Qed.
Theorem C110_live : forall E L a ys r, env_ok E -> kept E L a -> accesses_ok L ys -> only_calls ys -> exists_in a r ->
  let b := krun E a ys in
  (exists more, contents b r = contents a r ++ more) /\ (~ in_use a r -> contents b r = contents a r /\ ~ in_use b r) /\
  (~ before_first_run a -> r = get_occupation_prob_array a -> contents b r = contents a r /\ get_occupation_prob_array b = r) /\
  (~ In (ACall CReset) ys -> get_occupation_prob_array b = get_occupation_prob_array a /\ get_entropy_array b = get_entropy_array a /\
     get_order_param_wrapping_array b = get_order_param_wrapping_array a /\ get_order_param_largest_array b = get_order_param_largest_array a).
Proof. exact p_C110_live. Qed.
Print Assumptions C110_live.

Example ex_C110_reset : let xs := [ACall (CRun 12); AWrite 1 []] in
  let a := krun demo_env (kstart (demo0 KBase 3)) xs in kept demo_env 3 (krun demo_env (kstart (demo0 KBase 3)) xs) /\
  map (@length fexpr) (k_store (kstep demo_env a (ACall CReset))) = [9; 0; 9; 9; 0; 0; 0]%nat.
Proof.
  cbv zeta. split; [|vm_compute; auto].
  exists KBase, 0%nat, (demo0 KBase 3). eexists. split; [vm_compute; reflexivity|]. split; [|reflexivity]. intros c Hc. cbn [In] in Hc. repeat (destruct Hc as [Hc|Hc]; [try discriminate; injection Hc as <-; exact I|]). destruct Hc.
Qed.
Theorem C110_reset : forall E L a, env_ok E -> kept E L a ->
  let b := kstep E a (ACall CReset) in
  (~ exists_in a (get_entropy_array b) /\ contents b (get_entropy_array b) = []) /\
  (~ exists_in a (get_order_param_wrapping_array b) /\ contents b (get_order_param_wrapping_array b) = []) /\
  (~ exists_in a (get_order_param_largest_array b) /\ contents b (get_order_param_largest_array b) = []) /\
  (before_first_run a -> ~ exists_in a (get_occupation_prob_array b) /\ contents b (get_occupation_prob_array b) = []) /\
  (~ before_first_run a -> get_occupation_prob_array b = get_occupation_prob_array a) /\
  (forall r, exists_in a r -> contents b r = contents a r) /\
  (forall r ys, exists_in a r -> r <> get_occupation_prob_array b -> accesses_ok L ys -> only_calls ys -> contents (krun E b ys) r = contents a r).
Proof. exact p_C110_reset. Qed.
Print Assumptions C110_reset.

Example ex_C110_write : let xs := [ACall (CRun 12); AWrite 1 [FZ 7]; ACall CReset; AWrite 0 []; ACall CPlace] in
  let s := kload (krun demo_env (kstart (demo0 KBase 3)) xs) in let s' := after demo_env (demo0 KBase 3) (calls_of xs) in
  kept demo_env 3 (krun demo_env (kstart (demo0 KBase 3)) xs) /\ p_arr s = [] /\ length (p_arr s') = 9%nat /\ occ_count s = 1 /\ occ_count s' = 1.
Proof.
  cbv zeta. split; [|vm_compute; auto].
  exists KBase, 0%nat, (demo0 KBase 3). eexists. split; [vm_compute; reflexivity|]. split; [|reflexivity]. intros c Hc. cbn [In] in Hc. repeat (destruct Hc as [Hc|Hc]; [try discriminate; injection Hc as <-; exact I|]). destruct Hc.
Qed.
Theorem C110_write : forall E k L t0 s0 xs, env_ok E -> new_perc E k L t0 = Ok s0 -> accesses_ok L xs ->
  let s := kload (krun E (kstart s0) xs) in let s' := after E s0 (calls_of xs) in
  bare s = bare s' /\ forall c, outcome E s c = outcome E s' c.
Proof. exact p_C110_write. Qed.
Print Assumptions C110_write.

Theorem C110_data_refuted : exists E s0, env_ok E /\ new_perc E KBase 3 0 = Ok s0 /\
  let rows xs := match get_data_array (kload (krun E (kstart s0) xs)) with Ok r => Ok (length r) | Err e => Err e end in
  let once := [ACall (CRun 12)] in let again := [ACall CReset; ACall (CRun 12)] in
  rows (once ++ again) = Ok 9%nat /\ rows (once ++ [AWrite 0 []] ++ again) = Err ValueError /\ rows (once ++ [AWrite 0 []] ++ again ++ again) = Err ValueError.
Proof. exact p_C110_refuted. Qed.
Print Assumptions C110_data_refuted.
