(** * Calls that are broken off between two statements: C98 to C100 and C107.

    Break.v executes the methods one statement at a time; [whole s] is the object s
    with all its attributes.  [left_by_all E cs i]: what is left of i after the calls cs,
    each broken off after its own number of statements (or finished before that);
    [complete i]: the three lists that [reset] deletes and recreates exist;
    [agrees fine coarse s]: unbroken, the statements of the method have the effect
    Perc.v gives to the call; [like_new s' s0]: every attribute that [reset] restores is
    as in s0 (BreakSpec.v).  [described], [loop_described]: everything the object reports
    is the right function of the sites placed (SymSpec.v).  [old_or_new f s t s']: attribute f
    of t is that of s or that of s'. *)
From Coq Require Import ZArith List Bool Lia Permutation.
From Verif Require Import Py Lattice Cluster Perc Spec History Demo SymSpec Break BreakSpec BreakProps BreakPoints.
Import ListNotations.
Open Scope Z_scope.

Example ex_C98 : reachable demo_env 3 demo_a /\ snd (place_one_site demo_env demo_a) = Ok true /\
  snd (b_place demo_env (whole demo_a) 12%nat) = Cut /\ snd (b_place demo_env (whole demo_a) 100%nat) = Fin (Ok true).
Proof. split; [apply demo_a_reachable|]. vm_compute. auto. Qed.
Theorem C98_unbroken : forall E L s, env_ok E -> reachable E L s ->
  agrees (b_place E) (place_one_site E) s /\ agrees b_detect detect_wrapping s /\
  agrees (b_reset E) (reset E) s /\ forall f, agrees (b_run_once E f) (run_once E f) s.
Proof. exact p_C98_unbroken. Qed.
Print Assumptions C98_unbroken.

Theorem C98_only_reset : forall E cs i, complete i -> Forall (fun c => fst c <> BReset) cs -> complete (left_by_all E cs i).
Proof. exact p_C98_only_reset. Qed.
Print Assumptions C98_only_reset.

Example ex_C98_recover : let i := left_by_all demo_env [(BPlace, 12%nat); (BReset, 40%nat); (BRun 5, 60%nat)] (whole demo_a) in
  reachable_k demo_env KBase 3 demo_a /\ complete i /\ occ_count (obj i) <> 0 /\ snd (reset demo_env (obj i)) = Ok tt.
Proof. split; [apply demo_a_reachable_k|]. split; [vm_compute; auto|]. split; [vm_compute; discriminate|vm_compute; reflexivity]. Qed.
Theorem C98_recover : forall E k L s cs, env_ok E -> reachable_k E k L s ->
  let i := left_by_all E cs (whole s) in complete i ->
  exists s', reset E (obj i) = (s', Ok tt) /\
  (exists m, forall n, (m <= n)%nat -> b_reset E i n = (whole s', (n - m)%nat, Fin (Ok tt))) /\
  kind s' = k /\ (k = KL1 \/ k = KL2 -> ids s' = zrange (L * L)) /\ (k <> KL1 -> k <> KL2 -> Permutation (ids s) (ids s')) /\
  (first_run (obj i) = true -> p_arr s' = []) /\
  forall E' k' t0 s0, new_perc E' k' L t0 = Ok s0 -> like_new s' s0.
Proof. exact p_C98_recover. Qed.
Print Assumptions C98_recover.

Example ex_C98_selection : let s' := fst (reset demo_env (obj (left_by demo_env BPlace 1%nat (whole (demo0 KBase 3))))) in sel_id s' <> cur_site s'.
Proof. vm_compute. discriminate. Qed.
Theorem C98_selection : forall E k L s cs, env_ok E -> reachable_k E k L s ->
  let s' := fst (reset E (obj (left_by_all E cs (whole s)))) in
  let forgot := set_cur_site None (set_sel_id None s') in
  (forall c, c = CPlace \/ (exists f, c = CRun (S f) \/ c = CTestRun (S f)) -> exec E s' c = exec E forgot c) /\
  place_one_site E s' = place_one_site E forgot.
Proof. exact p_C98_selection. Qed.
Print Assumptions C98_selection.

Example ex_C98_resume : let s' := fst (reset demo_env (obj (left_by demo_env BPlace 12%nat (whole demo_a)))) in
  placed_order (events demo_env s' [CPlace; CDetect; CPlace; CDetect]) = [4; 0] /\ tracked [CPlace; CDetect; CPlace; CDetect].
Proof. split; [vm_compute; reflexivity|]. repeat (apply tr_place || apply tr_nil). Qed.
Theorem C98_resume : forall E k L s cs, env_ok E -> reachable_k E k L s ->
  let s' := fst (reset E (obj (left_by_all E cs (whole s)))) in
  forall more, Forall (call_ok L) more -> Forall stepwise more ->
  let xs := placed_order (events E s' (CPlace :: more)) in
  let s2 := after E s' (CPlace :: more) in
  described L xs s2 /\ (3 <= L -> tracked (CPlace :: more) -> loop_described L xs s2).
Proof. exact p_C98_resume. Qed.
Print Assumptions C98_resume.

Example ex_C99_points : let s := demo_a in complete (left_by_all demo_env [(BPlace, 12%nat)] (whole s)) /\ reachable_k demo_env KBase 3 s.
Proof. split; [vm_compute; auto|apply demo_a_reachable_k]. Qed.
Theorem C99_points : forall E k L s cs, env_ok E -> reachable_k E k L s -> let i := left_by_all E cs (whole s) in complete i ->
  exists n1 n2 n3, (n1 < n2)%nat /\ (n2 < n3)%nat /\
  (let j := left_by E BReset n1 i in no_h j = true /\ no_w j = false /\ no_l j = false) /\
  (let j := left_by E BReset n2 i in no_h j = false /\ no_w j = true /\ no_l j = false) /\
  (let j := left_by E BReset n3 i in no_h j = false /\ no_w j = false /\ no_l j = true) /\
  Forall (fun n => snd (b_reset E i n) = Cut) [n1; n2; n3].
Proof. exact p_C99_points. Qed.
Print Assumptions C99_points.

Example ex_C99_error : ~ complete (left_by_all demo_env [(BReset, 150%nat)] (whole (demo0 KBase 3))).
Proof. intros (H & _). revert H. vm_compute. discriminate. Qed.
Theorem C99_error : forall E k L s cs, env_ok E -> reachable_k E k L s -> let i := left_by_all E cs (whole s) in ~ complete i ->
  exists m, forall n, (m <= n)%nat -> snd (b_reset E i n) = Fin (Err AttributeError).
Proof. exact p_C99_error. Qed.
Print Assumptions C99_error.

Example ex_C99 : ~ complete (left_by demo_env BReset 150%nat (whole (demo0 KBase 3))) /\
  snd (b_reset demo_env (left_by demo_env BReset 150%nat (whole (demo0 KBase 3))) 500%nat) = Fin (Err AttributeError).
Proof. split; [intros (H & _); revert H; vm_compute; discriminate|vm_compute; reflexivity]. Qed.
Theorem C99_stuck : forall E cs i, ~ complete i ->
  ~ complete (left_by_all E cs i) /\ forall n u, snd (b_reset E (left_by_all E cs i) n) <> Fin (Ok u).
Proof. exact p_C99_stuck. Qed.
Print Assumptions C99_stuck.

Theorem C100_no_reset_refuted : exists E k L s n, env_ok E /\ reachable_k E k L s /\
  let i := left_by E BPlace n (whole s) in complete i /\
  exists s', run_once E 20 (obj i) = (s', Ok tt) /\ occ_count s' = L * L /\ occupation_prob s' = Ok (FDiv (FZ (L * L)) (FZ (L * L))) /\
    exists x, is_site L x /\ ~ occupied s' x.
Proof. exact p_C100. Qed.
Print Assumptions C100_no_reset_refuted.

Example ex_C107_place : let t := obj (left_by demo_env BPlace 12%nat (whole demo_a)) in let s' := fst (place_one_site demo_env demo_a) in
  reachable demo_env 3 demo_a /\ occ_count t <> occ_count demo_a /\ occ_count t = occ_count s' /\ largest_sz t = largest_sz demo_a /\ largest_sz t <> largest_sz s'.
Proof. split; [apply demo_a_reachable|]. vm_compute. repeat split; discriminate. Qed.
Theorem C107_place : forall E L s s' b n, env_ok E -> reachable E L s -> place_one_site E s = (s', Ok b) ->
  let t := obj (left_by E BPlace n (whole s)) in
  (old_or_new sel_id s t s' /\ old_or_new cur_site s t s' /\ old_or_new sel_flag s t s' /\ old_or_new cur_idx s t s' /\ old_or_new occ_count s t s' /\
   old_or_new largest_sz s t s' /\ old_or_new largest_id s t s' /\ old_or_new record s t s' /\ old_or_new x_occ s t s' /\ old_or_new y_occ s t s') /\
  after_wrap t = after_wrap s /\ wid t = wid s /\ pc_occ t = pc_occ s /\ pc_bonds t = pc_bonds s /\ pc_sites t = pc_sites s /\
  p_arr t = p_arr s /\ h_arr t = h_arr s /\ pw_arr t = pw_arr s /\ pl_arr t = pl_arr s /\ first_run t = first_run s /\ cluster_count t = cluster_count s /\ sp_p t = sp_p s.
Proof. exact p_C107_place. Qed.
Print Assumptions C107_place.

Theorem C107_pair_torn : exists E L s n, env_ok E /\ reachable E L s /\ snd (place_one_site E s) = Ok true /\
  let t := obj (left_by E BPlace n (whole s)) in
  largest_id t <> largest_id s /\ largest_sz t = largest_sz s /\ largest_sz t <> zlen (cluster_bonds t (largest_id t)).
Proof. exact p_C107_torn. Qed.
Print Assumptions C107_pair_torn.

Example ex_C107_reset : let t := obj (left_by demo_env BReset 140%nat (whole demo_a)) in reachable demo_env 3 demo_a /\ snd (reset demo_env demo_a) = Ok tt /\ t <> demo_a.
Proof. split; [apply demo_a_reachable|]. split; [vm_compute; reflexivity|]. intros H. apply (f_equal (fun s => zlen (cluster_bonds s 15))) in H. revert H. vm_compute. discriminate. Qed.
Theorem C107_reset : forall E L s s' n, env_ok E -> reachable E L s -> reset E s = (s', Ok tt) ->
  let t := obj (left_by E BReset n (whole s)) in
  (old_or_new cur_idx s t s' /\ old_or_new occ_count s t s' /\ old_or_new sel_flag s t s' /\ old_or_new largest_sz s t s' /\ old_or_new largest_id s t s' /\
   old_or_new ent s t s' /\ old_or_new after_wrap s t s' /\ old_or_new wid s t s' /\ old_or_new pc_occ s t s' /\ old_or_new pc_bonds s t s' /\ old_or_new pc_sites s t s' /\
   old_or_new p_arr s t s' /\ old_or_new h_arr s t s' /\ old_or_new pw_arr s t s' /\ old_or_new pl_arr s t s' /\
   old_or_new record s t s' /\ old_or_new x_occ s t s' /\ old_or_new y_occ s t s' /\ old_or_new sp_p s t s') /\
  sel_id t = sel_id s /\ cur_site t = cur_site s /\ max_ent t = max_ent s /\ first_run t = first_run s /\ cluster_count t = cluster_count s.
Proof. exact p_C107_reset. Qed.
Print Assumptions C107_reset.

Example ex_C107_detect : let s := after demo_env (demo0 KBase 3) [CPlace; CPlace; CPlace; CPlace; CPlace] in
  reachable demo_env 3 s /\ after_wrap s = false /\ snd (detect_wrapping s) = Ok true /\ zlen (cluster_bonds s 17) <> zlen (cluster_bonds s (wid (fst (detect_wrapping s)))).
Proof.
  split; [exists KBase, 0%nat, (demo0 KBase 3), [CPlace; CPlace; CPlace; CPlace; CPlace]; split; [apply demo0_ok|]; split; [repeat constructor|reflexivity]|].
  split; [vm_compute; reflexivity|]. split; [vm_compute; reflexivity|vm_compute; discriminate].
Qed.
Theorem C107_detect : forall E L s s' b n, env_ok E -> reachable E L s -> detect_wrapping s = (s', Ok b) ->
  let now j := if (j <=? n)%nat then s' else s in
  left_by E BDetect n (whole s) =
    whole (set_wrap (after_wrap (now 1%nat)) (wid (now 2%nat)) (pc_occ (now 3%nat)) (pc_bonds (now 4%nat)) (pc_sites (now 5%nat)) s).
Proof. exact p_C107_detect. Qed.
Print Assumptions C107_detect.

Theorem C107_lost : forall E L s s' n cs, env_ok E -> reachable E L s -> after_wrap s = false -> detect_wrapping s = (s', Ok true) -> n = 1%nat \/ n = 2%nat ->
  Forall (fun c => c <> CReset) cs ->
  let u := after E (obj (left_by E BDetect n (whole s))) cs in
  detect_wrapping u = (u, Ok true) /\ get_pc u = int_div 0 (l_site_count (lat u)) /\
  get_site_count_wrapping_cluster_pc u = 0 /\ get_bond_count_wrapping_cluster_pc u = 0.
Proof. exact p_C107_lost. Qed.
Print Assumptions C107_lost.

Theorem C107_strength : forall E L s s', env_ok E -> reachable E L s -> after_wrap s = false -> detect_wrapping s = (s', Ok true) ->
  let t := obj (left_by E BDetect 1%nat (whole s)) in
  order_param_wrapping t = int_div (zlen (cluster_bonds s (2 * (L * L) - 1))) (2 * (L * L)) /\
  order_param_wrapping s' = int_div (zlen (cluster_bonds s (wid s'))) (2 * (L * L)).
Proof. exact p_C107_strength. Qed.
Print Assumptions C107_strength.
