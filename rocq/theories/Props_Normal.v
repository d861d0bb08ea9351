(** * Normal use and runs that stop early: C45, C47, C50-C52.

    [plain] calls install no custom list and swap no ids, [attempts] tells which
    calls try to place a site, [run_state E n s] is the object after [n] iterations
    of a run and [first_wrapping E s n] says that the wrapping is first recorded by
    the [n]-th one.  [on_full_line] is the stopping criterion of the shortest-path
    run: the row or the column of the last placed site lies in the wrapping cluster. *)
From Coq Require Import ZArith List Bool Lia Permutation.
From Verif Require Import Py Lattice Cluster Perc Spec History Demo Witness Lines Normal Stop.
Import ListNotations.
Open Scope Z_scope.

Example ex_C45 : get_index_sequence (demo_f KL1) = Ok [(0, 1); (0, 2)] /\ occ_count (demo_f KL1) = 2.
Proof. vm_compute. repeat split; reflexivity. Qed.
Theorem C45_recorded_order : forall E L s, env_ok E -> reachable_k E KL1 L s ->
  let index_of i := (i / L, i mod L) in
  exists order, get_index_sequence s = Ok (map index_of order) /\ NoDup order /\ length order = Z.to_nat (occ_count s) /\
    (forall i, In i order <-> is_site L i /\ occupied s i) /\
    (let s' := fst (place_one_site E s) in
     match snd (place_one_site E s), sel_flag s' with
     | Ok true, Some SUCESS => exists x, sel_id s' = Some x /\ ~ occupied s x /\ occupied s' x /\
                                 get_index_sequence s' = Ok (map index_of (order ++ [x]))
     | _, _ => get_index_sequence s' = Ok (map index_of order)
     end) /\
    get_index_sequence (fst (detect_wrapping s)) = Ok (map index_of order) /\
    get_index_sequence (fst (reset E s)) = Ok [].
Proof. exact p_C45. Qed.
Print Assumptions C45_recorded_order.

Example ex_C47 : existsb attempts [CDetect; CPlace; CReset; CRun 3] = true /\ snd (detect_wrapping (demo0 KL2 3)) = Err TypeError.
Proof. vm_compute. repeat split; reflexivity. Qed.
Theorem C47_no_exceptions : forall E k L t0 s0 cs, env_ok E -> new_perc E k L t0 = Ok s0 -> Forall plain cs ->
  let s := after E s0 cs in
  (exists b, snd (place_one_site E s) = Ok b) /\
  snd (reset E s) = Ok tt /\
  (forall f, 5 * (L * L) < Z.of_nat f -> snd (run_once E f s) = Ok tt) /\
  (exists v, occupation_prob s = Ok v) /\ (exists v, order_param_largest_clstr s = Ok v) /\ (exists v, order_param_wrapping s = Ok v) /\
  (exists v, entropy_v1 s = Ok v) /\ (exists v, get_pc s = Ok v) /\ (exists l, get_index_sequence s = Ok l) /\
  (if existsb attempts cs then exists b, snd (detect_wrapping s) = Ok b else snd (detect_wrapping s) = Err TypeError).
Proof. exact p_C47. Qed.
Print Assumptions C47_no_exceptions.

Example ex_C50 : fresh_plain demo_env KSP 3 (demo0 KSP 3) /\ sp_p (fst (run_once demo_env 10 (demo0 KSP 3))) = FDiv (FZ 5) (FZ 9).
Proof. split; [apply demo0_fresh|]. vm_compute. reflexivity. Qed.
Theorem C50_stops : forall E L s f, env_ok E -> fresh_plain E KSP L s -> (Z.to_nat (L * L) < f)%nat ->
  exists s', run_once E f s = (s', Ok tt) /\
    (3 <= L -> exists n, (1 <= n <= Z.to_nat (L * L))%nat /\
       sp_p s' = FDiv (FZ (Z.of_nat n)) (FZ (L * L)) /\ occ_count s' = Z.of_nat n /\ wid s' = wid (trace E n s) /\
       (forall i, is_site L i -> site_label s' i = site_label (trace E n s) i) /\
       on_full_line L s' /\ (forall j, (1 <= j < n)%nat -> ~ on_full_line L (trace E j s))) /\
    (L <= 2 -> sp_p s' = FZ 0 /\ forall i, is_site L i -> occupied s' i).
Proof. exact p_C50. Qed.
Print Assumptions C50_stops.

Theorem C50_first_full_line_refuted : exists E L s n r, env_ok E /\ 3 <= L /\ new_perc E KSP L 0 = Ok s /\
  sp_p (fst (run_once E (S (Z.to_nat (L * L))) s)) = FDiv (FZ (Z.of_nat (S n))) (FZ (L * L)) /\
  after_wrap (trace E n s) = true /\ 0 <= r < L /\ full_row L (trace E n s) r.
Proof. exact p_C50_first. Qed.
Print Assumptions C50_first_full_line_refuted.

Example ex_C51 : scan_all_cols demo_b = Ok true /\ scan_all_rows demo_b = Ok false /\ scan_row_col_of_selected_site demo_b (0, 1) = Ok (true, false).
Proof. vm_compute. repeat split; reflexivity. Qed.
Theorem C51_scans : forall E L s, env_ok E -> reachable E L s ->
  (exists b, scan_all_rows s = Ok b /\
     (b = true <-> after_wrap s = true /\ exists c, 0 <= c < L /\ forall r, 0 <= r < L -> site_label s (r * L + c) = wid s)) /\
  (exists b, scan_all_cols s = Ok b /\
     (b = true <-> after_wrap s = true /\ exists r, 0 <= r < L /\ forall c, 0 <= c < L -> site_label s (r * L + c) = wid s)) /\
  (forall r c, 0 <= r < L -> 0 <= c < L -> exists cf rf, scan_row_col_of_selected_site s (r, c) = Ok (cf, rf) /\
     (cf = true <-> forall x, 0 <= x < L -> site_label s (r * L + x) = wid s) /\
     (rf = true <-> forall x, 0 <= x < L -> site_label s (x * L + c) = wid s)).
Proof. exact p_C51. Qed.
Print Assumptions C51_scans.

Example ex_C52 : snd (test_run_once demo_env 46 (demo0 KBase 3)) = Err AssertionError /\ snd (test_run_once demo_env 21 (demo0 KBase 2)) = Ok tt.
Proof. vm_compute. repeat split; reflexivity. Qed.
Theorem C52_test_run_once : forall E k L t0 s0 cs f, env_ok E -> new_perc E k L t0 = Ok s0 -> Forall plain cs -> 5 * (L * L) < Z.of_nat f ->
  let s := after E s0 cs in after_wrap s = false ->
  (snd (test_run_once E f s) = Ok tt \/ snd (test_run_once E f s) = Err AssertionError) /\
  (snd (test_run_once E f s) = Err AssertionError <->
   exists n, first_wrapping E s n /\
     forall i, is_site L i -> occupied (run_state E n s) i -> site_label (run_state E n s) i = wid (run_state E n s)).
Proof. exact p_C52. Qed.
Print Assumptions C52_test_run_once.
