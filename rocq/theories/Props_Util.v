(** * Curves, durations, file names and seeded runs: C58, C59, C62, C63, C64.

    [side], [jump] and [crosses] compare two curves; [run_of] is a successful run of
    one of the drivers (UtilSpec.v). *)
From Coq Require Import String ZArith QArith List Bool Lia.
From Verif Require Import Py Lattice Cluster Perc Spec History Demo Run UtilSpec Util Drivers.
Import ListNotations.
Open Scope Z_scope.

Example ex_C58 : find_intersection [0; 1; 3; 5]%Q [2; 2; 2; 5]%Q = Ok 1 /\ crosses [0; 1; 3; 5]%Q [2; 2; 2; 5]%Q 1 /\ jump [0; 1; 3; 5]%Q [2; 2; 2; 5]%Q 2 = 1.
Proof. split; [vm_compute; reflexivity|]. split; [|vm_compute; reflexivity]. left. split; vm_compute; reflexivity. Qed.
Theorem C58_find_intersection : forall x1 x2, (length x1 = length x2 -> (2 <= length x1)%nat ->
   exists i, find_intersection x1 x2 = Ok (Z.of_nat i) /\ (S i < length x1)%nat /\
     (forall j, (S j < length x1)%nat -> jump x1 x2 j <= jump x1 x2 i) /\ (forall j, (j < i)%nat -> jump x1 x2 j < jump x1 x2 i) /\
     (forall j, (S j < length x1)%nat -> crosses x1 x2 j -> (forall j', (j' < j)%nat -> ~ crosses x1 x2 j') -> i = j) /\
     ((forall j, (S j < length x1)%nat -> side (nth j x1 0%Q) (nth j x2 0%Q) = side (nth (S j) x1 0%Q) (nth (S j) x2 0%Q)) -> i = O)) /\
  (length x1 = length x2 -> (length x1 < 2)%nat -> find_intersection x1 x2 = Err ValueError) /\
  (length x1 <> length x2 -> length x1 <> 1%nat -> length x2 <> 1%nat -> find_intersection x1 x2 = Err ValueError).
Proof. exact p_C58. Qed.
Print Assumptions C58_find_intersection.

Example ex_C58_line : find_intersection [0; 1; 3; 5]%Q [2]%Q = Ok 1.
Proof. vm_compute. repeat split; reflexivity. Qed.
Theorem C58_horizontal_line : forall x b, (length x <> 1)%nat -> find_intersection x [b] = find_intersection x (repeat b (length x)) /\
  find_intersection [b] x = find_intersection (repeat b (length x)) x.
Proof. exact find_broadcast. Qed.
Print Assumptions C58_horizontal_line.

Example ex_C59 : let '(h, m, s) := print_duration (11725 # 2) in h = 1 /\ m = 37 /\ (s == 85 # 2)%Q.
Proof. vm_compute. repeat split. Qed.
Theorem C59_print_duration : forall t, let '(h, m, s) := print_duration t in
  (t == inject_Z h * 3600 + inject_Z m * 60 + s)%Q /\
  ((0 <= t)%Q -> 0 <= h /\ 0 <= m < 60 /\ (0 <= s < 60)%Q /\ (inject_Z h * 3600 <= t < inject_Z (h + 1) * 3600)%Q).
Proof. exact p_C59. Qed.
Print Assumptions C59_print_duration.

Example ex_C62 : exists d c, run_of demo_env KL1 3 "20261116_173332" None [d; c] /\
  o_name c = "./data/SitePercolationL1__critical_values_L3_20261116_173332.txt"%string.
Proof.
  destruct (run_ensemble_entropy_order demo_env 60 0 "20261116_173332" (AClass KL1) 3 2) as [l|] eqn:E; [|vm_compute in E; discriminate].
  pose proof E as E'. vm_compute in E'. injection E' as <-.
  do 2 eexists. split; [left; exists 60%nat, 0%nat, 2; split; [reflexivity|exact E]|reflexivity].
Qed.
Theorem C62_names_identify_runs : forall E E' k k' L L' time time' w w' files files' d d', env_ok E -> env_ok E' ->
  run_of E k L time w files -> run_of E' k' L' time' w' files' -> String.length time = String.length time' ->
  In d files -> In d' files' -> o_name d = o_name d' -> k = k' /\ L = L' /\ time = time' /\ w = w'.
Proof. exact p_C62. Qed.
Print Assumptions C62_names_identify_runs.

Theorem C62_files_of_one_run : forall E k L time w files i j d d', env_ok E -> run_of E k L time w files ->
  nth_error files i = Some d -> nth_error files j = Some d' -> o_name d = o_name d' -> i = j.
Proof. exact p_C62_files. Qed.
Print Assumptions C62_files_of_one_run.

Example ex_C62_pool : match run_simulation_threads_v4 (fun i => mkMachine demo_env (Z.to_nat i) "20261116_173332") 60 3 5 2 0 with
  | Ok [Ok [d; c]; Ok [d'; c']] =>
      o_name d = "./data/SitePercolationL0__entropy_order_L3_20261116_173332_th0.txt"%string /\
      o_name c' = "./data/SitePercolationL0__critical_values_L3_20261116_173332_th1.txt"%string
  | _ => False end.
Proof. vm_compute. split; reflexivity. Qed.
Theorem C62_workers_do_not_collide : forall W f L En th x results i j a b fs gs d e, (forall n, env_ok (m_env (W n))) ->
  (forall n m, String.length (m_time (W n)) = String.length (m_time (W m))) ->
  run_simulation_threads_v4 W f L En th x = Ok results \/ run_simulation_shortest_path_threads W f L En th = Ok results ->
  nth_error results i = Some (Ok fs) -> nth_error results j = Some (Ok gs) ->
  nth_error fs a = Some d -> nth_error gs b = Some e -> o_name d = o_name e -> i = j /\ a = b.
Proof. exact p_C62_pool. Qed.
Print Assumptions C62_workers_do_not_collide.

Example ex_C62_overwrite : match run_ensemble_entropy_order demo_env 60 0 "20261116_173332" (AClass KL0) 3 2,
        run_ensemble_entropy_order demo_env 60 7 "20261116_173332" (AClass KL0) 3 1 with
  | Ok [d; _], Ok [d'; _] => o_name d = o_name d' /\ o_rows d <> o_rows d'
  | _, _ => False end.
Proof. vm_compute. split; [reflexivity|discriminate]. Qed.
Theorem C62_serial_runs_overwrite : forall E E' f f' t0 t0' time k L n n' files files', env_ok E -> env_ok E' ->
  run_ensemble_entropy_order E f t0 time (AClass k) L n = Ok files ->
  run_ensemble_entropy_order E' f' t0' time (AClass k) L n' = Ok files' -> map o_name files = map o_name files'.
Proof. exact p_C62_overwrite. Qed.
Print Assumptions C62_serial_runs_overwrite.

Example ex_C63 : match draw_vertical_line_at (1 # 2) [0; 1]%Q 5 with Ok (xx, yy) => length xx = 5%nat /\ (nth 3 yy 0 == 3 # 4)%Q | Err _ => False end.
Proof. vm_compute. split; reflexivity. Qed.
Theorem C63_straight_lines : forall v a b n, 2 <= n -> exists l,
  draw_vertical_line_at v [a; b] n = Ok (repeat v (Z.to_nat n), l) /\
  draw_horizontal_line_at v [a; b] n = Ok (l, repeat v (Z.to_nat n)) /\
  length l = Z.to_nat n /\ (nth 0 l 0 == a)%Q /\ (nth (Z.to_nat n - 1) l 0 == b)%Q /\
  forall i, (S i < Z.to_nat n)%nat -> (nth (S i) l 0 - nth i l 0 == (b - a) / inject_Z (n - 1))%Q.
Proof. exact p_C63. Qed.
Print Assumptions C63_straight_lines.

Theorem C63_default_xrange : forall v n, draw_horizontal_line_at v default_xrange n = Err IndexError.
Proof. exact p_C63_default. Qed.
Print Assumptions C63_default_xrange.

Theorem C63_other_sizes : forall v n r, (n < 0 -> (2 <= length r)%nat -> draw_vertical_line_at v r n = Err ValueError /\ draw_horizontal_line_at v r n = Err ValueError) /\
  ((length r < 2)%nat -> draw_vertical_line_at v r n = Err IndexError /\ draw_horizontal_line_at v r n = Err IndexError) /\
  ((2 <= length r)%nat -> draw_vertical_line_at v r 0 = Ok ([], []) /\ draw_horizontal_line_at v r 0 = Ok ([], []) /\
     draw_vertical_line_at v r 1 = Ok ([v], [nth 0 r 0%Q]) /\ draw_horizontal_line_at v r 1 = Ok ([nth 0 r 0%Q], [v])).
Proof. exact p_C63_other. Qed.
Print Assumptions C63_other_sizes.

Example ex_C64 : run_ensemble_entropy_order_threads_v2 demo_env 60 0 "20261116_173332" (AClass KL0) 3 2 0 (Some (fun n => Z.of_nat n)) <>
  run_ensemble_entropy_order_threads_v2 demo_env 60 0 "20261116_173332" (AClass KL0) 3 2 0 (Some (fun _ => 0)).
Proof. vm_compute. discriminate. Qed.
Theorem C64_seeded_runs : forall E E' f t0 t0' time k L n i d, 0 < L -> e_ord E = e_ord E' ->
  run_ensemble_entropy_order_threads_v2 E f t0 time (AClass k) L n i (Some d) =
  run_ensemble_entropy_order_threads_v2 E' f t0' time (AClass k) L n i (Some d) /\
  ensemble_shortest_path_v2_thread E f t0 time (AClass k) L n i (Some d) =
  ensemble_shortest_path_v2_thread E' f t0' time (AClass k) L n i (Some d).
Proof. exact p_C64. Qed.
Print Assumptions C64_seeded_runs.
