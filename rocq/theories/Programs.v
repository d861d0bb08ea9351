(** * Programs: the demonstration functions at the end of the source files, as
    programs that return what they print.

    A call of [print] with several arguments is the list of these arguments;
    text printed by the viewing methods is one argument (View.v).  The shipped
    functions fix the length and the seed; here both are parameters.  The number
    [f] bounds the iterations of a loop. *)
From Coq Require Import String ZArith List Bool.
From Verif Require Import Py Lattice Cluster Perc Run View Script.
Import ListNotations.
Open Scope Z_scope.

Inductive item := TStr (s : string) | TNum (e : fexpr).
Definition print := list item.

(** One call of [viewLattice(format)], perc:37-49. *)
Definition view_of (format : Z) (s : perc) : res (list print) :=
  t <- viewLattice s format ;; Ok [[TStr t]].
(** perc:1027-1030 ([largest = false]); L0:173-177 and L1L2:291-295 ([largest = true]). *)
Definition values_of (largest : bool) (s : perc) : res (list print) :=
  p <- occupation_prob s ;;
  h1 <- entropy_v1 s ;;
  pw <- order_param_wrapping s ;;
  if largest then
    pl <- order_param_largest_clstr s ;;
    Ok [[TStr "p= "; TNum p; TStr " entropy_v1 "; TNum h1; TStr " entropy_v2 "; TNum (entropy_v2 s);
         TStr " order wrapping "; TNum pw; TStr " order largest "; TNum pl]]
  else Ok [[TStr "p= "; TNum p; TStr " entropy_v1 "; TNum h1; TStr " entropy_v2 "; TNum (entropy_v2 s);
            TStr " order "; TNum pw]]%string.
(** L0:59-61 and 149-151. *)
Definition announce (w : bool) (s : perc) : res (list print) :=
  Ok (if w then [[TStr "Wrapping detected"]] else [])%string.
Definition quiet (w : bool) (s : perc) : res (list print) := Ok [].

(** The loops [while p.place_one_site(): ...] of these functions: print [pre]; call
    [detect_wrapping] if [post] is given, and print what it says about the answer. *)
Fixpoint show_loop (E : env) (pre : perc -> res (list print)) (post : option (bool -> perc -> res (list print))) (f : nat)
  : M (list print) :=
  match f with
  | O => raise OutOfFuel
  | S f =>
      do placed <~ place_one_site E ;
      if placed then
        do s <~ get ;
        do a <~ lift (pre s) ;
        do b <~ (match post with
                 | None => ret []
                 | Some post => do w <~ detect_wrapping ; do s <~ get ; lift (post w s)
                 end) ;
        do r <~ show_loop E pre post f ;
        ret (a ++ b ++ r)
      else ret []
  end.

(** percolation_sq_lattice.py:903-931 [test_site_percolation]. *)
Definition test_site_percolation (E : env) (f : nat) (L : Z) (t0 : nat) : res (list print) :=
  s0 <- new_perc E KBase L t0 ;;
  b0 <- print_bonds (lat s0) ;;
  i0 <- print_sites (lat s0) ;;
  v0 <- view_of 1 s0 ;;
  let '(s, r) := show_loop E (fun _ => Ok []) None f s0 in
  _ <- r ;;
  v1 <- view_of 1 s ;;
  v2 <- view_of 2 s ;;
  v3 <- view_of 0 s ;;
  Ok ([[TStr b0]; [TStr i0]; [TStr (viewCluster s0)]] ++ v0 ++ v1 ++ v2 ++ v3 ++ [[TStr (viewCluster s)]]).
(** percolation_sq_lattice.py:933-1016 [test_relative_index]: fourteen times
    [place_one_site(); viewLattice(3)], from the twelfth time on also [viewLattice(4)];
    [n] counts down from 14. *)
Fixpoint place_and_view (E : env) (n : nat) : M (list print) :=
  match n with
  | O => ret []
  | S m =>
      run place_one_site E ;
      do s <~ get ;
      do a <~ lift (view_of 3 s) ;
      do b <~ (if (n <=? 3)%nat then lift (view_of 4 s) else ret []) ;
      do r <~ place_and_view E m ;
      ret (a ++ b ++ r)
  end.
Definition test_relative_index_base (E : env) (L : Z) (t0 : nat) : res (list print) :=
  s0 <- new_perc E KBase L t0 ;;
  snd (place_and_view E 14 s0).
(** percolation_sq_lattice.py:1019-1047 [test_detect_wrapping]; the detection call is commented out. *)
Definition test_detect_wrapping_base (E : env) (f : nat) (L : Z) (t0 : nat) : res (list print) :=
  s0 <- new_perc E KBase L t0 ;;
  snd (show_loop E (values_of false) None f s0).
(** percolation_sq_lattice_L0.py:51-63 [test_relative_index]. *)
Definition test_relative_index_L0 (E : env) (f : nat) (L : Z) (t0 : nat) : res (list print) :=
  s0 <- new_perc E KBase L t0 ;;
  snd (show_loop E (view_of 3) (Some announce) f s0).
(** percolation_sq_lattice_L0.py:142-162 [test_reset_relative_index]. *)
Definition test_reset_relative_index (E : env) (f : nat) (L : Z) (t0 : nat) : res (list print) :=
  s0 <- new_perc E KBase L t0 ;;
  let '(s1, r1) := show_loop E (view_of 3) (Some announce) f s0 in
  a <- r1 ;;
  let '(s2, r2) := reset E s1 in
  _ <- r2 ;;
  b <- snd (show_loop E (view_of 3) (Some announce) f s2) ;;
  Ok (a ++ [[TStr "Resetting now ************** <<<<<<<<<<"%string]] ++ b).
(** percolation_sq_lattice_L0.py:165-196 [test_detect_wrapping]: detection is called twice
    per placement and the loop ends when the second call says True. *)
Fixpoint values_until (E : env) (f : nat) : M (list print) :=
  match f with
  | O => raise OutOfFuel
  | S f =>
      do placed <~ place_one_site E ;
      if placed then
        do s <~ get ;
        do a <~ lift (values_of true s) ;
        run detect_wrapping ;
        do w <~ detect_wrapping ;
        if w then
          do s <~ get ;
          do p <~ lift (occupation_prob s) ;
          do pl <~ lift (order_param_largest_clstr s) ;
          ret (a ++ [[TStr "p= "; TNum p; TStr " entropy "; TNum (entropy_v2 s); TStr " order "; TNum pl];
                     [TStr "Wrapping detected ***************** <<<"]]%string)
        else do r <~ values_until E f ; ret (a ++ r)
      else ret []
  end.
Definition test_detect_wrapping_L0 (E : env) (f : nat) (L : Z) (t0 : nat) : res (list print) :=
  s0 <- new_perc E KL0 L t0 ;;
  snd (values_until E f s0).
(** percolation_sq_lattice_L1L2.py:283-314 [test_detect_wrapping_L1L2]. *)
Definition test_detect_wrapping_L1L2 (E : env) (f : nat) (L : Z) (t0 : nat) : res (list print) :=
  s0 <- new_perc E KL1 L t0 ;;
  snd (show_loop E (values_of true) (Some quiet) f s0).
(** The lines of [occupied_summary], L1L2:43-45 and 163-166. *)
Definition summary_of (s : perc) : list print :=
  [TStr (match kind s with KL2 => "SitePercolationL2.occupied_summary" | _ => "SitePercolationL1.occupied_summary" end)]%string ::
  map (fun '(t, n) => [TStr t; TNum (FZ n); TStr " times"%string]) (occupied_summary s).
(** percolation_sq_lattice_L1L2.py:261-280 [test_L1]: detection comes before the view. *)
Definition test_L1 (E : env) (f : nat) (L : Z) (t0 : nat) : res (list print) :=
  s0 <- new_perc E KL1 L t0 ;;
  let '(s, r) := show_loop E (fun _ => Ok []) (Some (fun _ => view_of 3)) f s0 in
  a <- r ;;
  pc <- get_pc s ;;
  Ok (a ++ [[TStr "tc = "%string; TNum pc]] ++ summary_of s ++ [[TStr (viewCluster s)]]).
(** percolation_sq_lattice_L1L2.py:317-330 [test_L2]: no detection. *)
Definition test_L2 (E : env) (f : nat) (L : Z) (t0 : nat) : res (list print) :=
  s0 <- new_perc E KL2 L t0 ;;
  let '(s, r) := show_loop E (view_of 3) None f s0 in
  a <- r ;;
  v <- view_of 1 s ;;
  Ok (a ++ summary_of s ++ v ++ [[TStr (viewCluster s)]]).

(** lattice.py:610-619 [mTest_neighbors]. *)
Definition mTest_neighbors (L : Z) : res (list print) :=
  lat <- new_lattice L ;;
  v0 <- lat_view lat 0 ;;
  v1 <- lat_view lat 1 ;;
  v2 <- lat_view lat 2 ;;
  Ok [[TStr v0]; [TStr v1]; [TStr v2]; [TStr (list_all_sites lat)]; [TStr (list_all_bonds lat)]].
(** test_py/test_lattice.py:11-23 [test_index]: two ids and the listings.  Printing an id is one line. *)
Definition test_index (L : Z) : res (list print) :=
  lat <- new_lattice L ;;
  Ok [[TStr "index "; TStr "(0, 1, 2)"; TStr " id "; TNum (FZ (calculate_id_from_index lat [0; 1; 2]))];
      [TStr (list_all_bonds lat)];
      [TStr "index "; TStr "(3, 2)"; TStr " id "; TNum (FZ (calculate_id_from_index lat [3; 2]))];
      [TStr (list_all_sites lat)]]%string.
(** test_py/test_lattice.py:25-48 [test_neighbors]. *)
Definition test_neighbors (L : Z) : res unit :=
  lat <- new_lattice L ;;
  _ <- scan_sites lat ;;
  scan_bonds lat.

(** shortest_path_run.py:9-16 [run_shortest_path]. *)
Definition run_shortest_path (E : env) (f : nat) (L : Z) (t0 : nat) : res (list print) :=
  s0 <- new_perc E KSP L t0 ;;
  let '(s, r) := run_once E f s0 in
  _ <- r ;;
  v <- view_of 3 s ;;
  Ok (v ++ [[TNum (sp_p s)]]).
(** shortest_path_run.py:19-24 [ensemble_shortest_path_v1]. *)
Fixpoint shortest_print_loop (E : env) (f : nat) (n : nat) (e : Z) : M (list print) :=
  match n with
  | O => ret []
  | S n =>
      run reset E ;
      run run_once E f ;
      do s <~ get ;
      do r <~ shortest_print_loop E f n (e + 1) ;
      ret ([TStr "iteration "; TNum (FZ e); TStr " p*= "; TNum (sp_p s)] :: r)%string
  end.
Definition ensemble_shortest_path_v1 (E : env) (f : nat) (L ensemble_size : Z) (t0 : nat) : res (list print) :=
  s0 <- new_perc E KSP L t0 ;;
  snd (shortest_print_loop E f (Z.to_nat ensemble_size) 1 s0).
(** rsbd:103-126 [run_simulation_threads_v3]: one process per worker. *)
Definition run_simulation_threads_v3 (W : Z -> machine) (f : nat) (length ensemble_count thread : Z)
  : res (list (res (list out_file))) :=
  if thread =? 0 then Err ZeroDivisionError
  else
    let En_per_thread := ensemble_count / thread in
    Ok (map (fun i => run_ensemble_entropy_order_threads_v2 (m_env (W i)) f (m_tick (W i)) (m_time (W i))
                        (AClass KL0) length En_per_thread i None) (zrange thread)).
(** rsbd:159-168 [run_simulations]: [seed = 0] is the stream [d]. *)
Definition run_simulations (E : env) (f t0 : nat) (time : string) (d : nat -> Z) : res (list out_file) :=
  run_ensemble_entropy_order_threads_v2 E f t0 time (AClass KL0) 5 100 0 (Some d).
(** main.py:59-75: what the script runs, [run_simulation_threads_v4(10, 100, 2, interaction=1)]. *)
Definition main_script (W : Z -> machine) (f : nat) : res (list (res (list out_file))) :=
  run_simulation_threads_v4 W f 10 100 2 1.
