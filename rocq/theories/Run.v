(** * Run: drivers (run_py), signatures, and the numeric helpers of analyze/lines.py and main.py.

    Abbreviations: ens = run_py/ensemble.py, rsbd = run_py/rsbd_percolatioin_run.py,
    spr = run_py/shortest_path_run.py, lines = source_py/analyze/lines.py.

    Files are values: [out_file] is what a driver hands to [np.savetxt].  Printing,
    logging, wall-clock measurements, the existence of the directory ./data and the
    decimal rounding of [fmt="%.10e"] are not modelled.  The date/time stamp is a
    parameter. *)
From Coq Require Import String DecimalString ZArith QArith Qround List Bool.
From Verif Require Import Py Lattice Cluster Perc.
Import ListNotations.
Open Scope Z_scope.

(* ------------------------------------------------------------------ *)
(** ** Signatures *)

(** perc:124,189-190; L0.py:12-13,23-24; L1L2:15-16,40-41; L1L2:146-147,160-161; sp:15-16,27-28. *)
Definition get_signature (s : perc) : string :=
  match kind s with
  | KBase => "SitePercolation"
  | KL0 => "SitePercolationL0_"
  | KL1 => "SitePercolationL1_"
  | KL2 => "SitePercolationL2_"
  | KSP => "SitePercolationshortest_path_"
  end.

(* ------------------------------------------------------------------ *)
(** ** Files *)

(** One [np.savetxt] call: name, the header entries that depend on the run
    ('length'/'L', 'ensemble_size'/'En'), 'columns', 'desc' and the rows.  The
    header entries 'date' and 'time' are left out. *)
Record out_file := mkOut {
  o_name : string; o_length : Z; o_ensemble : Z;
  o_columns : list string; o_desc : list string;
  o_rows : list (list fexpr)
}.

(** ["{}".format(n)] for an integer. *)
Definition str_int (n : Z) : string := NilZero.string_of_int (Z.to_int n).

(** ens:54-59 and 69, 76-81 and 91, 131-139 and 152, spr:27-32 and 45: signature, kind of data, length, time and worker. *)
Definition file_name (signature tag : string) (length : Z) (time : string) (thread : option Z) : string :=
  let filename := (signature ++ (tag ++ str_int length ++ "_") ++ time)%string in
  let filename := match thread with Some i => (filename ++ "_th" ++ str_int i)%string | None => filename end in
  ("./data/" ++ filename ++ ".txt")%string.

(** ens:53-72 *)
Definition write_entropy_order (time : string) (data : list (list fexpr)) (ensembleSize length : Z)
  (signature : string) (thread : option Z) : out_file :=
  mkOut (file_name signature "_entropy_order_L" length time thread) length ensembleSize
    ["p"; "H"; "P1"; "P2"]%string
    ["p=occupation probability"; "H=entropy";
     "P1=order parameter by wrapping cluster"; "P2=order parameter by largest cluster"]%string data.
(** ens:75-93 *)
Definition write_critical_values (time : string) (data : list (list fexpr)) (ensembleSize length : Z)
  (signature : string) (thread : option Z) : out_file :=
  mkOut (file_name signature "_critical_values_L" length time thread) length ensembleSize
    ["pc"; "wrapping cluster site count at pc"; "wrapping cluster bond count at pc"]%string
    ["pc=critical ocupation probability"]%string data.
(** ens:130-153: the file written by run_ensemble_entropy_order_threads itself. *)
Definition write_threads (time : string) (data : list (list fexpr)) (ensembleSize length : Z)
  (signature : string) (thread : option Z) : out_file :=
  mkOut (file_name signature "_entropy_order_L" length time thread) length ensembleSize
    ["p"; "H"; "P1"; "P2"]%string
    ["p=occupation probability"; "H=entropy";
     "P2=order parameter by wrapping cluster"; "P1=order parameter by largest cluster"]%string data.
(** spr:26-49 *)
Definition write_p_p_star (time : string) (data : list (list fexpr)) (ensembleSize length : Z)
  (signature : string) (thread : option Z) : out_file :=
  mkOut (file_name signature "_shortest_path_p_L" length time thread) length ensembleSize
    ["pc"; "p*"]%string
    ["pc=critical ocupation probability";
     "p*=occupation probability for which the wrapping cluster creates a shortest path for the first time"]%string data.

(* ------------------------------------------------------------------ *)
(** ** Ensembles

    [thread_count] is an integer: the progress message computes [thread_count+1]
    (ens:125, 196), so None cannot be passed. *)

Definition add_row (a b : list fexpr) : list fexpr := map (fun '(x, y) => FAdd x y) (combine a b).
(** [data += aaa] for two arrays with the same number of columns: entrywise; one row
    is broadcast; ValueError for other shapes. *)
Definition add_data (d a : list (list fexpr)) : res (list (list fexpr)) :=
  if (length d =? length a)%nat then Ok (map (fun '(x, y) => add_row x y) (combine d a))
  else match a with
       | [r] => Ok (map (fun x => add_row x r) d)
       | _ => Err ValueError
       end.
(** ens:29-33 [if data is None: data = aaa else: data += aaa]. *)
Definition accumulate (data : option (list (list fexpr))) (aaa : list (list fexpr)) : res (list (list fexpr)) :=
  match data with None => Ok aaa | Some d => add_data d aaa end.
(** ens:41 [data /= ensembleSize]; [None / n] is a TypeError. *)
Definition average (data : option (list (list fexpr))) (ensembleSize : Z) : res (list (list fexpr)) :=
  match data with
  | None => Err TypeError
  | Some d => Ok (map (map (fun x => FDiv x (FZ ensembleSize))) d)
  end.

(** ens:14-39, 105-126, 172-199: the loop over realizations.  [show] tells whether
    the last row is printed ([print(aaa[-1,:])], ens:28), which needs a row;
    [crit] is critical_data (ens:23-26); run_ensemble_entropy_order_threads
    does not collect it, which the caller below ignores. *)
Fixpoint ensemble_loop (E : env) (fuel : nat) (show : bool) (n : nat)
  (data : option (list (list fexpr))) (crit : list (list fexpr))
  : M (option (list (list fexpr)) * list (list fexpr)) :=
  match n with
  | O => ret (data, crit)
  | S n =>
      run reset E ;
      run run_once E fuel ;
      do s <~ get ;
      do pc <~ lift (get_pc s) ;
      let crit := crit ++ [[pc; FZ (get_site_count_wrapping_cluster_pc s); FZ (get_bond_count_wrapping_cluster_pc s)]] in
      do aaa <~ lift (get_data_array s) ;
      run lift (if show then match aaa with [] => Err IndexError | _ => Ok tt end else Ok tt) ;
      do data <~ lift (accumulate data aaa) ;
      ensemble_loop E fuel show n (Some data) crit
  end.

(** A value passed where a percolation class is expected. *)
Inductive pyarg := AClass (k : pkind) | AInt (n : Z).
(** [percolationClass(length=length)]; calling an integer is a TypeError. *)
Definition construct (E : env) (a : pyarg) (length : Z) (t0 : nat) : res perc :=
  match a with AClass k => new_perc E k length t0 | AInt _ => Err TypeError end.

(** ens:8-50 [run_ensemble_entropy_order]. *)
Definition run_ensemble_entropy_order (E : env) (fuel : nat) (t0 : nat) (time : string)
  (cls : pyarg) (length ensembleSize : Z) : res (list out_file) :=
  s0 <- construct E cls length t0 ;;
  let '(s, r) := ensemble_loop E fuel true (Z.to_nat ensembleSize) None [] s0 in
  '(data, crit) <- r ;;
  data <- average data ensembleSize ;;
  Ok [write_entropy_order time data ensembleSize length (get_signature s) None;
      write_critical_values time crit ensembleSize length (get_signature s) None].

(** ens:96-157 [run_ensemble_entropy_order_threads]. *)
Definition run_ensemble_entropy_order_threads (E : env) (fuel : nat) (t0 : nat) (time : string)
  (cls : pyarg) (length ensembleSize : Z) (thread_count : Z) : res (list out_file) :=
  s0 <- construct E cls length t0 ;;
  let '(s, r) := ensemble_loop E fuel false (Z.to_nat ensembleSize) None [] s0 in
  '(data, _) <- r ;;
  data <- average data ensembleSize ;;
  Ok [write_threads time data ensembleSize length (get_signature s) (Some thread_count)].

(** perc:20-22, ens:168-171, spr:59-62: with a seed a second object is built after [random.seed];
    [seed] carries the stream that this seed starts. The first object is dropped. *)
Definition construct_seeded (E : env) (cls : pyarg) (length : Z) (t0 : nat) (seed : option (nat -> Z)) : res (env * perc) :=
  s0 <- construct E cls length t0 ;;
  match seed with
  | None => Ok (E, s0)
  | Some d => let E' := mkEnv (e_ord E) d in s1 <- construct E' cls length 0 ;; Ok (E', s1)
  end.

(** ens:160-214 [run_ensemble_entropy_order_threads_v2]. *)
Definition run_ensemble_entropy_order_threads_v2 (E : env) (fuel : nat) (t0 : nat) (time : string)
  (cls : pyarg) (length ensembleSize : Z) (thread_count : Z) (seed : option (nat -> Z)) : res (list out_file) :=
  '(E, s0) <- construct_seeded E cls length t0 seed ;;
  let '(s, r) := ensemble_loop E fuel false (Z.to_nat ensembleSize) None [] s0 in
  '(data, crit) <- r ;;
  data <- average data ensembleSize ;;
  Ok [write_entropy_order time data ensembleSize length (get_signature s) (Some thread_count);
      write_critical_values time crit ensembleSize length (get_signature s) (Some thread_count)].

(** spr:64-79: the loop of the shortest-path ensembles. *)
Fixpoint shortest_loop (E : env) (fuel : nat) (n : nat) (crit : list (list fexpr)) : M (list (list fexpr)) :=
  match n with
  | O => ret crit
  | S n =>
      run reset E ;
      run run_once E fuel ;
      do s <~ get ;
      do pc <~ lift (get_pc s) ;
      shortest_loop E fuel n (crit ++ [[pc; sp_p s]])
  end.
(** spr:51-89 [ensemble_shortest_path_v2_thread] for the class ShortestPathAfter_pc
    (other classes have no [get_shortest_path_p]: AttributeError in the first realization). *)
Definition ensemble_shortest_path_v2_thread (E : env) (fuel : nat) (t0 : nat) (time : string)
  (cls : pyarg) (length ensembleSize : Z) (thread_count : Z) (seed : option (nat -> Z)) : res (list out_file) :=
  '(E, s0) <- construct_seeded E cls length t0 seed ;;
  if (match cls with AClass KSP => true | _ => false end) || (ensembleSize <=? 0) then
    let '(s, r) := shortest_loop E fuel (Z.to_nat ensembleSize) [] s0 in
    crit <- r ;;
    Ok [write_p_p_star time crit ensembleSize length (get_signature s) (Some thread_count)]
  else Err AttributeError.

(* ------------------------------------------------------------------ *)
(** ** Worker pools *)

(** What worker [i] finds when it starts: its interpreter ([e_ord], random stream),
    the position in the stream and the clock. *)
Record machine := mkMachine { m_env : env; m_tick : nat; m_time : string }.

(** rsbd:128-156 [run_simulation_threads_v4] (rsbd:103-126 [_v3] is the case
    [interaction = 0]): one process per worker; an exception ends that worker only.
    [En // 0] is a ZeroDivisionError. *)
Definition run_simulation_threads_v4 (W : Z -> machine) (fuel : nat) (length ensemble_count thread interaction : Z)
  : res (list (res (list out_file))) :=
  let cls := if interaction =? 1 then KL1 else if interaction =? 2 then KL2 else KL0 in
  if thread =? 0 then Err ZeroDivisionError
  else
    let En_per_thread := ensemble_count / thread in
    Ok (map (fun i => run_ensemble_entropy_order_threads_v2 (m_env (W i)) fuel (m_tick (W i)) (m_time (W i))
                        (AClass cls) length En_per_thread i None) (zrange thread)).
(** spr:91-111 [run_simulation_shortest_path_threads]. *)
Definition run_simulation_shortest_path_threads (W : Z -> machine) (fuel : nat) (length ensemble_count thread : Z)
  : res (list (res (list out_file))) :=
  if thread =? 0 then Err ZeroDivisionError
  else
    let En_per_thread := ensemble_count / thread in
    Ok (map (fun i => ensemble_shortest_path_v2_thread (m_env (W i)) fuel (m_tick (W i)) (m_time (W i))
                        (AClass KSP) length En_per_thread i None) (zrange thread)).
(** rsbd:63-81 [run_simulation_threads]: [args=(LL, En, i)] binds percolationClass = LL,
    length = En, ensembleSize = i. *)
Definition run_simulation_threads (W : Z -> machine) (fuel : nat) : list (res (list out_file)) :=
  map (fun '(i, LL) => run_ensemble_entropy_order_threads (m_env (W i)) fuel (m_tick (W i)) (m_time (W i)) (AInt LL) 500 i 0)
      [(0, 200); (1, 300); (2, 400)].
(** rsbd:83-101 [run_simulation_threads_v2]. *)
Definition run_simulation_threads_v2 (W : Z -> machine) (fuel : nat) : list (res (list out_file)) :=
  map (fun i => run_ensemble_entropy_order_threads (m_env (W i)) fuel (m_tick (W i)) (m_time (W i)) (AInt 10) (1000 / 2) i 0)
      (zrange 2).

(* ------------------------------------------------------------------ *)
(** ** Recorded realizations *)

(** rsbd:10-61 [single_realization]: the entries of the JSON header that record the run. *)
Record cross_check := mkCheck {
  x_length : Z; x_ids : list Z; x_indices : list index; x_pc : fexpr; x_sites : Z; x_bonds : Z;
  x_entropy : list fexpr; x_largest : list fexpr; x_wrapping : list fexpr
}.
Definition single_realization (E : env) (fuel : nat) (t0 : nat) (k : pkind) (length : Z) : res cross_check :=
  s0 <- new_perc E k length t0 ;;
  let '(s1, r1) := reset E s0 in
  _ <- r1 ;;
  let '(s, r) := run_once E fuel s1 in
  _ <- r ;;
  ixs <- get_index_sequence s ;;
  pc <- get_pc s ;;
  Ok (mkCheck length (get_site_id_sequence s) ixs pc (get_site_count_wrapping_cluster_pc s)
        (get_bond_count_wrapping_cluster_pc s) (h_arr s) (pl_arr s) (pw_arr s)).
(** test_py/test_data_json.py:20-48: the replay of one file; it returns what is compared
    with the file (pc, site count, bond count and the three lists). *)
Definition replay_file (E : env) (fuel : nat) (t0 : nat) (x : cross_check)
  : res (fexpr * Z * Z * list fexpr * list fexpr * list fexpr) :=
  b0 <- new_perc E KL0 (x_length x) t0 ;;
  let '(b1, r1) := set_custome_site_index_list E (map (fun '(r, c) => [r; c]) (x_indices x)) false b0 in
  _ <- r1 ;;
  let '(b, r) := run_once E fuel b1 in
  _ <- r ;;
  pc <- get_pc b ;;
  Ok (pc, get_site_count_wrapping_cluster_pc b, get_bond_count_wrapping_cluster_pc b, h_arr b, pl_arr b, pw_arr b).

(* ------------------------------------------------------------------ *)
(** ** analyze/lines.py *)

(** Finite floats are rationals; the sign of a float difference is the sign of the
    exact difference. *)
Definition qsign (q : Q) : Z := match (q ?= 0)%Q with Lt => -1 | Eq => 0 | Gt => 1 end.
(** [x1 - x2]: numpy broadcasting of one-dimensional arrays. *)
Definition np_sub (x1 x2 : list Q) : res (list Q) :=
  if (length x1 =? length x2)%nat then Ok (map (fun '(a, b) => (a - b)%Q) (combine x1 x2))
  else match x1, x2 with
       | _, [b] => Ok (map (fun a => (a - b)%Q) x1)
       | [a], _ => Ok (map (fun b => (a - b)%Q) x2)
       | _, _ => Err ValueError
       end.
(** [np.diff] *)
Fixpoint np_diff (l : list Z) : list Z :=
  match l with
  | a :: ((b :: _) as r) => (b - a) :: np_diff r
  | _ => []
  end.
(** [np.argmax]: first position of the maximum; ValueError on an empty array. *)
Fixpoint argmax_from (i best : Z) (v : Z) (l : list Z) : Z :=
  match l with
  | [] => best
  | a :: r => if v <? a then argmax_from (i + 1) i a r else argmax_from (i + 1) best v r
  end.
Definition np_argmax (l : list Z) : res Z :=
  match l with [] => Err ValueError | a :: r => Ok (argmax_from 1 0 a r) end.
(** [line[:, col]]; an array without rows has no columns here. *)
Definition np_column (line : list (list Q)) (col : Z) : res (list Q) := mapM (fun row => lget row col) line.

(** lines:40-44 [find_intersection] after the choice of the column (and the value
    returned by lines:47-67 [find_intersection_and_plot]). *)
Definition find_intersection (x1 x2 : list Q) : res Z :=
  difference <- np_sub x1 x2 ;;
  let dx := np_diff (map qsign difference) in
  np_argmax (map Z.abs dx).
(** lines:30-37 with [col]. *)
Definition find_intersection_col (line1 line2 : list (list Q)) (col : Z) : res Z :=
  x1 <- np_column line1 col ;;
  x2 <- np_column line2 col ;;
  find_intersection x1 x2.

(** [np.linspace(a, b, size)] in exact arithmetic. *)
Definition linspace (a b : Q) (size : Z) : res (list Q) :=
  if size <? 0 then Err ValueError
  else Ok (map (fun i => if size =? 1 then a else (a + inject_Z i * ((b - a) / inject_Z (size - 1)))%Q) (zrange size)).
(** lines:4-14 [draw_vertical_line_at] *)
Definition draw_vertical_line_at (xval : Q) (yrange : list Q) (size : Z) : res (list Q * list Q) :=
  a <- lget yrange 0 ;; b <- lget yrange 1 ;;
  yy <- linspace a b size ;;
  Ok (map (fun _ => xval) (zrange size), yy).
(** lines:17-27 [draw_horizontal_line_at] *)
Definition draw_horizontal_line_at (yval : Q) (xrange : list Q) (size : Z) : res (list Q * list Q) :=
  a <- lget xrange 0 ;; b <- lget xrange 1 ;;
  xx <- linspace a b size ;;
  Ok (xx, map (fun _ => yval) (zrange size)).
(** The default value of its parameter [xrange], lines:17. *)
Definition default_xrange : list Q := [].

(* ------------------------------------------------------------------ *)
(** ** main.py *)

(** [int(t)] truncates towards zero. *)
Definition py_int (t : Q) : Z := if Qle_bool 0 t then Qfloor t else Qceiling t.
(** main.py:47-52 [print_duration]: the three numbers printed.  The subtractions are exact
    for every time below 2^53 seconds. *)
Definition print_duration (total : Q) : Z * Z * Q :=
  let hhh := py_int total / 3600 in
  let total := (total - inject_Z (hhh * 3600))%Q in
  let mmm := py_int total / 60 in
  let sss := (total - inject_Z (mmm * 60))%Q in
  (hhh, mmm, sss).
