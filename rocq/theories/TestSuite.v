(** * TestSuite: the test functions shipped in /repo/test_py.

    Each returns [Ok tt] when the test passes and the exception that pytest would
    report otherwise.  [E] and the clock value [t0] stand for the seed: the tests
    draw seeds at random or fix them; every random stream is some [E], [t0].
    Printing with [print] is omitted; the viewing methods, which index the lattice,
    are kept.  [f] bounds the iterations of the [while] loops. *)
From Coq Require Import String ZArith List Bool.
From Verif Require Import Py Lattice Cluster Perc View.
Import ListNotations.
Open Scope Z_scope.

(** Python's [x == 1.0] and [x == 0] on the values the tests compare: an int or a
    quotient of two ints.  Simplified: the quotient is compared exactly; C80 shows
    that rounding does not change either comparison. *)
Definition equals_one (e : fexpr) : bool :=
  match e with FDiv (FZ a) (FZ b) => a =? b | FZ a => a =? 1 | _ => false end.
Definition equals_zero (e : fexpr) : bool :=
  match e with FDiv (FZ a) (FZ _) => a =? 0 | FZ a => a =? 0 | _ => false end.

(** test_percolation_L0.py:12-34, L1.py and L2.py:15-37 [while place_one_site(): ...];
    [P1] is the variable of that name; [check] tells whether the body also calls
    [viewLattice(3)] and [test_lattice()] (in the _seed test) or not (in _reset). *)
Fixpoint simulation_loop (E : env) (check : bool) (f : nat) (P1 : fexpr) : M fexpr :=
  match f with
  | O => raise OutOfFuel
  | S f =>
      do placed <~ place_one_site E ;
      if placed then
        do _ <~ detect_wrapping ;
        do s <~ get ;
        do _ <~ lift (if check then _ <- viewLattice s 3 ;; test_lattice s else Ok tt) ;
        do P1 <~ lift (order_param_wrapping s) ;
        simulation_loop E check f P1
      else ret P1
  end.
(** test_percolation_L0.py:4-47, L1.py and L2.py:7-50 [test_simulation_L0_seed] etc. *)
Definition test_simulation_seed (E : env) (f : nat) (k : pkind) (L : Z) (t0 : nat) : res unit :=
  s0 <- new_perc E k L t0 ;;
  snd ((do s <~ get ;
        do _ <~ lift (test_lattice s) ;
        do P1 <~ simulation_loop E true f (FZ (-222)) ;
        do s <~ get ;
        do _ <~ lift (passert (equals_one P1)) ;
        do _ <~ lift (viewLattice s 3) ;
        do _ <~ lift (test_clusters s) ;
        lift (test_lattice s)) s0).
(** test_percolation_L0.py:49-87, L1.py and L2.py:52-90 [test_simulation_L0_reset] etc. *)
Definition test_simulation_reset (E : env) (f : nat) (k : pkind) (L : Z) (t0 : nat) : res unit :=
  s0 <- new_perc E k L t0 ;;
  snd ((run reset E ;
        do P1 <~ simulation_loop E false f (FZ (-222)) ;
        do s <~ get ;
        do _ <~ lift (passert (equals_one P1)) ;
        do _ <~ lift (viewLattice s 0) ;
        do _ <~ lift (viewLattice s 3) ;
        do _ <~ lift (test_clusters s) ;
        lift (test_lattice s)) s0).
(** test_percolation_L0.py:105-132, L1.py and L2.py:108-135: one length of
    [test_simulation_L0_different_lengths] etc. *)
Definition test_simulation_length (E : env) (f : nat) (k : pkind) (L : Z) (t0 : nat) : res unit :=
  s0 <- new_perc E k L t0 ;;
  snd ((run reset E ;
        run run_once E f ;
        do s <~ get ;
        do _ <~ lift (test_clusters s) ;
        lift (test_lattice s)) s0).
(** test_percolation_L0.py:143-163, L1.py and L2.py:146-166
    [test_simulation_L0_different_lengths_parametrize] etc. *)
Definition test_simulation_parametrize (E : env) (f : nat) (k : pkind) (L : Z) (t0 : nat) : res unit :=
  s0 <- new_perc E k L t0 ;;
  snd ((run run_once E f ;
        do s <~ get ;
        do _ <~ lift (test_clusters s) ;
        do _ <~ lift (test_lattice s) ;
        run reset E ;
        run run_once E f ;
        do s <~ get ;
        do _ <~ lift (test_clusters s) ;
        lift (test_lattice s)) s0).

(** [while percolation.place_one_site(): pass] *)
Fixpoint place_all (E : env) (f : nat) : M unit :=
  match f with
  | O => raise OutOfFuel
  | S f => do placed <~ place_one_site E ; if placed then place_all E f else ret tt
  end.
(** test_percolation_L0.py:167-205, L1.py and L2.py:170-208 [custome_lattice_config_1].
    [ids] is handed to the object, which shuffles that very list in place
    ([user_list]); [ids + special_ids] is therefore built from the shuffled list. *)
Definition custome_lattice_config_1 (E : env) (f t0 : nat) : res unit :=
  s0 <- new_perc E KL0 6 t0 ;;
  snd ((run set_custome_site_id_list E [2; 8; 14; 19; 20; 25; 27; 28; 29; 34; 35] true ;
        run place_all E f ;
        do s <~ get ;
        do _ <~ lift (viewLattice s 3) ;
        run set_custome_site_id_list E (user_list s ++ [26; 24]) false ;
        run place_all E f ;
        do s <~ get ;
        do _ <~ lift (viewLattice s 3) ;
        do w <~ detect_wrapping ;
        lift (passert w)) s0).
(** test_percolation_L0.py:207-243, L1.py and L2.py:210-246 [custome_lattice_config_2]
    (defined, but no test calls it); [k] is the class used in each file. *)
Definition custome_lattice_config_2 (E : env) (f : nat) (k : pkind) (t0 : nat) : res unit :=
  s0 <- new_perc E k 6 t0 ;;
  snd ((run set_custome_site_id_list E [2; 8; 14; 19; 20; 25; 27; 28; 29; 34; 35; 26] true ;
        run place_all E f ;
        do s <~ get ;
        do _ <~ lift (viewLattice s 3) ;
        ret tt) s0).

(** test_percolation_sq_lattice_shortest_path.py:54-74 [test_large_lattice]; also
    what [test_single] and [test_multiple_seeds] run. *)
Definition test_large_lattice (E : env) (f : nat) (L : Z) (t0 : nat) : res unit :=
  s0 <- new_perc E KSP L t0 ;;
  snd ((run run_once E f ;
        do s <~ get ;
        do flag1 <~ lift (scan_all_rows s) ;
        do flag2 <~ lift (scan_all_cols s) ;
        if equals_zero (sp_p s) then lift (passert (negb flag1 && negb flag2))
        else lift (passert (flag1 || flag2))) s0).
(** test_percolation_sq_lattice_shortest_path.py:4-37 [test_custome_lattice];
    [ids]: the list made from a set of ids, in the order the set is iterated. *)
Definition test_custome_lattice (E : env) (f t0 : nat) : res unit :=
  s0 <- new_perc E KSP 6 t0 ;;
  ids <- lremove 15 (e_ord E [15; 16; 17; 18; 19; 2; 6; 9]) ;;
  snd ((run set_custome_site_id_list E ids false ;
        run run_once E f ;
        do s <~ get ;
        do _ <~ lift (viewLattice s 2) ;
        do _ <~ lift (viewLattice s 3) ;
        do flag1 <~ lift (scan_all_rows s) ;
        do flag2 <~ lift (scan_all_cols s) ;
        if equals_zero (sp_p s) then lift (passert (negb flag1 && negb flag2))
        else lift (passert (negb flag1 || negb flag2))) s0).
