(** * Script: the loops written in the shipped demo and test functions, and the
    summary the two-candidate classes print. *)
From Coq Require Import ZArith List String.
From Verif Require Import Py Lattice Cluster Perc.
Import ListNotations.
Open Scope Z_scope.

(** percolation_sq_lattice.py:1049-1066, percolation_sq_lattice_L0.py:198-214 ([test_large]) and
    percolation_sq_lattice_L0.py:165-193 ([test_detect_wrapping]): with [stop = true],
    [while p.place_one_site(): if p.detect_wrapping(): break].
    percolation_sq_lattice_L1L2.py:262-272 ([test_L1]), 283-313, test_py/test_percolation_L0.py:13-36
    and test_percolation_L1.py:16-37: with [stop = false], [while p.place_one_site(): p.detect_wrapping()].
    The result counts the iterations whose placement answered [True], as the
    counters [i] and [site_count] of those functions do.  Printing is omitted;
    [f] bounds the iterations. *)
Fixpoint drive (E : env) (stop : bool) (f : nat) : M Z :=
  match f with
  | O => raise OutOfFuel
  | S f =>
      do placed <~ place_one_site E ;
      if placed then
        do w <~ detect_wrapping ;
        if (stop && w)%bool then ret 1
        else do n <~ drive E stop f ; ret (n + 1)
      else ret 0
  end.

(** percolation_sq_lattice_L1L2.py:43-45 and 163-166: [occupied_summary]; the
    numbers printed, with the words around them. *)
Definition occupied_summary (s : perc) : list (string * Z) :=
  match kind s with
  | KL2 => [("  1st neighor selected "%string, x_occ s); ("  2nd neighor selected "%string, y_occ s)]
  | _ => [("  1st neighor selected "%string, x_occ s)]
  end.
