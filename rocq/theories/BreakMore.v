(** * BreakMore: the remaining methods one statement at a time

    Break.v has [place_one_site], [detect_wrapping], [reset] and [run_once];
    here are the other methods of the percolation classes that change the
    object.  Statements and simplifications are those of Break.v; the values
    returned by [swap_ids] (-1 or None) are not modelled, as in Perc.v. *)
From Coq Require Import ZArith List Bool.
From Verif Require Import Py Lattice Cluster Perc Break.
Import ListNotations.
Open Scope Z_scope.

(** perc:163-167 and 181-185: the assignments after the list has been accepted;
    [ul] and [share] as in Perc.v ([user_list] and [ids_shared]). *)
Definition b_install (E : env) (l ul : list Z) (share sh : bool) : B unit :=
  go act (rebind_ids l ul share) ;
  go act (fun s => set_custom (max_iter s) true (do_shuffle s) s) ;
  go act (fun s => set_custom (max_iter s) (mode_custom s) sh s) ;
  go act (fun s => set_custom (zlen l) (mode_custom s) (do_shuffle s) s) ;
  b_shuffle E.

(** perc:156-170 *)
Definition b_set_ids (E : env) (l : list Z) (sh : bool) : B unit :=
  do s <- bget ;
  let max_index := l_length (lat s) * l_length (lat s) - 1 in
  do mx <- blift (lmax l) ;
  do mn <- blift (lmin l) ;
  if (max_index <? mx) || (mn <? 0) then bret tt
  else b_install E l l true sh.

(** perc:172-187 *)
Definition b_set_indices (E : env) (ixs : list (list Z)) (sh : bool) : B unit :=
  do s <- bget ;
  let max_index := l_length (lat s) * l_length (lat s) - 1 in
  let l := map (calculate_id_from_index (lat s)) ixs in
  do mx <- blift (lmax l) ;
  do mn <- blift (lmin l) ;
  if (max_index <? mx) || (mn <? 0) then bret tt
  else b_install E l (user_list s) false sh.

(** perc:234-242 *)
Definition b_swap (id1 id2 : Z) : B unit :=
  if id1 =? id2 then bret tt else
  do s <- bget ;
  do ix1 <- blift (lget (rev_ids s) id1) ;
  do ix2 <- blift (lget (rev_ids s) id2) ;
  go (do s <- bget ; do l <- blift (lset (ids s) ix1 id2) ; act (mutate_ids l)) ;
  go (do s <- bget ; do l <- blift (lset (ids s) ix2 id1) ; act (mutate_ids l)) ;
  go (do s <- bget ; do r <- blift (lset (rev_ids s) id2 ix1) ; act (set_rev r)) ;
  do s <- bget ; do r <- blift (lset (rev_ids s) id1 ix2) ; act (set_rev r).

(** perc:723-751 *)
Fixpoint b_test_loop (E : env) (fuel : nat) : B unit :=
  match fuel with
  | O => braise OutOfFuel
  | S f =>
      do b <- b_place E ;
      if b then
        do s <- bget ;
        if flag_is_success s then
          do w <- b_detect ;
          if w then
            do s <- bget ;
            do n <- bneed TypeError (pc_sites s) ;
            blift (passert (n <? pc_occ s))
          else
            go b_record ;
            b_test_loop E f
        else b_test_loop E f
      else bret tt
  end.
Definition b_test_run (E : env) (fuel : nat) : B unit :=
  go b_test_loop E fuel ;
  act (set_first_run false).
