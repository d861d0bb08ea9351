(** * Break: the simulation methods one statement at a time

    Perc.v models a method call as one transition.  Here the same methods are
    written so that the execution may be broken off between any two statements
    that change something (Ctrl-C, a signal handler or a debugger raising in the
    middle of a call): the statements executed so far have taken effect, the
    others have not.  BreakProps.v proves that a call that is not broken off does
    exactly what Perc.v says.

    A statement is one attribute assignment, one change of a list element or of
    an attribute of an element, one [append]/[+=]/[del].  Simplifications:
    the exchange of two entries in [random.shuffle] and the two counters of an
    [Index] written by one constructor call are one statement; an [append] to
    [occupation_prob_list] and so on is one statement; printing and logging are
    not statements. *)
From Coq Require Import ZArith List Bool.
From Verif Require Import Py Lattice Cluster Perc.
Import ListNotations.
Open Scope Z_scope.

(** The object, and which of the three attributes that [reset] deletes and
    recreates (perc:265-270 entropy_list, order_wrapping_list,
    order_largest_list) do not exist at the moment. *)
Record held := mkHeld {
  obj : perc;
  no_h : bool;
  no_w : bool;
  no_l : bool
}.
Definition whole (s : perc) : held := mkHeld s false false false.
Definition with_obj (s : perc) (i : held) : held := mkHeld s (no_h i) (no_w i) (no_l i).

(** How an execution ended: a value or an exception, or broken off. *)
Inductive ending (A : Type) :=
| Fin (r : res A)
| Cut.
Arguments Fin {A} r.
Arguments Cut {A}.

(** An execution that is allowed [n] statements; it gives back the unused ones. *)
Definition B (A : Type) := held -> nat -> held * nat * ending A.
Definition bret {A} (a : A) : B A := fun i n => (i, n, Fin (Ok a)).
Definition braise {A} (e : exn) : B A := fun i n => (i, n, Fin (Err e)).
Definition blift {A} (r : res A) : B A := fun i n => (i, n, Fin r).
Definition bbind {A C} (m : B A) (k : A -> B C) : B C :=
  fun i n => match m i n with
             | (i', n', Fin (Ok a)) => k a i' n'
             | (i', n', Fin (Err e)) => (i', n', Fin (Err e))
             | (i', n', Cut) => (i', n', Cut)
             end.
Definition bget : B perc := fun i n => (i, n, Fin (Ok (obj i))).
Definition bheld : B held := fun i n => (i, n, Fin (Ok i)).
(** One statement. *)
Definition stmt (f : held -> held) : B unit :=
  fun i n => match n with
             | O => (i, O, Cut)
             | S n' => (f i, n', Fin (Ok tt))
             end.
Definition act (f : perc -> perc) : B unit := stmt (fun i => with_obj (f (obj i)) i).
Notation "'do' x <- m ; k" := (bbind m (fun x => k))
  (at level 199, x name, m at level 100, k at level 200, right associativity).
Notation "'go' m ; k" := (bbind m (fun _ => k))
  (at level 199, m at level 100, k at level 200, right associativity).

Fixpoint bfor {A} (l : list A) (body : A -> B unit) : B unit :=
  match l with
  | [] => bret tt
  | a :: l' => go body a ; bfor l' body
  end.
(** A statement that changes one element of the lattice, or one cluster. *)
Definition on_lat (f : lattice -> res lattice) : B unit :=
  do s <- bget ; do l <- blift (f (lat s)) ; act (set_lat l).
Definition on_pool (f : cpool -> res cpool) : B unit :=
  do s <- bget ; do p <- blift (f (pool s)) ; act (set_pool p).
(** An attribute that is still [None]: [TypeError] when used as a list index
    ([selected_id]), [AttributeError] when a method of it is called
    ([current_site]). *)
Definition bneed {A} (e : exn) (o : option A) : B A :=
  match o with Some a => bret a | None => braise e end.

(** random.randint: one change of the generator. *)
Definition b_randint (E : env) (a b : Z) : B Z :=
  if b <? a then braise ValueError
  else do s <- bget ;
       go act (set_tick (S (tick s))) ;
       bret (a + (e_draw E (tick s)) mod (b - a + 1)).

(* ------------------------------------------------------------------ *)
(** ** Selecting (perc:349-364, L1L2:78-127, L1L2:189-244) *)

Definition b_current (id : Z) : B unit :=
  do s <- bget ;
  do t <- blift (get_site_by_id (lat s) id) ;
  go act (set_cur_site (Some (if id <? 0 then id + zlen (l_sites (lat s)) else id))) ;
  blift (passert (s_gid t =? -1)).

(** perc:349-364 *)
Definition b_select_base : B selstate :=
  do s <- bget ;
  if max_iter s <=? cur_idx s then bret EMPTY_SITE_LIST else
  do id <- blift (lget (ids s) (cur_idx s)) ;
  go act (set_sel_id (Some id)) ;
  go b_current id ;
  go act (fun s => set_cur_idx (cur_idx s + 1) s) ;
  go act (fun s => set_occ_count (occ_count s + 1) s) ;
  bret SUCESS.

(** L1L2:106-109 and 229-230 *)
Definition b_drop_candidate (rnd : Z) : B unit :=
  do s <- bget ;
  do v <- blift (lget (ids s) (cur_idx s)) ;
  do l <- blift (lset (ids s) rnd v) ;
  go act (mutate_ids l) ;
  act (fun s => set_cur_idx (cur_idx s + 1) s).

(** L1L2:78-127 *)
Definition b_select_L1 (E : env) : B selstate :=
  do s <- bget ;
  if l_site_count (lat s) <=? cur_idx s then bret EMPTY_SITE_LIST else
  do rnd <- b_randint E (cur_idx s) (zlen (ids s) - 1) ;
  do X <- blift (lget (ids s) rnd) ;
  do sx <- blift (get_site_by_id (lat s) X) ;
  let finish (id : Z) : B selstate :=
    go act (set_sel_id (Some id)) ;
    go act (fun s => set_record (record s ++ [id]) s) ;
    go b_current id ;
    go act (fun s => set_occ_count (occ_count s + 1) s) ;
    bret SUCESS in
  if site_is_occupied sx then
    go act (fun s => set_xy (x_occ s + 1) (y_occ s) s) ;
    do sites <- blift (get_all_neighbor_sites (lat s) X) ;
    do k <- b_randint E 0 (zlen sites - 1) ;
    do central2 <- blift (lget sites k) ;
    do s2 <- blift (get_site_by_id (lat s) central2) ;
    if site_is_occupied s2 then
      go on_lat (fun lat => update_site lat X site_reduce_1st_nn) ;
      do s' <- bget ;
      do sx' <- blift (get_site_by_id (lat s') X) ;
      go (if site_is_removable sx' 1 then b_drop_candidate rnd else bret tt) ;
      bret CURRENT_SITE_NOT_EMPTY
    else finish central2
  else finish X.

(** L1L2:189-244 *)
Definition b_select_L2 (E : env) : B selstate :=
  do s <- bget ;
  if l_site_count (lat s) <=? cur_idx s then bret EMPTY_SITE_LIST else
  do rnd <- b_randint E (cur_idx s) (zlen (ids s) - 1) ;
  do X <- blift (lget (ids s) rnd) ;
  do sx <- blift (get_site_by_id (lat s) X) ;
  let finish (id : Z) : B selstate :=
    go act (set_sel_id (Some id)) ;
    go b_current id ;
    go act (fun s => set_occ_count (occ_count s + 1) s) ;
    bret SUCESS in
  if site_is_occupied sx then
    do sites <- blift (get_all_neighbor_sites (lat s) X) ;
    do k <- b_randint E 0 (zlen sites - 1) ;
    do Y <- blift (lget sites k) ;
    go act (fun s => set_xy (x_occ s + 1) (y_occ s) s) ;
    do sy <- blift (get_site_by_id (lat s) Y) ;
    if site_is_occupied sy then
      go on_lat (fun lat => update_site lat X site_reduce_1st_nn) ;
      do s' <- bget ;
      do sx <- blift (get_site_by_id (lat s') X) ;
      do sy <- blift (get_site_by_id (lat s') Y) ;
      let delta := index_normalize (index_sub (s_index sy) (s_index sx)) in
      let z_index := index_add (s_index sy) delta in
      let z_index := correct_index_for_periodicity (lat s') z_index in
      do sz <- blift (get_site_by_index (lat s') z_index) ;
      let Zid := s_id sz in
      do sz <- blift (get_site_by_id (lat s') Zid) ;
      if site_is_occupied sz then
        go act (fun s => set_xy (x_occ s) (y_occ s + 1) s) ;
        go on_lat (fun lat => update_site lat X site_reduce_2st_directional_nn) ;
        do s'' <- bget ;
        do sx' <- blift (get_site_by_id (lat s'') X) ;
        go (if site_is_removable sx' 2 then b_drop_candidate rnd else bret tt) ;
        bret CURRENT_SITE_NOT_EMPTY
      else finish Zid
    else finish Y
  else finish X.

Definition b_select (E : env) : B selstate :=
  do s <- bget ;
  match kind s with
  | KL1 => b_select_L1 E
  | KL2 => b_select_L2 E
  | _ => b_select_base
  end.

(* ------------------------------------------------------------------ *)
(** ** Merging (perc:519-634, cluster.py:77-82, 135-137, 155-187) *)

(** cluster.py:77-82: the four assignments of [OneCluster.clear]. *)
Definition on_cluster (idx : Z) (f : cluster -> cluster) (p : cpool) : res cpool :=
  c <- lget (p_list p) idx ;;
  l <- lset (p_list p) idx (f c) ;; Ok (mkPool l (p_next p)).
Definition b_clear_cluster (idx : Z) : B unit :=
  go on_pool (on_cluster idx (fun c => mkCluster [] (c_bonds c) (c_gid c) (c_id c))) ;
  go on_pool (on_cluster idx (fun c => mkCluster (c_sites c) [] (c_gid c) (c_id c))) ;
  go on_pool (on_cluster idx (fun c => mkCluster (c_sites c) (c_bonds c) (-1) (c_id c))) ;
  on_pool (on_cluster idx (fun c => mkCluster (c_sites c) (c_bonds c) (c_gid c) (-1))).

(** cluster.py:159-187 *)
Definition b_merge_cluster_with (a b : Z) : B unit :=
  do s <- bget ;
  do ca <- blift (lget (p_list (pool s)) a) ;
  do cb <- blift (lget (p_list (pool s)) b) ;
  go bfor (c_bonds cb) (fun bb => on_lat (fun lat => set_bond_gid_by_id lat bb (c_gid ca))) ;
  go bfor (c_sites cb) (fun ss => on_lat (fun lat => set_site_gid_by_id lat ss (c_gid ca))) ;
  do s <- bget ;
  do cb <- blift (lget (p_list (pool s)) b) ;
  go on_pool (on_cluster a (fun ca => mkCluster (c_sites ca) (c_bonds ca ++ c_bonds cb) (c_gid ca) (c_id ca))) ;
  do s <- bget ;
  do cb <- blift (lget (p_list (pool s)) b) ;
  on_pool (on_cluster a (fun ca => mkCluster (c_sites ca ++ c_sites cb) (c_bonds ca) (c_gid ca) (c_id ca))).

(** perc:592-634 *)
Definition b_relabel (central cbond : Z) : B unit :=
  do s <- bget ;
  do bond <- blift (get_bond_by_id (lat s) cbond) ;
  let bbg := b_gid bond in
  do neighbor <- blift (get_neighbor_site (lat s) central (b_id bond)) ;
  do sites_to_relabel <- blift (pool_get_sites (pool s) bbg) ;
  if zlen sites_to_relabel =? 0 then bret tt else
  do ns <- blift (get_site_by_id (lat s) neighbor) ;
  let old_rel := s_rel ns in
  do new_rel <- blift (get_relative_index (lat s) central neighbor) ;
  do cg <- blift (get_site_gid_by_id (lat s) central) ;
  if 0 <=? cg then
    let change := get_change_in_relative_index old_rel new_rel in
    bfor sites_to_relabel (fun ss =>
      on_lat (fun lat => update_site lat ss (fun s => Ok (site_set_rel s (index_add (s_rel s) change)))))
  else bret tt.

(** perc:519-590 *)
Definition b_merge (E : env) (selected current : Z) (bond_neighbors : list Z) : B Z :=
  do s <- bget ;
  do bond_neighbors <- blift (uniqe_gid_bond_neighbors (lat s) bond_neighbors) ;
  do bond_gids <- blift (get_bond_gids E (lat s) bond_neighbors) ;
  do root0 <- blift (lget bond_gids 0) ;
  do root <- blift (root_loop (pool s) (after_wrap s) (wid s) bond_gids bond_gids 0 root0) ;
  go bfor bond_neighbors (fun bb =>
      do s <- bget ;
      do bbg <- blift (get_bond_gid_by_id (lat s) bb) ;
      if bbg =? root then
        go on_lat (fun lat => set_site_gid_by_id lat selected root) ;
        go on_pool (fun p => pool_add_site p root selected) ;
        do s <- bget ;
        do nb <- blift (get_neighbor_site (lat s) current bb) ;
        do g <- blift (get_site_gid_by_id (lat s) nb) ;
        if 0 <=? g then
          do rri <- blift (get_relative_index (lat s) nb selected) ;
          on_lat (fun lat => lat_set_relative_index lat selected rri)
        else bret tt
      else bret tt) ;
  go bfor bond_neighbors (fun bb =>
      do s <- bget ;
      do bbg <- blift (get_bond_gid_by_id (lat s) bb) ;
      if bbg =? root then bret tt else
      go b_relabel current bb ;
      b_merge_cluster_with root bbg) ;
  go bfor bond_gids (fun bbg => if bbg =? root then bret tt else b_clear_cluster bbg) ;
  bret root.

(* ------------------------------------------------------------------ *)
(** ** Placing, detecting *)

(** perc:395-401 *)
Definition b_track_largest (c : Z) : B unit :=
  do s <- bget ;
  do new_size <- blift (get_cluster_bond_count (pool s) c) ;
  if largest_sz s <? new_size then
    go act (fun s => set_largest (largest_sz s) c s) ;
    act (fun s => set_largest new_size (largest_id s) s)
  else bret tt.

(** perc:366-393, with [entropy_subtract] and [entropy_add] (perc:403-437) *)
Definition b_place (E : env) : B bool :=
  do flag <- b_select E ;
  go act (set_sel_flag (Some flag)) ;
  match flag with
  | SUCESS =>
      do s <- bget ;
      do selected <- bneed TypeError (sel_id s) ;
      do cur <- bneed AttributeError (cur_site s) ;
      go on_lat (fun lat => lat_init_relative_index lat selected) ;
      do s <- bget ;
      do cs <- blift (get_site_by_id (lat s) cur) ;
      do H <- blift (entropy_subtract_amount E (lat s) (pool s) selected) ;
      go act (fun s => set_ent (FAdd (ent s) H) s) ;
      do root <- b_merge E selected (s_id cs) (s_bonds cs) ;
      go b_track_largest root ;
      do s <- bget ;
      do e' <- blift (entropy_add_value (lat s) (pool s) root (ent s)) ;
      go act (set_ent e') ;
      bret true
  | CURRENT_SITE_NOT_EMPTY => bret true
  | EMPTY_SITE_LIST => bret false
  end.

(** perc:636-659 *)
Definition b_detect : B bool :=
  do s <- bget ;
  if after_wrap s then bret true else
  do selected <- bneed TypeError (sel_id s) ;
  do nbs <- blift (get_sites_for_wrapping_test (lat s) selected) ;
  do cur <- bneed AttributeError (cur_site s) ;
  do cs <- blift (get_site_by_id (lat s) cur) ;
  do hit <- blift (wrap_scan (lat s) (s_rel cs) nbs) ;
  if hit then
    go act (fun s => set_wrap true (wid s) (pc_occ s) (pc_bonds s) (pc_sites s) s) ;
    do ssel <- blift (get_site_by_id (lat s) selected) ;
    go act (fun s => set_wrap (after_wrap s) (s_gid ssel) (pc_occ s) (pc_bonds s) (pc_sites s) s) ;
    go act (fun s => set_wrap (after_wrap s) (wid s) (occ_count s) (pc_bonds s) (pc_sites s) s) ;
    do s <- bget ;
    do nb <- blift (get_cluster_bond_count (pool s) (wid s)) ;
    go act (fun s => set_wrap (after_wrap s) (wid s) (pc_occ s) (Some nb) (pc_sites s) s) ;
    do ns <- blift (get_cluster_site_count (pool s) (wid s)) ;
    go act (fun s => set_wrap (after_wrap s) (wid s) (pc_occ s) (pc_bonds s) (Some ns) s) ;
    bret true
  else bret false.

(* ------------------------------------------------------------------ *)
(** ** Resetting *)

(** site.py:17-23, bond.py:19-22, lattice.py:18-23 *)
Definition plain_update (lat : lattice) (i : Z) (f : site -> site) : res lattice :=
  update_site lat i (fun s => Ok (f s)).
Definition b_site_reset (i : Z) : B unit :=
  go on_lat (fun lat => plain_update lat i (fun s => site_set_gid s (-1))) ;
  go on_lat (fun lat => plain_update lat i (fun s => site_set_rel s (0, 0))) ;
  go on_lat (fun lat => plain_update lat i (fun s => site_set_nn s 4 (s_nn2 s))) ;
  on_lat (fun lat => plain_update lat i (fun s => site_set_nn s (s_nn1 s) 4)).
Definition b_lattice_reset : B unit :=
  do s <- bget ;
  go bfor (zrange (zlen (l_sites (lat s)))) b_site_reset ;
  bfor (zrange (zlen (l_bonds (lat s)))) (fun b => on_lat (fun lat => set_bond_gid_by_id lat b (-1))).
(** cluster.py:103-106 *)
Definition b_pool_reset : B unit :=
  go act (fun s => set_pool (mkPool [] (p_next (pool s))) s) ;
  act (fun s => set_pool (mkPool (p_list (pool s)) 0) s).
(** cluster.py:114-133 with [], [bb] *)
Definition b_create (bb : Z) : B unit :=
  do s <- bget ;
  let g := p_next (pool s) in
  go on_lat (fun lat => set_bond_gid_by_id lat bb g) ;
  go act (fun s => set_pool (mkPool (p_list (pool s)) (p_next (pool s) + 1)) s) ;
  act (fun s => set_pool (mkPool (p_list (pool s) ++ [mkCluster [] [bb] g g]) (p_next (pool s))) s).
(** perc:192-197 *)
Definition b_init_clusters : B unit :=
  go b_pool_reset ;
  do s <- bget ;
  bfor (zrange (l_bond_count (lat s))) b_create.
(** random.shuffle *)
Fixpoint b_shuffle_from (E : env) (k : nat) : B unit :=
  match k with
  | O => bret tt
  | S k' =>
      do s <- bget ;
      let j := Z.to_nat (e_draw E (tick s) mod (Z.of_nat k + 1)) in
      go act (set_tick (S (tick s))) ;
      go act (fun s => mutate_ids (swap_at (ids s) k j) s) ;
      b_shuffle_from E k'
  end.
(** perc:204-221 *)
Definition b_shuffle (E : env) : B unit :=
  do s <- bget ;
  if mode_custom s && negb (do_shuffle s) then bret tt
  else if do_shuffle s then
    go b_shuffle_from E (pred (length (ids s))) ;
    do s <- bget ;
    bfor (zrange (zlen (ids s))) (fun i =>
      do s <- bget ;
      do a <- blift (lget (ids s) i) ;
      do rv <- blift (lset (rev_ids s) a i) ;
      act (set_rev rv))
  else bret tt.

(** [del self.x]: AttributeError when there is no such attribute. *)
Definition b_del (has_not : held -> bool) (del : held -> held) : B unit :=
  do i <- bheld ; if has_not i then braise AttributeError else stmt del.
Definition lose_h (i : held) := mkHeld (obj i) true (no_w i) (no_l i).
Definition lose_w (i : held) := mkHeld (obj i) (no_h i) true (no_l i).
Definition lose_l (i : held) := mkHeld (obj i) (no_h i) (no_w i) true.
(** perc:244-271 with perc:30-35 *)
Definition b_reset_base (E : env) : B unit :=
  go b_lattice_reset ;
  go b_pool_reset ;
  go act (fun s => set_wrap (after_wrap s) (wid s) (pc_occ s) None (pc_sites s) s) ;
  go act (fun s => set_wrap (after_wrap s) (wid s) (pc_occ s) (pc_bonds s) None s) ;
  go b_init_clusters ;
  go b_shuffle E ;
  go act (set_cur_idx 0) ;
  go act (fun s => set_wrap (after_wrap s) (wid s) 0 (pc_bonds s) (pc_sites s) s) ;
  go act (fun s => set_wrap false (wid s) (pc_occ s) (pc_bonds s) (pc_sites s) s) ;
  go act (fun s => set_wrap (after_wrap s) (-1) (pc_occ s) (pc_bonds s) (pc_sites s) s) ;
  go act (fun s => set_largest 0 (largest_id s) s) ;
  go act (fun s => set_largest (largest_sz s) (-1) s) ;
  go act (fun s => set_ent (max_ent s) s) ;
  go act (set_occ_count 0) ;
  go act (set_sel_flag None) ;
  do s <- bget ;
  go (if first_run s then act (fun s => set_arrs [] (h_arr s) (pw_arr s) (pl_arr s) s) else bret tt) ;
  go b_del no_h lose_h ;
  go stmt (fun i => mkHeld (set_arrs (p_arr (obj i)) [] (pw_arr (obj i)) (pl_arr (obj i)) (obj i)) false (no_w i) (no_l i)) ;
  go b_del no_w lose_w ;
  go stmt (fun i => mkHeld (set_arrs (p_arr (obj i)) (h_arr (obj i)) [] (pl_arr (obj i)) (obj i)) (no_h i) false (no_l i)) ;
  go b_del no_l lose_l ;
  stmt (fun i => mkHeld (set_arrs (p_arr (obj i)) (h_arr (obj i)) (pw_arr (obj i)) [] (obj i)) (no_h i) (no_w i) false).

(** L0.py:26-30, L1L2:26-30, L1L2:154-158, sp:20-22 *)
Definition b_reset (E : env) : B unit :=
  go b_reset_base E ;
  do s <- bget ;
  match kind s with
  | KL1 =>
      go act (fun s => rebind_ids (zrange (l_length (lat s) * l_length (lat s))) (user_list s) false s) ;
      go act (fun s => set_xy 0 (y_occ s) s) ;
      act (set_record [])
  | KL2 =>
      go act (fun s => rebind_ids (zrange (l_length (lat s) * l_length (lat s))) (user_list s) false s) ;
      go act (fun s => set_xy 0 (y_occ s) s) ;
      act (fun s => set_xy (x_occ s) 0 s)
  | KSP => act (set_sp (FZ 0))
  | _ => bret tt
  end.

(* ------------------------------------------------------------------ *)
(** ** Running a realization *)

(** [self.x.append(v)]: AttributeError when there is no attribute x. *)
Definition b_append (has_not : held -> bool) (f : perc -> perc) : B unit :=
  do i <- bheld ; if has_not i then braise AttributeError else act f.
(** perc:673-684 *)
Definition b_record : B unit :=
  do s <- bget ;
  do p <- blift (occupation_prob s) ;
  let H := entropy_v2 s in
  do P1 <- blift (order_param_wrapping s) ;
  do P2 <- blift (order_param_largest_clstr s) ;
  go (if first_run s then act (fun s => set_arrs (p_arr s ++ [p]) (h_arr s) (pw_arr s) (pl_arr s) s) else bret tt) ;
  go b_append no_h (fun s => set_arrs (p_arr s) (h_arr s ++ [H]) (pw_arr s) (pl_arr s) s) ;
  go b_append no_w (fun s => set_arrs (p_arr s) (h_arr s) (pw_arr s ++ [P1]) (pl_arr s) s) ;
  b_append no_l (fun s => set_arrs (p_arr s) (h_arr s) (pw_arr s) (pl_arr s ++ [P2]) s).

(** perc:663-721 *)
Fixpoint b_run_loop (E : env) (fuel : nat) : B unit :=
  match fuel with
  | O => braise OutOfFuel
  | S f =>
      do b <- b_place E ;
      if b then
        do s <- bget ;
        go (if flag_is_success s then
              go b_detect ;
              b_record
            else bret tt) ;
        b_run_loop E f
      else bret tt
  end.
(** sp:30-60 *)
Fixpoint b_sp_loop (E : env) (fuel : nat) : B unit :=
  match fuel with
  | O => braise OutOfFuel
  | S f =>
      do b <- b_place E ;
      if b then
        do s <- bget ;
        if flag_is_success s then
          do w <- b_detect ;
          if w then
            do s <- bget ;
            do cur <- bneed AttributeError (cur_site s) ;
            do cs <- blift (get_site_by_id (lat s) cur) ;
            do fl <- blift (scan_row_col_of_selected_site s (s_index cs)) ;
            if fst fl || snd fl then
              do p <- blift (occupation_prob s) ;
              act (set_sp p)
            else b_sp_loop E f
          else b_sp_loop E f
        else b_sp_loop E f
      else bret tt
  end.
Definition b_run_once (E : env) (fuel : nat) : B unit :=
  do s <- bget ;
  go (match kind s with KSP => b_sp_loop E fuel | _ => b_run_loop E fuel end) ;
  act (set_first_run false).
