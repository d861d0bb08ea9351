(** * Perc: model of percolation_sq_lattice.py, percolation_sq_lattice_L0.py,
    percolation_sq_lattice_L1L2.py and percolation_sq_lattice_shortest_path.py
    (all in /repo/source_py/simulation).  Short file names below:
    perc = percolation_sq_lattice.py, L1L2 = percolation_sq_lattice_L1L2.py,
    sp = percolation_sq_lattice_shortest_path.py. *)
From Coq Require Import ZArith List Bool.
From Verif Require Import Py Lattice Cluster.
Import ListNotations.
Open Scope Z_scope.

(* ------------------------------------------------------------------ *)
(** ** The environment: what the code gets from the Python runtime *)

(** [e_ord l] is the order in which CPython iterates over the set built by adding
    the integers [l] in turn (perc:56-60, 407-416): nothing is assumed about it
    except [env_ok].  [e_draw] is the stream of raw random words behind the
    [random] module; [randint] maps a word into the requested range. *)
Record env := mkEnv {
  e_ord : list Z -> list Z;
  e_draw : nat -> Z
}.
Definition env_ok (E : env) : Prop :=
  forall l, NoDup (e_ord E l) /\ (forall x, In x (e_ord E l) <-> In x l).

(** states.py:5-8 [SelectionState] *)
Inductive selstate := SUCESS | CURRENT_SITE_NOT_EMPTY | EMPTY_SITE_LIST.

(** The concrete classes. [KBase] is [SitePercolation], [KL0] is
    [SitePercolationL0] (which overrides nothing but the signature, L0.py:9-30),
    [KL1]/[KL2] are [SitePercolationL1]/[L2], [KSP] is [ShortestPathAfter_pc]. *)
Inductive pkind := KBase | KL0 | KL1 | KL2 | KSP.

(** perc:24-27, 124-151; L1L2:18-21, 148-149; sp:17. [tick] counts the random
    words consumed so far. [cur_site]/[sel_id] are [None] before the first
    selection; [cur_site] is a reference to a Site object, represented by its
    position in site_matrix.
    [user_list]: contents of the list object that the caller handed to the last
    accepted [set_custome_site_id_list]; [ids_shared] says that
    [self.site_ids_indices] is that same object (perc:165 stores the reference),
    so in-place writes to one are writes to the other. *)
Record perc := mkPerc {
  kind : pkind;
  lat : lattice;
  pool : cpool;
  ids : list Z;                 (* site_ids_indices *)
  rev_ids : list Z;             (* reverse_ids_indices *)
  cur_idx : Z;
  occ_count : Z;                (* occupied_site_count *)
  pc_occ : Z;                   (* pc_occupied_site_count *)
  cur_site : option Z;
  sel_id : option Z;
  sel_flag : option selstate;
  cluster_count : Z;
  largest_sz : Z;
  largest_id : Z;
  max_ent : fexpr;
  ent : fexpr;                  (* entropy_value *)
  after_wrap : bool;
  wid : Z;                      (* wrapping_cluster_id *)
  first_run : bool;
  p_arr : list fexpr;           (* occupation_prob_list *)
  h_arr : list fexpr;           (* entropy_list *)
  pw_arr : list fexpr;          (* order_wrapping_list *)
  pl_arr : list fexpr;          (* order_largest_list *)
  max_iter : Z;
  mode_custom : bool;
  do_shuffle : bool;
  pc_bonds : option Z;          (* pc_bond_count_wrapping_cluster *)
  pc_sites : option Z;          (* pc_site_count_wrapping_cluster *)
  x_occ : Z;
  y_occ : Z;
  record : list Z;              (* site_id_sequence_record (L1) *)
  sp_p : fexpr;                 (* shortest_path_p *)
  user_list : list Z;
  ids_shared : bool;
  tick : nat
}.

(** Attribute assignments (one functional update per attribute). *)
Definition set_lat v s := mkPerc (kind s) v (pool s) (ids s) (rev_ids s) (cur_idx s) (occ_count s) (pc_occ s) (cur_site s) (sel_id s) (sel_flag s) (cluster_count s) (largest_sz s) (largest_id s) (max_ent s) (ent s) (after_wrap s) (wid s) (first_run s) (p_arr s) (h_arr s) (pw_arr s) (pl_arr s) (max_iter s) (mode_custom s) (do_shuffle s) (pc_bonds s) (pc_sites s) (x_occ s) (y_occ s) (record s) (sp_p s) (user_list s) (ids_shared s) (tick s).
Definition set_pool v s := mkPerc (kind s) (lat s) v (ids s) (rev_ids s) (cur_idx s) (occ_count s) (pc_occ s) (cur_site s) (sel_id s) (sel_flag s) (cluster_count s) (largest_sz s) (largest_id s) (max_ent s) (ent s) (after_wrap s) (wid s) (first_run s) (p_arr s) (h_arr s) (pw_arr s) (pl_arr s) (max_iter s) (mode_custom s) (do_shuffle s) (pc_bonds s) (pc_sites s) (x_occ s) (y_occ s) (record s) (sp_p s) (user_list s) (ids_shared s) (tick s).
(** Rebinding [site_ids_indices] to a new list object ([share] tells whether that
    object is the caller's). *)
Definition rebind_ids v ul share s := mkPerc (kind s) (lat s) (pool s) v (rev_ids s) (cur_idx s) (occ_count s) (pc_occ s) (cur_site s) (sel_id s) (sel_flag s) (cluster_count s) (largest_sz s) (largest_id s) (max_ent s) (ent s) (after_wrap s) (wid s) (first_run s) (p_arr s) (h_arr s) (pw_arr s) (pl_arr s) (max_iter s) (mode_custom s) (do_shuffle s) (pc_bonds s) (pc_sites s) (x_occ s) (y_occ s) (record s) (sp_p s) ul share (tick s).
(** Writing into the existing list object. *)
Definition mutate_ids v s := rebind_ids v (if ids_shared s then v else user_list s) (ids_shared s) s.
Definition set_rev v s := mkPerc (kind s) (lat s) (pool s) (ids s) v (cur_idx s) (occ_count s) (pc_occ s) (cur_site s) (sel_id s) (sel_flag s) (cluster_count s) (largest_sz s) (largest_id s) (max_ent s) (ent s) (after_wrap s) (wid s) (first_run s) (p_arr s) (h_arr s) (pw_arr s) (pl_arr s) (max_iter s) (mode_custom s) (do_shuffle s) (pc_bonds s) (pc_sites s) (x_occ s) (y_occ s) (record s) (sp_p s) (user_list s) (ids_shared s) (tick s).
Definition set_cur_idx v s := mkPerc (kind s) (lat s) (pool s) (ids s) (rev_ids s) v (occ_count s) (pc_occ s) (cur_site s) (sel_id s) (sel_flag s) (cluster_count s) (largest_sz s) (largest_id s) (max_ent s) (ent s) (after_wrap s) (wid s) (first_run s) (p_arr s) (h_arr s) (pw_arr s) (pl_arr s) (max_iter s) (mode_custom s) (do_shuffle s) (pc_bonds s) (pc_sites s) (x_occ s) (y_occ s) (record s) (sp_p s) (user_list s) (ids_shared s) (tick s).
Definition set_occ_count v s := mkPerc (kind s) (lat s) (pool s) (ids s) (rev_ids s) (cur_idx s) v (pc_occ s) (cur_site s) (sel_id s) (sel_flag s) (cluster_count s) (largest_sz s) (largest_id s) (max_ent s) (ent s) (after_wrap s) (wid s) (first_run s) (p_arr s) (h_arr s) (pw_arr s) (pl_arr s) (max_iter s) (mode_custom s) (do_shuffle s) (pc_bonds s) (pc_sites s) (x_occ s) (y_occ s) (record s) (sp_p s) (user_list s) (ids_shared s) (tick s).
Definition set_cur_site v s := mkPerc (kind s) (lat s) (pool s) (ids s) (rev_ids s) (cur_idx s) (occ_count s) (pc_occ s) v (sel_id s) (sel_flag s) (cluster_count s) (largest_sz s) (largest_id s) (max_ent s) (ent s) (after_wrap s) (wid s) (first_run s) (p_arr s) (h_arr s) (pw_arr s) (pl_arr s) (max_iter s) (mode_custom s) (do_shuffle s) (pc_bonds s) (pc_sites s) (x_occ s) (y_occ s) (record s) (sp_p s) (user_list s) (ids_shared s) (tick s).
Definition set_sel_id v s := mkPerc (kind s) (lat s) (pool s) (ids s) (rev_ids s) (cur_idx s) (occ_count s) (pc_occ s) (cur_site s) v (sel_flag s) (cluster_count s) (largest_sz s) (largest_id s) (max_ent s) (ent s) (after_wrap s) (wid s) (first_run s) (p_arr s) (h_arr s) (pw_arr s) (pl_arr s) (max_iter s) (mode_custom s) (do_shuffle s) (pc_bonds s) (pc_sites s) (x_occ s) (y_occ s) (record s) (sp_p s) (user_list s) (ids_shared s) (tick s).
Definition set_sel_flag v s := mkPerc (kind s) (lat s) (pool s) (ids s) (rev_ids s) (cur_idx s) (occ_count s) (pc_occ s) (cur_site s) (sel_id s) v (cluster_count s) (largest_sz s) (largest_id s) (max_ent s) (ent s) (after_wrap s) (wid s) (first_run s) (p_arr s) (h_arr s) (pw_arr s) (pl_arr s) (max_iter s) (mode_custom s) (do_shuffle s) (pc_bonds s) (pc_sites s) (x_occ s) (y_occ s) (record s) (sp_p s) (user_list s) (ids_shared s) (tick s).
Definition set_largest sz id s := mkPerc (kind s) (lat s) (pool s) (ids s) (rev_ids s) (cur_idx s) (occ_count s) (pc_occ s) (cur_site s) (sel_id s) (sel_flag s) (cluster_count s) sz id (max_ent s) (ent s) (after_wrap s) (wid s) (first_run s) (p_arr s) (h_arr s) (pw_arr s) (pl_arr s) (max_iter s) (mode_custom s) (do_shuffle s) (pc_bonds s) (pc_sites s) (x_occ s) (y_occ s) (record s) (sp_p s) (user_list s) (ids_shared s) (tick s).
Definition set_ent v s := mkPerc (kind s) (lat s) (pool s) (ids s) (rev_ids s) (cur_idx s) (occ_count s) (pc_occ s) (cur_site s) (sel_id s) (sel_flag s) (cluster_count s) (largest_sz s) (largest_id s) (max_ent s) v (after_wrap s) (wid s) (first_run s) (p_arr s) (h_arr s) (pw_arr s) (pl_arr s) (max_iter s) (mode_custom s) (do_shuffle s) (pc_bonds s) (pc_sites s) (x_occ s) (y_occ s) (record s) (sp_p s) (user_list s) (ids_shared s) (tick s).
(** perc:652-656: the five attributes written when wrapping is first seen; also
    used by [reset] (perc:252-255, 33-34). *)
Definition set_wrap aw w pco pcb pcs s := mkPerc (kind s) (lat s) (pool s) (ids s) (rev_ids s) (cur_idx s) (occ_count s) pco (cur_site s) (sel_id s) (sel_flag s) (cluster_count s) (largest_sz s) (largest_id s) (max_ent s) (ent s) aw w (first_run s) (p_arr s) (h_arr s) (pw_arr s) (pl_arr s) (max_iter s) (mode_custom s) (do_shuffle s) pcb pcs (x_occ s) (y_occ s) (record s) (sp_p s) (user_list s) (ids_shared s) (tick s).
Definition set_first_run v s := mkPerc (kind s) (lat s) (pool s) (ids s) (rev_ids s) (cur_idx s) (occ_count s) (pc_occ s) (cur_site s) (sel_id s) (sel_flag s) (cluster_count s) (largest_sz s) (largest_id s) (max_ent s) (ent s) (after_wrap s) (wid s) v (p_arr s) (h_arr s) (pw_arr s) (pl_arr s) (max_iter s) (mode_custom s) (do_shuffle s) (pc_bonds s) (pc_sites s) (x_occ s) (y_occ s) (record s) (sp_p s) (user_list s) (ids_shared s) (tick s).
Definition set_arrs p h pw pl s := mkPerc (kind s) (lat s) (pool s) (ids s) (rev_ids s) (cur_idx s) (occ_count s) (pc_occ s) (cur_site s) (sel_id s) (sel_flag s) (cluster_count s) (largest_sz s) (largest_id s) (max_ent s) (ent s) (after_wrap s) (wid s) (first_run s) p h pw pl (max_iter s) (mode_custom s) (do_shuffle s) (pc_bonds s) (pc_sites s) (x_occ s) (y_occ s) (record s) (sp_p s) (user_list s) (ids_shared s) (tick s).
Definition set_custom mi mc ds s := mkPerc (kind s) (lat s) (pool s) (ids s) (rev_ids s) (cur_idx s) (occ_count s) (pc_occ s) (cur_site s) (sel_id s) (sel_flag s) (cluster_count s) (largest_sz s) (largest_id s) (max_ent s) (ent s) (after_wrap s) (wid s) (first_run s) (p_arr s) (h_arr s) (pw_arr s) (pl_arr s) mi mc ds (pc_bonds s) (pc_sites s) (x_occ s) (y_occ s) (record s) (sp_p s) (user_list s) (ids_shared s) (tick s).
Definition set_xy x y s := mkPerc (kind s) (lat s) (pool s) (ids s) (rev_ids s) (cur_idx s) (occ_count s) (pc_occ s) (cur_site s) (sel_id s) (sel_flag s) (cluster_count s) (largest_sz s) (largest_id s) (max_ent s) (ent s) (after_wrap s) (wid s) (first_run s) (p_arr s) (h_arr s) (pw_arr s) (pl_arr s) (max_iter s) (mode_custom s) (do_shuffle s) (pc_bonds s) (pc_sites s) x y (record s) (sp_p s) (user_list s) (ids_shared s) (tick s).
Definition set_record v s := mkPerc (kind s) (lat s) (pool s) (ids s) (rev_ids s) (cur_idx s) (occ_count s) (pc_occ s) (cur_site s) (sel_id s) (sel_flag s) (cluster_count s) (largest_sz s) (largest_id s) (max_ent s) (ent s) (after_wrap s) (wid s) (first_run s) (p_arr s) (h_arr s) (pw_arr s) (pl_arr s) (max_iter s) (mode_custom s) (do_shuffle s) (pc_bonds s) (pc_sites s) (x_occ s) (y_occ s) v (sp_p s) (user_list s) (ids_shared s) (tick s).
Definition set_sp v s := mkPerc (kind s) (lat s) (pool s) (ids s) (rev_ids s) (cur_idx s) (occ_count s) (pc_occ s) (cur_site s) (sel_id s) (sel_flag s) (cluster_count s) (largest_sz s) (largest_id s) (max_ent s) (ent s) (after_wrap s) (wid s) (first_run s) (p_arr s) (h_arr s) (pw_arr s) (pl_arr s) (max_iter s) (mode_custom s) (do_shuffle s) (pc_bonds s) (pc_sites s) (x_occ s) (y_occ s) (record s) v (user_list s) (ids_shared s) (tick s).
Definition set_tick v s := mkPerc (kind s) (lat s) (pool s) (ids s) (rev_ids s) (cur_idx s) (occ_count s) (pc_occ s) (cur_site s) (sel_id s) (sel_flag s) (cluster_count s) (largest_sz s) (largest_id s) (max_ent s) (ent s) (after_wrap s) (wid s) (first_run s) (p_arr s) (h_arr s) (pw_arr s) (pl_arr s) (max_iter s) (mode_custom s) (do_shuffle s) (pc_bonds s) (pc_sites s) (x_occ s) (y_occ s) (record s) (sp_p s) (user_list s) (ids_shared s) v.

(** Methods: the object after the call, even when the call raised. *)
Definition M (A : Type) := perc -> perc * res A.
Definition ret {A} (a : A) : M A := fun s => (s, Ok a).
Definition raise {A} (e : exn) : M A := fun s => (s, Err e).
Definition mbind {A B} (m : M A) (k : A -> M B) : M B :=
  fun s => match m s with (s', Ok a) => k a s' | (s', Err e) => (s', Err e) end.
Definition get : M perc := fun s => (s, Ok s).
Definition modify (f : perc -> perc) : M unit := fun s => (f s, Ok tt).
(** Evaluate a computation that does not assign to the object. *)
Definition lift {A} (r : res A) : M A := fun s => (s, r).
Notation "'do' x <~ m ; k" := (mbind m (fun x => k))
  (at level 199, x name, m at level 100, k at level 200, right associativity).
Notation "'do' ' p <~ m ; k" := (mbind m (fun p => k))
  (at level 199, p strict pattern, m at level 100, k at level 200, right associativity).
Notation "'run' m ; k" := (mbind m (fun _ => k))
  (at level 199, m at level 100, k at level 200, right associativity).

(* ------------------------------------------------------------------ *)
(** ** The random module *)

(** [random.randint(a, b)]: [ValueError] on an empty range, otherwise a value in
    [a..b]; every such value is produced by some word. *)
Definition randint (E : env) (a b : Z) : M Z :=
  if b <? a then raise ValueError
  else do s <~ get ;
       run modify (set_tick (S (tick s))) ;
       ret (a + (e_draw E (tick s)) mod (b - a + 1)).

(** [random.shuffle(x)] (CPython: for i in reversed(range(1, len(x))): swap x[i]
    with x[j], j drawn from [0..i]). [k] is the next i. *)
Definition swap_at (l : list Z) (i j : nat) : list Z :=
  match nth_error l i, nth_error l j with
  | Some a, Some b => upd (upd l i b) j a
  | _, _ => l
  end.
Fixpoint shuffle_from (E : env) (k : nat) (t : nat) (l : list Z) : list Z * nat :=
  match k with
  | O => (l, t)
  | S k' =>
      let j := Z.to_nat (e_draw E t mod (Z.of_nat k + 1)) in
      shuffle_from E k' (S t) (swap_at l k j)
  end.
Definition random_shuffle (E : env) (t : nat) (l : list Z) : list Z * nat :=
  shuffle_from E (pred (length l)) t l.

(* ------------------------------------------------------------------ *)
(** ** Relative indices *)

(** perc:71-87 *)
Definition wrapping_correction_relative_index (d : index) : index :=
  let xx := fst d in
  let yy := snd d in
  let xx := if 1 <? Z.abs xx then (- xx) / Z.abs xx else xx in
  let yy := if 1 <? Z.abs yy then (- yy) / Z.abs yy else yy in
  (xx, yy).
(** perc:89-110 *)
Definition get_relative_index (lat : lattice) (central neighbor : Z) : res index :=
  sc <- get_site_by_id lat central ;;
  sn <- get_site_by_id lat neighbor ;;
  let idx := index_sub (s_index sn) (s_index sc) in
  let idx := wrapping_correction_relative_index idx in
  Ok (index_add (s_rel sc) idx).
(** perc:112-118 *)
Definition get_change_in_relative_index (old new : index) : index := index_sub new old.

(* ------------------------------------------------------------------ *)
(** ** Clusters *)

(** perc:192-197 [init_clusters] *)
Definition init_clusters (lat : lattice) : res (cpool * lattice) :=
  foldM (fun '(p, lat) bb => create_new_cluster p [] [bb] lat)
        (zrange (l_bond_count lat)) (empty_pool, lat).

(** perc:55-60 [get_bond_gids]: list of a set. *)
Definition get_bond_gids (E : env) (lat : lattice) (bond_ids : list Z) : res (list Z) :=
  gs <- mapM (get_bond_gid_by_id lat) bond_ids ;; Ok (e_ord E gs).

(** perc:505-517 *)
Definition uniqe_gid_bond_neighbors (lat : lattice) (bonds : list Z) : res (list Z) :=
  r <- foldM (fun '(gids, out) bb =>
         bbg <- get_bond_gid_by_id lat bb ;;
         Ok (if zmem bbg gids then (gids, out) else (gids ++ [bbg], out ++ [bb])))
       bonds ([], []) ;;
  Ok (snd r).

(** perc:315-328 *)
Definition get_neighbor_site (lat : lattice) (central bond_id : Z) : res Z :=
  cs <- get_neighbor_sites lat bond_id ;;
  cs <- lremove central cs ;;
  lget cs 0.

(** perc:330-347 *)
Definition get_connected_sites (lat : lattice) (central : Z) (bonds : list Z) : res (list Z) :=
  mapM (get_neighbor_site lat central) bonds.

(** perc:530-542: choice of the root cluster, with its break. *)
Fixpoint root_loop (p : cpool) (aw : bool) (w : Z) (all l : list Z) (ref_sz root : Z) : res Z :=
  match l with
  | [] => Ok root
  | bbg :: l' =>
      if aw && zmem w all then Ok w
      else sz <- get_cluster_bond_count p bbg ;;
           if ref_sz <=? sz then root_loop p aw w all l' sz bbg
           else root_loop p aw w all l' ref_sz root
  end.

(** perc:592-634 [relabel_relative_indices]; [central] is current_site.get_id(). *)
Definition relabel_relative_indices (lat : lattice) (p : cpool) (central cbond : Z) : res lattice :=
  bond <- get_bond_by_id lat cbond ;;
  let bbg := b_gid bond in
  neighbor <- get_neighbor_site lat central (b_id bond) ;;
  sites_to_relabel <- pool_get_sites p bbg ;;
  if zlen sites_to_relabel =? 0 then Ok lat else
  ns <- get_site_by_id lat neighbor ;;
  let old_rel := s_rel ns in
  new_rel <- get_relative_index lat central neighbor ;;
  cg <- get_site_gid_by_id lat central ;;
  if 0 <=? cg then
    let change := get_change_in_relative_index old_rel new_rel in
    foldM (fun lat ss =>
      update_site lat ss (fun s => Ok (site_set_rel s (index_add (s_rel s) change))))
      sites_to_relabel lat
  else Ok lat.

(** perc:519-590 [merge_clusters_v2]. Simplification: if one of the loops raised,
    the partial updates of lattice and pool would be dropped by the model;
    Merge.v proves that no loop raises from a reachable state. *)
Definition merge_clusters_v2 (E : env) (lat : lattice) (p : cpool) (selected current : Z)
    (aw : bool) (w : Z) (bond_neighbors : list Z) : res (lattice * cpool * Z) :=
  bond_neighbors <- uniqe_gid_bond_neighbors lat bond_neighbors ;;
  bond_gids <- get_bond_gids E lat bond_neighbors ;;
  root0 <- lget bond_gids 0 ;;
  root <- root_loop p aw w bond_gids bond_gids 0 root0 ;;
  (* perc:545-570 *)
  '(lat, p) <- foldM (fun '(lat, p) bb =>
      bbg <- get_bond_gid_by_id lat bb ;;
      if bbg =? root then
        lat <- set_site_gid_by_id lat selected root ;;
        p <- pool_add_site p root selected ;;
        nb <- get_neighbor_site lat current bb ;;
        g <- get_site_gid_by_id lat nb ;;
        if 0 <=? g then
          rri <- get_relative_index lat nb selected ;;
          lat <- lat_set_relative_index lat selected rri ;;
          Ok (lat, p)
        else Ok (lat, p)
      else Ok (lat, p))
    bond_neighbors (lat, p) ;;
  (* perc:572-581 *)
  '(lat, p) <- foldM (fun '(lat, p) bb =>
      bbg <- get_bond_gid_by_id lat bb ;;
      if bbg =? root then Ok (lat, p) else
      lat <- relabel_relative_indices lat p current bb ;;
      '(p, lat) <- merge_cluster_with p root bbg lat ;;
      Ok (lat, p))
    bond_neighbors (lat, p) ;;
  (* perc:583-587 *)
  p <- foldM (fun p bbg => if bbg =? root then Ok p else clear_cluster p bbg) bond_gids p ;;
  Ok (lat, p, root).

(* ------------------------------------------------------------------ *)
(** ** Entropy and order parameters *)

(** perc:403-428 [entropy_subtract]: the amount H it adds to entropy_value. *)
Definition entropy_subtract_amount (E : env) (lat : lattice) (p : cpool) (selected : Z) : res fexpr :=
  bonds <- get_neighbor_bonds lat selected ;;
  gs <- mapM (get_bond_gid_by_id lat) bonds ;;
  let gids := e_ord E (filter (fun g => negb (g =? -1)) gs) in
  foldM (fun H gg =>
    b_count <- get_cluster_bond_count p gg ;;
    if b_count =? 0 then Ok H else
    mu <- int_div b_count (l_bond_count lat) ;;
    lmu <- log_ratio b_count (l_bond_count lat) ;;
    Ok (FAdd H (FMul mu lmu)))
  gids (FZ 0).
(** perc:430-437 [entropy_add]: the new entropy_value. *)
Definition entropy_add_value (lat : lattice) (p : cpool) (c : Z) (e : fexpr) : res fexpr :=
  b_count <- get_cluster_bond_count p c ;;
  mu <- int_div b_count (l_bond_count lat) ;;
  lmu <- log_ratio b_count (l_bond_count lat) ;;
  Ok (FSub e (FMul mu lmu)).
(** perc:442-447 [entropy] = [entropy_v2] *)
Definition entropy_v2 (s : perc) : fexpr := ent s.
(** perc:449-462 [entropy_v1] *)
Definition entropy_v1 (s : perc) : res fexpr :=
  H <- foldM (fun H i =>
    b_count <- get_cluster_bond_count (pool s) i ;;
    mu <- int_div b_count (l_bond_count (lat s)) ;;
    if b_count =? 0 then Ok H else
    lmu <- log_ratio b_count (l_bond_count (lat s)) ;;
    Ok (FAdd H (FMul mu lmu)))
  (zrange (cluster_count s)) (FZ 0) ;;
  Ok (FNeg H).
(** perc:439-440 *)
Definition occupation_prob (s : perc) : res fexpr := int_div (occ_count s) (l_site_count (lat s)).
(** perc:464-465 *)
Definition largest_cluster (s : perc) : Z := largest_sz s.
(** perc:467-468 *)
Definition order_param_largest_clstr (s : perc) : res fexpr :=
  int_div (largest_sz s) (l_bond_count (lat s)).
(** perc:470-478 *)
Definition order_param_wrapping (s : perc) : res fexpr :=
  if after_wrap s then
    count <- get_cluster_bond_count (pool s) (wid s) ;;
    int_div count (l_bond_count (lat s))
  else Ok (FZ 0).
(** perc:273-290 *)
Definition get_pc (s : perc) : res fexpr :=
  if after_wrap s then int_div (pc_occ s) (l_site_count (lat s)) else Ok (FZ 0).
Definition get_site_count_wrapping_cluster_pc (s : perc) : Z :=
  match pc_sites s with Some n => n | None => 0 end.
Definition get_bond_count_wrapping_cluster_pc (s : perc) : Z :=
  match pc_bonds s with Some n => n | None => 0 end.
(** perc:301-310 [get_data_array]: [np.c_] of the four columns; rows
    (p, H, P_largest, P_wrapping); ValueError when the lengths differ. *)
Definition get_data_array (s : perc) : res (list (list fexpr)) :=
  let n := length (p_arr s) in
  if (length (h_arr s) =? n)%nat && (length (pl_arr s) =? n)%nat && (length (pw_arr s) =? n)%nat
  then Ok (map (fun '(p, (h, (pl, pw))) => [p; h; pl; pw])
               (combine (p_arr s) (combine (h_arr s) (combine (pl_arr s) (pw_arr s)))))
  else Err ValueError.

(* ------------------------------------------------------------------ *)
(** ** Site sequences *)

(** perc:223-224 *)
Definition get_site_id_sequence (s : perc) : list Z := ids s.
(** perc:226-232; for L1 the override L1L2:32-38 walks the recorded selections. *)
Definition get_index_sequence (s : perc) : res (list index) :=
  mapM (fun id => t <- get_site_by_id (lat s) id ;; Ok (s_index t))
       (match kind s with KL1 => record s | _ => ids s end).

(** perc:204-221 [shuffle] *)
Definition shuffle (E : env) : M unit :=
  do s <~ get ;
  if mode_custom s && negb (do_shuffle s) then ret tt
  else if do_shuffle s then
    let '(l, t) := random_shuffle E (tick s) (ids s) in
    run modify (fun s => set_tick t (mutate_ids l s)) ;
    do s <~ get ;
    do rv <~ lift (foldM (fun rv i => a <- lget (ids s) i ;; lset rv a i)
                         (zrange (zlen (ids s))) (rev_ids s)) ;
    modify (set_rev rv)
  else ret tt.

(** perc:156-170 [set_custome_site_id_list(site_id_list, do_shuffle)] *)
Definition set_custome_site_id_list (E : env) (l : list Z) (sh : bool) : M unit :=
  do s <~ get ;
  let max_index := l_length (lat s) * l_length (lat s) - 1 in
  do mx <~ lift (lmax l) ;
  do mn <~ lift (lmin l) ;
  if (max_index <? mx) || (mn <? 0) then ret tt
  else
    run modify (rebind_ids l l true) ;
    run modify (set_custom (zlen l) true sh) ;
    shuffle E.

(** perc:172-187 [set_custome_site_index_list]; each index is a component list. *)
Definition set_custome_site_index_list (E : env) (ixs : list (list Z)) (sh : bool) : M unit :=
  do s <~ get ;
  let max_index := l_length (lat s) * l_length (lat s) - 1 in
  let l := map (calculate_id_from_index (lat s)) ixs in
  do mx <~ lift (lmax l) ;
  do mn <~ lift (lmin l) ;
  if (max_index <? mx) || (mn <? 0) then ret tt
  else
    run modify (rebind_ids l (user_list s) false) ;
    run modify (set_custom (zlen l) true sh) ;
    shuffle E.

(** perc:234-242 [swap_ids] (not called by any other method). *)
Definition swap_ids (id1 id2 : Z) : M unit :=
  if id1 =? id2 then ret tt else
  do s <~ get ;
  do ix1 <~ lift (lget (rev_ids s) id1) ;
  do ix2 <~ lift (lget (rev_ids s) id2) ;
  do l <~ lift (lset (ids s) ix1 id2) ;
  run modify (mutate_ids l) ;
  do l <~ lift (lset l ix2 id1) ;
  run modify (mutate_ids l) ;
  do r <~ lift (lset (rev_ids s) id2 ix1) ;
  run modify (set_rev r) ;
  do r <~ lift (lset r id1 ix2) ;
  modify (set_rev r).

(* ------------------------------------------------------------------ *)
(** ** Selecting a site *)

(** perc:358-360 / L1L2:120-123 / L1L2:239-241: selected_id, current_site and
    the "must be unoccupied" assertion. *)
Definition select_id (id : Z) : M unit :=
  run modify (set_sel_id (Some id)) ;
  do s <~ get ;
  do t <~ lift (get_site_by_id (lat s) id) ;
  run modify (set_cur_site (Some (if id <? 0 then id + zlen (l_sites (lat s)) else id))) ;
  lift (passert (s_gid t =? -1)).

(** perc:349-364 [SitePercolation.select_site] *)
Definition select_site_base : M selstate :=
  do s <~ get ;
  if max_iter s <=? cur_idx s then ret EMPTY_SITE_LIST else
  do id <~ lift (lget (ids s) (cur_idx s)) ;
  run select_id id ;
  run modify (fun s => set_cur_idx (cur_idx s + 1) s) ;
  run modify (fun s => set_occ_count (occ_count s + 1) s) ;
  ret SUCESS.

(** perc:229-230 of L1L2 and 106-109: drop the entry [rnd] from the candidates. *)
Definition drop_candidate (rnd : Z) : M unit :=
  do s <~ get ;
  do v <~ lift (lget (ids s) (cur_idx s)) ;
  do l <~ lift (lset (ids s) rnd v) ;
  run modify (mutate_ids l) ;
  modify (fun s => set_cur_idx (cur_idx s + 1) s).

(** L1L2:78-127 [SitePercolationL1.select_site] *)
Definition select_site_L1 (E : env) : M selstate :=
  do s <~ get ;
  if l_site_count (lat s) <=? cur_idx s then ret EMPTY_SITE_LIST else
  do rnd <~ randint E (cur_idx s) (zlen (ids s) - 1) ;
  do X <~ lift (lget (ids s) rnd) ;
  do sx <~ lift (get_site_by_id (lat s) X) ;
  let finish (id : Z) : M selstate :=
    run modify (set_sel_id (Some id)) ;
    run modify (fun s => set_record (record s ++ [id]) s) ;
    run select_id id ;
    run modify (fun s => set_occ_count (occ_count s + 1) s) ;
    ret SUCESS in
  if site_is_occupied sx then
    run modify (fun s => set_xy (x_occ s + 1) (y_occ s) s) ;
    do sites <~ lift (get_all_neighbor_sites (lat s) X) ;
    do k <~ randint E 0 (zlen sites - 1) ;
    do central2 <~ lift (lget sites k) ;
    do s2 <~ lift (get_site_by_id (lat s) central2) ;
    if site_is_occupied s2 then
      do lat' <~ lift (update_site (lat s) X site_reduce_1st_nn) ;
      run modify (set_lat lat') ;
      do sx' <~ lift (get_site_by_id lat' X) ;
      run (if site_is_removable sx' 1 then drop_candidate rnd else ret tt) ;
      ret CURRENT_SITE_NOT_EMPTY
    else finish central2
  else finish X.

(** L1L2:184-187 [correct_index_for_periodicity] *)
Definition correct_index_for_periodicity (lat : lattice) (i : index) : index :=
  (fst i mod l_length lat, snd i mod l_length lat).

(** L1L2:189-244 [SitePercolationL2.select_site] *)
Definition select_site_L2 (E : env) : M selstate :=
  do s <~ get ;
  if l_site_count (lat s) <=? cur_idx s then ret EMPTY_SITE_LIST else
  do rnd <~ randint E (cur_idx s) (zlen (ids s) - 1) ;
  do X <~ lift (lget (ids s) rnd) ;
  do sx <~ lift (get_site_by_id (lat s) X) ;
  let finish (id : Z) : M selstate :=
    run select_id id ;
    run modify (fun s => set_occ_count (occ_count s + 1) s) ;
    ret SUCESS in
  if site_is_occupied sx then
    do sites <~ lift (get_all_neighbor_sites (lat s) X) ;
    do k <~ randint E 0 (zlen sites - 1) ;
    do Y <~ lift (lget sites k) ;
    run modify (fun s => set_xy (x_occ s + 1) (y_occ s) s) ;
    do sy <~ lift (get_site_by_id (lat s) Y) ;
    if site_is_occupied sy then
      do lat' <~ lift (update_site (lat s) X site_reduce_1st_nn) ;
      run modify (set_lat lat') ;
      do sx <~ lift (get_site_by_id lat' X) ;
      do sy <~ lift (get_site_by_id lat' Y) ;
      let delta := index_normalize (index_sub (s_index sy) (s_index sx)) in
      let z_index := index_add (s_index sy) delta in
      let z_index := correct_index_for_periodicity lat' z_index in
      do sz <~ lift (get_site_by_index lat' z_index) ;
      let Zid := s_id sz in
      do sz <~ lift (get_site_by_id lat' Zid) ;
      if site_is_occupied sz then
        run modify (fun s => set_xy (x_occ s) (y_occ s + 1) s) ;
        do lat'' <~ lift (update_site lat' X site_reduce_2st_directional_nn) ;
        run modify (set_lat lat'') ;
        do sx' <~ lift (get_site_by_id lat'' X) ;
        run (if site_is_removable sx' 2 then drop_candidate rnd else ret tt) ;
        ret CURRENT_SITE_NOT_EMPTY
      else finish Zid
    else finish Y
  else finish X.

Definition select_site (E : env) : M selstate :=
  do s <~ get ;
  match kind s with
  | KL1 => select_site_L1 E
  | KL2 => select_site_L2 E
  | _ => select_site_base
  end.

(* ------------------------------------------------------------------ *)
(** ** Placing a site *)

(** perc:395-401 [track_largest_cluster] *)
Definition track_largest_cluster (c : Z) : M unit :=
  do s <~ get ;
  do new_size <~ lift (get_cluster_bond_count (pool s) c) ;
  if largest_sz s <? new_size then modify (set_largest new_size c) else ret tt.

(** [self.selected_id] / [self.current_site] used as an index: [TypeError] while
    they are still [None]. *)
Definition need {A} (o : option A) : M A :=
  match o with Some a => ret a | None => raise TypeError end.

(** perc:366-393 [place_one_site] *)
Definition place_one_site (E : env) : M bool :=
  do flag <~ select_site E ;
  run modify (set_sel_flag (Some flag)) ;
  match flag with
  | SUCESS =>
      do s <~ get ;
      do selected <~ need (sel_id s) ;
      do cur <~ need (cur_site s) ;
      do lat1 <~ lift (lat_init_relative_index (lat s) selected) ;
      run modify (set_lat lat1) ;
      do cs <~ lift (get_site_by_id lat1 cur) ;
      let bond_neighbors := s_bonds cs in
      do H <~ lift (entropy_subtract_amount E lat1 (pool s) selected) ;
      run modify (fun s => set_ent (FAdd (ent s) H) s) ;
      do s <~ get ;
      do '(lat2, pool2, root) <~
        lift (merge_clusters_v2 E lat1 (pool s) selected (s_id cs) (after_wrap s) (wid s)
                bond_neighbors) ;
      run modify (fun s => set_pool pool2 (set_lat lat2 s)) ;
      run track_largest_cluster root ;
      do s <~ get ;
      do e' <~ lift (entropy_add_value (lat s) (pool s) root (ent s)) ;
      run modify (set_ent e') ;
      ret true
  | CURRENT_SITE_NOT_EMPTY => ret true
  | EMPTY_SITE_LIST => ret false
  end.

(* ------------------------------------------------------------------ *)
(** ** Wrapping *)

(** perc:643-658: scan of the neighbours with the same gid. *)
Fixpoint wrap_scan (lat : lattice) (crel : index) (nbs : list Z) : res bool :=
  match nbs with
  | [] => Ok false
  | ss :: rest =>
      t <- get_site_by_id lat ss ;;
      let delta_x := fst crel - fst (s_rel t) in
      let delta_y := snd crel - snd (s_rel t) in
      if (1 <? Z.abs delta_x) || (1 <? Z.abs delta_y) then Ok true
      else wrap_scan lat crel rest
  end.

(** perc:636-659 [detect_wrapping] *)
Definition detect_wrapping : M bool :=
  do s <~ get ;
  if after_wrap s then ret true else
  do selected <~ need (sel_id s) ;
  do nbs <~ lift (get_sites_for_wrapping_test (lat s) selected) ;
  do cur <~ need (cur_site s) ;
  do cs <~ lift (get_site_by_id (lat s) cur) ;
  do hit <~ lift (wrap_scan (lat s) (s_rel cs) nbs) ;
  if hit then
    do ssel <~ lift (get_site_by_id (lat s) selected) ;
    let w := s_gid ssel in
    run modify (set_wrap true w (occ_count s) (pc_bonds s) (pc_sites s)) ;
    do nb <~ lift (get_cluster_bond_count (pool s) w) ;
    run modify (fun s => set_wrap true w (occ_count s) (Some nb) (pc_sites s) s) ;
    do ns <~ lift (get_cluster_site_count (pool s) w) ;
    run modify (fun s => set_wrap true w (occ_count s) (pc_bonds s) (Some ns) s) ;
    ret true
  else ret false.

(* ------------------------------------------------------------------ *)
(** ** Construction and reset *)

(** perc:15-28, 122-154 and the subclass constructors L0.py:10-21, L1L2:13-24,
    L1L2:144-152, sp:12-18. [t0] is the position of the global random stream.
    The [signature] attribute is modelled in Run.v. *)
Definition new_perc (E : env) (k : pkind) (len : Z) (t0 : nat) : res perc :=
  lat0 <- new_lattice len ;;
  '(p, lat1) <- init_clusters lat0 ;;
  mx <- log_int (l_bond_count lat1) ;;
  let s := mkPerc k lat1 p (zrange (len * len)) (repeat 0 (Z.to_nat (len * len)))
    0 0 0 None None None (l_bond_count lat1) 0 (-1) mx mx false (-1) true
    [] [] [] [] (l_site_count lat1) false true None None 0 0 [] (FZ 0) [] false t0 in
  match shuffle E s with
  | (s', Ok _) => Ok s'
  | (_, Err e) => Err e
  end.

(** perc:30-35 and 244-271 [SitePercolation.reset] (with [Percolation.reset]). *)
Definition reset_base (E : env) : M unit :=
  do s <~ get ;
  run modify (set_lat (lattice_reset (lat s))) ;
  run modify (set_pool empty_pool) ;
  do s <~ get ;
  do '(p, lat1) <~ lift (init_clusters (lat s)) ;
  run modify (fun s => set_wrap (after_wrap s) (wid s) (pc_occ s) None None
                        (set_pool p (set_lat lat1 s))) ;
  run shuffle E ;
  run modify (set_cur_idx 0) ;
  run modify (fun s => set_wrap false (-1) 0 (pc_bonds s) (pc_sites s) s) ;
  run modify (set_largest 0 (-1)) ;
  run modify (fun s => set_ent (max_ent s) s) ;
  run modify (set_occ_count 0) ;
  run modify (set_sel_flag None) ;
  modify (fun s => set_arrs (if first_run s then [] else p_arr s) [] [] [] s).

(** L0.py:26-30, L1L2:26-30, L1L2:154-158, sp:20-22: the overriding [reset]s. *)
Definition reset (E : env) : M unit :=
  run reset_base E ;
  do s <~ get ;
  match kind s with
  | KL1 =>
      run modify (fun s => rebind_ids (zrange (l_length (lat s) * l_length (lat s)))
                            (user_list s) false s) ;
      run modify (set_xy 0 (y_occ s)) ;
      modify (set_record [])
  | KL2 =>
      run modify (fun s => rebind_ids (zrange (l_length (lat s) * l_length (lat s)))
                            (user_list s) false s) ;
      modify (set_xy 0 0)
  | KSP => modify (set_sp (FZ 0))
  | _ => ret tt
  end.

(* ------------------------------------------------------------------ *)
(** ** Running a realization *)

(** perc:673-684: what one successful placement records. *)
Definition record_step : M unit :=
  do s <~ get ;
  do p <~ lift (occupation_prob s) ;
  let H := entropy_v2 s in
  do P1 <~ lift (order_param_wrapping s) ;
  do P2 <~ lift (order_param_largest_clstr s) ;
  modify (fun s => set_arrs (if first_run s then p_arr s ++ [p] else p_arr s)
                            (h_arr s ++ [H]) (pw_arr s ++ [P1]) (pl_arr s ++ [P2]) s).

Definition flag_is_success (s : perc) : bool :=
  match sel_flag s with Some SUCESS => true | _ => false end.

(** perc:663-721 [run_once]; [fuel] bounds the while loop. *)
Fixpoint run_loop (E : env) (fuel : nat) : M unit :=
  match fuel with
  | O => raise OutOfFuel
  | S f =>
      do b <~ place_one_site E ;
      if b then
        do s <~ get ;
        run (if flag_is_success s then
              run detect_wrapping ;
              record_step
            else ret tt) ;
        run_loop E f
      else ret tt
  end.
Definition run_once_base (E : env) (fuel : nat) : M unit :=
  run run_loop E fuel ;
  modify (set_first_run false).

(** perc:723-751 [test_run_once]: stops at the first wrapping and asserts
    pc_occupied_site_count > pc_site_count_wrapping_cluster. *)
Fixpoint test_run_loop (E : env) (fuel : nat) : M unit :=
  match fuel with
  | O => raise OutOfFuel
  | S f =>
      do b <~ place_one_site E ;
      if b then
        do s <~ get ;
        if flag_is_success s then
          do w <~ detect_wrapping ;
          if w then
            do s <~ get ;
            do n <~ need (pc_sites s) ;
            lift (passert (n <? pc_occ s))
          else
            run record_step ;
            test_run_loop E f
        else test_run_loop E f
      else ret tt
  end.
Definition test_run_once (E : env) (fuel : nat) : M unit :=
  run test_run_loop E fuel ;
  modify (set_first_run false).

(* ------------------------------------------------------------------ *)
(** ** Shortest path (sp) *)

(** sp:103-127 [scan_row_col_of_selected_site]: (column_flag, row_flag). *)
Definition scan_row_col_of_selected_site (s : perc) (ix : index) : res (bool * bool) :=
  let '(rr, cc) := ix in
  foldM (fun '(cf, rf) x =>
    g1 <- get_site_gid_by_id (lat s) (get_id_from_index (lat s) rr x) ;;
    let cf := if negb (g1 =? wid s) then false else cf in
    g2 <- get_site_gid_by_id (lat s) (get_id_from_index (lat s) x cc) ;;
    let rf := if negb (g2 =? wid s) then false else rf in
    Ok (cf, rf))
  (zrange (l_length (lat s))) (true, true).

(** sp:62-80 [scan_all_rows]: for each column cc, is every (rr, cc) wrapping? *)
Fixpoint scan_lines (s : perc) (id_of : Z -> Z -> Z) (outer : list Z) : res bool :=
  match outer with
  | [] => Ok false
  | a :: rest =>
      flag <- foldM (fun flag b =>
                g <- get_site_gid_by_id (lat s) (id_of a b) ;;
                Ok (if negb (g =? wid s) then false else flag))
              (zrange (l_length (lat s))) true ;;
      if flag then Ok true else scan_lines s id_of rest
  end.
Definition scan_all_rows (s : perc) : res bool :=
  if wid s <? 0 then Ok false
  else scan_lines s (fun cc rr => get_id_from_index (lat s) rr cc) (zrange (l_length (lat s))).
(** sp:82-100 [scan_all_cols] *)
Definition scan_all_cols (s : perc) : res bool :=
  if wid s <? 0 then Ok false
  else scan_lines s (fun rr cc => get_id_from_index (lat s) rr cc) (zrange (l_length (lat s))).

(** sp:30-60 [ShortestPathAfter_pc.run_once] *)
Fixpoint sp_loop (E : env) (fuel : nat) : M unit :=
  match fuel with
  | O => raise OutOfFuel
  | S f =>
      do b <~ place_one_site E ;
      if b then
        do s <~ get ;
        if flag_is_success s then
          do w <~ detect_wrapping ;
          if w then
            do s <~ get ;
            do cur <~ need (cur_site s) ;
            do cs <~ lift (get_site_by_id (lat s) cur) ;
            do '(cf, rf) <~ lift (scan_row_col_of_selected_site s (s_index cs)) ;
            if cf || rf then
              do p <~ lift (occupation_prob s) ;
              modify (set_sp p)
            else sp_loop E f
          else sp_loop E f
        else sp_loop E f
      else ret tt
  end.
Definition sp_run_once (E : env) (fuel : nat) : M unit :=
  run sp_loop E fuel ;
  modify (set_first_run false).

(** Method dispatch of [run_once]. *)
Definition run_once (E : env) (fuel : nat) : M unit :=
  do s <~ get ;
  match kind s with
  | KSP => sp_run_once E fuel
  | _ => run_once_base E fuel
  end.

(* ------------------------------------------------------------------ *)
(** ** Self-checks and dead code *)

(** perc:753-776 [test_clusters] *)
Definition test_clusters (s : perc) : res unit :=
  if occ_count s <? l_site_count (lat s) then Ok tt else
  let r := zrange (2 * (l_length (lat s) * l_length (lat s))) in
  '(bsum, ssum) <- foldM (fun '(bsum, ssum) gid =>
      b1 <- get_cluster_bond_count (pool s) gid ;;
      s1 <- get_cluster_site_count (pool s) gid ;;
      if gid =? wid s then
        _ <- passert (b1 =? l_bond_count (lat s)) ;;
        _ <- passert (s1 =? l_site_count (lat s)) ;;
        Ok (bsum, ssum)
      else Ok (bsum + b1, ssum + s1)) r (0, 0) ;;
  _ <- passert (bsum =? 0) ;;
  _ <- passert (ssum =? 0) ;;
  passert (largest_sz s =? zlen r).

(** perc:778-793 [SitePercolation.test_lattice] *)
Definition test_lattice (s : perc) : res unit :=
  _ <- test_neighbor_count (lat s) ;;
  _ <- test_relative_index (lat s) ;;
  _ <- scan_bonds (lat s) ;;
  _ <- scan_sites (lat s) ;;
  if occ_count s =? l_site_count (lat s) then lat_test_lattice (lat s) (wid s) else Ok tt.

(** L1L2:59-62: [for ss in sites: if ss == central: sites.remove(ss)] — removing
    from the list being iterated; [i] is the iterator's position. *)
Fixpoint iter_remove (fuel : nat) (i : nat) (c : Z) (l : list Z) : res (list Z) :=
  match fuel with
  | O => Err OutOfFuel
  | S f =>
      match nth_error l i with
      | None => Ok l
      | Some x => if x =? c then l' <- lremove x l ;; iter_remove f (S i) c l'
                  else iter_remove f (S i) c l
      end
  end.
(** L1L2:47-76 [get_four_neighbor_sites] *)
Definition get_four_neighbor_sites (lat : lattice) (central : Z) : res (list Z) :=
  bonds <- get_neighbor_bonds lat central ;;
  ls <- mapM (get_neighbor_sites lat) bonds ;;
  let sites := concat ls in
  sites <- iter_remove (S (length sites)) 0 central sites ;;
  _ <- passert (zlen sites =? 4) ;;
  Ok sites.
