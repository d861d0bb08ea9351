(** * Heap: cluster objects, their lists and index objects as objects in a store.

    Perc.v keeps the contents of the cluster pool and the relative indices as values.  In the
    code they are objects: [get_cluster] returns a [OneCluster], [get_sites] and [get_bonds]
    return its own lists, [get_relative_index] returns the [RelativeIndex] the site holds.  Here
    these objects live in a store and have addresses, so it can be said what a caller who has
    kept one of them sees later.  The methods that only read such objects, or do not deal with
    them at all, are the ones of Perc.v ([hlift]); every method that makes one, changes one or
    hands one on is transcribed again.  [Site] and [Bond] objects are made once, by the
    constructor, and never replaced (lattice.py:18-42); their ids, labels and counters stay in
    [h_obj]. *)
From Coq Require Import ZArith List Bool.
From Verif Require Import Py Lattice Cluster Perc History.
Import ListNotations.
Open Scope Z_scope.

(* ------------------------------------------------------------------ *)
(** ** index.py: the two classes *)

Inductive icls := CIndex | CRel.
Record iobj := mkI { i_cls : icls; i_1 : Z; i_2 : Z }.
(** index.py:4-16, 66-69, called with integers. *)
Definition new_index (a b : Z) : iobj := mkI CIndex a b.
Definition new_rel (a b : Z) : iobj := mkI CRel a b.
(** index.py:66-80 [RelativeIndex(index=...)]: accepts both classes. *)
Definition rel_of (a : iobj) : iobj := mkI CRel (i_1 a) (i_2 a).
(** index.py:23-28 [__add__], inherited by [RelativeIndex]: the sum is an [Index]. *)
Definition iadd (a b : iobj) : iobj := new_index (i_1 a + i_1 b) (i_2 a + i_2 b).
(** index.py:18-21, 91-109 [__sub__]: each class returns its own kind. *)
Definition isub (a b : iobj) : iobj := mkI (i_cls a) (i_1 a - i_1 b) (i_2 a - i_2 b).
(** index.py:82-86 [x_coord], [y_coord]: methods of [RelativeIndex] only. *)
Definition x_coord (a : iobj) : res Z := match i_cls a with CRel => Ok (i_1 a) | CIndex => Err AttributeError end.
Definition y_coord (a : iobj) : res Z := match i_cls a with CRel => Ok (i_2 a) | CIndex => Err AttributeError end.
(** index.py:38-39 [as_list]. *)
Definition as_list (a : iobj) : index := (i_1 a, i_2 a).
(** index.py:41-49 [normalize]: changes the object itself. *)
Definition inormalize (a : iobj) : iobj :=
  let '(x, y) := index_normalize (i_1 a, i_2 a) in mkI (i_cls a) x y.

(* ------------------------------------------------------------------ *)
(** ** The store *)

(** cluster.py:2-12 [OneCluster]: the addresses of its two lists. *)
Record cobj := mkObj { o_sites : nat; o_bonds : nat; o_gid : Z; o_id : Z }.
Definition no_obj : cobj := mkObj 0 0 (-1) (-1).

Record heap := mkHeap {
  h_obj : perc;             (* all other attributes; its [pool] and [s_rel]s are not used *)
  h_lists : list (list Z);  (* the list objects of clusters, in the order they were made *)
  h_clu : list cobj;        (* the [OneCluster] objects, in the order they were made *)
  h_cl : list nat;          (* cluster.py:99 cluster_list *)
  h_next : Z;               (* cluster.py:100 cluster_id *)
  h_idx : list iobj;        (* the index objects given to sites, in the order they were made *)
  h_rel : list nat          (* site.py:13 relative_index, of each site *)
}.
Definition contents (h : heap) (r : nat) : list Z := nth r (h_lists h) [].
Definition obj_at (h : heap) (a : nat) : cobj := nth a (h_clu h) no_obj.
Definition idx_at (h : heap) (r : nat) : iobj := nth r (h_idx h) (new_rel 0 0).
(** What a caller who holds the cluster object [a] reads from it now. *)
Definition shown (h : heap) (a : nat) : cluster :=
  let o := obj_at h a in mkCluster (contents h (o_sites o)) (contents h (o_bonds o)) (o_gid o) (o_id o).

Definition with_rels (lat : lattice) (rs : list index) : lattice :=
  with_sites lat (map (fun '(s, r) => site_set_rel s r) (combine (l_sites lat) rs)).
(** The object of Perc.v: the same attributes, the objects of the store replaced by their contents. *)
Definition load (h : heap) : perc :=
  set_pool (mkPool (map (shown h) (h_cl h)) (h_next h))
    (set_lat (with_rels (lat (h_obj h)) (map (fun r => as_list (idx_at h r)) (h_rel h))) (h_obj h)).

Definition put_obj s h := mkHeap s (h_lists h) (h_clu h) (h_cl h) (h_next h) (h_idx h) (h_rel h).
Definition put_lists l h := mkHeap (h_obj h) l (h_clu h) (h_cl h) (h_next h) (h_idx h) (h_rel h).
Definition put_clu l h := mkHeap (h_obj h) (h_lists h) l (h_cl h) (h_next h) (h_idx h) (h_rel h).
Definition put_pool l n h := mkHeap (h_obj h) (h_lists h) (h_clu h) l n (h_idx h) (h_rel h).
Definition put_idx l r h := mkHeap (h_obj h) (h_lists h) (h_clu h) (h_cl h) (h_next h) l r.

Definition HM (A : Type) := heap -> heap * res A.
Definition hret {A} (a : A) : HM A := fun h => (h, Ok a).
Definition hraise {A} (e : exn) : HM A := fun h => (h, Err e).
Definition hbind {A B} (m : HM A) (k : A -> HM B) : HM B :=
  fun h => match m h with (h', Ok a) => k a h' | (h', Err e) => (h', Err e) end.
Definition hget : HM heap := fun h => (h, Ok h).
Definition hmod (f : heap -> heap) : HM unit := fun h => (f h, Ok tt).
Definition hres {A} (r : res A) : HM A := fun h => (h, r).
(** A method of Perc.v that makes and changes no cluster, list or index object. *)
Definition hlift {A} (m : M A) : HM A := fun h => let (s, r) := m (load h) in (put_obj s h, r).
Notation "'hdo' x <~ m ; k" := (hbind m (fun x => k))
  (at level 199, x name, m at level 100, k at level 200, right associativity).
Notation "'hrun' m ; k" := (hbind m (fun _ => k))
  (at level 199, m at level 100, k at level 200, right associativity).
Fixpoint hfor {B} (l : list B) (f : B -> HM unit) : HM unit :=
  match l with [] => hret tt | x :: t => hrun f x ; hfor t f end.

(** Changes of labels (lattice.py:239-255) concern no object of the store. *)
Definition h_lat (f : lattice -> res lattice) : HM unit :=
  hdo s <~ hlift get ;
  hdo l <~ hres (f (lat s)) ;
  hmod (fun h => put_obj (set_lat l (h_obj h)) h).

(* ------------------------------------------------------------------ *)
(** ** cluster.py *)

(** cluster.py:149-153 [get_cluster]; [None] for a number that is too large. *)
Definition get_cluster (h : heap) (g : Z) : res (option nat) :=
  if zlen (h_cl h) <=? g then Ok None else a <- lget (h_cl h) g ;; Ok (Some a).
(** cluster.py:57-58, 68-69 [OneCluster.get_sites], [get_bonds]: the object's own lists. *)
Definition sites_list (h : heap) (a : nat) : nat := o_sites (obj_at h a).
Definition bonds_list (h : heap) (a : nat) : nat := o_bonds (obj_at h a).
(** [l += ys] for the list object [r]. *)
Definition h_extend (r : nat) (ys : list Z) : HM unit :=
  hmod (fun h => put_lists (upd (h_lists h) r (contents h r ++ ys)) h).
(** cluster.py:98-106 *)
Definition h_pool_reset : HM unit := hmod (put_pool [] 0).
(** cluster.py:114-133, 48-66 [create_new_cluster]; a [OneCluster] has two new lists (cluster.py:8-9)
    and [add_sites], [add_bonds] extend these, the arguments are not kept. *)
Definition h_create_new_cluster (site_ids bond_ids : list Z) : HM unit :=
  hdo h <~ hget ;
  let n := length (h_lists h) in
  hrun hmod (put_lists (h_lists h ++ [site_ids; bond_ids])) ;
  hrun hmod (put_clu (h_clu h ++ [mkObj n (S n) (h_next h) (h_next h)])) ;
  hrun hfor site_ids (fun ss => h_lat (fun l => set_site_gid_by_id l ss (h_next h))) ;
  hrun hfor bond_ids (fun bb => h_lat (fun l => set_bond_gid_by_id l bb (h_next h))) ;
  hmod (put_pool (h_cl h ++ [length (h_clu h)]) (h_next h + 1)).
(** cluster.py:135-137, 48-55: [add_sites] with an integer. *)
Definition h_add_site (g s : Z) : HM unit :=
  hdo h <~ hget ;
  hdo a <~ hres (lget (h_cl h) g) ;
  h_extend (sites_list h a) [s].
(** cluster.py:155-157, 77-82 [clear_cluster]: two new empty lists, the old ones are let go. *)
Definition h_clear_cluster (g : Z) : HM unit :=
  hdo h <~ hget ;
  hdo a <~ hres (lget (h_cl h) g) ;
  let n := length (h_lists h) in
  hrun hmod (put_lists (h_lists h ++ [[]; []])) ;
  hmod (put_clu (upd (h_clu h) a (mkObj n (S n) (-1) (-1)))).
(** cluster.py:159-187 [merge_cluster_with].  The loops read the lists of B while they change
    labels only. *)
Definition h_merge_cluster_with (ga gb : Z) : HM unit :=
  hdo h <~ hget ;
  hdo a <~ hres (lget (h_cl h) ga) ;
  let gid := o_gid (obj_at h a) in
  hdo b <~ hres (lget (h_cl h) gb) ;
  hrun hfor (contents h (bonds_list h b)) (fun bb => h_lat (fun l => set_bond_gid_by_id l bb gid)) ;
  hrun hfor (contents h (sites_list h b)) (fun ss => h_lat (fun l => set_site_gid_by_id l ss gid)) ;
  hdo h <~ hget ;
  hrun h_extend (bonds_list h a) (contents h (bonds_list h b)) ;
  hdo h <~ hget ;
  h_extend (sites_list h a) (contents h (sites_list h b)).
(** perc:192-197 [init_clusters] *)
Definition h_init_clusters : HM unit :=
  hrun h_pool_reset ;
  hdo s <~ hlift get ;
  hfor (zrange (l_bond_count (lat s))) (fun bb => h_create_new_cluster [] [bb]).

(* ------------------------------------------------------------------ *)
(** ** Relative indices *)

(** site.py:112-113 [get_relative_index]: the site's own object. *)
Definition rel_addr (h : heap) (id : Z) : res nat := lget (h_rel h) id.
(** site.py:115-117, 108-110: the site gets another object, made for it. *)
Definition h_set_rel (id : Z) (v : iobj) : HM unit :=
  hdo h <~ hget ;
  hdo l <~ hres (lset (h_rel h) id (length (h_idx h))) ;
  hmod (put_idx (h_idx h ++ [v]) l).
(** lattice.py:418-426.  [self.site_ids[id]] is [range(...)[id]]. *)
Definition h_set_relative_index (id : Z) (v : iobj) : HM unit :=
  hdo s <~ hlift get ;
  hdo i <~ hres (lget (zrange (l_site_count (lat s))) id) ;
  h_set_rel i v.
(** perc:71-87: the result is made with [RelativeIndex(xx, yy)]. *)
Definition icorrect (d : iobj) : iobj :=
  let '(x, y) := wrapping_correction_relative_index (as_list d) in new_rel x y.
(** perc:89-110.  The intermediate objects are not kept by anybody and are values here. *)
Definition h_get_relative_index (h : heap) (central neighbor : Z) : res iobj :=
  sc <- get_site_by_id (lat (load h)) central ;;
  sn <- get_site_by_id (lat (load h)) neighbor ;;
  let idx := isub (rel_of (new_index (fst (s_index sn)) (snd (s_index sn))))
                  (rel_of (new_index (fst (s_index sc)) (snd (s_index sc)))) in
  let idx := icorrect idx in
  r <- rel_addr h central ;;
  Ok (rel_of (iadd (idx_at h r) idx)).
(** perc:112-118 *)
Definition h_get_change (old new : iobj) : iobj := rel_of (isub new old).
(** perc:592-634 [relabel_relative_indices]: every site of the cluster gets a new object. *)
Definition h_relabel_relative_indices (central cbond : Z) : HM unit :=
  hdo s <~ hlift get ;
  hdo bond <~ hres (get_bond_by_id (lat s) cbond) ;
  let bbg := b_gid bond in
  hdo neighbor <~ hres (get_neighbor_site (lat s) central (b_id bond)) ;
  hdo h <~ hget ;
  hdo a <~ hres (lget (h_cl h) bbg) ;
  let sites_to_relabel := contents h (sites_list h a) in
  if zlen sites_to_relabel =? 0 then hret tt else
  hdo old <~ hres (rel_addr h neighbor) ;
  hdo new_rel <~ hres (h_get_relative_index h central neighbor) ;
  hdo cg <~ hres (get_site_gid_by_id (lat s) central) ;
  if 0 <=? cg then
    let change := h_get_change (idx_at h old) new_rel in
    hfor sites_to_relabel (fun ss =>
      hdo h <~ hget ;
      hdo r <~ hres (rel_addr h ss) ;
      h_set_rel ss (rel_of (iadd (idx_at h r) change)))
  else hret tt.

(** perc:519-590 [merge_clusters_v2] *)
Definition h_merge_clusters_v2 (E : env) (selected current : Z) (bond_neighbors : list Z) : HM Z :=
  hdo s <~ hlift get ;
  hdo bond_neighbors <~ hres (uniqe_gid_bond_neighbors (lat s) bond_neighbors) ;
  hdo bond_gids <~ hres (get_bond_gids E (lat s) bond_neighbors) ;
  hdo root0 <~ hres (lget bond_gids 0) ;
  hdo root <~ hres (root_loop (pool s) (after_wrap s) (wid s) bond_gids bond_gids 0 root0) ;
  hrun hfor bond_neighbors (fun bb =>
    hdo s <~ hlift get ;
    hdo bbg <~ hres (get_bond_gid_by_id (lat s) bb) ;
    if bbg =? root then
      hrun h_lat (fun l => set_site_gid_by_id l selected root) ;
      hrun h_add_site root selected ;
      hdo s <~ hlift get ;
      hdo nb <~ hres (get_neighbor_site (lat s) current bb) ;
      hdo g <~ hres (get_site_gid_by_id (lat s) nb) ;
      if 0 <=? g then
        hdo h <~ hget ;
        hdo rri <~ hres (h_get_relative_index h nb selected) ;
        h_set_relative_index selected rri
      else hret tt
    else hret tt) ;
  hrun hfor bond_neighbors (fun bb =>
    hdo s <~ hlift get ;
    hdo bbg <~ hres (get_bond_gid_by_id (lat s) bb) ;
    if bbg =? root then hret tt else
    hrun h_relabel_relative_indices current bb ;
    h_merge_cluster_with root bbg) ;
  hrun hfor bond_gids (fun bbg => if bbg =? root then hret tt else h_clear_cluster bbg) ;
  hret root.

(* ------------------------------------------------------------------ *)
(** ** The methods *)

(** perc:366-393 [place_one_site] *)
Definition h_place_one_site (E : env) : HM bool :=
  hdo flag <~ hlift (select_site E) ;
  hrun hlift (modify (set_sel_flag (Some flag))) ;
  match flag with
  | SUCESS =>
      hdo s <~ hlift get ;
      hdo selected <~ hlift (need (sel_id s)) ;
      hdo cur <~ hlift (need (cur_site s)) ;
      hrun h_set_relative_index selected (new_rel 0 0) ;
      hdo s <~ hlift get ;
      hdo cs <~ hres (get_site_by_id (lat s) cur) ;
      let bond_neighbors := s_bonds cs in
      hdo H <~ hres (entropy_subtract_amount E (lat s) (pool s) selected) ;
      hrun hlift (modify (fun s => set_ent (FAdd (ent s) H) s)) ;
      hdo root <~ h_merge_clusters_v2 E selected (s_id cs) bond_neighbors ;
      hrun hlift (track_largest_cluster root) ;
      hdo s <~ hlift get ;
      hdo e' <~ hres (entropy_add_value (lat s) (pool s) root (ent s)) ;
      hrun hlift (modify (set_ent e')) ;
      hret true
  | CURRENT_SITE_NOT_EMPTY => hret true
  | EMPTY_SITE_LIST => hret false
  end.

(** perc:643-658, with [x_coord] and [y_coord] asked of the index objects. *)
Fixpoint h_wrap_scan (h : heap) (central : iobj) (nbs : list Z) : res bool :=
  match nbs with
  | [] => Ok false
  | ss :: rest =>
      r <- rel_addr h ss ;;
      x0 <- x_coord central ;;
      x1 <- x_coord (idx_at h r) ;;
      y0 <- y_coord central ;;
      y1 <- y_coord (idx_at h r) ;;
      if (1 <? Z.abs (x0 - x1)) || (1 <? Z.abs (y0 - y1)) then Ok true
      else h_wrap_scan h central rest
  end.
(** perc:636-659 [detect_wrapping] *)
Definition h_detect_wrapping : HM bool :=
  hdo s <~ hlift get ;
  if after_wrap s then hret true else
  hdo selected <~ hlift (need (sel_id s)) ;
  hdo nbs <~ hres (get_sites_for_wrapping_test (lat s) selected) ;
  hdo cur <~ hlift (need (cur_site s)) ;
  hdo h <~ hget ;
  hdo r <~ hres (rel_addr h cur) ;
  hdo hit <~ hres (h_wrap_scan h (idx_at h r) nbs) ;
  if hit then
    hdo ssel <~ hres (get_site_by_id (lat s) selected) ;
    let w := s_gid ssel in
    hrun hlift (modify (set_wrap true w (occ_count s) (pc_bonds s) (pc_sites s))) ;
    hdo nb <~ hres (get_cluster_bond_count (pool s) w) ;
    hrun hlift (modify (fun s => set_wrap true w (occ_count s) (Some nb) (pc_sites s) s)) ;
    hdo ns <~ hres (get_cluster_site_count (pool s) w) ;
    hrun hlift (modify (fun s => set_wrap true w (occ_count s) (pc_bonds s) (Some ns) s)) ;
    hret true
  else hret false.

(** lattice.py:18-23, site.py:17-23: every site gets a new [RelativeIndex()]. *)
Definition h_lattice_reset : HM unit :=
  hrun h_lat (fun l => Ok (lattice_reset l)) ;
  hmod (fun h => put_idx (h_idx h ++ repeat (new_rel 0 0) (length (h_rel h)))
                         (seq (length (h_idx h)) (length (h_rel h))) h).
(** perc:30-35 and 244-271, then the overriding [reset]s (L0.py:26-30, L1L2:26-30, 154-158, sp:20-22). *)
Definition h_reset (E : env) : HM unit :=
  hrun h_lattice_reset ;
  hrun h_pool_reset ;
  hrun h_init_clusters ;
  hrun hlift (modify (fun s => set_wrap (after_wrap s) (wid s) (pc_occ s) None None s)) ;
  hrun hlift (shuffle E) ;
  hrun hlift (modify (set_cur_idx 0)) ;
  hrun hlift (modify (fun s => set_wrap false (-1) 0 (pc_bonds s) (pc_sites s) s)) ;
  hrun hlift (modify (set_largest 0 (-1))) ;
  hrun hlift (modify (fun s => set_ent (max_ent s) s)) ;
  hrun hlift (modify (set_occ_count 0)) ;
  hrun hlift (modify (set_sel_flag None)) ;
  hrun hlift (modify (fun s => set_arrs (if first_run s then [] else p_arr s) [] [] [] s)) ;
  hdo s <~ hlift get ;
  match kind s with
  | KL1 =>
      hrun hlift (modify (fun s => rebind_ids (zrange (l_length (lat s) * l_length (lat s)))
                            (user_list s) false s)) ;
      hrun hlift (modify (set_xy 0 (y_occ s))) ;
      hlift (modify (set_record []))
  | KL2 =>
      hrun hlift (modify (fun s => rebind_ids (zrange (l_length (lat s) * l_length (lat s)))
                            (user_list s) false s)) ;
      hlift (modify (set_xy 0 0))
  | KSP => hlift (modify (set_sp (FZ 0)))
  | _ => hret tt
  end.

(** perc:663-721 [run_once] *)
Fixpoint h_run_loop (E : env) (fuel : nat) : HM unit :=
  match fuel with
  | O => hraise OutOfFuel
  | S f =>
      hdo b <~ h_place_one_site E ;
      if b then
        hdo s <~ hlift get ;
        hrun (if flag_is_success s then
               hrun h_detect_wrapping ;
               hlift record_step
             else hret tt) ;
        h_run_loop E f
      else hret tt
  end.
(** sp:30-60 *)
Fixpoint h_sp_loop (E : env) (fuel : nat) : HM unit :=
  match fuel with
  | O => hraise OutOfFuel
  | S f =>
      hdo b <~ h_place_one_site E ;
      if b then
        hdo s <~ hlift get ;
        if flag_is_success s then
          hdo w <~ h_detect_wrapping ;
          if w then
            hdo s <~ hlift get ;
            hdo cur <~ hlift (need (cur_site s)) ;
            hdo cs <~ hres (get_site_by_id (lat s) cur) ;
            hdo fl <~ hres (scan_row_col_of_selected_site s (s_index cs)) ;
            if fst fl || snd fl then
              hdo p <~ hres (occupation_prob s) ;
              hlift (modify (set_sp p))
            else h_sp_loop E f
          else h_sp_loop E f
        else h_sp_loop E f
      else hret tt
  end.
Definition h_run_once (E : env) (fuel : nat) : HM unit :=
  hdo s <~ hlift get ;
  match kind s with
  | KSP => hrun h_sp_loop E fuel ; hlift (modify (set_first_run false))
  | _ => hrun h_run_loop E fuel ; hlift (modify (set_first_run false))
  end.
(** perc:723-751 *)
Fixpoint h_test_run_loop (E : env) (fuel : nat) : HM unit :=
  match fuel with
  | O => hraise OutOfFuel
  | S f =>
      hdo b <~ h_place_one_site E ;
      if b then
        hdo s <~ hlift get ;
        if flag_is_success s then
          hdo w <~ h_detect_wrapping ;
          if w then
            hdo s <~ hlift get ;
            hdo n <~ hlift (need (pc_sites s)) ;
            hres (passert (n <? pc_occ s))
          else
            hrun hlift record_step ;
            h_test_run_loop E f
        else h_test_run_loop E f
      else hret tt
  end.
Definition h_test_run_once (E : env) (fuel : nat) : HM unit :=
  hrun h_test_run_loop E fuel ;
  hlift (modify (set_first_run false)).

Definition hexec (E : env) (h : heap) (c : call) : heap :=
  match c with
  | CPlace => fst (h_place_one_site E h)
  | CDetect => fst (h_detect_wrapping h)
  | CReset => fst (h_reset E h)
  | CSetIds l sh => fst (hlift (set_custome_site_id_list E l sh) h)
  | CSetIndices l sh => fst (hlift (set_custome_site_index_list E l sh) h)
  | CSwap a b => fst (hlift (swap_ids a b) h)
  | CRun f => fst (h_run_once E f h)
  | CTestRun f => fst (h_test_run_once E f h)
  end.
Definition hafter (E : env) (h : heap) (cs : list call) : heap := fold_left (hexec E) cs h.

(** perc:15-28, 122-154 and the subclass constructors; site.py:12-13: every site with a
    [RelativeIndex()] of its own. *)
Definition blank (k : pkind) (lat : lattice) : perc :=
  mkPerc k lat empty_pool [] [] 0 0 0 None None None 0 0 (-1) (FZ 0) (FZ 0) false (-1) true
    [] [] [] [] 0 false true None None 0 0 [] (FZ 0) [] false O.
Definition h_new (E : env) (k : pkind) (len : Z) (t0 : nat) : res heap :=
  lat0 <- new_lattice len ;;
  let n := length (l_sites lat0) in
  let h0 := mkHeap (blank k lat0) [] [] [] 0 (repeat (new_rel 0 0) n) (seq 0 n) in
  match h_init_clusters h0 with
  | (_, Err e) => Err e
  | (h1, Ok _) =>
      let lat1 := lat (h_obj h1) in
      mx <- log_int (l_bond_count lat1) ;;
      let s := mkPerc k lat1 empty_pool (zrange (len * len)) (repeat 0 (Z.to_nat (len * len)))
        0 0 0 None None None (l_bond_count lat1) 0 (-1) mx mx false (-1) true
        [] [] [] [] (l_site_count lat1) false true None None 0 0 [] (FZ 0) [] false t0 in
      match hlift (shuffle E) (put_obj s h1) with
      | (h2, Ok _) => Ok h2
      | (_, Err e) => Err e
      end
  end.
