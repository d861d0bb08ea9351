(** * Raw: the lattice with the integer placeholders it starts from, for every integer length.

    lat = source_py/simulation/lattice.py.  [Lattice.v] starts from blank records and refuses
    negative lengths.  Here a cell of [site_matrix] or [bond_matrix] holds the integer 0 or an
    object, as in the code; using a 0 as an object raises AttributeError. *)
From Coq Require Import ZArith List Bool.
From Verif Require Import Py Lattice Cluster Perc.
Import ListNotations.
Open Scope Z_scope.

(** lat:10,13: an entry is the placeholder 0 until [init_lattice] stores an object. *)
Inductive cell (A : Type) := Zero | Obj (a : A).
Arguments Zero {A}.
Arguments Obj {A} a.
(** Access to an attribute or method of an entry. *)
Definition obj {A} (c : cell A) : res A := match c with Obj a => Ok a | Zero => Err AttributeError end.
Definition cget {A} (l : list (cell A)) (i : Z) : res A := c <- lget l i ;; obj c.

(** lat:7-13: the attributes of a [Lattice]. *)
Record raw := mkRaw { w_len : Z; w_bc : Z; w_sc : Z; w_sites : list (cell site); w_bonds : list (cell bond) }.
Definition w_with_sites (w : raw) ss := mkRaw (w_len w) (w_bc w) (w_sc w) ss (w_bonds w).
Definition w_with_bonds (w : raw) bs := mkRaw (w_len w) (w_bc w) (w_sc w) (w_sites w) bs.

(** lat:109-149: pure arithmetic on the three numbers.  [Z.div] and [Z.modulo] are Python's
    [//] and [%] also for a negative length. *)
Definition w_find_neighbor_bonds (w : raw) (s : Z) : list Z :=
  let row := s / w_len w in
  let col := s mod w_len w in
  [s; s + w_sc w; row * w_len w + (col + w_len w - 1) mod w_len w;
   (s + w_bc w - w_len w) mod w_sc w + w_sc w].

(** lat:25-42 [init_lattice]. *)
Definition w_init_lattice (w : raw) : res raw :=
  foldM (fun w '(rr, cc) =>
    let s_index := rr * w_len w + cc in
    let v_bond_index := s_index + w_len w * w_len w in
    ss <- lset (w_sites w) s_index (Obj (new_site rr cc s_index)) ;;
    bs <- lset (w_bonds w) s_index (Obj (new_bond rr cc 0 s_index)) ;;
    bs <- lset bs v_bond_index (Obj (new_bond rr cc 1 v_bond_index)) ;;
    Ok (w_with_bonds (w_with_sites w ss) bs))
  (rc_pairs (w_len w)) w.
(** lat:209-229 [init_ids]. *)
Definition w_init_ids (w : raw) : res raw :=
  foldM (fun w '(rr, cc) =>
    let s0 := rr * w_len w + cc in
    let bonds := w_find_neighbor_bonds w s0 in
    _ <- passert (zlen bonds =? 4) ;;
    s <- cget (w_sites w) s0 ;;
    ss <- lset (w_sites w) s0 (Obj (site_add_connecting_bonds s bonds)) ;;
    bs <- foldM (fun bs bb => b <- cget bs bb ;; lset bs bb (Obj (bond_add_connected_site b s0))) bonds (w_bonds w) ;;
    Ok (w_with_bonds (w_with_sites w ss) bs))
  (rc_pairs (w_len w)) w.
(** lat:6-16 [Lattice(length)] for any integer. *)
Definition w_new (len : Z) : res raw :=
  w <- w_init_lattice (mkRaw len (2 * (len * len)) (len * len) (repeat Zero (Z.to_nat (len * len))) (repeat Zero (Z.to_nat (2 * (len * len))))) ;;
  w_init_ids w.

(** lat:18-23 [reset]: the entries reset before an exception stay reset. *)
Fixpoint reset_cells {A} (f : A -> A) (l : list (cell A)) : list (cell A) * res unit :=
  match l with
  | [] => ([], Ok tt)
  | Zero :: _ => (l, Err AttributeError)
  | Obj a :: t => let '(t', r) := reset_cells f t in (Obj (f a) :: t', r)
  end.
Definition w_reset (w : raw) : raw * res unit :=
  match reset_cells site_reset (w_sites w) with
  | (ss, Err e) => (w_with_sites w ss, Err e)
  | (ss, Ok _) => let '(bs, r) := reset_cells bond_reset (w_bonds w) in (w_with_bonds (w_with_sites w ss) bs, r)
  end.

(** lat:231-237 [get_site_by_id], [get_bond_by_id]: the entry itself, placeholder or not. *)
Definition w_get_site_by_id (w : raw) (id : Z) : res (cell site) := lget (w_sites w) id.
Definition w_get_bond_by_id (w : raw) (id : Z) : res (cell bond) := lget (w_bonds w) id.
(** lat:239-255. *)
Definition w_set_site_gid_by_id (w : raw) (id g : Z) : res raw :=
  s <- cget (w_sites w) id ;; ss <- lset (w_sites w) id (Obj (site_set_gid s g)) ;; Ok (w_with_sites w ss).
Definition w_set_bond_gid_by_id (w : raw) (id g : Z) : res raw :=
  b <- cget (w_bonds w) id ;; bs <- lset (w_bonds w) id (Obj (bond_set_gid b g)) ;; Ok (w_with_bonds w bs).
Definition w_get_site_gid_by_id (w : raw) (id : Z) : res Z := s <- cget (w_sites w) id ;; Ok (s_gid s).
Definition w_get_bond_gid_by_id (w : raw) (id : Z) : res Z := b <- cget (w_bonds w) id ;; Ok (b_gid b).
(** lat:151-156. *)
Definition w_get_neighbor_bonds (w : raw) (s0 : Z) : res (list Z) := s <- cget (w_sites w) s0 ;; Ok (s_bonds s).
Definition w_get_neighbor_sites (w : raw) (b0 : Z) : res (list Z) := b <- cget (w_bonds w) b0 ;; Ok (b_sites b).
(** lat:158-169. *)
Definition w_get_site_neighbor_of_site (w : raw) (s0 : Z) : res (list Z) :=
  bonds <- w_get_neighbor_bonds w s0 ;;
  mapM (fun bb => nn <- w_get_neighbor_sites w bb ;; nn <- lremove s0 nn ;; lget nn 0) bonds.
(** lat:171-187. *)
Definition w_get_sites_for_wrapping_test (w : raw) (s0 : Z) : res (list Z) :=
  central <- cget (w_sites w) s0 ;;
  foldM (fun out bb =>
    nn <- w_get_neighbor_sites w bb ;;
    nn <- lremove s0 nn ;;
    n0 <- lget nn 0 ;;
    t <- cget (w_sites w) n0 ;;
    Ok (if s_gid t =? s_gid central then out ++ [n0] else out))
  (s_bonds central) [].
(** lat:428-457. *)
Definition w_get_all_neighbor_sites (w : raw) (c : Z) : res (list Z) :=
  bonds <- w_get_neighbor_bonds w c ;;
  four <- mapM (fun bid =>
    tmp <- w_get_neighbor_sites w bid ;;
    _ <- passert (zlen tmp =? 2) ;;
    tmp <- lremove c tmp ;;
    lget tmp 0) bonds ;;
  _ <- passert (zlen four =? 4) ;;
  Ok four.
(** lat:418-426. *)
Definition w_set_relative_index (w : raw) (id : Z) (r : index) : res raw :=
  s_index <- lget (zrange (w_sc w)) id ;;
  s <- cget (w_sites w) s_index ;;
  ss <- lset (w_sites w) s_index (Obj (site_set_rel s r)) ;;
  Ok (w_with_sites w ss).
(** lat:44-58 with the components as a list. *)
Definition w_calculate_id (w : raw) (ix : list Z) : Z :=
  fold_right Z.add 0 (map (fun '(a, b) => a * b) (combine (rev (map (fun k => w_len w ^ k) (zrange (zlen ix)))) ix)).
(** lat:72-89 [scan_sites] and 91-107 [scan_bonds]. *)
Definition w_scan_sites (w : raw) : res unit :=
  foldM (fun _ c =>
    ss <- obj c ;;
    _ <- passert (s_id ss =? w_calculate_id w [fst (s_index ss); snd (s_index ss)]) ;;
    _ <- passert (zlen (s_bonds ss) =? 4) ;;
    foldM (fun _ bb => siteids <- w_get_neighbor_sites w bb ;; passert (zmem (s_id ss) siteids)) (s_bonds ss) tt)
  (w_sites w) tt.
Definition w_scan_bonds (w : raw) : res unit :=
  foldM (fun _ c =>
    bb <- obj c ;;
    _ <- passert (b_id bb =? w_calculate_id w [b_type bb; b_row bb; b_col bb]) ;;
    _ <- passert (zlen (b_sites bb) =? 2) ;;
    foldM (fun _ ss => bondids <- w_get_neighbor_bonds w ss ;; passert (zmem (b_id bb) bondids)) (b_sites bb) tt)
  (w_bonds w) tt.
(** lat:477-486 [test_neighbor_count] and 488-499 [test_lattice]. *)
Definition w_test_neighbor_count (w : raw) : res unit :=
  _ <- foldM (fun _ c => ss <- obj c ;; passert (zlen (nodup Z.eq_dec (s_bonds ss)) =? 4)) (w_sites w) tt ;;
  foldM (fun _ c => bb <- obj c ;; passert (zlen (b_sites bb) =? 2)) (w_bonds w) tt.
Definition w_test_lattice (w : raw) (gid : Z) : res unit :=
  _ <- foldM (fun _ c => ss <- obj c ;; _ <- site_test ss ;; passert (s_gid ss =? gid)) (w_sites w) tt ;;
  foldM (fun _ c => bb <- obj c ;; _ <- bond_test bb ;; passert (b_gid bb =? gid)) (w_bonds w) tt.

(** cluster.py:114-133 [create_new_cluster] on such a lattice. *)
Definition w_create_new_cluster (p : cpool) (sites bonds : list Z) (w : raw) : res (cpool * raw) :=
  let g := p_next p in
  w <- foldM (fun w ss => w_set_site_gid_by_id w ss g) sites w ;;
  w <- foldM (fun w bb => w_set_bond_gid_by_id w bb g) bonds w ;;
  Ok (mkPool (p_list p ++ [mkCluster sites bonds g g]) (g + 1), w).
(** perc:192-197 [init_clusters], called by every constructor of a simulation before anything
    else (perc:124-125). *)
Definition w_init_clusters (w : raw) : res (cpool * raw) :=
  foldM (fun '(p, w) bb => w_create_new_cluster p [] [bb] w) (zrange (w_bc w)) (empty_pool, w).
