(** * Lattice: model of element.py, index.py, site.py, bond.py and lattice.py
    (all in /repo/source_py/simulation). *)
From Coq Require Import ZArith List Bool.
From Verif Require Import Py.
Import ListNotations.
Open Scope Z_scope.

(* ------------------------------------------------------------------ *)
(** ** index.py *)

(** index.py:4-16, 55-80: [Index] and [RelativeIndex] objects are pairs
    (component_1, component_2).  Simplification: the [type(row) is not int]
    warnings (index.py:6-13) are not modelled, components are always integers;
    the two classes share one representation. *)
Definition index := (Z * Z)%type.

(** index.py:18-21 and 91-109: [__sub__]. *)
Definition index_sub (a b : index) : index := (fst a - fst b, snd a - snd b).
(** index.py:23-28: [__add__]. *)
Definition index_add (a b : index) : index := (fst a + fst b, snd a + snd b).
(** index.py:41-49: [normalize]. *)
Definition index_normalize (a : index) : index :=
  let '(c1, c2) := a in
  if (c1 =? 0) && negb (c2 =? 0) then (c1, c2 / Z.abs c2)
  else if negb (c1 =? 0) && (c2 =? 0) then (c1 / Z.abs c1, c2)
  else (c1, c2).

(* ------------------------------------------------------------------ *)
(** ** site.py / element.py *)

(** site.py:5-15 and element.py:3-6: the attributes of a [Site]. *)
Record site := mkSite {
  s_id : Z;             (* element.py:4 id *)
  s_gid : Z;            (* element.py:6 g_id, -1 when unoccupied *)
  s_bonds : list Z;     (* site.py:11 connecting_bond_ids *)
  s_index : index;      (* site.py:12 index *)
  s_rel : index;        (* site.py:13 relative_index *)
  s_nn1 : Z;            (* site.py:14 first_nn_count *)
  s_nn2 : Z             (* site.py:15 second_directional_nn_count *)
}.

(** site.py:6-15 [Site(row, col)] followed by [set_id] (lattice.py:31-32). *)
Definition new_site (row col id : Z) : site :=
  mkSite id (-1) [] (row, col) (0, 0) 4 4.
(** site.py:17-23 and element.py:8-10: [Site.reset]. *)
Definition site_reset (s : site) : site :=
  mkSite (s_id s) (-1) (s_bonds s) (s_index s) (0, 0) 4 4.
(** element.py:18-27 [set_gid] (the warning print is not modelled). *)
Definition site_set_gid (s : site) (g : Z) : site :=
  mkSite (s_id s) g (s_bonds s) (s_index s) (s_rel s) (s_nn1 s) (s_nn2 s).
(** site.py:115-117 [set_relative_index]; site.py:108-110 [init_relative_index]
    is the case [r = (0, 0)]. *)
Definition site_set_rel (s : site) (r : index) : site :=
  mkSite (s_id s) (s_gid s) (s_bonds s) (s_index s) r (s_nn1 s) (s_nn2 s).
Definition site_set_nn (s : site) (n1 n2 : Z) : site :=
  mkSite (s_id s) (s_gid s) (s_bonds s) (s_index s) (s_rel s) n1 n2.
(** site.py:73-74 [is_occupied]. *)
Definition site_is_occupied (s : site) : bool := 0 <=? s_gid s.
(** site.py:45-49 [reduce_1st_nn]. *)
Definition site_reduce_1st_nn (s : site) : res site :=
  if s_nn1 s <=? 0 then _ <- passert (0 <=? s_nn1 s) ;; Ok s
  else Ok (site_set_nn s (s_nn1 s - 1) (s_nn2 s)).
(** site.py:51-55 [reduce_2st_directional_nn]. *)
Definition site_reduce_2st_directional_nn (s : site) : res site :=
  if s_nn2 s <=? 0 then _ <- passert (0 <=? s_nn2 s) ;; Ok s
  else Ok (site_set_nn s (s_nn1 s) (s_nn2 s - 1)).
(** site.py:57-63 [is_removable]. *)
Definition site_is_removable (s : site) (type : Z) : bool :=
  if type =? 1 then s_nn1 s =? 0
  else if type =? 2 then s_nn2 s =? 0
  else false.
(** site.py:90-103 [add_connecting_bond], the list branch (the only one called):
    refuses when four bonds are already present, adds only a 4-element list. *)
Definition site_add_connecting_bonds (s : site) (bs : list Z) : site :=
  if 4 <=? zlen (s_bonds s) then s
  else if zlen bs =? 4 then
    mkSite (s_id s) (s_gid s) (s_bonds s ++ bs) (s_index s) (s_rel s) (s_nn1 s) (s_nn2 s)
  else s.
(** site.py:25-31 [test_site]. *)
Definition site_test (s : site) : res unit :=
  _ <- passert (zlen (s_bonds s) =? 4) ;;
  passert (zlen (nodup Z.eq_dec (s_bonds s)) =? 4).

(* ------------------------------------------------------------------ *)
(** ** bond.py *)

(** bond.py:4-17: the attributes of a [Bond]. *)
Record bond := mkBond {
  b_id : Z;
  b_gid : Z;
  b_row : Z;
  b_col : Z;
  b_type : Z;           (* 0 horizontal, 1 vertical *)
  b_sites : list Z      (* bond.py:17 connected_site_ids *)
}.

(** bond.py:5-17 [Bond(row, col, type)] followed by [set_id] (lattice.py:34-37). *)
Definition new_bond (row col type id : Z) : bond := mkBond id (-1) row col type [].
(** bond.py:19-22 [Bond.reset]. *)
Definition bond_reset (b : bond) : bond :=
  mkBond (b_id b) (-1) (b_row b) (b_col b) (b_type b) (b_sites b).
(** element.py:18-27 [set_gid]. *)
Definition bond_set_gid (b : bond) (g : Z) : bond :=
  mkBond (b_id b) g (b_row b) (b_col b) (b_type b) (b_sites b).
(** bond.py:58-70 [add_connected_site], the integer branch. *)
Definition bond_add_connected_site (b : bond) (s : Z) : bond :=
  if 2 <=? zlen (b_sites b) then b
  else mkBond (b_id b) (b_gid b) (b_row b) (b_col b) (b_type b) (b_sites b ++ [s]).
(** bond.py:31-37 [test_bond]. *)
Definition bond_test (b : bond) : res unit :=
  _ <- passert (zlen (b_sites b) =? 2) ;;
  passert (zlen (nodup Z.eq_dec (b_sites b)) =? 2).

(* ------------------------------------------------------------------ *)
(** ** lattice.py *)

(** lattice.py:6-13: the attributes of a [Lattice]. [site_ids]/[bond_ids] are
    the constant ranges of lattice.py:11-12 and are not stored. *)
Record lattice := mkLattice {
  l_length : Z;
  l_bond_count : Z;
  l_site_count : Z;
  l_sites : list site;
  l_bonds : list bond
}.

Definition with_sites (lat : lattice) (ss : list site) : lattice :=
  mkLattice (l_length lat) (l_bond_count lat) (l_site_count lat) ss (l_bonds lat).
Definition with_bonds (lat : lattice) (bs : list bond) : lattice :=
  mkLattice (l_length lat) (l_bond_count lat) (l_site_count lat) (l_sites lat) bs.

(** lattice.py:109-111 *)
Definition bottom_bond_of_site (lat : lattice) (s : Z) : Z := s + l_site_count lat.
(** lattice.py:113-120.  Python's [%] and [//] are floor operations, as are
    Coq's [Z.modulo] and [Z.div]; a zero modulus is not reached (the loops of
    [init_ids] are empty when the length is 0). *)
Definition top_bond_of_site (lat : lattice) (s : Z) : Z :=
  bottom_bond_of_site lat ((s + l_bond_count lat - l_length lat) mod l_site_count lat).
(** lattice.py:122-123 *)
Definition right_bond_of_site (lat : lattice) (s : Z) : Z := s.
(** lattice.py:135-138: returns (col, row). *)
Definition get_row_col_from_id (lat : lattice) (s : Z) : Z * Z :=
  (s mod l_length lat, s / l_length lat).
(** lattice.py:125-133 *)
Definition left_bond_of_site (lat : lattice) (s : Z) : Z :=
  let '(col, row) := get_row_col_from_id lat s in
  let left_site := row * l_length lat + (col + l_length lat - 1) mod l_length lat in
  right_bond_of_site lat left_site.
(** lattice.py:140-149: [right, bottom, left, top]. *)
Definition find_neighbor_bonds (lat : lattice) (s : Z) : list Z :=
  [right_bond_of_site lat s; bottom_bond_of_site lat s;
   left_bond_of_site lat s; top_bond_of_site lat s].

(** The (rr, cc) pairs of the nested loops
    [for rr in range(length): for cc in range(length)] in order. *)
Definition rc_pairs (len : Z) : list (Z * Z) :=
  flat_map (fun rr => map (fun cc => (rr, cc)) (zrange len)) (zrange len).

(** lattice.py:25-42 [init_lattice]. *)
Definition init_lattice (lat : lattice) : res lattice :=
  foldM (fun lat '(rr, cc) =>
    let s_index := rr * l_length lat + cc in
    let v_bond_index := s_index + l_length lat * l_length lat in
    ss <- lset (l_sites lat) s_index (new_site rr cc s_index) ;;
    bs <- lset (l_bonds lat) s_index (new_bond rr cc 0 s_index) ;;
    bs <- lset bs v_bond_index (new_bond rr cc 1 v_bond_index) ;;
    Ok (with_bonds (with_sites lat ss) bs))
  (rc_pairs (l_length lat)) lat.

(** lattice.py:209-229 [init_ids]. *)
Definition init_ids (lat : lattice) : res lattice :=
  foldM (fun lat '(rr, cc) =>
    let s0 := rr * l_length lat + cc in
    let bonds := find_neighbor_bonds lat s0 in
    _ <- passert (zlen bonds =? 4) ;;
    s <- lget (l_sites lat) s0 ;;
    ss <- lset (l_sites lat) s0 (site_add_connecting_bonds s bonds) ;;
    bs <- foldM (fun bs bb =>
            b <- lget bs bb ;; lset bs bb (bond_add_connected_site b s0))
          bonds (l_bonds lat) ;;
    Ok (with_bonds (with_sites lat ss) bs))
  (rc_pairs (l_length lat)) lat.

(** lattice.py:6-16 [Lattice(length)].  Simplification: the [0] placeholders of
    lattice.py:10,13 are modelled by blank [site]/[bond] records; for [0 <= length]
    every one of them is overwritten by [init_lattice] (Geometry.v proves it).
    For a negative length the loops are empty and the placeholders stay, so the
    first use of one of them raises [AttributeError]; the model raises it here. *)
Definition new_lattice (len : Z) : res lattice :=
  if len <? 0 then Err AttributeError else
  let lat0 := mkLattice len (2 * (len * len)) (len * len)
                (repeat (new_site 0 0 0) (Z.to_nat (len * len)))
                (repeat (new_bond 0 0 0 0) (Z.to_nat (2 * (len * len)))) in
  lat1 <- init_lattice lat0 ;;
  init_ids lat1.

(** lattice.py:18-23 [reset]. *)
Definition lattice_reset (lat : lattice) : lattice :=
  with_bonds (with_sites lat (map site_reset (l_sites lat)))
             (map bond_reset (l_bonds lat)).

(** lattice.py:231-237 *)
Definition get_site_by_id (lat : lattice) (id : Z) : res site := lget (l_sites lat) id.
Definition get_bond_by_id (lat : lattice) (id : Z) : res bond := lget (l_bonds lat) id.
(** lattice.py:239-255 *)
Definition set_site_gid_by_id (lat : lattice) (id g : Z) : res lattice :=
  s <- lget (l_sites lat) id ;;
  ss <- lset (l_sites lat) id (site_set_gid s g) ;; Ok (with_sites lat ss).
Definition set_bond_gid_by_id (lat : lattice) (id g : Z) : res lattice :=
  b <- lget (l_bonds lat) id ;;
  bs <- lset (l_bonds lat) id (bond_set_gid b g) ;; Ok (with_bonds lat bs).
Definition get_site_gid_by_id (lat : lattice) (id : Z) : res Z :=
  s <- lget (l_sites lat) id ;; Ok (s_gid s).
Definition get_bond_gid_by_id (lat : lattice) (id : Z) : res Z :=
  b <- lget (l_bonds lat) id ;; Ok (b_gid b).
(** lattice.py:257-263 *)
Definition get_site_by_index (lat : lattice) (i : index) : res site :=
  lget (l_sites lat) (fst i * l_length lat + snd i).
(** lattice.py:265-267 *)
Definition get_id_from_index (lat : lattice) (row col : Z) : Z := row * l_length lat + col.
(** lattice.py:269-275 *)
Definition get_site_gid_by_index (lat : lattice) (i : index) : res Z :=
  s <- get_site_by_index lat i ;; Ok (s_gid s).
(** lattice.py:277-291 (the "invalid hv flag" print is not modelled). *)
Definition get_bond_by_index (lat : lattice) (row col hv : Z) : res bond :=
  lget (l_bonds lat) (row * l_length lat + col + hv * (l_length lat * l_length lat)).

(** lattice.py:44-58 [calculate_id_from_index]: sum of components weighted by
    descending powers of the length. Works on component lists of any size. *)
Definition calculate_id_from_index (lat : lattice) (ix : list Z) : Z :=
  let mult := rev (map (fun k => l_length lat ^ k) (zrange (zlen ix))) in
  fold_right Z.add 0 (map (fun '(a, b) => a * b) (combine mult ix)).

(** lattice.py:151-156 *)
Definition get_neighbor_bonds (lat : lattice) (s0 : Z) : res (list Z) :=
  s <- lget (l_sites lat) s0 ;; Ok (s_bonds s).
Definition get_neighbor_sites (lat : lattice) (b0 : Z) : res (list Z) :=
  b <- lget (l_bonds lat) b0 ;; Ok (b_sites b).
(** lattice.py:158-169 [get_site_neighbor_of_site]. *)
Definition get_site_neighbor_of_site (lat : lattice) (s0 : Z) : res (list Z) :=
  bonds <- get_neighbor_bonds lat s0 ;;
  mapM (fun bb => nn <- get_neighbor_sites lat bb ;;
                  nn <- lremove s0 nn ;; lget nn 0) bonds.
(** lattice.py:171-187 [get_sites_for_wrapping_test]. *)
Definition get_sites_for_wrapping_test (lat : lattice) (s0 : Z) : res (list Z) :=
  central <- lget (l_sites lat) s0 ;;
  foldM (fun out bb =>
    nn <- get_neighbor_sites lat bb ;;
    nn <- lremove s0 nn ;;
    n0 <- lget nn 0 ;;
    t <- lget (l_sites lat) n0 ;;
    Ok (if s_gid t =? s_gid central then out ++ [n0] else out))
  (s_bonds central) [].
(** lattice.py:428-457 [get_all_neighbor_sites]. *)
Definition get_all_neighbor_sites (lat : lattice) (c : Z) : res (list Z) :=
  bonds <- get_neighbor_bonds lat c ;;
  four <- mapM (fun bid =>
    tmp <- get_neighbor_sites lat bid ;;
    _ <- passert (zlen tmp =? 2) ;;
    tmp <- lremove c tmp ;;
    lget tmp 0) bonds ;;
  _ <- passert (zlen four =? 4) ;;
  Ok four.

(** lattice.py:418-426.  [self.site_ids[id]] is [range(...)[id]]. *)
Definition lat_set_relative_index (lat : lattice) (id : Z) (r : index) : res lattice :=
  s_index <- lget (zrange (l_site_count lat)) id ;;
  s <- lget (l_sites lat) s_index ;;
  ss <- lset (l_sites lat) s_index (site_set_rel s r) ;;
  Ok (with_sites lat ss).
Definition lat_init_relative_index (lat : lattice) (id : Z) : res lattice :=
  lat_set_relative_index lat id (0, 0).

(** Mutation of the site object [site_matrix[id]] by one of its own methods. *)
Definition update_site (lat : lattice) (id : Z) (f : site -> res site) : res lattice :=
  s <- lget (l_sites lat) id ;;
  s' <- f s ;;
  ss <- lset (l_sites lat) id s' ;;
  Ok (with_sites lat ss).

(** lattice.py:459-475 [distance_btn_sites] on two indices. *)
Definition distance_btn_sites (lat : lattice) (i1 i2 : index) : Z * Z :=
  let d_row := Z.abs (fst i1 - fst i2) in
  let d_row := if d_row =? l_length lat - 1 then 1 else d_row in
  let d_col := Z.abs (snd i1 - snd i2) in
  let d_col := if d_col =? l_length lat - 1 then 1 else d_col in
  (d_row, d_col).

(* ------------------------------------------------------------------ *)
(** ** The lattice's own self-checks *)

(** lattice.py:72-89 [scan_sites]. *)
Definition scan_sites (lat : lattice) : res unit :=
  foldM (fun _ ss =>
    _ <- passert (s_id ss =? calculate_id_from_index lat [fst (s_index ss); snd (s_index ss)]) ;;
    _ <- passert (zlen (s_bonds ss) =? 4) ;;
    foldM (fun _ bb =>
      siteids <- get_neighbor_sites lat bb ;;
      passert (zmem (s_id ss) siteids)) (s_bonds ss) tt)
  (l_sites lat) tt.
(** lattice.py:91-107 [scan_bonds]. *)
Definition scan_bonds (lat : lattice) : res unit :=
  foldM (fun _ bb =>
    _ <- passert (b_id bb =? calculate_id_from_index lat [b_type bb; b_row bb; b_col bb]) ;;
    _ <- passert (zlen (b_sites bb) =? 2) ;;
    foldM (fun _ ss =>
      bondids <- get_neighbor_bonds lat ss ;;
      passert (zmem (b_id bb) bondids)) (b_sites bb) tt)
  (l_bonds lat) tt.
(** lattice.py:477-486 [test_neighbor_count]. *)
Definition test_neighbor_count (lat : lattice) : res unit :=
  _ <- foldM (fun _ ss => passert (zlen (nodup Z.eq_dec (s_bonds ss)) =? 4)) (l_sites lat) tt ;;
  foldM (fun _ bb => passert (zlen (b_sites bb) =? 2)) (l_bonds lat) tt.
(** lattice.py:488-499 [test_lattice(gid)]. *)
Definition lat_test_lattice (lat : lattice) (gid : Z) : res unit :=
  _ <- foldM (fun _ ss => _ <- site_test ss ;; passert (s_gid ss =? gid)) (l_sites lat) tt ;;
  foldM (fun _ bb => _ <- bond_test bb ;; passert (b_gid bb =? gid)) (l_bonds lat) tt.
(** lattice.py:512-530: the inner loop of [test_relative_index], with its break.
    Returns (active_neighbor_count, column_wise or row_wise). *)
Fixpoint tri_loop (lat : lattice) (crel : index) (nbs : list Z) (cnt : Z) : res (Z * bool) :=
  match nbs with
  | [] => Ok (cnt, false)
  | nb :: rest =>
      site <- get_site_by_id lat nb ;;
      if s_gid site <? 0 then tri_loop lat crel rest cnt else
      let cnt := cnt + 1 in
      let dx := fst crel - fst (s_rel site) in
      let dy := snd crel - snd (s_rel site) in
      if (Z.abs dy =? 1) || (Z.abs dy =? l_length lat - 1) then Ok (cnt, true)
      else if (Z.abs dx =? 1) || (Z.abs dx =? l_length lat - 1) then Ok (cnt, true)
      else tri_loop lat crel rest cnt
  end.
(** lattice.py:501-536 [test_relative_index]. *)
Definition test_relative_index (lat : lattice) : res unit :=
  foldM (fun _ sc =>
    if s_gid sc <? 0 then Ok tt else
    four <- get_all_neighbor_sites lat (s_id sc) ;;
    '(cnt, wise) <- tri_loop lat (s_rel sc) four 0 ;;
    if 0 <? cnt then passert wise else Ok tt)
  (l_sites lat) tt.
