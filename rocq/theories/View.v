(** * View: the unused row scan of the lattice, and what the printing methods print.

    lat = source_py/simulation/lattice.py, perc = source_py/simulation/percolation_sq_lattice.py.
    A printing method is modelled by the text it writes to standard output. *)
From Coq Require Import String Ascii ZArith List Bool.
From Verif Require Import Py Lattice Cluster Perc Run.
Import ListNotations.
Open Scope Z_scope.

(** lattice.py:544-569: one row of [test_rwo_col_scan]; [prev] is [site_prev]. *)
Fixpoint scan_row (lat : lattice) (ids : list Z) (prev : option site) : res unit :=
  match ids with
  | [] => Ok tt
  | idx :: rest =>
      site <- get_site_by_id lat idx ;;
      if s_gid site <? 0 then scan_row lat rest None else
      match prev with
      | None => scan_row lat rest (Some site)
      | Some site_prev =>
          _ <- (if (s_gid site =? s_gid site_prev) && (0 <=? s_gid site_prev) && (0 <=? s_gid site) then
                  let dy := snd (s_rel site_prev) - snd (s_rel site) in
                  passert ((Z.abs dy =? 1) || (Z.abs dy =? l_length lat - 1))
                else Ok tt) ;;
          scan_row lat rest (Some site)
      end
  end.
(** lattice.py:538-600 [test_rwo_col_scan] (printing aside; its column half is commented out). *)
Definition test_rwo_col_scan (lat : lattice) : res unit :=
  foldM (fun _ rr => scan_row lat (map (fun cc => rr * l_length lat + cc) (zrange (l_length lat))) None)
    (zrange (l_length lat)) tt.

(* ------------------------------------------------------------------ *)
(** ** Formatting *)

(** The newline [print] appends. *)
Definition nl : string := String "010"%char EmptyString.
Fixpoint chars (n : nat) (c : ascii) : string := match n with O => EmptyString | S n => String c (chars n c) end.
Definition spaces (n : nat) : string := chars n " "%char.
(** ["{:w}"] of an integer and ["{:>w}"]. *)
Definition pad_left (w : nat) (s : string) : string := (spaces (w - String.length s) ++ s)%string.
(** ["{:<w}"] *)
Definition pad_right (w : nat) (s : string) : string := (s ++ spaces (w - String.length s))%string.
(** ["{:^w}"]: the extra space goes to the right. *)
Definition center (w : nat) (s : string) : string :=
  let k := (w - String.length s)%nat in (spaces (Nat.div k 2) ++ s ++ spaces (k - Nat.div k 2))%string.
Fixpoint join (sep : string) (l : list string) : string :=
  match l with [] => EmptyString | [x] => x | x :: l => (x ++ sep ++ join sep l)%string end.
Definition concat_s (l : list string) : string := join EmptyString l.
(** [str] of a list of integers. *)
Definition str_list (l : list Z) : string := ("[" ++ join ", " (map str_int l) ++ "]")%string.
(** [str] of a list of strings without quotes or backslashes. *)
Definition str_strings (l : list string) : string :=
  ("[" ++ join ", " (map (fun x => "'" ++ x ++ "'") l) ++ "]")%string.
(** index.py:51-52 [Index.__str__] and index.py:88-89 [RelativeIndex.__str__]. *)
Definition str_index (i : index) : string := ("(" ++ pad_left 3 (str_int (fst i)) ++ "," ++ pad_left 3 (str_int (snd i)) ++ ")")%string.
Definition str_rel (i : index) : string := ("<" ++ pad_left 3 (str_int (fst i)) ++ "," ++ pad_left 3 (str_int (snd i)) ++ ">")%string.

(** site.py:79-88 [Site.get_str]. *)
Definition site_str (s : site) (formatt : Z) : string :=
  (if (formatt =? 1)%Z then "(" ++ center 5 (str_int (s_gid s)) ++ ", " ++ center 5 (str_int (s_id s)) ++ ")"
   else if (formatt =? 2)%Z then center 5 (str_int (s_id s)) ++ "(" ++ center 5 (str_int (fst (s_index s))) ++ "," ++ center 5 (str_int (snd (s_index s))) ++ ")"
   else "(" ++ center 5 (str_int (fst (s_index s))) ++ "," ++ center 5 (str_int (snd (s_index s))) ++ ")")%string.
(** bond.py:48-56 [Bond.get_str]. *)
Definition bond_str (b : bond) (formatt : Z) : string :=
  (if (formatt =? 1)%Z then "(" ++ center 5 (str_int (b_gid b)) ++ ", " ++ center 5 (str_int (b_id b)) ++ ")"
   else if (formatt =? 2)%Z then center 5 (str_int (b_id b)) ++ "(" ++ center 5 (str_int (b_row b)) ++ "," ++ center 5 (str_int (b_col b)) ++ ")"
   else "(" ++ center 5 (str_int (b_row b)) ++ "," ++ center 5 (str_int (b_col b)) ++ "," ++ (if (b_type b =? 0)%Z then "h" else "v") ++ ")")%string.

(* ------------------------------------------------------------------ *)
(** ** The lattice *)

(** lat:380-389 [print_row_separator]. *)
Definition print_row_separator (lat : lattice) (str_sz : nat) : string :=
  (concat_s (map (fun _ => chars str_sz "-"%char) (zrange (l_length lat))) ++ nl)%string.
(** lat:391-401 [get_row_str]. *)
Definition get_row_str (lat : lattice) (row format : Z) : res (list string) :=
  mapM (fun cc =>
    let s_index := row * l_length lat + cc in
    s <- lget (l_sites lat) s_index ;;
    b <- lget (l_bonds lat) s_index ;;
    let str1 := site_str s format in
    let str2 := bond_str b format in
    let str0 := spaces (String.length str2 - String.length str1) in
    Ok (str1 ++ str0 ++ "  " ++ str2)%string) (zrange (l_length lat)).
(** lat:403-416 [get_row_v_str]. *)
Definition get_row_v_str (lat : lattice) (row format : Z) : res (list string) :=
  mapM (fun cc =>
    let s_index := row * l_length lat + cc in
    let v_bond_index := s_index + l_length lat * l_length lat in
    b <- lget (l_bonds lat) v_bond_index ;;
    let str3 := bond_str b format in
    let str4 := spaces (String.length str3) in
    Ok (str3 ++ "  " ++ str4)%string) (zrange (l_length lat)).
(** lat:300-315 [view]. *)
Definition lat_view (lat : lattice) (formatt : Z) : res string :=
  rows <- mapM (fun rr =>
    a <- get_row_str lat rr formatt ;;
    b <- get_row_v_str lat rr formatt ;;
    Ok (str_strings a ++ nl ++ str_strings b ++ nl ++ print_row_separator lat 34)%string) (zrange (l_length lat)) ;;
  Ok ("format : " ++ nl ++ "{site}           {horizontal bond}" ++ nl ++ "{vertical bond}  {               }" ++ nl ++
      "The lattice : " ++ nl ++ "<--VIEW BEGIN-->" ++ nl ++ print_row_separator lat 34 ++
      concat_s rows ++ "<--VIEW END-->" ++ nl)%string.
(** The lines printed before the table, lat:318-324 and 349-355. *)
Definition view_header : string :=
  ("Upper Left corner is <0,0>" ++ nl ++ "<x,y> means relative index" ++ nl ++ "90 degree Clockwise rotated Coordinate system" ++ nl ++
   "y value increases as we go rightward. Like columns" ++ nl ++ "x value increases as we go downward . Like rows" ++ nl ++
   "Format 'gid<x,y>'" ++ nl ++ "<--Relative index - VIEW BEGIN-->" ++ nl)%string.
(** lat:317-346 [view_relative_index]. *)
Definition view_relative_index (lat : lattice) : res string :=
  rows <- mapM (fun rr =>
    cells <- mapM (fun cc =>
      site_s <- lget (l_sites lat) (rr * l_length lat + cc) ;;
      Ok (pad_left 2 (str_int (s_gid site_s)) ++ " " ++ str_rel (s_rel site_s) ++ "|")%string) (zrange (l_length lat)) ;;
    Ok (pad_left 3 (str_int rr) ++ " |" ++ concat_s cells ++ nl)%string) (zrange (l_length lat)) ;;
  Ok (view_header ++ print_row_separator lat 14 ++
      pad_left 5 "|" ++ concat_s (map (fun cc => pad_right 6 (str_int cc) ++ pad_left 7 "|") (zrange (l_length lat))) ++ nl ++
      print_row_separator lat 14 ++ concat_s rows ++ print_row_separator lat 14 ++ "<--Relative index - VIEW END-->" ++ nl)%string.
(** lat:348-378 [view_site_gids]. *)
Definition view_site_gids (lat : lattice) : res string :=
  rows <- mapM (fun rr =>
    cells <- mapM (fun cc =>
      site_s <- lget (l_sites lat) (rr * l_length lat + cc) ;;
      Ok (pad_left 3 (str_int (s_gid site_s)) ++ "|")%string) (zrange (l_length lat)) ;;
    Ok (pad_left 3 (str_int rr) ++ " |" ++ concat_s cells ++ nl)%string) (zrange (l_length lat)) ;;
  Ok (view_header ++ print_row_separator lat 5 ++
      pad_left 5 "|" ++ concat_s (map (fun cc => pad_right 3 (str_int cc) ++ pad_left 1 "|") (zrange (l_length lat))) ++ nl ++
      print_row_separator lat 5 ++ concat_s rows ++ print_row_separator lat 5 ++ "<--Relative index - VIEW END-->" ++ nl)%string.
(** perc:37-49 [viewLattice]. *)
Definition viewLattice (s : perc) (formatt : Z) : res string :=
  if formatt <? 0 then Ok ("undefined format" ++ nl)%string
  else if formatt =? 3 then view_relative_index (lat s)
  else if formatt =? 4 then view_site_gids (lat s)
  else lat_view (lat s) formatt.

(** lat:60-64 [list_all_sites]. *)
Definition list_all_sites (lat : lattice) : string :=
  ("id, gid, index, relative_index, connecting_bond_ids" ++ nl ++
   concat_s (map (fun ss => str_int (s_id ss) ++ "   " ++ str_int (s_gid ss) ++ "   " ++ str_index (s_index ss) ++ "   " ++
     str_rel (s_rel ss) ++ "   " ++ str_list (s_bonds ss) ++ nl) (l_sites lat)))%string.
(** lat:66-70 [list_all_bonds]. *)
Definition list_all_bonds (lat : lattice) : string :=
  ("id, gid, index, connecting_site_ids" ++ nl ++
   concat_s (map (fun bb => str_int (b_id bb) ++ "   " ++ str_int (b_gid bb) ++ "   (" ++ str_int (b_type bb) ++ ", " ++
     str_int (b_row bb) ++ ", " ++ str_int (b_col bb) ++ ")   " ++ str_list (b_sites bb) ++ nl) (l_bonds lat)))%string.

(** lat:189-197 [print_bonds]. *)
Definition print_bonds (lat : lattice) : res string :=
  rows <- mapM (fun i =>
    b <- lget (l_bonds lat) i ;;
    Ok ((if (zlen (b_sites b) =? 2)%Z then EmptyString else "warning : number of connected sites must be 2" ++ nl) ++
        "[ " ++ str_int i ++ " ] gid= " ++ str_int (b_gid b) ++ "  id= " ++ str_int (b_id b) ++ "  sites= " ++
        str_list (b_sites b) ++ nl)%string) (zrange (l_bond_count lat)) ;;
  Ok ("print_bonds" ++ nl ++ concat_s rows)%string.
(** lat:199-207 [print_sites]. *)
Definition print_sites (lat : lattice) : res string :=
  rows <- mapM (fun i =>
    s <- lget (l_sites lat) i ;;
    Ok ((if (zlen (s_bonds s) =? 4)%Z then EmptyString else "warning : number of connecting bonds must be 4" ++ nl) ++
        "[ " ++ str_int i ++ " ] gid= " ++ str_int (s_gid s) ++ "  id= " ++ str_int (s_id s) ++ "  sites= " ++
        str_list (s_bonds s) ++ nl)%string) (zrange (l_site_count lat)) ;;
  Ok ("print_sites" ++ nl ++ concat_s rows)%string.

(* ------------------------------------------------------------------ *)
(** ** The clusters *)

(** cluster.py:84-91 [OneCluster.view]: the text and the returned count. *)
Definition cluster_view (c : cluster) : string * Z :=
  if cluster_is_empty c then (EmptyString, 0) else
  ("cluster [ " ++ str_int (c_id c) ++ " ] (gid  " ++ str_int (c_gid c) ++ " ) :{" ++ nl ++
   "  sites (" ++ str_int (zlen (c_sites c)) ++ ")  " ++ str_list (c_sites c) ++ nl ++
   "  bonds (" ++ str_int (zlen (c_bonds c)) ++ ")  " ++ str_list (c_bonds c) ++ nl ++ "}" ++ nl, 1)%string.
(** cluster.py:189-205 [ClusterPool.view]; perc:51-53 [viewCluster]. *)
Definition viewCluster (s : perc) : string :=
  let vs := map cluster_view (p_list (pool s)) in
  let counter := fold_left Z.add (map snd vs) 0 in
  ("View cluster < BEGIN" ++ nl ++ concat_s (map fst vs) ++ nl ++ " View cluster END >" ++ nl ++
   "Number of clusters  " ++ str_int counter ++ nl)%string.
