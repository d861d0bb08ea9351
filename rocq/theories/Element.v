(** * Element: site, bond and index objects used on their own.

    Lattice.v models sites and bonds as parts of a lattice, where every id is set at once,
    lists of bonds have four entries and sites are added to bonds one at a time.  Here the
    objects are modelled as the classes allow them to be used: any arguments, any order of
    calls, ids that are not set yet.  What is printed is part of the outcome. *)
From Coq Require Import String ZArith QArith List Bool.
From Verif Require Import Py Lattice Cluster Perc History Heap Run View.
Import ListNotations.
Open Scope Z_scope.

(* ------------------------------------------------------------------ *)
(** ** index.py *)

(** A number passed for a component.  Simplification: of the floats only the finite ones
    ([int] of the others raises). *)
Inductive num := NInt (z : Z) | NBool (b : bool) | NFloat (q : Q).
(** [type(x) is int] is false for booleans and floats. *)
Definition is_int (x : num) : bool := match x with NInt _ => true | _ => false end.
(** [int(x)]: floats are cut off towards zero. *)
Definition to_int (x : num) : Z :=
  match x with NInt z => z | NBool b => if b then 1 else 0 | NFloat q => Z.quot (Qnum q) (Zpos (Qden q)) end.
(** index.py:5-16 [Index(row, col)]: the object and what is printed. *)
Definition index_make (row col : num) : iobj * list string :=
  (new_index (to_int row) (to_int col),
   (if is_int row then [] else ["warning : row index is not integer"%string]) ++
   (if is_int col then [] else ["warning : col index is not integer"%string])).
(** The argument [index] of [RelativeIndex]. *)
Inductive ixarg := XNone | XIndex (a : iobj) | XOther.
(** index.py:66-79 [RelativeIndex(x_rel, y_rel, index)].  [None]: the object is made
    but has no components. *)
Definition rel_make (x y : num) (index : ixarg) : option iobj * list string :=
  match index with
  | XNone => let '(i, out) := index_make x y in (Some (mkI CRel (i_1 i) (i_2 i)), out)
  | XIndex a => (Some (mkI CRel (i_1 a) (i_2 a)), [])
  | XOther => (None, ["Wrong type. RelativeIndex"%string])
  end.
(** index.py:32-39: a component of an object that may have none. *)
Definition comp_1 (a : option iobj) : res Z := match a with Some i => Ok (i_1 i) | None => Err AttributeError end.
Definition comp_2 (a : option iobj) : res Z := match a with Some i => Ok (i_2 i) | None => Err AttributeError end.
(** index.py:51-52, 88-89 [__str__]. *)
Definition index_str (a : iobj) : string :=
  match i_cls a with CIndex => str_index (as_list a) | CRel => str_rel (as_list a) end.

(* ------------------------------------------------------------------ *)
(** ** element.py, site.py *)

(** An argument that may be one id or a list of ids. *)
Inductive ids_arg := One (x : Z) | Many (l : list Z).

(** site.py:6-15, element.py:2-6: the attributes of a [Site]; the id is [None] at first. *)
Record lone_site := mkLS {
  ls_id : option Z;
  ls_gid : Z;
  ls_bonds : list Z;
  ls_index : iobj;
  ls_rel : iobj;
  ls_nn1 : Z;
  ls_nn2 : Z
}.
Definition lone_site_new (row col : Z) : lone_site := mkLS None (-1) [] (new_index row col) (new_rel 0 0) 4 4.

(** The methods that change a site. *)
Inductive site_op :=
| SAdd (a : ids_arg)      (* add_connecting_bond(a) *)
| SReduce1                (* reduce_1st_nn() *)
| SReduce2                (* reduce_2st_directional_nn() *)
| SReset                  (* reset() *)
| SSetId (i : Z)          (* set_id(i) *)
| SSetGid (g : Z)         (* set_gid(g) *)
| SInitRel                (* init_relative_index() *)
| SSetRel (r : iobj).     (* set_relative_index(r) *)

Definition ls_with_bonds (l : list Z) (s : lone_site) : lone_site :=
  mkLS (ls_id s) (ls_gid s) l (ls_index s) (ls_rel s) (ls_nn1 s) (ls_nn2 s).
Definition ls_with_rel (r : iobj) (s : lone_site) : lone_site :=
  mkLS (ls_id s) (ls_gid s) (ls_bonds s) (ls_index s) r (ls_nn1 s) (ls_nn2 s).
Definition ls_with_nn (a b : Z) (s : lone_site) : lone_site :=
  mkLS (ls_id s) (ls_gid s) (ls_bonds s) (ls_index s) (ls_rel s) a b.

(** site.py:90-103 [add_connecting_bond]. *)
Definition ls_add (a : ids_arg) (s : lone_site) : lone_site * list string :=
  if 4 <=? zlen (ls_bonds s) then (s, ["A site connects only four bonds"%string])
  else match a with
       | Many l => if zlen l =? 4 then (ls_with_bonds (ls_bonds s ++ l) s, []) else (s, [])
       | One x => (ls_with_bonds (ls_bonds s ++ [x]) s, [])
       end.
(** site.py:45-49, 51-55: the counters. *)
Definition ls_reduce1 (s : lone_site) : res lone_site :=
  if ls_nn1 s <=? 0 then _ <- passert (0 <=? ls_nn1 s) ;; Ok s else Ok (ls_with_nn (ls_nn1 s - 1) (ls_nn2 s) s).
Definition ls_reduce2 (s : lone_site) : res lone_site :=
  if ls_nn2 s <=? 0 then _ <- passert (0 <=? ls_nn2 s) ;; Ok s else Ok (ls_with_nn (ls_nn1 s) (ls_nn2 s - 1) s).
(** site.py:17-23, element.py:8-10 [reset]. *)
Definition ls_reset (s : lone_site) : lone_site :=
  mkLS (ls_id s) (-1) (ls_bonds s) (ls_index s) (new_rel 0 0) 4 4.
(** element.py:18-27 [set_gid]: without an id it warns. *)
Definition gid_warning (id : option Z) : list string :=
  match id with None => ["!!warning!! id is not set."%string] | Some _ => [] end.
(** One call: the object afterwards, what was printed, and whether it raised. *)
Definition site_do (c : site_op) (s : lone_site) : lone_site * list string * res unit :=
  match c with
  | SAdd a => (ls_add a s, Ok tt)
  | SReduce1 => match ls_reduce1 s with Ok s' => (s', [], Ok tt) | Err e => (s, [], Err e) end
  | SReduce2 => match ls_reduce2 s with Ok s' => (s', [], Ok tt) | Err e => (s, [], Err e) end
  | SReset => (ls_reset s, [], Ok tt)
  | SSetId i => (mkLS (Some i) (ls_gid s) (ls_bonds s) (ls_index s) (ls_rel s) (ls_nn1 s) (ls_nn2 s), [], Ok tt)
  | SSetGid g => (mkLS (ls_id s) g (ls_bonds s) (ls_index s) (ls_rel s) (ls_nn1 s) (ls_nn2 s), gid_warning (ls_id s), Ok tt)
  | SInitRel => (ls_with_rel (new_rel 0 0) s, [], Ok tt)
  | SSetRel r => (ls_with_rel r s, [], Ok tt)
  end.
(** element.py:15-16, 29-30; site.py:65-79, 105-106, 112-113: the queries. *)
Definition ls_get_gid (s : lone_site) : Z := ls_gid s.
Definition ls_is_occupied (s : lone_site) : bool := 0 <=? ls_gid s.
Definition ls_connecting_bonds (s : lone_site) : list Z := ls_bonds s.
Definition ls_get_nn_count (s : lone_site) : Z * Z := (ls_nn1 s, ls_nn2 s).
(** site.py:57-63 [is_removable]. *)
Definition ls_is_removable (type : Z) (s : lone_site) : bool :=
  if type =? 1 then ls_nn1 s =? 0 else if type =? 2 then ls_nn2 s =? 0 else false.
(** [format(x, "^5")] of an id: [None] has no format. *)
Definition fmt_id (id : option Z) : res string := match id with Some i => Ok (center 5 (str_int i)) | None => Err TypeError end.
(** site.py:79-88 [get_str]; [str] of a site is format 0 (site.py:33-40). *)
Definition ls_get_str (formatt : Z) (s : lone_site) : res string :=
  if formatt =? 1 then i <- fmt_id (ls_id s) ;; Ok ("(" ++ center 5 (str_int (ls_gid s)) ++ ", " ++ i ++ ")")%string
  else if formatt =? 2 then
    i <- fmt_id (ls_id s) ;;
    Ok (i ++ "(" ++ center 5 (str_int (i_1 (ls_index s))) ++ "," ++ center 5 (str_int (i_2 (ls_index s))) ++ ")")%string
  else Ok ("(" ++ center 5 (str_int (i_1 (ls_index s))) ++ "," ++ center 5 (str_int (i_2 (ls_index s))) ++ ")")%string.
Definition ls_str (s : lone_site) : res string := ls_get_str 0 s.
(** site.py:119-120 [is_root]. *)
Definition ls_is_root (s : lone_site) : bool := (i_1 (ls_rel s) =? 0) && (i_2 (ls_rel s) =? 0).
(** site.py:25-31 [test_site]. *)
Definition ls_test (s : lone_site) : res unit :=
  _ <- passert (zlen (ls_bonds s) =? 4) ;;
  passert (zlen (nodup Z.eq_dec (ls_bonds s)) =? 4).

(* ------------------------------------------------------------------ *)
(** ** bond.py *)

(** bond.py:5-17: the attributes of a [Bond]. *)
Record lone_bond := mkLB {
  lb_id : option Z;
  lb_gid : Z;
  lb_row : Z;
  lb_col : Z;
  lb_type : Z;
  lb_sites : list Z
}.
Definition lone_bond_new (row col type : Z) : lone_bond := mkLB None (-1) row col type [].
Inductive bond_op :=
| BdAdd (a : ids_arg)     (* add_connected_site(a) *)
| BdReset                 (* reset() *)
| BdSetId (i : Z)         (* set_id(i) *)
| BdSetGid (g : Z).       (* set_gid(g) *)
(** bond.py:58-70 [add_connected_site]. *)
Definition lb_add (a : ids_arg) (b : lone_bond) : lone_bond * list string :=
  let put l := mkLB (lb_id b) (lb_gid b) (lb_row b) (lb_col b) (lb_type b) l in
  if 2 <=? zlen (lb_sites b) then (b, ["A bond connects only two sites"%string])
  else match a with
       | Many l => if zlen l =? 2 then (put (lb_sites b ++ l), []) else (b, [])
       | One x => (put (lb_sites b ++ [x]), [])
       end.
(** bond.py:19-22, element.py:8-27. *)
Definition bond_do (c : bond_op) (b : lone_bond) : lone_bond * list string :=
  match c with
  | BdAdd a => lb_add a b
  | BdReset => (mkLB (lb_id b) (-1) (lb_row b) (lb_col b) (lb_type b) (lb_sites b), [])
  | BdSetId i => (mkLB (Some i) (lb_gid b) (lb_row b) (lb_col b) (lb_type b) (lb_sites b), [])
  | BdSetGid g => (mkLB (lb_id b) g (lb_row b) (lb_col b) (lb_type b) (lb_sites b), gid_warning (lb_id b))
  end.
(** bond.py:24-28 [get_index], 72-73 [connected_sites]. *)
Definition lb_get_index (b : lone_bond) : Z * Z * Z := (lb_type b, lb_row b, lb_col b).
Definition lb_connected_sites (b : lone_bond) : list Z := lb_sites b.
(** bond.py:31-37 [test_bond]. *)
Definition lb_test (b : lone_bond) : res unit :=
  _ <- passert (zlen (lb_sites b) =? 2) ;;
  passert (zlen (nodup Z.eq_dec (lb_sites b)) =? 2).

(** bond.py:48-56 [get_str]. *)
Definition lb_get_str (formatt : Z) (b : lone_bond) : res string :=
  if formatt =? 1 then i <- fmt_id (lb_id b) ;; Ok ("(" ++ center 5 (str_int (lb_gid b)) ++ ", " ++ i ++ ")")%string
  else if formatt =? 2 then
    i <- fmt_id (lb_id b) ;;
    Ok (i ++ "(" ++ center 5 (str_int (lb_row b)) ++ "," ++ center 5 (str_int (lb_col b)) ++ ")")%string
  else Ok ("(" ++ center 5 (str_int (lb_row b)) ++ "," ++ center 5 (str_int (lb_col b)) ++ "," ++ (if (lb_type b =? 0)%Z then "h" else "v") ++ ")")%string.
(** bond.py:39-46 [__str__]: the group id of a bond is an integer here, never [None], so
    format 1 is used. *)
Definition lb_str (b : lone_bond) : res string := lb_get_str 1 b.

(* ------------------------------------------------------------------ *)
(** ** lattice.py *)

(** lattice.py:11-12, 293-298 [get_site_id_list], [get_bond_id_list]. *)
Definition get_site_id_list (lat : lattice) : list Z := zrange (l_site_count lat).
Definition get_bond_id_list (lat : lattice) : list Z := zrange (l_bond_count lat).
