(** * ElementSpec: what calls on a site, bond or index object add up to. *)
From Coq Require Import String ZArith QArith Qabs List Bool.
From Verif Require Import Py Lattice Cluster Perc Spec History Heap Run View Element.
Import ListNotations.
Open Scope Z_scope.

(** The object after the calls [cs] in order. *)
Definition site_after (cs : list site_op) (s : lone_site) : lone_site :=
  fold_left (fun s c => fst (fst (site_do c s))) cs s.
Definition bond_after (cs : list bond_op) (b : lone_bond) : lone_bond :=
  fold_left (fun b c => fst (bond_do c b)) cs b.

(** The ids an argument offers: one id, or a list if it has exactly [n] entries. *)
Definition offer (n : nat) (a : ids_arg) : list (list Z) :=
  match a with One x => [[x]] | Many l => if Nat.eqb (length l) n then [l] else [] end.
Definition site_offers (cs : list site_op) : list (list Z) :=
  flat_map (fun c => match c with SAdd a => offer 4 a | _ => [] end) cs.
Definition bond_offers (cs : list bond_op) : list (list Z) :=
  flat_map (fun c => match c with BdAdd a => offer 2 a | _ => [] end) cs.
(** Offers are taken in order, whole, as long as fewer than [n] ids were there before. *)
Definition gathered (n : nat) (offers : list (list Z)) (ids : list Z) : Prop :=
  exists used left, offers = used ++ left /\ ids = List.concat used /\
    (left <> [] -> (n <= length ids)%nat) /\
    (forall u g, used = u ++ [g] -> (length (List.concat u) < n)%nat).

(** How often a counter was reduced. *)
Definition times1 (cs : list site_op) : Z :=
  zlen (filter (fun c => match c with SReduce1 => true | _ => false end) cs).
Definition times2 (cs : list site_op) : Z :=
  zlen (filter (fun c => match c with SReduce2 => true | _ => false end) cs).
(** [cs] ends where the object is as new or was just reset. *)
Definition clean (cs : list site_op) : Prop := cs = [] \/ exists c, cs = c ++ [SReset].
Definition clean_bond (cs : list bond_op) : Prop := cs = [] \/ exists c, cs = c ++ [BdReset].

(** A bond, seen as the lattice's bond with the same attributes; likewise a site. *)
Definition bond_like (b : lone_bond) (m : bond) : Prop :=
  lb_id b = Some (b_id m) /\ lb_gid b = b_gid m /\ lb_row b = b_row m /\ lb_col b = b_col m /\ lb_type b = b_type m /\ lb_sites b = b_sites m.
Definition site_like (s : lone_site) (m : site) : Prop :=
  ls_id s = Some (s_id m) /\ ls_gid s = s_gid m /\ ls_bonds s = s_bonds m /\ as_list (ls_index s) = s_index m /\
  as_list (ls_rel s) = s_rel m /\ ls_nn1 s = s_nn1 m /\ ls_nn2 s = s_nn2 m.

(** [z] is the integer a number stands for: the number itself, or a float cut off towards zero. *)
Definition stands_for (x : num) (z : Z) : Prop :=
  match x with
  | NInt n => z = n
  | NBool b => z = if b then 1 else 0
  | NFloat q => (inject_Z (Z.abs z) <= Qabs q)%Q /\ (Qabs q < inject_Z (Z.abs z + 1))%Q /\ (0 < z -> (0 < q)%Q) /\ (z < 0 -> (q < 0)%Q)
  end.
