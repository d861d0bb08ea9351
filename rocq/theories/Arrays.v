(** * Arrays: the recorded curves as list objects that the caller may hold.

    [get_occupation_prob_array], [get_entropy_array], [get_order_param_wrapping_array] and
    [get_order_param_largest_array] (perc:292-299, 312-313) return the object's own lists, not
    copies.  Perc.v keeps the contents of the four lists; here the lists live in a store. *)
From Coq Require Import ZArith List Bool.
From Verif Require Import Py Lattice Cluster Perc History.
Import ListNotations.
Open Scope Z_scope.

Record keeper := mkKeeper {
  k_obj : perc;                  (* the simulation; its own copies of the contents are not used *)
  k_store : list (list fexpr);   (* the list objects made so far *)
  k_p : nat;                     (* occupation_prob_list *)
  k_h : nat;                     (* entropy_list *)
  k_w : nat;                     (* order_wrapping_list *)
  k_l : nat                      (* order_largest_list *)
}.
Definition contents (a : keeper) (r : nat) : list fexpr := nth r (k_store a) [].
(** The simulation with its curves as they are now in the store. *)
Definition kload (a : keeper) : perc :=
  set_arrs (contents a (k_p a)) (contents a (k_h a)) (contents a (k_w a)) (contents a (k_l a)) (k_obj a).

(** perc:312-313, 298-299, 292-293, 295-296: which list the caller gets. *)
Definition get_occupation_prob_array (a : keeper) : nat := k_p a.
Definition get_entropy_array (a : keeper) : nat := k_h a.
Definition get_order_param_wrapping_array (a : keeper) : nat := k_w a.
Definition get_order_param_largest_array (a : keeper) : nat := k_l a.

Inductive access :=
| ACall (c : call)                       (* a method call *)
| AWrite (r : nat) (l : list fexpr).     (* the caller makes list [r] contain [l] *)

(** perc:145-148: the constructor makes four lists. *)
Definition kstart (s : perc) : keeper := mkKeeper s [p_arr s; h_arr s; pw_arr s; pl_arr s] 0 1 2 3.
(** perc:673-684, 737-745: runs append to the lists the object holds; other calls leave them. *)
Definition kappend (a : keeper) (s : perc) : keeper :=
  mkKeeper s
    (upd (upd (upd (upd (k_store a) (k_p a) (p_arr s)) (k_h a) (h_arr s)) (k_w a) (pw_arr s)) (k_l a) (pl_arr s))
    (k_p a) (k_h a) (k_w a) (k_l a).
(** perc:262-270: [reset] makes three new lists, during the first run four. *)
Definition kreset (a : keeper) (s : perc) : keeper :=
  let n := length (k_store a) in
  if first_run (k_obj a)
  then mkKeeper s (k_store a ++ [p_arr s; h_arr s; pw_arr s; pl_arr s]) n (S n) (S (S n)) (S (S (S n)))
  else mkKeeper s (k_store a ++ [h_arr s; pw_arr s; pl_arr s]) (k_p a) n (S n) (S (S n)).
Definition kstep (E : env) (a : keeper) (x : access) : keeper :=
  match x with
  | ACall CReset => kreset a (exec E (kload a) CReset)
  | ACall c => kappend a (exec E (kload a) c)
  | AWrite r l => mkKeeper (k_obj a) (upd (k_store a) r l) (k_p a) (k_h a) (k_w a) (k_l a)
  end.
Definition krun (E : env) (a : keeper) (xs : list access) : keeper := fold_left (kstep E) xs a.
