(** * Shared: site id lists as list objects that several simulations may hold.

    [set_custome_site_id_list] keeps the caller's list itself (perc:165) and
    [get_site_id_sequence] hands out the object's own list (perc:223-224), so two
    objects can hold one and the same list.  Perc.v keeps, for one object, what its
    caller sees of the list ([user_list], [ids_shared]); here the lists live in a
    store and every object holds a place in it.

    Simplifications: all objects have the same length; the caller does not write
    into a list; every object draws from its own words (World.v models the common generator). *)
From Coq Require Import ZArith List Bool.
From Verif Require Import Py Lattice Cluster Perc History.
Import ListNotations.
Open Scope Z_scope.

Record heap := mkHeap {
  cells : list (list Z);        (* the list objects *)
  objs : list (perc * nat)      (* the simulations, and which list each of them holds *)
}.
Definition cell (h : heap) (r : nat) : list Z := nth r (cells h) [].
(** The object with its list as it is now in the store. *)
Definition load (h : heap) (p : perc * nat) : perc := rebind_ids (cell h (snd p)) (cell h (snd p)) true (fst p).

Inductive happening :=
| HNew (k : pkind)                              (* a constructor *)
| HList (l : list Z)                            (* the caller makes a list *)
| HSet (i q : nat) (sh : bool)                  (* object i: set_custome_site_id_list(list q, sh) *)
| HCall (i : nat) (c : call).                   (* any other call; [CSetIds] with a list made for the occasion *)

(** perc:122-154: the new object makes its own list (perc:129). *)
Definition hnew (E : env) (L : Z) (h : heap) (k : pkind) : heap :=
  match new_perc E k L 0 with
  | Ok s => mkHeap (cells h ++ [ids s]) (objs h ++ [(s, length (cells h))])
  | Err _ => h
  end.
(** perc:161-164: does the object keep the list? *)
Definition accepts (s : perc) (l : list Z) : bool :=
  match lmax l, lmin l with
  | Ok mx, Ok mn => negb ((l_length (lat s) * l_length (lat s) - 1 <? mx) || (mn <? 0))
  | _, _ => false
  end.
(** perc:156-170 with list [q] of the store: if it is accepted, the object holds [q]
    and has perhaps shuffled it. *)
Definition hset (E : env) (h : heap) (i q : nat) (sh : bool) : heap :=
  match nth_error (objs h) i with
  | Some p =>
      if accepts (fst p) (cell h q) then
        let s := exec E (load h p) (CSetIds (cell h q) sh) in
        mkHeap (upd (cells h) q (ids s)) (upd (objs h) i (s, q))
      else h
  | None => h
  end.
(** Any other call.  [user_list] of the result is what has become of the list
    the object held before the call; if the object has made itself a new list
    (perc:182, L1L2:28, 156), that one is put into the store. *)
Definition hcall (E : env) (h : heap) (i : nat) (c : call) : heap :=
  match nth_error (objs h) i with
  | Some p =>
      let s := exec E (load h p) c in
      let cs := upd (cells h) (snd p) (user_list s) in
      if ids_shared s then mkHeap cs (upd (objs h) i (s, snd p))
      else mkHeap (cs ++ [ids s]) (upd (objs h) i (s, length cs))
  | None => h
  end.
Definition hstep (Es : nat -> env) (L : Z) (h : heap) (e : happening) : heap :=
  match e with
  | HNew k => hnew (Es (length (objs h))) L h k
  | HList l => mkHeap (cells h ++ [l]) (objs h)
  | HSet i q sh => hset (Es i) h i q sh
  | HCall i (CSetIds l sh) => hset (Es i) (mkHeap (cells h ++ [l]) (objs h)) i (length (cells h)) sh
  | HCall i c => hcall (Es i) h i c
  end.
Definition hrun (Es : nat -> env) (L : Z) (h : heap) (es : list happening) : heap := fold_left (hstep Es L) es h.
