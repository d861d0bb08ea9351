(** * ArraysSpec: what holds of curves that the caller keeps. *)
From Coq Require Import ZArith List Bool.
From Verif Require Import Py Lattice Cluster Perc History Arrays.
Import ListNotations.
Open Scope Z_scope.

(** The method calls among the accesses. *)
Fixpoint calls_of (xs : list access) : list call :=
  match xs with [] => [] | ACall c :: xs => c :: calls_of xs | AWrite _ _ :: xs => calls_of xs end.
(** The caller only reads the lists. *)
Definition only_calls (xs : list access) : Prop := forall r l, ~ In (AWrite r l) xs.
(** The object has this list as one of its curves. *)
Definition in_use (a : keeper) (r : nat) : Prop :=
  r = get_occupation_prob_array a \/ r = get_entropy_array a \/
  r = get_order_param_wrapping_array a \/ r = get_order_param_largest_array a.
(** The object without its curves. *)
Definition bare (s : perc) : perc := set_arrs [] [] [] [] s.
(** [swap_ids] is only used with site ids. *)
Definition accesses_ok (L : Z) (xs : list access) : Prop := forall c, In (ACall c) xs -> call_ok L c.
(** The list objects that exist. *)
Definition exists_in (a : keeper) (r : nat) : Prop := (r < length (k_store a))%nat.
(** No run was completed yet. *)
Definition before_first_run (a : keeper) : Prop := first_run (k_obj a) = true.
(** Keepers of an object of class [k] and length [L] after any calls and writes. *)
Definition kept (E : env) (L : Z) (a : keeper) : Prop :=
  exists k t0 s0 xs, new_perc E k L t0 = Ok s0 /\ accesses_ok L xs /\ a = krun E (kstart s0) xs.
