(** * BreakMoreSpec: any call of the simulation API, broken off

    The vocabulary of Props_BreakMore.v (with BreakSpec.v). *)
From Coq Require Import ZArith List Bool Permutation.
From Verif Require Import Py Lattice Cluster Perc Spec History Break BreakSpec BreakMore.
Import ListNotations.
Open Scope Z_scope.

(** Every method that changes the object. *)
Inductive acall :=
| AOld (c : bcall)
| ASetIds (l : list Z) (sh : bool)
| ASetIndices (ixs : list (list Z)) (sh : bool)
| ASwap (a b : Z)
| ATestRun (fuel : nat).
(** Lists may be any lists; [swap_ids] is only used with site ids. *)
Definition acall_ok (L : Z) (c : acall) : Prop :=
  match c with ASwap a b => is_site L a /\ is_site L b | _ => True end.

(** What is left of the object when the call is broken off after [n] statements. *)
Definition leaves (E : env) (c : acall) (n : nat) (i : held) : held :=
  match c with
  | AOld c => left_by E c n i
  | ASetIds l sh => fst (fst (b_set_ids E l sh i n))
  | ASetIndices ixs sh => fst (fst (b_set_indices E ixs sh i n))
  | ASwap a b => fst (fst (b_swap a b i n))
  | ATestRun f => fst (fst (b_test_run E f i n))
  end.
Definition leaves_all (E : env) (cs : list (acall * nat)) (i : held) : held :=
  fold_left (fun i c => leaves E (fst c) (snd c) i) cs i.

(** The call that sets a site sequence is not broken off between its first and its
    fourth assignment. *)
Definition list_call_whole (c : acall * nat) : Prop :=
  match fst c with
  | ASetIds _ _ | ASetIndices _ _ => snd c = 0%nat \/ (4 <= snd c)%nat
  | _ => True
  end.
(** Neither a new sequence nor an exchange. *)
Definition keeps_sequence (c : acall * nat) : Prop :=
  match fst c with ASetIds _ _ | ASetIndices _ _ | ASwap _ _ => False | _ => True end.

(** A sequence that is accepted by an object of length [L]. *)
Definition accepted (L : Z) (l : list Z) : Prop := l <> [] /\ Forall (is_site L) l.
(** The number of sites that may be placed is the length of the sequence. *)
Definition settled (s : perc) : Prop := max_iter s = zlen (ids s).
(** [x] occurs twice in [l]. *)
Definition repeated (x : Z) (l : list Z) : Prop := exists a b c, l = a ++ x :: b ++ x :: c.
(** What the object [s] has become, [t], after the first [n] statements that install the
    sequence [l]: sequence, [mode_custome_site_id], [do_shuffle] and
    [max_iteration_limit] are assigned one after the other; from then on only the order
    of the sequence, the positions kept for [swap_ids] and the generator change.  [ul] and
    [share]: the list held by the caller, and whether it is the object's own list. *)
Definition installed (l ul : list Z) (share sh : bool) (n : nat) (s t : perc) : Prop :=
  ((n <= 4)%nat ->
     t = set_custom (if (4 <=? n)%nat then zlen l else max_iter s)
                    (if (2 <=? n)%nat then true else mode_custom s)
                    (if (3 <=? n)%nat then sh else do_shuffle s)
                    (if (1 <=? n)%nat then rebind_ids l ul share s else s)) /\
  ((4 <= n)%nat ->
     Permutation l (ids t) /\ (sh = false -> ids t = l) /\
     t = set_tick (tick t) (set_rev (rev_ids t) (mutate_ids (ids t)
           (set_custom (zlen l) true sh (rebind_ids l ul share s))))).
