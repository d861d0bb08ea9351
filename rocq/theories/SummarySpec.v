(** * SummarySpec: which iterations of the L1 and L2 rules leave the first candidate. *)
From Coq Require Import ZArith List Bool.
From Verif Require Import Py Lattice Perc History.
Import ListNotations.
Open Scope Z_scope.

(** Number of placement calls of the history [cs] that return [True] and in which the
    candidate drawn is occupied already (so a neighbour is tried instead). *)
Fixpoint occupied_draws (E : env) (s : perc) (cs : list call) : nat :=
  match cs with
  | [] => O
  | c :: cs =>
      ((match c, snd (place_one_site E s) with
        | CPlace, Ok true => if (0 <=? site_label s (drawn E s))%Z then 1 else 0
        | _, _ => 0
        end) + occupied_draws E (exec E s c) cs)%nat
  end.
