(** * ProgSpec: what the demonstration programs are expected to print. *)
From Coq Require Import String ZArith List Bool.
From Verif Require Import Py Lattice Cluster Perc History View Programs.
Import ListNotations.
Open Scope Z_scope.

(** The text of [viewLattice(format)] and the number shown for a computed value. *)
Definition shown (format : Z) (s : perc) : print := [TStr (match viewLattice s format with Ok t => t | Err _ => EmptyString end)].
Definition num (r : res fexpr) : item := TNum (match r with Ok v => v | Err _ => FZ 0 end).
(** The line with occupation, both entropies and the order parameters. *)
Definition values_line (s : perc) : print :=
  [TStr "p= "; num (occupation_prob s); TStr " entropy_v1 "; num (entropy_v1 s); TStr " entropy_v2 "; TNum (entropy_v2 s);
   TStr " order wrapping "; num (order_param_wrapping s); TStr " order largest "; num (order_param_largest_clstr s)]%string.
(** [n] placements without detection. *)
Definition placed (E : env) (n : nat) (s : perc) : perc := after E s (repeat CPlace n).
(** Views after each of the [N] placements, with the announcement from placement [m] on. *)
Definition announced (E : env) (m : nat) (N : nat) (s : perc) : list print :=
  flat_map (fun n => shown 3 (trace E n s) :: if (m <=? n)%nat then [[TStr "Wrapping detected"%string]] else []) (seq 1 N).
(** [m] is the number of the placement at which detection first succeeds; there are
    [N] placements and detection follows each. *)
Definition first_hit (E : env) (s : perc) (N m : nat) : Prop :=
  (1 <= m)%nat /\ forall n, (n <= N)%nat -> (after_wrap (trace E n s) = true <-> (m <= n)%nat).
(** One printed line for each of 1, 2, ..., [N]. *)
Definition each (line : nat -> print) (N : nat) : list print := map line (seq 1 N).
(** The line printed for state [s] when its occupation is [p] and its wrapping order parameter is [w]. *)
Definition line_with (p w : fexpr) (s : perc) : print :=
  [TStr "p= "; TNum p; TStr " entropy_v1 "; num (entropy_v1 s); TStr " entropy_v2 "; TNum (entropy_v2 s);
   TStr " order wrapping "; TNum w; TStr " order largest "; num (order_param_largest_clstr s)]%string.
(** The state in which placement [n] leaves the object, before the detection call that follows it. *)
Definition undetected (E : env) (n : nat) (s : perc) : perc := fst (place_one_site E (trace E (n - 1) s)).
