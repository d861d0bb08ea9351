(** * UtilSpec: vocabulary for the statements about curves and file names. Nothing here is part of the model. *)
From Coq Require Import String ZArith QArith List.
From Verif Require Import Py Perc Run.
Import ListNotations.
Open Scope Z_scope.

(** Which of two values is above: 1 the first, -1 the second, 0 equal. *)
Definition side (a b : Q) : Z := match (a ?= b)%Q with Lt => -1 | Eq => 0 | Gt => 1 end.
(** How much [side] changes between positions [j] and [j+1] of two curves (0, 1 or 2). *)
Definition jump (x1 x2 : list Q) (j : nat) : Z :=
  Z.abs (side (nth (S j) x1 0%Q) (nth (S j) x2 0%Q) - side (nth j x1 0%Q) (nth j x2 0%Q)).
(** The curves cross strictly between [j] and [j+1]. *)
Definition crosses (x1 x2 : list Q) (j : nat) : Prop :=
  ((nth j x1 0 < nth j x2 0 /\ nth (S j) x2 0 < nth (S j) x1 0) \/ (nth j x2 0 < nth j x1 0 /\ nth (S j) x1 0 < nth (S j) x2 0))%Q.

(** How a percolation class is named in the output files. *)
Definition class_name (k : pkind) : string :=
  (match k with KBase => "SitePercolation" | KL0 => "SitePercolationL0_" | KL1 => "SitePercolationL1_" | KL2 => "SitePercolationL2_"
  | KSP => "SitePercolationshortest_path_" end)%string.
(** The three kinds of data files. *)
Definition tags : list string := ["_entropy_order_L"; "_critical_values_L"; "_shortest_path_p_L"]%string.

(** One run of any of the four drivers: class, length, time stamp, worker, files. *)
Definition run_of (E : env) (k : pkind) (L : Z) (time : string) (w : option Z) (files : list out_file) : Prop :=
  (exists f t0 n, w = None /\ run_ensemble_entropy_order E f t0 time (AClass k) L n = Ok files) \/
  (exists f t0 n i, w = Some i /\ run_ensemble_entropy_order_threads E f t0 time (AClass k) L n i = Ok files) \/
  (exists f t0 n i seed, w = Some i /\ run_ensemble_entropy_order_threads_v2 E f t0 time (AClass k) L n i seed = Ok files) \/
  (exists f t0 n i seed, w = Some i /\ ensemble_shortest_path_v2_thread E f t0 time (AClass k) L n i seed = Ok files).
