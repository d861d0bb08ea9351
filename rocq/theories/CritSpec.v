(** * CritSpec: reading the file of critical values. *)
From Coq Require Import ZArith List Reals.
From Verif Require Import Py Perc History Real Run EnsSpec AverageSpec.
Import ListNotations.
Open Scope Z_scope.

(** An ensemble program that keeps critical values, run for [n] realizations of an object of class
    [k], writes [F] for them: the second file of the two ensemble programs, or, for the shortest-path
    class, the file of its own program. *)
Definition writes_critical (E : env) (f t0 : nat) (k : pkind) (L n : Z) (F : out_file) : Prop :=
  (k <> KSP /\ exists files, nth_error files 1 = Some F /\
    ((exists time, run_ensemble_entropy_order E f t0 time (AClass k) L n = Ok files) \/
     (exists time i, run_ensemble_entropy_order_threads_v2 E f t0 time (AClass k) L n i None = Ok files))) \/
  (k = KSP /\ exists time i, ensemble_shortest_path_v2_thread E f t0 time (AClass k) L n i None = Ok [F]).
(** The mean over the rows of the file of a quantity computed from the numbers in the row. *)
Definition row_mean (phi : list R -> R) (F : out_file) : R := mean_of (map (fun r => phi (map feval r)) (o_rows F)).
(** The first number in a row, the threshold; whether it is at most [x]. *)
Definition first_number (r : list R) : R := nth 0 r 0%R.
Definition at_most (x : R) (r : list R) : R := if Rle_dec (first_number r) x then 1%R else 0%R.
(** The numbers a realization that has ended in state [s] is described by: the threshold and the
    sites and bonds of the wrapping cluster at the threshold, or, for the shortest-path class, the
    threshold and the occupation at the first full line. *)
Definition critical_numbers (s : perc) : list R :=
  match get_pc s with Ok p => feval p | Err _ => 0%R end ::
  match kind s with
  | KSP => [feval (sp_p s)]
  | _ => [IZR (get_site_count_wrapping_cluster_pc s); IZR (get_bond_count_wrapping_cluster_pc s)]
  end.
