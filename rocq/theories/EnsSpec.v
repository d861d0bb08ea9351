(** * EnsSpec: vocabulary for the statements about ensembles.

    Nothing here is part of the model. *)
From Coq Require Import ZArith List Reals.
From Verif Require Import Py Perc History Real.
Import ListNotations.

(** [e] times: reset, then a whole run. *)
Fixpoint cycles (fuel e : nat) : list call :=
  match e with O => [] | S e => cycles fuel e ++ [CReset; CRun fuel] end.
(** The object after its [e]-th realization. *)
Definition realization (E : env) (fuel : nat) (s0 : perc) (e : nat) : perc := after E s0 (cycles fuel e).
(** Sum and arithmetic mean of [g 1], ..., [g n]. *)
Definition total (n : nat) (g : nat -> R) : R := fold_right Rplus 0%R (map g (seq 1 n)).
Definition mean (n : nat) (g : nat -> R) : R := (total n g / INR n)%R.
(** Entry [i] of a recorded list. *)
Definition entry (l : list fexpr) (i : nat) : fexpr := nth i l (FZ 0).

(** [rows] are the averages over [n] realizations of one object: p, entropy,
    largest-cluster and wrapping order parameters, one row per occupied site. *)
Definition averages (E : env) (fuel : nat) (s0 : perc) (L : Z) (n : nat) (rows : list (list fexpr)) : Prop :=
  length rows = Z.to_nat (L * L) /\
  forall i, (i < Z.to_nat (L * L))%nat -> exists p h l w, nth_error rows i = Some [p; h; l; w] /\
    feval p = (INR (S i) / IZR (L * L))%R /\
    feval h = mean n (fun e => feval (entry (h_arr (realization E fuel s0 e)) i)) /\
    feval l = mean n (fun e => feval (entry (pl_arr (realization E fuel s0 e)) i)) /\
    feval w = mean n (fun e => feval (entry (pw_arr (realization E fuel s0 e)) i)).
(** [rows] lists pc and the size of the wrapping cluster at pc, one row per realization. *)
Definition critical_rows (E : env) (fuel : nat) (s0 : perc) (n : nat) (rows : list (list fexpr)) : Prop :=
  length rows = n /\
  forall e, (1 <= e <= n)%nat -> exists pc, get_pc (realization E fuel s0 e) = Ok pc /\
    nth_error rows (e - 1) = Some [pc; FZ (get_site_count_wrapping_cluster_pc (realization E fuel s0 e));
                                   FZ (get_bond_count_wrapping_cluster_pc (realization E fuel s0 e))].
(** Every realization is a complete run of the object after its reset. *)
Definition realized (E : env) (fuel : nat) (s0 : perc) (n : nat) : Prop :=
  forall e, (e < n)%nat -> reset E (realization E fuel s0 e) = (fst (reset E (realization E fuel s0 e)), Ok tt) /\
    run_once E fuel (fst (reset E (realization E fuel s0 e))) = (realization E fuel s0 (S e), Ok tt).
