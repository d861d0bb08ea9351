(** * BreakSpec: calls that are broken off

    The vocabulary of Props_Break.v. *)
From Coq Require Import ZArith List Bool.
From Verif Require Import Py Lattice Cluster Perc Spec History Break.
Import ListNotations.
Open Scope Z_scope.

(** The simulation methods; [run_once] with a bound on its loop. *)
Inductive bcall := BPlace | BDetect | BReset | BRun (fuel : nat).

(** What is left of the object [i] when the call [c] is broken off after [n]
    statements (or has come to its end before that). *)
Definition left_by (E : env) (c : bcall) (n : nat) (i : held) : held :=
  match c with
  | BPlace => fst (fst (b_place E i n))
  | BDetect => fst (fst (b_detect i n))
  | BReset => fst (fst (b_reset E i n))
  | BRun f => fst (fst (b_run_once E f i n))
  end.
(** ... and a series of calls, each broken off after its own number of statements. *)
Definition left_by_all (E : env) (cs : list (bcall * nat)) (i : held) : held :=
  fold_left (fun i c => left_by E (fst c) (snd c) i) cs i.

(** Every list that the object needs exists. *)
Definition complete (i : held) : Prop := no_h i = false /\ no_w i = false /\ no_l i = false.

(** The method [fine], executed one statement at a time, and the transition
    [coarse] agree from [s] on: when [coarse] returns normally there is a number
    of statements [k] such that fewer than [k] are not enough to finish, and with
    [k] or more the call ends in the same object with the same value. *)
Definition agrees {A} (fine : B A) (coarse : M A) (s : perc) : Prop :=
  forall s' a, coarse s = (s', Ok a) ->
  exists k, (forall n, (n < k)%nat -> snd (fine (whole s) n) = Cut) /\
            (forall n, (k <= n)%nat -> fine (whole s) n = (whole s', (n - k)%nat, Fin (Ok a))).

(** [s'] is like the object [s0]: every attribute that [reset] restores has the
    value it has in [s0]. *)
Definition like_new (s' s0 : perc) : Prop :=
  lat s' = lat s0 /\ pool s' = pool s0 /\ cur_idx s' = cur_idx s0 /\
  occ_count s' = occ_count s0 /\ pc_occ s' = pc_occ s0 /\ cluster_count s' = cluster_count s0 /\
  largest_sz s' = largest_sz s0 /\ largest_id s' = largest_id s0 /\
  max_ent s' = max_ent s0 /\ ent s' = ent s0 /\ after_wrap s' = after_wrap s0 /\ wid s' = wid s0 /\
  pc_bonds s' = pc_bonds s0 /\ pc_sites s' = pc_sites s0 /\ sel_flag s' = sel_flag s0 /\
  h_arr s' = h_arr s0 /\ pw_arr s' = pw_arr s0 /\ pl_arr s' = pl_arr s0.

(** The attribute [f] of the object [t], left behind by a broken-off call that started
    with [s] and would have ended with [s'], is not something in between. *)
Definition old_or_new {X} (f : perc -> X) (s t s' : perc) : Prop := f t = f s \/ f t = f s'.
