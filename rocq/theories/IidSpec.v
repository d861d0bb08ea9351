(** * IidSpec: the law of a realization, and of several realizations one after another. *)
From Coq Require Import ZArith List Permutation.
From Verif Require Import Py Perc History ChanceSpec.
Import ListNotations.
Open Scope Z_scope.

(** Calls that belong to one realization. *)
Definition realizing (c : call) : Prop :=
  match c with CPlace | CDetect | CRun _ | CTestRun _ => True | _ => False end.
(** The first of them places a site. *)
Definition starts (cs : list call) : Prop :=
  match cs with CPlace :: _ | CRun (S _) :: _ | CTestRun (S _) :: _ => True | _ => False end.
(** How an object gets its sequence: by its constructor, or by [reset] of [s0]. *)
Definition made_new (k : pkind) (L : Z) (t : nat) (E : env) (s : perc) : Prop := new_perc E k L t = Ok s.
Definition made_by_reset (s0 : perc) (E : env) (s : perc) : Prop := reset E s0 = (s, Ok tt).
(** [Q] holds of the object made with the indices [c]; sets are iterated in the order [ord]. *)
Definition realized_with (ord : list Z -> list Z) (n t : nat) (made : env -> perc -> Prop) (Q : env -> perc -> Prop) (c : list Z) : Prop :=
  random_choices n c /\ forall d s, choices (mkEnv ord d) t n = c -> made (mkEnv ord d) s -> Q (mkEnv ord d) s.
(** Two objects report the same about their realizations: lattice, clusters, sequence,
    last selection, counts, entropy, wrapping, values at the threshold, recorded curves. *)
Definition same_realization (s s' : perc) : Prop :=
  kind s = kind s' /\ lat s = lat s' /\ pool s = pool s' /\ get_site_id_sequence s = get_site_id_sequence s' /\ cur_idx s = cur_idx s' /\
  sel_id s = sel_id s' /\ sel_flag s = sel_flag s' /\ occ_count s = occ_count s' /\
  largest_sz s = largest_sz s' /\ largest_id s = largest_id s' /\ cluster_count s = cluster_count s' /\
  max_ent s = max_ent s' /\ ent s = ent s' /\
  after_wrap s = after_wrap s' /\ wid s = wid s' /\ pc_occ s = pc_occ s' /\ pc_bonds s = pc_bonds s' /\ pc_sites s = pc_sites s' /\
  h_arr s = h_arr s' /\ pw_arr s = pw_arr s' /\ pl_arr s = pl_arr s' /\ (kind s = KSP -> sp_p s = sp_p s').
(** A plan of realizations of one object: for each the calls it consists of and what is
    asked of the object after them; a [reset] comes between two realizations. *)
Definition plan := list (list call * (perc -> Prop)).
Fixpoint all_hold (E : env) (s : perc) (p : plan) : Prop :=
  match p with
  | [] => True
  | (cs, R) :: p => R (after E s cs) /\ all_hold E (exec E (after E s cs) CReset) p
  end.
(** Everything asked holds when the [j]-th shuffle draws the indices [nth j c []]. *)
Definition jointly_with (ord : list Z -> list Z) (k : pkind) (L : Z) (t : nat) (p : plan) (c : list (list Z)) : Prop :=
  let n := Z.to_nat (L * L) in
  length c = length p /\ Forall (random_choices n) c /\
  forall d s, (forall j, (j < length c)%nat -> choices (mkEnv ord d) (t + j * (n - 1)) n = nth j c []) ->
    new_perc (mkEnv ord d) k L t = Ok s -> all_hold (mkEnv ord d) s p.
(** What is asked depends on the realization only. *)
Definition about_realization (R : perc -> Prop) : Prop := forall s s', same_realization s s' -> R s -> R s'.
