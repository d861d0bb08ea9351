(** * RulesLawSpec: the law of a realization of the L1 and L2 classes. *)
From Coq Require Import ZArith List Permutation.
From Verif Require Import Py Perc History ChanceSpec IidSpec.
Import ListNotations.
Open Scope Z_scope.

(** Calls that replace or rearrange the list of site ids. *)
Definition list_call (c : call) : Prop := match c with CSetIds _ _ | CSetIndices _ _ | CSwap _ _ => True | _ => False end.
(** An object at the start of a realization: new, or just reset after any history, and
    after that perhaps given another list of site ids. *)
Inductive at_start (ord : list Z -> list Z) (k : pkind) (L : Z) : perc -> Prop :=
| start_new d t s : new_perc (mkEnv ord d) k L t = Ok s -> at_start ord k L s
| start_reset E s d s' : env_ok E -> reachable_k E k L s -> reset (mkEnv ord d) s = (s', Ok tt) -> at_start ord k L s'
| start_list d s c : at_start ord k L s -> list_call c -> call_ok L c -> at_start ord k L (exec (mkEnv ord d) s c).
(** The number of placements tried by calls. *)
Definition tries (c : call) : nat := match c with CPlace => 1 | CRun f | CTestRun f => f | _ => 0 end.
Definition all_tries (cs : list call) : nat := fold_right (fun c n => (tries c + n)%nat) 0%nat cs.
(** Words from [0..M-1]; taken modulo any number of values up to [n], or 4, they are fair. *)
Definition fair (M n : Z) : Prop := 0 < M /\ (4 | M) /\ forall m, 1 <= m <= n -> (m | M).
Definition words (M : Z) (W : nat) (w : list Z) : Prop := length w = W /\ Forall (fun x => 0 <= x < M) w.
(** [R] holds after the calls [cs] on [s] whenever the next words drawn are [w]. *)
Definition drawing (ord : list Z -> list Z) (M : Z) (W : nat) (s : perc) (cs : list call) (R : perc -> Prop) (w : list Z) : Prop :=
  words M W w /\ forall d, (forall i, (i < W)%nat -> d (tick s + i)%nat = nth i w 0) -> R (after (mkEnv ord d) s cs).
(** Two objects of class L1 or L2 report the same about their realizations: everything but the
    order in which the remaining candidates are kept. *)
Definition same_growth (s s' : perc) : Prop :=
  kind s = kind s' /\ lat s = lat s' /\ pool s = pool s' /\ cur_idx s = cur_idx s' /\
  sel_id s = sel_id s' /\ cur_site s = cur_site s' /\ sel_flag s = sel_flag s' /\ occ_count s = occ_count s' /\
  largest_sz s = largest_sz s' /\ largest_id s = largest_id s' /\ cluster_count s = cluster_count s' /\
  max_ent s = max_ent s' /\ ent s = ent s' /\
  after_wrap s = after_wrap s' /\ wid s = wid s' /\ pc_occ s = pc_occ s' /\ pc_bonds s = pc_bonds s' /\ pc_sites s = pc_sites s' /\
  h_arr s = h_arr s' /\ pw_arr s = pw_arr s' /\ pl_arr s = pl_arr s' /\
  x_occ s = x_occ s' /\ (kind s = KL2 -> y_occ s = y_occ s') /\ (kind s = KL1 -> record s = record s') /\
  Permutation (skipn (Z.to_nat (cur_idx s)) (ids s)) (skipn (Z.to_nat (cur_idx s')) (ids s')).
Definition about_growth (R : perc -> Prop) : Prop := forall s s', same_growth s s' -> R s -> R s'.
(** Words enough for a plan of realizations: two for each placement, [L*L-1] for each reset. *)
Definition words_needed (L : Z) (p : plan) : nat := fold_right (fun q n => (2 * all_tries (fst q) + (Z.to_nat (L * L) - 1) + n)%nat) 0%nat p.
(** Everything asked in the plan holds of [s] whenever the next words drawn are [w]. *)
Definition jointly_drawing (ord : list Z -> list Z) (M : Z) (W : nat) (s : perc) (p : plan) (w : list Z) : Prop :=
  words M W w /\ forall d, (forall i, (i < W)%nat -> d (tick s + i)%nat = nth i w 0) -> all_hold (mkEnv ord d) s p.
