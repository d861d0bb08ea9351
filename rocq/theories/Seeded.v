(** * Seeded: a seeded ensemble does not depend on the iteration order of sets (C64). *)
From Coq Require Import String ZArith List Bool Lia Reals.
From Verif Require Import Py Lattice Cluster Perc Spec History Real PyFacts Fresh State Reach RunProps Normal Sim Run EnsSpec UtilSpec Util Ens Drivers.
Import ListNotations.
Open Scope Z_scope.

Lemma seeded_as E f t0 time k L n i d : 0 < L ->
  run_ensemble_entropy_order_threads_v2 E f t0 time (AClass k) L n i (Some d) =
  run_ensemble_entropy_order_threads_v2 (mkEnv (e_ord E) d) f 0 time (AClass k) L n i None.
Proof.
  intros HL. unfold run_ensemble_entropy_order_threads_v2, construct_seeded. cbn [construct].
  destruct (new_perc_ok E k L t0 HL) as (? & ? & ? & ? & -> & _). cbn [rbind].
  destruct (new_perc (mkEnv (e_ord E) d) k L 0); reflexivity.
Qed.
Lemma nth_feval l i : feval (entry l i) = nth i (map feval l) 0%R.
Proof. unfold entry. change 0%R with (feval (FZ 0)). symmetry. apply map_nth. Qed.

Lemma p_C64_orders E1 E2 f t1 t2 time k L n i d : env_ok E1 -> env_ok E2 -> k <> KSP -> 0 < L -> 5 * (L * L) < Z.of_nat f -> 1 <= n ->
  exists d1 c1 d2 c2,
    run_ensemble_entropy_order_threads_v2 E1 f t1 time (AClass k) L n i (Some d) = Ok [d1; c1] /\
    run_ensemble_entropy_order_threads_v2 E2 f t2 time (AClass k) L n i (Some d) = Ok [d2; c2] /\
    o_name d1 = o_name d2 /\ o_name c1 = o_name c2 /\
    map (map feval) (o_rows d1) = map (map feval) (o_rows d2) /\ o_rows c1 = o_rows c2.
Proof.
  intros HE1 HE2 Hk HL Hf Hn. rewrite !seeded_as by exact HL.
  set (F1 := mkEnv (e_ord E1) d). set (F2 := mkEnv (e_ord E2) d).
  assert (HF1 : env_ok F1) by exact HE1. assert (HF2 : env_ok F2) by exact HE2.
  destruct (new_perc_ok F1 k L 0 HL) as (? & ? & ? & ? & E0 & _).
  match type of E0 with _ = Ok ?u => set (s0 := u) in E0 end. clearbody s0.
  assert (E0' : new_perc F2 k L 0 = Ok s0).
  { destruct (p_C46 F1 F2 k L 0 s0 [] HF1 HF2 (fun _ => eq_refl) E0 (Forall_nil _)) as (Q & _). exact Q. }
  destruct (p_C56 F1 k L 0 s0 f n time HF1 Hk E0 Hf Hn) as (_ & _ & _ & P1). destruct (P1 i) as (d1 & c1 & A1 & _ & _ & _ & _ & (B1 & B1') & (C1 & C1')).
  destruct (p_C56 F2 k L 0 s0 f n time HF2 Hk E0' Hf Hn) as (_ & _ & _ & P2). destruct (P2 i) as (d2 & c2 & A2 & _ & _ & _ & _ & (B2 & B2') & (C2 & C2')).
  exists d1, c1, d2, c2. split; [exact A1|]. split; [exact A2|].
  pose proof (v2_names _ _ _ _ _ _ _ _ _ _ HF1 A1) as N1. pose proof (v2_names _ _ _ _ _ _ _ _ _ _ HF2 A2) as N2. cbn [map] in N1, N2.
  injection N1 as N1 N1'. injection N2 as N2 N2'. split; [congruence|]. split; [congruence|].
  assert (S : forall e, let s := realization F1 f s0 e in let t := realization F2 f s0 e in
    same_physics L s t /\ pw_arr s = pw_arr t /\ pl_arr s = pl_arr t /\ map feval (h_arr s) = map feval (h_arr t)).
  { intros e s t. destruct (p_C46 F1 F2 k L 0 s0 (cycles f e) HF1 HF2 (fun _ => eq_refl) E0 (cycles_ok L f e)) as (_ & Q1 & _ & _ & _ & _ & _ & _ & Q2 & Q3 & Q4 & _).
    split; [exact Q1|]. split; [exact Q2|]. split; [exact Q3|exact Q4]. }
  split.
  - apply (nth_ext _ _ [] []); [rewrite !map_length; congruence|]. intros j Hj. rewrite map_length, B1 in Hj.
    destruct (B1' j Hj) as (p & h & l & w & R1 & X1 & X2 & X3 & X4). destruct (B2' j Hj) as (p' & h' & l' & w' & R2 & Y1 & Y2 & Y3 & Y4).
    rewrite (nth_error_nth _ _ _ (map_nth_error (map feval) j _ R1)), (nth_error_nth _ _ _ (map_nth_error (map feval) j _ R2)).
    cbn [map]. rewrite X1, X2, X3, X4, Y1, Y2, Y3, Y4. unfold mean.
    f_equal. f_equal; [|f_equal; [|f_equal]]; f_equal; apply total_ext; intros e _; destruct (S e) as (_ & Z1 & Z2 & Z3); rewrite ?nth_feval; congruence.
  - apply (nth_ext _ _ [] []); [congruence|]. intros j Hj. rewrite C1 in Hj.
    destruct (C1' (j + 1)%nat) as (pc & R1 & X1); [lia|]. destruct (C2' (j + 1)%nat) as (pc' & R2 & X2); [lia|].
    replace (j + 1 - 1)%nat with j in * by lia. rewrite (nth_error_nth _ _ _ X1), (nth_error_nth _ _ _ X2).
    destruct (S (j + 1)%nat) as (Q & _). rewrite (ph_pc _ _ _ Q), R2 in R1. injection R1 as ->.
    rewrite (ph_pc_sites _ _ _ Q), (ph_pc_bonds _ _ _ Q). reflexivity.
Qed.
