(** * SavetxtCrit: the critical values can be recovered exactly from the written files (C124). *)
From Coq Require Import String Ascii ZArith List Bool Reals Lia Lra.
From Flocq Require Import Core.
From Verif Require Import Py Lattice Cluster Perc Run Spec History Reach State Inv StateProps2 RunProps Cycle EnsSpec Ens ShortEns Real AverageSpec MeanSpec CritSpec Crit View Float FloatProps Util ViewSpec ViewProps Savetxt SavetxtSpec SavetxtProps.
Import ListNotations.
Open Scope Z_scope.

Lemma written_heads E f t0 k L n F : writes_critical E f t0 k L n F ->
  Forall one_line (o_columns F) /\ Forall one_line (o_desc F).
Proof.
  intros [(Hk & files & Hfi & Hw)|(-> & time & i & W)].
  - destruct Hw as [(time & W)|(time & q & W)].
    + unfold run_ensemble_entropy_order in W. destruct (construct _ _ _ _) as [s|x]; cbn [rbind] in W; [|discriminate].
      destruct (ensemble_loop _ _ _ _ _ _ _) as (s', [(d & c)|x]); cbn [rbind] in W; [|discriminate].
      destruct (Run.average _ _) as [d'|x]; cbn [rbind] in W; [|discriminate]. injection W as <-. injection Hfi as <-.
      split; repeat constructor.
    + unfold run_ensemble_entropy_order_threads_v2 in W. destruct (construct_seeded _ _ _ _ _) as [(E' & s)|x]; cbn [rbind] in W; [|discriminate].
      destruct (ensemble_loop _ _ _ _ _ _ _) as (s', [(d & c)|x]); cbn [rbind] in W; [|discriminate].
      destruct (Run.average _ _) as [d'|x]; cbn [rbind] in W; [|discriminate]. injection W as <-. injection Hfi as <-.
      split; repeat constructor.
  - unfold ensemble_shortest_path_v2_thread in W. destruct (construct_seeded _ _ _ _ _) as [(E' & s)|x]; cbn [rbind] in W; [|discriminate].
    cbn [orb] in W. destruct (shortest_loop _ _ _ _ _) as (s', [c|x]); cbn [rbind] in W; [|discriminate]. injection W as <-.
    split; repeat constructor.
Qed.
Definition good_cell (N : Z) (lg : R -> R) (e : fexpr) : Prop := finite (rnd (fl lg e)) /\ gives N (dec (rnd (fl lg e))) (feval e).
Lemma frac_cell N m e lg : 0 < N <= 9 * 10 ^ 9 -> frac N m e -> good_cell N lg e.
Proof.
  intros HN Fr. destruct (frac_val _ _ _ lg Fr) as (Q & Q'). destruct Fr as (Hm & _). destruct (ratio_finite m N ltac:(lia) Hm) as (A & _ & _).
  unfold good_cell. rewrite Q, Q', rnd_id by apply rnd_double. split; [exact A|]. exists m. split; [reflexivity|]. now apply dec_ratio.
Qed.
Lemma int_cell m lg : 0 <= m < 10 ^ 11 -> finite (rnd (fl lg (FZ m))) /\ dec (rnd (fl lg (FZ m))) = IZR m.
Proof. intros H. cbn [fl]. rewrite rnd_id by (apply double_int; lia). split; [apply int_finite; lia|apply dec_int; lia]. Qed.

Lemma p_C124_critical E k L t0 s0 f n F lg date clock : env_ok E -> new_perc E k L t0 = Ok s0 -> 5 * (L * L) < Z.of_nat f -> 1 <= n ->
  L * L <= 9 * 10 ^ 9 -> one_line date -> one_line clock -> writes_critical E f t0 k L n F ->
  exists table, read_table (file_text lg date clock F) = map (map Some) table /\ length table = Z.to_nat n /\
    forall e, (1 <= e <= Z.to_nat n)%nat -> let s := realization E f s0 e in
      exists pc y ys, get_pc s = Ok pc /\ nth_error table (e - 1) = Some (y :: ys) /\ gives (L * L) y (feval pc) /\
        match k with
        | KSP => exists y', ys = [y'] /\ gives (L * L) y' (feval (sp_p s))
        | _ => ys = [IZR (get_site_count_wrapping_cluster_pc s); IZR (get_bond_count_wrapping_cluster_pc s)]
        end.
Proof.
  intros HE E0 Hf Hn HL Hd Hc Hw.
  assert (RE : forall e, reachable E L (realization E f s0 e)) by (intros e; exists k; exact (plain_k _ _ _ _ (re_no_custom E k L t0 s0 f E0 e))).
  assert (HN : 0 < L * L <= 9 * 10 ^ 9).
  { pose proof (i_pos _ _ (reachable_inv _ _ _ HE (RE O))). nia. }
  assert (Hh : plain_head date clock F) by (apply head_plain; destruct (written_heads _ _ _ _ _ _ _ Hw); now repeat split).
  assert (K : forall e s pc, s = realization E f s0 e -> get_pc s = Ok pc -> good_cell (L * L) lg pc).
  { intros e s pc -> Ep. destruct (of_sites_frac E L _ get_pc HE (RE e) ltac:(right; now left)) as (m & x & Ex & Fr). rewrite Ep in Ex. injection Ex as <-. now apply (frac_cell _ m). }
  assert (A : length (o_rows F) = Z.to_nat n /\ forall e, (1 <= e <= Z.to_nat n)%nat -> let s := realization E f s0 e in
    exists pc r, get_pc s = Ok pc /\ nth_error (o_rows F) (e - 1) = Some (pc :: r) /\ good_cell (L * L) lg pc /\ (forall x, In x r -> finite (rnd (fl lg x))) /\
        match k with
        | KSP => exists y', map (fun e => dec (rnd (fl lg e))) r = [y'] /\ gives (L * L) y' (feval (sp_p s))
        | _ => map (fun e => dec (rnd (fl lg e))) r = [IZR (get_site_count_wrapping_cluster_pc s); IZR (get_bond_count_wrapping_cluster_pc s)]
        end).
  { destruct Hw as [(Hk & files & Hfi & Hw)|(-> & time & i & W)].
    - assert (A : critical_rows E f s0 (Z.to_nat n) (o_rows F)).
      { destruct Hw as [(time & W)|(time & q & W)].
        - destruct (p_C56 E k L t0 s0 f n time HE Hk E0 Hf Hn) as (_ & (d & c & W' & _ & _ & _ & _ & _ & A) & _). rewrite W in W'. injection W' as ->. injection Hfi as <-. exact A.
        - destruct (p_C56 E k L t0 s0 f n time HE Hk E0 Hf Hn) as (_ & _ & _ & Q). destruct (Q q) as (d & c & W' & _ & _ & _ & _ & _ & A). rewrite W in W'. injection W' as ->. injection Hfi as <-. exact A. }
      destruct A as (Hl & A). split; [exact Hl|]. intros e He s. destruct (A e He) as (pc & Ep & R). fold s in Ep, R.
      eexists _, _. split; [exact Ep|]. split; [exact R|]. split; [now apply (K e s)|].
      assert (B : 0 <= get_site_count_wrapping_cluster_pc s < 10 ^ 11 /\ 0 <= get_bond_count_wrapping_cluster_pc s < 10 ^ 11).
      { destruct (p_C27 E L s HE (RE e)) as (B1 & B2). pose proof (i_pos _ _ (reachable_inv _ _ _ HE (RE e))). destruct (after_wrap s).
        - destruct (B2 eq_refl) as (m & _ & C1 & C2 & C3 & _). lia.
        - destruct (B1 eq_refl) as (_ & -> & ->). lia. }
      destruct B as (B1 & B2). destruct (int_cell _ lg B1) as (F1 & V1). destruct (int_cell _ lg B2) as (F2 & V2).
      split; [intros x [<- |[<- |[]]]; assumption|]. cbn [map]. rewrite V1, V2. destruct k; try reflexivity. now contradiction Hk.
    - destruct (p_C83 E L t0 s0 f n i time HE E0 Hf) as (d & W' & _ & _ & _ & Hl & A). rewrite W in W'. injection W' as <-. split; [exact Hl|].
      intros e He s. destruct (A e He) as (pc & Ep & R & C1 & C2). fold s in Ep, R, C1, C2. eexists _, _. split; [exact Ep|]. split; [exact R|]. split; [now apply (K e s)|].
      assert (G : good_cell (L * L) lg (sp_p s)).
      { destruct (Z.le_gt_cases L 2) as [H|H].
        - destruct (C2 H) as (_ & ->). apply (frac_cell _ 0); [exact HN|]. split; [lia|]. now right.
        - destruct (C1 ltac:(lia)) as (m & q & _ & -> & ? & ? & ? & _). apply (frac_cell _ q); [exact HN|]. split; [lia|]. now left. }
      destruct G as (G1 & G2). split; [intros x [<- |[]]; exact G1|]. eexists. split; [reflexivity|exact G2]. }
  destruct A as (Hl & A). exists (map (map (fun e => dec (rnd (fl lg e)))) (o_rows F)). split; [|split].
  - rewrite read_rows; [|exact Hh|].
    + rewrite map_map. apply map_ext. intros r. now rewrite map_map.
    + intros r Hr. apply In_nth_error in Hr as (j & Hj). assert (j < Z.to_nat n)%nat by (rewrite <- Hl; apply nth_error_Some; now rewrite Hj).
      destruct (A (S j) ltac:(lia)) as (pc & r' & _ & R & (G & _) & Fi & _). replace (S j - 1)%nat with j in R by lia. rewrite Hj in R. injection R as ->.
      split; [discriminate|]. intros x [<- |Hx]; auto.
  - now rewrite map_length.
  - intros e He s. destruct (A e He) as (pc & r & Ep & R & (_ & G) & _ & M). fold s in Ep, M. exists pc. do 2 eexists. split; [exact Ep|].
    split; [erewrite map_nth_error by exact R; reflexivity|]. split; [exact G|]. exact M.
Qed.
