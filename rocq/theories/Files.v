(** * Files: a recorded realization, replayed from its file, gives the recorded
    values (C65). *)
From Coq Require Import ZArith List Bool Lia Permutation Reals.
From Verif Require Import Py Lattice Cluster Perc Run Spec PyFacts Torus Geometry LatFacts Inv Merge Count Fresh Select State Step History Reach Micro StateProps StateProps2 Comm Seq RunBase RunProps RunProps2 Cand CandRun Cycle Normal Real Entropy Order Exact Replay.
Import ListNotations.
Open Scope Z_scope.

Section Base.
Variables (E1 E2 : env) (L : Z).
Hypothesis HE1 : env_ok E1.
Hypothesis HE2 : env_ok E2.
Variable ex : bool.
Hypothesis Hord : ex = true -> forall l, e_ord E1 l = e_ord E2 l.

Lemma base_step u v : Inv L u -> RunB L u -> Inv L v -> RunB L v -> ids u = ids v -> cur_idx u = cur_idx v -> cur_idx u < zlen (ids u) ->
  PX ex L u v -> PX ex L (advance E1 u) (advance E2 v).
Proof.
  intros Hu Bu Hv Bv Ei Ec Hlt P.
  destruct (runB_place E1 L u HE1 Hu Bu Hlt) as (u1 & Ep & Ef & I1 & B1 & _ & X1 & _).
  destruct (runB_place E2 L v HE2 Hv Bv ltac:(rewrite <- Ei, <- Ec; exact Hlt)) as (v1 & Ep' & Ef' & I1' & B1' & _ & X1' & _).
  rewrite <- Ei, <- Ec in X1'. set (x := at_ 0 (ids u) (cur_idx u)) in *.
  assert (P1 : PX ex L u1 v1).
  { pose proof (place_both_x E1 E2 L HE1 HE2 ex Hord u v x Hu Hv P) as G. rewrite Ep, Ep' in G. now apply G. }
  unfold advance. rewrite Ep, Ep'. cbn [fst]. now apply (detect_both_x ex L u1 v1 x I1 I1' P1 X1 X1').
Qed.
Lemma base_trace n : forall u v, Inv L u -> RunB L u -> Inv L v -> RunB L v -> ids u = ids v -> cur_idx u = cur_idx v ->
  Z.of_nat n <= zlen (ids u) - cur_idx u -> PX ex L u v ->
  forall j, (j <= n)%nat -> Twin L ex (trace E1 j u) (trace E2 j v).
Proof.
  induction n as [|n IH]; intros u v Hu Bu Hv Bv Ei Ec Hn P j Hj; [replace j with 0%nat by lia; cbn; split; auto|].
  destruct j as [|j]; [cbn; split; auto|]. cbn [trace].
  destruct (runB_advance E1 L u HE1 Hu Bu) as (I1 & B1 & C1 & Q1 & _ & _); [lia|].
  destruct (runB_advance E2 L v HE2 Hv Bv) as (I2 & B2 & C2 & Q2 & _ & _); [rewrite <- Ei, <- Ec; lia|].
  destruct (seqv_eqs _ _ Q1) as (_ & J1 & _). destruct (seqv_eqs _ _ Q2) as (_ & J2 & _).
  apply IH; auto; try congruence; try lia; [rewrite J1, C1; lia|]. apply base_step; auto. lia.
Qed.
End Base.

Lemma replay_base_x x E1 E2 k1 k L s b f g s' ixs : env_ok E1 -> env_ok E2 -> (x = true -> forall l, e_ord E1 l = e_ord E2 l) ->
  k1 = KBase \/ k1 = KL0 -> k = KBase \/ k = KL0 ->
  fresh_plain E1 k1 L s -> run_once E1 f s = (s', Ok tt) -> get_index_sequence s' = Ok ixs ->
  fresh_object E2 k L b -> L * L < Z.of_nat g ->
  exists b1 b',
    set_custome_site_index_list E2 (map (fun '(r, c) => [r; c]) ixs) false b = (b1, Ok tt) /\
    run_once E2 g b1 = (b', Ok tt) /\
    Inv L s' /\ Inv L b' /\ PX x L s' b' /\
    pw_arr s' = pw_arr b' /\ pl_arr s' = pl_arr b' /\ map feval (h_arr s') = map feval (h_arr b') /\ (x = true -> h_arr s' = h_arr b') /\
    (first_run s = true -> first_run b = true -> p_arr s' = p_arr b').
Proof.
  intros HE1 HE2 Hord Hk1 Hk HF Hr Hix HB Hg.
  assert (Hk1' : is_L12 k1 = false) by (destruct Hk1; subst; reflexivity).
  destruct (fresh_plain_runB E1 k1 L s HE1 Hk1' HF) as (H & B & Hz & Hc).
  destruct (fresh_object_state E1 k1 L s HE1 (fresh_plain_object _ _ _ _ HF)) as (F & Ek & A1 & A2 & A3 & A4).
  destruct (fresh_object_state E2 k L b HE2 HB) as (Fb & Ekb & B1 & B2 & B3 & B4).
  pose proof (fresh_inv _ _ Fb) as Hb. pose proof (LL_pos L (i_pos _ _ H)) as HLL.
  assert (Hns : kind s <> KSP) by (rewrite Ek; destruct Hk1; subst; discriminate).
  destruct (run_once_B E1 L s (Nat.max f (S (Z.to_nat (L * L)))) HE1 H B Hns ltac:(lia)) as (Hr2 & HI & HB' & HC & HQ). cbv zeta in *.
  rewrite Hz, Hc, Z.sub_0_r in *. set (n := Z.to_nat (L * L)) in *.
  assert (Es' : s' = finished E1 s n).
  { pose proof (run_once_mono E1 s s' f (Nat.max f (S n)) ltac:(congruence) Hr ltac:(lia)) as Hr'. rewrite Hr2 in Hr'. now injection Hr' as <-. }
  set (xs := ids s) in *.
  assert (Hsites : Forall (is_site L) xs) by apply (i_ids _ _ H).
  destruct (seqv_eqs _ _ HQ) as (Fk & Fi & _).
  assert (Hseq : get_index_sequence s' = Ok (map (fun i => (i / L, i mod L)) xs)).
  { rewrite Es'. transitivity (get_index_sequence (trace E1 n s)); [reflexivity|]. unfold get_index_sequence. rewrite Fk, Fi, Ek.
    replace (match k1 with KL1 => record (trace E1 n s) | _ => ids s end) with xs by (destruct Hk1; subst; reflexivity).
    apply (mapM_index L); [now apply i_static|exact Hsites]. }
  rewrite Hseq in Hix. injection Hix as <-.
  assert (Hids : map (calculate_id_from_index (lat b)) (map (fun '(r, c) => [r; c]) (map (fun i => (i / L, i mod L)) xs)) = xs).
  { rewrite (map_calc L) by (now apply i_static). rewrite map_map. rewrite <- (map_id xs) at 2. apply map_ext. intros i.
    pose proof (Z.div_mod i L). pose proof (i_pos _ _ H). lia. }
  pose proof (set_indices_ok E2 L (map (fun '(r, c) => [r; c]) (map (fun i => (i / L, i mod L)) xs)) false b (i_static _ _ Hb)) as Eset.
  cbv zeta in Eset. rewrite Hids in Eset.
  assert (Hall : forallb (siteb L) xs = true).
  { apply forallb_forall. intros y Hy. rewrite Forall_forall in Hsites. specialize (Hsites y Hy). unfold is_site in Hsites. unfold siteb. lia. }
  rewrite Hall in Eset.
  assert (Eset' : set_custome_site_index_list E2 (map (fun '(r, c) => [r; c]) (map (fun i => (i / L, i mod L)) xs)) false b =
                  (installed xs (user_list b) false false b, Ok tt)).
  { rewrite Eset. clearbody xs. destruct xs as [|y xs']; [cbn in Hz; lia|]. reflexivity. }
  set (b1 := installed xs (user_list b) false false b) in *. clear Eset.
  assert (Hb1 : Inv L b1).
  { pose proof (exec_inv E2 L b (CSetIndices (map (fun '(r, c) => [r; c]) (map (fun i => (i / L, i mod L)) xs)) false) HE2 I Hb) as Q.
    cbn [exec] in Q. now rewrite Eset' in Q. }
  assert (Nd : NoDup xs) by apply (rb_nd _ _ B).
  assert (Fc : cur_idx b = 0) by apply Fb. assert (Fo : occ_count b = 0) by apply Fb.
  assert (Bb : RunB L b1).
  { constructor.
    - change (is_L12 (kind b) = false). rewrite Ekb. destruct Hk; subst; reflexivity.
    - exact Nd.
    - change (0 <= cur_idx b <= zlen xs). rewrite Fc. pose proof (zlen_nonneg xs). lia.
    - change (occ_count b = cur_idx b). congruence.
    - intros i Hi. change (occ (lat b) i <-> In i (firstn (Z.to_nat (cur_idx b)) xs)). rewrite Fc. cbn.
      destruct (fr_site _ _ (fs_lat _ _ Fb) i Hi) as (Q & _). unfold occ. lia. }
  assert (P0 : PX x L s b1) by (eapply PX_frame; [exact (PX_fresh x L s b F Fb)|reflexivity|reflexivity]).
  pose proof (base_trace E1 E2 L HE1 HE2 x Hord n s b1 H B Hb1 Bb eq_refl ltac:(change (cur_idx s = cur_idx b); congruence)
    ltac:(fold xs; rewrite Hz, Hc; unfold n; lia) P0) as Tw.
  assert (Hns' : kind b1 <> KSP) by (change (kind b <> KSP); rewrite Ekb; destruct Hk; subst; discriminate).
  destruct (run_once_B E2 L b1 g HE2 Hb1 Bb Hns') as (Hro & _).
  { change (zlen xs - cur_idx b < Z.of_nat g). lia. }
  cbv zeta in Hro. change (zlen (ids b1) - cur_idx b1) with (zlen xs - cur_idx b) in Hro. rewrite Hz, Fc, Z.sub_0_r in Hro. fold n in Hro.
  exists b1, (finished E2 b1 n). split; [exact Eset'|]. split; [exact Hro|]. rewrite Es'.
  destruct (Tw n (le_n n)) as (I1 & I2 & Pf).
  split; [eapply inv_frame; [|exact I1]; reflexivity|]. split; [eapply inv_frame; [|exact I2]; reflexivity|].
  split; [eapply PX_frame; [exact Pf|reflexivity|reflexivity]|].
  unfold finished, filled, column.
  cbn [p_arr h_arr pw_arr pl_arr set_first_run set_sel_flag set_arrs].
  change (h_arr b1) with (h_arr b). change (pw_arr b1) with (pw_arr b). change (pl_arr b1) with (pl_arr b).
  change (p_arr b1) with (p_arr b). change (first_run b1) with (first_run b).
  rewrite A1, A2, A3, B1, B2, B3. cbn [app].
  assert (G : forall X (h : perc -> X), (forall a c, Twin L x a c -> h a = h c) ->
    map (fun j => h (trace E1 j s)) (seq 1 n) = map (fun j => h (trace E2 j b1)) (seq 1 n)).
  { intros X h Hh. apply map_ext_in. intros j Hj. apply in_seq in Hj. apply Hh, Tw. lia. }
  split; [apply (G _ (fun t => val (order_param_wrapping t))); intros a c (Q1 & Q2 & Q3); f_equal; now apply (psim_opw L _ _ Q1 Q2 (proj1 Q3))|].
  split; [apply (G _ (fun t => val (order_param_largest_clstr t))); intros a c (Q1 & Q2 & Q3); f_equal; now apply (psim_opl L _ _ Q1 Q2 (proj1 Q3))|].
  split. { rewrite !map_map. apply (G _ (fun x => feval (entropy_v2 x))). intros a c (Q1 & Q2 & Q3). apply (proj1 Q3). }
  split. { intros Hx. apply (G _ entropy_v2). intros a c (Q1 & Q2 & Q3). apply (proj2 Q3 Hx). }
  intros Fs Fb'. rewrite Fs, Fb', A4, B4 by auto. cbn [app]. apply (G _ (fun t => val (occupation_prob t))). intros a c (Q1 & Q2 & Q3). f_equal. now apply (psim_prob L _ _ Q1 Q2 (proj1 Q3)).
Qed.

Lemma realization_fresh E k L t0 s0 s1 r : env_ok E -> new_perc E k L t0 = Ok s0 -> reset E s0 = (s1, r) -> fresh_plain E k L s1 /\ r = Ok tt.
Proof.
  intros HE E0 Er. pose proof (fresh_inv _ _ (new_perc_fresh _ _ _ _ _ E0)) as H.
  destruct (reset_inv E L s0 H) as (s1' & Er' & _). rewrite Er' in Er. injection Er as <- <-. split; [|reflexivity].
  right. exists s0. split; [|now rewrite Er']. exists t0, s0, []. auto.
Qed.

Lemma p_C65 E1 E2 k L f g t1 t2 x : env_ok E1 -> env_ok E2 -> k = KBase \/ k = KL0 \/ k = KL1 ->
  single_realization E1 f t1 k L = Ok x -> L * L < Z.of_nat g ->
  exists h, replay_file E2 g t2 x = Ok (x_pc x, x_sites x, x_bonds x, h, x_largest x, x_wrapping x) /\
    map feval h = map feval (x_entropy x) /\
    ((forall l, e_ord E1 l = e_ord E2 l) -> h = x_entropy x).
Proof.
  intros HE1 HE2 Hk Hx Hg. unfold single_realization in Hx.
  destruct (new_perc E1 k L t1) as [s0|] eqn:E0; [|discriminate]. cbn [rbind] in Hx.
  destruct (reset E1 s0) as [s1 r1] eqn:Er. destruct (realization_fresh E1 k L t1 s0 s1 r1 HE1 E0 Er) as (HF & ->). cbn [rbind] in Hx.
  destruct (run_once E1 f s1) as [s [[]|e]] eqn:Eo; [|discriminate]. cbn [rbind] in Hx.
  destruct (get_index_sequence s) as [ixs|] eqn:Ei; [|discriminate]. cbn [rbind] in Hx.
  destruct (get_pc s) as [pc|] eqn:Ep; [|discriminate]. cbn [rbind] in Hx. injection Hx as <-.
  cbn [x_length x_ids x_indices x_pc x_sites x_bonds x_entropy x_largest x_wrapping].
  assert (HL : 0 < L) by (apply (new_perc_pos _ _ _ _ _ E0)).
  assert (Hb0 : exists b, new_perc E2 KL0 L t2 = Ok b) by (destruct (new_perc_ok E2 KL0 L t2 HL) as (? & ? & ? & ? & Q & _); eauto).
  destruct Hb0 as (b & Eb).
  assert (HB : fresh_object E2 KL0 L b) by (left; now exists t2).
  assert (R : forall y, (y = true -> forall l, e_ord E1 l = e_ord E2 l) -> exists b1 b',
    set_custome_site_index_list E2 (map (fun '(r, c) => [r; c]) ixs) false b = (b1, Ok tt) /\
    run_once E2 g b1 = (b', Ok tt) /\ Inv L s /\ Inv L b' /\ PX y L s b' /\
    pw_arr s = pw_arr b' /\ pl_arr s = pl_arr b' /\ map feval (h_arr s) = map feval (h_arr b') /\ (y = true -> h_arr s = h_arr b')).
  { intros y Hy. destruct Hk as [Hk|[Hk|Hk]].
    - destruct (replay_base_x y E1 E2 k KL0 L s1 b f g s ixs HE1 HE2 Hy (or_introl Hk) (or_intror eq_refl) HF Eo Ei HB Hg)
        as (b1 & b' & A1 & A2 & A3 & A4 & A5 & A6 & A7 & A8 & A9 & _). exists b1, b'. auto 12.
    - destruct (replay_base_x y E1 E2 k KL0 L s1 b f g s ixs HE1 HE2 Hy (or_intror Hk) (or_intror eq_refl) HF Eo Ei HB Hg)
        as (b1 & b' & A1 & A2 & A3 & A4 & A5 & A6 & A7 & A8 & A9 & _). exists b1, b'. auto 12.
    - subst k. destruct (replay_x y E1 E2 KL0 L s1 b f g s ixs HE1 HE2 Hy (or_intror eq_refl) (fresh_plain_object _ _ _ _ HF) Eo Ei HB Hg)
        as (b1 & b' & A1 & A2 & A3 & A4 & A5 & A6 & A7 & A8 & A9 & _). exists b1, b'. auto 12. }
  destruct (R false ltac:(discriminate)) as (b1 & b' & A1 & A2 & A3 & A4 & A5 & A6 & A7 & A8 & _).
  pose proof (psim_same L s b' A3 A4 (proj1 A5)) as SP.
  exists (h_arr b'). split.
  - unfold replay_file. cbn [x_length x_indices]. rewrite Eb. cbn [rbind]. rewrite A1. cbn [rbind]. rewrite A2. cbn [rbind].
    rewrite <- (ph_pc _ _ _ SP), Ep. cbn [rbind]. rewrite <- (ph_pc_sites _ _ _ SP), <- (ph_pc_bonds _ _ _ SP), A6, A7. reflexivity.
  - split; [now symmetry|]. intros Hord. destruct (R true (fun _ => Hord)) as (b2 & b'' & A1' & A2' & _ & _ & _ & _ & _ & _ & Eh).
    rewrite A1 in A1'. injection A1' as <-. rewrite A2 in A2'. injection A2' as <-. symmetry. auto.
Qed.
Lemma p_C65_total E k L f t0 : env_ok E -> k <> KSP -> 0 < L -> 5 * (L * L) < Z.of_nat f ->
  exists x, single_realization E f t0 k L = Ok x /\ x_length x = L /\
    length (x_largest x) = Z.to_nat (L * L) /\ length (x_wrapping x) = Z.to_nat (L * L) /\ length (x_entropy x) = Z.to_nat (L * L).
Proof.
  intros HE Hk HL Hf. destruct (new_perc_ok E k L t0 HL) as (l1 & l2 & l3 & l4 & E0 & _). revert E0. generalize (set_rev l4 (set_tick l3 (mutate_ids l2 (base_state k L l1 t0)))).
  intros s0 E0. destruct (reset E s0) as [s1 r1] eqn:Er. destruct (realization_fresh E k L t0 s0 s1 r1 HE E0 Er) as (HF & ->).
  destruct (p_C47 E k L t0 s0 [CReset] HE E0 ltac:(repeat constructor)) as (_ & _ & R & _). cbv zeta in R. cbn [after fold_left exec] in R. rewrite Er in R. cbn [fst] in R.
  specialize (R f Hf). destruct (run_once E f s1) as [s r] eqn:Eo. cbn [snd] in R. subst r.
  destruct (p_C47 E k L t0 s0 [CReset; CRun f] HE E0 ltac:(repeat constructor)) as (_ & _ & _ & _ & _ & _ & _ & (pc & Ep) & (ixs & Ei) & _).
  cbv zeta in *. cbn [after fold_left exec] in Ep, Ei. rewrite Er in Ep, Ei. cbn [fst] in Ep, Ei. rewrite Eo in Ep, Ei. cbn [fst] in Ep, Ei.
  destruct (complete_all E k L HE Hk s1 f s HF Eo) as (Q1 & Q2 & Q3 & _).
  eexists. unfold single_realization. rewrite E0. cbn [rbind]. rewrite Er. cbn [rbind]. rewrite Eo. cbn [rbind]. rewrite Ei. cbn [rbind]. rewrite Ep. cbn [rbind].
  split; [reflexivity|]. cbn. auto.
Qed.
