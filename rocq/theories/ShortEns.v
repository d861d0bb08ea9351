(** * ShortEns: the shortest-path ensembles (C83). *)
From Coq Require Import String ZArith List Bool Lia Permutation.
From Verif Require Import Py Lattice Cluster Perc Run Script Spec PyFacts Torus Geometry LatFacts Inv Merge Count Fresh Select State Step History Reach
  Micro StateProps StateProps2 Comm Seq Wrap RunBase RunProps RunProps2 Cand Cycle CandRun Lines Normal Stop Critical Drive EnsSpec Ens.
Import ListNotations.
Open Scope Z_scope.

Lemma sp_values E L s f : env_ok E -> fresh_plain E KSP L s -> 5 * (L * L) < Z.of_nat f ->
  exists s', run_once E f s = (s', Ok tt) /\
    (3 <= L -> exists m q, get_pc s' = Ok (FDiv (FZ m) (FZ (L * L))) /\ sp_p s' = FDiv (FZ q) (FZ (L * L)) /\
       L <= m <= q /\ q <= L * L /\ m <= L * L - L + 1 /\ occ_count s' = q /\ on_full_line L s') /\
    (L <= 2 -> get_pc s' = Ok (FZ 0) /\ sp_p s' = FZ 0).
Proof.
  intros HE HF Hf. pose proof (fresh_plain_object _ _ _ _ HF) as HO.
  destruct (fresh_plain_Plain E KSP L s HE HF) as (P & Ek & F & Hr). pose proof (fresh_tr L s F) as T.
  pose proof (LL_pos L (i_pos _ _ (proj1 P))) as HLL. cbn [is_L12] in Hr.
  destruct (p_C50 E L s f HE HF ltac:(lia)) as (s' & Er & A & B). exists s'. split; auto.
  assert (HR : reachable E L s').
  { destruct HO as [(t0 & E0)|(s0 & (t0 & z & cs & A1 & A2 & ->) & ->)]; exists KSP, t0.
    - exists s, [CRun f]. split; auto. split; [repeat constructor|]. unfold after. cbn [fold_left exec]. now rewrite Er.
    - exists z, (cs ++ [CReset; CRun f]). split; auto. split; [apply Forall_app; split; auto; repeat constructor|].
      unfold after in *. rewrite fold_left_app. cbn [fold_left exec]. now rewrite Er. }
  pose proof (reachable_inv _ _ _ HE HR) as I'. split.
  - intros H3. destruct (A H3) as (n & Hn & Ep & Eo & _ & _ & Fl & _). pose proof Fl as (Hw & _).
    destruct (p_C27 E L s' HE HR) as (_ & C). destruct (C Hw) as (m & Em & Hm & Hm' & _).
    exists m, (Z.of_nat n). split; auto. split; auto. split; [lia|]. split; [lia|]. split; [|auto].
    pose proof (run_once_pcv E KSP L s f HE HF Hf) as V. rewrite Er in V. cbn [fst] in V.
    destruct (drive_stop E L HE f s P T (proj1 (fs_wrap _ _ F)) ltac:(lia)) as (j & t & Et & _ & _ & Tt & _). rewrite Et in V. cbn [fst] in V.
    injection V as V1 V2. destruct (proj2 Tt H3) as (_ & G). destruct (G ltac:(congruence)) as (x & prev & C1 & C2 & C3 & C4 & _).
    assert (Q : pc_occ s' = m).
    { unfold get_pc in Em. rewrite Hw, (st_sc _ _ (i_static _ _ I')), int_div_ok in Em by lia. now injection Em. }
    inversion C1; subst. assert (zlen prev <= L * L - L).
    { apply no_wrap_size; auto; [lia|]. intros i Hi. apply C3. now right. }
    unfold zlen in *. cbn [length] in *. lia.
  - intros H2. split; [|apply (B H2)]. apply (p_C25 E L s' HE HR H2).
Qed.

Definition short_row (E : env) (f : nat) (s0 : perc) (e : nat) : list fexpr :=
  [val (get_pc (realization E f s0 e)); sp_p (realization E f s0 e)].
Lemma get_pc_ok L s : Inv L s -> get_pc s = Ok (val (get_pc s)).
Proof.
  intros H. pose proof (LL_pos L (i_pos _ _ H)). unfold get_pc. destruct (after_wrap s); [|reflexivity].
  rewrite (st_sc _ _ (i_static _ _ H)), int_div_ok by lia. reflexivity.
Qed.
Lemma shortest_loop_ok E k L t0 s0 f : env_ok E -> new_perc E k L t0 = Ok s0 -> 5 * (L * L) < Z.of_nat f ->
  forall n e crit, shortest_loop E f n crit (realization E f s0 e) =
    (realization E f s0 (e + n), Ok (crit ++ map (short_row E f s0) (seq (S e) n))).
Proof.
  intros HE H0 Hf. induction n as [|n IH]; intros e crit.
  - cbn [shortest_loop seq map]. rewrite app_nil_r, Nat.add_0_r. reflexivity.
  - cbn [shortest_loop]. rewrite (mbind_ok _ _ _ _ _ (re_reset E k L t0 s0 f HE H0 e)).
    rewrite (mbind_ok _ _ _ _ _ (re_run E k L t0 s0 f HE H0 Hf e)). unfold mbind at 1, get. unfold mbind at 1, lift.
    destruct (re_inv E k L t0 s0 f HE H0 (S e)) as (I' & _). rewrite (get_pc_ok L) by auto.
    rewrite (IH (S e)), <- app_assoc. replace (S e + n)%nat with (e + S n)%nat by lia. reflexivity.
Qed.

Lemma p_C83 E L t0 s0 f n i time : env_ok E -> new_perc E KSP L t0 = Ok s0 -> 5 * (L * L) < Z.of_nat f ->
  exists d, ensemble_shortest_path_v2_thread E f t0 time (AClass KSP) L n i None = Ok [d] /\
    o_length d = L /\ o_ensemble d = n /\ o_columns d = ["pc"; "p*"]%string /\ length (o_rows d) = Z.to_nat n /\
    forall e, (1 <= e <= Z.to_nat n)%nat -> let s := realization E f s0 e in
      exists pc, get_pc s = Ok pc /\ nth_error (o_rows d) (e - 1) = Some [pc; sp_p s] /\
        (3 <= L -> exists m q, pc = FDiv (FZ m) (FZ (L * L)) /\ sp_p s = FDiv (FZ q) (FZ (L * L)) /\
           L <= m <= q /\ q <= L * L /\ m <= L * L - L + 1 /\ occ_count s = q /\ on_full_line L s) /\
        (L <= 2 -> pc = FZ 0 /\ sp_p s = FZ 0).
Proof.
  intros HE H0 Hf. unfold ensemble_shortest_path_v2_thread, construct_seeded. cbn [construct]. rewrite H0. cbn [rbind orb].
  pose proof (shortest_loop_ok E KSP L t0 s0 f HE H0 Hf (Z.to_nat n) 0 []) as Q. change (realization E f s0 0) with s0 in Q. rewrite Q. cbn [rbind].
  eexists. split; [reflexivity|]. unfold write_p_p_star. cbn [o_length o_ensemble o_columns o_rows app]. repeat (split; [reflexivity|]).
  split; [now rewrite map_length, seq_length|]. intros e He. destruct e as [|e]; [lia|]. cbv zeta.
  destruct (re_inv E KSP L t0 s0 f HE H0 (S e)) as (I' & _). exists (val (get_pc (realization E f s0 (S e)))). split; [now apply (get_pc_ok L)|].
  split.
  { replace (S e - 1)%nat with e by lia. apply (map_nth_error (short_row E f s0)).
    rewrite (nth_error_nth' _ O) by (rewrite seq_length; lia). now rewrite seq_nth by lia. }
  destruct (sp_values E L _ f HE (re_fresh E KSP L t0 s0 f H0 e) Hf) as (s' & Er & A & B). rewrite (re_run E KSP L t0 s0 f HE H0 Hf e) in Er. injection Er as <-.
  split.
  - intros H3. destruct (A H3) as (m & q & C1 & C2 & C3). exists m, q. rewrite C1. split; [reflexivity|]. split; auto.
  - intros H2. destruct (B H2) as (C1 & C2). rewrite C1. split; auto.
Qed.
Lemma p_C83_pool W f L En th : (forall i, env_ok (m_env (W i))) -> 0 < L -> 5 * (L * L) < Z.of_nat f ->
  (th = 0 -> run_simulation_shortest_path_threads W f L En th = Err ZeroDivisionError) /\
  (th < 0 -> run_simulation_shortest_path_threads W f L En th = Ok []) /\
  (0 < th -> exists results, run_simulation_shortest_path_threads W f L En th = Ok results /\ length results = Z.to_nat th /\
     let each := (En - En mod th) / th in
     forall i, 0 <= i < th -> exists s0 d, new_perc (m_env (W i)) KSP L (m_tick (W i)) = Ok s0 /\
       nth_error results (Z.to_nat i) = Some (Ok [d]) /\ o_length d = L /\ o_ensemble d = each /\ length (o_rows d) = Z.to_nat each /\
       forall e, (1 <= e <= Z.to_nat each)%nat -> let s := realization (m_env (W i)) f s0 e in
         exists pc, get_pc s = Ok pc /\ nth_error (o_rows d) (e - 1) = Some [pc; sp_p s]).
Proof.
  intros HW HL Hf. unfold run_simulation_shortest_path_threads. split; [|split].
  - intros ->. reflexivity.
  - intros Ht. destruct (Z.eqb_spec th 0); [lia|]. unfold zrange. replace (Z.to_nat th) with O by lia. reflexivity.
  - intros Ht. destruct (Z.eqb_spec th 0); [lia|]. cbv zeta.
    assert (Eq : (En - En mod th) / th = En / th).
    { rewrite (Z.div_mod En th) at 1 by lia. replace (th * (En / th) + En mod th - En mod th) with ((En / th) * th) by lia. apply Z.div_mul. lia. }
    rewrite Eq. eexists. split; [reflexivity|]. split; [unfold zrange; rewrite !map_length, seq_length; reflexivity|].
    intros i Hi. destruct (new_perc_ok (m_env (W i)) KSP L (m_tick (W i)) HL) as (? & ? & ? & ? & Q & _).
    assert (Hi' : nth_error (zrange th) (Z.to_nat i) = Some i) by (rewrite zrange_nth by lia; f_equal; lia).
    destruct (p_C83 (m_env (W i)) L (m_tick (W i)) _ f (En / th) i (m_time (W i)) (HW i) Q Hf) as (d & E1 & P1 & P2 & _ & P4 & P5).
    do 2 eexists. split; [exact Q|]. erewrite map_nth_error by exact Hi'. rewrite E1. split; [reflexivity|]. split; auto. split; auto. split; auto.
    intros e He. destruct (P5 e He) as (pc & A1 & A2 & _). exists pc. split; auto.
Qed.
