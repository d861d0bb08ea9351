(** * CandRun: complete runs under the L1 and L2 rules (C33, C34). *)
From Coq Require Import ZArith List Bool Lia Permutation.
From Verif Require Import Py Lattice Cluster Perc Spec PyFacts Torus Geometry LatFacts Inv Merge Count Fresh Select State Step History Reach
  Micro StateProps Comm Seq RunBase RunProps RunProps2 Cand Cycle.
Import ListNotations.
Open Scope Z_scope.

Lemma fresh_object_cand E k L s : env_ok E -> is_L12 k = true -> fresh_object E k L s ->
  FreshState L s /\ Inv L s /\ kind s = k /\ Cand L s /\ weight L s = 5 * (L * L).
Proof.
  intros HE Hk HF. destruct (fresh_object_state E k L s HE HF) as (F & Ek & _).
  split; auto. split; [now apply fresh_inv|]. split; auto. apply fresh_cand; auto; [now rewrite Ek|].
  destruct HF as [(t0 & E0)|(s0 & HR & ->)].
  - destruct (new_perc_ok E k L t0 (new_perc_pos _ _ _ _ _ E0)) as (lat1 & l & t & rv & E1 & _ & P & _).
    rewrite E0 in E1. injection E1 as ->. exact P.
  - destruct (reachable_k_kind E k L s0 HE HR) as (H0 & Ek0). destruct (reset_inv E L s0 H0) as (s' & -> & R). cbn [fst].
    pose proof (rt_ids _ _ _ R) as Q. rewrite Ek0, Hk in Q. destruct Q as (-> & _). apply Permutation_refl.
Qed.

(** The recording fields are untouched by placement and detection. *)
Definition recs (s : perc) := (p_arr s, h_arr s, pw_arr s, pl_arr s, first_run s).
Lemma place_recs E L s : env_ok E -> Inv L s -> recs (fst (place_one_site E s)) = recs s.
Proof.
  intros HE H. destruct (place_spec E L s HE H) as (Sd & P). destruct (sel E L s) as [s1 r]. cbn [fst snd] in *.
  assert (Q : recs s1 = recs s) by exact (f_equal recs (sd_core _ _ _ _ Sd)).
  destruct r as [[]|e]; [|rewrite P; exact Q..].
  destruct P as (x & s' & root & _ & _ & -> & Pd). cbn [fst].
  assert (Q' : recs s' = recs s1) by exact (f_equal recs (pd_core _ _ _ _ _ _ Pd)). congruence.
Qed.
Lemma detect_recs L s : Inv L s -> recs (fst (detect_wrapping s)) = recs s /\ sel_flag (fst (detect_wrapping s)) = sel_flag s /\
  occ_count (fst (detect_wrapping s)) = occ_count s.
Proof.
  intros H. rewrite (detect_ok L) by apply H. unfold detect_res. destruct (after_wrap s); auto. destruct (sel_id s); auto.
  destruct (hitb L (lat s) z); auto.
Qed.

(** One iteration of the loop. *)
Lemma run_step_cand E L s : env_ok E -> Inv L s -> Cand L s -> weight L s <> 0 ->
  let t := run_step E s in
  Inv L t /\ Cand L t /\ kind t = kind s /\ recs t = recs s /\ weight L t = weight L s - 1 /\
  flag_is_success t = flag_is_success (fst (place_one_site E s)) /\
  occ_count t = occ_count s + (if flag_is_success t then 1 else 0).
Proof.
  intros HE H C Hw. destruct (place_cand E L s HE H C) as (H1 & C1 & K1 & P).
  destruct (Z.eqb_spec (weight L s) 0); [contradiction|]. destruct P as (_ & Pw & Pf).
  pose proof (place_recs E L s HE H) as R1. unfold run_step. set (s1 := fst (place_one_site E s)) in *. cbv zeta.
  destruct (flag_is_success s1) eqn:Ef.
  - destruct (detect_cand L s1 H1 C1) as (C2 & W2 & K2). destruct (detect_recs L s1 H1) as (R2 & F2 & O2).
    assert (Ef' : flag_is_success (fst (detect_wrapping s1)) = true) by (unfold flag_is_success in *; now rewrite F2).
    split; [now apply detect_inv|]. split; auto. split; [congruence|]. split; [congruence|]. split; [lia|]. split; auto.
    rewrite Ef', O2. apply Pf.
  - destruct Pf as (_ & Po). split; auto. split; auto. split; auto. split; auto. split; auto. split; auto. rewrite Ef. lia.
Qed.
Lemma run_state_cand E L n : env_ok E -> forall s, Inv L s -> Cand L s -> Z.of_nat n <= weight L s ->
  let t := run_state E n s in
  Inv L t /\ Cand L t /\ kind t = kind s /\ recs t = recs s /\ weight L t = weight L s - Z.of_nat n /\
  occ_count t = occ_count s + Z.of_nat (length (run_log E n s)) /\
  Forall (Inv L) (run_log E n s) /\
  map occ_count (run_log E n s) = map (fun j => occ_count s + Z.of_nat j) (seq 1 (length (run_log E n s))).
Proof.
  intros HE. induction n as [|n IH]; intros s H C Hn.
  { cbn. split; auto. split; auto. split; auto. split; auto. split; [lia|]. split; [lia|]. split; [constructor|reflexivity]. }
  destruct (run_step_cand E L s HE H C) as (H1 & C1 & K1 & R1 & W1 & F1 & O1); [lia|].
  destruct (IH (run_step E s) H1 C1) as (H2 & C2 & K2 & R2 & W2 & O2 & A2 & M2); [lia|].
  cbn [run_state run_log]. cbv zeta in *. split; auto. split; auto. split; [congruence|]. split; [congruence|]. split; [lia|].
  destruct (flag_is_success (run_step E s)); cbn [app length map].
  - split; [lia|]. split; [now constructor|]. cbn [seq map]. rewrite O1. f_equal. rewrite M2, O1, <- (seq_shift _ 1), map_map.
    apply map_ext. intros j. lia.
  - split; [lia|]. split; auto. rewrite M2, O1. apply map_ext. intros j. lia.
Qed.

Lemma run_step_put E p h pw pl b s : run_step E (put_arrs p h pw pl b s) = put_arrs p h pw pl b (run_step E s).
Proof.
  assert (Q : fst (place_one_site E (put_arrs p h pw pl b s)) = put_arrs p h pw pl b (fst (place_one_site E s))) by (rewrite cm_place; reflexivity).
  unfold run_step. rewrite Q. set (s1 := fst (place_one_site E s)).
  change (flag_is_success (put_arrs p h pw pl b s1)) with (flag_is_success s1).
  destruct (flag_is_success s1); [|reflexivity]. rewrite cm_detect. reflexivity.
Qed.
Lemma run_state_put E p h pw pl b n : forall s, run_state E n (put_arrs p h pw pl b s) = put_arrs p h pw pl b (run_state E n s).
Proof. induction n as [|n IH]; intros s; [reflexivity|]. cbn [run_state]. now rewrite run_step_put, IH. Qed.
Lemma run_log_put E p h pw pl b n : forall s, run_log E n (put_arrs p h pw pl b s) = map (put_arrs p h pw pl b) (run_log E n s).
Proof.
  induction n as [|n IH]; intros s; [reflexivity|]. cbn [run_log]. rewrite run_step_put, IH.
  change (flag_is_success (put_arrs p h pw pl b (run_step E s))) with (flag_is_success (run_step E s)).
  destruct (flag_is_success _); reflexivity.
Qed.

Definition filledC (E : env) (s : perc) (n : nat) : perc :=
  let lg := run_log E n s in
  set_arrs (if first_run s then p_arr s ++ map (fun t => val (occupation_prob t)) lg else p_arr s)
    (h_arr s ++ map entropy_v2 lg) (pw_arr s ++ map (fun t => val (order_param_wrapping t)) lg)
    (pl_arr s ++ map (fun t => val (order_param_largest_clstr t)) lg) (run_state E n s).

Lemma run_loop_C E L : env_ok E -> forall n s f, Inv L s -> Cand L s -> weight L s = Z.of_nat n -> (n < f)%nat ->
  run_loop E f s = (set_sel_flag (Some EMPTY_SITE_LIST) (filledC E s n), Ok tt).
Proof.
  intros HE. induction n as [|n IH]; intros s f H C Hn Hf; (destruct f as [|f]; [lia|]); cbn [run_loop]; unfold mbind at 1;
    destruct (place_cand E L s HE H C) as (H1 & C1 & K1 & P).
  - rewrite Hn in P. cbn in P. destruct P as (P1 & P2). destruct (place_one_site E s) as [s1 r]. cbn [fst snd] in *. subst r s1.
    unfold ret, filledC. cbn [run_log run_state map]. rewrite !app_nil_r. destruct (first_run s); rewrite set_arrs_same; reflexivity.
  - destruct (Z.eqb_spec (weight L s) 0); [lia|]. destruct P as (P1 & Pw & Pf).
    destruct (run_step_cand E L s HE H C) as (H2 & C2 & K2 & R2 & W2 & F2 & O2); [lia|].
    unfold filledC. cbn [run_log run_state].
    pose proof (place_recs E L s HE H) as R1.
    assert (Et : run_step E s = if flag_is_success (fst (place_one_site E s)) then fst (detect_wrapping (fst (place_one_site E s))) else fst (place_one_site E s)) by reflexivity.
    set (t := run_step E s) in *. cbv zeta. destruct (place_one_site E s) as [s1 r]. cbn [fst snd] in *. subst r.
    unfold mbind at 1, get. unfold mbind at 1. rewrite F2.
    destruct (flag_is_success s1) eqn:Ef.
    + unfold mbind at 1. destruct Pf as (_ & _ & x & _ & Ex). destruct (detect_bool L s1 x H1 Ex) as (b & ->). rewrite <- Et.
      rewrite (record_ok L) by auto. unfold recs in R2. injection R2 as A1 A2 A3 A4 Ff.
      unfold recorded. rewrite A1, A2, A3, A4, Ff.
      set (P := if first_run s then _ else _). set (Hh := h_arr s ++ _). set (W := pw_arr s ++ _). set (G := pl_arr s ++ _).
      rewrite put_eq. unfold put. rewrite Ff.
      rewrite (IH (put_arrs P Hh W G (first_run s) t)).
      * f_equal. f_equal. unfold filledC. cbn [first_run p_arr h_arr pw_arr pl_arr put_arrs set_first_run set_arrs]. cbv zeta.
        rewrite run_log_put, !map_map, run_state_put. cbn [app map].
        destruct (run_state_cand E L n HE t H2 C2) as (_ & _ & _ & T & _); [lia|]. unfold recs in T. injection T as _ _ _ _ Tf.
        assert (Ff' : first_run (run_state E n t) = first_run s) by congruence.
        unfold Hh, W, G, P. rewrite <- !app_assoc. cbn [app].
        unfold put_arrs. destruct (first_run s) eqn:Efr; rewrite <- ?app_assoc; cbn [app];
          destruct (run_state E n t); cbn in Ff' |- *; subst; reflexivity.
      * eapply inv_frame; [|exact H2]; reflexivity.
      * eapply (cand_frame L t); [..|exact C2]; auto.
      * change (weight L t = Z.of_nat n). lia.
      * lia.
    + change (ret tt s1) with (s1, @Ok unit tt). cbv iota beta. rewrite <- Et.
      rewrite (IH t) by (auto; lia). unfold recs in R2. injection R2 as A1 A2 A3 A4 Ff. unfold filledC. cbv zeta.
      now rewrite A1, A2, A3, A4, Ff.
Qed.

Definition finishedC (E : env) (s : perc) (n : nat) : perc :=
  set_first_run false (set_sel_flag (Some EMPTY_SITE_LIST) (filledC E s n)).
Lemma run_once_C E L s f : env_ok E -> Inv L s -> Cand L s -> weight L s < Z.of_nat f ->
  run_once E f s = (finishedC E s (Z.to_nat (weight L s)), Ok tt).
Proof.
  intros HE H C Hf. pose proof (weight_nonneg L s H C). unfold run_once. unfold mbind at 1, get.
  assert (G : run_once_base E f s = (finishedC E s (Z.to_nat (weight L s)), Ok tt)).
  { unfold run_once_base. rewrite (mbind_ok _ _ _ _ _ (run_loop_C E L HE (Z.to_nat (weight L s)) s f H C ltac:(lia) ltac:(lia))). reflexivity. }
  pose proof (cd_kind _ _ C). destruct (kind s); auto. discriminate.
Qed.

Lemma map_ok_log (f : perc -> res fexpr) L lg : Forall (Inv L) lg -> (forall t, Inv L t -> f t = Ok (val (f t))) ->
  map Ok (map (fun t => val (f t)) lg) = map f lg.
Proof. intros Hl Hf. rewrite map_map. apply map_ext_in. intros t Ht. symmetry. apply Hf. eapply Forall_forall; eauto. Qed.

(** ** C33, C34 *)
Lemma p_C33 E k L s : env_ok E -> k = KL1 \/ k = KL2 -> fresh_object E k L s ->
  forall cs, Forall (fun c => c = CPlace \/ c = CDetect) cs ->
    let t := after E s cs in
    occ_count t = Z.of_nat (successes E s cs) /\
    (Z.of_nat (placements cs) < 5 * (L * L) -> snd (place_one_site E t) = Ok true) /\
    (5 * (L * L) <= Z.of_nat (placements cs) ->
       snd (place_one_site E t) = Ok false /\ Z.of_nat (successes E s cs) = L * L /\ forall i, is_site L i -> occupied t i).
Proof.
  intros HE Hk HF cs Hcs. destruct (fresh_object_cand E k L s HE ltac:(destruct Hk; subst; reflexivity) HF) as (F & H & Ek & C & W).
  pose proof (LL_pos L (i_pos _ _ H)) as HLL.
  assert (G : forall s, Inv L s -> Cand L s -> let t := after E s cs in Inv L t /\ Cand L t /\
     weight L t = Z.max 0 (weight L s - Z.of_nat (placements cs)) /\ occ_count t = occ_count s + Z.of_nat (successes E s cs)).
  { clear - HE Hcs. induction Hcs as [|c cs Hc Hcs IH]; intros s H C.
    - cbn. pose proof (weight_nonneg L s H C). split; auto. split; auto. split; lia.
    - cbn [after fold_left placements successes]. fold (after E (exec E s c) cs).
      destruct Hc as [-> | ->]; cbn [exec].
      + destruct (place_cand E L s HE H C) as (H1 & C1 & K1 & P). destruct (IH _ H1 C1) as (I1 & I2 & I3 & I4).
        cbv zeta. split; auto. split; auto. set (s1 := fst (place_one_site E s)) in *.
        pose proof (weight_nonneg L s H C). destruct (Z.eqb_spec (weight L s) 0) as [Hw|Hw].
        * destruct P as (_ & P). assert (Q1 : weight L s1 = weight L s) by (rewrite P; reflexivity).
          assert (Q2 : occ_count s1 = occ_count s) by (rewrite P; reflexivity).
          assert (Q3 : flag_is_success s1 = false) by (rewrite P; reflexivity). rewrite Q3, I3, I4. split; lia.
        * destruct P as (_ & P1 & P2). rewrite I3, I4. destruct (flag_is_success s1); [destruct P2 as (_ & P2 & _)|destruct P2 as (_ & P2)]; split; lia.
      + destruct (detect_cand L s H C) as (C1 & W1 & K1). destruct (detect_recs L s H) as (_ & _ & O1).
        destruct (IH _ (detect_inv L s H) C1) as (I1 & I2 & I3 & I4). cbv zeta. split; auto. split; auto. rewrite I3, I4. split; lia. }
  destruct (G s H C) as (Ht & Ct & Wt & Ot). rewrite (fs_occ _ _ F) in Ot. cbv zeta. set (t := after E s cs) in *.
  split; [lia|]. destruct (place_cand E L t HE Ht Ct) as (_ & _ & _ & P). split; intros Hn.
  - destruct (Z.eqb_spec (weight L t) 0); [lia|]. apply P.
  - destruct (Z.eqb_spec (weight L t) 0) as [W0|]; [|lia]. split; [apply P|].
    pose proof (cand_full L t Ht Ct W0) as Hfull. split.
    + assert (occ_count t = L * L); [|lia]. rewrite (i_occ _ _ Ht). unfold nocc. rewrite count_all, zlen_zrange; try lia.
      intros x Hx. apply occb_true, Hfull. now apply In_zrange.
    + intros i Hi. apply (occupied_occ L); auto. now apply i_static.
Qed.

Lemma p_C33r E k L s f : env_ok E -> k = KL1 \/ k = KL2 -> fresh_object E k L s -> 5 * (L * L) < Z.of_nat f ->
  let n := Z.to_nat (L * L) in
  let lg := run_log E (Z.to_nat (5 * (L * L))) s in
  length lg = n /\
  exists s', run_once E f s = (s', Ok tt) /\
    snd (place_one_site E s') = Ok false /\ occ_count s' = L * L /\ (forall i, is_site L i -> occupied s' i) /\
    (first_run s = true -> p_arr s' = map (fun j => FDiv (FZ (Z.of_nat j)) (FZ (L * L))) (seq 1 n)) /\
    (first_run s = false -> p_arr s' = p_arr s) /\
    h_arr s' = map entropy_v2 lg /\
    map Ok (pw_arr s') = map order_param_wrapping lg /\ map Ok (pl_arr s') = map order_param_largest_clstr lg.
Proof.
  intros HE Hk HF Hf n lg. destruct (fresh_object_cand E k L s HE ltac:(destruct Hk; subst; reflexivity) HF) as (F & H & Ek & C & W).
  destruct (fresh_object_state E k L s HE HF) as (_ & _ & A1 & A2 & A3 & A4).
  pose proof (LL_pos L (i_pos _ _ H)) as HLL.
  destruct (run_state_cand E L (Z.to_nat (5 * (L * L))) HE s H C ltac:(lia)) as (T1 & T2 & T3 & T4 & T5 & T6 & T7 & T8).
  fold lg in T6, T7, T8. set (t := run_state E _ s) in *. cbv zeta in *.
  assert (Hw : weight L t = 0) by lia. pose proof (cand_full L t T1 T2 Hw) as Hfull.
  assert (Ho : occ_count t = L * L).
  { rewrite (i_occ _ _ T1). unfold nocc. rewrite count_all, zlen_zrange; try lia. intros x Hx. apply occb_true, Hfull. now apply In_zrange. }
  assert (Hl : length lg = n) by (rewrite (fs_occ _ _ F) in T6; unfold n; lia).
  split; auto. pose proof (run_once_C E L s f HE H C ltac:(lia)) as Er. rewrite W in Er. exists (finishedC E s (Z.to_nat (5 * (L * L)))). split; auto.
  assert (If : Inv L (finishedC E s (Z.to_nat (5 * (L * L))))) by (eapply inv_frame; [|exact T1]; reflexivity).
  assert (Cf : Cand L (finishedC E s (Z.to_nat (5 * (L * L))))) by (eapply (cand_frame L t); [..|exact T2]; auto).
  split. { destruct (place_cand E L _ HE If Cf) as (_ & _ & _ & P). change (weight L (finishedC E s (Z.to_nat (5 * (L * L))))) with (weight L t) in P.
    rewrite Hw in P. apply P. }
  split; auto.
  split. { intros i Hi. apply (occupied_occ L); [now apply i_static|auto|]. now apply Hfull. }
  unfold finishedC, filledC. cbv zeta. cbn [p_arr h_arr pw_arr pl_arr set_first_run set_sel_flag set_arrs]. fold lg.
  rewrite A1, A2, A3. cbn [app].
  split. { intros Hfr. rewrite Hfr, A4 by auto. cbn [app]. rewrite <- Hl.
    assert (Q : map (fun t => val (occupation_prob t)) lg = map (fun c => FDiv (FZ c) (FZ (L * L))) (map occ_count lg)).
    { rewrite map_map. apply map_ext_in. intros u Hu. apply val_ok. apply occ_prob_count. eapply Forall_forall; eauto. }
    rewrite Q, T8, map_map, (fs_occ _ _ F). apply map_ext. intros j. reflexivity. }
  split; [now intros ->|]. split; [reflexivity|].
  split; apply (map_ok_log _ L); auto; intros u Hu; apply (obs_ok L u Hu).
Qed.

(** ** Complete runs of all four plain rules (for C49) *)
Lemma fresh_plain_fresh E k L s : fresh_plain E k L s -> fresh_object E k L s.
Proof. exact (fresh_plain_object E k L s). Qed.
Lemma complete_L12 E k L : env_ok E -> k = KL1 \/ k = KL2 -> complete_run E k L.
Proof.
  intros HE Hk s f s' HF Hr n. pose proof (fresh_plain_object E k L s HF) as HO.
  assert (Ek : kind s <> KSP).
  { destruct (fresh_object_state E k L s HE HO) as (_ & -> & _). destruct Hk; congruence. }
  set (G := Nat.max f (S (Z.to_nat (5 * (L * L))))).
  pose proof (run_once_mono E s s' f G Ek Hr ltac:(unfold G; lia)) as Hr'.
  destruct (p_C33r E k L s G HE Hk HO ltac:(unfold G; lia)) as (Hlen & s2 & E2 & _ & _ & _ & P1 & P2 & Q1 & Q2 & Q3).
  rewrite Hr' in E2. injection E2 as <-. fold n in P1, Hlen.
  split; [now rewrite Q1, map_length|].
  split; [now rewrite <- (map_length Ok), Q3, map_length|].
  split; [now rewrite <- (map_length Ok), Q2, map_length|].
  split; [|destruct (first_run s); auto].
  unfold run_once, mbind, get in Hr.
  assert (G' : run_once_base E f s = (s', Ok tt)) by (destruct (kind s); auto; congruence).
  unfold run_once_base, mbind in G'. destruct (run_loop E f s) as [s1 [[]|e]]; [|discriminate]. injection G' as <-. reflexivity.
Qed.
Lemma complete_all E k L : env_ok E -> k <> KSP -> complete_run E k L.
Proof.
  intros HE Hk. destruct k; try congruence; [apply complete_base|apply complete_base|apply complete_L12|apply complete_L12]; auto.
Qed.
Lemma p_C49a E k L s : env_ok E -> k <> KSP -> cycled E k L s ->
  exists rows, get_data_array s = Ok rows /\ length rows = Z.to_nat (L * L) /\
    forall j, (j < Z.to_nat (L * L))%nat -> exists h pl pw,
      nth_error rows j = Some [FDiv (FZ (Z.of_nat (S j))) (FZ (L * L)); h; pl; pw] /\
      nth_error (h_arr s) j = Some h /\ nth_error (pl_arr s) j = Some pl /\ nth_error (pw_arr s) j = Some pw.
Proof. intros HE Hk. apply p_C49; auto. now apply complete_all. Qed.
