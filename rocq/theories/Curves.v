(** * Curves: the recorded and the averaged curves (C82). *)
From Coq Require Import ZArith List Bool Lia Permutation Reals Lra.
From Verif Require Import Py Lattice Cluster Perc Run Script Spec PyFacts Torus Geometry LatFacts Inv Merge Count Fresh Select State Step History Reach
  Micro StateProps StateProps2 Comm Seq Wrap RunBase RunProps RunProps2 Cand Cycle CandRun Lines Normal Critical Drive Real Entropy EnsSpec Ens CurveSpec.
Import ListNotations.
Open Scope Z_scope.

(** ** Histories of placements and detections *)
Definition pdc (c : call) : Prop := c = CPlace \/ c = CDetect.
Definition Later (E : env) (a b : perc) : Prop := exists cs, Forall pdc cs /\ b = after E a cs.
Lemma later_refl E a : Later E a a.
Proof. exists []. split; [constructor|reflexivity]. Qed.
Lemma later_trans E a b c : Later E a b -> Later E b c -> Later E a c.
Proof.
  intros (u & Hu & ->) (v & Hv & ->). exists (u ++ v). split; [now apply Forall_app|]. unfold after. now rewrite fold_left_app.
Qed.
Lemma later_step E s : Later E s (run_step E s).
Proof.
  unfold run_step. cbv zeta. destruct (flag_is_success (fst (place_one_site E s))).
  - exists [CPlace; CDetect]. split; [constructor; [now left|constructor; [now right|constructor]]|reflexivity].
  - exists [CPlace]. split; [constructor; [now left|constructor]|reflexivity].
Qed.
Lemma later_state E n : forall s, Later E s (run_state E n s).
Proof. induction n as [|n IH]; intros s; [apply later_refl|]. cbn [run_state]. eapply later_trans; [apply later_step|apply IH]. Qed.
Lemma log_later E n : forall s, Forall (Later E s) (run_log E n s).
Proof.
  induction n as [|n IH]; intros s; [constructor|]. cbn [run_log]. pose proof (later_step E s) as A.
  assert (B : Forall (Later E s) (run_log E n (run_step E s))).
  { eapply Forall_impl; [|apply IH]. intros t Ht. eapply later_trans; eauto. }
  destruct (flag_is_success (run_step E s)); [now constructor|exact B].
Qed.
Lemma log_chain E n : forall s i j a b, (i <= j)%nat -> nth_error (run_log E n s) i = Some a -> nth_error (run_log E n s) j = Some b -> Later E a b.
Proof.
  induction n as [|n IH]; intros s i j a b Hij Ha Hb; [destruct i; discriminate|]. cbn [run_log] in *.
  destruct (flag_is_success (run_step E s)); cbn [app] in *; [|now apply (IH _ i j a b Hij Ha Hb)].
  destruct i as [|i], j as [|j]; cbn [nth_error] in *; try lia.
  - injection Ha as <-. injection Hb as <-. apply later_refl.
  - injection Ha as <-. apply nth_error_In in Hb. exact (proj1 (Forall_forall _ _) (log_later E n (run_step E s)) b Hb).
  - apply (IH (run_step E s) i j); auto. lia.
Qed.
Lemma reachable_exec E L s c : reachable E L s -> call_ok L c -> reachable E L (exec E s c).
Proof.
  intros (k & t0 & s0 & cs & A & B & ->) Hc. exists k, t0, s0, (cs ++ [c]). split; auto.
  split; [apply Forall_app; auto|]. unfold after. now rewrite fold_left_app.
Qed.
Lemma pdc_ok L c : pdc c -> call_ok L c.
Proof. intros [->| ->]; exact I. Qed.
Lemma later_reach E L a b : reachable E L a -> Later E a b -> reachable E L b.
Proof.
  intros Ha (cs & Hc & ->). revert a Ha. induction Hc as [|c cs Hc _ IH]; intros a Ha; [exact Ha|].
  cbn [after fold_left]. apply IH. apply reachable_exec; auto. now apply pdc_ok.
Qed.
Lemma fresh_reachable E k L s : fresh_object E k L s -> reachable E L s.
Proof.
  intros [(t0 & E0)|(s0 & (t0 & z & cs & A & B & ->) & ->)]; exists k, t0.
  - exists s, []. split; auto.
  - exists z, (cs ++ [CReset]). split; auto. split; [apply Forall_app; split; auto; repeat constructor|]. unfold after. now rewrite fold_left_app.
Qed.

(** ** Monotone observables *)
Definition wn (s : perc) : Z := if after_wrap s then zlen (cluster_bonds s (wid s)) else 0.
Lemma wn_nonneg s : 0 <= wn s.
Proof. unfold wn. destruct (after_wrap s); [apply zlen_nonneg|lia]. Qed.
Lemma step_mono E L s c : env_ok E -> reachable E L s -> pdc c ->
  let s' := exec E s c in
  largest_cluster s <= largest_cluster s' /\ wn s <= wn s' /\ occ_count s <= occ_count s' /\ (after_wrap s = true -> after_wrap s' = true).
Proof.
  intros HE HR Hc. pose proof (reachable_inv _ _ _ HE HR) as H. destruct Hc as [->| ->]; cbn [exec].
  - destruct (p_C20 E L s HE HR) as (_ & _ & _ & A). destruct (place_core E L s HE H) as (W & _). split; auto.
    split; [|split; [|congruence]].
    + destruct (p_C21 E L s HE HR) as (_ & B). unfold wn. rewrite W. destruct (after_wrap s); [|lia]. apply (B eq_refl).
    + exact (kp_n _ _ _ (keeps_steps E L _ _ H (place_steps E L s HE H))).
  - destruct (detect_fields L s H) as (_ & _ & _ & D4 & _ & _ & _ & _ & D9 & _). cbv zeta.
    split; [unfold largest_cluster; lia|]. rewrite D4. rewrite (detect_ok L) by apply H. unfold detect_res.
    destruct (after_wrap s) eqn:Ew; [cbn [fst]; unfold wn; rewrite Ew; lia|].
    split; [|split; [lia|discriminate]]. unfold wn at 1. rewrite Ew. apply wn_nonneg.
Qed.
Lemma later_mono E L a b : env_ok E -> reachable E L a -> Later E a b ->
  largest_cluster a <= largest_cluster b /\ wn a <= wn b /\ occ_count a <= occ_count b /\ (after_wrap a = true -> after_wrap b = true).
Proof.
  intros HE Ha (cs & Hc & ->). revert a Ha. induction Hc as [|c cs Hc _ IH]; intros a Ha; [cbn; auto with zarith|].
  destruct (step_mono E L a c HE Ha Hc) as (A & B & C & D).
  destruct (IH (exec E a c)) as (A' & B' & C' & D'); [apply reachable_exec; auto; now apply pdc_ok|].
  change (after E a (c :: cs)) with (after E (exec E a c) cs). cbv zeta in *. repeat split; try lia; auto.
Qed.

(** ** The rows of one run *)
Lemma runB_log E L n : env_ok E -> forall s, Inv L s -> RunB L s -> cur_idx s + Z.of_nat n <= zlen (ids s) ->
  run_log E n s = map (fun j => trace E j s) (seq 1 n) /\ run_state E n s = trace E n s.
Proof.
  intros HE. induction n as [|n IH]; intros s H B Hn; [split; reflexivity|].
  destruct (runB_place E L s HE H B ltac:(lia)) as (s1 & Ep & Ef & _ & _ & _ & _ & _).
  destruct (runB_trace E L 1 HE s H B) as (T1 & T2 & T3 & T4 & _); [lia|].
  assert (Es : run_step E s = advance E s) by (unfold run_step, advance; rewrite Ep; cbn [fst]; now rewrite Ef).
  assert (Hf : flag_is_success (run_step E s) = true).
  { pose proof (place_inv E L s HE H) as I1. rewrite Ep in I1. unfold run_step. rewrite Ep. cbn [fst] in *. rewrite Ef.
    destruct (detect_recs L s1 I1) as (_ & F & _). unfold flag_is_success in *. now rewrite F. }
  cbn [trace] in *. assert (Q : ids (advance E s) = ids s) by apply (seqv_eqs _ _ T4).
  destruct (IH (advance E s) T1 T2) as (A & C); [rewrite Q, T3; lia|].
  cbn [run_log run_state]. rewrite Hf, Es, A, C. split; auto. cbn [app seq map]. f_equal.
  rewrite <- (seq_shift n 1), map_map. apply map_ext. intros j. reflexivity.
Qed.
Lemma run_rows E k L s f : env_ok E -> k <> KSP -> fresh_plain E k L s -> 5 * (L * L) < Z.of_nat f ->
  exists N s', run_once E f s = (s', Ok tt) /\ let lg := run_log E N s in
    length lg = Z.to_nat (L * L) /\ map occ_count lg = map Z.of_nat (seq 1 (Z.to_nat (L * L))) /\ Forall (Inv L) lg /\
    h_arr s' = map entropy_v2 lg /\
    map Ok (pw_arr s') = map order_param_wrapping lg /\ map Ok (pl_arr s') = map order_param_largest_clstr lg /\
    pcv s' = pcv (run_state E N s) /\ Inv L s' /\ (forall i, is_site L i -> occupied s' i).
Proof.
  intros HE Hk HF Hf. pose proof (fresh_plain_object _ _ _ _ HF) as HO. destruct (fresh_object_state E k L s HE HO) as (F & Ek & _).
  destruct (is_L12 k) eqn:E12.
  - exists (Z.to_nat (5 * (L * L))).
    destruct (p_C33r E k L s f HE ltac:(destruct k; try discriminate; auto) HO Hf) as (Hl & s' & Er & _ & Ho & Hocc & _ & _ & A1 & A2 & A3).
    destruct (fresh_object_cand E k L s HE E12 HO) as (_ & H & _ & C & W). pose proof (LL_pos L (i_pos _ _ H)).
    destruct (run_state_cand E L (Z.to_nat (5 * (L * L))) HE s H C ltac:(lia)) as (T1 & _ & _ & _ & _ & _ & T7 & T8).
    pose proof (run_once_C E L s f HE H C ltac:(lia)) as Er'. rewrite W in Er'. rewrite Er in Er'. injection Er' as Es.
    exists s'. split; auto. cbv zeta in *. split; auto. split; [rewrite T8, Hl, (fs_occ _ _ F); apply map_ext; intros; lia|].
    split; auto. split; auto. split; auto. split; auto. split; [rewrite Es; reflexivity|]. split; auto. rewrite Es. eapply inv_frame; [|exact T1]; reflexivity.
  - exists (Z.to_nat (L * L)).
    assert (Hb : k = KBase \/ k = KL0) by (destruct k; try discriminate; auto; now destruct Hk).
    destruct (fresh_plain_runB E k L s HE E12 HF) as (H & B & Hl & Hc). pose proof (LL_pos L (i_pos _ _ H)).
    destruct (p_C31 E k L s f HE Hb HF ltac:(lia)) as (_ & s' & Er & _ & _ & Ho & _ & _ & A1 & A2 & A3).
    destruct (runB_log E L (Z.to_nat (L * L)) HE s H B ltac:(lia)) as (R1 & R2).
    destruct (run_once_B E L s f HE H B ltac:(congruence) ltac:(lia)) as (Er' & T1 & _). rewrite Er in Er'. injection Er' as Es.
    rewrite Hl, Hc, Z.sub_0_r in *.
    exists s'. split; auto. cbv zeta. rewrite R1, R2, !map_map. split; [now rewrite map_length, seq_length|].
    split. { apply map_ext_in. intros j Hj. apply in_seq in Hj. destruct (runB_trace E L j HE s H B) as (U1 & U2 & U3 & _); [lia|].
      rewrite (rb_cnt _ _ U2), U3, Hc. lia. }
    split. { apply Forall_forall. intros t Ht. apply in_map_iff in Ht. destruct Ht as (j & <- & Hj). apply in_seq in Hj.
      apply (runB_trace E L j HE s H B). lia. }
    split; auto. split; auto. split; auto. split; [rewrite Es; reflexivity|]. split; auto. rewrite Es. eapply inv_frame; [|exact T1]; reflexivity.
Qed.

(** ** The wrapping order parameter is positive exactly from pc on *)
Lemma success_occ E L s : env_ok E -> Inv L s -> snd (place_one_site E s) = Ok true ->
  flag_is_success (fst (place_one_site E s)) = true -> occ_count (fst (place_one_site E s)) = occ_count s + 1.
Proof.
  intros HE H Hr Hf. destruct (place_spec E L s HE H) as (Sd & P). destruct (sel E L s) as [s1 r]. cbn [fst snd] in *.
  pose proof (sd_res _ _ _ _ Sd) as R. destruct r as [[]|e]; rewrite ?P in *; cbn [fst snd] in *; try discriminate.
  destruct P as (x & s' & root & _ & _ & Ep & Pd). destruct R as (y & _ & _ & _ & _ & R). rewrite Ep. cbn [fst].
  destruct (core2_fields _ _ (pd_core _ _ _ _ _ _ Pd)) as (G1 & G2 & G3 & G4 & G5 & G6 & G7 & G8 & G9 & G10 & _). lia.
Qed.
Lemma pc_after E L : env_ok E -> forall n s, Plain L s -> after_wrap s = false -> after_wrap (run_state E n s) = true ->
  occ_count s < pc_occ (run_state E n s).
Proof.
  intros HE. induction n as [|n IH]; intros s P Hw Ht; [cbn in Ht; congruence|]. cbn [run_state] in *.
  destruct (plain_place E L s HE P) as (P1 & _ & _ & R). destruct (place_core E L s HE (proj1 P)) as (Cw & _).
  pose proof (kp_n _ _ _ (keeps_steps E L _ _ (proj1 P) (place_steps E L s HE (proj1 P)))) as Hn.
  unfold run_step in *. cbv zeta in *. set (s1 := fst (place_one_site E s)) in *.
  destruct (flag_is_success s1) eqn:Ef.
  - assert (Er : snd (place_one_site E s) = Ok true).
    { destruct (rem L s =? 0); [|apply R]. exfalso. unfold s1 in Ef. rewrite R in Ef. discriminate. }
    pose proof (success_occ E L s HE (proj1 P) Er Ef) as Ho. fold s1 in Ho.
    pose proof (plain_detect L s1 P1) as (P2 & _). destruct (detect_fields L s1 (proj1 P1)) as (_ & _ & _ & D4 & _).
    destruct (after_wrap (fst (detect_wrapping s1))) eqn:Ew.
    + assert (Hp : pc_occ (fst (detect_wrapping s1)) = occ_count s1).
      { rewrite (detect_ok L) in * by apply P1. unfold detect_res in *. rewrite Cw, Hw in *.
        destruct (sel_id s1); [|cbn in Ew; congruence]. destruct (hitb L (lat s1) z); [reflexivity|cbn in Ew; congruence]. }
      destruct (later_state E n (fst (detect_wrapping s1))) as (cs & Hc & Es). rewrite Es in *.
      assert (K : Keeps L (fst (detect_wrapping s1)) (after E (fst (detect_wrapping s1)) cs)).
      { apply (keeps_steps E); [apply P2|]. apply after_steps; auto; [| |apply P2].
        - eapply Forall_impl; [|exact Hc]. intros c. apply pdc_ok.
        - eapply Forall_impl; [|exact Hc]. intros c [->| ->]; exact I. }
      destruct (kp_wrap _ _ _ K Ew) as (_ & _ & Q & _). lia.
    + specialize (IH _ P2 Ew Ht). lia.
  - specialize (IH s1 P1 ltac:(congruence) Ht). lia.
Qed.
Lemma plain_state E L : env_ok E -> forall n s, Plain L s -> Tr L s -> Plain L (run_state E n s) /\ Tr L (run_state E n s).
Proof.
  intros HE. induction n as [|n IH]; intros s P T; [auto|]. cbn [run_state]. destruct (plain_place E L s HE P) as (P1 & _).
  destruct (tr_place E L s HE T) as (T1 & _). pose proof (tr_advance E L s HE T) as T2. pose proof (plain_detect L _ P1) as (P2 & _).
  apply IH; unfold run_step; cbv zeta; destruct (flag_is_success (fst (place_one_site E s))) eqn:Ef; auto.
Qed.
Lemma log_split E n : forall s a, In a (run_log E n s) -> exists m m', a = run_state E m s /\ run_state E n s = run_state E m' a.
Proof.
  induction n as [|n IH]; intros s a Ha; [contradiction|]. cbn [run_log run_state] in *. apply in_app_or in Ha. destruct Ha as [Ha|Ha].
  - destruct (flag_is_success (run_step E s)); [|contradiction]. destruct Ha as [<-|[]]. exists 1%nat, n. auto.
  - destruct (IH _ _ Ha) as (m & m' & -> & Q). exists (S m), m'. auto.
Qed.
Lemma nth_map_ok {A B} (f : A -> res B) (l : list A) (r : list B) i a d : map Ok r = map f l -> nth_error l i = Some a ->
  exists y, f a = Ok y /\ nth i r d = y /\ (i < length r)%nat.
Proof.
  intros Em Ha. assert (Hl : length r = length l) by (rewrite <- (map_length (@Ok B) r), Em, map_length; reflexivity).
  assert (Hi : (i < length r)%nat) by (rewrite Hl; apply nth_error_Some; congruence).
  pose proof (map_nth_error f i l Ha) as Q. rewrite <- Em in Q. destruct (nth_error r i) as [y|] eqn:Ey.
  - rewrite (map_nth_error (@Ok B) i r Ey) in Q. injection Q as Q. exists y. split; auto. split; auto. now apply nth_error_nth.
  - apply nth_error_None in Ey. lia.
Qed.

Open Scope R_scope.
Lemma rat_le a b c : (0 < c)%Z -> (a <= b)%Z -> IZR a / IZR c <= IZR b / IZR c.
Proof.
  intros Hc Hab. apply Rmult_le_compat_r; [|now apply IZR_le]. left. apply Rinv_0_lt_compat. now apply IZR_lt.
Qed.
Lemma rat_pos a c : (0 < c)%Z -> (0 < a)%Z -> 0 < IZR a / IZR c.
Proof. intros Hc Ha. apply Rdiv_lt_0_compat; now apply IZR_lt. Qed.
Lemma rat_one c : (0 < c)%Z -> IZR c / IZR c = 1.
Proof. intros Hc. apply Rinv_r. apply IZR_neq. lia. Qed.
Lemma rat_zero c : IZR 0 / c = 0.
Proof. unfold Rdiv. apply Rmult_0_l. Qed.

(** The values at a state, as ratios. *)
Lemma opl_val E L s : env_ok E -> reachable E L s -> exists y, order_param_largest_clstr s = Ok y /\ feval y = IZR (largest_cluster s) / IZR (2 * (L * L)).
Proof. intros HE HR. destruct (p_C20 E L s HE HR) as (A & _). eexists. split; [exact A|reflexivity]. Qed.
Lemma opw_val E L s : env_ok E -> reachable E L s -> exists y, order_param_wrapping s = Ok y /\ feval y = IZR (wn s) / IZR (2 * (L * L)).
Proof.
  intros HE HR. destruct (p_C21 E L s HE HR) as (A & B). unfold wn. destruct (after_wrap s).
  - destruct (B eq_refl) as (C & _). eexists. split; [exact C|reflexivity].
  - eexists. split; [now apply A|]. rewrite rat_zero. reflexivity.
Qed.
Lemma wn_le E L s : env_ok E -> reachable E L s -> (wn s <= largest_cluster s <= 2 * (L * L))%Z /\ (0 < wn s <-> after_wrap s = true)%Z.
Proof.
  intros HE HR. destruct (p_C21 E L s HE HR) as (A & B). destruct (p_C20 E L s HE HR) as (_ & C & _). unfold wn. destruct (after_wrap s).
  - destruct (B eq_refl) as (_ & D & _). split; [lia|]. split; auto. lia.
  - split; [lia|]. split; [lia|discriminate].
Qed.
Lemma largest_pos L s : Inv L s -> (0 < occ_count s)%Z -> (0 < largest_cluster s)%Z.
Proof.
  intros H Ho. destruct (i_big _ _ H Ho) as (_ & _ & A). pose proof (i_pos _ _ H) as HL. pose proof (LL_pos L HL).
  assert (Hb : is_bond L 0) by (unfold is_bond; lia).
  pose proof (bsize_pos L (lat s) (pool s) 0 (i_cl _ _ H) Hb) as B.
  assert (Hl : is_label L (bg (lat s) 0)) by (apply (ck_blab _ _ _ (i_cl _ _ H)); auto).
  specialize (A _ Hl). unfold largest_cluster. lia.
Qed.

(** ** C82: one run *)
Lemma p_C82 E k L s f : env_ok E -> k <> KSP -> fresh_plain E k L s -> (5 * (L * L) < Z.of_nat f)%Z ->
  exists s', run_once E f s = (s', Ok tt) /\
    let h i := feval (entry (h_arr s') i) in
    let l i := feval (entry (pl_arr s') i) in
    let w i := feval (entry (pw_arr s') i) in
    curve L h l w /\
    ((3 <= L)%Z -> exists m, get_pc s' = Ok (FDiv (FZ m) (FZ (L * L))) /\ (L <= m <= L * L - L + 1)%Z /\
       forall i, (i < Z.to_nat (L * L))%nat -> (0 < w i <-> (m <= Z.of_nat (S i))%Z)).
Proof.
  intros HE Hk HF Hf. pose proof (fresh_plain_object _ _ _ _ HF) as HO.
  destruct (fresh_plain_Plain E k L s HE HF) as (P & Ek & F & Hr). pose proof (fresh_tr L s F) as T.
  pose proof (fresh_reachable E k L s HO) as HR0. pose proof (LL_pos L (i_pos _ _ (proj1 P))) as HLL.
  destruct (run_rows E k L s f HE Hk HF Hf) as (N & s' & Er & Hl & Ho & Hi & A1 & A2 & A3 & Ev & If & Hfull).
  exists s'. split; auto. set (lg := run_log E N s) in *. set (n := Z.to_nat (L * L)) in *. set (B := (2 * (L * L))%Z) in *.
  assert (HB : (0 < B)%Z) by (unfold B; lia).
  assert (Row : forall i, (i < n)%nat -> exists a, nth_error lg i = Some a /\ reachable E L a /\ occ_count a = Z.of_nat (S i) /\
    feval (entry (h_arr s') i) = feval (entropy_v2 a) /\ feval (entry (pl_arr s') i) = IZR (largest_cluster a) / IZR B /\
    feval (entry (pw_arr s') i) = IZR (wn a) / IZR B).
  { intros i Hin. destruct (nth_error lg i) as [a|] eqn:Ea; [|apply nth_error_None in Ea; lia]. exists a. split; auto.
    assert (HR : reachable E L a).
    { apply (later_reach E L s); auto. apply (proj1 (Forall_forall _ _) (log_later E N s)). now apply nth_error_In with i. }
    split; auto. split.
    { pose proof (map_nth_error occ_count i lg Ea) as Q. rewrite Ho in Q.
      assert (Es : nth_error (seq 1 n) i = Some (S i)).
      { rewrite (nth_error_nth' _ O) by (now rewrite seq_length). now rewrite seq_nth. }
      rewrite (map_nth_error Z.of_nat i _ Es) in Q. congruence. }
    split. { unfold entry. rewrite A1. f_equal. apply nth_error_nth. now apply map_nth_error. }
    split.
    - destruct (nth_map_ok _ _ _ i a (FZ 0) A3 Ea) as (y & Ey & En & _). destruct (opl_val E L a HE HR) as (y' & Ey' & Q).
      unfold entry. rewrite En. rewrite Ey in Ey'. injection Ey' as ->. exact Q.
    - destruct (nth_map_ok _ _ _ i a (FZ 0) A2 Ea) as (y & Ey & En & _). destruct (opw_val E L a HE HR) as (y' & Ey' & Q).
      unfold entry. rewrite En. rewrite Ey in Ey'. injection Ey' as ->. exact Q. }
  assert (Hn : (0 < n)%nat) by (unfold n; lia).
  cbv zeta. split; [split; [|split]|].
  - fold n. intros i j Hij. destruct (Row i) as (a & Ea & Ra & Oa & H1 & L1 & W1); [lia|]. destruct (Row j) as (b & Eb & Rb & Ob & H2 & L2 & W2); [lia|].
    pose proof (log_chain E N s i j a b ltac:(lia) Ea Eb) as La.
    destruct (later_mono E L a b HE Ra La) as (M1 & M2 & _).
    rewrite H1, H2, L1, L2, W1, W2. split; [|split; now apply rat_le].
    destruct La as (cs & Hc & ->). apply (p_C19 E L a cs HE Ra).
    + eapply Forall_impl; [|exact Hc]. intros c. apply pdc_ok.
    + intros Hin. apply (proj1 (Forall_forall _ _) Hc) in Hin. destruct Hin; discriminate.
  - fold n. intros i Hi'. destruct (Row i Hi') as (a & Ea & Ra & Oa & H1 & L1 & W1). rewrite H1, L1, W1.
    pose proof (wn_le E L a HE Ra) as (Q1 & _). pose proof (wn_nonneg a) as Q2. pose proof (reachable_inv _ _ _ HE Ra) as Ia.
    split; [apply (p_C18 E L a HE Ra)|]. split; split.
    + rewrite <- (rat_zero (IZR B)). now apply rat_le.
    + apply rat_le; lia.
    + apply rat_pos; auto. apply (largest_pos L); auto. lia.
    + rewrite <- (rat_one B HB). apply rat_le; auto. unfold B. lia.
  - fold n. destruct (Row (n - 1)%nat) as (a & Ea & Ra & Oa & H1 & L1 & W1); [lia|].
    pose proof (reachable_inv _ _ _ HE Ra) as Ia.
    assert (Fa : forall i, is_site L i -> occupied a i).
    { intros i Hi'. apply (occupied_occ L); [apply (i_static _ _ Ia)|auto|]. apply occb_true. apply (count_full _ (zrange (L * L))); [|now apply In_zrange].
      rewrite zlen_zrange by lia. rewrite (i_occ _ _ Ia) in Oa. unfold nocc in Oa. unfold n in Oa. lia. }
    destruct (full_state L a Ia Fa) as (c & _ & _ & _ & Q & _ & Q5). rewrite H1, L1, W1, Q. split; [apply (p_C18 E L a HE Ra); auto|].
    split; [now apply rat_one|]. intros H3.
    destruct (log_split E N s a) as (m & m' & Em & _); [now apply nth_error_In with (n - 1)%nat|].
    destruct (plain_state E L HE m s P T) as (_ & Tm). rewrite <- Em in Tm.
    assert (Wa : after_wrap a = true) by (apply (full_flat_wraps L); auto; apply (proj2 Tm H3)).
    destruct (Q5 Wa ltac:(lia)) as (_ & Qw & _). destruct (opw_val E L a HE Ra) as (y & Ey & Qy). rewrite Qw in Ey. injection Ey as <-.
    unfold B. rewrite <- Qy. cbn [feval]. now apply rat_one.
  - intros H3. assert (HRs : reachable E L s') by (apply (run_reachable E k L s f s'); auto; now rewrite Er).
    destruct (p_C32 E k L s f HE Hk HF Hf) as (s2 & c & Er2 & _ & _ & _ & _ & _ & Q). rewrite Er in Er2. injection Er2 as <-.
    destruct (Q H3) as (Wf & _). injection Ev as Ev1 Ev2.
    destruct (p_C27 E L s' HE HRs) as (_ & C). destruct (C Wf) as (m & Em & Hm0 & Hm & _). exists m. split; auto.
    assert (Ep : pc_occ s' = m).
    { unfold get_pc in Em. rewrite Wf, (st_sc _ _ (i_static _ _ If)), int_div_ok in Em by lia. now injection Em. }
    assert (Key : forall i, (i < n)%nat -> (0 < feval (entry (pw_arr s') i) <-> (m <= Z.of_nat (S i))%Z)).
    { intros i Hin. destruct (Row i Hin) as (a & Ea & Ra & Oa & _ & _ & W1). rewrite W1.
      pose proof (wn_le E L a HE Ra) as (_ & Q2). pose proof (wn_nonneg a) as Q3.
      assert (Q4 : 0 < IZR (wn a) / IZR B <-> after_wrap a = true).
      { rewrite <- Q2. split; [|now apply rat_pos]. intros Hp. destruct (Z.eq_dec (wn a) 0) as [E0|]; [|lia].
        rewrite E0, rat_zero in Hp. lra. }
      rewrite Q4. destruct (log_split E N s a) as (j & j' & Ej & Ej'); [now apply nth_error_In with i|].
      destruct (plain_state E L HE j s P T) as (Pj & Tj). rewrite <- Ej in Pj, Tj. split.
      - intros Wa. destruct (p_C27 E L a HE Ra) as (_ & D). destruct (D Wa) as (m' & Em' & _ & Hm' & _ & Fr).
        destruct (later_state E j' a) as (cs & Hc & Es).
        assert (G : get_pc s' = get_pc (run_state E j' a)).
        { rewrite <- Ej'. apply (pcv_get_pc L); [exact If|exact (proj1 (proj1 (plain_state E L HE N s P T)))|unfold pcv; congruence]. }
        rewrite Es in G. destruct (Fr cs) as (Fr1 & _).
        + eapply Forall_impl; [|exact Hc]. intros c0. apply pdc_ok.
        + intros Hin'. apply (proj1 (Forall_forall _ _) Hc) in Hin'. destruct Hin'; discriminate.
        + rewrite Fr1, Em, Em' in G. injection G as ->. lia.
      - intros Hle. destruct (after_wrap a) eqn:Wa; auto. exfalso.
        pose proof (pc_after E L HE j' a Pj Wa) as G. rewrite <- Ej' in G. rewrite <- Ev1, <- Ev2, Ep in G. specialize (G Wf). lia. }
    split; [|exact Key].
    split; [lia|]. destruct (plain_state E L HE N s P T) as (_ & TN). destruct (proj2 TN H3) as (_ & G).
    destruct (G ltac:(congruence)) as (x & prev & C1 & C2 & C3 & C4 & _). rewrite <- Ev2, Ep in C2. inversion C1; subst.
    assert (zlen prev <= L * L - L)%Z.
    { apply no_wrap_size; auto; [lia|]. intros i Hi'. apply C3. now right. }
    unfold zlen in *. cbn [length] in *. lia.
Qed.

(** ** C82: averages over realizations *)
Lemma total_le (l : list nat) g g' : (forall e, In e l -> g e <= g' e) -> fold_right Rplus 0 (map g l) <= fold_right Rplus 0 (map g' l).
Proof.
  induction l as [|e l IH]; intros H; cbn [map fold_right]; [lra|]. apply Rplus_le_compat; [apply H; now left|].
  apply IH. intros e' He. apply H. now right.
Qed.
Lemma total_const l c : fold_right Rplus 0 (map (fun _ : nat => c) l) = INR (length l) * c.
Proof.
  induction l as [|e l IH]; [cbn; lra|]. cbn [map fold_right length]. rewrite IH, S_INR. lra.
Qed.
Lemma mean_le n g g' : (1 <= n)%nat -> (forall e, (1 <= e <= n)%nat -> g e <= g' e) -> mean n g <= mean n g'.
Proof.
  intros Hn H. unfold mean, total. apply Rmult_le_compat_r; [left; apply Rinv_0_lt_compat, lt_0_INR; lia|].
  apply total_le. intros e He. apply in_seq in He. apply H. lia.
Qed.
Lemma mean_const n c : (1 <= n)%nat -> mean n (fun _ => c) = c.
Proof.
  intros Hn. unfold mean, total. rewrite total_const, seq_length. field. apply not_0_INR. lia.
Qed.
Lemma mean_ext n g g' : (forall e, (1 <= e <= n)%nat -> g e = g' e) -> mean n g = mean n g'.
Proof.
  intros H. unfold mean, total. f_equal. f_equal. apply map_ext_in. intros e He. apply in_seq in He. apply H. lia.
Qed.
Lemma total_pos (l : list nat) g : (forall e, In e l -> 0 <= g e) -> (0 < fold_right Rplus 0 (map g l) <-> exists e, In e l /\ 0 < g e).
Proof.
  induction l as [|e l IH]; intros H; cbn [map fold_right].
  - split; [lra|]. intros (e & [] & _).
  - assert (H0 : 0 <= g e) by (apply H; now left). assert (H1 : forall e', In e' l -> 0 <= g e') by (intros; apply H; now right).
    assert (H2 : 0 <= fold_right Rplus 0 (map g l)).
    { replace 0 with (fold_right Rplus 0 (map (fun _ : nat => 0) l)) at 1 by (rewrite total_const; lra). now apply total_le. }
    specialize (IH H1). split.
    + intros Hp. destruct (Rlt_dec 0 (g e)) as [Hg|Hg]; [exists e; split; auto; now left|].
      destruct (proj1 IH) as (e' & He' & Hp'); [lra|]. exists e'. split; auto. now right.
    + intros (e' & [<-|He'] & Hp); [lra|]. assert (0 < fold_right Rplus 0 (map g l)) by (apply IH; eauto). lra.
Qed.
Lemma mean_pos n g : (1 <= n)%nat -> (forall e, (1 <= e <= n)%nat -> 0 <= g e) -> (0 < mean n g <-> exists e, (1 <= e <= n)%nat /\ 0 < g e).
Proof.
  intros Hn H. assert (Hi : 0 < INR n) by (apply lt_0_INR; lia). unfold mean.
  assert (Q : 0 < total n g / INR n <-> 0 < total n g).
  { split; intros Hp; [|now apply Rdiv_lt_0_compat]. replace (total n g) with (total n g / INR n * INR n) by (field; lra). apply Rmult_lt_0_compat; auto. }
  rewrite Q. unfold total. rewrite total_pos by (intros e He; apply in_seq in He; apply H; lia). split; intros (e & He & Hp); exists e; split; auto.
  - apply in_seq in He. lia.
  - apply in_seq. lia.
Qed.
Lemma curve_mean L n h l w : (0 < L)%Z -> (1 <= n)%nat -> (forall e, (1 <= e <= n)%nat -> curve L (h e) (l e) (w e)) ->
  curve L (fun i => mean n (fun e => h e i)) (fun i => mean n (fun e => l e i)) (fun i => mean n (fun e => w e i)).
Proof.
  intros HL Hn H. pose proof (LL_pos L HL) as HLL. split; [|split; [|split; [|split]]].
  - intros i j Hij. repeat split; apply mean_le; auto; intros e He; destruct (H e He) as (A & _); apply (A i j Hij).
  - intros i Hi.
    assert (A : forall e, (1 <= e <= n)%nat -> 0 <= h e i <= ln (IZR (2 * (L * L))) /\ 0 <= w e i <= l e i /\ 0 < l e i <= 1).
    { intros e He. destruct (H e He) as (_ & B & _). now apply B. }
    repeat split.
    + rewrite <- (mean_const n 0) by auto. apply mean_le; auto. intros e He. apply (A e He).
    + rewrite <- (mean_const n (ln (IZR (2 * (L * L))))) by auto. apply mean_le; auto. intros e He. apply (A e He).
    + rewrite <- (mean_const n 0) by auto. apply mean_le; auto. intros e He. apply (A e He).
    + apply mean_le; auto. intros e He. apply (A e He).
    + apply mean_pos; auto; [intros e He; destruct (A e He); lra|]. exists 1%nat. split; [lia|]. apply A. lia.
    + rewrite <- (mean_const n 1) by auto. apply mean_le; auto. intros e He. apply (A e He).
  - rewrite <- (mean_const n 0) by auto. apply mean_ext. intros e He. apply (H e He).
  - rewrite <- (mean_const n 1) by auto. apply mean_ext. intros e He. apply (H e He).
  - intros H3. rewrite <- (mean_const n 1) by auto. apply mean_ext. intros e He. now apply (H e He).
Qed.
Lemma curve_ext L h l w h' l' w' : (0 < L)%Z -> (forall i, (i < Z.to_nat (L * L))%nat -> h' i = h i /\ l' i = l i /\ w' i = w i) ->
  curve L h l w -> curve L h' l' w'.
Proof.
  intros HL Q (A & B & C & D & F). pose proof (LL_pos L HL) as HLL. split; [|split; [|split; [|split]]].
  - intros i j Hij. destruct (Q i ltac:(lia)) as (-> & -> & ->). destruct (Q j ltac:(lia)) as (-> & -> & ->). now apply A.
  - intros i Hi. destruct (Q i ltac:(lia)) as (-> & -> & ->). now apply B.
  - rewrite (proj1 (Q (Z.to_nat (L * L) - 1)%nat ltac:(lia))). exact C.
  - rewrite (proj1 (proj2 (Q (Z.to_nat (L * L) - 1)%nat ltac:(lia)))). exact D.
  - rewrite (proj2 (proj2 (Q (Z.to_nat (L * L) - 1)%nat ltac:(lia)))). exact F.
Qed.

Lemma realization_fresh E k L t0 s0 f e : new_perc E k L t0 = Ok s0 -> fresh_plain E k L (fst (reset E (realization E f s0 e))).
Proof.
  intros H0. right. exists (realization E f s0 e). split; auto. exists t0, s0, (cycles f e). split; auto.
  assert (G : Forall (fun c => call_ok L c /\ no_custom c) (cycles f e)).
  { induction e as [|e IH]; [constructor|]. cbn [cycles]. apply Forall_app. split; auto.
    constructor; [split; exact I|]. constructor; [split; exact I|constructor]. }
  split; [|split; [|reflexivity]]; (eapply Forall_impl; [|exact G]); intros c Hc; apply Hc.
Qed.
Lemma realization_S E f s0 e : realization E f s0 (S e) = fst (run_once E f (fst (reset E (realization E f s0 e)))).
Proof. unfold realization. cbn [cycles]. unfold after. rewrite fold_left_app. reflexivity. Qed.

Definition col (rows : list (list fexpr)) (c i : nat) : R := feval (nth c (nth i rows []) (FZ 0)).
Lemma averages_curve E k L t0 s0 f n rows : env_ok E -> k <> KSP -> new_perc E k L t0 = Ok s0 -> (5 * (L * L) < Z.of_nat f)%Z -> (1 <= n)%nat ->
  averages E f s0 L n rows ->
  (forall i, (i < Z.to_nat (L * L))%nat -> col rows 0 i = INR (S i) / IZR (L * L)) /\ curve L (col rows 1) (col rows 2) (col rows 3) /\
  ((3 <= L)%Z -> forall i, (i < Z.to_nat (L * L))%nat ->
     (0 < col rows 3 i <-> exists e q, (1 <= e <= n)%nat /\ get_pc (realization E f s0 e) = Ok q /\ feval q <= col rows 0 i)).
Proof.
  intros HE Hk H0 Hf Hn (Hlen & A).
  assert (HL : (0 < L)%Z).
  { pose proof (realization_fresh E k L t0 s0 f 0 H0) as HF. destruct (fresh_plain_Plain E k L _ HE HF) as (P & _). apply (i_pos _ _ (proj1 P)). }
  pose proof (LL_pos L HL) as HLL.
  assert (Row : forall i, (i < Z.to_nat (L * L))%nat -> col rows 0 i = INR (S i) / IZR (L * L) /\
     col rows 1 i = mean n (fun e => feval (entry (h_arr (realization E f s0 e)) i)) /\
     col rows 2 i = mean n (fun e => feval (entry (pl_arr (realization E f s0 e)) i)) /\
     col rows 3 i = mean n (fun e => feval (entry (pw_arr (realization E f s0 e)) i))).
  { intros i Hi. destruct (A i Hi) as (p & h & l & w & Er & P1 & P2 & P3 & P4). unfold col. rewrite (nth_error_nth _ _ _ Er). cbn [nth]. auto. }
  assert (One : forall e, (1 <= e <= n)%nat ->
    curve L (fun i => feval (entry (h_arr (realization E f s0 e)) i)) (fun i => feval (entry (pl_arr (realization E f s0 e)) i))
            (fun i => feval (entry (pw_arr (realization E f s0 e)) i)) /\
    ((3 <= L)%Z -> exists m, get_pc (realization E f s0 e) = Ok (FDiv (FZ m) (FZ (L * L))) /\
       forall i, (i < Z.to_nat (L * L))%nat -> (0 < feval (entry (pw_arr (realization E f s0 e)) i) <-> (m <= Z.of_nat (S i))%Z))).
  { intros e He. destruct e as [|e]; [lia|]. rewrite realization_S.
    destruct (p_C82 E k L _ f HE Hk (realization_fresh E k L t0 s0 f e H0) Hf) as (s' & -> & C & D). cbn [fst]. split; [exact C|].
    intros H3. destruct (D H3) as (m & D1 & _ & D2). eauto. }
  split; [intros i Hi; apply (Row i Hi)|]. split.
  - eapply curve_ext; [auto| |apply (curve_mean L n _ _ _ HL Hn (fun e He => proj1 (One e He)))]. intros i Hi. apply (Row i Hi).
  - intros H3 i Hi. destruct (Row i Hi) as (R0 & _ & _ & R3). rewrite R3, R0.
    rewrite mean_pos; [|auto|intros e He; destruct (One e He) as ((_ & B & _) & _); apply (B i Hi)].
    assert (Hle : forall m, IZR m / IZR (L * L) <= INR (S i) / IZR (L * L) <-> (m <= Z.of_nat (S i))%Z).
    { intros m. rewrite INR_IZR_INZ. split; intros Hm; [|now apply rat_le]. apply le_IZR. apply Rmult_le_reg_r with (/ IZR (L * L)); [|exact Hm].
      apply Rinv_0_lt_compat. now apply IZR_lt. }
    split.
    + intros (e & He & Hp). destruct (One e He) as (_ & D). destruct (D H3) as (m & D1 & D2). exists e, (FDiv (FZ m) (FZ (L * L))).
      split; auto. split; auto. cbn [feval]. apply Hle. now apply D2.
    + intros (e & q & He & Eq & Hq). destruct (One e He) as (_ & D). destruct (D H3) as (m & D1 & D2). exists e. split; auto.
      rewrite D1 in Eq. injection Eq as <-. cbn [feval] in Hq. apply D2; auto. now apply Hle.
Qed.
Lemma p_C82a E k L t0 s0 f n time files d : env_ok E -> k <> KSP -> new_perc E k L t0 = Ok s0 -> (5 * (L * L) < Z.of_nat f)%Z -> (1 <= n)%Z ->
  run_ensemble_entropy_order E f t0 time (AClass k) L n = Ok files \/
  (exists i, run_ensemble_entropy_order_threads E f t0 time (AClass k) L n i = Ok files) \/
  (exists i, run_ensemble_entropy_order_threads_v2 E f t0 time (AClass k) L n i None = Ok files) ->
  nth_error files 0 = Some d ->
  let col c i := feval (nth c (nth i (o_rows d) []) (FZ 0)) in
  (forall i, (i < Z.to_nat (L * L))%nat -> col 0%nat i = INR (S i) / IZR (L * L)) /\ curve L (col 1%nat) (col 2%nat) (col 3%nat) /\
  ((3 <= L)%Z -> forall i, (i < Z.to_nat (L * L))%nat ->
     (0 < col 3%nat i <-> exists e q, (1 <= e <= Z.to_nat n)%nat /\ get_pc (realization E f s0 e) = Ok q /\ feval q <= col 0%nat i)).
Proof.
  intros HE Hk H0 Hf Hn Hd Ed. destruct (p_C56 E k L t0 s0 f n time HE Hk H0 Hf Hn) as (_ & A & B & C).
  apply (averages_curve E k L t0 s0 f (Z.to_nat n) (o_rows d)); auto; [lia|].
  destruct Hd as [Q|[(i & Q)|(i & Q)]].
  - destruct A as (d' & c & A1 & _ & _ & _ & _ & A2 & _). rewrite A1 in Q. injection Q as <-. injection Ed as <-. exact A2.
  - destruct (B i) as (d' & A1 & _ & _ & A2). rewrite A1 in Q. injection Q as <-. injection Ed as <-. exact A2.
  - destruct (C i) as (d' & c & A1 & _ & _ & _ & _ & A2 & _). rewrite A1 in Q. injection Q as <-. injection Ed as <-. exact A2.
Qed.
