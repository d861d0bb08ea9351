(** * Summary: the counters printed by occupied_summary (C78). *)
From Coq Require Import ZArith List Bool Lia Permutation.
From Verif Require Import Py Lattice Cluster Perc Script Spec PyFacts Torus Geometry LatFacts Inv Merge Count Fresh Select State Step History Reach
  Micro StateProps StateProps2 Comm Seq Wrap RunBase RunProps RunProps2 Cand Cycle CandRun Lines Normal Critical Drive CandProps SummarySpec.
Import ListNotations.
Open Scope Z_scope.

(** One placement. *)
Lemma sel_xy E L s : Inv L s -> is_L12 (kind s) = true ->
  let s1 := fst (sel E L s) in
  match snd (sel E L s) with
  | Ok SUCESS => y_occ s1 = y_occ s /\ x_occ s <= x_occ s1 <= x_occ s + 1 /\ (occ_count s = 0 -> x_occ s1 = x_occ s)
  | Ok CURRENT_SITE_NOT_EMPTY => 0 < occ_count s /\ x_occ s1 = x_occ s + 1 /\ y_occ s1 = y_occ s + (match kind s with KL2 => 1 | _ => 0 end)
  | _ => x_occ s1 = x_occ s /\ y_occ s1 = y_occ s
  end.
Proof.
  intros H Hk. pose proof (i_ids _ _ H) as Hi. pose proof (i_cur _ _ H) as Hc.
  assert (N : cur_idx s < zlen (ids s) -> occb (lat s) (candX E s) = true -> 0 < occ_count s).
  { intros Hl Ho. rewrite (i_occ _ _ H). unfold nocc. assert (is_site L (candX E s)) by (apply candX_site; auto; lia).
    pose proof (count_pos (occb (lat s)) (zrange (L * L)) (candX E s) ltac:(now apply In_zrange) Ho). lia. }
  unfold sel. destruct (kind s) eqn:Ek; try discriminate.
  - unfold sel1. destruct (L * L <=? cur_idx s); [cbn; auto|].
    destruct (Z.leb_spec (zlen (ids s)) (cur_idx s)) as [|Hl]; [cbn; auto|]. specialize (N Hl). cbv zeta.
    destruct (occb (lat s) (candX E s)); [specialize (N eq_refl)|].
    + destruct (occb (lat s) (nbr L _ _)).
      * cbn [fst snd]. split; auto. destruct (nn1 _ _ =? 0); cbn; split; lia.
      * cbn. split; auto. split; lia.
    + cbn. split; auto. split; [lia|auto].
  - unfold sel2. destruct (L * L <=? cur_idx s); [cbn; auto|].
    destruct (Z.leb_spec (zlen (ids s)) (cur_idx s)) as [|Hl]; [cbn; auto|]. specialize (N Hl). cbv zeta.
    destruct (occb (lat s) (candX E s)); [specialize (N eq_refl)|].
    + destruct (occb (lat s) (nbr L _ _)).
      * destruct (occb (lat s) (second L _ _)).
        -- cbn [fst snd]. split; auto. destruct (nn2 _ _ =? 0); cbn; split; lia.
        -- cbn. split; auto. split; lia.
      * cbn. split; auto. split; lia.
    + cbn. split; auto. split; [lia|auto].
Qed.
Lemma place_xy E L s : env_ok E -> Inv L s -> Cand L s -> weight L s <> 0 ->
  let s1 := fst (place_one_site E s) in
  if flag_is_success s1
  then y_occ s1 = y_occ s /\ x_occ s <= x_occ s1 <= x_occ s + 1 /\ (occ_count s = 0 -> x_occ s1 = x_occ s)
  else 0 < occ_count s /\ x_occ s1 = x_occ s + 1 /\ y_occ s1 = y_occ s + (match kind s with KL2 => 1 | _ => 0 end).
Proof.
  intros HE H C Hw. destruct (place_cand E L s HE H C) as (_ & _ & _ & Pc). destruct (Z.eqb_spec (weight L s) 0); [contradiction|].
  destruct Pc as (Pt & _ & Pf). destruct (place_spec E L s HE H) as (_ & P). pose proof (sel_xy E L s H (cd_kind _ _ C)) as X.
  destruct (sel E L s) as [s1 r]. cbn [fst snd] in *. destruct r as [[]|e].
  - destruct P as (x & s' & root & _ & _ & -> & Pd). cbn [fst]. unfold flag_is_success. rewrite (pd_flag _ _ _ _ _ _ Pd).
    assert (Q : (x_occ s', y_occ s') = (x_occ s1, y_occ s1)) by exact (f_equal (fun u => (x_occ u, y_occ u)) (pd_core _ _ _ _ _ _ Pd)).
    injection Q as -> ->. exact X.
  - rewrite P in *. exact X.
  - rewrite P in *. destruct Pf as (Pf & _). discriminate Pf.
  - rewrite P in *. discriminate Pt.
Qed.
Lemma detect_xy L s : Inv L s -> x_occ (fst (detect_wrapping s)) = x_occ s /\ y_occ (fst (detect_wrapping s)) = y_occ s.
Proof.
  intros H. rewrite (detect_ok L) by apply H. unfold detect_res. destruct (after_wrap s); auto. destruct (sel_id s); auto.
  destruct (hitb L (lat s) z); auto.
Qed.

Lemma after_xy E L cs : env_ok E -> Forall (fun c => c = CPlace \/ c = CDetect) cs -> forall s, Inv L s -> Cand L s ->
  let t := after E s cs in
  let good := Z.of_nat (successes E s cs) in
  let bad := Z.min (Z.of_nat (placements cs)) (weight L s) - good in
  kind t = kind s /\ 0 <= bad /\
  y_occ t = y_occ s + (match kind s with KL2 => bad | _ => 0 end) /\
  x_occ s + bad <= x_occ t <= x_occ s + bad + good - (if (occ_count s =? 0) && (0 <? good) then 1 else 0).
Proof.
  intros HE Hcs. induction Hcs as [|c cs Hc Hcs IH]; intros s H C.
  - cbn. pose proof (weight_nonneg L s H C). rewrite andb_false_r. destruct (kind s); repeat split; lia.
  - cbn [after fold_left placements successes]. fold (after E (exec E s c) cs). destruct Hc as [-> | ->]; cbn [exec].
    + destruct (place_cand E L s HE H C) as (H1 & C1 & K1 & P). destruct (IH _ H1 C1) as (I0 & I1 & I2 & I3).
      pose proof (place_xy E L s HE H C) as X. cbv zeta in *. set (s1 := fst (place_one_site E s)) in *.
      pose proof (weight_nonneg L s H C). destruct (Z.eqb_spec (weight L s) 0) as [Hw|Hw].
      * destruct P as (_ & P). assert (Q1 : weight L s1 = weight L s) by (rewrite P; reflexivity).
        assert (Q2 : occ_count s1 = occ_count s) by (rewrite P; reflexivity).
        assert (Q3 : flag_is_success s1 = false) by (rewrite P; reflexivity).
        assert (Q4 : x_occ s1 = x_occ s) by (rewrite P; reflexivity).
        assert (Q5 : y_occ s1 = y_occ s) by (rewrite P; reflexivity).
        rewrite K1, Q1, Q2, Q4, Q5 in *. rewrite Q3. cbn [Nat.add]. rewrite Hw in *.
        replace (Z.min (Z.of_nat (S (placements cs))) 0) with 0 by lia. replace (Z.min (Z.of_nat (placements cs)) 0) with 0 in * by lia. auto.
      * specialize (X Hw). destruct P as (_ & P1 & P2). rewrite K1, P1 in *. set (g := successes E s1 cs) in *.
        destruct (flag_is_success s1).
        -- destruct X as (X1 & X2 & X3). destruct P2 as (_ & P2 & _).
           replace (Z.min (Z.of_nat (S (placements cs))) (weight L s) - Z.of_nat (1 + g)) with
             (Z.min (Z.of_nat (placements cs)) (weight L s - 1) - Z.of_nat g) by lia.
           split; auto. split; auto. rewrite X1 in I2. split; auto.
           assert (0 <= occ_count s) by (rewrite (i_occ _ _ H); unfold nocc; apply count_nonneg).
           destruct (Z.eqb_spec (occ_count s1) 0); [lia|]. cbn [andb] in I3.
           destruct (Z.eqb_spec (occ_count s) 0) as [Hz|Hz]; cbn [andb]; [pose proof (X3 Hz); destruct (Z.ltb_spec 0 (Z.of_nat (1 + g)))|]; lia.
        -- destruct X as (X0 & X1 & X2). destruct P2 as (_ & P2). cbn [Nat.add].
           replace (Z.min (Z.of_nat (S (placements cs))) (weight L s) - Z.of_nat g) with
             (1 + (Z.min (Z.of_nat (placements cs)) (weight L s - 1) - Z.of_nat g)) by lia.
           split; auto. split; [lia|]. rewrite P2 in I3. destruct (Z.eqb_spec (occ_count s) 0); [lia|]. cbn [andb] in *. rewrite I2, X2. destruct (kind s); lia.
    + destruct (detect_cand L s H C) as (C1 & W1 & K1). destruct (detect_recs L s H) as (_ & _ & O1). destruct (detect_xy L s H) as (D1 & D2).
      destruct (IH _ (detect_inv L s H) C1) as (I0 & I1 & I2 & I3). cbv zeta in *. rewrite K1, W1, O1, D1, D2 in *. cbn [Nat.add] in *. auto.
Qed.

Lemma reset_xy E L s : Inv L s -> is_L12 (kind s) = true ->
  x_occ (fst (reset E s)) = 0 /\ (kind s = KL2 -> y_occ (fst (reset E s)) = 0).
Proof.
  intros H Hk. destruct (reset_inv E L s H) as (s' & Er & R). pose proof (rt_kind _ _ _ R) as K. rewrite Er. cbn [fst].
  unfold reset in Er. destruct (reset_base E s) as [s1 [[]|e]] eqn:Eb.
  - rewrite !(mbind_ok _ _ _ _ _ Eb) in Er. cbv [mbind get modify ret] in Er. rewrite <- K.
    destruct (kind s1) eqn:E1; injection Er as <-; cbn [kind x_occ y_occ set_xy set_record rebind_ids set_sp] in *; try (rewrite <- K, E1 in Hk; discriminate); split; auto; congruence.
  - unfold mbind at 1 in Er. rewrite Eb in Er. discriminate Er.
Qed.
Lemma new_xy E k L t0 s : new_perc E k L t0 = Ok s -> x_occ s = 0 /\ y_occ s = 0.
Proof.
  intros E0. destruct (new_perc_ok E k L t0 (new_perc_pos _ _ _ _ _ E0)) as (lat1 & l & t & rv & E1 & _).
  rewrite E0 in E1. injection E1 as ->. split; reflexivity.
Qed.
Lemma fresh_object_xy E k L s : env_ok E -> is_L12 k = true -> fresh_object E k L s -> x_occ s = 0 /\ (k = KL2 -> y_occ s = 0).
Proof.
  intros HE Hk [(t0 & E0)|(s0 & HR & ->)].
  - destruct (new_xy _ _ _ _ _ E0). auto.
  - destruct (reachable_k_kind E k L s0 HE HR) as (H0 & Ek0). rewrite <- Ek0 in *. now apply (reset_xy E L).
Qed.

Lemma p_C78 E k L s cs : env_ok E -> k = KL1 \/ k = KL2 -> fresh_object E k L s -> Forall (fun c => c = CPlace \/ c = CDetect) cs ->
  let t := after E s cs in
  let good := Z.of_nat (successes E s cs) in
  let bad := Z.min (Z.of_nat (placements cs)) (5 * (L * L)) - good in
  exists x, map snd (occupied_summary t) = match k with KL2 => [x; bad] | _ => [x] end /\
    bad <= x <= bad + Z.max 0 (good - 1).
Proof.
  intros HE Hk HF Hcs t good bad. destruct (fresh_object_cand E k L s HE ltac:(destruct Hk; subst; reflexivity) HF) as (F & H & Ek & C & W).
  destruct (after_xy E L cs HE Hcs s H C) as (I0 & I1 & I2 & I3). fold t in I0, I2, I3. rewrite W in *. fold good bad in I1, I2, I3.
  destruct (fresh_object_xy E k L s HE ltac:(destruct Hk; subst; reflexivity) HF) as (X0 & Y0). rewrite X0, Ek, (fs_occ _ _ F) in *. cbn [Z.eqb andb] in I3.
  exists (x_occ t). unfold occupied_summary. rewrite I0. split.
  - destruct Hk as [-> | ->]; cbn [map snd]; [reflexivity|]. now rewrite I2, (Y0 eq_refl).
  - destruct (Z.ltb_spec 0 good); lia.
Qed.

(** A complete run. *)
Lemma drive_after E f : forall s t n, drive E false f s = (t, Ok n) ->
  0 <= n /\ t = after E s (concat (repeat [CPlace; CDetect] (Z.to_nat n)) ++ [CPlace]).
Proof.
  induction f as [|f IH]; intros s t n; cbn [drive]; [discriminate|]. unfold mbind at 1.
  destruct (place_one_site E s) as [s1 [[]|]] eqn:Ep; [| |discriminate].
  - unfold mbind at 1. destruct (detect_wrapping s1) as [s2 [w|]] eqn:Ed; [|discriminate]. cbn [andb]. unfold mbind at 1.
    destruct (drive E false f s2) as [s3 [m|]] eqn:El; [|discriminate]. unfold ret. intros [= <- <-].
    destruct (IH _ _ _ El) as (Hm & ->). split; [lia|]. replace (Z.to_nat (m + 1)) with (S (Z.to_nat m)) by lia.
    cbn [repeat concat app after fold_left exec]. rewrite Ep. cbn [fst]. now rewrite Ed.
  - unfold ret. intros [= <- <-]. split; [lia|]. cbn. now rewrite Ep.
Qed.
Lemma p_C78r E k L s f : env_ok E -> k = KL1 \/ k = KL2 -> fresh_plain E k L s -> 5 * (L * L) < Z.of_nat f ->
  exists x, map snd (occupied_summary (fst (run_once E f s))) = match k with KL2 => [x; 4 * (L * L)] | _ => [x] end /\
    4 * (L * L) <= x <= 5 * (L * L) - 1.
Proof.
  intros HE Hk HF Hf. destruct (p_C77 E k L s f HE HF Hf) as (t & Ed & _ & _ & _ & _ & Er).
  destruct (Er ltac:(destruct Hk; congruence)) as (p & h & pw & pl & E1). rewrite E1. cbn [fst].
  change (occupied_summary (set_first_run false (set_arrs p h pw pl t))) with (occupied_summary t).
  pose proof (fresh_plain_object _ _ _ _ HF) as HO. destruct (fresh_object_state E k L s HE HO) as (F & _).
  pose proof (LL_pos L (i_pos _ _ (fresh_inv _ _ F))) as HLL.
  replace (match k with KL1 | KL2 => 5 * (L * L) | _ => L * L end) with (5 * (L * L)) in Ed by (destruct Hk; subst; reflexivity).
  destruct (drive_after E f s t _ Ed) as (_ & Et). set (cs := concat _ ++ _) in Et.
  assert (Hcs : Forall (fun c => c = CPlace \/ c = CDetect) cs).
  { unfold cs. clear. apply Forall_app. split; [|repeat constructor].
    induction (Z.to_nat (5 * (L * L))); cbn [repeat concat app]; [constructor|]. constructor; [now left|]. constructor; [now right|]. exact IHn. }
  assert (Hp : Z.of_nat (placements cs) = 5 * (L * L) + 1).
  { unfold cs. rewrite <- (Z2Nat.id (5 * (L * L))) at 2 by lia. clear. induction (Z.to_nat (5 * (L * L))); [reflexivity|]. cbn [repeat concat app placements]. lia. }
  destruct (p_C33 E k L s HE Hk HO cs Hcs) as (_ & _ & Q). destruct (Q ltac:(lia)) as (_ & Hs & _).
  destruct (p_C78 E k L s cs HE Hk HO Hcs) as (x & X1 & X2). rewrite <- Et, Hs, Hp in *.
  exists x. replace (Z.min (5 * (L * L) + 1) (5 * (L * L)) - L * L) with (4 * (L * L)) in * by lia. split; auto. lia.
Qed.

(** ** The first number exactly *)
Lemma sel_x E L s : Inv L s -> is_L12 (kind s) = true -> cur_idx s < L * L -> cur_idx s < zlen (ids s) ->
  x_occ (fst (sel E L s)) = x_occ s + (if occb (lat s) (candX E s) then 1 else 0).
Proof.
  intros H Hk H1 H2. unfold sel. destruct (kind s) eqn:Ek; try discriminate.
  - unfold sel1. destruct (Z.leb_spec (L * L) (cur_idx s)); [lia|]. destruct (Z.leb_spec (zlen (ids s)) (cur_idx s)); [lia|]. cbv zeta.
    destruct (occb (lat s) (candX E s)); [|cbn; lia]. destruct (occb (lat s) (nbr L _ _)); [|cbn; lia].
    cbn [fst]. destruct (nn1 _ _ =? 0); cbn; lia.
  - unfold sel2. destruct (Z.leb_spec (L * L) (cur_idx s)); [lia|]. destruct (Z.leb_spec (zlen (ids s)) (cur_idx s)); [lia|]. cbv zeta.
    destruct (occb (lat s) (candX E s)); [|cbn; lia]. destruct (occb (lat s) (nbr L _ _)); [|cbn; lia].
    destruct (occb (lat s) (second L _ _)); [|cbn; lia].
    cbn [fst]. destruct (nn2 _ _ =? 0); cbn; lia.
Qed.
Lemma place_x E L s : env_ok E -> Inv L s -> Cand L s ->
  x_occ (fst (place_one_site E s)) = x_occ s +
    match snd (place_one_site E s) with Ok true => if 0 <=? site_label s (drawn E s) then 1 else 0 | _ => 0 end.
Proof.
  intros HE H C. pose proof (cd_cur _ _ C) as Hc. pose proof (cd_len _ _ C) as Hl. pose proof (i_static _ _ H) as St.
  destruct (place_cand E L s HE H C) as (_ & _ & _ & Pc). destruct (Z.eqb_spec (weight L s) 0) as [Hw|Hw].
  - destruct Pc as (-> & ->). cbn. lia.
  - destruct Pc as (Pt & _). rewrite Pt.
    assert (Hlt : cur_idx s < L * L) by (rewrite (weight_zero L s H C) in Hw; lia).
    rewrite (drawn_candX E s) by lia. assert (HX : is_site L (candX E s)) by (apply candX_site; auto; try apply H; lia).
    assert (Eo : (if 0 <=? site_label s (candX E s) then 1 else 0) = (if occb (lat s) (candX E s) then 1 else 0)).
    { rewrite (site_label_sg L) by auto. reflexivity. }
    rewrite Eo. pose proof (sel_x E L s H (cd_kind _ _ C) Hlt ltac:(lia)) as X.
    destruct (place_spec E L s HE H) as (_ & P). destruct (sel E L s) as [s1 r]. cbn [fst snd] in *. destruct r as [[]|e].
    + destruct P as (x & s' & root & _ & _ & -> & Pd). cbn [fst].
      assert (Q : x_occ s' = x_occ s1) by exact (f_equal x_occ (pd_core _ _ _ _ _ _ Pd)). now rewrite Q.
    + rewrite P in *. exact X.
    + rewrite P in *. discriminate Pt.
    + rewrite P in *. discriminate Pt.
Qed.
Lemma after_x E L cs : env_ok E -> Forall (fun c => c = CPlace \/ c = CDetect) cs -> forall s, Inv L s -> Cand L s ->
  x_occ (after E s cs) = x_occ s + Z.of_nat (occupied_draws E s cs).
Proof.
  intros HE Hcs. induction Hcs as [|c cs Hc Hcs IH]; intros s H C.
  - cbn. lia.
  - cbn [after fold_left occupied_draws]. fold (after E (exec E s c) cs). destruct Hc as [-> | ->]; cbn [exec].
    + destruct (place_cand E L s HE H C) as (H1 & C1 & _). rewrite (IH _ H1 C1), (place_x E L s HE H C).
      destruct (snd (place_one_site E s)) as [[]|]; try lia. destruct (0 <=? site_label s (drawn E s)); lia.
    + destruct (detect_cand L s H C) as (C1 & W1 & K1). destruct (detect_xy L s H) as (D1 & _).
      rewrite (IH _ (detect_inv L s H) C1), D1. lia.
Qed.
Lemma p_C78_exact E k L s cs : env_ok E -> k = KL1 \/ k = KL2 -> fresh_object E k L s -> Forall (fun c => c = CPlace \/ c = CDetect) cs ->
  hd_error (map snd (occupied_summary (after E s cs))) = Some (Z.of_nat (occupied_draws E s cs)).
Proof.
  intros HE Hk HF Hcs. destruct (fresh_object_cand E k L s HE ltac:(destruct Hk; subst; reflexivity) HF) as (F & H & Ek & C & W).
  destruct (fresh_object_xy E k L s HE ltac:(destruct Hk; subst; reflexivity) HF) as (X0 & _).
  destruct (after_xy E L cs HE Hcs s H C) as (I0 & _). pose proof (after_x E L cs HE Hcs s H C) as X. rewrite X0 in X.
  unfold occupied_summary. rewrite I0, Ek. destruct Hk as [-> | ->]; cbn [map snd hd_error]; f_equal; lia.
Qed.
