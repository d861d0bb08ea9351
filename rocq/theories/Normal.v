(** * Normal: objects used without custom lists never raise; the recorded L1 sequence. *)
From Coq Require Import ZArith List Bool Lia Permutation.
From Verif Require Import Py Lattice Cluster Perc Spec PyFacts Torus Geometry LatFacts Inv Merge Count Fresh Select State Step History Reach GeomProps Micro StateProps Seq Comm RunBase RunProps Cand CandRun CandProps Lines.
Import ListNotations.
Open Scope Z_scope.

(** ** Entropy from scratch never raises *)
Lemma entropy_v1_ok L s : Inv L s ->
  entropy_v1 s = Ok (FNeg (fold_left (fun h c => if bsize (pool s) c =? 0 then h else FAdd h (fterm L (bsize (pool s) c)))
                     (zrange (2 * (L * L))) (FZ 0))).
Proof.
  intros H. pose proof (i_static _ _ H) as St. pose proof (LL_pos L (i_pos _ _ H)) as HLL.
  unfold entropy_v1. rewrite (i_cc _ _ H).
  rewrite (foldM_total _ (fun h c => if bsize (pool s) c =? 0 then h else FAdd h (fterm L (bsize (pool s) c)))); [reflexivity|].
  intros h c Hc. apply In_zrange in Hc. rewrite (get_bsize L (lat s)) by (apply H || exact Hc). cbn [rbind].
  rewrite (st_bc _ _ St), int_div_ok by lia. cbn [rbind]. destruct (Z.eqb_spec (bsize (pool s) c) 0); [reflexivity|].
  rewrite log_ratio_ok by (unfold bsize in *; pose proof (zlen_nonneg (c_bonds (cl (pool s) c))); lia). reflexivity.
Qed.
Lemma get_pc_ok L s : Inv L s -> exists v, get_pc s = Ok v.
Proof.
  intros H. pose proof (LL_pos L (i_pos _ _ H)). unfold get_pc. rewrite (st_sc _ _ (i_static _ _ H)).
  destruct (after_wrap s); [|eauto]. rewrite int_div_ok by lia. eauto.
Qed.
Lemma mapM_index L lat l : Static L lat -> Forall (is_site L) l ->
  mapM (fun id => t <- get_site_by_id lat id ;; Ok (s_index t)) l = Ok (map (fun i => (i / L, i mod L)) l).
Proof.
  intros St H. induction H as [|x l Hx H IH]; [reflexivity|]. cbn [mapM map]. rewrite (get_site_by_id_ok L) by auto. cbn [rbind].
  rewrite IH. cbn [rbind]. rewrite (proj1 (proj2 (st_site _ _ St x Hx))). reflexivity.
Qed.

Lemma zsum_le f c l : (forall x, In x l -> f x <= c) -> zsum f l <= c * zlen l.
Proof.
  intros H. rewrite <- (zsum_const c l). induction l as [|x l IH]; [cbn; lia|].
  pose proof (H x (or_introl eq_refl)). assert (zsum f l <= zsum (fun _ => c) l) by (apply IH; intros; apply H; now right). cbn in *. lia.
Qed.

(** ** Objects used without custom lists *)
Definition Plain (L : Z) (s : perc) : Prop :=
  Inv L s /\ (if is_L12 (kind s) then Cand L s else RunB L s /\ SeqOK L s) /\ (sel_id s = None -> occ_count s = 0).
Definition rem (L : Z) (s : perc) : Z := if is_L12 (kind s) then weight L s else L * L - cur_idx s.

Lemma plain_len L s : Plain L s -> is_L12 (kind s) = false -> zlen (ids s) = L * L.
Proof. intros (H & G & _) Hk. rewrite Hk in G. apply perm_zlen; [apply (i_pos _ _ H)|apply (sq_perm _ _ (proj2 G))]. Qed.
Lemma nocc0 L s x : Inv L s -> occ_count s = 0 -> is_site L x -> ~ occ (lat s) x.
Proof.
  intros H H0 Hx Ho. rewrite (i_occ _ _ H) in H0. unfold nocc in H0.
  assert (In x (filter (occb (lat s)) (zrange (L * L)))).
  { apply filter_In. split; [now apply In_zrange|now apply occb_true]. }
  unfold count, zlen in H0. destruct (filter (occb (lat s)) (zrange (L * L))); [contradiction|cbn in H0; lia].
Qed.
Lemma rem_nonneg L s : Plain L s -> 0 <= rem L s <= 5 * (L * L).
Proof.
  intros P. pose proof P as (H & G & _). unfold rem. pose proof (LL_pos L (i_pos _ _ H)) as HLL. destruct (is_L12 (kind s)) eqn:Ek.
  - split; [now apply weight_nonneg|]. unfold weight. pose proof (nocc_le L (lat s) (i_pos _ _ H)) as Hn. rewrite (i_occ _ _ H). assert (0 <= nocc L (lat s)) by (unfold nocc, count; apply zlen_nonneg).
    assert (zsum (cnt (kind s) (lat s)) (zrange (L * L)) <= 4 * (L * L)); [|lia].
    replace (4 * (L * L)) with (4 * zlen (zrange (L * L))) by (rewrite zlen_zrange; lia).
    apply zsum_le. intros x Hx. apply (cd_rng _ _ G). now apply In_zrange.
  - destruct G as (B & S). pose proof (rb_cur _ _ B). pose proof (plain_len L s P Ek). lia.
Qed.
Lemma plain_place E L s : env_ok E -> Plain L s ->
  let s' := fst (place_one_site E s) in
  Plain L s' /\ kind s' = kind s /\ sel_id s' <> None /\
  if rem L s =? 0 then place_one_site E s = (set_sel_flag (Some EMPTY_SITE_LIST) s, Ok false)
  else snd (place_one_site E s) = Ok true /\ rem L s' = rem L s - 1.
Proof.
  intros HE P. pose proof P as (H & G & J). pose proof (place_inv E L s HE H) as H'. pose proof (LL_pos L (i_pos _ _ H)) as HLL.
  cbv zeta. unfold rem. destruct (is_L12 (kind s)) eqn:Ek.
  - destruct (place_cand E L s HE H G) as (_ & C' & K' & R). 
    destruct (Z.eqb_spec (weight L s) 0) as [Hw|Hw].
    + destruct R as (R1 & R2). rewrite R2 in *. assert (Ep : place_one_site E s = (set_sel_flag (Some EMPTY_SITE_LIST) s, Ok false)).
      { rewrite <- R1, <- R2. apply surjective_pairing. }
      split; [|split; [auto|split; auto]]. 
      * split; auto. change (kind (set_sel_flag (Some EMPTY_SITE_LIST) s)) with (kind s). rewrite Ek. auto.
      * cbn. intros Hn. specialize (J Hn). pose proof (cand_full L s H G Hw) as F. pose proof (i_pos _ _ H).
        apply (nocc0 L s 0 H J); [unfold is_site; lia|]. apply F. unfold is_site; lia.
    + destruct R as (R1 & R2 & R3). rewrite K'.
      assert (Q : sel_id (fst (place_one_site E s)) <> None).
      { destruct (flag_is_success (fst (place_one_site E s))) eqn:Ef.
        - destruct R3 as (_ & _ & x & _ & ->). discriminate.
        - assert (Hc : cur_idx s < L * L).
          { pose proof (cd_cur _ _ G). destruct (Z.eq_dec (cur_idx s) (L * L)) as [Q|Q]; [|lia]. apply (weight_zero L s H G) in Q. lia. }
          destruct (sel_L12 E L s H Ek ltac:(lia) ltac:(rewrite (cd_len _ _ G); lia)) as (_ & [(x & s1 & Es & _)|(Ho & _)]).
          + destruct (place_spec E L s HE H) as (_ & Ps). rewrite Es in Ps. cbn [fst snd] in Ps.
            destruct Ps as (x' & s' & root & _ & _ & Ep & Pd). rewrite Ep in Ef. cbn [fst] in Ef. unfold flag_is_success in Ef.
            rewrite (pd_flag _ _ _ _ _ _ Pd) in Ef. discriminate.
          + assert (HX : is_site L (candX E s)) by (apply candX_site; [apply H|pose proof (cd_cur _ _ G); rewrite (cd_len _ _ G); lia]).
            destruct (sel_id s) as [y|] eqn:Ey; [|exfalso; exact (nocc0 L s _ H (J eq_refl) HX Ho)].
            destruct (place_spec E L s HE H) as (Sd & Ps). destruct (sel E L s) as [s1 r]. cbn [fst snd] in *. pose proof (sd_res _ _ _ _ Sd) as Sr.
            destruct r as [[]|]; cbn iota beta in *.
            * destruct Ps as (x' & s' & root & Q1 & _ & Ep & Pd). rewrite Ep. cbn [fst].
              destruct (core2_fields _ _ (pd_core _ _ _ _ _ _ Pd)) as (_ & _ & _ & _ & _ & _ & _ & F8 & _). rewrite F8, Q1. discriminate.
            * rewrite Ps. cbn. destruct Sr as (_ & [(-> & _)|(z & _ & -> & _)]); congruence.
            * rewrite Ps. cbn. destruct Sr as (_ & [(-> & _)|(z & _ & -> & _)]); congruence.
            * rewrite Ps in R1. discriminate. }
      split; [|split; [auto|split; [auto|rewrite Ek; auto]]]. split; auto. rewrite K', Ek. split; auto. intros; contradiction.
  - destruct G as (B & S). pose proof (plain_len L s P Ek) as Hl. destruct (Z.eqb_spec (L * L - cur_idx s) 0) as [Hw|Hw].
    + pose proof (runB_end E L s HE H B ltac:(lia)) as Ep. rewrite Ep in *. cbn [fst snd] in *.
      change (kind (set_sel_flag (Some EMPTY_SITE_LIST) s)) with (kind s).
      split; [|split; [auto|split; auto]].
      * split; auto. change (kind (set_sel_flag (Some EMPTY_SITE_LIST) s)) with (kind s). rewrite Ek. split; auto.
        split; [eapply runB_frame; [..|exact B]; reflexivity|eapply seqv_OK; [|exact S]; reflexivity].
      * cbn. intros Hn. specialize (J Hn). rewrite (rb_cnt _ _ B) in J. lia.
    + pose proof (rb_cur _ _ B). destruct (runB_place E L s HE H B ltac:(lia)) as (s' & Ep & Ef & I' & B' & Ec & Es & Q1 & _). rewrite Ep in *. cbn [fst snd] in *.
      destruct (seqv_eqs _ _ Q1) as (Qk & _). rewrite Qk, Ek. split; [|split; [auto|split; [congruence|split; auto; lia]]].
      split; auto. rewrite Qk, Ek. split; [split; auto; eapply seqv_OK; eauto|congruence].
Qed.
Lemma plain_detect L s : Plain L s -> Plain L (fst (detect_wrapping s)) /\ rem L (fst (detect_wrapping s)) = rem L s.
Proof.
  intros P. pose proof P as (H & G & J). pose proof (detect_inv L s H) as H'. destruct (detect_seqv L s H) as (Q & _).
  destruct (seqv_eqs _ _ Q) as (Q1 & _). destruct (detect_fields L s H) as (D1 & D2 & D3 & D4 & _).
  unfold rem, Plain. rewrite Q1. assert (Ds : sel_id (fst (detect_wrapping s)) = sel_id s).
  { rewrite (detect_ok L) by apply H. unfold detect_res. destruct (after_wrap s); auto. destruct (sel_id s) eqn:E1; auto. destruct (hitb _ _ _); auto. }
  rewrite Ds. destruct (is_L12 (kind s)).
  - destruct (detect_cand L s H G) as (C' & W & _). split; auto. split; auto. split; auto. intros Hn. rewrite <- (J Hn). congruence.
  - destruct G as (B & S). split; [|congruence]. split; auto. split; [|intros Hn; rewrite <- (J Hn); congruence].
    split; [now apply runB_detect|eapply seqv_OK; eauto].
Qed.
Lemma plain_frame L a b : phys b = phys a -> Inv L b -> ids b = ids a -> rev_ids b = rev_ids a -> cur_idx b = cur_idx a ->
  mode_custom b = mode_custom a -> do_shuffle b = do_shuffle a -> Plain L a -> Plain L b /\ rem L b = rem L a.
Proof.
  intros Hp Hb E1 E2 E3 Em Ed (H & G & J). pose proof (f_equal kind Hp) as Ek. pose proof (f_equal lat Hp) as El.
  pose proof (f_equal occ_count Hp) as Eo. pose proof (f_equal sel_id Hp) as Es.
  change (kind b = kind a) in Ek. change (lat b = lat a) in El. change (occ_count b = occ_count a) in Eo. change (sel_id b = sel_id a) in Es.
  unfold Plain, rem, weight. rewrite Ek, Es, Eo, E3, El. destruct (is_L12 (kind a)).
  - split; auto. split; auto. split; auto. eapply (cand_frame L a); rewrite ?El; auto.
  - destruct G as (B & S). split; auto. split; auto. split; auto. split; [eapply runB_frame; eauto|]. destruct S as [S1 S2 S3 S4 S5 S6]. constructor; rewrite ?Ek, ?Em, ?Ed, ?E1, ?E2; auto.
Qed.
Lemma plain_fresh E L s s1 : Plain L s -> reset E s = (s1, Ok tt) -> Plain L s1.
Proof.
  intros (H & G & J) Er. destruct (reset_inv E L s H) as (s' & E' & R). rewrite E' in Er. injection Er as ->.
  pose proof (rt_fresh _ _ _ R) as F. split; [now apply fresh_inv|]. rewrite (rt_kind _ _ _ R). split; [|intros _; apply (fs_occ _ _ F)].
  pose proof (rt_ids _ _ _ R) as Ri. destruct (is_L12 (kind s)) eqn:Ek.
  - apply fresh_cand; auto; [now rewrite (rt_kind _ _ _ R)|]. destruct Ri as (-> & _). apply Permutation_refl.
  - destruct G as (B & S). pose proof (reset_seqOK E L s H S) as S1. rewrite E' in S1. cbn [fst] in S1. split; auto.
    apply fresh_RunB; auto; [now rewrite (rt_kind _ _ _ R)|].
    eapply Permutation_NoDup; [apply (sq_perm _ _ S1)|apply NoDup_zrange].
Qed.
Lemma new_plain E k L t0 s : new_perc E k L t0 = Ok s -> Plain L s /\ kind s = k /\ sel_id s = None.
Proof.
  intros E0. pose proof (new_perc_fresh _ _ _ _ _ E0) as F. pose proof (new_kind _ _ _ _ _ E0) as Ek.
  destruct (new_arrs _ _ _ _ _ E0) as (_ & _ & _ & Es). split; [|auto]. split; [now apply fresh_inv|]. rewrite Ek.
  split; [|intros _; apply (fs_occ _ _ F)]. destruct (is_L12 k) eqn:Hk.
  - apply fresh_cand; auto; [now rewrite Ek|]. destruct (new_perc_ok E k L t0 (new_perc_pos _ _ _ _ _ E0)) as (lat1 & l & t & rv & E1 & _ & P & _).
    rewrite E1 in E0. injection E0 as <-. exact P.
  - pose proof (new_seqOK E k L t0 s Hk E0) as S. split; auto. apply fresh_RunB; auto; [now rewrite Ek|].
    eapply Permutation_NoDup; [apply (sq_perm _ _ S)|apply NoDup_zrange].
Qed.
Lemma plain_hyp E L : env_ok E -> forall s, Plain L s -> match place_one_site E s with
  | (s', Ok true) => if flag_is_success s' then Plain L s' else Plain L s' | (s', _) => Plain L s' end.
Proof.
  intros HE s P. destruct (plain_place E L s HE P) as (P' & _). destruct (place_one_site E s) as [s' [[]|]]; cbn [fst] in *; auto.
  destruct (flag_is_success s'); auto.
Qed.
Lemma plain_arrs L s p h pw pl : Plain L s -> Plain L (set_arrs p h pw pl s) /\ rem L (set_arrs p h pw pl s) = rem L s.
Proof. intros P. apply (plain_frame L s); auto. eapply inv_frame; [|apply P]; reflexivity. Qed.
Lemma plain_first L s b : Plain L s -> Plain L (set_first_run b s).
Proof. intros P. refine (proj1 (plain_frame L s _ _ _ _ _ _ _ _ P)); auto. eapply inv_frame; [|apply P]; reflexivity. Qed.
Lemma plain_sp L s b : Plain L s -> Plain L (set_sp b s).
Proof. intros P. refine (proj1 (plain_frame L s _ _ _ _ _ _ _ _ P)); auto. eapply inv_frame; [|apply P]; reflexivity. Qed.
Lemma plain_exec E L s c : env_ok E -> plain c -> Plain L s -> Plain L (exec E s c).
Proof.
  intros HE Hc P. destruct c; try destruct Hc; cbn [exec].
  - now apply plain_place.
  - now apply plain_detect.
  - destruct (reset_inv E L s (proj1 P)) as (s1 & E1 & _). rewrite E1. cbn [fst]. eapply plain_fresh; eauto.
  - apply (run_once_pres E (Plain L) (Plain L)); auto; [now apply plain_hyp|intros; now apply plain_detect|intros; now apply plain_arrs|intros; now apply plain_first|intros; now apply plain_sp].
  - apply (test_run_once_pres E (Plain L) (Plain L)); auto; [now apply plain_hyp|intros; now apply plain_detect|intros; now apply plain_arrs|intros; now apply plain_first].
Qed.

(** ** The loops do not raise *)
Lemma plain_success E L s : env_ok E -> Plain L s -> exists x, is_site L x /\ sel_id (fst (place_one_site E s)) = Some x /\ cur_site (fst (place_one_site E s)) = Some x.
Proof.
  intros HE P. destruct (plain_place E L s HE P) as (P' & _ & Hs & _). destruct (i_sel _ _ (proj1 P')) as [(Q & _)|(x & Hx & Q & Q2)]; [contradiction|].
  eauto.
Qed.
Lemma run_loop_plain E L : env_ok E -> forall f s, Plain L s -> snd (run_loop E f s) = if rem L s <? Z.of_nat f then Ok tt else Err OutOfFuel.
Proof.
  intros HE. induction f as [|f IH]; intros s P; pose proof (rem_nonneg L s P) as Hr.
  - destruct (Z.ltb_spec (rem L s) (Z.of_nat 0)); [lia|reflexivity].
  - cbn [run_loop]. unfold mbind at 1. destruct (plain_place E L s HE P) as (P1 & K1 & _ & R).
    destruct (plain_success E L s HE P) as (x & _ & Ex & _).
    destruct (Z.eqb_spec (rem L s) 0) as [Hz|Hz].
    + rewrite R. destruct (Z.ltb_spec (rem L s) (Z.of_nat (S f))); [reflexivity|lia].
    + destruct R as (R1 & R2). destruct (place_one_site E s) as [s1 r]. cbn [fst snd] in *. subst r.
      unfold mbind at 1, get. unfold mbind at 1.
      assert (Q : forall t, Plain L t -> rem L t = rem L s1 -> snd (run_loop E f t) = if rem L s <? Z.of_nat (S f) then Ok tt else Err OutOfFuel).
      { intros t Pt Et. rewrite (IH t Pt), Et, R2. destruct (Z.ltb_spec (rem L s - 1) (Z.of_nat f)), (Z.ltb_spec (rem L s) (Z.of_nat (S f))); auto; lia. }
      destruct (flag_is_success s1); [|now apply Q].
      unfold mbind at 1. destruct (detect_bool L s1 x (proj1 P1) Ex) as (b & ->).
      destruct (plain_detect L s1 P1) as (P2 & M2). rewrite (record_ok L) by (apply P2).
      destruct (plain_arrs L _ (if first_run (fst (detect_wrapping s1)) then p_arr (fst (detect_wrapping s1)) ++ [val (occupation_prob (fst (detect_wrapping s1)))] else p_arr (fst (detect_wrapping s1)))
        (h_arr (fst (detect_wrapping s1)) ++ [ent (fst (detect_wrapping s1))]) (pw_arr (fst (detect_wrapping s1)) ++ [val (order_param_wrapping (fst (detect_wrapping s1)))])
        (pl_arr (fst (detect_wrapping s1)) ++ [val (order_param_largest_clstr (fst (detect_wrapping s1)))]) P2) as (P3 & M3).
      apply Q; [exact P3|]. etransitivity; [exact M3|exact M2].
Qed.
Lemma sp_loop_plain E L : env_ok E -> forall f s, Plain L s -> rem L s < Z.of_nat f -> snd (sp_loop E f s) = Ok tt.
Proof.
  intros HE. induction f as [|f IH]; intros s P Hf; pose proof (rem_nonneg L s P) as Hr; [lia|].
  cbn [sp_loop]. unfold mbind at 1. destruct (plain_place E L s HE P) as (P1 & K1 & _ & R).
  destruct (plain_success E L s HE P) as (x & Hx & Ex & Ecx).
  destruct (Z.eqb_spec (rem L s) 0) as [Hz|Hz]; [now rewrite R|].
  destruct R as (R1 & R2). destruct (place_one_site E s) as [s1 r]. cbn [fst snd] in *. subst r.
  unfold mbind at 1, get. destruct (flag_is_success s1); [|apply IH; auto; lia].
  unfold mbind at 1. destruct (detect_bool L s1 x (proj1 P1) Ex) as (b & ->).
  destruct (plain_detect L s1 P1) as (P2 & M2). set (s2 := fst (detect_wrapping s1)) in *.
  destruct b; [|apply IH; auto; lia].
  unfold mbind at 1. unfold mbind at 1.
  assert (E2 : cur_site s2 = Some x).
  { unfold s2. rewrite (detect_ok L) by apply P1. unfold detect_res. destruct (after_wrap s1); auto. destruct (sel_id s1); auto. destruct (hitb _ _ _); auto. }
  rewrite E2. cbn [need ret]. pose proof (i_static _ _ (proj1 P2)) as St. pose proof (i_pos _ _ (proj1 P2)) as HL.
  unfold mbind at 1, lift. rewrite (get_site_by_id_ok L) by auto. rewrite (proj1 (proj2 (st_site _ _ St x Hx))).
  assert (Hrow : 0 <= row L x < L) by (unfold row; unfold is_site in Hx; split; [apply Z.div_pos; lia|apply Z.div_lt_upper_bound; nia]).
  assert (Hcol : 0 <= col L x < L) by (apply Z.mod_pos_bound; lia).
  unfold mbind at 1. rewrite (scan_row_col_ok L) by auto.
  destruct (lineb L s2 _ || lineb L s2 _); [|apply IH; auto; lia].
  unfold mbind. rewrite (proj1 (obs_ok L s2 (proj1 P2))). reflexivity.
Qed.

Lemma sel_some E L s c : env_ok E -> Inv L s -> plain c -> sel_id s <> None -> sel_id (exec E s c) <> None.
Proof.
  intros HE H Hc Hs.
  assert (G1 : forall s, Inv L s /\ sel_id s <> None -> Inv L (fst (place_one_site E s)) /\ sel_id (fst (place_one_site E s)) <> None).
  { clear - HE. intros s (H & Hs). split; [now apply place_inv|]. destruct (place_spec E L s HE H) as (Sd & Ps). destruct (sel E L s) as [s1 r].
    cbn [fst snd] in *. pose proof (sd_res _ _ _ _ Sd) as Sr. destruct r as [[]|]; cbn iota beta in *.
    - destruct Ps as (x' & s' & root & Q1 & _ & Ep & Pd). rewrite Ep. cbn [fst].
      destruct (core2_fields _ _ (pd_core _ _ _ _ _ _ Pd)) as (_ & _ & _ & _ & _ & _ & _ & F8 & _). rewrite F8, Q1. discriminate.
    - rewrite Ps. cbn. destruct Sr as (_ & [(-> & _)|(z & _ & -> & _)]); congruence.
    - rewrite Ps. cbn. destruct Sr as (_ & [(-> & _)|(z & _ & -> & _)]); congruence.
    - rewrite Ps. cbn. destruct Sr as (_ & [(-> & _)|(z & _ & -> & _)]); congruence. }
  assert (G2 : forall s, Inv L s /\ sel_id s <> None -> Inv L (fst (detect_wrapping s)) /\ sel_id (fst (detect_wrapping s)) <> None).
  { clear. intros s (H & Hs). split; [now apply detect_inv|]. rewrite (detect_ok L) by apply H. unfold detect_res.
    destruct (after_wrap s); auto. destruct (sel_id s) eqn:E1; [|congruence]. destruct (hitb _ _ _); cbn; congruence. }
  assert (G3 : forall s, Inv L s /\ sel_id s <> None -> match place_one_site E s with
    | (s', Ok true) => if flag_is_success s' then Inv L s' /\ sel_id s' <> None else Inv L s' /\ sel_id s' <> None | (s', _) => Inv L s' /\ sel_id s' <> None end).
  { intros t Ht. pose proof (G1 t Ht) as Q. destruct (place_one_site E t) as [t' [[]|]]; cbn [fst] in *; auto. destruct (flag_is_success t'); auto. }
  destruct c; try destruct Hc; cbn [exec].
  - now apply G1.
  - now apply G2.
  - destruct (reset_inv E L s H) as (s1 & E1 & R). rewrite E1. cbn [fst]. now rewrite (proj1 (rt_sel _ _ _ R)).
  - apply (run_once_pres E (fun s => Inv L s /\ sel_id s <> None) (fun s => Inv L s /\ sel_id s <> None)); auto;
      intros ? ?; try intros ? ? ?; intros (A1 & A2); (split; [|exact A2]; eapply inv_frame; [|exact A1]; reflexivity).
  - apply (test_run_once_pres E (fun s => Inv L s /\ sel_id s <> None) (fun s => Inv L s /\ sel_id s <> None)); auto;
      intros ? ?; try intros ? ? ?; intros (A1 & A2); (split; [|exact A2]; eapply inv_frame; [|exact A1]; reflexivity).
Qed.
Lemma attempt_sel E L s c : env_ok E -> Plain L s -> attempts c = true -> sel_id (exec E s c) <> None.
Proof.
  intros HE P Hc.
  assert (Hp : sel_id (fst (place_one_site E s)) <> None) by (apply (plain_place E L s HE P)).
  (* a loop whose first action is a placement *)
  set (T := fun s => Inv L s /\ sel_id s <> None).
  assert (G1 : forall t, T t -> T (fst (place_one_site E t))).
  { intros t (A1 & A2). split; [now apply place_inv|]. exact (sel_some E L t CPlace HE A1 I A2). }
  assert (G2 : forall t, T t -> T (fst (detect_wrapping t))).
  { intros t (A1 & A2). split; [now apply detect_inv|]. exact (sel_some E L t CDetect HE A1 I A2). }
  assert (G3 : forall t, T t -> match place_one_site E t with | (s', Ok true) => if flag_is_success s' then T s' else T s' | (s', _) => T s' end).
  { intros t Ht. pose proof (G1 t Ht) as Q. destruct (place_one_site E t) as [t' [[]|]]; cbn [fst] in *; auto. destruct (flag_is_success t'); auto. }
  assert (G4 : forall t p h pw pl, T t -> T (set_arrs p h pw pl t)) by (intros t p h pw pl (A1 & A2); split; [|exact A2]; eapply inv_frame; [|exact A1]; reflexivity).
  assert (G5 : forall t b, T t -> T (set_first_run b t)) by (intros t b (A1 & A2); split; [|exact A2]; eapply inv_frame; [|exact A1]; reflexivity).
  assert (G6 : forall t b, T t -> T (set_sp b t)) by (intros t b (A1 & A2); split; [|exact A2]; eapply inv_frame; [|exact A1]; reflexivity).
  assert (T0 : T (fst (place_one_site E s))) by (split; [apply place_inv; [auto|apply P]|exact Hp]).
  assert (W1 : forall (x : perc * res unit) b, T (fst x) -> T (fst (match x with (s', Ok _) => (set_first_run b s', @Ok unit tt) | (s', Err e) => (s', Err e) end))).
  { intros [x [u|e]] b Hx; cbn [fst] in *; auto. }
  destruct c as [| | | | | |f|f]; try discriminate Hc; cbn [exec]; auto; destruct f as [|f]; try discriminate Hc.
  - assert (R1 : T (fst (run_loop E (S f) s))).
    { cbn [run_loop]. unfold mbind at 1. destruct (place_one_site E s) as [s1 [[]|e]]; cbn [fst] in T0; auto.
      unfold mbind at 1, get. unfold mbind at 1. destruct (flag_is_success s1); [|now apply (run_loop_pres E T T)].
      unfold mbind at 1. pose proof (G2 s1 T0) as H2. destruct (detect_wrapping s1) as [s2 [b|e]]; auto.
      pose proof (record_step_pres T G4 s2 H2) as H3. destruct (record_step s2) as [s3 [u|e]]; auto. now apply (run_loop_pres E T T). }
    assert (R2 : T (fst (sp_loop E (S f) s))).
    { cbn [sp_loop]. unfold mbind at 1. destruct (place_one_site E s) as [s1 [[]|e]]; cbn [fst] in T0; auto.
      unfold mbind at 1, get. destruct (flag_is_success s1); [|now apply (sp_loop_pres E T T)].
      unfold mbind at 1. pose proof (G2 s1 T0) as H2. destruct (detect_wrapping s1) as [s2 [[]|e]]; auto; cbn [fst] in H2; [|now apply (sp_loop_pres E T T)].
      unfold mbind at 1, get. unfold mbind at 1. destruct (cur_site s2) as [c0|]; cbn [need ret raise]; auto.
      unfold mbind at 1, lift. destruct (get_site_by_id (lat s2) c0) as [cs0|]; auto. unfold mbind at 1.
      destruct (scan_row_col_of_selected_site s2 (s_index cs0)) as [[cf rf]|]; auto. destruct (cf || rf); [|now apply (sp_loop_pres E T T)].
      unfold mbind. destruct (occupation_prob s2); auto. cbn [fst modify]. now apply G6. }
    unfold run_once, mbind at 1, get. destruct (kind s); try (apply (W1 _ false R1)). apply (W1 _ false R2).
  - assert (R1 : T (fst (test_run_loop E (S f) s))).
    { cbn [test_run_loop]. unfold mbind at 1. destruct (place_one_site E s) as [s1 [[]|e]]; cbn [fst] in T0; auto.
      unfold mbind at 1, get. destruct (flag_is_success s1); [|now apply (test_run_loop_pres E T T)].
      unfold mbind at 1. pose proof (G2 s1 T0) as H2. destruct (detect_wrapping s1) as [s2 [[]|e]]; auto; cbn [fst] in H2.
      - unfold mbind, get, lift. destruct (pc_sites s2); exact H2.
      - unfold mbind at 1. pose proof (record_step_pres T G4 s2 H2) as H3. destruct (record_step s2) as [s3 [u|e]]; auto. now apply (test_run_loop_pres E T T). }
    apply (W1 _ false R1).
Qed.
Lemma idle_sel E L s c : Plain L s -> plain c -> attempts c = false -> sel_id s = None -> sel_id (exec E s c) = None.
Proof.
  intros P Hp Hc Hs. destruct c as [| | | | | |f|f]; try destruct Hp; try discriminate Hc; cbn [exec].
  - rewrite (detect_ok L) by apply P. unfold detect_res. rewrite Hs. destruct (after_wrap s); auto.
  - destruct (reset_inv E L s (proj1 P)) as (s1 & E1 & R). rewrite E1. cbn [fst]. now rewrite (proj1 (rt_sel _ _ _ R)).
  - destruct f; [|discriminate Hc]. unfold run_once, mbind at 1, get. destruct (kind s); exact Hs.
  - destruct f; [|discriminate Hc]. exact Hs.
Qed.
Lemma plain_after E L cs : env_ok E -> Forall plain cs -> forall s, Plain L s ->
  Plain L (after E s cs) /\ kind (after E s cs) = kind s /\ (sel_id s <> None \/ existsb attempts cs = true -> sel_id (after E s cs) <> None) /\
  (sel_id s = None -> existsb attempts cs = false -> sel_id (after E s cs) = None).
Proof.
  intros HE Hcs. induction Hcs as [|c cs Hc Hcs IH]; intros s P.
  - cbn. split; auto. split; auto. split; [intros [?|?]; [auto|discriminate]|auto].
  - cbn [after fold_left existsb]. fold (after E (exec E s c) cs). pose proof (plain_exec E L s c HE Hc P) as P1.
    assert (K1 : kind (exec E s c) = kind s) by (apply (exec_kind E L); auto; [destruct c; auto; destruct Hc|apply P]).
    destruct (IH _ P1) as (I1 & I2 & I3 & I4). split; auto. split; [congruence|]. rewrite orb_true_iff, orb_false_iff. split.
    + intros [Hs|[Hc1|Hc1]]; apply I3; auto; left; [now apply (sel_some E L); auto; apply P|now apply (attempt_sel E L)].
    + intros Hs (Hc1 & Hc2). apply I4; auto. now apply (idle_sel E L).
Qed.
(** ** The recorded L1 sequence *)
Definition RecOK (L : Z) (s : perc) : Prop :=
  kind s = KL1 /\ NoDup (record s) /\ forall i, In i (record s) <-> is_site L i /\ occ (lat s) i.
Lemma rec_frame L s s' : kind s' = kind s -> record s' = record s -> (forall i, is_site L i -> (occ (lat s') i <-> occ (lat s) i)) ->
  RecOK L s -> RecOK L s'.
Proof.
  intros E1 E2 Ho (Ek & Nd & Hr). split; [congruence|]. rewrite E2. split; auto. intros i. rewrite Hr.
  split; intros (Hi & Q); split; auto; now apply Ho.
Qed.
Lemma rec_place E L s : env_ok E -> Inv L s -> RecOK L s ->
  let s' := fst (place_one_site E s) in RecOK L s' /\
  match snd (place_one_site E s) with
  | Ok true => if flag_is_success s' then exists x, sel_id s' = Some x /\ record s' = record s ++ [x] else record s' = record s
  | _ => record s' = record s
  end.
Proof.
  intros HE H RK. pose proof RK as (Ek & Nd & Hr). cbv zeta. destruct (place_spec E L s HE H) as (Sd & P).
  assert (Hk : is_L12 (kind s) = true) by now rewrite Ek.
  assert (Es0 : L * L <= cur_idx s -> sel E L s = (s, Ok EMPTY_SITE_LIST)).
  { intros Hc. unfold sel, sel1. rewrite Ek. destruct (Z.leb_spec (L * L) (cur_idx s)); [auto|lia]. }
  assert (Es1 : cur_idx s < L * L -> zlen (ids s) <= cur_idx s -> sel E L s = (s, Err ValueError)).
  { intros Hc Hz. unfold sel, sel1. rewrite Ek. destruct (Z.leb_spec (L * L) (cur_idx s)); [lia|]. destruct (Z.leb_spec (zlen (ids s)) (cur_idx s)); [auto|lia]. }
  destruct (Z_le_dec (L * L) (cur_idx s)) as [Hc|Hc].
  { rewrite Es0 in P by auto. rewrite P. cbn [fst snd]. split; [|reflexivity]. eapply rec_frame; [..|exact RK]; try reflexivity. }
  destruct (Z_le_dec (zlen (ids s)) (cur_idx s)) as [Hz|Hz].
  { rewrite Es1 in P by (auto; lia). rewrite P. cbn [fst snd]. split; auto. }
  destruct (sel_L12 E L s H Hk ltac:(lia) ltac:(lia)) as (_ & [(x & s1 & Es & Hx & Hu & _ & _ & _ & Ex & Er & _)|(Ho & s1 & Es & _ & _ & Er)]);
    rewrite Es in *; cbn [fst snd] in *.
  - destruct (Er Ek) as (E1 & _). destruct P as (x' & s' & root & Q1 & _ & Ep & Pd). rewrite Ep. cbn [fst snd].
    assert (x' = x) by congruence. subst x'.
    destruct (core2_fields _ _ (pd_core _ _ _ _ _ _ Pd)) as (F1 & _ & _ & _ & _ & _ & _ & F8 & _).
    pose proof (f_equal record (pd_core _ _ _ _ _ _ Pd)) as Fr. change (record s' = record s1) in Fr.
    assert (Fk : kind s1 = kind s) by exact (f_equal kind (sd_core _ _ _ _ Sd)).
    destruct (sd_lab _ _ _ _ Sd) as (_ & _ & Sl).
    assert (O1 : forall i, is_site L i -> (occ (lat s1) i <-> occ (lat s) i)).
    { intros i Hi. unfold occ. destruct (Sl i) as (-> & _). reflexivity. }
    assert (Fl : flag_is_success s' = true) by (unfold flag_is_success; now rewrite (pd_flag _ _ _ _ _ _ Pd)). rewrite Fl.
    split; [|exists x; split; congruence]. split; [congruence|]. rewrite Fr, E1. split.
    + apply NoDup_app_disjoint; auto; [repeat constructor; intros []|]. intros y Hy [<-|[]]. apply Hr in Hy. tauto.
    + intros i. rewrite in_app_iff, Hr. cbn [In].
      assert (Fp : pool s1 = pool s) by exact (f_equal pool (sd_core _ _ _ _ Sd)).
      assert (C1 : ClOK L (lat s1) (pool s1)) by (rewrite Fp; eapply ClOK_same; [apply H|apply (sd_lab _ _ _ _ Sd)]).
      split.
      * intros [(Hi & Oi)|[<-|[]]]; split; auto; apply (pd_occ_iff E L s1 x s' root C1 Pd); auto. right. now apply O1.
      * intros (Hi & Oi). apply (pd_occ_iff E L s1 x s' root C1 Pd) in Oi; auto. destruct Oi as [->|Oi]; auto. left. split; auto. now apply O1.
  - rewrite P. cbn [fst snd]. split; [|exact Er]. destruct (sd_lab _ _ _ _ Sd) as (_ & _ & Sl). eapply rec_frame; [..|exact RK].
    + exact (f_equal kind (sd_core _ _ _ _ Sd)).
    + exact Er.
    + intros i Hi. unfold occ. change (lat (set_sel_flag (Some CURRENT_SITE_NOT_EMPTY) s1)) with (lat s1). destruct (Sl i) as (-> & _). reflexivity.
Qed.
Lemma shuffle_record E s : record (fst (shuffle E s)) = record s.
Proof.
  unfold shuffle, mbind, get. destruct (mode_custom s && negb (do_shuffle s)); [reflexivity|].
  destruct (do_shuffle s); [|reflexivity]. destruct (random_shuffle E (tick s) (ids s)) as [l t].
  unfold modify, lift. destruct (foldM _ _ _); reflexivity.
Qed.
Lemma rec_idle L s s' : phys s' = phys s -> record s' = record s -> RecOK L s -> RecOK L s'.
Proof.
  intros Hp Er. pose proof (f_equal kind Hp) as Ek. pose proof (f_equal lat Hp) as El.
  change (kind s' = kind s) in Ek. change (lat s' = lat s) in El. apply rec_frame; try assumption. rewrite El. intros; reflexivity.
Qed.
Lemma rec_detect L s : Inv L s -> RecOK L s -> RecOK L (fst (detect_wrapping s)) /\ record (fst (detect_wrapping s)) = record s.
Proof.
  intros H R. rewrite (detect_ok L) by apply H. unfold detect_res. destruct (after_wrap s); auto. destruct (sel_id s); auto.
  destruct (hitb L (lat s) z); auto.
Qed.
Lemma rec_exec E L s c : env_ok E -> call_ok L c -> Inv L s -> RecOK L s -> RecOK L (exec E s c).
Proof.
  intros HE Hc H R.
  set (T := fun s => Inv L s /\ RecOK L s).
  assert (G1 : forall t, T t -> T (fst (place_one_site E t))).
  { intros t (A1 & A2). split; [now apply place_inv|]. now apply rec_place. }
  assert (G2 : forall t, T t -> T (fst (detect_wrapping t))).
  { intros t (A1 & A2). split; [now apply detect_inv|]. now apply rec_detect. }
  assert (G3 : forall t, T t -> match place_one_site E t with | (s', Ok true) => if flag_is_success s' then T s' else T s' | (s', _) => T s' end).
  { intros t Ht. pose proof (G1 t Ht) as Q. destruct (place_one_site E t) as [t' [[]|]]; cbn [fst] in *; auto. destruct (flag_is_success t'); auto. }
  assert (G4 : forall t p h pw pl, T t -> T (set_arrs p h pw pl t)) by (intros t p h pw pl (A1 & A2); split; [|exact A2]; eapply inv_frame; [|exact A1]; reflexivity).
  assert (G5 : forall t b, T t -> T (set_first_run b t)) by (intros t b (A1 & A2); split; [|exact A2]; eapply inv_frame; [|exact A1]; reflexivity).
  assert (G6 : forall t b, T t -> T (set_sp b t)) by (intros t b (A1 & A2); split; [|exact A2]; eapply inv_frame; [|exact A1]; reflexivity).
  assert (T0 : T s) by (split; auto).
  destruct c as [| | |l sh|l sh|a b|f|f]; cbn [exec].
  - now apply G1.
  - now apply G2.
  - destruct (reset_inv E L s H) as (s1 & E1 & Rt). rewrite E1. cbn [fst]. pose proof (proj1 R) as Ek. split; [now rewrite (rt_kind _ _ _ Rt)|].
    rewrite (rt_record _ _ _ Rt), Ek. split; [constructor|]. intros i. split; [intros []|]. intros (Hi & Ho).
    destruct (fr_site _ _ (fs_lat _ _ (rt_fresh _ _ _ Rt)) i Hi) as (Q & _). unfold occ in Ho. lia.
  - apply (rec_idle L s); auto; [apply set_ids_phys|]. unfold set_custome_site_id_list, mbind, get, lift. destruct (lmax l); [|reflexivity].
    destruct (lmin l); [|reflexivity]. destruct (_ || _); [reflexivity|]. unfold modify. rewrite shuffle_record. reflexivity.
  - apply (rec_idle L s); auto; [apply set_indices_phys|]. unfold set_custome_site_index_list, mbind, get, lift. destruct (lmax _); [|reflexivity].
    destruct (lmin _); [|reflexivity]. destruct (_ || _); [reflexivity|]. unfold modify. rewrite shuffle_record. reflexivity.
  - apply (rec_idle L s); auto; [apply swap_phys|]. unfold swap_ids, mbind, get, lift. destruct (a =? b); [reflexivity|].
    repeat (destruct (lget _ _); [|reflexivity]). unfold modify. destruct (lset (ids s) _ _); [|reflexivity].
    destruct (lset _ _ _); [|reflexivity]. destruct (lset _ _ _); [|reflexivity]. destruct (lset _ _ _); reflexivity.
  - now apply (run_once_pres E T T).
  - now apply (test_run_once_pres E T T).
Qed.
Lemma reachable_rec E L s : env_ok E -> reachable_k E KL1 L s -> Inv L s /\ RecOK L s.
Proof.
  intros HE (t0 & s0 & cs & E0 & Hc & ->). pose proof (new_perc_fresh _ _ _ _ _ E0) as F. pose proof (fresh_inv _ _ F) as H0.
  assert (R0 : RecOK L s0).
  { split; [apply (new_kind _ _ _ _ _ E0)|]. destruct (new_arrs _ _ _ _ _ E0) as (_ & _ & -> & _). split; [constructor|].
    intros i. split; [intros []|]. intros (Hi & Ho). destruct (fr_site _ _ (fs_lat _ _ F) i Hi) as (Q & _). unfold occ in Ho. lia. }
  clear E0 F. revert s0 H0 R0. induction Hc as [|c cs Hc Hcs IH]; intros s0 H0 R0; [auto|].
  cbn [after fold_left]. fold (after E (exec E s0 c) cs). apply IH; [now apply exec_inv|now apply rec_exec].
Qed.
Lemma rec_sites L s : RecOK L s -> Forall (is_site L) (record s).
Proof. intros (_ & _ & R). apply Forall_forall. intros x Hx. now apply R. Qed.
Lemma rec_seq L s : Inv L s -> RecOK L s -> get_index_sequence s = Ok (map (fun i => (i / L, i mod L)) (record s)).
Proof.
  intros H R. unfold get_index_sequence. rewrite (proj1 R). apply (mapM_index L); [now apply i_static|now apply rec_sites].
Qed.
Lemma p_C45 E L s : env_ok E -> reachable_k E KL1 L s ->
  let index_of i := (i / L, i mod L) in
  exists order, get_index_sequence s = Ok (map index_of order) /\ NoDup order /\ length order = Z.to_nat (occ_count s) /\
    (forall i, In i order <-> is_site L i /\ occupied s i) /\
    (let s' := fst (place_one_site E s) in
     match snd (place_one_site E s), sel_flag s' with
     | Ok true, Some SUCESS => exists x, sel_id s' = Some x /\ ~ occupied s x /\ occupied s' x /\
                                 get_index_sequence s' = Ok (map index_of (order ++ [x]))
     | _, _ => get_index_sequence s' = Ok (map index_of order)
     end) /\
    get_index_sequence (fst (detect_wrapping s)) = Ok (map index_of order) /\
    get_index_sequence (fst (reset E s)) = Ok [].
Proof.
  intros HE HR index_of. destruct (reachable_rec E L s HE HR) as (H & R). exists (record s). split; [now apply rec_seq|].
  pose proof R as (Ek & Nd & Hr). pose proof (i_static _ _ H) as St. split; auto.
  assert (OC : forall i, In i (record s) <-> is_site L i /\ occupied s i).
  { intros i. rewrite Hr. split; intros (Hi & Q); split; auto; now apply (occupied_occ L). }
  split; [|split; [exact OC|split; [|split]]].
  - rewrite (i_occ _ _ H). unfold nocc, count.
    assert (P : Permutation (record s) (filter (occb (lat s)) (zrange (L * L)))).
    { apply NoDup_Permutation; auto; [apply NoDup_filter, NoDup_zrange|]. intros i. rewrite Hr, filter_In, In_zrange, occb_true. reflexivity. }
    rewrite (Permutation_length P). unfold zlen. lia.
  - cbv zeta. destruct (rec_place E L s HE H R) as (R' & Q). pose proof (place_inv E L s HE H) as H'.
    pose proof (rec_seq L _ H' R') as Es.
    destruct (snd (place_one_site E s)) as [[]|]; try (rewrite Q in Es; exact Es).
    unfold flag_is_success in Q. destruct (sel_flag (fst (place_one_site E s))) as [[]|]; try (rewrite Q in Es; exact Es).
    destruct Q as (x & Ex & Er). exists x. split; auto. rewrite Er in Es. destruct R' as (_ & Nd' & Hr'). rewrite Er in Nd', Hr'.
    assert (Hx : In x (record s ++ [x])) by (apply in_or_app; right; now left).
    apply Hr' in Hx. destruct Hx as (Hx & Ox). split; [|split; [apply (occupied_occ L); auto; apply (i_static _ _ H')|exact Es]].
    intros Hu. apply (occupied_occ L) in Hu; auto. apply NoDup_remove_2 in Nd'. apply Nd'. rewrite app_nil_r. now apply Hr.
  - destruct (rec_detect L s H R) as (R' & Er). rewrite (rec_seq L _ (detect_inv L s H) R'), Er. reflexivity.
  - destruct (reset_inv E L s H) as (s1 & E1 & Rt). rewrite E1. cbn [fst]. pose proof (rec_exec E L s CReset HE I H R) as R1. cbn [exec] in R1.
    rewrite E1 in R1. cbn [fst] in R1. rewrite (rec_seq L _ (fresh_inv _ _ (rt_fresh _ _ _ Rt)) R1), (rt_record _ _ _ Rt), Ek. reflexivity.
Qed.

Lemma p_C47 E k L t0 s0 cs : env_ok E -> new_perc E k L t0 = Ok s0 -> Forall plain cs ->
  let s := after E s0 cs in
  (exists b, snd (place_one_site E s) = Ok b) /\
  snd (reset E s) = Ok tt /\
  (forall f, 5 * (L * L) < Z.of_nat f -> snd (run_once E f s) = Ok tt) /\
  (exists v, occupation_prob s = Ok v) /\ (exists v, order_param_largest_clstr s = Ok v) /\ (exists v, order_param_wrapping s = Ok v) /\
  (exists v, entropy_v1 s = Ok v) /\ (exists v, get_pc s = Ok v) /\ (exists l, get_index_sequence s = Ok l) /\
  (if existsb attempts cs then exists b, snd (detect_wrapping s) = Ok b else snd (detect_wrapping s) = Err TypeError).
Proof.
  intros HE E0 Hcs s. destruct (new_plain E k L t0 s0 E0) as (P0 & Ek & Es0).
  destruct (plain_after E L cs HE Hcs s0 P0) as (P & K & S1 & S2). fold s in P, K, S1, S2. pose proof (proj1 P) as H.
  destruct (obs_ok L s H) as (O1 & O2 & O3). split; [|split; [|split; [|split; [|split; [|split; [|split; [|split; [|split]]]]]]]]; eauto.
  - destruct (plain_place E L s HE P) as (_ & _ & _ & R). destruct (rem L s =? 0); [exists false; now rewrite R|]. destruct R as (R & _). now exists true.
  - destruct (reset_inv E L s H) as (s1 & -> & _). reflexivity.
  - intros f Hf. pose proof (rem_nonneg L s P) as Hr. unfold run_once, mbind at 1, get.
    assert (R1 : snd (run_once_base E f s) = Ok tt).
    { unfold run_once_base, mbind. pose proof (run_loop_plain E L HE f s P) as Q. destruct (Z.ltb_spec (rem L s) (Z.of_nat f)); [|lia].
      destruct (run_loop E f s) as [s1 [u|e]]; cbn [snd] in *; [reflexivity|discriminate]. }
    assert (R2 : snd (sp_run_once E f s) = Ok tt).
    { unfold sp_run_once, mbind. pose proof (sp_loop_plain E L HE f s P ltac:(lia)) as Q.
      destruct (sp_loop E f s) as [s1 [u|e]]; cbn [snd] in *; [reflexivity|discriminate]. }
    destruct (kind s); auto.
  - rewrite (entropy_v1_ok L) by auto. eauto.
  - now apply (get_pc_ok L).
  - unfold get_index_sequence. destruct (kind s) eqn:Eks; try (eexists; apply (mapM_index L); [now apply i_static|apply H]).
    (* L1: the recorded ids *)
    assert (F : Forall (is_site L) (record s)).
    { apply rec_sites. refine (proj2 (reachable_rec E L s HE _)). assert (k = KL1) as <- by congruence. exists t0, s0, cs. split; auto. split; auto.
      eapply Forall_impl; [|exact Hcs]. intros c Hc. destruct c; auto; destruct Hc. }
    eexists. apply (mapM_index L); [now apply i_static|exact F].
  - destruct (existsb attempts cs) eqn:Ea.
    + destruct (sel_id s) as [x|] eqn:Ex; [|exfalso; apply S1; auto]. destruct (detect_bool L s x H Ex) as (b & Eb). exists b. exact (f_equal snd Eb).
    + pose proof (S2 Es0 eq_refl) as Ex. rewrite (detect_ok L) by apply H. unfold detect_res. rewrite Ex.
      assert (after_wrap s = false) as ->; [|reflexivity]. destruct (after_wrap s) eqn:Ew; auto.
      destruct P as (_ & _ & J). specialize (J Ex). pose proof (i_wrap _ _ H) as W. unfold WrapOK in W. rewrite Ew in W.
      destruct W as (W1 & _ & _ & nb & ns & _ & _ & W2 & W3 & _). lia.
Qed.
