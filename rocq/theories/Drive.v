(** * Drive: the hand-written loops of the demos and tests (C76, C77). *)
From Coq Require Import ZArith List Bool Lia Permutation.
From Verif Require Import Py Lattice Cluster Perc Script Spec PyFacts Torus Geometry LatFacts Inv Merge Count Fresh Select State Step History Reach
  Micro StateProps StateProps2 Comm Seq Wrap RunBase RunProps RunProps2 Cand Cycle CandRun Lines Normal Critical.
Import ListNotations.
Open Scope Z_scope.

Definition Tr (L : Z) (s : perc) : Prop := Inv L s /\ (3 <= L -> PcI L s).

Lemma idle_detect L s x : Tr L s -> sel_id s = Some x -> detect_wrapping s = (s, Ok (after_wrap s)).
Proof.
  intros (H & T) Es. pose proof (detect_inv L s H) as H'. rewrite (detect_ok L) in * by apply H. unfold detect_res in *.
  rewrite Es in *. destruct (after_wrap s) eqn:Ew; [reflexivity|]. destruct (hitb L (lat s) x) eqn:Eh; [|reflexivity]. exfalso.
  cbn [fst] in H'. pose proof (i_wrap _ _ H') as W. unfold WrapOK in W. cbn [wrapped after_wrap set_wrap] in W.
  destruct W as (H3 & Hl & (i & _ & Wi) & _). destruct (T H3) as ((_ & F) & _).
  apply (flat_no_wrap L (lat s)); auto. exists i. revert Wi. apply wraps_at_mono. intros j Hj Ej. cbn in Ej, Hl.
  unfold occ, is_label in *. lia.
Qed.
Lemma tr_place E L s : env_ok E -> Tr L s ->
  let s1 := fst (place_one_site E s) in
  (flag_is_success s1 = false \/ snd (place_one_site E s) <> Ok true -> Tr L s1) /\ (3 <= L -> PcP L s1).
Proof.
  intros HE (H & T) s1. split.
  - intros Hf. split; [now apply place_inv|]. intros H3. pose proof (place_pc E L s HE (T H3)) as P. unfold s1 in *.
    destruct (place_one_site E s) as [s' [[]|e]]; cbn [fst snd] in *; auto. destruct (flag_is_success s'); auto.
    destruct Hf; [discriminate|congruence].
  - intros H3. apply place_pcP; auto.
Qed.
Lemma tr_advance E L s : env_ok E -> Tr L s -> Tr L (fst (detect_wrapping (fst (place_one_site E s)))).
Proof.
  intros HE T. destruct (tr_place E L s HE T) as (_ & P). split; [apply detect_inv, place_inv; auto; exact (proj1 T)|].
  intros H3. apply detect_pc; auto.
Qed.
Lemma tr_put L p h pw pl b s : Tr L s -> Tr L (put_arrs p h pw pl b s).
Proof.
  intros (H & T). split; [eapply inv_frame; [|exact H]; reflexivity|]. intros H3. eapply phys_pc; [|eapply inv_frame; [|exact H]|exact (T H3)]; reflexivity.
Qed.
Lemma fresh_tr L s : FreshState L s -> Tr L s.
Proof.
  intros F. split; [now apply fresh_inv|]. intros H3. split; [split; [now apply fresh_inv|intros _; now apply fresh_flat]|].
  intros Hw. pose proof (proj1 (fs_wrap _ _ F)). congruence.
Qed.
Lemma fresh_plain_Plain E k L s : env_ok E -> fresh_plain E k L s -> Plain L s /\ kind s = k /\ FreshState L s /\ rem L s = (if is_L12 k then 5 * (L * L) else L * L).
Proof.
  intros HE HF. pose proof (fresh_plain_object _ _ _ _ HF) as HO. destruct (fresh_object_state E k L s HE HO) as (F & Ek & _).
  pose proof (fresh_inv _ _ F) as H. unfold Plain, rem. rewrite Ek.
  assert (J : sel_id s = None -> occ_count s = 0) by (intros _; apply (fs_occ _ _ F)).
  destruct (is_L12 k) eqn:Hk.
  - destruct (fresh_object_cand E k L s HE Hk HO) as (_ & _ & _ & C & W). auto 6.
  - destruct (fresh_plain_runB E k L s HE Hk HF) as (_ & B & _ & Ec). split; [|split; [auto|split; [auto|lia]]].
    split; auto. split; auto. split; auto.
    assert (Hk1 : k <> KL1) by (intros ->; discriminate). assert (Hk2 : k <> KL2) by (intros ->; discriminate).
    destruct HF as [(t0 & E0)|(s0 & HR & ->)]; [now apply (new_seqOK E k L t0)|].
    apply reset_seqOK; [|now apply (no_custom_seqOK E k)].
    apply (reachable_inv E); auto. exists k. now apply no_custom_k.
Qed.
Lemma rem_zero_full L s : Plain L s -> rem L s = 0 -> forall i, is_site L i -> occ (lat s) i.
Proof.
  intros P Hr. pose proof P as (H & G & _). unfold rem in Hr. destruct (is_L12 (kind s)) eqn:Ek.
  - now apply (cand_full L).
  - destruct G as (B & S). intros i Hi. apply occb_true. apply (count_full _ (zrange (L * L))); [|now apply In_zrange].
    pose proof (LL_pos L (i_pos _ _ H)). rewrite zlen_zrange by lia. pose proof (rb_cnt _ _ B). rewrite (i_occ _ _ H) in *. unfold nocc in *. lia.
Qed.

Lemma place_core E L s : env_ok E -> Inv L s -> after_wrap (fst (place_one_site E s)) = after_wrap s /\ pc_occ (fst (place_one_site E s)) = pc_occ s.
Proof.
  intros HE H. destruct (place_spec E L s HE H) as (Sd & P). destruct (sel E L s) as [s1 r]. cbn [fst snd] in *.
  assert (Q : (after_wrap s1, pc_occ s1) = (after_wrap s, pc_occ s)) by exact (f_equal (fun u => (after_wrap u, pc_occ u)) (sd_core _ _ _ _ Sd)).
  injection Q as Q1 Q2. destruct r as [[]|e]; [|rewrite P; auto..].
  destruct P as (x & s' & root & _ & _ & -> & Pd). cbn [fst].
  destruct (core2_fields _ _ (pd_core _ _ _ _ _ _ Pd)) as (_ & _ & _ & _ & _ & Ep & _ & _ & _ & _ & Ew' & _). split; congruence.
Qed.

(** ** Running to the end *)
Lemma drive_all E L : env_ok E -> forall f s, Plain L s -> Tr L s -> rem L s < Z.of_nat f ->
  exists t, drive E false f s = (set_sel_flag (Some EMPTY_SITE_LIST) t, Ok (rem L s)) /\ Plain L t /\ Tr L t /\ rem L t = 0 /\ kind t = kind s /\
    forall p h pw pl b, exists p' h' pw' pl', run_loop E f (put_arrs p h pw pl b s) = (put_arrs p' h' pw' pl' b (set_sel_flag (Some EMPTY_SITE_LIST) t), Ok tt).
Proof.
  intros HE. induction f as [|f IH]; intros s P T Hf; [pose proof (rem_nonneg L s P); lia|].
  cbn [drive run_loop]. destruct (plain_place E L s HE P) as (P1 & K1 & S1 & R).
  destruct (plain_success E L s HE P) as (x & Hx & Ex & _). destruct (tr_place E L s HE T) as (TI & _).
  pose proof (tr_advance E L s HE T) as TA.
  assert (Cp : forall p h pw pl b, place_one_site E (put_arrs p h pw pl b s) =
     (put_arrs p h pw pl b (fst (place_one_site E s)), snd (place_one_site E s))) by (intros; apply cm_place).
  unfold mbind at 1. destruct (Z.eqb_spec (rem L s) 0) as [Hz|Hz].
  { exists s. rewrite R in *. cbn [fst snd] in *. split; [unfold ret; now rewrite Hz|]. repeat (split; auto).
    intros p h pw pl b. exists p, h, pw, pl. unfold mbind at 1. rewrite Cp. reflexivity. }
  destruct R as (R1 & R2). destruct (place_one_site E s) as [s1 r]. cbn [fst snd] in *. subst r.
  destruct (detect_bool L s1 x (proj1 P1) Ex) as (w & Ed). pose proof (plain_detect L s1 P1) as (P2 & M2).
  set (s2 := fst (detect_wrapping s1)) in *. unfold mbind at 1. rewrite Ed. cbn [andb].
  destruct (IH s2 P2 TA ltac:(lia)) as (t & Et & Pt & Tt & Rt & Kt & Lt). exists t. unfold mbind at 1. rewrite Et.
  split; [unfold ret; do 2 f_equal; lia|]. split; auto. split; auto. split; auto.
  split; [destruct (detect_seqv L s1 (proj1 P1)) as (Q & _); destruct (seqv_eqs _ _ Q) as (Qk & _); unfold s2 in Kt; congruence|].
  intros p h pw pl b. unfold mbind at 1. rewrite Cp.
  unfold mbind at 1, get. unfold mbind at 1.
  change (flag_is_success (put_arrs p h pw pl b s1)) with (flag_is_success s1). destruct (flag_is_success s1) eqn:Ef.
  - unfold mbind at 1. rewrite cm_detect, Ed. cbn [fst snd].
    assert (H2 : Inv L (put_arrs p h pw pl b s2)) by exact (proj1 (tr_put L p h pw pl b s2 TA)).
    rewrite (record_ok L) by exact H2.
    unfold recorded. rewrite put_eq. unfold put.
    set (A := if first_run _ then _ else _). set (B := h_arr _ ++ _). set (C := pw_arr _ ++ _). set (D := pl_arr _ ++ _).
    change (put_arrs A B C D (first_run (put_arrs p h pw pl b s2)) (put_arrs p h pw pl b s2)) with (put_arrs A B C D b s2). apply Lt.
  - change (ret tt (put_arrs p h pw pl b s1)) with (put_arrs p h pw pl b s1, @Ok unit tt). cbv iota beta.
    assert (Es : s2 = s1) by (unfold s2; rewrite (idle_detect L s1 x); auto). rewrite <- Es. apply Lt.
Qed.

(** ** Stopping at the first loop *)
Lemma drive_stop E L : env_ok E -> forall f s, Plain L s -> Tr L s -> after_wrap s = false -> rem L s < Z.of_nat f ->
  exists n t, drive E true f s = (t, Ok n) /\ 0 <= n <= rem L s /\ Plain L t /\ Tr L t /\ kind t = kind s /\
    (after_wrap t = true -> n = rem L s - rem L t /\ 3 <= L /\ pc_occ t = occ_count t /\ exists x, sel_id t = Some x /\ is_site L x /\ occ (lat t) x /\ ~ wraps L (fun i => occ (lat t) i /\ i <> x)) /\
    (after_wrap t = false -> n = rem L s /\ rem L t = 0).
Proof.
  intros HE. induction f as [|f IH]; intros s P T Hw Hf; [pose proof (rem_nonneg L s P); lia|].
  pose proof (rem_nonneg L s P) as Hr.
  cbn [drive]. destruct (plain_place E L s HE P) as (P1 & K1 & S1 & R).
  destruct (plain_success E L s HE P) as (x & Hx & Ex & _). destruct (tr_place E L s HE T) as (TI & TP).
  pose proof (tr_advance E L s HE T) as TA. pose proof (place_core E L s HE (proj1 T)) as (Cw & _).
  unfold mbind at 1. destruct (Z.eqb_spec (rem L s) 0) as [Hz|Hz].
  { rewrite R in *. cbn [fst snd] in *. eexists _, _. split; [reflexivity|]. split; [lia|]. split; auto. split; [refine (TI (or_intror _)); discriminate|].
    split; [reflexivity|]. split; [cbn; congruence|]. intros _. split; [lia|exact Hz]. }
  destruct R as (R1 & R2). destruct (place_one_site E s) as [s1 r]. cbn [fst snd] in *. subst r.
  destruct (detect_bool L s1 x (proj1 P1) Ex) as (w & Ed). pose proof (plain_detect L s1 P1) as (P2 & M2).
  pose proof (rem_nonneg L _ P2) as Hr2.
  assert (K2 : kind (fst (detect_wrapping s1)) = kind s).
  { destruct (detect_seqv L s1 (proj1 P1)) as (Q & _). destruct (seqv_eqs _ _ Q) as (Qk & _). congruence. }
  assert (Cw' : after_wrap s1 = false) by congruence.
  set (s2 := fst (detect_wrapping s1)) in *. unfold mbind at 1. rewrite Ed. cbn [andb].
  assert (Dw : after_wrap s2 = w /\ (w = true -> pc_occ s2 = occ_count s2 /\ sel_id s2 = Some x /\ lat s2 = lat s1)).
  { assert (Ed' : snd (detect_res L s1) = Ok w) by (rewrite <- (detect_ok L s1), Ed; [reflexivity|apply P1..]).
    unfold s2. rewrite (detect_ok L) by apply P1. revert Ed'. unfold detect_res. rewrite Cw', Ex.
    destruct (hitb L (lat s1) x); cbn [fst snd]; intros Q; injection Q as <-.
    - split; [reflexivity|]. intros _. split; [reflexivity|]. split; [exact Ex|reflexivity].
    - split; [exact Cw'|discriminate]. }
  destruct Dw as (Dw & Dx). destruct w.
  - unfold ret. exists 1, s2. split; auto. split; [lia|]. split; auto. split; auto. split; auto. split; [|congruence].
    intros _. destruct (Dx eq_refl) as (D1 & D2 & D3). split; [lia|].
    pose proof (i_wrap _ _ (proj1 TA)) as W. unfold WrapOK in W. rewrite Dw in W. destruct W as (H3 & Hl & (i & _ & Wi) & _).
    split; auto. split; auto. exists x. split; auto. split; auto. rewrite D3 in *.
    destruct (TP H3) as (_ & _ & X). destruct (X Cw') as [F|(y & Hy & Ey & Ho & Hn)].
    + exfalso. apply (flat_no_wrap L (lat s1)); auto. exists i. revert Wi. apply wraps_at_mono. intros j Hj Ej. unfold occ, is_label in *. lia.
    + rewrite Ex in Ey. injection Ey as <-. auto.
  - destruct (IH s2 P2 TA Dw ltac:(lia)) as (n & t & Et & Hn & Pt & Tt & Kt & A & B). unfold mbind at 1. rewrite Et. unfold ret.
    exists (n + 1), t. split; auto. split; [lia|]. split; auto. split; auto. split; [congruence|]. split.
    + intros Ht. destruct (A Ht) as (A1 & A2). split; [lia|auto].
    + intros Ht. destruct (B Ht) as (B1 & B2). split; [lia|auto].
Qed.

(** ** The critical point is the same whichever loop finds it *)
Definition pcv (s : perc) := (after_wrap s, pc_occ s).
Definition PcAt (L : Z) (c : Z) (s : perc) : Prop := Inv L s /\ after_wrap s = true /\ pc_occ s = c.
Lemma pcAt_place E L c s : env_ok E -> PcAt L c s -> PcAt L c (fst (place_one_site E s)).
Proof.
  intros HE (H & W & P). destruct (place_core E L s HE H) as (A & B). split; [now apply place_inv|]. split; congruence.
Qed.
Lemma pcAt_detect L c s : PcAt L c s -> PcAt L c (fst (detect_wrapping s)).
Proof.
  intros (H & W & P). pose proof (detect_inv L s H) as H'. rewrite (detect_ok L) in * by apply H. unfold detect_res in *.
  rewrite W in *. exact (conj H' (conj W P)).
Qed.
Lemma pcAt_hyp E L c : env_ok E -> forall s, PcAt L c s -> match place_one_site E s with
  | (s', Ok true) => if flag_is_success s' then PcAt L c s' else PcAt L c s' | (s', _) => PcAt L c s' end.
Proof.
  intros HE s P. pose proof (pcAt_place E L c s HE P) as P'. destruct (place_one_site E s) as [s' [[]|]]; cbn [fst] in *; auto.
  destruct (flag_is_success s'); auto.
Qed.
Lemma pcAt_frame L c a b : phys b = phys a -> (Inv L a -> Inv L b) -> PcAt L c a -> PcAt L c b.
Proof.
  intros Hp Hi (H & W & P). split; auto.
  destruct (phys_fields _ _ Hp) as (_ & _ & _ & Ep & _ & _ & _ & _ & _ & _ & _ & _ & Ew & _). split; congruence.
Qed.
Lemma pcAt_drive E L c b : env_ok E -> forall f s, PcAt L c s -> PcAt L c (fst (drive E b f s)).
Proof.
  intros HE. induction f as [|f IH]; intros s P; [exact P|]. cbn [drive]. unfold mbind at 1.
  pose proof (pcAt_place E L c s HE P) as P1. destruct (place_one_site E s) as [s1 [[]|]]; cbn [fst] in *; auto.
  unfold mbind at 1. pose proof (pcAt_detect L c s1 P1) as P2. destruct (detect_wrapping s1) as [s2 [w|]]; cbn [fst] in *; auto.
  destruct (b && w); [exact P2|]. unfold mbind. specialize (IH s2 P2). destruct (drive E b f s2) as [s3 [n|]]; exact IH.
Qed.
Lemma pcAt_sp E L c f s : env_ok E -> PcAt L c s -> PcAt L c (fst (sp_loop E f s)).
Proof.
  intros HE. apply (sp_loop_pres E (PcAt L c) (PcAt L c)); auto.
  - now apply pcAt_hyp.
  - intros. now apply pcAt_detect.
  - intros u v. apply pcAt_frame; [reflexivity|]. intros H. eapply inv_frame; [|exact H]; reflexivity.
Qed.

Lemma drive_pc E L : env_ok E -> forall f s, Plain L s -> after_wrap s = false -> rem L s < Z.of_nat f ->
  pcv (fst (drive E false f s)) = pcv (fst (drive E true f s)).
Proof.
  intros HE. induction f as [|f IH]; intros s P Hw Hf; [reflexivity|].
  cbn [drive]. destruct (plain_place E L s HE P) as (P1 & K1 & S1 & R).
  destruct (plain_success E L s HE P) as (x & Hx & Ex & _).
  destruct (Z.eqb_spec (rem L s) 0) as [Hz|Hz]; [now rewrite !(mbind_ok _ _ _ _ _ R)|].
  destruct R as (R1 & R2). destruct (place_one_site E s) as [s1 r] eqn:Ep. cbn [fst snd] in *. subst r.
  rewrite !(mbind_ok _ _ _ _ _ Ep).
  destruct (detect_bool L s1 x (proj1 P1) Ex) as (w & Ed). pose proof (plain_detect L s1 P1) as (P2 & M2).
  set (s2 := fst (detect_wrapping s1)) in *. rewrite !(mbind_ok _ _ _ _ _ Ed). cbn [andb].
  assert (Dw : after_wrap s2 = w).
  { assert (Ed' : snd (detect_res L s1) = Ok w) by (rewrite <- (detect_ok L s1), Ed; [reflexivity|apply P1..]).
    unfold s2. rewrite (detect_ok L) by apply P1. revert Ed'. unfold detect_res. rewrite Ex.
    destruct (after_wrap s1) eqn:Ew1; [cbn [fst snd]; intros Q; injection Q as <-; exact Ew1|].
    destruct (hitb L (lat s1) x); cbn [fst snd]; intros Q; injection Q as <-; auto. }
  destruct w.
  - pose proof (pcAt_drive E L (pc_occ s2) false HE f s2 (conj (proj1 P2) (conj Dw eq_refl))) as (_ & A1 & A2).
    unfold mbind, ret. destruct (drive E false f s2) as [s3 [n|]]; cbn [fst] in *; unfold pcv; congruence.
  - specialize (IH s2 P2 Dw ltac:(lia)). unfold mbind, ret. cbv iota.
    destruct (drive E false f s2) as [s3 [n|]], (drive E true f s2) as [s4 [m|]]; exact IH.
Qed.
Lemma drive_sp E L : env_ok E -> forall f s, Plain L s -> Tr L s -> after_wrap s = false -> rem L s < Z.of_nat f ->
  pcv (fst (sp_loop E f s)) = pcv (fst (drive E true f s)).
Proof.
  intros HE. induction f as [|f IH]; intros s P T Hw Hf; [reflexivity|].
  cbn [drive sp_loop]. destruct (plain_place E L s HE P) as (P1 & K1 & S1 & R).
  destruct (plain_success E L s HE P) as (x & Hx & Ex & Ecx). destruct (tr_place E L s HE T) as (TI & _).
  pose proof (tr_advance E L s HE T) as TA. pose proof (place_core E L s HE (proj1 P)) as (Cw & _).
  destruct (Z.eqb_spec (rem L s) 0) as [Hz|Hz]; [now rewrite !(mbind_ok _ _ _ _ _ R)|].
  destruct R as (R1 & R2). destruct (place_one_site E s) as [s1 r] eqn:Ep. cbn [fst snd] in *. subst r.
  rewrite !(mbind_ok _ _ _ _ _ Ep).
  destruct (detect_bool L s1 x (proj1 P1) Ex) as (w & Ed). pose proof (plain_detect L s1 P1) as (P2 & M2).
  assert (Dw : after_wrap (fst (detect_wrapping s1)) = w).
  { assert (Ed' : snd (detect_res L s1) = Ok w) by (rewrite <- (detect_ok L s1), Ed; [reflexivity|apply P1..]).
    rewrite (detect_ok L) by apply P1. revert Ed'. unfold detect_res. rewrite Ex.
    destruct (after_wrap s1) eqn:Ew1; [cbn [fst snd]; intros Q; injection Q as <-; exact Ew1|].
    destruct (hitb L (lat s1) x); cbn [fst snd]; intros Q; injection Q as <-; auto. }
  assert (Ec : cur_site (fst (detect_wrapping s1)) = Some x).
  { rewrite (detect_ok L) by apply P1. unfold detect_res. destruct (after_wrap s1); auto. destruct (sel_id s1); auto. destruct (hitb _ _ _); auto. }
  set (s2 := fst (detect_wrapping s1)) in *.
  assert (Go : w = false -> pcv (fst (sp_loop E f s2)) = pcv (fst (mbind (drive E true f) (fun n => ret (n + 1)) s2))).
  { intros ->. rewrite (IH s2 P2 TA Dw ltac:(lia)). unfold mbind, ret. destruct (drive E true f s2) as [s4 [m|]]; reflexivity. }
  unfold mbind at 1, get. destruct (flag_is_success s1) eqn:Ef.
  - rewrite !(mbind_ok _ _ _ _ _ Ed). cbn [andb]. destruct w; [|exact (Go eq_refl)].
    pose proof (conj (proj1 P2) (conj Dw eq_refl) : PcAt L (pc_occ s2) s2) as A0.
    pose proof (i_static _ _ (proj1 P2)) as St. pose proof (i_pos _ _ (proj1 P2)) as HL.
    unfold mbind at 1. unfold mbind at 1. rewrite Ec. cbn [need]. unfold ret at 1. unfold mbind at 1, lift. rewrite (get_site_by_id_ok L) by auto.
    rewrite (proj1 (proj2 (st_site _ _ St x Hx))).
    assert (Hrow : 0 <= row L x < L) by (now apply row_bound). assert (Hcol : 0 <= col L x < L) by (apply Z.mod_pos_bound; lia).
    unfold mbind at 1. rewrite (scan_row_col_ok L) by auto.
    destruct (lineb L s2 _ || lineb L s2 _).
    + unfold mbind at 1. rewrite (proj1 (obs_ok L s2 (proj1 P2))). reflexivity.
    + pose proof (pcAt_sp E L _ f s2 HE A0) as (_ & A1 & A2). unfold pcv. unfold ret. cbn [fst]. congruence.
  - rewrite !(mbind_ok _ _ _ _ _ Ed).
    assert (Es : s2 = s1) by (unfold s2; rewrite (idle_detect L s1 x); auto).
    assert (Ew : w = false) by congruence. rewrite Ew. cbn [andb]. rewrite <- Es. exact (Go Ew).
Qed.

Lemma pcv_get_pc L a b : Inv L a -> Inv L b -> pcv a = pcv b -> get_pc a = get_pc b.
Proof.
  intros Ha Hb Q. injection Q as Q1 Q2. unfold get_pc. rewrite Q1, Q2, (st_sc _ _ (i_static _ _ Ha)), (st_sc _ _ (i_static _ _ Hb)). reflexivity.
Qed.
Lemma run_once_pcv E k L s f : env_ok E -> fresh_plain E k L s -> 5 * (L * L) < Z.of_nat f ->
  pcv (fst (run_once E f s)) = pcv (fst (drive E true f s)).
Proof.
  intros HE HF Hf. destruct (fresh_plain_Plain E k L s HE HF) as (P & Ek & F & Hr).
  pose proof (fresh_tr L s F) as T. pose proof (rem_nonneg L s P) as Hn. pose proof (proj1 (fs_wrap _ _ F)) as Hw.
  unfold run_once. rewrite (mbind_ok _ _ s s s) by reflexivity. rewrite Ek.
  assert (B : pcv (fst (run_once_base E f s)) = pcv (fst (drive E true f s))).
  { rewrite <- (drive_pc E L HE f s P Hw ltac:(lia)). destruct (drive_all E L HE f s P T ltac:(lia)) as (t & Et & _ & _ & _ & _ & Lt).
    destruct (Lt (p_arr s) (h_arr s) (pw_arr s) (pl_arr s) (first_run s)) as (p' & h' & pw' & pl' & El).
    assert (Es : put_arrs (p_arr s) (h_arr s) (pw_arr s) (pl_arr s) (first_run s) s = s) by (destruct s; reflexivity).
    rewrite Es in El. unfold run_once_base. rewrite (mbind_ok _ _ _ _ _ El), Et. reflexivity. }
  destruct k; auto. unfold sp_run_once. rewrite <- (drive_sp E L HE f s P T Hw ltac:(lia)).
  pose proof (sp_loop_plain E L HE f s P ltac:(lia)) as Q. destruct (sp_loop E f s) as [s1 [u|]] eqn:El; [|discriminate].
  rewrite (mbind_ok _ _ _ _ _ El). reflexivity.
Qed.

Lemma p_C76 E k L s f : env_ok E -> fresh_plain E k L s -> 5 * (L * L) < Z.of_nat f ->
  exists n t, drive E true f s = (t, Ok n) /\ 0 <= n <= 5 * (L * L) /\ (k <> KL1 -> k <> KL2 -> n = occ_count t) /\
    get_pc (fst (run_once E f s)) = get_pc t /\
    (3 <= L -> snd (detect_wrapping t) = Ok true /\ wraps L (occupied t) /\ get_pc t = occupation_prob t /\
       exists x, sel_id t = Some x /\ is_site L x /\ occupied t x /\ ~ wraps L (fun i => occupied t i /\ i <> x)) /\
    (L <= 2 -> snd (detect_wrapping t) = Ok false /\ get_pc t = Ok (FZ 0) /\ forall i, is_site L i -> occupied t i).
Proof.
  intros HE HF Hf. destruct (fresh_plain_Plain E k L s HE HF) as (P & Ek & F & Hr).
  pose proof (fresh_tr L s F) as T. pose proof (rem_nonneg L s P) as Hn. pose proof (proj1 (fs_wrap _ _ F)) as Hw.
  pose proof (run_once_pcv E k L s f HE HF Hf) as Q.
  assert (HR : Inv L (fst (run_once E f s))) by exact (exec_inv E L s (CRun f) HE I (proj1 P)).
  destruct (drive_stop E L HE f s P T Hw ltac:(lia)) as (n & t & Et & Nt & Pt & Tt & Kt & A & B). rewrite Et in Q. cbn [fst] in Q.
  pose proof (proj1 Pt) as Ht. pose proof (i_static _ _ Ht) as St. pose proof (LL_pos L (i_pos _ _ Ht)) as HLL.
  exists n, t. split; auto. split; [lia|]. split; [|split; [|split]].
  - intros H1 H2. assert (Hk : is_L12 (kind t) = false) by (rewrite Kt, Ek; destruct k; try reflexivity; congruence).
    assert (Hk' : is_L12 k = false) by (destruct k; try reflexivity; congruence). rewrite Hk' in Hr.
    pose proof Pt as (_ & G & _). rewrite Hk in G. destruct G as (G & _). rewrite (rb_cnt _ _ G).
    destruct (after_wrap t) eqn:Ew.
    + destruct (A eq_refl) as (A1 & _). unfold rem in A1 at 2. rewrite Hk in A1. lia.
    + destruct (B eq_refl) as (B1 & B2). unfold rem in B2. rewrite Hk in B2. lia.
  - apply (pcv_get_pc L); auto.
  - intros H3. assert (Ew : after_wrap t = true).
    { destruct (after_wrap t) eqn:Ew; auto. exfalso. destruct (B eq_refl) as (_ & B2).
      pose proof (full_flat_wraps L t (proj1 (proj2 Tt H3))) as G. rewrite G in Ew; [discriminate|].
      intros i Hi. apply (occupied_occ L); auto. now apply (rem_zero_full L). }
    destruct (A Ew) as (_ & _ & A3 & x & A4 & A5 & A6 & A7).
    split; [rewrite (detect_ok L) by apply Ht; unfold detect_res; now rewrite Ew|].
    split. { destruct (wrap_sound L t Ht Ew) as (i & Hi & Ei & Wi). exists i. revert Wi. apply wraps_at_mono.
      intros j Hj Ej. pose proof (wrap_label L t Ht Ew) as Hl. unfold occupied. rewrite Ej. unfold is_label in Hl. lia. }
    split; [unfold get_pc, occupation_prob; now rewrite Ew, A3|].
    exists x. split; auto. split; auto. split; [now apply (occupied_occ L)|].
    intros W. apply A7. revert W. apply wraps_mono. intros j Hj (Hoj & Hjx). split; auto. now apply (occupied_occ L) in Hoj.
  - intros H2. assert (Ew : after_wrap t = false).
    { pose proof (i_wrap _ _ Ht) as W. unfold WrapOK in W. destruct (after_wrap t); auto. lia. }
    destruct (B Ew) as (_ & B2). pose proof (rem_zero_full L t Pt B2) as Hfull.
    split; [|split; [unfold get_pc; now rewrite Ew|intros i Hi; apply (occupied_occ L); auto]].
    destruct (i_sel _ _ Ht) as [(Q1 & _)|(x & Hx & Ex & _)].
    + exfalso. destruct Pt as (_ & _ & J). apply (nocc0 L t 0 Ht (J Q1)); [unfold is_site; lia|]. apply Hfull. unfold is_site; lia.
    + now rewrite (idle_detect L t x Tt Ex), Ew.
Qed.

Lemma p_C77 E k L s f : env_ok E -> fresh_plain E k L s -> 5 * (L * L) < Z.of_nat f ->
  exists t, drive E false f s = (t, Ok (match k with KL1 | KL2 => 5 * (L * L) | _ => L * L end)) /\
    (forall i, is_site L i -> occupied t i) /\ snd (place_one_site E t) = Ok false /\
    order_param_largest_clstr t = Ok (FDiv (FZ (2 * (L * L))) (FZ (2 * (L * L)))) /\
    (3 <= L -> order_param_wrapping t = Ok (FDiv (FZ (2 * (L * L))) (FZ (2 * (L * L)))) /\ test_clusters t = Ok tt /\ test_lattice t = Ok tt) /\
    (k <> KSP -> exists p h pw pl, run_once E f s = (set_first_run false (set_arrs p h pw pl t), Ok tt)).
Proof.
  intros HE HF Hf. destruct (fresh_plain_Plain E k L s HE HF) as (P & Ek & F & Hr).
  pose proof (fresh_tr L s F) as T. pose proof (rem_nonneg L s P) as Hn.
  destruct (drive_all E L HE f s P T ltac:(lia)) as (t0 & Et & Pt & Tt & Rt & Kt & Lt).
  set (t := set_sel_flag (Some EMPTY_SITE_LIST) t0) in *.
  assert (Ht : Inv L t) by (eapply inv_frame; [|exact (proj1 Tt)]; reflexivity).
  assert (Ho : forall i, is_site L i -> occupied t i).
  { intros i Hi. apply (occupied_occ L); auto; [apply (i_static _ _ Ht)|]. exact (rem_zero_full L t0 Pt Rt i Hi). }
  destruct (full_state L t Ht Ho) as (c & A1 & A2 & _ & A3 & A4 & A5).
  exists t. split; [rewrite Et, Hr; now destruct k|]. split; auto. split.
  { destruct (plain_place E L t HE) as (_ & _ & _ & Q).
    - refine (proj1 (plain_frame L t0 t _ Ht _ _ _ _ _ Pt)); reflexivity.
    - change (rem L t) with (rem L t0) in Q. rewrite Rt in Q. cbn in Q. now rewrite Q. }
  split; auto. split.
  - intros H3. assert (Ew : after_wrap t = true).
    { apply (full_flat_wraps L t0); [apply (proj2 Tt H3)|]. exact Ho. }
    destruct (A5 Ew ltac:(lia)) as (_ & B1 & B2 & B3). auto.
  - intros Hk. destruct (Lt (p_arr s) (h_arr s) (pw_arr s) (pl_arr s) (first_run s)) as (p' & h' & pw' & pl' & El).
    assert (Es : put_arrs (p_arr s) (h_arr s) (pw_arr s) (pl_arr s) (first_run s) s = s) by (destruct s; reflexivity).
    rewrite Es in El. exists p', h', pw', pl'. unfold run_once. rewrite (mbind_ok _ _ s s s) by reflexivity. rewrite Ek.
    assert (B : run_once_base E f s = (set_first_run false (set_arrs p' h' pw' pl' t), Ok tt)).
    { unfold run_once_base. rewrite (mbind_ok _ _ _ _ _ El). reflexivity. }
    destruct k; auto. congruence.
Qed.
