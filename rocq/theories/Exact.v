(** * Exact: when the iteration order of sets is the same too, two objects that
    occupied the same sites in the same order carry the same labels and the same
    floating-point expression for the entropy. *)
From Coq Require Import ZArith List Bool Lia Permutation Reals Lra.
From Verif Require Import Py Lattice Cluster Perc Spec PyFacts Torus Geometry LatFacts Inv Merge Count Fresh Select State Step History Reach Micro StateProps StateProps2 RunBase RunProps Cand CandRun Normal Real Entropy Order.
Import ListNotations.
Open Scope Z_scope.

Definition Ext (L : Z) (s t : perc) : Prop :=
  (forall b, is_bond L b -> bg (lat s) b = bg (lat t) b) /\
  (after_wrap s = true -> wid s = wid t) /\ ent s = ent t.
(** The comparison used below: physical agreement, and exact agreement when [x]. *)
Definition PX (x : bool) (L : Z) (s t : perc) : Prop := PhySim L s t /\ (x = true -> Ext L s t).

Lemma Ext_frame L s t s' t' : Ext L s t -> phys s' = phys s -> phys t' = phys t -> Ext L s' t'.
Proof.
  intros (A & B & C) Es Et.
  destruct (phys_fields _ _ Es) as (_ & _ & A1 & A2 & A3 & _ & _ & A4 & _ & A5 & _ & _ & A6 & A7 & A8 & A9).
  destruct (phys_fields _ _ Et) as (_ & _ & B1 & B2 & B3 & _ & _ & B4 & _ & B5 & _ & _ & B6 & B7 & B8 & B9).
  unfold Ext. rewrite ?A1, ?A2, ?A3, ?A4, ?A5, ?A6, ?A7, ?A8, ?A9, ?B1, ?B2, ?B3, ?B4, ?B5, ?B6, ?B7, ?B8, ?B9; auto.
Qed.
Lemma Ext_fresh L s t : FreshState L s -> FreshState L t -> Ext L s t.
Proof.
  intros F G. destruct (fs_wrap _ _ F) as (A1 & A2 & A3 & A4 & A5).
  pose proof (fresh_unique L _ _ (fs_lat _ _ F) (fs_lat _ _ G)) as El.
  split; [now rewrite El|]. split; [congruence|]. rewrite (fs_ent _ _ F), (fs_ent _ _ G). reflexivity.
Qed.
Lemma Ext_sym L s t : PhySim L s t -> Ext L s t -> Ext L t s.
Proof.
  intros P (A & B & C). split; [|split]; auto; [intros b Hb; symmetry; auto|].
  intros Ha. symmetry. apply B. now rewrite (ps_aw _ _ _ P).
Qed.

Lemma nb_labels_same L x s t : 0 < L -> is_site L x -> (forall b, is_bond L b -> bg (lat s) b = bg (lat t) b) ->
  nb_labels L x (lat s) = nb_labels L x (lat t).
Proof.
  intros HL Hx H. unfold nb_labels. apply map_ext_in. intros b Hb. apply In_bonds_of in Hb as (d & ->). apply H. now apply bond_dir_bond.
Qed.
Lemma root_loop_same p q aw w w' all : (aw = true -> w = w') ->
  (forall g, In g all -> get_cluster_bond_count p g = get_cluster_bond_count q g) ->
  forall l ref root, incl l all -> root_loop p aw w all l ref root = root_loop q aw w' all l ref root.
Proof.
  intros Hw Hg. induction l as [|g l IH]; intros ref root Hi; [reflexivity|]. cbn [root_loop].
  assert (Hl : incl l all) by (intros y Hy; apply Hi; now right).
  assert (Ea : aw && zmem w all = aw && zmem w' all) by (destruct aw; [now rewrite Hw|reflexivity]). rewrite Ea.
  rewrite (Hg g) by (apply Hi; now left).
  destruct (aw && zmem w' all) eqn:Eb; [apply andb_true_iff in Eb as (-> & _); now rewrite Hw|].
  destruct (get_cluster_bond_count q g) as [sz|e]; [cbn [rbind]|reflexivity].
  destruct (ref <=? sz); now apply IH.
Qed.

Section Same.
Variables (E1 E2 : env) (L : Z).
Hypothesis HE1 : env_ok E1.
Hypothesis HE2 : env_ok E2.

Lemma ext_placed s t x s' t' r1 r2 : (forall l, e_ord E1 l = e_ord E2 l) ->
  ClOK L (lat s) (pool s) -> ClOK L (lat t) (pool t) -> PhySim L s t -> Ext L s t ->
  Placed E1 L s x s' r1 -> Placed E2 L t x t' r2 -> r1 = r2 /\ Ext L s' t'.
Proof.
  intros Hord CS CT P (A & B & C) Ps Pt. pose proof (st_pos _ _ (ck_static _ _ _ CS)) as HL.
  pose proof (pd_site _ _ _ _ _ _ Ps) as Hx.
  pose proof (nb_labels_same L x s t HL Hx A) as Enb.
  assert (Ef : map (bg (lat s)) (firsts (bg (lat s)) (bonds_of L x)) = map (bg (lat t)) (firsts (bg (lat t)) (bonds_of L x))).
  { rewrite (sim_firsts L s t CS P x Hx). apply map_ext_in. intros b Hb. apply firsts_in, In_bonds_of in Hb as (d & ->).
    apply A. now apply bond_dir_bond. }
  assert (Hb : forall g, is_label L g -> bsize (pool s) g = bsize (pool t) g).
  { intros g Hg. rewrite (bsize_count L _ _ _ CS Hg), (bsize_count L _ _ _ CT Hg). apply count_ext. intros b Hb. apply In_zrange in Hb.
    now rewrite A. }
  assert (Er : r1 = r2).
  { pose proof (pd_pick _ _ _ _ _ _ Ps) as Q1. pose proof (pd_pick _ _ _ _ _ _ Pt) as Q2. cbv zeta in Q1, Q2.
    rewrite <- Ef, <- Hord, <- (ps_aw _ _ _ P) in Q2.
    rewrite (root_loop_same (pool s) (pool t) (after_wrap s) (wid s) (wid t)) in Q1; [congruence|auto| |apply incl_refl].
    intros g Hg. apply (proj1 (proj2 (HE1 _) _)) in Hg. apply in_map_iff in Hg as (b & <- & Hin).
    apply firsts_in, In_bonds_of in Hin as (d & ->).
    assert (Hbd : is_bond L (bond_dir L x d)) by (now apply bond_dir_bond).
    pose proof (ck_blab _ _ _ CS _ Hbd) as Hlb.
    rewrite (get_bsize L _ _ _ CS Hlb), (get_bsize L _ _ _ CT Hlb). f_equal. now apply Hb. }
  split; [exact Er|]. subst r2.
  destruct (core2_fields _ _ (pd_core _ _ _ _ _ _ Ps)) as (_ & _ & _ & _ & S5 & S6 & _ & _ & _ & _ & S11 & S12 & _ & S14 & S15).
  destruct (core2_fields _ _ (pd_core _ _ _ _ _ _ Pt)) as (_ & _ & _ & _ & T5 & T6 & _ & _ & _ & _ & T11 & T12 & _ & T14 & T15).
  split; [|split].
  - intros b Hbd. rewrite (pd_bg _ _ _ _ _ _ Ps), (pd_bg _ _ _ _ _ _ Pt), Enb, A by auto. reflexivity.
  - rewrite S11, S12, T12. exact B.
  - rewrite (pd_ent _ _ _ _ _ _ Ps), (pd_ent _ _ _ _ _ _ Pt).
    assert (Hsz : bsize (pool s') r1 = bsize (pool t') r1).
    { rewrite (pd_bsize_root _ _ _ _ _ _ CS Ps), (pd_bsize_root _ _ _ _ _ _ CT Pt). apply count_ext. intros b Hb'. apply In_zrange in Hb'.
      now rewrite Enb, A. }
    rewrite C, Hsz, <- Enb, <- Hord. f_equal. f_equal.
    assert (G : forall l h, (forall g, In g l -> is_label L g) ->
      fold_left (fun h g => FAdd h (fterm L (bsize (pool s) g))) l h = fold_left (fun h g => FAdd h (fterm L (bsize (pool t) g))) l h).
    { induction l as [|g l IH]; intros h Hl; [reflexivity|]. cbn [fold_left]. rewrite (Hb g) by (apply Hl; now left).
      apply IH. intros; apply Hl; now right. }
    apply G. intros g Hg. apply (proj1 (proj2 (HE1 _) _)) in Hg. unfold nb_labels in Hg. apply in_map_iff in Hg as (b & <- & Hin).
    apply In_bonds_of in Hin as (d & ->). apply (ck_blab _ _ _ CS). now apply bond_dir_bond.
Qed.
Lemma ext_selected s s1 r t t1 r' : Selected L s s1 r -> Selected L t t1 r' -> Ext L s t -> Ext L s1 t1.
Proof.
  intros Sd Td (A & B & C).
  destruct (core_fields _ _ (sd_core _ _ _ _ Sd)) as (F1 & F2 & F3 & F4 & F5 & F6 & F7 & F8 & F9 & F10 & F11 & F12 & F13 & F14 & F15).
  destruct (core_fields _ _ (sd_core _ _ _ _ Td)) as (G1 & G2 & G3 & G4 & G5 & G6 & G7 & G8 & G9 & G10 & G11 & G12 & G13 & G14 & G15).
  split; [|split; [|congruence]]. 2:{ intros Ha. assert (Q : wid s = wid t) by (apply B; congruence). congruence. }
  pose proof (sd_lab _ _ _ _ Sd) as Hs. assert (Es : forall b, bg (lat s1) b = bg (lat s) b) by (intros; now apply (same_labels_bg L)).
  pose proof (sd_lab _ _ _ _ Td) as Ht. assert (Et : forall b, bg (lat t1) b = bg (lat t) b) by (intros; now apply (same_labels_bg L)).
  intros b Hb. rewrite Es, Et. auto.
Qed.

Variable x : bool.
Hypothesis Hord : x = true -> forall l, e_ord E1 l = e_ord E2 l.

Lemma place_both_x s t i : Inv L s -> Inv L t -> PX x L s t ->
  snd (place_one_site E1 s) = Ok true -> flag_is_success (fst (place_one_site E1 s)) = true -> sel_id (fst (place_one_site E1 s)) = Some i ->
  snd (place_one_site E2 t) = Ok true -> flag_is_success (fst (place_one_site E2 t)) = true -> sel_id (fst (place_one_site E2 t)) = Some i ->
  PX x L (fst (place_one_site E1 s)) (fst (place_one_site E2 t)).
Proof.
  intros Hs Ht (P & X) R1 F1 X1 R2 F2 X2. split; [now apply (place_both E1 E2 L HE1 HE2 s t i)|].
  intros Hx. specialize (X Hx).
  destruct (place_spec E1 L s HE1 Hs) as (Sd & Ps). destruct (place_spec E2 L t HE2 Ht) as (Td & Pt).
  destruct (sel E1 L s) as [s1 r1]. destruct (sel E2 L t) as [t1 r2]. cbn [fst snd] in *.
  destruct r1 as [[]|e]; [|rewrite Ps in *; discriminate..].
  destruct r2 as [[]|e]; [|rewrite Pt in *; discriminate..].
  destruct Ps as (y & s' & root & Y1 & Y2 & Ep & Pd). destruct Pt as (y' & t' & root' & Z1 & Z2 & Ep' & Pd').
  rewrite Ep, Ep' in *. cbn [fst snd] in *.
  assert (y = i). { pose proof (f_equal sel_id (pd_core _ _ _ _ _ _ Pd)) as Q. change (sel_id s' = sel_id s1) in Q. congruence. } subst y.
  assert (y' = i). { pose proof (f_equal sel_id (pd_core _ _ _ _ _ _ Pd')) as Q. change (sel_id t' = sel_id t1) in Q. congruence. } subst y'.
  pose proof (selected_ClOK _ _ _ _ (i_cl _ _ Hs) Sd) as C1. pose proof (selected_ClOK _ _ _ _ (i_cl _ _ Ht) Td) as C2.
  apply (ext_placed s1 t1 i s' t' root root' (Hord Hx) C1 C2); auto; [|now apply (ext_selected s s1 (Ok SUCESS) t t1 (Ok SUCESS))].
  apply (phys_selected L s s1 _ t t1 _ Sd Td P).
  pose proof (sd_res _ _ _ _ Sd) as Q1. pose proof (sd_res _ _ _ _ Td) as Q2. cbn in Q1, Q2.
  destruct Q1 as (? & _ & _ & _ & _ & ->). destruct Q2 as (? & _ & _ & _ & _ & ->). now rewrite (ps_n _ _ _ P).
Qed.
Lemma place_silent_x s t : Inv L s -> Inv L t -> PX x L s t ->
  snd (place_one_site E1 s) <> Ok true \/ flag_is_success (fst (place_one_site E1 s)) = false ->
  PX x L (fst (place_one_site E1 s)) t.
Proof.
  intros Hs Ht (P & X) Hq. split; [now apply (place_silent E1 L HE1)|]. intros Hx. specialize (X Hx).
  destruct (place_spec E1 L s HE1 Hs) as (Sd & Ps). destruct (sel E1 L s) as [s1 r1]. cbn [fst snd] in *.
  pose proof (ext_selected s s1 r1 t t (Err ValueError) Sd (selected_refl L t _ Ht) X) as G.
  destruct r1 as [[]|e].
  - destruct Ps as (y & s' & root & Y1 & Y2 & Ep & Pd). rewrite Ep in *. cbn [fst snd] in *.
    destruct Hq as [Hq|Hq]; [congruence|]. unfold flag_is_success in Hq. now rewrite (pd_flag _ _ _ _ _ _ Pd) in Hq.
  - rewrite Ps. eapply Ext_frame; [exact G|reflexivity..].
  - rewrite Ps. eapply Ext_frame; [exact G|reflexivity..].
  - rewrite Ps. exact G.
Qed.
End Same.

Section Detect.
Variables (x : bool) (L : Z).
Lemma detect_both_x s t i : Inv L s -> Inv L t -> PX x L s t -> sel_id s = Some i -> sel_id t = Some i ->
  PX x L (fst (detect_wrapping s)) (fst (detect_wrapping t)) /\ snd (detect_wrapping s) = snd (detect_wrapping t).
Proof.
  intros Hs Ht (P & X) Xs Xt. destruct (detect_both L s t i Hs Ht P Xs Xt) as (P' & Er). split; [|exact Er]. split; [exact P'|].
  intros Hx. specialize (X Hx). destruct X as (A & B & C).
  rewrite (detect_ok L s) by apply Hs. rewrite (detect_ok L t) by apply Ht. unfold detect_res.
  rewrite <- (ps_aw _ _ _ P), Xs, Xt. destruct (after_wrap s) eqn:Ew; [repeat split; auto|].
  assert (Hi : is_site L i) by (destruct (i_sel _ _ Hs) as [(Q & _)|(y & Hy & Q & _)]; congruence).
  rewrite <- (sim_hitb L s t (i_cl _ _ Hs) (i_cl _ _ Ht) P i Hi). destruct (hitb L (lat s) i) eqn:Eh; [|split; [exact A|split; [exact B || (cbn; congruence)|exact C]]].
  cbn [fst]. split; [exact A|]. split; [|exact C]. intros _. cbn.
  pose proof (hitb_occ L _ _ _ (i_cl _ _ Hs) Hi Eh) as Ho.
  rewrite <- (ck_own _ _ _ (i_cl _ _ Hs) i DRight Hi Ho), <- (ck_own _ _ _ (i_cl _ _ Ht) i DRight Hi (proj1 (ps_occ _ _ _ P i Hi) Ho)).
  apply A. apply bond_dir_bond; auto. now apply (i_pos _ _ Hs).
Qed.
Lemma detect_silent_x s t : Inv L s -> PX x L s t -> sel_id s = None -> PX x L (fst (detect_wrapping s)) t.
Proof.
  intros Hs P X. rewrite (detect_ok L s) by apply Hs. unfold detect_res. rewrite X. destruct (after_wrap s); exact P.
Qed.
Lemma PX_sym s t : Inv L s -> Inv L t -> PX x L s t -> PX x L t s.
Proof. intros Hs Ht (P & X). split; [now apply (PhySim_sym L)|]. intros Hx. apply Ext_sym; auto. Qed.
Lemma PX_frame s t s' t' : PX x L s t -> phys s' = phys s -> phys t' = phys t -> PX x L s' t'.
Proof. intros (P & X) Es Et. split; [eapply PhySim_frame; eauto|]. intros Hx. eapply Ext_frame; eauto. Qed.
Lemma PX_fresh s t : FreshState L s -> FreshState L t -> PX x L s t.
Proof. intros F G. split; [now apply PhySim_fresh|]. intros _. now apply Ext_fresh. Qed.
Lemma PX_labels s t : Inv L s -> Inv L t -> PX true L s t ->
  (forall i, is_site L i -> site_label s i = site_label t i) /\ (forall b, is_bond L b -> bond_label s b = bond_label t b) /\
  entropy_v2 s = entropy_v2 t.
Proof.
  intros Hs Ht (P & X). destruct (X eq_refl) as (A & B & C). pose proof (i_static _ _ Hs). pose proof (i_static _ _ Ht).
  split; [|split].
  - intros i Hi. rewrite !(site_label_sg L) by auto. destruct (occ_dec (lat s) i) as [Ho|Ho].
    + rewrite <- (ck_own _ _ _ (i_cl _ _ Hs) i DRight Hi Ho), <- (ck_own _ _ _ (i_cl _ _ Ht) i DRight Hi (proj1 (ps_occ _ _ _ P i Hi) Ho)).
      apply A. apply bond_dir_bond; auto. now apply (i_pos _ _ Hs).
    + assert (Ho' : ~ occ (lat t) i) by (rewrite <- (ps_occ _ _ _ P i Hi); auto).
      rewrite (sg_unocc L _ _ i (i_cl _ _ Hs) Hi Ho), (sg_unocc L _ _ i (i_cl _ _ Ht) Hi Ho'). reflexivity.
  - intros b Hb. rewrite !(bond_label_bg L) by auto. auto.
  - unfold entropy_v2. exact C.
Qed.
End Detect.
