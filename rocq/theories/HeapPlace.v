(** * HeapPlace: placing, detecting and running in the store. *)
From Coq Require Import ZArith List Bool Lia.
From Verif Require Import Py Lattice Cluster Perc PyFacts Spec Torus Geometry Inv Merge Select State Fresh Reach LatFacts History Heap HeapFacts HeapMerge HeapStep.
Import ListNotations.
Open Scope Z_scope.

Lemma mbind_inv {A B} (m : M A) (k : A -> M B) s s' y : mbind m k s = (s', Ok y) -> exists s1 x, m s = (s1, Ok x) /\ k x s1 = (s', Ok y).
Proof. unfold mbind. destruct (m s) as [s1 [x|e]]; [eauto|discriminate]. Qed.
Lemma lift_inv {A B} (r : res A) (k : A -> M B) s s' y : mbind (lift r) k s = (s', Ok y) -> exists x, r = Ok x /\ k x s = (s', Ok y).
Proof. unfold mbind, lift. destruct r as [x|e]; [eauto|discriminate]. Qed.

Lemma inv_labelled L s : Inv L s -> labelled (lat s).
Proof.
  intros H. pose proof (i_cl _ _ H) as C. pose proof (ck_static _ _ _ C) as St. unfold labelled. apply Forall_forall. intros b Hb.
  destruct (In_nth _ _ (bond_at (lat s) 0) Hb) as (k & Hk & Ek).
  assert (Hkb : is_bond L (Z.of_nat k)). { unfold is_bond. pose proof (st_nb _ _ St) as N. unfold zlen in N. lia. }
  pose proof (ck_blab _ _ _ C _ Hkb) as Lb. unfold is_label, bg, bond_at, at_ in *. rewrite Nat2Z.id in Lb.
  rewrite (nth_indep _ _ b Hk) in Ek. rewrite (nth_indep _ _ b Hk) in Lb. rewrite Ek in Lb. replace (0 <=? Z.of_nat k) with true in Lb by lia. lia.
Qed.
Lemma inv_cl L h : Inv L (load h) -> zlen (h_cl h) = 2 * (L * L).
Proof. intros H. rewrite <- zlen_pool. apply (pk_len _ _ _ _ (ck_pool _ _ _ (i_cl _ _ H))). Qed.
Lemma inv_some L h : Inv L (load h) -> exists a, In a (h_cl h).
Proof.
  intros H. pose proof (inv_cl L h H) as E. pose proof (LL_pos L (i_pos _ _ H)). destruct (h_cl h) as [|a l]; [change (zlen (@nil nat)) with 0 in E; lia|]. exists a. now left.
Qed.

Lemma init_rel_same L l p x l' : ClOK L l p -> is_site L x -> sg l x = -1 -> lat_init_relative_index l x = Ok l' -> l' = l.
Proof.
  intros C Hx Hun. pose proof (ck_static _ _ _ C) as St. unfold lat_init_relative_index. rewrite (lat_set_relative_index_ok L) by auto. intros H.
  enough (Ok l = Ok l') by congruence. rewrite <- H. f_equal. symmetry.
  replace (site_set_rel (site_at l x) (0, 0)) with (site_at l x).
  - apply upd_site_same. pose proof (st_ns _ _ St). unfold is_site in Hx; lia.
  - assert (Hr : rl l x = (0, 0)). { apply (ck_unocc _ _ _ C); auto. unfold occ. lia. }
    unfold rl in Hr. destruct (site_at l x). cbn in *. now rewrite Hr.
Qed.

Definition placed_sim E h := sim (h_place_one_site E) (place_one_site E) h /\ exists a, In a (h_cl h) /\ T a h (fst (h_place_one_site E h)).
Lemma place_quiet E L h : wf h -> Inv L (load h) -> (forall s1, select_site E (load h) <> (s1, Ok SUCESS)) -> placed_sim E h.
Proof.
  intros W H N. assert (Q : quiet_to (load h) (fst (select_site E (load h)))) by (apply keep_quiet; intros; apply k_select).
  destruct (inv_some L h H) as (a & Ha). destruct (select_site E (load h)) as [s1 [f|e]] eqn:Es; cbn [fst] in Q.
  - destruct (load_put s1 h W Q) as (L1 & W1 & T1).
    assert (Q2 : quiet_to (load (put_obj s1 h)) (set_sel_flag (Some f) s1)) by (rewrite L1; split; reflexivity).
    destruct (load_put _ _ W1 Q2) as (L2 & W2 & T2).
    assert (E2 : forall b, match f with SUCESS => False | CURRENT_SITE_NOT_EMPTY => b = true | EMPTY_SITE_LIST => b = false end ->
      h_place_one_site E h = (put_obj (set_sel_flag (Some f) s1) (put_obj s1 h), Ok b) /\ place_one_site E (load h) = (set_sel_flag (Some f) s1, Ok b)).
    { intros b Hb. unfold h_place_one_site, place_one_site, hbind, mbind, hlift. rewrite Es. cbn [modify]. rewrite L1. destruct f; [tauto|subst b; auto..]. }
    destruct f; [now destruct (N s1)| |].
    + destruct (E2 true eq_refl) as (A & B). unfold placed_sim, sim. rewrite A, B. cbn [fst snd]. rewrite L2. split; [split; [reflexivity|split; [exact W2|eapply G_trans; [apply G_put|apply G_put]]]|].
      exists a. split; auto. eapply T_trans; [apply T1|apply T2].
    + destruct (E2 false eq_refl) as (A & B). unfold placed_sim, sim. rewrite A, B. cbn [fst snd]. rewrite L2. split; [split; [reflexivity|split; [exact W2|eapply G_trans; [apply G_put|apply G_put]]]|].
      exists a. split; auto. eapply T_trans; [apply T1|apply T2].
  - destruct (load_put s1 h W Q) as (L1 & W1 & T1).
    assert (A : h_place_one_site E h = (put_obj s1 h, Err e)) by (unfold h_place_one_site, hbind, hlift; now rewrite Es).
    assert (B : place_one_site E (load h) = (s1, Err e)) by (unfold place_one_site, mbind; now rewrite Es).
    unfold placed_sim, sim. rewrite A, B. cbn [fst snd]. rewrite L1. split; [split; [reflexivity|split; [exact W1|apply G_put]]|]. exists a. auto.
Qed.

Lemma place_sim E L h : env_ok E -> wf h -> Inv L (load h) -> placed_sim E h.
Proof.
  intros HE W H. destruct (select_site E (load h)) as [s1 r] eqn:Es.
  assert (D : r = Ok SUCESS \/ r <> Ok SUCESS) by (destruct r as [[]|]; auto; right; discriminate).
  destruct D as [->|N]. 2: { apply (place_quiet E L); auto. intros s2 Q. apply N. congruence. }
  pose proof (inv_selhyp _ _ H) as SH. pose proof (i_mi _ _ H) as Hm. pose proof (select_ok E L _ SH Hm) as Esel. pose proof (sel_spec E L _ SH Hm) as Sd.
  assert (Er : sel E L (load h) = (s1, Ok SUCESS)) by congruence. rewrite Er in Sd. cbn [fst snd] in Sd.
  pose proof (sd_res _ _ _ _ Sd) as (x & Hx & Hun & E1 & E2 & E3). pose proof (sd_lab _ _ _ _ Sd) as (St1 & Eb & Elab).
  assert (Ep : pool s1 = pool (load h)). { pose proof (sd_core _ _ _ _ Sd) as Ec. apply (f_equal pool) in Ec. exact Ec. }
  assert (C1 : ClOK L (lat s1) (pool s1)). { rewrite Ep. eapply ClOK_same; [apply (i_cl _ _ H)|apply (sd_lab _ _ _ _ Sd)]. }
  assert (Hun1 : sg (lat s1) x = -1) by (rewrite (proj1 (Elab x)); exact Hun).
  destruct (place_after_select E L s1 x HE C1 Hx Hun1 E1 E2 (load h) Es) as (s' & root' & Pl & _).
  (* the steps of the value model *)
  unfold place_one_site in Pl. rewrite (mbind_ok _ _ _ s1 SUCESS) in Pl by auto. unfold mbind at 1, modify in Pl. unfold mbind at 1, get in Pl.
  set (s2 := set_sel_flag (Some SUCESS) s1) in *.
  rewrite (mbind_ok _ _ _ s2 x) in Pl by (change (sel_id s2) with (sel_id s1); rewrite E1; reflexivity).
  rewrite (mbind_ok _ _ _ s2 x) in Pl by (change (cur_site s2) with (cur_site s1); rewrite E2; reflexivity).
  apply lift_inv in Pl as (lat1 & El1 & Pl). assert (lat1 = lat s1) as ->. { apply (init_rel_same L _ (pool s1) x); auto. }
  unfold mbind at 1, modify in Pl. apply lift_inv in Pl as (cs & Ecs & Pl). cbv zeta in Pl. apply lift_inv in Pl as (H0 & EH & Pl).
  unfold mbind at 1, modify in Pl. unfold mbind at 1, get in Pl.
  apply lift_inv in Pl as (((lat2 & p2) & root) & Em & Pl). unfold mbind at 1, modify in Pl.
  apply mbind_inv in Pl as (s5 & [] & Et & Pl). unfold mbind at 1, get in Pl. apply lift_inv in Pl as (e' & Ee & Pl).
  unfold mbind, modify, ret in Pl.
  assert (Pfin : place_one_site E (load h) = (set_ent e' s5, Ok true)).
  { unfold place_one_site. rewrite (mbind_ok _ _ _ s1 SUCESS) by auto. unfold mbind at 1, modify. unfold mbind at 1, get. fold s2.
    rewrite (mbind_ok _ _ _ s2 x) by (change (sel_id s2) with (sel_id s1); rewrite E1; reflexivity).
    rewrite (mbind_ok _ _ _ s2 x) by (change (cur_site s2) with (cur_site s1); rewrite E2; reflexivity).
    rewrite (mbind_lift _ _ _ _ El1). unfold mbind at 1, modify. rewrite (mbind_lift _ _ _ _ Ecs). cbv zeta. rewrite (mbind_lift _ _ _ _ EH).
    unfold mbind at 1, modify. unfold mbind at 1, get. rewrite (mbind_lift _ _ _ _ Em). unfold mbind at 1, modify. rewrite (mbind_ok _ _ _ _ _ Et).
    unfold mbind at 1, get. rewrite (mbind_lift _ _ _ _ Ee). reflexivity. }
  clear Pl root' s'.
  (* the root *)
  assert (Ecs' : cs = site_at (lat s1) x). { rewrite (get_site_by_id_ok L) in Ecs by auto. congruence. }
  destruct (st_site _ _ St1 x Hx) as (Sid & _ & Sb).
  pose proof (ck_static _ _ _ C1) as St. pose proof (st_pos _ _ St) as HL.
  rewrite Ecs', Sid, Sb in Em.
  destruct (merge_ok E L x (lat s1) (pool s1) HE C1 Hx Hun1 (after_wrap s1) (wid s1)) as (lat' & p' & root' & Em' & _ & Hr & _).
  assert (Q : Ok (lat2, p2, root) = Ok (lat', p', root')) by (rewrite <- Em, <- Em'; reflexivity).
  assert (root' = root) as -> by congruence. clear Q Em' lat' p'.
  destruct (nb_label_bond L x (lat s1) root HL Hx Hr) as (b & Hbb & _ & Eroot). pose proof (ck_blab _ _ _ C1 b Hbb) as Hlab. rewrite <- Eroot in Hlab.
  assert (Hgid : c_gid (cl (pool s1) root) = root).
  { destruct (pk_gid _ _ _ _ (ck_pool _ _ _ C1) root Hlab) as (A & _); auto.
    intros Z. destruct (pk_bonds _ _ _ _ (ck_pool _ _ _ C1) root Hlab) as (_ & Q); auto. rewrite Z in Q. apply (Q b). auto. }
  assert (Hroot : 0 <= root < zlen (h_cl h)). { rewrite (inv_cl L h H). unfold is_label in Hlab. lia. }
  assert (Ha : exists a, lget (h_cl h) root = Ok a /\ In a (h_cl h)).
  { unfold lget, py_pos. assert ((0 <=? root) && (root <? zlen (h_cl h)) = true) as -> by lia.
    destruct (nth_error (h_cl h) (Z.to_nat root)) as [a|] eqn:En; [exists a; split; auto; eapply nth_error_In; eauto|].
    apply nth_error_None in En. unfold zlen in Hroot. lia. }
  destruct Ha as (a & Ea & Hia).
  assert (Hga : 0 <= o_gid (obj_at h a)).
  { pose proof (pool_get h root) as Z. rewrite Ea in Z. cbn [rbind] in Z. change (o_gid (obj_at h a)) with (c_gid (shown h a)).
    unfold cl, at_ in Hgid. rewrite Ep in Hgid. destruct (lget_pos _ _ _ Z) as (k & Ek & Hk).
    unfold py_pos in Ek. rewrite zlen_pool in Ek. assert ((0 <=? root) && (root <? zlen (h_cl h)) = true) as Hb by lia. rewrite Hb in Ek. injection Ek as <-.
    rewrite (nth_error_nth _ _ _ Hk) in Hgid. replace (0 <=? root) with true in Hgid by lia. lia. }
  assert (Jh : J root a h) by (split; auto).
  (* the steps of the store *)
  assert (S : stp a (h_place_one_site E) h (set_ent e' s5) true).
  { unfold h_place_one_site.
    eapply stp_bind; [apply (stp_lift a _ h s1 SUCESS W Es); pose proof (keep_quiet (select_site E) (load h) (k_select E)) as Z; rewrite Es in Z; exact Z|].
    intros h1 L1 W1 T1. eapply stp_bind; [apply (stp_lift a _ h1 s2 tt W1); rewrite L1; [reflexivity|split; reflexivity]|]. intros h2 L2 W2 T2.
    apply stp_bget; auto. intros h3 L3 W3 T3. rewrite L2.
    eapply stp_bind; [apply (stp_lift a _ h3 s2 x W3); rewrite L3, L2; [change (sel_id s2) with (sel_id s1); rewrite E1; reflexivity|split; reflexivity]|]. intros h4 L4 W4 T4.
    eapply stp_bind; [apply (stp_lift a _ h4 s2 x W4); rewrite L4; [change (cur_site s2) with (cur_site s1); rewrite E2; reflexivity|split; reflexivity]|]. intros h5 L5 W5 T5.
    assert (El5 : lat_set_relative_index (lat (load h5)) x (as_list (new_rel 0 0)) = Ok (lat s1)) by (rewrite L5; exact El1).
    eapply stp_bind; [apply (stp_set_relative_index a h5 x (new_rel 0 0) (lat s1) W5 eq_refl El5)|]. intros h6 L6 W6 T6.
    assert (L6' : load h6 = s2). { rewrite L6, L5. change (lat s1) with (lat s2). apply set_lat_id. }
    apply stp_bget; auto. intros h7 L7 W7 T7. rewrite L6'. apply (stp_bres a _ cs); [exact Ecs|]. cbv zeta. apply (stp_bres a _ H0); [exact EH|].
    set (s3 := set_ent (FAdd (ent s2) H0) s2).
    eapply stp_bind; [apply (stp_lift a _ h7 s3 tt W7); rewrite L7, L6'; [reflexivity|split; reflexivity]|]. intros h8 L8 W8 T8.
    rewrite Ecs', Sid, Sb.
    assert (T18 : T a h h8) by (repeat (eapply T_trans; [eassumption|]); apply T_refl).
    assert (J8 : J root a h8) by (eapply J_T; eauto).
    assert (M8 : merge_clusters_v2 E (lat (load h8)) (pool (load h8)) x x (after_wrap s1) (wid s1) (bonds_of L x) = Ok (lat2, p2, root)) by (rewrite L8; exact Em).
    eapply stp_bind; [apply (stp_merge root a ltac:(lia) E h8 x x (after_wrap s1) (wid s1) _ lat2 p2 HE W8 J8); [|rewrite L8; reflexivity..|exact M8]|].
    { rewrite L8. change (lat s3) with (lat s1). unfold labelled. rewrite <- Eb. exact (inv_labelled L _ H). }
    intros h9 L9 W9 T9. rewrite L8 in L9.
    assert (Et9 : track_largest_cluster root (load h9) = (s5, Ok tt)) by (rewrite L9; exact Et).
    eapply stp_bind; [apply (stp_lift a _ h9 s5 tt W9 Et9); pose proof (keep_quiet (track_largest_cluster root) (load h9) (k_track root)) as Z; rewrite Et9 in Z; exact Z|].
    intros h10 L10 W10 T10. apply stp_bget; auto. intros h11 L11 W11 T11. rewrite L10. apply (stp_bres a _ e'); [exact Ee|].
    eapply stp_bind; [apply (stp_lift a _ h11 (set_ent e' s5) tt W11); rewrite L11, L10; [reflexivity|split; reflexivity]|]. intros h12 L12 W12 T12.
    pose proof (stp_ret a true h12 W12) as Z. rewrite L12 in Z. exact Z. }
  destruct S as (h' & Eh & Lh & Wh & Th). unfold placed_sim, sim. rewrite Eh, Pfin. cbn [fst snd]. rewrite Lh. split; [split; [reflexivity|split; [exact Wh|eapply T_G; eauto]]|]. exists a. auto.
Qed.
