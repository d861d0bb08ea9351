(** * Sim: two objects driven by the same random words but different iteration
    orders of sets (C46). *)
From Coq Require Import ZArith List Bool Lia Permutation Reals Lra.
From Verif Require Import Py Lattice Cluster Perc Spec PyFacts Torus Geometry LatFacts Inv Merge Count Fresh Select State Step History Reach Micro StateProps StateProps2 Wrap Seq RunBase RunProps Cand CandRun Lines Normal Real Entropy Order.
Import ListNotations.
Open Scope Z_scope.

(** Everything that is not physical: sequences, counters, flags, recordings. *)
Definition ctl (s : perc) : perc :=
  set_lat dlat (set_pool empty_pool (set_ent (FZ 0) (set_largest 0 0 (set_wrap false 0 0 None None
    (set_occ_count 0 (set_arrs (p_arr s) [] (pw_arr s) (pl_arr s) s)))))).
Lemma ctl_set_lat v s : ctl (set_lat v s) = ctl s. Proof. reflexivity. Qed.
Lemma ctl_set_tick v s : ctl (set_tick v s) = set_tick v (ctl s). Proof. reflexivity. Qed.
Lemma ctl_set_xy u v s : ctl (set_xy u v s) = set_xy u v (ctl s). Proof. reflexivity. Qed.
Lemma ctl_set_record v s : ctl (set_record v s) = set_record v (ctl s). Proof. reflexivity. Qed.
Lemma ctl_set_cur_idx v s : ctl (set_cur_idx v s) = set_cur_idx v (ctl s). Proof. reflexivity. Qed.
Lemma ctl_choose i s : ctl (choose i s) = aim i (ctl s). Proof. reflexivity. Qed.
Lemma ctl_aim i s : ctl (aim i s) = aim i (ctl s). Proof. reflexivity. Qed.
Lemma ctl_dropped r s : ctl (dropped r s) = dropped r (ctl s). Proof. reflexivity. Qed.
Lemma ctl_flag v s : ctl (set_sel_flag v s) = set_sel_flag v (ctl s). Proof. reflexivity. Qed.

Lemma ctl_set_rev v s : ctl (set_rev v s) = set_rev v (ctl s). Proof. reflexivity. Qed.
Lemma ctl_mutate v s : ctl (mutate_ids v s) = mutate_ids v (ctl s). Proof. reflexivity. Qed.
Lemma h_set_rev v s : h_arr (set_rev v s) = h_arr s. Proof. reflexivity. Qed.
Lemma h_mutate v s : h_arr (mutate_ids v s) = h_arr s. Proof. reflexivity. Qed.

Record Sim (L : Z) (s t : perc) : Prop := mkSim {
  sm_s : Inv L s;
  sm_t : Inv L t;
  sm_p : PhySim L s t;
  sm_c : ctl s = ctl t;
  sm_nn : forall i, is_site L i -> nn1 (lat s) i = nn1 (lat t) i /\ nn2 (lat s) i = nn2 (lat t) i;
  sm_h : map feval (h_arr s) = map feval (h_arr t)
}.
Lemma ctl_fields s t : ctl s = ctl t ->
  kind s = kind t /\ ids s = ids t /\ rev_ids s = rev_ids t /\ cur_idx s = cur_idx t /\ cur_site s = cur_site t /\
  sel_id s = sel_id t /\ sel_flag s = sel_flag t /\ max_iter s = max_iter t /\ x_occ s = x_occ t /\ y_occ s = y_occ t /\
  record s = record t /\ tick s = tick t /\ first_run s = first_run t /\ p_arr s = p_arr t /\ pw_arr s = pw_arr t /\
  pl_arr s = pl_arr t /\ user_list s = user_list t /\ sp_p s = sp_p t /\ mode_custom s = mode_custom t /\
  do_shuffle s = do_shuffle t /\ ids_shared s = ids_shared t.
Proof.
  intros H.
  split; [exact (f_equal kind H)|]. split; [exact (f_equal ids H)|]. split; [exact (f_equal rev_ids H)|].
  split; [exact (f_equal cur_idx H)|]. split; [exact (f_equal cur_site H)|]. split; [exact (f_equal sel_id H)|].
  split; [exact (f_equal sel_flag H)|]. split; [exact (f_equal max_iter H)|]. split; [exact (f_equal x_occ H)|].
  split; [exact (f_equal y_occ H)|]. split; [exact (f_equal record H)|]. split; [exact (f_equal tick H)|].
  split; [exact (f_equal first_run H)|]. split; [exact (f_equal p_arr H)|]. split; [exact (f_equal pw_arr H)|].
  split; [exact (f_equal pl_arr H)|]. split; [exact (f_equal user_list H)|]. split; [exact (f_equal sp_p H)|].
  split; [exact (f_equal mode_custom H)|]. split; [exact (f_equal do_shuffle H)|exact (f_equal ids_shared H)].
Qed.

Section TwoOrders.
Variables (E1 E2 : env) (L : Z).
Hypothesis HE1 : env_ok E1.
Hypothesis HE2 : env_ok E2.
Hypothesis HD : forall n, e_draw E1 n = e_draw E2 n.

Lemma sel_sim s t : Sim L s t ->
  snd (sel E1 L s) = snd (sel E2 L t) /\ ctl (fst (sel E1 L s)) = ctl (fst (sel E2 L t)) /\
  (forall i, is_site L i -> nn1 (lat (fst (sel E1 L s))) i = nn1 (lat (fst (sel E2 L t))) i /\
     nn2 (lat (fst (sel E1 L s))) i = nn2 (lat (fst (sel E2 L t))) i).
Proof.
  intros [Hs Ht P Hc Hn Hh].
  destruct (ctl_fields _ _ Hc) as (Ek & Ei & _ & Ecu & _ & _ & _ & Em & Ex & Ey & Er & Et & _).
  pose proof (i_pos _ _ Hs) as HL. pose proof (i_static _ _ Hs) as Ss. pose proof (i_static _ _ Ht) as St.
  assert (Eocc : forall i, is_site L i -> occb (lat s) i = occb (lat t) i) by (intros; now apply (sim_occb L s t P)).
  assert (Ern : rndi E1 s = rndi E2 t) by (unfold rndi; now rewrite HD, Ei, Ecu, Et).
  assert (EX : candX E1 s = candX E2 t) by (unfold candX; now rewrite Ern, Ei).
  assert (Ed : forall n, dirk E1 n = dirk E2 n) by (intros; unfold dirk; now rewrite HD).
  pose proof (i_cur _ _ Hs) as Hcu.
  unfold sel. rewrite <- Ek.
  assert (Hbase : is_L12 (kind s) = false -> snd (sel_base s) = snd (sel_base t) /\ ctl (fst (sel_base s)) = ctl (fst (sel_base t)) /\
    (forall i, is_site L i -> nn1 (lat (fst (sel_base s))) i = nn1 (lat (fst (sel_base t))) i /\ nn2 (lat (fst (sel_base s))) i = nn2 (lat (fst (sel_base t))) i)).
  { intros Hk. unfold sel_base. rewrite Em, Ecu, Ei. destruct (Z.leb_spec (max_iter t) (cur_idx t)) as [|Hlt]; [auto|]. cbv zeta.
    rewrite <- Em, <- Ecu, (i_mi _ _ Hs Hk), Ei in Hlt.
    assert (Hx : is_site L (at_ 0 (ids t) (cur_idx t))).
    { eapply Forall_forall; [exact (i_ids _ _ Ht)|]. apply at_In. rewrite <- Ecu. lia. }
    rewrite (sim_un L s t (i_cl _ _ Hs) (i_cl _ _ Ht) P _ Hx).
    destruct (sg (lat t) _ =? -1); cbn [fst snd]; (split; [reflexivity|]; split; [|exact Hn]).
    - rewrite !ctl_choose, !ctl_set_cur_idx, Hc; reflexivity.
    - rewrite !ctl_aim, Hc; reflexivity. }
  assert (HX : zlen (ids t) <=? cur_idx t = false -> is_site L (candX E2 t)).
  { intros H. apply candX_site; [apply (i_ids _ _ Ht)|]. pose proof (i_cur _ _ Ht). lia. }
  assert (Hnn1 : forall X, is_site L X -> forall i, is_site L i ->
    nn1 (dec1 (lat s) X) i = nn1 (dec1 (lat t) X) i /\ nn2 (dec1 (lat s) X) i = nn2 (dec1 (lat t) X) i).
  { intros X HX' i Hi. destruct (dec1_same L (lat s) X Ss HX') as (_ & D2 & D3). destruct (dec1_same L (lat t) X St HX') as (_ & D5 & D6).
    rewrite D2, D3, D5, D6. destruct (Hn X HX') as (-> & _). destruct (Hn i Hi) as (-> & ->). auto. }
  destruct (kind s) eqn:Eks; try (apply Hbase; reflexivity).
  - unfold sel1. rewrite Ecu, Ei. destruct (L * L <=? cur_idx t); [auto|].
    destruct (zlen (ids t) <=? cur_idx t) eqn:Elt; [auto|]. specialize (HX eq_refl). cbv zeta.
    rewrite EX, Eocc, Ern, Ed, Ex, Ey, Er, Et by auto. set (X := candX E2 t) in *.
    destruct (occb (lat t) X).
    + set (Y := nbr L X (dirk E2 (S (tick t)))). assert (HY : is_site L Y) by (now apply nbr_site). rewrite Eocc by auto.
      destruct (occb (lat t) Y); cbn [fst snd]; (split; [reflexivity|]).
      * destruct (Hnn1 X HX X HX) as (-> & _).
        destruct (nn1 (dec1 (lat t) X) X =? 0).
        -- split; [rewrite !ctl_dropped, !ctl_set_lat, !ctl_set_tick, !ctl_set_xy, Hc; reflexivity|]. now apply Hnn1.
        -- split; [rewrite !ctl_set_lat, !ctl_set_tick, !ctl_set_xy, Hc; reflexivity|]. now apply Hnn1.
      * split; [rewrite !ctl_choose, !ctl_set_record, !ctl_set_tick, !ctl_set_xy, Hc; reflexivity|]. exact Hn.
    + cbn [fst snd]. split; [reflexivity|]. split; [rewrite !ctl_choose, !ctl_set_record, !ctl_set_tick, Hc; reflexivity|]. exact Hn.
  - unfold sel2. rewrite Ecu, Ei. destruct (L * L <=? cur_idx t); [auto|].
    destruct (zlen (ids t) <=? cur_idx t) eqn:Elt; [auto|]. specialize (HX eq_refl). cbv zeta.
    rewrite EX, Eocc, Ern, Ed, Ex, Ey, Et by auto. set (X := candX E2 t) in *.
    destruct (occb (lat t) X).
    + set (Y := nbr L X (dirk E2 (S (tick t)))). assert (HY : is_site L Y) by (now apply nbr_site). rewrite Eocc by auto.
      destruct (occb (lat t) Y).
      * assert (HZ : is_site L (second L X Y)) by (now apply at_rc_site). rewrite Eocc by auto.
        destruct (dec1_same L (lat s) X Ss HX) as (D1 & _). destruct (dec1_same L (lat t) X St HX) as (D4 & _).
        destruct (occb (lat t) (second L X Y)); cbn [fst snd]; (split; [reflexivity|]).
        -- destruct (dec2_same L _ X (proj1 D1) HX) as (_ & F2 & F3). destruct (dec2_same L _ X (proj1 D4) HX) as (_ & F5 & F6).
           assert (G : forall i, is_site L i -> nn1 (dec2 (dec1 (lat s) X) X) i = nn1 (dec2 (dec1 (lat t) X) X) i /\
             nn2 (dec2 (dec1 (lat s) X) X) i = nn2 (dec2 (dec1 (lat t) X) X) i).
           { intros i Hi. rewrite F2, F3, F5, F6. destruct (Hnn1 X HX X HX) as (_ & ->). destruct (Hnn1 X HX i Hi) as (-> & ->). auto. }
           destruct (G X HX) as (_ & ->). destruct (nn2 (dec2 (dec1 (lat t) X) X) X =? 0).
           ++ split; [rewrite !ctl_dropped, !ctl_set_lat, !ctl_set_xy, !ctl_set_lat, !ctl_set_xy, !ctl_set_tick, Hc; reflexivity|]. exact G.
           ++ split; [rewrite !ctl_set_lat, !ctl_set_xy, !ctl_set_lat, !ctl_set_xy, !ctl_set_tick, Hc; reflexivity|]. exact G.
        -- split; [rewrite !ctl_choose, !ctl_set_lat, !ctl_set_xy, !ctl_set_tick, Hc; reflexivity|]. now apply Hnn1.
      * cbn [fst snd]. split; [reflexivity|]. split; [rewrite !ctl_choose, !ctl_set_xy, !ctl_set_tick, Hc; reflexivity|]. exact Hn.
    + cbn [fst snd]. split; [reflexivity|]. split; [rewrite !ctl_choose, !ctl_set_tick, Hc; reflexivity|]. exact Hn.
Qed.

Definition RR {A} (x y : perc * res A) : Prop := Sim L (fst x) (fst y) /\ snd x = snd y.
Definition RM {A} (m1 m2 : M A) : Prop := forall s t, Sim L s t -> RR (m1 s) (m2 t).
Lemma RM_bind {A B} (m1 m2 : M A) (k1 k2 : A -> M B) : RM m1 m2 -> (forall a, RM (k1 a) (k2 a)) -> RM (mbind m1 k1) (mbind m2 k2).
Proof.
  intros H K s t S. unfold mbind. destruct (H s t S) as (S1 & Er). destruct (m1 s) as [s1 r1]. destruct (m2 t) as [t1 r2]. cbn [fst snd] in *. subst r2.
  destruct r1 as [a|e]; [now apply K|split; auto].
Qed.
Lemma RR_bind {A B} (m1 m2 : M A) (k1 k2 : A -> M B) s t : RR (m1 s) (m2 t) ->
  (forall a s1 t1, m1 s = (s1, Ok a) -> Sim L s1 t1 -> RR (k1 a s1) (k2 a t1)) -> RR (mbind m1 k1 s) (mbind m2 k2 t).
Proof.
  intros (S1 & Er) K. unfold mbind. destruct (m1 s) as [s1 r1]. destruct (m2 t) as [t1 r2]. cbn [fst snd] in *. subst r2.
  destruct r1 as [a|e]; [now apply K|split; auto].
Qed.
Lemma RM_get {B} (k1 k2 : perc -> M B) : (forall s t, Sim L s t -> RR (k1 s s) (k2 t t)) -> RM (mbind get k1) (mbind get k2).
Proof. intros K s t S. now apply K. Qed.
Lemma RM_ret {A} (a : A) : RM (ret a) (ret a).
Proof. intros s t S. split; auto. Qed.
Lemma RM_raise {A} e : RM (@raise A e) (raise e).
Proof. intros s t S. split; auto. Qed.

Lemma sim_frame s t s' t' : Sim L s t -> phys s' = phys s -> phys t' = phys t -> frame s' = frame s -> frame t' = frame t -> ctl s' = ctl t' ->
  map feval (h_arr s') = map feval (h_arr t') -> Sim L s' t'.
Proof.
  intros [Hs Ht P Hc Hn Hh] A1 A2 A3 A4 A5 A6. constructor; auto.
  - apply (inv_frame L s); auto.
  - apply (inv_frame L t); auto.
  - eapply PhySim_frame; eauto.
  - destruct (phys_fields _ _ A1) as (_ & _ & -> & _). destruct (phys_fields _ _ A2) as (_ & _ & -> & _). exact Hn.
Qed.

Lemma place_sim : RM (place_one_site E1) (place_one_site E2).
Proof.
  intros s t S. pose proof S as [Hs Ht P Hc Hn Hh].
  destruct (sel_sim s t S) as (Q1 & Q2 & Q3).
  destruct (place_spec E1 L s HE1 Hs) as (Sd & Ps). destruct (place_spec E2 L t HE2 Ht) as (Td & Pt).
  pose proof (place_inv E1 L s HE1 Hs) as Is. pose proof (place_inv E2 L t HE2 Ht) as It.
  destruct (sel E1 L s) as [s1 r1]. destruct (sel E2 L t) as [t1 r2]. cbn [fst snd] in *. subst r2.
  pose proof (f_equal h_arr (sd_core _ _ _ _ Sd)) as A1. change (h_arr s1 = h_arr s) in A1.
  pose proof (f_equal h_arr (sd_core _ _ _ _ Td)) as A2. change (h_arr t1 = h_arr t) in A2.
  assert (Eo : occ_count s1 = occ_count t1).
  { pose proof (sd_res _ _ _ _ Sd) as R1. pose proof (sd_res _ _ _ _ Td) as R2. pose proof (ps_n _ _ _ P).
    destruct r1 as [[]|]; [destruct R1 as (? & _ & _ & _ & _ & ->); destruct R2 as (? & _ & _ & _ & _ & ->)|..]; try (destruct R1 as (-> & _); destruct R2 as (-> & _)); lia. }
  pose proof (phys_selected L s s1 r1 t t1 r1 Sd Td P Eo) as P1.
  assert (Hh1 : map feval (h_arr s1) = map feval (h_arr t1)) by congruence.
  destruct r1 as [[]|e].
  - destruct Ps as (x & s' & root & X1 & X2 & Ep & Pd). destruct Pt as (x' & t' & root' & Y1 & Y2 & Ep' & Pd').
    rewrite Ep, Ep' in *. cbn [fst] in *. destruct (ctl_fields _ _ Q2) as (_ & _ & _ & _ & _ & Esel & _).
    assert (x' = x) by congruence. subst x'. split; [|reflexivity]. cbn [fst].
    pose proof (selected_ClOK _ _ _ _ (i_cl _ _ Hs) Sd) as C1. pose proof (selected_ClOK _ _ _ _ (i_cl _ _ Ht) Td) as C2.
    constructor; auto.
    + exact (phys_placed E1 E2 L s1 t1 x s' t' root root' HE1 HE2 C1 C2 P1 Pd Pd').
    + assert (G : forall a b, core2 a = core2 b -> sel_flag a = Some SUCESS -> ctl a = set_sel_flag (Some SUCESS) (ctl b)).
      { intros a b Hab Hf. transitivity (set_sel_flag (Some SUCESS) (ctl (core2 a))); [rewrite <- Hf; reflexivity|]. now rewrite Hab. }
      rewrite (G s' s1 (pd_core _ _ _ _ _ _ Pd) (pd_flag _ _ _ _ _ _ Pd)), (G t' t1 (pd_core _ _ _ _ _ _ Pd') (pd_flag _ _ _ _ _ _ Pd')). rewrite Q2; reflexivity.
    + intros i Hi. destruct (pd_nn _ _ _ _ _ _ Pd i) as (-> & ->). destruct (pd_nn _ _ _ _ _ _ Pd' i) as (-> & ->). now apply Q3.
    + rewrite (f_equal h_arr (pd_core _ _ _ _ _ _ Pd) : h_arr s' = h_arr s1), (f_equal h_arr (pd_core _ _ _ _ _ _ Pd') : h_arr t' = h_arr t1). exact Hh1.
  - rewrite Ps, Pt in *. cbn [fst] in *. split; [|reflexivity]. cbn [fst]. constructor; auto; [eapply PhySim_frame; [exact P1| |]; reflexivity|rewrite !ctl_flag, Q2; reflexivity].
  - rewrite Ps, Pt in *. cbn [fst] in *. split; [|reflexivity]. cbn [fst]. constructor; auto; [eapply PhySim_frame; [exact P1| |]; reflexivity|rewrite !ctl_flag, Q2; reflexivity].
  - rewrite Ps, Pt in *. cbn [fst] in *. split; [|reflexivity]. cbn [fst]. constructor; auto.
Qed.

Lemma detect_sim : RM detect_wrapping detect_wrapping.
Proof.
  intros s t S. pose proof S as [Hs Ht P Hc Hn Hh]. pose proof (detect_inv L s Hs) as Is. pose proof (detect_inv L t Ht) as It.
  rewrite (detect_ok L s) in * by apply Hs. rewrite (detect_ok L t) in * by apply Ht. unfold detect_res in *.
  destruct (ctl_fields _ _ Hc) as (_ & _ & _ & _ & _ & Esel & _). rewrite <- (ps_aw _ _ _ P), <- Esel in *.
  destruct (after_wrap s); [split; auto|].
  destruct (i_sel _ _ Hs) as [(Es & _)|(x & Hx & Es & _)]; rewrite Es in *; [split; auto|].
  rewrite <- (sim_hitb L s t (i_cl _ _ Hs) (i_cl _ _ Ht) P x Hx) in *. destruct (hitb L (lat s) x) eqn:Eh; [|split; auto].
  split; [|reflexivity]. cbn [fst] in *. constructor; auto.
  apply (sim_wrapped L s t (i_cl _ _ Hs) (i_cl _ _ Ht) P x Hx). now apply (hitb_occ L _ _ _ (i_cl _ _ Hs)).
Qed.

Lemma sim_wid s t i : Sim L s t -> after_wrap s = true -> is_site L i -> (sg (lat s) i = wid s <-> sg (lat t) i = wid t).
Proof. intros [Hs Ht P _ _ _]. now apply psim_wid. Qed.
Lemma sim_prob s t : Sim L s t -> occupation_prob s = occupation_prob t.
Proof. intros [Hs Ht P _ _ _]. now apply (psim_prob L). Qed.
Lemma sim_opw s t : Sim L s t -> order_param_wrapping s = order_param_wrapping t.
Proof. intros [Hs Ht P _ _ _]. now apply (psim_opw L). Qed.
Lemma sim_opl s t : Sim L s t -> order_param_largest_clstr s = order_param_largest_clstr t.
Proof. intros [Hs Ht P _ _ _]. now apply (psim_opl L). Qed.
Lemma record_sim : RM record_step record_step.
Proof.
  intros s t S. pose proof S as [Hs Ht P Hc Hn Hh]. rewrite (record_ok L s Hs), (record_ok L t Ht). split; [|reflexivity]. cbn [fst].
  destruct (ctl_fields _ _ Hc) as (_ & _ & _ & _ & _ & _ & _ & _ & _ & _ & _ & _ & Ef & E3 & E4 & E5 & _).
  apply (sim_frame s t); try reflexivity; auto.
  - unfold recorded. rewrite (sim_prob s t S), (sim_opw s t S), (sim_opl s t S), Ef, E3, E4, E5.
    set (a := if first_run t then _ else _). set (b := pw_arr t ++ _). set (c := pl_arr t ++ _).
    transitivity (set_arrs a [] b c (ctl s)); [reflexivity|]. now rewrite Hc.
  - cbn. rewrite !map_app, Hh. cbn. now rewrite (ps_ent _ _ _ P).
Qed.
Lemma flag_sim s t : Sim L s t -> flag_is_success s = flag_is_success t.
Proof. intros S. unfold flag_is_success. now destruct (ctl_fields _ _ (sm_c _ _ _ S)) as (_ & _ & _ & _ & _ & _ & -> & _). Qed.
Lemma run_loop_sim f : RM (run_loop E1 f) (run_loop E2 f).
Proof.
  induction f as [|f IH]; [apply RM_raise|]. cbn [run_loop]. apply RM_bind; [apply place_sim|]. intros [|]; [|apply RM_ret].
  apply RM_get. intros s t S. rewrite (flag_sim s t S). generalize (flag_is_success t). intros b.
  refine (RM_bind _ _ _ _ _ (fun _ => IH) s t S). destruct b; [|apply RM_ret].
  apply RM_bind; [apply detect_sim|intros; apply record_sim].
Qed.
Lemma first_run_sim : RM (modify (set_first_run false)) (modify (set_first_run false)).
Proof.
  intros s t S. split; [|reflexivity]. cbn [fst modify]. apply (sim_frame s t); try reflexivity; auto; [|apply S].
  transitivity (set_first_run false (ctl s)); [reflexivity|]. now rewrite (sm_c _ _ _ S).
Qed.
Lemma test_run_loop_sim f : RM (test_run_loop E1 f) (test_run_loop E2 f).
Proof.
  induction f as [|f IH]; [apply RM_raise|]. cbn [test_run_loop]. apply RM_bind; [apply place_sim|]. intros [|]; [|apply RM_ret].
  apply RM_get. intros s t S. rewrite (flag_sim s t S). destruct (flag_is_success t); [|now apply IH].
  refine (RM_bind _ _ _ _ detect_sim _ s t S). intros [|].
  - apply RM_get. clear s t S. intros s t S. rewrite (ps_pcs _ _ _ (sm_p _ _ _ S)), (ps_pco _ _ _ (sm_p _ _ _ S)).
    generalize (pc_occ t). intros n. destruct (pc_sites t); cbn [need]; unfold mbind, ret, raise; split; auto.
  - apply RM_bind; [apply record_sim|intros; exact IH].
Qed.
Lemma detect_true s : Inv L s -> snd (detect_wrapping s) = Ok true -> after_wrap (fst (detect_wrapping s)) = true.
Proof.
  intros H. rewrite (detect_ok L) by apply H. unfold detect_res. destruct (after_wrap s) eqn:Ew; [auto|].
  destruct (sel_id s) as [x|]; [|discriminate]. destruct (hitb L (lat s) x); [auto|discriminate].
Qed.
Lemma line_sim s t f : Sim L s t -> after_wrap s = true -> (forall x, 0 <= x < L -> is_site L (f x)) -> lineb L s f = lineb L t f.
Proof.
  intros S Ew Hf. unfold lineb. apply eq_true_iff_eq. rewrite !forallb_forall.
  split; intros H x Hx; specialize (H x Hx); apply In_zrange in Hx; apply Z.eqb_eq in H; apply Z.eqb_eq; apply (sim_wid s t (f x) S Ew (Hf x Hx)); auto.
Qed.
Lemma sp_loop_sim f : RM (sp_loop E1 f) (sp_loop E2 f).
Proof.
  induction f as [|f IH]; [apply RM_raise|]. cbn [sp_loop]. apply RM_bind; [apply place_sim|]. intros [|]; [|apply RM_ret].
  apply RM_get. intros s t S. rewrite (flag_sim s t S). destruct (flag_is_success t); [|now apply IH].
  pose proof (detect_true s (sm_s _ _ _ S)) as Ds. apply RR_bind; [now apply detect_sim|]. intros w s1 t1 Ew S1. rewrite Ew in Ds. cbn [fst snd] in Ds.
  destruct w; [|now apply IH]. specialize (Ds eq_refl). clear Ew.
  clear s t S. rename s1 into s. rename t1 into t. rename S1 into S. pose proof S as [Hs Ht P Hc Hn Hh].
  destruct (ctl_fields _ _ Hc) as (_ & _ & _ & _ & Ecs & _).
  rewrite !(mbind_ok get _ _ _ _ eq_refl). rewrite <- Ecs.
  destruct (i_sel _ _ Hs) as [(_ & Es)|(x & Hx & _ & Es)]; rewrite Es; [split; auto|]. cbn [need].
  rewrite !(mbind_ok (ret x) _ _ _ x eq_refl).
  rewrite (mbind_lift _ _ _ _ (get_site_by_id_ok L _ (i_static _ _ Hs) x Hx)), (mbind_lift _ _ _ _ (get_site_by_id_ok L _ (i_static _ _ Ht) x Hx)).
  destruct (st_site _ _ (i_static _ _ Hs) x Hx) as (_ & -> & _). destruct (st_site _ _ (i_static _ _ Ht) x Hx) as (_ & -> & _).
  pose proof (i_pos _ _ Hs) as HL. pose proof (row_bound L HL x Hx) as R1. pose proof (col_bound L HL x) as R2.
  rewrite (mbind_lift _ _ _ _ (scan_row_col_ok L s _ _ (i_static _ _ Hs) R1 R2)), (mbind_lift _ _ _ _ (scan_row_col_ok L t _ _ (i_static _ _ Ht) R1 R2)).
  rewrite (line_sim s t (fun x0 => row L x * L + x0) S Ds) by (intros; unfold is_site; nia).
  rewrite (line_sim s t (fun x0 => x0 * L + col L x) S Ds) by (intros; unfold is_site; nia).
  destruct (_ || _); [|now apply IH].
  rewrite (sim_prob s t S). destruct (obs_ok L t Ht) as (-> & _). rewrite !(mbind_lift _ _ _ _ eq_refl). split; [|reflexivity].
  cbn [fst modify]. apply (sim_frame s t); try reflexivity; auto.
  set (v := val _). transitivity (set_sp v (ctl s)); [reflexivity|]. now rewrite Hc.
Qed.
Lemma run_once_sim f : RM (run_once E1 f) (run_once E2 f).
Proof.
  apply RM_get. intros s t S. destruct (ctl_fields _ _ (sm_c _ _ _ S)) as (-> & _).
  assert (B : RM (run_once_base E1 f) (run_once_base E2 f)) by (apply RM_bind; [apply run_loop_sim|intros; apply first_run_sim]).
  destruct (kind t); auto. refine (RM_bind _ _ _ _ (sp_loop_sim f) _ s t S). intros. apply first_run_sim.
Qed.
Lemma test_run_once_sim f : RM (test_run_once E1 f) (test_run_once E2 f).
Proof. apply RM_bind; [apply test_run_loop_sim|intros; apply first_run_sim]. Qed.

(** ** Shuffling, custom lists, swaps *)
Lemma shuffle_from_ext k : forall t l, shuffle_from E1 k t l = shuffle_from E2 k t l.
Proof. induction k as [|k IH]; intros t l; [reflexivity|]. cbn [shuffle_from]. now rewrite HD, IH. Qed.
Lemma shuffle_ext s : shuffle E1 s = shuffle E2 s.
Proof. unfold shuffle, mbind, get, random_shuffle. now rewrite shuffle_from_ext. Qed.
Lemma shuffle_ctl E s : ctl (fst (shuffle E s)) = fst (shuffle E (ctl s)) /\ snd (shuffle E s) = snd (shuffle E (ctl s)) /\
  h_arr (fst (shuffle E s)) = h_arr s.
Proof.
  unfold shuffle, mbind, get. change (mode_custom (ctl s)) with (mode_custom s). change (do_shuffle (ctl s)) with (do_shuffle s).
  destruct (mode_custom s && negb (do_shuffle s)); [auto|]. destruct (do_shuffle s); [|auto].
  change (tick (ctl s)) with (tick s). change (ids (ctl s)) with (ids s).
  destruct (random_shuffle E (tick s) (ids s)) as [l u]. unfold modify, lift.
  change (ids (set_tick u (mutate_ids l (ctl s)))) with (ids (set_tick u (mutate_ids l s))).
  change (rev_ids (set_tick u (mutate_ids l (ctl s)))) with (rev_ids (set_tick u (mutate_ids l s))).
  destruct (foldM _ _ _); auto.
Qed.
Lemma shuffle_sim s t : ctl s = ctl t -> map feval (h_arr s) = map feval (h_arr t) ->
  ctl (fst (shuffle E1 s)) = ctl (fst (shuffle E2 t)) /\ snd (shuffle E1 s) = snd (shuffle E2 t) /\
  map feval (h_arr (fst (shuffle E1 s))) = map feval (h_arr (fst (shuffle E2 t))).
Proof.
  intros Hc Hh. rewrite shuffle_ext. destruct (shuffle_ctl E2 s) as (A1 & A2 & A3). destruct (shuffle_ctl E2 t) as (B1 & B2 & B3).
  split; [congruence|]. split; [congruence|]. now rewrite A3, B3.
Qed.
Lemma sim_idle s t s' t' : Sim L s t -> Inv L s' -> Inv L t' -> phys s' = phys s -> phys t' = phys t -> ctl s' = ctl t' ->
  map feval (h_arr s') = map feval (h_arr t') -> Sim L s' t'.
Proof.
  intros [Hs Ht P Hc Hn Hh] I1 I2 A1 A2 A5 A6. constructor; auto.
  - eapply PhySim_frame; eauto.
  - destruct (phys_fields _ _ A1) as (_ & _ & -> & _). destruct (phys_fields _ _ A2) as (_ & _ & -> & _). exact Hn.
Qed.
Lemma install_sim s t l ul sh b : Sim L s t -> 
  ctl (fst (shuffle E1 (installed l ul sh b s))) = ctl (fst (shuffle E2 (installed l ul sh b t))) /\
  snd (shuffle E1 (installed l ul sh b s)) = snd (shuffle E2 (installed l ul sh b t)) /\
  map feval (h_arr (fst (shuffle E1 (installed l ul sh b s)))) = map feval (h_arr (fst (shuffle E2 (installed l ul sh b t)))).
Proof.
  intros S. apply shuffle_sim; [|exact (sm_h _ _ _ S)].
  transitivity (installed l ul sh b (ctl s)); [reflexivity|]. now rewrite (sm_c _ _ _ S).
Qed.
Lemma set_ids_sim l sh : RM (set_custome_site_id_list E1 l sh) (set_custome_site_id_list E2 l sh).
Proof.
  intros s t S. pose proof S as [Hs Ht P Hc Hn Hh].
  pose proof (set_ids_inv E1 L l sh s Hs) as I1. pose proof (set_ids_inv E2 L l sh t Ht) as I2.
  pose proof (set_ids_phys E1 l sh s) as P1. pose proof (set_ids_phys E2 l sh t) as P2.
  rewrite (set_ids_ok E1 L l sh s (i_static _ _ Hs)) in *. rewrite (set_ids_ok E2 L l sh t (i_static _ _ Ht)) in *.
  destruct l as [|a l]; [split; auto|]. destruct (forallb (siteb L) (a :: l)); [|split; auto].
  destruct (install_sim s t (a :: l) (a :: l) true sh S) as (A1 & A2 & A3). split; auto. now apply (sim_idle s t).
Qed.
Lemma set_indices_sim l sh : RM (set_custome_site_index_list E1 l sh) (set_custome_site_index_list E2 l sh).
Proof.
  intros s t S. pose proof S as [Hs Ht P Hc Hn Hh].
  pose proof (set_indices_inv E1 L l sh s Hs) as I1. pose proof (set_indices_inv E2 L l sh t Ht) as I2.
  pose proof (set_indices_phys E1 l sh s) as P1. pose proof (set_indices_phys E2 l sh t) as P2.
  rewrite (set_indices_ok E1 L l sh s (i_static _ _ Hs)) in *. rewrite (set_indices_ok E2 L l sh t (i_static _ _ Ht)) in *. cbv zeta in *.
  assert (Em : map (calculate_id_from_index (lat s)) l = map (calculate_id_from_index (lat t)) l).
  { apply map_ext. intros a. unfold calculate_id_from_index. now rewrite (st_len _ _ (i_static _ _ Hs)), (st_len _ _ (i_static _ _ Ht)). }
  rewrite Em in *. destruct (map (calculate_id_from_index (lat t)) l) as [|a l']; [split; auto|]. destruct (forallb (siteb L) (a :: l')); [|split; auto].
  destruct (ctl_fields _ _ Hc) as (_ & _ & _ & _ & _ & _ & _ & _ & _ & _ & _ & _ & _ & _ & _ & _ & Eu & _). rewrite Eu in *.
  destruct (install_sim s t (a :: l') (user_list t) false sh S) as (A1 & A2 & A3). split; auto. now apply (sim_idle s t).
Qed.
Lemma swap_form a b il rl0 : exists F r, (forall s, ids s = il -> rev_ids s = rl0 -> swap_ids a b s = (F s, r)) /\
  (forall s, ctl (F s) = F (ctl s)) /\ (forall s, h_arr (F s) = h_arr s).
Proof.
  destruct (a =? b) eqn:Eab.
  { exists (fun s => s), (Ok tt). split; [|auto]. intros s _ _. unfold swap_ids. rewrite Eab. reflexivity. }
  destruct (lget rl0 a) as [i1|e] eqn:G1.
  2:{ exists (fun s => s), (Err e). split; [|auto]. intros s Ei Er. unfold swap_ids, mbind, get, lift. rewrite Eab, Er, G1. reflexivity. }
  destruct (lget rl0 b) as [i2|e] eqn:G2.
  2:{ exists (fun s => s), (Err e). split; [|auto]. intros s Ei Er. unfold swap_ids, mbind, get, lift. rewrite Eab, Er, G1, G2. reflexivity. }
  destruct (lset il i1 b) as [l1|e] eqn:G3.
  2:{ exists (fun s => s), (Err e). split; [|auto]. intros s Ei Er. unfold swap_ids, mbind, get, lift. rewrite Eab, Er, G1, G2, Ei, G3. reflexivity. }
  destruct (lset l1 i2 a) as [l2|e] eqn:G4.
  2:{ exists (mutate_ids l1), (Err e). split; [|split; [apply ctl_mutate|apply h_mutate]]. intros s Ei Er. unfold swap_ids, mbind, get, lift, modify. rewrite Eab, Er, G1, G2, Ei, G3, G4. reflexivity. }
  destruct (lset rl0 b i1) as [r1|e] eqn:G5.
  2:{ exists (fun s => mutate_ids l2 (mutate_ids l1 s)), (Err e). split; [|split; intros s; [rewrite !ctl_mutate; reflexivity|now rewrite !h_mutate]].
      intros s Ei Er. unfold swap_ids, mbind, get, lift, modify. rewrite Eab, Er, G1, G2, Ei, G3, G4, G5. reflexivity. }
  destruct (lset r1 a i2) as [r2|e] eqn:G6.
  2:{ exists (fun s => set_rev r1 (mutate_ids l2 (mutate_ids l1 s))), (Err e). split; [|split; intros s; [rewrite ctl_set_rev, !ctl_mutate; reflexivity|now rewrite h_set_rev, !h_mutate]].
      intros s Ei Er. unfold swap_ids, mbind, get, lift, modify. rewrite Eab, Er, G1, G2, Ei, G3, G4, G5, G6. reflexivity. }
  exists (fun s => set_rev r2 (set_rev r1 (mutate_ids l2 (mutate_ids l1 s)))), (Ok tt). split; [|split; intros s; [rewrite !ctl_set_rev, !ctl_mutate; reflexivity|now rewrite !h_set_rev, !h_mutate]].
  intros s Ei Er. unfold swap_ids, mbind, get, lift, modify. rewrite Eab, Er, G1, G2, Ei, G3, G4, G5, G6. reflexivity.
Qed.
Lemma swap_ctl a b s : ctl (fst (swap_ids a b s)) = fst (swap_ids a b (ctl s)) /\ snd (swap_ids a b s) = snd (swap_ids a b (ctl s)) /\
  h_arr (fst (swap_ids a b s)) = h_arr s.
Proof.
  destruct (swap_form a b (ids s) (rev_ids s)) as (F & r & H1 & H2 & H3).
  rewrite (H1 s eq_refl eq_refl), (H1 (ctl s) eq_refl eq_refl). cbn [fst snd]. split; [apply H2|]. split; [reflexivity|apply H3].
Qed.
Lemma swap_sim a b : is_site L a -> is_site L b -> RM (swap_ids a b) (swap_ids a b).
Proof.
  intros Ha Hb s t S. pose proof S as [Hs Ht P Hc Hn Hh].
  destruct (swap_ctl a b s) as (A1 & A2 & A3). destruct (swap_ctl a b t) as (B1 & B2 & B3). split; [|congruence].
  apply (sim_idle s t); auto; try apply swap_ids_inv; auto; try apply swap_phys; congruence.
Qed.

(** ** Reset *)
Definition CC (s t : perc) : Prop := ctl s = ctl t /\ l_length (lat s) = l_length (lat t).
Definition RC {A} (m1 m2 : M A) : Prop := forall s t, CC s t -> CC (fst (m1 s)) (fst (m2 t)) /\ snd (m1 s) = snd (m2 t).
Lemma RC_bind {A B} (m1 m2 : M A) (k1 k2 : A -> M B) : RC m1 m2 -> (forall x, RC (k1 x) (k2 x)) -> RC (mbind m1 k1) (mbind m2 k2).
Proof.
  intros Hm Hk s t C. destruct (Hm s t C) as (H1 & H2). unfold mbind. destruct (m1 s) as [s1 [x|e]], (m2 t) as [t1 [y|e']];
    cbn [fst snd] in *; try discriminate; injection H2 as <-; [now apply Hk|auto].
Qed.
Lemma RC_modify f g : (forall s t, CC s t -> CC (f s) (g t)) -> RC (modify f) (modify g).
Proof. intros H s t C. split; [now apply H|reflexivity]. Qed.
Lemma RC_get {A} (k1 k2 : perc -> M A) : (forall s t, CC s t -> CC (fst (k1 s s)) (fst (k2 t t)) /\ snd (k1 s s) = snd (k2 t t)) ->
  RC (mbind get k1) (mbind get k2).
Proof. intros H s t C. exact (H s t C). Qed.
Lemma CC_map f g (F : perc -> perc) : (forall s, ctl (f s) = F (ctl s)) -> (forall s, ctl (g s) = F (ctl s)) ->
  (forall s, lat (f s) = lat s) -> (forall s, lat (g s) = lat s) -> forall s t, CC s t -> CC (f s) (g t).
Proof. intros H1 H2 H3 H4 s t (C1 & C2). split; [now rewrite H1, H2, C1|now rewrite H3, H4]. Qed.

(** What [reset] does once the clusters have been rebuilt. *)
Definition reset_tail (E : env) : M unit :=
  run (run shuffle E ;
       run modify (set_cur_idx 0) ;
       run modify (fun s => set_wrap false (-1) 0 (pc_bonds s) (pc_sites s) s) ;
       run modify (set_largest 0 (-1)) ;
       run modify (fun s => set_ent (max_ent s) s) ;
       run modify (set_occ_count 0) ;
       run modify (set_sel_flag None) ;
       modify (fun s => set_arrs (if first_run s then [] else p_arr s) [] [] [] s)) ;
  do s <~ get ;
  match kind s with
  | KL1 =>
      run modify (fun s => rebind_ids (zrange (l_length (lat s) * l_length (lat s)))
                            (user_list s) false s) ;
      run modify (set_xy 0 (y_occ s)) ;
      modify (set_record [])
  | KL2 =>
      run modify (fun s => rebind_ids (zrange (l_length (lat s) * l_length (lat s)))
                            (user_list s) false s) ;
      modify (set_xy 0 0)
  | KSP => modify (set_sp (FZ 0))
  | _ => ret tt
  end.
Lemma shuffle_lat E s : lat (fst (shuffle E s)) = lat s. Proof. exact (f_equal lat (shuffle_phys E s)). Qed.
Lemma RC_shuffle : RC (shuffle E1) (shuffle E2).
Proof.
  intros s t (C1 & C2). destruct (shuffle_ctl E2 s) as (A1 & A2 & _). destruct (shuffle_ctl E2 t) as (B1 & B2 & _).
  split; [split|].
  - rewrite shuffle_ext, A1, B1, C1. reflexivity.
  - rewrite !shuffle_lat. exact C2.
  - rewrite shuffle_ext, A2, B2, C1. reflexivity.
Qed.
Lemma reset_tail_cc : RC (reset_tail E1) (reset_tail E2).
Proof.
  apply RC_bind.
  - apply RC_bind; [apply RC_shuffle|intros _].
    apply RC_bind; [apply RC_modify, (CC_map _ _ (set_cur_idx 0)); reflexivity|intros _].
    apply RC_bind; [apply RC_modify, (CC_map _ _ (fun s => s)); reflexivity|intros _].
    apply RC_bind; [apply RC_modify, (CC_map _ _ (fun s => s)); reflexivity|intros _].
    apply RC_bind; [apply RC_modify, (CC_map _ _ (fun s => s)); reflexivity|intros _].
    apply RC_bind; [apply RC_modify, (CC_map _ _ (fun s => s)); reflexivity|intros _].
    apply RC_bind; [apply RC_modify, (CC_map _ _ (set_sel_flag None)); reflexivity|intros _].
    apply RC_modify, (CC_map _ _ (fun s => set_arrs (if first_run s then [] else p_arr s) [] [] [] s)); reflexivity.
  - intros _. apply RC_get. intros s t C. pose proof C as (C1 & C2). destruct (ctl_fields _ _ C1) as (<- & F).
    assert (Ey : y_occ s = y_occ t) by tauto. rewrite <- Ey. clear F.
    assert (Kr : RC (modify (fun s => rebind_ids (zrange (l_length (lat s) * l_length (lat s))) (user_list s) false s))
                    (modify (fun s => rebind_ids (zrange (l_length (lat s) * l_length (lat s))) (user_list s) false s))).
    { apply RC_modify. clear. intros s t (C1 & C2). split; [|exact C2]. rewrite <- C2.
      change (rebind_ids (zrange (l_length (lat s) * l_length (lat s))) (user_list (ctl s)) false (ctl s) =
              rebind_ids (zrange (l_length (lat s) * l_length (lat s))) (user_list (ctl t)) false (ctl t)). rewrite C1. reflexivity. }
    destruct (kind s).
    + split; [exact C|reflexivity].
    + split; [exact C|reflexivity].
    + revert C. apply RC_bind; [exact Kr|intros _].
      apply RC_bind; [apply RC_modify, (CC_map _ _ (set_xy 0 (y_occ s))); reflexivity|intros _].
      apply RC_modify, (CC_map _ _ (set_record [])); reflexivity.
    + revert C. apply RC_bind; [exact Kr|intros _].
      apply RC_modify, (CC_map _ _ (set_xy 0 0)); reflexivity.
    + revert C. apply RC_modify, (CC_map _ _ (set_sp (FZ 0))); reflexivity.
Qed.
Lemma mbind_get {A} (k : perc -> M A) s : mbind get k s = k s s. Proof. reflexivity. Qed.
Lemma mbind_modify {A} f (k : unit -> M A) s : mbind (modify f) k s = k tt (f s). Proof. reflexivity. Qed.
Lemma mbind_eq {A B} (m : M A) (k : A -> M B) (s : perc) (m' : M A) s' : m s = m' s' -> mbind m k s = mbind m' k s'.
Proof. intros H. unfold mbind. now rewrite H. Qed.
Lemma reset_split E s : Inv L s -> exists s0, reset E s = reset_tail E s0 /\ ctl s0 = ctl s /\ l_length (lat s0) = L.
Proof.
  intros H. pose proof (i_static _ _ H) as St.
  destruct (lattice_reset_ok L (lat s) St) as (Sr & Hf). destruct (init_fresh L _ Sr Hf) as (lat1 & Ei & F1).
  eexists. split; [|split].
  - unfold reset, reset_tail. apply mbind_eq. unfold reset_base. rewrite mbind_get, mbind_modify, mbind_modify, mbind_get.
    rewrite (mbind_lift _ _ _ _ Ei). rewrite mbind_modify. reflexivity.
  - reflexivity.
  - exact (st_len _ _ (fr_static _ _ F1)).
Qed.
Lemma reset_sim : RM (reset E1) (reset E2).
Proof.
  intros s t S. pose proof S as [Hs Ht P Hc Hn Hh].
  destruct (reset_split E1 s Hs) as (s0 & A1 & A2 & A3). destruct (reset_split E2 t Ht) as (t0 & B1 & B2 & B3).
  destruct (reset_inv E1 L s Hs) as (s' & Er & Rs). destruct (reset_inv E2 L t Ht) as (t' & Er' & Rt).
  destruct (reset_tail_cc s0 t0) as ((Cc & _) & _); [split; congruence|].
  rewrite <- A1, <- B1, Er, Er' in Cc. rewrite Er, Er'. cbn [fst snd] in *. split; [|reflexivity]. cbn [fst].
  constructor.
  - apply fresh_inv, Rs.
  - apply fresh_inv, Rt.
  - apply PhySim_fresh; [apply Rs|apply Rt].
  - exact Cc.
  - intros i Hi. destruct (fr_site _ _ (fs_lat _ _ (rt_fresh _ _ _ Rs)) i Hi) as (_ & _ & U1 & U2).
    destruct (fr_site _ _ (fs_lat _ _ (rt_fresh _ _ _ Rt)) i Hi) as (_ & _ & V1 & V2). unfold nn1, nn2. rewrite U1, U2, V1, V2. auto.
  - destruct (rt_arrs _ _ _ Rs) as (_ & -> & _). destruct (rt_arrs _ _ _ Rt) as (_ & -> & _). reflexivity.
Qed.

(** ** Histories *)
Lemma new_sim k t0 s : new_perc E1 k L t0 = Ok s -> new_perc E2 k L t0 = Ok s /\ Sim L s s.
Proof.
  intros H. pose proof (new_perc_fresh _ _ _ _ _ H) as F. split.
  - unfold new_perc in *. destruct (new_lattice L) as [l0|]; [|discriminate]. cbn [rbind] in *. destruct (init_clusters l0) as [[p l1]|]; [|discriminate].
    cbn [rbind] in *. destruct (log_int _) as [mx|]; [|discriminate]. cbn [rbind] in *. now rewrite <- shuffle_ext.
  - constructor; auto; try (now apply fresh_inv). now apply PhySim_fresh.
Qed.
Lemma exec_sim c s t : call_ok L c -> Sim L s t -> Sim L (exec E1 s c) (exec E2 t c).
Proof.
  intros Hc S. destruct c; cbn [exec call_ok] in *.
  - now apply place_sim.
  - now apply detect_sim.
  - now apply reset_sim.
  - now apply set_ids_sim.
  - now apply set_indices_sim.
  - now apply swap_sim.
  - now apply run_once_sim.
  - now apply test_run_once_sim.
Qed.
Lemma after_sim cs : forall s t, Forall (call_ok L) cs -> Sim L s t -> Sim L (after E1 s cs) (after E2 t cs).
Proof.
  induction cs as [|c cs IH]; intros s t Hc S; [exact S|]. apply Forall_cons_iff in Hc as (H1 & H2). cbn. apply IH; auto. now apply exec_sim.
Qed.

Lemma outcome_sim c s t : call_ok L c -> Sim L s t -> outcome E1 s c = outcome E2 t c.
Proof.
  intros Hc S. destruct c; cbn [outcome call_ok] in *.
  - now apply place_sim.
  - now apply detect_sim.
  - f_equal. now apply reset_sim.
  - f_equal. now apply set_ids_sim.
  - f_equal. now apply set_indices_sim.
  - f_equal. destruct Hc. now apply swap_sim.
  - f_equal. now apply run_once_sim.
  - f_equal. now apply test_run_once_sim.
Qed.
End TwoOrders.

(** ** C46 *)
Lemma index_same L lat lat' i : Static L lat -> Static L lat' ->
  (x <- get_site_by_id lat i ;; Ok (s_index x)) = (x <- get_site_by_id lat' i ;; Ok (s_index x)).
Proof.
  intros S1 S2. pose proof (st_ns _ _ S1) as N1. pose proof (st_ns _ _ S2) as N2.
  assert (G : forall k, nth_error (map s_index (l_sites lat)) k = nth_error (map s_index (l_sites lat')) k).
  { assert (Q : map s_index (l_sites lat) = map s_index (l_sites lat')); [|now rewrite Q].
    apply (at_ext (0, 0)); rewrite !zlen_map; [congruence|]. intros j Hj. rewrite N1 in Hj.
    assert (Hx : is_site L j) by exact Hj.
    rewrite !(at_map s_index dsite (0, 0)) by (rewrite ?N1, ?N2; exact Hj).
    destruct (st_site _ _ S1 j Hx) as (_ & E1 & _). destruct (st_site _ _ S2 j Hx) as (_ & E2 & _). unfold site_at in *. congruence. }
  unfold get_site_by_id, lget. rewrite N1, N2. destruct (py_pos (L * L) i) as [k|]; [|reflexivity].
  specialize (G k). rewrite !nth_error_map in G.
  destruct (nth_error (l_sites lat) k), (nth_error (l_sites lat') k); cbn in *; congruence.
Qed.
Lemma p_C46 E1 E2 k L t0 s0 cs : env_ok E1 -> env_ok E2 -> (forall n, e_draw E1 n = e_draw E2 n) ->
  new_perc E1 k L t0 = Ok s0 -> Forall (call_ok L) cs ->
  new_perc E2 k L t0 = Ok s0 /\
  let s := after E1 s0 cs in
  let t := after E2 s0 cs in
  same_physics L s t /\
  feval (entropy_v2 s) = feval (entropy_v2 t) /\
  get_site_id_sequence s = get_site_id_sequence t /\ get_index_sequence s = get_index_sequence t /\
  sel_flag s = sel_flag t /\ sel_id s = sel_id t /\
  p_arr s = p_arr t /\ pw_arr s = pw_arr t /\ pl_arr s = pl_arr t /\ map feval (h_arr s) = map feval (h_arr t) /\
  sp_p s = sp_p t /\
  forall c, call_ok L c -> outcome E1 s c = outcome E2 t c.
Proof.
  intros HE1 HE2 HD E0 Hcs. destruct (new_sim E1 E2 L HD k t0 s0 E0) as (E0' & S0). split; [exact E0'|]. cbv zeta.
  pose proof (after_sim E1 E2 L HE1 HE2 HD cs s0 s0 Hcs S0) as S. set (s := after E1 s0 cs) in *. set (t := after E2 s0 cs) in *.
  pose proof S as [Hs Ht P Hc Hn Hh].
  destruct (ctl_fields _ _ Hc) as (C1 & C2 & C3 & C4 & C5 & C6 & C7 & C8 & C9 & C10 & C11 & C12 & C13 & C14 & C15 & C16 & C17 & C18 & _).
  split; [now apply psim_same|]. split; [apply P|]. split; [exact C2|].
  split. { unfold get_index_sequence. rewrite C1, C2, C11. set (l := match kind t with KL1 => record t | _ => ids t end).
    assert (G : forall i, (x <- get_site_by_id (lat s) i ;; Ok (s_index x)) = (x <- get_site_by_id (lat t) i ;; Ok (s_index x))).
    { intros i. apply (index_same L); [apply (i_static _ _ Hs)|apply (i_static _ _ Ht)]. }
    clear - G. induction l as [|a l IH]; [reflexivity|]. cbn [mapM]. now rewrite G, IH. }
  repeat (split; [assumption|]). intros c Hcc. now apply (outcome_sim E1 E2 L).
Qed.

