(** * Replay: what happens on the lattice depends only on the sites placed and
    the moments of detection (C60); replaying a recorded L1 run (C53). *)
From Coq Require Import ZArith List Bool Lia Permutation Reals.
From Verif Require Import Py Lattice Cluster Perc Spec PyFacts Torus Geometry LatFacts Inv Merge Count Fresh Select State Step History Reach Micro StateProps StateProps2 Comm Seq RunBase RunProps RunProps2 Cand CandRun Cycle Normal Real Entropy Order Exact.
Import ListNotations.
Open Scope Z_scope.

(** ** Histories of single steps *)
Section Logs.
Variables (E1 E2 : env) (L : Z).
Hypothesis HE1 : env_ok E1.
Hypothesis HE2 : env_ok E2.
Variable ex : bool.
Hypothesis Hord : ex = true -> forall l, e_ord E1 l = e_ord E2 l.

Lemma event_le1 E s c : event_of E s c = [] \/ exists e, event_of E s c = [e].
Proof.
  destruct c; cbn [event_of]; eauto.
  - destruct (place_one_site E s) as [s' [[]|]]; eauto. destruct (flag_is_success s'); eauto. destruct (sel_id s'); eauto.
  - destruct (sel_id s); eauto.
Qed.
Lemma silent E s t c : env_ok E -> call_ok L c -> stepwise c -> Inv L s -> Inv L t -> PX ex L s t -> event_of E s c = [] ->
  PX ex L (exec E s c) t.
Proof.
  intros HE Hc Hst Hs Ht P Hev. destruct c; cbn [exec event_of call_ok stepwise] in *; try contradiction; try discriminate.
  - apply (place_silent_x E L HE); auto. pose proof (place_inv E L s HE Hs) as H1.
    destruct (place_one_site E s) as [s' [[]|]] eqn:Ep; cbn [fst snd] in *; try (left; congruence).
    right. destruct (flag_is_success s') eqn:Ef; auto. exfalso. destruct (sel_id s') as [x|] eqn:Ex; [discriminate|].
    destruct (place_spec E L s HE Hs) as (Sd & Q). destruct (sel E L s) as [s1 r1]. cbn [fst snd] in *.
    destruct r1 as [[]|e]; [|rewrite Ep in Q; try discriminate..].
    + destruct Q as (y & s2 & root & Y1 & Y2 & Ep' & Pd). rewrite Ep in Ep'. injection Ep' as <-.
      pose proof (f_equal sel_id (pd_core _ _ _ _ _ _ Pd)) as Q. change (sel_id s' = sel_id s1) in Q. congruence.
    + injection Q as ->. discriminate.
  - destruct (sel_id s) eqn:X; [discriminate|]. now apply detect_silent_x.
  - eapply PX_frame; [exact P|apply set_ids_phys|reflexivity].
  - eapply PX_frame; [exact P|apply set_indices_phys|reflexivity].
  - eapply PX_frame; [exact P|apply swap_phys|reflexivity].
Qed.
Lemma place_event E s x : event_of E s CPlace = [EPlace x] ->
  snd (place_one_site E s) = Ok true /\ flag_is_success (fst (place_one_site E s)) = true /\ sel_id (fst (place_one_site E s)) = Some x.
Proof.
  cbn [event_of]. destruct (place_one_site E s) as [s' [[]|]]; try discriminate. cbn [fst snd].
  destruct (flag_is_success s'); [|discriminate]. destruct (sel_id s') as [y|]; [|discriminate]. intros Q. injection Q as ->. auto.
Qed.
Lemma check_event E s x : event_of E s CDetect = [ECheck x] -> sel_id s = Some x.
Proof. cbn [event_of]. destruct (sel_id s); [|discriminate]. intros Q. injection Q as ->. auto. Qed.
Lemma event_call E s c e : event_of E s c = [e] ->
  match e with EPlace _ => c = CPlace | ECheck _ => c = CDetect | EClear => c = CReset end.
Proof.
  destruct c; cbn [event_of]; try discriminate.
  - destruct (place_one_site E s) as [s' [[]|]]; try discriminate. destruct (flag_is_success s'); [|discriminate].
    destruct (sel_id s'); [|discriminate]. intros Q. now injection Q as <-.
  - destruct (sel_id s); [|discriminate]. intros Q. now injection Q as <-.
  - intros Q. now injection Q as <-.
Qed.
Lemma loud s t c c' e : Inv L s -> Inv L t -> PX ex L s t -> event_of E1 s c = [e] -> event_of E2 t c' = [e] ->
  PX ex L (exec E1 s c) (exec E2 t c').
Proof.
  intros Hs Ht P H1 H2. pose proof (event_call _ _ _ _ H1) as C1. pose proof (event_call _ _ _ _ H2) as C2.
  destruct e as [x|x|]; subst c c'; cbn [exec].
  - destruct (place_event _ _ _ H1) as (A1 & A2 & A3). destruct (place_event _ _ _ H2) as (B1 & B2 & B3).
    now apply (place_both_x E1 E2 L HE1 HE2 ex Hord s t x).
  - apply check_event in H1, H2. now apply (detect_both_x ex L s t x).
  - destruct (reset_inv E1 L s Hs) as (s' & -> & Rs). destruct (reset_inv E2 L t Ht) as (t' & -> & Rt). cbn [fst].
    apply PX_fresh; [apply Rs|apply Rt].
Qed.
Lemma logs_same cs : forall ds s t, Forall (call_ok L) cs -> Forall (call_ok L) ds -> Forall stepwise cs -> Forall stepwise ds ->
  Inv L s -> Inv L t -> PX ex L s t -> events E1 s cs = events E2 t ds -> PX ex L (after E1 s cs) (after E2 t ds).
Proof.
  induction cs as [|c cs IH]; intros ds s t Hc Hd Sc Sd Hs Ht P Ev.
  - cbn [events after fold_left] in *. symmetry in Ev. revert t Ht P Ev Hd Sd. induction ds as [|d ds IHd]; intros t Ht P Ev Hd Sd; [exact P|].
    cbn [events after fold_left] in *. fold (after E2 (exec E2 t d) ds). apply app_eq_nil in Ev as (Ev1 & Ev2).
    apply Forall_cons_iff in Hd as (Hd1 & Hd2). apply Forall_cons_iff in Sd as (Sd1 & Sd2).
    pose proof (exec_inv E2 L t d HE2 Hd1 Ht) as Ht1. apply IHd; auto. apply (PX_sym ex L); auto. apply silent; auto. now apply (PX_sym ex L).
  - apply Forall_cons_iff in Hc as (Hc1 & Hc2). apply Forall_cons_iff in Sc as (Sc1 & Sc2).
    cbn [events after fold_left] in *. fold (after E1 (exec E1 s c) cs).
    pose proof (exec_inv E1 L s c HE1 Hc1 Hs) as Hs1.
    destruct (event_le1 E1 s c) as [Q|(e & Q)]; rewrite Q in Ev; cbn [app] in Ev.
    + apply IH; auto. now apply silent.
    + revert t Ht P Ev Hd Sd. induction ds as [|d ds IHd]; intros t Ht P Ev Hd Sd; [discriminate|].
      cbn [events] in Ev. apply Forall_cons_iff in Hd as (Hd1 & Hd2). apply Forall_cons_iff in Sd as (Sd1 & Sd2).
      pose proof (exec_inv E2 L t d HE2 Hd1 Ht) as Ht1. cbn [after fold_left]. fold (after E2 (exec E2 t d) ds).
      destruct (event_le1 E2 t d) as [Q'|(e' & Q')]; rewrite Q' in Ev; cbn [app] in Ev.
      * apply IHd; auto. apply (PX_sym ex L); auto. apply silent; auto. now apply (PX_sym ex L).
      * injection Ev as <- Ev. apply IH; auto. now apply (loud s t c d e).
Qed.
End Logs.

Lemma p_C60 E1 E2 k1 k2 L a b s t cs ds : env_ok E1 -> env_ok E2 -> new_perc E1 k1 L a = Ok s -> new_perc E2 k2 L b = Ok t ->
  Forall (call_ok L) cs -> Forall (call_ok L) ds -> Forall stepwise cs -> Forall stepwise ds ->
  events E1 s cs = events E2 t ds ->
  let u := after E1 s cs in
  let v := after E2 t ds in
  same_physics L u v /\ feval (entropy_v2 u) = feval (entropy_v2 v) /\
  ((forall l, e_ord E1 l = e_ord E2 l) ->
    entropy_v2 u = entropy_v2 v /\
    (forall i, is_site L i -> site_label u i = site_label v i) /\ (forall j, is_bond L j -> bond_label u j = bond_label v j)).
Proof.
  intros HE1 HE2 N1 N2 Hc Hd Sc Sd Ev u v. pose proof (new_perc_fresh _ _ _ _ _ N1) as F1. pose proof (new_perc_fresh _ _ _ _ _ N2) as F2.
  pose proof (fresh_inv _ _ F1) as I1. pose proof (fresh_inv _ _ F2) as I2.
  assert (Iu : Inv L u) by (now apply after_inv). assert (Iv : Inv L v) by (now apply after_inv).
  assert (P : forall x, (x = true -> forall l, e_ord E1 l = e_ord E2 l) -> PX x L u v).
  { intros x Hx. exact (logs_same E1 E2 L HE1 HE2 x Hx cs ds s t Hc Hd Sc Sd I1 I2 (PX_fresh x L s t F1 F2) Ev). }
  destruct (P false ltac:(discriminate)) as (P0 & _).
  split; [now apply psim_same|]. split; [apply P0|]. intros Hord.
  destruct (PX_labels L u v Iu Iv (P true (fun _ => Hord))) as (A & B & C). auto.
Qed.

(** ** Replaying an L1 run *)
Section Lockstep.
Variables (E1 E2 : env) (L : Z).
Hypothesis HE1 : env_ok E1.
Hypothesis HE2 : env_ok E2.
Variable ex : bool.
Hypothesis Hord : ex = true -> forall l, e_ord E1 l = e_ord E2 l.

Lemma run_step_rec s : Inv L s -> Cand L s -> RecOK L s -> weight L s <> 0 ->
  RecOK L (run_step E1 s) /\
  if flag_is_success (fst (place_one_site E1 s))
  then exists x, sel_id (fst (place_one_site E1 s)) = Some x /\ record (run_step E1 s) = record s ++ [x]
  else record (run_step E1 s) = record s.
Proof.
  intros H C R Hw. destruct (rec_place E1 L s HE1 H R) as (R1 & Q). destruct (place_cand E1 L s HE1 H C) as (H1 & _ & _ & Pc).
  destruct (Z.eqb_spec (weight L s) 0); [contradiction|]. destruct Pc as (Er & _). rewrite Er in Q. unfold run_step.
  set (s1 := fst (place_one_site E1 s)) in *. destruct (flag_is_success s1); [|auto].
  destruct Q as (x & Ex & Q). destruct (rec_detect L s1 H1 R1) as (R2 & Q2). split; auto. exists x. split; auto. congruence.
Qed.
Lemma run_state_rec n : forall s, Inv L s -> Cand L s -> RecOK L s -> Z.of_nat n <= weight L s ->
  RecOK L (run_state E1 n s) /\ exists xs, record (run_state E1 n s) = record s ++ xs /\ length xs = length (run_log E1 n s).
Proof.
  induction n as [|n IH]; intros s H C R Hn; [split; auto; exists []; now rewrite app_nil_r|].
  destruct (run_step_cand E1 L s HE1 H C) as (H1 & C1 & K1 & R1 & W1 & F1 & O1); [lia|].
  destruct (run_step_rec s H C R) as (R2 & Q); [lia|].
  destruct (IH (run_step E1 s) H1 C1 R2) as (R3 & xs & Ex & Hl); [lia|]. cbn [run_state run_log]. split; auto. cbv zeta in F1. rewrite F1.
  destruct (flag_is_success (fst (place_one_site E1 s))).
  - destruct Q as (x & _ & Q). exists (x :: xs). rewrite Ex, Q, <- app_assoc. split; [reflexivity|]. cbn [length app]. now rewrite Hl.
  - exists xs. rewrite Ex, Q. auto.
Qed.

Definition Twin (a b : perc) : Prop := Inv L a /\ Inv L b /\ PX ex L a b.
Lemma lock n : forall u v, Inv L u -> Cand L u -> RecOK L u -> Z.of_nat n <= weight L u -> Inv L v -> RunB L v -> PX ex L u v ->
  firstn (Z.to_nat (cur_idx v)) (ids v) = record u -> ids v = record (run_state E1 n u) ->
  let m := length (run_log E1 n u) in
  Twin (run_state E1 n u) (trace E2 m v) /\ Forall2 Twin (run_log E1 n u) (map (fun j => trace E2 j v) (seq 1 m)).
Proof.
  induction n as [|n IH]; intros u v Hu Cu Ru Hn Hv Bv P Hcur Hids; [cbn; split; [split; auto|constructor]|].
  destruct (run_step_cand E1 L u HE1 Hu Cu) as (H1 & C1 & K1 & R1 & W1 & F1 & O1); [lia|].
  destruct (run_step_rec u Hu Cu Ru) as (R2 & Q); [lia|].
  destruct (run_state_rec n (run_step E1 u) H1 C1 R2) as (R3 & xs & Ex & _); [lia|].
  destruct (place_cand E1 L u HE1 Hu Cu) as (H1' & _ & _ & Pc).
  destruct (Z.eqb_spec (weight L u) 0); [lia|]. destruct Pc as (Er & _). cbv zeta in F1.
  cbn [run_state run_log] in *. rewrite F1. unfold run_step in *.
  set (u1 := fst (place_one_site E1 u)) in *. destruct (flag_is_success u1) eqn:Ef.
  - destruct Q as (x & Xx & Q). rewrite Ex, Q, <- app_assoc in Hids. cbn [app] in Hids.
    assert (Hlen : cur_idx v = zlen (record u)).
    { pose proof (rb_cur _ _ Bv) as Hb. rewrite <- Hcur. unfold zlen in *. rewrite firstn_length_le; lia. }
    assert (Hlt : cur_idx v < zlen (ids v)) by (rewrite Hids, Hlen, zlen_app; unfold zlen; cbn [length]; lia).
    assert (Hat : at_ 0 (ids v) (cur_idx v) = x).
    { rewrite Hids, Hlen. unfold at_. pose proof (zlen_nonneg (record u)). replace (0 <=? zlen (record u)) with true by lia.
      unfold zlen. rewrite Nat2Z.id, app_nth2, Nat.sub_diag by lia. reflexivity. }
    destruct (runB_place E2 L v HE2 Hv Bv Hlt) as (v1 & Ep & Ef1 & I1 & B1 & Ec & Xv & _). rewrite Hat in Xv.
    destruct (runB_advance E2 L v HE2 Hv Bv Hlt) as (I2 & B2 & Ec2 & Sq & _ & _).
    assert (P1 : PX ex L u1 v1).
    { pose proof (place_both_x E1 E2 L HE1 HE2 ex Hord u v x Hu Hv P Er Ef Xx) as G. rewrite Ep in G. now apply G. }
    destruct (detect_both_x ex L u1 v1 x H1' I1 P1 Xx Xv) as (P2 & _).
    assert (Ea : fst (detect_wrapping v1) = advance E2 v) by (unfold advance; now rewrite Ep). rewrite Ea in P2.
    assert (Ei : ids (advance E2 v) = ids v) by apply (seqv_eqs _ _ Sq).
    cbn [app length]. cbv zeta.
    destruct (IH (fst (detect_wrapping u1)) (advance E2 v)) as (T & A); auto; try lia.
    + rewrite Ec2, Ei, firstn_snoc by (split; [apply (rb_cur _ _ Bv)|exact Hlt]). rewrite Hat, Hcur. congruence.
    + rewrite Ei, Hids, Ex, Q, <- app_assoc. reflexivity.
    + cbn [trace]. split; [exact T|]. cbn [seq map trace]. constructor; [split; auto|].
      rewrite <- seq_shift, map_map. exact A.
  - cbn [app]. apply IH; auto; try lia; [|congruence].
    apply (place_silent_x E1 L HE1); auto.
Qed.
End Lockstep.

Lemma fresh_record E L s : env_ok E -> fresh_object E KL1 L s -> RecOK L s /\ record s = [].
Proof.
  intros HE HF. destruct (fresh_object_state E KL1 L s HE HF) as (F & Ek & _).
  assert (R : RecOK L s).
  { destruct HF as [(t0 & E0)|(s0 & HR & ->)].
    - apply (reachable_rec E L s HE). exists t0, s, []. auto.
    - destruct (reachable_rec E L s0 HE HR) as (H0 & R0). exact (rec_exec E L s0 CReset HE I H0 R0). }
  split; auto. destruct R as (_ & _ & R). destruct (record s) as [|x l]; auto. exfalso.
  destruct (proj1 (R x) (or_introl eq_refl)) as (Hx & Ox). destruct (fr_site _ _ (fs_lat _ _ F) x Hx) as (Q & _). unfold occ in Ox. lia.
Qed.

Lemma twin_map {A} (f g : perc -> A) L x lg l : Forall2 (Twin L x) lg l -> (forall a b, Twin L x a b -> f a = g b) -> map f lg = map g l.
Proof. intros H Hf. induction H; cbn [map]; [reflexivity|]. f_equal; auto. Qed.

Lemma replay_x x E1 E2 k L s b f g s' ixs : env_ok E1 -> env_ok E2 -> (x = true -> forall l, e_ord E1 l = e_ord E2 l) -> k = KBase \/ k = KL0 ->
  fresh_object E1 KL1 L s -> run_once E1 f s = (s', Ok tt) -> get_index_sequence s' = Ok ixs ->
  fresh_object E2 k L b -> L * L < Z.of_nat g ->
  exists b1 b',
    set_custome_site_index_list E2 (map (fun '(r, c) => [r; c]) ixs) false b = (b1, Ok tt) /\
    run_once E2 g b1 = (b', Ok tt) /\
    Inv L s' /\ Inv L b' /\ PX x L s' b' /\
    pw_arr s' = pw_arr b' /\ pl_arr s' = pl_arr b' /\ map feval (h_arr s') = map feval (h_arr b') /\ (x = true -> h_arr s' = h_arr b') /\
    (first_run s = true -> first_run b = true -> p_arr s' = p_arr b').
Proof.
  intros HE1 HE2 Hord Hk HF Hr Hix HB Hg.
  destruct (fresh_object_cand E1 KL1 L s HE1 eq_refl HF) as (F & H & Ek & C & W).
  destruct (fresh_record E1 L s HE1 HF) as (R & Er0).
  destruct (fresh_object_state E1 KL1 L s HE1 HF) as (_ & _ & A1 & A2 & A3 & A4).
  destruct (fresh_object_state E2 k L b HE2 HB) as (Fb & Ekb & B1 & B2 & B3 & B4).
  pose proof (fresh_inv _ _ Fb) as Hb. pose proof (LL_pos L (i_pos _ _ H)) as HLL.
  set (n := Z.to_nat (5 * (L * L))).
  assert (Es' : s' = finishedC E1 s n).
  { pose proof (run_once_mono E1 s s' f (Nat.max f (S n)) ltac:(congruence) Hr ltac:(lia)) as Hr'.
    rewrite (run_once_C E1 L s _ HE1 H C) in Hr' by (rewrite W; unfold n; lia). rewrite W in Hr'. injection Hr' as <-. reflexivity. }
  destruct (run_state_cand E1 L n HE1 s H C ltac:(unfold n; lia)) as (T1 & T2 & T3 & T4 & T5 & T6 & T7 & T8).
  destruct (run_state_rec E1 L HE1 n s H C R ltac:(unfold n; lia)) as (Rt & xs & Exs & Hxs). rewrite Er0 in Exs. cbn [app] in Exs.
  set (t := run_state E1 n s) in *. set (lg := run_log E1 n s) in *. cbv zeta in *.
  assert (Hl : length lg = Z.to_nat (L * L)).
  { pose proof (cand_full L t T1 T2 ltac:(unfold n in *; lia)) as Hfull.
    assert (Ho : occ_count t = L * L).
    { rewrite (i_occ _ _ T1). unfold nocc. rewrite count_all, zlen_zrange; try lia. intros y Hy. apply occb_true, Hfull. now apply In_zrange. }
    rewrite (fs_occ _ _ F) in T6. lia. }
  assert (Hseq : get_index_sequence s' = Ok (map (fun i => (i / L, i mod L)) xs)).
  { rewrite Es'. transitivity (get_index_sequence t); [reflexivity|]. rewrite (rec_seq L t T1 Rt). now rewrite Exs. }
  rewrite Hseq in Hix. injection Hix as <-.
  assert (Hsites : Forall (is_site L) xs) by (rewrite <- Exs; now apply rec_sites).
  assert (Hids : map (calculate_id_from_index (lat b)) (map (fun '(r, c) => [r; c]) (map (fun i => (i / L, i mod L)) xs)) = xs).
  { rewrite (map_calc L) by (now apply i_static). rewrite map_map. rewrite <- (map_id xs) at 2. apply map_ext. intros i.
    pose proof (Z.div_mod i L). pose proof (i_pos _ _ H). lia. }
  pose proof (set_indices_ok E2 L (map (fun '(r, c) => [r; c]) (map (fun i => (i / L, i mod L)) xs)) false b (i_static _ _ Hb)) as Eset.
  cbv zeta in Eset. rewrite Hids in Eset.
  assert (Hall : forallb (siteb L) xs = true).
  { apply forallb_forall. intros y Hy. rewrite Forall_forall in Hsites. specialize (Hsites y Hy). unfold is_site in Hsites. unfold siteb. lia. }
  rewrite Hall in Eset.
  assert (Eset' : set_custome_site_index_list E2 (map (fun '(r, c) => [r; c]) (map (fun i => (i / L, i mod L)) xs)) false b =
                  (installed xs (user_list b) false false b, Ok tt)).
  { rewrite Eset. destruct xs as [|y xs']; [cbn in Hxs; lia|]. reflexivity. }
  set (b1 := installed xs (user_list b) false false b) in *. clear Eset.
  assert (Hb1 : Inv L b1).
  { pose proof (exec_inv E2 L b (CSetIndices (map (fun '(r, c) => [r; c]) (map (fun i => (i / L, i mod L)) xs)) false) HE2 I Hb) as Q.
    cbn [exec] in Q. now rewrite Eset' in Q. }
  assert (Nd : NoDup xs) by (rewrite <- Exs; apply Rt).
  assert (Fc : cur_idx b = 0) by apply Fb. assert (Fo : occ_count b = 0) by apply Fb.
  assert (Bb : RunB L b1).
  { constructor.
    - change (is_L12 (kind b) = false). rewrite Ekb. destruct Hk; subst; reflexivity.
    - exact Nd.
    - change (0 <= cur_idx b <= zlen xs). rewrite Fc. pose proof (zlen_nonneg xs). lia.
    - change (occ_count b = cur_idx b). congruence.
    - intros i Hi. change (occ (lat b) i <-> In i (firstn (Z.to_nat (cur_idx b)) xs)). rewrite Fc. cbn.
      destruct (fr_site _ _ (fs_lat _ _ Fb) i Hi) as (Q & _). unfold occ. lia. }
  assert (P0 : PX x L s b1) by (eapply PX_frame; [exact (PX_fresh x L s b F Fb)|reflexivity|reflexivity]).
  destruct (lock E1 E2 L HE1 HE2 x Hord n s b1 H C R ltac:(unfold n; lia) Hb1 Bb P0) as (Tw & Fa).
  { change (firstn (Z.to_nat (cur_idx b)) xs = record s). rewrite Fc, Er0. reflexivity. }
  { symmetry. exact Exs. }
  fold lg t in Tw, Fa. set (m := length lg) in *. cbv zeta in *.
  assert (Hrun : run_loop E2 g b1 = (set_sel_flag (Some EMPTY_SITE_LIST) (filled E2 b1 m), Ok tt)).
  { apply (run_loop_B E2 L HE2); auto; [|lia]. change (zlen xs - cur_idx b = Z.of_nat m). unfold zlen. lia. }
  assert (Hro : run_once E2 g b1 = (set_first_run false (set_sel_flag (Some EMPTY_SITE_LIST) (filled E2 b1 m)), Ok tt)).
  { unfold run_once, mbind, get. change (kind b1) with (kind b). rewrite Ekb. unfold run_once_base, mbind.
    destruct Hk as [-> | ->]; rewrite Hrun; reflexivity. }
  exists b1. eexists. split; [exact Eset'|]. split; [exact Hro|].
  destruct Tw as (I1 & I2 & Pf). rewrite Es'.
  assert (If : Inv L (finishedC E1 s n)) by (eapply inv_frame; [|exact I1]; reflexivity).
  assert (Ib : Inv L (set_first_run false (set_sel_flag (Some EMPTY_SITE_LIST) (filled E2 b1 m)))) by (eapply inv_frame; [|exact I2]; reflexivity).
  assert (Pf' : PX x L (finishedC E1 s n) (set_first_run false (set_sel_flag (Some EMPTY_SITE_LIST) (filled E2 b1 m))))
    by (eapply PX_frame; [exact Pf|reflexivity|reflexivity]).
  split; [exact If|]. split; [exact Ib|]. split; [exact Pf'|].
  unfold finishedC, filledC, filled, column. cbv zeta. fold lg.
  cbn [p_arr h_arr pw_arr pl_arr set_first_run set_sel_flag set_arrs].
  change (h_arr b1) with (h_arr b). change (pw_arr b1) with (pw_arr b). change (pl_arr b1) with (pl_arr b).
  change (p_arr b1) with (p_arr b). change (first_run b1) with (first_run b).
  rewrite A1, A2, A3, B1, B2, B3. cbn [app].
  assert (G : forall {X} (h : perc -> X), (forall a c, Twin L x a c -> h a = h c) -> map h lg = map (fun j => h (trace E2 j b1)) (seq 1 m)).
  { intros X h Hh. rewrite <- (map_map (fun j => trace E2 j b1) h). apply (twin_map h h L x); auto. }
  split; [apply G; intros a c (Q1 & Q2 & Q3); f_equal; now apply (psim_opw L _ _ Q1 Q2 (proj1 Q3))|].
  split; [apply G; intros a c (Q1 & Q2 & Q3); f_equal; now apply (psim_opl L _ _ Q1 Q2 (proj1 Q3))|].
  split. { rewrite !map_map. apply (G _ (fun x => feval (entropy_v2 x))). intros a c (Q1 & Q2 & Q3). apply (proj1 Q3). }
  split. { intros Hx. apply G. intros a c (Q1 & Q2 & Q3). apply (proj2 Q3 Hx). }
  intros Fs Fb'. rewrite Fs, Fb', A4, B4 by auto. cbn [app]. apply G. intros a c (Q1 & Q2 & Q3). f_equal. now apply (psim_prob L _ _ Q1 Q2 (proj1 Q3)).
Qed.

Lemma p_C53 E1 E2 k L s b f g s' ixs : env_ok E1 -> env_ok E2 -> k = KBase \/ k = KL0 ->
  fresh_object E1 KL1 L s -> run_once E1 f s = (s', Ok tt) -> get_index_sequence s' = Ok ixs ->
  fresh_object E2 k L b -> L * L < Z.of_nat g ->
  exists b1 b',
    set_custome_site_index_list E2 (map (fun '(r, c) => [r; c]) ixs) false b = (b1, Ok tt) /\
    run_once E2 g b1 = (b', Ok tt) /\
    same_physics L s' b' /\ feval (entropy_v2 s') = feval (entropy_v2 b') /\
    pw_arr s' = pw_arr b' /\ pl_arr s' = pl_arr b' /\ map feval (h_arr s') = map feval (h_arr b') /\
    (first_run s = true -> first_run b = true -> p_arr s' = p_arr b') /\
    ((forall l, e_ord E1 l = e_ord E2 l) ->
      entropy_v2 s' = entropy_v2 b' /\ h_arr s' = h_arr b' /\
      (forall i, is_site L i -> site_label s' i = site_label b' i) /\ (forall j, is_bond L j -> bond_label s' j = bond_label b' j)).
Proof.
  intros HE1 HE2 Hk HF Hr Hix HB Hg.
  destruct (replay_x false E1 E2 k L s b f g s' ixs HE1 HE2 ltac:(discriminate) Hk HF Hr Hix HB Hg)
    as (b1 & b' & R1 & R2 & I1 & I2 & P & A1 & A2 & A3 & _ & A4).
  exists b1, b'. split; [exact R1|]. split; [exact R2|]. split; [apply psim_same; auto; apply P|]. split; [apply P|].
  do 4 (split; [assumption|]). intros Hord.
  destruct (replay_x true E1 E2 k L s b f g s' ixs HE1 HE2 (fun _ => Hord) Hk HF Hr Hix HB Hg)
    as (b2 & b'' & R1' & R2' & _ & I2' & P' & _ & _ & _ & Eh & _).
  rewrite R1 in R1'. injection R1' as <-. rewrite R2 in R2'. injection R2' as <-.
  destruct (PX_labels L s' b' I1 I2 P') as (A & B & C). auto.
Qed.
