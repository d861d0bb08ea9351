(** * Critical: what the recorded critical point is, and its bounds (C74, C75). *)
From Coq Require Import ZArith List Bool Lia Permutation.
From Verif Require Import Py Lattice Cluster Perc Spec PyFacts Torus Geometry LatFacts Inv Merge Count Fresh Select State Step History Reach Micro StateProps StateProps2 Wrap.
Import ListNotations.
Open Scope Z_scope.

(** ** A full row wraps, so [L*L - L + 1] sites always wrap *)
Lemma walk_in_row L (P : Z -> Prop) r : 0 < L -> (forall c, P (at_rc L r c)) ->
  forall n c, walk L P (at_rc L r c) (repeat DRight n) (at_rc L r (c + Z.of_nat n)).
Proof.
  intros HL HP. induction n as [|n IH]; intros c.
  - cbn [repeat]. replace (c + Z.of_nat 0) with c by lia. constructor; auto. now apply at_rc_site.
  - cbn [repeat]. constructor; auto; [now apply at_rc_site|].
    replace (nbr L (at_rc L r c) DRight) with (at_rc L r (c + 1)).
    + replace (c + Z.of_nat (S n)) with (c + 1 + Z.of_nat n) by lia. apply IH.
    + unfold nbr. cbn [step fst snd]. rewrite row_at, col_at by auto. apply at_rc_congr; auto.
      * rewrite Z.add_0_r, Zmod_mod. reflexivity.
      * now rewrite Zplus_mod_idemp_l.
Qed.
Lemma row_wraps L (P : Z -> Prop) r : 0 < L -> (forall c, P (at_rc L r c)) -> wraps L P.
Proof.
  intros HL HP. exists (at_rc L r 0), (repeat DRight (Z.to_nat L)). split.
  - pose proof (walk_in_row L P r HL HP (Z.to_nat L) 0) as W. rewrite Z2Nat.id in W by lia.
    match type of W with walk _ _ _ _ ?t => replace t with (at_rc L r 0) in W; [exact W|] end.
    apply at_rc_congr; auto. replace (0 + L) with (0 + 1 * L) by lia. now rewrite Z_mod_plus_full.
  - rewrite disp_repeat, Z2Nat.id by lia. cbn [step fst snd]. intros E. injection E. lia.
Qed.

Definition hole (L : Z) (l : list Z) (r : Z) : option Z := find (fun c => negb (zmem (at_rc L r c) l)) (zrange L).
Lemma hole_none L l r : 0 < L -> hole L l r = None -> forall c, In (at_rc L r c) l.
Proof.
  intros HL Hh c. pose proof (Z.mod_pos_bound c L HL) as Hc.
  pose proof (find_none _ _ Hh (c mod L) ltac:(now apply In_zrange)) as Q. cbv beta in Q.
  apply negb_false_iff, zmem_In in Q. replace (at_rc L r c) with (at_rc L r (c mod L)); auto.
  unfold at_rc. now rewrite Zmod_mod.
Qed.
Lemma full_row L l : 0 < L -> NoDup l -> (forall i, In i l -> is_site L i) -> L * L - L < zlen l ->
  exists r, forall c, In (at_rc L r c) l.
Proof.
  intros HL Hn Hs Hz.
  destruct (existsb (fun r => match hole L l r with None => true | Some _ => false end) (zrange L)) eqn:Ex.
  { apply existsb_exists in Ex as (r & _ & Er). exists r. apply hole_none; auto. now destruct (hole L l r). }
  exfalso. set (g := fun r => match hole L l r with Some c => at_rc L r c | None => 0 end).
  assert (G : forall r, 0 <= r < L -> is_site L (g r) /\ ~ In (g r) l /\ row L (g r) = r).
  { intros r Hr. unfold g. destruct (hole L l r) as [c|] eqn:Eh.
    - split; [now apply at_rc_site|]. split; [|rewrite row_at by auto; now apply Z.mod_small].
      apply find_some in Eh as (_ & Eh). apply negb_true_iff in Eh. intros Q. apply zmem_In in Q. congruence.
    - rewrite <- not_true_iff_false in Ex. exfalso. apply Ex, existsb_exists. exists r. rewrite Eh. split; auto. now apply In_zrange. }
  assert (Nd : NoDup (map g (zrange L) ++ l)).
  { apply NoDup_app_disjoint; auto.
    - apply (NoDup_map_inv (row L)). rewrite map_map. erewrite map_ext_in; [|intros r Hr; apply G; now apply In_zrange].
      rewrite map_id. apply NoDup_zrange.
    - intros x Hx. apply in_map_iff in Hx as (r & <- & Hr). apply G. now apply In_zrange. }
  assert (Inc : incl (map g (zrange L) ++ l) (zrange (L * L))).
  { intros x Hx. apply in_app_iff in Hx. apply In_zrange. destruct Hx as [Hx|Hx]; [|now apply Hs].
    apply in_map_iff in Hx as (r & <- & Hr). apply G. now apply In_zrange. }
  pose proof (NoDup_incl_length Nd Inc) as Le. pose proof (LL_pos L HL).
  assert (zlen (map g (zrange L) ++ l) <= zlen (zrange (L * L))) by (unfold zlen; lia).
  pose proof (zlen_zrange L). pose proof (zlen_zrange (L * L)). unfold zlen in *. rewrite app_length, map_length in *. lia.
Qed.
Lemma no_wrap_size L l : 0 < L -> NoDup l -> (forall i, In i l -> is_site L i) -> ~ wraps L (fun i => In i l) ->
  zlen l <= L * L - L.
Proof.
  intros HL Hn Hs Hw. destruct (Z.le_gt_cases (zlen l) (L * L - L)); auto. exfalso.
  destruct (full_row L l HL Hn Hs) as (r & Hr); [lia|]. apply Hw. now apply (row_wraps L _ r).
Qed.

(** ** The site whose placement completed the first loop *)
Definition Crit (L : Z) (s : perc) : Prop := exists x prev,
  NoDup (x :: prev) /\ zlen (x :: prev) = pc_occ s /\
  (forall i, In i (x :: prev) -> is_site L i /\ occ (lat s) i) /\
  ~ wraps L (fun i => In i prev) /\ wraps L (fun i => In i (x :: prev)).
Definition PcI (L : Z) (s : perc) : Prop := FlatI L s /\ (after_wrap s = true -> Crit L s).
Definition PcP (L : Z) (s : perc) : Prop := FlatP L s /\ (after_wrap s = true -> Crit L s) /\
  (after_wrap s = false -> Flat L (lat s) \/ exists x, is_site L x /\ sel_id s = Some x /\ occ (lat s) x /\
     ~ wraps L (fun i => occ (lat s) i /\ i <> x)).

Lemma crit_keeps L a b : Keeps L a b -> after_wrap a = true -> Crit L a -> Crit L b.
Proof.
  intros K Hw (x & prev & H1 & H2 & H3 & H4 & H5). destruct (kp_wrap _ _ _ K Hw) as (_ & _ & E & _).
  exists x, prev. split; auto. split; [congruence|]. split; auto. intros i Hi. destruct (H3 i Hi) as (Hs & Ho).
  split; auto. now apply (kp_occ _ _ _ K).
Qed.
Lemma pcI_P L s : PcI L s -> PcP L s.
Proof. intros (F & C). split; [now apply flatI_P|]. split; auto. intros Hw. left. now apply F. Qed.
Lemma phys_pc L a b : phys b = phys a -> Inv L b -> PcI L a -> PcI L b.
Proof.
  intros Hp Hb (F & C). split; [now apply (phys_flat L a)|].
  destruct (phys_fields _ _ Hp) as (_ & _ & El & _ & _ & _ & _ & _ & _ & _ & _ & _ & Ew & _).
  intros Hw. rewrite Ew in Hw. apply (crit_keeps L a); auto. now apply keeps_phys.
Qed.
Lemma wraps_mono L (P Q : Z -> Prop) : (forall i, is_site L i -> P i -> Q i) -> wraps L P -> wraps L Q.
Proof. intros H (i & W). exists i. revert W. now apply wraps_at_mono. Qed.

Lemma place_crit E L s : env_ok E -> PcI L s -> after_wrap (fst (place_one_site E s)) = true -> Crit L (fst (place_one_site E s)).
Proof.
  intros HE (F & C) Hw. pose proof (proj1 F) as H. pose proof (place_steps E L s HE H) as S.
  pose proof (keeps_steps E L s _ H S) as K.
  assert (Hw0 : after_wrap s = true).
  { destruct (place_spec E L s HE H) as (Sd & P). destruct (sel E L s) as [s1 r]. cbn [fst snd] in *.
    destruct (core_fields _ _ (sd_core _ _ _ _ Sd)) as (_ & _ & _ & _ & _ & _ & _ & _ & _ & Ew & _).
    destruct r as [[]|e]; [|rewrite P in Hw; cbn in Hw; congruence..].
    destruct P as (x & s' & root & _ & _ & Ep & Pd). rewrite Ep in Hw. cbn [fst] in Hw.
    destruct (core2_fields _ _ (pd_core _ _ _ _ _ _ Pd)) as (_ & _ & _ & _ & _ & _ & _ & _ & _ & _ & Ew' & _). congruence. }
  apply (crit_keeps L s); auto.
Qed.
Lemma place_pc E L s : env_ok E -> PcI L s ->
  match place_one_site E s with
  | (s', Ok true) => if flag_is_success s' then PcP L s' else PcI L s'
  | (s', _) => PcI L s'
  end.
Proof.
  intros HE HI. pose proof (place_flat E L s HE (proj1 HI)) as PF. pose proof (place_crit E L s HE HI) as PC.
  destruct HI as ((H & F) & C). destruct (place_spec E L s HE H) as (Sd & P).
  destruct (sel E L s) as [s1 r]. cbn [fst snd] in Sd.
  pose proof (selected_flat L s s1 r Sd F) as F1. destruct r as [[]|e].
  - destruct P as (x & s' & root & E1 & E2 & Ep & Pd). rewrite Ep in *. cbn [fst] in PC.
    unfold flag_is_success in *. rewrite (pd_flag _ _ _ _ _ _ Pd) in *. split; auto. split; auto. intros Hw. right. exists x.
    destruct (core2_fields _ _ (pd_core _ _ _ _ _ _ Pd)) as (_ & _ & _ & _ & _ & _ & _ & Es & _ & _ & Ew & _).
    pose proof (selected_ClOK _ _ _ _ (i_cl _ _ H) Sd) as C1.
    split; [apply (pd_site _ _ _ _ _ _ Pd)|]. split; [congruence|]. split.
    { apply (pd_occ_iff E L s1 x s' root C1 Pd); auto. apply (pd_site _ _ _ _ _ _ Pd). }
    intros W. apply (flat_no_wrap L (lat s1)); [apply F1; congruence|]. revert W. apply wraps_mono.
    intros j Hj (Hoj & Hjx). apply (pd_occ_iff E L s1 x s' root C1 Pd) in Hoj; auto. tauto.
  - rewrite P in *. cbn [fst] in PC. split; auto.
  - rewrite P in *. cbn [fst] in PC. split; auto.
  - rewrite P in *. cbn [fst] in PC. split; auto.
Qed.
Lemma place_pcP E L s : env_ok E -> PcI L s -> PcP L (fst (place_one_site E s)).
Proof.
  intros HE H. pose proof (place_pc E L s HE H) as P. destruct (place_one_site E s) as [s' [[]|e]]; cbn [fst].
  - destruct (flag_is_success s'); auto. now apply pcI_P.
  - now apply pcI_P.
  - now apply pcI_P.
Qed.

Lemma detect_pc L s : 3 <= L -> PcP L s -> PcI L (fst (detect_wrapping s)).
Proof.
  intros H3 (F & C & X). pose proof (detect_flat L s H3 F) as F'. split; auto. destruct F as (H & F).
  pose proof (i_wrap _ _ (proj1 F')) as W. unfold WrapOK in W.
  rewrite (detect_ok L) in * by apply H. unfold detect_res in *.
  destruct (after_wrap s) eqn:Ew; auto. destruct (sel_id s) as [y|]; [|cbn [fst]; congruence].
  destruct (hitb L (lat s) y) eqn:Eh; [|cbn [fst]; congruence]. cbn [fst] in *. intros _.
  cbn [wrapped after_wrap set_wrap] in W. destruct W as (_ & Hl & (i & _ & Wi) & _).
  assert (Ws : wraps L (occ (lat s))).
  { exists i. revert Wi. apply wraps_at_mono. intros j Hj Ej. cbn in Ej, Hl. unfold occ, is_label in *. lia. }
  destruct (X eq_refl) as [Fl|(x & Hx & Es & Ho & Hn)]; [exfalso; now apply (flat_no_wrap L (lat s))|].
  pose (prev := filter (fun j => occb (lat s) j && negb (j =? x)) (zrange (L * L))).
  assert (Hp : forall j, In j prev <-> is_site L j /\ occ (lat s) j /\ j <> x).
  { intros j. unfold prev. rewrite filter_In, In_zrange, andb_true_iff, negb_true_iff, Z.eqb_neq, occb_true. unfold is_site. tauto. }
  exists x, prev. split.
  { constructor; [rewrite Hp; tauto|]. apply NoDup_filter, NoDup_zrange. }
  split.
  { change (pc_occ (wrapped s y)) with (occ_count s). rewrite (i_occ _ _ H). unfold nocc.
    rewrite (count_add1 (fun j => occb (lat s) j && negb (j =? x)) (occb (lat s)) (zrange (L * L)) x).
    - unfold count. fold prev. unfold zlen. cbn [length]. lia.
    - apply NoDup_zrange.
    - now apply In_zrange.
    - rewrite Z.eqb_refl. apply andb_false_r.
    - intros j Hj. destruct (Z.eqb_spec j x) as [->|]; cbn [orb negb]; [now apply occb_true|now rewrite andb_true_r]. }
  change (lat (wrapped s y)) with (lat s). split.
  { intros j [<-|Hj]; auto. apply Hp in Hj. tauto. }
  split.
  - intros Wp. apply Hn. revert Wp. apply wraps_mono. intros j _ Hj. apply Hp in Hj. tauto.
  - revert Ws. apply wraps_mono. intros j Hj Hoj. cbn [In]. destruct (Z.eq_dec x j); auto. right. apply Hp. auto.
Qed.

Lemma exec_pc E L s c : env_ok E -> 3 <= L -> call_ok L c -> c <> CPlace -> PcI L s -> PcI L (exec E s c).
Proof.
  intros HE H3 Hc Hn P. pose proof (proj1 (proj1 P)) as H. pose proof (exec_inv E L s c HE Hc H) as H'.
  destruct c; cbn [exec] in *.
  - congruence.
  - apply detect_pc; auto. now apply pcI_P.
  - split; [apply (exec_flat E L s CReset); auto; apply P|]. destruct (reset_inv E L s H) as (s' & -> & R). cbn [fst].
    intros Hw. pose proof (proj1 (fs_wrap _ _ (rt_fresh _ _ _ R))). congruence.
  - eapply phys_pc; [apply set_ids_phys|exact H'|exact P].
  - eapply phys_pc; [apply set_indices_phys|exact H'|exact P].
  - eapply phys_pc; [apply swap_phys|exact H'|exact P].
  - apply (run_once_pres E (PcI L) (PcP L)); auto.
    + intros a Ha. now apply place_pc.
    + intros a Ha. now apply detect_pc.
    + intros a p h pw pl Ha. eapply phys_pc; [|eapply inv_frame; [|exact (proj1 (proj1 Ha))]|exact Ha]; reflexivity.
    + intros a b Ha. eapply phys_pc; [|eapply inv_frame; [|exact (proj1 (proj1 Ha))]|exact Ha]; reflexivity.
    + intros a b Ha. eapply phys_pc; [|eapply inv_frame; [|exact (proj1 (proj1 Ha))]|exact Ha]; reflexivity.
  - apply (test_run_once_pres E (PcI L) (PcP L)); auto.
    + intros a Ha. now apply place_pc.
    + intros a Ha. now apply detect_pc.
    + intros a p h pw pl Ha. eapply phys_pc; [|eapply inv_frame; [|exact (proj1 (proj1 Ha))]|exact Ha]; reflexivity.
    + intros a b Ha. eapply phys_pc; [|eapply inv_frame; [|exact (proj1 (proj1 Ha))]|exact Ha]; reflexivity.
Qed.
Lemma tracked_pc E L cs : env_ok E -> 3 <= L -> tracked cs -> forall s, Forall (call_ok L) cs -> PcI L s -> PcI L (after E s cs).
Proof.
  intros HE H3 T. induction T as [|cs T IH|c cs Hc T IH]; intros s Ho F; auto.
  - inversion Ho as [|? ? _ Ho']; subst. inversion Ho' as [|? ? _ Ho'']; subst. cbn [after fold_left]. apply IH; auto.
    cbn [exec]. apply detect_pc; auto. now apply place_pcP.
  - inversion Ho; subst. cbn [after fold_left]. apply IH; auto. now apply exec_pc.
Qed.
Lemma reachable_tracked_pc E L s : env_ok E -> 3 <= L -> reachable_tracked E L s -> PcI L s.
Proof.
  intros HE H3 (k & t0 & s0 & cs & E0 & Ho & T & ->). apply tracked_pc; auto.
  assert (F0 : FreshState L s0) by (eapply new_perc_fresh; eauto). split.
  - split; [now apply fresh_inv|]. intros _. now apply fresh_flat.
  - intros Hw. pose proof (proj1 (fs_wrap _ _ F0)). congruence.
Qed.

Lemma p_C74 E L s : env_ok E -> 3 <= L -> reachable_tracked E L s -> after_wrap s = true ->
  exists x prev, NoDup (x :: prev) /\ (forall i, In i (x :: prev) -> is_site L i /\ occupied s i) /\
    ~ wraps L (fun i => In i prev) /\ wraps L (fun i => In i (x :: prev)) /\
    get_pc s = Ok (FDiv (FZ (zlen (x :: prev))) (FZ (L * L))).
Proof.
  intros HE H3 HR Hw. destruct (reachable_tracked_pc E L s HE H3 HR) as ((H & _) & C).
  destruct (C Hw) as (x & prev & C1 & C2 & C3 & C4 & C5). exists x, prev. pose proof (i_static _ _ H) as St.
  split; auto. split. { intros i Hi. destruct (C3 i Hi) as (Hs & Ho). split; auto. now apply (occupied_occ L). }
  split; auto. split; auto. unfold get_pc. rewrite Hw, (st_sc _ _ St), C2. apply int_div_ok. pose proof (LL_pos L ltac:(lia)). lia.
Qed.

Lemma p_C75 E L s : env_ok E -> reachable E L s ->
  (L * L - L < occ_count s -> wraps L (occupied s)) /\
  (3 <= L -> reachable_tracked E L s ->
     (L * L - L < occ_count s -> after_wrap s = true) /\
     (after_wrap s = true -> exists n, get_pc s = Ok (FDiv (FZ n) (FZ (L * L))) /\ L <= n <= L * L - L + 1)).
Proof.
  intros HE HR. pose proof (reachable_inv _ _ _ HE HR) as H. pose proof (i_static _ _ H) as St. pose proof (i_pos _ _ H) as HL.
  assert (A : L * L - L < occ_count s -> wraps L (occupied s)).
  { intros Hn. rewrite (i_occ _ _ H) in Hn. unfold nocc, count in Hn.
    destruct (full_row L (filter (occb (lat s)) (zrange (L * L)))) as (r & Hr); auto.
    - apply NoDup_filter, NoDup_zrange.
    - intros i Hi. apply filter_In in Hi as (Hi & _). now apply In_zrange.
    - apply (row_wraps L _ r HL). intros c. specialize (Hr c). apply filter_In in Hr as (Hi & Ho). apply In_zrange in Hi.
      apply occb_true in Ho. now apply (occupied_occ L). }
  split; auto. intros H3 HT. split.
  - intros Hn. apply (p_C23 E L s HE H3 HT). auto.
  - intros Hw. destruct (p_C74 E L s HE H3 HT Hw) as (x & prev & C1 & C2 & C3 & C4 & C5). exists (zlen (x :: prev)). split; auto. split.
    + destruct (proj2 (p_C27 E L s HE HR) Hw) as (n & En & Hn1 & _). rewrite C5 in En. injection En as <-. lia.
    + inversion C1; subst. assert (zlen prev <= L * L - L).
      { apply no_wrap_size; auto. intros i Hi. apply C2. now right. }
      unfold zlen in *. cbn [length]. lia.
Qed.
