(** * Micro: every history is a sequence of small state changes. *)
From Coq Require Import ZArith List Bool Lia Permutation.
From Verif Require Import Py Lattice Cluster Perc Spec PyFacts Torus Geometry LatFacts Inv Merge Count Fresh Select State Step History Reach.
Import ListNotations.
Open Scope Z_scope.

(** The physical part of a state: everything but sequences, recordings, flags. *)
Definition phys (s : perc) : perc :=
  set_first_run true (set_sp (FZ 0) (set_arrs [] [] [] [] (set_custom 0 false false (set_xy 0 0 (set_record []
    (set_tick 0 (set_sel_flag None (set_cur_idx 0 (set_rev [] (rebind_ids [] [] false s)))))))))).

Inductive micro (E : env) (L : Z) : perc -> perc -> Prop :=
| mi_idle s s' : phys s' = phys s -> micro E L s s'
| mi_sel s s' r : Selected L s s' r -> match r with Ok SUCESS => False | _ => True end -> micro E L s s'
| mi_place s s1 x s' root : Selected L s s1 (Ok SUCESS) -> sel_id s1 = Some x -> cur_site s1 = Some x ->
    Placed E L s1 x s' root -> micro E L s s'
| mi_wrap s x : is_site L x -> sel_id s = Some x -> after_wrap s = false -> hitb L (lat s) x = true ->
    micro E L s (wrapped s x).

Inductive steps (E : env) (L : Z) (s : perc) : perc -> Prop :=
| st_refl : steps E L s s
| st_step s1 s2 : steps E L s s1 -> Inv L s1 -> micro E L s1 s2 -> Inv L s2 -> steps E L s s2.

Lemma steps_trans E L a b c : steps E L a b -> steps E L b c -> steps E L a c.
Proof. intros H1 H2. induction H2; auto. eapply st_step; eauto. Qed.
Lemma steps_one E L a b : Inv L a -> micro E L a b -> Inv L b -> steps E L a b.
Proof. intros. apply (st_step E L a a b); auto. apply st_refl. Qed.
Lemma steps_inv E L a b : Inv L a -> steps E L a b -> Inv L b.
Proof. intros H S. destruct S; auto. Qed.

Lemma place_steps E L s : env_ok E -> Inv L s -> steps E L s (fst (place_one_site E s)).
Proof.
  intros HE H. pose proof (place_inv E L s HE H) as H'. destruct (place_spec E L s HE H) as (Sd & P).
  destruct (sel E L s) as [s1 r]. cbn [fst snd] in Sd. destruct r as [[]|e].
  - destruct P as (x & s' & root & E1 & E2 & Ep & Pd). rewrite Ep in *. apply steps_one; auto. eapply mi_place; eauto.
  - rewrite P in *. cbn [fst] in *. assert (I1 : Inv L s1) by (exact (selected_inv L s s1 _ H Sd I)).
    eapply st_step; [|exact I1| |exact H']; [|apply mi_idle; reflexivity].
    apply steps_one; auto. eapply mi_sel; eauto. exact I.
  - rewrite P in *. cbn [fst] in *. assert (I1 : Inv L s1) by (exact (selected_inv L s s1 _ H Sd I)).
    eapply st_step; [|exact I1| |exact H']; [|apply mi_idle; reflexivity].
    apply steps_one; auto. eapply mi_sel; eauto. exact I.
  - rewrite P in *. cbn [fst] in *. apply steps_one; auto. eapply mi_sel; eauto. exact I.
Qed.
Lemma detect_steps E L s : Inv L s -> steps E L s (fst (detect_wrapping s)).
Proof.
  intros H. pose proof (detect_inv L s H) as H'. rewrite (detect_ok L) in * by apply H. unfold detect_res in *.
  destruct (after_wrap s) eqn:Ew; [constructor|].
  destruct (i_sel _ _ H) as [(Es & _)|(x & Hx & Es & _)]; rewrite Es in *; [constructor|].
  destruct (hitb L (lat s) x) eqn:Eh; [|constructor]. apply steps_one; auto. now constructor.
Qed.

Lemma shuffle_phys E s : phys (fst (shuffle E s)) = phys s.
Proof.
  unfold shuffle, mbind, get. destruct (mode_custom s && negb (do_shuffle s)); [reflexivity|].
  destruct (do_shuffle s); [|reflexivity]. destruct (random_shuffle E (tick s) (ids s)) as [l t].
  unfold modify, lift. destruct (foldM _ _ _); reflexivity.
Qed.
Lemma set_ids_phys E l sh s : phys (fst (set_custome_site_id_list E l sh s)) = phys s.
Proof.
  unfold set_custome_site_id_list, mbind, get, lift. destruct (lmax l); [|reflexivity].
  destruct (lmin l); [|reflexivity]. destruct (_ || _); [reflexivity|]. unfold modify. rewrite shuffle_phys. reflexivity.
Qed.
Lemma set_indices_phys E l sh s : phys (fst (set_custome_site_index_list E l sh s)) = phys s.
Proof.
  unfold set_custome_site_index_list, mbind, get, lift. destruct (lmax _); [|reflexivity].
  destruct (lmin _); [|reflexivity]. destruct (_ || _); [reflexivity|]. unfold modify. rewrite shuffle_phys. reflexivity.
Qed.
Lemma swap_phys a b s : phys (fst (swap_ids a b s)) = phys s.
Proof.
  unfold swap_ids, mbind, get, lift. destruct (a =? b); [reflexivity|].
  repeat (destruct (lget _ _); [|reflexivity]). unfold modify. destruct (lset (ids s) _ _); [|reflexivity].
  destruct (lset _ _ _); [|reflexivity]. destruct (lset _ _ _); [|reflexivity].
  destruct (lset _ _ _); reflexivity.
Qed.

Section LoopSteps.
Variables (E : env) (L : Z) (s0 : perc).
Hypothesis HE : env_ok E.
Let P s := Inv L s /\ steps E L s0 s.
Lemma idle_pres s s' : phys s' = phys s -> Inv L s' -> P s -> P s'.
Proof. intros Hp Hi (I1 & S1). split; auto. eapply st_step; eauto. now constructor. Qed.
Lemma lp_place s : P s -> P (fst (place_one_site E s)).
Proof. intros (I1 & S1). split; [now apply place_inv|]. eapply steps_trans; eauto. now apply place_steps. Qed.
Lemma lp_hyp s : P s -> match place_one_site E s with
  | (s', Ok true) => if flag_is_success s' then P s' else P s'
  | (s', _) => P s' end.
Proof.
  intros H. pose proof (lp_place s H). destruct (place_one_site E s) as [s' [[]|]]; cbn [fst] in *; auto.
  destruct (flag_is_success s'); auto.
Qed.
Lemma lp_detect s : P s -> P (fst (detect_wrapping s)).
Proof. intros (I1 & S1). split; [now apply detect_inv|]. eapply steps_trans; eauto. now apply detect_steps. Qed.
Lemma lp_arrs s p h pw pl : P s -> P (set_arrs p h pw pl s).
Proof. intros H. apply (idle_pres s); auto. eapply inv_frame; [|apply H]; reflexivity. Qed.
Lemma lp_fr s b : P s -> P (set_first_run b s).
Proof. intros H. apply (idle_pres s); auto. eapply inv_frame; [|apply H]; reflexivity. Qed.
Lemma lp_sp s b : P s -> P (set_sp b s).
Proof. intros H. apply (idle_pres s); auto. eapply inv_frame; [|apply H]; reflexivity. Qed.
Lemma lp_run f s : P s -> P (fst (run_once E f s)).
Proof. apply (run_once_pres E P P); [apply lp_hyp|apply lp_detect|apply lp_arrs|apply lp_fr|apply lp_sp]. Qed.
Lemma lp_test f s : P s -> P (fst (test_run_once E f s)).
Proof. apply (test_run_once_pres E P P); [apply lp_hyp|apply lp_detect|apply lp_arrs|apply lp_fr]. Qed.
End LoopSteps.

Definition no_reset (c : call) : Prop := match c with CReset => False | _ => True end.

Lemma exec_steps E L s c : env_ok E -> call_ok L c -> no_reset c -> Inv L s -> steps E L s (exec E s c).
Proof.
  intros HE Hc Hn H. pose proof (exec_inv E L s c HE Hc H) as H'.
  destruct c; cbn [exec call_ok no_reset] in *; try tauto.
  - now apply place_steps.
  - now apply detect_steps.
  - apply steps_one; auto. apply mi_idle. apply set_ids_phys.
  - apply steps_one; auto. apply mi_idle. apply set_indices_phys.
  - apply steps_one; auto. apply mi_idle. apply swap_phys.
  - apply (lp_run E L s HE fuel s). split; auto. constructor.
  - apply (lp_test E L s HE fuel s). split; auto. constructor.
Qed.
Lemma after_steps E L cs : env_ok E -> forall s, Forall (call_ok L) cs -> Forall no_reset cs -> Inv L s ->
  steps E L s (after E s cs).
Proof.
  intros HE. induction cs as [|c cs IH]; intros s Hc Hn H; [constructor|].
  apply Forall_cons_iff in Hc as (H1 & H2). apply Forall_cons_iff in Hn as (N1 & N2).
  cbn. eapply steps_trans; [apply exec_steps; eauto|]. apply IH; auto. now apply exec_inv.
Qed.

(** A property of fresh states kept by every small change holds of reachable states. *)
Lemma reach_ind E L (P : perc -> Prop) : env_ok E ->
  (forall s, FreshState L s -> P s) ->
  (forall s s', Inv L s -> Inv L s' -> micro E L s s' -> P s -> P s') ->
  forall s, reachable E L s -> P s.
Proof.
  intros HE HF HM s (k & t0 & s0 & cs & E0 & Hc & ->).
  assert (G : forall a b, steps E L a b -> P a -> P b).
  { intros a b S Pa. induction S as [|s1 s2 S IH I1 M I2]; auto. apply (HM s1 s2); auto. }
  assert (F0 : FreshState L s0) by (eapply new_perc_fresh; eauto).
  assert (K : forall cs s, Forall (call_ok L) cs -> Inv L s -> P s -> P (after E s cs)).
  { clear - HE HF G. induction cs as [|c cs IH]; intros s Hc H Ps; [exact Ps|].
    apply Forall_cons_iff in Hc as (H1 & H2). cbn. apply IH; auto; [now apply exec_inv|].
    destruct (match c with CReset => true | _ => false end) eqn:Ec.
    - destruct c; try discriminate. cbn [exec]. destruct (reset_inv E L s H) as (s' & -> & R). apply HF, R.
    - apply (G s); auto. apply exec_steps; auto. destruct c; cbn; auto; discriminate. }
  apply K; auto. now apply fresh_inv.
Qed.

Lemma phys_fields a b : phys a = phys b ->
  kind a = kind b /\ pool a = pool b /\ lat a = lat b /\ pc_occ a = pc_occ b /\
  occ_count a = occ_count b /\ sel_id a = sel_id b /\ cur_site a = cur_site b /\ ent a = ent b /\
  cluster_count a = cluster_count b /\ largest_sz a = largest_sz b /\ largest_id a = largest_id b /\
  max_ent a = max_ent b /\ after_wrap a = after_wrap b /\ wid a = wid b /\
  pc_bonds a = pc_bonds b /\ pc_sites a = pc_sites b.
Proof.
  intros H.
  split; [exact (f_equal kind H)|]. split; [exact (f_equal pool H)|]. split; [exact (f_equal lat H)|].
  split; [exact (f_equal pc_occ H)|]. split; [exact (f_equal occ_count H)|].
  split; [exact (f_equal sel_id H)|]. split; [exact (f_equal cur_site H)|]. split; [exact (f_equal ent H)|].
  split; [exact (f_equal cluster_count H)|]. split; [exact (f_equal largest_sz H)|].
  split; [exact (f_equal largest_id H)|]. split; [exact (f_equal max_ent H)|].
  split; [exact (f_equal after_wrap H)|]. split; [exact (f_equal wid H)|].
  split; [exact (f_equal pc_bonds H)|exact (f_equal pc_sites H)].
Qed.

(** ** What persists between resets *)
Record Keeps (L : Z) (s s' : perc) : Prop := mkKeeps {
  kp_occ : forall i, is_site L i -> occ (lat s) i -> occ (lat s') i;
  kp_same : forall i j, is_site L i -> is_site L j -> occ (lat s) i -> sg (lat s) i = sg (lat s) j ->
    sg (lat s') i = sg (lat s') j;
  kp_rel : forall i j, is_site L i -> is_site L j -> occ (lat s) i -> sg (lat s) i = sg (lat s) j ->
    vsub (rl (lat s') j) (rl (lat s') i) = vsub (rl (lat s) j) (rl (lat s) i);
  kp_bond : forall b b', is_bond L b -> is_bond L b' -> bg (lat s) b = bg (lat s) b' -> bg (lat s') b = bg (lat s') b';
  kp_big : largest_sz s <= largest_sz s';
  kp_n : occ_count s <= occ_count s';
  kp_wrap : after_wrap s = true -> after_wrap s' = true /\ wid s' = wid s /\ pc_occ s' = pc_occ s /\
    pc_bonds s' = pc_bonds s /\ pc_sites s' = pc_sites s /\
    (forall i, is_site L i -> sg (lat s) i = wid s -> sg (lat s') i = wid s) /\
    (forall b, is_bond L b -> bg (lat s) b = wid s -> bg (lat s') b = wid s)
}.
Lemma keeps_refl L s : Keeps L s s.
Proof. constructor; auto; try lia. intros. repeat split; auto. Qed.
Lemma keeps_trans L a b c : Keeps L a b -> Keeps L b c -> Keeps L a c.
Proof.
  intros [o1 s1 r1 b1 g1 n1 w1] [o2 s2 r2 b2 g2 n2 w2]. constructor; try lia.
  - auto.
  - intros i j Hi Hj Ho Es. apply s2; auto.
  - intros i j Hi Hj Ho Es. rewrite r2; auto.
  - intros e e' He He' Ee. apply b2; auto.
  - intros Hw. destruct (w1 Hw) as (A1 & A2 & A3 & A4 & A5 & A6 & A7).
    destruct (w2 A1) as (B1 & B2 & B3 & B4 & B5 & B6 & B7). rewrite A2 in *.
    repeat split; try congruence; auto.
Qed.
Lemma keeps_phys L s s' : phys s' = phys s -> Keeps L s s'.
Proof.
  intros H. destruct (phys_fields _ _ H) as (_ & _ & F3 & F4 & F5 & _ & _ & _ & _ & F10 & _ & _ & F13 & F14 & F15 & F16).
  constructor; rewrite ?F3; auto; try lia. rewrite F13, F14, F4, F15, F16. intros. repeat split; auto.
Qed.
Lemma keeps_sel L s s' r : Selected L s s' r -> Keeps L s s'.
Proof.
  intros Sd. pose proof (sd_lab _ _ _ _ Sd) as (St1 & Eb & Hl).
  assert (Hbg : forall b, bg (lat s') b = bg (lat s) b) by (intros; eapply same_labels_bg; apply (sd_lab _ _ _ _ Sd)).
  assert (Hsg : forall i, sg (lat s') i = sg (lat s) i) by (intros; apply Hl).
  assert (Hrl : forall i, rl (lat s') i = rl (lat s) i) by (intros; apply Hl).
  destruct (core_fields _ _ (sd_core _ _ _ _ Sd)) as (F1 & F2 & F3 & F4 & F5 & F6 & F7 & F8 & F9 & F10 & F11 & F12 & F13 & F14 & F15).
  constructor.
  - intros i Hi Ho. unfold occ. now rewrite Hsg.
  - intros i j _ _ _ Es. now rewrite !Hsg.
  - intros i j _ _ _ _. now rewrite !Hrl.
  - intros b b' _ _ Eb'. now rewrite !Hbg.
  - lia.
  - pose proof (sd_res _ _ _ _ Sd) as R. destruct r as [[]|]; [destruct R as (x & _ & _ & _ & _ & R)|..]; lia.
  - rewrite F10, F11, F4, F14, F15. intros Hw. repeat split; auto; intros; rewrite ?Hsg, ?Hbg; auto.
Qed.
Lemma keeps_place E L s x s' root : ClOK L (lat s) (pool s) -> (after_wrap s = true -> is_label L (wid s)) ->
  Placed E L s x s' root -> Keeps L s s'.
Proof.
  intros C Hwl Pd. set (K := nb_labels L x (lat s)).
  destruct (core2_fields _ _ (pd_core _ _ _ _ _ _ Pd)) as (G1 & G2 & G3 & G4 & G5 & G6 & G7 & G8 & G9 & G10 & G11 & G12 & G13 & G14 & G15).
  pose proof (pd_un _ _ _ _ _ _ Pd) as Hun.
  assert (Hx : forall i, occ (lat s) i -> i <> x) by (intros i Ho ->; unfold occ in Ho; lia).
  constructor.
  - intros i Hi Ho. apply (pd_occ_iff _ _ _ _ _ _ C Pd); auto.
  - intros i j Hi Hj Ho Es. rewrite !(pd_sg _ _ _ _ _ _ Pd) by auto.
    assert (Hoj : occ (lat s) j) by (unfold occ in *; now rewrite <- Es).
    destruct (Z.eqb_spec i x) as [Ei|_]; [now apply Hx in Ho|]. destruct (Z.eqb_spec j x) as [Ei|_]; [now apply Hx in Hoj|].
    now rewrite Es.
  - intros i j Hi Hj Ho Es. apply (pd_shift _ _ _ _ _ _ Pd); auto.
    apply Hx. unfold occ in *. now rewrite <- Es.
  - intros b b' Hb Hb' Eb. rewrite !(pd_bg _ _ _ _ _ _ Pd) by auto. now rewrite Eb.
  - pose proof (pd_big _ _ _ _ _ _ Pd) as B. destruct (Z.ltb_spec (largest_sz s) (bsize (pool s') root)); lia.
  - lia.
  - intros Hw. specialize (Hwl Hw). rewrite G11, G12, G6, G14, G15. repeat split; auto.
    + intros i Hi Es. rewrite (pd_sg _ _ _ _ _ _ Pd) by auto. fold K. rewrite Es.
      destruct (Z.eqb_spec i x) as [->|]; [unfold is_label in Hwl; lia|]. cbn [orb].
      destruct (zmem (wid s) K) eqn:Em; auto. apply zmem_In in Em. now apply (pd_wroot _ _ _ _ _ _ Pd).
    + intros b Hb Eb. rewrite (pd_bg _ _ _ _ _ _ Pd) by auto. fold K. rewrite Eb.
      destruct (zmem (wid s) K) eqn:Em; auto. apply zmem_In in Em. now apply (pd_wroot _ _ _ _ _ _ Pd).
Qed.
Lemma wrap_label L s : Inv L s -> after_wrap s = true -> is_label L (wid s).
Proof. intros H Hw. pose proof (i_wrap _ _ H) as W. unfold WrapOK in W. rewrite Hw in W. tauto. Qed.
Lemma keeps_micro E L s s' : Inv L s -> micro E L s s' -> Keeps L s s'.
Proof.
  intros H M. destruct M as [a b Hp|a b r Sd _|a s1 x b root Sd E1 E2 Pd|a x Hx Es Ew Hh].
  - now apply keeps_phys.
  - eapply keeps_sel; eauto.
  - eapply keeps_trans; [eapply keeps_sel; eauto|]. eapply keeps_place; eauto.
    + eapply selected_ClOK; eauto. apply (i_cl _ _ H).
    + destruct (core_fields _ _ (sd_core _ _ _ _ Sd)) as (F1 & F2 & F3 & F4 & F5 & F6 & F7 & F8 & F9 & F10 & F11 & _).
      rewrite F10, F11. now apply wrap_label.
  - constructor; auto; try (cbn; lia). rewrite Ew. discriminate.
Qed.
Lemma keeps_steps E L s s' : Inv L s -> steps E L s s' -> Keeps L s s'.
Proof.
  intros H S. induction S as [|s1 s2 S1 IH I1 M1 I2]; [apply keeps_refl|].
  eapply keeps_trans; [exact IH|]. eapply keeps_micro; eauto.
Qed.
Lemma keeps_after E L s cs : env_ok E -> Inv L s -> Forall (call_ok L) cs -> Forall no_reset cs ->
  Keeps L s (after E s cs).
Proof. intros HE H Hc Hn. eapply keeps_steps; eauto. now apply after_steps. Qed.
