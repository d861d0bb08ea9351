(** * Seq: the site sequence of the base rule, custom lists, full runs. *)
From Coq Require Import ZArith List Bool Lia Permutation.
From Verif Require Import Py Lattice Cluster Perc Spec PyFacts Torus Geometry LatFacts Inv Merge Count Fresh Select State Step History Reach Micro StateProps StateProps2 Wrap.
Import ListNotations.
Open Scope Z_scope.

(** The attributes behind the site sequence. *)
Definition seqv (s : perc) :=
  (kind s, ids s, rev_ids s, max_iter s, (mode_custom s, do_shuffle s), (user_list s, ids_shared s), (first_run s, tick s)).
Lemma seqv_eqs a b : seqv b = seqv a -> kind b = kind a /\ ids b = ids a /\ rev_ids b = rev_ids a /\ max_iter b = max_iter a /\
  mode_custom b = mode_custom a /\ do_shuffle b = do_shuffle a /\ user_list b = user_list a /\ ids_shared b = ids_shared a /\
  first_run b = first_run a /\ tick b = tick a.
Proof. unfold seqv. intros E. injection E. intros. repeat split; assumption. Qed.
Definition arrv (s : perc) := (p_arr s, h_arr s, pw_arr s, pl_arr s).

Lemma core2_seqv a b : core2 a = core2 b -> seqv a = seqv b /\ arrv a = arrv b.
Proof.
  intros H. pose proof (f_equal seqv H) as H1. pose proof (f_equal arrv H) as H2. auto.
Qed.

(** ** One placement of the base rule *)
Lemma place_base E L s : env_ok E -> Inv L s -> is_L12 (kind s) = false ->
  if zlen (ids s) <=? cur_idx s then place_one_site E s = (set_sel_flag (Some EMPTY_SITE_LIST) s, Ok false) else
  let id := at_ 0 (ids s) (cur_idx s) in is_site L id /\
  if sg (lat s) id =? -1 then exists s' root, place_one_site E s = (s', Ok true) /\
      Placed E L (choose id (set_cur_idx (cur_idx s + 1) s)) id s' root
  else place_one_site E s = (aim id s, Err AssertionError).
Proof.
  intros HE H Hk. destruct (place_spec E L s HE H) as (_ & P). pose proof (i_mi _ _ H Hk) as Hm.
  assert (Es : sel E L s = sel_base s) by (unfold sel; destruct (kind s); auto; discriminate).
  rewrite Es in P. unfold sel_base in P. rewrite Hm in P.
  destruct (Z.leb_spec (zlen (ids s)) (cur_idx s)) as [|Hlt]; [exact P|]. cbv zeta in *.
  split.
  { pose proof (i_ids _ _ H) as F. rewrite Forall_forall in F. apply F. apply at_In. pose proof (i_cur _ _ H). lia. }
  destruct (sg (lat s) (at_ 0 (ids s) (cur_idx s)) =? -1); [|exact P].
  destruct P as (x & s' & root & E1 & E2 & E3 & Pd). exists s', root. split; auto.
  assert (x = at_ 0 (ids s) (cur_idx s)) as -> by (cbn in E1; congruence). exact Pd.
Qed.
Lemma place_base_seqv E L s : env_ok E -> Inv L s -> is_L12 (kind s) = false ->
  seqv (fst (place_one_site E s)) = seqv s /\ arrv (fst (place_one_site E s)) = arrv s.
Proof.
  intros HE H Hk. pose proof (place_base E L s HE H Hk) as P.
  destruct (zlen (ids s) <=? cur_idx s); [rewrite P; split; reflexivity|].
  cbv zeta in P. destruct P as (_ & P). destruct (_ =? -1); [|rewrite P; split; reflexivity].
  destruct P as (s' & root & -> & Pd). exact (core2_seqv _ _ (pd_core _ _ _ _ _ _ Pd)).
Qed.
Lemma detect_seqv L s : Inv L s -> seqv (fst (detect_wrapping s)) = seqv s /\ arrv (fst (detect_wrapping s)) = arrv s.
Proof.
  intros H. rewrite (detect_ok L) by apply H. unfold detect_res. destruct (after_wrap s); [auto|].
  destruct (sel_id s); [|auto]. destruct (hitb _ _ _); split; reflexivity.
Qed.
Lemma detect_fields L s : Inv L s -> let s' := fst (detect_wrapping s) in
  lat s' = lat s /\ pool s' = pool s /\ cur_idx s' = cur_idx s /\ occ_count s' = occ_count s /\ sel_id s' = sel_id s /\
  cur_site s' = cur_site s /\ sel_flag s' = sel_flag s /\ ent s' = ent s /\ largest_sz s' = largest_sz s /\
  record s' = record s /\ sp_p s' = sp_p s.
Proof.
  intros H. cbv zeta. rewrite (detect_ok L) by apply H. unfold detect_res. destruct (after_wrap s); [repeat split|].
  destruct (sel_id s) eqn:Es; [|cbn [fst]; repeat split; auto]. destruct (hitb _ _ _); cbn [fst wrapped]; repeat split; auto.
Qed.

(** ** C54: swap_ids *)
Definition is_table (L : Z) (l r : list Z) : Prop :=
  forall i, 0 <= i < L * L -> exists x, lget l i = Ok x /\ 0 <= x < L * L /\ lget r x = Ok i.
Lemma is_table_at L l r : zlen l = L * L -> zlen r = L * L ->
  (is_table L l r <-> forall i, 0 <= i < L * L -> is_site L (at_ 0 l i) /\ at_ 0 r (at_ 0 l i) = i).
Proof.
  intros Hl Hr. split; intros H i Hi.
  - destruct (H i Hi) as (x & E1 & Hx & E2). rewrite (lget_in 0) in E1 by lia. injection E1 as <-. split; [exact Hx|].
    rewrite (lget_in 0) in E2 by lia. now injection E2.
  - destruct (H i Hi) as (Hs & E1). exists (at_ 0 l i). split; [apply lget_in; lia|]. split; [exact Hs|].
    rewrite (lget_in 0) by (unfold is_site in Hs; lia). now rewrite E1.
Qed.
Lemma is_table_nodup L l r : zlen l = L * L -> zlen r = L * L -> is_table L l r -> NoDup l.
Proof.
  intros Hl Hr T0. pose proof (proj1 (is_table_at L _ _ Hl Hr) T0) as T. clear T0. apply (NoDup_nth l 0). intros a b Ha Hb E.
  assert (Ea : at_ 0 l (Z.of_nat a) = nth a l 0). { unfold at_. replace (0 <=? Z.of_nat a) with true by lia. now rewrite Nat2Z.id. }
  assert (Eb : at_ 0 l (Z.of_nat b) = nth b l 0). { unfold at_. replace (0 <=? Z.of_nat b) with true by lia. now rewrite Nat2Z.id. }
  unfold zlen in Hl. destruct (T (Z.of_nat a)) as (_ & T1); [lia|]. destruct (T (Z.of_nat b)) as (_ & T2); [lia|].
  rewrite Ea in T1. rewrite Eb in T2. rewrite E in T1. lia.
Qed.
Definition swapped (a b x : Z) : Z := if x =? a then b else if x =? b then a else x.

Lemma swap_ok L a b s : 0 < L -> zlen (ids s) = L * L -> zlen (rev_ids s) = L * L ->
  Permutation (zrange (L * L)) (ids s) -> is_table L (ids s) (rev_ids s) -> is_site L a -> is_site L b ->
  exists s', swap_ids a b s = (s', Ok tt) /\ ids s' = map (swapped a b) (ids s) /\
    zlen (rev_ids s') = L * L /\ is_table L (ids s') (rev_ids s') /\ phys s' = phys s /\
    kind s' = kind s /\ mode_custom s' = mode_custom s /\ do_shuffle s' = do_shuffle s /\ max_iter s' = max_iter s.
Proof.
  intros HL Hl Hr P T Ha Hb. pose proof (proj1 (is_table_at L _ _ Hl Hr) T) as T'. unfold swap_ids.
  destruct (Z.eqb_spec a b) as [->|Hab].
  { exists s. split; [reflexivity|]. split; [|repeat split; auto]. rewrite <- (map_id (ids s)) at 1. apply map_ext.
    intros x. unfold swapped. destruct (Z.eqb_spec x b); congruence. }
  assert (Pos : forall c, is_site L c -> exists i, 0 <= i < L * L /\ at_ 0 (ids s) i = c /\ at_ 0 (rev_ids s) c = i).
  { intros c Hc. assert (In c (ids s)) as Hin by (eapply Permutation_in; [exact P|now apply In_zrange]).
    destruct (In_at 0 _ _ Hin) as (i & Hi & E1). rewrite Hl in Hi. exists i. split; auto. split; auto.
    rewrite <- E1. apply T'. auto. }
  destruct (Pos a Ha) as (i1 & H1 & A1 & R1). destruct (Pos b Hb) as (i2 & H2 & A2 & R2).
  unfold mbind at 1, get.
  rewrite (mbind_lift _ _ _ i1) by (rewrite (lget_in 0) by (rewrite Hr; exact Ha); now rewrite R1).
  rewrite (mbind_lift _ _ _ i2) by (rewrite (lget_in 0) by (rewrite Hr; exact Hb); now rewrite R2).
  rewrite (mbind_lift _ _ _ _ (lset_in (ids s) i1 b ltac:(lia))). unfold mbind at 1, modify.
  rewrite (mbind_lift _ _ _ _ (lset_in (upd (ids s) (Z.to_nat i1) b) i2 a ltac:(rewrite zlen_upd; lia))). unfold mbind at 1, modify.
  rewrite (mbind_lift _ _ _ _ (lset_in (rev_ids s) b i1 ltac:(rewrite Hr; exact Hb))). unfold mbind at 1, modify.
  rewrite (mbind_lift _ _ _ _ (lset_in (upd (rev_ids s) (Z.to_nat b) i1) a i2 ltac:(rewrite zlen_upd, Hr; exact Ha))).
  unfold modify. eexists. split; [reflexivity|].
  match goal with |- ids ?S = _ /\ _ => set (s' := S) end.
  assert (Ei : ids s' = upd (upd (ids s) (Z.to_nat i1) b) (Z.to_nat i2) a) by reflexivity.
  assert (Er : rev_ids s' = upd (upd (rev_ids s) (Z.to_nat b) i1) (Z.to_nat a) i2) by reflexivity.
  assert (Em : ids s' = map (swapped a b) (ids s)).
  { rewrite Ei. apply (at_ext 0).
    - now rewrite !zlen_upd, zlen_map.
    - rewrite !zlen_upd, Hl. intros j Hj. rewrite !at_upd by (rewrite ?zlen_upd; lia).
      rewrite (at_map _ 0) by lia. destruct (T' j Hj) as (_ & Rj). unfold swapped.
      destruct (Z.eqb_spec j i2) as [->|N2].
      + rewrite A2. destruct (Z.eqb_spec b a); [congruence|]. now rewrite Z.eqb_refl.
      + destruct (Z.eqb_spec j i1) as [->|N1].
        * rewrite A1, Z.eqb_refl. reflexivity.
        * destruct (Z.eqb_spec (at_ 0 (ids s) j) a) as [E|]; [exfalso; apply N1; congruence|].
          destruct (Z.eqb_spec (at_ 0 (ids s) j) b) as [E|]; [exfalso; apply N2; congruence|reflexivity]. }
  assert (Hl' : zlen (ids s') = L * L) by (rewrite Ei, !zlen_upd; auto).
  assert (Hr' : zlen (rev_ids s') = L * L) by (rewrite Er, !zlen_upd; auto).
  split; auto. split; auto. split; [|repeat split].
  apply (is_table_at L); auto. intros j Hj. destruct (T' j Hj) as (Sj & Rj).
  unfold is_site in *.
  assert (Ej : at_ 0 (ids s') j = swapped a b (at_ 0 (ids s) j)) by (rewrite Em; apply (at_map _ 0); lia).
  rewrite Ej. unfold swapped.
  destruct (Z.eqb_spec (at_ 0 (ids s) j) a) as [E|Na].
  - split; auto. rewrite Er, !at_upd by (rewrite ?zlen_upd; lia).
    destruct (Z.eqb_spec b a); [congruence|]. rewrite Z.eqb_refl. congruence.
  - destruct (Z.eqb_spec (at_ 0 (ids s) j) b) as [E|Nb].
    + split; auto. rewrite Er, !at_upd by (rewrite ?zlen_upd; lia). rewrite Z.eqb_refl. congruence.
    + split; auto. rewrite Er, !at_upd by (rewrite ?zlen_upd; lia).
      destruct (Z.eqb_spec (at_ 0 (ids s) j) a); [congruence|]. destruct (Z.eqb_spec (at_ 0 (ids s) j) b); congruence.
Qed.
Lemma p_C54 L s a b : 0 < L -> Permutation (zrange (L * L)) (get_site_id_sequence s) ->
  zlen (rev_ids s) = L * L ->
  (forall i, 0 <= i < L * L -> exists x, lget (get_site_id_sequence s) i = Ok x /\ 0 <= x < L * L /\ lget (rev_ids s) x = Ok i) ->
  0 <= a < L * L -> 0 <= b < L * L ->
  exists s', swap_ids a b s = (s', Ok tt) /\
    get_site_id_sequence s' = map (fun x => if x =? a then b else if x =? b then a else x) (get_site_id_sequence s) /\
    zlen (rev_ids s') = L * L /\
    (forall i, 0 <= i < L * L -> exists x, lget (get_site_id_sequence s') i = Ok x /\ 0 <= x < L * L /\ lget (rev_ids s') x = Ok i).
Proof.
  intros HL P Hr T Ha Hb. pose proof (LL_pos L HL).
  assert (Hl : zlen (ids s) = L * L).
  { unfold get_site_id_sequence in P. unfold zlen. rewrite <- (Permutation_length P). change (zlen (zrange (L * L)) = L * L). apply zlen_zrange. lia. }
  destruct (swap_ok L a b s HL Hl Hr P T Ha Hb) as (s' & E1 & E2 & E3 & E4 & _). exists s'. auto.
Qed.

(** ** C38: the sequence stays a permutation *)
Record SeqOK (L : Z) (s : perc) : Prop := mkSeqOK {
  sq_kind : is_L12 (kind s) = false;
  sq_mode : mode_custom s = false;
  sq_shuf : do_shuffle s = true;
  sq_perm : Permutation (zrange (L * L)) (ids s);
  sq_rev : zlen (rev_ids s) = L * L;
  sq_tab : is_table L (ids s) (rev_ids s)
}.
Lemma perm_zlen L l : 0 < L -> Permutation (zrange (L * L)) l -> zlen l = L * L.
Proof.
  intros HL P. pose proof (LL_pos L HL). unfold zlen. rewrite <- (Permutation_length P).
  change (zlen (zrange (L * L)) = L * L). apply zlen_zrange. lia.
Qed.
Lemma seqv_OK L a b : seqv b = seqv a -> SeqOK L a -> SeqOK L b.
Proof.
  intros E [H1 H2 H3 H4 H5 H6]. 
  destruct (seqv_eqs _ _ E) as (E1 & E2 & E3 & _ & E4 & E5 & _).
  constructor; rewrite ?E1, ?E2, ?E3, ?E4, ?E5; auto.
Qed.
Lemma new_seqOK E k L t0 s0 : is_L12 k = false -> new_perc E k L t0 = Ok s0 -> SeqOK L s0.
Proof.
  intros Hk E0. assert (HL : 0 < L).
  { apply (i_pos L s0). apply fresh_inv. eapply new_perc_fresh; eauto. }
  destruct (new_perc_ok E k L t0 HL) as (lat1 & l & t & rv & E1 & _ & P & Hr & _ & T). rewrite E1 in E0. injection E0 as <-.
  pose proof (perm_zlen L l HL P) as Hl.
  constructor; auto. apply (is_table_at L); auto. intros i Hi. split; [|apply T; lia].
  apply In_zrange. eapply Permutation_in; [apply Permutation_sym; exact P|]. apply at_In. cbn. lia.
Qed.
Lemma reset_seqOK E L s : Inv L s -> SeqOK L s -> SeqOK L (fst (reset E s)).
Proof.
  intros H [H1 H2 H3 H4 H5 H6]. destruct (reset_inv E L s H) as (s' & -> & R). cbn [fst].
  destruct R as [R1 R2 R3 _ _ _ _ (R8 & R9 & R10) _ _ _]. rewrite H1 in R3. destruct R3 as (P & _ & _ & T).
  assert (P' : Permutation (zrange (L * L)) (ids s')) by (eapply Permutation_trans; eauto).
  pose proof (perm_zlen L _ (i_pos _ _ H) P') as Hl.
  constructor; try congruence.
  - apply (fs_rev _ _ R1).
  - apply (is_table_at L); auto; [apply (fs_rev _ _ R1)|]. intros i Hi. split.
    + pose proof (fs_ids _ _ R1) as F. rewrite Forall_forall in F. apply F. apply at_In. lia.
    + apply T; auto; [|lia]. eapply Permutation_NoDup; [exact H4|apply NoDup_zrange].
Qed.
Lemma no_custom_seqOK E k L s : env_ok E -> k <> KL1 -> k <> KL2 -> reachable_no_custom E k L s -> SeqOK L s.
Proof.
  intros HE Hk1 Hk2 (t0 & s0 & cs & E0 & Hc & Hn & ->).
  assert (Hk : is_L12 k = false) by (destruct k; auto; congruence).
  assert (H0 : Inv L s0) by (apply fresh_inv; eapply new_perc_fresh; eauto).
  pose proof (new_seqOK E k L t0 s0 Hk E0) as S0. clear E0. revert s0 H0 S0.
  induction cs as [|c cs IH]; intros s0 H0 S0; [exact S0|].
  apply Forall_cons_iff in Hc as (Hc1 & Hc). apply Forall_cons_iff in Hn as (Hn1 & Hn).
  cbn [after fold_left]. apply IH; auto; [now apply exec_inv|].
  set (P := fun s => Inv L s /\ SeqOK L s).
  assert (PP : forall s, P s -> P (fst (place_one_site E s))).
  { intros s (A & B). split; [now apply place_inv|]. eapply seqv_OK; [|exact B].
    apply (place_base_seqv E L); auto. apply B. }
  assert (PD : forall s, P s -> P (fst (detect_wrapping s))).
  { intros s (A & B). split; [now apply detect_inv|]. eapply seqv_OK; [|exact B]. now apply (detect_seqv L). }
  assert (PF : forall f, (forall s, frame (f s) = frame s) -> (forall s, SeqOK L s -> SeqOK L (f s)) -> forall s, P s -> P (f s)).
  { intros f F1 F2 s (A & B). split; auto. eapply inv_frame; [symmetry; apply F1|exact A]. }
  assert (HPP : forall s, P s -> match place_one_site E s with
    | (s', Ok true) => if flag_is_success s' then P s' else P s' | (s', _) => P s' end).
  { intros s Hs. pose proof (PP s Hs) as Hs'. destruct (place_one_site E s) as [s' [[]|e]]; auto.
    destruct (flag_is_success s'); auto. }
  destruct c as [| | |l sh|l sh|a b|f|f]; cbn [exec call_ok no_custom] in *; try contradiction.
  - apply PP. split; auto.
  - apply PD. split; auto.
  - now apply reset_seqOK.
  - destruct S0 as [q1 q2 q3 q4 q5 q6]. pose proof (i_pos _ _ H0) as HL. destruct Hc1 as (Ha & Hb).
    destruct (swap_ok L a b s0 HL (perm_zlen L _ HL q4) q5 q4 q6 Ha Hb) as (s' & -> & E2 & E3 & E4 & _ & E6 & E7 & E8 & E9).
    cbn [fst]. constructor; try congruence; [|exact E4]. rewrite E2.
    assert (Sw : forall x, is_site L x -> is_site L (swapped a b x)).
    { intros x Hx. unfold swapped. destruct (x =? a); auto. destruct (x =? b); auto. }
    assert (Iv : forall x, swapped a b (swapped a b x) = x).
    { intros x. unfold swapped. destruct (Z.eqb_spec x a) as [->|].
      - destruct (Z.eqb_spec b a); [congruence|]. now rewrite Z.eqb_refl.
      - destruct (Z.eqb_spec x b) as [->|]; [now rewrite Z.eqb_refl|].
        destruct (Z.eqb_spec x a); [congruence|]. destruct (Z.eqb_spec x b); congruence. }
    eapply Permutation_trans; [|apply Permutation_map; exact q4]. apply NoDup_Permutation.
    + apply NoDup_zrange.
    + apply FinFun.Injective_map_NoDup; [|apply NoDup_zrange]. intros x y Exy.
      rewrite <- (Iv x), <- (Iv y), Exy. reflexivity.
    + intros x. rewrite in_map_iff. split.
      * intros Hx. exists (swapped a b x). split; auto. apply In_zrange in Hx. apply In_zrange. now apply Sw.
      * intros (y & <- & Hy). apply In_zrange in Hy. apply In_zrange. now apply Sw.
  - enough (P (fst (run_once E f s0))) as (_ & ?) by auto.
    apply (run_once_pres E P P); auto; [| | |split; auto].
    + intros s p h pw pl. apply (PF (set_arrs p h pw pl)); [reflexivity|]. intros x B. eapply seqv_OK; [|exact B]; reflexivity.
    + intros s b. apply (PF (set_first_run b)); [reflexivity|]. intros x [? ? ? ? ? ?]. constructor; auto.
    + intros s b. apply (PF (set_sp b)); [reflexivity|]. intros x B. eapply seqv_OK; [|exact B]; reflexivity.
  - enough (P (fst (test_run_once E f s0))) as (_ & ?) by auto.
    apply (test_run_once_pres E P P); auto; [| |split; auto].
    + intros s p h pw pl. apply (PF (set_arrs p h pw pl)); [reflexivity|]. intros x B. eapply seqv_OK; [|exact B]; reflexivity.
    + intros s b. apply (PF (set_first_run b)); [reflexivity|]. intros x [? ? ? ? ? ?]. constructor; auto.
Qed.
Lemma p_C38 E k L s : env_ok E -> k <> KL1 -> k <> KL2 -> reachable_no_custom E k L s ->
  Permutation (zrange (L * L)) (get_site_id_sequence s) /\
  (forall i, 0 <= i < L * L ->
     exists x, lget (get_site_id_sequence s) i = Ok x /\ 0 <= x < L * L /\ lget (rev_ids s) x = Ok i).
Proof. intros HE Hk1 Hk2 HR. destruct (no_custom_seqOK E k L s HE Hk1 Hk2 HR); auto. Qed.
