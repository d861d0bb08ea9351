(** * RunProps: full runs and custom lists under the base rule (C31, C32, C39-C43, C48, C49). *)
From Coq Require Import ZArith List Bool Lia Permutation.
From Verif Require Import Py Lattice Cluster Perc Spec PyFacts Torus Geometry LatFacts Inv Merge Count Fresh Select State Step History Reach GeomProps Micro StateProps StateProps2 Wrap Comm Seq RunBase.
Import ListNotations.
Open Scope Z_scope.

(** ** The class never changes *)
Lemma micro_kind E L s s' : micro E L s s' -> kind s' = kind s.
Proof.
  intros M. destruct M as [a b Hp|a b r Sd _|a s1 x b root Sd E1 E2 Pd|a x Hx Es Ew Hh].
  - now destruct (phys_fields _ _ Hp) as (-> & _).
  - exact (f_equal kind (sd_core _ _ _ _ Sd)).
  - etransitivity; [exact (f_equal kind (pd_core _ _ _ _ _ _ Pd))|exact (f_equal kind (sd_core _ _ _ _ Sd))].
  - reflexivity.
Qed.
Lemma exec_kind E L s c : env_ok E -> call_ok L c -> Inv L s -> kind (exec E s c) = kind s.
Proof.
  intros HE Hc H. assert (G : no_reset c -> kind (exec E s c) = kind s).
  { intros Hn. pose proof (exec_steps E L s c HE Hc Hn H) as S. induction S as [|a b S IH Ia M Ib]; auto.
    rewrite <- IH. eapply micro_kind; eauto. }
  destruct c; try (apply G; exact I). cbn [exec]. destruct (reset_inv E L s H) as (s' & -> & R). apply (rt_kind _ _ _ R).
Qed.
Lemma after_kind E L cs : env_ok E -> forall s, Forall (call_ok L) cs -> Inv L s -> kind (after E s cs) = kind s.
Proof.
  intros HE. induction cs as [|c cs IH]; intros s Hc H; auto. apply Forall_cons_iff in Hc as (H1 & H2).
  cbn [after fold_left]. etransitivity; [apply IH; auto; now apply exec_inv|]. now apply (exec_kind E L).
Qed.
Lemma new_kind E k L t0 s : new_perc E k L t0 = Ok s -> kind s = k.
Proof.
  intros H. pose proof (new_perc_pos _ _ _ _ _ H) as HL.
  destruct (new_perc_ok E k L t0 HL) as (lat1 & l & t & rv & E1 & _). rewrite E1 in H. injection H as <-. reflexivity.
Qed.
Lemma reachable_k_kind E k L s : env_ok E -> reachable_k E k L s -> Inv L s /\ kind s = k.
Proof.
  intros HE (t0 & s0 & cs & E0 & Hc & ->). assert (H0 : Inv L s0) by (apply fresh_inv; eapply new_perc_fresh; eauto).
  split; [now apply after_inv|]. rewrite (after_kind E L) by auto. eapply new_kind; eauto.
Qed.
Lemma no_custom_k E k L s : reachable_no_custom E k L s -> reachable_k E k L s.
Proof. intros (t0 & s0 & cs & E0 & Hc & _ & ->). now exists t0, s0, cs. Qed.

(** ** Starting points *)
Lemma new_arrs E k L t0 s : new_perc E k L t0 = Ok s -> arrv s = ([], [], [], []) /\ first_run s = true /\ record s = [] /\ sel_id s = None.
Proof.
  intros H. pose proof (new_perc_pos _ _ _ _ _ H) as HL.
  destruct (new_perc_ok E k L t0 HL) as (lat1 & l & t & rv & E1 & _). rewrite E1 in H. injection H as <-. repeat split.
Qed.
Lemma fresh_object_state E k L s : env_ok E -> fresh_object E k L s ->
  FreshState L s /\ kind s = k /\ h_arr s = [] /\ pw_arr s = [] /\ pl_arr s = [] /\ (first_run s = true -> p_arr s = []).
Proof.
  intros HE [(t0 & E0)|(s0 & HR & ->)].
  - split; [eapply new_perc_fresh; eauto|]. split; [eapply new_kind; eauto|].
    destruct (new_arrs _ _ _ _ _ E0) as (A & _). unfold arrv in A. injection A; intros; repeat split; auto.
  - destruct (reachable_k_kind E k L s0 HE HR) as (H & Hk). destruct (reset_inv E L s0 H) as (s' & -> & R). cbn [fst].
    destruct R as [R1 R2 _ _ _ R6 (R7 & R8 & R9 & R10) _ _ _ _]. split; auto. split; [congruence|]. repeat split; auto.
    rewrite R6. intros Hf. now rewrite Hf in R7.
Qed.
Lemma fresh_plain_object E k L s : fresh_plain E k L s -> fresh_object E k L s.
Proof. intros [H|(s0 & H & ->)]; [now left|]. right. exists s0. split; auto. now apply no_custom_k. Qed.
Lemma fresh_plain_seq E k L s : env_ok E -> is_L12 k = false -> fresh_plain E k L s -> Permutation (zrange (L * L)) (ids s).
Proof.
  intros HE Hk [(t0 & E0)|(s0 & HR & ->)].
  - apply (new_seqOK E k L t0 s Hk E0).
  - assert (Hk1 : k <> KL1) by (intros ->; discriminate). assert (Hk2 : k <> KL2) by (intros ->; discriminate).
    destruct (reachable_k_kind E k L s0 HE (no_custom_k _ _ _ _ HR)) as (H & Ek).
    destruct (p_C38 E k L s0 HE Hk1 Hk2 HR) as (P & _). destruct (reset_inv E L s0 H) as (s' & -> & R).
    pose proof (rt_ids _ _ _ R) as Q. rewrite Ek, Hk in Q. destruct Q as (Q & _). cbn [fst]. eapply Permutation_trans; eauto.
Qed.
Lemma fresh_plain_runB E k L s : env_ok E -> is_L12 k = false -> fresh_plain E k L s ->
  Inv L s /\ RunB L s /\ zlen (ids s) = L * L /\ cur_idx s = 0.
Proof.
  intros HE Hk HF. destruct (fresh_object_state E k L s HE (fresh_plain_object _ _ _ _ HF)) as (F & Ek & _).
  pose proof (fresh_plain_seq E k L s HE Hk HF) as P. pose proof (fresh_inv _ _ F) as H.
  split; auto. split; [|split; [apply perm_zlen; auto; apply (i_pos _ _ H)|apply (fs_cur _ _ F)]].
  apply fresh_RunB; auto; [now rewrite Ek|]. eapply Permutation_NoDup; [exact P|apply NoDup_zrange].
Qed.

(** ** C31 *)
Lemma val_ok r v : r = Ok v -> val r = v.
Proof. now intros ->. Qed.
Lemma map_ok_column (g : perc -> res fexpr) E L s n : env_ok E -> Inv L s -> RunB L s -> Z.of_nat n <= zlen (ids s) - cur_idx s ->
  (forall t, Inv L t -> g t = Ok (val (g t))) ->
  map Ok (column (fun t => val (g t)) E s n) = map (fun j => g (trace E j s)) (seq 1 n).
Proof.
  intros HE H B Hn Hg. unfold column. rewrite map_map. apply map_ext_in. intros j Hj. apply in_seq in Hj.
  symmetry. apply Hg. apply runB_trace; auto. lia.
Qed.
Lemma occ_prob_count L s : Inv L s -> occupation_prob s = Ok (FDiv (FZ (occ_count s)) (FZ (L * L))).
Proof.
  intros H. unfold occupation_prob. rewrite (st_sc _ _ (i_static _ _ H)). pose proof (LL_pos L (i_pos _ _ H)).
  rewrite int_div_ok by lia. reflexivity.
Qed.
Lemma full_occ L s : Inv L s -> RunB L s -> zlen (ids s) = L * L -> cur_idx s = L * L ->
  forall i, is_site L i -> occupied s i.
Proof.
  intros H B Hl Hc i Hi. apply (occupied_occ L); auto; [now apply i_static|]. apply occb_true.
  apply (count_full _ (zrange (L * L))); [|now apply In_zrange].
  pose proof (i_occ _ _ H) as Ho. unfold nocc in Ho. rewrite <- Ho, (rb_cnt _ _ B), Hc, zlen_zrange; [auto|].
  pose proof (LL_pos L (i_pos _ _ H)). lia.
Qed.
Definition finished (E : env) (s : perc) (n : nat) : perc :=
  set_first_run false (set_sel_flag (Some EMPTY_SITE_LIST) (filled E s n)).
Lemma run_once_B E L s f : env_ok E -> Inv L s -> RunB L s -> kind s <> KSP ->
  zlen (ids s) - cur_idx s < Z.of_nat f ->
  let n := Z.to_nat (zlen (ids s) - cur_idx s) in
  run_once E f s = (finished E s n, Ok tt) /\ Inv L (trace E n s) /\ RunB L (trace E n s) /\
  cur_idx (trace E n s) = zlen (ids s) /\ seqv (trace E n s) = seqv s.
Proof.
  intros HE H B Hk Hf n. pose proof (rb_cur _ _ B).
  assert (Hn : zlen (ids s) - cur_idx s = Z.of_nat n) by (unfold n; lia).
  destruct (runB_trace E L n HE s H B) as (T1 & T2 & T3 & T4 & T5); [lia|].
  split; [|split; auto; split; auto; split; [lia|auto]].
  unfold run_once. unfold mbind at 1, get.
  assert (G : run_once_base E f s = (finished E s n, Ok tt)).
  { unfold run_once_base. rewrite (mbind_ok _ _ _ _ _ (run_loop_B E L HE n s f H B Hn ltac:(lia))). reflexivity. }
  destruct (kind s); auto. congruence.
Qed.
Lemma column_len f E s n : length (column f E s n) = n.
Proof. unfold column. now rewrite map_length, seq_length. Qed.

Lemma p_C31 E k L s f : env_ok E -> k = KBase \/ k = KL0 -> fresh_plain E k L s -> (Z.to_nat (L * L) < f)%nat ->
  let n := Z.to_nat (L * L) in
  (forall j, (j < n)%nat -> snd (place_one_site E (trace E j s)) = Ok true /\
     sel_flag (fst (place_one_site E (trace E j s))) = Some SUCESS /\ occ_count (trace E j s) = Z.of_nat j) /\
  exists s', run_once E f s = (s', Ok tt) /\
    snd (place_one_site E s') = Ok false /\
    occ_count s' = L * L /\ (forall i, is_site L i -> occupied s' i) /\
    (first_run s = true -> p_arr s' = map (fun j => FDiv (FZ (Z.of_nat j)) (FZ (L * L))) (seq 1 n)) /\
    (first_run s = false -> p_arr s' = p_arr s) /\
    h_arr s' = map (fun j => entropy_v2 (trace E j s)) (seq 1 n) /\
    map Ok (pw_arr s') = map (fun j => order_param_wrapping (trace E j s)) (seq 1 n) /\
    map Ok (pl_arr s') = map (fun j => order_param_largest_clstr (trace E j s)) (seq 1 n).
Proof.
  intros HE Hk HF Hf n. assert (Hk' : is_L12 k = false) by (destruct Hk as [-> | ->]; reflexivity).
  destruct (fresh_plain_runB E k L s HE Hk' HF) as (H & B & Hl & Hc).
  destruct (fresh_object_state E k L s HE (fresh_plain_object _ _ _ _ HF)) as (F & Ek & A1 & A2 & A3 & A4).
  pose proof (LL_pos L (i_pos _ _ H)) as HLL.
  assert (Hn : zlen (ids s) - cur_idx s = Z.of_nat n) by (unfold n; lia).
  assert (En : Z.to_nat (zlen (ids s) - cur_idx s) = n) by (unfold n; f_equal; lia).
  split.
  { intros j Hj. destruct (runB_trace E L j HE s H B) as (T1 & T2 & T3 & T4 & T5); [lia|].
    assert (Ei : ids (trace E j s) = ids s) by apply (seqv_eqs _ _ T4).
    destruct (runB_place E L _ HE T1 T2) as (s1 & -> & Q & _); [rewrite Ei; lia|]. cbn [fst snd].
    split; auto. split; [|rewrite (rb_cnt _ _ T2); lia].
    unfold flag_is_success in Q. destruct (sel_flag s1) as [[]|]; congruence. }
  destruct (run_once_B E L s f HE H B) as (Er & T1 & T2 & T3 & T4); [destruct Hk; congruence|lia|].
  rewrite En in *. assert (Ei : ids (trace E n s) = ids s) by apply (seqv_eqs _ _ T4).
  exists (finished E s n). split; auto.
  assert (If : Inv L (finished E s n)) by (eapply inv_frame; [|exact T1]; reflexivity).
  assert (Bf : RunB L (finished E s n)) by (eapply runB_frame; [..|exact T2]; reflexivity).
  split. { rewrite (runB_end E L); auto. change (cur_idx (trace E n s) = zlen (ids (trace E n s))). rewrite Ei. lia. }
  split; [change (occ_count (trace E n s) = L * L); rewrite (rb_cnt _ _ T2); lia|].
  split. { apply (full_occ L); auto; [change (zlen (ids (trace E n s)) = L * L); now rewrite Ei|change (cur_idx (trace E n s) = L * L); lia]. }
  assert (Fo : forall t, Inv L t -> occupation_prob t = Ok (val (occupation_prob t))) by (intros t Ht; apply (obs_ok L t Ht)).
  assert (Fw : forall t, Inv L t -> order_param_wrapping t = Ok (val (order_param_wrapping t))) by (intros t Ht; apply (obs_ok L t Ht)).
  assert (Fl : forall t, Inv L t -> order_param_largest_clstr t = Ok (val (order_param_largest_clstr t))) by (intros t Ht; apply (obs_ok L t Ht)).
  unfold finished, filled. cbn [p_arr h_arr pw_arr pl_arr set_first_run set_sel_flag set_arrs].
  rewrite A1, A2, A3. cbn [app].
  split. { intros Hfr. rewrite Hfr, A4 by auto. cbn [app]. unfold column. apply map_ext_in. intros j Hj. apply in_seq in Hj.
    destruct (runB_trace E L j HE s H B) as (U1 & U2 & U3 & _); [lia|].
    apply val_ok. rewrite (occ_prob_count L) by auto. rewrite (rb_cnt _ _ U2), U3, Hc. reflexivity. }
  split; [now intros ->|]. split; [reflexivity|].
  split; apply (map_ok_column _ E L); auto; lia.
Qed.

(** ** C32 *)
Lemma test_clusters_full L s c : Inv L s -> is_label L c -> occ_count s = L * L -> wid s = c ->
  bsize (pool s) c = 2 * (L * L) -> ssize (pool s) c = L * L ->
  (forall c', is_label L c' -> c' <> c -> bsize (pool s) c' = 0 /\ ssize (pool s) c' = 0) ->
  largest_sz s = 2 * (L * L) -> test_clusters s = Ok tt.
Proof.
  intros H Hc Ho Hw Hb Hs Hz Hm. pose proof (i_static _ _ H) as St. pose proof (LL_pos L (i_pos _ _ H)) as HLL.
  unfold test_clusters. rewrite (st_sc _ _ St), (st_len _ _ St), (st_bc _ _ St), Ho, Z.ltb_irrefl. cbv zeta.
  match goal with |- context [foldM ?f _ _] => set (step := f) end.
  assert (G : forall l, (forall g, In g l -> is_label L g) -> foldM step l (0, 0) = Ok (0, 0)).
  { induction l as [|g l IH]; intros Hl; [reflexivity|]. cbn [foldM].
    assert (Hg : is_label L g) by (apply Hl; simpl; auto).
    assert (Es : step (0, 0) g = Ok (0, 0)).
    { unfold step. rewrite (get_bsize L (lat s)), (get_ssize L (lat s)) by (auto; apply (i_cl _ _ H)). cbn [rbind].
      rewrite Hw. destruct (Z.eqb_spec g c) as [->|Hne].
      - rewrite Hb, Hs, !Z.eqb_refl. reflexivity.
      - destruct (Hz g Hg Hne) as (-> & ->). reflexivity. }
    rewrite Es. cbn [rbind]. apply IH. intros g' Hg'. apply Hl. simpl; auto. }
  rewrite G by (intros g Hg; now apply In_zrange in Hg). cbn [rbind]. rewrite Hm, zlen_zrange by lia.
  rewrite !Z.eqb_refl. reflexivity.
Qed.
Lemma lat_test_full L lat c : Static L lat -> 2 <= L -> (forall i, is_site L i -> sg lat i = c) ->
  (forall b, is_bond L b -> bg lat b = c) -> lat_test_lattice lat c = Ok tt.
Proof.
  intros St H2 Hs Hb. pose proof (st_pos _ _ St) as HL. unfold lat_test_lattice. rewrite foldM_unit; [cbn [rbind]; apply foldM_unit|].
  - intros b Hin. destruct (in_bonds_at L lat b St Hin) as (i & Hi & ->). unfold bond_test.
    destruct (st_bond _ _ St i Hi) as (_ & _ & _ & _ & ->). fold (bg lat i). rewrite Hb by auto.
    rewrite nodup_fix; [change (zlen (bond_sites L i)) with 2; cbn [rbind]; rewrite Z.eqb_refl; cbn; rewrite Z.eqb_refl; reflexivity|]. unfold bond_sites. pose proof (ends_neq L HL i H2 Hi).
    constructor; [|constructor; [intros []|constructor]]. intros [E|[]]. lia.
  - intros t Hin. destruct (in_sites_at L lat t St Hin) as (i & Hi & ->). unfold site_test.
    destruct (st_site _ _ St i Hi) as (_ & _ & ->). fold (sg lat i). rewrite Hs by auto.
    rewrite nodup_fix by (now apply bonds_of_NoDup). change (zlen (bonds_of L i)) with 4. cbn. rewrite Z.eqb_refl. reflexivity.
Qed.
(** A full lattice, whatever filled it. *)
Lemma full_state L s : Inv L s -> (forall i, is_site L i -> occupied s i) ->
  exists c, (forall i, is_site L i -> site_label s i = c) /\ (forall b, is_bond L b -> bond_label s b = c) /\
    occ_count s = L * L /\ largest_cluster s = 2 * (L * L) /\
    order_param_largest_clstr s = Ok (FDiv (FZ (2 * (L * L))) (FZ (2 * (L * L)))) /\
    (after_wrap s = true -> 2 <= L -> wid s = c /\ order_param_wrapping s = Ok (FDiv (FZ (2 * (L * L))) (FZ (2 * (L * L)))) /\
       test_clusters s = Ok tt /\ test_lattice s = Ok tt).
Proof.
  intros H Ho. pose proof (all_occ_nocc L s H Ho) as Hn. pose proof (i_static _ _ H) as St.
  pose proof (LL_pos L (i_pos _ _ H)) as HLL.
  destruct (full_one L (lat s) (pool s) (i_cl _ _ H) Hn) as (c & Hc & Hs & Hb & Sb & Ss & Hz). exists c.
  assert (Eo : occ_count s = L * L) by (rewrite (i_occ _ _ H); auto).
  destruct (i_big _ _ H) as (Hl & Hm & Hall); [lia|].
  assert (Em : largest_sz s = 2 * (L * L)).
  { destruct (Z.eq_dec (largest_id s) c) as [Eq|Hne].
    - rewrite Eq, Sb in Hm. now symmetry.
    - destruct (Hz _ Hl Hne) as (Hz0 & _). pose proof (Hall c Hc). lia. }
  split; [intros i Hi; now rewrite (site_label_sg L), Hs|]. split; [intros b Hb'; now rewrite (bond_label_bg L), Hb|].
  split; auto. split; auto.
  split; [unfold order_param_largest_clstr; now rewrite (st_bc _ _ St), Em, int_div_ok by lia|].
  intros Hw H2. pose proof (wrap_label L s H Hw) as Hwl.
  assert (Ew : wid s = c).
  { destruct (wrap_sound L s H Hw) as (i & Hi & Ei & _). rewrite (site_label_sg L), Hs in Ei by auto. congruence. }
  split; auto. split; [|split].
  - unfold order_param_wrapping. rewrite Hw, Ew, (get_bsize L (lat s)) by (auto; apply (i_cl _ _ H)). cbn [rbind].
    now rewrite (st_bc _ _ St), Sb, int_div_ok by lia.
  - apply (test_clusters_full L s c); auto.
  - unfold test_lattice. rewrite (test_neighbor_count_ok L) by auto. cbn [rbind].
    rewrite (test_relative_index_ok L (lat s) (pool s)) by (auto; apply (i_cl _ _ H)). cbn [rbind].
    rewrite (scan_bonds_ok L), (scan_sites_ok L) by auto. cbn [rbind].
    rewrite Ew. destruct (occ_count s =? l_site_count (lat s)); [|reflexivity]. now apply (lat_test_full L).
Qed.
Lemma full_flat_wraps L s : FlatI L s -> (forall i, is_site L i -> occupied s i) -> after_wrap s = true.
Proof.
  intros (H & F) Ho. pose proof (i_static _ _ H) as St. destruct (after_wrap s); auto. exfalso.
  apply (flat_no_wrap L (lat s)); auto. apply wraps_iff; auto. apply full_wraps; auto. apply (i_pos _ _ H).
Qed.
Lemma run_flat E L s f : env_ok E -> 3 <= L -> FreshState L s -> FlatI L (fst (run_once E f s)).
Proof.
  intros HE H3 F. apply (exec_flat E L s (CRun f)); auto; [exact I|discriminate|].
  split; [now apply fresh_inv|]. intros _. now apply fresh_flat.
Qed.

(** ** C39: rejected lists *)
Lemma not_all_sites L l : (exists x, In x l /\ ~ (0 <= x < L * L)) -> forallb (siteb L) l = false.
Proof.
  intros (x & Hx & Hn). destruct (forallb (siteb L) l) eqn:Ef; auto. rewrite forallb_forall in Ef.
  apply Ef in Hx. apply siteb_true in Hx. contradiction.
Qed.
Lemma map_calc L lat (ixs : list (Z * Z)) : Static L lat ->
  map (calculate_id_from_index lat) (map (fun '(r, c) => [r; c]) ixs) = map (fun '(r, c) => r * L + c) ixs.
Proof. intros St. rewrite map_map. apply map_ext. intros (r, c). now rewrite calc2, (st_len _ _ St). Qed.
Lemma p_C39 E L s : env_ok E -> reachable E L s -> forall sh,
  set_custome_site_id_list E [] sh s = (s, Err ValueError) /\
  set_custome_site_index_list E [] sh s = (s, Err ValueError) /\
  (forall l, (exists x, In x l /\ ~ (0 <= x < L * L)) -> set_custome_site_id_list E l sh s = (s, Ok tt)) /\
  (forall ixs, (exists r c, In (r, c) ixs /\ ~ (0 <= r * L + c < L * L)) ->
     set_custome_site_index_list E (map (fun '(r, c) => [r; c]) ixs) sh s = (s, Ok tt)).
Proof.
  intros HE HR sh. pose proof (i_static _ _ (reachable_inv _ _ _ HE HR)) as St.
  rewrite (set_ids_ok E L), (set_indices_ok E L) by auto. split; auto. split; auto. split.
  - intros l Hl. rewrite (set_ids_ok E L) by auto. rewrite (not_all_sites L l Hl). destruct l; auto. now destruct Hl as (x & [] & _).
  - intros ixs Hx. rewrite (set_indices_ok E L) by auto. cbv zeta. rewrite (map_calc L) by auto.
    rewrite (not_all_sites L).
    + destruct Hx as (r & c & Hin & _). destruct ixs as [|(r0, c0) ixs]; [contradiction|reflexivity].
    + destruct Hx as (r & c & Hin & Hn). exists (r * L + c). split; auto. apply in_map_iff. exists (r, c). auto.
Qed.

(** ** C41: (0, L) means (1, 0) *)
Lemma p_C41 E L s : env_ok E -> reachable E L s ->
  (forall a b sh, set_custome_site_index_list E (a ++ [0; L] :: b) sh s = set_custome_site_index_list E (a ++ [1; 0] :: b) sh s) /\
  (2 <= L -> forall s', fst (set_custome_site_index_list E [[0; L]] false s) = s' ->
     snd (set_custome_site_index_list E [[0; L]] false s) = Ok tt /\ get_site_id_sequence s' = [L] /\
     (kind s <> KL1 -> get_index_sequence s' = Ok [(1, 0)])).
Proof.
  intros HE HR. pose proof (reachable_inv _ _ _ HE HR) as H. pose proof (i_static _ _ H) as St. split.
  - intros a b sh. rewrite !(set_indices_ok E L) by auto. rewrite !map_app. cbn [map].
    rewrite !calc2, (st_len _ _ St). replace (0 * L + L) with (1 * L + 0) by lia. reflexivity.
  - intros H2 s'. rewrite (set_indices_ok E L) by auto. cbn [map]. rewrite calc2, (st_len _ _ St).
    assert (HsL : is_site L (0 * L + L)) by (unfold is_site; nia).
    cbv zeta. cbn [forallb]. rewrite (proj2 (siteb_true L _) HsL). cbn [andb].
    unfold shuffle, mbind, get. cbn [installed mode_custom set_custom do_shuffle negb andb ret fst snd]. intros <-.
    split; auto. split; [cbn; f_equal; lia|]. intros Hk. unfold get_index_sequence.
    change (kind (installed [0 * L + L] (user_list s) false false s)) with (kind s).
    change (ids (installed [0 * L + L] (user_list s) false false s)) with [0 * L + L].
    change (lat (installed [0 * L + L] (user_list s) false false s)) with (lat s).
    assert (Eg : mapM (fun id => t <- get_site_by_id (lat s) id ;; Ok (s_index t)) [0 * L + L] = Ok [(1, 0)]).
    { cbn [mapM]. rewrite (get_site_by_id_ok L) by auto. cbn [rbind].
      destruct (st_site _ _ St _ HsL) as (_ & -> & _). cbn [rbind]. unfold row, col.
      replace (0 * L + L) with (1 * L) by lia. rewrite Z_div_mult, Z_mod_mult by lia. reflexivity. }
    destruct (kind s); auto. congruence.
Qed.
