(** * StateProps2: order parameters, wrapping, relative indices, self-checks, reset. *)
From Coq Require Import ZArith List Bool Lia Permutation.
From Verif Require Import Py Lattice Cluster Perc Spec PyFacts Torus Geometry LatFacts Inv Merge Count Fresh Select State Step History Reach GeomProps Micro StateProps.
Import ListNotations.
Open Scope Z_scope.

(** ** The full torus *)
Lemma walk_right L (P : Z -> Prop) : 0 < L -> (forall i, is_site L i -> P i) -> forall n i, is_site L i ->
  walk L P i (repeat DRight n) (at_rc L (row L i) (col L i + Z.of_nat n)).
Proof.
  intros HL HP. induction n as [|n IH]; intros i Hi.
  - rewrite Z.add_0_r, at_row_col by auto. constructor; auto.
  - cbn [repeat]. constructor; auto. assert (Hn : is_site L (nbr L i DRight)) by (now apply nbr_site).
    replace (at_rc L (row L i) (col L i + Z.of_nat (S n)))
      with (at_rc L (row L (nbr L i DRight)) (col L (nbr L i DRight) + Z.of_nat n)); [now apply IH|].
    rewrite row_nbr, col_nbr by auto. cbn [step fst snd]. apply at_rc_congr.
    + rewrite Z.add_0_r, Zmod_mod. reflexivity.
    + rewrite Zplus_mod_idemp_l. f_equal. lia.
Qed.
Lemma walk_down L (P : Z -> Prop) : 0 < L -> (forall i, is_site L i -> P i) -> forall n i, is_site L i ->
  walk L P i (repeat DDown n) (at_rc L (row L i + Z.of_nat n) (col L i)).
Proof.
  intros HL HP. induction n as [|n IH]; intros i Hi.
  - rewrite Z.add_0_r, at_row_col by auto. constructor; auto.
  - cbn [repeat]. constructor; auto. assert (Hn : is_site L (nbr L i DDown)) by (now apply nbr_site).
    replace (at_rc L (row L i + Z.of_nat (S n)) (col L i))
      with (at_rc L (row L (nbr L i DDown) + Z.of_nat n) (col L (nbr L i DDown))); [now apply IH|].
    rewrite row_nbr, col_nbr by auto. cbn [step fst snd]. apply at_rc_congr.
    + rewrite Zplus_mod_idemp_l. f_equal. lia.
    + rewrite Z.add_0_r, Zmod_mod. reflexivity.
Qed.
Lemma full_connected L (P : Z -> Prop) i j : 0 < L -> (forall i, is_site L i -> P i) ->
  is_site L i -> is_site L j -> connected L P i j.
Proof.
  intros HL HP Hi Hj. pose proof (row_bound L HL i Hi). pose proof (row_bound L HL j Hj).
  pose proof (col_bound L HL i). pose proof (col_bound L HL j).
  set (n := Z.to_nat ((col L j - col L i) mod L)). set (m := Z.to_nat ((row L j - row L i) mod L)).
  pose proof (Z.mod_pos_bound (col L j - col L i) L HL). pose proof (Z.mod_pos_bound (row L j - row L i) L HL).
  pose proof (walk_right L P HL HP n i Hi) as W1. set (k := at_rc _ _ _) in W1.
  assert (Hk : is_site L k) by (now apply at_rc_site).
  pose proof (walk_down L P HL HP m k Hk) as W2.
  eexists. eapply walk_app; [exact W1|].
  match type of W2 with walk _ _ _ _ ?t => replace t with j in W2; [exact W2|] end.
  rewrite <- (at_row_col L HL j Hj) at 1. apply at_rc_congr; auto.
  - unfold k. rewrite row_at by auto. unfold m. rewrite Z2Nat.id by lia.
    rewrite Zplus_mod_idemp_r, Z.mod_small with (a := row L i) by auto. f_equal. lia.
  - unfold k. rewrite col_at by auto. unfold n. rewrite Z2Nat.id by lia.
    rewrite Zplus_mod_idemp_r, !Zmod_mod. f_equal. lia.
Qed.
Lemma disp_repeat d n : disp (repeat d n) = (Z.of_nat n * fst (step d), Z.of_nat n * snd (step d)).
Proof.
  induction n as [|n IH]; [reflexivity|]. cbn [repeat disp]. rewrite IH. unfold vadd; cbn [fst snd].
  f_equal; lia.
Qed.
Lemma full_wraps L (P : Z -> Prop) : 0 < L -> (forall i, is_site L i -> P i) -> wraps L P.
Proof.
  intros HL HP. assert (H0 : is_site L 0) by (unfold is_site; pose proof (LL_pos L HL); lia).
  exists 0, (repeat DRight (Z.to_nat L)). split.
  - pose proof (walk_right L P HL HP (Z.to_nat L) 0 H0) as W. rewrite Z2Nat.id in W by lia.
    match type of W with walk _ _ _ _ ?t => replace t with 0 in W; [exact W|] end.
    rewrite <- (at_row_col L HL 0 H0) at 1. apply at_rc_congr; auto.
    replace (col L 0 + L) with (col L 0 + 1 * L) by lia. now rewrite Z_mod_plus_full.
  - rewrite disp_repeat, Z2Nat.id by lia. cbn. intros E. injection E. lia.
Qed.

(** All sites occupied: one cluster holds everything. *)
Lemma full_one L lat p : ClOK L lat p -> nocc L lat = L * L -> exists c, is_label L c /\
  (forall i, is_site L i -> sg lat i = c) /\ (forall b, is_bond L b -> bg lat b = c) /\
  bsize p c = 2 * (L * L) /\ ssize p c = L * L /\
  (forall c', is_label L c' -> c' <> c -> bsize p c' = 0 /\ ssize p c' = 0).
Proof.
  intros C Hn. pose proof (st_pos _ _ (ck_static _ _ _ C)) as HL. pose proof (LL_pos L HL) as HLL.
  assert (Ho : forall i, is_site L i -> occ lat i).
  { intros i Hi. apply occb_true. apply (count_full _ (zrange (L * L))).
    - unfold nocc in Hn. rewrite Hn, zlen_zrange; lia.
    - now apply In_zrange. }
  assert (H0 : is_site L 0) by (unfold is_site; lia).
  assert (Hs : forall i, is_site L i -> sg lat i = sg lat 0).
  { intros i Hi. apply (label_connected L lat p); auto. now apply full_connected. }
  assert (Hb : forall b, is_bond L b -> bg lat b = sg lat 0).
  { intros b Hb. rewrite (own_label L lat p b (end1 L b)); auto.
    - apply Hs. now apply end1_site.
    - now apply end1_site.
    - left; auto.
    - apply Ho. now apply end1_site. }
  assert (Hl : is_label L (sg lat 0)) by (apply (sg_occ_label L lat p); auto).
  exists (sg lat 0). split; auto. split; auto. split; auto. split; [|split].
  - rewrite (bsize_count L lat) by auto. rewrite count_all; [apply zlen_zrange; lia|].
    intros b H. apply In_zrange in H. rewrite Hb by exact H. apply Z.eqb_refl.
  - rewrite (ssize_count L lat) by auto. rewrite count_all; [apply zlen_zrange; lia|].
    intros b H. apply In_zrange in H. rewrite Hs by exact H. apply Z.eqb_refl.
  - intros c' Hc' Hne. rewrite (bsize_count L lat), (ssize_count L lat) by auto. split.
    + apply count_none. intros b H. apply In_zrange in H. rewrite Hb by exact H. apply Z.eqb_neq. auto.
    + apply count_none. intros b H. apply In_zrange in H. rewrite Hs by exact H. apply Z.eqb_neq. auto.
Qed.
Lemma all_occ_nocc L s : Inv L s -> (forall i, is_site L i -> occupied s i) -> nocc L (lat s) = L * L.
Proof.
  intros H Ho. pose proof (LL_pos L (i_pos _ _ H)). unfold nocc. rewrite count_all; [apply zlen_zrange; lia|].
  intros i Hi. apply In_zrange in Hi. apply occb_true. rewrite <- (occupied_occ L) by (auto; now apply i_static).
  now apply Ho.
Qed.

Lemma big_bound L s : Inv L s -> 0 <= largest_sz s <= 2 * (L * L).
Proof.
  intros H. pose proof (LL_pos L (i_pos _ _ H)). pose proof (i_cl _ _ H) as C.
  assert (0 <= occ_count s) by (rewrite (i_occ _ _ H); apply count_nonneg).
  destruct (Z.eq_dec (occ_count s) 0) as [E0|E0].
  - destruct (i_big0 _ _ H E0) as (-> & _). lia.
  - destruct (i_big _ _ H) as (B1 & B2 & _); [lia|]. rewrite <- B2. split; [apply bsize_nonneg|].
    rewrite (bsize_count L (lat s)) by auto. etransitivity; [apply count_le_len|]. rewrite zlen_zrange; lia.
Qed.

Lemma p_C20 E L s : env_ok E -> reachable E L s ->
  order_param_largest_clstr s = Ok (FDiv (FZ (largest_cluster s)) (FZ (2 * (L * L)))) /\
  0 <= largest_cluster s <= 2 * (L * L) /\
  ((forall i, is_site L i -> occupied s i) -> largest_cluster s = 2 * (L * L)) /\
  largest_cluster s <= largest_cluster (fst (place_one_site E s)).
Proof.
  intros HE HR. pose proof (reachable_inv _ _ _ HE HR) as H. pose proof (i_static _ _ H) as St.
  pose proof (LL_pos L (i_pos _ _ H)) as HLL. split; [|split; [|split]].
  - unfold order_param_largest_clstr. rewrite (st_bc _ _ St). apply int_div_ok. lia.
  - now apply big_bound.
  - intros Ho. pose proof (all_occ_nocc L s H Ho) as Hn.
    destruct (full_one L (lat s) (pool s) (i_cl _ _ H) Hn) as (c & Hc & _ & _ & Hb & _).
    destruct (i_big _ _ H) as (_ & _ & B); [rewrite (i_occ _ _ H); lia|].
    pose proof (B c Hc). pose proof (big_bound L s H). unfold largest_cluster. lia.
  - exact (kp_big _ _ _ (keeps_steps E L s _ H (place_steps E L s HE H))).
Qed.

Lemma wrap_size_le L s : Inv L s -> after_wrap s = true -> 0 < bsize (pool s) (wid s) <= largest_sz s.
Proof.
  intros H Hw. pose proof (i_wrap _ _ H) as W. unfold WrapOK in W. rewrite Hw in W.
  destruct W as (H3 & Hl & (i & Es & _) & nb & ns & E1 & E2 & E3 & E4 & E5 & E6).
  split; [lia|]. apply (i_big _ _ H); auto. lia.
Qed.
Lemma p_C21 E L s : env_ok E -> reachable E L s ->
  (after_wrap s = false -> order_param_wrapping s = Ok (FZ 0)) /\
  (after_wrap s = true -> let n := zlen (cluster_bonds s (wid s)) in
     order_param_wrapping s = Ok (FDiv (FZ n) (FZ (2 * (L * L)))) /\
     0 < n <= largest_cluster s /\ largest_cluster s <= 2 * (L * L) /\
     let s' := fst (place_one_site E s) in
     after_wrap s' = true /\ n <= zlen (cluster_bonds s' (wid s'))).
Proof.
  intros HE HR. pose proof (reachable_inv _ _ _ HE HR) as H. pose proof (i_static _ _ H) as St.
  pose proof (LL_pos L (i_pos _ _ H)) as HLL. split.
  - intros Hw. unfold order_param_wrapping. now rewrite Hw.
  - intros Hw. cbv zeta. pose proof (wrap_label L s H Hw) as Hl. pose proof (inv_plen _ _ H) as Hp.
    rewrite (cluster_bonds_cl L) by auto. change (zlen (c_bonds (cl (pool s) (wid s)))) with (bsize (pool s) (wid s)).
    split; [|split; [|split]].
    + unfold order_param_wrapping. rewrite Hw, (get_bsize L (lat s)) by (auto; apply (i_cl _ _ H)). cbn [rbind].
      rewrite (st_bc _ _ St). apply int_div_ok. lia.
    + now apply (wrap_size_le L).
    + now apply big_bound.
    + pose proof (place_inv E L s HE H) as H'.
      pose proof (keeps_steps E L s _ H (place_steps E L s HE H)) as K. set (s' := fst (place_one_site E s)) in *.
      destruct (kp_wrap _ _ _ K Hw) as (W1 & W2 & _ & _ & _ & _ & W7). split; auto. rewrite W2.
      rewrite (cluster_bonds_cl L) by (auto; now apply inv_plen).
      change (bsize (pool s) (wid s) <= bsize (pool s') (wid s)).
      rewrite (bsize_count L (lat s)), (bsize_count L (lat s')) by (auto; apply i_cl; auto).
      apply count_le. intros b Hb Eb. apply In_zrange in Hb. apply Z.eqb_eq in Eb. apply Z.eqb_eq. now apply W7.
Qed.

(** ** Wrapping *)
Lemma wrap_sound L s : Inv L s -> after_wrap s = true ->
  exists i, is_site L i /\ site_label s i = wid s /\ wraps_at L (fun j => site_label s j = wid s) i.
Proof.
  intros H Hw. pose proof (i_wrap _ _ H) as W. unfold WrapOK in W. rewrite Hw in W. pose proof (i_static _ _ H) as St.
  destruct W as (H3 & Hl & (i & Es & Wi) & _). pose proof Wi as (ds & Wk & _).
  destruct (walk_sites L _ _ _ _ Wk) as (Hi & _). exists i. split; auto. split.
  - now rewrite (site_label_sg L).
  - revert Wi. apply wraps_at_mono. intros j Hj Ej. now rewrite (site_label_sg L).
Qed.
Lemma p_C22 E L s : env_ok E -> reachable E L s ->
  let s' := fst (detect_wrapping s) in
  snd (detect_wrapping s) = Ok true \/ after_wrap s' = true ->
  after_wrap s' = true /\ 0 <= wid s' < 2 * (L * L) /\
  exists i, is_site L i /\ occupied s' i /\ site_label s' i = wid s' /\
    wraps_at L (fun j => site_label s' j = wid s') i /\ wraps_at L (occupied s') i.
Proof.
  intros HE HR s' Hd. pose proof (reachable_inv _ _ _ HE HR) as H. pose proof (detect_inv L s H) as H'. fold s' in H'.
  assert (Hw : after_wrap s' = true).
  { destruct Hd as [Hd|]; auto. unfold s'. rewrite (detect_ok L) in * by apply H. unfold detect_res in *.
    destruct (after_wrap s) eqn:Ew; [exact Ew|]. destruct (sel_id s) as [x|]; [|discriminate].
    destruct (hitb L (lat s) x); [reflexivity|discriminate]. }
  pose proof (wrap_label _ _ H' Hw) as Hl. split; auto. split; auto.
  destruct (wrap_sound L s' H' Hw) as (i & Hi & Ei & Wi). exists i. split; auto.
  split; [unfold occupied; rewrite Ei; unfold is_label in Hl; lia|]. split; auto. split; auto.
  revert Wi. apply wraps_at_mono. intros j Hj Ej. unfold occupied. rewrite Ej. unfold is_label in Hl. lia.
Qed.

Lemma p_C25 E L s : env_ok E -> reachable E L s -> L <= 2 ->
  after_wrap s = false /\ snd (detect_wrapping s) <> Ok true /\
  get_pc s = Ok (FZ 0) /\ order_param_wrapping s = Ok (FZ 0) /\
  ((forall i, is_site L i -> occupied s i) -> wraps L (occupied s)).
Proof.
  intros HE HR H2. pose proof (reachable_inv _ _ _ HE HR) as H.
  assert (Hw : after_wrap s = false).
  { pose proof (i_wrap _ _ H) as W. unfold WrapOK in W. destruct (after_wrap s); auto. lia. }
  split; auto. split; [|split; [|split]].
  - pose proof (detect_inv L s H) as H'. rewrite (detect_ok L) in * by apply H. unfold detect_res in *. rewrite Hw in *.
    destruct (sel_id s) as [x|]; [|discriminate]. destruct (hitb L (lat s) x); [|discriminate].
    cbn [fst] in H'. pose proof (i_wrap _ _ H') as W. unfold WrapOK, wrapped in W. cbn [after_wrap set_wrap] in W. lia.
  - unfold get_pc. now rewrite Hw.
  - unfold order_param_wrapping. now rewrite Hw.
  - intros Ho. apply full_wraps; auto. apply (i_pos _ _ H).
Qed.

Lemma p_C26 E L s cs : env_ok E -> reachable E L s -> Forall (call_ok L) cs -> ~ In CReset cs ->
  after_wrap s = true ->
  let s' := after E s cs in
  after_wrap s' = true /\ wid s' = wid s /\ snd (detect_wrapping s') = Ok true /\
  (forall i, is_site L i -> site_label s i = wid s -> site_label s' i = wid s) /\
  (forall b, is_bond L b -> bond_label s b = wid s -> bond_label s' b = wid s).
Proof.
  intros HE HR Hc Hn Hw s'. pose proof (reachable_inv _ _ _ HE HR) as H.
  assert (Hnr : Forall no_reset cs).
  { apply Forall_forall. intros c Hin. destruct c; cbn; auto. }
  pose proof (after_inv E L cs HE s Hc H) as H'.
  destruct (kp_wrap _ _ _ (keeps_after E L s cs HE H Hc Hnr) Hw) as (W1 & W2 & _ & _ & _ & W6 & W7).
  fold s' in H', W1, W2, W6, W7. split; auto. split; auto. split; [|split].
  - rewrite (detect_ok L) by apply H'. unfold detect_res. now rewrite W1.
  - intros i Hi. rewrite !(site_label_sg L) by (auto; now apply i_static). auto.
  - intros b Hb. rewrite !(bond_label_bg L) by (auto; now apply i_static). auto.
Qed.

Lemma p_C27 E L s : env_ok E -> reachable E L s ->
  (after_wrap s = false -> get_pc s = Ok (FZ 0) /\ get_site_count_wrapping_cluster_pc s = 0 /\
     get_bond_count_wrapping_cluster_pc s = 0) /\
  (after_wrap s = true -> exists n, get_pc s = Ok (FDiv (FZ n) (FZ (L * L))) /\
     L <= get_site_count_wrapping_cluster_pc s <= n /\ n <= occ_count s <= L * L /\
     0 < get_bond_count_wrapping_cluster_pc s <= 2 * (L * L) /\
     forall cs, Forall (call_ok L) cs -> ~ In CReset cs ->
       get_pc (after E s cs) = get_pc s /\
       get_site_count_wrapping_cluster_pc (after E s cs) = get_site_count_wrapping_cluster_pc s /\
       get_bond_count_wrapping_cluster_pc (after E s cs) = get_bond_count_wrapping_cluster_pc s).
Proof.
  intros HE HR. pose proof (reachable_inv _ _ _ HE HR) as H. pose proof (LL_pos L (i_pos _ _ H)) as HLL.
  pose proof (i_wrap _ _ H) as W. unfold WrapOK in W. split; intros Hw; rewrite Hw in W.
  - destruct W as (W1 & W2 & W3 & W4). unfold get_pc, get_site_count_wrapping_cluster_pc, get_bond_count_wrapping_cluster_pc.
    rewrite Hw, W3, W4. auto.
  - destruct W as (H3 & Hl & _ & nb & ns & E1 & E2 & E3 & E4 & E5 & E6). exists (pc_occ s).
    assert (G : get_pc s = Ok (FDiv (FZ (pc_occ s)) (FZ (L * L)))).
    { unfold get_pc. rewrite Hw, (st_sc _ _ (i_static _ _ H)). apply int_div_ok. lia. }
    split; auto. unfold get_site_count_wrapping_cluster_pc at 1 2, get_bond_count_wrapping_cluster_pc at 1 2.
    rewrite E1, E2. split; auto. split.
    { split; auto. rewrite (i_occ _ _ H). pose proof (count_le_len (occb (lat s)) (zrange (L * L))) as Hc.
      rewrite zlen_zrange in Hc; [exact Hc|lia]. }
    split. { pose proof (wrap_size_le L s H Hw). pose proof (big_bound L s H). lia. }
    intros cs Hc Hn. assert (Hnr : Forall no_reset cs).
    { apply Forall_forall. intros c Hin. destruct c; cbn; auto. }
    pose proof (after_inv E L cs HE s Hc H) as H'.
    destruct (kp_wrap _ _ _ (keeps_after E L s cs HE H Hc Hnr) Hw) as (W1 & W2 & W3 & W4 & W5 & W6 & W7).
    unfold get_pc, get_site_count_wrapping_cluster_pc, get_bond_count_wrapping_cluster_pc.
    rewrite W1, W3, W4, W5, Hw, (st_sc _ _ (i_static _ _ H)), (st_sc _ _ (i_static _ _ H')). auto.
Qed.

(** ** Relative indices *)
Lemma p_C28a E L s : env_ok E -> reachable E L s ->
  forall i j, is_site L i -> is_site L j -> occupied s i -> site_label s i = site_label s j ->
  exists ds, walk L (occupied s) i ds j /\ disp ds = vsub (rel_index s j) (rel_index s i) /\
    (row L i + (fst (rel_index s j) - fst (rel_index s i))) mod L = row L j /\
    (col L i + (snd (rel_index s j) - snd (rel_index s i))) mod L = col L j.
Proof.
  intros HE HR i j Hi Hj Ho Es. pose proof (reachable_inv _ _ _ HE HR) as H. pose proof (i_static _ _ H) as St.
  pose proof (i_pos _ _ H) as HL. rewrite (occupied_occ L) in Ho by auto. rewrite !(site_label_sg L) in Es by auto.
  destruct (ck_walk _ _ _ (i_cl _ _ H) i j Hi Hj Ho Es) as (ds & W & D). exists ds.
  rewrite !(rel_index_rl L) by auto. split; [|split; auto].
  - eapply walk_mono; [|exact W]. intros k Hk Hok. now apply (occupied_occ L).
  - destruct (walk_congr L HL _ _ _ _ W) as (C1 & C2). rewrite D in C1, C2. unfold vsub in C1, C2. cbn [fst snd] in C1, C2.
    rewrite C1, C2. split; apply Z.mod_small; [now apply row_bound|now apply col_bound].
Qed.

Lemma p_C29 E L s : env_ok E -> reachable E L s ->
  (3 <= L -> forall i d, is_site L i ->
     get_relative_index (lat s) i (nbr L i d) = Ok (vadd (rel_index s i) (step d))) /\
  (forall x y, -1 <= x <= 1 -> -1 <= y <= 1 -> wrapping_correction_relative_index (x, y) = (x, y)).
Proof.
  intros HE HR. pose proof (reachable_inv _ _ _ HE HR) as H. pose proof (i_static _ _ H) as St. split.
  - intros H3 i d Hi. rewrite (get_relative_index_ok L) by (auto; apply nbr_site, (i_pos _ _ H)).
    rewrite (rel_index_rl L) by auto. fold (corr L i (nbr L i d)). rewrite corr_step by auto. reflexivity.
  - intros x y Hx Hy. apply wc_small; lia.
Qed.

(** ** Self-checks *)
Lemma foldM_unit {B} (f : unit -> B -> res unit) l : (forall x, In x l -> f tt x = Ok tt) -> foldM f l tt = Ok tt.
Proof. intros H. apply foldM_id. auto. Qed.
Lemma in_sites_at L lat s : Static L lat -> In s (l_sites lat) -> exists i, is_site L i /\ s = site_at lat i.
Proof.
  intros St Hs. destruct (In_at dsite _ _ Hs) as (j & Hj & <-). rewrite (st_ns _ _ St) in Hj. exists j. auto.
Qed.
Lemma in_bonds_at L lat s : Static L lat -> In s (l_bonds lat) -> exists i, is_bond L i /\ s = bond_at lat i.
Proof.
  intros St Hs. destruct (In_at dbond _ _ Hs) as (j & Hj & <-). rewrite (st_nb _ _ St) in Hj. exists j. auto.
Qed.
Lemma nodup_fix l : NoDup l -> nodup Z.eq_dec l = l.
Proof. apply nodup_fixed_point. Qed.
Lemma test_neighbor_count_ok L lat : Static L lat -> 2 <= L -> test_neighbor_count lat = Ok tt.
Proof.
  intros St H2. unfold test_neighbor_count. pose proof (st_pos _ _ St) as HL. rewrite foldM_unit; [cbn [rbind]|].
  - apply foldM_unit. intros b Hb. destruct (in_bonds_at L lat b St Hb) as (i & Hi & ->).
    destruct (st_bond _ _ St i Hi) as (_ & _ & _ & _ & ->). reflexivity.
  - intros t Ht. destruct (in_sites_at L lat t St Ht) as (i & Hi & ->).
    destruct (st_site _ _ St i Hi) as (_ & _ & ->). rewrite nodup_fix by (now apply bonds_of_NoDup). reflexivity.
Qed.
Lemma end1_eq L b : 0 < L -> is_bond L b -> b = (if b <? L * L then 0 else 1) * (L * L) + row L (end1 L b) * L + col L (end1 L b).
Proof.
  intros HL Hb. pose proof (rc_eq L HL (end1 L b)) as E1. unfold end1 in *. destruct (Z.ltb_spec b (L * L)); lia.
Qed.
Lemma scan_bonds_ok L lat : Static L lat -> scan_bonds lat = Ok tt.
Proof.
  intros St. pose proof (st_pos _ _ St) as HL. unfold scan_bonds. apply foldM_unit. intros b Hb.
  destruct (in_bonds_at L lat b St Hb) as (i & Hi & ->).
  destruct (st_bond _ _ St i Hi) as (-> & -> & -> & -> & ->).
  rewrite calc3, (st_len _ _ St), passert_true by (rewrite (end1_eq L i HL Hi) at 1; apply Z.eqb_refl).
  cbn [rbind]. rewrite passert_true by reflexivity. cbn [rbind]. apply foldM_unit. intros t Ht.
  assert (Hts : t = end1 L i \/ t = end2 L i) by (cbn [bond_sites In] in Ht; lia).
  assert (Hs : is_site L t) by (destruct Hts as [->| ->]; [now apply end1_site|now apply end2_site]).
  rewrite (get_neighbor_bonds_ok L) by auto. cbn [rbind]. apply passert_true, zmem_In.
  apply (bonds_of_touches L HL); auto.
Qed.
Lemma scan_sites_ok L lat : Static L lat -> scan_sites lat = Ok tt.
Proof.
  intros St. pose proof (st_pos _ _ St) as HL. unfold scan_sites. apply foldM_unit. intros t Ht.
  destruct (in_sites_at L lat t St Ht) as (i & Hi & ->). destruct (st_site _ _ St i Hi) as (-> & -> & ->).
  rewrite calc2, (st_len _ _ St). cbn [fst snd]. rewrite passert_true by (rewrite (rc_eq L HL i) at 1; apply Z.eqb_refl).
  cbn [rbind]. rewrite passert_true by reflexivity. cbn [rbind]. apply foldM_unit. intros b Hb.
  assert (Hbb : is_bond L b) by (apply In_bonds_of in Hb as (d & ->); now apply bond_dir_bond).
  rewrite (get_neighbor_sites_ok L) by auto. cbn [rbind]. apply passert_true, zmem_In.
  apply (bonds_of_touches L HL) in Hb; auto. unfold touches in Hb. cbn [bond_sites In]. lia.
Qed.
Lemma corr_unit L i d : 2 <= L -> is_site L i ->
  Z.abs (fst (corr L i (nbr L i d))) = 1 \/ Z.abs (snd (corr L i (nbr L i d))) = 1.
Proof.
  intros H2 Hi. destruct (Z_le_dec 3 L) as [H3|H3].
  - rewrite corr_step by auto. destruct d; cbn; lia.
  - assert (HL : 0 < L) by lia. rewrite corr_eq. cbn [fst snd].
    pose proof (nbr_neq L HL i d H2 Hi) as Hn. pose proof (nbr_site L HL i d) as Hs.
    pose proof (row_bound L HL i Hi). pose proof (row_bound L HL _ Hs).
    pose proof (col_bound L HL i). pose proof (col_bound L HL (nbr L i d)).
    assert (row L (nbr L i d) <> row L i \/ col L (nbr L i d) <> col L i).
    { destruct (Z.eq_dec (row L (nbr L i d)) (row L i)); auto. destruct (Z.eq_dec (col L (nbr L i d)) (col L i)); auto.
      destruct Hn. now apply (site_eq L HL). }
    unfold corr1. repeat match goal with |- context [?a <? ?b] => destruct (Z.ltb_spec a b) end; lia.
Qed.
Lemma tri_loop_ok L lat x : Static L lat -> forall l cnt, (forall t, In t l -> is_site L t) ->
  (exists t, In t l /\ occ lat t /\ (Z.abs (fst (rl lat x) - fst (rl lat t)) = 1 \/ Z.abs (snd (rl lat x) - snd (rl lat t)) = 1)) ->
  exists n, tri_loop lat (rl lat x) l cnt = Ok (n, true).
Proof.
  intros St. induction l as [|a l IH]; intros cnt Hl (t & Ht & Ho & Hd); [destruct Ht|].
  cbn [tri_loop]. rewrite (get_site_by_id_ok L) by (auto; apply Hl; simpl; auto). cbn [rbind].
  fold (sg lat a) (rl lat a). cbv zeta.
  destruct Ht as [->|Ht].
  - unfold occ in Ho. destruct (Z.ltb_spec (sg lat t) 0); [lia|].
    destruct (_ || _) eqn:E1; [eexists; reflexivity|]. destruct (_ || _) eqn:E2 in |- *; [eexists; reflexivity|].
    apply orb_false_iff in E1 as (E1 & _). apply orb_false_iff in E2 as (E2 & _).
    apply Z.eqb_neq in E1, E2. lia.
  - destruct (sg lat a <? 0).
    + apply IH; [intros; apply Hl; simpl; auto|eauto].
    + destruct (_ || _); [eexists; reflexivity|]. destruct (_ || _); [eexists; reflexivity|].
      apply IH; [intros; apply Hl; simpl; auto|eauto].
Qed.
Lemma tri_loop_none L lat x : Static L lat -> forall l cnt, (forall t, In t l -> is_site L t /\ ~ occ lat t) ->
  tri_loop lat x l cnt = Ok (cnt, false).
Proof.
  intros St. induction l as [|a l IH]; intros cnt Hl; [reflexivity|].
  cbn [tri_loop]. destruct (Hl a) as (Ha & Hn); [simpl; auto|].
  rewrite (get_site_by_id_ok L) by auto. cbn [rbind]. fold (sg lat a).
  unfold occ in Hn. destruct (Z.ltb_spec (sg lat a) 0); [|lia]. apply IH. intros; apply Hl; simpl; auto.
Qed.
Lemma test_relative_index_ok L lat p : ClOK L lat p -> 2 <= L -> test_relative_index lat = Ok tt.
Proof.
  intros C H2. pose proof (ck_static _ _ _ C) as St. pose proof (st_pos _ _ St) as HL.
  unfold test_relative_index. apply foldM_unit. intros t Ht. destruct (in_sites_at L lat t St Ht) as (i & Hi & ->).
  fold (sg lat i). destruct (Z.ltb_spec (sg lat i) 0) as [|Ho]; [reflexivity|].
  destruct (st_site _ _ St i Hi) as (-> & _ & _). rewrite (get_all_neighbor_sites_ok L) by auto. cbn [rbind].
  fold (rl lat i).
  assert (Hl : forall t, In t (map (nbr L i) all_dirs) -> is_site L t).
  { intros t Hin. apply in_map_iff in Hin as (d & <- & _). now apply nbr_site. }
  destruct (existsb (occb lat) (map (nbr L i) all_dirs)) eqn:Ex.
  - apply existsb_exists in Ex as (t & Hin & Hot). apply in_map_iff in Hin as (d & <- & _). apply occb_true in Hot.
    destruct (ck_unit _ _ _ C i d Hi Ho Hot) as (d' & Ho' & Hr).
    destruct (tri_loop_ok L lat i St (map (nbr L i) all_dirs) 0 Hl) as (n & ->).
    + exists (nbr L i d'). split; [apply in_map; destruct d'; simpl; auto|]. split; auto. rewrite Hr.
      destruct (corr_unit L i d' H2 Hi); unfold vadd; cbn [fst snd]; [left|right]; lia.
    + cbn [rbind]. destruct (0 <? n); reflexivity.
  - rewrite (tri_loop_none L lat (rl lat i) St); [reflexivity|]. intros t Hin. split; auto. intros Hot.
    assert (existsb (occb lat) (map (nbr L i) all_dirs) = true); [|congruence].
    apply existsb_exists. exists t. split; auto. now apply occb_true.
Qed.
Lemma p_C30 E L s : env_ok E -> reachable E L s -> 2 <= L ->
  (exists i, is_site L i /\ ~ occupied s i) -> test_lattice s = Ok tt.
Proof.
  intros HE HR H2 (i & Hi & Hn). pose proof (reachable_inv _ _ _ HE HR) as H. pose proof (i_static _ _ H) as St.
  pose proof (LL_pos L (i_pos _ _ H)).
  unfold test_lattice. rewrite (test_neighbor_count_ok L) by auto. cbn [rbind].
  rewrite (test_relative_index_ok L (lat s) (pool s)) by (auto; apply (i_cl _ _ H)). cbn [rbind].
  rewrite (scan_bonds_ok L), (scan_sites_ok L) by auto. cbn [rbind].
  destruct (Z.eqb_spec (occ_count s) (l_site_count (lat s))) as [e|]; [|reflexivity]. exfalso.
  rewrite (i_occ _ _ H), (st_sc _ _ St) in e. apply Hn. apply (occupied_occ L); auto. apply occb_true.
  apply (count_full _ (zrange (L * L))); [rewrite zlen_zrange by lia; exact e|now apply In_zrange].
Qed.

(** ** Reset *)
Lemma p_C37 E L s : env_ok E -> reachable E L s ->
  exists s', reset E s = (s', Ok tt) /\
  forall E' k t0 s0, new_perc E' k L t0 = Ok s0 ->
    kind s' = kind s /\ lat s' = lat s0 /\ pool s' = pool s0 /\ cur_idx s' = cur_idx s0 /\
    occ_count s' = occ_count s0 /\ pc_occ s' = pc_occ s0 /\ cluster_count s' = cluster_count s0 /\
    largest_sz s' = largest_sz s0 /\ largest_id s' = largest_id s0 /\
    max_ent s' = max_ent s0 /\ ent s' = ent s0 /\ after_wrap s' = after_wrap s0 /\ wid s' = wid s0 /\
    pc_bonds s' = pc_bonds s0 /\ pc_sites s' = pc_sites s0 /\ sel_flag s' = sel_flag s0 /\
    h_arr s' = h_arr s0 /\ pw_arr s' = pw_arr s0 /\ pl_arr s' = pl_arr s0 /\
    (first_run s = true -> p_arr s' = p_arr s0).
Proof.
  intros HE HR. pose proof (reachable_inv _ _ _ HE HR) as H.
  destruct (reset_inv E L s H) as (s' & Er & R). exists s'. split; auto. intros E' k t0 s0 E0.
  assert (F0 : FreshState L s0) by (eapply new_perc_fresh; eauto).
  assert (A0 : h_arr s0 = [] /\ pw_arr s0 = [] /\ pl_arr s0 = [] /\ p_arr s0 = []).
  { destruct (new_perc_ok E' k L t0) as (lat1 & l & t & rv & E1 & _); [apply (i_pos _ _ H)|].
    rewrite E1 in E0. injection E0 as <-. auto. }
  destruct A0 as (A1 & A2 & A3 & A4). destruct R as [R1 R2 _ _ _ _ R7 _ _ _ _].
  destruct R1 as [f1 f2 f3 f4 f4' f5 f6 f7 f8 f9 f10 f11 f12 f13 f14].
  destruct F0 as [g1 g2 g3 g4 g4' g5 g6 g7 g8 g9 g10 g11 g12 g13 g14].
  destruct R7 as (r1 & r2 & r3 & r4). destruct f10, g10. destruct f11 as (? & ? & ? & ? & ?). destruct g11 as (? & ? & ? & ? & ?).
  split; auto. split; [eapply fresh_unique; eauto|].
  repeat (split; [congruence|]). intros Hf. rewrite r1, Hf. congruence.
Qed.

(** ** Cluster sizes *)
Lemma pd_ssize_sum E L s x s' root K' : ClOK L (lat s) (pool s) -> Placed E L s x s' root ->
  NoDup K' -> (forall g, In g K' <-> In g (nb_labels L x (lat s))) ->
  ssize (pool s') root = zsum (map (ssize (pool s)) K') + 1.
Proof.
  intros C Pd N HK. pose proof (pd_cl _ _ _ _ _ _ Pd) as C'.
  assert (Hl : forall g, In g K' -> is_label L g) by (intros g Hg; apply (K_label _ _ _ _ _ _ C Pd), HK; auto).
  rewrite (ssize_count L (lat s')) by (auto; apply (root_label _ _ _ _ _ _ C Pd)).
  rewrite (zsum_map_ext _ (fun c => count (fun b => sg (lat s) b =? c) (zrange (L * L)))).
  2:{ intros c Hc. apply (ssize_count L (lat s)); auto. }
  rewrite count_sum by auto. apply (count_add1 _ _ _ x).
  - apply NoDup_zrange.
  - apply In_zrange. apply (pd_site _ _ _ _ _ _ Pd).
  - rewrite (pd_un _ _ _ _ _ _ Pd). apply zmem_false. intros Hin. apply Hl in Hin. unfold is_label in Hin. lia.
  - intros i Hi. apply In_zrange in Hi. rewrite (pd_sg _ _ _ _ _ _ Pd) by exact Hi.
    assert (Em : zmem (sg (lat s) i) (nb_labels L x (lat s)) = zmem (sg (lat s) i) K').
    { destruct (zmem _ K') eqn:E1; [apply zmem_In, HK, zmem_In; auto|]. apply zmem_false. apply zmem_false in E1.
      now rewrite <- HK. }
    rewrite Em. destruct (Z.eqb_spec i x); cbn [orb]; [apply Z.eqb_refl|].
    destruct (zmem (sg (lat s) i) K') eqn:E1; [apply Z.eqb_refl|].
    apply Z.eqb_neq. intros Er. apply zmem_false in E1. apply E1. rewrite Er. apply HK. apply (pd_root _ _ _ _ _ _ Pd).
Qed.
Lemma pd_ssize_other E L s x s' root c : ClOK L (lat s) (pool s) -> Placed E L s x s' root ->
  is_label L c -> zmem c (nb_labels L x (lat s)) = false -> ssize (pool s') c = ssize (pool s) c.
Proof.
  intros C Pd Hc Hk. pose proof (pd_cl _ _ _ _ _ _ Pd) as C'.
  rewrite (ssize_count L (lat s') (pool s')), (ssize_count L (lat s) (pool s)) by auto.
  apply count_ext. intros i Hi. apply In_zrange in Hi. rewrite (pd_sg _ _ _ _ _ _ Pd) by exact Hi.
  assert (Hr : root <> c).
  { intros ->. apply zmem_false in Hk. apply Hk, (pd_root _ _ _ _ _ _ Pd). }
  destruct (Z.eqb_spec i x) as [->|]; cbn [orb].
  - rewrite (pd_un _ _ _ _ _ _ Pd). unfold is_label in Hc. lia.
  - destruct (zmem (sg (lat s) i) _) eqn:Em; [|reflexivity].
    assert (sg (lat s) i <> c) by congruence. lia.
Qed.

Definition SizeOK (L : Z) (s : perc) : Prop := forall c, is_label L c -> bsize (pool s) c <= 3 * ssize (pool s) c + 1.
Lemma zsum_le_lin (K : list Z) f g : (forall c, In c K -> f c <= 3 * g c + 1) ->
  zsum (map f K) <= 3 * zsum (map g K) + zlen K.
Proof.
  induction K as [|c K IH]; intros H; [cbn; lia|]. cbn [map]. rewrite !zsum_cons, zlen_cons.
  pose proof (H c (or_introl eq_refl)). assert (zsum (map f K) <= 3 * zsum (map g K) + zlen K) by (apply IH; intros; apply H; right; auto). lia.
Qed.
Lemma reachable_sizes E L s : env_ok E -> reachable E L s -> SizeOK L s.
Proof.
  intros HE. apply (reach_ind E L); auto.
  - intros s0 FS c Hc. rewrite (fs_pool _ _ FS). unfold bsize, ssize. rewrite cl_fresh by auto. cbn. lia.
  - intros a b Ia Ib Mi Sa. destruct Mi as [a b Hp|a b r Sd _|a s1 x b root Sd E1 E2 Pd|a x Hx Es Ew Hh].
    + destruct (phys_fields _ _ Hp) as (_ & Ep & _). unfold SizeOK in *. rewrite Ep. exact Sa.
    + destruct (core_fields _ _ (sd_core _ _ _ _ Sd)) as (_ & Ep & _). unfold SizeOK in *. rewrite Ep. exact Sa.
    + destruct (core_fields _ _ (sd_core _ _ _ _ Sd)) as (_ & Ep & _).
      pose proof (selected_ClOK _ _ _ _ (i_cl _ _ Ia) Sd) as C1. intros c Hc.
      destruct (zmem c (nb_labels L x (lat s1))) eqn:Em.
      * destruct (Z.eq_dec c root) as [->|Hn].
        -- destruct (HE (nb_labels L x (lat s1))) as (N & HI). set (K' := e_ord E _) in *.
           rewrite (pd_bsize_sum _ _ _ _ _ _ C1 Pd K' N HI), (pd_ssize_sum _ _ _ _ _ _ K' C1 Pd N HI).
           assert (zlen K' <= 4).
           { unfold zlen. pose proof (NoDup_incl_length N (fun g => proj1 (HI g))) as Hl.
             unfold nb_labels in Hl. rewrite map_length in Hl. cbn [bonds_of length] in Hl. lia. }
           assert (zsum (map (bsize (pool s1)) K') <= 3 * zsum (map (ssize (pool s1)) K') + zlen K'); [|lia].
           apply zsum_le_lin. intros g Hg. rewrite Ep. apply Sa. apply HI in Hg. now apply (K_label _ _ _ _ _ _ C1 Pd).
        -- rewrite (pd_bsize_merged _ _ _ _ _ _ Pd c Hc Em Hn). pose proof (zlen_nonneg (c_sites (cl (pool b) c))). unfold ssize. lia.
      * rewrite (pd_bsize_other _ _ _ _ _ _ C1 Pd c Hc Em), (pd_ssize_other _ _ _ _ _ _ c C1 Pd Hc Em), Ep. now apply Sa.
    + exact Sa.
Qed.

Lemma two_per_site L lat p c : ClOK L lat p -> is_label L c -> 2 * ssize p c <= bsize p c.
Proof.
  intros C Hc. pose proof (st_pos _ _ (ck_static _ _ _ C)) as HL. pose proof (LL_pos L HL) as HLL.
  rewrite (bsize_count L lat), (ssize_count L lat) by auto.
  replace (2 * (L * L)) with (L * L + L * L) by lia. rewrite zrange_app, count_app by lia.
  assert (G1 : count (fun i => sg lat i =? c) (zrange (L * L)) <= count (fun b => bg lat b =? c) (zrange (L * L))).
  { apply count_le. intros i Hi E1. apply In_zrange in Hi. apply Z.eqb_eq in E1. apply Z.eqb_eq. rewrite <- E1.
    apply (ck_own _ _ _ C i DRight Hi). unfold occ, is_label in *. lia. }
  assert (G2 : count (fun i => sg lat i =? c) (zrange (L * L)) <= count (fun b => bg lat b =? c) (map (Z.add (L * L)) (zrange (L * L)))).
  { apply (count_inj _ _ (fun i => L * L + i)).
    - apply NoDup_zrange.
    - intros i Hi E1. split; [now apply in_map|]. apply In_zrange in Hi. apply Z.eqb_eq in E1. apply Z.eqb_eq. rewrite <- E1.
      rewrite Z.add_comm. apply (ck_own _ _ _ C i DDown Hi). unfold occ, is_label in *. lia.
    - intros; lia. }
  lia.
Qed.
Lemma p_C55 E L s : env_ok E -> reachable E L s ->
  forall c, 0 <= c < 2 * (L * L) ->
  let n := zlen (cluster_sites s c) in let b := zlen (cluster_bonds s c) in
  2 * n <= b <= 3 * n + 1.
Proof.
  intros HE HR c Hc. cbv zeta. pose proof (reachable_inv _ _ _ HE HR) as H. pose proof (inv_plen _ _ H) as Hp.
  rewrite (cluster_bonds_cl L), (cluster_sites_cl L) by auto.
  pose proof (two_per_site L (lat s) (pool s) c (i_cl _ _ H) Hc).
  pose proof (reachable_sizes E L s HE HR c Hc). unfold bsize, ssize in *. lia.
Qed.
