(** * FloatEnt: rounding error of the running entropy (C81). *)
From Coq Require Import ZArith List Bool Lia Reals Lra Permutation.
From Flocq Require Import Core Relative.
From Verif Require Import Py Lattice Cluster Perc Spec PyFacts Torus Geometry LatFacts Inv Merge Count Fresh Select State Step History Reach
  Micro StateProps StateProps2 Normal Real Entropy Float FloatProps.
Import ListNotations.
Open Scope R_scope.

Lemma ln_le_sub x : 0 < x -> ln x <= x - 1.
Proof. intros H. pose proof (exp_ineq1_le (ln x)) as A. rewrite exp_ln in A by auto. lra. Qed.
Lemma ln_quot a b : 0 < a -> 0 < b -> ln (a / b) = ln a - ln b.
Proof. intros Ha Hb. unfold Rdiv. rewrite ln_mult, ln_Rinv by (auto; now apply Rinv_0_lt_compat). ring. Qed.
Lemma xlnx x : 0 < x <= 1 -> 0 <= - (x * ln x) <= 1.
Proof.
  intros H. pose proof (ln_le_sub (/ x) ltac:(apply Rinv_0_lt_compat; lra)) as A. rewrite ln_Rinv in A by lra.
  pose proof (ln_le_sub x ltac:(lra)) as B. split.
  - replace (- (x * ln x)) with (x * - ln x) by ring. apply Rmult_le_pos; lra.
  - replace (- (x * ln x)) with (x * - ln x) by ring. apply Rle_trans with (x * (/ x - 1)); [apply Rmult_le_compat_l; lra|].
    rewrite Rmult_minus_distr_l, Rinv_r by lra. lra.
Qed.
Lemma abs_xlnx x : 0 < x <= 1 -> x * Rabs (ln x) <= 1.
Proof.
  intros H. pose proof (ln_le_sub x ltac:(lra)) as B. rewrite Rabs_left1 by lra. pose proof (xlnx x H). replace (x * - ln x) with (- (x * ln x)) by ring. lra.
Qed.
Lemma ln_near m mu : 0 < mu -> Rabs (m - mu) <= u * mu -> Rabs (ln m - ln mu) <= 2 * u.
Proof.
  intros Hmu H. apply Rabs_le_inv in H. pose proof u_pos as U. pose proof u_val as V.
  assert (H2 : u * mu <= / 2 * mu) by (apply Rmult_le_compat_r; lra). assert (Hm : / 2 * mu <= m) by lra. assert (Pm : 0 < m) by lra.
  apply Rabs_le. split.
  - pose proof (ln_le_sub (mu / m) ltac:(apply Rdiv_lt_0_compat; lra)) as A. rewrite ln_quot in A by lra.
    assert (mu / m - 1 <= 2 * u); [|lra]. replace (mu / m - 1) with ((mu - m) * / m) by (field; lra).
    apply Rle_trans with (u * mu * / m); [apply Rmult_le_compat_r; [apply Rlt_le, Rinv_0_lt_compat; lra|lra]|].
    rewrite Rmult_assoc, (Rmult_comm 2). apply Rmult_le_compat_l; [lra|]. apply (Rmult_le_reg_r m); auto. rewrite Rmult_assoc, Rinv_l by lra. lra.
  - pose proof (ln_le_sub (m / mu) ltac:(apply Rdiv_lt_0_compat; lra)) as A. rewrite ln_quot in A by lra.
    assert (m / mu - 1 <= u); [|lra]. replace (m / mu - 1) with ((m - mu) * / mu) by (field; lra).
    apply Rle_trans with (u * mu * / mu); [apply Rmult_le_compat_r; [apply Rlt_le, Rinv_0_lt_compat; lra|lra]|].
    rewrite Rmult_assoc, Rinv_r by lra. lra.
Qed.
Lemma rabs_add a b p q : Rabs a <= p -> Rabs b <= q -> Rabs (a + b) <= p + q.
Proof. intros. eapply Rle_trans; [apply Rabs_triang|]. lra. Qed.
(** One rounded operation. *)
Lemma rnd_step x y M D : Rabs (x - y) <= D -> Rabs y <= M -> D <= 3 / 4 -> Rabs (rnd x - y) <= D + u * (M + 1).
Proof.
  intros H1 H2 H3. pose proof (rnd_err x) as E. pose proof eta_small as Es. pose proof u_pos as U. pose proof (Rabs_pos (x - y)) as P.
  replace (rnd x - y) with ((x - y) + (rnd x - x)) by ring.
  assert (A : Rabs x <= M + D). { replace x with ((x - y) + y) by ring. rewrite (Rplus_comm M). now apply rabs_add. }
  assert (B : u * Rabs x <= u * (M + D)) by (apply Rmult_le_compat_l; lra). assert (C : u * D <= u * (3 / 4)) by (apply Rmult_le_compat_l; lra).
  apply rabs_add; auto. eapply Rle_trans; [exact E|]. rewrite Rmult_plus_distr_l in *. lra.
Qed.

Lemma phi_abs B n : (1 <= n <= B)%Z -> -1 <= phi B n <= 0.
Proof.
  intros H. assert (0 < IZR B) by (apply IZR_lt; lia). assert (Q : 0 < IZR n / IZR B <= 1).
  { assert (1 <= IZR n) by (apply IZR_le; lia). assert (IZR n <= IZR B) by (apply IZR_le; lia). split; [apply Rdiv_lt_0_compat; lra|].
    apply (Rmult_le_reg_r (IZR B)); auto. unfold Rdiv. rewrite Rmult_assoc, Rinv_l by lra. lra. }
  pose proof (xlnx _ Q). unfold phi. lra.
Qed.
Lemma term_err lg L n : log_accurate lg -> (1 <= n <= 2 * (L * L))%Z -> (2 * (L * L) <= 2 ^ 52)%Z ->
  Rabs (fl lg (fterm L n) - phi (2 * (L * L)) n) <= 9 * u.
Proof.
  intros Hlg Hn HB. destruct (ratio_facts n (2 * (L * L)) ltac:(lia) ltac:(lia)) as (A1 & _ & A2). destruct (A2 ltac:(lia)) as (_ & A3 & A4). clear A2.
  unfold fterm, phi. cbn [fl]. set (B := (2 * (L * L))%Z) in *.
  assert (Q : 0 < IZR n / IZR B <= 1).
  { assert (0 < IZR B) by (apply IZR_lt; lia). assert (1 <= IZR n) by (apply IZR_le; lia). assert (IZR n <= IZR B) by (apply IZR_le; lia). split; [apply Rdiv_lt_0_compat; lra|].
    apply (Rmult_le_reg_r (IZR B)); auto. unfold Rdiv. rewrite Rmult_assoc, Rinv_l by lra. lra. }
  set (mu := IZR n / IZR B) in *. set (m := rnd mu) in *. pose proof (Hlg m (rnd_double _) A4) as A5. set (l := lg m) in *.
  pose proof (ln_near m mu ltac:(lra) A3) as A6. pose proof (abs_xlnx mu Q) as A7. pose proof (abs_xlnx m ltac:(lra)) as A8.
  pose proof eta_small as Es. pose proof eta_pos as Ep. pose proof u_pos as U. pose proof u_val as V.
  assert (A5' : Rabs (l - ln m) <= 4 * u * Rabs (ln m) + 2 * eta).
  { eapply Rle_trans; [exact A5|]. right. change (-51)%Z with (2 + -53)%Z. change (-1074)%Z with (1 + -1075)%Z. rewrite !bpow_plus. reflexivity. }
  assert (T1 : Rabs (m * (l - ln m)) <= 4 * u + 2 * eta).
  { rewrite Rabs_mult, (Rabs_pos_eq m) by lra. apply Rle_trans with (m * (4 * u * Rabs (ln m) + 2 * eta)); [apply Rmult_le_compat_l; lra|].
    replace (m * (4 * u * Rabs (ln m) + 2 * eta)) with (4 * u * (m * Rabs (ln m)) + 2 * eta * m) by ring.
    assert (4 * u * (m * Rabs (ln m)) <= 4 * u * 1) by (apply Rmult_le_compat_l; lra). assert (2 * eta * m <= 2 * eta * 1) by (apply Rmult_le_compat_l; lra). lra. }
  assert (T2 : Rabs (m * (ln m - ln mu)) <= 2 * u).
  { rewrite Rabs_mult, (Rabs_pos_eq m) by lra. apply Rle_trans with (1 * (2 * u)); [|lra]. apply Rmult_le_compat; try lra. apply Rabs_pos. }
  assert (T3 : Rabs ((m - mu) * ln mu) <= u).
  { rewrite Rabs_mult. apply Rle_trans with (u * mu * Rabs (ln mu)); [apply Rmult_le_compat_r; [apply Rabs_pos|auto]|].
    rewrite Rmult_assoc. rewrite <- (Rmult_1_r u) at 2. apply Rmult_le_compat_l; lra. }
  assert (T : Rabs (m * l - mu * ln mu) <= 4 * u + 2 * eta + (2 * u + u)).
  { replace (m * l - mu * ln mu) with (m * (l - ln m) + (m * (ln m - ln mu) + (m - mu) * ln mu)) by ring. apply rabs_add; auto. now apply rabs_add. }
  assert (Tm : Rabs (mu * ln mu) <= 1) by (rewrite Rabs_mult, (Rabs_pos_eq mu) by lra; exact A7).
  apply (Rle_trans _ (4 * u + 2 * eta + (2 * u + u) + (u * (1 + 7 * u + 2 * eta) + eta))).
  - replace (rnd (m * l) - mu * ln mu) with ((m * l - mu * ln mu) + (rnd (m * l) - m * l)) by ring. apply rabs_add; auto.
    eapply Rle_trans; [apply rnd_err|]. apply Rplus_le_compat_r. apply Rmult_le_compat_l; [lra|].
    replace (m * l) with (mu * ln mu + (m * l - mu * ln mu)) by ring. eapply Rle_trans; [apply rabs_add; [exact Tm|exact T]|]. lra.
  - assert (u * (1 + 7 * u + 2 * eta) <= u * (11 / 10)); [|lra]. apply Rmult_le_compat_l; lra.
Qed.

(** A sum of terms. *)
Lemma sum_err lg L M b : log_accurate lg -> (2 * (L * L) <= 2 ^ 52)%Z -> 0 <= M ->
  forall l h x D, (forall g, In g l -> (1 <= b g <= 2 * (L * L))%Z) -> Rabs (fl lg h - x) <= D ->
  - M <= x + rsum (fun g => phi (2 * (L * L)) (b g)) l -> x <= M -> D + IZR (zlen l) * (u * (M + 10)) <= 1 / 2 ->
  Rabs (fl lg (fold_left (fun h g => FAdd h (fterm L (b g))) l h) - (x + rsum (fun g => phi (2 * (L * L)) (b g)) l)) <= D + IZR (zlen l) * (u * (M + 10)).
Proof.
  intros Hlg HB HM. assert (U : 0 < u * (M + 10)) by (apply Rmult_lt_0_compat; [apply u_pos|lra]).
  induction l as [|a l IH]; intros h x D Hb HD Hlo Hhi Hs.
  - cbn [fold_left rsum fold_right]. change (zlen []) with 0%Z. rewrite Rmult_0_l, !Rplus_0_r. exact HD.
  - cbn [fold_left]. rewrite rsum_cons in *. rewrite zlen_cons, plus_IZR in *. set (S := rsum _ l) in *.
    assert (Hl : forall g, In g l -> (1 <= b g <= 2 * (L * L))%Z) by (intros; apply Hb; now right).
    pose proof (phi_abs (2 * (L * L)) (b a) (Hb a (or_introl eq_refl))) as Ha.
    assert (Sn : S <= 0).
    { unfold S. rewrite <- (rsum_0 (fun _ => 0) l) by reflexivity. apply rsum_le. intros g Hg. apply (phi_abs _ (b g)). now apply Hl. }
    assert (Zn : 0 <= IZR (zlen l)) by (apply IZR_le, zlen_nonneg).
    assert (Un : 0 <= IZR (zlen l) * (u * (M + 10))) by (apply Rmult_le_pos; lra).
    pose proof u_val as V. pose proof u_pos as Up.
    replace (x + (phi (2 * (L * L)) (b a) + S)) with (x + phi (2 * (L * L)) (b a) + S) by ring.
    replace (D + (IZR (zlen l) + 1) * (u * (M + 10))) with (D + u * (M + 10) + IZR (zlen l) * (u * (M + 10))) in * by ring.
    apply IH; auto; try lra. cbn [fl].
    assert (Q : Rabs (fl lg h + fl lg (fterm L (b a)) - (x + phi (2 * (L * L)) (b a))) <= D + 9 * u).
    { replace (fl lg h + fl lg (fterm L (b a)) - (x + phi (2 * (L * L)) (b a))) with ((fl lg h - x) + (fl lg (fterm L (b a)) - phi (2 * (L * L)) (b a))) by ring.
      apply rabs_add; auto. apply term_err; auto. apply Hb. now left. }
    change (fl lg (fterm L (b a))) with (fl lg (fterm L (b a))).
    eapply Rle_trans; [apply (rnd_step _ (x + phi (2 * (L * L)) (b a)) M _ Q)|].
    + apply Rabs_le. lra.
    + lra.
    + rewrite !Rmult_plus_distr_l. lra.
Qed.

Definition drift (L : Z) : R := u * (72 + 2 * ln (IZR (2 * (L * L)))).
Lemma lnB_pos L : (0 < L)%Z -> 0 < ln (IZR (2 * (L * L))).
Proof. intros H. rewrite <- ln_1. apply ln_increasing; [lra|]. apply IZR_lt. nia. Qed.
Lemma drift_pos L : (0 < L)%Z -> 0 < drift L.
Proof. intros H. unfold drift. pose proof (lnB_pos L H). apply Rmult_lt_0_compat; [apply u_pos|lra]. Qed.

Lemma bsize_le L lat p c : ClOK L lat p -> is_label L c -> (bsize p c <= 2 * (L * L))%Z.
Proof.
  intros C Hc. pose proof (LL_pos L (st_pos _ _ (ck_static _ _ _ C))) as HLL. rewrite (bsize_count L lat) by auto.
  pose proof (count_le_len (fun b => bg lat b =? c)%Z (zrange (2 * (L * L)))). rewrite zlen_zrange in *; lia.
Qed.

(** One placement. *)
Lemma placed_err lg E L s x s' root : log_accurate lg -> (2 * (L * L) <= 2 ^ 50)%Z -> drift L <= / 4 ->
  env_ok E -> ClOK L (lat s) (pool s) -> Placed E L s x s' root ->
  0 <= hh L s <= ln (IZR (2 * (L * L))) -> 0 <= hh L s' <= ln (IZR (2 * (L * L))) ->
  Rabs (fl lg (ent s) - hh L s) <= 1 / 2 ->
  Rabs (fl lg (ent s') - (fl lg (ent s) + (hh L s' - hh L s))) <= drift L.
Proof.
  intros Hlg HB Hdr HE C Pd Hh Hh' HD. pose proof (st_pos _ _ (ck_static _ _ _ C)) as HL. pose proof (lnB_pos L HL) as LB.
  destruct (placed_hh E L s x s' root HE C Pd) as (Ehh & _ & NK). set (K := e_ord E (nb_labels L x (lat s))) in *.
  destruct (HE (nb_labels L x (lat s))) as (_ & HK). fold K in HK.
  assert (Hlab : forall g, In g K -> (1 <= bsize (pool s) g <= 2 * (L * L))%Z).
  { intros g Hg. apply HK in Hg. destruct (nb_label_bond L x (lat s) g HL (pd_site _ _ _ _ _ _ Pd) Hg) as (b & Hb & _ & ->).
    pose proof (bsize_pos L (lat s) (pool s) b C Hb). pose proof (bsize_le L (lat s) (pool s) (bg (lat s) b) C (ck_blab _ _ _ C b Hb)). lia. }
  assert (Hroot : (1 <= bsize (pool s') root <= 2 * (L * L))%Z).
  { pose proof (pd_cl _ _ _ _ _ _ Pd) as C'. destruct (nb_label_bond L x (lat s) root HL (pd_site _ _ _ _ _ _ Pd) (pd_root _ _ _ _ _ _ Pd)) as (b & Hb & Hbx & Er).
    assert (Eb : bg (lat s') b = root).
    { rewrite (pd_bg _ _ _ _ _ _ Pd b Hb). rewrite (proj2 (zmem_In (bg (lat s) b) (nb_labels L x (lat s)))); auto. rewrite <- Er. apply (pd_root _ _ _ _ _ _ Pd). }
    pose proof (bsize_pos L (lat s') (pool s') b C' Hb). pose proof (bsize_le L (lat s') (pool s') (bg (lat s') b) C' (ck_blab _ _ _ C' b Hb)). rewrite Eb in *. lia. }
  assert (K4 : (zlen K <= 4)%Z).
  { assert (Q : (length K <= length (nb_labels L x (lat s)))%nat) by (apply NoDup_incl_length; [auto|intros g Hg; now apply HK]).
    unfold nb_labels in Q. rewrite map_length in Q. change (length (bonds_of L x)) with 4%nat in Q. unfold zlen. lia. }
  set (S := rsum (fun g => phi (2 * (L * L)) (bsize (pool s) g)) K) in *.
  assert (HS : - 4 <= S <= 0).
  { assert (G : forall l, (forall g, In g l -> In g K) -> - IZR (zlen l) <= rsum (fun g => phi (2 * (L * L)) (bsize (pool s) g)) l <= 0).
    { induction l as [|a l IH]; intros Hi; [cbn; lra|]. rewrite rsum_cons, zlen_cons, plus_IZR.
      pose proof (phi_abs _ _ (Hlab a (Hi a (or_introl eq_refl)))). specialize (IH (fun g Hg => Hi g (or_intror Hg))). lra. }
    specialize (G K (fun g Hg => Hg)). assert (IZR (zlen K) <= 4) by (apply IZR_le; lia). fold S in G. lra. }
  pose proof u_val as V. pose proof u_pos as U. rewrite (pd_ent _ _ _ _ _ _ Pd). cbn [fl].
  set (e := fl lg (ent s)) in *. set (T := fold_left _ _ _).
  assert (ET : Rabs (fl lg T - S) <= 56 * u).
  { assert (Zk : 0 <= IZR (zlen K) <= 4) by (split; apply IZR_le; [apply zlen_nonneg|lia]).
    assert (Q : IZR (zlen K) * (u * (4 + 10)) <= 4 * (u * (4 + 10))) by (apply Rmult_le_compat_r; lra).
    pose proof (sum_err lg L 4 (bsize (pool s)) Hlg ltac:(lia) ltac:(lra) K (FZ 0) 0 0 Hlab) as A. fold S T in A. rewrite Rplus_0_l in A.
    eapply Rle_trans; [apply A|]; try lra. cbn [fl]. rewrite Rminus_0_r, Rabs_R0. lra. }
  pose proof (term_err lg L (bsize (pool s') root) Hlg Hroot ltac:(lia)) as Er. set (t := fl lg (fterm L (bsize (pool s') root))) in *.
  set (ph := phi (2 * (L * L)) (bsize (pool s') root)) in *. pose proof (phi_abs _ _ Hroot) as Hph. fold ph in Hph.
  apply Rabs_le_inv in HD. set (lb := ln (IZR (2 * (L * L)))) in *.
  assert (E1 : Rabs (rnd (e + fl lg T) - (e + S)) <= 56 * u + u * (lb + 4 + 1 / 2 + 1)).
  { apply rnd_step; [|apply Rabs_le; lra|lra]. replace (e + fl lg T - (e + S)) with (fl lg T - S) by ring. exact ET. }
  assert (Dr : drift L = 72 * u + 2 * (u * lb)) by (unfold drift; fold lb; ring).
  rewrite !Rmult_plus_distr_l in E1. eapply Rle_trans; [apply (rnd_step _ _ (lb + 1 / 2) (56 * u + (u * lb + u * 4 + u * (1 / 2) + u * 1) + 9 * u))|].
  - replace (rnd (e + fl lg T) - t - (e + (hh L s' - hh L s))) with ((rnd (e + fl lg T) - (e + S)) + (- (t - ph))) by (rewrite Ehh; ring).
    apply rabs_add; [exact E1|]. now rewrite Rabs_Ropp.
  - apply Rabs_le. lra.
  - lra.
  - rewrite !Rmult_plus_distr_l. lra.
Qed.

Lemma ln2_le : ln 2 <= 5 / 6.
Proof.
  replace 2 with (4 / 3 * (3 / 2)) by lra. rewrite ln_mult by lra. pose proof (ln_le_sub (4 / 3) ltac:(lra)). pose proof (ln_le_sub (3 / 2) ltac:(lra)). lra.
Qed.
Lemma big_drift L : (0 < L <= 2 ^ 20)%Z -> ln (IZR (2 * (L * L))) <= 35 /\ IZR (L * L + 1) * drift L <= / 4 /\ IZR (2 * (L * L)) * (u * (ln (IZR (2 * (L * L))) + 10)) <= / 4.
Proof.
  intros H. assert (Q : (0 < 2 * (L * L) <= 2 ^ 41)%Z) by nia. assert (P : 0 < IZR (2 * (L * L))) by (apply IZR_lt; lia).
  assert (A : ln (IZR (2 * (L * L))) <= 35).
  { apply Rle_trans with (ln (bpow radix2 41)).
    - apply ln_le_mono; auto. apply Rle_trans with (IZR (2 ^ 41)); [apply IZR_le; lia|]. right. rewrite <- (IZR_Zpower radix2) by lia. reflexivity.
    - rewrite bpow_exp, ln_exp. pose proof ln2_le. cbn [radix2 radix_val]. lra. }
  split; auto. pose proof (lnB_pos L ltac:(lia)) as B. pose proof u_pos as U. pose proof u_val as V. split.
  - apply Rle_trans with (IZR (2 ^ 41) * (u * (72 + 2 * 41))).
    + apply Rmult_le_compat; [apply IZR_le; lia|apply Rlt_le, drift_pos; lia|apply IZR_le; nia|]. unfold drift. apply Rmult_le_compat_l; lra.
    + change (2 ^ 41)%Z with 2199023255552%Z. lra.
  - apply Rle_trans with (IZR (2 ^ 41) * (u * (41 + 10))).
    + apply Rmult_le_compat; [lra|apply Rmult_le_pos; lra|apply IZR_le; lia|]. apply Rmult_le_compat_l; lra.
    + change (2 ^ 41)%Z with 2199023255552%Z. lra.
Qed.
Lemma occ_le L s : Inv L s -> (0 <= occ_count s <= L * L)%Z.
Proof.
  intros H. pose proof (LL_pos L (i_pos _ _ H)). rewrite (i_occ _ _ H). split; [apply count_nonneg|]. unfold nocc.
  pose proof (count_le_len (occb (lat s)) (zrange (L * L))). rewrite zlen_zrange in *; lia.
Qed.
Definition FEnt lg L s := Rabs (fl lg (ent s) - hh L s) <= IZR (occ_count s + 1) * drift L.
Lemma fresh_fent lg L s : log_accurate lg -> (L <= 2 ^ 20)%Z -> FreshState L s -> FEnt lg L s.
Proof.
  intros Hlg HL F. pose proof (fresh_inv _ _ F) as H. pose proof (i_pos _ _ H) as HP. pose proof (lnB_pos L HP) as LB. unfold FEnt. rewrite <- (fresh_ent L s F).
  rewrite (fs_ent _ _ F), (fs_occ _ _ F). cbn [fl feval]. change (0 + 1)%Z with 1%Z. rewrite Rmult_1_l.
  assert (0 < IZR (2 * (L * L))) by (apply IZR_lt; nia).
  eapply Rle_trans; [apply Hlg; [apply double_int; nia|auto]|]. rewrite (Rabs_pos_eq (ln _)) by lra. unfold drift.
  change (-51)%Z with (2 + -53)%Z. change (-1074)%Z with (1 + -1075)%Z. rewrite !bpow_plus. fold u eta. change (bpow radix2 2) with 4. change (bpow radix2 1) with 2.
  destruct (big_drift L ltac:(lia)) as (A & _). pose proof eta_small as Es. pose proof u_pos as U. set (lb := ln _) in *.
  replace (4 * u * lb) with (u * (2 * lb) + u * (2 * lb)) by ring. rewrite Rmult_plus_distr_l.
  assert (u * (2 * lb) <= u * 70) by (apply Rmult_le_compat_l; lra). lra.
Qed.
Lemma fent_half lg L s : (L <= 2 ^ 20)%Z -> Inv L s -> FEnt lg L s -> Rabs (fl lg (ent s) - hh L s) <= 1 / 2.
Proof.
  intros HL H Q. pose proof (i_pos _ _ H) as HP. destruct (big_drift L ltac:(lia)) as (_ & B & _). pose proof (drift_pos L HP). pose proof (occ_le L s H).
  eapply Rle_trans; [exact Q|]. apply Rle_trans with (IZR (L * L + 1) * drift L); [apply Rmult_le_compat_r; [lra|apply IZR_le; lia]|lra].
Qed.
Lemma micro_fent lg E L s s' : log_accurate lg -> (L <= 2 ^ 20)%Z -> env_ok E -> Inv L s -> Inv L s' -> micro E L s s' -> FEnt lg L s ->
  FEnt lg L s' /\ Rabs (fl lg (ent s') - (fl lg (ent s) + (hh L s' - hh L s))) <= IZR (occ_count s' - occ_count s) * drift L /\ (0 <= occ_count s' - occ_count s)%Z.
Proof.
  intros Hlg HL HE H H' M Q. pose proof (i_pos _ _ H) as HP. pose proof (drift_pos L HP) as Dp. pose proof (fent_half lg L s HL H Q) as Qh.
  assert (Same : ent s' = ent s -> pool s' = pool s -> occ_count s' = occ_count s ->
    FEnt lg L s' /\ Rabs (fl lg (ent s') - (fl lg (ent s) + (hh L s' - hh L s))) <= IZR (occ_count s' - occ_count s) * drift L /\ (0 <= occ_count s' - occ_count s)%Z).
  { intros A B C. unfold FEnt. rewrite A, C, (hh_frame L s s') by auto. split; [exact Q|]. rewrite Z.sub_diag, Rmult_0_l.
    replace (fl lg (ent s) - (fl lg (ent s) + (hh L s - hh L s))) with 0 by ring. rewrite Rabs_R0. split; [lra|lia]. }
  destruct M as [s s' Hp|s s' r Sd Hr|s s1 x s' root Sd E1 E2 Pd|s x Hx Es Ew Hh].
  - apply Same; [exact (f_equal ent Hp)|exact (f_equal pool Hp)|exact (f_equal occ_count Hp)].
  - apply Same; [exact (f_equal ent (sd_core _ _ _ _ Sd))|exact (f_equal pool (sd_core _ _ _ _ Sd))|].
    pose proof (sd_res _ _ _ _ Sd) as Z. destruct r as [[]|]; [contradiction|apply Z..].
  - clear Same. assert (A : ent s1 = ent s) by exact (f_equal ent (sd_core _ _ _ _ Sd)). assert (B : pool s1 = pool s) by exact (f_equal pool (sd_core _ _ _ _ Sd)).
    assert (C : occ_count s' = (occ_count s + 1)%Z).
    { pose proof (f_equal occ_count (pd_core _ _ _ _ _ _ Pd)) as Z. change (occ_count s' = occ_count s1) in Z. rewrite Z.
      destruct (sd_res _ _ _ _ Sd) as (y & _ & _ & _ & _ & ->). reflexivity. }
    destruct (big_drift L ltac:(lia)) as (_ & Bd & _).
    assert (Bd1 : drift L <= / 4).
    { eapply Rle_trans; [|exact Bd]. rewrite <- (Rmult_1_l (drift L)) at 1. apply Rmult_le_compat_r; [lra|]. apply IZR_le. nia. }
    pose proof (hh_frame L s s1 B) as Hf.
    pose proof (placed_err lg E L s1 x s' root Hlg ltac:(nia) Bd1 HE) as P. rewrite A, Hf in P.
    assert (G : Rabs (fl lg (ent s') - (fl lg (ent s) + (hh L s' - hh L s))) <= drift L).
    { apply P; auto; [|now apply hh_bounds..]. rewrite B. eapply ClOK_same; [apply H|apply (sd_lab _ _ _ _ Sd)]. }
    unfold FEnt in *. rewrite C. replace (occ_count s + 1 - occ_count s)%Z with 1%Z by lia. rewrite Rmult_1_l. split; [|split; [exact G|lia]].
    replace (fl lg (ent s') - hh L s') with ((fl lg (ent s) - hh L s) + (fl lg (ent s') - (fl lg (ent s) + (hh L s' - hh L s)))) by ring.
    rewrite (plus_IZR (occ_count s + 1) 1), Rmult_plus_distr_r, Rmult_1_l. now apply rabs_add.
  - apply Same; reflexivity.
Qed.
Lemma reachable_fent lg E L s : log_accurate lg -> (L <= 2 ^ 20)%Z -> env_ok E -> reachable E L s -> FEnt lg L s.
Proof.
  intros Hlg HL HE. revert s. apply reach_ind; auto; [intros; now apply fresh_fent|].
  intros s s' H H' M Q. apply (micro_fent lg E L s s'); auto.
Qed.
Lemma steps_fent lg E L s s' : log_accurate lg -> (L <= 2 ^ 20)%Z -> env_ok E -> Inv L s -> steps E L s s' -> FEnt lg L s ->
  FEnt lg L s' /\ Rabs (fl lg (ent s') - (fl lg (ent s) + (hh L s' - hh L s))) <= IZR (occ_count s' - occ_count s) * drift L.
Proof.
  intros Hlg HL HE H S Q. induction S as [|a b S (Qa & IH) Ia M Ib].
  - split; auto. rewrite Z.sub_diag, Rmult_0_l. replace (fl lg (ent s) - (fl lg (ent s) + (hh L s - hh L s))) with 0 by ring. rewrite Rabs_R0. lra.
  - destruct (micro_fent lg E L a b Hlg HL HE Ia Ib M Qa) as (Qb & G & _). split; auto.
    replace (occ_count b - occ_count s)%Z with ((occ_count a - occ_count s) + (occ_count b - occ_count a))%Z by lia. rewrite plus_IZR, Rmult_plus_distr_r.
    replace (fl lg (ent b) - (fl lg (ent s) + (hh L b - hh L s))) with
      ((fl lg (ent a) - (fl lg (ent s) + (hh L a - hh L s))) + (fl lg (ent b) - (fl lg (ent a) + (hh L b - hh L a)))) by ring.
    now apply rabs_add.
Qed.

(** The entropy computed from scratch. *)
Lemma fold_filter (b : Z -> Z) L l : forall h, fold_left (fun h c => if (b c =? 0)%Z then h else FAdd h (fterm L (b c))) l h =
  fold_left (fun h c => FAdd h (fterm L (b c))) (filter (fun c => negb (b c =? 0)%Z) l) h.
Proof. induction l as [|a l IH]; intros h; [reflexivity|]. cbn [fold_left filter]. rewrite IH. destruct (b a =? 0)%Z; reflexivity. Qed.
Lemma rsum_filter B (b : Z -> Z) l : rsum (fun c => phi B (b c)) (filter (fun c => negb (b c =? 0)%Z) l) = rsum (fun c => phi B (b c)) l.
Proof.
  induction l as [|a l IH]; [reflexivity|]. cbn [filter]. destruct (Z.eqb_spec (b a) 0) as [E|]; cbn [negb]; rewrite ?rsum_cons, IH; [|reflexivity].
  rewrite E, phi_0. lra.
Qed.
Lemma v1_err lg L s v : log_accurate lg -> (L <= 2 ^ 20)%Z -> Inv L s -> entropy_v1 s = Ok v ->
  Rabs (fl lg v - hh L s) <= IZR (2 * (L * L)) * (u * (ln (IZR (2 * (L * L))) + 10)).
Proof.
  intros Hlg HL H Ev. pose proof (i_pos _ _ H) as HP. pose proof (LL_pos L HP) as HLL. pose proof (lnB_pos L HP) as LB. pose proof (hh_bounds L s H) as Hb.
  destruct (big_drift L ltac:(lia)) as (_ & _ & B). pose proof u_pos as U.
  rewrite (entropy_v1_ok L s H) in Ev. injection Ev as <-. cbn [fl]. rewrite fold_filter. unfold hh in *. rewrite <- rsum_filter in *.
  set (l := filter _ _) in *. set (S := rsum _ l) in *. set (T := fold_left _ _ _).
  assert (Hl : forall g, In g l -> (1 <= bsize (pool s) g <= 2 * (L * L))%Z).
  { intros g Hg. apply filter_In in Hg as (Hg & Hz). apply In_zrange in Hg. pose proof (bsize_nonneg (pool s) g).
    pose proof (bsize_le L (lat s) (pool s) g (i_cl _ _ H) Hg). destruct (Z.eqb_spec (bsize (pool s) g) 0); [discriminate|lia]. }
  assert (Zl : (0 <= zlen l <= 2 * (L * L))%Z).
  { split; [apply zlen_nonneg|]. pose proof (count_le_len (fun c => negb (bsize (pool s) c =? 0)%Z) (zrange (2 * (L * L)))) as Q.
    rewrite zlen_zrange in Q by lia. exact Q. }
  assert (Zr : 0 <= IZR (zlen l) <= IZR (2 * (L * L))) by (split; apply IZR_le; lia). set (lb := ln (IZR (2 * (L * L)))) in *.
  assert (Up : 0 < u * (lb + 10)) by (apply Rmult_lt_0_compat; lra).
  assert (Q : IZR (zlen l) * (u * (lb + 10)) <= IZR (2 * (L * L)) * (u * (lb + 10))) by (apply Rmult_le_compat_r; lra).
  pose proof (sum_err lg L lb (bsize (pool s)) Hlg ltac:(nia) ltac:(lra) l (FZ 0) 0 0 Hl) as A. fold S T in A. rewrite Rplus_0_l in A.
  replace (- fl lg T - - S) with (- (fl lg T - S)) by ring. rewrite Rabs_Ropp. eapply Rle_trans; [apply A|]; try lra.
  cbn [fl]. rewrite Rminus_0_r, Rabs_R0. lra.
Qed.

Lemma p_C81 E L s lg : env_ok E -> (L <= 2 ^ 20)%Z -> log_accurate lg -> reachable E L s ->
  let B := IZR (2 * (L * L)) in
  Rabs (fl lg (entropy_v2 s) - shannon L s) <= IZR (occ_count s + 1) * (bpow radix2 (-53) * (72 + 2 * ln B)) /\
  exists v, entropy_v1 s = Ok v /\ Rabs (fl lg v - shannon L s) <= B * (bpow radix2 (-53) * (10 + ln B)).
Proof.
  intros HE HL Hlg HR B. pose proof (reachable_inv E L s HE HR) as H. rewrite (shannon_hh L) by auto. split.
  - exact (reachable_fent lg E L s Hlg HL HE HR).
  - destruct (entropy_v1 s) as [v|] eqn:Ev; [|rewrite (entropy_v1_ok L) in Ev by auto; discriminate]. exists v. split; auto.
    rewrite (Rplus_comm 10). now apply v1_err.
Qed.
Lemma p_C81m E L s cs lg : env_ok E -> (L <= 2 ^ 20)%Z -> log_accurate lg -> reachable E L s -> Forall (call_ok L) cs -> ~ In CReset cs ->
  let s' := after E s cs in
  fl lg (entropy_v2 s') <= fl lg (entropy_v2 s) + IZR (occ_count s' - occ_count s) * (bpow radix2 (-53) * (72 + 2 * ln (IZR (2 * (L * L))))).
Proof.
  intros HE HL Hlg HR Hc Hn s'. pose proof (reachable_inv E L s HE HR) as H.
  assert (Hnr : Forall no_reset cs) by (apply Forall_forall; intros c Hin; destruct c; cbn; auto).
  destruct (steps_fent lg E L s s' Hlg HL HE H (after_steps E L cs HE s Hc Hnr H) (reachable_fent lg E L s Hlg HL HE HR)) as (_ & G).
  assert (HR' : reachable E L s').
  { destruct HR as (k & t0 & s0 & cs0 & A1 & A2 & ->). exists k, t0, s0, (cs0 ++ cs). split; auto. split; [now apply Forall_app|]. unfold s', after. now rewrite fold_left_app. }
  destruct (p_C19 E L s cs HE HR Hc Hn) as (M & _). fold s' in M. destruct (reachable_ent E L s HE HR) as (_ & E1). destruct (reachable_ent E L s' HE HR') as (_ & E2).
  unfold EntOK, entropy_v2 in *. rewrite E1, E2 in M. apply Rabs_le_inv in G. fold u. unfold drift in G. lra.
Qed.
(** Rounding the exact logarithm is accurate enough. *)
Lemma rounded_log_accurate : log_accurate (fun x => rnd (ln x)).
Proof.
  intros x _ _. eapply Rle_trans; [apply rnd_err|]. apply Rplus_le_compat; [apply Rmult_le_compat_r; [apply Rabs_pos|]|]; apply bpow_le; lia.
Qed.
