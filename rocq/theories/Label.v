(** * Label: which label a merged cluster gets (C66), and how often a bond is
    relabelled (C67). *)
From Coq Require Import ZArith List Bool Lia Permutation.
From Verif Require Import Py Lattice Cluster Perc Spec PyFacts Torus Geometry LatFacts Inv Merge Count Fresh Select State Step History Reach Micro StateProps StateProps2 Seq Order.
Import ListNotations.
Open Scope Z_scope.

Lemma root_loop_pick p aw w all (sz : Z -> Z) : (forall g, In g all -> get_cluster_bond_count p g = Ok (sz g)) ->
  aw && zmem w all = false -> forall l ref root r, incl l all -> root_loop p aw w all l ref root = Ok r ->
  (r = root /\ forall g, In g l -> sz g < ref) \/
  exists a b, l = a ++ r :: b /\ ref <= sz r /\ (forall g, In g a -> sz g <= sz r) /\ (forall g, In g b -> sz g < sz r).
Proof.
  intros Hs Hw. induction l as [|g l IH]; intros ref root r Hi Hr; [left; cbn in Hr; split; [congruence|intros g []]|].
  cbn [root_loop] in Hr. rewrite Hw, (Hs g) in Hr by (apply Hi; now left). cbn [rbind] in Hr.
  assert (Hl : incl l all) by (intros y Hy; apply Hi; now right).
  destruct (Z.leb_spec ref (sz g)) as [Hle|Hgt].
  - destruct (IH (sz g) g r Hl Hr) as [(-> & Hlt)|(a & b & -> & H1 & H2 & H3)].
    + right. exists [], l. split; [reflexivity|]. split; [lia|]. split; [intros y []|]. exact Hlt.
    + right. exists (g :: a), b. split; [reflexivity|]. split; [lia|]. split; [|exact H3]. intros y [<-|Hy]; auto.
  - destruct (IH ref root r Hl Hr) as [(-> & Hlt)|(a & b & -> & H1 & H2 & H3)].
    + left. split; [reflexivity|]. intros y [<-|Hy]; auto.
    + right. exists (g :: a), b. split; [reflexivity|]. split; [lia|]. split; [|exact H3]. intros y [<-|Hy]; [lia|auto].
Qed.

Section Pick.
Variables (E : env) (L : Z) (s : perc) (x : Z) (s' : perc) (root : Z).
Hypothesis HE : env_ok E.
Hypothesis C : ClOK L (lat s) (pool s).
Hypothesis Pd : Placed E L s x s' root.
Let K := nb_labels L x (lat s).

Lemma pd_pick_rule : ~ (after_wrap s = true /\ In (wid s) K) ->
  exists l a b, (forall g, In g l <-> In g K) /\ e_ord E l = a ++ root :: b /\
    (forall g, In g a -> bsize (pool s) g <= bsize (pool s) root) /\ (forall g, In g b -> bsize (pool s) g < bsize (pool s) root).
Proof.
  intros Hn. pose proof (pd_pick _ _ _ _ _ _ Pd) as Q. cbv zeta in Q.
  set (l := map (bg (lat s)) (firsts (bg (lat s)) (bonds_of L x))) in *.
  assert (Hl : forall g, In g l <-> In g K).
  { intros g. unfold l, K, nb_labels. split; intros Hg; apply in_map_iff in Hg as (b & <- & Hb).
    - apply in_map. now apply firsts_in in Hb.
    - now apply firsts_cov. }
  assert (Ho : forall g, In g (e_ord E l) <-> In g K) by (intros g; rewrite (proj2 (HE l) g); apply Hl).
  assert (Hw : after_wrap s && zmem (wid s) (e_ord E l) = false).
  { apply not_true_is_false. intros Q'. apply andb_true_iff in Q' as (Q1 & Q2). apply Hn. split; auto. apply Ho. now apply zmem_In. }
  assert (Hsz : forall g, In g (e_ord E l) -> get_cluster_bond_count (pool s) g = Ok (bsize (pool s) g)).
  { intros g Hg. apply (get_bsize L (lat s)); auto. apply Ho in Hg. exact (K_label E L s x s' root C Pd g Hg). }
  destruct (root_loop_pick _ _ _ _ _ Hsz Hw _ _ _ _ (incl_refl _) Q) as [(Er & Hlt)|(a & b & Es & _ & H2 & H3)].
  - exfalso. pose proof (pd_root _ _ _ _ _ _ Pd) as Hr. fold K in Hr. apply Ho in Hr. specialize (Hlt root Hr).
    pose proof (zlen_nonneg (c_bonds (cl (pool s) root))). unfold bsize in Hlt. lia.
  - exists l, a, b. auto.
Qed.
Lemma pd_pick_max g : ~ (after_wrap s = true /\ In (wid s) K) -> In g K -> bsize (pool s) g <= bsize (pool s) root.
Proof.
  intros Hn Hg. destruct (pd_pick_rule Hn) as (l & a & b & Hl & Ho & Ha & Hb).
  apply Hl, (proj2 (HE l)) in Hg. rewrite Ho in Hg. apply in_app_iff in Hg as [Hg|[->|Hg]]; [auto|lia|]. apply Hb in Hg. lia.
Qed.
Lemma pd_bsize_two g : In g K -> g <> root -> bsize (pool s) g + bsize (pool s) root <= bsize (pool s') root.
Proof.
  intros Hg Hn. pose proof (K_label E L s x s' root C Pd g Hg) as Hl. pose proof (root_label E L s x s' root C Pd) as Hr.
  rewrite (pd_bsize_root E L s x s' root C Pd). rewrite (bsize_count L (lat s) (pool s) g), (bsize_count L (lat s) (pool s) root) by auto.
  apply count_disj.
  - intros b _ Hb. apply Z.eqb_eq in Hb. rewrite Hb. split; [now apply zmem_In|]. now apply Z.eqb_neq.
  - intros b _ Hb. apply Z.eqb_eq in Hb. rewrite Hb. apply zmem_In. apply (pd_root _ _ _ _ _ _ Pd).
Qed.
End Pick.

Lemma meets_nb L s x g : Static L (lat s) -> 0 < L -> is_site L x -> (meets L s x g <-> In g (nb_labels L x (lat s))).
Proof.
  intros St HL Hx. unfold meets, nb_labels. rewrite in_map_iff. split.
  - intros (b & Hb & He & <-). exists b. split; [symmetry; now apply (bond_label_bg L)|].
    apply (bonds_of_touches L HL); auto. unfold touches. destruct He; auto.
  - intros (b & <- & Hb). pose proof Hb as Hb'. apply In_bonds_of in Hb' as (d & Eb).
    assert (Hbd : is_bond L b) by (subst b; now apply bond_dir_bond).
    exists b. split; auto. split; [|now apply (bond_label_bg L)]. apply (bonds_of_touches L HL) in Hb; auto. unfold touches in Hb. destruct Hb; auto.
Qed.

Lemma p_C66 E L s s' x : env_ok E -> reachable E L s ->
  place_one_site E s = (s', Ok true) -> flag_is_success s' = true -> sel_id s' = Some x ->
  let new := site_label s' x in
  let size g := length (cluster_bonds s g) in
  (forall b, is_bond L b -> (meets L s x (bond_label s b) -> bond_label s' b = new) /\
                            (~ meets L s x (bond_label s b) -> bond_label s' b = bond_label s b)) /\
  meets L s x new /\
  (after_wrap s = true -> meets L s x (wid s) -> new = wid s) /\
  (~ (after_wrap s = true /\ meets L s x (wid s)) ->
   exists l a b, (forall g, In g l <-> meets L s x g) /\ e_ord E l = a ++ new :: b /\
     (forall g, In g a -> (size g <= size new)%nat) /\ (forall g, In g b -> (size g < size new)%nat)).
Proof.
  intros HE HR Ep Ef Ex new size. pose proof (reachable_inv _ _ _ HE HR) as H. pose proof (i_pos _ _ H) as HL.
  destruct (place_spec E L s HE H) as (Sd & Ps). destruct (sel E L s) as [s1 r1]. cbn [fst snd] in *.
  destruct r1 as [[]|e]; [|rewrite Ep in Ps; try discriminate..].
  2:{ injection Ps as ->. discriminate. }
  destruct Ps as (y & s2 & root & Y1 & Y2 & Ep' & Pd). rewrite Ep in Ep'. injection Ep' as <-.
  assert (y = x). { pose proof (f_equal sel_id (pd_core _ _ _ _ _ _ Pd)) as Q. change (sel_id s' = sel_id s1) in Q. congruence. } subst y.
  pose proof (selected_ClOK _ _ _ _ (i_cl _ _ H) Sd) as C1.
  pose proof (pd_site _ _ _ _ _ _ Pd) as Hx.
  destruct (core_fields _ _ (sd_core _ _ _ _ Sd)) as (F1 & F2 & F3 & F4 & F5 & F6 & F7 & F8 & F9 & F10 & F11 & F12 & F13 & F14 & F15).
  assert (Ebg : forall b, bg (lat s1) b = bg (lat s) b) by (intros; apply (same_labels_bg L); apply Sd).
  assert (EK : nb_labels L x (lat s1) = nb_labels L x (lat s)) by (unfold nb_labels; apply map_ext; auto).
  pose proof (place_inv E L s HE H) as H'. rewrite Ep in H'. cbn [fst] in H'.
  assert (En : new = root).
  { unfold new. rewrite (site_label_sg L) by (auto; now apply i_static). rewrite (pd_sg _ _ _ _ _ _ Pd) by auto. now rewrite Z.eqb_refl. }
  assert (Hm : forall g, meets L s x g <-> In g (nb_labels L x (lat s1))) by (intros g; rewrite EK; apply meets_nb; auto; now apply i_static).
  rewrite En.
  assert (Esz : forall g, In g (nb_labels L x (lat s1)) -> Z.of_nat (size g) = bsize (pool s1) g).
  { intros g Hg. unfold size. rewrite (cluster_bonds_cl L s g); [|now apply inv_plen|exact (K_label E L s1 x s' root C1 Pd g Hg)].
    unfold bsize. now rewrite F2. }
  split; [|split; [|split]].
  - intros b Hb. rewrite Hm. rewrite !(bond_label_bg L) by (auto; now apply i_static). rewrite (pd_bg _ _ _ _ _ _ Pd) by auto.
    rewrite <- Ebg, <- zmem_In. destruct (zmem _ _); split; intros Q; try congruence; tauto.
  - apply Hm. apply (pd_root _ _ _ _ _ _ Pd).
  - intros Ha Hw. rewrite <- F11. apply (pd_wroot _ _ _ _ _ _ Pd); [congruence|]. rewrite F11. now apply Hm.
  - intros Hn. destruct (pd_pick_rule E L s1 x s' root HE C1 Pd) as (l & a & b & Hl & Ho & Ha & Hb).
    { rewrite F10, F11. intros (Q1 & Q2). apply Hn. split; auto. now apply Hm. }
    pose proof (Esz root (pd_root _ _ _ _ _ _ Pd)) as Er.
    assert (Hin : forall g, In g a \/ In g b -> In g (nb_labels L x (lat s1))).
    { intros g Hg. apply Hl. apply (proj2 (HE l)). rewrite Ho, in_app_iff. cbn [In]. tauto. }
    exists l, a, b. split; [intros g; rewrite Hm; apply Hl|]. split; [exact Ho|]. split.
    + intros g Hg. specialize (Ha g Hg). pose proof (Esz g (Hin g (or_introl Hg))). lia.
    + intros g Hg. specialize (Hb g Hg). pose proof (Esz g (Hin g (or_intror Hg))). lia.
Qed.

(** ** How often a bond is relabelled *)
Definition Cnt (L : Z) (s : perc) (b : Z) (n : nat) : Prop :=
  (after_wrap s = true /\ bg (lat s) b = wid s /\ Z.of_nat n <= Z.log2 (2 * (L * L)) + 1) \/
  2 ^ Z.of_nat n <= bsize (pool s) (bg (lat s) b).

Lemma cnt_mono L s b n : Cnt L s b (S n) -> Cnt L s b n.
Proof.
  intros [(H1 & H2 & H3)|H]; [left|right].
  - repeat split; auto. lia.
  - eapply Z.le_trans; [|exact H]. apply Z.pow_le_mono_r; lia.
Qed.
Lemma bsize_le L s c : Inv L s -> is_label L c -> bsize (pool s) c <= 2 * (L * L).
Proof.
  intros H Hc. rewrite (bsize_count L (lat s)) by (auto; apply (i_cl _ _ H)).
  pose proof (LL_pos L (i_pos _ _ H)). pose proof (count_le_len (fun b => bg (lat s) b =? c) (zrange (2 * (L * L)))) as Q.
  rewrite zlen_zrange in Q by lia. exact Q.
Qed.
Lemma cnt_bound L s b n : Inv L s -> is_bond L b -> Cnt L s b n -> Z.of_nat n <= Z.log2 (2 * (L * L)) + 1.
Proof.
  intros H Hb [(_ & _ & Q)|Q]; auto. pose proof (bsize_le L s (bg (lat s) b) H) as Q'.
  pose proof (LL_pos L (i_pos _ _ H)). pose proof (Z.log2_le_pow2 (2 * (L * L)) (Z.of_nat n) ltac:(lia)) as Q2.
  assert (is_label L (bg (lat s) b)) by (apply (ck_blab _ _ _ (i_cl _ _ H)); auto).
  specialize (Q' ltac:(auto)). assert (Z.of_nat n <= Z.log2 (2 * (L * L))) by (apply Q2; lia). lia.
Qed.
Lemma cnt_micro E L s s' b n : env_ok E -> Inv L s -> micro E L s s' -> Inv L s' -> is_bond L b ->
  Cnt L s b n -> Cnt L s' b n /\ (bg (lat s') b <> bg (lat s) b -> Cnt L s' b (S n)).
Proof.
  intros HE H M H' Hb HC. destruct M as [a c Hp|a c r Sd _|a s1 x c root Sd E1 E2 Pd|a x Hx Es Ew Hh].
  - destruct (phys_fields _ _ Hp) as (_ & F2 & F3 & _ & _ & _ & _ & _ & _ & _ & _ & _ & F13 & F14 & _).
    unfold Cnt in *. rewrite F2, F3, F13, F14. split; auto. congruence.
  - destruct (core_fields _ _ (sd_core _ _ _ _ Sd)) as (F1 & F2 & F3 & F4 & F5 & F6 & F7 & F8 & F9 & F10 & F11 & _).
    assert (Ebg : forall b, bg (lat c) b = bg (lat a) b) by (intros; apply (same_labels_bg L); apply Sd).
    unfold Cnt in *. rewrite F2, F10, F11, Ebg. split; auto. congruence.
  - destruct (core_fields _ _ (sd_core _ _ _ _ Sd)) as (F1 & F2 & F3 & F4 & F5 & F6 & F7 & F8 & F9 & F10 & F11 & _).
    assert (Ebg : forall b, bg (lat s1) b = bg (lat a) b) by (intros; apply (same_labels_bg L); apply Sd).
    destruct (core2_fields _ _ (pd_core _ _ _ _ _ _ Pd)) as (G1 & G2 & G3 & G4 & G5 & G6 & G7 & G8 & G9 & G10 & G11 & G12 & _).
    pose proof (selected_ClOK _ _ _ _ (i_cl _ _ H) Sd) as C1.
    assert (HC1 : Cnt L s1 b n) by (unfold Cnt in *; rewrite F2, F10, F11, Ebg; exact HC).
    pose proof (cnt_bound L a b n H Hb HC) as Hn.
    rewrite <- (Ebg b). clear HC. set (K := nb_labels L x (lat s1)) in *.
    set (g := bg (lat s1) b) in *.
    assert (Hgl : is_label L g) by (apply (ck_blab _ _ _ C1); auto).
    pose proof (pd_bg _ _ _ _ _ _ Pd b Hb) as Eb. fold K g in Eb.
    assert (Main : bg (lat c) b = g -> Cnt L c b n).
    { intros Eg. destruct HC1 as [(W1 & W2 & W3)|HC1]; [left|right].
      - rewrite G11, G12, Eg. auto.
      - rewrite Eg. eapply Z.le_trans; [exact HC1|]. fold g. apply (pd_bsize_mono E L s1 x c root C1 Pd); auto.
        fold K. destruct (zmem g K); [right; congruence|now left]. }
    destruct (Z.eq_dec (bg (lat c) b) g) as [Eg|Ng]; [split; [auto|tauto]|].
    assert (Cnt L c b (S n)); [|split; [now apply cnt_mono|auto]].
    destruct (zmem g K) eqn:Em; [|congruence]. apply zmem_In in Em.
    destruct (after_wrap s1) eqn:Ew; [destruct (zmem (wid s1) K) eqn:Ewk|].
    + left. apply zmem_In in Ewk. rewrite G11, G12, Eb. split; auto. split; [now apply (pd_wroot _ _ _ _ _ _ Pd)|].
      assert (Hgw : g <> wid s1). { intros Q. pose proof (pd_wroot _ _ _ _ _ _ Pd Ew Ewk). congruence. }
      destruct HC1 as [(_ & W2 & _)|HC1]; [fold g in W2; congruence|]. fold g in HC1.
      rewrite F2 in HC1. pose proof (bsize_le L a g H Hgl). pose proof (LL_pos L (i_pos _ _ H)).
      assert (Z.of_nat n <= Z.log2 (2 * (L * L))) by (apply Z.log2_le_pow2; lia). lia.
    + apply not_true_iff_false in Ewk. rewrite zmem_In in Ewk.
      assert (Hgw : g <> wid s1) by congruence.
      destruct HC1 as [(_ & W2 & _)|HC1]; [fold g in W2; congruence|]. fold g in HC1.
      right. rewrite Eb. pose proof (pd_bsize_two E L s1 x c root C1 Pd g Em ltac:(congruence)).
      pose proof (pd_pick_max E L s1 x c root HE C1 Pd g ltac:(tauto) Em).
      rewrite Nat2Z.inj_succ, Z.pow_succ_r by lia. lia.
    + destruct HC1 as [(W1 & _)|HC1]; [congruence|]. fold g in HC1.
      right. rewrite Eb. pose proof (pd_bsize_two E L s1 x c root C1 Pd g Em ltac:(congruence)).
      pose proof (pd_pick_max E L s1 x c root HE C1 Pd g ltac:(intros (Q & _); congruence) Em).
      rewrite Nat2Z.inj_succ, Z.pow_succ_r by lia. lia.
  - split; [|cbn; congruence]. destruct HC as [(W & _)|HC]; [congruence|]. right. exact HC.
Qed.
Lemma cnt_steps E L s s' b n : env_ok E -> steps E L s s' -> is_bond L b ->
  Cnt L s b n -> Cnt L s' b n /\ (bg (lat s') b <> bg (lat s) b -> Cnt L s' b (S n)).
Proof.
  intros HE S Hb HC. induction S as [|s1 s2 S IH I1 M I2]; [split; [auto|tauto]|].
  destruct IH as (A & B). destruct (cnt_micro E L s1 s2 b n HE I1 M I2 Hb A) as (A2 & B2). split; auto.
  intros Hd. destruct (Z.eq_dec (bg (lat s2) b) (bg (lat s1) b)) as [Eq|Ne]; [|auto].
  rewrite Eq in Hd. apply (cnt_micro E L s1 s2 b (Datatypes.S n)); auto.
Qed.

Lemma p_C67 E L s cs b : env_ok E -> reachable E L s -> Forall (call_ok L) cs -> ~ In CReset cs ->
  0 <= b < 2 * (L * L) -> Z.of_nat (relabels E s cs b) <= Z.log2 (2 * (L * L)) + 1.
Proof.
  intros HE HR Hc Hn Hb. pose proof (reachable_inv _ _ _ HE HR) as H0.
  assert (G : forall cs s n, Forall (call_ok L) cs -> ~ In CReset cs -> Inv L s -> Cnt L s b n ->
    Inv L (after E s cs) /\ Cnt L (after E s cs) b (n + relabels E s cs b)).
  { clear cs s HR Hc Hn H0. induction cs as [|c cs IH]; intros s n Hc Hn H HC.
    - cbn [after fold_left relabels]. rewrite Nat.add_0_r. auto.
    - apply Forall_cons_iff in Hc as (H1 & H2).
      assert (Hr : no_reset c) by (destruct c; cbn; auto; apply Hn; now left).
      pose proof (exec_inv E L s c HE H1 H) as H'.
      destruct (cnt_steps E L s _ b n HE (exec_steps E L s c HE H1 Hr H) Hb HC) as (A & B).
      cbn [relabels]. rewrite !(bond_label_bg L) by (auto; now apply i_static).
      change (after E s (c :: cs)) with (after E (exec E s c) cs).
      destruct (Z.eqb_spec (bg (lat (exec E s c)) b) (bg (lat s) b)) as [Eq|Ne].
      + cbn [Nat.add]. apply IH; auto. intros Q. apply Hn. now right.
      + specialize (B Ne). rewrite Nat.add_assoc, Nat.add_1_r. apply IH; auto. intros Q. apply Hn. now right. }
  assert (C0 : Cnt L s b 0).
  { right. change (2 ^ Z.of_nat 0) with 1. pose proof (bsize_pos L (lat s) (pool s) b (i_cl _ _ H0) Hb). lia. }
  destruct (G cs s O Hc Hn H0 C0) as (A & B). cbn [Nat.add] in B. eapply cnt_bound; eauto.
Qed.
Lemma p_C67_total E L s cs : env_ok E -> reachable E L s -> Forall (call_ok L) cs -> ~ In CReset cs ->
  sum_over (fun b => Z.of_nat (relabels E s cs b)) (2 * (L * L)) <= 2 * (L * L) * (Z.log2 (2 * (L * L)) + 1).
Proof.
  intros HE HR Hcs Hn. pose proof (i_pos _ _ (reachable_inv _ _ _ HE HR)) as HL. unfold sum_over.
  assert (Q : forall l, (forall b, In b l -> 0 <= b < 2 * (L * L)) ->
    fold_right Z.add 0 (map (fun b => Z.of_nat (relabels E s cs b)) l) <= zlen l * (Z.log2 (2 * (L * L)) + 1)).
  { induction l as [|b l IH]; intros H; [cbn; lia|]. cbn [map fold_right]. unfold zlen in *. cbn [length].
    pose proof (p_C67 E L s cs b HE HR Hcs Hn (H b (or_introl eq_refl))). specialize (IH (fun b Hb => H b (or_intror Hb))). lia. }
  specialize (Q (zrange (2 * (L * L))) (fun b Hb => proj1 (In_zrange _ _) Hb)). rewrite zlen_zrange in Q by nia. exact Q.
Qed.
