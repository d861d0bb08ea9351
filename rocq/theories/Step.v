(** * Step: placement and wrapping detection preserve the invariant. *)
From Coq Require Import ZArith List Bool Lia Permutation.
From Verif Require Import Py Lattice Cluster Perc Spec PyFacts Torus Geometry LatFacts Inv Merge Count Fresh Select State.
Import ListNotations.
Open Scope Z_scope.

Lemma core_fields a b : core a = core b ->
  kind a = kind b /\ pool a = pool b /\ rev_ids a = rev_ids b /\ pc_occ a = pc_occ b /\
  cluster_count a = cluster_count b /\ largest_sz a = largest_sz b /\ largest_id a = largest_id b /\
  max_ent a = max_ent b /\ ent a = ent b /\ after_wrap a = after_wrap b /\ wid a = wid b /\
  first_run a = first_run b /\ max_iter a = max_iter b /\ pc_bonds a = pc_bonds b /\ pc_sites a = pc_sites b.
Proof.
  intros H.
  split; [exact (f_equal kind H)|]. split; [exact (f_equal pool H)|]. split; [exact (f_equal rev_ids H)|].
  split; [exact (f_equal pc_occ H)|]. split; [exact (f_equal cluster_count H)|].
  split; [exact (f_equal largest_sz H)|]. split; [exact (f_equal largest_id H)|].
  split; [exact (f_equal max_ent H)|]. split; [exact (f_equal ent H)|].
  split; [exact (f_equal after_wrap H)|]. split; [exact (f_equal wid H)|].
  split; [exact (f_equal first_run H)|]. split; [exact (f_equal max_iter H)|].
  split; [exact (f_equal pc_bonds H)|]. exact (f_equal pc_sites H).
Qed.
Lemma core2_fields a b : core2 a = core2 b ->
  kind a = kind b /\ ids a = ids b /\ rev_ids a = rev_ids b /\ cur_idx a = cur_idx b /\
  occ_count a = occ_count b /\ pc_occ a = pc_occ b /\ cur_site a = cur_site b /\ sel_id a = sel_id b /\
  cluster_count a = cluster_count b /\ max_ent a = max_ent b /\ after_wrap a = after_wrap b /\
  wid a = wid b /\ max_iter a = max_iter b /\ pc_bonds a = pc_bonds b /\ pc_sites a = pc_sites b.
Proof.
  intros H.
  split; [exact (f_equal kind H)|]. split; [exact (f_equal ids H)|]. split; [exact (f_equal rev_ids H)|].
  split; [exact (f_equal cur_idx H)|]. split; [exact (f_equal occ_count H)|].
  split; [exact (f_equal pc_occ H)|]. split; [exact (f_equal cur_site H)|]. split; [exact (f_equal sel_id H)|].
  split; [exact (f_equal cluster_count H)|]. split; [exact (f_equal max_ent H)|].
  split; [exact (f_equal after_wrap H)|]. split; [exact (f_equal wid H)|].
  split; [exact (f_equal max_iter H)|]. split; [exact (f_equal pc_bonds H)|]. exact (f_equal pc_sites H).
Qed.

(** ** Consequences of a placement *)
Section PlacedFacts.
Variables (E : env) (L : Z) (s : perc) (x : Z) (s' : perc) (root : Z).
Hypothesis C : ClOK L (lat s) (pool s).
Hypothesis Pd : Placed E L s x s' root.
Let HL : 0 < L := st_pos _ _ (ck_static _ _ _ C).
Let K := nb_labels L x (lat s).

Lemma K_label g : In g K -> is_label L g.
Proof.
  intros Hg. destruct (nb_label_bond L x (lat s) g HL (pd_site _ _ _ _ _ _ Pd) Hg) as (b & Hb & _ & ->).
  now apply (ck_blab _ _ _ C).
Qed.
Lemma root_label : is_label L root.
Proof. apply K_label. apply (pd_root _ _ _ _ _ _ Pd). Qed.
Lemma K_neg : zmem (-1) K = false.
Proof. apply zmem_false. intros H. apply K_label in H. unfold is_label in H. lia. Qed.

Lemma pd_occ_iff i : is_site L i -> (occ (lat s') i <-> i = x \/ occ (lat s) i).
Proof.
  intros Hi. unfold occ. rewrite (pd_sg _ _ _ _ _ _ Pd) by auto. fold K.
  pose proof root_label as Hr. unfold is_label in Hr.
  destruct (Z.eqb_spec i x); cbn [orb]; [split; [auto|lia]|].
  destruct (zmem (sg (lat s) i) K) eqn:Em.
  - apply zmem_In, K_label in Em. unfold is_label in Em. split; [right|]; lia.
  - split; [auto|intros [|]; [tauto|auto]].
Qed.
Lemma pd_occb i : is_site L i -> occb (lat s') i = (i =? x) || occb (lat s) i.
Proof.
  intros Hi. pose proof (pd_occ_iff i Hi) as H.
  destruct (occb_spec (lat s') i), (occb_spec (lat s) i), (Z.eqb_spec i x); cbn [orb]; intuition congruence.
Qed.
Lemma pd_nocc : nocc L (lat s') = nocc L (lat s) + 1.
Proof.
  unfold nocc. apply (count_add1 _ _ _ x).
  - apply NoDup_zrange.
  - apply In_zrange. apply (pd_site _ _ _ _ _ _ Pd).
  - unfold occb. rewrite (pd_un _ _ _ _ _ _ Pd). reflexivity.
  - intros i Hi. apply In_zrange in Hi. now apply pd_occb.
Qed.

Lemma pd_bsize_other c : is_label L c -> zmem c K = false -> bsize (pool s') c = bsize (pool s) c.
Proof.
  intros Hc Hk. rewrite (bsize_count L (lat s') (pool s')), (bsize_count L (lat s) (pool s)) by (auto; apply (pd_cl _ _ _ _ _ _ Pd)).
  apply count_ext. intros b Hb. apply In_zrange in Hb.
  rewrite (pd_bg _ _ _ _ _ _ Pd) by exact Hb. fold K.
  destruct (zmem (bg (lat s) b) K) eqn:Em; [|reflexivity].
  destruct (Z.eqb_spec root c).
  - subst. apply zmem_false in Hk. destruct Hk. apply (pd_root _ _ _ _ _ _ Pd).
  - symmetry. apply Z.eqb_neq. congruence.
Qed.
Lemma pd_bsize_merged c : is_label L c -> zmem c K = true -> c <> root -> bsize (pool s') c = 0.
Proof.
  intros Hc Hk Hr. rewrite (bsize_count L (lat s')) by (auto; apply (pd_cl _ _ _ _ _ _ Pd)).
  apply count_none. intros b Hb. apply In_zrange in Hb.
  rewrite (pd_bg _ _ _ _ _ _ Pd) by exact Hb. fold K.
  destruct (zmem (bg (lat s) b) K) eqn:Em; apply Z.eqb_neq; congruence.
Qed.
Lemma pd_bsize_root : bsize (pool s') root = count (fun b => zmem (bg (lat s) b) K) (zrange (2 * (L * L))).
Proof.
  rewrite (bsize_count L (lat s')) by (apply (pd_cl _ _ _ _ _ _ Pd) || apply root_label).
  apply count_ext. intros b Hb. apply In_zrange in Hb.
  rewrite (pd_bg _ _ _ _ _ _ Pd) by exact Hb. fold K.
  destruct (zmem (bg (lat s) b) K) eqn:Em; [apply Z.eqb_refl|].
  apply Z.eqb_neq. intros Eb. apply zmem_false in Em. apply Em. rewrite Eb. apply (pd_root _ _ _ _ _ _ Pd).
Qed.
Lemma pd_bsize_sum K' : NoDup K' -> (forall g, In g K' <-> In g K) ->
  bsize (pool s') root = zsum (map (bsize (pool s)) K').
Proof.
  intros N H. rewrite pd_bsize_root.
  rewrite (zsum_map_ext _ (fun c => count (fun b => bg (lat s) b =? c) (zrange (2 * (L * L))))).
  - rewrite count_sum by auto. apply count_ext. intros b _.
    destruct (zmem (bg (lat s) b) K) eqn:E1; destruct (zmem (bg (lat s) b) K') eqn:E2; auto.
    + apply zmem_In in E1. apply zmem_false in E2. now apply H in E1.
    + apply zmem_In in E2. apply zmem_false in E1. now apply H in E2.
  - intros c Hc. apply bsize_count; auto. apply K_label. now apply H.
Qed.
Lemma pd_bsize_ge c : In c K -> bsize (pool s) c <= bsize (pool s') root.
Proof.
  intros Hc. rewrite pd_bsize_root, (bsize_count L (lat s)) by (auto; now apply K_label).
  apply count_le. intros b _ Hb. apply Z.eqb_eq in Hb. rewrite Hb. now apply zmem_In.
Qed.
Lemma pd_bsize_gt c : In c K -> c <> root -> bsize (pool s) c < bsize (pool s') root.
Proof.
  intros Hc Hn.
  assert (H1 : bsize (pool s) c + bsize (pool s) root <= bsize (pool s') root).
  { rewrite pd_bsize_root. rewrite (bsize_count L (lat s) (pool s) c) by (auto; now apply K_label).
    rewrite (bsize_count L (lat s) (pool s) root) by (auto; apply root_label).
    apply count_disj.
    - intros b _ Hb. apply Z.eqb_eq in Hb. rewrite Hb. split; [now apply zmem_In|]. now apply Z.eqb_neq.
    - intros b _ Hb. apply Z.eqb_eq in Hb. rewrite Hb. apply zmem_In. apply (pd_root _ _ _ _ _ _ Pd). }
  destruct (nb_label_bond L x (lat s) root HL (pd_site _ _ _ _ _ _ Pd) (pd_root _ _ _ _ _ _ Pd)) as (b & Hb & _ & Eb).
  pose proof (bsize_pos L (lat s) (pool s) b C Hb). rewrite <- Eb in *. lia.
Qed.
Lemma pd_ssize_mono c : is_label L c -> zmem c K = false \/ c = root -> ssize (pool s) c <= ssize (pool s') c.
Proof.
  intros Hc Hk. rewrite (ssize_count L (lat s') (pool s')), (ssize_count L (lat s) (pool s)) by (auto; apply (pd_cl _ _ _ _ _ _ Pd)).
  apply count_le. intros i Hi E1. apply In_zrange in Hi. apply Z.eqb_eq in E1. apply Z.eqb_eq.
  rewrite (pd_sg _ _ _ _ _ _ Pd) by exact Hi. fold K.
  assert (i <> x) by (intros ->; rewrite (pd_un _ _ _ _ _ _ Pd) in E1; unfold is_label in Hc; lia).
  destruct (Z.eqb_spec i x); [tauto|]. cbn [orb]. rewrite E1.
  destruct (zmem c K); destruct Hk; congruence || auto.
Qed.
Lemma pd_bsize_mono c : is_label L c -> zmem c K = false \/ c = root -> bsize (pool s) c <= bsize (pool s') c.
Proof.
  intros Hc [Hk|Hk].
  - rewrite pd_bsize_other; auto. lia.
  - subst c. apply pd_bsize_ge. apply (pd_root _ _ _ _ _ _ Pd).
Qed.
End PlacedFacts.

(** When nothing is occupied every cluster has at most one bond. *)
Lemma unocc_small L lat p : ClOK L lat p -> nocc L lat = 0 -> forall c, is_label L c -> bsize p c <= 1.
Proof.
  intros C H0 c Hc. destruct (pk_bonds _ _ _ _ (ck_pool _ _ _ C) c Hc) as [N I]; auto.
  unfold bsize. destruct (c_bonds (cl p c)) as [|b1 [|b2 l]] eqn:El; rewrite ?zlen_cons, ?zlen_nil; try lia.
  exfalso. assert (H1 : In b1 (b1 :: b2 :: l)) by (simpl; auto). assert (H2 : In b2 (b1 :: b2 :: l)) by (simpl; auto).
  apply I in H1 as (Hb1 & E1). apply I in H2 as (Hb2 & E2).
  assert (Hno : forall i, is_site L i -> ~ occ lat i).
  { intros i Hi Ho. apply occb_true in Ho. unfold nocc in H0.
    rewrite (count_zero _ _ H0 i) in Ho; [discriminate|]. now apply In_zrange. }
  pose proof (st_pos _ _ (ck_static _ _ _ C)) as HL.
  destruct (ck_join _ _ _ C b1 b2 Hb1 Hb2) as [->|[Ho|Ho]]; [congruence| | |].
  - inversion N; subst. simpl in *. tauto.
  - apply Hno in Ho; auto. now apply end1_site.
  - apply Hno in Ho; auto. now apply end2_site.
Qed.

(** Labels are preserved along walks through occupied sites. *)
Lemma walk_label L lat p i ds j : ClOK L lat p -> walk L (occ lat) i ds j ->
  sg lat i = sg lat j /\ walk L (fun t => sg lat t = sg lat i) i ds j.
Proof.
  intros C W. pose proof (st_pos _ _ (ck_static _ _ _ C)) as HL. induction W as [i Hi Ho|i d ds j Hi Ho W IH].
  - split; auto. constructor; auto.
  - destruct (walk_sites L _ _ _ _ W) as (Hn & _ & On & _).
    assert (E : sg lat (nbr L i d) = sg lat i) by (eapply adj_label; eauto).
    destruct IH as (E1 & W1). split; [congruence|].
    constructor; auto. rewrite E in W1. exact W1.
Qed.

(** ** A closed walk with net displacement meets every row or every column *)
Lemma walk_rows L (P : Z -> Prop) i ds j : 0 < L -> walk L P i ds j ->
  forall k, (0 <= k <= fst (disp ds) \/ fst (disp ds) <= k <= 0) ->
  exists u, is_site L u /\ P u /\ row L u = (row L i + k) mod L.
Proof.
  intros HL W. induction W as [i Hi Hp|i d ds j Hi Hp W IH]; intros k Hk.
  - cbn [disp fst] in Hk. assert (k = 0) by lia. subst. exists i. split; auto. split; auto.
    rewrite Z.add_0_r, Z.mod_small; auto. now apply row_bound.
  - destruct (Z.eq_dec k 0) as [->|Hk0].
    + exists i. split; auto. split; auto. rewrite Z.add_0_r, Z.mod_small; auto. now apply row_bound.
    + destruct (IH (k - fst (step d))) as (u & Hu & Pu & Eu).
      * cbn [disp] in Hk. unfold vadd in Hk. cbn [fst] in Hk.
        assert (Hs : -1 <= fst (step d) <= 1) by (destruct d; cbn; lia). lia.
      * exists u. split; auto. split; auto. rewrite Eu, row_nbr by auto.
        rewrite Z.add_mod_idemp_l by lia. f_equal. lia.
Qed.
Lemma walk_cols L (P : Z -> Prop) i ds j : 0 < L -> walk L P i ds j ->
  forall k, (0 <= k <= snd (disp ds) \/ snd (disp ds) <= k <= 0) ->
  exists u, is_site L u /\ P u /\ col L u = (col L i + k) mod L.
Proof.
  intros HL W. induction W as [i Hi Hp|i d ds j Hi Hp W IH]; intros k Hk.
  - cbn [disp snd] in Hk. assert (k = 0) by lia. subst. exists i. split; auto. split; auto.
    rewrite Z.add_0_r, Z.mod_small; auto. now apply col_bound.
  - destruct (Z.eq_dec k 0) as [->|Hk0].
    + exists i. split; auto. split; auto. rewrite Z.add_0_r, Z.mod_small; auto. now apply col_bound.
    + destruct (IH (k - snd (step d))) as (u & Hu & Pu & Eu).
      * cbn [disp] in Hk. unfold vadd in Hk. cbn [snd] in Hk.
        assert (Hs : -1 <= snd (step d) <= 1) by (destruct d; cbn; lia). lia.
      * exists u. split; auto. split; auto. rewrite Eu, col_nbr by auto.
        rewrite Z.add_mod_idemp_l by lia. f_equal. lia.
Qed.

Lemma mod_eq_mult L a k : 0 < L -> (a + k) mod L = a mod L -> exists q, k = q * L.
Proof.
  intros HL E. exists ((a + k) / L - a / L).
  pose proof (Z.div_mod (a + k) L). pose proof (Z.div_mod a L). nia.
Qed.

Lemma surj_count L (Pb : Z -> bool) (f : Z -> Z) : 0 < L ->
  (forall r, 0 <= r < L -> exists u, is_site L u /\ Pb u = true /\ f u = r) ->
  L <= count Pb (zrange (L * L)).
Proof.
  intros HL H. rewrite <- (zlen_zrange L) at 1 by lia.
  rewrite <- (count_all (fun _ => true) (zrange L)) by auto.
  set (h := fun r => match find (fun u => Pb u && (f u =? r)) (zrange (L * L)) with Some u => u | None => -1 end).
  assert (Hh : forall r, 0 <= r < L -> In (h r) (zrange (L * L)) /\ Pb (h r) = true /\ f (h r) = r).
  { intros r Hr. unfold h. destruct (find _ _) as [u|] eqn:Ef.
    - apply find_some in Ef as (Hu & Eu). apply andb_true_iff in Eu as (E1 & E2). apply Z.eqb_eq in E2. auto.
    - destruct (H r Hr) as (u & Hu & E1 & E2). pose proof (find_none _ _ Ef u) as F.
      cbv beta in F. rewrite E1, E2, Z.eqb_refl in F. cbn in F.
      assert (true = false); [|discriminate]. apply F. apply In_zrange. exact Hu. }
  apply (count_inj _ _ h).
  - apply NoDup_zrange.
  - intros r Hr _. apply In_zrange in Hr. destruct (Hh r Hr) as (A & B & _). auto.
  - intros r r' Hr Hr' _ _ Ee. apply In_zrange in Hr, Hr'.
    destruct (Hh r Hr) as (_ & _ & A). destruct (Hh r' Hr') as (_ & _ & B). congruence.
Qed.

Lemma wraps_count L (Pb : Z -> bool) i : 0 < L -> wraps_at L (fun j => Pb j = true) i ->
  L <= count Pb (zrange (L * L)).
Proof.
  intros HL (ds & W & Hd). destruct (walk_congr L HL _ _ _ _ W) as (E1 & E2).
  apply mod_eq_mult in E1 as (q1 & E1); auto. apply mod_eq_mult in E2 as (q2 & E2); auto.
  destruct (walk_sites L _ _ _ _ W) as (Hi & _).
  assert (Hq : q1 <> 0 \/ q2 <> 0).
  { destruct (Z.eq_dec q1 0); [|auto]. destruct (Z.eq_dec q2 0); [|auto].
    exfalso. apply Hd. destruct (disp ds); cbn in *. f_equal; nia. }
  destruct Hq as [Hq|Hq].
  - apply (surj_count L Pb (row L)); auto. intros r Hr.
    set (k := if 0 <? q1 then (r - row L i) mod L else (r - row L i) mod L - L).
    destruct (walk_rows L _ i ds i HL W k) as (u & Hu & Pu & Eu).
    + pose proof (Z.mod_pos_bound (r - row L i) L HL). unfold k.
      destruct (Z.ltb_spec 0 q1); [left|right]; nia.
    + exists u. split; auto. split; auto. rewrite Eu. unfold k.
      replace r with (r mod L) at 3 by (apply Z.mod_small; lia).
      destruct (0 <? q1).
      * rewrite Z.add_mod_idemp_r by lia. f_equal. lia.
      * replace (row L i + ((r - row L i) mod L - L)) with (row L i + (r - row L i) mod L + (-1) * L) by lia.
        rewrite Z.mod_add by lia. rewrite Z.add_mod_idemp_r by lia. f_equal. lia.
  - apply (surj_count L Pb (col L)); auto. intros r Hr.
    set (k := if 0 <? q2 then (r - col L i) mod L else (r - col L i) mod L - L).
    destruct (walk_cols L _ i ds i HL W k) as (u & Hu & Pu & Eu).
    + pose proof (Z.mod_pos_bound (r - col L i) L HL). unfold k.
      destruct (Z.ltb_spec 0 q2); [left|right]; nia.
    + exists u. split; auto. split; auto. rewrite Eu. unfold k.
      replace r with (r mod L) at 3 by (apply Z.mod_small; lia).
      destruct (0 <? q2).
      * rewrite Z.add_mod_idemp_r by lia. f_equal. lia.
      * replace (col L i + ((r - col L i) mod L - L)) with (col L i + (r - col L i) mod L + (-1) * L) by lia.
        rewrite Z.mod_add by lia. rewrite Z.add_mod_idemp_r by lia. f_equal. lia.
Qed.

(** ** The invariant is preserved *)
Lemma selected_ClOK L s s1 r : ClOK L (lat s) (pool s) -> Selected L s s1 r -> ClOK L (lat s1) (pool s1).
Proof.
  intros C Sd. assert (Ep : pool s1 = pool s) by (exact (f_equal pool (sd_core _ _ _ _ Sd))).
  rewrite Ep. eapply ClOK_same; [exact C|apply (sd_lab _ _ _ _ Sd)].
Qed.
Lemma nocc_same L a b : same_labels L a b -> nocc L b = nocc L a.
Proof. intros (_ & _ & H). apply count_ext. intros i _. unfold occb. now rewrite (proj1 (H i)). Qed.

Lemma wraps_at_mono L (P Q : Z -> Prop) i : (forall j, is_site L j -> P j -> Q j) ->
  wraps_at L P i -> wraps_at L Q i.
Proof. intros H (ds & W & D). exists ds. split; auto. eapply walk_mono; eauto. Qed.

Lemma selected_inv L s s1 r : Inv L s -> Selected L s s1 r ->
  (match r with Ok SUCESS => False | _ => True end) -> Inv L s1.
Proof.
  intros H Sd Hr. pose proof (selected_ClOK _ _ _ _ (i_cl _ _ H) Sd) as C1.
  destruct Sd as [S1 S2 S3 S4 S5 S6 S8 S7].
  destruct (core_fields _ _ S1) as (F1 & F2 & F3 & F4 & F5 & F6 & F7 & F8 & F9 & F10 & F11 & F12 & F13 & F14 & F15).
  assert (S7' : occ_count s1 = occ_count s /\
        ((sel_id s1 = sel_id s /\ cur_site s1 = cur_site s) \/
         exists i, is_site L i /\ sel_id s1 = Some i /\ cur_site s1 = Some i)).
  { destruct r as [[]|]; tauto. }
  destruct S7' as (Eo & Esel). destruct H as [I1 I2 I3 I4 I5 I6 I7 I8 I9 I10 I11 I12 I13 I14].
  constructor; rewrite ?F1, ?F2, ?F3, ?F5, ?F6, ?F7, ?F8, ?F13, ?Eo, ?S3; auto.
  - rewrite F2 in C1. auto.
  - destruct Esel as [(-> & ->)|Esel]; auto.
  - rewrite I6. symmetry. now apply nocc_same.
  - lia.
  - unfold WrapOK in *. rewrite F10, F11, F2, F4, F14, F15, Eo.
    destruct (after_wrap s); auto.
    destruct I13 as (A & B & (i & Ei & Wi) & D). split; auto. split; auto. split; auto.
    destruct S2 as (_ & _ & Hl). exists i. rewrite (proj1 (Hl i)). split; auto.
    eapply wraps_at_mono; [|exact Wi]. intros j _ E. now rewrite (proj1 (Hl j)).
Qed.

(** Attributes the invariant does not constrain. *)
Definition frame (s : perc) : perc :=
  set_sp (FZ 0) (set_arrs [] [] [] [] (set_first_run true (set_xy 0 0 (set_record [] (set_tick 0
    (set_sel_flag None (set_ent (FZ 0) s))))))).
Lemma inv_frame L a b : frame a = frame b -> Inv L a -> Inv L b.
Proof.
  intros F H.
  pose proof (f_equal kind F) as f1. pose proof (f_equal pool F) as f2. pose proof (f_equal rev_ids F) as f3.
  pose proof (f_equal lat F) as f4. pose proof (f_equal ids F) as f5. pose proof (f_equal cur_idx F) as f6.
  pose proof (f_equal occ_count F) as f7. pose proof (f_equal pc_occ F) as f8. pose proof (f_equal cur_site F) as f9.
  pose proof (f_equal sel_id F) as f10. pose proof (f_equal cluster_count F) as f11. pose proof (f_equal largest_sz F) as f12.
  pose proof (f_equal largest_id F) as f13. pose proof (f_equal max_ent F) as f14. pose proof (f_equal after_wrap F) as f15.
  pose proof (f_equal wid F) as f16. pose proof (f_equal max_iter F) as f17. pose proof (f_equal pc_bonds F) as f18.
  pose proof (f_equal pc_sites F) as f19.
  cbn [frame kind lat pool ids rev_ids cur_idx occ_count pc_occ cur_site sel_id cluster_count largest_sz largest_id
       max_ent after_wrap wid max_iter pc_bonds pc_sites set_sp set_arrs set_first_run set_xy set_record set_tick
       set_sel_flag set_ent] in f1, f2, f3, f4, f5, f6, f7, f8, f9, f10, f11, f12, f13, f14, f15, f16, f17, f18, f19.
  destruct H. unfold WrapOK in *.
  constructor; unfold WrapOK; rewrite <- ?f1, <- ?f2, <- ?f3, <- ?f4, <- ?f5, <- ?f6, <- ?f7, <- ?f8, <- ?f9,
   <- ?f10, <- ?f11, <- ?f12, <- ?f13, <- ?f14, <- ?f15, <- ?f16, <- ?f17, <- ?f18, <- ?f19; auto.
Qed.

Lemma placed_inv E L s s1 x s' root : Inv L s -> Selected L s s1 (Ok SUCESS) ->
  sel_id s1 = Some x -> cur_site s1 = Some x -> Placed E L s1 x s' root -> Inv L s'.
Proof.
  intros H Sd Es Ec Pd. pose proof (selected_ClOK _ _ _ _ (i_cl _ _ H) Sd) as C1.
  pose proof (i_pos _ _ H) as HL.
  destruct (core_fields _ _ (sd_core _ _ _ _ Sd)) as (F1 & F2 & F3 & F4 & F5 & F6 & F7 & F8 & F9 & F10 & F11 & F12 & F13 & F14 & F15).
  destruct (core2_fields _ _ (pd_core _ _ _ _ _ _ Pd)) as (G1 & G2 & G3 & G4 & G5 & G6 & G7 & G8 & G9 & G10 & G11 & G12 & G13 & G14 & G15).
  pose proof (sd_res _ _ _ _ Sd) as (x' & Hx & Hun & Ex & _ & Eo).
  assert (x' = x) by congruence. subst x'. clear Ex.
  pose proof (pd_nocc _ _ _ _ _ _ C1 Pd) as Hn. rewrite (nocc_same L (lat s) (lat s1)) in Hn by apply (sd_lab _ _ _ _ Sd).
  pose proof (root_label _ _ _ _ _ _ C1 Pd) as Hrl.
  assert (Hn0 : 0 <= occ_count s) by (rewrite (i_occ _ _ H); apply count_nonneg).
  assert (Hbig0 : forall c, is_label L c -> bsize (pool s1) c <= Z.max 1 (largest_sz s)).
  { intros c Hc. rewrite F2. destruct (Z.eq_dec (occ_count s) 0) as [E0|E0].
    - pose proof (unocc_small L _ _ (i_cl _ _ H)) as U. rewrite <- (i_occ _ _ H) in U. specialize (U E0 c Hc). lia.
    - pose proof (proj2 (proj2 (i_big _ _ H ltac:(lia))) c Hc). lia. }
  assert (Hrp : 1 <= bsize (pool s') root).
  { assert (0 < bsize (pool s1) root).
    { destruct (nb_label_bond L x (lat s1) root HL Hx (pd_root _ _ _ _ _ _ Pd)) as (b & Hb & _ & ->).
      now apply (bsize_pos L). }
    pose proof (pd_bsize_ge _ _ _ _ _ _ C1 Pd root (pd_root _ _ _ _ _ _ Pd)). lia. }
  pose proof (pd_cl _ _ _ _ _ _ Pd) as C'.
  assert (Hmax : forall c, is_label L c -> bsize (pool s') c <= Z.max (bsize (pool s') root) (largest_sz s)).
  { intros c Hc. destruct (zmem c (nb_labels L x (lat s1))) eqn:Em.
    - destruct (Z.eq_dec c root); [subst; lia|].
      rewrite (pd_bsize_merged _ _ _ _ _ _ Pd c Hc Em n). lia.
    - rewrite (pd_bsize_other _ _ _ _ _ _ C1 Pd c Hc Em). pose proof (Hbig0 c Hc). lia. }
  constructor; rewrite ?G1, ?G2, ?G3, ?G4, ?G5, ?G7, ?G8, ?G9, ?G10, ?G13, ?F1, ?F3, ?F5, ?F8, ?F13; auto.
  - apply (sd_ids _ _ _ _ Sd).
  - apply (i_rev _ _ H).
  - apply (i_rev0 _ _ H).
  - right. exists x. auto.
  - rewrite Hn, Eo. now rewrite (i_occ _ _ H).
  - apply (i_cc _ _ H).
  - pose proof (sd_cur _ _ _ _ Sd). pose proof (i_cur _ _ H). lia.
  - intros Hk. rewrite (sd_len _ _ _ _ Sd). now apply (i_mi _ _ H).
  - intros i Hi. destruct (pd_nn _ _ _ _ _ _ Pd i) as (-> & ->). now apply (sd_nn _ _ _ _ Sd).
  - rewrite Eo. lia.
  - intros _. pose proof (pd_big _ _ _ _ _ _ Pd) as B. rewrite F6, F7 in B.
    destruct (Z.ltb_spec (largest_sz s) (bsize (pool s') root)) as [Hlt|Hge].
    + destruct B as (-> & ->). split; auto. split; auto. intros c Hc. specialize (Hmax c Hc). lia.
    + destruct B as (-> & ->).
      assert (Ho : 0 < occ_count s).
      { destruct (Z.eq_dec (occ_count s) 0) as [E0|]; [|lia].
        destruct (i_big0 _ _ H E0) as (E1 & _). lia. }
      destruct (i_big _ _ H Ho) as (B1 & B2 & B3). split; auto. split.
      * destruct (zmem (largest_id s) (nb_labels L x (lat s1))) eqn:Em.
        -- destruct (Z.eq_dec (largest_id s) root) as [Er|Er].
           ++ pose proof (pd_bsize_ge _ _ _ _ _ _ C1 Pd root (pd_root _ _ _ _ _ _ Pd)) as G.
              rewrite F2, <- Er, B2 in G. rewrite Er in *. lia.
           ++ apply zmem_In in Em. pose proof (pd_bsize_gt _ _ _ _ _ _ C1 Pd _ Em Er) as G.
              rewrite F2, B2 in G. lia.
        -- rewrite (pd_bsize_other _ _ _ _ _ _ C1 Pd _ B1 Em). now rewrite F2.
      * intros c Hc. specialize (Hmax c Hc). lia.
  - pose proof (i_wrap _ _ H) as W. pose proof (pd_wroot _ _ _ _ _ _ Pd) as Wr.
    unfold WrapOK in *. rewrite G11, G12, G6, G14, G15, G5, F10, F11, F4, F14, F15, Eo. rewrite F10, F11 in Wr.
    destruct (after_wrap s) eqn:Ew; auto.
    destruct W as (W1 & W2 & (i & Ei & Wi) & nb & ns & W3 & W4 & W5 & W6 & W7 & W8).
    assert (Hkeep : zmem (wid s) (nb_labels L x (lat s1)) = false \/ wid s = root).
    { destruct (zmem (wid s) (nb_labels L x (lat s1))) eqn:Em; auto. right. symmetry. apply Wr; auto. now apply zmem_In. }
    assert (Hsg : forall j, is_site L j -> sg (lat s) j = wid s -> sg (lat s') j = wid s).
    { intros j Hj Ej. rewrite (pd_sg _ _ _ _ _ _ Pd) by auto.
      assert (E1 : sg (lat s1) j = wid s) by (destruct (sd_lab _ _ _ _ Sd) as (_ & _ & Hl); now rewrite (proj1 (Hl j))).
      assert (j <> x) by (intros ->; rewrite (pd_un _ _ _ _ _ _ Pd) in E1; unfold is_label in W2; lia).
      destruct (Z.eqb_spec j x); [tauto|]. cbn [orb]. rewrite E1.
      destruct (zmem (wid s) _); destruct Hkeep; congruence || auto. }
    split; auto. split; auto. split.
    + destruct (proj1 (conj Wi Wi)) as (ds & Wk & _). destruct (walk_sites L _ _ _ _ Wk) as (Hi & _).
      exists i. split; auto. eapply wraps_at_mono; [|exact Wi]. intros j Hj Ej. auto.
    + exists nb, ns. split; auto. split; auto. split; auto. split; [lia|].
      pose proof (pd_ssize_mono _ _ _ _ _ _ C1 Pd (wid s) W2 Hkeep) as M1.
      pose proof (pd_bsize_mono _ _ _ _ _ _ C1 Pd (wid s) W2 Hkeep) as M2.
      rewrite F2 in M1, M2. split; lia.
  - apply (i_maxent _ _ H).
Qed.

(** ** Wrapping detection *)
Definition hit1 (lat : lattice) (x t : Z) : bool :=
  (sg lat t =? sg lat x) &&
  ((1 <? Z.abs (fst (rl lat x) - fst (rl lat t))) || (1 <? Z.abs (snd (rl lat x) - snd (rl lat t)))).
Definition hitb (L : Z) (lat : lattice) (x : Z) : bool := existsb (hit1 lat x) (map (nbr L x) all_dirs).

Lemma wrap_scan_ok L lat x l : Static L lat -> (forall t, In t l -> is_site L t) ->
  wrap_scan lat (rl lat x) (filter (fun t => sg lat t =? sg lat x) l) = Ok (existsb (hit1 lat x) l).
Proof.
  intros St. induction l as [|t l IH]; intros H; [reflexivity|]. cbn [filter existsb]. unfold hit1 at 1.
  destruct (sg lat t =? sg lat x) eqn:Eg; cbn [andb orb].
  - cbn [wrap_scan]. rewrite (get_site_by_id_ok L) by (auto; apply H; simpl; auto). cbn [rbind].
    fold (rl lat t). cbv zeta. destruct (_ || _); [reflexivity|]. apply IH. intros; apply H; simpl; auto.
  - apply IH. intros; apply H; simpl; auto.
Qed.

Definition wrapped (s : perc) (x : Z) : perc :=
  set_wrap true (sg (lat s) x) (occ_count s) (Some (bsize (pool s) (sg (lat s) x)))
    (Some (ssize (pool s) (sg (lat s) x))) s.
Definition detect_res (L : Z) (s : perc) : perc * res bool :=
  if after_wrap s then (s, Ok true) else
  match sel_id s with
  | None => (s, Err TypeError)
  | Some x => if hitb L (lat s) x then (wrapped s x, Ok true) else (s, Ok false)
  end.

Lemma hitb_occ L lat p x : ClOK L lat p -> is_site L x -> hitb L lat x = true -> occ lat x.
Proof.
  intros C Hx H. destruct (occ_dec lat x) as [Ho|Ho]; auto. exfalso.
  pose proof (st_pos _ _ (ck_static _ _ _ C)) as HL.
  apply existsb_exists in H as (t & Ht & H). apply in_map_iff in Ht as (d & <- & _).
  unfold hit1 in H. apply andb_true_iff in H as (Eg & H). apply Z.eqb_eq in Eg.
  assert (Ho' : ~ occ lat (nbr L x d)) by (unfold occ in *; now rewrite Eg).
  rewrite (ck_unocc _ _ _ C x), (ck_unocc _ _ _ C (nbr L x d)) in H; auto; [discriminate|].
  now apply nbr_site.
Qed.

Lemma detect_ok L s : ClOK L (lat s) (pool s) ->
  ((sel_id s = None /\ cur_site s = None) \/ exists i, is_site L i /\ sel_id s = Some i /\ cur_site s = Some i) ->
  detect_wrapping s = detect_res L s.
Proof.
  intros C Hsel. pose proof (ck_static _ _ _ C) as St. pose proof (st_pos _ _ St) as HL.
  unfold detect_wrapping, detect_res. unfold mbind at 1, get.
  destruct (after_wrap s); [reflexivity|].
  destruct Hsel as [(-> & _)|(x & Hx & -> & Hc)]; [reflexivity|].
  rewrite (mbind_ok _ _ _ s x) by reflexivity.
  rewrite (mbind_lift _ _ _ _ (get_sites_for_wrapping_test_ok L _ St x Hx)).
  rewrite Hc. rewrite (mbind_ok _ _ _ s x) by reflexivity.
  rewrite (mbind_lift _ _ _ _ (get_site_by_id_ok L _ St x Hx)). fold (rl (lat s) x).
  rewrite (mbind_lift _ _ _ (hitb L (lat s) x)).
  2:{ apply (wrap_scan_ok L); auto. intros t Ht. apply in_map_iff in Ht as (d & <- & _). now apply nbr_site. }
  destruct (hitb L (lat s) x) eqn:Eh; [|reflexivity].
  pose proof (hitb_occ _ _ _ _ C Hx Eh) as Ho. pose proof (sg_occ_label _ _ _ _ C Hx Ho) as Hl.
  rewrite (mbind_lift _ _ _ _ (get_site_by_id_ok L _ St x Hx)). fold (sg (lat s) x). cbv zeta.
  unfold mbind at 1, modify. rewrite (mbind_lift _ _ _ _ (get_bsize L _ _ _ C Hl)).
  unfold mbind at 1, modify. rewrite (mbind_lift _ _ _ _ (get_ssize L _ _ _ C Hl)).
  reflexivity.
Qed.

(** A hit exhibits a closed walk that does not cancel. *)
Lemma corr_bound L i j : 0 < L -> is_site L i -> is_site L j ->
  Z.abs (fst (corr L i j)) <= 1 /\ Z.abs (snd (corr L i j)) <= 1.
Proof.
  intros HL Hi Hj. rewrite corr_eq. cbn [fst snd]. unfold corr1.
  repeat match goal with |- context [?a <? ?b] => destruct (Z.ltb_spec a b) end; lia.
Qed.
Lemma hit_wraps L lat p x : ClOK L lat p -> is_site L x -> hitb L lat x = true ->
  3 <= L /\ wraps_at L (occ lat) x.
Proof.
  intros C Hx H. pose proof (hitb_occ _ _ _ _ C Hx H) as Ho.
  pose proof (st_pos _ _ (ck_static _ _ _ C)) as HL.
  apply existsb_exists in H as (t & Ht & H). apply in_map_iff in Ht as (d & <- & _).
  unfold hit1 in H. apply andb_true_iff in H as (Eg & H). apply Z.eqb_eq in Eg.
  assert (Hn : is_site L (nbr L x d)) by (now apply nbr_site).
  assert (Hon : occ lat (nbr L x d)) by (unfold occ in *; now rewrite Eg).
  split.
  - destruct (Z_le_dec L 2) as [H2|]; [|lia]. exfalso.
    pose proof (ck_small _ _ _ C H2 x (nbr L x d) Hx Hn Ho (eq_sym Eg)) as Es.
    unfold vsub, pos in Es. cbn [fst snd] in Es. injection Es as E1 E2.
    pose proof (row_bound L HL x Hx). pose proof (row_bound L HL _ Hn).
    pose proof (col_bound L HL x). pose proof (col_bound L HL (nbr L x d)).
    apply orb_true_iff in H as [H|H]; apply Z.ltb_lt in H; lia.
  - destruct (ck_walk _ _ _ C x (nbr L x d) Hx Hn Ho (eq_sym Eg)) as (ds & W & D).
    destruct (corr_walk L x d (occ lat) HL Hx Ho Hon) as (ds' & W' & D').
    exists (ds ++ map opp (rev ds')). split.
    + eapply walk_app; [exact W|]. now apply walk_rev.
    + rewrite disp_app, disp_rev, D, D'. pose proof (corr_bound L x (nbr L x d) HL Hx Hn) as (B1 & B2).
      destruct (corr L x (nbr L x d)) as [c1 c2].
      unfold vsub, vadd. cbn [fst snd] in *. intros E. injection E as E1 E2.
      apply orb_true_iff in H as [H|H]; apply Z.ltb_lt in H; lia.
Qed.

Lemma nocc_label L lat c : is_label L c -> count (fun j => sg lat j =? c) (zrange (L * L)) <= nocc L lat.
Proof.
  intros Hc. apply count_le. intros j _ E. apply Z.eqb_eq in E. apply occb_true. unfold occ, is_label in *. lia.
Qed.

Lemma wrapped_inv L s x : Inv L s -> is_site L x -> after_wrap s = false -> hitb L (lat s) x = true ->
  Inv L (wrapped s x).
Proof.
  intros H Hx Ew Hh. pose proof (i_cl _ _ H) as C. pose proof (i_pos _ _ H) as HL.
  destruct (hit_wraps _ _ _ _ C Hx Hh) as (H3 & Wx). pose proof (hitb_occ _ _ _ _ C Hx Hh) as Ho.
  pose proof (sg_occ_label _ _ _ _ C Hx Ho) as Hl.
  destruct H as [I1 I2 I3 I4 I5 I6 I7 I8 I9 I10 I11 I12 I13 I14]. constructor; auto.
  unfold WrapOK, wrapped. cbn [after_wrap set_wrap wid pc_occ pc_bonds pc_sites occ_count lat pool].
  split; auto. split; auto.
  assert (Wl : wraps_at L (fun j => sg (lat s) j = sg (lat s) x) x).
  { destruct Wx as (ds & W & D). exists ds. split; auto. apply (walk_label _ _ _ _ _ _ C W). }
  split; [exists x; auto|].
  exists (bsize (pool s) (sg (lat s) x)), (ssize (pool s) (sg (lat s) x)).
  split; auto. split; auto.
  assert (Hc : L <= ssize (pool s) (sg (lat s) x) <= occ_count s).
  { rewrite (ssize_count L (lat s)) by auto. rewrite I6. split; [|now apply nocc_label].
    apply (wraps_count L _ x HL). eapply wraps_at_mono; [|exact Wl]. cbv beta. intros. now apply Z.eqb_eq. }
  split; auto. split; [lia|]. split; [lia|].
  assert (0 < bsize (pool s) (sg (lat s) x)); [|lia].
  rewrite <- (ck_own _ _ _ C x DRight Hx Ho). apply (bsize_pos L); auto. now apply bond_dir_bond.
Qed.

Lemma detect_inv L s : Inv L s -> Inv L (fst (detect_wrapping s)).
Proof.
  intros H. rewrite (detect_ok L) by apply H. unfold detect_res.
  destruct (after_wrap s) eqn:Ew; auto. destruct (i_sel _ _ H) as [(-> & _)|(x & Hx & -> & _)]; auto.
  destruct (hitb L (lat s) x) eqn:Eh; auto. now apply wrapped_inv.
Qed.

Lemma place_inv E L s : env_ok E -> Inv L s -> Inv L (fst (place_one_site E s)).
Proof.
  intros HE H. destruct (place_spec E L s HE H) as (Sd & P).
  destruct (sel E L s) as [s1 r]. cbn [fst snd] in Sd. destruct r as [[]|e].
  - destruct P as (x & s' & root & E1 & E2 & -> & Pd). eapply placed_inv; eauto.
  - rewrite P. cbn [fst]. apply (inv_frame L s1); [reflexivity|]. eapply selected_inv; eauto. exact I.
  - rewrite P. cbn [fst]. apply (inv_frame L s1); [reflexivity|]. eapply selected_inv; eauto. exact I.
  - rewrite P. cbn [fst]. eapply selected_inv; eauto. exact I.
Qed.
