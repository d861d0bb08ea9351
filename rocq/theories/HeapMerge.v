(** * HeapMerge: merging and placing in the store. *)
From Coq Require Import ZArith List Bool Lia.
From Verif Require Import Py Lattice Cluster Perc PyFacts History Heap HeapFacts.
Import ListNotations.
Open Scope Z_scope.

Definition labelled (l : lattice) : Prop := Forall (fun b => 0 <= b_gid b) (l_bonds l).
Lemma lab_get l b g : labelled l -> get_bond_gid_by_id l b = Ok g -> 0 <= g.
Proof.
  unfold labelled, get_bond_gid_by_id. intros H E. apply rbind_ok in E as (x & Ex & E). injection E as <-.
  destruct (lget_pos _ _ _ Ex) as (k & _ & Hk). rewrite Forall_forall in H. apply H. eapply nth_error_In; eauto.
Qed.
Lemma lab_set_site l i g l' : set_site_gid_by_id l i g = Ok l' -> l_bonds l' = l_bonds l.
Proof. unfold set_site_gid_by_id. intros H. apply rbind_ok in H as (x & Ex & H). apply rbind_ok in H as (ss & Es & H). now injection H as <-. Qed.
Lemma lab_update l i f l' : update_site l i f = Ok l' -> l_bonds l' = l_bonds l.
Proof. unfold update_site. intros H. apply rbind_ok in H as (x & Ex & H). apply rbind_ok in H as (y & Ey & H). apply rbind_ok in H as (ss & Es & H). now injection H as <-. Qed.
Lemma lab_set_rel l i r l' : lat_set_relative_index l i r = Ok l' -> l_bonds l' = l_bonds l.
Proof. unfold lat_set_relative_index. intros H. apply rbind_ok in H as (x & Ex & H). apply rbind_ok in H as (y & Ey & H). apply rbind_ok in H as (ss & Es & H). now injection H as <-. Qed.
Lemma Forall_upd {A} (P : A -> Prop) (l : list A) : forall k x, Forall P l -> P x -> Forall P (upd l k x).
Proof. induction l as [|a l IH]; intros [|k] x H Hx; cbn; auto; inversion H; subst; constructor; auto. Qed.
Lemma lab_set_bond l i g l' : 0 <= g -> labelled l -> set_bond_gid_by_id l i g = Ok l' -> labelled l'.
Proof.
  intros Hg H. unfold set_bond_gid_by_id. intros E. apply rbind_ok in E as (x & Ex & E). apply rbind_ok in E as (ss & Es & E). injection E as <-.
  unfold labelled. cbn [l_bonds with_bonds]. unfold lset in Es. destruct (py_pos _ i); [|discriminate]. injection Es as <-. now apply Forall_upd.
Qed.
Lemma fold_keep {A B} (P : A -> Prop) (f : A -> B -> res A) (F : forall a x a', P a -> f a x = Ok a' -> P a') xs : forall a a', P a -> foldM f xs a = Ok a' -> P a'.
Proof. induction xs as [|x xs IH]; intros a a' Ha E; [cbn [foldM] in E; now injection E as <-|]. rewrite foldM_cons in E. apply rbind_ok in E as (a1 & E1 & E). eapply IH; [eapply F; eauto|exact E]. Qed.
Lemma lab_relabel l p c b l' : relabel_relative_indices l p c b = Ok l' -> l_bonds l' = l_bonds l.
Proof.
  unfold relabel_relative_indices. intros E. apply rbind_ok in E as (bd & Eb & E). cbv zeta in E. apply rbind_ok in E as (nb & En & E).
  apply rbind_ok in E as (sr & Er & E). destruct (zlen sr =? 0); [now injection E as <-|].
  apply rbind_ok in E as (ns & Ens & E). apply rbind_ok in E as (nr & Enr & E). apply rbind_ok in E as (cg & Ecg & E).
  destruct (0 <=? cg); [|now injection E as <-].
  refine (fold_keep (fun x => l_bonds x = l_bonds l) _ _ _ _ _ eq_refl E). intros a x a' Ha Q. apply lab_update in Q. congruence.
Qed.
Lemma lab_merge p a b l p' l' ca : merge_cluster_with p a b l = Ok (p', l') -> lget (p_list p) a = Ok ca -> 0 <= c_gid ca -> labelled l -> labelled l'.
Proof.
  unfold merge_cluster_with. intros E Ea Hg H. rewrite Ea in E. cbn [rbind] in E. apply rbind_ok in E as (cb & Eb & E).
  apply rbind_ok in E as (l1 & E1 & E). apply rbind_ok in E as (l2 & E2 & E).
  apply rbind_ok in E as (u1 & F1 & E). apply rbind_ok in E as (u2 & F2 & E). apply rbind_ok in E as (u3 & F3 & E). apply rbind_ok in E as (u4 & F4 & E). injection E as <- <-.
  assert (H1 : labelled l1). { refine (fold_keep labelled _ _ _ _ _ H E1). intros x y z Hx Q. eapply lab_set_bond; eauto. }
  refine (fold_keep labelled _ _ _ _ _ H1 E2). intros x y z Hx Q. apply lab_set_site in Q. unfold labelled in *. now rewrite Q.
Qed.

Lemma env_ok_in E (HE : env_ok E) l x : In x (e_ord E l) -> In x l.
Proof. apply HE. Qed.

Section Merge.
Variables (root : Z) (a : nat).
Hypothesis Hroot : 0 <= root.
Definition J (h : heap) : Prop := lget (h_cl h) root = Ok a /\ 0 <= o_gid (obj_at h a).
Lemma J_T h h' : T a h h' -> J h -> J h'.
Proof. intros Q (A & B). split; [now rewrite (t_cl _ _ _ Q)|now rewrite (t_root _ _ _ Q)]. Qed.

Lemma stp_fold (F : lattice * cpool -> Z -> res (lattice * cpool)) (f : Z -> HM unit) xs :
  (forall h x l p, wf h -> J h -> labelled (lat (load h)) -> F (lat (load h), pool (load h)) x = Ok (l, p) ->
     stp a (f x) h (set_pool p (set_lat l (load h))) tt /\ labelled l) ->
  forall h l p, wf h -> J h -> labelled (lat (load h)) -> foldM F xs (lat (load h), pool (load h)) = Ok (l, p) ->
    stp a (hfor xs f) h (set_pool p (set_lat l (load h))) tt /\ labelled l.
Proof.
  intros S. induction xs as [|x xs IH]; intros h l p W Jh Lh E.
  - assert (l = lat (load h) /\ p = pool (load h)) as (-> & ->) by (cbn [foldM] in E; split; congruence). rewrite set_lat_id, set_pool_id. split; auto. now apply stp_ret.
  - rewrite foldM_cons in E. apply rbind_ok in E as ((l1 & p1) & E1 & E). destruct (S h x l1 p1 W Jh Lh E1) as ((h1 & R1 & L1 & W1 & T1) & Lb).
    destruct (IH h1 l p W1 (J_T _ _ T1 Jh)) as (Q1 & Q2); [rewrite L1; exact Lb|rewrite L1; exact E|]. split; [|exact Q2].
    cbn [hfor]. apply (stp_step _ _ _ _ h1 tt); auto. rewrite L1 in Q1. exact Q1.
Qed.
Lemma addr_other h g b : J h -> lget (h_cl h) g = Ok b -> 0 <= g -> g <> root -> wf h -> a <> b.
Proof.
  intros (Ea & _) Eb Hg Ng W Q. subst b. destruct (lget_pos _ _ _ Ea) as (k & Ek & Hk). destruct (lget_pos _ _ _ Eb) as (k' & Ek' & Hk').
  assert (k = k'). { apply (NoDup_nth_error (h_cl h)); [apply (w_nd _ W)|apply nth_error_Some; congruence|congruence]. }
  subst k'. unfold py_pos in Ek, Ek'. destruct (0 <=? root) eqn:E1; [|lia]. destruct (0 <=? g) eqn:E2; [|lia]. cbn in Ek, Ek'.
  destruct (root <? zlen (h_cl h)) eqn:E3; [|rewrite andb_comm in Ek; destruct (root <? 0) eqn:?; [lia|discriminate]].
  destruct (g <? zlen (h_cl h)) eqn:E4; [|rewrite andb_comm in Ek'; destruct (g <? 0) eqn:?; [lia|discriminate]].
  injection Ek as <-. injection Ek' as Q. apply Z2Nat.inj in Q; lia.
Qed.

Lemma stp_merge E h sel cur aw w bn l p : env_ok E -> wf h -> J h -> labelled (lat (load h)) -> after_wrap (load h) = aw -> wid (load h) = w ->
  merge_clusters_v2 E (lat (load h)) (pool (load h)) sel cur aw w bn = Ok (l, p, root) ->
  stp a (h_merge_clusters_v2 E sel cur bn) h (set_pool p (set_lat l (load h))) root.
Proof.
  intros HE W Jh Lh Eaw Ew M. unfold merge_clusters_v2 in M. apply rbind_ok in M as (bs & Ebs & M). apply rbind_ok in M as (gs & Egs & M).
  apply rbind_ok in M as (r0 & Er0 & M). apply rbind_ok in M as (rt & Ert & M). apply rbind_ok in M as ((l1 & p1) & E1 & M).
  apply rbind_ok in M as ((l2 & p2) & E2 & M). apply rbind_ok in M as (p3 & E3 & M). injection M as -> -> ->.
  unfold h_merge_clusters_v2. apply stp_bget; auto. intros h0 L0 W0 T0. pose proof (J_T _ _ T0 Jh) as J0. rewrite Eaw, Ew.
  apply (stp_bres a _ bs); auto. apply (stp_bres a _ gs); auto. apply (stp_bres a _ r0); auto. apply (stp_bres a _ root); auto.
  rewrite <- L0 in E1 |- *. assert (Lb0 : labelled (lat (load h0))) by now rewrite L0.
  match type of E1 with foldM ?F _ _ = _ => match goal with |- stp _ (hbind (hfor _ ?f) _) _ _ _ => destruct (stp_fold F f bs) with (h := h0) (l := l1) (p := p1) as ((h1 & R1 & G1 & W1 & T1) & Lb1); auto end end.
  { clear h0 L0 W0 T0 J0 E1 Lb0. intros h0 x lx px Wx Jx Lx Q. cbn beta iota in Q. apply rbind_ok in Q as (g & Eg & Q).
    destruct (g =? root) eqn:Egr.
    - apply rbind_ok in Q as (la & Ela & Q). apply rbind_ok in Q as (pa & Epa & Q). apply rbind_ok in Q as (nb & Enb & Q). apply rbind_ok in Q as (gn & Egn & Q).
      assert (Lla : labelled la) by (unfold labelled in *; now rewrite (lab_set_site _ _ _ _ Ela)). split.
      2: { destruct (0 <=? gn); [|now injection Q as <- _]. apply rbind_ok in Q as (rr & Err & Q). apply rbind_ok in Q as (lb & Elb & Q). injection Q as <- _.
           unfold labelled in *. now rewrite (lab_set_rel _ _ _ _ Elb). }
      apply stp_bget; auto. intros h2 L2 W2 T2. apply (stp_bres a _ g); auto. rewrite Egr. rewrite <- L2 in Ela, Epa |- *.
      eapply stp_bind; [apply stp_lat; [exact W2|exact Ela|eapply rels_set_site; exact Ela]|]. intros h3 L3 W3 T3.
      assert (J3 : J h3) by (eapply J_T; [exact T3|]; eapply J_T; [exact T2|]; exact Jx).
      assert (Epa3 : pool_add_site (pool (load h3)) root sel = Ok pa) by (rewrite L3; exact Epa).
      eapply stp_bind; [apply stp_add_site; [exact W3|exact (proj1 J3)|exact Epa3]|]. intros h4 L4 W4 T4.
      assert (L4' : load h4 = set_pool pa (set_lat la (load h2))) by (rewrite L4, L3; reflexivity).
      apply stp_bget; auto. intros h5 L5 W5 T5. apply (stp_bres a _ nb); [rewrite L4'; exact Enb|]. apply (stp_bres a _ gn); [rewrite L4'; exact Egn|].
      destruct (0 <=? gn).
      + apply rbind_ok in Q as (rr & Err & Q). apply rbind_ok in Q as (lb & Elb & Q). injection Q as <- <-.
        assert (Ll5 : lat (load h5) = la) by (rewrite L5, L4'; reflexivity). rewrite <- Ll5 in Err, Elb. destruct (get_rel_index h5 nb sel rr W5 Err) as (v & Ev & Vv & Cv).
        apply stp_hget. apply (stp_bres a _ v); auto. rewrite <- Vv in Elb.
        pose proof (stp_set_relative_index a h5 sel v lb W5 Cv Elb) as Z. rewrite L5, L4' in Z. exact Z.
      + injection Q as <- <-. pose proof (stp_ret a tt h5 W5) as Z. rewrite L5, L4' in Z. exact Z.
    - assert (lx = lat (load h0) /\ px = pool (load h0)) as (-> & ->) by (split; congruence). split; auto.
      rewrite set_lat_id, set_pool_id. apply stp_bget; auto. intros h2 L2 W2 T2. apply (stp_bres a _ g); auto. rewrite Egr, <- L2. now apply stp_ret. }
  apply (stp_step _ _ _ _ h1 tt); auto. pose proof (J_T _ _ T1 J0) as J1. clear R1.
  assert (E2' : foldM (fun '(lat, p) bb =>
      bbg <- get_bond_gid_by_id lat bb ;;
      if bbg =? root then Ok (lat, p) else
      lat <- relabel_relative_indices lat p cur bb ;;
      '(p, lat) <- merge_cluster_with p root bbg lat ;;
      Ok (lat, p)) bs (lat (load h1), pool (load h1)) = Ok (l, p2)) by (rewrite G1; exact E2). clear E2.
  assert (Lb1' : labelled (lat (load h1))) by now rewrite G1.
  match type of E2' with foldM ?F _ _ = _ => match goal with |- stp _ (hbind (hfor _ ?f) _) _ _ _ => destruct (stp_fold F f bs) with (h := h1) (l := l) (p := p2) as ((h2 & R2 & G2 & W2 & T2) & Lb2); auto end end.
  { clear - Hroot. intros h0 x lx px Wx Jx Lx Q. cbn beta iota in Q. apply rbind_ok in Q as (g & Eg & Q). pose proof (lab_get _ _ _ Lx Eg) as Hg.
    destruct (g =? root) eqn:Egr.
    - assert (lx = lat (load h0) /\ px = pool (load h0)) as (-> & ->) by (split; congruence). split; auto.
      rewrite set_lat_id, set_pool_id. apply stp_bget; auto. intros h2 L2 W2 T2. apply (stp_bres a _ g); auto. rewrite Egr, <- L2. now apply stp_ret.
    - apply rbind_ok in Q as (la & Ela & Q). apply rbind_ok in Q as ((pb & lb) & Em & Q). injection Q as <- <-.
      assert (Lla : labelled la) by (unfold labelled in *; now rewrite (lab_relabel _ _ _ _ _ Ela)). split.
      2: { eapply lab_merge; [exact Em|rewrite pool_get, (proj1 Jx); reflexivity|exact (proj2 Jx)|exact Lla]. }
      apply stp_bget; auto. intros h2 L2 W2 T2. apply (stp_bres a _ g); auto. rewrite Egr. pose proof (J_T _ _ T2 Jx) as J2.
      rewrite <- L2 in Ela, Em |- *. eapply stp_bind; [apply stp_relabel; [exact W2|exact Ela]|]. intros h3 L3 W3 T3. pose proof (J_T _ _ T3 J2) as J3.
      assert (Em3 : merge_cluster_with (pool (load h3)) root g (lat (load h3)) = Ok (pb, lb)) by (rewrite L3; exact Em).
      assert (Hb : exists b, lget (h_cl h3) g = Ok b).
      { unfold merge_cluster_with in Em3. rewrite !pool_get in Em3. apply rbind_ok in Em3 as (u & _ & Em3). apply rbind_ok in Em3 as (v & Ev & _). apply rbind_ok in Ev as (b & Eb & _). eauto. }
      destruct Hb as (b & Eb). pose proof (stp_merge_with a b h3 root g pb lb W3 (proj1 J3) Eb) as Z.
      rewrite L3 in Z. apply Z; [|rewrite L3 in Em3; exact Em3]. apply (addr_other h3 g); auto. lia. }
  apply (stp_step _ _ _ _ h2 tt); auto. pose proof (J_T _ _ T2 J1) as J2. clear R2 T2 T1 T0.
  assert (Hgs : forall g, In g gs -> 0 <= g).
  { unfold get_bond_gids in Egs. apply rbind_ok in Egs as (g0 & Eg0 & Egs). injection Egs as <-. intros g Hg. apply (env_ok_in E HE) in Hg.
    clear - Eg0 Hg Lh. revert g0 Eg0 Hg. induction bs as [|b bs IH]; intros g0 Eg0 Hg; cbn [mapM] in Eg0; [injection Eg0 as <-; destruct Hg|].
    apply rbind_ok in Eg0 as (y & Ey & Eg0). apply rbind_ok in Eg0 as (ys & Eys & Eg0). injection Eg0 as <-. destruct Hg as [->|Hg]; [eapply lab_get; eauto|eauto]. }
  assert (Pp : pool (load h2) = p2) by (rewrite G2; reflexivity). rewrite <- Pp in E3.
  assert (K : forall xs h p, (forall g, In g xs -> 0 <= g) -> wf h -> J h -> foldM (fun p bbg => if bbg =? root then Ok p else clear_cluster p bbg) xs (pool (load h)) = Ok p ->
    stp a (hfor xs (fun bbg => if bbg =? root then hret tt else h_clear_cluster bbg)) h (set_pool p (load h)) tt).
  { clear - Hroot. induction xs as [|x xs IH]; intros h p Hx W Jh E.
    - assert (p = pool (load h)) as -> by (cbn [foldM] in E; congruence). rewrite set_pool_id. now apply stp_ret.
    - rewrite foldM_cons in E. apply rbind_ok in E as (p1 & E1 & E). cbn [hfor]. destruct (x =? root) eqn:Ex.
      + assert (p1 = pool (load h)) as -> by congruence. apply (stp_step _ _ _ _ h tt); [reflexivity|apply T_refl|]. apply IH; auto. intros; apply Hx; now right.
      + assert (Hb : exists b, lget (h_cl h) x = Ok b). { unfold clear_cluster in E1. rewrite pool_get in E1. apply rbind_ok in E1 as (u & Eu & _). apply rbind_ok in Eu as (b & Eb & _). eauto. }
        destruct Hb as (b & Eb). assert (Nab : a <> b). { apply (addr_other h x); auto; [apply Hx; now left|lia]. }
        destruct (stp_clear a b h x p1 W Eb (not_eq_sym Nab) E1) as (h1 & R1 & L1 & W1 & T1). apply (stp_step _ _ _ _ h1 tt); auto.
        specialize (IH h1 p (fun g Hg => Hx g (or_intror Hg)) W1 (J_T _ _ T1 Jh)). rewrite L1 in IH. exact (IH E). }
  destruct (K gs h2 p Hgs W2 J2 E3) as (h3 & R3 & G3 & W3 & T3). apply (stp_step _ _ _ _ h3 tt); auto.
  pose proof (stp_ret a root h3 W3) as Z. rewrite G3, G2, G1 in Z. exact Z.
Qed.
End Merge.
