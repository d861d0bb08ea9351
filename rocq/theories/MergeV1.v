(** * MergeV1: what the unused merge_clusters does (C102), and the label queries (C103). *)
From Coq Require Import ZArith List Bool Lia.
From Verif Require Import Py Lattice Cluster Perc Spec PyFacts Torus Geometry LatFacts Inv Merge Count Fresh Select State Step History Reach Micro StateProps Extra.
Import ListNotations.
Open Scope Z_scope.

Lemma mapM_all {A B} (f : A -> res B) (g : A -> B) l : (forall a, In a l -> f a = Ok (g a)) -> mapM f l = Ok (map g l).
Proof.
  induction l as [|a l IH]; intros H; [reflexivity|]. cbn [mapM map]. rewrite H by (now left). cbn [rbind].
  rewrite IH by (intros; apply H; now right). reflexivity.
Qed.

(** ** The label queries *)
Lemma p_bond_gids E L s bs : env_ok E -> reachable E L s -> Forall (is_bond L) bs ->
  exists gs, get_bond_gids E (lat s) bs = Ok gs /\ NoDup gs /\ forall g, In g gs <-> exists b, In b bs /\ bond_label s b = g.
Proof.
  intros HE HR Hb. pose proof (reachable_inv _ _ _ HE HR) as I. pose proof (i_static _ _ I) as St. rewrite Forall_forall in Hb.
  unfold get_bond_gids. rewrite (mapM_all _ (bg (lat s))) by (intros b B; apply (get_bond_gid_ok L); auto). cbn [rbind].
  eexists. split; [reflexivity|]. destruct (HE (map (bg (lat s)) bs)) as (N & In'). split; auto.
  intros g. rewrite In', in_map_iff. split; intros (b & B1 & B2); exists b.
  - rewrite (bond_label_bg L) by auto. auto.
  - rewrite (bond_label_bg L) in B2 by auto. auto.
Qed.
Lemma p_site_gids E L s is : env_ok E -> reachable E L s -> Forall (is_site L) is ->
  exists gs, get_site_gids E (lat s) is = Ok gs /\ NoDup gs /\ forall g, In g gs <-> exists i, In i is /\ site_label s i = g.
Proof.
  intros HE HR Hb. pose proof (reachable_inv _ _ _ HE HR) as I. pose proof (i_static _ _ I) as St. rewrite Forall_forall in Hb.
  unfold get_site_gids. rewrite (mapM_all _ (sg (lat s))) by (intros b B; rewrite (get_site_by_id_ok L); auto). cbn [rbind].
  eexists. split; [reflexivity|]. destruct (HE (map (sg (lat s)) is)) as (N & In'). split; auto.
  intros g. rewrite In', in_map_iff. split; intros (b & B1 & B2); exists b.
  - rewrite (site_label_sg L) by auto. auto.
  - rewrite (site_label_sg L) in B2 by auto. auto.
Qed.

(** ** merge_clusters *)
Lemma root_loop_v1_ok L lat p : ClOK L lat p -> forall l ref root, (forall g, In g l -> is_label L g) -> 0 <= ref ->
  exists r, root_loop_v1 p l ref root = Ok r /\
    ((r = root /\ forall g, In g l -> bsize p g < ref) \/ (In r l /\ ref <= bsize p r /\ forall g, In g l -> bsize p g <= bsize p r)).
Proof.
  intros C. induction l as [|g l IH]; intros ref root Hl Hr.
  { exists root. split; [reflexivity|]. left. split; auto. intros g []. }
  cbn [root_loop_v1]. rewrite (get_bsize L lat) by (auto; apply Hl; now left). cbn [rbind].
  destruct (Z.leb_spec ref (bsize p g)) as [Hle|Hlt].
  - destruct (IH (bsize p g) g) as (r & Er & [(-> & Q)|(Q1 & Q2 & Q3)]); [intros; apply Hl; now right|lia| |].
    + exists g. split; auto. right. split; [now left|]. split; [lia|]. intros h [<-|Hh]; [lia|]. specialize (Q h Hh). lia.
    + exists r. split; auto. right. split; [now right|]. split; [lia|]. intros h [<-|Hh]; [lia|]. now apply Q3.
  - destruct (IH ref root) as (r & Er & [(-> & Q)|(Q1 & Q2 & Q3)]); [intros; apply Hl; now right|lia| |].
    + exists root. split; auto. left. split; auto. intros h [<-|Hh]; auto.
    + exists r. split; auto. right. split; [now right|]. split; auto. intros h [<-|Hh]; [lia|]. now apply Q3.
Qed.

Definition v1_body (root : Z) : lattice * cpool -> Z -> res (lattice * cpool) :=
  fun '(lat, p) bb => if bb =? root then Ok (lat, p) else '(p, lat) <- merge_cluster_with p root bb lat ;; Ok (lat, p).

(** State after merging the labels [dg] into [root]. *)
Record V1 (L : Z) (lat0 : lattice) (p0 : cpool) (root : Z) (dg : list Z) (lat : lattice) (p : cpool) : Prop := mkV1 {
  v_static : Static L lat;
  v_len : zlen (p_list p) = 2 * (L * L);
  v_other : forall c, c <> root -> cl p c = cl p0 c;
  v_gid : c_gid (cl p root) = root;
  v_size : bsize p root = bsize p0 root + fold_right Z.add 0 (map (bsize p0) dg);
  v_bg : forall b, is_bond L b -> bg lat b = if zmem (bg lat0 b) dg then root else bg lat0 b;
  v_sg : forall i, is_site L i -> sg lat i = if zmem (sg lat0 i) dg then root else sg lat0 i
}.

Lemma v1_loop L lat0 p0 root : ClOK L lat0 p0 -> is_label L root ->
  forall gs dg lat p, V1 L lat0 p0 root dg lat p -> (forall g, In g gs -> is_label L g) -> NoDup gs ->
  (forall g, In g gs -> ~ In g dg) -> ~ In root dg ->
  exists lat' p', foldM (v1_body root) gs (lat, p) = Ok (lat', p') /\
    V1 L lat0 p0 root (filter (fun g => negb (g =? root)) (rev gs) ++ dg) lat' p'.
Proof.
  intros C Hr. induction gs as [|g gs IH]; intros dg lat p V Hl Hn Hd Hrd.
  { exists lat, p. split; [reflexivity|exact V]. }
  cbn [foldM rev]. inversion Hn as [|? ? Hn1 Hn2]; subst. unfold v1_body at 1. rewrite filter_app. cbn [filter].
  destruct (Z.eqb_spec g root) as [->|Hgr]; cbn [negb rbind].
  { rewrite app_nil_r. apply IH; auto; [intros; apply Hl; now right|]. intros h Hh. apply Hd. now right. }
  assert (Hgl : is_label L g) by (apply Hl; now left).
  pose proof (ck_pool _ _ _ C) as Pk. destruct (pk_bonds _ _ _ _ Pk g Hgl (fun x => x)) as (NB & IB). destruct (pk_sites _ _ _ _ Pk g Hgl (fun x => x)) as (NS & IS).
  destruct (merge_cluster_with_ok L p root g lat) as (p' & lat' & EM & S' & L' & _ & Hcl & Hb & Hs).
  { apply V. } { apply V. } { exact Hr. } { exact Hgl. } { auto. }
  { rewrite (v_other _ _ _ _ _ _ _ V) by auto. intros b Hb. now apply IB in Hb. }
  { rewrite (v_other _ _ _ _ _ _ _ V) by auto. exact NS. }
  { rewrite (v_other _ _ _ _ _ _ _ V) by auto. intros b Hb. now apply IS in Hb. }
  { apply V. }
  rewrite EM. cbn [rbind]. rewrite (v_other _ _ _ _ _ _ _ V g) in Hcl, Hb, Hs by auto.
  destruct (IH (g :: dg) lat' p') as (lat2 & p2 & E2 & V2).
  - constructor; auto.
    + intros c Hc. rewrite Hcl. destruct (Z.eqb_spec c root); [contradiction|]. now apply V.
    + rewrite Hcl, Z.eqb_refl. apply V.
    + unfold bsize at 1. rewrite Hcl, Z.eqb_refl. cbn [c_bonds map fold_right]. rewrite zlen_app.
      change (zlen (c_bonds (cl p root))) with (bsize p root). rewrite (v_size _ _ _ _ _ _ _ V). change (zlen (c_bonds (cl p0 g))) with (bsize p0 g). lia.
    + intros b Hbb. unfold bg at 1. rewrite Hb, zmem_cons. destruct (zmem_spec b (c_bonds (cl p0 g))) as [Q|Q].
      * apply IB in Q as (_ & ->). rewrite Z.eqb_refl. reflexivity.
      * fold (bg lat b). rewrite (v_bg _ _ _ _ _ _ _ V b Hbb). destruct (Z.eqb_spec (bg lat0 b) g) as [Q'|Q']; [exfalso; apply Q, IB; auto|reflexivity].
    + intros i Hi. unfold sg at 1. rewrite Hs, zmem_cons. destruct (zmem_spec i (c_sites (cl p0 g))) as [Q|Q].
      * apply IS in Q as (_ & ->). rewrite Z.eqb_refl. reflexivity.
      * fold (sg lat i). rewrite (v_sg _ _ _ _ _ _ _ V i Hi). destruct (Z.eqb_spec (sg lat0 i) g) as [Q'|Q']; [exfalso; apply Q, IS; auto|reflexivity].
  - intros h Hh. apply Hl. now right.
  - exact Hn2.
  - intros h Hh [<-|Q]; [contradiction|]. apply (Hd h); auto. now right.
  - intros [Q|Q]; [now apply Hgr|contradiction].
  - exists lat2, p2. split; [exact E2|]. rewrite <- app_assoc. exact V2.
Qed.

Lemma sum_over_bump (f g : Z -> Z) a k n : 0 <= a < n -> (forall c, 0 <= c < n -> g c = if c =? a then f a + k else f c) ->
  sum_over g n = sum_over f n + k.
Proof.
  intros Ha Hg. unfold sum_over.
  assert (K : forall l, NoDup l -> (forall c, In c l -> 0 <= c < n) ->
    fold_right Z.add 0 (map g l) = fold_right Z.add 0 (map f l) + (if zmem a l then k else 0)).
  { induction l as [|x l IH]; intros N H; [cbn; lia|]. inversion N; subst. cbn [map fold_right]. rewrite zmem_cons, IH by (auto; intros; apply H; now right).
    rewrite Hg by (apply H; now left). rewrite (Z.eqb_sym a x). destruct (Z.eqb_spec x a); cbn [orb]; [|lia].
    subst. destruct (zmem_spec a l); [contradiction|]. lia. }
  rewrite K.
  - destruct (zmem_spec a (zrange n)) as [|Q]; [lia|]. exfalso. apply Q. now apply In_zrange.
  - apply NoDup_zrange.
  - intros c. apply In_zrange.
Qed.

Lemma p_merge_v1 E L s bs : env_ok E -> reachable E L s -> Forall (is_bond L) bs -> bs <> [] ->
  let joined b := exists b', In b' bs /\ bond_label s b' = bond_label s b in
  let touched i := exists b', In b' bs /\ bond_label s b' = site_label s i in
  let size t c := zlen (cluster_bonds t c) in
  exists s' root, merge_clusters E bs s = (s', Ok root) /\
    (exists b, In b bs /\ bond_label s b = root) /\ (forall b, In b bs -> size s (bond_label s b) <= size s root) /\
    (forall b, is_bond L b -> (joined b -> bond_label s' b = root) /\ (~ joined b -> bond_label s' b = bond_label s b)) /\
    (forall i, is_site L i -> (touched i -> site_label s' i = root) /\ (~ touched i -> site_label s' i = site_label s i)) /\
    (forall c, 0 <= c < 2 * (L * L) -> c <> root -> cluster_bonds s' c = cluster_bonds s c /\ cluster_sites s' c = cluster_sites s c) /\
    2 * (L * L) <= sum_over (size s') (2 * (L * L)) /\
    (sum_over (size s') (2 * (L * L)) = 2 * (L * L) <-> forall b b', In b bs -> In b' bs -> bond_label s b = bond_label s b').
Proof.
  intros HE HR Hb Hne joined touched size. pose proof (reachable_inv _ _ _ HE HR) as I. pose proof (i_static _ _ I) as St. pose proof (i_cl _ _ I) as C.
  pose proof (p_C12 E L s HE HR) as (_ & _ & _ & Htot). fold (size s) in Htot. pose proof (inv_plen _ _ I) as Hp.
  destruct (p_bond_gids E L s bs HE HR Hb) as (gs & Eg & Ng & Ig). rewrite Forall_forall in Hb.
  assert (Lg : forall g, In g gs -> is_label L g).
  { intros g Hg. apply Ig in Hg as (b & Hbb & <-). rewrite (bond_label_bg L) by auto. apply (ck_blab _ _ _ C). auto. }
  unfold merge_clusters. unfold mbind at 1. change (get s) with (s, Ok s). cbv beta iota. unfold merge_clusters_in. rewrite Eg. cbn [rbind].
  destruct (root_loop_v1_ok L (lat s) (pool s) C gs 0 0 Lg ltac:(lia)) as (root & Er & [(_ & Q)|(Q1 & _ & Q3)]).
  { exfalso. destruct bs as [|b bs]; [tauto|]. assert (H : In (bond_label s b) gs) by (apply Ig; exists b; split; [now left|auto]).
    specialize (Q _ H). unfold bsize in Q. pose proof (zlen_nonneg (c_bonds (cl (pool s) (bond_label s b)))). lia. }
  rewrite Er. cbn [rbind]. pose proof (Lg _ Q1) as Hrl.
  assert (Hgid : c_gid (cl (pool s) root) = root).
  { apply (pk_gid _ _ _ _ (ck_pool _ _ _ C)); auto. apply Ig in Q1 as (b & Hbb & <-). intros Q.
    assert (In b (c_bonds (cl (pool s) (bond_label s b)))); [|rewrite Q in H; destruct H].
    apply (pk_bonds _ _ _ _ (ck_pool _ _ _ C)); auto. split; [auto|]. now rewrite (bond_label_bg L) by auto. }
  destruct (v1_loop L (lat s) (pool s) root C Hrl gs [] (lat s) (pool s)) as (lat' & p' & El & V); auto.
  { constructor; auto. cbn. lia. }
  change (foldM (fun '(lat, p) bb => _) gs (lat s, pool s)) with (foldM (v1_body root) gs (lat s, pool s)).
  rewrite El. cbn [rbind lift]. unfold mbind, modify, ret, lift. cbv beta iota. rewrite app_nil_r in V.
  set (dg := filter (fun g => negb (g =? root)) (rev gs)) in *.
  assert (Hdg : forall g, In g dg <-> In g gs /\ g <> root).
  { intros g. unfold dg. rewrite filter_In, <- in_rev, negb_true_iff, Z.eqb_neq. reflexivity. }
  exists (set_pool p' (set_lat lat' s)), root. set (s' := set_pool p' (set_lat lat' s)).
  assert (St' : Static L (lat s')) by apply V. assert (Hp' : zlen (p_list (pool s')) = 2 * (L * L)) by apply V.
  split; [reflexivity|]. split; [now apply Ig|]. split.
  { intros b Hbb. unfold size. assert (Hg : In (bond_label s b) gs) by (apply Ig; eauto).
    rewrite !(cluster_bonds_cl L) by auto. now apply Q3. }
  split.
  { intros b Hbb. rewrite !(bond_label_bg L) by auto. change (lat s') with lat'. rewrite (v_bg _ _ _ _ _ _ _ V b Hbb).
    split; intros J.
    - destruct J as (b' & B1 & B2). destruct (zmem_spec (bg (lat s) b) dg) as [|Q]; auto.
      rewrite !(bond_label_bg L) in B2 by auto. destruct (Z.eq_dec (bg (lat s) b) root); auto. exfalso. apply Q, Hdg. split; auto.
      apply Ig. exists b'. now rewrite (bond_label_bg L) by auto.
    - destruct (zmem_spec (bg (lat s) b) dg) as [Q|]; auto. exfalso. apply J. apply Hdg in Q as (Q & _). apply Ig in Q as (b' & B1 & B2).
      exists b'. split; auto. now rewrite (bond_label_bg L s b) by auto. }
  split.
  { intros i Hi. rewrite !(site_label_sg L) by auto. change (lat s') with lat'. rewrite (v_sg _ _ _ _ _ _ _ V i Hi).
    split; intros J.
    - destruct J as (b' & B1 & B2). destruct (zmem_spec (sg (lat s) i) dg) as [|Q]; auto.
      rewrite (site_label_sg L) in B2 by auto. destruct (Z.eq_dec (sg (lat s) i) root); auto. exfalso. apply Q, Hdg. split; auto.
      apply Ig. eauto.
    - destruct (zmem_spec (sg (lat s) i) dg) as [Q|]; auto. exfalso. apply J. apply Hdg in Q as (Q & _). apply Ig in Q as (b' & B1 & B2).
      exists b'. split; auto. now rewrite (site_label_sg L s i) by auto. }
  split.
  { intros c Hc Hcr. rewrite !(cluster_bonds_cl L), !(cluster_sites_cl L) by auto. change (pool s') with p'. rewrite (v_other _ _ _ _ _ _ _ V c Hcr). auto. }
  assert (Hsum : sum_over (size s') (2 * (L * L)) = 2 * (L * L) + fold_right Z.add 0 (map (bsize (pool s)) dg)).
  { rewrite (sum_over_bump (size s) (size s') root (fold_right Z.add 0 (map (bsize (pool s)) dg))).
    - rewrite Htot. reflexivity.
    - exact Hrl.
    - intros c Hc. unfold size. rewrite !(cluster_bonds_cl L) by auto. change (pool s') with p'. destruct (Z.eqb_spec c root) as [->|Q].
      + apply (v_size _ _ _ _ _ _ _ V).
      + now rewrite (v_other _ _ _ _ _ _ _ V c Q). }
  assert (Hpos : forall g, In g dg -> 0 < bsize (pool s) g).
  { intros g Hg. apply Hdg in Hg as (Hg & _). apply Ig in Hg as (b & B1 & <-). rewrite (bond_label_bg L) by auto. apply (bsize_pos L (lat s)); auto. }
  assert (Hge : 0 <= fold_right Z.add 0 (map (bsize (pool s)) dg) /\ (fold_right Z.add 0 (map (bsize (pool s)) dg) = 0 <-> dg = [])).
  { clear - Hpos. induction dg as [|g l IH]; [cbn; split; [lia|tauto]|]. cbn [map fold_right].
    destruct IH as (A & _); [intros; apply Hpos; now right|]. pose proof (Hpos g (or_introl eq_refl)). split; [lia|]. split; [lia|discriminate]. }
  rewrite Hsum. split; [lia|]. split.
  - intros Q b b' B1 B2. assert (D0 : dg = []) by (apply Hge; lia).
    assert (K : forall b, In b bs -> bond_label s b = root).
    { intros x Hx. destruct (Z.eq_dec (bond_label s x) root); auto. exfalso.
      assert (In (bond_label s x) dg) by (apply Hdg; split; auto; apply Ig; eauto). rewrite D0 in H. destruct H. }
    now rewrite !K.
  - intros Q. assert (D0 : dg = []).
    { destruct dg as [|g l]; auto. exfalso. destruct (proj1 (Hdg g) (or_introl eq_refl)) as (G1 & G2). apply G2.
      apply Ig in G1 as (b & B1 & <-). apply Ig in Q1 as (b' & B2 & <-). auto. }
    rewrite D0. cbn. lia.
Qed.
Lemma p_merge_v1_empty E s : env_ok E -> merge_clusters E [] s = (s, Ok 0).
Proof.
  intros HE. unfold merge_clusters. unfold mbind at 1. change (get s) with (s, Ok s). cbv beta iota. unfold merge_clusters_in, get_bond_gids. cbn [mapM rbind].
  assert (e_ord E [] = []) as ->.
  { destruct (HE []) as (_ & Q). destruct (e_ord E []) as [|x l]; auto. exfalso. apply (Q x). now left. }
  cbn [rbind root_loop_v1 foldM]. unfold mbind, lift, modify, ret. cbv beta iota. destruct s. reflexivity.
Qed.
