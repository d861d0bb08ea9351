(** * Fresh: initial clusters, shuffling. *)
From Coq Require Import ZArith List Bool Lia Permutation FinFun.
From Verif Require Import Py Lattice Cluster Perc Spec PyFacts Torus Geometry LatFacts Inv Count.
Import ListNotations.
Open Scope Z_scope.

(** ** Initial clusters *)
Definition fresh_pool (L : Z) : cpool :=
  mkPool (map (fun c => mkCluster [] [c] c c) (zrange (2 * (L * L)))) (2 * (L * L)).

Record FreshLat (L : Z) (lat : lattice) : Prop := mkFresh {
  fr_static : Static L lat;
  fr_site : forall i, is_site L i -> sg lat i = -1 /\ rl lat i = (0, 0) /\
    s_nn1 (site_at lat i) = 4 /\ s_nn2 (site_at lat i) = 4;
  fr_bond : forall b, is_bond L b -> bg lat b = b
}.

Lemma fresh_unique L a b : FreshLat L a -> FreshLat L b -> a = b.
Proof.
  intros [Sa Ha Ba] [Sb Hb Bb]. apply (lattice_ext L); auto.
  - intros i Hi. destruct (Ha i Hi) as (-> & -> & -> & ->).
    destruct (Hb i Hi) as (-> & -> & -> & ->). auto.
  - intros i Hi. now rewrite Ba, Bb.
Qed.

Lemma init_clusters_ok L lat : Static L lat ->
  exists lat1, init_clusters lat = Ok (fresh_pool L, lat1) /\ Static L lat1 /\
    l_sites lat1 = l_sites lat /\ (forall b, is_bond L b -> bg lat1 b = b).
Proof.
  intros St. unfold init_clusters. rewrite (st_bc _ _ St).
  pose proof (st_pos _ _ St) as HL.
  destruct (foldM_rule (fun '(p, lat) bb => create_new_cluster p [] [bb] lat)
    (fun pre '(p, lat1) =>
       p = mkPool (map (fun c => mkCluster [] [c] c c) pre) (zlen pre) /\ Static L lat1 /\
       l_sites lat1 = l_sites lat /\ forall b, In b pre -> bg lat1 b = b)
    (zrange (2 * (L * L))) (empty_pool, lat)) as ([p1 lat1] & E & -> & S1 & Es & Eb).
  - split; [reflexivity|]. split; auto. split; auto. intros b [].
  - intros pre x suf [p lat1] E (-> & S1 & Es & Eb).
    apply zrange_split in E as (Hx & ->).
    assert (Hzl : zlen (zrange x) = x) by (apply zlen_zrange; lia).
    unfold create_new_cluster. cbn [p_next p_list foldM rbind].
    rewrite (set_bond_gid_ok L) by auto. cbn [rbind].
    eexists; split; [reflexivity|]. cbv beta iota.
    split; [|split; [|split]].
    + rewrite map_app, zlen_app. rewrite !Hzl. reflexivity.
    + apply static_upd_bond; auto.
    + exact Es.
    + intros b Hb. unfold bg. rewrite (bond_at_upd L) by auto.
      destruct (Z.eqb_spec b x).
      * subst. cbn [b_gid bond_set_gid]. auto.
      * apply Eb. apply in_app_or in Hb as [Hb|[Hb|[]]]; auto; congruence.
  - exists lat1. split; [|split; [auto|split; auto]].
    + rewrite E. f_equal. unfold fresh_pool. f_equal. f_equal. apply zlen_zrange.
      pose proof (LL_pos L HL). lia.
    + intros b Hb. apply Eb. now apply In_zrange.
Qed.

Lemma cl_fresh L c : is_label L c -> cl (fresh_pool L) c = mkCluster [] [c] c c.
Proof.
  intros Hc. unfold cl, fresh_pool; cbn [p_list].
  rewrite (at_map (fun c => mkCluster [] [c] c c) 0) by (rewrite zlen_zrange; unfold is_label in Hc; lia).
  now rewrite at_zrange.
Qed.

Lemma fresh_ClOK L lat : FreshLat L lat -> ClOK L lat (fresh_pool L).
Proof.
  intros [St Hs Hb]. pose proof (st_pos _ _ St) as HL. pose proof (LL_pos L HL) as HLL.
  assert (Ho : forall i, is_site L i -> ~ occ lat i).
  { intros i Hi. unfold occ. destruct (Hs i Hi) as (-> & _). lia. }
  constructor; auto.
  - intros b Hbb. rewrite Hb; auto.
  - intros i Hi. left. now apply Hs.
  - constructor.
    + unfold fresh_pool; cbn [p_list]. rewrite zlen_map, zlen_zrange; lia.
    + reflexivity.
    + intros c Hc _. rewrite cl_fresh by auto. cbn [c_bonds]. split.
      * constructor; [intros []|constructor].
      * intros b. cbn [In]. split.
        -- intros [<-|[]]. split; [exact Hc|now apply Hb].
        -- intros (H1 & H2). rewrite Hb in H2; auto.
    + intros c Hc _. rewrite cl_fresh by auto. cbn [c_sites]. split; [constructor|].
      intros i. cbn [In]. split; [tauto|]. intros (Hi & E). destruct (Hs i Hi) as (E1 & _).
      unfold is_label in Hc. lia.
    + intros c Hc _ _. rewrite cl_fresh by auto. split; reflexivity.
  - intros i d Hi H. now apply Ho in H.
  - intros b b' H1 H2 E. left. rewrite !Hb in E by auto. auto.
  - intros i j Hi _ H. now apply Ho in H.
  - intros i Hi _. now apply Hs.
  - intros i d Hi H. now apply Ho in H.
  - intros _ i j Hi _ H. now apply Ho in H.
Qed.

Lemma new_fresh L lat : 0 < L -> new_lattice L = Ok lat ->
  Static L lat /\ forall i, is_site L i -> sg lat i = -1 /\ rl lat i = (0, 0) /\
    s_nn1 (site_at lat i) = 4 /\ s_nn2 (site_at lat i) = 4.
Proof.
  intros HL E. destruct (new_lattice_spec L HL) as (lat' & E' & [h1 h2 h3 h4 h5] & Hs & Hb).
  assert (lat' = lat) by congruence. subst lat'. split.
  - constructor; auto.
    + intros i Hi. rewrite Hs by auto. auto.
    + intros b Hbb. rewrite Hb by auto. simpl. auto.
  - intros i Hi. unfold sg, rl. rewrite Hs by auto. simpl. auto.
Qed.

Lemma lattice_reset_ok L lat : Static L lat ->
  Static L (lattice_reset lat) /\ forall i, is_site L i ->
    sg (lattice_reset lat) i = -1 /\ rl (lattice_reset lat) i = (0, 0) /\
    s_nn1 (site_at (lattice_reset lat) i) = 4 /\ s_nn2 (site_at (lattice_reset lat) i) = 4.
Proof.
  intros St.
  assert (Hsa : forall i, is_site L i -> site_at (lattice_reset lat) i = site_reset (site_at lat i)).
  { intros i Hi. unfold site_at, lattice_reset. cbn [l_sites with_bonds with_sites].
    apply at_map. now apply (site_range L). }
  assert (Hba : forall b, is_bond L b -> bond_at (lattice_reset lat) b = bond_reset (bond_at lat b)).
  { intros i Hi. unfold bond_at, lattice_reset. cbn [l_bonds with_bonds with_sites].
    apply at_map. now apply (bond_range L). }
  split.
  - destruct St as [h1 h2 h3 h4 h5 h6 h7 h8]. constructor; auto.
    + unfold lattice_reset. cbn [l_sites with_bonds with_sites]. now rewrite zlen_map.
    + unfold lattice_reset. cbn [l_bonds with_bonds with_sites]. now rewrite zlen_map.
    + intros i Hi. rewrite Hsa by auto. cbn [site_reset s_id s_index s_bonds]. auto.
    + intros b Hb. rewrite Hba by auto. cbn [bond_reset b_id b_type b_row b_col b_sites]. auto.
  - intros i Hi. unfold sg, rl. rewrite Hsa by auto. auto.
Qed.

Lemma sg_sites lat1 lat i : l_sites lat1 = l_sites lat -> site_at lat1 i = site_at lat i.
Proof. intros E. unfold site_at. now rewrite E. Qed.

(** Both construction and reset arrive at the fresh lattice. *)
Lemma init_fresh L lat : Static L lat ->
  (forall i, is_site L i -> sg lat i = -1 /\ rl lat i = (0, 0) /\
    s_nn1 (site_at lat i) = 4 /\ s_nn2 (site_at lat i) = 4) ->
  exists lat1, init_clusters lat = Ok (fresh_pool L, lat1) /\ FreshLat L lat1.
Proof.
  intros St H. destruct (init_clusters_ok L lat St) as (lat1 & E & S1 & Es & Eb).
  exists lat1. split; auto. constructor; auto.
  intros i Hi. unfold sg, rl. rewrite (sg_sites lat1 lat) by auto. now apply H.
Qed.

(** ** Shuffling *)
Lemma upd_nth_nat {A} (d : A) l k v j :
  (k < length l)%nat -> nth j (upd l k v) d = if (j =? k)%nat then v else nth j l d.
Proof. apply upd_nth. Qed.

Lemma swap_at_perm l i j : Permutation l (swap_at l i j).
Proof.
  unfold swap_at. destruct (nth_error l i) as [a|] eqn:Ea; [|auto].
  destruct (nth_error l j) as [b|] eqn:Eb; [|auto].
  assert (Hi : (i < length l)%nat) by (apply nth_error_Some; congruence).
  assert (Hj : (j < length l)%nat) by (apply nth_error_Some; congruence).
  apply (nth_error_nth _ _ 0) in Ea. apply (nth_error_nth _ _ 0) in Eb.
  apply (Permutation_nth _ _ 0). cbv zeta. split; [now rewrite !upd_length|].
  exists (fun x => if (x =? j)%nat then i else if (x =? i)%nat then j else x). split; [|split].
  - intros x Hx. destruct (x =? j)%nat; auto. destruct (x =? i)%nat; auto.
  - intros x y Hx Hy.
    destruct (Nat.eqb_spec x j), (Nat.eqb_spec y j), (Nat.eqb_spec x i), (Nat.eqb_spec y i); lia.
  - intros x Hx. rewrite upd_nth_nat by (now rewrite upd_length). rewrite upd_nth_nat by auto.
    destruct (Nat.eqb_spec x j); [congruence|].
    destruct (Nat.eqb_spec x i); [congruence|]. reflexivity.
Qed.
Lemma shuffle_from_perm E k t l : Permutation l (fst (shuffle_from E k t l)).
Proof.
  revert t l. induction k as [|k IH]; intros t l; [auto|].
  cbn [shuffle_from]. eapply perm_trans; [apply swap_at_perm|apply IH].
Qed.
Lemma random_shuffle_perm E t l : Permutation l (fst (random_shuffle E t l)).
Proof. apply shuffle_from_perm. Qed.

(** The inverse table after a shuffle. *)
Definition is_inverse (L : Z) (l r : list Z) : Prop :=
  zlen l = L * L /\ zlen r = L * L /\
  forall i, 0 <= i < L * L -> is_site L (at_ 0 l i) /\ at_ 0 r (at_ 0 l i) = i.

Lemma rev_loop_ok L l r : Forall (is_site L) l -> zlen r = L * L -> Forall (Z.le 0) r ->
  exists rv, foldM (fun rv i => a <- lget l i ;; lset rv a i) (zrange (zlen l)) r = Ok rv /\
    zlen rv = L * L /\ Forall (Z.le 0) rv /\
    (NoDup l -> forall i, 0 <= i < zlen l -> at_ 0 rv (at_ 0 l i) = i).
Proof.
  intros Hl Hr Hf.
  destruct (foldM_rule (fun rv i => a <- lget l i ;; lset rv a i)
    (fun pre rv => zlen rv = L * L /\ Forall (Z.le 0) rv /\
       (NoDup l -> forall i, In i pre -> at_ 0 rv (at_ 0 l i) = i))
    (zrange (zlen l)) r) as (rv & E & H1 & H2 & H3).
  - split; auto. split; auto. intros _ i [].
  - intros pre x suf rv E (H1 & H2 & H3). apply zrange_split in E as (Hx & ->).
    rewrite (lget_in 0) by auto. cbn [rbind].
    assert (Ha : is_site L (at_ 0 l x)) by (eapply Forall_forall; [exact Hl|now apply at_In]).
    rewrite lset_in by (rewrite H1; exact Ha).
    eexists; split; [reflexivity|]. split; [|split].
    + now rewrite zlen_upd.
    + apply Forall_forall. intros y Hy. apply (In_at 0) in Hy as (j & Hj & <-).
      rewrite zlen_upd in Hj. rewrite at_upd by (rewrite H1; exact Ha).
      destruct (j =? at_ 0 l x); [lia|]. eapply Forall_forall in H2; [exact H2|]. now apply at_In.
    + intros N i Hi. rewrite at_upd by (rewrite H1; exact Ha).
      destruct (Z.eqb_spec (at_ 0 l i) (at_ 0 l x)) as [Ee|Ee].
      * apply in_app_or in Hi as [Hi|[Hi|[]]]; [|auto]. apply In_zrange in Hi.
        unfold at_ in Ee. replace (0 <=? i) with true in Ee by lia. replace (0 <=? x) with true in Ee by lia.
        unfold zlen in Hx. rewrite NoDup_nth in N. apply N in Ee; lia.
      * apply H3; auto. apply in_app_or in Hi as [Hi|[Hi|[]]]; auto; congruence.
  - exists rv. split; auto. split; auto. split; auto. intros N i Hi. apply H3; auto. now apply In_zrange.
Qed.

Lemma shuffle_ok E L s : Forall (is_site L) (ids s) -> zlen (rev_ids s) = L * L ->
  Forall (Z.le 0) (rev_ids s) ->
  (shuffle E s = (s, Ok tt) /\ do_shuffle s = false) \/
  (do_shuffle s = true /\ exists l t rv,
     shuffle E s = (set_rev rv (set_tick t (mutate_ids l s)), Ok tt) /\
     Permutation (ids s) l /\ zlen rv = L * L /\ Forall (Z.le 0) rv /\
     (NoDup (ids s) -> forall i, 0 <= i < zlen l -> at_ 0 rv (at_ 0 l i) = i)).
Proof.
  intros Hl Hr Hf. unfold shuffle, mbind, get. 
  destruct (do_shuffle s) eqn:Ed.
  - right. split; auto. rewrite andb_false_r.
    pose proof (random_shuffle_perm E (tick s) (ids s)) as P.
    destruct (random_shuffle E (tick s) (ids s)) as [l t]. cbn [fst] in P.
    unfold modify. cbn [ids set_tick mutate_ids rebind_ids rev_ids].
    destruct (rev_loop_ok L l (rev_ids s)) as (rv & E1 & H1 & H2 & H3); auto.
    { eapply Permutation_Forall; eauto. }
    unfold lift. change (ids (set_tick t (mutate_ids l s))) with l.
    change (rev_ids (set_tick t (mutate_ids l s))) with (rev_ids s). rewrite E1.
    exists l, t, rv. split; [reflexivity|]. split; auto. split; auto. split; auto.
    intros N. apply H3. eapply Permutation_NoDup; eauto.
  - left. split; auto. destruct (mode_custom s); reflexivity.
Qed.
