(** * Merge: merge_clusters_v2 preserves the cluster invariant. *)
From Coq Require Import ZArith List Bool Lia Permutation.
From Verif Require Import Py Lattice Cluster Perc Spec PyFacts Torus Geometry LatFacts Inv.
Import ListNotations.
Open Scope Z_scope.

(** ** Small list facts *)
Lemma foldM_id {A B} (f : A -> B -> res A) l a :
  (forall x, In x l -> f a x = Ok a) -> foldM f l a = Ok a.
Proof.
  induction l as [|x l IH]; intros H; simpl; auto.
  rewrite H by (simpl; auto). simpl. apply IH. intros; apply H; simpl; auto.
Qed.
Lemma zmem_app x l l' : zmem x (l ++ l') = zmem x l || zmem x l'.
Proof. unfold zmem. apply existsb_app. Qed.
Lemma zmem_cons x y l : zmem x (y :: l) = (x =? y) || zmem x l.
Proof. reflexivity. Qed.
Lemma zmem_spec x l : Bool.reflect (In x l) (zmem x l).
Proof. apply iff_reflect. symmetry. apply zmem_In. Qed.

Lemma NoDup_app_disjoint {A} (l l' : list A) :
  NoDup l -> NoDup l' -> (forall x, In x l -> ~ In x l') -> NoDup (l ++ l').
Proof.
  induction l as [|h t IH]; simpl; intros H H' Hd; auto.
  inversion H; subst. constructor.
  - rewrite in_app_iff. intros [Hi|Hi]; [auto|]. apply (Hd h); auto.
  - apply IH; auto.
Qed.

Lemma NoDup_map_eq {A B} (f : A -> B) l : NoDup (map f l) ->
  forall x y, In x l -> In y l -> f x = f y -> x = y.
Proof.
  induction l as [|h t IH]; simpl; intros Hn x y Hx Hy Exy; [tauto|].
  inversion Hn as [|? ? Hh Ht]; subst.
  destruct Hx as [->|Hx]; destruct Hy as [->|Hy]; auto.
  - exfalso. apply Hh. rewrite Exy. now apply in_map.
  - exfalso. apply Hh. rewrite <- Exy. now apply in_map.
Qed.

(** ** One bond per cluster *)
Definition firsts (f : Z -> Z) (l : list Z) : list Z :=
  fold_left (fun out b => if zmem (f b) (map f out) then out else out ++ [b]) l [].
Lemma uniq_ok L lat bonds : Static L lat -> (forall b, In b bonds -> is_bond L b) ->
  exists out, uniqe_gid_bond_neighbors lat bonds = Ok out /\ out = firsts (bg lat) bonds /\
  NoDup (map (bg lat) out) /\ (forall b, In b out -> In b bonds) /\
  (forall b, In b bonds -> In (bg lat b) (map (bg lat) out)).
Proof.
  intros St Hb. unfold uniqe_gid_bond_neighbors.
  match goal with |- context [foldM ?f _ _] =>
    destruct (foldM_rule f (fun pre '(gids, out) =>
      gids = map (bg lat) out /\ out = firsts (bg lat) pre /\ NoDup gids /\ (forall b, In b out -> In b pre) /\
      (forall b, In b pre -> In (bg lat b) gids)) bonds ([], [])) as ([gids out] & E & H)
  end.
  - repeat split; try constructor; intros b [].
  - intros p x r [gids out] -> (Eg & Ef & Hnd & Hin & Hcov).
    assert (Ex : firsts (bg lat) (p ++ [x]) = if zmem (bg lat x) gids then out else out ++ [x]).
    { unfold firsts in *. rewrite fold_left_app, <- Ef. cbn [fold_left]. now rewrite Eg. }
    rewrite (get_bond_gid_ok L) by (auto; apply Hb, in_or_app; simpl; auto). cbn [rbind].
    destruct (zmem_spec (bg lat x) gids) as [Hm|Hm]; eexists; (split; [reflexivity|]); cbn beta iota.
    + repeat split; auto.
      * intros b H. apply in_or_app; auto.
      * intros b H. apply in_app_or in H as [H|[->|[]]]; auto.
    + repeat split; auto.
      * rewrite map_app, Eg. reflexivity.
      * apply NoDup_app_disjoint; auto.
        -- constructor; [intros []|constructor].
        -- intros y Hy [<-|[]]; auto.
      * intros b H. apply in_app_or in H as [H|[->|[]]]; apply in_or_app; simpl; auto.
      * intros b H. apply in_or_app. apply in_app_or in H as [H|[->|[]]]; simpl; auto.
  - rewrite E. cbn [rbind snd]. destruct H as (-> & H1 & H2 & H3 & H4). exists out. auto.
Qed.

(** ** The root cluster *)
Lemma root_loop_ok L p aw w all : forall l ref root,
  zlen (p_list p) = 2 * (L * L) -> (forall g, In g all -> is_label L g) ->
  incl l all -> In root all ->
  exists r, root_loop p aw w all l ref root = Ok r /\ In r all /\
    (aw = true -> In w all -> l <> [] -> r = w).
Proof.
  induction l as [|g l IH]; intros ref root Hlen Hall Hincl Hr; simpl.
  - exists root. repeat split; auto. congruence.
  - destruct (aw && zmem w all) eqn:Ea.
    + apply andb_true_iff in Ea as [_ Ew]. apply zmem_In in Ew. exists w. auto.
    + assert (Hg : In g all) by (apply Hincl; simpl; auto).
      unfold get_cluster_bond_count.
      rewrite (lget_in dcluster) by (rewrite Hlen; now apply Hall). cbn [rbind].
      assert (Hl' : incl l all) by (intros x Hx; apply Hincl; simpl; auto).
      assert (Hno : aw = true -> In w all -> False).
      { intros -> Hw. apply zmem_In in Hw. rewrite Hw in Ea. discriminate. }
      destruct (ref <=? _);
        [destruct (IH (zlen (c_bonds (at_ dcluster (p_list p) g))) g Hlen Hall Hl' Hg) as (r & E & H1 & H2)
        |destruct (IH ref root Hlen Hall Hl' Hr) as (r & E & H1 & H2)];
        (exists r; split; [exact E|]; split; [exact H1|]; intros Ha Hw; exfalso; eauto).
Qed.

(** ** Pool updates *)
Lemma cl_upd p c v n c' : 0 <= c < zlen (p_list p) ->
  cl (mkPool (upd (p_list p) (Z.to_nat c) v) n) c' = if c' =? c then v else cl p c'.
Proof. intros. unfold cl. simpl. now apply at_upd. Qed.

Lemma merge_cluster_with_ok L p a b lat :
  Static L lat -> zlen (p_list p) = 2 * (L * L) -> is_label L a -> is_label L b -> a <> b ->
  (forall x, In x (c_bonds (cl p b)) -> is_bond L x) ->
  NoDup (c_sites (cl p b)) -> (forall x, In x (c_sites (cl p b)) -> is_site L x) ->
  c_gid (cl p a) = a ->
  exists p' lat', merge_cluster_with p a b lat = Ok (p', lat') /\ Static L lat' /\
    zlen (p_list p') = 2 * (L * L) /\ p_next p' = p_next p /\
    (forall c, cl p' c = if c =? a
       then mkCluster (c_sites (cl p a) ++ c_sites (cl p b)) (c_bonds (cl p a) ++ c_bonds (cl p b))
              (c_gid (cl p a)) (c_id (cl p a))
       else cl p c) /\
    (forall x, bond_at lat' x = if zmem x (c_bonds (cl p b)) then bond_set_gid (bond_at lat x) a else bond_at lat x) /\
    (forall i, site_at lat' i = if zmem i (c_sites (cl p b)) then site_set_gid (site_at lat i) a else site_at lat i).
Proof.
  intros St Hlen Ha Hb Hab Hbb Hnd Hss Hga. unfold is_label in *.
  unfold merge_cluster_with.
  rewrite (lget_in dcluster) by lia. cbn [rbind]. fold (cl p a).
  rewrite (lget_in dcluster) by lia. cbn [rbind]. fold (cl p b).
  rewrite Hga.
  destruct (set_bond_gids_ok L lat (c_bonds (cl p b)) a St Hbb) as (lat1 & E1 & S1 & Es1 & Hb1).
  rewrite E1. cbn [rbind].
  destruct (update_sites_ok L lat1 (c_sites (cl p b)) (fun lat ss => set_site_gid_by_id lat ss a)
             (fun s => site_set_gid s a) S1 Hnd Hss) as (lat2 & E2 & S2 & Eb2 & Hs2).
  { intros s. repeat split. }
  { intros lt i Slt Hi. now apply (set_site_gid_ok L). }
  rewrite E2. cbn [rbind].
  rewrite lset_in by lia. cbn [rbind].
  rewrite (lget_in dcluster) by (rewrite zlen_upd; lia). cbn [rbind].
  rewrite (lget_in dcluster) by (rewrite zlen_upd; lia). cbn [rbind].
  rewrite lset_in by (rewrite zlen_upd; lia). cbn [rbind].
  rewrite !at_upd by lia. rewrite Z.eqb_refl.
  replace (b =? a) with false by lia. fold (cl p b). cbn [c_sites c_bonds c_gid c_id].
  eexists _, lat2. split; [reflexivity|]. split; auto. cbn [p_list p_next].
  split; [now rewrite !zlen_upd|]. split; auto. split; [|split].
  - intros c. unfold cl at 1. cbn [p_list]. rewrite at_upd by (rewrite zlen_upd; lia).
    destruct (Z.eqb_spec c a); [rewrite ?Hga; reflexivity|]. rewrite at_upd by lia.
    destruct (Z.eqb_spec c a); [lia|]. reflexivity.
  - intros x. unfold bond_at at 1. rewrite Eb2. fold (bond_at lat1 x). apply Hb1.
  - intros i. rewrite Hs2. unfold site_at. rewrite Es1. reflexivity.
Qed.

Lemma vsub_add a b : vadd a (vsub b a) = b.
Proof. destruct a, b; unfold vadd, vsub; cbn [fst snd]. f_equal; lia. Qed.

Section Merge.
Variables (E : env) (L s : Z) (lat0 : lattice) (p0 : cpool).
Hypothesis HE : env_ok E.
Hypothesis Hok : ClOK L lat0 p0.
Hypothesis Hs : is_site L s.
Hypothesis Hun : sg lat0 s = -1.

Let HL : 0 < L := st_pos _ _ (ck_static _ _ _ Hok).

Lemma s_not_occ : ~ occ lat0 s.
Proof. unfold occ. lia. Qed.

(** A neighbouring cluster that contains a site contains the neighbour itself. *)
Lemma nb_occ d i : is_site L i -> occ lat0 i -> sg lat0 i = bg lat0 (bond_dir L s d) ->
  occ lat0 (nbr L s d).
Proof.
  intros Hi Ho E'.
  pose proof s_not_occ as Hns.
  assert (Hbi : is_bond L (bond_dir L i DRight)) by (now apply bond_dir_bond).
  assert (Hbs : is_bond L (bond_dir L s d)) by (now apply bond_dir_bond).
  destruct (ck_join _ _ _ Hok (bond_dir L s d) (bond_dir L i DRight) Hbs Hbi) as [Eb|Hj].
  - rewrite (ck_own _ _ _ Hok i DRight) by auto. congruence.
  - assert (i <> s) by (intros ->; tauto).
    replace (nbr L s d) with i; auto.
    destruct (bond_dir_ends L HL s d Hs) as [(A1 & A2)|(A1 & A2)];
    destruct (bond_dir_ends L HL i DRight Hi) as [(B1 & B2)|(B1 & B2)];
    rewrite Eb in A1, A2; congruence.
  - destruct (bond_dir_ends L HL s d Hs) as [(A1 & A2)|(A1 & A2)]; rewrite A1, A2 in Hj; tauto.
Qed.

Lemma nb_label d : occ lat0 (nbr L s d) -> sg lat0 (nbr L s d) = bg lat0 (bond_dir L s d).
Proof.
  intros Ho. symmetry.
  assert (Hbd : is_bond L (bond_dir L s d)) by (now apply bond_dir_bond).
  pose proof (nbr_site L HL s d) as Hnb.
  assert (In (bond_dir L s d) (bonds_of L (nbr L s d))) as Hin.
  { destruct (bond_dir_ends L HL s d Hs) as [(A1 & A2)|(A1 & A2)]; rewrite <- A2;
      [apply bond_of_end2|apply bond_of_end1]; auto. }
  apply In_bonds_of in Hin as (d' & Ed). rewrite Ed at 1. apply (ck_own _ _ _ Hok); auto.
Qed.
(** State between the iterations of the second loop: [dg] labels already merged
    into [root], [db] bonds of s already handled. *)
Record Mid (root : Z) (dg db : list Z) (lat : lattice) (p : cpool) : Prop := mkMid {
  md_static : Static L lat;
  md_bg : forall b, is_bond L b -> bg lat b = if zmem (bg lat0 b) dg then root else bg lat0 b;
  md_sg : forall i, is_site L i ->
    sg lat i = if (i =? s) || zmem (sg lat0 i) dg then root else sg lat0 i;
  md_pool : PoolOK L (fun c => In c dg) lat p;
  md_walk : forall i j, is_site L i -> is_site L j -> occ lat i -> sg lat i = sg lat j ->
    exists ds, walk L (occ lat) i ds j /\ disp ds = vsub (rl lat j) (rl lat i);
  md_shift : forall i j, is_site L i -> is_site L j -> i <> s -> j <> s ->
    occ lat0 i -> sg lat0 i = sg lat0 j ->
    vsub (rl lat j) (rl lat i) = vsub (rl lat0 j) (rl lat0 i);
  md_unocc : forall i, is_site L i -> ~ occ lat i -> rl lat i = (0, 0);
  md_small : L <= 2 -> forall i j, is_site L i -> is_site L j -> occ lat i -> sg lat i = sg lat j ->
    vsub (rl lat j) (rl lat i) = vsub (pos L j) (pos L i);
  md_db : forall b, In b db -> bg lat0 b = root \/ In (bg lat0 b) dg;
  md_links : forall d, In (bond_dir L s d) db -> occ lat0 (nbr L s d) ->
    rl lat (nbr L s d) = vadd (rl lat s) (corr L s (nbr L s d));
  md_nn : forall i, s_nn1 (site_at lat i) = s_nn1 (site_at lat0 i) /\
                    s_nn2 (site_at lat i) = s_nn2 (site_at lat0 i);
  md_keep : forall i, is_site L i -> i <> s -> ~ In (sg lat0 i) dg -> rl lat i = rl lat0 i;
  md_alone : (forall i, is_site L i -> sg lat0 i <> root) -> rl lat s = (0, 0)
}.

(** ** First loop: the new site joins the root cluster *)
Definition body1 (root : Z) : lattice * cpool -> Z -> res (lattice * cpool) :=
  fun '(lat, p) bb =>
      bbg <- get_bond_gid_by_id lat bb ;;
      if bbg =? root then
        lat <- set_site_gid_by_id lat s root ;;
        p <- pool_add_site p root s ;;
        nb <- get_neighbor_site lat s bb ;;
        g <- get_site_gid_by_id lat nb ;;
        if 0 <=? g then
          rri <- get_relative_index lat nb s ;;
          lat <- lat_set_relative_index lat s rri ;;
          Ok (lat, p)
        else Ok (lat, p)
      else Ok (lat, p).

Lemma walk_lift lat1 : (forall i, is_site L i -> i <> s -> sg lat1 i = sg lat0 i) ->
  sg lat1 s <> -1 -> forall x, is_site L x -> occ lat0 x -> occ lat1 x.
Proof.
  intros H1 H2 x Hx Ho. unfold occ in *. destruct (Z.eq_dec x s); [subst; lia|].
  now rewrite H1.
Qed.

Lemma loop1_hit d root : bg lat0 (bond_dir L s d) = root ->
  exists lat1 p1, body1 root (lat0, p0) (bond_dir L s d) = Ok (lat1, p1) /\
  Mid root [] [bond_dir L s d] lat1 p1 /\ l_bonds lat1 = l_bonds lat0.
Proof.
  intros Hroot. pose proof (ck_static _ _ _ Hok) as St.
  pose proof (ck_pool _ _ _ Hok) as Pk.
  assert (Hbd : is_bond L (bond_dir L s d)) by (now apply bond_dir_bond).
  assert (Hrl : is_label L root) by (rewrite <- Hroot; now apply (ck_blab _ _ _ Hok)).
  unfold body1. rewrite (get_bond_gid_ok L) by auto. cbn [rbind]. rewrite Hroot, Z.eqb_refl.
  rewrite (set_site_gid_ok L) by auto. cbn [rbind].
  set (latA := upd_site lat0 s (site_set_gid (site_at lat0 s) root)).
  assert (SA : Static L latA) by (apply static_upd_site; auto; repeat split).
  assert (HsA : forall i, site_at latA i = if i =? s then site_set_gid (site_at lat0 s) root else site_at lat0 i)
    by (intros; apply (site_at_upd L); auto).
  unfold pool_add_site. assert (Hr' := Hrl). unfold is_label in Hr'.
  rewrite (lget_in dcluster) by (rewrite (pk_len _ _ _ _ Pk); lia). cbn [rbind].
  rewrite lset_in by (rewrite (pk_len _ _ _ _ Pk); lia). cbn [rbind]. fold (cl p0 root).
  rewrite (get_neighbor_site_ok L) by auto. cbn [rbind].
  pose proof (nbr_site L HL s d) as Hnb.
  rewrite (get_site_gid_ok L) by auto. cbn [rbind].
  set (p1 := mkPool (upd (p_list p0) (Z.to_nat root)
     (mkCluster (c_sites (cl p0 root) ++ [s]) (c_bonds (cl p0 root)) (c_gid (cl p0 root)) (c_id (cl p0 root)))) (p_next p0)).
  assert (Hcl : forall c, cl p1 c = if c =? root then
     mkCluster (c_sites (cl p0 root) ++ [s]) (c_bonds (cl p0 root)) (c_gid (cl p0 root)) (c_id (cl p0 root))
     else cl p0 c) by (intros; apply cl_upd; rewrite (pk_len _ _ _ _ Pk); lia).
  (* the relative index finally given to s *)
  set (rs := if 0 <=? sg latA (nbr L s d)
             then index_add (rl latA (nbr L s d)) (corr L (nbr L s d) s) else (0, 0)).
  set (lat1 := upd_site latA s (site_set_rel (site_at latA s) rs)).
  assert (S1 : Static L lat1) by (apply static_upd_site; auto; repeat split).
  assert (Hs1 : forall i, site_at lat1 i =
    if i =? s then site_set_rel (site_set_gid (site_at lat0 s) root) rs else site_at lat0 i).
  { intros i. unfold lat1. rewrite (site_at_upd L), !HsA by auto. rewrite Z.eqb_refl.
    destruct (i =? s); reflexivity. }
  assert (Hrl0 : rl lat0 s = (0, 0)) by (apply (ck_unocc _ _ _ Hok); auto; apply s_not_occ).
  assert (Ebody : (if 0 <=? sg latA (nbr L s d) then
         rri <- get_relative_index latA (nbr L s d) s ;;
         lat <- lat_set_relative_index latA s rri ;; Ok (lat, p1)
       else Ok (latA, p1)) = Ok (lat1, p1)).
  { unfold lat1, rs. destruct (0 <=? sg latA (nbr L s d)) eqn:Eg.
    - rewrite (get_relative_index_ok L) by auto. cbn [rbind].
      rewrite (lat_set_relative_index_ok L) by auto. reflexivity.
    - f_equal. f_equal.
      (* writing (0,0) over (0,0) changes nothing *)
      apply (lattice_ext L); auto; try (apply static_upd_site; auto; repeat split; fail).
      intros j Hj. unfold sg, rl. rewrite (site_at_upd L), !HsA by auto. rewrite Z.eqb_refl.
      destruct (Z.eqb_spec j s); [|auto]. unfold rl in Hrl0. cbn. auto. }
  exists lat1, p1. split; [exact Ebody|]. split; [|reflexivity].
  (* attributes of lat1 *)
  assert (Hsg1 : forall i, sg lat1 i = if i =? s then root else sg lat0 i).
  { intros i. unfold sg. rewrite Hs1. destruct (i =? s); reflexivity. }
  assert (Hrl1 : forall i, rl lat1 i = if i =? s then rs else rl lat0 i).
  { intros i. unfold rl. rewrite Hs1. destruct (i =? s); reflexivity. }
  assert (Hbg1 : forall b, bg lat1 b = bg lat0 b) by reflexivity.
  assert (Hmono : forall x, is_site L x -> occ lat0 x -> occ lat1 x).
  { intros x _ Ho. unfold occ in *. rewrite Hsg1. destruct (x =? s); [unfold is_label in Hrl; lia|auto]. }
  assert (Hos1 : occ lat1 s) by (unfold occ; rewrite Hsg1, Z.eqb_refl; unfold is_label in Hrl; lia).
  (* s is linked to its occupied neighbour in the root cluster *)
  assert (Hlink : occ lat0 (nbr L s d) -> rs = vadd (rl lat0 (nbr L s d)) (corr L (nbr L s d) s)).
  { intros Ho. assert (nbr L s d <> s) by (intros Ee; rewrite Ee in Ho; now apply s_not_occ).
    unfold rs, sg, rl. rewrite HsA. replace (nbr L s d =? s) with false by lia.
    fold (sg lat0 (nbr L s d)). unfold occ in Ho.
    destruct (Z.leb_spec 0 (sg lat0 (nbr L s d))); [reflexivity|lia]. }
  assert (Hnb_root : forall i, is_site L i -> occ lat0 i -> sg lat0 i = root -> occ lat0 (nbr L s d)).
  { intros i Hi Ho Ei. apply (nb_occ d i); auto. congruence. }
  assert (Hnbsg : occ lat0 (nbr L s d) -> sg lat0 (nbr L s d) = root).
  { intros Ho. rewrite <- Hroot. now apply nb_label. }
  (* walks from s into the root cluster *)
  assert (Hsw : forall j, is_site L j -> j <> s -> sg lat0 j = root ->
    exists ds, walk L (occ lat1) s ds j /\ disp ds = vsub (rl lat0 j) rs).
  { intros j Hj Hne Ej.
    assert (Hoj : occ lat0 j) by (unfold occ; rewrite Ej; unfold is_label in Hrl; lia).
    assert (Hon : occ lat0 (nbr L s d)) by (apply (Hnb_root j); auto).
    assert (Hon1 : occ lat1 (nbr L s d)) by (apply Hmono; auto).
    destruct (corr_walk L s d (occ lat1) HL Hs Hos1 Hon1) as (ds1 & W1 & D1).
    destruct (ck_walk _ _ _ Hok (nbr L s d) j Hnb Hj Hon) as (ds2 & W2 & D2).
    { rewrite Hnbsg by auto. congruence. }
    exists (ds1 ++ ds2). split.
    - eapply walk_app; [exact W1|]. eapply walk_mono; [|exact W2]. auto.
    - rewrite disp_app, D1, D2, Hlink by auto.
      rewrite (corr_opp L s (nbr L s d)).
      unfold vadd, vsub; cbn [fst snd]. f_equal; lia. }
  constructor; auto.
  - intros i Hi. rewrite Hsg1. cbn [zmem existsb]. now rewrite orb_false_r.
  - (* pool *)
    constructor.
    + unfold p1. cbn [p_list]. rewrite zlen_upd. apply (pk_len _ _ _ _ Pk).
    + apply (pk_next _ _ _ _ Pk).
    + intros c Hc _. rewrite Hcl. destruct (pk_bonds _ _ _ _ Pk c Hc) as [N I]; auto.
      destruct (Z.eqb_spec c root); [subst c; cbn [c_bonds]|]; split; auto.
    + intros c Hc _. rewrite Hcl. destruct (pk_sites _ _ _ _ Pk c Hc) as [N I]; auto.
      destruct (Z.eqb_spec c root).
      * subst c. cbn [c_sites]. split.
        -- apply NoDup_app_disjoint; auto.
           ++ constructor; [intros []|constructor].
           ++ intros x Hx [->|[]]. apply I in Hx. unfold is_label in Hrl. lia.
        -- intros i. rewrite in_app_iff, I, Hsg1. cbn [In].
           destruct (Z.eqb_spec i s); [subst i; intuition (auto; lia)|].
           intuition congruence.
      * split; auto. intros i. rewrite I, Hsg1.
        destruct (Z.eqb_spec i s); [subst i; unfold is_label in Hc; intuition lia|]. reflexivity.
    + intros c Hc _. rewrite Hcl. pose proof (pk_gid _ _ _ _ Pk c Hc (fun x => x)) as G.
      destruct (Z.eqb_spec c root); [subst c; exact G|auto].
  - (* walks *)
    intros i j Hi Hj Ho Eij. rewrite !Hrl1. rewrite !Hsg1 in Eij.
    destruct (Z.eqb_spec i s); destruct (Z.eqb_spec j s).
    + subst. exists []. split; [constructor; auto|]. unfold vsub; cbn. f_equal; lia.
    + subst i. apply Hsw; auto.
    + subst j. destruct (Hsw i Hi) as (ds & W & D); auto.
      exists (map opp (rev ds)). split; [now apply walk_rev|].
      rewrite disp_rev, D. unfold vsub; cbn [fst snd]. f_equal; lia.
    + assert (Hoi : occ lat0 i).
      { unfold occ in *. rewrite Hsg1 in Ho. destruct (Z.eqb_spec i s); [lia|auto]. }
      destruct (ck_walk _ _ _ Hok i j Hi Hj Hoi Eij) as (ds & W & D).
      exists ds. split; auto. eapply walk_mono; [|exact W]. auto.
  - intros i j Hi Hj Hi' Hj' _ _. rewrite !Hrl1.
    destruct (Z.eqb_spec i s); [lia|]. destruct (Z.eqb_spec j s); [lia|]. reflexivity.
  - intros i Hi Ho. rewrite Hrl1. destruct (Z.eqb_spec i s); [subst; tauto|].
    apply (ck_unocc _ _ _ Hok); auto.
  - (* small lattices *)
    intros H2 i j Hi Hj Ho Eij. rewrite !Hrl1. rewrite !Hsg1 in Eij.
    assert (Hsw2 : forall j, is_site L j -> j <> s -> sg lat0 j = root ->
      vsub (rl lat0 j) rs = vsub (pos L j) (pos L s)).
    { clear i j Hi Hj Ho Eij. intros j Hj Hne Ej.
      assert (Hoj : occ lat0 j) by (unfold occ; rewrite Ej; unfold is_label in Hrl; lia).
      assert (Hon : occ lat0 (nbr L s d)) by (apply (Hnb_root j); auto).
      rewrite Hlink by auto. rewrite (corr_small L) by auto.
      assert (Esm : vsub (rl lat0 j) (rl lat0 (nbr L s d)) = vsub (pos L j) (pos L (nbr L s d))).
      { apply (ck_small _ _ _ Hok); auto. rewrite Hnbsg by auto. congruence. }
      destruct (rl lat0 j), (rl lat0 (nbr L s d)), (pos L j), (pos L (nbr L s d)), (pos L s).
      unfold vadd, vsub in *; cbn [fst snd] in *. inversion Esm. f_equal; lia. }
    destruct (Z.eqb_spec i s); destruct (Z.eqb_spec j s).
    + subst. unfold vsub. f_equal; lia.
    + subst i. apply Hsw2; auto.
    + subst j. pose proof (Hsw2 i Hi n Eij) as Esm.
      destruct (rl lat0 i), rs, (pos L i), (pos L s).
      unfold vadd, vsub in *; cbn [fst snd] in *. inversion Esm. f_equal; lia.
    + assert (Hoi : occ lat0 i).
      { unfold occ in *. rewrite Hsg1 in Ho. destruct (Z.eqb_spec i s); [lia|auto]. }
      apply (ck_small _ _ _ Hok); auto.
  - intros b [<-|[]]. auto.
  - (* links *)
    intros d' [Ed|[]] Ho'.
    assert (Enb : nbr L s d' = nbr L s d).
    { pose proof s_not_occ as Hns.
      destruct (bond_dir_ends L HL s d Hs) as [(A1 & A2)|(A1 & A2)];
      destruct (bond_dir_ends L HL s d' Hs) as [(B1 & B2)|(B1 & B2)];
      rewrite <- Ed in B1, B2; congruence. }
    rewrite Enb in *. rewrite !Hrl1, Z.eqb_refl.
    destruct (Z.eqb_spec (nbr L s d) s) as [Ee|Ee]; [rewrite Ee in Ho'; now apply s_not_occ in Ho'|].
    rewrite Hlink by auto. rewrite (corr_opp L (nbr L s d) s). unfold vadd; cbn [fst snd].
    destruct (rl lat0 (nbr L s d)); cbn [fst snd]; f_equal; lia.
  - intros i. rewrite Hs1. destruct (Z.eqb_spec i s); [subst|]; auto.
  - intros i Hi Hn _. rewrite Hrl1. destruct (Z.eqb_spec i s); [contradiction|reflexivity].
  - intros Hno. rewrite Hrl1, Z.eqb_refl. unfold rs, sg, rl. rewrite HsA. destruct (Z.eqb_spec (nbr L s d) s) as [Ee|Ee].
    + rewrite Ee. cbn [s_gid s_rel site_set_gid]. fold (rl lat0 s). rewrite Hrl0, corr_self. destruct (0 <=? root); reflexivity.
    + fold (sg lat0 (nbr L s d)). destruct (Z.leb_spec 0 (sg lat0 (nbr L s d))) as [Hp|Hp]; [|reflexivity].
      exfalso. apply (Hno (nbr L s d) Hnb). now apply Hnbsg.
Qed.

(** ** Second loop: one neighbouring cluster is shifted and merged *)
Definition body2 (root : Z) : lattice * cpool -> Z -> res (lattice * cpool) :=
  fun '(lat, p) bb =>
      bbg <- get_bond_gid_by_id lat bb ;;
      if bbg =? root then Ok (lat, p) else
      lat <- relabel_relative_indices lat p s bb ;;
      '(p, lat) <- merge_cluster_with p root bbg lat ;;
      Ok (lat, p).

Lemma relabel_ok lat p d g :
  Static L lat -> zlen (p_list p) = 2 * (L * L) -> is_label L g -> bg lat (bond_dir L s d) = g ->
  0 <= sg lat s ->
  NoDup (c_sites (cl p g)) -> (forall x, In x (c_sites (cl p g)) -> is_site L x) ->
  exists lat', relabel_relative_indices lat p s (bond_dir L s d) = Ok lat' /\ Static L lat' /\
    l_bonds lat' = l_bonds lat /\
    (forall i, site_at lat' i = if zmem i (c_sites (cl p g))
       then site_set_rel (site_at lat i)
              (vadd (rl lat i) (vsub (vadd (rl lat s) (corr L s (nbr L s d))) (rl lat (nbr L s d))))
       else site_at lat i).
Proof.
  intros St Hlen Hg Eg Hsg Hnd Hss. unfold relabel_relative_indices, is_label in *.
  assert (Hbd : is_bond L (bond_dir L s d)) by (now apply bond_dir_bond).
  pose proof (nbr_site L HL s d) as Hnb.
  rewrite (get_bond_by_id_ok L) by auto. cbn [rbind].
  rewrite (proj1 (st_bond _ _ St _ Hbd)). fold (bg lat (bond_dir L s d)). rewrite Eg.
  rewrite (get_neighbor_site_ok L) by auto. cbn [rbind].
  unfold pool_get_sites. rewrite (lget_in dcluster) by lia. cbn [rbind]. fold (cl p g).
  destruct (Z.eqb_spec (zlen (c_sites (cl p g))) 0) as [E0|E0].
  - exists lat. split; auto. split; auto. split; auto.
    destruct (c_sites (cl p g)); [reflexivity|]. unfold zlen in E0; simpl in E0; lia.
  - rewrite (get_site_by_id_ok L) by auto. cbn [rbind].
    rewrite (get_relative_index_ok L) by auto. cbn [rbind].
    rewrite (get_site_gid_ok L) by auto. cbn [rbind].
    replace (0 <=? sg lat s) with true by lia.
    set (dl := vsub (vadd (rl lat s) (corr L s (nbr L s d))) (rl lat (nbr L s d))).
    apply (update_sites_ok L lat (c_sites (cl p g)) _ (fun x => site_set_rel x (vadd (s_rel x) dl))); auto.
    + intros x. repeat split.
    + intros lt i Slt Hi. apply (update_site_ok L); auto.
Qed.

Lemma loop2_step root dg db lat p d rb :
  Mid root dg db lat p -> is_label L root -> is_bond L rb -> bg lat0 rb = root -> ~ In root dg ->
  bg lat0 (bond_dir L s d) <> root -> ~ In (bg lat0 (bond_dir L s d)) dg ->
  exists lat' p', body2 root (lat, p) (bond_dir L s d) = Ok (lat', p') /\
    Mid root (bg lat0 (bond_dir L s d) :: dg) (bond_dir L s d :: db) lat' p'.
Proof.
  intros M Hrl Hrb Erb Hrdg Hgr Hgd.
  set (bb := bond_dir L s d) in *. set (g := bg lat0 bb) in *. set (nb := nbr L s d).
  pose proof (md_static _ _ _ _ _ M) as St. pose proof (md_pool _ _ _ _ _ M) as Pk.
  assert (Hbd : is_bond L bb) by (now apply bond_dir_bond).
  assert (Hg : is_label L g) by (now apply (ck_blab _ _ _ Hok)).
  assert (Hnb : is_site L nb) by (apply nbr_site; auto).
  assert (Hlab : forall x, is_site L x -> occ lat0 x -> is_label L (sg lat0 x))
    by (intros; eapply sg_occ_label; eauto).
  (* labels *)
  assert (Ebg : forall b, is_bond L b -> (bg lat b = g <-> bg lat0 b = g)).
  { intros b Hb. rewrite (md_bg _ _ _ _ _ M b Hb).
    destruct (zmem_spec (bg lat0 b) dg); [|tauto]. split; intros; [congruence|]. congruence. }
  assert (Esg : forall i, is_site L i -> (sg lat i = g <-> i <> s /\ sg lat0 i = g)).
  { intros i Hi. rewrite (md_sg _ _ _ _ _ M i Hi).
    destruct (Z.eqb_spec i s); cbn [orb]; [intuition congruence|].
    destruct (zmem_spec (sg lat0 i) dg); [|tauto]. split; intros; [congruence|]. destruct H. congruence. }
  assert (Hss : sg lat s = root) by (rewrite (md_sg _ _ _ _ _ M s Hs), Z.eqb_refl; reflexivity).
  destruct (pk_bonds _ _ _ _ Pk g Hg Hgd) as [NB IB].
  destruct (pk_sites _ _ _ _ Pk g Hg Hgd) as [NS IS].
  destruct (pk_bonds _ _ _ _ Pk root Hrl Hrdg) as [NBr IBr].
  destruct (pk_sites _ _ _ _ Pk root Hrl Hrdg) as [NSr ISr].
  unfold body2. rewrite (get_bond_gid_ok L) by auto. cbn [rbind].
  assert (Egb : bg lat bb = g) by (apply Ebg; auto). rewrite Egb.
  destruct (Z.eqb_spec g root) as [|_]; [tauto|].
  destruct (relabel_ok lat p d g) as (latR & ER & SR & EbR & HsR); auto.
  { apply (pk_len _ _ _ _ Pk). }
  { rewrite Hss. unfold is_label in Hrl. lia. }
  { intros x Hx. now apply IS in Hx. }
  fold nb bb in ER, HsR. rewrite ER. cbn [rbind].
  destruct (merge_cluster_with_ok L p root g latR) as (p' & lat' & EM & S' & Hlen' & Hnx' & Hcl & Hb' & Hs'); auto.
  { apply (pk_len _ _ _ _ Pk). }
  { intros x Hx. now apply IB in Hx. }
  { intros x Hx. now apply IS in Hx. }
  { apply (pk_gid _ _ _ _ Pk); auto. intros E0. 
    assert (Hin : In rb (c_bonds (cl p root))).
    { apply IBr. split; auto. rewrite (md_bg _ _ _ _ _ M rb Hrb), Erb.
      destruct (zmem root dg); auto. }
    rewrite E0 in Hin. destruct Hin. }
  rewrite EM. cbn [rbind]. exists lat', p'. split; [reflexivity|].
  set (dl := vsub (vadd (rl lat s) (corr L s nb)) (rl lat nb)) in *.
  set (SS := c_sites (cl p g)) in *. set (BB := c_bonds (cl p g)) in *.
  assert (Hsg' : forall i, sg lat' i = if zmem i SS then root else sg lat i).
  { intros i. unfold sg. rewrite Hs', HsR. destruct (zmem i SS); reflexivity. }
  assert (Hrl' : forall i, rl lat' i = if zmem i SS then vadd (rl lat i) dl else rl lat i).
  { intros i. unfold rl. rewrite Hs', HsR. destruct (zmem i SS); reflexivity. }
  assert (Hbg' : forall b, bg lat' b = if zmem b BB then root else bg lat b).
  { intros i. unfold bg. rewrite Hb'. unfold bond_at. rewrite EbR. destruct (zmem i BB); reflexivity. }
  assert (HSS : forall i, In i SS <-> is_site L i /\ i <> s /\ sg lat0 i = g).
  { intros i. rewrite IS. split; intros [A B]; (split; [exact A|]); apply (Esg i A); auto. }
  assert (HBB : forall b, In b BB <-> is_bond L b /\ bg lat0 b = g).
  { intros i. rewrite IB. split; intros [A B]; (split; [exact A|]); apply (Ebg i A); auto. }
  assert (HsSS : zmem s SS = false).
  { apply zmem_false. rewrite HSS. tauto. }
  assert (Hocc : forall x, occ lat' x <-> occ lat x).
  { intros x. unfold occ. rewrite Hsg'. destruct (zmem_spec x SS) as [Hx|Hx]; [|tauto].
    apply IS in Hx as [_ ->]. unfold is_label in *. lia. }
  assert (Hocc0 : forall x, is_site L x -> occ lat0 x -> occ lat x).
  { intros x Hx Ho. unfold occ. rewrite (md_sg _ _ _ _ _ M x Hx).
    destruct ((x =? s) || zmem (sg lat0 x) dg); auto. unfold is_label in Hrl. lia. }
  assert (Hnb0 : forall i, In i SS -> occ lat0 nb).
  { intros i Hi. apply HSS in Hi as (A & _ & C). apply (nb_occ d i); auto.
    unfold occ. rewrite C. unfold is_label in Hg. lia. }
  assert (HnbSS : occ lat0 nb -> In nb SS).
  { intros Ho. apply HSS. split; auto. split; [|now apply nb_label].
    intros Ee. rewrite Ee in Ho. now apply s_not_occ in Ho. }
  assert (Hcross : forall i j, In i SS -> is_site L j -> sg lat j = root ->
     exists ds, walk L (occ lat') i ds j /\ disp ds = vsub (rl lat j) (vadd (rl lat i) dl)).
  { intros i j Hi Hj Ej. assert (Hon := Hnb0 i Hi). pose proof (HnbSS Hon) as Hnin.
    assert (Hi' := Hi). apply IS in Hi' as [Hi1 Hi2]. assert (Hn' := Hnin). apply IS in Hn' as [_ Hn2].
    assert (Hoi : occ lat i) by (unfold occ; rewrite Hi2; unfold is_label in Hg; lia).
    assert (Hos : occ lat s) by (unfold occ; rewrite Hss; unfold is_label in Hrl; lia).
    assert (Hon1 : occ lat nb) by auto.
    destruct (md_walk _ _ _ _ _ M i nb) as (w1 & W1 & D1); auto; [congruence|].
    destruct (corr_walk L s d (occ lat) HL Hs Hos Hon1) as (w2 & W2 & D2). fold nb in W2, D2.
    destruct (md_walk _ _ _ _ _ M s j) as (w3 & W3 & D3); auto; [congruence|].
    exists (w1 ++ map opp (rev w2) ++ w3). split.
    - apply walk_mono with (occ := occ lat); [intros; now apply Hocc|].
      eapply walk_app; [exact W1|]. eapply walk_app; [apply walk_rev; eauto|exact W3].
    - rewrite !disp_app, disp_rev, D1, D2, D3. unfold dl, vadd, vsub; cbn [fst snd]. f_equal; lia. }
  constructor; auto.
  - (* bonds *)
    intros b Hb. rewrite Hbg', zmem_cons, (md_bg _ _ _ _ _ M b Hb).
    destruct (zmem_spec b BB) as [Hm|Hm].
    + apply HBB in Hm as [_ ->]. now rewrite Z.eqb_refl.
    + destruct (Z.eqb_spec (bg lat0 b) g) as [Ee|]; [|reflexivity].
      exfalso. apply Hm, HBB. auto.
  - (* sites *)
    intros i Hi. rewrite Hsg', zmem_cons, (md_sg _ _ _ _ _ M i Hi).
    destruct (zmem_spec i SS) as [Hm|Hm].
    + apply HSS in Hm as (_ & _ & ->). rewrite Z.eqb_refl. now rewrite orb_true_r.
    + destruct (Z.eqb_spec i s); [reflexivity|]. cbn [orb].
      destruct (Z.eqb_spec (sg lat0 i) g) as [Ee|]; [|reflexivity].
      exfalso. apply Hm, HSS. auto.
  - (* pool *)
    constructor; auto.
    + rewrite Hnx'. apply (pk_next _ _ _ _ Pk).
    + intros c Hc Hcd. cbn [In] in Hcd. rewrite Hcl. destruct (Z.eqb_spec c root).
      * subst c. cbn [c_bonds]. fold BB. split.
        -- apply NoDup_app_disjoint; auto. intros x Hx Hx'.
           apply IBr in Hx as [? ?]. apply IB in Hx' as [? ?]. congruence.
        -- intros b. rewrite in_app_iff, Hbg'. destruct (zmem_spec b BB) as [Hm|Hm].
           ++ pose proof (proj1 (IB b) Hm). tauto.
           ++ rewrite IBr. tauto.
      * destruct (pk_bonds _ _ _ _ Pk c Hc) as [N I]; [tauto|]. split; auto.
        intros b. rewrite I, Hbg'. destruct (zmem_spec b BB) as [Hm|Hm]; [|tauto].
        apply IB in Hm as [? ?]. intuition congruence.
    + intros c Hc Hcd. cbn [In] in Hcd. rewrite Hcl. destruct (Z.eqb_spec c root).
      * subst c. cbn [c_sites]. fold SS. split.
        -- apply NoDup_app_disjoint; auto. intros x Hx Hx'.
           apply ISr in Hx as [? ?]. apply IS in Hx' as [? ?]. congruence.
        -- intros b. rewrite in_app_iff, Hsg'. destruct (zmem_spec b SS) as [Hm|Hm].
           ++ pose proof (proj1 (IS b) Hm). tauto.
           ++ rewrite ISr. tauto.
      * destruct (pk_sites _ _ _ _ Pk c Hc) as [N I]; [tauto|]. split; auto.
        intros b. rewrite I, Hsg'. destruct (zmem_spec b SS) as [Hm|Hm]; [|tauto].
        apply IS in Hm as [? ?]. intuition congruence.
    + intros c Hc Hcd. cbn [In] in Hcd. rewrite Hcl.
      assert (Hr' : c_bonds (cl p root) <> []).
      { intros E0. assert (Hin : In rb (c_bonds (cl p root))).
        { apply IBr. split; auto. rewrite (md_bg _ _ _ _ _ M rb Hrb), Erb. destruct (zmem root dg); auto. }
        rewrite E0 in Hin. destruct Hin. }
      destruct (Z.eqb_spec c root); intros Hne; [subst c; cbn [c_gid c_id]; apply (pk_gid _ _ _ _ Pk); auto|].
      apply (pk_gid _ _ _ _ Pk); auto.
  - (* walks *)
    intros i j Hi Hj Ho Eij. rewrite !Hrl'. rewrite !Hsg' in Eij. apply Hocc in Ho.
    destruct (zmem_spec i SS) as [Mi|Mi]; destruct (zmem_spec j SS) as [Mj|Mj].
    + assert (E2 : sg lat i = sg lat j) by (apply IS in Mi as [_ ->]; apply IS in Mj as [_ ->]; auto).
      destruct (md_walk _ _ _ _ _ M i j Hi Hj Ho E2) as (ds & W & D). exists ds. split.
      * apply walk_mono with (occ := occ lat); auto. intros; now apply Hocc.
      * rewrite D. unfold vadd, vsub; cbn [fst snd]. f_equal; lia.
    + apply Hcross; auto.
    + destruct (Hcross j i Mj Hi) as (ds & W & D); auto.
      exists (map opp (rev ds)). split; [now apply walk_rev|].
      rewrite disp_rev, D. unfold vsub; cbn [fst snd]. f_equal; lia.
    + destruct (md_walk _ _ _ _ _ M i j Hi Hj Ho Eij) as (ds & W & D). exists ds. split; auto.
      apply walk_mono with (occ := occ lat); auto. intros; now apply Hocc.
  - (* shift *)
    intros i j Hi Hj Hi' Hj' Ho Eij. rewrite <- (md_shift _ _ _ _ _ M i j) by auto. rewrite !Hrl'.
    destruct (zmem_spec i SS) as [Mi|Mi]; destruct (zmem_spec j SS) as [Mj|Mj]; auto.
    + unfold vadd, vsub; cbn [fst snd]. f_equal; lia.
    + exfalso. apply Mj, HSS. apply HSS in Mi as (_ & _ & ?). intuition congruence.
    + exfalso. apply Mi, HSS. apply HSS in Mj as (_ & _ & ?). intuition congruence.
  - intros i Hi Ho. rewrite Hrl'. destruct (zmem_spec i SS) as [Mi|Mi].
    + exfalso. apply Ho, Hocc. apply IS in Mi as [_ Mi]. unfold occ. rewrite Mi. unfold is_label in Hg; lia.
    + apply (md_unocc _ _ _ _ _ M); auto. rewrite <- Hocc. auto.
  - (* small lattices *)
    intros H2 i j Hi Hj Ho Eij. rewrite !Hrl'. rewrite !Hsg' in Eij. apply Hocc in Ho.
    assert (Hcr2 : forall i j, In i SS -> is_site L j -> sg lat j = root ->
      vsub (rl lat j) (vadd (rl lat i) dl) = vsub (pos L j) (pos L i)).
    { clear i j Hi Hj Ho Eij. intros i j Hi Hj Ej.
      assert (Hon := Hnb0 i Hi). pose proof (HnbSS Hon) as Hnin.
      assert (Hi' := Hi). apply IS in Hi' as [Hi1 Hi2]. assert (Hn' := Hnin). apply IS in Hn' as [_ Hn2].
      assert (Hoi : occ lat i) by (unfold occ; rewrite Hi2; unfold is_label in Hg; lia).
      assert (Hos : occ lat s) by (unfold occ; rewrite Hss; unfold is_label in Hrl; lia).
      assert (E1 : vsub (rl lat nb) (rl lat i) = vsub (pos L nb) (pos L i))
        by (apply (md_small _ _ _ _ _ M); auto; congruence).
      assert (E2 : vsub (rl lat j) (rl lat s) = vsub (pos L j) (pos L s))
        by (apply (md_small _ _ _ _ _ M); auto; congruence).
      unfold dl. rewrite (corr_small L) by auto.
      destruct (rl lat nb), (rl lat i), (rl lat j), (rl lat s), (pos L nb), (pos L i), (pos L j), (pos L s).
      unfold vadd, vsub in *; cbn [fst snd] in *. inversion E1. inversion E2. f_equal; lia. }
    destruct (zmem_spec i SS) as [Mi|Mi]; destruct (zmem_spec j SS) as [Mj|Mj].
    + assert (E2 : sg lat i = sg lat j) by (apply IS in Mi as [_ ->]; apply IS in Mj as [_ ->]; auto).
      rewrite <- (md_small _ _ _ _ _ M H2 i j Hi Hj Ho E2).
      unfold vadd, vsub; cbn [fst snd]. f_equal; lia.
    + apply Hcr2; auto.
    + pose proof (Hcr2 j i Mj Hi Eij) as Esm.
      destruct (rl lat i), (vadd (rl lat j) dl), (pos L i), (pos L j).
      unfold vsub in *; cbn [fst snd] in *. inversion Esm. f_equal; lia.
    + apply (md_small _ _ _ _ _ M); auto.
  - (* db *)
    intros b [<-|Hb]; [right; left; reflexivity|].
    destruct (md_db _ _ _ _ _ M b Hb); [auto|right; right; auto].
  - (* links *)
    intros d' Hd' Ho'. rewrite !Hrl', HsSS. cbn [In] in Hd'.
    assert (Lb := nb_label d' Ho').
    destruct (zmem_spec (nbr L s d') SS) as [Mi|Mi].
    + assert (bg lat0 (bond_dir L s d') = g) by (apply HSS in Mi as (_ & _ & Mi); congruence).
      destruct Hd' as [Ed|Hd'].
      * assert (Enb : nbr L s d' = nb).
        { pose proof s_not_occ as Hns. unfold bb in Ed. unfold nb.
          destruct (bond_dir_ends L HL s d Hs) as [(A1 & A2)|(A1 & A2)];
          destruct (bond_dir_ends L HL s d' Hs) as [(B1 & B2)|(B1 & B2)];
          rewrite <- Ed in B1, B2; congruence. }
        rewrite Enb. unfold dl. unfold vadd, vsub; cbn [fst snd]. f_equal; lia.
      * exfalso. destruct (md_db _ _ _ _ _ M _ Hd'); [congruence|].
        rewrite H in H0. tauto.
    + destruct Hd' as [Ed|Hd'].
      * exfalso. apply Mi, HSS. split; [apply nbr_site; auto|]. split.
        -- intros Ee. rewrite Ee in Ho'. now apply s_not_occ in Ho'.
        -- rewrite Lb, <- Ed. reflexivity.
      * apply (md_links _ _ _ _ _ M); auto.
  - intros i. rewrite Hs', HsR. destruct (md_nn _ _ _ _ _ M i).
    destruct (zmem i SS); auto.
  - intros i Hi Hn Hg'. rewrite Hrl'. destruct (zmem_spec i SS) as [Mi|Mi].
    + exfalso. apply Hg'. left. symmetry. now apply HSS in Mi.
    + apply (md_keep _ _ _ _ _ M); auto. intros Q. apply Hg'. now right.
  - intros Hno. rewrite Hrl', HsSS. now apply (md_alone _ _ _ _ _ M).
Qed.


(** ** The clearing loop *)
Definition body3 (root : Z) : cpool -> Z -> res cpool :=
  fun p bbg => if bbg =? root then Ok p else clear_cluster p bbg.

Lemma clear_ok root dg lat : forall p gids,
  PoolOK L (fun c => In c dg) lat p ->
  (forall c, In c dg -> In c gids) -> (forall c, In c gids -> is_label L c) ->
  (forall c, In c gids -> c = root \/ In c dg) ->
  (forall b, is_bond L b -> ~ In (bg lat b) dg) -> (forall i, is_site L i -> ~ In (sg lat i) dg) ->
  exists p', foldM (body3 root) gids p = Ok p' /\ PoolOK L (fun c => In c dg /\ c = root) lat p'.
Proof.
  intros p gids Pk Hcov Hlab Hgd Hnb Hns.
  destruct (foldM_rule (body3 root) (fun pre p =>
     PoolOK L (fun c => In c dg /\ (c = root \/ ~ In c pre)) lat p) gids p) as (p' & E' & H').
  - destruct Pk as [h1 h2 h3 h4 h5]. constructor; auto.
    + intros c Hc Hn. apply h3; auto. cbn [In] in Hn. tauto.
    + intros c Hc Hn. apply h4; auto. cbn [In] in Hn. tauto.
    + intros c Hc Hn. apply h5; auto. cbn [In] in Hn. tauto.
  - intros pre g suf q Eg Q.
    assert (Hg : In g gids) by (rewrite Eg; apply in_or_app; simpl; auto).
    assert (Hgl := Hlab g Hg). unfold body3. destruct (Z.eqb_spec g root) as [->|Hgr].
    + exists q. split; auto. destruct Q as [h1 h2 h3 h4 h5].
      assert (Hdown : forall c, ~ (In c dg /\ (c = root \/ ~ In c (pre ++ [root]))) ->
                ~ (In c dg /\ (c = root \/ ~ In c pre))).
      { intros c Hn [A B]. apply Hn. split; auto. destruct B as [B|B]; auto.
        destruct (Z.eq_dec c root); auto. right. rewrite in_app_iff. cbn [In]. intuition. }
      constructor; auto.
    + unfold clear_cluster. pose proof (pk_len _ _ _ _ Q) as Hlen. unfold is_label in Hgl.
      rewrite (lget_in dcluster) by lia. cbn [rbind]. rewrite lset_in by lia. cbn [rbind].
      eexists. split; [reflexivity|].
      assert (Hgdg : In g dg) by (destruct (Hgd g Hg); tauto).
      assert (Hdown : forall c, c <> g -> ~ (In c dg /\ (c = root \/ ~ In c (pre ++ [g]))) ->
                ~ (In c dg /\ (c = root \/ ~ In c pre))).
      { intros c Hcg Hn [A B]. apply Hn. split; auto. destruct B as [B|B]; auto.
        right. rewrite in_app_iff. cbn [In]. intuition. }
      constructor.
      * cbn [p_list]. now rewrite zlen_upd.
      * apply (pk_next _ _ _ _ Q).
      * intros c Hc Hn. rewrite cl_upd by lia. destruct (Z.eqb_spec c g).
        -- cbn. split; [constructor|]. intros b. split; [intros []|]. intros [Hb Eb].
           apply (Hnb b Hb). congruence.
        -- apply (pk_bonds _ _ _ _ Q); auto.
      * intros c Hc Hn. rewrite cl_upd by lia. destruct (Z.eqb_spec c g).
        -- cbn. split; [constructor|]. intros b. split; [intros []|]. intros [Hb Eb].
           apply (Hns b Hb). congruence.
        -- apply (pk_sites _ _ _ _ Q); auto.
      * intros c Hc Hn. rewrite cl_upd by lia. destruct (Z.eqb_spec c g).
        -- cbn. congruence.
        -- apply (pk_gid _ _ _ _ Q); auto.
  - exists p'. split; auto. destruct H' as [h1 h2 h3 h4 h5].
    assert (Hdown : forall c, ~ (In c dg /\ c = root) -> ~ (In c dg /\ (c = root \/ ~ In c gids))).
    { intros c Hn [A [B|B]]; [tauto|]. apply B, Hcov, A. }
    constructor; auto.
Qed.

(** ** The whole function *)
Definition nb_labels : list Z := map (bg lat0) (bonds_of L s).

Lemma adj_label lat p i d : ClOK L lat p -> is_site L i -> occ lat i -> occ lat (nbr L i d) ->
  sg lat (nbr L i d) = sg lat i.
Proof.
  intros C Hi Ho Hn. pose proof (nbr_site L HL i d) as Hnb.
  rewrite <- (ck_own _ _ _ C i d) by auto.
  assert (Hb : is_bond L (bond_dir L i d)) by (now apply bond_dir_bond).
  assert (In (bond_dir L i d) (bonds_of L (nbr L i d))) as Hin.
  { destruct (bond_dir_ends L HL i d Hi) as [(A1 & A2)|(A1 & A2)]; rewrite <- A2;
      [apply bond_of_end2|apply bond_of_end1]; auto. }
  apply In_bonds_of in Hin as (d' & Ed). rewrite Ed. symmetry. apply (ck_own _ _ _ C); auto.
Qed.

Lemma mid_final root dg db lat p out :
  Mid root dg db lat p -> is_label L root -> ~ In root dg ->
  (forall b, In b out -> In b (bonds_of L s)) ->
  (forall b, In b (bonds_of L s) -> In (bg lat0 b) (map (bg lat0) out)) ->
  (forall g, In g dg <-> In g (map (bg lat0) out) /\ g <> root) ->
  In root (map (bg lat0) out) ->
  (forall b, In b out -> In b db) ->
  PoolOK L (fun _ => False) lat p ->
  ClOK L lat p.
Proof.
  intros M Hrl Hrdg Hout Hcov Hdg Hrin Hdb Pk.
  assert (Hos : sg lat s = root) by (rewrite (md_sg _ _ _ _ _ M s Hs), Z.eqb_refl; reflexivity).
  assert (Hoccs : occ lat s) by (unfold occ; rewrite Hos; unfold is_label in Hrl; lia).
  assert (HdgK : forall d, bg lat0 (bond_dir L s d) = root \/ In (bg lat0 (bond_dir L s d)) dg).
  { intros d. destruct (Z.eq_dec (bg lat0 (bond_dir L s d)) root); auto. right. apply Hdg.
    split; auto. apply Hcov. apply In_bonds_of; auto. now exists d. }
  assert (HdgL : forall g, In g dg -> is_label L g).
  { intros g Hg. apply Hdg in Hg as [Hg _]. apply in_map_iff in Hg as (b & <- & Hb).
    apply (ck_blab _ _ _ Hok). apply Hout in Hb. apply In_bonds_of in Hb as (d & ->).
    now apply bond_dir_bond. }
  assert (Hocc0 : forall x, is_site L x -> occ lat0 x -> occ lat x).
  { intros x Hx Ho. unfold occ. rewrite (md_sg _ _ _ _ _ M x Hx).
    destruct ((x =? s) || zmem (sg lat0 x) dg); auto. unfold is_label in Hrl. lia. }
  assert (Hocc1 : forall x, is_site L x -> occ lat x -> x <> s -> occ lat0 x).
  { intros x Hx Ho Hxs. unfold occ in *. rewrite (md_sg _ _ _ _ _ M x Hx) in Ho.
    destruct (Z.eqb_spec x s); [tauto|]. cbn [orb] in Ho.
    destruct (zmem_spec (sg lat0 x) dg) as [Hm|Hm]; auto. apply HdgL in Hm. unfold is_label in Hm. lia. }
  assert (Hgout : forall d, exists d', In (bond_dir L s d') out /\
            bg lat0 (bond_dir L s d') = bg lat0 (bond_dir L s d)).
  { intros d. assert (Hin : In (bg lat0 (bond_dir L s d)) (map (bg lat0) out)).
    { apply Hcov. apply In_bonds_of; auto. now exists d. }
    apply in_map_iff in Hin as (b & Eb & Hb). destruct (proj1 (In_bonds_of L s b) (Hout b Hb)) as (d' & ->).
    exists d'. auto. }
  constructor.
  - apply (md_static _ _ _ _ _ M).
  - intros b Hb. rewrite (md_bg _ _ _ _ _ M b Hb). destruct (zmem _ _); auto. now apply (ck_blab _ _ _ Hok).
  - intros i Hi. rewrite (md_sg _ _ _ _ _ M i Hi). destruct (_ || _); auto. now apply (ck_slab _ _ _ Hok).
  - exact Pk.
  - intros i d Hi Ho. assert (Hb : is_bond L (bond_dir L i d)) by (now apply bond_dir_bond).
    rewrite (md_bg _ _ _ _ _ M _ Hb), (md_sg _ _ _ _ _ M i Hi).
    destruct (Z.eqb_spec i s) as [->|Hne]; cbn [orb].
    + destruct (HdgK d) as [Ek|Ek]; [destruct (zmem _ _); auto|].
      apply zmem_In in Ek. now rewrite Ek.
    + rewrite (ck_own _ _ _ Hok i d) by auto. reflexivity.
  - intros b b' Hb Hb' Eb. rewrite (md_bg _ _ _ _ _ M b Hb), (md_bg _ _ _ _ _ M b' Hb') in Eb.
    assert (Hcase : bg lat0 b = bg lat0 b' \/ exists d, bg lat0 b = bg lat0 (bond_dir L s d)).
    { assert (HR : forall g, g = root \/ In g dg -> exists d, g = bg lat0 (bond_dir L s d)).
      { intros g Hg. assert (Hin : In g (map (bg lat0) out)).
        { destruct Hg as [->|Hg]; auto. now apply Hdg. }
        apply in_map_iff in Hin as (x & <- & Hx). destruct (proj1 (In_bonds_of L s x) (Hout x Hx)) as (d & ->).
        now exists d. }
      destruct (zmem_spec (bg lat0 b) dg) as [Hm|Hm]; [right; apply HR; auto|].
      destruct (zmem_spec (bg lat0 b') dg) as [Hm'|Hm']; [|auto].
      right. apply HR. auto. }
    destruct Hcase as [Hc|(d & Hc)].
    + destruct (ck_join _ _ _ Hok b b' Hb Hb' Hc) as [|[Ho|Ho]]; auto; right.
      * left. apply Hocc0; auto. now apply end1_site.
      * right. apply Hocc0; auto. now apply end2_site.
    + assert (Hbd : is_bond L (bond_dir L s d)) by (now apply bond_dir_bond). right.
      destruct (ck_join _ _ _ Hok b _ Hb Hbd Hc) as [->|[Ho|Ho]].
      * destruct (bond_dir_ends L HL s d Hs) as [(A1 & _)|(A1 & _)]; rewrite A1; auto.
      * left. apply Hocc0; auto. now apply end1_site.
      * right. apply Hocc0; auto. now apply end2_site.
  - apply (md_walk _ _ _ _ _ M).
  - apply (md_unocc _ _ _ _ _ M).
  - (* a neighbour at the lattice offset *)
    intros i d Hi Ho Hon. pose proof (nbr_site L HL i d) as Hnb.
    destruct (Z.eq_dec i s) as [->|Hne].
    + destruct (Z.eq_dec (nbr L s d) s) as [Ee|Ee].
      * exists d. rewrite Ee. split; auto. rewrite corr_self. unfold vadd; cbn [fst snd].
        destruct (rl lat s); cbn [fst snd]; f_equal; lia.
      * assert (Hn0 : occ lat0 (nbr L s d)) by auto.
        destruct (Hgout d) as (d' & Hin & Eg).
        assert (Hn1 : occ lat0 (nbr L s d')).
        { apply (nb_occ d' (nbr L s d)); auto. rewrite Eg. now apply nb_label. }
        exists d'. split; [apply Hocc0; auto; apply nbr_site; auto|].
        apply (md_links _ _ _ _ _ M); auto.
    + assert (Hoi : occ lat0 i) by auto.
      destruct (occ_dec lat0 (nbr L i d)) as [Hn0|Hn0].
      * destruct (ck_unit _ _ _ Hok i d Hi Hoi Hn0) as (d' & Ho' & Er).
        pose proof (nbr_site L HL i d') as Hnb'.
        exists d'. split; auto.
        assert (Ene : nbr L i d' <> s) by (intros Ee; rewrite Ee in Ho'; now apply s_not_occ in Ho').
        pose proof (md_shift _ _ _ _ _ M i (nbr L i d') Hi Hnb' Hne Ene Hoi) as Hsh.
        rewrite (adj_label lat0 p0) in Hsh by auto. specialize (Hsh eq_refl).
        rewrite Er in Hsh. destruct (rl lat (nbr L i d')), (rl lat i), (rl lat0 i), (corr L i (nbr L i d')).
        unfold vadd, vsub in *; cbn [fst snd] in *. inversion Hsh. f_equal; lia.
      * assert (Ens : nbr L i d = s).
        { destruct (Z.eq_dec (nbr L i d) s); auto. exfalso. apply Hn0. auto. }
        destruct (existsb (fun d1 => if occ_dec lat0 (nbr L i d1) then true else false) all_dirs) eqn:Eex.
        -- apply existsb_exists in Eex as (d1 & _ & Ed1). destruct (occ_dec lat0 (nbr L i d1)) as [Hd1|]; [|discriminate].
           destruct (ck_unit _ _ _ Hok i d1 Hi Hoi Hd1) as (d' & Ho' & Er).
           pose proof (nbr_site L HL i d') as Hnb'.
           exists d'. split; auto.
           assert (Ene : nbr L i d' <> s) by (intros Ee; rewrite Ee in Ho'; now apply s_not_occ in Ho').
           pose proof (md_shift _ _ _ _ _ M i (nbr L i d') Hi Hnb' Hne Ene Hoi) as Hsh.
           rewrite (adj_label lat0 p0) in Hsh by auto. specialize (Hsh eq_refl).
           rewrite Er in Hsh. destruct (rl lat (nbr L i d')), (rl lat i), (rl lat0 i), (corr L i (nbr L i d')).
           unfold vadd, vsub in *; cbn [fst snd] in *. inversion Hsh. f_equal; lia.
        -- assert (Hall : forall d1, ~ occ lat0 (nbr L i d1)).
           { intros d1 Hd1. assert (existsb (fun d1 => if occ_dec lat0 (nbr L i d1) then true else false) all_dirs = true).
             { apply existsb_exists. exists d1. split; [destruct d1; simpl; auto|].
               destruct (occ_dec lat0 (nbr L i d1)); tauto. }
             congruence. }
           (* i is alone in its cluster *)
           assert (Ei : i = nbr L s (opp d)) by (rewrite <- Ens; symmetry; now apply nbr_opp).
           destruct (Hgout (opp d)) as (d' & Hin & Eg).
           assert (Hlbl : sg lat0 i = bg lat0 (bond_dir L s d')).
           { rewrite Eg. rewrite Ei at 1. apply nb_label. now rewrite <- Ei. }
           assert (Hn' : occ lat0 (nbr L s d')) by (apply (nb_occ d' i); auto).
           assert (Ei' : nbr L s d' = i).
           { destruct (ck_walk _ _ _ Hok i (nbr L s d')) as (ds & W & _); auto.
             - apply nbr_site; auto.
             - rewrite Hlbl. symmetry. now apply nb_label.
             - inversion W; subst; auto.
               exfalso. match goal with H : walk _ _ _ _ _ |- _ => apply (walk_sites L HL) in H || apply walk_sites in H end.
               eapply Hall. apply H1. }
           exists d. split; auto. rewrite Ens.
           pose proof (md_links _ _ _ _ _ M d' (Hdb _ Hin) Hn') as Hlk. rewrite Ei' in Hlk.
           rewrite Hlk, (corr_opp L s i). unfold vadd; cbn [fst snd].
           destruct (rl lat s); cbn [fst snd]; f_equal; lia.
  - apply (md_small _ _ _ _ _ M).
Qed.

Lemma loop1_ok root out : NoDup (map (bg lat0) out) -> (forall b, In b out -> In b (bonds_of L s)) ->
  In root (map (bg lat0) out) ->
  exists rb lat1 p1, In rb out /\ bg lat0 rb = root /\ foldM (body1 root) out (lat0, p0) = Ok (lat1, p1) /\
    Mid root [] [rb] lat1 p1.
Proof.
  intros Hnd Hout Hr. apply in_map_iff in Hr as (rb & Erb & Hin).
  destruct (proj1 (In_bonds_of L s rb) (Hout rb Hin)) as (d & Ed).
  assert (Hb : forall b, In b out -> is_bond L b).
  { intros b Hb. apply Hout, In_bonds_of in Hb as (d' & ->). now apply bond_dir_bond. }
  apply in_split in Hin as (o1 & o2 & Eo).
  destruct (loop1_hit d root) as (lat1 & p1 & Eh & M & Ebs); [congruence|].
  exists rb, lat1, p1. split; [rewrite Eo; apply in_or_app; simpl; auto|]. split; auto.
  rewrite Ed in *. split; [|exact M].
  assert (Hoth : forall b, In b (o1 ++ o2) -> is_bond L b /\ bg lat0 b <> root).
  { intros b Hb'. split.
    - apply Hb. rewrite Eo. apply in_or_app. apply in_app_or in Hb' as [|]; simpl; auto.
    - intros Eb. rewrite Eo, map_app in Hnd. cbn [map] in Hnd. apply NoDup_remove_2 in Hnd.
      apply Hnd. rewrite Erb, <- Eb, <- map_app. now apply in_map. }
  rewrite Eo, foldM_app. rewrite foldM_id.
  - cbn [rbind]. change (foldM (body1 root) (bond_dir L s d :: o2) (lat0, p0)) with
      (a <- body1 root (lat0, p0) (bond_dir L s d) ;; foldM (body1 root) o2 a).
    rewrite Eh. cbn [rbind]. apply foldM_id. intros x Hx.
    destruct (Hoth x) as [H1 H2]; [apply in_or_app; auto|].
    unfold body1. rewrite (get_bond_gid_ok L) by (auto; apply (md_static _ _ _ _ _ M)). cbn [rbind].
    assert (Eg : bg lat1 x = bg lat0 x) by (unfold bg, bond_at; now rewrite Ebs).
    rewrite Eg. destruct (Z.eqb_spec (bg lat0 x) root); [tauto|reflexivity].
  - intros x Hx. destruct (Hoth x) as [H1 H2]; [apply in_or_app; auto|].
    unfold body1. rewrite (get_bond_gid_ok L) by (auto; apply (ck_static _ _ _ Hok)). cbn [rbind].
    destruct (Z.eqb_spec (bg lat0 x) root); [tauto|reflexivity].
Qed.

Lemma loop2_ok root rb out lat1 p1 : NoDup (map (bg lat0) out) ->
  (forall b, In b out -> In b (bonds_of L s)) ->
  In rb out -> bg lat0 rb = root -> Mid root [] [rb] lat1 p1 ->
  exists dg db lat2 p2, foldM (body2 root) out (lat1, p1) = Ok (lat2, p2) /\
    Mid root dg db lat2 p2 /\ (forall b, In b out -> In b db) /\
    (forall g, In g dg <-> In g (map (bg lat0) out) /\ g <> root).
Proof.
  intros Hnd Hout Hrb Erb M.
  assert (Hrbb : is_bond L rb).
  { apply Hout, In_bonds_of in Hrb as (d & ->). now apply bond_dir_bond. }
  assert (Hrl : is_label L root) by (rewrite <- Erb; now apply (ck_blab _ _ _ Hok)).
  destruct (foldM_rule (body2 root) (fun pre '(lat, p) => exists dg db,
     Mid root dg db lat p /\ In rb db /\ (forall b, In b pre -> In b db) /\
     (forall g, In g dg <-> In g (map (bg lat0) pre) /\ g <> root)) out (lat1, p1)) as ([lat2 p2] & E2 & H2).
  - exists [], [rb]. split; auto. split; [simpl; auto|]. split; [intros b []|].
    intros g. simpl. tauto.
  - intros pre bb suf [lat p] Eo (dg & db & Mi & Hr & Hd & Hg).
    assert (Hbo : In bb out) by (rewrite Eo; apply in_or_app; simpl; auto).
    destruct (proj1 (In_bonds_of L s bb) (Hout bb Hbo)) as (d & Ed). subst bb.
    assert (Hbd : is_bond L (bond_dir L s d)) by (now apply bond_dir_bond).
    assert (Hnin : ~ In (bg lat0 (bond_dir L s d)) (map (bg lat0) pre)).
    { rewrite Eo, map_app in Hnd. cbn [map] in Hnd. apply NoDup_remove_2 in Hnd.
      intros Hi. apply Hnd, in_or_app. auto. }
    destruct (Z.eq_dec (bg lat0 (bond_dir L s d)) root) as [Er|Er].
    + (* the root's own bond *)
      exists (lat, p). split.
      * unfold body2. rewrite (get_bond_gid_ok L) by (auto; apply (md_static _ _ _ _ _ Mi)). cbn [rbind].
        rewrite (md_bg _ _ _ _ _ Mi _ Hbd), Er.
        destruct (zmem root dg); now rewrite Z.eqb_refl.
      * exists dg, db. split; auto. split; auto.
        assert (Ebr : bond_dir L s d = rb).
        { apply (NoDup_map_eq (bg lat0) out); auto. congruence. }
        split.
        -- intros b Hb. apply in_app_or in Hb as [Hb|[<-|[]]]; auto. now rewrite Ebr.
        -- intros g. rewrite Hg, map_app, in_app_iff. cbn [map In]. rewrite Er. intuition congruence.
    + destruct (loop2_step root dg db lat p d rb) as (lat' & p' & Es & M'); auto.
      * rewrite Hg. tauto.
      * rewrite Hg. tauto.
      * exists (lat', p'). split; auto. eexists _, _. split; [exact M'|]. split; [right; auto|]. split.
        -- intros b Hb. apply in_app_or in Hb as [Hb|[<-|[]]]; [right; auto|left; auto].
        -- intros g. cbn [In]. rewrite Hg, map_app, in_app_iff. cbn [map In]. intuition congruence.
  - destruct H2 as (dg & db & H). exists dg, db, lat2, p2. intuition.
Qed.

Theorem merge_ok (aw : bool) (w : Z) :
  exists lat' p' root, merge_clusters_v2 E lat0 p0 s s aw w (bonds_of L s) = Ok (lat', p', root) /\
    ClOK L lat' p' /\ In root nb_labels /\ (aw = true -> In w nb_labels -> root = w) /\
    (forall b, is_bond L b -> bg lat' b = if zmem (bg lat0 b) nb_labels then root else bg lat0 b) /\
    (forall i, is_site L i -> sg lat' i = if (i =? s) || zmem (sg lat0 i) nb_labels then root else sg lat0 i) /\
    (forall i j, is_site L i -> is_site L j -> i <> s -> j <> s -> occ lat0 i -> sg lat0 i = sg lat0 j ->
       vsub (rl lat' j) (rl lat' i) = vsub (rl lat0 j) (rl lat0 i)) /\
    (forall i, s_nn1 (site_at lat' i) = s_nn1 (site_at lat0 i) /\
               s_nn2 (site_at lat' i) = s_nn2 (site_at lat0 i)) /\
    (forall d, In (bond_dir L s d) (firsts (bg lat0) (bonds_of L s)) -> occ lat0 (nbr L s d) ->
       rl lat' (nbr L s d) = vadd (rl lat' s) (corr L s (nbr L s d))) /\
    (let gids := e_ord E (map (bg lat0) (firsts (bg lat0) (bonds_of L s))) in
     root_loop p0 aw w gids gids 0 (hd 0 gids) = Ok root) /\
    (forall i, is_site L i -> i <> s -> ~ In (sg lat0 i) nb_labels \/ sg lat0 i = root -> rl lat' i = rl lat0 i) /\
    ((forall i, is_site L i -> sg lat0 i <> root) -> rl lat' s = (0, 0)).
Proof.
  pose proof (ck_static _ _ _ Hok) as St.
  assert (HbO : forall b, In b (bonds_of L s) -> is_bond L b).
  { intros b Hb. apply In_bonds_of in Hb as (d & ->). now apply bond_dir_bond. }
  destruct (uniq_ok L lat0 (bonds_of L s) St HbO) as (out & Eu & Efi & Hnd & Hout & Hcov).
  unfold merge_clusters_v2. rewrite Eu. cbn [rbind].
  assert (Eg : get_bond_gids E lat0 out = Ok (e_ord E (map (bg lat0) out))).
  { unfold get_bond_gids.
    assert (Em : mapM (get_bond_gid_by_id lat0) out = Ok (map (bg lat0) out)).
    { clear -Hout HbO St. induction out as [|b o IH]; auto. simpl.
      rewrite (get_bond_gid_ok L) by (auto; apply HbO, Hout; simpl; auto). cbn [rbind].
      rewrite IH by (intros; apply Hout; simpl; auto). reflexivity. }
    now rewrite Em. }
  rewrite Eg. cbn [rbind].
  set (gids := e_ord E (map (bg lat0) out)).
  destruct (HE (map (bg lat0) out)) as [Gnd Gin]. fold gids in Gnd, Gin.
  assert (HgK : forall g, In g gids <-> In g nb_labels).
  { intros g. rewrite Gin. unfold nb_labels. split; intros H.
    - apply in_map_iff in H as (b & <- & Hb). apply in_map. auto.
    - apply in_map_iff in H as (b & <- & Hb). auto. }
  assert (Hlab : forall g, In g gids -> is_label L g).
  { intros g Hg. apply HgK in Hg. apply in_map_iff in Hg as (b & <- & Hb). apply (ck_blab _ _ _ Hok). auto. }
  assert (Hne : gids <> []).
  { intros E0. assert (In (bg lat0 (bond_dir L s DRight)) gids).
    { apply HgK. apply in_map. apply In_bonds_of; auto. now exists DRight. }
    rewrite E0 in H. destruct H. }
  assert (Hget : exists g0, lget gids 0 = Ok g0 /\ In g0 gids /\ g0 = hd 0 gids).
  { clearbody gids. destruct gids as [|g0 gs]; [tauto|]. exists g0. split; [reflexivity|simpl; auto]. }
  destruct Hget as (g0 & Eget & Hg0 & Hhd). rewrite Eget. cbn [rbind].
  destruct (root_loop_ok L p0 aw w gids gids 0 g0) as (root & Er & Hrg & Hrw); auto.
  { apply (pk_len _ _ _ _ (ck_pool _ _ _ Hok)). }
  { apply incl_refl. }
  rewrite Er. cbn [rbind].
  assert (Hrout : In root (map (bg lat0) out)) by (now apply Gin).
  destruct (loop1_ok root out Hnd Hout Hrout) as (rb & lat1 & p1 & Hrb & Erb & E1 & M1).
  change (foldM (fun '(lat, p) bb => _) out (lat0, p0)) with (foldM (body1 root) out (lat0, p0)).
  rewrite E1. cbn [rbind].
  destruct (loop2_ok root rb out lat1 p1 Hnd Hout Hrb Erb M1) as (dg & db & lat2 & p2 & E2 & M2 & Hdb & Hdg).
  change (foldM (fun '(lat, p) bb => _) out (lat1, p1)) with (foldM (body2 root) out (lat1, p1)).
  rewrite E2. cbn [rbind].
  assert (Hrdg : ~ In root dg) by (rewrite Hdg; tauto).
  destruct (clear_ok root dg lat2 p2 gids) as (p3 & E3 & Pk3).
  { apply (md_pool _ _ _ _ _ M2). }
  { intros c Hc. apply Gin. now apply Hdg. }
  { auto. }
  { intros c Hc. destruct (Z.eq_dec c root); auto. right. apply Hdg. split; auto. now apply Gin. }
  { intros b Hb. rewrite (md_bg _ _ _ _ _ M2 b Hb). destruct (zmem_spec (bg lat0 b) dg); auto. }
  { intros i Hi. rewrite (md_sg _ _ _ _ _ M2 i Hi). destruct (i =? s); cbn [orb]; auto.
    destruct (zmem_spec (sg lat0 i) dg); auto. }
  change (foldM (fun p bbg => if bbg =? root then Ok p else clear_cluster p bbg) gids p2)
    with (foldM (body3 root) gids p2).
  rewrite E3. cbn [rbind].
  assert (Pk : PoolOK L (fun _ => False) lat2 p3).
  { destruct Pk3 as [h1 h2 h3 h4 h5].
    assert (Hx : forall c, ~ (In c dg /\ c = root)) by (intros c [A ->]; auto).
    constructor; auto. }
  exists lat2, p3, root. split; [reflexivity|].
  assert (Hz : forall g, zmem g nb_labels = (g =? root) || zmem g dg).
  { intros g. apply eq_true_iff_eq. rewrite orb_true_iff, !zmem_In, Z.eqb_eq, Hdg, <- Gin, HgK.
    split.
    - intros H. destruct (Z.eq_dec g root); auto.
    - intros [->|[H _]]; auto. now apply HgK. }
  split; [|split; [now apply HgK|split; [|split; [|split; [|split; [|split; [|split; [|split; [|split]]]]]]]]].
  - apply (mid_final root dg db lat2 p3 out); auto.
    destruct M2. constructor; auto.
    destruct Pk as [h1 h2 h3 h4 h5]. constructor; auto.
  - intros Ha Hw. apply Hrw; auto. now apply HgK.
  - intros b Hb. rewrite (md_bg _ _ _ _ _ M2 b Hb), Hz.
    destruct (Z.eqb_spec (bg lat0 b) root) as [->|]; cbn [orb]; auto. destruct (zmem _ _); auto.
  - intros i Hi. rewrite (md_sg _ _ _ _ _ M2 i Hi), Hz. destruct (i =? s); cbn [orb]; auto.
    destruct (Z.eqb_spec (sg lat0 i) root) as [->|]; cbn [orb]; auto. destruct (zmem _ _); auto.
  - apply (md_shift _ _ _ _ _ M2).
  - apply (md_nn _ _ _ _ _ M2).
  - intros d Hd. rewrite <- Efi in Hd. apply (md_links _ _ _ _ _ M2). auto.
  - cbv zeta. rewrite <- Efi. fold gids. rewrite <- Hhd. exact Er.
  - intros i Hi Hn Hk. apply (md_keep _ _ _ _ _ M2); auto. intros Q. apply Hdg in Q as (Q1 & Q2). destruct Hk as [Hk|Hk]; [|contradiction].
    apply Hk, HgK. now apply Gin.
  - apply (md_alone _ _ _ _ _ M2).
Qed.
End Merge.
