(** * LatFacts: the lattice queries and updates on a well-formed lattice. *)
From Coq Require Import ZArith List Bool Lia.
From Verif Require Import Py Lattice Perc Spec PyFacts Torus Geometry.
Import ListNotations.
Open Scope Z_scope.

(** Dynamic attributes as total functions of the id. *)
Definition sg (lat : lattice) (i : Z) : Z := s_gid (site_at lat i).
Definition rl (lat : lattice) (i : Z) : index := s_rel (site_at lat i).
Definition bg (lat : lattice) (b : Z) : Z := b_gid (bond_at lat b).

Section Queries.
Variables (L : Z) (lat : lattice).
Hypothesis St : Static L lat.

Let HL : 0 < L := st_pos _ _ St.

Lemma site_range i : is_site L i -> 0 <= i < zlen (l_sites lat).
Proof. intros H. rewrite (st_ns _ _ St). exact H. Qed.
Lemma bond_range b : is_bond L b -> 0 <= b < zlen (l_bonds lat).
Proof. intros H. rewrite (st_nb _ _ St). exact H. Qed.

Lemma get_site i : is_site L i -> lget (l_sites lat) i = Ok (site_at lat i).
Proof. intros. apply lget_in. now apply site_range. Qed.
Lemma get_bond b : is_bond L b -> lget (l_bonds lat) b = Ok (bond_at lat b).
Proof. intros. apply lget_in. now apply bond_range. Qed.

Lemma get_site_by_id_ok i : is_site L i -> get_site_by_id lat i = Ok (site_at lat i).
Proof. apply get_site. Qed.
Lemma get_bond_by_id_ok b : is_bond L b -> get_bond_by_id lat b = Ok (bond_at lat b).
Proof. apply get_bond. Qed.
Lemma get_site_gid_ok i : is_site L i -> get_site_gid_by_id lat i = Ok (sg lat i).
Proof. intros. unfold get_site_gid_by_id. now rewrite get_site. Qed.
Lemma get_bond_gid_ok b : is_bond L b -> get_bond_gid_by_id lat b = Ok (bg lat b).
Proof. intros. unfold get_bond_gid_by_id. now rewrite get_bond. Qed.

Lemma get_neighbor_bonds_ok i : is_site L i -> get_neighbor_bonds lat i = Ok (bonds_of L i).
Proof.
  intros H. unfold get_neighbor_bonds. rewrite get_site by auto. simpl.
  now rewrite (proj2 (proj2 (st_site _ _ St i H))).
Qed.
Lemma get_neighbor_sites_ok b : is_bond L b -> get_neighbor_sites lat b = Ok (bond_sites L b).
Proof.
  intros H. unfold get_neighbor_sites. rewrite get_bond by auto. simpl.
  now rewrite (proj2 (proj2 (proj2 (proj2 (st_bond _ _ St b H))))).
Qed.

Lemma other_end s d : is_site L s ->
  (nn <- lremove s (bond_sites L (bond_dir L s d)) ;; lget nn 0) = Ok (nbr L s d).
Proof.
  intros H. unfold bond_sites.
  assert (G : forall e1 e2 n, (e1 = s /\ e2 = n \/ e2 = s /\ e1 = n) ->
     (nn <- lremove s [Z.min e1 e2; Z.max e1 e2] ;; lget nn 0) = Ok n).
  { intros e1 e2 n Hc. simpl. 
    destruct (Z.eqb_spec (Z.min e1 e2) s) as [E|E].
    - simpl. unfold lget. simpl. f_equal. lia.
    - destruct (Z.eqb_spec (Z.max e1 e2) s) as [E'|E']; [|lia].
      simpl. unfold lget. simpl. f_equal. lia. }
  apply G. destruct (bond_dir_ends L HL s d H) as [(-> & ->)|(-> & ->)]; auto.
Qed.

Lemma get_neighbor_site_ok s d : is_site L s ->
  get_neighbor_site lat s (bond_dir L s d) = Ok (nbr L s d).
Proof.
  intros H. unfold get_neighbor_site.
  rewrite get_neighbor_sites_ok by (now apply bond_dir_bond). cbn [rbind].
  apply other_end; auto.
Qed.

Lemma get_all_neighbor_sites_ok s : is_site L s ->
  get_all_neighbor_sites lat s = Ok (map (nbr L s) all_dirs).
Proof.
  intros H. unfold get_all_neighbor_sites. rewrite get_neighbor_bonds_ok by auto. cbn [rbind].
  rewrite bonds_of_dirs.
  assert (E : mapM (fun bid : Z =>
    tmp <- get_neighbor_sites lat bid ;; _ <- passert (zlen tmp =? 2) ;;
    tmp <- lremove s tmp ;; lget tmp 0) (map (bond_dir L s) all_dirs) = Ok (map (nbr L s) all_dirs)).
  { generalize all_dirs. induction l as [|d l IH]; simpl; auto.
    rewrite get_neighbor_sites_ok by (now apply bond_dir_bond). cbn [rbind].
    change (zlen (bond_sites L (bond_dir L s d)) =? 2) with true. cbn [passert rbind].
    rewrite other_end by auto. cbn [rbind]. now rewrite IH. }
  rewrite E. cbn [rbind]. reflexivity.
Qed.

Lemma get_site_neighbor_of_site_ok s : is_site L s ->
  get_site_neighbor_of_site lat s = Ok (map (nbr L s) all_dirs).
Proof.
  intros H. unfold get_site_neighbor_of_site. rewrite get_neighbor_bonds_ok by auto. cbn [rbind].
  rewrite bonds_of_dirs.
  generalize all_dirs. induction l as [|d l IH]; simpl; auto.
  rewrite get_neighbor_sites_ok by (now apply bond_dir_bond). cbn [rbind].
  rewrite other_end by auto. cbn [rbind]. now rewrite IH.
Qed.

Lemma get_sites_for_wrapping_test_ok s : is_site L s ->
  get_sites_for_wrapping_test lat s =
  Ok (filter (fun t => sg lat t =? sg lat s) (map (nbr L s) all_dirs)).
Proof.
  intros H. unfold get_sites_for_wrapping_test. rewrite get_site by auto. cbn [rbind].
  rewrite (proj2 (proj2 (st_site _ _ St s H))), bonds_of_dirs.
  assert (G : forall l acc, foldM (fun out bb =>
    nn <- get_neighbor_sites lat bb ;; nn <- lremove s nn ;; n0 <- lget nn 0 ;;
    t <- lget (l_sites lat) n0 ;;
    Ok (if s_gid t =? s_gid (site_at lat s) then out ++ [n0] else out)) (map (bond_dir L s) l) acc
    = Ok (acc ++ filter (fun t => sg lat t =? sg lat s) (map (nbr L s) l))).
  { induction l as [|d l IH]; intros acc; simpl; [now rewrite app_nil_r|].
    rewrite get_neighbor_sites_ok by (now apply bond_dir_bond). cbn [rbind].
    pose proof (other_end s d H) as E.
    destruct (lremove s (bond_sites L (bond_dir L s d))); [|discriminate].
    cbn [rbind] in *. rewrite E. cbn [rbind]. rewrite get_site by (now apply nbr_site).
    cbn [rbind]. fold (sg lat s) (sg lat (nbr L s d)). rewrite IH.
    destruct (sg lat (nbr L s d) =? sg lat s); auto. now rewrite <- app_assoc. }
  apply (G all_dirs []).
Qed.

Lemma get_relative_index_ok c n : is_site L c -> is_site L n ->
  get_relative_index lat c n =
  Ok (index_add (rl lat c)
       (wrapping_correction_relative_index
          (index_sub (row L n, col L n) (row L c, col L c)))).
Proof.
  intros Hc Hn. unfold get_relative_index.
  rewrite !get_site_by_id_ok by auto. cbn [rbind].
  rewrite (proj1 (proj2 (st_site _ _ St c Hc))), (proj1 (proj2 (st_site _ _ St n Hn))).
  reflexivity.
Qed.

End Queries.

(** ** Updates *)
Definition upd_site (lat : lattice) (i : Z) (s : site) : lattice :=
  with_sites lat (upd (l_sites lat) (Z.to_nat i) s).
Definition upd_bond (lat : lattice) (b : Z) (x : bond) : lattice :=
  with_bonds lat (upd (l_bonds lat) (Z.to_nat b) x).

Definition same_static_site (a b : site) : Prop :=
  s_id a = s_id b /\ s_index a = s_index b /\ s_bonds a = s_bonds b.

Lemma site_at_upd L lat i s j : Static L lat -> is_site L i ->
  site_at (upd_site lat i s) j = if j =? i then s else site_at lat j.
Proof. intros St Hi. unfold site_at, upd_site. simpl. apply at_upd. eapply site_range; eauto. Qed.
Lemma bond_at_upd L lat i s j : Static L lat -> is_bond L i ->
  bond_at (upd_bond lat i s) j = if j =? i then s else bond_at lat j.
Proof. intros St Hi. unfold bond_at, upd_bond. simpl. apply at_upd. eapply bond_range; eauto. Qed.

Lemma static_upd_site L lat i s : Static L lat -> is_site L i ->
  same_static_site s (site_at lat i) -> Static L (upd_site lat i s).
Proof.
  intros St Hi (E1 & E2 & E3). destruct St as [h0 h1 h2 h3 h4 h5 h6 h7] eqn:ESt.
  constructor; auto.
  - simpl. now rewrite zlen_upd.
  - intros j Hj. rewrite (site_at_upd L) by auto. destruct (Z.eqb_spec j i); auto.
    subst. rewrite E1, E2, E3. auto.
Qed.

Lemma static_upd_bond L lat b g : Static L lat -> is_bond L b ->
  Static L (upd_bond lat b (bond_set_gid (bond_at lat b) g)).
Proof.
  intros St Hi. destruct St as [h0 h1 h2 h3 h4 h5 h6 h7] eqn:ESt.
  constructor; auto.
  - simpl. now rewrite zlen_upd.
  - intros j Hj. rewrite (bond_at_upd L) by auto. destruct (Z.eqb_spec j b); auto.
    subst. simpl. auto.
Qed.

Lemma update_site_ok L lat i f s : Static L lat -> is_site L i -> f (site_at lat i) = Ok s ->
  update_site lat i f = Ok (upd_site lat i s).
Proof.
  intros St Hi E. unfold update_site. rewrite (get_site L) by auto. cbn [rbind]. rewrite E.
  cbn [rbind]. rewrite lset_in by (eapply site_range; eauto). reflexivity.
Qed.

Lemma set_site_gid_ok L lat i g : Static L lat -> is_site L i ->
  set_site_gid_by_id lat i g = Ok (upd_site lat i (site_set_gid (site_at lat i) g)).
Proof.
  intros St Hi. unfold set_site_gid_by_id. rewrite (get_site L) by auto. cbn [rbind].
  rewrite lset_in by (eapply site_range; eauto). reflexivity.
Qed.
Lemma set_bond_gid_ok L lat b g : Static L lat -> is_bond L b ->
  set_bond_gid_by_id lat b g = Ok (upd_bond lat b (bond_set_gid (bond_at lat b) g)).
Proof.
  intros St Hi. unfold set_bond_gid_by_id. rewrite (get_bond L) by auto. cbn [rbind].
  rewrite lset_in by (eapply bond_range; eauto). reflexivity.
Qed.
Lemma lat_set_relative_index_ok L lat i r : Static L lat -> is_site L i ->
  lat_set_relative_index lat i r = Ok (upd_site lat i (site_set_rel (site_at lat i) r)).
Proof.
  intros St Hi. unfold lat_set_relative_index.
  rewrite (st_sc _ _ St). assert (Hi' := Hi). unfold is_site in Hi'.
  rewrite (lget_in 0) by (rewrite zlen_zrange; lia).
  cbn [rbind]. rewrite at_zrange by auto.
  rewrite (get_site L) by auto. cbn [rbind].
  rewrite lset_in by (eapply site_range; eauto). reflexivity.
Qed.

(** ** Loops over a list of sites or bonds *)
Lemma set_bond_gids_ok L lat l g : Static L lat -> (forall b, In b l -> is_bond L b) ->
  exists lat', foldM (fun lat bb => set_bond_gid_by_id lat bb g) l lat = Ok lat' /\
  Static L lat' /\ l_sites lat' = l_sites lat /\
  (forall b, bond_at lat' b = if zmem b l then bond_set_gid (bond_at lat b) g else bond_at lat b).
Proof.
  intros St Hl.
  destruct (foldM_rule (fun lat bb => set_bond_gid_by_id lat bb g)
    (fun p a => Static L a /\ l_sites a = l_sites lat /\
      forall b, bond_at a b = if zmem b p then bond_set_gid (bond_at lat b) g else bond_at lat b)
    l lat) as (lat' & E & H).
  - split; [auto|]. split; auto.
  - intros p x s a -> (Sa & Es & Hb).
    assert (Hx : is_bond L x) by (apply Hl, in_or_app; simpl; auto).
    rewrite (set_bond_gid_ok L) by auto. eexists. split; [reflexivity|].
    split; [now apply static_upd_bond|]. split; [exact Es|].
    intros b. rewrite (bond_at_upd L) by auto. rewrite !Hb.
    replace (zmem b (p ++ [x])) with (zmem b p || (b =? x))
      by (unfold zmem; rewrite existsb_app; simpl; now rewrite orb_false_r).
    destruct (Z.eqb_spec b x); [subst|].
    + rewrite orb_true_r. destruct (zmem x p); reflexivity.
    + now rewrite orb_false_r.
  - exists lat'. intuition.
Qed.

(** A loop over distinct sites that rewrites each site record once. *)
Lemma update_sites_ok L lat l (f : lattice -> Z -> res lattice) (h : site -> site) :
  Static L lat -> NoDup l -> (forall i, In i l -> is_site L i) ->
  (forall s, same_static_site (h s) s) ->
  (forall lat i, Static L lat -> is_site L i -> f lat i = Ok (upd_site lat i (h (site_at lat i)))) ->
  exists lat', foldM f l lat = Ok lat' /\ Static L lat' /\ l_bonds lat' = l_bonds lat /\
  (forall i, site_at lat' i = if zmem i l then h (site_at lat i) else site_at lat i).
Proof.
  intros St Hnd Hl Hh Hf.
  destruct (foldM_rule f
    (fun p a => Static L a /\ l_bonds a = l_bonds lat /\
      forall i, site_at a i = if zmem i p then h (site_at lat i) else site_at lat i)
    l lat) as (lat' & E & H).
  - split; [auto|]. split; auto.
  - intros p x s a -> (Sa & Eb & Hs).
    assert (Hx : is_site L x) by (apply Hl, in_or_app; simpl; auto).
    assert (Hnp : zmem x p = false).
    { apply zmem_false. apply NoDup_remove_2 in Hnd. intros Hin; apply Hnd, in_or_app; auto. }
    rewrite Hf by auto. eexists. split; [reflexivity|].
    split; [apply static_upd_site; auto|]. split; [exact Eb|].
    intros i. rewrite (site_at_upd L) by auto. rewrite !Hs.
    replace (zmem i (p ++ [x])) with (zmem i p || (i =? x))
      by (unfold zmem; rewrite existsb_app; simpl; now rewrite orb_false_r).
    destruct (Z.eqb_spec i x); [subst|].
    + rewrite Hnp. reflexivity.
    + now rewrite orb_false_r.
  - exists lat'. intuition.
Qed.

(** Two well-formed lattices that agree on the dynamic attributes are equal. *)
Lemma site_ext a b : same_static_site a b -> s_gid a = s_gid b -> s_rel a = s_rel b ->
  s_nn1 a = s_nn1 b -> s_nn2 a = s_nn2 b -> a = b.
Proof. destruct a, b; unfold same_static_site; simpl; intros (?&?&?); intros; subst; reflexivity. Qed.

Lemma lattice_ext L a b : Static L a -> Static L b ->
  (forall i, is_site L i -> sg a i = sg b i /\ rl a i = rl b i /\
     s_nn1 (site_at a i) = s_nn1 (site_at b i) /\ s_nn2 (site_at a i) = s_nn2 (site_at b i)) ->
  (forall i, is_bond L i -> bg a i = bg b i) -> a = b.
Proof.
  intros Sa Sb Hs Hb.
  assert (E1 : l_sites a = l_sites b).
  { apply (at_ext dsite); [now rewrite (st_ns _ _ Sa), (st_ns _ _ Sb)|].
    rewrite (st_ns _ _ Sa). intros j Hj. fold (site_at a j) (site_at b j).
    destruct (st_site _ _ Sa j Hj) as (A1 & A2 & A3).
    destruct (st_site _ _ Sb j Hj) as (B1 & B2 & B3).
    destruct (Hs j Hj) as (C1 & C2 & C3 & C4).
    apply site_ext; auto. unfold same_static_site. now rewrite A1, A2, A3, B1, B2, B3. }
  assert (E2 : l_bonds a = l_bonds b).
  { apply (at_ext dbond); [now rewrite (st_nb _ _ Sa), (st_nb _ _ Sb)|].
    rewrite (st_nb _ _ Sa). intros j Hj. fold (bond_at a j) (bond_at b j).
    destruct (st_bond _ _ Sa j Hj) as (A1 & A2 & A3 & A4 & A5).
    destruct (st_bond _ _ Sb j Hj) as (B1 & B2 & B3 & B4 & B5).
    specialize (Hb j Hj). unfold bg in Hb.
    destruct (bond_at a j), (bond_at b j); simpl in *; congruence. }
  destruct Sa, Sb. destruct a, b; simpl in *; congruence.
Qed.
