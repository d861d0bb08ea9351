(** * Geometry: closed form of the lattice built by the constructor. *)
From Coq Require Import ZArith List Bool Lia.
From Verif Require Import Py Lattice Spec PyFacts Torus.
Import ListNotations.
Open Scope Z_scope.

Definition dsite : site := new_site 0 0 0.
Definition dbond : bond := new_bond 0 0 0 0.
Definition site_at (lat : lattice) (i : Z) : site := at_ dsite (l_sites lat) i.
Definition bond_at (lat : lattice) (b : Z) : bond := at_ dbond (l_bonds lat) b.

(** The static part of a lattice of length L. *)
Record Static (L : Z) (lat : lattice) : Prop := mkStatic {
  st_pos : 0 < L;
  st_len : l_length lat = L;
  st_sc : l_site_count lat = L * L;
  st_bc : l_bond_count lat = 2 * (L * L);
  st_ns : zlen (l_sites lat) = L * L;
  st_nb : zlen (l_bonds lat) = 2 * (L * L);
  st_site : forall i, is_site L i ->
    s_id (site_at lat i) = i /\ s_index (site_at lat i) = (row L i, col L i) /\
    s_bonds (site_at lat i) = bonds_of L i;
  st_bond : forall b, is_bond L b ->
    b_id (bond_at lat b) = b /\
    b_type (bond_at lat b) = (if b <? L * L then 0 else 1) /\
    b_row (bond_at lat b) = row L (end1 L b) /\ b_col (bond_at lat b) = col L (end1 L b) /\
    b_sites (bond_at lat b) = bond_sites L b
}.

(** ** The nested loops visit the ids in order *)
Lemma zrange_app a b : 0 <= a -> 0 <= b -> zrange (a + b) = zrange a ++ map (Z.add a) (zrange b).
Proof.
  intros Ha Hb. apply (at_ext 0).
  - rewrite zlen_app, zlen_map, !zlen_zrange; lia.
  - rewrite zlen_zrange by lia. intros j Hj. rewrite at_zrange by lia.
    destruct (Z_lt_ge_dec j a).
    + unfold at_. replace (0 <=? j) with true by lia.
      rewrite app_nth1 by (rewrite zrange_length; lia).
      pose proof (at_zrange 0 a j) as E. unfold at_ in E.
      replace (0 <=? j) with true in E by lia. rewrite E; lia.
    + unfold at_. replace (0 <=? j) with true by lia.
      rewrite app_nth2 by (rewrite zrange_length; lia).
      rewrite zrange_length. replace (Z.to_nat j - Z.to_nat a)%nat with (Z.to_nat (j - a)) by lia.
      pose proof (at_map (Z.add a) 0 0 (zrange b) (j - a)) as E.
      rewrite at_zrange in E by (rewrite ?zlen_zrange; lia).
      unfold at_ in E. replace (0 <=? j - a) with true in E by lia.
      rewrite E; [lia|rewrite zlen_zrange; lia].
Qed.

Lemma rc_pairs_range len : 0 <= len ->
  rc_pairs len = map (fun i => (row len i, col len i)) (zrange (len * len)).
Proof.
  intros H. unfold rc_pairs.
  assert (G : forall n, 0 <= n ->
    flat_map (fun rr => map (fun cc => (rr, cc)) (zrange len)) (zrange n) =
    map (fun i => (row len i, col len i)) (zrange (n * len))).
  { apply natlike_ind.
    - reflexivity.
    - intros n Hn IH. unfold Z.succ. rewrite zrange_S by auto. rewrite flat_map_app, IH. simpl.
      rewrite app_nil_r.
      replace ((n + 1) * len) with (n * len + len) by lia.
      rewrite zrange_app by nia. rewrite map_app. f_equal.
      rewrite map_map. apply map_ext_in. intros c Hc. apply In_zrange in Hc.
      unfold row, col.
      rewrite Z.div_add_l by lia. rewrite (Z.add_comm (n * len) c), Z.mod_add by lia.
      rewrite Z.div_small, Z.mod_small by lia. f_equal; lia. }
  apply G; auto.
Qed.

(** ** The first loop: bare sites and bonds *)
Section Build.
Variable L : Z.
Hypothesis HL : 0 < L.

Definition bare_site (i : Z) : site := new_site (row L i) (col L i) i.
Definition bare_bond (b : Z) : bond :=
  new_bond (row L (end1 L b)) (col L (end1 L b)) (if b <? L * L then 0 else 1) b.

Record shape (lat : lattice) : Prop := mkShape {
  sh_len : l_length lat = L;
  sh_sc : l_site_count lat = L * L;
  sh_bc : l_bond_count lat = 2 * (L * L);
  sh_ns : zlen (l_sites lat) = L * L;
  sh_nb : zlen (l_bonds lat) = 2 * (L * L)
}.

Definition blank : lattice :=
  mkLattice L (2 * (L * L)) (L * L)
    (repeat (new_site 0 0 0) (Z.to_nat (L * L)))
    (repeat (new_bond 0 0 0 0) (Z.to_nat (2 * (L * L)))).

Lemma blank_shape : shape blank.
Proof. pose proof (LL_pos L HL). constructor; cbn [blank l_sites l_bonds]; try reflexivity;
  rewrite zlen_repeat, Z2Nat.id; auto; lia. Qed.

Lemma init_lattice_from lat0 : shape lat0 -> exists lat, init_lattice lat0 = Ok lat /\ shape lat /\
  (forall i, is_site L i -> site_at lat i = bare_site i) /\
  (forall b, is_bond L b -> bond_at lat b = bare_bond b).
Proof.
  intros Hsh0. unfold init_lattice. rewrite (sh_len _ Hsh0). rewrite rc_pairs_range by lia.
  rewrite foldM_map.
  match goal with |- context [foldM ?f _ _] =>
    destruct (foldM_rule f
      (fun p lat => shape lat /\ forall k, k = zlen p ->
         (forall i, is_site L i -> i < k -> site_at lat i = bare_site i) /\
         (forall b, is_bond L b -> end1 L b < k -> bond_at lat b = bare_bond b))
      (zrange (L * L)) lat0) as (lat & E & Hsh & Hk)
  end.
  - split; [exact Hsh0|]. intros k ->. unfold zlen. simpl.
    split; intros x Hx Hlt; [unfold is_site in Hx; lia|].
    pose proof (end1_site L x Hx) as H. unfold is_site in H. lia.
  - intros p x s lat Ep [Hsh Hinv]. apply zrange_split in Ep as [Hx ->].
    specialize (Hinv x). rewrite zlen_zrange in Hinv by lia. destruct (Hinv eq_refl) as [Hi Hb].
    destruct Hsh as [h1 h2 h3 h4 h5]. rewrite h1.
    rewrite <- (rc_eq L HL x).
    assert (0 <= x < zlen (l_sites lat)) by lia.
    assert (0 <= x < zlen (l_bonds lat)) by lia.
    assert (0 <= x + L * L < zlen (l_bonds lat)) by lia.
    rewrite lset_in by auto. cbn [rbind].
    rewrite lset_in by auto. cbn [rbind].
    rewrite lset_in by (rewrite zlen_upd; auto). cbn [rbind].
    eexists. split; [reflexivity|]. split.
    + constructor; simpl; auto; rewrite ?zlen_upd; auto.
    + intros k Hk. rewrite zlen_app, zlen_zrange in Hk by lia.
      change (zlen [x]) with 1 in Hk. subst k. split.
      * intros i Hi' Hlt. unfold site_at; simpl. rewrite at_upd by auto.
        destruct (Z.eqb_spec i x).
        -- subst. reflexivity.
        -- apply Hi; auto. lia.
      * intros b Hb' Hlt. unfold bond_at; simpl.
        rewrite at_upd by (rewrite zlen_upd; auto).
        rewrite at_upd by auto.
        unfold is_bond in Hb'.
        destruct (Z.eqb_spec b (x + L * L)).
        -- subst. unfold bare_bond, end1.
           destruct (Z.ltb_spec (x + L * L) (L * L)); [lia|].
           replace (x + L * L - L * L) with x by lia. reflexivity.
        -- destruct (Z.eqb_spec b x).
           ++ subst. unfold bare_bond, end1.
              destruct (Z.ltb_spec x (L * L)); [|lia]. reflexivity.
           ++ apply Hb; auto. unfold end1 in *.
              destruct (Z.ltb_spec b (L * L)); lia.
  - exists lat. split; [exact E|]. split; auto.
    specialize (Hk (L * L)). rewrite zlen_zrange in Hk by nia.
    destruct (Hk eq_refl) as [Hi Hb]. split.
    + intros i H. apply Hi; auto. unfold is_site in H; lia.
    + intros b H. apply Hb; auto. pose proof (end1_site L b H) as H'. unfold is_site in H'. lia.
Qed.

Lemma init_lattice_spec : exists lat, init_lattice blank = Ok lat /\ shape lat /\
  (forall i, is_site L i -> site_at lat i = bare_site i) /\
  (forall b, is_bond L b -> bond_at lat b = bare_bond b).
Proof. apply init_lattice_from, blank_shape. Qed.

(** ** The second loop: incidence lists *)
Lemma mod_block q c : 0 <= c < L -> (q * L + c) mod (L * L) = (q mod L) * L + c.
Proof.
  intros Hc. symmetry.
  pose proof (Z.mod_pos_bound q L HL).
  apply (Z.mod_unique _ _ (q / L)); [left; nia|].
  pose proof (Z.div_mod q L). nia.
Qed.

Lemma find_neighbor_bonds_spec lat s : shape lat -> is_site L s ->
  find_neighbor_bonds lat s = bonds_of L s.
Proof.
  intros [h1 h2 h3 _ _] Hs. unfold find_neighbor_bonds, bonds_of.
  unfold right_bond_of_site, bottom_bond_of_site, left_bond_of_site, top_bond_of_site,
    bottom_bond_of_site, get_row_col_from_id, right_bond_of_site. rewrite h1, h2, h3.
  pose proof (col_bound L HL s) as Hc. pose proof (row_bound L HL s Hs) as Hr.
  f_equal. f_equal. f_equal.
  - rewrite nbr_left by auto. fold (row L s) (col L s). f_equal.
    replace (col L s + L - 1) with (col L s + -1 + 1 * L) by lia.
    rewrite Z.mod_add by lia. apply mod_step_down; auto.
  - f_equal. rewrite Z.add_comm. f_equal. rewrite nbr_up by auto.
    rewrite (rc_eq L HL s) at 1.
    replace (row L s * L + col L s + 2 * (L * L) - L)
      with ((row L s + -1 + 2 * L) * L + col L s) by ring.
    rewrite mod_block by auto. f_equal. f_equal.
    rewrite Z.mod_add by lia. apply mod_step_down; auto.
Qed.

(** Sites recorded in bond b once the sites below k have been processed. *)
Definition partial_sites (k b : Z) : list Z :=
  let s1 := Z.min (end1 L b) (end2 L b) in
  let s2 := Z.max (end1 L b) (end2 L b) in
  (if s1 <? k then [s1] else []) ++ (if s2 <? k then [s2] else []).
Definition bond_with (b : Z) (l : list Z) : bond :=
  mkBond b (-1) (row L (end1 L b)) (col L (end1 L b)) (if b <? L * L then 0 else 1) l.
Definition site_with (i : Z) (l : list Z) : site :=
  mkSite i (-1) l (row L i, col L i) (0, 0) 4 4.

Lemma inner_loop (H2 : 2 <= L) x bs :
  is_site L x -> zlen bs = 2 * (L * L) ->
  (forall b, is_bond L b -> at_ dbond bs b = bond_with b (partial_sites x b)) ->
  exists bs', foldM (fun bs bb =>
            b <- lget bs bb ;; lset bs bb (bond_add_connected_site b x))
          (bonds_of L x) bs = Ok bs' /\ zlen bs' = 2 * (L * L) /\
  (forall b, is_bond L b -> at_ dbond bs' b = bond_with b (partial_sites (x + 1) b)).
Proof.
  intros Hx Hlen Hb.
  match goal with |- context [foldM ?f ?l ?a] =>
    destruct (foldM_rule f (fun p bs => zlen bs = 2 * (L * L) /\
      forall b, is_bond L b -> at_ dbond bs b =
        bond_with b (if zmem b p then partial_sites (x + 1) b else partial_sites x b)) l a)
      as (bs' & E & Hl' & Hb')
  end.
  - split; auto.
  - intros p y s a Ep [Hl Ha].
    assert (Hy : In y (bonds_of L x)) by (rewrite Ep; apply in_or_app; simpl; auto).
    assert (Hyb : is_bond L y) by
      (apply In_bonds_of in Hy as (d & ->); apply bond_dir_bond; auto).
    assert (Hnp : ~ In y p).
    { pose proof (bonds_of_NoDup L HL x H2 Hx) as Hnd. rewrite Ep in Hnd.
      apply NoDup_remove_2 in Hnd. intros Hin; apply Hnd, in_or_app; auto. }
    assert (Hyr : 0 <= y < zlen a) by (unfold is_bond in Hyb; lia).
    rewrite (lget_in dbond) by auto. cbn [rbind]. rewrite lset_in by auto.
    eexists. split; [reflexivity|]. split; [now rewrite zlen_upd|].
    intros b Hbb. rewrite at_upd by auto.
    assert (Hz : zmem b (p ++ [y]) = zmem b p || (b =? y)).
    { unfold zmem. rewrite existsb_app. simpl. now rewrite orb_false_r. }
    rewrite Hz.
    destruct (Z.eqb_spec b y); [subst b|].
    + rewrite orb_true_r, Ha by auto.
      replace (zmem y p) with false by (symmetry; now apply zmem_false).
      apply bonds_of_touches in Hy; auto. destruct Hy as [Hy|Hy].
      all: unfold bond_add_connected_site, bond_with, partial_sites; cbn [b_sites b_id b_gid b_row b_col b_type];
           pose proof (ends_neq L HL y H2 Hyb).
      all: repeat match goal with |- context [?a <? ?b] =>
             lazymatch b with L * L => fail | _ => destruct (Z.ltb_spec a b) end end;
           try lia; cbn; repeat f_equal; try lia.
    + rewrite orb_false_r. apply Ha; auto.
  - exists bs'. split; auto. split; auto. intros b Hbb. rewrite Hb' by auto.
    destruct (zmem b (bonds_of L x)) eqn:Hm; auto.
    apply zmem_false in Hm. rewrite bonds_of_touches in Hm by auto.
    unfold touches in Hm. f_equal. unfold partial_sites.
    repeat match goal with |- context [?a <? ?b] => destruct (Z.ltb_spec a b) end; auto; lia.
Qed.

Lemma init_ids_spec lat0 (H2 : 2 <= L) : shape lat0 ->
  (forall i, is_site L i -> site_at lat0 i = bare_site i) ->
  (forall b, is_bond L b -> bond_at lat0 b = bare_bond b) ->
  exists lat, init_ids lat0 = Ok lat /\ shape lat /\
  (forall i, is_site L i -> site_at lat i = site_with i (bonds_of L i)) /\
  (forall b, is_bond L b -> bond_at lat b = bond_with b (bond_sites L b)).
Proof.
  intros Hsh0 Hs0 Hb0. unfold init_ids. rewrite (sh_len _ Hsh0), rc_pairs_range by lia.
  rewrite foldM_map.
  match goal with |- context [foldM ?f _ _] =>
    destruct (foldM_rule f
      (fun p lat => shape lat /\ forall k, k = zlen p ->
         (forall i, is_site L i -> site_at lat i = site_with i (if i <? k then bonds_of L i else [])) /\
         (forall b, is_bond L b -> bond_at lat b = bond_with b (partial_sites k b)))
      (zrange (L * L)) lat0) as (lat & E & Hsh & Hk)
  end.
  - split; auto. intros k ->. change (zlen (@nil Z)) with 0. split.
    + intros i Hi. rewrite Hs0 by auto. unfold is_site in Hi.
      destruct (Z.ltb_spec i 0); [lia|]. reflexivity.
    + intros b Hb. rewrite Hb0 by auto.
      pose proof (end1_site L b Hb) as H1. pose proof (end2_site L HL b) as H3.
      unfold is_site in *. unfold partial_sites.
      destruct (Z.ltb_spec (Z.min (end1 L b) (end2 L b)) 0); [lia|].
      destruct (Z.ltb_spec (Z.max (end1 L b) (end2 L b)) 0); [lia|]. reflexivity.
  - intros p x s lat Ep [Hsh Hinv]. apply zrange_split in Ep as [Hx ->].
    specialize (Hinv x). rewrite zlen_zrange in Hinv by lia. destruct (Hinv eq_refl) as [Hi Hb].
    assert (Hxs : is_site L x) by exact Hx.
    rewrite (sh_len _ Hsh). rewrite <- (rc_eq L HL x).
    rewrite find_neighbor_bonds_spec by auto. cbn [rbind passert]. 
    change (zlen (bonds_of L x) =? 4) with true. cbn [rbind passert].
    assert (Hr : 0 <= x < zlen (l_sites lat)) by (rewrite (sh_ns _ Hsh); lia).
    rewrite (lget_in dsite) by auto. cbn [rbind]. rewrite lset_in by auto. cbn [rbind].
    destruct (inner_loop H2 x (l_bonds lat) Hxs (sh_nb _ Hsh) Hb) as (bs' & E & Hl & Hb').
    rewrite E. cbn [rbind]. eexists. split; [reflexivity|]. split.
    + destruct Hsh. constructor; simpl; auto. now rewrite zlen_upd.
    + intros k Hk. rewrite zlen_app, zlen_zrange in Hk by lia.
      change (zlen [x]) with 1 in Hk. subst k. split.
      * intros i Hi'. unfold site_at; simpl. rewrite at_upd by auto.
        destruct (Z.eqb_spec i x).
        -- subst. fold (site_at lat x). rewrite Hi by auto.
           destruct (Z.ltb_spec x x); [lia|]. destruct (Z.ltb_spec x (x + 1)); [|lia].
           reflexivity.
        -- fold (site_at lat i). rewrite Hi by auto.
           destruct (Z.ltb_spec i x); destruct (Z.ltb_spec i (x + 1)); auto; lia.
      * intros b Hbb. unfold bond_at; simpl. apply Hb'; auto.
  - exists lat. split; [exact E|]. split; auto.
    specialize (Hk (L * L)). rewrite zlen_zrange in Hk by nia.
    destruct (Hk eq_refl) as [Hi Hb]. split.
    + intros i H. rewrite Hi by auto. unfold is_site in H.
      destruct (Z.ltb_spec i (L * L)); [reflexivity|lia].
    + intros b H. rewrite Hb by auto. f_equal.
      pose proof (end1_site L b H) as H1. pose proof (end2_site L HL b) as H3.
      unfold is_site in *. unfold partial_sites, bond_sites.
      destruct (Z.ltb_spec (Z.min (end1 L b) (end2 L b)) (L * L)); [|lia].
      destruct (Z.ltb_spec (Z.max (end1 L b) (end2 L b)) (L * L)); [|lia]. reflexivity.
Qed.

End Build.

(** The lattice built by the constructor, record by record. *)
Lemma new_lattice_spec L (HL : 0 < L) : exists lat, new_lattice L = Ok lat /\ shape L lat /\
  (forall i, is_site L i -> site_at lat i = site_with L i (bonds_of L i)) /\
  (forall b, is_bond L b -> bond_at lat b = bond_with L b (bond_sites L b)).
Proof.
  destruct (Z.eq_dec L 1) as [->|Hn].
  - eexists. split; [vm_compute; reflexivity|]. split; [constructor; reflexivity|]. split.
    + intros i Hi. assert (i = 0) by (unfold is_site in Hi; lia). subst. reflexivity.
    + intros b Hb. assert (b = 0 \/ b = 1) as [->| ->] by (unfold is_bond in Hb; lia); reflexivity.
  - assert (H2 : 2 <= L) by lia.
    unfold new_lattice. replace (L <? 0) with false by lia. fold (blank L).
    destruct (init_lattice_spec L HL) as (lat1 & -> & Hsh & Hs & Hb). cbn [rbind].
    apply init_ids_spec; auto.
Qed.


Lemma new_lattice_static L : 0 < L -> exists lat, new_lattice L = Ok lat /\ Static L lat.
Proof.
  intros HL. destruct (new_lattice_spec L HL) as (lat & E & [h1 h2 h3 h4 h5] & Hs & Hb).
  exists lat. split; auto. constructor; auto.
  - intros i Hi. rewrite Hs by auto. auto.
  - intros b Hbb. rewrite Hb by auto. simpl. auto.
Qed.
