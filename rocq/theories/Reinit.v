(** * Reinit: calling the two initialisers of the lattice again (C73). *)
From Coq Require Import ZArith List Bool Lia.
From Verif Require Import Py Lattice Spec PyFacts Torus Geometry LatFacts LatSpec SelfTest.
Import ListNotations.
Open Scope Z_scope.

Lemma upd_same {A} (d : A) l i : 0 <= i < zlen l -> upd l (Z.to_nat i) (at_ d l i) = l.
Proof.
  intros Hi. apply (at_ext d); [now rewrite zlen_upd|]. rewrite zlen_upd. intros j Hj. rewrite at_upd by auto.
  destruct (Z.eqb_spec j i); congruence.
Qed.
Lemma static_shape L lat : Static L lat -> shape L lat.
Proof. intros []. now constructor. Qed.
Lemma foldM_fix {A B} (f : B -> A -> res B) l b : (forall x, In x l -> f b x = Ok b) -> foldM f l b = Ok b.
Proof.
  induction l as [|x l IH]; intros H; [reflexivity|]. cbn [foldM]. rewrite H by now left. cbn [rbind]. apply IH. intros; apply H. now right.
Qed.
Lemma shape_ext L a b : shape L a -> shape L b -> (forall i, is_site L i -> site_at a i = site_at b i) ->
  (forall i, is_bond L i -> bond_at a i = bond_at b i) -> a = b.
Proof.
  intros Sa Sb Hs Hb.
  assert (E1 : l_sites a = l_sites b).
  { apply (at_ext dsite); [now rewrite (sh_ns _ _ Sa), (sh_ns _ _ Sb)|]. rewrite (sh_ns _ _ Sa). exact Hs. }
  assert (E2 : l_bonds a = l_bonds b).
  { apply (at_ext dbond); [now rewrite (sh_nb _ _ Sa), (sh_nb _ _ Sb)|]. rewrite (sh_nb _ _ Sa). exact Hb. }
  destruct Sa, Sb. destruct a, b; cbn in *; congruence.
Qed.

Lemma init_ids_same L lat : Static L lat -> init_ids lat = Ok lat.
Proof.
  intros St. pose proof (st_pos _ _ St) as HL. unfold init_ids. rewrite (st_len _ _ St), rc_pairs_range, foldM_map by lia.
  apply foldM_fix. intros x Hx. apply In_zrange in Hx. cbv beta iota zeta. rewrite ?(st_len _ _ St). rewrite <- (rc_eq L HL x).
  assert (Sx : is_site L x) by exact Hx.
  rewrite (find_neighbor_bonds_spec L HL) by (auto; now apply static_shape).
  change (zlen (bonds_of L x) =? 4) with true. cbn [passert rbind]. rewrite (get_site L) by auto. cbn [rbind].
  assert (Ea : site_add_connecting_bonds (site_at lat x) (bonds_of L x) = site_at lat x).
  { unfold site_add_connecting_bonds. destruct (st_site _ _ St x Sx) as (_ & _ & E3). rewrite E3. reflexivity. }
  rewrite Ea, lset_in by (rewrite (st_ns _ _ St); lia). cbn [rbind].
  unfold site_at at 1. rewrite upd_same by (rewrite (st_ns _ _ St); lia).
  rewrite foldM_fix.
  - cbn [rbind]. destruct lat; reflexivity.
  - intros b Hb. assert (Bb : is_bond L b) by (apply In_bonds_of in Hb as (d & ->); now apply bond_dir_bond).
    rewrite (get_bond L) by auto. cbn [rbind].
    assert (Eb : bond_add_connected_site (bond_at lat b) x = bond_at lat b).
    { unfold bond_add_connected_site. destruct (st_bond _ _ St b Bb) as (_ & _ & _ & _ & E5). rewrite E5. reflexivity. }
    rewrite Eb. unfold is_bond in Bb. rewrite lset_in by (rewrite (st_nb _ _ St); lia). unfold bond_at.
    now rewrite upd_same by (rewrite (st_nb _ _ St); lia).
Qed.

(** C73 *)
Lemma p_C73 L lat : 0 < L -> edited L lat ->
  init_ids lat = Ok lat /\
  exists lat1, init_lattice lat = Ok lat1 /\ init_ids lat1 = new_lattice L.
Proof.
  intros HL He. pose proof (edited_static _ _ HL He) as St. split; [now apply (init_ids_same L)|].
  destruct (init_lattice_from L HL lat (static_shape _ _ St)) as (lat1 & E1 & S1 & P1 & Q1). exists lat1. split; [exact E1|].
  unfold new_lattice. replace (L <? 0) with false by lia. fold (blank L).
  destruct (init_lattice_spec L HL) as (lat2 & E2 & S2 & P2 & Q2). rewrite E2. cbn [rbind].
  replace lat2 with lat1; [reflexivity|]. apply (shape_ext L); auto.
  - intros i Hi. now rewrite P1, P2.
  - intros b Hb. now rewrite Q1, Q2.
Qed.
