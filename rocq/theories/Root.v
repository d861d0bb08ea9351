(** * Root: every cluster has exactly one root site (C101). *)
From Coq Require Import ZArith List Bool Lia.
From Verif Require Import Py Lattice Cluster Perc Spec PyFacts Torus Geometry LatFacts Inv Merge Count Fresh Select State Step History Reach Micro StateProps Extra RootSpec.
Import ListNotations.
Open Scope Z_scope.

(** Every occupied site shares its label with a site of relative index (0,0). *)
Definition Rooted (L : Z) (s : perc) : Prop :=
  forall i, is_site L i -> occ (lat s) i -> exists r, is_site L r /\ sg (lat s) r = sg (lat s) i /\ rl (lat s) r = (0, 0).

Lemma micro_rooted E L s s' : Inv L s -> Inv L s' -> micro E L s s' -> Rooted L s -> Rooted L s'.
Proof.
  intros I I' M N. destruct M as [s s' Hp|s s' r Sd _|s s1 x s' root Sd Es Ec Pd|s x Hx Es Ew Eh].
  - destruct (phys_fields _ _ Hp) as (_ & _ & El & _). unfold Rooted in *. now rewrite El.
  - pose proof (sd_lab _ _ _ _ Sd) as (_ & _ & Hl). intros i Hi Ho. destruct (Hl i) as (E1 & _).
    destruct (N i Hi) as (r' & A & B & C); [unfold occ in *; now rewrite <- E1|].
    exists r'. destruct (Hl r') as (-> & ->). now rewrite E1.
  - pose proof (sd_lab _ _ _ _ Sd) as (_ & _ & Hl).
    assert (N1 : Rooted L s1).
    { intros i Hi Ho. destruct (Hl i) as (E1 & _). destruct (N i Hi) as (r' & A & B & C); [unfold occ in *; now rewrite <- E1|].
      exists r'. destruct (Hl r') as (-> & ->). now rewrite E1. }
    pose proof (pd_site _ _ _ _ _ _ Pd) as Hx. pose proof (pd_un _ _ _ _ _ _ Pd) as Hu.
    assert (Lr : 0 <= root).
    { pose proof (pd_sg _ _ _ _ _ _ Pd x Hx) as Q. rewrite Z.eqb_refl in Q. cbn [orb] in Q.
      destruct (ck_slab _ _ _ (i_cl _ _ I') x Hx) as [Q'|Q']; [|unfold is_label in Q'; lia].
      destruct (nb_label_bond L x (lat s1) root (i_pos _ _ I) Hx (pd_root _ _ _ _ _ _ Pd)) as (b & Hb & _ & Eb).
      assert (C1 : ClOK L (lat s1) (pool s1)) by (eapply selected_ClOK; [exact (i_cl _ _ I)|exact Sd]).
      pose proof (ck_blab _ _ _ C1 b Hb) as Q2. unfold is_label in Q2. lia. }
    (* the root of the merged cluster *)
    assert (R : exists r, is_site L r /\ sg (lat s') r = root /\ rl (lat s') r = (0, 0)).
    { destruct (existsb (fun i => sg (lat s1) i =? root) (zrange (L * L))) eqn:Ex.
      - apply existsb_exists in Ex as (i & Hi & Ei). apply In_zrange in Hi. apply Z.eqb_eq in Ei.
        destruct (N1 i Hi) as (r & Hr & A & B); [unfold occ; lia|].
        assert (Hn : r <> x) by (intros ->; lia).
        exists r. split; auto. split.
        + rewrite (pd_sg _ _ _ _ _ _ Pd r Hr), A, Ei. destruct ((r =? x) || zmem root _); reflexivity.
        + rewrite (pd_keep _ _ _ _ _ _ Pd r Hr Hn); auto. right. congruence.
      - exists x. split; auto. split; [rewrite (pd_sg _ _ _ _ _ _ Pd x Hx), Z.eqb_refl; reflexivity|].
        apply (pd_alone _ _ _ _ _ _ Pd). intros i Hi Q.
        assert (existsb (fun i => sg (lat s1) i =? root) (zrange (L * L)) = true); [|congruence].
        apply existsb_exists. exists i. split; [now apply In_zrange|now apply Z.eqb_eq]. }
    intros i Hi Ho. unfold occ in Ho. rewrite (pd_sg _ _ _ _ _ _ Pd i Hi) in *.
    destruct ((i =? x) || zmem (sg (lat s1) i) (nb_labels L x (lat s1))) eqn:Em; [exact R|].
    apply orb_false_iff in Em as (Ei & Em). apply Z.eqb_neq in Ei.
    destruct (N1 i Hi Ho) as (r & Hr & A & B). exists r. split; auto.
    assert (Hn : r <> x) by (intros ->; lia). rewrite (pd_sg _ _ _ _ _ _ Pd r Hr), A, Em.
    apply Z.eqb_neq in Hn as Hn'. rewrite Hn'. cbn [orb]. split; auto.
    rewrite (pd_keep _ _ _ _ _ _ Pd r Hr Hn); auto. left. rewrite A. apply zmem_false. exact Em.
  - exact N.
Qed.

Lemma reachable_rooted E L s : env_ok E -> reachable E L s -> Rooted L s.
Proof.
  intros HE. revert s. apply (reach_ind E L (Rooted L)); auto.
  - intros s F i Hi Ho. exfalso. unfold occ in Ho. destruct (fr_site _ _ (fs_lat _ _ F) i Hi) as (Q & _). lia.
  - intros s s' I I' M N. now apply (micro_rooted E L s s').
Qed.


Lemma is_root_iff L s i : Static L (lat s) -> is_site L i -> (is_root s i <-> rl (lat s) i = (0, 0)).
Proof.
  intros St Hi. unfold is_root. rewrite (get_site_by_id_ok L) by auto. unfold rl, site_is_root. split.
  - intros (t & Q & B). injection Q as <-. apply andb_true_iff in B as (B1 & B2). apply Z.eqb_eq in B1, B2.
    destruct (s_rel (site_at (lat s) i)); cbn in *. congruence.
  - intros Q. eexists. split; [reflexivity|]. now rewrite Q.
Qed.

Lemma p_one_root E L s i : env_ok E -> reachable E L s -> is_site L i -> occupied s i ->
  exists r, is_site L r /\ is_root s r /\ site_label s r = site_label s i /\
    (forall r', is_site L r' -> is_root s r' -> site_label s r' = site_label s i -> r' = r) /\
    exists ds, walk L (occupied s) r ds i /\ disp ds = rel_index s i.
Proof.
  intros HE HR Hi Ho. pose proof (reachable_inv _ _ _ HE HR) as I. pose proof (i_static _ _ I) as St. pose proof (i_pos _ _ I) as HL.
  assert (Oc : forall j, is_site L j -> (occupied s j <-> occ (lat s) j)).
  { intros j Hj. unfold occupied, occ. now rewrite (site_label_sg L) by auto. }
  destruct (reachable_rooted E L s HE HR i Hi) as (r & Hr & A & B); [now apply Oc|].
  pose proof (i_cl _ _ I) as C.
  assert (Or : occ (lat s) r) by (apply Oc in Ho; auto; unfold occ in *; congruence).
  exists r. split; auto. split; [now apply (is_root_iff L)|]. split; [now rewrite !(site_label_sg L) by auto|]. split.
  - intros r' Hr' R' E'. apply (is_root_iff L) in R'; auto. rewrite !(site_label_sg L) in E' by auto.
    destruct (ck_walk _ _ _ C r r' Hr Hr' Or ltac:(congruence)) as (ds & W & D).
    rewrite B, R' in D. destruct (walk_congr L HL _ _ _ _ W) as (W1 & W2). rewrite D in W1, W2.
    unfold vsub in W1, W2. cbn [fst snd] in W1, W2. rewrite Z.add_0_r in W1, W2.
    rewrite !Z.mod_small in W1 by (now apply row_bound). rewrite !Z.mod_small in W2 by (now apply col_bound).
    symmetry. now apply (site_eq L).
  - destruct (ck_walk _ _ _ C r i Hr Hi Or A) as (ds & W & D). exists ds. split.
    + apply (walk_mono L (occ (lat s))); auto. intros j Hj. now apply Oc.
    + rewrite D, B, (rel_index_rl L) by auto. unfold vsub. destruct (rl (lat s) i). cbn. f_equal; lia.
Qed.
Lemma p_empty_root E L s i : env_ok E -> reachable E L s -> is_site L i -> ~ occupied s i -> is_root s i /\ rel_index s i = (0, 0).
Proof.
  intros HE HR Hi Ho. pose proof (reachable_inv _ _ _ HE HR) as I. pose proof (i_static _ _ I) as St.
  assert (Q : rl (lat s) i = (0, 0)).
  { apply (ck_unocc _ _ _ (i_cl _ _ I)); auto. intros Q. apply Ho. unfold occupied. now rewrite (site_label_sg L). }
  split; [now apply (is_root_iff L)|]. now rewrite (rel_index_rl L).
Qed.
