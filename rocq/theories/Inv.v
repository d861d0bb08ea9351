(** * Inv: the cluster invariant. *)
From Coq Require Import ZArith List Bool Lia.
From Verif Require Import Py Lattice Cluster Perc Spec PyFacts Torus Geometry LatFacts.
Import ListNotations.
Open Scope Z_scope.

Definition dcluster : cluster := mkCluster [] [] (-1) (-1).
Definition cl (p : cpool) (c : Z) : cluster := at_ dcluster (p_list p) c.
Definition is_label (L c : Z) : Prop := 0 <= c < 2 * (L * L).
Definition occ (lat : lattice) (i : Z) : Prop := 0 <= sg lat i.

(** The pool lists exactly the bonds and sites carrying each label, except for the
    labels in [D] (merged away, not yet cleared). *)
Record PoolOK (L : Z) (D : Z -> Prop) (lat : lattice) (p : cpool) : Prop := mkPoolOK {
  pk_len : zlen (p_list p) = 2 * (L * L);
  pk_next : p_next p = 2 * (L * L);
  pk_bonds : forall c, is_label L c -> ~ D c ->
    NoDup (c_bonds (cl p c)) /\
    forall b, In b (c_bonds (cl p c)) <-> is_bond L b /\ bg lat b = c;
  pk_sites : forall c, is_label L c -> ~ D c ->
    NoDup (c_sites (cl p c)) /\
    forall i, In i (c_sites (cl p c)) <-> is_site L i /\ sg lat i = c;
  pk_gid : forall c, is_label L c -> ~ D c -> c_bonds (cl p c) <> [] -> c_gid (cl p c) = c /\ c_id (cl p c) = c
}.

(** The offset the code uses between two adjacent sites. *)
Definition corr (L i j : Z) : index :=
  wrapping_correction_relative_index (index_sub (row L j, col L j) (row L i, col L i)).

(** Position of a site as a vector. *)
Definition pos (L i : Z) : index := (row L i, col L i).

Record ClOK (L : Z) (lat : lattice) (p : cpool) : Prop := mkClOK {
  ck_static : Static L lat;
  ck_blab : forall b, is_bond L b -> is_label L (bg lat b);
  ck_slab : forall i, is_site L i -> sg lat i = -1 \/ is_label L (sg lat i);
  ck_pool : PoolOK L (fun _ => False) lat p;
  (* an occupied site's bonds carry its label *)
  ck_own : forall i d, is_site L i -> occ lat i -> bg lat (bond_dir L i d) = sg lat i;
  (* bonds sharing a label touch occupied sites *)
  ck_join : forall b b', is_bond L b -> is_bond L b' -> bg lat b = bg lat b' ->
    b = b' \/ occ lat (end1 L b) \/ occ lat (end2 L b);
  (* relative indices are displacements of walks *)
  ck_walk : forall i j, is_site L i -> is_site L j -> occ lat i -> sg lat i = sg lat j ->
    exists ds, walk L (occ lat) i ds j /\ disp ds = vsub (rl lat j) (rl lat i);
  ck_unocc : forall i, is_site L i -> ~ occ lat i -> rl lat i = (0, 0);
  (* a site with an occupied neighbour has one at exactly the lattice offset *)
  ck_unit : forall i d, is_site L i -> occ lat i -> occ lat (nbr L i d) ->
    exists d', occ lat (nbr L i d') /\ rl lat (nbr L i d') = vadd (rl lat i) (corr L i (nbr L i d'));
  (* on 1x1 and 2x2 lattices relative indices are plain index differences *)
  ck_small : L <= 2 -> forall i j, is_site L i -> is_site L j -> occ lat i -> sg lat i = sg lat j ->
    vsub (rl lat j) (rl lat i) = vsub (pos L j) (pos L i)
}.

Lemma occ_dec lat i : {occ lat i} + {~ occ lat i}.
Proof. unfold occ. destruct (Z_le_dec 0 (sg lat i)); auto. Qed.

Lemma sg_unocc L lat p i : ClOK L lat p -> is_site L i -> ~ occ lat i -> sg lat i = -1.
Proof.
  intros H Hi Hn. destruct (ck_slab _ _ _ H i Hi) as [E|E]; auto.
  unfold occ, is_label in *. lia.
Qed.
Lemma sg_occ_label L lat p i : ClOK L lat p -> is_site L i -> occ lat i -> is_label L (sg lat i).
Proof.
  intros H Hi Ho. destruct (ck_slab _ _ _ H i Hi) as [E|E]; auto.
  unfold occ in Ho. lia.
Qed.

(** ** The code's offset is the displacement of a short walk *)
Lemma wc_small x y : Z.abs x <= 1 -> Z.abs y <= 1 ->
  wrapping_correction_relative_index (x, y) = (x, y).
Proof.
  intros. unfold wrapping_correction_relative_index. cbn [fst snd].
  destruct (Z.ltb_spec 1 (Z.abs x)); [lia|]. destruct (Z.ltb_spec 1 (Z.abs y)); [lia|]. reflexivity.
Qed.
Lemma div_abs_pos x : 1 < x -> (- x) / Z.abs x = -1.
Proof. intros. rewrite Z.abs_eq by lia. symmetry. apply (Z.div_unique _ _ _ 0); lia. Qed.
Lemma div_abs_neg x : x < -1 -> (- x) / Z.abs x = 1.
Proof. intros. rewrite Z.abs_neq by lia. apply Z.div_same. lia. Qed.

Definition corr1 (x : Z) : Z := if 1 <? x then -1 else if x <? -1 then 1 else x.
Lemma wc_corr1 x y : wrapping_correction_relative_index (x, y) = (corr1 x, corr1 y).
Proof.
  unfold wrapping_correction_relative_index, corr1. cbn [fst snd].
  assert (G : forall x, (if 1 <? Z.abs x then - x / Z.abs x else x) =
                        (if 1 <? x then -1 else if x <? -1 then 1 else x)).
  { intros z. destruct (Z.ltb_spec 1 z).
    - replace (1 <? Z.abs z) with true by lia. now apply div_abs_pos.
    - destruct (Z.ltb_spec z (-1)).
      + replace (1 <? Z.abs z) with true by lia. now apply div_abs_neg.
      + replace (1 <? Z.abs z) with false by lia. reflexivity. }
  now rewrite !G.
Qed.
Lemma corr1_opp x : corr1 (- x) = - corr1 x.
Proof.
  unfold corr1.
  repeat match goal with |- context [?a <? ?b] => destruct (Z.ltb_spec a b) end; lia.
Qed.
Lemma corr_eq L i j : corr L i j = (corr1 (row L j - row L i), corr1 (col L j - col L i)).
Proof. unfold corr, index_sub. cbn [fst snd]. apply wc_corr1. Qed.
Lemma corr_opp L i j : corr L j i = (- fst (corr L i j), - snd (corr L i j)).
Proof. rewrite !corr_eq. cbn [fst snd]. rewrite <- !corr1_opp. f_equal; f_equal; lia. Qed.

Lemma corr_self L i : corr L i i = (0, 0).
Proof. rewrite corr_eq. now rewrite !Z.sub_diag. Qed.

(** For L >= 3 the offset is the lattice step, also across the boundary. *)
Lemma corr1_up L x : 3 <= L -> 0 <= x < L -> corr1 ((x + 1) mod L - x) = 1.
Proof.
  intros. rewrite mod_step_up by lia. unfold corr1.
  destruct (Z.eqb_spec x (L - 1));
  repeat match goal with |- context [?a <? ?b] => destruct (Z.ltb_spec a b) end; lia.
Qed.
Lemma corr1_down L x : 3 <= L -> 0 <= x < L -> corr1 ((x + -1) mod L - x) = -1.
Proof.
  intros. rewrite mod_step_down by lia. unfold corr1.
  destruct (Z.eqb_spec x 0);
  repeat match goal with |- context [?a <? ?b] => destruct (Z.ltb_spec a b) end; lia.
Qed.
Lemma corr_step L i d : 3 <= L -> is_site L i -> corr L i (nbr L i d) = step d.
Proof.
  intros H3 Hi. assert (HL : 0 < L) by lia.
  rewrite corr_eq, row_nbr, col_nbr by auto.
  pose proof (row_bound L HL i Hi) as Hr. pose proof (col_bound L HL i) as Hc.
  destruct d; cbn [step fst snd]; rewrite ?Z.add_0_r, ?(Z.mod_small (row L i)), ?(Z.mod_small (col L i)),
    ?Z.sub_diag, ?corr1_up, ?corr1_down by auto; reflexivity.
Qed.

(** For every L it is the displacement of some walk of at most one step. *)
Lemma corr_walk L i d (o : Z -> Prop) : 0 < L -> is_site L i -> o i -> o (nbr L i d) ->
  exists ds, walk L o i ds (nbr L i d) /\ disp ds = corr L i (nbr L i d).
Proof.
  intros HL Hi Ho Hn.
  assert (L = 1 \/ L = 2 \/ 3 <= L) as [->|[->|H3]] by lia.
  - assert (E : nbr 1 i d = i).
    { pose proof (nbr_site 1 HL i d). unfold is_site in *. lia. }
    rewrite E. exists []. split; [constructor; auto|]. now rewrite corr_self.
  - assert (E : exists d', nbr 2 i d' = nbr 2 i d /\ step d' = corr 2 i (nbr 2 i d)).
    { assert (Hc : i = 0 \/ i = 1 \/ i = 2 \/ i = 3) by (unfold is_site in Hi; lia).
      destruct Hc as [->|[->|[->| ->]]]; destruct d;
      (exists DRight; split; [reflexivity|vm_compute; reflexivity]) ||
      (exists DLeft; split; [reflexivity|vm_compute; reflexivity]) ||
      (exists DUp; split; [reflexivity|vm_compute; reflexivity]) ||
      (exists DDown; split; [reflexivity|vm_compute; reflexivity]). }
    destruct E as (d' & E1 & E2). exists [d']. rewrite <- E1 at 1. split.
    + apply walk_one; auto. now rewrite E1.
    + cbn [disp]. rewrite <- E2. destruct (step d'). unfold vadd; cbn [fst snd]. f_equal; lia.
  - exists [d]. split; [apply walk_one; auto|]. rewrite corr_step by auto.
    cbn [disp]. destruct (step d). unfold vadd; cbn [fst snd]. f_equal; lia.
Qed.

Lemma corr_small L i j : 0 < L -> L <= 2 -> is_site L i -> is_site L j ->
  corr L i j = vsub (pos L j) (pos L i).
Proof.
  intros HL H2 Hi Hj. rewrite corr_eq. unfold vsub, pos; cbn [fst snd].
  pose proof (row_bound L HL i Hi). pose proof (row_bound L HL j Hj).
  pose proof (col_bound L HL i). pose proof (col_bound L HL j).
  unfold corr1.
  repeat match goal with |- context [?a <? ?b] => destruct (Z.ltb_spec a b) end; f_equal; lia.
Qed.
