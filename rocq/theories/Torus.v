(** * Torus: arithmetic of the periodic square lattice (facts about Spec.v). *)
From Coq Require Import ZArith List Bool Lia.
From Verif Require Import Spec.
Import ListNotations.
Open Scope Z_scope.

Section Torus.
Variable L : Z.
Hypothesis HL : 0 < L.

Lemma LL_pos : 0 < L * L.
Proof. nia. Qed.

Lemma rc_bound r c : 0 <= r < L -> 0 <= c < L -> is_site L (r * L + c).
Proof. unfold is_site. intros. nia. Qed.

Lemma row_rc r c : 0 <= c < L -> row L (r * L + c) = r.
Proof. intros. unfold row. rewrite Z.div_add_l by lia. rewrite Z.div_small; lia. Qed.
Lemma col_rc r c : 0 <= c < L -> col L (r * L + c) = c.
Proof. intros. unfold col. rewrite Z.add_comm, Z.mod_add by lia. apply Z.mod_small; lia. Qed.

Lemma rc_eq s : s = row L s * L + col L s.
Proof. unfold row, col. rewrite (Z.div_mod s L) at 1 by lia. lia. Qed.
Lemma col_bound s : 0 <= col L s < L.
Proof. unfold col. apply Z.mod_pos_bound. lia. Qed.
Lemma row_bound s : is_site L s -> 0 <= row L s < L.
Proof.
  unfold is_site, row. intros. split.
  - apply Z.div_pos; lia.
  - apply Z.div_lt_upper_bound; lia.
Qed.

Lemma at_rc_site r c : is_site L (at_rc L r c).
Proof.
  unfold at_rc. apply rc_bound; apply Z.mod_pos_bound; lia.
Qed.
Lemma row_at r c : row L (at_rc L r c) = r mod L.
Proof. unfold at_rc. apply row_rc. apply Z.mod_pos_bound; lia. Qed.
Lemma col_at r c : col L (at_rc L r c) = c mod L.
Proof. unfold at_rc. apply col_rc. apply Z.mod_pos_bound; lia. Qed.
Lemma at_row_col s : is_site L s -> at_rc L (row L s) (col L s) = s.
Proof.
  intros H. unfold at_rc. rewrite !Z.mod_small by (apply row_bound || apply col_bound; auto).
  symmetry. apply rc_eq.
Qed.
Lemma at_rc_congr r c r' c' :
  r mod L = r' mod L -> c mod L = c' mod L -> at_rc L r c = at_rc L r' c'.
Proof. unfold at_rc. now intros -> ->. Qed.
Lemma site_eq s t : is_site L s -> is_site L t -> row L s = row L t -> col L s = col L t -> s = t.
Proof. intros Hs Ht E1 E2. rewrite (rc_eq s), (rc_eq t). congruence. Qed.

Lemma nbr_site s d : is_site L (nbr L s d).
Proof. apply at_rc_site. Qed.
Lemma row_nbr s d : row L (nbr L s d) = (row L s + fst (step d)) mod L.
Proof. apply row_at. Qed.
Lemma col_nbr s d : col L (nbr L s d) = (col L s + snd (step d)) mod L.
Proof. apply col_at. Qed.

Lemma opp_step d : step (opp d) = (- fst (step d), - snd (step d)).
Proof. destruct d; reflexivity. Qed.
Lemma opp_opp d : opp (opp d) = d.
Proof. destruct d; reflexivity. Qed.

Lemma nbr_opp s d : is_site L s -> nbr L (nbr L s d) (opp d) = s.
Proof.
  intros Hs. unfold nbr at 1. rewrite row_nbr, col_nbr, opp_step. simpl.
  rewrite <- (at_row_col s) at 3 by auto.
  apply at_rc_congr.
  - rewrite Z.add_mod_idemp_l by lia. f_equal. lia.
  - rewrite Z.add_mod_idemp_l by lia. f_equal. lia.
Qed.
Lemma nbr_inj s t d : is_site L s -> is_site L t -> nbr L s d = nbr L t d -> s = t.
Proof. intros Hs Ht E. rewrite <- (nbr_opp s d), <- (nbr_opp t d) by auto. now rewrite E. Qed.

(** Explicit neighbours. *)
Lemma mod_step_up c : 0 <= c < L -> (c + 1) mod L = if c =? L - 1 then 0 else c + 1.
Proof.
  intros. destruct (Z.eqb_spec c (L - 1)).
  - replace (c + 1) with L by lia. apply Z_mod_same_full.
  - apply Z.mod_small. lia.
Qed.
Lemma mod_step_down c : 0 <= c < L -> (c + -1) mod L = if c =? 0 then L - 1 else c - 1.
Proof.
  intros. destruct (Z.eqb_spec c 0).
  - subst. symmetry. apply (Z.mod_unique _ _ (-1)); lia.
  - rewrite Z.mod_small; lia.
Qed.

Lemma nbr_right s : is_site L s ->
  nbr L s DRight = row L s * L + (if col L s =? L - 1 then 0 else col L s + 1).
Proof.
  intros H. unfold nbr, at_rc. simpl. rewrite Z.add_0_r, mod_step_up by apply col_bound.
  rewrite Z.mod_small by (now apply row_bound). reflexivity.
Qed.
Lemma nbr_left s : is_site L s ->
  nbr L s DLeft = row L s * L + (if col L s =? 0 then L - 1 else col L s - 1).
Proof.
  intros H. unfold nbr, at_rc. simpl. rewrite Z.add_0_r, mod_step_down by apply col_bound.
  rewrite Z.mod_small by (now apply row_bound). reflexivity.
Qed.
Lemma nbr_down s : is_site L s ->
  nbr L s DDown = (if row L s =? L - 1 then 0 else row L s + 1) * L + col L s.
Proof.
  intros H. unfold nbr, at_rc. simpl. rewrite Z.add_0_r, mod_step_up by (now apply row_bound).
  rewrite (Z.mod_small (col L s)) by apply col_bound. reflexivity.
Qed.
Lemma nbr_up s : is_site L s ->
  nbr L s DUp = (if row L s =? 0 then L - 1 else row L s - 1) * L + col L s.
Proof.
  intros H. unfold nbr, at_rc. simpl. rewrite Z.add_0_r, mod_step_down by (now apply row_bound).
  rewrite (Z.mod_small (col L s)) by apply col_bound. reflexivity.
Qed.

(** With two or more rows a neighbour is another site. *)
Lemma nbr_neq s d : 2 <= L -> is_site L s -> nbr L s d <> s.
Proof.
  intros H2 Hs E.
  assert (Er := f_equal (row L) E). assert (Ec := f_equal (col L) E).
  rewrite row_nbr in Er. rewrite col_nbr in Ec.
  pose proof (row_bound s Hs). pose proof (col_bound s).
  destruct d; simpl in *;
    rewrite ?mod_step_up, ?mod_step_down in * by auto;
    repeat match goal with H : (if ?b then _ else _) = _ |- _ =>
      destruct b eqn:?; rewrite ?Z.eqb_eq, ?Z.eqb_neq in * end; lia.
Qed.

(** Bonds of a site, in the order right, bottom, left, top. *)
Definition bonds_of (s : Z) : list Z :=
  [s; s + L * L; nbr L s DLeft; L * L + nbr L s DUp].
Definition bond_dir (s : Z) (d : dir) : Z :=
  match d with
  | DRight => s | DDown => s + L * L | DLeft => nbr L s DLeft | DUp => L * L + nbr L s DUp
  end.

Lemma bonds_of_dirs s : bonds_of s = map (bond_dir s) all_dirs.
Proof. reflexivity. Qed.
Lemma In_bonds_of s b : In b (bonds_of s) <-> exists d, b = bond_dir s d.
Proof.
  rewrite bonds_of_dirs, in_map_iff. split.
  - intros (d & E & _). eauto.
  - intros (d & E). exists d. split; auto. destruct d; simpl; auto.
Qed.

Lemma bond_dir_bond s d : is_site L s -> is_bond L (bond_dir s d).
Proof.
  intros H. unfold is_bond, is_site in *.
  pose proof (nbr_site s DLeft) as H1. pose proof (nbr_site s DUp) as H2.
  unfold is_site in *. destruct d; cbn [bond_dir]; lia.
Qed.

Lemma end1_site b : is_bond L b -> is_site L (end1 L b).
Proof. unfold is_bond, is_site, end1. destruct (Z.ltb_spec b (L * L)); lia. Qed.
Lemma end2_site b : is_site L (end2 L b).
Proof. unfold end2. destruct (b <? L * L); apply nbr_site. Qed.

(** A bond of s has ends s and the neighbour in that direction. *)
Lemma bond_dir_ends s d : is_site L s ->
  (end1 L (bond_dir s d) = s /\ end2 L (bond_dir s d) = nbr L s d) \/
  (end2 L (bond_dir s d) = s /\ end1 L (bond_dir s d) = nbr L s d).
Proof.
  intros H. unfold end1, end2.
  pose proof (nbr_site s DLeft) as H1. pose proof (nbr_site s DUp) as H2.
  unfold is_site in H, H1, H2.
  destruct d; simpl bond_dir.
  - left. destruct (Z.ltb_spec s (L * L)); [auto|lia].
  - left. destruct (Z.ltb_spec (s + L * L) (L * L)); [lia|].
    replace (s + L * L - L * L) with s by lia. auto.
  - right. destruct (Z.ltb_spec (nbr L s DLeft) (L * L)); [|lia].
    split; auto. apply (nbr_opp s DLeft). exact H.
  - right. destruct (Z.ltb_spec (L * L + nbr L s DUp) (L * L)); [lia|].
    replace (L * L + nbr L s DUp - L * L) with (nbr L s DUp) by lia.
    split; auto. apply (nbr_opp s DUp). exact H.
Qed.

Lemma bond_of_end1 b : is_bond L b -> In b (bonds_of (end1 L b)).
Proof.
  unfold is_bond, end1, bonds_of. intros H. destruct (Z.ltb_spec b (L * L)); simpl; auto.
  right; left. lia.
Qed.
Lemma bond_of_end2 b : is_bond L b -> In b (bonds_of (end2 L b)).
Proof.
  unfold is_bond, end2, bonds_of. intros H. destruct (Z.ltb_spec b (L * L)); simpl.
  - right; right; left. apply (nbr_opp b DRight). unfold is_site; lia.
  - right; right; right; left. pose proof (nbr_opp (b - L * L) DDown) as E. simpl in E.
    rewrite E; [lia|unfold is_site; lia].
Qed.

Lemma bonds_of_touches s b : is_site L s -> is_bond L b ->
  (In b (bonds_of s) <-> touches L b s).
Proof.
  intros Hs Hb. split.
  - rewrite In_bonds_of. intros (d & ->). unfold touches.
    destruct (bond_dir_ends s d Hs) as [(E & _)|(E & _)]; rewrite E; auto.
  - intros [->| ->]; [now apply bond_of_end1|now apply bond_of_end2].
Qed.

Lemma bonds_of_NoDup s : 2 <= L -> is_site L s -> NoDup (bonds_of s).
Proof.
  intros H2 Hs. unfold bonds_of.
  pose proof (nbr_neq s DLeft H2 Hs). pose proof (nbr_neq s DUp H2 Hs).
  pose proof (nbr_site s DLeft) as H1. pose proof (nbr_site s DUp) as H3.
  unfold is_site in *.
  repeat constructor; simpl; intuition lia.
Qed.

Lemma ends_neq b : 2 <= L -> is_bond L b -> end1 L b <> end2 L b.
Proof.
  intros H2 Hb. unfold is_bond, end1, end2 in *. intros E.
  destruct (Z.ltb_spec b (L * L)).
  - symmetry in E. apply (nbr_neq b DRight) in E; auto. unfold is_site; lia.
  - symmetry in E. apply (nbr_neq (b - L * L) DDown) in E; auto. unfold is_site; lia.
Qed.

(** The other end of a bond, as the code computes it: drop one occurrence of s
    from the sorted pair of ends. *)
Definition bond_sites (b : Z) : list Z :=
  [Z.min (end1 L b) (end2 L b); Z.max (end1 L b) (end2 L b)].

(** ** Congruences of walks *)
Lemma walk_sites occ s ds t : walk L occ s ds t -> is_site L s /\ is_site L t /\ occ s /\ occ t.
Proof. induction 1; intuition. Qed.

Lemma walk_app occ s ds t ds' u :
  walk L occ s ds t -> walk L occ t ds' u -> walk L occ s (ds ++ ds') u.
Proof. induction 1; simpl; auto. intros. constructor; auto. Qed.

Lemma disp_app ds ds' : disp (ds ++ ds') = vadd (disp ds) (disp ds').
Proof.
  induction ds; simpl.
  - destruct (disp ds'); reflexivity.
  - rewrite IHds. unfold vadd. simpl. f_equal; lia.
Qed.

Lemma walk_one (occ : Z -> Prop) s d : is_site L s -> occ s -> occ (nbr L s d) -> walk L occ s [d] (nbr L s d).
Proof. intros. constructor; auto. constructor; auto. apply nbr_site. Qed.

Lemma walk_rev occ s ds t : walk L occ s ds t -> walk L occ t (map opp (rev ds)) s.
Proof.
  induction 1.
  - simpl. constructor; auto.
  - simpl. rewrite map_app. eapply walk_app; eauto. simpl.
    destruct (walk_sites _ _ _ _ H1) as (Hn & _ & Ho & _).
    constructor; auto. rewrite nbr_opp by auto. constructor; auto.
Qed.
Lemma disp_rev ds : disp (map opp (rev ds)) = (- fst (disp ds), - snd (disp ds)).
Proof.
  induction ds; simpl; auto.
  rewrite map_app, disp_app, IHds. simpl. rewrite opp_step. unfold vadd; simpl. f_equal; lia.
Qed.

Lemma walk_mono (occ occ' : Z -> Prop) s ds t :
  (forall x, is_site L x -> occ x -> occ' x) -> walk L occ s ds t -> walk L occ' s ds t.
Proof. intros Hm. induction 1; constructor; auto. Qed.

Lemma walk_congr occ s ds t : walk L occ s ds t ->
  (row L s + fst (disp ds)) mod L = row L t mod L /\
  (col L s + snd (disp ds)) mod L = col L t mod L.
Proof.
  induction 1.
  - simpl. now rewrite !Z.add_0_r.
  - destruct IHwalk as (E1 & E2).
    rewrite row_nbr in E1. rewrite col_nbr in E2.
    simpl. rewrite <- E1, <- E2. rewrite !Z.add_mod_idemp_l by lia.
    split; f_equal; lia.
Qed.

Lemma connected_refl (occ : Z -> Prop) s : is_site L s -> occ s -> connected L occ s s.
Proof. intros. exists []. constructor; auto. Qed.
Lemma connected_sym occ s t : connected L occ s t -> connected L occ t s.
Proof. intros (ds & H). exists (map opp (rev ds)). now apply walk_rev. Qed.
Lemma connected_trans occ s t u : connected L occ s t -> connected L occ t u -> connected L occ s u.
Proof. intros (ds & H) (ds' & H'). exists (ds ++ ds'). eapply walk_app; eauto. Qed.

End Torus.
