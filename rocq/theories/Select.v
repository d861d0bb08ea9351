(** * Select: closed forms of the three selection rules. *)
From Coq Require Import ZArith List Bool Lia Permutation.
From Verif Require Import Py Lattice Cluster Perc Spec PyFacts Torus Geometry LatFacts Inv Count.
Import ListNotations.
Open Scope Z_scope.

Definition occb (lat : lattice) (i : Z) : bool := 0 <=? sg lat i.
Lemma occb_true lat i : occb lat i = true <-> occ lat i.
Proof. unfold occb, occ. apply Z.leb_le. Qed.
Lemma occb_spec lat i : Bool.reflect (occ lat i) (occb lat i).
Proof. unfold occb, occ. apply Z.leb_spec0. Qed.

(** The object after a site was selected. *)
Definition aim (id : Z) (s : perc) : perc := set_cur_site (Some id) (set_sel_id (Some id) s).
Definition choose (id : Z) (s : perc) : perc := set_occ_count (occ_count s + 1) (aim id s).

Lemma mbind_ok {A B} (m : M A) (k : A -> M B) s s' a :
  m s = (s', Ok a) -> mbind m k s = k a s'.
Proof. intros H. unfold mbind. now rewrite H. Qed.
Lemma mbind_err {A B} (m : M A) (k : A -> M B) s s' e :
  m s = (s', Err e) -> mbind m k s = (s', Err e).
Proof. intros H. unfold mbind. now rewrite H. Qed.
Lemma mbind_lift {A B} (r : res A) (k : A -> M B) s a : r = Ok a -> mbind (lift r) k s = k a s.
Proof. intros ->. reflexivity. Qed.

Lemma select_id_ok L id s : Static L (lat s) -> is_site L id ->
  select_id id s = (aim id s, if sg (lat s) id =? -1 then Ok tt else Err AssertionError).
Proof.
  intros St Hi. unfold select_id, mbind, modify, get, lift.
  change (lat (set_sel_id (Some id) s)) with (lat s).
  rewrite (get_site_by_id_ok L) by auto.
  replace (id <? 0) with false by (unfold is_site in Hi; lia).
  reflexivity.
Qed.

(** ** Base rule *)
Definition sel_base (s : perc) : perc * res selstate :=
  if max_iter s <=? cur_idx s then (s, Ok EMPTY_SITE_LIST)
  else let id := at_ 0 (ids s) (cur_idx s) in
    if sg (lat s) id =? -1 then (choose id (set_cur_idx (cur_idx s + 1) s), Ok SUCESS)
    else (aim id s, Err AssertionError).

Lemma select_base_ok L s : Static L (lat s) -> Forall (is_site L) (ids s) -> 0 <= cur_idx s ->
  max_iter s = zlen (ids s) -> select_site_base s = sel_base s.
Proof.
  intros St Hl Hc Hm. unfold select_site_base, sel_base. unfold mbind at 1, get.
  destruct (Z.leb_spec (max_iter s) (cur_idx s)); [reflexivity|].
  assert (Hr : 0 <= cur_idx s < zlen (ids s)) by lia.
  rewrite (mbind_lift _ _ _ (at_ 0 (ids s) (cur_idx s))) by (now apply lget_in).
  assert (Hs : is_site L (at_ 0 (ids s) (cur_idx s)))
    by (eapply Forall_forall; [exact Hl|now apply at_In]).
  destruct (Z.eqb_spec (sg (lat s) (at_ 0 (ids s) (cur_idx s))) (-1)) as [e|e].
  - rewrite (mbind_ok _ _ _ (aim (at_ 0 (ids s) (cur_idx s)) s) tt).
    + reflexivity.
    + rewrite (select_id_ok L) by auto. now rewrite e.
  - rewrite (mbind_err _ _ _ (aim (at_ 0 (ids s) (cur_idx s)) s) AssertionError); [reflexivity|].
    rewrite (select_id_ok L) by auto.
    destruct (Z.eqb_spec (sg (lat s) (at_ 0 (ids s) (cur_idx s))) (-1)); [lia|reflexivity].
Qed.

(** ** Random candidates *)
Definition rndi (E : env) (s : perc) : Z :=
  cur_idx s + e_draw E (tick s) mod (zlen (ids s) - 1 - cur_idx s + 1).
Definition candX (E : env) (s : perc) : Z := at_ 0 (ids s) (rndi E s).
Definition dirk (E : env) (t : nat) : dir := nth (Z.to_nat (e_draw E t mod 4)) all_dirs DRight.

Lemma rndi_range E s : 0 <= cur_idx s < zlen (ids s) -> cur_idx s <= rndi E s < zlen (ids s).
Proof.
  intros H. unfold rndi.
  pose proof (Z.mod_pos_bound (e_draw E (tick s)) (zlen (ids s) - 1 - cur_idx s + 1)). lia.
Qed.

Lemma randint_rnd E s : cur_idx s < zlen (ids s) ->
  randint E (cur_idx s) (zlen (ids s) - 1) s = (set_tick (S (tick s)) s, Ok (rndi E s)).
Proof.
  intros H. unfold randint. destruct (Z.ltb_spec (zlen (ids s) - 1) (cur_idx s)); [lia|]. reflexivity.
Qed.
Lemma randint_empty E s : zlen (ids s) <= cur_idx s ->
  randint E (cur_idx s) (zlen (ids s) - 1) s = (s, Err ValueError).
Proof.
  intros H. unfold randint. destruct (Z.ltb_spec (zlen (ids s) - 1) (cur_idx s)); [|lia]. reflexivity.
Qed.
Lemma randint_4 E s : randint E 0 (4 - 1) s = (set_tick (S (tick s)) s, Ok (e_draw E (tick s) mod 4)).
Proof. reflexivity. Qed.
Lemma lget_dirk {A} (f : dir -> A) E t : lget (map f all_dirs) (e_draw E t mod 4) = Ok (f (dirk E t)).
Proof.
  unfold dirk. pose proof (Z.mod_pos_bound (e_draw E t) 4 eq_refl) as H.
  assert (Hc : e_draw E t mod 4 = 0 \/ e_draw E t mod 4 = 1 \/ e_draw E t mod 4 = 2 \/ e_draw E t mod 4 = 3) by lia.
  destruct Hc as [->|[->|[->| ->]]]; reflexivity.
Qed.

(** Dropping a candidate. *)
Definition dropped (rnd : Z) (s : perc) : perc :=
  set_cur_idx (cur_idx s + 1)
    (mutate_ids (upd (ids s) (Z.to_nat rnd) (at_ 0 (ids s) (cur_idx s))) s).
Lemma drop_candidate_ok rnd s : 0 <= cur_idx s < zlen (ids s) -> 0 <= rnd < zlen (ids s) ->
  drop_candidate rnd s = (dropped rnd s, Ok tt).
Proof.
  intros H1 H2. unfold drop_candidate. unfold mbind at 1, get.
  rewrite (mbind_lift _ _ _ (at_ 0 (ids s) (cur_idx s))) by (now apply lget_in).
  rewrite (mbind_lift _ _ _ (upd (ids s) (Z.to_nat rnd) (at_ 0 (ids s) (cur_idx s)))) by (now apply lset_in).
  reflexivity.
Qed.

(** Decrementing the neighbour counters. *)
Definition nn1 (lat : lattice) (i : Z) : Z := s_nn1 (site_at lat i).
Definition nn2 (lat : lattice) (i : Z) : Z := s_nn2 (site_at lat i).
Definition dec1 (lat : lattice) (X : Z) : lattice :=
  upd_site lat X (site_set_nn (site_at lat X) (Z.max 0 (nn1 lat X - 1)) (nn2 lat X)).
Definition dec2 (lat : lattice) (X : Z) : lattice :=
  upd_site lat X (site_set_nn (site_at lat X) (nn1 lat X) (Z.max 0 (nn2 lat X - 1))).

Lemma update_dec1 L lat X : Static L lat -> is_site L X -> 0 <= nn1 lat X ->
  update_site lat X site_reduce_1st_nn = Ok (dec1 lat X).
Proof.
  intros St HX H. apply (update_site_ok L); auto. unfold site_reduce_1st_nn, nn1 in *.
  destruct (Z.leb_spec (s_nn1 (site_at lat X)) 0).
  - assert (E0 : s_nn1 (site_at lat X) = 0) by lia. unfold nn2. rewrite E0.
    destruct (site_at lat X); cbn in *; subst; reflexivity.
  - unfold nn2. rewrite Z.max_r by lia. reflexivity.
Qed.
Lemma update_dec2 L lat X : Static L lat -> is_site L X -> 0 <= nn2 lat X ->
  update_site lat X site_reduce_2st_directional_nn = Ok (dec2 lat X).
Proof.
  intros St HX H. apply (update_site_ok L); auto. unfold site_reduce_2st_directional_nn, nn2 in *.
  destruct (Z.leb_spec (s_nn2 (site_at lat X)) 0).
  - assert (E0 : s_nn2 (site_at lat X) = 0) by lia. unfold nn1. rewrite E0.
    destruct (site_at lat X); cbn in *; subst; reflexivity.
  - unfold nn1. rewrite Z.max_r by lia. reflexivity.
Qed.

(** Lattices with the same labels and relative indices. *)
Definition same_labels (L : Z) (a b : lattice) : Prop :=
  Static L b /\ l_bonds a = l_bonds b /\ forall i, sg b i = sg a i /\ rl b i = rl a i.
Lemma same_labels_refl L a : Static L a -> same_labels L a a.
Proof. split; auto. Qed.
Lemma same_labels_trans L a b c : same_labels L a b -> same_labels L b c -> same_labels L a c.
Proof.
  intros (S1 & E1 & H1) (S2 & E2 & H2). split; auto. split; [congruence|].
  intros i. destruct (H1 i) as [<- <-]. apply H2.
Qed.
Lemma same_labels_bg L a b x : same_labels L a b -> bg b x = bg a x.
Proof. intros (_ & E & _). unfold bg, bond_at. now rewrite E. Qed.

Lemma set_nn_same L lat X a b : Static L lat -> is_site L X ->
  same_labels L lat (upd_site lat X (site_set_nn (site_at lat X) a b)) /\
  (forall i, nn1 (upd_site lat X (site_set_nn (site_at lat X) a b)) i = if i =? X then a else nn1 lat i) /\
  (forall i, nn2 (upd_site lat X (site_set_nn (site_at lat X) a b)) i = if i =? X then b else nn2 lat i).
Proof.
  intros St HX. split; [split; [|split]|split].
  - apply static_upd_site; auto. split; auto.
  - reflexivity.
  - intros i. unfold sg, rl. rewrite (site_at_upd L) by auto.
    destruct (Z.eqb_spec i X); [subst|]; auto.
  - intros i. unfold nn1. rewrite (site_at_upd L) by auto. destruct (i =? X); auto.
  - intros i. unfold nn2. rewrite (site_at_upd L) by auto. destruct (i =? X); auto.
Qed.

(** ** L1 rule *)
Definition sel1 (E : env) (L : Z) (s : perc) : perc * res selstate :=
  if L * L <=? cur_idx s then (s, Ok EMPTY_SITE_LIST)
  else if zlen (ids s) <=? cur_idx s then (s, Err ValueError)
  else
    let X := candX E s in
    let s1 := set_tick (S (tick s)) s in
    if occb (lat s) X then
      let Y := nbr L X (dirk E (S (tick s))) in
      let s2 := set_tick (S (S (tick s))) (set_xy (x_occ s + 1) (y_occ s) s) in
      if occb (lat s) Y then
        let s3 := set_lat (dec1 (lat s) X) s2 in
        (if nn1 (dec1 (lat s) X) X =? 0 then dropped (rndi E s) s3 else s3, Ok CURRENT_SITE_NOT_EMPTY)
      else (choose Y (set_record (record s ++ [Y]) s2), Ok SUCESS)
    else (choose X (set_record (record s ++ [X]) s1), Ok SUCESS).

Record SelHyp (L : Z) (s : perc) : Prop := {
  sh_static : Static L (lat s);
  sh_ids : Forall (is_site L) (ids s);
  sh_cur : 0 <= cur_idx s;
  sh_slab : forall i, is_site L i -> ~ occ (lat s) i -> sg (lat s) i = -1;
  sh_nn : forall i, is_site L i -> 0 <= nn1 (lat s) i /\ 0 <= nn2 (lat s) i
}.

Lemma candX_site E L s : Forall (is_site L) (ids s) -> 0 <= cur_idx s < zlen (ids s) ->
  is_site L (candX E s).
Proof.
  intros H1 H2. pose proof (rndi_range E s H2). eapply Forall_forall; [exact H1|].
  apply at_In. lia.
Qed.

Lemma select_L1_ok E L s : SelHyp L s -> select_site_L1 E s = sel1 E L s.
Proof.
  intros [St Hl Hc Hu Hn]. pose proof (st_pos _ _ St) as HL.
  unfold select_site_L1, sel1. unfold mbind at 1, get. rewrite (st_sc _ _ St).
  destruct (Z.leb_spec (L * L) (cur_idx s)); [reflexivity|].
  destruct (Z.leb_spec (zlen (ids s)) (cur_idx s)).
  { now rewrite (mbind_err _ _ _ s ValueError) by (now apply randint_empty). }
  assert (Hcr : 0 <= cur_idx s < zlen (ids s)) by lia.
  pose proof (rndi_range E s Hcr) as Hrn.
  rewrite (mbind_ok _ _ _ (set_tick (S (tick s)) s) (rndi E s)) by (now apply randint_rnd).
  rewrite (mbind_lift _ _ _ (candX E s)) by (apply lget_in; lia).
  pose proof (candX_site E L s Hl Hcr) as HX. set (X := candX E s) in *.
  rewrite (mbind_lift _ _ _ (site_at (lat s) X)) by (now apply (get_site_by_id_ok L)).
  change (site_is_occupied (site_at (lat s) X)) with (occb (lat s) X).
  destruct (occb_spec (lat s) X) as [HoX|HoX].
  - cbv zeta. unfold mbind at 1, modify.
    rewrite (mbind_lift _ _ _ (map (nbr L X) all_dirs)) by (now apply get_all_neighbor_sites_ok).
    change (zlen (map (nbr L X) all_dirs)) with 4.
    erewrite mbind_ok by apply randint_4.
    set (t := tick (set_xy _ _ _)). change t with (S (tick s)). clear t.
    rewrite (mbind_lift _ _ _ (nbr L X (dirk E (S (tick s))))) by apply lget_dirk.
    set (Y := nbr L X (dirk E (S (tick s)))).
    assert (HY : is_site L Y) by (now apply nbr_site).
    rewrite (mbind_lift _ _ _ (site_at (lat s) Y)) by (now apply (get_site_by_id_ok L)).
    change (site_is_occupied (site_at (lat s) Y)) with (occb (lat s) Y).
    destruct (occb_spec (lat s) Y) as [HoY|HoY].
    + rewrite (mbind_lift _ _ _ (dec1 (lat s) X)) by (apply (update_dec1 L); auto; now apply Hn).
      unfold mbind at 1, modify.
      destruct (set_nn_same L (lat s) X (Z.max 0 (nn1 (lat s) X - 1)) (nn2 (lat s) X) St HX) as ((Sd & _) & _).
      rewrite (mbind_lift _ _ _ (site_at (dec1 (lat s) X) X)) by (now apply (get_site_by_id_ok L)).
      unfold site_is_removable. rewrite Z.eqb_refl.
      change (s_nn1 (site_at (dec1 (lat s) X) X)) with (nn1 (dec1 (lat s) X) X).
      destruct (nn1 (dec1 (lat s) X) X =? 0).
      * erewrite mbind_ok; [|apply drop_candidate_ok; cbn [cur_idx ids set_lat set_tick set_xy]; lia].
        reflexivity.
      * reflexivity.
    + unfold mbind at 1, modify. unfold mbind at 1.
      rewrite (mbind_ok _ _ _ (aim Y (set_record (record s ++ [Y])
        (set_tick (S (S (tick s))) (set_xy (x_occ s + 1) (y_occ s) s)))) tt); [reflexivity|].
      rewrite (select_id_ok L) by auto.
      change (lat _) with (lat s). rewrite (Hu Y) by auto. reflexivity.
  - cbv zeta. unfold mbind at 1, modify. unfold mbind at 1.
    rewrite (mbind_ok _ _ _ (aim X (set_record (record s ++ [X]) (set_tick (S (tick s)) s))) tt); [reflexivity|].
    rewrite (select_id_ok L) by auto.
    change (lat _) with (lat s). rewrite (Hu X) by auto. reflexivity.
Qed.

(** ** L2 rule *)
(** The second site: one further step from Y, computed from plain indices. *)
Definition second (L X Y : Z) : Z :=
  let z := index_add (pos L Y) (index_normalize (index_sub (pos L Y) (pos L X))) in
  at_rc L (fst z) (snd z).

Definition sel2 (E : env) (L : Z) (s : perc) : perc * res selstate :=
  if L * L <=? cur_idx s then (s, Ok EMPTY_SITE_LIST)
  else if zlen (ids s) <=? cur_idx s then (s, Err ValueError)
  else
    let X := candX E s in
    let s1 := set_tick (S (tick s)) s in
    if occb (lat s) X then
      let Y := nbr L X (dirk E (S (tick s))) in
      let s2 := set_xy (x_occ s + 1) (y_occ s) (set_tick (S (S (tick s))) s) in
      if occb (lat s) Y then
        let Zs := second L X Y in
        let s3 := set_lat (dec1 (lat s) X) s2 in
        if occb (lat s) Zs then
          let lat2 := dec2 (dec1 (lat s) X) X in
          let s4 := set_lat lat2 (set_xy (x_occ s + 1) (y_occ s + 1) s3) in
          (if nn2 lat2 X =? 0 then dropped (rndi E s) s4 else s4, Ok CURRENT_SITE_NOT_EMPTY)
        else (choose Zs s3, Ok SUCESS)
      else (choose Y s2, Ok SUCESS)
    else (choose X s1, Ok SUCESS).

Lemma select_L2_ok E L s : SelHyp L s -> select_site_L2 E s = sel2 E L s.
Proof.
  intros [St Hl Hc Hu Hn]. pose proof (st_pos _ _ St) as HL.
  unfold select_site_L2, sel2. unfold mbind at 1, get. rewrite (st_sc _ _ St).
  destruct (Z.leb_spec (L * L) (cur_idx s)); [reflexivity|].
  destruct (Z.leb_spec (zlen (ids s)) (cur_idx s)).
  { now rewrite (mbind_err _ _ _ s ValueError) by (now apply randint_empty). }
  assert (Hcr : 0 <= cur_idx s < zlen (ids s)) by lia.
  pose proof (rndi_range E s Hcr) as Hrn.
  rewrite (mbind_ok _ _ _ (set_tick (S (tick s)) s) (rndi E s)) by (now apply randint_rnd).
  rewrite (mbind_lift _ _ _ (candX E s)) by (apply lget_in; lia).
  pose proof (candX_site E L s Hl Hcr) as HX. set (X := candX E s) in *.
  rewrite (mbind_lift _ _ _ (site_at (lat s) X)) by (now apply (get_site_by_id_ok L)).
  change (site_is_occupied (site_at (lat s) X)) with (occb (lat s) X).
  destruct (occb_spec (lat s) X) as [HoX|HoX].
  - cbv zeta.
    rewrite (mbind_lift _ _ _ (map (nbr L X) all_dirs)) by (now apply get_all_neighbor_sites_ok).
    change (zlen (map (nbr L X) all_dirs)) with 4.
    erewrite mbind_ok by apply randint_4.
    set (t := tick (set_tick _ _)). change t with (S (tick s)). clear t.
    rewrite (mbind_lift _ _ _ (nbr L X (dirk E (S (tick s))))) by apply lget_dirk.
    set (Y := nbr L X (dirk E (S (tick s)))).
    assert (HY : is_site L Y) by (now apply nbr_site).
    unfold mbind at 1, modify.
    rewrite (mbind_lift _ _ _ (site_at (lat s) Y)) by (now apply (get_site_by_id_ok L)).
    change (site_is_occupied (site_at (lat s) Y)) with (occb (lat s) Y).
    destruct (occb_spec (lat s) Y) as [HoY|HoY].
    + rewrite (mbind_lift _ _ _ (dec1 (lat s) X)) by (apply (update_dec1 L); auto; now apply Hn).
      unfold mbind at 1, modify.
      destruct (set_nn_same L (lat s) X (Z.max 0 (nn1 (lat s) X - 1)) (nn2 (lat s) X) St HX)
        as ((Sd & Ebd & Hd) & _ & Hn2).
      fold (dec1 (lat s) X) in *.
      rewrite (mbind_lift _ _ _ (site_at (dec1 (lat s) X) X)) by (now apply (get_site_by_id_ok L)).
      rewrite (mbind_lift _ _ _ (site_at (dec1 (lat s) X) Y)) by (now apply (get_site_by_id_ok L)).
      destruct (st_site _ _ Sd X HX) as (_ & EiX & _).
      destruct (st_site _ _ Sd Y HY) as (_ & EiY & _).
      rewrite EiX, EiY. fold (pos L X) (pos L Y).
      assert (HZ : is_site L (second L X Y)) by (now apply at_rc_site).
      rewrite (mbind_lift _ _ _ (site_at (dec1 (lat s) X) (second L X Y))).
      2:{ unfold get_site_by_index, correct_index_for_periodicity. cbn [fst snd].
          rewrite (st_len _ _ Sd). now apply (get_site L). }
      destruct (st_site _ _ Sd _ HZ) as (-> & _).
      rewrite (mbind_lift _ _ _ (site_at (dec1 (lat s) X) (second L X Y))) by (now apply (get_site_by_id_ok L)).
      assert (Eoz : site_is_occupied (site_at (dec1 (lat s) X) (second L X Y)) = occb (lat s) (second L X Y)).
      { unfold site_is_occupied, occb. now rewrite <- (proj1 (Hd (second L X Y))). }
      rewrite Eoz.
      destruct (occb_spec (lat s) (second L X Y)) as [HoZ|HoZ].
      * unfold mbind at 1, modify.
        rewrite (mbind_lift _ _ _ (dec2 (dec1 (lat s) X) X)).
        2:{ apply (update_dec2 L); auto. rewrite Hn2, Z.eqb_refl. now apply Hn. }
        unfold mbind at 1, modify.
        destruct (set_nn_same L (dec1 (lat s) X) X (nn1 (dec1 (lat s) X) X)
          (Z.max 0 (nn2 (dec1 (lat s) X) X - 1)) Sd HX) as ((Sd2 & _) & _).
        fold (dec2 (dec1 (lat s) X) X) in Sd2.
        rewrite (mbind_lift _ _ _ (site_at (dec2 (dec1 (lat s) X) X) X)) by (now apply (get_site_by_id_ok L)).
        unfold site_is_removable. change (2 =? 1) with false. rewrite Z.eqb_refl. cbv iota.
        change (s_nn2 (site_at (dec2 (dec1 (lat s) X) X) X)) with (nn2 (dec2 (dec1 (lat s) X) X) X).
        destruct (nn2 (dec2 (dec1 (lat s) X) X) X =? 0).
        -- erewrite mbind_ok; [|apply drop_candidate_ok; cbn [cur_idx ids set_lat set_tick set_xy]; lia].
           reflexivity.
        -- reflexivity.
      * rewrite (mbind_ok _ _ _ (aim (second L X Y) (set_lat (dec1 (lat s) X)
           (set_xy (x_occ s + 1) (y_occ s) (set_tick (S (S (tick s))) s)))) tt); [reflexivity|].
        rewrite (select_id_ok L) by auto.
        match goal with |- context [sg ?l (second L X Y)] => change l with (dec1 (lat s) X) end. rewrite (proj1 (Hd (second L X Y))), (Hu (second L X Y)) by auto.
        reflexivity.
    + rewrite (mbind_ok _ _ _ (aim Y (set_xy (x_occ s + 1) (y_occ s) (set_tick (S (S (tick s))) s))) tt); [reflexivity|].
      rewrite (select_id_ok L) by auto.
      change (lat _) with (lat s). rewrite (Hu Y) by auto. reflexivity.
  - cbv zeta.
    rewrite (mbind_ok _ _ _ (aim X (set_tick (S (tick s)) s)) tt); [reflexivity|].
    rewrite (select_id_ok L) by auto.
    change (lat _) with (lat s). rewrite (Hu X) by auto. reflexivity.
Qed.

Definition sel (E : env) (L : Z) (s : perc) : perc * res selstate :=
  match kind s with KL1 => sel1 E L s | KL2 => sel2 E L s | _ => sel_base s end.
Definition is_L12 (k : pkind) : bool := match k with KL1 | KL2 => true | _ => false end.
Lemma select_ok E L s : SelHyp L s -> (is_L12 (kind s) = false -> max_iter s = zlen (ids s)) ->
  select_site E s = sel E L s.
Proof.
  intros H Hm. unfold select_site, sel. unfold mbind, get.
  destruct (kind s); try (apply (select_base_ok L); [apply H|apply H|apply H|now apply Hm]).
  - now apply select_L1_ok.
  - now apply select_L2_ok.
Qed.
