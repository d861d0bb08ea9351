(** * GeomProps: proofs of the geometry properties of a new lattice. *)
From Coq Require Import ZArith List Bool Lia.
From Verif Require Import Py Lattice Cluster Perc Spec PyFacts Torus Geometry LatFacts Inv.
Import ListNotations.
Open Scope Z_scope.

(** A constructed lattice either has length 0 or is static. *)
Lemma new_lattice_inv L lat : new_lattice L = Ok lat -> 0 <= L.
Proof.
  unfold new_lattice. destruct (Z.ltb_spec L 0); [discriminate|auto].
Qed.
Lemma new_lattice_static' L lat : new_lattice L = Ok lat -> 0 < L -> Static L lat.
Proof.
  intros E HL. destruct (new_lattice_static L HL) as (lat' & E' & St). congruence.
Qed.

Lemma calc2 lat r c : calculate_id_from_index lat [r; c] = r * l_length lat + c.
Proof.
  unfold calculate_id_from_index. cbn [zlen length rev map zrange Z.to_nat seq combine fold_right app].
  replace (zrange (zlen [r; c])) with [0; 1] by reflexivity. cbn [map rev app combine fold_right].
  rewrite Z.pow_0_r, Z.pow_1_r. lia.
Qed.
Lemma calc3 lat t r c : calculate_id_from_index lat [t; r; c] =
  t * (l_length lat * l_length lat) + r * l_length lat + c.
Proof.
  unfold calculate_id_from_index.
  replace (zrange (zlen [t; r; c])) with [0; 1; 2] by reflexivity. cbn [map rev app combine fold_right].
  rewrite Z.pow_0_r, Z.pow_1_r, Z.pow_2_r. lia.
Qed.

Lemma g_C01 L lat : new_lattice L = Ok lat ->
  (forall i, 0 <= i < L * L ->
     exists s, get_site_by_id lat i = Ok s /\ s_id s = i /\ s_index s = (i / L, i mod L)) /\
  (forall r c, 0 <= r < L -> 0 <= c < L ->
     exists s, get_site_by_index lat (r, c) = Ok s /\ s_index s = (r, c) /\
       0 <= s_id s < L * L /\
       get_site_by_id lat (s_id s) = Ok s /\
       get_id_from_index lat r c = s_id s /\ calculate_id_from_index lat [r; c] = s_id s).
Proof.
  intros E. pose proof (new_lattice_inv _ _ E) as H0. split.
  - intros i Hi. assert (HL : 0 < L) by nia. pose proof (new_lattice_static' L lat E HL) as St.
    exists (site_at lat i). split; [now apply (get_site_by_id_ok L)|].
    destruct (st_site _ _ St i Hi) as (A & B & _). auto.
  - intros r c Hr Hc. assert (HL : 0 < L) by lia. pose proof (new_lattice_static' L lat E HL) as St.
    pose proof (rc_bound L HL r c Hr Hc) as Hs.
    exists (site_at lat (r * L + c)). destruct (st_site _ _ St _ Hs) as (A & B & _).
    rewrite (row_rc L HL), (col_rc L HL) in B by auto.
    assert (G : get_site_by_id lat (r * L + c) = Ok (site_at lat (r * L + c))) by (now apply (get_site_by_id_ok L)).
    unfold get_site_by_index, get_id_from_index. cbn [fst snd]. rewrite calc2, A, (st_len _ _ St).
    repeat split; auto; apply Hs.
Qed.

Lemma g_C02 L lat : new_lattice L = Ok lat ->
  (forall i, 0 <= i < 2 * (L * L) ->
     exists b, get_bond_by_id lat i = Ok b /\ b_id b = i /\
       b_type b = i / (L * L) /\ b_row b = (i mod (L * L)) / L /\ b_col b = i mod L) /\
  (forall t r c, 0 <= t < 2 -> 0 <= r < L -> 0 <= c < L ->
     exists b, get_bond_by_index lat r c t = Ok b /\ b_type b = t /\ b_row b = r /\ b_col b = c /\
       0 <= b_id b < 2 * (L * L) /\
       get_bond_by_id lat (b_id b) = Ok b /\ calculate_id_from_index lat [t; r; c] = b_id b).
Proof.
  intros E. pose proof (new_lattice_inv _ _ E) as H0. split.
  - intros i Hi. assert (HL : 0 < L) by nia. pose proof (new_lattice_static' L lat E HL) as St.
    exists (bond_at lat i). split; [now apply (get_bond_by_id_ok L)|].
    destruct (st_bond _ _ St i Hi) as (A & B & C & D & _).
    rewrite A, B, C, D. unfold end1, row, col.
    destruct (Z.ltb_spec i (L * L)).
    + rewrite (Z.div_small i), (Z.mod_small i (L * L)) by lia. auto.
    + assert (Ed : i / (L * L) = 1).
      { symmetry. apply (Z.div_unique _ _ _ (i - L * L)); lia. }
      assert (Em : i mod (L * L) = i - L * L).
      { symmetry. apply (Z.mod_unique _ _ 1); lia. }
      rewrite Ed, Em. repeat split; auto.
      replace i with (i - L * L + L * L) at 2 by lia. now rewrite Z.mod_add by lia.
  - intros t r c Ht Hr Hc. assert (HL : 0 < L) by lia. pose proof (new_lattice_static' L lat E HL) as St.
    set (b := r * L + c + t * (L * L)).
    pose proof (rc_bound L HL r c Hr Hc) as Hs. unfold is_site in Hs.
    assert (Hb : is_bond L b) by (unfold is_bond, b; nia).
    exists (bond_at lat b). destruct (st_bond _ _ St b Hb) as (A & B & C & D & _).
    assert (E1 : end1 L b = r * L + c).
    { unfold end1, b. assert (t = 0 \/ t = 1) as [->| ->] by lia.
      - destruct (Z.ltb_spec (r * L + c + 0 * (L * L)) (L * L)); lia.
      - destruct (Z.ltb_spec (r * L + c + 1 * (L * L)) (L * L)); lia. }
    rewrite E1 in C, D. rewrite (row_rc L HL) in C by auto. rewrite (col_rc L HL) in D by auto.
    unfold get_bond_by_index. rewrite calc3, A, B, C, D, (st_len _ _ St). fold b.
    assert (G : get_bond_by_id lat b = Ok (bond_at lat b)) by (now apply (get_bond_by_id_ok L)).
    repeat split; auto; try apply Hb; try (unfold b; lia).
    unfold b. assert (t = 0 \/ t = 1) as [->| ->] by lia.
    + destruct (Z.ltb_spec (r * L + c + 0 * (L * L)) (L * L)); lia.
    + destruct (Z.ltb_spec (r * L + c + 1 * (L * L)) (L * L)); lia.
Qed.

Lemma g_C03 L lat : new_lattice L = Ok lat ->
  (forall i, 0 <= i < L * L -> exists s, get_site_by_id lat i = Ok s /\ length (s_bonds s) = 4%nat /\
     (2 <= L -> NoDup (s_bonds s)) /\ (forall b, In b (s_bonds s) -> 0 <= b < 2 * (L * L))) /\
  (forall i, 0 <= i < 2 * (L * L) -> exists b, get_bond_by_id lat i = Ok b /\ length (b_sites b) = 2%nat /\
     (2 <= L -> NoDup (b_sites b)) /\ (forall s, In s (b_sites b) -> 0 <= s < L * L)) /\
  (L = 1 -> get_neighbor_bonds lat 0 = Ok [0; 1; 0; 1] /\
            get_neighbor_sites lat 0 = Ok [0; 0] /\ get_neighbor_sites lat 1 = Ok [0; 0]).
Proof.
  intros E. pose proof (new_lattice_inv _ _ E) as H0. split; [|split].
  - intros i Hi. assert (HL : 0 < L) by nia. pose proof (new_lattice_static' L lat E HL) as St.
    exists (site_at lat i). split; [now apply (get_site_by_id_ok L)|].
    destruct (st_site _ _ St i Hi) as (_ & _ & ->). split; [reflexivity|]. split.
    + intros. now apply bonds_of_NoDup.
    + intros b Hb. apply In_bonds_of in Hb as (d & ->). now apply bond_dir_bond.
  - intros i Hi. assert (HL : 0 < L) by nia. pose proof (new_lattice_static' L lat E HL) as St.
    exists (bond_at lat i). split; [now apply (get_bond_by_id_ok L)|].
    destruct (st_bond _ _ St i Hi) as (_ & _ & _ & _ & ->). split; [reflexivity|].
    unfold bond_sites. split.
    + intros. pose proof (ends_neq L HL i H Hi). repeat constructor; simpl; intuition lia.
    + intros s Hs. pose proof (end1_site L i Hi) as A. pose proof (end2_site L HL i) as B. unfold is_site in *.
      simpl in Hs. lia.
  - intros ->. vm_compute in E. inversion E. vm_compute. auto.
Qed.

Lemma g_C04 L lat : new_lattice L = Ok lat ->
  (forall r c, 0 <= r < L -> 0 <= c < L ->
     (exists b l, get_bond_by_index lat r c 0 = Ok b /\ b_sites b = l /\
        forall s, In s l <-> s = r * L + c \/ s = r * L + (c + 1) mod L) /\
     (exists b l, get_bond_by_index lat r c 1 = Ok b /\ b_sites b = l /\
        forall s, In s l <-> s = r * L + c \/ s = ((r + 1) mod L) * L + c)) /\
  (forall s b, 0 <= s < L * L -> 0 <= b < 2 * (L * L) ->
     exists ls lb, get_neighbor_bonds lat s = Ok ls /\ get_neighbor_sites lat b = Ok lb /\
       (In b ls <-> In s lb)).
Proof.
  intros E. pose proof (new_lattice_inv _ _ E) as H0.
  assert (Hin : forall b s, In s (bond_sites L b) <-> s = end1 L b \/ s = end2 L b).
  { intros b s. unfold bond_sites. simpl.
    destruct (Z.min_spec (end1 L b) (end2 L b)) as [[? ->]|[? ->]];
    destruct (Z.max_spec (end1 L b) (end2 L b)) as [[? ->]|[? ->]]; intuition lia. }
  split.
  - intros r c Hr Hc. assert (HL : 0 < L) by lia. pose proof (new_lattice_static' L lat E HL) as St.
    pose proof (rc_bound L HL r c Hr Hc) as Hs. assert (Hs' := Hs). unfold is_site in Hs'.
    split.
    + assert (Hb : is_bond L (r * L + c)) by (unfold is_bond; lia).
      exists (bond_at lat (r * L + c)), (bond_sites L (r * L + c)). split; [|split].
      * unfold get_bond_by_index. rewrite (st_len _ _ St).
        replace (r * L + c + 0 * (L * L)) with (r * L + c) by lia. now apply (get_bond L).
      * now destruct (st_bond _ _ St _ Hb) as (_ & _ & _ & _ & ->).
      * intros s. rewrite Hin. unfold end1, end2.
        destruct (Z.ltb_spec (r * L + c) (L * L)); [|lia].
        unfold nbr, at_rc. rewrite (row_rc L HL), (col_rc L HL) by auto. cbn [step fst snd].
        rewrite Z.add_0_r, (Z.mod_small r) by lia. tauto.
    + assert (Hb : is_bond L (r * L + c + 1 * (L * L))) by (unfold is_bond; lia).
      exists (bond_at lat (r * L + c + 1 * (L * L))), (bond_sites L (r * L + c + 1 * (L * L))). split; [|split].
      * unfold get_bond_by_index. rewrite (st_len _ _ St). now apply (get_bond L).
      * now destruct (st_bond _ _ St _ Hb) as (_ & _ & _ & _ & ->).
      * intros s. rewrite Hin. unfold end1, end2.
        destruct (Z.ltb_spec (r * L + c + 1 * (L * L)) (L * L)); [lia|].
        replace (r * L + c + 1 * (L * L) - L * L) with (r * L + c) by lia.
        unfold nbr, at_rc. rewrite (row_rc L HL), (col_rc L HL) by auto. cbn [step fst snd].
        rewrite Z.add_0_r, (Z.mod_small c) by lia. tauto.
  - intros s b Hs Hb. assert (HL : 0 < L) by nia. pose proof (new_lattice_static' L lat E HL) as St.
    exists (bonds_of L s), (bond_sites L b).
    split; [now apply (get_neighbor_bonds_ok L)|]. split; [now apply (get_neighbor_sites_ok L)|].
    rewrite Hin. rewrite bonds_of_touches by auto. reflexivity.
Qed.

Lemma g_C05 L lat : new_lattice L = Ok lat ->
  (forall r c, 0 <= r < L -> 0 <= c < L ->
     let four := [at_rc L r (c + 1); at_rc L (r + 1) c; at_rc L r (c - 1); at_rc L (r - 1) c] in
     get_all_neighbor_sites lat (r * L + c) = Ok four /\
     get_site_neighbor_of_site lat (r * L + c) = Ok four) /\
  (forall s t, 0 <= s < L * L -> 0 <= t < L * L ->
     exists ls lt, get_all_neighbor_sites lat s = Ok ls /\ get_all_neighbor_sites lat t = Ok lt /\
       (In t ls <-> In s lt)).
Proof.
  intros E. pose proof (new_lattice_inv _ _ E) as H0. split.
  - intros r c Hr Hc four. assert (HL : 0 < L) by lia. pose proof (new_lattice_static' L lat E HL) as St.
    pose proof (rc_bound L HL r c Hr Hc) as Hs.
    assert (E4 : map (nbr L (r * L + c)) all_dirs = four).
    { unfold four, all_dirs, nbr. cbn [map step fst snd]. rewrite (row_rc L HL), (col_rc L HL) by auto.
      rewrite !Z.add_0_r. replace (c + -1) with (c - 1) by lia. replace (r + -1) with (r - 1) by lia. reflexivity. }
    rewrite <- E4. split; [now apply (get_all_neighbor_sites_ok L)|now apply (get_site_neighbor_of_site_ok L)].
  - intros s t Hs Ht. assert (HL : 0 < L) by nia. pose proof (new_lattice_static' L lat E HL) as St.
    exists (map (nbr L s) all_dirs), (map (nbr L t) all_dirs).
    split; [now apply (get_all_neighbor_sites_ok L)|]. split; [now apply (get_all_neighbor_sites_ok L)|].
    assert (G : forall a b, is_site L a -> In b (map (nbr L a) all_dirs) -> In a (map (nbr L b) all_dirs)).
    { intros a b Ha H. apply in_map_iff in H as (d & <- & _). apply in_map_iff. exists (opp d).
      split; [now apply nbr_opp|destruct d; simpl; auto]. }
    split; apply G; auto.
Qed.

Lemma g_C08 L lat : new_lattice L = Ok lat -> 2 <= L ->
  (forall r c r' c', 0 <= r < L -> 0 <= c < L -> 0 <= r' < L -> 0 <= c' < L ->
     (r' = r /\ (c' = (c + 1) mod L \/ c' = (c - 1) mod L) ->
        distance_btn_sites lat (r, c) (r', c') = (0, 1)) /\
     (c' = c /\ (r' = (r + 1) mod L \/ r' = (r - 1) mod L) ->
        distance_btn_sites lat (r, c) (r', c') = (1, 0)) /\
     distance_btn_sites lat (r, c) (r', c') = distance_btn_sites lat (r', c') (r, c)).
Proof.
  intros E H2 r c r' c' Hr Hc Hr' Hc'. assert (HL : 0 < L) by lia.
  pose proof (new_lattice_static' L lat E HL) as St.
  unfold distance_btn_sites. cbn [fst snd]. rewrite (st_len _ _ St).
  pose proof (mod_step_up L c Hc) as C1. pose proof (mod_step_down L HL c Hc) as C2.
  pose proof (mod_step_up L r Hr) as R1. pose proof (mod_step_down L HL r Hr) as R2.
  replace (c - 1) with (c + -1) by lia. replace (r - 1) with (r + -1) by lia.
  repeat split.
  - intros (-> & Hx). rewrite Z.sub_diag. cbn [Z.abs].
    destruct (Z.eqb_spec 0 (L - 1)); [lia|].
    f_equal. rewrite C1, C2 in Hx.
    destruct (Z.eqb_spec c (L - 1)); destruct (Z.eqb_spec c 0);
      destruct (Z.eqb_spec (Z.abs (c - c')) (L - 1)); lia.
  - intros (-> & Hx). rewrite (Z.sub_diag c). cbn [Z.abs].
    destruct (Z.eqb_spec 0 (L - 1)); [lia|].
    f_equal. rewrite R1, R2 in Hx.
    destruct (Z.eqb_spec r (L - 1)); destruct (Z.eqb_spec r 0);
      destruct (Z.eqb_spec (Z.abs (r - r')) (L - 1)); lia.
  - replace (Z.abs (r' - r)) with (Z.abs (r - r')) by lia.
    replace (Z.abs (c' - c)) with (Z.abs (c - c')) by lia. reflexivity.
Qed.

(** What the buggy loop does on the list of the eight bond ends. *)
Definition pair_of (f : bool) (s n : Z) : list Z := if f then [s; n] else [n; s].
Lemma iter_remove_eval s r d l u fr fd fl fu :
  r <> s -> d <> s -> l <> s -> u <> s ->
  let sites := pair_of fr s r ++ pair_of fd s d ++ pair_of fl s l ++ pair_of fu s u in
  (x <- iter_remove (S (length sites)) 0 s sites ;; _ <- passert (zlen x =? 4) ;; Ok x) =
  match fr, fd, fl, fu with
  | true, true, false, false | true, true, true, _ | true, false, false, false
  | false, false, false, false => Ok [r; d; l; u]
  | _, _, _, _ => (x <- iter_remove (S (length sites)) 0 s sites ;; _ <- passert (zlen x =? 4) ;; Ok x)
  end /\
  match fr, fd, fl, fu with
  | true, true, false, true | true, false, true, false | false, true, false, _ =>
     (x <- iter_remove (S (length sites)) 0 s sites ;; _ <- passert (zlen x =? 4) ;; Ok x) = Err AssertionError
  | _, _, _, _ => True
  end.
Proof.
  intros Hr Hd Hl Hu.
  apply Z.eqb_neq in Hr, Hd, Hl, Hu.
  destruct fr, fd, fl, fu; cbn [pair_of app length]; (split; [try reflexivity|try exact I]);
  repeat (cbn [iter_remove nth_error lremove rbind];
    rewrite ?Z.eqb_refl, ?Hr, ?Hd, ?Hl, ?Hu); reflexivity.
Qed.

Lemma g_C09 L lat : new_lattice L = Ok lat -> 3 <= L ->
  forall r c, 0 <= r < L -> 0 <= c < L ->
  get_four_neighbor_sites lat (r * L + c) =
    if ((r =? 0) && negb (c =? 0)) || ((r =? L - 1) && (c =? 0)) || (negb (r =? L - 1) && (c =? L - 1))
    then Err AssertionError
    else Ok [at_rc L r (c + 1); at_rc L (r + 1) c; at_rc L r (c - 1); at_rc L (r - 1) c].
Proof.
  intros E H3 r c Hr Hc. assert (HL : 0 < L) by lia. pose proof (new_lattice_static' L lat E HL) as St.
  pose proof (rc_bound L HL r c Hr Hc) as Hs. set (s := r * L + c) in *.
  unfold get_four_neighbor_sites. rewrite (get_neighbor_bonds_ok L) by auto. cbn [rbind].
  rewrite bonds_of_dirs. unfold all_dirs. cbn [map mapM].
  rewrite !(get_neighbor_sites_ok L) by (auto; now apply bond_dir_bond). cbn [rbind].
  assert (Er : row L s = r) by (now apply row_rc). assert (Ec : col L s = c) by (now apply col_rc).
  assert (G : forall d, bond_sites L (bond_dir L s d) = pair_of (s <? nbr L s d) s (nbr L s d)).
  { intros d. assert (bond_sites L (bond_dir L s d) = [Z.min s (nbr L s d); Z.max s (nbr L s d)]) as ->.
    { unfold bond_sites. destruct (bond_dir_ends L HL s d Hs) as [(-> & ->)|(-> & ->)]; auto.
      rewrite Z.min_comm, Z.max_comm. reflexivity. }
    destruct (Z.ltb_spec s (nbr L s d)); cbn [pair_of]; f_equal; [lia|f_equal; lia|lia|f_equal; lia]. }
  rewrite !G. cbn [concat]. rewrite app_nil_r.
  assert (N : forall d, nbr L s d <> s) by (intros d; apply nbr_neq; auto; lia).
  pose proof (iter_remove_eval s (nbr L s DRight) (nbr L s DDown) (nbr L s DLeft) (nbr L s DUp)
    (s <? nbr L s DRight) (s <? nbr L s DDown) (s <? nbr L s DLeft) (s <? nbr L s DUp)
    (N _) (N _) (N _) (N _)) as [G1 G2].
  cbn zeta in G1, G2.
  assert (Q : [at_rc L r (c + 1); at_rc L (r + 1) c; at_rc L r (c - 1); at_rc L (r - 1) c] =
              [nbr L s DRight; nbr L s DDown; nbr L s DLeft; nbr L s DUp]).
  { unfold nbr. rewrite Er, Ec. cbn [step fst snd]. rewrite !Z.add_0_r.
    replace (c + -1) with (c - 1) by lia. replace (r + -1) with (r - 1) by lia. reflexivity. }
  rewrite Q.
  assert (F1 : (s <? nbr L s DRight) = negb (c =? L - 1)).
  { rewrite nbr_right by auto. rewrite Er, Ec. unfold s. destruct (Z.eqb_spec c (L - 1)); cbn [negb]; apply Z.ltb_lt || apply Z.ltb_ge; nia. }
  assert (F2 : (s <? nbr L s DDown) = negb (r =? L - 1)).
  { rewrite nbr_down by auto. rewrite Er, Ec. unfold s. destruct (Z.eqb_spec r (L - 1)); cbn [negb]; apply Z.ltb_lt || apply Z.ltb_ge; nia. }
  assert (F3 : (s <? nbr L s DLeft) = (c =? 0)).
  { rewrite nbr_left by auto. rewrite Er, Ec. unfold s. destruct (Z.eqb_spec c 0); cbn [negb]; apply Z.ltb_lt || apply Z.ltb_ge; nia. }
  assert (F4 : (s <? nbr L s DUp) = (r =? 0)).
  { rewrite nbr_up by auto. rewrite Er, Ec. unfold s. destruct (Z.eqb_spec r 0); cbn [negb]; apply Z.ltb_lt || apply Z.ltb_ge; nia. }
  rewrite F1, F2, F3, F4 in *.
  destruct (Z.eqb_spec r 0); destruct (Z.eqb_spec r (L - 1)); try lia;
  destruct (Z.eqb_spec c 0); destruct (Z.eqb_spec c (L - 1)); try lia;
  cbn [negb andb orb] in *; first [exact G1 | exact G2].
Qed.
