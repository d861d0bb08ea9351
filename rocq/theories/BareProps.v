(** * BareProps: proofs of C119. *)
From Coq Require Import ZArith List Bool Lia.
From Verif Require Import Py Lattice Cluster Perc Extra Spec PyFacts Torus Geometry LatFacts Inv Fresh GeomProps LatSpec SelfTest Reinit Bare BareSpec.
Import ListNotations.
Open Scope Z_scope.

Lemma py_pos_means n x : (exists i, means n x i /\ py_pos n x = py_pos n i) \/ (~ (- n <= x < n) /\ py_pos n x = None).
Proof.
  unfold py_pos, means. destruct (Z_lt_ge_dec x (- n)) as [H|H]; [|destruct (Z_lt_ge_dec x n) as [H'|H']; [destruct (Z_lt_ge_dec x 0) as [H0|H0]|]].
  - right. split; [lia|]. replace (0 <=? x) with (0 <=? x) by reflexivity. destruct (Z.leb_spec 0 x), (Z.ltb_spec x n), (Z.leb_spec (- n) x), (Z.ltb_spec x 0); cbn; try reflexivity; try lia.
  - left. exists (x + n). split; [lia|]. destruct (Z.leb_spec 0 x); [lia|]. cbn [andb]. destruct (Z.leb_spec (- n) x); [|lia]. destruct (Z.ltb_spec x 0); [|lia]. cbn [andb].
    destruct (Z.leb_spec 0 (x + n)); [|lia]. destruct (Z.ltb_spec (x + n) n); [|lia]. cbn [andb]. f_equal. f_equal. lia.
  - left. exists x. split; [lia|reflexivity].
  - right. split; [lia|]. destruct (Z.leb_spec 0 x), (Z.ltb_spec x n), (Z.leb_spec (- n) x), (Z.ltb_spec x 0); cbn; try reflexivity; try lia.
Qed.
Lemma any_index {A} (l : list A) x : (exists i, means (zlen l) x i /\ lget l x = lget l i /\ forall v, lset l x v = lset l i v) \/
  (~ (- zlen l <= x < zlen l) /\ lget l x = Err IndexError /\ forall v, lset l x v = Err IndexError).
Proof.
  destruct (py_pos_means (zlen l) x) as [(i & M & E)|(N & E)].
  - left. exists i. split; [exact M|]. unfold lget, lset. now rewrite E.
  - right. split; [exact N|]. unfold lget, lset. now rewrite E.
Qed.
Lemma means_unique n x i j : means n x i -> means n x j -> i = j.
Proof. unfold means. lia. Qed.
Lemma means_self n i : 0 <= i < n -> means n i i.
Proof. unfold means. lia. Qed.

(** ** One write *)
Lemma set_site_any L lat x g : Static L lat ->
  (exists i, means (L * L) x i /\ set_site_gid_by_id lat x g = Ok (upd_site lat i (site_set_gid (site_at lat i) g))) \/
  (~ (- (L * L) <= x < L * L) /\ set_site_gid_by_id lat x g = Err IndexError).
Proof.
  intros St. unfold set_site_gid_by_id. destruct (any_index (l_sites lat) x) as [(i & M & E1 & E2)|(N & E1 & E2)]; rewrite (st_ns _ _ St) in *.
  - left. exists i. split; [exact M|]. destruct M as (Hi & _). rewrite E1, <- (set_site_gid_ok L lat i g St Hi). unfold set_site_gid_by_id.
    destruct (lget (l_sites lat) i) as [s|e]; [|reflexivity]. cbn [rbind]. now rewrite E2.
  - right. split; [exact N|]. now rewrite E1.
Qed.
Lemma set_bond_any L lat x g : Static L lat ->
  (exists i, means (2 * (L * L)) x i /\ set_bond_gid_by_id lat x g = Ok (upd_bond lat i (bond_set_gid (bond_at lat i) g))) \/
  (~ (- (2 * (L * L)) <= x < 2 * (L * L)) /\ set_bond_gid_by_id lat x g = Err IndexError).
Proof.
  intros St. unfold set_bond_gid_by_id. destruct (any_index (l_bonds lat) x) as [(i & M & E1 & E2)|(N & E1 & E2)]; rewrite (st_nb _ _ St) in *.
  - left. exists i. split; [exact M|]. destruct M as (Hi & _). assert (Bi : is_bond L i) by (unfold is_bond; lia). rewrite E1, <- (set_bond_gid_ok L lat i g St Bi). unfold set_bond_gid_by_id.
    destruct (lget (l_bonds lat) i) as [s|e]; [|reflexivity]. cbn [rbind]. now rewrite E2.
  - right. split; [exact N|]. now rewrite E1.
Qed.
Lemma update_any L lat x f : Static L lat -> (forall s s', f s = Ok s' -> same_static_site s' s) ->
  forall lat', update_site lat x f = Ok lat' -> Static L lat'.
Proof.
  intros St Hf lat' E. unfold update_site in E. destruct (any_index (l_sites lat) x) as [(i & M & E1 & E2)|(N & E1 & E2)]; rewrite (st_ns _ _ St) in *.
  - destruct M as (Hi & _). rewrite E1 in E. rewrite (get_site L lat St i Hi) in E. cbn [rbind] in E.
    destruct (f (site_at lat i)) as [s'|e] eqn:F; [|discriminate]. cbn [rbind] in E. rewrite E2, lset_in in E by (rewrite (st_ns _ _ St); exact Hi). cbn [rbind] in E. injection E as <-.
    apply (static_upd_site L lat i s'); [exact St|exact Hi|]. now apply Hf.
  - rewrite E1 in E. discriminate.
Qed.
Lemma lget_In0 {A} (l : list A) i x : lget l i = Ok x -> In x l.
Proof. unfold lget. destruct (py_pos (zlen l) i) as [k|]; [|discriminate]. destruct (nth_error l k) eqn:E; [|discriminate]. intros Q. injection Q as <-. now apply nth_error_In in E. Qed.
Lemma rel_any L lat x r : Static L lat -> forall lat', lat_set_relative_index lat x r = Ok lat' -> Static L lat'.
Proof.
  intros St lat' E. unfold lat_set_relative_index in E. destruct (lget (zrange (l_site_count lat)) x) as [i|e] eqn:Ei; [|discriminate]. cbn [rbind] in E.
  apply lget_In0, In_zrange in Ei. rewrite (st_sc _ _ St) in Ei. rewrite (get_site L lat St i Ei) in E. cbn [rbind] in E.
  rewrite lset_in in E by (rewrite (st_ns _ _ St); exact Ei). cbn [rbind] in E. injection E as <-.
  apply (static_upd_site L lat i (site_set_rel (site_at lat i) r)); [exact St|exact Ei|]. repeat split.
Qed.

(** ** The label loops *)
Lemma sgid L lat i : Static L lat -> is_site L i -> site_gid lat i = sg lat i.
Proof. intros St Hi. unfold site_gid. now rewrite (get_site_gid_ok L). Qed.
Lemma bgid L lat i : Static L lat -> is_bond L i -> bond_gid lat i = bg lat i.
Proof. intros St Hi. unfold bond_gid. now rewrite (get_bond_gid_ok L). Qed.

Definition rest_same_s (L : Z) (lat lat' : lattice) : Prop :=
  l_bonds lat' = l_bonds lat /\ forall i, is_site L i -> rl lat' i = rl lat i /\ s_nn1 (site_at lat' i) = s_nn1 (site_at lat i) /\ s_nn2 (site_at lat' i) = s_nn2 (site_at lat i).

Lemma label_sites L g l : forall lat, Static L lat -> exists lat' r pre post, label_all set_site_gid_by_id l g lat = (lat', r) /\
  Static L lat' /\ rest_same_s L lat lat' /\ l = pre ++ post /\ valid (L * L) pre /\ relabelled (L * L) pre g (sg lat) (sg lat') /\
  ((r = Ok tt /\ post = []) \/ (r = Err IndexError /\ exists x t, post = x :: t /\ ~ (- (L * L) <= x < L * L))).
Proof.
  induction l as [|x l IH]; intros lat St.
  - exists lat, (Ok tt), [], []. split; [reflexivity|]. split; [exact St|]. split; [split; auto|]. split; [reflexivity|]. split; [constructor|]. split; [|left; now split]. intros i Hi. split; [intros (y & [] & _)|reflexivity].
  - cbn [label_all]. destruct (set_site_any L lat x g St) as [(i & M & E)|(N & E)]; rewrite E.
    + pose proof M as M0. destruct M as (Hi & Hx). set (lat1 := upd_site lat i (site_set_gid (site_at lat i) g)).
      assert (St1 : Static L lat1) by (apply static_upd_site; auto; repeat split).
      destruct (IH lat1 St1) as (lat' & r & pre & post & E' & St' & (Q1 & Q2) & -> & V & R & C).
      exists lat', r, (x :: pre), post. split; [exact E'|]. split; [exact St'|]. split.
      { split; [exact Q1|]. intros j Hj. destruct (Q2 j Hj) as (A & B & D). rewrite A, B, D. unfold rl, lat1. rewrite (site_at_upd L) by auto. destruct (Z.eqb_spec j i) as [->|]; auto. }
      split; [reflexivity|]. split; [constructor; [unfold means in M0; lia|exact V]|]. split; [|exact C].
      assert (S1 : forall j, is_site L j -> sg lat1 j = if j =? i then g else sg lat j).
      { intros j Hj. unfold sg, lat1. rewrite (site_at_upd L) by auto. now destruct (j =? i). }
      intros j Hj. destruct (R j Hj) as (R1 & R2). split.
      * intros (y & [<-|I] & My); [|apply R1; now exists y]. assert (j = i) by (eapply means_unique; eauto). subst j.
        destruct (existsb (fun y => (y =? i) || (y =? i - L * L)) pre) eqn:X.
        -- apply R1. apply existsb_exists in X. destruct X as (y & I & Hy). exists y. split; [exact I|]. split; [exact Hi|]. apply orb_true_iff in Hy. rewrite !Z.eqb_eq in Hy. tauto.
        -- rewrite R2, S1, Z.eqb_refl; auto. intros y I My'. assert (X' : existsb (fun y => (y =? i) || (y =? i - L * L)) pre = true).
           { apply existsb_exists. exists y. split; [exact I|]. destruct My' as (_ & My'). rewrite orb_true_iff, !Z.eqb_eq. tauto. } congruence.
      * intros F. rewrite R2 by (intros y I; apply F; now right). rewrite S1 by exact Hj. destruct (Z.eqb_spec j i) as [->|]; [|reflexivity]. exfalso. apply (F x); [now left|exact M0].
    + exists lat, (Err IndexError), [], (x :: l). split; [reflexivity|]. split; [exact St|]. split; [split; auto|]. split; [reflexivity|]. split; [constructor|]. split; [|right; split; [reflexivity|now exists x, l]].
      intros i Hi. split; [intros (y & [] & _)|reflexivity].
Qed.
Lemma label_bonds L g l : forall lat, Static L lat -> exists lat' r pre post, label_all set_bond_gid_by_id l g lat = (lat', r) /\
  Static L lat' /\ l_sites lat' = l_sites lat /\ l = pre ++ post /\ valid (2 * (L * L)) pre /\ relabelled (2 * (L * L)) pre g (bg lat) (bg lat') /\
  ((r = Ok tt /\ post = []) \/ (r = Err IndexError /\ exists x t, post = x :: t /\ ~ (- (2 * (L * L)) <= x < 2 * (L * L)))).
Proof.
  induction l as [|x l IH]; intros lat St.
  - exists lat, (Ok tt), [], []. split; [reflexivity|]. split; [exact St|]. split; [reflexivity|]. split; [reflexivity|]. split; [constructor|]. split; [|left; now split]. intros i Hi. split; [intros (y & [] & _)|reflexivity].
  - cbn [label_all]. destruct (set_bond_any L lat x g St) as [(i & M & E)|(N & E)]; rewrite E.
    + pose proof M as M0. destruct M as (Hi0 & Hx). assert (Hi : is_bond L i) by (unfold is_bond; lia). set (lat1 := upd_bond lat i (bond_set_gid (bond_at lat i) g)).
      assert (St1 : Static L lat1) by (apply static_upd_bond; auto).
      destruct (IH lat1 St1) as (lat' & r & pre & post & E' & St' & Q1 & -> & V & R & C).
      exists lat', r, (x :: pre), post. split; [exact E'|]. split; [exact St'|]. split; [exact Q1|].
      split; [reflexivity|]. split; [constructor; [unfold means in M0; lia|exact V]|]. split; [|exact C].
      assert (S1 : forall j, bg lat1 j = if j =? i then g else bg lat j).
      { intros j. unfold bg, lat1. rewrite (bond_at_upd L) by auto. now destruct (j =? i). }
      intros j Hj. destruct (R j Hj) as (R1 & R2). split.
      * intros (y & [<-|I] & My); [|apply R1; now exists y]. assert (j = i) by (eapply means_unique; eauto). subst j.
        destruct (existsb (fun y => (y =? i) || (y =? i - 2 * (L * L))) pre) eqn:X.
        -- apply R1. apply existsb_exists in X. destruct X as (y & I & Hy). exists y. split; [exact I|]. split; [exact Hi0|]. apply orb_true_iff in Hy. rewrite !Z.eqb_eq in Hy. tauto.
        -- rewrite R2, S1, Z.eqb_refl; auto. intros y I My'. assert (X' : existsb (fun y => (y =? i) || (y =? i - 2 * (L * L))) pre = true).
           { apply existsb_exists. exists y. split; [exact I|]. destruct My' as (_ & My'). rewrite orb_true_iff, !Z.eqb_eq. tauto. } congruence.
      * intros F. rewrite R2 by (intros y I; apply F; now right). rewrite S1. destruct (Z.eqb_spec j i) as [->|]; [|reflexivity]. exfalso. apply (F x); [now left|exact M0].
    + exists lat, (Err IndexError), [], (x :: l). split; [reflexivity|]. split; [exact St|]. split; [auto|]. split; [reflexivity|]. split; [constructor|]. split; [|right; split; [reflexivity|now exists x, l]].
      intros i Hi. split; [intros (y & [] & _)|reflexivity].
Qed.

(** ** The invariant of handled objects *)
Record OK (L : Z) (b : bare) : Prop := mkOK { ok_st : Static L (ba_lat b); ok_next : p_next (ba_pool b) = zlen (p_list (ba_pool b)) }.

Lemma lset_zlen {A} (l : list A) i v l' : lset l i v = Ok l' -> zlen l' = zlen l.
Proof. unfold lset. destruct (py_pos (zlen l) i); [|discriminate]. intros E. injection E as <-. apply zlen_upd. Qed.
Lemma pool_call_ok L r b : OK L b -> (forall p, r = Ok p -> p_next p = zlen (p_list p)) -> OK L (fst (pool_call r b)).
Proof. intros [S N] H. unfold pool_call. destruct r as [p|e]; [|now constructor]. constructor; [exact S|]. now apply H. Qed.
Lemma create_ok L sites bonds b : OK L b -> OK L (fst (bare_create sites bonds b)).
Proof.
  intros [S N]. unfold bare_create. destruct (label_sites L (p_next (ba_pool b)) sites (ba_lat b) S) as (l1 & r1 & p1 & q1 & E1 & S1 & _ & _ & _ & _ & C1). rewrite E1.
  destruct r1 as [u|e]; [|now constructor].
  destruct (label_bonds L (p_next (ba_pool b)) bonds l1 S1) as (l2 & r2 & p2 & q2 & E2 & S2 & _). rewrite E2. destruct r2 as [u2|e]; constructor; auto.
  cbn [fst ba_pool p_next p_list]. unfold zlen in *. rewrite app_length, N. cbn. lia.
Qed.
Lemma edit_any L lat e lat' : Static L lat -> do_edit lat e = Ok lat' -> Static L lat'.
Proof.
  intros St. destruct e; cbn [do_edit]; intros E.
  - destruct (set_site_any L lat i g St) as [(j & (Hj & _) & Q)|(_ & Q)]; rewrite Q in E; [|discriminate]. injection E as <-. apply static_upd_site; auto. repeat split.
  - destruct (set_bond_any L lat b g St) as [(j & (Hj & _) & Q)|(_ & Q)]; rewrite Q in E; [|discriminate]. injection E as <-. apply static_upd_bond; auto.
  - exact (rel_any L lat i r St lat' E).
  - exact (rel_any L lat i (0, 0) St lat' E).
  - injection E as <-. now apply lattice_reset_ok.
Qed.
Lemma do_ok L c b : OK L b -> OK L (fst (bare_do c b)).
Proof.
  intros H. pose proof H as [S N]. destruct c; cbn [bare_do].
  - unfold lat_call. destruct (do_edit (ba_lat b) e) as [l|x] eqn:E; [|exact H]. constructor; [exact (edit_any L _ _ _ S E)|exact N].
  - unfold lat_call. destruct (update_site (ba_lat b) i site_reduce_1st_nn) as [l|x] eqn:E; [|exact H]. constructor; [|exact N]. refine (update_any L _ _ _ S _ _ E).
    intros s s'. unfold site_reduce_1st_nn, passert, rbind. destruct (s_nn1 s <=? 0); [destruct (0 <=? s_nn1 s)|]; intros Q; inversion Q; repeat split.
  - unfold lat_call. destruct (update_site (ba_lat b) i site_reduce_2st_directional_nn) as [l|x] eqn:E; [|exact H]. constructor; [|exact N]. refine (update_any L _ _ _ S _ _ E).
    intros s s'. unfold site_reduce_2st_directional_nn, passert, rbind. destruct (s_nn2 s <=? 0); [destruct (0 <=? s_nn2 s)|]; intros Q; inversion Q; repeat split.
  - now apply create_ok.
  - unfold bare_merge. destruct (lget (p_list (ba_pool b)) a) as [ca|e]; [|exact H]. destruct (lget (p_list (ba_pool b)) b0) as [cb|e]; [|exact H].
    destruct (label_bonds L (c_gid ca) (c_bonds cb) (ba_lat b) S) as (l1 & r1 & p1 & q1 & E1 & S1 & _). rewrite E1. destruct r1 as [u|e]; [|now constructor].
    destruct (label_sites L (c_gid ca) (c_sites cb) l1 S1) as (l2 & r2 & p2 & q2 & E2 & S2 & _). rewrite E2. destruct r2 as [u2|e]; [|now constructor].
    apply pool_call_ok; [now constructor|]. intros p Q.
    destruct (lset (p_list (ba_pool b)) a _) as [l3|e] eqn:E3; [|discriminate]. cbn [rbind] in Q. destruct (lget l3 a) as [ca'|e]; [|discriminate]. cbn [rbind] in Q.
    destruct (lget l3 b0) as [cb'|e]; [|discriminate]. cbn [rbind] in Q. destruct (lset l3 a _) as [l4|e] eqn:E4; [|discriminate]. cbn [rbind] in Q. injection Q as <-.
    cbn [p_next p_list]. rewrite (lset_zlen _ _ _ _ E4), (lset_zlen _ _ _ _ E3). exact N.
  - apply pool_call_ok; [exact H|]. intros p Q. unfold clear_cluster in Q. destruct (lget (p_list (ba_pool b)) c) as [k|e]; [|discriminate]. cbn [rbind] in Q.
    destruct (lset (p_list (ba_pool b)) c _) as [l4|e] eqn:E4; [|discriminate]. injection Q as <-. cbn. rewrite (lset_zlen _ _ _ _ E4). exact N.
  - apply pool_call_ok; [exact H|]. intros p Q. unfold pool_add_sites in Q. destruct (lget (p_list (ba_pool b)) c) as [k|e]; [|discriminate]. cbn [rbind] in Q.
    destruct (lset (p_list (ba_pool b)) c _) as [l4|e] eqn:E4; [|discriminate]. injection Q as <-. cbn. rewrite (lset_zlen _ _ _ _ E4). exact N.
  - apply pool_call_ok; [exact H|]. intros p Q. unfold pool_add_bonds in Q. destruct (lget (p_list (ba_pool b)) c) as [k|e]; [|discriminate]. cbn [rbind] in Q.
    destruct (lset (p_list (ba_pool b)) c _) as [l4|e] eqn:E4; [|discriminate]. injection Q as <-. cbn. rewrite (lset_zlen _ _ _ _ E4). exact N.
  - constructor; [now apply lattice_reset_ok|reflexivity].
Qed.
Lemma new_ok L b0 : 0 < L -> new_bare L = Ok b0 -> OK L b0.
Proof.
  intros HL E. unfold new_bare in E. destruct (new_lattice L) as [lat|e] eqn:El; [|discriminate]. injection E as <-. constructor; [exact (new_lattice_static' L lat El HL)|reflexivity].
Qed.
Lemma handled_ok L b : 0 < L -> handled L b -> OK L b.
Proof.
  intros HL (b0 & cs & E & ->). pose proof (new_ok L b0 HL E) as H. unfold bare_after. clear E. revert b0 H. induction cs as [|c cs IH]; intros b0 H; [exact H|]. cbn [fold_left]. apply IH. now apply do_ok.
Qed.

(** C119 *)
Lemma p_C119_new L : 0 < L -> exists b, new_bare L = Ok b /\ edited L (ba_lat b) /\ p_list (ba_pool b) = [] /\
  (forall i, is_site L i -> site_gid (ba_lat b) i = -1 /\ site_rel (ba_lat b) i = (0, 0)) /\ (forall i, is_bond L i -> bond_gid (ba_lat b) i = -1).
Proof.
  intros HL. destruct (new_lattice_spec L HL) as (lat & E & Sh & Hs & Hb). exists (mkBare lat empty_pool None None). unfold new_bare. rewrite E.
  pose proof (new_lattice_static' L lat E HL) as St.
  split; [reflexivity|]. split; [exists lat, []; split; [exact E|]; split; [constructor|reflexivity]|]. split; [reflexivity|]. cbn [ba_lat]. split.
  - intros i Hi. rewrite (sgid L) by auto. unfold sg, site_rel. rewrite (get_site_by_id_ok L lat St i Hi), Hs by exact Hi. split; reflexivity.
  - intros i Hi. rewrite (bgid L) by auto. unfold bg. rewrite Hb by exact Hi. reflexivity.
Qed.
Lemma reset_lattice L lat lat0 : Static L lat -> new_lattice L = Ok lat0 -> lattice_reset lat = lat0.
Proof.
  intros St E. pose proof (st_pos _ _ St) as HL. destruct (new_lattice_spec L HL) as (l1 & E1 & Sh & Hs & Hb). assert (l1 = lat0) by congruence. subst l1.
  pose proof (lattice_reset_ok L lat St) as (St' & _). apply (shape_ext L); [now apply static_shape|exact Sh| |].
  - intros i Hi. rewrite Hs by exact Hi. assert (Q : site_at (lattice_reset lat) i = site_reset (site_at lat i)). { unfold site_at, lattice_reset. cbn [l_sites with_bonds with_sites]. apply at_map. now apply (site_range L). }
    rewrite Q. destruct (st_site _ _ St i Hi) as (A & B & C). destruct (site_at lat i). cbn in *. subst. reflexivity.
  - intros i Hi. rewrite Hb by exact Hi. assert (Q : bond_at (lattice_reset lat) i = bond_reset (bond_at lat i)). { unfold bond_at, lattice_reset. cbn [l_bonds with_bonds with_sites]. apply at_map. now apply (bond_range L). }
    rewrite Q. destruct (st_bond _ _ St i Hi) as (A & B & C & D & F). destruct (bond_at lat i). cbn in *. subst. reflexivity.
Qed.
Lemma p_C119_reset L b : 0 < L -> handled L b -> exists b0, new_bare L = Ok b0 /\ bare_do RReset b = (b0, Ok tt).
Proof.
  intros HL H. pose proof (handled_ok L b HL H) as [S _]. destruct (new_lattice_static L HL) as (lat0 & E & _). exists (mkBare lat0 empty_pool None None). unfold new_bare. rewrite E. split; [reflexivity|].
  cbn [bare_do]. unfold bare_reset. now rewrite (reset_lattice L _ lat0 S E).
Qed.
Lemma p_C119_geometry L b b0 : 0 < L -> new_bare L = Ok b0 -> handled L b ->
  (forall i, is_site L i -> exists t t0, get_site_by_id (ba_lat b) i = Ok t /\ get_site_by_id (ba_lat b0) i = Ok t0 /\
     s_id t = i /\ s_index t = (i / L, i mod L) /\ s_bonds t = s_bonds t0 /\ s_index t0 = s_index t) /\
  (forall i, is_bond L i -> exists t t0, get_bond_by_id (ba_lat b) i = Ok t /\ get_bond_by_id (ba_lat b0) i = Ok t0 /\
     b_id t = i /\ b_sites t = b_sites t0 /\ b_type t = b_type t0 /\ b_row t = b_row t0 /\ b_col t = b_col t0) /\
  zlen (l_sites (ba_lat b)) = L * L /\ zlen (l_bonds (ba_lat b)) = 2 * (L * L) /\
  p_next (ba_pool b) = zlen (p_list (ba_pool b)).
Proof.
  intros HL E0 H. pose proof (handled_ok L b HL H) as [S N]. pose proof (new_ok L b0 HL E0) as [S0 _]. split; [|split; [|split; [apply S|split; [apply S|exact N]]]].
  - intros i Hi. exists (site_at (ba_lat b) i), (site_at (ba_lat b0) i). split; [now apply (get_site L)|]. split; [now apply (get_site L)|].
    destruct (st_site _ _ S i Hi) as (A & B & C), (st_site _ _ S0 i Hi) as (A0 & B0 & C0). rewrite A, B, C, B0, C0. repeat split.
  - intros i Hi. exists (bond_at (ba_lat b) i), (bond_at (ba_lat b0) i). split; [now apply (get_bond L)|]. split; [now apply (get_bond L)|].
    destruct (st_bond _ _ S i Hi) as (A & B & C & D & F), (st_bond _ _ S0 i Hi) as (A0 & B0 & C0 & D0 & F0). rewrite A, B, C, D, F, B0, C0, D0, F0. repeat split.
Qed.

Lemma relab_s L pre g lat lat' : Static L lat -> Static L lat' -> relabelled (L * L) pre g (sg lat) (sg lat') -> relabelled (L * L) pre g (site_gid lat) (site_gid lat').
Proof. intros S S' R i Hi. rewrite !(sgid L) by auto. now apply R. Qed.
Lemma relab_b L pre g lat lat' : Static L lat -> Static L lat' -> relabelled (2 * (L * L)) pre g (bg lat) (bg lat') -> relabelled (2 * (L * L)) pre g (bond_gid lat) (bond_gid lat').
Proof. intros S S' R i Hi. rewrite !(bgid L) by (auto; unfold is_bond; lia). apply R. exact Hi. Qed.
Lemma bonds_same lat lat' : l_bonds lat' = l_bonds lat -> forall i, bond_gid lat' i = bond_gid lat i.
Proof. intros E i. unfold bond_gid, get_bond_gid_by_id. now rewrite E. Qed.
Lemma sites_same lat lat' : l_sites lat' = l_sites lat -> forall i, site_gid lat' i = site_gid lat i /\ site_rel lat' i = site_rel lat i.
Proof. intros E i. unfold site_gid, get_site_gid_by_id, site_rel, get_site_by_id. now rewrite E. Qed.
Lemma rel_same L lat lat' : Static L lat -> Static L lat' -> rest_same_s L lat lat' -> forall i, is_site L i -> site_rel lat' i = site_rel lat i.
Proof. intros S S' (_ & H) i Hi. unfold site_rel. rewrite !(get_site_by_id_ok L) by auto. now apply H. Qed.

Lemma p_C119_create L b sites bonds : 0 < L -> handled L b ->
  let g := zlen (p_list (ba_pool b)) in let '(b', r) := bare_do (RCreate sites bonds) b in
  (valid (L * L) sites /\ valid (2 * (L * L)) bonds ->
     r = Ok tt /\ p_list (ba_pool b') = p_list (ba_pool b) ++ [mkCluster sites bonds g g] /\
     relabelled (L * L) sites g (site_gid (ba_lat b)) (site_gid (ba_lat b')) /\
     relabelled (2 * (L * L)) bonds g (bond_gid (ba_lat b)) (bond_gid (ba_lat b'))) /\
  (~ (valid (L * L) sites /\ valid (2 * (L * L)) bonds) ->
     r = Err IndexError /\ ba_pool b' = ba_pool b /\
     exists ps pb, valid (L * L) ps /\ valid (2 * (L * L)) pb /\
       relabelled (L * L) ps g (site_gid (ba_lat b)) (site_gid (ba_lat b')) /\
       relabelled (2 * (L * L)) pb g (bond_gid (ba_lat b)) (bond_gid (ba_lat b')) /\
       ((exists x t, sites = ps ++ x :: t /\ ~ (- (L * L) <= x < L * L) /\ pb = []) \/
        (sites = ps /\ exists x t, bonds = pb ++ x :: t /\ ~ (- (2 * (L * L)) <= x < 2 * (L * L))))) /\
  (forall i, is_site L i -> site_rel (ba_lat b') i = site_rel (ba_lat b) i).
Proof.
  intros HL H. cbn zeta. pose proof (handled_ok L b HL H) as [S N]. cbn [bare_do]. unfold bare_create. rewrite N. set (g := zlen (p_list (ba_pool b))).
  destruct (label_sites L g sites (ba_lat b) S) as (l1 & r1 & p1 & q1 & E1 & S1 & RS & Q1 & V1 & R1 & C1). rewrite E1.
  assert (NV : forall n p x t, ~ (- n <= x < n) -> ~ valid n (p ++ x :: t)).
  { intros n p x t Hx V. apply Forall_app in V. destruct V as (_ & V). inversion V; subst. contradiction. }
  destruct C1 as [(-> & ->)|(-> & x & t & -> & Hx)].
  - rewrite app_nil_r in Q1. subst p1.
    destruct (label_bonds L g bonds l1 S1) as (l2 & r2 & p2 & q2 & E2 & S2 & RB & Q2 & V2 & R2 & C2). rewrite E2.
    assert (B0 : relabelled (2 * (L * L)) p2 g (bond_gid (ba_lat b)) (bond_gid l2)).
    { intros i Hi. rewrite <- (bonds_same _ _ (proj1 RS) i). exact (relab_b L _ _ _ _ S1 S2 R2 i Hi). }
    assert (A0 : relabelled (L * L) sites g (site_gid (ba_lat b)) (site_gid l2)).
    { intros i Hi. destruct (sites_same _ _ RB i) as (-> & _). exact (relab_s L _ _ _ _ S S1 R1 i Hi). }
    assert (D0 : forall i, is_site L i -> site_rel l2 i = site_rel (ba_lat b) i).
    { intros i Hi. destruct (sites_same _ _ RB i) as (_ & ->). exact (rel_same L _ _ S S1 RS i Hi). }
    destruct C2 as [(-> & ->)|(-> & x & t & -> & Hx)].
    + rewrite app_nil_r in Q2. subst p2. split; [|split].
      * intros _. split; [reflexivity|]. split; [reflexivity|]. split; [exact A0|exact B0].
      * intros F. exfalso. apply F. now split.
      * exact D0.
    + split; [|split].
      * intros (_ & V). exfalso. rewrite Q2 in V. exact (NV _ _ _ _ Hx V).
      * intros _. split; [reflexivity|]. split; [reflexivity|]. exists sites, p2. split; [exact V1|]. split; [exact V2|]. split; [exact A0|]. split; [exact B0|]. right. split; [reflexivity|]. now exists x, t.
      * exact D0.
  - split; [|split].
    + intros (V & _). exfalso. rewrite Q1 in V. exact (NV _ _ _ _ Hx V).
    + intros _. split; [reflexivity|]. split; [reflexivity|]. exists p1, []. split; [exact V1|]. split; [constructor|]. split; [exact (relab_s L _ _ _ _ S S1 R1)|]. split.
      * intros i Hi. cbn [put_lat ba_lat]. rewrite (bonds_same _ _ (proj1 RS) i). split; [intros (y & [] & _)|reflexivity].
      * left. exists x, t. auto.
    + exact (rel_same L _ _ S S1 RS).
Qed.

Lemma p_C119_agree sites bonds a c b :
  match create_new_cluster (ba_pool b) sites bonds (ba_lat b) with
  | Ok (p, l) => bare_do (RCreate sites bonds) b = (mkBare l p (ba_pcb b) (ba_pcs b), Ok tt)
  | Err e => snd (bare_do (RCreate sites bonds) b) = Err e
  end /\
  match merge_cluster_with (ba_pool b) a c (ba_lat b) with
  | Ok (p, l) => bare_do (RMerge a c) b = (mkBare l p (ba_pcb b) (ba_pcs b), Ok tt)
  | Err e => snd (bare_do (RMerge a c) b) = Err e
  end.
Proof.
  assert (F : forall set l g lat, match foldM (fun lat x => set lat x g) l lat with Ok lat' => label_all set l g lat = (lat', Ok tt) | Err e => snd (label_all set l g lat) = Err e end).
  { intros set l g. induction l as [|x l IH]; intros lat; [reflexivity|]. cbn [foldM label_all]. destruct (set lat x g) as [lat'|e]; [|reflexivity]. cbn [rbind]. apply IH. }
  split.
  - unfold create_new_cluster. cbn [bare_do]. unfold bare_create. pose proof (F set_site_gid_by_id sites (p_next (ba_pool b)) (ba_lat b)) as F1.
    destruct (foldM (fun lat ss => set_site_gid_by_id lat ss (p_next (ba_pool b))) sites (ba_lat b)) as [l1|e]; cbn [rbind].
    + rewrite F1. pose proof (F set_bond_gid_by_id bonds (p_next (ba_pool b)) l1) as F2.
      destruct (foldM (fun lat bb => set_bond_gid_by_id lat bb (p_next (ba_pool b))) bonds l1) as [l2|e]; cbn [rbind]; [now rewrite F2|].
      destruct (label_all set_bond_gid_by_id bonds (p_next (ba_pool b)) l1) as (l2 & r2). cbn in F2. now rewrite F2.
    + destruct (label_all set_site_gid_by_id sites (p_next (ba_pool b)) (ba_lat b)) as (l1 & r1). cbn in F1. now rewrite F1.
  - unfold merge_cluster_with. cbn [bare_do]. unfold bare_merge. destruct (lget (p_list (ba_pool b)) a) as [ca|e] eqn:Ea; cbn [rbind]; [|reflexivity].
    destruct (lget (p_list (ba_pool b)) c) as [cb|e]; cbn [rbind]; [|reflexivity].
    pose proof (F set_bond_gid_by_id (c_bonds cb) (c_gid ca) (ba_lat b)) as F1.
    destruct (foldM (fun lat bb => set_bond_gid_by_id lat bb (c_gid ca)) (c_bonds cb) (ba_lat b)) as [l1|e]; cbn [rbind].
    + rewrite F1. pose proof (F set_site_gid_by_id (c_sites cb) (c_gid ca) l1) as F2.
      destruct (foldM (fun lat ss => set_site_gid_by_id lat ss (c_gid ca)) (c_sites cb) l1) as [l2|e]; cbn [rbind].
      * rewrite F2. cbn [rbind]. unfold pool_call. destruct (lset (p_list (ba_pool b)) a _) as [l3|e]; cbn [rbind]; [|reflexivity]. destruct (lget l3 a) as [ca'|e]; cbn [rbind]; [|reflexivity].
        destruct (lget l3 c) as [cb'|e]; cbn [rbind]; [|reflexivity]. destruct (lset l3 a _) as [l4|e]; cbn [rbind]; reflexivity.
      * destruct (label_all set_site_gid_by_id (c_sites cb) (c_gid ca) l1) as (l2 & r2). cbn in F2. now rewrite F2.
    + destruct (label_all set_bond_gid_by_id (c_bonds cb) (c_gid ca) (ba_lat b)) as (l1 & r1). cbn in F1. now rewrite F1.
Qed.

Lemma p_C119_offset L b : 3 <= L -> handled L b -> forall i d, is_site L i ->
  get_relative_index (ba_lat b) i (nbr L i d) = Ok (vadd (site_rel (ba_lat b) i) (step d)).
Proof.
  intros H3 H i d Hi. pose proof (handled_ok L b ltac:(lia) H) as [S _].
  rewrite (get_relative_index_ok L) by (auto; apply nbr_site; lia). unfold site_rel. rewrite (get_site_by_id_ok L) by auto. fold (corr L i (nbr L i d)). rewrite corr_step by auto. reflexivity.
Qed.
Lemma mapM_bonds L lat bs : Static L lat -> Forall (is_bond L) bs -> mapM (get_bond_gid_by_id lat) bs = Ok (map (bond_gid lat) bs).
Proof.
  intros S F. induction F as [|x bs Hx F IH]; [reflexivity|]. cbn [mapM map]. rewrite (get_bond_gid_ok L) by auto. cbn [rbind]. rewrite IH. cbn [rbind]. now rewrite (bgid L).
Qed.
Lemma mapM_sites L lat l : Static L lat -> Forall (is_site L) l -> mapM (fun ss => t <- get_site_by_id lat ss ;; Ok (s_gid t)) l = Ok (map (site_gid lat) l).
Proof.
  intros S F. induction F as [|x bs Hx F IH]; [reflexivity|]. cbn [mapM map]. rewrite (get_site_by_id_ok L) by auto. cbn [rbind]. rewrite IH. cbn [rbind]. now rewrite (sgid L).
Qed.
Lemma p_C119_labels E L b bs ss : env_ok E -> 0 < L -> handled L b -> Forall (is_bond L) bs -> Forall (is_site L) ss ->
  (exists l, get_bond_gids E (ba_lat b) bs = Ok l /\ NoDup l /\ forall g, In g l <-> exists x, In x bs /\ bond_gid (ba_lat b) x = g) /\
  (exists l, get_site_gids E (ba_lat b) ss = Ok l /\ NoDup l /\ forall g, In g l <-> exists x, In x ss /\ site_gid (ba_lat b) x = g).
Proof.
  intros HE HL H Fb Fs. pose proof (handled_ok L b HL H) as [S _]. split.
  - unfold get_bond_gids. rewrite (mapM_bonds L) by auto. cbn [rbind]. eexists. split; [reflexivity|]. destruct (HE (map (bond_gid (ba_lat b)) bs)) as (N & I). split; [exact N|].
    intros g. rewrite I, in_map_iff. split; intros (x & A & B); exists x; auto.
  - unfold get_site_gids. rewrite (mapM_sites L) by auto. cbn [rbind]. eexists. split; [reflexivity|]. destruct (HE (map (site_gid (ba_lat b)) ss)) as (N & I). split; [exact N|].
    intros g. rewrite I, in_map_iff. split; intros (x & A & B); exists x; auto.
Qed.

Lemma lget_upd0 {A} (l : list A) i v j : 0 <= i < zlen l -> 0 <= j < zlen l -> lget (upd l (Z.to_nat i) v) j = if j =? i then Ok v else lget l j.
Proof.
  intros Hi Hj. rewrite (lget_in v) by (rewrite zlen_upd; exact Hj). rewrite (lget_in v l j Hj), at_upd by (auto; lia). now destruct (j =? i).
Qed.
Lemma p_C119_merge L b a c i j ca cb : 0 < L -> handled L b ->
  means (zlen (p_list (ba_pool b))) a i -> means (zlen (p_list (ba_pool b))) c j ->
  lget (p_list (ba_pool b)) i = Ok ca -> lget (p_list (ba_pool b)) j = Ok cb ->
  let '(b', r) := bare_do (RMerge a c) b in
  (valid (L * L) (c_sites cb) /\ valid (2 * (L * L)) (c_bonds cb) ->
     r = Ok tt /\ zlen (p_list (ba_pool b')) = zlen (p_list (ba_pool b)) /\
     (forall k, 0 <= k < zlen (p_list (ba_pool b)) -> lget (p_list (ba_pool b')) k =
        if k =? i then Ok (mkCluster (c_sites ca ++ c_sites cb) (c_bonds ca ++ c_bonds cb) (c_gid ca) (c_id ca)) else lget (p_list (ba_pool b)) k) /\
     relabelled (L * L) (c_sites cb) (c_gid ca) (site_gid (ba_lat b)) (site_gid (ba_lat b')) /\
     relabelled (2 * (L * L)) (c_bonds cb) (c_gid ca) (bond_gid (ba_lat b)) (bond_gid (ba_lat b'))) /\
  (~ (valid (L * L) (c_sites cb) /\ valid (2 * (L * L)) (c_bonds cb)) ->
     r = Err IndexError /\ ba_pool b' = ba_pool b /\
     exists ps pb, valid (L * L) ps /\ valid (2 * (L * L)) pb /\
       relabelled (L * L) ps (c_gid ca) (site_gid (ba_lat b)) (site_gid (ba_lat b')) /\
       relabelled (2 * (L * L)) pb (c_gid ca) (bond_gid (ba_lat b)) (bond_gid (ba_lat b')) /\
       ((exists x t, c_bonds cb = pb ++ x :: t /\ ~ (- (2 * (L * L)) <= x < 2 * (L * L)) /\ ps = []) \/
        (c_bonds cb = pb /\ exists x t, c_sites cb = ps ++ x :: t /\ ~ (- (L * L) <= x < L * L)))) /\
  (forall k, is_site L k -> site_rel (ba_lat b') k = site_rel (ba_lat b) k).
Proof.
  intros HL H Ma Mc Ea Ec. pose proof (handled_ok L b HL H) as [S N]. cbn [bare_do]. unfold bare_merge. set (pl := p_list (ba_pool b)) in *.
  assert (A : lget pl a = lget pl i /\ forall v, lset pl a v = lset pl i v).
  { destruct (any_index pl a) as [(i' & M' & X)|(Hn & _)]; [rewrite (means_unique _ _ _ _ Ma M'); exact X|unfold means in Ma; lia]. }
  assert (C : lget pl c = lget pl j).
  { destruct (any_index pl c) as [(i' & M' & X & _)|(Hn & _)]; [rewrite (means_unique _ _ _ _ Mc M'); exact X|unfold means in Mc; lia]. }
  rewrite (proj1 A), C, Ea, Ec. set (g := c_gid ca).
  assert (NV : forall n p x t, ~ (- n <= x < n) -> ~ valid n (p ++ x :: t)).
  { intros n p x t Hx V. apply Forall_app in V. destruct V as (_ & V). inversion V; subst. contradiction. }
  destruct (label_bonds L g (c_bonds cb) (ba_lat b) S) as (l1 & r1 & p1 & q1 & E1 & S1 & RB & Q1 & V1 & R1 & C1). rewrite E1.
  destruct C1 as [(-> & ->)|(-> & x & t & -> & Hx)].
  - rewrite app_nil_r in Q1. subst p1.
    destruct (label_sites L g (c_sites cb) l1 S1) as (l2 & r2 & p2 & q2 & E2 & S2 & RS & Q2 & V2 & R2 & C2). rewrite E2.
    assert (B0 : relabelled (2 * (L * L)) (c_bonds cb) g (bond_gid (ba_lat b)) (bond_gid l2)).
    { intros k Hk. rewrite (bonds_same _ _ (proj1 RS) k). exact (relab_b L _ _ _ _ S S1 R1 k Hk). }
    assert (A0 : relabelled (L * L) p2 g (site_gid (ba_lat b)) (site_gid l2)).
    { intros k Hk. destruct (sites_same _ _ RB k) as (<- & _). exact (relab_s L _ _ _ _ S1 S2 R2 k Hk). }
    assert (D0 : forall k, is_site L k -> site_rel l2 k = site_rel (ba_lat b) k).
    { intros k Hk. destruct (sites_same _ _ RB k) as (_ & <-). exact (rel_same L _ _ S1 S2 RS k Hk). }
    destruct C2 as [(-> & ->)|(-> & x & t & -> & Hx)].
    + rewrite app_nil_r in Q2. subst p2. destruct Ma as (Hi & Ha). destruct Mc as (Hj & Hc).
      unfold pool_call. rewrite (proj2 A), lset_in by exact Hi. cbn [rbind].
      set (m := mkCluster (c_sites ca) (c_bonds ca ++ c_bonds cb) g (c_id ca)). set (l3 := upd pl (Z.to_nat i) m).
      assert (Z3 : zlen l3 = zlen pl) by apply zlen_upd.
      assert (A3 : lget l3 a = lget l3 i /\ forall v, lset l3 a v = lset l3 i v).
      { destruct (any_index l3 a) as [(i' & M' & X)|(Hn & _)]; rewrite Z3 in *; [|exfalso; lia]. assert (i = i') as -> by (eapply means_unique; [split; [exact Hi|exact Ha]|exact M']). exact X. }
      assert (C3 : lget l3 c = lget l3 j).
      { destruct (any_index l3 c) as [(i' & M' & X & _)|(Hn & _)]; rewrite Z3 in *; [|exfalso; lia]. assert (j = i') as -> by (eapply means_unique; [split; [exact Hj|exact Hc]|exact M']). exact X. }
      rewrite (proj1 A3), C3. unfold l3 at 1 2. rewrite !lget_upd0, Z.eqb_refl by auto. cbn [rbind].
      assert (X : exists cb', (if j =? i then Ok m else lget pl j) = Ok cb' /\ c_sites cb' = c_sites cb).
      { destruct (Z.eqb_spec j i) as [->|]; [|now exists cb]. exists m. split; [reflexivity|]. cbn. congruence. }
      destruct X as (cb' & -> & Xs). cbn [rbind]. rewrite (proj2 A3), lset_in by (rewrite Z3; exact Hi). cbn [rbind].
      split; [|split].
      * intros _. split; [reflexivity|]. cbn [put_pool put_lat ba_pool ba_lat p_list]. split; [rewrite zlen_upd; exact Z3|]. split; [|split; [exact A0|exact B0]].
        intros k Hk. rewrite lget_upd0 by (rewrite Z3; auto). rewrite Xs. destruct (Z.eqb_spec k i) as [->|Hn]; [reflexivity|]. unfold l3. rewrite lget_upd0 by auto. destruct (Z.eqb_spec k i); [contradiction|reflexivity].
      * intros F. exfalso. apply F. now split.
      * exact D0.
    + split; [|split].
      * intros (V & _). exfalso. rewrite Q2 in V. exact (NV _ _ _ _ Hx V).
      * intros _. split; [reflexivity|]. split; [reflexivity|]. exists p2, (c_bonds cb). split; [exact V2|]. split; [exact V1|]. split; [exact A0|]. split; [exact B0|]. right. split; [reflexivity|]. now exists x, t.
      * exact D0.
  - split; [|split].
    + intros (_ & V). exfalso. rewrite Q1 in V. exact (NV _ _ _ _ Hx V).
    + intros _. split; [reflexivity|]. split; [reflexivity|]. exists [], p1. split; [constructor|]. split; [exact V1|]. split.
      * intros k Hk. cbn [put_lat ba_lat]. destruct (sites_same _ _ RB k) as (-> & _). split; [intros (y & [] & _)|reflexivity].
      * split; [exact (relab_b L _ _ _ _ S S1 R1)|]. left. now exists x, t.
    + intros k Hk. cbn [put_lat ba_lat]. now destruct (sites_same _ _ RB k) as (_ & ->).
Qed.
Lemma p_C119_missing b a c : ~ (- zlen (p_list (ba_pool b)) <= a < zlen (p_list (ba_pool b))) \/ ~ (- zlen (p_list (ba_pool b)) <= c < zlen (p_list (ba_pool b))) ->
  bare_do (RMerge a c) b = (b, Err IndexError).
Proof.
  intros H. cbn [bare_do]. unfold bare_merge. destruct (any_index (p_list (ba_pool b)) a) as [(i & M & E & _)|(_ & E & _)]; rewrite E; [|reflexivity].
  destruct M as (Hi & M). rewrite (lget_in (mkCluster [] [] 0 0)) by exact Hi.
  destruct (any_index (p_list (ba_pool b)) c) as [(j & Mj & _)|(_ & Ej & _)]; [|now rewrite Ej]. exfalso. unfold means in Mj. lia.
Qed.
Lemma handled_calls L b0 cs : new_bare L = Ok b0 -> handled L (bare_after cs b0).
Proof. intros E. exists b0, cs. split; [exact E|reflexivity]. Qed.
