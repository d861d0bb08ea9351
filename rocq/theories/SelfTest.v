(** * SelfTest: what the self-checks of a lattice accept and reject (C68, C69). *)
From Coq Require Import ZArith List Bool Lia.
From Verif Require Import Py Lattice Cluster Perc Spec PyFacts Torus Geometry LatFacts Inv Merge Count Fresh Select State Step History Reach GeomProps Micro StateProps StateProps2 RunProps View LatSpec.
Import ListNotations.
Open Scope Z_scope.

Lemma foldM_checks {A} (f : A -> res unit) (P : A -> Prop) l :
  (forall a, In a l -> (P a /\ f a = Ok tt) \/ (~ P a /\ f a = Err AssertionError)) ->
  ((forall a, In a l -> P a) /\ foldM (fun _ a => f a) l tt = Ok tt) \/
  (~ (forall a, In a l -> P a) /\ foldM (fun _ a => f a) l tt = Err AssertionError).
Proof.
  induction l as [|a l IH]; intros H; [left; split; [intros a []|reflexivity]|].
  cbn [foldM]. destruct (H a (or_introl eq_refl)) as [(Pa & Ea)|(Na & Ea)].
  - rewrite Ea. cbn [rbind]. destruct IH as [(Q & ->)|(Q & ->)].
    + intros b Hb. apply H. now right.
    + left. split; [|reflexivity]. intros b [<-|Hb]; auto.
    + right. split; [|reflexivity]. intros Q'. apply Q. intros b Hb. apply Q'. now right.
  - rewrite Ea. cbn [rbind]. right. split; [|reflexivity]. intros Q. apply Na, Q. now left.
Qed.

Lemma tri_loop_full L lat x : Static L lat -> forall l cnt, (forall t, In t l -> is_site L t) -> 0 <= cnt ->
  exists n b, tri_loop lat x l cnt = Ok (n, b) /\ cnt <= n /\
    (b = true <-> exists t, In t l /\ occ lat t /\ one_apart L x (rl lat t)) /\
    (n = cnt <-> forall t, In t l -> ~ occ lat t).
Proof.
  intros St. induction l as [|a l IH]; intros cnt Hl Hc.
  - exists cnt, false. split; [reflexivity|]. split; [lia|]. split; [split; [discriminate|intros (t & [] & _)]|]. split; [intros _ t []|reflexivity].
  - cbn [tri_loop]. rewrite (get_site_by_id_ok L) by (auto; apply Hl; simpl; auto). cbn [rbind].
    fold (sg lat a) (rl lat a). cbv zeta. rewrite (st_len _ _ St).
    assert (Hl' : forall t, In t l -> is_site L t) by (intros; apply Hl; now right).
    destruct (Z.ltb_spec (sg lat a) 0) as [Hn|Ho].
    + destruct (IH cnt Hl' Hc) as (n & b & E & H1 & H2 & H3). exists n, b. split; auto. split; auto. split.
      * rewrite H2. split; intros (t & Ht & Hot & Hd); exists t; cbn [In]; [tauto|].
        destruct Ht as [<-|Ht]; [unfold occ in Hot; lia|auto].
      * rewrite H3. split; intros Q t Ht; [destruct Ht as [<-|Ht]; [unfold occ; lia|auto]|apply Q; now right].
    + assert (Hocc : occ lat a) by exact Ho.
      destruct (((Z.abs (snd x - snd (rl lat a)) =? 1) || (Z.abs (snd x - snd (rl lat a)) =? L - 1)) ||
                ((Z.abs (fst x - fst (rl lat a)) =? 1) || (Z.abs (fst x - fst (rl lat a)) =? L - 1))) eqn:Eb.
      * exists (cnt + 1), true. split.
        { destruct ((Z.abs (snd x - snd (rl lat a)) =? 1) || (Z.abs (snd x - snd (rl lat a)) =? L - 1)); [reflexivity|].
          cbn [orb] in Eb. rewrite Eb. reflexivity. }
        split; [lia|]. split; [|split; [lia|intros Q; exfalso; apply (Q a); simpl; auto]].
        split; [intros _|auto]. exists a. split; [now left|]. split; auto. unfold one_apart.
        rewrite !orb_true_iff, !Z.eqb_eq in Eb. tauto.
      * destruct (IH (cnt + 1) Hl' ltac:(lia)) as (n & b & E & H1 & H2 & H3). exists n, b.
        apply orb_false_iff in Eb as (E1 & E2). rewrite E1, E2. split; auto. split; [lia|]. split.
        -- rewrite H2. split; intros (t & Ht & Hot & Hd); exists t; cbn [In]; [tauto|].
           destruct Ht as [<-|Ht]; [|auto]. exfalso. unfold one_apart in Hd.
           rewrite orb_false_iff, !Z.eqb_neq in E1, E2. lia.
        -- split; [lia|]. intros Q. exfalso. apply (Q a); simpl; auto.
Qed.

Lemma edit_static L lat e : Static L lat -> edit_ok L e -> exists lat', do_edit lat e = Ok lat' /\ Static L lat'.
Proof.
  intros St He. destruct e; cbn [do_edit edit_ok] in *.
  - rewrite (set_site_gid_ok L) by auto. eexists. split; [reflexivity|]. apply static_upd_site; auto. repeat split.
  - rewrite (set_bond_gid_ok L) by auto. eexists. split; [reflexivity|]. now apply static_upd_bond.
  - rewrite (lat_set_relative_index_ok L) by auto. eexists. split; [reflexivity|]. apply static_upd_site; auto. repeat split.
  - unfold lat_init_relative_index. rewrite (lat_set_relative_index_ok L) by auto. eexists. split; [reflexivity|]. apply static_upd_site; auto. repeat split.
  - eexists. split; [reflexivity|]. now apply lattice_reset_ok.
Qed.
Lemma edited_static L lat : 0 < L -> edited L lat -> Static L lat.
Proof.
  intros HL (lat0 & es & E0 & Hes & Ee). pose proof (new_lattice_static' L lat0 E0 HL) as St. clear E0. revert lat0 St Ee.
  induction es as [|e es IH]; intros lat0 St Ee; cbn [foldM] in Ee; [congruence|].
  apply Forall_cons_iff in Hes as (H1 & H2). destruct (edit_static L lat0 e St H1) as (l1 & E1 & St1).
  rewrite E1 in Ee. cbn [rbind] in Ee. eauto.
Qed.
Lemma site_gid_sg L lat i : Static L lat -> is_site L i -> site_gid lat i = sg lat i.
Proof. intros St Hi. unfold site_gid. now rewrite (get_site_gid_ok L). Qed.
Lemma bond_gid_bg L lat b : Static L lat -> is_bond L b -> bond_gid lat b = bg lat b.
Proof. intros St Hi. unfold bond_gid. now rewrite (get_bond_gid_ok L). Qed.
Lemma site_rel_rl L lat i : Static L lat -> is_site L i -> site_rel lat i = rl lat i.
Proof. intros St Hi. unfold site_rel. now rewrite (get_site_by_id_ok L). Qed.
Lemma site_in L lat i : Static L lat -> is_site L i -> In (site_at lat i) (l_sites lat).
Proof.
  intros St Hi. unfold site_at. apply at_In. eapply site_range; eauto.
Qed.
Lemma bond_in L lat i : Static L lat -> is_bond L i -> In (bond_at lat i) (l_bonds lat).
Proof.
  intros St Hi. unfold bond_at. apply at_In. eapply bond_range; eauto.
Qed.

Lemma p_C68 L lat : 2 <= L -> edited L lat ->
  test_neighbor_count lat = Ok tt /\ scan_sites lat = Ok tt /\ scan_bonds lat = Ok tt /\
  (let good := forall i d, is_site L i -> 0 <= site_gid lat i -> 0 <= site_gid lat (nbr L i d) ->
     exists d', 0 <= site_gid lat (nbr L i d') /\ one_apart L (site_rel lat i) (site_rel lat (nbr L i d')) in
   (good /\ test_relative_index lat = Ok tt) \/ (~ good /\ test_relative_index lat = Err AssertionError)) /\
  forall g,
   let good := (forall i, is_site L i -> site_gid lat i = g) /\ (forall b, is_bond L b -> bond_gid lat b = g) in
   (good /\ lat_test_lattice lat g = Ok tt) \/ (~ good /\ lat_test_lattice lat g = Err AssertionError).
Proof.
  intros H2 He. assert (HL : 0 < L) by lia. pose proof (edited_static L lat HL He) as St.
  split; [now apply (test_neighbor_count_ok L)|]. split; [now apply (scan_sites_ok L)|]. split; [now apply (scan_bonds_ok L)|]. split.
  - cbv zeta. unfold test_relative_index.
    edestruct (foldM_checks (fun sc =>
      if s_gid sc <? 0 then Ok tt else
      four <- get_all_neighbor_sites lat (s_id sc) ;;
      '(cnt, wise) <- tri_loop lat (s_rel sc) four 0 ;;
      if 0 <? cnt then passert wise else Ok tt)
      (fun sc => 0 <= s_gid sc -> forall d, occ lat (nbr L (s_id sc) d) ->
         exists d', occ lat (nbr L (s_id sc) d') /\ one_apart L (s_rel sc) (rl lat (nbr L (s_id sc) d'))) (l_sites lat)) as [(Q & E)|(Q & E)].
    + intros t Ht. destruct (in_sites_at L lat t St Ht) as (i & Hi & ->). fold (sg lat i) (rl lat i).
      destruct (st_site _ _ St i Hi) as (-> & _ & _). rewrite (get_all_neighbor_sites_ok L) by auto. cbn [rbind].
      destruct (Z.ltb_spec (sg lat i) 0) as [Hn|Ho]; [left; split; [lia|reflexivity]|].
      assert (Hl : forall t, In t (map (nbr L i) all_dirs) -> is_site L t).
      { intros t Hin. apply in_map_iff in Hin as (d & <- & _). now apply nbr_site. }
      assert (Hall : forall d, In (nbr L i d) (map (nbr L i) all_dirs)) by (intros d; apply in_map; destruct d; simpl; auto).
      destruct (tri_loop_full L lat (rl lat i) St (map (nbr L i) all_dirs) 0 Hl ltac:(lia)) as (n & b & -> & Hn & Hb & Hc).
      cbn [rbind]. destruct (Z.ltb_spec 0 n) as [Hp|Hz].
      * destruct b; cbn [passert].
        -- left. split; [|reflexivity]. intros _ d _. destruct (proj1 Hb eq_refl) as (t & Hin & Hot & Hd).
           apply in_map_iff in Hin as (d' & <- & _). eauto.
        -- right. split; [|reflexivity]. intros Q. assert (false = true); [|discriminate]. apply Hb.
           assert (Hex : exists d, occ lat (nbr L i d)).
           { destruct (existsb (occb lat) (map (nbr L i) all_dirs)) eqn:Ex.
             - apply existsb_exists in Ex as (t & Hin & Hot). apply in_map_iff in Hin as (d & <- & _). apply occb_true in Hot. eauto.
             - exfalso. assert (n = 0); [|lia]. apply Hc. intros t Hin Hot.
               assert (existsb (occb lat) (map (nbr L i) all_dirs) = true); [|congruence].
               apply existsb_exists. exists t. split; auto. now apply occb_true. }
           destruct Hex as (d & Hd). destruct (Q Ho d Hd) as (d' & Ho' & Hd'). exists (nbr L i d'). auto.
      * left. split; [|reflexivity]. intros _ d Hd. exfalso. apply (proj1 Hc ltac:(lia) (nbr L i d)); auto.
    + left. split; [|exact E]. intros i d Hi Ho Hd. pose proof (nbr_site L HL i) as Hns.
      rewrite (site_gid_sg L) in Ho by auto. rewrite (site_gid_sg L) in Hd by auto.
      specialize (Q (site_at lat i) (site_in L lat i St Hi)). destruct (st_site _ _ St i Hi) as (Ei & _ & _). rewrite Ei in Q.
      destruct (Q Ho d Hd) as (d' & A & B). exists d'. rewrite (site_gid_sg L), !(site_rel_rl L) by auto. auto.
    + right. split; [|exact E]. intros G. apply Q. intros t Ht Ho d Hd. destruct (in_sites_at L lat t St Ht) as (i & Hi & ->).
      destruct (st_site _ _ St i Hi) as (Ei & _ & _). rewrite Ei in *. pose proof (nbr_site L HL i) as Hns.
      destruct (G i d Hi) as (d' & A & B).
      * rewrite (site_gid_sg L) by auto. exact Ho.
      * rewrite (site_gid_sg L) by auto. exact Hd.
      * exists d'. rewrite (site_gid_sg L) in A by auto. rewrite !(site_rel_rl L) in B by auto. auto.
  - intros g. cbv zeta. unfold lat_test_lattice.
    edestruct (foldM_checks (fun ss => _ <- site_test ss ;; passert (s_gid ss =? g)) (fun ss => s_gid ss = g) (l_sites lat)) as [(Q & E)|(Q & E)].
    { intros t Hin. destruct (in_sites_at L lat t St Hin) as (i & Hi & ->). unfold site_test.
      destruct (st_site _ _ St i Hi) as (_ & _ & ->). rewrite nodup_fix by (now apply bonds_of_NoDup).
      change (zlen (bonds_of L i)) with 4. cbn. destruct (Z.eqb_spec (s_gid (site_at lat i)) g); auto. }
    + rewrite E. cbn [rbind].
      edestruct (foldM_checks (fun bb => _ <- bond_test bb ;; passert (b_gid bb =? g)) (fun bb => b_gid bb = g) (l_bonds lat)) as [(Q' & E')|(Q' & E')].
      { intros b Hin. destruct (in_bonds_at L lat b St Hin) as (i & Hi & ->). unfold bond_test.
        destruct (st_bond _ _ St i Hi) as (_ & _ & _ & _ & ->).
        rewrite nodup_fix; [change (zlen (bond_sites L i)) with 2; cbn; destruct (Z.eqb_spec (b_gid (bond_at lat i)) g); auto|].
        unfold bond_sites. pose proof (ends_neq L HL i H2 Hi). constructor; [|constructor; [intros []|constructor]]. intros [Ee|[]]. lia. }
      * left. split; [|exact E']. split; intros i Hi.
        -- rewrite (site_gid_sg L) by auto. exact (Q _ (site_in L lat i St Hi)).
        -- rewrite (bond_gid_bg L) by auto. exact (Q' _ (bond_in L lat i St Hi)).
      * right. split; [|exact E']. intros (_ & G). apply Q'. intros b Hin. destruct (in_bonds_at L lat b St Hin) as (i & Hi & ->).
        rewrite <- (G i Hi). rewrite (bond_gid_bg L) by auto. reflexivity.
    + rewrite E. cbn [rbind]. right. split; [|reflexivity]. intros (G & _). apply Q. intros t Hin.
      destruct (in_sites_at L lat t St Hin) as (i & Hi & ->). rewrite <- (G i Hi). rewrite (site_gid_sg L) by auto. reflexivity.
Qed.

(** ** The row scan *)
Lemma scan_row_ok L lat : Static L lat -> forall l prev,
  (forall i, In i l -> is_site L i) ->
  (forall a i j b, l = a ++ i :: j :: b -> occ lat i -> sg lat i = sg lat j -> Z.abs (snd (rl lat i) - snd (rl lat j)) = 1) ->
  (forall p i b, prev = Some p -> l = i :: b -> 0 <= s_gid p -> s_gid p = sg lat i -> Z.abs (snd (s_rel p) - snd (rl lat i)) = 1) ->
  scan_row lat l prev = Ok tt.
Proof.
  intros St. induction l as [|i l IH]; intros prev Hl Hc Hp; [reflexivity|].
  cbn [scan_row]. rewrite (get_site_by_id_ok L) by (auto; apply Hl; simpl; auto). cbn [rbind]. fold (sg lat i).
  assert (Hl' : forall i, In i l -> is_site L i) by (intros; apply Hl; now right).
  assert (Hc' : forall a x j b, l = a ++ x :: j :: b -> occ lat x -> sg lat x = sg lat j -> Z.abs (snd (rl lat x) - snd (rl lat j)) = 1).
  { intros a x j b -> . apply (Hc (i :: a) x j b). reflexivity. }
  destruct (Z.ltb_spec (sg lat i) 0) as [Hn|Ho].
  { apply IH; auto. discriminate. }
  assert (Hs : forall p x b, Some (site_at lat i) = Some p -> l = x :: b -> 0 <= s_gid p -> s_gid p = sg lat x -> Z.abs (snd (s_rel p) - snd (rl lat x)) = 1).
  { intros p x b Q -> Q1 Q2. injection Q as <-. apply (Hc [] i x b eq_refl); auto. }
  destruct prev as [p|]; [|apply IH; auto].
  destruct ((sg lat i =? s_gid p) && (0 <=? s_gid p) && (0 <=? sg lat i)) eqn:Eg; cbn [rbind]; [|apply IH; auto].
  apply andb_true_iff in Eg as (Eg & _). apply andb_true_iff in Eg as (Eg & E0). apply Z.eqb_eq in Eg. apply Z.leb_le in E0.
  fold (rl lat i). rewrite (Hp p i l eq_refl eq_refl E0 (eq_sym Eg)). cbn. apply IH; auto.
Qed.

Lemma p_C69 E L s : env_ok E -> reachable E L s -> ~ wraps L (occupied s) -> test_rwo_col_scan (lat s) = Ok tt.
Proof.
  intros HE HR Hw. pose proof (reachable_inv _ _ _ HE HR) as H. pose proof (i_static _ _ H) as St. pose proof (i_pos _ _ H) as HL.
  unfold test_rwo_col_scan. apply foldM_unit. intros rr Hrr. rewrite (st_len _ _ St) in *. apply In_zrange in Hrr.
  apply (scan_row_ok L); auto; [| |discriminate].
  - intros i Hi. apply in_map_iff in Hi as (cc & <- & Hcc). apply In_zrange in Hcc. unfold is_site. nia.
  - intros a i j b El Ho Es.
    assert (Hij : exists c, 0 <= c /\ c + 1 < L /\ i = rr * L + c /\ j = rr * L + (c + 1)).
    { exists (zlen a). pose proof (zlen_nonneg a) as Ha. pose proof (f_equal (@zlen Z) El) as Eq. rewrite zlen_map, zlen_zrange, zlen_app, !zlen_cons in Eq by lia.
      pose proof (zlen_nonneg b). split; [lia|]. split; [lia|].
      pose proof (f_equal (fun l => at_ 0 l (zlen a)) El) as E1. pose proof (f_equal (fun l => at_ 0 l (zlen a + 1)) El) as E2.
      cbn beta in E1, E2. rewrite (at_map _ 0) in E1, E2 by (rewrite zlen_zrange; lia). rewrite at_zrange in E1, E2 by lia.
      rewrite E1, E2. unfold at_. destruct (Z.leb_spec 0 (zlen a)); [|lia]. destruct (Z.leb_spec 0 (zlen a + 1)); [|lia].
      unfold zlen. rewrite Z2Nat.inj_add, Nat2Z.id by lia.
      rewrite !app_nth2 by lia. rewrite Nat.sub_diag. replace (length a + Z.to_nat 1 - length a)%nat with 1%nat by lia. split; reflexivity. }
    destruct Hij as (c & C0 & C1 & -> & ->).
    assert (Hi : is_site L (rr * L + c)) by (unfold is_site; nia).
    assert (Hj : is_site L (rr * L + (c + 1))) by (unfold is_site; nia).
    assert (Ej : nbr L (rr * L + (c + 1)) DLeft = rr * L + c).
    { unfold nbr, at_rc, row, col. cbn [step fst snd].
      replace (rr * L + (c + 1)) with (c + 1 + rr * L) by lia. rewrite Z.div_add, Z.mod_add by lia.
      rewrite (Z.div_small (c + 1)), (Z.mod_small (c + 1)) by lia. rewrite !Z.mod_small by lia. lia. }
    destruct (ck_walk _ _ _ (i_cl _ _ H) _ _ Hi Hj Ho Es) as (ds & W & D).
    destruct (Z.eq_dec (snd (rl (lat s) (rr * L + (c + 1))) - snd (rl (lat s) (rr * L + c))) 1) as [|Ne]; [lia|]. exfalso. apply Hw.
    assert (Hoj : occ (lat s) (rr * L + (c + 1))) by (unfold occ in *; now rewrite <- Es).
    exists (rr * L + c), (ds ++ [DLeft]). split.
    + apply (walk_mono L (occ (lat s))); [intros x Hx Hox; now apply (occupied_occ L)|].
      eapply walk_app; [exact W|]. constructor; auto. rewrite Ej. now constructor.
    + rewrite disp_app, D. cbn. intros Q. injection Q as Q1 Q2. lia.
Qed.

(** The scan decided exactly. *)
Definition gap (L d : Z) := Z.abs d = 1 \/ Z.abs d = L - 1.
Definition row_good L lat (l : list Z) (prev : option site) :=
  (forall a i j b, l = a ++ i :: j :: b -> occ lat i -> sg lat i = sg lat j -> gap L (snd (rl lat i) - snd (rl lat j))) /\
  (forall p i b, prev = Some p -> l = i :: b -> 0 <= s_gid p -> s_gid p = sg lat i -> gap L (snd (s_rel p) - snd (rl lat i))).
Lemma scan_row_exact L lat : Static L lat -> forall l prev, (forall i, In i l -> is_site L i) ->
  (row_good L lat l prev /\ scan_row lat l prev = Ok tt) \/ (~ row_good L lat l prev /\ scan_row lat l prev = Err AssertionError).
Proof.
  intros St. induction l as [|i l IH]; intros prev Hl.
  { left. split; [|reflexivity]. split; [intros [|? ?] ? ? ?; discriminate|intros; discriminate]. }
  cbn [scan_row]. rewrite (get_site_by_id_ok L) by (auto; apply Hl; simpl; auto). cbn [rbind]. fold (sg lat i).
  assert (Hl' : forall i, In i l -> is_site L i) by (intros; apply Hl; now right).
  destruct (Z.ltb_spec (sg lat i) 0) as [Hn|Ho].
  { destruct (IH None Hl') as [(G & E)|(G & E)].
    - left. split; [|exact E]. split.
      + intros [|x a] y j b Q; injection Q as <- Q; [unfold occ; lia|]. now apply (proj1 G a y j b).
      + intros p y b _ Q. injection Q as <- <-. lia.
    - right. split; [|exact E]. intros (G1 & _). apply G. split; [|discriminate].
      intros a y j b ->. now apply (G1 (i :: a) y j b). }
  assert (Hsame : forall pr, row_good L lat (i :: l) pr <->
    (forall p, pr = Some p -> 0 <= s_gid p -> s_gid p = sg lat i -> gap L (snd (s_rel p) - snd (rl lat i))) /\ row_good L lat l (Some (site_at lat i))).
  { intros pr. split.
    - intros (G1 & G2). split; [intros p Ep; now apply (G2 p i l Ep)|]. split.
      + intros a y j b ->. now apply (G1 (i :: a) y j b).
      + intros p y b Q ->. injection Q as <-. now apply (G1 [] i y b).
    - intros (Gp & G1 & G2). split.
      + intros [|x a] y j b Q; injection Q as <- Q; [|now apply (G1 a y j b)]. now apply (G2 (site_at lat i) j b).
      + intros p y b Ep Q. injection Q as <- <-. now apply Gp. }
  destruct prev as [p|].
  2:{ destruct (IH (Some (site_at lat i)) Hl') as [(G & E)|(G & E)]; [left|right]; (split; [rewrite Hsame|exact E]).
      - split; [discriminate|exact G]. - tauto. }
  destruct ((sg lat i =? s_gid p) && (0 <=? s_gid p) && (0 <=? sg lat i)) eqn:Eg.
  - apply andb_true_iff in Eg as (Eg & _). apply andb_true_iff in Eg as (Eg & E0). apply Z.eqb_eq in Eg. apply Z.leb_le in E0.
    fold (rl lat i). rewrite (st_len _ _ St).
    destruct ((Z.abs (snd (s_rel p) - snd (rl lat i)) =? 1) || (Z.abs (snd (s_rel p) - snd (rl lat i)) =? L - 1)) eqn:Ed; cbn [passert rbind].
    + assert (gap L (snd (s_rel p) - snd (rl lat i))) by (apply orb_true_iff in Ed as [Ed|Ed]; apply Z.eqb_eq in Ed; [now left|now right]).
      destruct (IH (Some (site_at lat i)) Hl') as [(G & E)|(G & E)]; [left|right]; (split; [rewrite Hsame|exact E]).
      * split; [intros q Q; injection Q as <-; auto|exact G].
      * tauto.
    + right. split; [|reflexivity]. rewrite Hsame. intros (G & _). apply orb_false_iff in Ed as (D1 & D2). apply Z.eqb_neq in D1, D2.
      destruct (G p eq_refl E0 (eq_sym Eg)); contradiction.
  - cbn [rbind]. destruct (IH (Some (site_at lat i)) Hl') as [(G & E)|(G & E)]; [left|right]; (split; [rewrite Hsame|exact E]).
    + split; [|exact G]. intros q Q Q0 Q1. injection Q as <-. rewrite Q1, Z.eqb_refl in Eg. cbn [andb] in Eg. rewrite <- Q1 in Eg.
      destruct (Z.leb_spec 0 (s_gid p)); [discriminate|lia].
    + tauto.
Qed.

Lemma row_split L r (HL : 0 < L) : forall a i j b, map (fun c => r * L + c) (zrange L) = a ++ i :: j :: b ->
  0 <= zlen a /\ zlen a + 1 < L /\ i = r * L + zlen a /\ j = r * L + (zlen a + 1).
Proof.
  intros a i j b El. pose proof (zlen_nonneg a) as Ha. pose proof (f_equal (@zlen Z) El) as Eq. rewrite zlen_map, zlen_zrange, zlen_app, !zlen_cons in Eq by lia.
  pose proof (zlen_nonneg b). split; [lia|]. split; [lia|].
  pose proof (f_equal (fun l => at_ 0 l (zlen a)) El) as E1. pose proof (f_equal (fun l => at_ 0 l (zlen a + 1)) El) as E2.
  cbn beta in E1, E2. rewrite (at_map _ 0) in E1, E2 by (rewrite zlen_zrange; lia). rewrite at_zrange in E1, E2 by lia.
  rewrite E1, E2. unfold at_. destruct (Z.leb_spec 0 (zlen a)); [|lia]. destruct (Z.leb_spec 0 (zlen a + 1)); [|lia].
  unfold zlen. rewrite Z2Nat.inj_add, Nat2Z.id by lia.
  rewrite !app_nth2 by lia. rewrite Nat.sub_diag. replace (length a + Z.to_nat 1 - length a)%nat with 1%nat by lia. split; reflexivity.
Qed.

Lemma row_unsplit L r c : 0 <= c -> c + 1 < L -> exists a b, map (fun c => r * L + c) (zrange L) = a ++ (r * L + c) :: (r * L + (c + 1)) :: b.
Proof.
  intros H0 H1. exists (map (fun c => r * L + c) (zrange c)), (map (fun c => r * L + c) (map (fun x => c + 2 + x) (zrange (L - (c + 2))))).
  assert (E : zrange L = zrange c ++ c :: (c + 1) :: map (fun x => c + 2 + x) (zrange (L - (c + 2)))).
  { apply (nth_ext _ _ 0 0).
    - apply Nat2Z.inj. change (zlen (zrange L) = zlen (zrange c ++ c :: (c + 1) :: map (fun x => c + 2 + x) (zrange (L - (c + 2))))).
      rewrite zlen_app, !zlen_cons, zlen_map, !zlen_zrange by lia. lia.
    - intros n Hn. assert (Hz : 0 <= Z.of_nat n < L).
      { split; [lia|]. rewrite <- (zlen_zrange L) by lia. unfold zlen. lia. }
      assert (N : forall m, (Z.of_nat n < m) -> nth n (zrange m) 0 = Z.of_nat n).
      { intros m Hm. pose proof (at_zrange 0 m (Z.of_nat n)) as A. specialize (A ltac:(lia)). unfold at_ in A.
        destruct (Z.leb_spec 0 (Z.of_nat n)); [|lia]. now rewrite Nat2Z.id in A. }
      rewrite N by lia.
      assert (Lc : length (zrange c) = Z.to_nat c) by (pose proof (zlen_zrange c H0); unfold zlen in *; lia).
      destruct (Z_lt_ge_dec (Z.of_nat n) c).
      + rewrite app_nth1 by lia. now rewrite N by lia.
      + rewrite app_nth2 by lia. rewrite Lc. remember (n - Z.to_nat c)%nat as m.
        destruct m as [|[|m]]; cbn [nth]; [lia|lia|].
        rewrite (nth_indep _ 0 (c + 2 + 0)) by (rewrite map_length; pose proof (zlen_zrange (L - (c + 2)) ltac:(lia)); unfold zlen in *; lia).
        rewrite (map_nth (fun x => c + 2 + x)).
        pose proof (at_zrange 0 (L - (c + 2)) (Z.of_nat m) ltac:(lia)) as A. unfold at_ in A.
        destruct (Z.leb_spec 0 (Z.of_nat m)); [|lia]. rewrite Nat2Z.id in A. rewrite A. lia. }
  rewrite E, map_app. reflexivity.
Qed.

Lemma p_C69_exact L lat : 1 <= L -> edited L lat ->
  let good := forall r c, 0 <= r < L -> 0 <= c < L - 1 ->
    0 <= site_gid lat (r * L + c) -> site_gid lat (r * L + (c + 1)) = site_gid lat (r * L + c) ->
    let d := Z.abs (snd (site_rel lat (r * L + c)) - snd (site_rel lat (r * L + (c + 1)))) in d = 1 \/ d = L - 1 in
  (good /\ test_rwo_col_scan lat = Ok tt) \/ (~ good /\ test_rwo_col_scan lat = Err AssertionError).
Proof.
  intros HL1 He. assert (St : Static L lat) by (eapply edited_static; eauto; lia). assert (HL : 0 < L) by lia. cbv zeta.
  unfold test_rwo_col_scan. rewrite (st_len _ _ St).
  assert (B : forall r, 0 <= r < L -> row_good L lat (map (fun cc => r * L + cc) (zrange L)) None <->
    forall c, 0 <= c < L - 1 -> 0 <= site_gid lat (r * L + c) -> site_gid lat (r * L + (c + 1)) = site_gid lat (r * L + c) ->
    gap L (snd (site_rel lat (r * L + c)) - snd (site_rel lat (r * L + (c + 1))))).
  { intros r Hr. split.
    - intros (G & _) c Hc. assert (Hi : is_site L (r * L + c)) by (unfold is_site; nia).
      assert (Hj : is_site L (r * L + (c + 1))) by (unfold is_site; nia).
      rewrite !(site_gid_sg L), !(site_rel_rl L) by auto. intros Ho Es. destruct (row_unsplit L r c ltac:(lia) ltac:(lia)) as (a & b & El). now apply (G _ _ _ _ El).
    - intros G. split; [|discriminate]. intros a i j b El Ho Es. destruct (row_split L r HL _ _ _ _ El) as (A0 & A1 & -> & ->).
      assert (Hi : is_site L (r * L + zlen a)) by (unfold is_site; nia).
      assert (Hj : is_site L (r * L + (zlen a + 1))) by (unfold is_site; nia).
      specialize (G (zlen a) ltac:(lia)). rewrite !(site_gid_sg L), !(site_rel_rl L) in G by auto. now apply G. }
  edestruct (foldM_checks (fun rr => scan_row lat (map (fun cc => rr * L + cc) (zrange L)) None)
    (fun rr => row_good L lat (map (fun cc => rr * L + cc) (zrange L)) None) (zrange L)) as [(Q & E)|(Q & E)].
  { intros r Hr. apply In_zrange in Hr. apply scan_row_exact; auto.
    intros i Hi. apply in_map_iff in Hi as (cc & <- & Hcc). apply In_zrange in Hcc. unfold is_site. nia. }
  - left. split; [|exact E]. intros r c Hr. now apply (proj1 (B r Hr)), Q, In_zrange.
  - right. split; [|exact E]. intros G. apply Q. intros r Hr. apply In_zrange in Hr. apply (B r Hr). intros c. now apply G.
Qed.
