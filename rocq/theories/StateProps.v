(** * StateProps: proofs of the state properties. *)
From Coq Require Import ZArith List Bool Lia Permutation.
From Verif Require Import Py Lattice Cluster Perc Spec PyFacts Torus Geometry LatFacts Inv Merge Count Fresh
  Select State Step History Reach.
Import ListNotations.
Open Scope Z_scope.

(** ** Observables through the invariant *)
Lemma site_label_sg L s i : Static L (lat s) -> is_site L i -> site_label s i = sg (lat s) i.
Proof. intros St Hi. unfold site_label. now rewrite (get_site_gid_ok L). Qed.
Lemma bond_label_bg L s b : Static L (lat s) -> is_bond L b -> bond_label s b = bg (lat s) b.
Proof. intros St Hb. unfold bond_label. now rewrite (get_bond_gid_ok L). Qed.
Lemma rel_index_rl L s i : Static L (lat s) -> is_site L i -> rel_index s i = rl (lat s) i.
Proof. intros St Hi. unfold rel_index. now rewrite (get_site_by_id_ok L). Qed.
Lemma occupied_occ L s i : Static L (lat s) -> is_site L i -> (occupied s i <-> occ (lat s) i).
Proof. intros St Hi. unfold occupied, occ. now rewrite (site_label_sg L). Qed.
Lemma cluster_bonds_cl L s c : zlen (p_list (pool s)) = 2 * (L * L) -> is_label L c ->
  cluster_bonds s c = c_bonds (cl (pool s) c).
Proof. intros Hl Hc. unfold cluster_bonds, pool_get_bonds. rewrite (lget_in dcluster) by (rewrite Hl; exact Hc). reflexivity. Qed.
Lemma cluster_sites_cl L s c : zlen (p_list (pool s)) = 2 * (L * L) -> is_label L c ->
  cluster_sites s c = c_sites (cl (pool s) c).
Proof. intros Hl Hc. unfold cluster_sites, pool_get_sites. rewrite (lget_in dcluster) by (rewrite Hl; exact Hc). reflexivity. Qed.
Lemma inv_plen L s : Inv L s -> zlen (p_list (pool s)) = 2 * (L * L).
Proof. intros H. apply (pk_len _ _ _ _ (ck_pool _ _ _ (i_cl _ _ H))). Qed.

Lemma occupied_sites_nocc L s : Static L (lat s) -> Z.of_nat (length (occupied_sites L s)) = nocc L (lat s).
Proof.
  intros St. change (zlen (occupied_sites L s) = nocc L (lat s)). unfold occupied_sites, nocc, count, zlen. do 2 f_equal.
  apply filter_ext_in. intros i Hi. apply In_zrange in Hi. unfold occb. now rewrite (site_label_sg L).
Qed.

(** ** Construction and geometry *)
Lemma p_C06 E k L t0 :
  (0 < L -> exists s, new_perc E k L t0 = Ok s /\ kind s = k /\
     (forall i, is_site L i -> site_label s i = -1) /\
     zlen (p_list (pool s)) = 2 * (L * L) /\
     (forall b, is_bond L b -> bond_label s b = b /\ cluster_bonds s b = [b] /\ cluster_sites s b = []) /\
     Permutation (zrange (L * L)) (get_site_id_sequence s)) /\
  (L = 0 -> new_perc E k L t0 = Err ValueError) /\
  (L < 0 -> new_perc E k L t0 = Err AttributeError).
Proof.
  split; [|split].
  - intros HL. destruct (new_perc_ok E k L t0 HL) as (lat1 & l & t & rv & E1 & F & P & _).
    eexists. split; [exact E1|]. pose proof (new_perc_fresh _ _ _ _ _ E1) as FS.
    pose proof (fresh_inv _ _ FS) as H. pose proof (i_static _ _ H) as St.
    split; [reflexivity|]. split; [|split; [|split]].
    + intros i Hi. rewrite (site_label_sg L) by auto. apply (fr_site _ _ (fs_lat _ _ FS)); auto.
    + now apply inv_plen.
    + intros b Hb. rewrite (bond_label_bg L) by auto. split; [apply (fr_bond _ _ (fs_lat _ _ FS)); auto|].
      rewrite (cluster_bonds_cl L), (cluster_sites_cl L) by (auto; now apply inv_plen).
      rewrite (fs_pool _ _ FS), cl_fresh by auto. auto.
    + exact P.
  - intros ->. vm_compute. reflexivity.
  - intros HL. unfold new_perc, new_lattice. destruct (Z.ltb_spec L 0); [reflexivity|lia].
Qed.

Lemma at_list_ext {A B} (d : A) (f : A -> B) (l l' : list A) n : zlen l = n -> zlen l' = n ->
  (forall i, 0 <= i < n -> f (at_ d l i) = f (at_ d l' i)) -> map f l = map f l'.
Proof.
  intros H1 H2 H. apply (nth_ext _ _ (f d) (f d)).
  - rewrite !map_length. unfold zlen in *. lia.
  - intros k Hk. rewrite map_length in Hk. rewrite !map_nth.
    specialize (H (Z.of_nat k)). unfold at_ in H. unfold zlen in *.
    replace (0 <=? Z.of_nat k) with true in H by lia. rewrite Nat2Z.id in H. apply H. lia.
Qed.
Lemma p_C07 E L s : env_ok E -> reachable E L s ->
  exists lat0, new_lattice L = Ok lat0 /\
    l_length (lat s) = l_length lat0 /\ l_site_count (lat s) = l_site_count lat0 /\
    l_bond_count (lat s) = l_bond_count lat0 /\
    map site_geometry (l_sites (lat s)) = map site_geometry (l_sites lat0) /\
    map bond_geometry (l_bonds (lat s)) = map bond_geometry (l_bonds lat0).
Proof.
  intros HE HR. pose proof (reachable_inv _ _ _ HE HR) as H.
  destruct (new_lattice_static L (i_pos _ _ H)) as (lat0 & E0 & S0). exists lat0. split; auto.
  pose proof (i_static _ _ H) as [h1 h2 h3 h4 h5 h6 h7 h8]. destruct S0 as [g1 g2 g3 g4 g5 g6 g7 g8].
  split; [congruence|]. split; [congruence|]. split; [congruence|]. split.
  - apply (at_list_ext dsite _ _ _ (L * L)); auto. intros i Hi. fold (site_at (lat s) i) (site_at lat0 i).
    unfold site_geometry. destruct (h7 i Hi) as (-> & -> & ->). destruct (g7 i Hi) as (-> & -> & ->). reflexivity.
  - apply (at_list_ext dbond _ _ _ (2 * (L * L))); auto. intros b Hb. fold (bond_at (lat s) b) (bond_at lat0 b).
    unfold bond_geometry. destruct (h8 b Hb) as (-> & -> & -> & -> & ->).
    destruct (g8 b Hb) as (-> & -> & -> & -> & ->). reflexivity.
Qed.

(** ** Placement *)


Lemma selected_unchanged L s s1 r : Static L (lat s) -> Selected L s s1 r ->
  match r with Ok SUCESS => False | _ => True end -> nothing_changed L s s1.
Proof.
  intros St Sd Hr. pose proof (sd_lab _ _ _ _ Sd) as Hl. pose proof Hl as (St1 & Eb & Hsl).
  destruct (core_fields _ _ (sd_core _ _ _ _ Sd)) as (F1 & F2 & F3 & F4 & F5 & F6 & F7 & F8 & F9 & F10 & F11 & F12 & F13 & F14 & F15).
  split; [|split; [|split; [|split; [|split; [|split]]]]]; auto.
  - intros i Hi. rewrite !(site_label_sg L), !(rel_index_rl L) by auto. apply Hsl.
  - intros b Hb. rewrite !(bond_label_bg L) by auto. now apply (same_labels_bg L).
  - pose proof (sd_res _ _ _ _ Sd) as R. destruct r as [[]|]; tauto.
Qed.

Lemma p_C10 E L s : env_ok E -> reachable E L s ->
  match place_one_site E s with
  | (s', Ok true) =>
      match sel_flag s' with
      | Some SUCESS => exists x, is_site L x /\ sel_id s' = Some x /\ ~ occupied s x /\
          (forall i, is_site L i -> (occupied s' i <-> i = x \/ occupied s i)) /\
          occ_count s' = occ_count s + 1
      | Some CURRENT_SITE_NOT_EMPTY => nothing_changed L s s'
      | _ => False
      end
  | (s', Ok false) => sel_flag s' = Some EMPTY_SITE_LIST /\ nothing_changed L s s'
  | (s', Err _) => nothing_changed L s s'
  end.
Proof.
  intros HE HR. pose proof (reachable_inv _ _ _ HE HR) as H. pose proof (i_static _ _ H) as St.
  destruct (place_spec E L s HE H) as (Sd & P).
  destruct (sel E L s) as [s1 r]. cbn [fst snd] in Sd. destruct r as [[]|e].
  - destruct P as (x & s' & root & E1 & E2 & -> & Pd). rewrite (pd_flag _ _ _ _ _ _ Pd).
    pose proof (selected_ClOK _ _ _ _ (i_cl _ _ H) Sd) as C1.
    pose proof (sd_res _ _ _ _ Sd) as (x' & Hx & Hun & Ex & _ & Eo). assert (x' = x) by congruence. subst x'.
    destruct (core2_fields _ _ (pd_core _ _ _ _ _ _ Pd)) as (G1 & G2 & G3 & G4 & G5 & G6 & G7 & G8 & _).
    exists x. split; auto. split; [congruence|]. split.
    + rewrite (occupied_occ L) by auto. unfold occ. rewrite Hun. lia.
    + split; [|congruence]. intros i Hi.
      rewrite (occupied_occ L s'), (occupied_occ L s) by (auto; apply (ck_static _ _ _ (pd_cl _ _ _ _ _ _ Pd))).
      rewrite (pd_occ_iff _ _ _ _ _ _ C1 Pd i Hi). unfold occ.
      destruct (sd_lab _ _ _ _ Sd) as (_ & _ & Hl). rewrite (proj1 (Hl i)). reflexivity.
  - rewrite P. cbn [sel_flag set_sel_flag].
    pose proof (selected_unchanged _ _ _ _ St Sd I) as N. exact N.
  - rewrite P. cbn [sel_flag set_sel_flag].
    pose proof (selected_unchanged _ _ _ _ St Sd I) as N. split; [reflexivity|exact N].
  - rewrite P. exact (selected_unchanged _ _ _ _ St Sd I).
Qed.

(** ** Counts *)
Lemma p_C11 E L s : env_ok E -> reachable E L s ->
  let n := Z.of_nat (length (occupied_sites L s)) in
  occ_count s = n /\ 0 <= n <= L * L /\ occupation_prob s = Ok (FDiv (FZ n) (FZ (L * L))).
Proof.
  intros HE HR. pose proof (reachable_inv _ _ _ HE HR) as H. pose proof (i_static _ _ H) as St.
  pose proof (LL_pos L (i_pos _ _ H)).
  cbv zeta. rewrite occupied_sites_nocc by auto. split; [apply (i_occ _ _ H)|]. split.
  - split; [apply count_nonneg|]. unfold nocc. pose proof (count_le_len (occb (lat s)) (zrange (L * L))).
    rewrite zlen_zrange in *; lia.
  - unfold occupation_prob. rewrite (i_occ _ _ H), (st_sc _ _ St). apply int_div_ok. lia.
Qed.


Lemma zsum_label L (f : Z -> Z) n : (forall b, 0 <= b < n -> is_label L (f b)) -> 0 <= n ->
  zsum (map (fun c => count (fun b => f b =? c) (zrange n)) (zrange (2 * (L * L)))) = n.
Proof.
  intros Hf Hn. rewrite count_sum by apply NoDup_zrange.
  rewrite count_all; [now apply zlen_zrange|]. intros b Hb. apply In_zrange in Hb.
  apply zmem_In. apply In_zrange. now apply Hf.
Qed.

Lemma p_C12 E L s : env_ok E -> reachable E L s ->
  let clusters := 2 * (L * L) in
  zlen (p_list (pool s)) = clusters /\
  (forall b, is_bond L b -> 0 <= bond_label s b < clusters) /\
  (forall c, 0 <= c < clusters ->
     NoDup (cluster_bonds s c) /\
     (forall b, In b (cluster_bonds s c) <-> is_bond L b /\ bond_label s b = c)) /\
  sum_over (fun c => zlen (cluster_bonds s c)) clusters = 2 * (L * L).
Proof.
  intros HE HR. pose proof (reachable_inv _ _ _ HE HR) as H. pose proof (i_static _ _ H) as St.
  pose proof (inv_plen _ _ H) as Hp. pose proof (i_cl _ _ H) as C. pose proof (LL_pos L (i_pos _ _ H)) as HLL.
  cbv zeta. split; auto. split; [|split].
  - intros b Hb. rewrite (bond_label_bg L) by auto. now apply (ck_blab _ _ _ C).
  - intros c Hc. rewrite (cluster_bonds_cl L) by auto.
    destruct (pk_bonds _ _ _ _ (ck_pool _ _ _ C) c Hc (fun F => F)) as [N I]. split; auto.
    intros b. rewrite I. split; intros (Hb & Eb); (split; [auto|]); rewrite <- Eb; [|symmetry]; now apply (bond_label_bg L).
  - unfold sum_over. fold (zsum (map (fun c => zlen (cluster_bonds s c)) (zrange (2 * (L * L))))).
    rewrite (zsum_map_ext _ (fun c => count (fun b => bg (lat s) b =? c) (zrange (2 * (L * L))))).
    + apply zsum_label; [|lia]. intros b Hb. now apply (ck_blab _ _ _ C).
    + intros c Hc. apply In_zrange in Hc. rewrite (cluster_bonds_cl L) by auto. now apply bsize_count.
Qed.

Lemma p_C13 E L s : env_ok E -> reachable E L s ->
  let clusters := 2 * (L * L) in
  (forall i, is_site L i -> occupied s i -> 0 <= site_label s i < clusters) /\
  (forall i, is_site L i -> ~ occupied s i -> site_label s i = -1) /\
  (forall c, 0 <= c < clusters ->
     NoDup (cluster_sites s c) /\
     (forall i, In i (cluster_sites s c) <-> is_site L i /\ occupied s i /\ site_label s i = c)) /\
  sum_over (fun c => zlen (cluster_sites s c)) clusters = Z.of_nat (length (occupied_sites L s)).
Proof.
  intros HE HR. pose proof (reachable_inv _ _ _ HE HR) as H. pose proof (i_static _ _ H) as St.
  pose proof (inv_plen _ _ H) as Hp. pose proof (i_cl _ _ H) as C. pose proof (LL_pos L (i_pos _ _ H)) as HLL.
  cbv zeta. split; [|split; [|split]].
  - intros i Hi Ho. rewrite (occupied_occ L) in Ho by auto. rewrite (site_label_sg L) by auto.
    now apply (sg_occ_label _ _ _ _ C).
  - intros i Hi Ho. rewrite (occupied_occ L) in Ho by auto. rewrite (site_label_sg L) by auto.
    now apply (sg_unocc _ _ _ _ C).
  - intros c Hc. rewrite (cluster_sites_cl L) by auto.
    destruct (pk_sites _ _ _ _ (ck_pool _ _ _ C) c Hc (fun F => F)) as [N I]. split; auto.
    intros i. rewrite I. split.
    + intros (Hi & Ei). rewrite (occupied_occ L), (site_label_sg L) by auto. split; auto. split; auto.
      unfold occ, is_label in *. lia.
    + intros (Hi & _ & Ei). rewrite (site_label_sg L) in Ei by auto. auto.
  - rewrite occupied_sites_nocc by auto.
    unfold sum_over. fold (zsum (map (fun c => zlen (cluster_sites s c)) (zrange (2 * (L * L))))).
    rewrite (zsum_map_ext _ (fun c => count (fun i => sg (lat s) i =? c) (zrange (L * L)))).
    + rewrite count_sum by apply NoDup_zrange. apply count_ext. intros i Hi. apply In_zrange in Hi.
      unfold occb. destruct (ck_slab _ _ _ C i Hi) as [E1|E1].
      * rewrite E1. destruct (zmem (-1) _) eqn:Em; [|reflexivity]. apply zmem_In, In_zrange in Em. lia.
      * replace (0 <=? sg (lat s) i) with true by (unfold is_label in E1; lia).
        apply zmem_In, In_zrange. exact E1.
    + intros c Hc. apply In_zrange in Hc. rewrite (cluster_sites_cl L) by auto. now apply ssize_count.
Qed.

(** ** Components *)
Lemma label_connected L lat p i j : ClOK L lat p -> is_site L i -> is_site L j -> occ lat i -> occ lat j ->
  (sg lat i = sg lat j <-> connected L (occ lat) i j).
Proof.
  intros C Hi Hj Oi Oj. split.
  - intros Es. destruct (ck_walk _ _ _ C i j Hi Hj Oi Es) as (ds & W & _). exists ds. exact W.
  - intros (ds & W). apply (walk_label _ _ _ _ _ _ C W).
Qed.
Lemma connected_iff L (P Q : Z -> Prop) i j : (forall k, is_site L k -> (P k <-> Q k)) ->
  (connected L P i j <-> connected L Q i j).
Proof.
  intros H. split; intros (ds & W); exists ds; (eapply walk_mono; [|exact W]); intros; now apply H.
Qed.
Lemma p_C14 E L s : env_ok E -> reachable E L s ->
  forall i j, is_site L i -> is_site L j -> occupied s i -> occupied s j ->
  (site_label s i = site_label s j <-> connected L (occupied s) i j).
Proof.
  intros HE HR i j Hi Hj Oi Oj. pose proof (reachable_inv _ _ _ HE HR) as H. pose proof (i_static _ _ H) as St.
  rewrite (occupied_occ L) in Oi, Oj by auto. rewrite !(site_label_sg L) by auto.
  rewrite (label_connected L (lat s) (pool s)) by (auto; apply (i_cl _ _ H)).
  apply connected_iff. intros k Hk. symmetry. now apply (occupied_occ L).
Qed.

Lemma own_label L lat p b i : ClOK L lat p -> is_bond L b -> is_site L i -> touches L b i -> occ lat i ->
  bg lat b = sg lat i.
Proof.
  intros C Hb Hi Ht Ho. pose proof (st_pos _ _ (ck_static _ _ _ C)) as HL.
  apply (bonds_of_touches L HL) in Ht; auto. apply In_bonds_of in Ht as (d & ->). now apply (ck_own _ _ _ C).
Qed.
Lemma bond_label_joined L lat p b b' : ClOK L lat p -> is_bond L b -> is_bond L b' ->
  (bg lat b = bg lat b' <-> bonds_joined L (occ lat) b b').
Proof.
  intros C Hb Hb'. pose proof (st_pos _ _ (ck_static _ _ _ C)) as HL.
  assert (He : forall e e', is_bond L e -> is_bond L e' -> bg lat e = bg lat e' ->
    e = e' \/ exists i, touches L e i /\ is_site L i /\ occ lat i).
  { intros e e' H1 H2 Ee. destruct (ck_join _ _ _ C e e' H1 H2 Ee) as [Hj|[Hj|Hj]]; auto; right.
    - exists (end1 L e). split; [left; auto|]. split; auto. now apply end1_site.
    - exists (end2 L e). split; [right; auto|]. split; auto. now apply end2_site. }
  split.
  - intros Ee. destruct (He b b' Hb Hb' Ee) as [->|(i & Ti & Hi & Oi)]; [left; auto|].
    destruct (He b' b Hb' Hb (eq_sym Ee)) as [->|(j & Tj & Hj & Oj)]; [left; auto|]. right.
    exists i, j. split; auto. split; auto. apply (label_connected L lat p); auto.
    rewrite <- (own_label L lat p b i), <- (own_label L lat p b' j); auto.
  - intros [->|(i & j & Ti & Tj & Cn)]; auto. pose proof Cn as (ds & W).
    destruct (walk_sites L _ _ _ _ W) as (Hi & Hj & Oi & Oj).
    rewrite (own_label L lat p b i), (own_label L lat p b' j) by auto. apply (label_connected L lat p); auto.
Qed.
Lemma p_C15 E L s : env_ok E -> reachable E L s ->
  (forall b b', is_bond L b -> is_bond L b' ->
     (bond_label s b = bond_label s b' <-> bonds_joined L (occupied s) b b')) /\
  (forall b i, is_bond L b -> is_site L i -> occupied s i -> touches L b i -> bond_label s b = site_label s i).
Proof.
  intros HE HR. pose proof (reachable_inv _ _ _ HE HR) as H. pose proof (i_static _ _ H) as St.
  pose proof (i_cl _ _ H) as C. split.
  - intros b b' Hb Hb'. rewrite !(bond_label_bg L) by auto.
    rewrite (bond_label_joined L (lat s) (pool s)) by auto. unfold bonds_joined.
    assert (Hc : forall i j, connected L (occ (lat s)) i j <-> connected L (occupied s) i j).
    { intros i j. apply connected_iff. intros k Hk. symmetry. now apply (occupied_occ L). }
    split; (intros [?|(i & j & T1 & T2 & Cn)]; [auto|right; exists i, j; split; auto; split; auto; now apply Hc]).
  - intros b i Hb Hi Ho Ht. rewrite (occupied_occ L) in Ho by auto.
    rewrite (bond_label_bg L), (site_label_sg L) by auto. now apply (own_label L (lat s) (pool s)).
Qed.

Lemma p_C16 E L s : env_ok E -> reachable E L s ->
  ((forall i, is_site L i -> ~ occupied s i) -> largest_cluster s = 0) /\
  ((exists i, is_site L i /\ occupied s i) ->
     (forall c, 0 <= c < 2 * (L * L) -> zlen (cluster_bonds s c) <= largest_cluster s) /\
     0 <= largest_id s < 2 * (L * L) /\ zlen (cluster_bonds s (largest_id s)) = largest_cluster s).
Proof.
  intros HE HR. pose proof (reachable_inv _ _ _ HE HR) as H. pose proof (i_static _ _ H) as St.
  pose proof (inv_plen _ _ H) as Hp. split.
  - intros Hn. apply (i_big0 _ _ H). rewrite (i_occ _ _ H). apply count_none. intros i Hi. apply In_zrange in Hi.
    destruct (occb_spec (lat s) i) as [Ho|]; auto. exfalso. apply (Hn i Hi). now apply (occupied_occ L).
  - intros (i & Hi & Ho). rewrite (occupied_occ L) in Ho by auto.
    assert (Hpos : 0 < occ_count s).
    { rewrite (i_occ _ _ H). assert (1 <= nocc L (lat s)); [|lia].
      apply (count_pos _ _ i); [now apply In_zrange|now apply occb_true]. }
    destruct (i_big _ _ H Hpos) as (B1 & B2 & B3). split; [|split]; auto.
    + intros c Hc. rewrite (cluster_bonds_cl L) by auto. apply B3; auto.
    + rewrite (cluster_bonds_cl L) by auto. exact B2.
Qed.
