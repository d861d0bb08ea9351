(** * State: the invariant of a percolation object; selection and placement. *)
From Coq Require Import ZArith List Bool Lia Permutation.
From Verif Require Import Py Lattice Cluster Perc Spec PyFacts Torus Geometry LatFacts Inv Merge Count Fresh Select.
Import ListNotations.
Open Scope Z_scope.

(** Number of bonds / sites of a cluster. *)
Definition bsize (p : cpool) (c : Z) : Z := zlen (c_bonds (cl p c)).
Definition ssize (p : cpool) (c : Z) : Z := zlen (c_sites (cl p c)).
Definition nocc (L : Z) (lat : lattice) : Z := count (occb lat) (zrange (L * L)).

(** What is known about the wrapping attributes. *)
Definition WrapOK (L : Z) (s : perc) : Prop :=
  if after_wrap s then
    3 <= L /\ is_label L (wid s) /\
    (exists i, sg (lat s) i = wid s /\ wraps_at L (fun j => sg (lat s) j = wid s) i) /\
    exists nb ns, pc_bonds s = Some nb /\ pc_sites s = Some ns /\
      L <= ns <= pc_occ s /\ pc_occ s <= occ_count s /\
      ns <= ssize (pool s) (wid s) /\ 0 < nb <= bsize (pool s) (wid s)
  else wid s = -1 /\ pc_occ s = 0 /\ pc_bonds s = None /\ pc_sites s = None.

Record Inv (L : Z) (s : perc) : Prop := mkInv {
  i_cl : ClOK L (lat s) (pool s);
  i_ids : Forall (is_site L) (ids s);
  i_rev : zlen (rev_ids s) = L * L;
  i_rev0 : Forall (Z.le 0) (rev_ids s);
  i_sel : (sel_id s = None /\ cur_site s = None) \/
          exists i, is_site L i /\ sel_id s = Some i /\ cur_site s = Some i;
  i_occ : occ_count s = nocc L (lat s);
  i_cc : cluster_count s = 2 * (L * L);
  i_cur : 0 <= cur_idx s;
  i_mi : is_L12 (kind s) = false -> max_iter s = zlen (ids s);
  i_nn : forall i, is_site L i -> 0 <= nn1 (lat s) i /\ 0 <= nn2 (lat s) i;
  i_big0 : occ_count s = 0 -> largest_sz s = 0 /\ largest_id s = -1;
  i_big : 0 < occ_count s -> is_label L (largest_id s) /\
          bsize (pool s) (largest_id s) = largest_sz s /\
          forall c, is_label L c -> bsize (pool s) c <= largest_sz s;
  i_wrap : WrapOK L s;
  i_maxent : max_ent s = FLog (FZ (2 * (L * L)))
}.

Lemma i_static L s : Inv L s -> Static L (lat s).
Proof. intros H. apply (ck_static _ _ _ (i_cl _ _ H)). Qed.
Lemma i_pos L s : Inv L s -> 0 < L.
Proof. intros H. apply (st_pos _ _ (i_static _ _ H)). Qed.
Lemma inv_selhyp L s : Inv L s -> SelHyp L s.
Proof.
  intros H. constructor.
  - now apply i_static.
  - apply (i_ids _ _ H).
  - apply (i_cur _ _ H).
  - intros i Hi Hn. apply (sg_unocc L _ _ i (i_cl _ _ H)); auto.
  - apply (i_nn _ _ H).
Qed.

(** The attributes selection never touches. *)
Definition dlat : lattice := mkLattice 0 0 0 [] [].
Definition core (s : perc) : perc :=
  set_tick 0 (set_record [] (set_xy 0 0 (set_sel_flag None (set_sel_id None (set_cur_site None
    (set_occ_count 0 (set_cur_idx 0 (rebind_ids [] [] false (set_lat dlat s))))))))).

(** ** What a selection does *)
Record Selected (L : Z) (s s1 : perc) (r : res selstate) : Prop := mkSelected {
  sd_core : core s1 = core s;
  sd_lab : same_labels L (lat s) (lat s1);
  sd_len : zlen (ids s1) = zlen (ids s);
  sd_ids : Forall (is_site L) (ids s1);
  sd_cur : cur_idx s <= cur_idx s1;
  sd_nn : forall i, is_site L i -> 0 <= nn1 (lat s1) i /\ 0 <= nn2 (lat s1) i;
  sd_flag : sel_flag s1 = sel_flag s;
  sd_res : match r with
    | Ok SUCESS => exists x, is_site L x /\ sg (lat s) x = -1 /\
        sel_id s1 = Some x /\ cur_site s1 = Some x /\ occ_count s1 = occ_count s + 1
    | _ => occ_count s1 = occ_count s /\
        ((sel_id s1 = sel_id s /\ cur_site s1 = cur_site s) \/
         exists i, is_site L i /\ sel_id s1 = Some i /\ cur_site s1 = Some i)
    end
}.

Lemma dec1_same L lat X : Static L lat -> is_site L X -> same_labels L lat (dec1 lat X) /\
  (forall i, nn1 (dec1 lat X) i = if i =? X then Z.max 0 (nn1 lat X - 1) else nn1 lat i) /\
  (forall i, nn2 (dec1 lat X) i = nn2 lat i).
Proof.
  intros St HX. destruct (set_nn_same L lat X (Z.max 0 (nn1 lat X - 1)) (nn2 lat X) St HX) as (H1 & H2 & H3).
  fold (dec1 lat X) in *. split; auto. split; auto. intros i. rewrite H3.
  destruct (Z.eqb_spec i X); [subst|]; auto.
Qed.
Lemma dec2_same L lat X : Static L lat -> is_site L X -> same_labels L lat (dec2 lat X) /\
  (forall i, nn1 (dec2 lat X) i = nn1 lat i) /\
  (forall i, nn2 (dec2 lat X) i = if i =? X then Z.max 0 (nn2 lat X - 1) else nn2 lat i).
Proof.
  intros St HX. destruct (set_nn_same L lat X (nn1 lat X) (Z.max 0 (nn2 lat X - 1)) St HX) as (H1 & H2 & H3).
  fold (dec2 lat X) in *. split; auto. split; auto. intros i. rewrite H2.
  destruct (Z.eqb_spec i X); [subst|]; auto.
Qed.

Lemma Forall_upd {A} (P : A -> Prop) l k v : Forall P l -> P v -> Forall P (upd l k v).
Proof.
  intros H Hv. revert k. induction H; intros k; [constructor|].
  destruct k; cbn [upd]; constructor; auto.
Qed.

Lemma sel_spec E L s : SelHyp L s -> (is_L12 (kind s) = false -> max_iter s = zlen (ids s)) ->
  Selected L s (fst (sel E L s)) (snd (sel E L s)).
Proof.
  intros [St Hl Hc Hu Hn] Hm. pose proof (st_pos _ _ St) as HL.
  assert (Hrefl : same_labels L (lat s) (lat s)) by (apply same_labels_refl; auto).
  assert (Hkeep : forall r, match r with Ok SUCESS => False | _ => True end -> Selected L s s r).
  { intros r Hr. constructor; auto; [lia|]. destruct r as [[]|]; try tauto; auto. }
  unfold sel.
  assert (Hbase : is_L12 (kind s) = false -> Selected L s (fst (sel_base s)) (snd (sel_base s))).
  { intros Hk. specialize (Hm Hk). unfold sel_base.
    destruct (Z.leb_spec (max_iter s) (cur_idx s)); [now apply Hkeep|].
    assert (Hr : 0 <= cur_idx s < zlen (ids s)) by lia.
    assert (Hx : is_site L (at_ 0 (ids s) (cur_idx s)))
      by (eapply Forall_forall; [exact Hl|now apply at_In]).
    cbv zeta. destruct (Z.eqb_spec (sg (lat s) (at_ 0 (ids s) (cur_idx s))) (-1)) as [e|e].
    - cbn [fst snd]. constructor; try reflexivity; auto.
      + cbn [cur_idx choose aim set_occ_count set_cur_site set_sel_id set_cur_idx]. lia.
      + exists (at_ 0 (ids s) (cur_idx s)). repeat split; auto; apply Hx.
    - cbn [fst snd]. constructor; try reflexivity; auto.
      split; [reflexivity|]. right. exists (at_ 0 (ids s) (cur_idx s)). auto. }
  assert (Hin : zlen (ids s) <=? cur_idx s = false -> 0 <= cur_idx s < zlen (ids s)) by lia.
  assert (HX : zlen (ids s) <=? cur_idx s = false -> is_site L (candX E s)).
  { intros H. apply candX_site; auto. }
  set (X := candX E s) in *.
  assert (Hdrop : zlen (ids s) <=? cur_idx s = false -> forall s3,
    ids s3 = ids s -> cur_idx s3 = cur_idx s -> Selected L s s3 (Ok CURRENT_SITE_NOT_EMPTY) ->
    Selected L s (dropped (rndi E s) s3) (Ok CURRENT_SITE_NOT_EMPTY)).
  { intros Hlt s3 Ei Ec [C1 C2 C3 C4 C5 C6 C8 C7]. specialize (Hin Hlt).
    assert (Hs3 : is_site L (at_ 0 (ids s) (cur_idx s)))
      by (eapply Forall_forall; [exact Hl|now apply at_In]).
    constructor; auto.
    - unfold dropped. cbn [ids set_cur_idx mutate_ids rebind_ids]. now rewrite zlen_upd.
    - unfold dropped. cbn [ids set_cur_idx mutate_ids rebind_ids]. apply Forall_upd; auto.
      now rewrite Ei, Ec.
    - unfold dropped. cbn [cur_idx set_cur_idx]. lia. }
  destruct (kind s) eqn:Ek; auto.
  - (* L1 *)
    unfold sel1. destruct (Z.leb_spec (L * L) (cur_idx s)); [now apply Hkeep|].
    destruct (zlen (ids s) <=? cur_idx s) eqn:Elt; [now apply Hkeep|].
    specialize (HX eq_refl). specialize (Hdrop eq_refl). fold X. cbv zeta.
    destruct (occb_spec (lat s) X) as [HoX|HoX].
    + set (Y := nbr L X (dirk E (S (tick s)))). assert (HY : is_site L Y) by (now apply nbr_site).
      destruct (occb_spec (lat s) Y) as [HoY|HoY]; cbn [fst snd].
      * destruct (dec1_same L (lat s) X St HX) as (D1 & D2 & D3).
        match goal with |- Selected _ _ (if _ then dropped _ ?s3 else _) _ => assert (H3 : Selected L s s3 (Ok CURRENT_SITE_NOT_EMPTY)) end.
        { constructor; try reflexivity; auto.
          - intros i Hi. cbn [lat set_lat]. rewrite D2, D3. split; [|now apply Hn].
            destruct (i =? X); [lia|now apply Hn]. }
        destruct (nn1 (dec1 (lat s) X) X =? 0); [apply Hdrop|]; auto.
      * constructor; try reflexivity; auto.
        -- exists Y. split; auto. 
    + cbn [fst snd]. constructor; try reflexivity; auto.
      * exists X. split; auto.
  - (* L2 *)
    unfold sel2. destruct (Z.leb_spec (L * L) (cur_idx s)); [now apply Hkeep|].
    destruct (zlen (ids s) <=? cur_idx s) eqn:Elt; [now apply Hkeep|].
    specialize (HX eq_refl). specialize (Hdrop eq_refl). fold X. cbv zeta.
    destruct (dec1_same L (lat s) X St HX) as (D1 & D2 & D3).
    destruct (occb_spec (lat s) X) as [HoX|HoX].
    + set (Y := nbr L X (dirk E (S (tick s)))). assert (HY : is_site L Y) by (now apply nbr_site).
      destruct (occb_spec (lat s) Y) as [HoY|HoY]; [|cbn [fst snd]].
      * assert (HZ : is_site L (second L X Y)) by (now apply at_rc_site).
        assert (Hnn1 : forall i, is_site L i -> 0 <= nn1 (dec1 (lat s) X) i /\ 0 <= nn2 (dec1 (lat s) X) i).
        { intros i Hi. rewrite D2, D3. split; [|now apply Hn].
          destruct (i =? X); [lia|now apply Hn]. }
        destruct (occb_spec (lat s) (second L X Y)) as [HoZ|HoZ]; cbn [fst snd].
        -- destruct (dec2_same L (dec1 (lat s) X) X (proj1 D1) HX) as (F1 & F2 & F3).
           match goal with |- Selected _ _ (if _ then dropped _ ?s4 else _) _ => assert (H4 : Selected L s s4 (Ok CURRENT_SITE_NOT_EMPTY)) end.
           { constructor; try reflexivity; auto.
             - cbn [lat set_lat]. eapply same_labels_trans; eauto.
             - intros i Hi. cbn [lat set_lat]. rewrite F2, F3. split; [now apply Hnn1|].
               destruct (i =? X); [lia|now apply Hnn1]. }
           destruct (nn2 (dec2 (dec1 (lat s) X) X) X =? 0); [apply Hdrop|]; auto.
        -- constructor; try reflexivity; auto.
           ++ exists (second L X Y). split; auto.
      * constructor; try reflexivity; auto.
        -- exists Y. split; auto.
    + cbn [fst snd]. constructor; try reflexivity; auto.
      * exists X. split; auto.
Qed.

(** ** Counting bonds by label *)
Lemma bsize_count L lat p c : ClOK L lat p -> is_label L c ->
  bsize p c = count (fun b => bg lat b =? c) (zrange (2 * (L * L))).
Proof.
  intros H Hc. destruct (pk_bonds _ _ _ _ (ck_pool _ _ _ H) c Hc) as [N I]; auto.
  apply count_list; auto. intros b. rewrite I, Z.eqb_eq. reflexivity.
Qed.
Lemma ssize_count L lat p c : ClOK L lat p -> is_label L c ->
  ssize p c = count (fun b => sg lat b =? c) (zrange (L * L)).
Proof.
  intros H Hc. destruct (pk_sites _ _ _ _ (ck_pool _ _ _ H) c Hc) as [N I]; auto.
  apply count_list; auto. intros b. rewrite I, Z.eqb_eq. reflexivity.
Qed.

(** ** Placement *)
Definition fterm (L n : Z) : fexpr :=
  FMul (FDiv (FZ n) (FZ (2 * (L * L)))) (FLog (FDiv (FZ n) (FZ (2 * (L * L))))).

Definition core2 (s : perc) : perc :=
  set_sel_flag None (set_ent (FZ 0) (set_largest 0 0 (set_pool empty_pool (set_lat dlat s)))).

Record Placed (E : env) (L : Z) (s : perc) (x : Z) (s' : perc) (root : Z) : Prop := mkPlaced {
  pd_site : is_site L x;
  pd_un : sg (lat s) x = -1;
  pd_flag : sel_flag s' = Some SUCESS;
  pd_core : core2 s' = core2 s;
  pd_cl : ClOK L (lat s') (pool s');
  pd_root : In root (nb_labels L x (lat s));
  pd_wroot : after_wrap s = true -> In (wid s) (nb_labels L x (lat s)) -> root = wid s;
  pd_bg : forall b, is_bond L b -> bg (lat s') b =
    if zmem (bg (lat s) b) (nb_labels L x (lat s)) then root else bg (lat s) b;
  pd_sg : forall i, is_site L i -> sg (lat s') i =
    if (i =? x) || zmem (sg (lat s) i) (nb_labels L x (lat s)) then root else sg (lat s) i;
  pd_shift : forall i j, is_site L i -> is_site L j -> i <> x -> j <> x -> occ (lat s) i ->
    sg (lat s) i = sg (lat s) j ->
    vsub (rl (lat s') j) (rl (lat s') i) = vsub (rl (lat s) j) (rl (lat s) i);
  pd_link : forall d, In (bond_dir L x d) (firsts (bg (lat s)) (bonds_of L x)) -> occ (lat s) (nbr L x d) ->
    rl (lat s') (nbr L x d) = vadd (rl (lat s') x) (corr L x (nbr L x d));
  pd_nn : forall i, nn1 (lat s') i = nn1 (lat s) i /\ nn2 (lat s') i = nn2 (lat s) i;
  pd_big : if largest_sz s <? bsize (pool s') root
           then largest_sz s' = bsize (pool s') root /\ largest_id s' = root
           else largest_sz s' = largest_sz s /\ largest_id s' = largest_id s;
  pd_ent : ent s' = FSub (FAdd (ent s)
      (fold_left (fun h g => FAdd h (fterm L (bsize (pool s) g))) (e_ord E (nb_labels L x (lat s))) (FZ 0)))
      (fterm L (bsize (pool s') root));
  pd_pick : let gids := e_ord E (map (bg (lat s)) (firsts (bg (lat s)) (bonds_of L x))) in
    root_loop (pool s) (after_wrap s) (wid s) gids gids 0 (hd 0 gids) = Ok root;
  pd_keep : forall i, is_site L i -> i <> x -> ~ In (sg (lat s) i) (nb_labels L x (lat s)) \/ sg (lat s) i = root ->
    rl (lat s') i = rl (lat s) i;
  pd_alone : (forall i, is_site L i -> sg (lat s) i <> root) -> rl (lat s') x = (0, 0)
}.

Lemma upd_same {A} (d : A) l k : upd l k (nth k l d) = l.
Proof.
  revert k; induction l as [|a l IH]; intros k; [reflexivity|].
  destruct k; cbn [upd nth]; [reflexivity|]. now rewrite IH.
Qed.
Lemma upd_site_same lat x : 0 <= x -> upd_site lat x (site_at lat x) = lat.
Proof.
  intros Hx. unfold upd_site, site_at, at_. replace (0 <=? x) with true by lia.
  rewrite upd_same. destruct lat; reflexivity.
Qed.

Lemma get_bsize L lat p c : ClOK L lat p -> is_label L c -> get_cluster_bond_count p c = Ok (bsize p c).
Proof.
  intros H Hc. unfold get_cluster_bond_count. rewrite (lget_in dcluster).
  - reflexivity.
  - rewrite (pk_len _ _ _ _ (ck_pool _ _ _ H)). exact Hc.
Qed.
Lemma get_ssize L lat p c : ClOK L lat p -> is_label L c -> get_cluster_site_count p c = Ok (ssize p c).
Proof.
  intros H Hc. unfold get_cluster_site_count. rewrite (lget_in dcluster).
  - reflexivity.
  - rewrite (pk_len _ _ _ _ (ck_pool _ _ _ H)). exact Hc.
Qed.
Lemma bsize_nonneg p c : 0 <= bsize p c.
Proof. apply zlen_nonneg. Qed.
Lemma bsize_pos L lat p b : ClOK L lat p -> is_bond L b -> 0 < bsize p (bg lat b).
Proof.
  intros H Hb. pose proof (ck_blab _ _ _ H b Hb) as Hc. rewrite (bsize_count L lat) by auto.
  assert (1 <= count (fun b' => bg lat b' =? bg lat b) (zrange (2 * (L * L)))).
  { apply (count_pos _ _ b); [now apply In_zrange|apply Z.eqb_refl]. }
  lia.
Qed.

Lemma nb_label_bond L x lat g : 0 < L -> is_site L x -> In g (nb_labels L x lat) ->
  exists b, is_bond L b /\ In b (bonds_of L x) /\ g = bg lat b.
Proof.
  intros HL Hx Hg. apply in_map_iff in Hg as (b & <- & Hb). exists b. split; auto.
  apply In_bonds_of in Hb as (d & ->). now apply bond_dir_bond.
Qed.

Lemma log_ratio_ok a b : 0 < a -> 0 < b -> log_ratio a b = Ok (FLog (FDiv (FZ a) (FZ b))).
Proof.
  intros Ha Hb. unfold log_ratio, int_div. destruct (Z.eqb_spec b 0); [lia|]. cbn [rbind].
  destruct (Z.ltb_spec 0 (a * b)); [reflexivity|nia].
Qed.
Lemma int_div_ok a b : b <> 0 -> int_div a b = Ok (FDiv (FZ a) (FZ b)).
Proof. intros H. unfold int_div. destruct (Z.eqb_spec b 0); [lia|reflexivity]. Qed.

Lemma entropy_subtract_ok E L lat p x : env_ok E -> ClOK L lat p -> is_site L x ->
  entropy_subtract_amount E lat p x =
  Ok (fold_left (fun h g => FAdd h (fterm L (bsize p g))) (e_ord E (nb_labels L x lat)) (FZ 0)).
Proof.
  intros HE C Hx. pose proof (ck_static _ _ _ C) as St. pose proof (st_pos _ _ St) as HL.
  unfold entropy_subtract_amount. rewrite (get_neighbor_bonds_ok L) by auto. cbn [rbind].
  rewrite (mapM_total _ (bg lat)).
  2:{ intros b Hb. apply (get_bond_gid_ok L); auto. apply In_bonds_of in Hb as (d & ->). now apply bond_dir_bond. }
  cbn [rbind]. fold (nb_labels L x lat).
  assert (Hf : filter (fun g => negb (g =? -1)) (nb_labels L x lat) = nb_labels L x lat).
  { assert (Hall : forall g, In g (nb_labels L x lat) -> negb (g =? -1) = true).
    { intros g Hg. destruct (nb_label_bond L x lat g HL Hx Hg) as (b & Hb & _ & ->).
      pose proof (ck_blab _ _ _ C b Hb) as H. unfold is_label in H. lia. }
    induction (nb_labels L x lat) as [|g l IH]; [reflexivity|]. cbn [filter].
    rewrite Hall by (simpl; auto). f_equal. apply IH. intros; apply Hall; simpl; auto. }
  rewrite Hf. apply foldM_total. intros h g Hg. apply (proj2 (HE (nb_labels L x lat))) in Hg.
  destruct (nb_label_bond L x lat g HL Hx Hg) as (b & Hb & _ & ->).
  rewrite (get_bsize L lat) by (auto; now apply (ck_blab _ _ _ C)). cbn [rbind].
  pose proof (bsize_pos L lat p b C Hb). pose proof (LL_pos L HL).
  destruct (Z.eqb_spec (bsize p (bg lat b)) 0); [lia|].
  rewrite (st_bc _ _ St). rewrite int_div_ok by lia. cbn [rbind].
  rewrite log_ratio_ok by lia. reflexivity.
Qed.

Lemma place_after_select E L s1 x : env_ok E -> ClOK L (lat s1) (pool s1) -> is_site L x ->
  sg (lat s1) x = -1 -> sel_id s1 = Some x -> cur_site s1 = Some x ->
  forall s, select_site E s = (s1, Ok SUCESS) ->
  exists s' root, place_one_site E s = (s', Ok true) /\ Placed E L s1 x s' root.
Proof.
  intros HE C Hx Hun Hsel Hcur s Es. pose proof (ck_static _ _ _ C) as St. pose proof (st_pos _ _ St) as HL.
  unfold place_one_site. rewrite (mbind_ok _ _ _ s1 SUCESS) by auto.
  unfold mbind at 1, modify. unfold mbind at 1, get.
  set (s2 := set_sel_flag (Some SUCESS) s1).
  rewrite (mbind_ok _ _ _ s2 x) by (change (sel_id s2) with (sel_id s1); rewrite Hsel; reflexivity).
  rewrite (mbind_ok _ _ _ s2 x) by (change (cur_site s2) with (cur_site s1); rewrite Hcur; reflexivity).
  change (lat s2) with (lat s1). change (pool s2) with (pool s1).
  rewrite (mbind_lift _ _ _ (lat s1)).
  2:{ unfold lat_init_relative_index. rewrite (lat_set_relative_index_ok L) by auto. f_equal.
      replace (site_set_rel (site_at (lat s1) x) (0, 0)) with (site_at (lat s1) x).
      - apply upd_site_same. unfold is_site in Hx; lia.
      - assert (Hr : rl (lat s1) x = (0, 0)).
        { apply (ck_unocc _ _ _ C); auto. unfold occ. lia. }
        unfold rl in Hr. destruct (site_at (lat s1) x). cbn in *. now rewrite Hr. }
  unfold mbind at 1, modify.
  rewrite (mbind_lift _ _ _ (site_at (lat s1) x)) by (now apply (get_site_by_id_ok L)).
  cbv zeta.
  rewrite (mbind_lift _ _ _ _ (entropy_subtract_ok E L (lat s1) (pool s1) x HE C Hx)).
  unfold mbind at 1, modify. unfold mbind at 1, get.
  destruct (st_site _ _ St x Hx) as (-> & _ & ->).
  match goal with |- context [lift (merge_clusters_v2 E (lat s1) (pool ?s3) x x (after_wrap ?s3) (wid ?s3) _)] =>
    set (s3' := s3); change (pool s3') with (pool s1); change (after_wrap s3') with (after_wrap s1);
    change (wid s3') with (wid s1) end.
  destruct (merge_ok E L x (lat s1) (pool s1) HE C Hx Hun (after_wrap s1) (wid s1))
    as (lat' & p' & root & Em & C' & Hr & Hw & Hb & Hs & Hsh & Hnn & Hlk & Hpk & Hkp & Hal).
  rewrite (mbind_lift _ _ _ _ Em). unfold mbind at 1, modify.
  assert (Hrl : is_label L root).
  { destruct (nb_label_bond L x (lat s1) root HL Hx Hr) as (b & Hbb & _ & ->). now apply (ck_blab _ _ _ C). }
  set (s4 := set_pool p' (set_lat lat' s3')).
  assert (Hpos : 0 < bsize p' root).
  { destruct (nb_label_bond L x (lat s1) root HL Hx Hr) as (b & Hbb & _ & Eb).
    assert (bg lat' b = root).
    { rewrite Hb by auto. rewrite <- Eb. now rewrite (proj2 (zmem_In _ _) Hr). }
    rewrite <- H. now apply (bsize_pos L lat' p' b). }
  pose proof (LL_pos L HL) as HLL.
  assert (Htr : track_largest_cluster root s4 =
    (if largest_sz s1 <? bsize p' root then set_largest (bsize p' root) root s4 else s4, Ok tt)).
  { unfold track_largest_cluster. unfold mbind at 1, get.
    rewrite (mbind_lift _ _ _ (bsize p' root)) by (now apply (get_bsize L lat')).
    change (largest_sz s4) with (largest_sz s1). destruct (largest_sz s1 <? bsize p' root); reflexivity. }
  rewrite (mbind_ok _ _ _ _ _ Htr).
  assert (Hea : forall e, entropy_add_value lat' p' root e = Ok (FSub e (fterm L (bsize p' root)))).
  { intros e. unfold entropy_add_value. rewrite (get_bsize L lat') by auto. cbn [rbind].
    rewrite (st_bc _ _ (ck_static _ _ _ C')). rewrite int_div_ok by lia. cbn [rbind].
    rewrite log_ratio_ok by lia. reflexivity. }
  set (s5 := if largest_sz s1 <? bsize p' root then _ else _).
  assert (E5 : lat s5 = lat' /\ pool s5 = p' /\ ent s5 = ent s4).
  { unfold s5. destruct (largest_sz s1 <? bsize p' root); auto. }
  destruct E5 as (El5 & Ep5 & Ee5).
  unfold mbind at 1, get. rewrite El5, Ep5.
  rewrite (mbind_lift _ _ _ _ (Hea _)). unfold mbind, modify, ret.
  eexists. exists root. split; [reflexivity|].
  constructor; try (rewrite ?lat_set_ent; auto; fail).
  - unfold s5. destruct (largest_sz s1 <? bsize p' root); reflexivity.
  - unfold s5. destruct (largest_sz s1 <? bsize p' root); reflexivity.
  - cbn [lat pool set_ent]. now rewrite El5, Ep5.
  - cbn [lat pool set_ent]. now rewrite El5.
  - cbn [lat pool set_ent]. now rewrite El5.
  - cbn [lat pool set_ent]. now rewrite El5.
  - cbn [lat pool set_ent]. now rewrite El5.
  - intros i. unfold nn1, nn2. cbn [lat pool set_ent]. rewrite El5. apply Hnn.
  - cbn [pool set_ent largest_sz largest_id]. rewrite Ep5. unfold s5.
    destruct (largest_sz s1 <? bsize p' root); auto.
  - cbn [pool set_ent ent]. rewrite Ep5, Ee5. reflexivity.
  - cbn [lat pool set_ent]. now rewrite El5.
  - cbn [lat pool set_ent]. now rewrite El5.
Qed.

Lemma ClOK_same L a b p : ClOK L a p -> same_labels L a b -> ClOK L b p.
Proof.
  intros [c1 c2 c3 c4 c5 c6 c7 c8 c9 c10] (St1 & Eb & Elab).
  assert (Hbg : forall i, bg b i = bg a i) by (intros; eapply same_labels_bg; split; eauto).
  assert (Hsg : forall i, sg b i = sg a i) by (intros; apply Elab).
  assert (Hrl : forall i, rl b i = rl a i) by (intros; apply Elab).
  assert (Hoc : forall i, occ b i <-> occ a i) by (intros; unfold occ; rewrite Hsg; reflexivity).
  constructor; auto.
  - intros e He. rewrite Hbg. auto.
  - intros i Hi. rewrite Hsg. auto.
  - destruct c4 as [k1 k2 k3 k4 k5]. constructor; auto.
    + intros c Hc Hd. destruct (k3 c Hc Hd) as [K1 K2]. split; auto. intros e. rewrite Hbg. auto.
    + intros c Hc Hd. destruct (k4 c Hc Hd) as [K1 K2]. split; auto. intros e. rewrite Hsg. auto.
  - intros i d Hi Ho. rewrite Hbg, Hsg. apply c5; auto. now apply Hoc.
  - intros e e' He He'. rewrite !Hbg, !Hoc. auto.
  - intros i j Hi Hj Ho Eij. rewrite !Hsg in Eij. apply Hoc in Ho.
    destruct (c7 i j Hi Hj Ho Eij) as (ds & W & D). exists ds. rewrite !Hrl. split; auto.
    eapply walk_mono; [|exact W]. intros; now apply Hoc.
  - intros i Hi Ho. rewrite Hrl. apply c8; auto. now rewrite <- Hoc.
  - intros i d Hi Ho Hn. destruct (c9 i d Hi) as (d' & F1 & F2); [now apply Hoc..|].
    exists d'. rewrite Hoc, !Hrl. auto.
  - intros H2 i j Hi Hj Ho Eij. rewrite !Hrl. apply c10; auto; [now apply Hoc|]. now rewrite <- !Hsg.
Qed.

Theorem place_spec E L s : env_ok E -> Inv L s ->
  Selected L s (fst (sel E L s)) (snd (sel E L s)) /\
  match sel E L s with
  | (s1, Ok SUCESS) => exists x s' root, sel_id s1 = Some x /\ cur_site s1 = Some x /\
      place_one_site E s = (s', Ok true) /\ Placed E L s1 x s' root
  | (s1, Ok CURRENT_SITE_NOT_EMPTY) =>
      place_one_site E s = (set_sel_flag (Some CURRENT_SITE_NOT_EMPTY) s1, Ok true)
  | (s1, Ok EMPTY_SITE_LIST) =>
      place_one_site E s = (set_sel_flag (Some EMPTY_SITE_LIST) s1, Ok false)
  | (s1, Err e) => place_one_site E s = (s1, Err e)
  end.
Proof.
  intros HE H. pose proof (inv_selhyp _ _ H) as SH. pose proof (i_mi _ _ H) as Hm.
  pose proof (select_ok E L s SH Hm) as Es. pose proof (sel_spec E L s SH Hm) as Sd.
  split; auto. destruct (sel E L s) as [s1 r] eqn:Er. cbn [fst snd] in Sd.
  destruct r as [[]|e].
  - pose proof (sd_res _ _ _ _ Sd) as (x & Hx & Hun & E1 & E2 & E3).
    pose proof (sd_lab _ _ _ _ Sd) as (St1 & Eb & Elab).
    assert (C1 : ClOK L (lat s1) (pool s1)).
    { assert (Ep : pool s1 = pool s).
      { pose proof (sd_core _ _ _ _ Sd) as Ec. apply (f_equal pool) in Ec. exact Ec. }
      rewrite Ep. eapply ClOK_same; [apply (i_cl _ _ H)|apply (sd_lab _ _ _ _ Sd)]. }
    destruct (place_after_select E L s1 x HE C1 Hx) with (s := s) as (s' & root & Ep & Pd); auto.
    { rewrite (proj1 (Elab x)). auto. }
    exists x, s', root. auto.
  - unfold place_one_site. rewrite (mbind_ok _ _ _ s1 CURRENT_SITE_NOT_EMPTY) by auto. reflexivity.
  - unfold place_one_site. rewrite (mbind_ok _ _ _ s1 EMPTY_SITE_LIST) by auto. reflexivity.
  - unfold place_one_site. rewrite (mbind_err _ _ _ s1 e) by auto. reflexivity.
Qed.
