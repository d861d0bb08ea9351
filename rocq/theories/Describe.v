(** * Describe: the reported values as functions of the placed sites (C93). *)
From Coq Require Import ZArith List Bool Lia Permutation Reals Lra.
From Verif Require Import Py Lattice Cluster Perc Spec PyFacts Torus Geometry LatFacts Inv Merge Count Fresh Select State Step History Reach Micro StateProps StateProps2 Wrap Critical Real Entropy Drive SymSpec.
Import ListNotations.
Open Scope Z_scope.

(** ** Counting *)
Lemma counts_count (P : Z -> Prop) f n : (forall i, P i <-> 0 <= i < n /\ f i = true) -> counts P (count f (zrange n)).
Proof.
  intros H. exists (filter f (zrange n)). split; [apply NoDup_filter, NoDup_zrange|]. split; [|reflexivity].
  intros i. rewrite filter_In, In_zrange, H. tauto.
Qed.
Lemma counts_iff (P Q : Z -> Prop) n : (forall i, P i <-> Q i) -> counts P n -> counts Q n.
Proof. intros H (l & N & I & E). exists l. split; auto. split; auto. intros i. now rewrite I. Qed.
Lemma counts_fun P n m : counts P n -> counts P m -> n = m.
Proof.
  intros (l & N & I & ->) (k & N' & I' & ->). f_equal. apply Permutation_length, NoDup_Permutation; auto.
  intros i. now rewrite I, I'.
Qed.
Lemma counts_nonneg P n : counts P n -> 0 <= n.
Proof. intros (l & _ & _ & ->). lia. Qed.

(** ** The occupied sites are the placed ones *)
Definition Dx (L : Z) (xs : list Z) (s : perc) : Prop :=
  Inv L s /\ NoDup xs /\ forall i, In i xs <-> is_site L i /\ occ (lat s) i.

Lemma dx_count L xs s : Dx L xs s -> occ_count s = zlen xs.
Proof.
  intros (H & N & I). rewrite (i_occ _ _ H). unfold nocc. symmetry. apply count_list; auto. intros x. rewrite I, occb_true. reflexivity.
Qed.
Lemma dx_conn L xs s i j : Dx L xs s -> (connected L (occ (lat s)) i j <-> connected L (among xs) i j).
Proof. intros (_ & _ & I). apply connected_iff. intros k Hk. unfold among. rewrite I. tauto. Qed.
Lemma dx_joined L xs s b b' : Dx L xs s -> (bonds_joined L (occ (lat s)) b b' <-> bonds_joined L (among xs) b b').
Proof.
  intros D. unfold bonds_joined. split; (intros [?|(i & j & T1 & T2 & C)]; [auto|right; exists i, j; split; auto; split; auto; now apply (dx_conn L xs s)]).
Qed.
Lemma dx_wraps L xs s : Dx L xs s -> (wraps L (occ (lat s)) <-> wraps L (among xs)).
Proof. intros (_ & _ & I). split; apply wraps_mono; intros i Hi; unfold among; rewrite I; tauto. Qed.
Lemma dx_sites_with L xs s x i : Dx L xs s -> In x xs -> is_site L i -> (sg (lat s) i = sg (lat s) x <-> sites_with L xs x i).
Proof.
  intros D Hx Hi. pose proof D as (H & N & I). apply I in Hx as (Sx & Ox). pose proof (i_cl _ _ H) as C. unfold sites_with. split.
  - intros E. split; auto. apply (dx_conn L xs s); auto. apply (label_connected L (lat s) (pool s)); auto. unfold occ in *. now rewrite E.
  - intros (_ & W). apply (dx_conn L xs s) in W; auto. pose proof W as (ds & W'). destruct (walk_sites _ _ _ _ _ W') as (_ & _ & _ & Oi).
    symmetry. now apply (label_connected L (lat s) (pool s)).
Qed.
Lemma dx_bonds_with L xs s x b : Dx L xs s -> In x xs -> is_bond L b -> (bg (lat s) b = sg (lat s) x <-> bonds_with L xs x b).
Proof.
  intros D Hx Hb. pose proof D as (H & N & I). apply I in Hx as (Sx & Ox). pose proof (i_cl _ _ H) as C. unfold bonds_with.
  pose proof (i_pos _ _ H) as HL.
  assert (T : forall i, touches L b i -> is_site L i).
  { intros i [->| ->]; [now apply end1_site|now apply end2_site]. }
  split.
  - intros E. split; auto. rewrite <- (ck_own _ _ _ C x DRight Sx Ox) in E.
    apply (bond_label_joined L (lat s) (pool s)) in E; auto; [|now apply bond_dir_bond].
    destruct E as [->|(i & j & T1 & T2 & W)].
    + exists x. split; [|apply (dx_conn L xs s); auto; now apply connected_refl].
      apply (bonds_of_touches L HL); auto; apply In_bonds_of; now exists DRight.
    + exists i. split; auto. pose proof W as (ds & W'). destruct (walk_sites _ _ _ _ _ W') as (Si & Sj & Oi & Oj).
      apply (dx_conn L xs s); auto. apply (label_connected L (lat s) (pool s)); auto.
      rewrite <- (ck_own _ _ _ C x DRight Sx Ox). rewrite (own_label L (lat s) (pool s) _ j C); auto; [|now apply bond_dir_bond].
      symmetry. now apply (label_connected L (lat s) (pool s)).
  - intros (_ & i & T1 & W). apply (dx_conn L xs s) in W; auto. pose proof W as (ds & W').
    destruct (walk_sites _ _ _ _ _ W') as (_ & Si & _ & Oi). rewrite (own_label L (lat s) (pool s) b i C); auto.
    symmetry. now apply (label_connected L (lat s) (pool s)).
Qed.

(** ** Entropy as a sum over bonds *)
Lemma rsum_add f g l : rsum (fun x => (f x + g x)%R) l = (rsum f l + rsum g l)%R.
Proof. induction l as [|a l IH]; [cbn; lra|]. rewrite !rsum_cons, IH. lra. Qed.
Lemma rsum_pick (g : Z -> R) a K : NoDup K -> In a K -> rsum (fun c => if a =? c then g c else 0%R) K = g a.
Proof.
  induction K as [|k K IH]; intros N Hi; [destruct Hi|]. inversion N as [|? ? Hk N']; subst. rewrite rsum_cons. destruct (Z.eqb_spec a k) as [->|Hn].
  - rewrite (rsum_0 _ K); [lra|]. intros c Hc. destruct (Z.eqb_spec k c); [subst; tauto|reflexivity].
  - rewrite IH; auto; [lra|]. destruct Hi; [congruence|auto].
Qed.
Lemma rsum_group (g : Z -> R) (h : Z -> Z) l K : NoDup K -> (forall b, In b l -> In (h b) K) ->
  rsum (fun b => g (h b)) l = rsum (fun c => (IZR (count (fun b => h b =? c) l) * g c)%R) K.
Proof.
  intros N. induction l as [|a l IH]; intros H.
  - cbn [rsum fold_right]. symmetry. apply rsum_0. intros. rewrite count_nil. lra.
  - rewrite rsum_cons, IH by (intros; apply H; now right).
    rewrite <- (rsum_pick g (h a) K) at 1 by (auto; apply H; now left). rewrite <- rsum_add. apply rsum_ext. intros c Hc.
    rewrite count_cons, plus_IZR. destruct (h a =? c); lra.
Qed.

Lemma described_dx L xs s : Dx L xs s -> feval (entropy_v2 s) = shannon L s -> described L xs s.
Proof.
  intros D He. pose proof D as (H & N & I). pose proof (i_cl _ _ H) as C. pose proof (i_static _ _ H) as St. pose proof (i_pos _ _ H) as HL.
  pose proof (LL_pos L HL) as HLL. pose proof (dx_count _ _ _ D) as Hn.
  assert (Size : forall b, is_bond L b -> counts (bonds_like L xs b) (bsize (pool s) (bg (lat s) b))).
  { intros b Hb. rewrite (bsize_count L (lat s)) by (auto; now apply (ck_blab _ _ _ C)). apply counts_count. intros b'.
    unfold bonds_like. rewrite <- (dx_joined L xs s), Z.eqb_eq by auto. unfold is_bond at 1. split.
    - intros (Hb' & J). split; auto. symmetry. now apply (bond_label_joined L (lat s) (pool s)).
    - intros (Hb' & E). split; auto. apply (bond_label_joined L (lat s) (pool s)); auto. }
  constructor; auto.
  - intros i Hi. now apply I.
  - intros i Hi. rewrite (occupied_occ L), I by auto. tauto.
  - unfold occupation_prob. rewrite Hn, (st_sc _ _ St). apply int_div_ok. lia.
  - intros i j Hi Hj. apply I in Hi, Hj. rewrite !(site_label_sg L) by tauto.
    rewrite (label_connected L (lat s) (pool s)) by tauto. now apply dx_conn.
  - intros b b' Hb Hb'. rewrite !(bond_label_bg L) by auto. rewrite (bond_label_joined L (lat s) (pool s)) by auto. now apply dx_joined.
  - intros i b Hi Hb. rewrite (bond_label_bg L), (site_label_sg L) by (auto; now apply I). now apply dx_bonds_with.
  - intros ->. apply (i_big0 _ _ H). rewrite Hn. reflexivity.
  - intros Hne. assert (Hpos : 0 < occ_count s) by (rewrite Hn; destruct xs; [congruence|unfold zlen; cbn [length]; lia]).
    destruct (i_big _ _ H Hpos) as (B1 & B2 & B3). split.
    + assert (Hc : 0 < bsize (pool s) (largest_id s)).
      { destruct xs as [|x xs']; [congruence|]. destruct (proj1 (I x) (or_introl eq_refl)) as (Sx & Ox).
        pose proof (sg_occ_label L _ _ x C Sx Ox) as Lx. pose proof (B3 _ Lx) as Q.
        assert (0 < bsize (pool s) (sg (lat s) x)); [|unfold largest_cluster in *; lia].
        rewrite (bsize_count L (lat s)) by auto. apply Z.lt_le_trans with 1; [lia|]. apply (count_pos _ _ (bond_dir L x DRight)).
        - apply In_zrange. now apply (bond_dir_bond L HL).
        - apply Z.eqb_eq. now apply (ck_own _ _ _ C). }
      pose proof Hc as Hc'. rewrite (bsize_count L (lat s)) in Hc' by auto. apply count_ex in Hc' as (b & Hb & Eb). apply In_zrange in Hb. apply Z.eqb_eq in Eb.
      exists b. split; auto. unfold largest_cluster. rewrite <- B2, <- Eb. now apply Size.
    + intros b n Hb Cn. rewrite (counts_fun _ _ _ Cn (Size b Hb)). apply B3. now apply (ck_blab _ _ _ C).
  - unfold order_param_largest_clstr. rewrite (st_bc _ _ St). apply int_div_ok. lia.
  - exists (fun b => bsize (pool s) (bg (lat s) b)). split; auto. rewrite He, shannon_hh by auto. unfold hh. f_equal.
    rewrite (rsum_group (fun c => (/ IZR (2 * (L * L)) * ln (IZR (bsize (pool s) c) / IZR (2 * (L * L))))%R) (bg (lat s)) _ (zrange (2 * (L * L)))).
    + apply rsum_ext. intros c Hc. apply In_zrange in Hc. rewrite <- (bsize_count L _ _ _ C Hc). unfold phi, Rdiv. lra.
    + apply NoDup_zrange.
    + intros b Hb. apply In_zrange in Hb. apply In_zrange. now apply (ck_blab _ _ _ C).
Qed.

(** ** One placement *)
Definition note (xs : list Z) (e : event) : list Z := match e with EPlace x => xs ++ [x] | ECheck _ => xs | EClear => [] end.
Definition add (xs : list Z) (evs : list event) : list Z := fold_left note evs xs.

Lemma place_dx E L xs s : env_ok E -> Dx L xs s ->
  let s1 := fst (place_one_site E s) in
  Dx L (add xs (event_of E s CPlace)) s1 /\ after_wrap s1 = after_wrap s /\
  ((exists x, event_of E s CPlace = [EPlace x] /\ sel_id s1 = Some x /\ occ (lat s1) x) \/
   (event_of E s CPlace = [] /\ (flag_is_success s1 = false \/ snd (place_one_site E s) <> Ok true))).
Proof.
  intros HE D s1. pose proof D as (H & N & I). pose proof (place_inv E L s HE H) as H1. fold s1 in H1.
  assert (Id : forall t, (forall i, is_site L i -> sg (lat t) i = sg (lat s) i) -> Inv L t -> Dx L xs t).
  { intros t Hl Ht. split; auto. split; auto. intros i. rewrite I. unfold occ. split; intros (A & B); split; auto; rewrite Hl in *; auto. }
  destruct (place_spec E L s HE H) as (Sd & P). unfold s1 in *. cbn [event_of]. destruct (sel E L s) as [t r]. cbn [fst snd] in *.
  destruct (core_fields _ _ (sd_core _ _ _ _ Sd)) as (_ & _ & _ & _ & _ & _ & _ & _ & _ & Ew & _).
  assert (Sl : forall i, is_site L i -> sg (lat t) i = sg (lat s) i).
  { intros i _. destruct (sd_lab _ _ _ _ Sd) as (_ & _ & Hl). apply Hl. }
  destruct r as [[]|e].
  - destruct P as (x & s' & root & E1 & E2 & Ep & Pd). rewrite Ep in *. cbn [fst snd] in *.
    pose proof (selected_ClOK _ _ _ _ (i_cl _ _ H) Sd) as C1. pose proof (pd_site _ _ _ _ _ _ Pd) as Sx.
    destruct (core2_fields _ _ (pd_core _ _ _ _ _ _ Pd)) as (_ & _ & _ & _ & _ & _ & _ & Es & _ & _ & Ew' & _).
    unfold flag_is_success in *. rewrite (pd_flag _ _ _ _ _ _ Pd), Es, E1 in *. cbn [add fold_left note] in *.
    assert (O : forall i, is_site L i -> (occ (lat s') i <-> i = x \/ occ (lat s) i)).
    { intros i Hi. rewrite (pd_occ_iff E L t x s' root C1 Pd) by auto. unfold occ. now rewrite Sl. }
    split; [|split; [congruence|left; exists x; split; auto; split; auto; apply O; auto]].
    split; auto. split.
    + apply NoDup_app_disjoint; auto; [repeat constructor; intros []|]. intros y Hy [<-|[]]. apply I in Hy as (_ & Oy).
      pose proof (pd_un _ _ _ _ _ _ Pd) as U. unfold occ in Oy. rewrite <- Sl in Oy by auto. lia.
    + intros i. rewrite in_app_iff, I. cbn [In]. split.
      * intros [(A & B)|[<-|[]]]; (split; [auto|apply O; auto]).
      * intros (A & B). apply O in B as [->|B]; auto.
  - rewrite P in *. cbn [fst snd] in *. split; [|split; [exact Ew|right; split; [reflexivity|left; reflexivity]]]. apply Id; auto.
  - rewrite P in *. cbn [fst snd] in *. split; [|split; [exact Ew|right; split; [reflexivity|left; reflexivity]]]. apply Id; auto.
  - rewrite P in *. cbn [fst snd] in *. split; [|split; [exact Ew|right; split; [reflexivity|right; discriminate]]]. apply Id; auto.
Qed.
Lemma detect_lat L s : Inv L s -> lat (fst (detect_wrapping s)) = lat s /\ entropy_v2 (fst (detect_wrapping s)) = entropy_v2 s.
Proof.
  intros H. rewrite (detect_ok L) by apply H. unfold detect_res. destruct (after_wrap s); auto. destruct (sel_id s) as [x|]; auto.
  destruct (hitb L (lat s) x); auto.
Qed.
Lemma detect_dx L xs s : Dx L xs s -> Dx L xs (fst (detect_wrapping s)).
Proof.
  intros (H & N & I). split; [now apply detect_inv|]. split; auto. now rewrite (proj1 (detect_lat L s H)).
Qed.
Lemma exec_dx E L xs s c : env_ok E -> call_ok L c -> stepwise c -> Dx L xs s -> Dx L (add xs (event_of E s c)) (exec E s c).
Proof.
  intros HE Hc Hs D. pose proof D as (H & N & I). pose proof (exec_inv E L s c HE Hc H) as H'.
  assert (Ph : forall t, phys t = phys s -> Inv L t -> Dx L xs t).
  { intros t Hp Ht. destruct (phys_fields _ _ Hp) as (_ & _ & El & _). split; auto. split; auto. now rewrite El. }
  destruct c; cbn [exec stepwise] in *; try contradiction.
  - now apply place_dx.
  - assert (Q : add xs (event_of E s CDetect) = xs) by (cbn [event_of]; destruct (sel_id s); reflexivity). rewrite Q. now apply detect_dx.
  - cbn [event_of add fold_left note]. split; auto. split; [constructor|]. destruct (reset_inv E L s H) as (s' & Es & R). rewrite Es in *. cbn [fst] in *.
    pose proof (i_occ _ _ H') as Q. rewrite (fs_occ _ _ (rt_fresh _ _ _ R)) in Q. intros i. split; [intros []|]. intros (Hi & Ho).
    pose proof (count_zero _ _ (eq_sym Q) i ltac:(now apply In_zrange)) as Z. apply occb_true in Ho. congruence.
  - apply Ph; auto. apply set_ids_phys.
  - apply Ph; auto. apply set_indices_phys.
  - apply Ph; auto. apply swap_phys.
Qed.
Lemma after_dx E L cs : env_ok E -> forall xs s, Forall (call_ok L) cs -> Forall stepwise cs -> Dx L xs s ->
  Dx L (add xs (events E s cs)) (after E s cs).
Proof.
  intros HE. induction cs as [|c cs IH]; intros xs s Hc Hs D; [exact D|]. inversion Hc; inversion Hs; subst.
  cbn [events after fold_left]. unfold add. rewrite fold_left_app. apply IH; auto. now apply exec_dx.
Qed.

(** ** The first loop *)
Definition Hx (L : Z) (xs : list Z) (s : perc) : Prop := after_wrap s = true -> exists ys x,
  first_loop L xs ys x /\ sg (lat s) x = wid s /\ pc_occ s = zlen (ys ++ [x]) /\
  exists ns nb, pc_sites s = Some ns /\ pc_bonds s = Some nb /\
    counts (sites_with L (ys ++ [x]) x) ns /\ counts (bonds_with L (ys ++ [x]) x) nb.

Lemma first_loop_more L xs ys x zs : first_loop L xs ys x -> first_loop L (xs ++ zs) ys x.
Proof. intros ((w & ->) & A & B). split; [|split; auto]. exists (w ++ zs). now rewrite <- app_assoc. Qed.
Lemma hx_keeps L xs zs a b : Dx L xs a -> Keeps L a b -> after_wrap a = true -> Hx L xs a -> Hx L (xs ++ zs) b.
Proof.
  intros D K Hw X _. destruct (X Hw) as (ys & x & F & E1 & E2 & ns & nb & E3 & E4 & C1 & C2).
  destruct (kp_wrap _ _ _ K Hw) as (_ & W2 & W3 & W4 & W5 & W6 & _). exists ys, x. split; [now apply first_loop_more|].
  split. { rewrite W2. apply W6; auto. destruct D as (_ & _ & I). apply I. destruct F as ((w & ->) & _). apply in_app_iff. right. now left. }
  split; [congruence|]. exists ns, nb. repeat split; congruence || auto.
Qed.
Lemma advance_hx E L xs s : env_ok E -> 3 <= L -> Dx L xs s -> PcI L s -> Hx L xs s ->
  let s1 := fst (place_one_site E s) in
  Hx L (add (add xs (event_of E s CPlace)) (event_of E s1 CDetect)) (fst (detect_wrapping s1)).
Proof.
  intros HE H3 D P X s1. pose proof D as (H & N & I). destruct (place_dx E L xs s HE D) as (D1 & Ew & R). fold s1 in D1, Ew, R.
  pose proof (proj1 D1) as H1. pose proof (keeps_steps E L s _ H (place_steps E L s HE H)) as K. fold s1 in K.
  assert (Q : forall zs, add zs (event_of E s1 CDetect) = zs) by (intros zs; cbn [event_of]; destruct (sel_id s1); reflexivity). rewrite Q.
  destruct (after_wrap s) eqn:Hw.
  - assert (Ed : fst (detect_wrapping s1) = s1) by (rewrite (detect_ok L) by apply H1; unfold detect_res; now rewrite Ew). rewrite Ed.
    destruct R as [(x & Ev & _)|(Ev & _)]; rewrite Ev; cbn [add fold_left note]; [now apply (hx_keeps L xs [x] s)|].
    rewrite <- (app_nil_r xs). now apply (hx_keeps L xs [] s).
  - destruct R as [(x & Ev & Es & Ox)|(Ev & R)]; rewrite Ev in *; cbn [add fold_left note] in *.
    + pose proof (detect_inv L s1 H1) as H2. intros Hw2. pose proof (i_wrap _ _ H2) as W. unfold WrapOK in W. rewrite Hw2 in W.
      rewrite (detect_ok L) in * by apply H1. unfold detect_res in *. rewrite Ew, Es in *.
      destruct (hitb L (lat s1) x); cbn [fst] in *; [|congruence].
      destruct W as (_ & Wl & (i & _ & Wi) & _). pose proof (i_cl _ _ H1) as C.
      assert (Ix : In x (xs ++ [x])) by (apply in_app_iff; right; now left).
      exists xs, x. split; [split; [now exists []|split]|].
      * rewrite <- (dx_wraps L xs s D). apply (flat_no_wrap L). now apply P.
      * rewrite <- (dx_wraps L _ s1 D1). exists i. revert Wi. apply wraps_at_mono. intros j Hj Ej. cbn in Ej, Wl. unfold occ, is_label in *. lia.
      * cbn [wrapped wid set_wrap lat pc_occ pc_sites pc_bonds]. split; [reflexivity|]. split; [now apply (dx_count L)|].
        exists (ssize (pool s1) (sg (lat s1) x)), (bsize (pool s1) (sg (lat s1) x)). split; [reflexivity|]. split; [reflexivity|].
        assert (Sx : is_site L x) by now apply D1. pose proof (sg_occ_label L _ _ x C Sx Ox) as Lx. split.
        -- rewrite (ssize_count L (lat s1)) by auto. apply counts_count. intros j. rewrite Z.eqb_eq. fold (is_site L j). split.
           ++ intros S. split; [apply S|]. apply (dx_sites_with L (xs ++ [x]) s1); auto. apply S.
           ++ intros (Hj & Ej). now apply (dx_sites_with L (xs ++ [x]) s1).
        -- rewrite (bsize_count L (lat s1)) by auto. apply counts_count. intros j. rewrite Z.eqb_eq. fold (is_bond L j). split.
           ++ intros S. split; [apply S|]. apply (dx_bonds_with L (xs ++ [x]) s1); auto. apply S.
           ++ intros (Hj & Ej). now apply (dx_bonds_with L (xs ++ [x]) s1).
    + assert (T1 : Tr L s1) by (apply (tr_place E L s HE); auto; split; auto).
      assert (Ed : fst (detect_wrapping s1) = s1).
      { destruct (sel_id s1) as [y|] eqn:Es; [now rewrite (idle_detect L s1 y)|].
        rewrite (detect_ok L) by apply H1. unfold detect_res. now rewrite Ew, Es. }
      rewrite Ed. intros Hw1. congruence.
Qed.
Lemma exec_hx E L xs s c : env_ok E -> 3 <= L -> call_ok L c -> stepwise c -> c <> CPlace -> Dx L xs s -> PcI L s -> Hx L xs s ->
  Hx L (add xs (event_of E s c)) (exec E s c).
Proof.
  intros HE H3 Hc Hs Hn D P X. pose proof D as (H & N & I).
  assert (Ph : forall t, phys t = phys s -> Hx L xs t).
  { intros t Hp. pose proof (keeps_phys L s t Hp) as K. destruct (phys_fields _ _ Hp) as (_ & _ & El & _ & _ & _ & _ & _ & _ & _ & _ & _ & Ew & _).
    intros Hw. revert Hw. rewrite <- (app_nil_r xs). intros Hw. apply (hx_keeps L xs [] s t); auto. congruence. }
  destruct c; cbn [exec stepwise] in *; try contradiction; try congruence.
  - assert (Q : add xs (event_of E s CDetect) = xs) by (cbn [event_of]; destruct (sel_id s); reflexivity). rewrite Q.
    assert (T1 : Tr L s) by (split; auto).
    destruct (sel_id s) as [y|] eqn:Es; [now rewrite (idle_detect L s y)|].
    rewrite (detect_ok L) by apply H. unfold detect_res. rewrite Es. destruct (after_wrap s) eqn:Hw; exact X.
  - intros Hw. destruct (reset_inv E L s H) as (s' & Es & R). rewrite Es in Hw. cbn [fst] in Hw.
    pose proof (proj1 (fs_wrap _ _ (rt_fresh _ _ _ R))). congruence.
  - apply Ph. apply set_ids_phys.
  - apply Ph. apply set_indices_phys.
  - apply Ph. apply swap_phys.
Qed.
Lemma after_hx E L cs : env_ok E -> 3 <= L -> tracked cs -> forall xs s, Forall (call_ok L) cs -> Forall stepwise cs ->
  Dx L xs s -> PcI L s -> Hx L xs s -> Hx L (add xs (events E s cs)) (after E s cs).
Proof.
  intros HE H3 T. induction T as [|cs T IH|c cs Hc T IH]; intros xs s Ho Hs D P X; auto.
  - inversion Ho as [|? ? _ Ho']; subst. inversion Ho' as [|? ? _ Ho'']; subst. inversion Hs as [|? ? _ Hs']; subst. inversion Hs' as [|? ? _ Hs'']; subst.
    cbn [events after fold_left]. unfold add. rewrite !fold_left_app. apply IH; auto.
    + apply (exec_dx E L); cbn; auto. apply (exec_dx E L xs s CPlace); cbn; auto.
    + cbn [exec]. apply detect_pc; auto. now apply place_pcP.
    + now apply (advance_hx E L xs s).
  - inversion Ho; subst. inversion Hs; subst. cbn [events after fold_left]. unfold add. rewrite fold_left_app. apply IH; auto.
    + now apply exec_dx.
    + now apply exec_pc.
    + now apply exec_hx.
Qed.

Lemma prefix_cases {A} (a a' : list A) x x' b b' : a ++ x :: b = a' ++ x' :: b' ->
  (a = a' /\ x = x') \/ (exists c, a' = a ++ x :: c) \/ (exists c, a = a' ++ x' :: c).
Proof.
  revert a'. induction a as [|u a IH]; intros [|v a'] Q; cbn [app] in *.
  - injection Q as -> _. auto.
  - injection Q as -> Q. right. left. now exists a'.
  - injection Q as -> Q. right. right. now exists a.
  - injection Q as -> Q. destruct (IH a' Q) as [(-> & ->)|[(c & ->)|(c & ->)]]; eauto.
Qed.
Lemma first_loop_unique L xs ys x ys' x' : first_loop L xs ys x -> first_loop L xs ys' x' -> ys = ys' /\ x = x'.
Proof.
  intros ((zs & ->) & N & W) ((zs' & E) & N' & W'). destruct (prefix_cases _ _ _ _ _ _ E) as [Q|[(c & ->)|(c & ->)]]; auto; exfalso.
  - apply N'. revert W. apply wraps_mono. intros i _. unfold among. rewrite !in_app_iff. cbn [In]. tauto.
  - apply N. revert W'. apply wraps_mono. intros i _. unfold among. rewrite !in_app_iff. cbn [In]. tauto.
Qed.
Lemma loop_dx L xs s : 3 <= L -> Dx L xs s -> PcI L s -> Hx L xs s -> loop_described L xs s.
Proof.
  intros H3 D P X. pose proof D as (H & N & I). pose proof (i_static _ _ H) as St. pose proof (i_pos _ _ H) as HL. pose proof (LL_pos L HL) as HLL.
  assert (Wr : after_wrap s = true <-> wraps L (among xs)).
  { rewrite <- (dx_wraps L xs s D). split.
    - intros Hw. rewrite <- (wraps_iff L s H). destruct (wrap_sound L s H Hw) as (i & Hi & Ei & Wi). exists i. revert Wi. apply wraps_at_mono.
      intros j Hj Ej. pose proof (wrap_label L s H Hw) as Hl. unfold occupied. rewrite Ej. unfold is_label in Hl. lia.
    - intros W. destruct (after_wrap s) eqn:Hw; auto. exfalso. revert W. apply (flat_no_wrap L). now apply P. }
  constructor; auto.
  - intros Hw. destruct (X Hw) as (ys & x & F & _). eauto.
  - intros Hw. pose proof (i_wrap _ _ H) as W. unfold WrapOK in W. rewrite Hw in W. destruct W as (W1 & W2 & W3 & W4).
    unfold get_pc, order_param_wrapping, get_site_count_wrapping_cluster_pc, get_bond_count_wrapping_cluster_pc. rewrite Hw, W3, W4. auto.
  - intros ys x F.
    assert (Hw : after_wrap s = true).
    { apply Wr. destruct F as ((zs & ->) & _ & W). revert W. apply wraps_mono. intros i _. unfold among. rewrite !in_app_iff. cbn [In]. tauto. }
    destruct (X Hw) as (ys' & x' & F' & E1 & E2 & ns & nb & E3 & E4 & C1 & C2).
    destruct (first_loop_unique _ _ _ _ _ _ F F') as (-> & ->).
    assert (Ix : In x' xs) by (destruct F' as ((w & ->) & _); apply in_app_iff; right; now left).
    split; [|split; [|split; [|split; [|split]]]].
    + unfold get_pc. rewrite Hw, (st_sc _ _ St), E2. apply int_div_ok. lia.
    + unfold get_site_count_wrapping_cluster_pc. now rewrite E3.
    + unfold get_bond_count_wrapping_cluster_pc. now rewrite E4.
    + intros i Hi. rewrite (site_label_sg L), <- E1 by auto. now apply dx_sites_with.
    + intros b Hb. rewrite (bond_label_bg L), <- E1 by auto. now apply dx_bonds_with.
    + exists (bsize (pool s) (wid s)). pose proof (wrap_label L s H Hw) as Hl. split.
      * rewrite (bsize_count L (lat s)) by (auto; apply (i_cl _ _ H)). apply counts_count. intros j. rewrite Z.eqb_eq, <- E1. fold (is_bond L j). split.
        -- intros S. split; [apply S|]. apply (dx_bonds_with L xs s); auto. apply S.
        -- intros (Hj & Ej). now apply (dx_bonds_with L xs s).
      * unfold order_param_wrapping. rewrite Hw, (get_bsize L (lat s)) by (auto; apply (i_cl _ _ H)). cbn [rbind]. rewrite (st_bc _ _ St). apply int_div_ok. lia.
Qed.

Lemma stepwise_dx E k L t0 s0 cs : env_ok E -> new_perc E k L t0 = Ok s0 -> Forall (call_ok L) cs -> Forall stepwise cs ->
  let xs := placed_order (events E s0 cs) in
  let s := after E s0 cs in
  Dx L xs s /\ (3 <= L -> tracked cs -> loop_described L xs s).
Proof.
  intros HE E0 Hc Hs xs s. assert (F0 : FreshState L s0) by (eapply new_perc_fresh; eauto).
  assert (D0 : Dx L [] s0).
  { pose proof (fresh_inv _ _ F0) as H. split; auto. split; [constructor|]. pose proof (i_occ _ _ H) as Q. rewrite (fs_occ _ _ F0) in Q.
    intros i. split; [intros []|]. intros (Hi & Ho). pose proof (count_zero _ _ (eq_sym Q) i ltac:(now apply In_zrange)) as Z. apply occb_true in Ho. congruence. }
  pose proof (after_dx E L cs HE [] s0 Hc Hs D0) as D. change (add [] (events E s0 cs)) with xs in D. fold s in D. split; auto.
  intros H3 T. assert (HR : reachable_tracked E L s) by (exists k, t0, s0, cs; auto). apply loop_dx; auto.
  - now apply (reachable_tracked_pc E).
  - apply (after_hx E L cs HE H3 T [] s0); auto.
    + assert (HR0 : reachable_tracked E L s0) by (exists k, t0, s0, []; repeat split; auto; constructor). now apply (reachable_tracked_pc E).
    + intros Hw. pose proof (proj1 (fs_wrap _ _ F0)). congruence.
Qed.
Lemma p_C93 E k L t0 s0 cs : env_ok E -> new_perc E k L t0 = Ok s0 -> Forall (call_ok L) cs -> Forall stepwise cs ->
  let xs := placed_order (events E s0 cs) in
  let s := after E s0 cs in
  described L xs s /\ (3 <= L -> tracked cs -> loop_described L xs s).
Proof.
  intros HE E0 Hc Hs xs s. destruct (stepwise_dx E k L t0 s0 cs HE E0 Hc Hs) as (D & G). split; auto.
  apply described_dx; auto. apply (p_C17 E L s HE). exists k, t0, s0, cs. auto.
Qed.

(** ** Histories with whole runs *)
Section Runs.
Variables (E : env) (L : Z).
Hypothesis HE : env_ok E.
Definition Known (s : perc) : Prop := exists xs, Dx L xs s /\ (3 <= L -> PcI L s /\ Hx L xs s).
Definition Half (s1 : perc) : Prop := exists s, Known s /\ s1 = fst (place_one_site E s).
Lemma known_phys s t : phys t = phys s -> Inv L t -> Known s -> Known t.
Proof.
  intros Hp Ht (xs & D & X). pose proof (keeps_phys L s t Hp) as K.
  destruct (phys_fields _ _ Hp) as (_ & _ & El & _ & _ & _ & _ & _ & _ & _ & _ & _ & Ew & _). exists xs. split.
  - destruct D as (_ & N & I). split; auto. split; auto. now rewrite El.
  - intros H3. destruct (X H3) as (P & Y). split; [now apply (phys_pc L s)|]. intros Hw. revert Hw. rewrite <- (app_nil_r xs). intros Hw.
    apply (hx_keeps L xs [] s t); auto. congruence.
Qed.
Lemma known_place s : Known s ->
  match place_one_site E s with
  | (s', Ok true) => if flag_is_success s' then Half s' else Known s'
  | (s', _) => Known s'
  end.
Proof.
  intros K. assert (Hf : Half (fst (place_one_site E s))) by (exists s; auto).
  assert (G : flag_is_success (fst (place_one_site E s)) = false \/ snd (place_one_site E s) <> Ok true -> Known (fst (place_one_site E s))).
  { intros Hn. destruct K as (xs & D & X). destruct (place_dx E L xs s HE D) as (D1 & Ew & R). exists (add xs (event_of E s CPlace)). split; auto.
    intros H3. destruct (X H3) as (P & Y). split.
    - assert (T : Tr L s) by (split; [apply D|auto]). destruct (tr_place E L s HE T) as (T1 & _). now apply T1.
    - intros Hw. assert (Hw0 : after_wrap s = true) by congruence.
      pose proof (keeps_steps E L s _ (proj1 D) (place_steps E L s HE (proj1 D))) as Kp.
      destruct R as [(x & Ev & _)|(Ev & _)]; rewrite Ev in *; cbn [add fold_left note] in *.
      + exact (hx_keeps L xs [x] s _ D Kp Hw0 Y Hw).
      + rewrite <- (app_nil_r xs). exact (hx_keeps L xs [] s _ D Kp Hw0 Y Hw). }
  destruct (place_one_site E s) as [s' [[]|e]]; cbn [fst snd] in *; auto.
  - destruct (flag_is_success s'); auto.
  - apply G. right. discriminate.
  - apply G. right. discriminate.
Qed.
Lemma known_detect s1 : Half s1 -> Known (fst (detect_wrapping s1)).
Proof.
  intros (s & (xs & D & X) & ->). exists (add (add xs (event_of E s CPlace)) (event_of E (fst (place_one_site E s)) CDetect)). split.
  - apply (exec_dx E L _ (fst (place_one_site E s)) CDetect); cbn; auto. now apply place_dx.
  - intros H3. destruct (X H3) as (P & Y). split; [apply detect_pc; auto; now apply place_pcP|]. now apply advance_hx.
Qed.
Lemma known_exec s c : call_ok L c -> c <> CPlace -> Known s -> Known (exec E s c).
Proof.
  intros Hc Hn K. assert (A : stepwise c -> Known (exec E s c)).
  { intros Hs. destruct K as (xs & D & X). exists (add xs (event_of E s c)). split; [now apply exec_dx|]. intros H3. destruct (X H3) as (P & Y).
    split; [now apply exec_pc|now apply exec_hx]. }
  assert (Fr : forall a b, phys b = phys a -> (Inv L a -> Inv L b) -> Known a -> Known b).
  { intros a b Hp Hi Ka. apply (known_phys a b); auto. destruct Ka as (xs & (H & _) & _). auto. }
  destruct c; try (apply A; exact I); cbn [exec].
  - apply (run_once_pres E Known Half); auto.
    + exact known_place.
    + exact known_detect.
    + intros a p h pw pl. apply Fr; [reflexivity|]. now apply inv_frame.
    + intros a b. apply Fr; [reflexivity|]. now apply inv_frame.
    + intros a b. apply Fr; [reflexivity|]. now apply inv_frame.
  - apply (test_run_once_pres E Known Half); auto.
    + exact known_place.
    + exact known_detect.
    + intros a p h pw pl. apply Fr; [reflexivity|]. now apply inv_frame.
    + intros a b. apply Fr; [reflexivity|]. now apply inv_frame.
Qed.
Lemma known_after cs : tracked cs -> forall s, Forall (call_ok L) cs -> Known s -> Known (after E s cs).
Proof.
  intros T. induction T as [|cs T IH|c cs Hc T IH]; intros s Ho K; auto.
  - inversion Ho as [|? ? _ Ho']; subst. inversion Ho' as [|? ? _ Ho'']; subst. cbn [after fold_left exec]. apply IH; auto.
    apply known_detect. exists s. auto.
  - inversion Ho; subst. cbn [after fold_left]. apply IH; auto. now apply known_exec.
Qed.
End Runs.
Lemma known_new E k L t0 s0 : env_ok E -> new_perc E k L t0 = Ok s0 -> Known L s0.
Proof.
  intros HE E0. assert (F0 : FreshState L s0) by (eapply new_perc_fresh; eauto). exists []. split.
  - pose proof (fresh_inv _ _ F0) as H. split; auto. split; [constructor|]. pose proof (i_occ _ _ H) as Q. rewrite (fs_occ _ _ F0) in Q.
    intros i. split; [intros []|]. intros (Hi & Ho). pose proof (count_zero _ _ (eq_sym Q) i ltac:(now apply In_zrange)) as Z. apply occb_true in Ho. congruence.
  - intros H3. split; [apply (fresh_tr L s0 F0); auto|]. intros Hw. pose proof (proj1 (fs_wrap _ _ F0)). congruence.
Qed.
Lemma p_C93_runs E L s : env_ok E -> reachable E L s ->
  (exists xs, described L xs s) /\
  (3 <= L -> reachable_tracked E L s -> exists xs, described L xs s /\ loop_described L xs s).
Proof.
  intros HE HR. pose proof (proj1 (p_C17 E L s HE HR)) as He. split.
  - pose proof (reachable_inv _ _ _ HE HR) as H. exists (filter (occb (lat s)) (zrange (L * L))). apply described_dx; auto.
    split; auto. split; [apply NoDup_filter, NoDup_zrange|]. intros i. rewrite filter_In, In_zrange, occb_true. reflexivity.
  - intros H3 (k & t0 & s0 & cs & E0 & Ho & T & ->).
    destruct (known_after E L HE cs T s0 Ho (known_new E k L t0 s0 HE E0)) as (xs & D & X). destruct (X H3) as (P & Y).
    exists xs. split; [now apply described_dx|now apply loop_dx].
Qed.
