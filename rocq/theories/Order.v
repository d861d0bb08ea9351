(** * Order: two objects that occupied the same sites in the same order agree on
    everything physical, whatever labels their clusters carry. *)
From Coq Require Import ZArith List Bool Lia Permutation Reals Lra.
From Verif Require Import Py Lattice Cluster Perc Spec PyFacts Torus Geometry LatFacts Inv Merge Count Fresh Select State Step History Reach Micro StateProps StateProps2 RunBase RunProps Cand CandRun Normal Real Entropy.
Import ListNotations.
Open Scope Z_scope.

(** ** First representatives *)
Lemma firsts_snoc f l x : firsts f (l ++ [x]) = if zmem (f x) (map f (firsts f l)) then firsts f l else firsts f l ++ [x].
Proof. unfold firsts. rewrite fold_left_app. reflexivity. Qed.
Lemma firsts_in f l b : In b (firsts f l) -> In b l.
Proof.
  induction l as [|x l IH] using rev_ind; [auto|]. rewrite firsts_snoc, in_app_iff. destruct (zmem _ _); [auto|].
  rewrite in_app_iff. intros [H|H]; auto.
Qed.
Lemma firsts_cov f l b : In b l -> In (f b) (map f (firsts f l)).
Proof.
  induction l as [|x l IH] using rev_ind; [intros []|]. rewrite firsts_snoc, in_app_iff. intros H.
  destruct (zmem (f x) (map f (firsts f l))) eqn:Em.
  - destruct H as [H|[<-|[]]]; auto. now apply zmem_In.
  - rewrite map_app, in_app_iff. destruct H as [H|[<-|[]]]; [auto|right; now left].
Qed.
Lemma firsts_nodup f l : NoDup (map f (firsts f l)).
Proof.
  induction l as [|x l IH] using rev_ind; [constructor|]. rewrite firsts_snoc. destruct (zmem (f x) (map f (firsts f l))) eqn:Em; auto.
  rewrite map_app. apply NoDup_app_disjoint; auto; [constructor; [intros []|constructor]|].
  intros y Hy [<-|[]]. apply zmem_In in Hy. congruence.
Qed.
Lemma firsts_ext f g l : (forall a b, In a l -> In b l -> (f a = f b <-> g a = g b)) -> firsts f l = firsts g l.
Proof.
  induction l as [|x l IH] using rev_ind; intros H; [reflexivity|]. rewrite !firsts_snoc, IH.
  2:{ intros a b Ha Hb. apply H; rewrite in_app_iff; auto. }
  assert (E : zmem (f x) (map f (firsts g l)) = zmem (g x) (map g (firsts g l))); [|now rewrite E].
  apply eq_true_iff_eq. rewrite !zmem_In, !in_map_iff.
  assert (G : forall a, In a (firsts g l) -> (f a = f x <-> g a = g x)).
  { intros a Ha. apply H; rewrite in_app_iff; [left; now apply firsts_in in Ha|right; now left]. }
  split; intros (a & Ea & Ha); exists a; (split; [now apply G|auto]).
Qed.

(** ** The relation *)
Record PhySim (L : Z) (s t : perc) : Prop := mkPS {
  ps_occ : forall i, is_site L i -> (occ (lat s) i <-> occ (lat t) i);
  ps_bb : forall b b', is_bond L b -> is_bond L b' -> (bg (lat s) b = bg (lat s) b' <-> bg (lat t) b = bg (lat t) b');
  ps_rel : forall i j, is_site L i -> is_site L j -> occ (lat s) i -> sg (lat s) i = sg (lat s) j ->
    vsub (rl (lat s) j) (rl (lat s) i) = vsub (rl (lat t) j) (rl (lat t) i);
  ps_wid : after_wrap s = true -> forall b, is_bond L b -> (bg (lat s) b = wid s <-> bg (lat t) b = wid t);
  ps_n : occ_count s = occ_count t;
  ps_big : largest_sz s = largest_sz t;
  ps_aw : after_wrap s = after_wrap t;
  ps_pco : pc_occ s = pc_occ t;
  ps_pcb : pc_bonds s = pc_bonds t;
  ps_pcs : pc_sites s = pc_sites t;
  ps_ent : feval (ent s) = feval (ent t)
}.

Lemma PhySim_frame L s t s' t' : PhySim L s t -> phys s' = phys s -> phys t' = phys t -> PhySim L s' t'.
Proof.
  intros [P1 P2 P3 P4 P5 P6 P7 P8 P9 P10 P11] Es Et.
  destruct (phys_fields _ _ Es) as (_ & _ & A1 & A2 & A3 & _ & _ & A4 & _ & A5 & _ & _ & A6 & A7 & A8 & A9).
  destruct (phys_fields _ _ Et) as (_ & _ & B1 & B2 & B3 & _ & _ & B4 & _ & B5 & _ & _ & B6 & B7 & B8 & B9).
  constructor; rewrite ?A1, ?A2, ?A3, ?A4, ?A5, ?A6, ?A7, ?A8, ?A9, ?B1, ?B2, ?B3, ?B4, ?B5, ?B6, ?B7, ?B8, ?B9; auto.
Qed.
Lemma PhySim_fresh L s t : FreshState L s -> FreshState L t -> PhySim L s t.
Proof.
  intros F G. destruct (fs_wrap _ _ F) as (A1 & A2 & A3 & A4 & A5). destruct (fs_wrap _ _ G) as (B1 & B2 & B3 & B4 & B5).
  rewrite <- (fresh_unique L _ _ (fs_lat _ _ F) (fs_lat _ _ G)) || idtac.
  pose proof (fresh_unique L _ _ (fs_lat _ _ F) (fs_lat _ _ G)) as El.
  constructor; rewrite <- ?El; try congruence; try tauto.
  - rewrite (fs_occ _ _ F), (fs_occ _ _ G). reflexivity.
  - rewrite (proj1 (fs_big _ _ F)), (proj1 (fs_big _ _ G)). reflexivity.
  - rewrite (fs_ent _ _ F), (fs_ent _ _ G). reflexivity.
Qed.

Section Facts.
Variables (L : Z) (s t : perc).
Hypothesis CS : ClOK L (lat s) (pool s).
Hypothesis CT : ClOK L (lat t) (pool t).
Hypothesis P : PhySim L s t.
Let HL : 0 < L := st_pos _ _ (ck_static _ _ _ CS).

Lemma sim_sb i b : is_site L i -> is_bond L b -> occ (lat s) i -> (bg (lat s) b = sg (lat s) i <-> bg (lat t) b = sg (lat t) i).
Proof.
  intros Hi Hb Ho. rewrite <- (ck_own _ _ _ CS i DRight Hi Ho), <- (ck_own _ _ _ CT i DRight Hi (proj1 (ps_occ _ _ _ P i Hi) Ho)).
  apply (ps_bb _ _ _ P); auto. now apply bond_dir_bond.
Qed.
Lemma sim_sg i j : is_site L i -> is_site L j -> occ (lat s) i -> (sg (lat s) i = sg (lat s) j <-> sg (lat t) i = sg (lat t) j).
Proof.
  intros Hi Hj Ho. pose proof (proj1 (ps_occ _ _ _ P i Hi) Ho) as Ho'.
  destruct (occ_dec (lat s) j) as [Hoj|Hoj].
  - pose proof (proj1 (ps_occ _ _ _ P j Hj) Hoj) as Hoj'.
    rewrite <- (ck_own _ _ _ CS i DRight), <- (ck_own _ _ _ CS j DRight), <- (ck_own _ _ _ CT i DRight), <- (ck_own _ _ _ CT j DRight) by auto.
    apply (ps_bb _ _ _ P); now apply bond_dir_bond.
  - assert (Hoj' : ~ occ (lat t) j) by (rewrite <- (ps_occ _ _ _ P j Hj); auto). unfold occ in *. split; intros E; exfalso; rewrite E in *; auto.
Qed.
Lemma sim_occb i : is_site L i -> occb (lat s) i = occb (lat t) i.
Proof. intros Hi. apply eq_true_iff_eq. rewrite !occb_true. now apply (ps_occ _ _ _ P). Qed.
Lemma sim_un i : is_site L i -> (sg (lat s) i =? -1) = (sg (lat t) i =? -1).
Proof.
  intros Hi. pose proof (ps_occ _ _ _ P i Hi) as Q. destruct (occ_dec (lat s) i) as [Ho|Ho].
  - pose proof (proj1 Q Ho) as Ho'. unfold occ in Ho, Ho'. replace (sg (lat s) i =? -1) with false by lia. now replace (sg (lat t) i =? -1) with false by lia.
  - assert (Ho' : ~ occ (lat t) i) by tauto. rewrite (sg_unocc L _ _ i CS Hi Ho), (sg_unocc L _ _ i CT Hi Ho'). reflexivity.
Qed.
Lemma sim_bsize b : is_bond L b -> bsize (pool s) (bg (lat s) b) = bsize (pool t) (bg (lat t) b).
Proof.
  intros Hb. rewrite (bsize_count L _ _ _ CS (ck_blab _ _ _ CS b Hb)), (bsize_count L _ _ _ CT (ck_blab _ _ _ CT b Hb)).
  apply count_ext. intros b' Hb'. apply In_zrange in Hb'. apply eq_true_iff_eq. rewrite !Z.eqb_eq. now apply (ps_bb _ _ _ P).
Qed.
Lemma sim_bsize_s i : is_site L i -> occ (lat s) i -> bsize (pool s) (sg (lat s) i) = bsize (pool t) (sg (lat t) i).
Proof.
  intros Hi Ho. rewrite <- (ck_own _ _ _ CS i DRight Hi Ho), <- (ck_own _ _ _ CT i DRight Hi (proj1 (ps_occ _ _ _ P i Hi) Ho)).
  apply sim_bsize. now apply bond_dir_bond.
Qed.
Lemma sim_ssize i : is_site L i -> occ (lat s) i -> ssize (pool s) (sg (lat s) i) = ssize (pool t) (sg (lat t) i).
Proof.
  intros Hi Ho. pose proof (proj1 (ps_occ _ _ _ P i Hi) Ho) as Ho'.
  rewrite (ssize_count L _ _ _ CS (sg_occ_label _ _ _ _ CS Hi Ho)), (ssize_count L _ _ _ CT (sg_occ_label _ _ _ _ CT Hi Ho')).
  apply count_ext. intros j Hj. apply In_zrange in Hj. apply eq_true_iff_eq. rewrite !Z.eqb_eq.
  pose proof (sim_sg i j Hi Hj Ho). split; intros E; symmetry; now apply H.
Qed.
Lemma sim_hitb x : is_site L x -> hitb L (lat s) x = hitb L (lat t) x.
Proof.
  intros Hx. destruct (occ_dec (lat s) x) as [Ho|Ho].
  - unfold hitb. assert (G : forall d, hit1 (lat s) x (nbr L x d) = hit1 (lat t) x (nbr L x d)); [|cbn [map existsb all_dirs]; now rewrite !G].
    intros d. pose proof (nbr_site L HL x d) as Hn. unfold hit1.
    pose proof (sim_sg x (nbr L x d) Hx Hn Ho) as Q.
    destruct (Z.eqb_spec (sg (lat s) (nbr L x d)) (sg (lat s) x)) as [e|e]; destruct (Z.eqb_spec (sg (lat t) (nbr L x d)) (sg (lat t) x)) as [e'|e']; cbn [andb]; auto.
    + pose proof (ps_rel _ _ _ P x (nbr L x d) Hx Hn Ho (eq_sym e)) as V. unfold vsub in V. injection V as V1 V2.
      f_equal; apply eq_true_iff_eq; rewrite !Z.ltb_lt; lia.
    + exfalso. apply e'. symmetry. apply Q. auto.
    + exfalso. apply e. symmetry. apply Q. auto.
  - assert (Ho' : ~ occ (lat t) x) by (rewrite <- (ps_occ _ _ _ P x Hx); auto).
    destruct (hitb L (lat s) x) eqn:E1; [exfalso; apply Ho; now apply (hitb_occ L _ _ _ CS)|].
    destruct (hitb L (lat t) x) eqn:E2; [exfalso; apply Ho'; now apply (hitb_occ L _ _ _ CT)|]. reflexivity.
Qed.
Lemma sim_wrapped x : is_site L x -> occ (lat s) x -> PhySim L (wrapped s x) (wrapped t x).
Proof.
  intros Hx Ho. pose proof P as [P1 P2 P3 P4 P5 P6 P7 P8 P9 P10 P11]. constructor; auto.
  - intros _ b Hb. now apply sim_sb.
  - cbn. f_equal. now apply sim_bsize_s.
  - cbn. f_equal. now apply sim_ssize.
Qed.
Lemma sim_K x b : is_site L x -> is_bond L b ->
  zmem (bg (lat s) b) (nb_labels L x (lat s)) = zmem (bg (lat t) b) (nb_labels L x (lat t)).
Proof.
  intros Hx Hb. apply eq_true_iff_eq. rewrite !zmem_In. unfold nb_labels. rewrite !in_map_iff.
  assert (G : forall a, In a (bonds_of L x) -> (bg (lat s) a = bg (lat s) b <-> bg (lat t) a = bg (lat t) b)).
  { intros a Ha. apply In_bonds_of in Ha as (d & ->). apply (ps_bb _ _ _ P); auto. now apply bond_dir_bond. }
  split; intros (a & Ea & Ha); exists a; (split; [now apply G|auto]).
Qed.
Lemma sim_Ks x i : is_site L x -> is_site L i -> occ (lat s) i ->
  zmem (sg (lat s) i) (nb_labels L x (lat s)) = zmem (sg (lat t) i) (nb_labels L x (lat t)).
Proof.
  intros Hx Hi Ho. rewrite <- (ck_own _ _ _ CS i DRight Hi Ho), <- (ck_own _ _ _ CT i DRight Hi (proj1 (ps_occ _ _ _ P i Hi) Ho)).
  apply sim_K; auto. now apply bond_dir_bond.
Qed.
Lemma sim_firsts x : is_site L x -> firsts (bg (lat s)) (bonds_of L x) = firsts (bg (lat t)) (bonds_of L x).
Proof.
  intros Hx. apply firsts_ext. intros a b Ha Hb. apply In_bonds_of in Ha as (d & ->). apply In_bonds_of in Hb as (d' & ->).
  apply (ps_bb _ _ _ P); now apply bond_dir_bond.
Qed.
End Facts.

(** The entropy removed with the merged clusters, as a sum over representatives. *)
Lemma ent_first E L s x : env_ok E -> 
  rsum (fun g => phi (2 * (L * L)) (bsize (pool s) g)) (e_ord E (nb_labels L x (lat s))) =
  rsum (fun b => phi (2 * (L * L)) (bsize (pool s) (bg (lat s) b))) (firsts (bg (lat s)) (bonds_of L x)).
Proof.
  intros HE. destruct (HE (nb_labels L x (lat s))) as (N & HK).
  rewrite (rsum_perm _ _ (map (bg (lat s)) (firsts (bg (lat s)) (bonds_of L x)))).
  - generalize (firsts (bg (lat s)) (bonds_of L x)). induction l as [|a l IH]; [reflexivity|]. cbn [map]. rewrite !rsum_cons. now f_equal.
  - apply NoDup_Permutation; auto; [apply firsts_nodup|]. intros g. rewrite HK. unfold nb_labels. split.
    + intros Hg. apply in_map_iff in Hg as (b & <- & Hb). now apply firsts_cov.
    + intros Hg. apply in_map_iff in Hg as (b & <- & Hb). apply in_map. now apply firsts_in in Hb.
Qed.

Lemma phys_placed E1 E2 L s t x s' t' r1 r2 : env_ok E1 -> env_ok E2 ->
  ClOK L (lat s) (pool s) -> ClOK L (lat t) (pool t) -> PhySim L s t ->
  Placed E1 L s x s' r1 -> Placed E2 L t x t' r2 -> PhySim L s' t'.
Proof.
  intros HE1 HE2 CS CT P Ps Pt. pose proof (st_pos _ _ (ck_static _ _ _ CS)) as HL.
  pose proof (pd_site _ _ _ _ _ _ Ps) as Hx.
  set (Ks := nb_labels L x (lat s)) in *. set (Kt := nb_labels L x (lat t)) in *.
  assert (Hrs : In r1 Ks) by exact (pd_root _ _ _ _ _ _ Ps). assert (Hrt : In r2 Kt) by exact (pd_root _ _ _ _ _ _ Pt).
  assert (Bs : forall b, is_bond L b -> bg (lat s') b = if zmem (bg (lat s) b) Ks then r1 else bg (lat s) b) by (intros b Hb; now apply (pd_bg _ _ _ _ _ _ Ps)).
  assert (Bt : forall b, is_bond L b -> bg (lat t') b = if zmem (bg (lat s) b) Ks then r2 else bg (lat t) b).
  { intros b Hb. rewrite (pd_bg _ _ _ _ _ _ Pt) by auto. unfold Ks. rewrite (sim_K L s t CS P) by auto. reflexivity. }
  assert (NK : forall b, is_bond L b -> zmem (bg (lat s) b) Ks = false -> bg (lat s) b <> r1 /\ bg (lat t) b <> r2).
  { intros b Hb Hz. split; intros E; [|unfold Ks in Hz; rewrite (sim_K L s t CS P) in Hz by auto; fold Kt in Hz];
    rewrite E in Hz; apply zmem_false in Hz; auto. }
  assert (Os : forall i, is_site L i -> (occ (lat s') i <-> i = x \/ occ (lat s) i)) by (intros i Hi; now apply (pd_occ_iff _ _ _ _ _ _ CS Ps)).
  assert (Ot : forall i, is_site L i -> (occ (lat t') i <-> i = x \/ occ (lat t) i)) by (intros i Hi; now apply (pd_occ_iff _ _ _ _ _ _ CT Pt)).
  pose proof (pd_un _ _ _ _ _ _ Ps) as Uxs. pose proof (pd_un _ _ _ _ _ _ Pt) as Uxt.
  destruct (core2_fields _ _ (pd_core _ _ _ _ _ _ Ps)) as (_ & _ & _ & _ & S5 & S6 & _ & _ & _ & _ & S11 & S12 & _ & S14 & S15).
  destruct (core2_fields _ _ (pd_core _ _ _ _ _ _ Pt)) as (_ & _ & _ & _ & T5 & T6 & _ & _ & _ & _ & T11 & T12 & _ & T14 & T15).
  assert (Hsz : bsize (pool s') r1 = bsize (pool t') r2).
  { rewrite (pd_bsize_root _ _ _ _ _ _ CS Ps), (pd_bsize_root _ _ _ _ _ _ CT Pt). apply count_ext. intros b Hb. apply In_zrange in Hb. now apply (sim_K L s t CS P). }
  (* displacement from the new site *)
  assert (A : forall i, is_site L i -> occ (lat s) i -> zmem (sg (lat s) i) Ks = true ->
    vsub (rl (lat s') i) (rl (lat s') x) = vsub (rl (lat t') i) (rl (lat t') x)).
  { intros i Hi Ho Hz. pose proof (proj1 (ps_occ _ _ _ P i Hi) Ho) as Ho'.
    apply zmem_In in Hz. unfold Ks, nb_labels in Hz. apply in_map_iff in Hz as (b0 & Eb0 & Hb0).
    pose proof (firsts_cov (bg (lat s)) _ _ Hb0) as Hc. apply in_map_iff in Hc as (b1 & Eb1 & Hb1).
    pose proof (firsts_in _ _ _ Hb1) as Hb1'. apply In_bonds_of in Hb1' as (d & ->).
    assert (Eg : sg (lat s) i = bg (lat s) (bond_dir L x d)) by congruence.
    assert (Hbd : is_bond L (bond_dir L x d)) by (now apply bond_dir_bond).
    assert (Eg' : sg (lat t) i = bg (lat t) (bond_dir L x d)) by (symmetry; apply (sim_sb L s t CS CT P i _ Hi Hbd Ho); auto).
    pose proof (nb_occ L x (lat s) (pool s) CS Hx Uxs d i Hi Ho Eg) as Hn.
    pose proof (nb_occ L x (lat t) (pool t) CT Hx Uxt d i Hi Ho' Eg') as Hn'.
    pose proof (nb_label L x (lat s) (pool s) CS Hx d Hn) as En. pose proof (nb_label L x (lat t) (pool t) CT Hx d Hn') as En'.
    pose proof (nbr_site L HL x d) as Hns.
    assert (Nn : nbr L x d <> x) by (intros E; rewrite E in Hn; unfold occ in Hn; lia).
    assert (Ni : i <> x) by (intros ->; unfold occ in Ho; lia).
    pose proof (pd_link _ _ _ _ _ _ Ps d Hb1 Hn) as K1.
    pose proof (pd_link _ _ _ _ _ _ Pt d ltac:(rewrite <- (sim_firsts L s t CS P x Hx); exact Hb1) Hn') as K2.
    pose proof (pd_shift _ _ _ _ _ _ Ps (nbr L x d) i Hns Hi Nn Ni Hn ltac:(congruence)) as Q1.
    pose proof (pd_shift _ _ _ _ _ _ Pt (nbr L x d) i Hns Hi Nn Ni Hn' ltac:(congruence)) as Q2.
    pose proof (ps_rel _ _ _ P (nbr L x d) i Hns Hi Hn ltac:(congruence)) as Q3.
    rewrite Q3, <- Q2 in Q1. rewrite K1, K2 in Q1. revert Q1. unfold vsub, vadd. intros [= V1 V2]. f_equal; lia. }
  assert (Ss : forall i, is_site L i -> sg (lat s') i = if (i =? x) || zmem (sg (lat s) i) Ks then r1 else sg (lat s) i) by (intros i Hi; now apply (pd_sg _ _ _ _ _ _ Ps)).
  assert (Kn : forall i, is_site L i -> zmem (sg (lat s) i) Ks = true -> occ (lat s) i).
  { intros i Hi Hz. destruct (occ_dec (lat s) i) as [|Hn]; auto. rewrite (sg_unocc L _ _ i CS Hi Hn) in Hz.
    unfold Ks in Hz. rewrite (K_neg _ _ _ _ _ _ CS Ps) in Hz. discriminate. }
  constructor.
  - intros i Hi. rewrite Os, Ot by auto. rewrite (ps_occ _ _ _ P i Hi). reflexivity.
  - intros b b' Hb Hb'. rewrite !Bs, !Bt by auto.
    destruct (zmem (bg (lat s) b) Ks) eqn:Z1; destruct (zmem (bg (lat s) b') Ks) eqn:Z2.
    + tauto.
    + destruct (NK b' Hb' Z2). split; intros; exfalso; auto.
    + destruct (NK b Hb Z1). split; intros; exfalso; auto.
    + now apply (ps_bb _ _ _ P).
  - intros i j Hi Hj Ho Ej. rewrite !Ss in Ej by auto. apply Os in Ho; auto.
    assert (M : forall k, is_site L k -> (k =? x) || zmem (sg (lat s) k) Ks = true -> vsub (rl (lat s') k) (rl (lat s') x) = vsub (rl (lat t') k) (rl (lat t') x)).
    { intros k Hk Hm. apply orb_true_iff in Hm as [Hm|Hm]; [apply Z.eqb_eq in Hm; subst; unfold vsub; now rewrite !Z.sub_diag|]. apply A; auto. }
    assert (NR : forall k, zmem (sg (lat s) k) Ks = false -> sg (lat s) k <> r1).
    { intros k Hz E. rewrite E in Hz. apply zmem_false in Hz. auto. }
    destruct ((i =? x) || zmem (sg (lat s) i) Ks) eqn:Zi; destruct ((j =? x) || zmem (sg (lat s) j) Ks) eqn:Zj.
    + pose proof (M i Hi Zi) as V. pose proof (M j Hj Zj) as W. revert V W. unfold vsub. intros [= V1 V2] [= W1 W2]. f_equal; lia.
    + apply orb_false_iff in Zj as (_ & Zj). exfalso. apply (NR j Zj). auto.
    + apply orb_false_iff in Zi as (_ & Zi). exfalso. apply (NR i Zi). auto.
    + apply orb_false_iff in Zi as (Ni & _). apply orb_false_iff in Zj as (Nj & _). apply Z.eqb_neq in Ni, Nj. destruct Ho as [Ho|Ho]; [tauto|].
      rewrite (pd_shift _ _ _ _ _ _ Ps i j) by auto.
      pose proof (proj1 (ps_occ _ _ _ P i Hi) Ho) as Ho'.
      rewrite (pd_shift _ _ _ _ _ _ Pt i j); auto; [now apply (ps_rel _ _ _ P)|]. now apply (sim_sg L s t CS CT P).
  - intros Ha b Hb. rewrite S11 in Ha. rewrite S12, T12, Bs, Bt by auto. pose proof Ha as Ha'. rewrite (ps_aw _ _ _ P) in Ha'.
    assert (W : forall b, is_bond L b -> (bg (lat s) b = wid s <-> bg (lat t) b = wid t)) by (intros; now apply (ps_wid _ _ _ P)).
    assert (Q : zmem (wid s) Ks = zmem (wid t) Kt).
    { apply eq_true_iff_eq. rewrite !zmem_In. unfold Ks, Kt, nb_labels. rewrite !in_map_iff.
      split; intros (a & Ea & Hin); exists a; (split; [|exact Hin]); apply In_bonds_of in Hin as (d & ->); apply W; auto; now apply bond_dir_bond. }
    pose proof (pd_wroot _ _ _ _ _ _ Ps Ha) as R1. pose proof (pd_wroot _ _ _ _ _ _ Pt Ha') as R2. fold Ks in R1. fold Kt in R2.
    rewrite <- !zmem_In in R1, R2. destruct (zmem (wid s) Ks) eqn:Zw.
    + rewrite (R1 eq_refl), (R2 (eq_sym Q)). destruct (zmem (bg (lat s) b) Ks) eqn:Zb; [tauto|]. now apply W.
    + symmetry in Q. apply zmem_false in Zw, Q. destruct (zmem (bg (lat s) b) Ks) eqn:Zb; [|now apply W].
      split; intros E; exfalso; [apply Zw|apply Q]; now rewrite <- E.
  - rewrite S5, T5. apply P.
  - pose proof (pd_big _ _ _ _ _ _ Ps) as G1. pose proof (pd_big _ _ _ _ _ _ Pt) as G2. rewrite Hsz, (ps_big _ _ _ P) in G1.
    destruct (largest_sz t <? bsize (pool t') r2); destruct G1 as (-> & _); destruct G2 as (-> & _); auto. 
  - rewrite S11, T11. apply P.
  - rewrite S6, T6. apply P.
  - rewrite S14, T14. apply P.
  - rewrite S15, T15. apply P.
  - rewrite (pd_ent _ _ _ _ _ _ Ps), (pd_ent _ _ _ _ _ _ Pt). cbn [feval]. rewrite !feval_sum, !feval_fterm, Hsz, (ps_ent _ _ _ P).
    rewrite (ent_first E1 L s x HE1), (ent_first E2 L t x HE2), (sim_firsts L s t CS P x Hx).
    f_equal. f_equal. f_equal. apply rsum_ext. intros b Hb. apply firsts_in, In_bonds_of in Hb as (d & ->). f_equal.
    apply (sim_bsize L s t CS CT P). now apply bond_dir_bond.
Qed.

Lemma phys_selected L s s1 r t t1 r' : Selected L s s1 r -> Selected L t t1 r' -> PhySim L s t ->
  occ_count s1 = occ_count t1 -> PhySim L s1 t1.
Proof.
  intros Sd Td [P1 P2 P3 P4 P5 P6 P7 P8 P9 P10 P11] Eo.
  destruct (core_fields _ _ (sd_core _ _ _ _ Sd)) as (F1 & F2 & F3 & F4 & F5 & F6 & F7 & F8 & F9 & F10 & F11 & F12 & F13 & F14 & F15).
  destruct (core_fields _ _ (sd_core _ _ _ _ Td)) as (G1 & G2 & G3 & G4 & G5 & G6 & G7 & G8 & G9 & G10 & G11 & G12 & G13 & G14 & G15).
  pose proof (sd_lab _ _ _ _ Sd) as Hs. assert (Es : forall b, bg (lat s1) b = bg (lat s) b) by (intros; now apply (same_labels_bg L)).
  pose proof (sd_lab _ _ _ _ Td) as Ht. assert (Et : forall b, bg (lat t1) b = bg (lat t) b) by (intros; now apply (same_labels_bg L)).
  destruct Hs as (_ & _ & Hs). destruct Ht as (_ & _ & Ht).
  constructor; try congruence.
  - intros i Hi. unfold occ. rewrite (proj1 (Hs i)), (proj1 (Ht i)). now apply P1.
  - intros b b' Hb Hb'. rewrite !Es, !Et. now apply P2.
  - intros i j Hi Hj. unfold occ. rewrite (proj1 (Hs i)), (proj1 (Hs j)), (proj2 (Hs i)), (proj2 (Hs j)), (proj2 (Ht i)), (proj2 (Ht j)). now apply P3.
  - intros Ha b Hb. rewrite Es, Et, F11, G11. apply P4; congruence.
Qed.

(** ** From the internal comparison to the observable one *)
Section Observed.
Variables (L : Z) (s t : perc).
Hypothesis Hs : Inv L s.
Hypothesis Ht : Inv L t.
Hypothesis P : PhySim L s t.

Lemma psim_wid i : after_wrap s = true -> is_site L i -> (sg (lat s) i = wid s <-> sg (lat t) i = wid t).
Proof.
  intros Ew Hi. pose proof (wrap_label L s Hs Ew) as W1.
  pose proof (wrap_label L t Ht (eq_trans (eq_sym (ps_aw _ _ _ P)) Ew)) as W2. unfold is_label in *.
  destruct (occ_dec (lat s) i) as [Ho|Ho].
  - rewrite <- (ck_own _ _ _ (i_cl _ _ Hs) i DRight Hi Ho), <- (ck_own _ _ _ (i_cl _ _ Ht) i DRight Hi (proj1 (ps_occ _ _ _ P i Hi) Ho)).
    apply (ps_wid _ _ _ P); auto. apply bond_dir_bond; auto. now apply (i_pos _ _ Hs).
  - assert (Ho' : ~ occ (lat t) i) by (rewrite <- (ps_occ _ _ _ P i Hi); auto).
    rewrite (sg_unocc L _ _ i (i_cl _ _ Hs) Hi Ho), (sg_unocc L _ _ i (i_cl _ _ Ht) Hi Ho'). lia.
Qed.
Lemma psim_wsize : after_wrap s = true -> bsize (pool s) (wid s) = bsize (pool t) (wid t).
Proof.
  intros Ew. pose proof (wrap_label L s Hs Ew) as W1.
  pose proof (wrap_label L t Ht (eq_trans (eq_sym (ps_aw _ _ _ P)) Ew)) as W2.
  rewrite (bsize_count L _ _ _ (i_cl _ _ Hs) W1), (bsize_count L _ _ _ (i_cl _ _ Ht) W2). apply count_ext. intros b Hb.
  apply In_zrange in Hb. apply eq_true_iff_eq. rewrite !Z.eqb_eq. now apply (ps_wid _ _ _ P).
Qed.
Lemma psim_prob : occupation_prob s = occupation_prob t.
Proof. unfold occupation_prob. now rewrite (ps_n _ _ _ P), (st_sc _ _ (i_static _ _ Hs)), (st_sc _ _ (i_static _ _ Ht)). Qed.
Lemma psim_opw : order_param_wrapping s = order_param_wrapping t.
Proof.
  unfold order_param_wrapping. pose proof (ps_aw _ _ _ P) as Ea. rewrite <- Ea.
  destruct (after_wrap s) eqn:Ew; [|reflexivity].
  rewrite (get_bsize L _ _ _ (i_cl _ _ Hs) (wrap_label L s Hs Ew)), (get_bsize L _ _ _ (i_cl _ _ Ht) (wrap_label L t Ht (eq_sym Ea))).
  now rewrite (psim_wsize Ew), (st_bc _ _ (i_static _ _ Hs)), (st_bc _ _ (i_static _ _ Ht)).
Qed.
Lemma psim_opl : order_param_largest_clstr s = order_param_largest_clstr t.
Proof. unfold order_param_largest_clstr. now rewrite (ps_big _ _ _ P), (st_bc _ _ (i_static _ _ Hs)), (st_bc _ _ (i_static _ _ Ht)). Qed.

Lemma psim_same : same_physics L s t.
Proof.
  pose proof (i_static _ _ Hs) as Ss. pose proof (i_static _ _ Ht) as Ts.
  pose proof (i_cl _ _ Hs) as Cs. pose proof (i_cl _ _ Ht) as Ct. pose proof (i_pos _ _ Hs) as HL.
  assert (Sg : forall i j, is_site L i -> is_site L j -> (sg (lat s) i = sg (lat s) j <-> sg (lat t) i = sg (lat t) j)).
  { intros i j Hi Hj. destruct (occ_dec (lat s) i) as [Oi|Oi]; [now apply (sim_sg L s t Cs Ct P)|].
    destruct (occ_dec (lat s) j) as [Oj|Oj].
    - split; intros Q; symmetry; symmetry in Q; revert Q; now apply (sim_sg L s t Cs Ct P).
    - assert (Oi' : ~ occ (lat t) i) by (rewrite <- (ps_occ _ _ _ P i Hi); auto).
      assert (Oj' : ~ occ (lat t) j) by (rewrite <- (ps_occ _ _ _ P j Hj); auto).
      rewrite (sg_unocc L _ _ i Cs Hi Oi), (sg_unocc L _ _ j Cs Hj Oj), (sg_unocc L _ _ i Ct Hi Oi'), (sg_unocc L _ _ j Ct Hj Oj'). tauto. }
  assert (Sb : forall b i, is_bond L b -> is_site L i -> (bg (lat s) b = sg (lat s) i <-> bg (lat t) b = sg (lat t) i)).
  { intros b i Hb Hi. destruct (occ_dec (lat s) i) as [Oi|Oi]; [now apply (sim_sb L s t Cs Ct P)|].
    assert (Oi' : ~ occ (lat t) i) by (rewrite <- (ps_occ _ _ _ P i Hi); auto).
    rewrite (sg_unocc L _ _ i Cs Hi Oi), (sg_unocc L _ _ i Ct Hi Oi').
    pose proof (ck_blab _ _ _ Cs b Hb) as B1. pose proof (ck_blab _ _ _ Ct b Hb) as B2. unfold is_label in *. lia. }
  constructor.
  - intros i Hi. rewrite !(occupied_occ L) by auto. now apply (ps_occ _ _ _ P).
  - intros i j Hi Hj. rewrite !(site_label_sg L) by auto. now apply Sg.
  - intros b b' Hb Hb'. rewrite !(bond_label_bg L) by auto. now apply (ps_bb _ _ _ P).
  - intros b i Hb Hi. rewrite !(bond_label_bg L), !(site_label_sg L) by auto. now apply Sb.
  - intros b Hb. rewrite !(bond_label_bg L) by auto.
    pose proof (ck_blab _ _ _ Cs b Hb) as B1. pose proof (ck_blab _ _ _ Ct b Hb) as B2.
    rewrite (cluster_bonds_cl L s), (cluster_bonds_cl L t), (cluster_sites_cl L s), (cluster_sites_cl L t) by (auto; apply Cs || apply Ct).
    split; apply Nat2Z.inj.
    + exact (sim_bsize L s t Cs Ct P b Hb).
    + transitivity (ssize (pool s) (bg (lat s) b)); [reflexivity|]. transitivity (ssize (pool t) (bg (lat t) b)); [|reflexivity].
      rewrite (ssize_count L _ _ _ Cs B1), (ssize_count L _ _ _ Ct B2).
      apply count_ext. intros j Hj. apply In_zrange in Hj. apply eq_true_iff_eq. rewrite !Z.eqb_eq.
      specialize (Sb b j Hb Hj). split; intros Q; symmetry; apply Sb; congruence.
  - intros i j Hi Hj Oi. rewrite (occupied_occ L) in Oi by auto. rewrite !(site_label_sg L), !(rel_index_rl L) by auto. now apply (ps_rel _ _ _ P).
  - apply P.
  - apply psim_prob.
  - apply P.
  - apply psim_opl.
  - apply psim_opw.
  - apply P.
  - intros Ew b Hb. rewrite !(bond_label_bg L) by auto. now apply (ps_wid _ _ _ P).
  - unfold get_pc. now rewrite (ps_aw _ _ _ P), (ps_pco _ _ _ P), (st_sc _ _ Ss), (st_sc _ _ Ts).
  - unfold get_site_count_wrapping_cluster_pc. now rewrite (ps_pcs _ _ _ P).
  - unfold get_bond_count_wrapping_cluster_pc. now rewrite (ps_pcb _ _ _ P).
Qed.
End Observed.

(** ** One step of two objects *)
Section Both.
Variables (E1 E2 : env) (L : Z).
Hypothesis HE1 : env_ok E1.
Hypothesis HE2 : env_ok E2.

Lemma place_both s t x : Inv L s -> Inv L t -> PhySim L s t ->
  snd (place_one_site E1 s) = Ok true -> flag_is_success (fst (place_one_site E1 s)) = true -> sel_id (fst (place_one_site E1 s)) = Some x ->
  snd (place_one_site E2 t) = Ok true -> flag_is_success (fst (place_one_site E2 t)) = true -> sel_id (fst (place_one_site E2 t)) = Some x ->
  PhySim L (fst (place_one_site E1 s)) (fst (place_one_site E2 t)).
Proof.
  intros Hs Ht P R1 F1 X1 R2 F2 X2.
  destruct (place_spec E1 L s HE1 Hs) as (Sd & Ps). destruct (place_spec E2 L t HE2 Ht) as (Td & Pt).
  destruct (sel E1 L s) as [s1 r1]. destruct (sel E2 L t) as [t1 r2]. cbn [fst snd] in *.
  destruct r1 as [[]|e]; [|rewrite Ps in *; discriminate..].
  destruct r2 as [[]|e]; [|rewrite Pt in *; discriminate..].
  destruct Ps as (y & s' & root & Y1 & Y2 & Ep & Pd). destruct Pt as (y' & t' & root' & Z1 & Z2 & Ep' & Pd').
  rewrite Ep, Ep' in *. cbn [fst snd] in *.
  assert (y = x). { pose proof (f_equal sel_id (pd_core _ _ _ _ _ _ Pd)) as Q. change (sel_id s' = sel_id s1) in Q. congruence. } subst y.
  assert (y' = x). { pose proof (f_equal sel_id (pd_core _ _ _ _ _ _ Pd')) as Q. change (sel_id t' = sel_id t1) in Q. congruence. } subst y'.
  pose proof (selected_ClOK _ _ _ _ (i_cl _ _ Hs) Sd) as C1. pose proof (selected_ClOK _ _ _ _ (i_cl _ _ Ht) Td) as C2.
  apply (phys_placed E1 E2 L s1 t1 x s' t' root root' HE1 HE2 C1 C2); auto.
  apply (phys_selected L s s1 _ t t1 _ Sd Td P).
  pose proof (sd_res _ _ _ _ Sd) as Q1. pose proof (sd_res _ _ _ _ Td) as Q2. cbn in Q1, Q2.
  destruct Q1 as (? & _ & _ & _ & _ & ->). destruct Q2 as (? & _ & _ & _ & _ & ->). now rewrite (ps_n _ _ _ P).
Qed.
Lemma selected_refl t e : Inv L t -> Selected L t t (Err e).
Proof.
  intros H. constructor; auto; try reflexivity; try lia; try apply H. all: try (split; auto). now apply i_static.
Qed.
Lemma place_silent s t : Inv L s -> Inv L t -> PhySim L s t ->
  snd (place_one_site E1 s) <> Ok true \/ flag_is_success (fst (place_one_site E1 s)) = false ->
  PhySim L (fst (place_one_site E1 s)) t.
Proof.
  intros Hs Ht P Hq. destruct (place_spec E1 L s HE1 Hs) as (Sd & Ps). destruct (sel E1 L s) as [s1 r1]. cbn [fst snd] in *.
  assert (G : match r1 with Ok SUCESS => False | _ => True end -> PhySim L s1 t).
  { intros Hr. apply (phys_selected L s s1 r1 t t (Err ValueError) Sd (selected_refl t _ Ht) P).
    pose proof (sd_res _ _ _ _ Sd) as Q. destruct r1 as [[]|e]; [contradiction|..]; destruct Q as (-> & _); apply P. }
  destruct r1 as [[]|e].
  - destruct Ps as (y & s' & root & Y1 & Y2 & Ep & Pd). rewrite Ep in *. cbn [fst snd] in *.
    destruct Hq as [Hq|Hq]; [congruence|]. unfold flag_is_success in Hq. now rewrite (pd_flag _ _ _ _ _ _ Pd) in Hq.
  - rewrite Ps. eapply PhySim_frame; [apply G; exact I|reflexivity..].
  - rewrite Ps. eapply PhySim_frame; [apply G; exact I|reflexivity..].
  - rewrite Ps. now apply G.
Qed.
Lemma detect_both s t x : Inv L s -> Inv L t -> PhySim L s t -> sel_id s = Some x -> sel_id t = Some x ->
  PhySim L (fst (detect_wrapping s)) (fst (detect_wrapping t)) /\ snd (detect_wrapping s) = snd (detect_wrapping t).
Proof.
  intros Hs Ht P Xs Xt. rewrite (detect_ok L s) in * by apply Hs. rewrite (detect_ok L t) in * by apply Ht. unfold detect_res in *.
  rewrite <- (ps_aw _ _ _ P), Xs, Xt in *. destruct (after_wrap s); [split; auto|].
  assert (Hx : is_site L x) by (destruct (i_sel _ _ Hs) as [(Q & _)|(y & Hy & Q & _)]; congruence).
  rewrite <- (sim_hitb L s t (i_cl _ _ Hs) (i_cl _ _ Ht) P x Hx) in *. destruct (hitb L (lat s) x) eqn:Eh; [|split; auto].
  split; [|reflexivity]. cbn [fst] in *.
  apply (sim_wrapped L s t (i_cl _ _ Hs) (i_cl _ _ Ht) P x Hx). now apply (hitb_occ L _ _ _ (i_cl _ _ Hs)).
Qed.
Lemma detect_silent s t : Inv L s -> PhySim L s t -> sel_id s = None -> PhySim L (fst (detect_wrapping s)) t.
Proof.
  intros Hs P X. rewrite (detect_ok L s) by apply Hs. unfold detect_res. rewrite X. destruct (after_wrap s); exact P.
Qed.
Lemma PhySim_sym s t : Inv L s -> Inv L t -> PhySim L s t -> PhySim L t s.
Proof.
  intros Hs Ht P. pose proof P as [P1 P2 P3 P4 P5 P6 P7 P8 P9 P10 P11]. constructor; auto.
  - intros i Hi. symmetry. now apply P1.
  - intros b b' Hb Hb'. symmetry. now apply P2.
  - intros i j Hi Hj Ho Eq. symmetry. apply P3; auto; [now apply P1|]. now apply (sim_sg L s t (i_cl _ _ Hs) (i_cl _ _ Ht) P i j Hi Hj (proj2 (P1 i Hi) Ho)).
  - intros Ew b Hb. symmetry. apply P4; auto. congruence.
Qed.
End Both.
