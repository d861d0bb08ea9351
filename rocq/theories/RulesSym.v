(** * RulesSym: the L1 and L2 rules have no preferred place or direction (C113). *)
From Coq Require Import ZArith List Bool Lia Permutation Znumtheory.
From Verif Require Import Py Lattice Cluster Perc Spec History PyFacts Torus Geometry LatFacts Inv Merge Count Select Fresh Reach State Step Seq Cand CandProps CandRun
  RunProps RunProps2 SymSpec Symmetry Describe Wrap StateProps2 StateProps ChanceSpec Chance Unbiased L1Chance WorldProps BreakProps Critical Entropy IidSpec Iid Couple RulesLawSpec RulesLaw RulesJoint RulesSymSpec.
Import ListNotations.
Open Scope Z_scope.

(** ** Directions as numbers *)
Definition dcode (d : dir) : Z := match d with DRight => 0 | DDown => 1 | DLeft => 2 | DUp => 3 end.
Lemma dcode_inj d d' : dcode d = dcode d' -> d = d'.
Proof. destruct d, d'; cbn; intros H; try reflexivity; discriminate H. Qed.
Lemma dcode_nth i : 0 <= i < 4 -> dcode (nth (Z.to_nat i) all_dirs DRight) = i.
Proof. intros H. assert (i = 0 \/ i = 1 \/ i = 2 \/ i = 3) as [->|[->|[->| ->]]] by lia; reflexivity. Qed.

(** ** Matching all words *)
Section Match.
Variable M : Z.
Hypothesis HM : 0 < M.
Definition cpl (W : nat) (R : list Z -> list Z -> Prop) : Prop := exists g h,
  (forall w, vec M W w -> vec M W (g w) /\ h (g w) = w /\ R w (g w)) /\ (forall w, vec M W w -> vec M W (h w) /\ g (h w) = w).
Lemma cpl_mono W (R R' : list Z -> list Z -> Prop) : (forall w w', vec M W w -> vec M W w' -> R w w' -> R' w w') -> cpl W R -> cpl W R'.
Proof.
  intros HR (g & h & G & H). exists g, h. split; auto. intros w Hw. destruct (G w Hw) as (A & B & C). auto.
Qed.
Lemma cpl_same W (R : list Z -> list Z -> Prop) : (forall w, R w w) -> cpl W R.
Proof. intros H. exists (fun w => w), (fun w => w). split; intros w Hw; auto. Qed.
Lemma cpl_cons W (R : list Z -> list Z -> Prop) f f' : (forall a, 0 <= a < M -> 0 <= f a < M /\ f' (f a) = a) -> (forall a, 0 <= a < M -> 0 <= f' a < M /\ f (f' a) = a) ->
  (forall a, 0 <= a < M -> cpl W (fun w w' => R (a :: w) (f a :: w'))) -> cpl (S W) R.
Proof.
  intros Hf Hf' H.
  destruct (pick_each M HM (fun w : list Z => w, fun w : list Z => w) (fun a gh => (forall w, vec M W w -> vec M W (fst gh w) /\ snd gh (fst gh w) = w /\ R (a :: w) (f a :: fst gh w)) /\
     (forall w, vec M W w -> vec M W (snd gh w) /\ fst gh (snd gh w) = w))) as (F & HF).
  { intros a Ha. destruct (H a Ha) as (g & h & G1 & G2). exists (g, h). split; auto. }
  exists (fun l => match l with [] => [] | a :: w => f a :: fst (F a) w end), (fun l => match l with [] => [] | b :: w => f' b :: snd (F (f' b)) w end). split.
  - intros [|a w] Hw; [destruct Hw; discriminate|]. apply (vec_cons M) in Hw as (Ha & Hw). destruct (Hf a Ha) as (Hr & Hi). destruct (HF a Ha) as (G1 & _).
    destruct (G1 w Hw) as (A & B & C). split; [apply (vec_cons M); auto|]. split; auto. rewrite Hi, B. reflexivity.
  - intros [|b w] Hw; [destruct Hw; discriminate|]. apply (vec_cons M) in Hw as (Hb & Hw). destruct (Hf' b Hb) as (Hr & Hi). destruct (HF (f' b) Hr) as (_ & G2).
    destruct (G2 w Hw) as (A & B). split; [apply (vec_cons M); auto|]. rewrite Hi, B. reflexivity.
Qed.
Lemma cpl_count W (P Q : list Z -> Prop) m : cpl W (fun w w' => P w <-> Q w') -> (forall w, P w -> vec M W w) -> (forall w, Q w -> vec M W w) -> (how_many P m <-> how_many Q m).
Proof.
  intros (g & h & G & H) HP HQ. split; intros X.
  - refine (how_map _ _ g _ _ _ _ X).
    + intros w Pw. apply (G w (HP w Pw)), Pw.
    + intros w Qw. pose proof (HQ w Qw) as Vw. destruct (H w Vw) as (A & B). exists (h w). split; [|now symmetry]. destruct (G (h w) A) as (_ & _ & C). apply C. now rewrite B.
    + intros w w' Pw Pw' E. destruct (G w (HP w Pw)) as (_ & B & _). destruct (G w' (HP w' Pw')) as (_ & B' & _). congruence.
  - refine (how_map _ _ h _ _ _ _ X).
    + intros w Qw. destruct (H w (HQ w Qw)) as (A & B). destruct (G (h w) A) as (_ & _ & C). apply C. now rewrite B.
    + intros w Pw. destruct (G w (HP w Pw)) as (A & B & C). exists (g w). split; [now apply C|now symmetry].
    + intros w w' Qw Qw' E. destruct (H w (HQ w Qw)) as (_ & B). destruct (H w' (HQ w' Qw')) as (_ & B'). congruence.
Qed.
End Match.

Section Sim.
Variables (f : Z -> Z) (D : dir -> dir) (L : Z) (k : pkind).
Hypothesis Hk : is_L12 k = true.
Hypothesis RS : rule_symmetry k L f D.
Let S : symmetry L f D := proj1 RS.

Lemma fs_eqb i j : is_site L i -> is_site L j -> (f i =? f j) = (i =? j).
Proof. intros Hi Hj. destruct (Z.eqb_spec i j) as [->|N]; [apply Z.eqb_refl|]. apply Z.eqb_neq. intros Q. now apply N, (sy_inj _ _ _ S). Qed.
Lemma second_moved X d : 0 < L -> k = KL2 -> is_site L X -> second L (f X) (nbr L (f X) (D d)) = f (second L X (nbr L X d)).
Proof.
  intros HL K HX. pose proof RS as (_ & [C|(_ & Ke)]); [congruence|]. pose proof (sy_site _ _ _ S X HX) as HfX.
  destruct (second_spec L X d HL HX) as (A1 & A2). destruct (second_spec L (f X) (D d) HL HfX) as (B1 & B2). destruct (Ke X d HX) as (K1 & K2).
  assert (Dc : straddles L X d \/ ~ straddles L X d) by (destruct d; cbn; lia). destruct Dc as [Q|Q].
  - now rewrite A1, B1 by auto.
  - rewrite A2, B2 by auto. rewrite <- !(sy_nbr _ _ _ S) by (auto; now apply nbr_site). reflexivity.
Qed.

Record GRel (s s' : perc) : Prop := mkGRel {
  g_kind : kind s = k; g_kind' : kind s' = k;
  g_inv : Inv L s; g_inv' : Inv L s';
  g_cand : Cand L s; g_cand' : Cand L s';
  g_cur : cur_idx s' = cur_idx s;
  g_perm : Permutation (map f (cands s)) (cands s');
  g_occ : forall i, is_site L i -> occb (lat s') (f i) = occb (lat s) i;
  g_nn1 : forall i, is_site L i -> nn1 (lat s') (f i) = nn1 (lat s) i;
  g_nn2 : forall i, is_site L i -> nn2 (lat s') (f i) = nn2 (lat s) i;
  g_sel : sel_id s' = option_map f (sel_id s)
}.
(** The part of it that a selection keeps. *)
Record GR (s s' : perc) : Prop := mkGR {
  r_cur : cur_idx s' = cur_idx s;
  r_perm : Permutation (map f (cands s)) (cands s');
  r_occ : forall i, is_site L i -> occb (lat s') (f i) = occb (lat s) i;
  r_nn1 : forall i, is_site L i -> nn1 (lat s') (f i) = nn1 (lat s) i;
  r_nn2 : forall i, is_site L i -> nn2 (lat s') (f i) = nn2 (lat s) i;
  r_sel : sel_id s' = option_map f (sel_id s)
}.
Lemma cands_dropped E s : 0 <= cur_idx s < zlen (ids s) -> Permutation (cands s) (candX E s :: cands (dropped (rndi E s) s)).
Proof.
  intros H. pose proof (rndi_range E s H) as Hr. unfold cands, candX. cbn [dropped cur_idx ids set_cur_idx mutate_ids rebind_ids].
  apply drop_perm; lia.
Qed.
Section Step.
Variables E E' : env.
Hypothesis HE : env_ok E.
Hypothesis HE' : env_ok E'.
(** The words drawn next name corresponding candidates and directions. *)
Definition same_draws (s s' : perc) : Prop := cur_idx s < L * L -> candX E' s' = f (candX E s) /\
  (occb (lat s) (candX E s) = true -> dirk E' (Datatypes.S (tick s')) = D (dirk E (Datatypes.S (tick s)))).
Definition used (s : perc) : nat := if L * L <=? cur_idx s then 0%nat else if occb (lat s) (candX E s) then 2%nat else 1%nat.
Lemma sel_sym s s' : GRel s s' -> same_draws s s' ->
  snd (sel E' L s') = snd (sel E L s) /\ GR (fst (sel E L s)) (fst (sel E' L s')) /\
  tick (fst (sel E L s)) = (tick s + used s)%nat /\ tick (fst (sel E' L s')) = (tick s' + used s)%nat.
Proof.
  intros [K K' I I' C C' Ec Ep Eo En1 En2 Es] SD. unfold used.
  pose proof (cd_len _ _ C) as Hl. pose proof (cd_cur _ _ C) as Hc. pose proof (cd_len _ _ C') as Hl'.
  assert (Es1 : forall Ev z, kind z = k -> sel Ev L z = match k with KL1 => sel1 Ev L z | KL2 => sel2 Ev L z | _ => sel_base z end) by (intros Ev z Q; unfold sel; now rewrite Q).
  rewrite (Es1 E s K), (Es1 E' s' K'). clear Es1.
  pose proof (i_static _ _ I) as St. pose proof (i_static _ _ I') as St'.
  destruct (Z.leb_spec (L * L) (cur_idx s)) as [Q|Q].
  { assert (G : forall Ev z, cur_idx z = cur_idx s -> (match k with KL1 => sel1 Ev L z | KL2 => sel2 Ev L z | _ => sel_base z end) = (z, Ok EMPTY_SITE_LIST)).
    { intros Ev z Ez. destruct k; try discriminate; unfold sel1, sel2; rewrite Ez; destruct (Z.leb_spec (L * L) (cur_idx s)); auto; lia. }
    rewrite !G by auto. cbn [fst snd]. split; auto. split; [constructor; auto|lia]. }
  destruct (SD Q) as (X' & Dr). clear SD.
  assert (HX : is_site L (candX E s)) by (apply candX_site; [apply I|lia]).
  pose proof (cands_dropped E s ltac:(lia)) as P1. pose proof (cands_dropped E' s' ltac:(lia)) as P2. rewrite X' in P2.
  assert (Pd : Permutation (map f (cands (dropped (rndi E s) s))) (cands (dropped (rndi E' s') s'))).
  { apply (Permutation_cons_inv (a := f (candX E s))). eapply perm_trans; [|exact P2]. eapply perm_trans; [|exact Ep]. change (f (candX E s) :: map f (cands (dropped (rndi E s) s))) with (map f (candX E s :: cands (dropped (rndi E s) s))).
    apply Permutation_map. now apply Permutation_sym. }
  clear P1 P2. set (X := candX E s) in *. pose proof (sy_site _ _ _ S X HX) as HfX.
  destruct (dec1_same L (lat s) X St HX) as ((Sd & _ & So) & D1 & D2). destruct (dec1_same L (lat s') (f X) St' HfX) as ((Sd' & _ & So') & D1' & D2').
  destruct (dec2_same L (dec1 (lat s) X) X Sd HX) as ((_ & _ & So2) & D3 & D4). destruct (dec2_same L (dec1 (lat s') (f X)) (f X) Sd' HfX) as ((_ & _ & So2') & D3' & D4').
  assert (O1 : forall i, is_site L i -> occb (dec1 (lat s') (f X)) (f i) = occb (dec1 (lat s) X) i) by (intros i Hi; unfold occb; rewrite (proj1 (So i)), (proj1 (So' (f i))); now apply Eo).
  assert (O2 : forall i, is_site L i -> occb (dec2 (dec1 (lat s') (f X)) (f X)) (f i) = occb (dec2 (dec1 (lat s) X) X) i) by (intros i Hi; unfold occb; rewrite (proj1 (So2 i)), (proj1 (So2' (f i))); now apply O1).
  assert (N1 : forall i, is_site L i -> nn1 (dec1 (lat s') (f X)) (f i) = nn1 (dec1 (lat s) X) i) by (intros i Hi; rewrite D1, D1', fs_eqb by auto; destruct (i =? X); rewrite En1; auto).
  assert (N2 : forall i, is_site L i -> nn2 (dec1 (lat s') (f X)) (f i) = nn2 (dec1 (lat s) X) i) by (intros i Hi; rewrite D2, D2'; auto).
  assert (N3 : forall i, is_site L i -> nn1 (dec2 (dec1 (lat s') (f X)) (f X)) (f i) = nn1 (dec2 (dec1 (lat s) X) X) i) by (intros i Hi; rewrite D3, D3'; auto).
  assert (N4 : forall i, is_site L i -> nn2 (dec2 (dec1 (lat s') (f X)) (f X)) (f i) = nn2 (dec2 (dec1 (lat s) X) X) i) by (intros i Hi; rewrite D4, D4', fs_eqb by auto; destruct (i =? X); rewrite N2; auto).
  clear D1 D2 D3 D4 D1' D2' D3' D4' So So' So2 So2' Sd Sd'. pose proof (i_pos _ _ I) as HL.
  assert (HkC : k = KL1 \/ k = KL2) by (destruct k; try discriminate; auto). destruct HkC as [Hk1|Hk2].
  - rewrite Hk1. unfold sel1. rewrite Ec, X', Hl, Hl'. destruct (Z.leb_spec (L * L) (cur_idx s)) as [Q'|_]; [lia|]. fold X. cbv zeta. rewrite (Eo X HX). destruct (occb (lat s) X) eqn:OX.
    + rewrite (Dr eq_refl). set (d := dirk E (Datatypes.S (tick s))). rewrite <- (sy_nbr _ _ _ S X d HX).
      assert (HY : is_site L (nbr L X d)) by (now apply nbr_site). rewrite (Eo _ HY). destruct (occb (lat s) (nbr L X d)) eqn:OY; cbn [fst snd].
      * rewrite (N1 X HX). split; [reflexivity|]. destruct (nn1 (dec1 (lat s) X) X =? 0).
        -- split; [constructor; auto; cbn; lia|split; cbn; lia].
        -- split; [constructor; auto|split; cbn; lia].
      * split; [reflexivity|]. split; [constructor; auto|split; cbn; lia].
    + cbn [fst snd]. split; [reflexivity|]. split; [constructor; auto|split; cbn; lia].
  - rewrite Hk2. unfold sel2. rewrite Ec, X', Hl, Hl'. destruct (Z.leb_spec (L * L) (cur_idx s)) as [Q'|_]; [lia|]. fold X. cbv zeta. rewrite (Eo X HX). destruct (occb (lat s) X) eqn:OX.
    + rewrite (Dr eq_refl). set (d := dirk E (Datatypes.S (tick s))). rewrite (second_moved X d HL Hk2 HX). rewrite <- (sy_nbr _ _ _ S X d HX).
      assert (HY : is_site L (nbr L X d)) by (now apply nbr_site). rewrite (Eo _ HY). destruct (occb (lat s) (nbr L X d)) eqn:OY; cbn [fst snd].
      * assert (HZ : is_site L (second L X (nbr L X d))) by (apply at_rc_site; exact HL). rewrite (Eo _ HZ). destruct (occb (lat s) (second L X (nbr L X d))) eqn:OZ; cbn [fst snd].
        -- rewrite (N4 X HX). split; [reflexivity|]. destruct (nn2 (dec2 (dec1 (lat s) X) X) X =? 0).
           ++ split; [constructor; auto; cbn; lia|split; cbn; lia].
           ++ split; [constructor; auto|split; cbn; lia].
        -- split; [reflexivity|]. split; [constructor; auto|split; cbn; lia].
      * split; [reflexivity|]. split; [constructor; auto|split; cbn; lia].
    + cbn [fst snd]. split; [reflexivity|]. split; [constructor; auto|split; cbn; lia].
Qed.
Definition mv (e : event) : event := match e with EPlace x => EPlace (f x) | ECheck x => ECheck (f x) | EClear => EClear end.
Lemma place_sym s s' : GRel s s' -> same_draws s s' ->
  GRel (fst (place_one_site E s)) (fst (place_one_site E' s')) /\
  tick (fst (place_one_site E s)) = (tick s + used s)%nat /\ tick (fst (place_one_site E' s')) = (tick s' + used s)%nat /\
  event_of E' s' CPlace = map mv (event_of E s CPlace).
Proof.
  intros T A. destruct (sel_sym s s' T A) as (Er & R & Ht & Ht'). destruct T as [K K' I I' C C' _ _ _ _ _ _].
  destruct (place_cand E L s HE I C) as (J & Dd & Kj & _). destruct (place_cand E' L s' HE' I' C') as (J' & Dd' & Kj' & _).
  destruct (place_spec E L s HE I) as (Sd & P). destruct (place_spec E' L s' HE' I') as (Sd' & P').
  pose proof (selected_clok L E s I Sd) as Q. pose proof (selected_clok L E' s' I' Sd') as Q'. cbn [event_of].
  destruct (sel E L s) as [s1 r]. destruct (sel E' L s') as [s1' r']. cbn [fst snd] in *. subst r'.
  destruct r as [[]|e].
  - destruct P as (x & t & root & E1 & E2 & Ep & Pd). destruct P' as (x' & t' & root' & E1' & E2' & Ep' & Pd').
    assert (x' = f x) as -> by (pose proof (r_sel _ _ R) as W; rewrite E1, E1' in W; cbn in W; congruence).
    rewrite Ep, Ep' in *. cbn [fst snd] in *. pose proof (pd_core _ _ _ _ _ _ Pd) as Ct. pose proof (pd_core _ _ _ _ _ _ Pd') as Ct'.
    destruct (core2_fields _ _ Ct) as (_ & F2 & _ & F4 & _ & _ & _ & F8 & _). destruct (core2_fields _ _ Ct') as (_ & G2 & _ & G4 & _ & _ & _ & G8 & _).
    apply core2_tick in Ct. apply core2_tick in Ct'. pose proof (pd_site _ _ _ _ _ _ Pd) as Hx. destruct R as [R2 R3 R4 R5 R5' R6].
    assert (Ec1 : cands t = cands s1) by (unfold cands; congruence). assert (Ec2 : cands t' = cands s1') by (unfold cands; congruence).
    split; [|split; [|split]].
    + constructor; try congruence.
      * intros i Hi. rewrite (pd_occb E' L s1' (f x) t' root' Q' Pd') by (now apply (sy_site _ _ _ S)). rewrite (pd_occb E L s1 x t root Q Pd) by auto. rewrite fs_eqb by auto. now rewrite R4.
      * intros i Hi. rewrite (proj1 (pd_nn _ _ _ _ _ _ Pd' (f i))), (proj1 (pd_nn _ _ _ _ _ _ Pd i)). auto.
      * intros i Hi. rewrite (proj2 (pd_nn _ _ _ _ _ _ Pd' (f i))), (proj2 (pd_nn _ _ _ _ _ _ Pd i)). auto.
    + congruence.
    + congruence.
    + unfold flag_is_success. rewrite (pd_flag _ _ _ _ _ _ Pd), (pd_flag _ _ _ _ _ _ Pd'). rewrite F8, G8, E1, E1'. reflexivity.
  - rewrite P, P' in *. cbn [fst snd] in *. destruct R as [R2 R3 R4 R5 R5' R6]. split; [constructor; auto; congruence|]. split; [exact Ht|split; [exact Ht'|reflexivity]].
  - rewrite P, P' in *. cbn [fst snd] in *. destruct R as [R2 R3 R4 R5 R5' R6]. split; [constructor; auto; congruence|]. split; [exact Ht|split; [exact Ht'|reflexivity]].
  - rewrite P, P' in *. cbn [fst snd] in *. destruct R as [R2 R3 R4 R5 R5' R6]. split; [constructor; auto; congruence|]. split; [exact Ht|split; [exact Ht'|reflexivity]].
Qed.
End Step.
Lemma detect_sym s s' : GRel s s' -> GRel (fst (detect_wrapping s)) (fst (detect_wrapping s')).
Proof.
  intros [K K' I I' C C' R2 R3 R4 R5 R5' R6].
  destruct (detect_cand L s I C) as (Dd & _ & Kd). destruct (detect_cand L s' I' C') as (Dd' & _ & Kd').
  destruct (detect_fields L s I) as (F1 & _ & F3 & _ & F5 & _). destruct (detect_fields L s' I') as (G1 & _ & G3 & _ & G5 & _).
  destruct (detect_seqv L s I) as (W & _). destruct (detect_seqv L s' I') as (W' & _). destruct (seqv_eqs _ _ W) as (_ & W2 & _). destruct (seqv_eqs _ _ W') as (_ & W2' & _).
  assert (E1 : cands (fst (detect_wrapping s)) = cands s) by (unfold cands; congruence). assert (E2 : cands (fst (detect_wrapping s')) = cands s') by (unfold cands; congruence).
  constructor; try congruence; try (now apply detect_inv); intros i Hi; rewrite F1, G1; auto.
Qed.
Lemma order_mv evs : placed_order (map mv evs) = map f (placed_order evs).
Proof.
  assert (G : forall evs xs, fold_left note (map mv evs) (map f xs) = map f (fold_left note evs xs)).
  { induction evs0 as [|e evs0 IH]; intros xs; [reflexivity|]. cbn [map fold_left]. rewrite <- IH. f_equal. destruct e; cbn [note mv map]; auto. now rewrite map_app. }
  exact (G evs []).
Qed.
(** ** Feeding corresponding words *)
Lemma at_cands s j : 0 <= cur_idx s -> 0 <= j -> at_ 0 (ids s) (cur_idx s + j) = nth (Z.to_nat j) (cands s) 0.
Proof. intros H1 H2. unfold cands, at_. rewrite nth_skip. destruct (Z.leb_spec 0 (cur_idx s + j)); [f_equal; lia|lia]. Qed.
Lemma candX_nth E s a : e_draw E (tick s) = a -> 0 <= cur_idx s < zlen (ids s) -> candX E s = nth (Z.to_nat (a mod (zlen (ids s) - cur_idx s))) (cands s) 0.
Proof.
  intros <- H. unfold candX, rndi. replace (zlen (ids s) - 1 - cur_idx s + 1) with (zlen (ids s) - cur_idx s) by lia. apply at_cands; [lia|]. apply Z.mod_pos_bound. lia.
Qed.
Definition dirs_to : list Z := map (fun d => dcode (D d)) all_dirs.
Definition dirs0 : list Z := [0; 1; 2; 3].
Lemma dirs_nodup : NoDup dirs_to.
Proof.
  assert (G : forall l, NoDup l -> NoDup (map (fun d => dcode (D d)) l)).
  { induction 1 as [|d l Hd _ IH]; cbn [map]; constructor; auto. rewrite in_map_iff. intros (d' & Q & Hd'). apply Hd. apply dcode_inj, (sy_dir _ _ _ S) in Q. now subst. }
  apply G. unfold all_dirs. repeat constructor; cbn; intuition discriminate.
Qed.
Lemma dirs_perm : Permutation dirs_to dirs0.
Proof.
  apply NoDup_Permutation_bis; [apply dirs_nodup|reflexivity|]. intros x Hx. apply in_map_iff in Hx as (d & <- & _). destruct (D d); cbn; tauto.
Qed.
Lemma dir_moved E E' t t' b : e_draw E t = b -> nth (Z.to_nat (e_draw E' t' mod 4)) dirs0 0 = nth (Z.to_nat (b mod 4)) dirs_to 0 -> dirk E' t' = D (dirk E t).
Proof.
  intros <- H. apply dcode_inj. unfold dirk. rewrite dcode_nth by (apply Z.mod_pos_bound; lia).
  pose proof (Z.mod_pos_bound (e_draw E' t') 4 ltac:(lia)) as B'. pose proof (Z.mod_pos_bound (e_draw E t) 4 ltac:(lia)) as B.
  assert (G1 : forall i, 0 <= i < 4 -> nth (Z.to_nat i) dirs0 0 = i) by (intros i Hi; assert (i = 0 \/ i = 1 \/ i = 2 \/ i = 3) as [->|[->|[->| ->]]] by lia; reflexivity).
  assert (G2 : forall i, 0 <= i < 4 -> nth (Z.to_nat i) dirs_to 0 = dcode (D (nth (Z.to_nat i) all_dirs DRight))) by (intros i Hi; assert (i = 0 \/ i = 1 \/ i = 2 \/ i = 3) as [->|[->|[->| ->]]] by lia; reflexivity).
  rewrite G1, G2 in H by auto. exact H.
Qed.
Section Words.
Variables (Mx : Z) (ord : list Z -> list Z).
Hypothesis HF : fair Mx (L * L).
Hypothesis Hord : env_ok (mkEnv ord (fun _ => 0)).
Let HM : 0 < Mx := proj1 HF.
Notation fed := (fed ord).
Lemma fed_env t w : env_ok (fed t w). Proof. exact Hord. Qed.
Lemma same_from {A} (m : env -> M A) d d' z : local m -> (forall i, (tick z <= i < tick (fst (m (mkEnv ord d) z)))%nat -> d' i = d i) -> m (mkEnv ord d') z = m (mkEnv ord d) z.
Proof.
  intros Lm H. destruct (Lm (mkEnv ord d) z) as (T & G). specialize (G d' (tick z)). rewrite set_tick_id in G. cbn [e_ord e_draw] in G. rewrite G by (intros i Hi; apply H; lia).
  replace (tick z + (tick (fst (m (mkEnv ord d) z)) - tick z))%nat with (tick (fst (m (mkEnv ord d) z))) by lia. rewrite set_tick_id. now destruct (m (mkEnv ord d) z).
Qed.
Lemma grow_upto cs : Forall growing cs -> forall d d' z, (forall i, (tick z <= i < tick z + 2 * all_tries cs)%nat -> d' i = d i) ->
  after (mkEnv ord d') z cs = after (mkEnv ord d) z cs /\ events (mkEnv ord d') z cs = events (mkEnv ord d) z cs.
Proof.
  induction 1 as [|c cs Hc _ IH]; intros d d' z H; [split; reflexivity|]. cbn [all_tries fold_right] in H. fold (all_tries cs) in H.
  assert (Hr : realizing c) by (destruct Hc as [-> | ->]; exact Logic.I). pose proof (up_exec (mkEnv ord d) c z Hr) as U.
  assert (E1 : exec (mkEnv ord d') z c = exec (mkEnv ord d) z c).
  { pose proof (same_from (call_m c) d d' z (loc_call c)) as Q. unfold call_m in Q. cbn [fst] in Q. assert (Q' := Q ltac:(intros i Hi; apply H; lia)). now injection Q'. }
  assert (E2 : event_of (mkEnv ord d') z c = event_of (mkEnv ord d) z c).
  { destruct Hc as [-> | ->]; [|reflexivity]. cbn [event_of]. rewrite (same_from place_one_site d d' z loc_place); auto. intros i Hi. apply H. cbn [exec] in U. lia. }
  destruct (IH d d' (exec (mkEnv ord d) z c)) as (I1 & I2).
  { intros i Hi. apply H. destruct (loc_call c (mkEnv ord d) z) as (T & _). unfold call_m in T. cbn [fst] in T. lia. }
  cbn [events after fold_left]. rewrite E1, E2. unfold after in I1. rewrite I1, I2. split; reflexivity.
Qed.
Definition Rel (z z' : perc) (cs : list call) (w w' : list Z) : Prop := GRel (after (fed (tick z) w) z cs) (after (fed (tick z') w') z' cs) /\
  events (fed (tick z') w') z' cs = map mv (events (fed (tick z) w) z cs).
Lemma step_cpl p p' s s' cs W : GRel s s' -> Forall growing cs -> length p' = length p ->
  same_draws (fed (tick s) p) (fed (tick s') p') s s' -> used (fed (tick s) p) s = length p ->
  (forall z z', GRel z z' -> cpl Mx W (Rel z z' cs)) -> cpl Mx W (fun w w' => Rel s s' (CPlace :: cs) (p ++ w) (p' ++ w')).
Proof.
  intros G Hc Hp SD U IH. destruct (place_sym (fed (tick s) p) (fed (tick s') p') (fed_env _ _) (fed_env _ _) s s' G SD) as (G1 & T & T' & Ev).
  rewrite U in T, T'.
  assert (Pre : forall q z w, tick (fst (place_one_site (fed (tick z) q) z)) = (tick z + length q)%nat -> place_one_site (fed (tick z) (q ++ w)) z = place_one_site (fed (tick z) q) z).
  { intros q z w Tq. apply (same_from place_one_site (e_draw (fed (tick z) q)) (e_draw (fed (tick z) (q ++ w))) z loc_place).
    change (mkEnv ord (e_draw (fed (tick z) q))) with (fed (tick z) q). rewrite Tq. intros i Hi. cbn [Couple.fed e_draw]. rewrite app_nth1 by lia. reflexivity. }
  assert (Post : forall q z w, tick (fst (place_one_site (fed (tick z) q) z)) = (tick z + length q)%nat ->
    let y := fst (place_one_site (fed (tick z) q) z) in
    after (fed (tick z) (q ++ w)) z (CPlace :: cs) = after (fed (tick y) w) y cs /\
    events (fed (tick z) (q ++ w)) z (CPlace :: cs) = event_of (fed (tick z) q) z CPlace ++ events (fed (tick y) w) y cs).
  { intros q z w Tq y. pose proof (Pre q z w Tq) as Q. fold y in Tq.
    assert (Ex : exec (fed (tick z) (q ++ w)) z CPlace = y) by (cbn [exec]; now rewrite Q).
    assert (Ee : event_of (fed (tick z) (q ++ w)) z CPlace = event_of (fed (tick z) q) z CPlace) by (cbn [event_of]; now rewrite Q).
    destruct (grow_upto cs Hc (e_draw (fed (tick y) w)) (e_draw (fed (tick z) (q ++ w))) y) as (A1 & A2).
    { intros i Hi. cbn [Couple.fed e_draw]. rewrite app_nth2 by lia. f_equal. lia. }
    split.
    - change (after (fed (tick z) (q ++ w)) (exec (fed (tick z) (q ++ w)) z CPlace) cs = after (fed (tick y) w) y cs). rewrite Ex. exact A1.
    - change (event_of (fed (tick z) (q ++ w)) z CPlace ++ events (fed (tick z) (q ++ w)) (exec (fed (tick z) (q ++ w)) z CPlace) cs = event_of (fed (tick z) q) z CPlace ++ events (fed (tick y) w) y cs).
      rewrite Ex, Ee. f_equal. exact A2. }
  set (z := fst (place_one_site (fed (tick s) p) s)) in *. set (z' := fst (place_one_site (fed (tick s') p') s')) in *.
  set (ev := event_of (fed (tick s) p) s CPlace) in *. set (ev' := event_of (fed (tick s') p') s' CPlace) in *.
  refine (cpl_mono Mx W _ _ _ (IH z z' G1)). intros w w' _ _ (R1 & R2).
  destruct (Post p s w T) as (A1 & A2). cbv zeta in A1, A2. fold z in A1, A2. fold ev in A2.
  destruct (Post p' s' w') as (B1 & B2); [fold z'; lia|]. cbv zeta in B1, B2. fold z' in B1, B2. fold ev' in B2.
  split; [rewrite A1, B1; exact R1|]. rewrite A2, B2, map_app, R2, Ev. reflexivity.
Qed.
Lemma run_cpl cs : Forall growing cs -> forall W s s', (2 * all_tries cs <= W)%nat -> GRel s s' -> cpl Mx W (Rel s s' cs).
Proof.
  induction 1 as [|c cs Hc Hcs IH]; intros W s s' HW G.
  { apply cpl_same. intros w. split; [exact G|reflexivity]. }
  pose proof G as [Kk Kk' I I' C C' Ec Ep Eo En1 En2 Es]. cbn [all_tries fold_right] in HW. fold (all_tries cs) in HW. destruct Hc as [-> | ->]; cbn [tries] in HW.
  - pose proof (cd_len _ _ C) as Hl. pose proof (cd_cur _ _ C) as Hcu. pose proof (cd_len _ _ C') as Hl'.
    destruct (Z.leb_spec (L * L) (cur_idx s)) as [Q|Q].
    + apply (step_cpl [] [] s s' cs W); auto; [intros Q'; lia|unfold used; destruct (Z.leb_spec (L * L) (cur_idx s)); [reflexivity|lia]|]. intros; apply IH; auto; lia.
    + assert (Lc : zlen (map f (cands s)) = L * L - cur_idx s) by (unfold zlen, cands in *; rewrite map_length, skipn_length; lia).
      assert (Nd : NoDup (map f (cands s))) by (eapply Permutation_NoDup; [apply Permutation_sym; exact Ep|apply (cd_nd _ _ C')]).
      assert (Dv : (L * L - cur_idx s | Mx)) by (apply (proj2 (proj2 HF)); lia). set (m := L * L - cur_idx s) in *.
      set (g := remap (map f (cands s)) (cands s') m). set (g' := remap (cands s') (map f (cands s)) m).
      assert (Lc' : zlen (cands s') = m) by (unfold zlen in *; rewrite <- (Permutation_length Ep); exact Lc).
      destruct W as [|W]; [lia|]. destruct W as [|W]; [lia|].
      assert (HX : forall a r r', 0 <= a < Mx -> candX (fed (tick s') (g a :: r')) s' = f (candX (fed (tick s) (a :: r)) s)).
      { intros a r r' Ha. rewrite (candX_nth _ s a) by (try apply fed_head; lia). rewrite (candX_nth _ s' (g a)) by (try apply fed_head; lia). rewrite Hl, Hl', Ec. fold m.
        destruct (remap_ok Mx (map f (cands s)) (cands s') m a) as (_ & _ & R); auto; try lia. fold g in R. rewrite R.
        pose proof (Z.mod_pos_bound a m ltac:(lia)) as B. rewrite (nth_indep _ 0 (f 0)) by (unfold zlen in Lc; lia). apply map_nth. }
      apply (cpl_cons Mx HM (Datatypes.S W) _ g g').
      * intros a Ha. destruct (remap_ok Mx (map f (cands s)) (cands s') m a) as (R1 & R2 & _); auto; try lia.
      * intros a Ha. destruct (remap_ok Mx (cands s') (map f (cands s)) m a) as (R1 & R2 & _); auto; try lia; [apply (cd_nd _ _ C')|now apply Permutation_sym].
      * intros a Ha. assert (X1 : forall r, candX (fed (tick s) (a :: r)) s = candX (fed (tick s) [a]) s) by (intros r; rewrite !(candX_nth _ s a) by (try apply fed_head; lia); reflexivity).
        destruct (occb (lat s) (candX (fed (tick s) [a]) s)) eqn:OX.
        -- set (h := remap dirs_to dirs0 4). set (h' := remap dirs0 dirs_to 4). pose proof (proj1 (proj2 HF)) as D4.
           assert (ND : NoDup dirs0) by (eapply Permutation_NoDup; [apply dirs_perm|apply dirs_nodup]).
           apply (cpl_cons Mx HM W _ h h').
           ++ intros b Hb. destruct (remap_ok Mx dirs_to dirs0 4 b) as (R1 & R2 & _); auto; try lia; try first [apply dirs_nodup|apply dirs_perm|apply Permutation_sym, dirs_perm|reflexivity].
           ++ intros b Hb. destruct (remap_ok Mx dirs0 dirs_to 4 b) as (R1 & R2 & _); auto; try lia; try first [apply dirs_nodup|apply dirs_perm|apply Permutation_sym, dirs_perm|reflexivity].
           ++ intros b Hb. apply (step_cpl [a; b] [g a; h b] s s' cs W); auto.
              ** intros _. split; [now apply HX|]. intros _. apply (dir_moved _ _ _ _ b).
                 --- cbn [Couple.fed e_draw]. replace (Datatypes.S (tick s) - tick s)%nat with 1%nat by lia. reflexivity.
                 --- cbn [Couple.fed e_draw]. replace (Datatypes.S (tick s') - tick s')%nat with 1%nat by lia. cbn [nth].
                     apply (remap_ok Mx dirs_to dirs0 4 b); auto; try lia; try first [apply dirs_nodup|apply dirs_perm|apply Permutation_sym, dirs_perm|reflexivity].
              ** unfold used. rewrite X1, OX. destruct (Z.leb_spec (L * L) (cur_idx s)); [lia|reflexivity].
              ** intros; apply IH; auto; lia.
        -- apply (step_cpl [a] [g a] s s' cs (Datatypes.S W)); auto.
           ++ intros _. split; [now apply HX|]. rewrite OX. discriminate.
           ++ unfold used. rewrite OX. destruct (Z.leb_spec (L * L) (cur_idx s)); [lia|reflexivity].
           ++ intros; apply IH; auto; lia.
  - refine (cpl_mono Mx W _ _ _ (IH W (fst (detect_wrapping s)) (fst (detect_wrapping s')) ltac:(lia) (detect_sym s s' G))).
    intros w w' _ _. unfold Rel. rewrite (detect_tick L s I), (detect_tick L s' I'). intros (R1 & R2). split; [exact R1|].
    cbn [events exec event_of]. rewrite map_app, R2, Es. destruct (sel_id s); reflexivity.
Qed.
End Words.
End Sim.

(** ** At the start of a realization *)
Lemma growing_step cs : Forall growing cs -> Forall stepwise cs.
Proof. intros H. eapply Forall_impl; [|exact H]. intros c [-> | ->]; exact Logic.I. Qed.
Lemma growing_ok L cs : Forall growing cs -> Forall (call_ok L) cs.
Proof. intros H. eapply Forall_impl; [|exact H]. intros c [-> | ->]; exact Logic.I. Qed.
Lemma fresh_described E L s cs : env_ok E -> FreshState L s -> Forall growing cs ->
  let xs := placed_order (events E s cs) in described L xs (after E s cs) /\ (3 <= L -> tracked cs -> loop_described L xs (after E s cs)).
Proof.
  intros HE F Hg xs. pose proof (growing_step cs Hg) as Hs. pose proof (growing_ok L cs Hg) as Hc. pose proof (fresh_inv _ _ F) as H.
  assert (D0 : Dx L [] s).
  { split; auto. split; [constructor|]. pose proof (i_occ _ _ H) as Q. rewrite (fs_occ _ _ F) in Q.
    intros i. split; [intros []|]. intros (Hi & Ho). pose proof (count_zero _ _ (eq_sym Q) i ltac:(now apply In_zrange)) as Z. apply occb_true in Ho. congruence. }
  pose proof (after_dx E L cs HE [] s Hc Hs D0) as D. change (add [] (events E s cs)) with xs in D. split.
  - apply described_dx; auto. rewrite (shannon_hh L) by (now apply after_inv). apply ent_after; auto. now apply fresh_ent.
  - intros H3 T. assert (P0 : PcI L s).
    { split; [split; [exact H|intros _; now apply fresh_flat]|]. intros Hw. pose proof (proj1 (fs_wrap _ _ F)). congruence. }
    apply loop_dx; auto.
    + now apply tracked_pc.
    + apply (after_hx E L cs HE H3 T [] s); auto. intros Hw. pose proof (proj1 (fs_wrap _ _ F)). congruence.
Qed.
Lemma fresh_sites E L s cs : env_ok E -> FreshState L s -> Forall growing cs ->
  NoDup (placed_order (events E s cs)) /\ Forall (is_site L) (placed_order (events E s cs)).
Proof.
  intros HE F Hg. pose proof (growing_step cs Hg) as Hs. pose proof (growing_ok L cs Hg) as Hc. pose proof (fresh_inv _ _ F) as H.
  assert (D0 : Dx L [] s).
  { split; auto. split; [constructor|]. pose proof (i_occ _ _ H) as Q. rewrite (fs_occ _ _ F) in Q.
    intros i. split; [intros []|]. intros (Hi & Ho). pose proof (count_zero _ _ (eq_sym Q) i ltac:(now apply In_zrange)) as Z. apply occb_true in Ho. congruence. }
  pose proof (after_dx E L cs HE [] s Hc Hs D0) as (_ & N & I). split; [exact N|]. apply Forall_forall. intros x Hx. now apply I.
Qed.
Lemma start_rel f D L k s : is_L12 k = true -> symmetry L f D -> Start12 k L s -> Permutation (zrange (L * L)) (ids s) ->
  GRel f L k (put_sel None None s) (put_sel None None s).
Proof.
  intros Hk S [F K _ _ _ _ _] P.
  assert (F0 : FreshState L (put_sel None None s)) by (destruct F; constructor; auto).
  destruct (fresh_cand L (put_sel None None s) F0) as (C & _); [now rewrite <- K in Hk|exact P|]. pose proof (fresh_inv _ _ F0) as H.
  assert (Fl : forall i, is_site L i -> occb (lat s) i = false /\ nn1 (lat s) i = 4 /\ nn2 (lat s) i = 4).
  { intros i Hi. destruct (fr_site _ _ (fs_lat _ _ F) i Hi) as (Q & _ & Q1 & Q2). split; auto. unfold occb. now rewrite Q. }
  constructor; auto.
  - assert (Qc : cands (put_sel None None s) = ids s) by (unfold cands; cbn [put_sel cur_idx ids set_cur_site set_sel_id]; now rewrite (fs_cur _ _ F)). rewrite Qc.
    eapply perm_trans; [apply Permutation_map, Permutation_sym; exact P|]. eapply perm_trans; [|exact P]. apply onto.
    + intros i Hi. now apply (sy_site _ _ _ S).
    + intros i j Hi Hj. now apply (sy_inj _ _ _ S).
  - intros i Hi. change (lat (put_sel None None s)) with (lat s). now rewrite (proj1 (Fl i Hi)), (proj1 (Fl (f i) (sy_site _ _ _ S i Hi))).
  - intros i Hi. change (lat (put_sel None None s)) with (lat s). now rewrite (proj1 (proj2 (Fl i Hi))), (proj1 (proj2 (Fl (f i) (sy_site _ _ _ S i Hi)))).
  - intros i Hi. change (lat (put_sel None None s)) with (lat s). now rewrite (proj2 (proj2 (Fl i Hi))), (proj2 (proj2 (Fl (f i) (sy_site _ _ _ S i Hi)))).
Qed.
Lemma forget_events E L k s cs : is_L12 k = true -> Start12 k L s -> starts cs -> Forall growing cs ->
  after E (put_sel None None s) cs = after E s cs /\ events E (put_sel None None s) cs = events E s cs.
Proof.
  intros Hk S Hs Hg. destruct cs as [|c cs]; [contradiction|]. inversion Hg as [|? ? Hc _]; subst.
  assert (c = CPlace) as -> by (destruct Hc as [-> | ->]; auto; contradiction).
  assert (G : place_one_site E (put_sel None None s) = place_one_site E s).
  { unfold place_one_site. unfold mbind at 1. rewrite (select_blind12 E L) by (try apply S; now rewrite (s2_kind _ _ _ S)). reflexivity. }
  split; [|cbn [events exec event_of]; now rewrite G]. unfold after. cbn [fold_left exec]. now rewrite G.
Qed.

Section Final.
Variables (ord : list Z -> list Z) (Mx : Z) (k : pkind) (L : Z) (f : Z -> Z) (D : dir -> dir) (s : perc) (cs : list call) (W : nat).
Hypothesis Hord : env_ok (mkEnv ord (fun _ => 0)).
Hypothesis HL : 0 < L.
Hypothesis HF : fair Mx (L * L).
Hypothesis RS : rule_symmetry k L f D.
Hypothesis Hs : at_start ord k L s.
Hypothesis Hp : Permutation (zrange (L * L)) (ids s).
Hypothesis Hg : Forall growing cs.
Hypothesis Hst : starts cs.
Hypothesis HW : (2 * all_tries cs <= W)%nat.
Lemma rs_kind : is_L12 k = true. Proof. destruct RS as (_ & [-> |(-> & _)]); reflexivity. Qed.
Let S12 : Start12 k L s := start12 ord k L Hord HL rs_kind s Hs.
Definition draws (w : list Z) : env := fed ord (tick s) w.
Lemma words_ext (A : perc -> list event -> Prop) w : words Mx W w ->
  ((forall d, (forall i, (i < W)%nat -> d (tick s + i)%nat = nth i w 0) -> A (after (mkEnv ord d) s cs) (events (mkEnv ord d) s cs)) <-> A (after (draws w) s cs) (events (draws w) s cs)).
Proof.
  intros Hw. split.
  - intros H. apply (H (e_draw (draws w))). intros i Hi. unfold draws. cbn [Couple.fed e_draw]. f_equal. lia.
  - intros H d Hd. destruct (grow_upto ord cs Hg (e_draw (draws w)) d s) as (A1 & A2).
    { intros i Hi. replace i with (tick s + (i - tick s))%nat at 1 by lia. rewrite Hd by lia. unfold draws. cbn [Couple.fed e_draw]. reflexivity. }
    rewrite A1, A2. exact H.
Qed.
Lemma moved_cpl : cpl Mx W (fun w w' => placed_order (events (draws w') s cs) = map f (placed_order (events (draws w) s cs))).
Proof.
  pose proof (run_cpl f D L k rs_kind RS Mx ord HF Hord cs Hg W _ _ HW (start_rel f D L k s rs_kind (proj1 RS) S12 Hp)) as C.
  refine (cpl_mono Mx W _ _ _ C). intros w w' _ _ (_ & R). change (tick (put_sel None None s)) with (tick s) in R.
  rewrite !(proj2 (forget_events _ L k s cs rs_kind S12 Hst Hg)) in R. unfold draws. rewrite R. apply order_mv.
Qed.
Lemma draws_ok w : env_ok (draws w). Proof. exact Hord. Qed.
Lemma q_orders A m : how_many (ordering ord Mx W s cs (fun l => A (map f l))) m <-> how_many (ordering ord Mx W s cs A) m.
Proof.
  apply (cpl_count Mx W); [|now intros w (V & _)|now intros w (V & _)]. refine (cpl_mono Mx W _ _ _ moved_cpl). intros w w' Vw Vw' R. cbv beta in R. unfold ordering.
  rewrite (words_ext (fun _ e => A (map f (placed_order e))) w Vw), (words_ext (fun _ e => A (placed_order e)) w' Vw'). rewrite R. tauto.
Qed.
Lemma q_values Q Q' m : (forall s t, same_set_values L f s t -> (Q s <-> Q' t)) ->
  (how_many (drawing ord Mx W s cs Q) m <-> how_many (drawing ord Mx W s cs Q') m).
Proof.
  intros HQ. apply (cpl_count Mx W); [|now intros w (V & _)|now intros w (V & _)]. refine (cpl_mono Mx W _ _ _ moved_cpl). intros w w' Vw Vw' R. cbv beta in R. unfold drawing.
  rewrite (words_ext (fun z _ => Q z) w Vw), (words_ext (fun z _ => Q' z) w' Vw').
  destruct (fresh_described (draws w) L s cs (draws_ok w) (s2_fresh _ _ _ S12) Hg) as (A & _). destruct (fresh_described (draws w') L s cs (draws_ok w') (s2_fresh _ _ _ S12) Hg) as (B & _).
  rewrite R in B. assert (G : Q (after (draws w) s cs) <-> Q' (after (draws w') s cs)); [|tauto]. apply HQ.
  apply (sym_described L f D HL (proj1 RS) _ _ (map_iff L f D (proj1 RS) _ (de_sites _ _ _ A)) _ _ A B).
Qed.
Lemma q_loops Q Q' m : 3 <= L -> tracked cs -> moved_question L f Q Q' ->
  (how_many (drawing ord Mx W s cs Q) m <-> how_many (drawing ord Mx W s cs Q') m).
Proof.
  intros H3 T HQ. apply (cpl_count Mx W); [|now intros w (V & _)|now intros w (V & _)]. refine (cpl_mono Mx W _ _ _ moved_cpl). intros w w' Vw Vw' R. cbv beta in R. unfold drawing.
  rewrite (words_ext (fun z _ => Q z) w Vw), (words_ext (fun z _ => Q' z) w' Vw').
  destruct (fresh_described (draws w) L s cs (draws_ok w) (s2_fresh _ _ _ S12) Hg) as (A & A'). destruct (fresh_described (draws w') L s cs (draws_ok w') (s2_fresh _ _ _ S12) Hg) as (B & B').
  specialize (A' H3 T). specialize (B' H3 T). rewrite R in B, B'. assert (G : Q (after (draws w) s cs) <-> Q' (after (draws w') s cs)); [|tauto]. apply HQ.
  - apply (sym_described L f D HL (proj1 RS) _ _ (map_iff L f D (proj1 RS) _ (de_sites _ _ _ A)) _ _ A B).
  - apply (sym_loop L f D HL (proj1 RS) _ _ _ (de_sites _ _ _ A) A' B').
Qed.
Lemma order_ext A B m : (forall l, NoDup l -> Forall (is_site L) l -> (A l <-> B l)) -> how_many (ordering ord Mx W s cs A) m -> how_many (ordering ord Mx W s cs B) m.
Proof.
  intros HA. apply how_iff. intros w. unfold ordering. split; intros (V & H); (split; [exact V|]); revert H.
  - rewrite (words_ext (fun _ e => A (placed_order e)) w V), (words_ext (fun _ e => B (placed_order e)) w V). destruct (fresh_sites (draws w) L s cs (draws_ok w) (s2_fresh _ _ _ S12) Hg) as (De & Df). now apply HA.
  - rewrite (words_ext (fun _ e => A (placed_order e)) w V), (words_ext (fun _ e => B (placed_order e)) w V). destruct (fresh_sites (draws w) L s cs (draws_ok w) (s2_fresh _ _ _ S12) Hg) as (De & Df). now apply HA.
Qed.
End Final.

(** ** Corollaries *)
Lemma sym_same L f g D : 0 < L -> (forall i, is_site L i -> f i = g i) -> symmetry L f D -> symmetry L g D.
Proof.
  intros HL H [A1 A2 A3 A4 A5]. constructor; auto.
  - intros i Hi. rewrite <- H; auto.
  - intros i j Hi Hj. rewrite <- !H by auto. now apply A2.
  - intros i d Hi. rewrite <- !H by (auto; now apply nbr_site). now apply A3.
Qed.
Lemma flip_eq L i : 0 < L -> translate L 0 (-1) (mirror L i) = flip L i.
Proof.
  intros HL. unfold translate, mirror, flip. rewrite row_at, col_at by auto. apply at_rc_congr.
  - rewrite Z.add_0_r, Zmod_mod. reflexivity.
  - rewrite Zplus_mod_idemp_l. replace (L - 1 - col L i) with (- col L i + -1 + 1 * L) by lia. now rewrite Z.mod_add by lia.
Qed.
Lemma flip_sym L : 0 < L -> symmetry L (flip L) mirror_dir.
Proof.
  intros HL. apply (sym_same L (fun i => translate L 0 (-1) (mirror L i))); auto; [intros i _; now apply flip_eq|].
  exact (compose_sym L _ _ _ _ (translate_sym L 0 (-1) HL) (mirror_sym L HL)).
Qed.
Lemma flip_edge L : 0 < L -> keeps_edge L (flip L) mirror_dir.
Proof.
  intros HL i d Hi. pose proof (row_bound L HL i Hi) as Hr. pose proof (col_bound L HL i) as Hc.
  assert (R : (flip L i) / L = i / L) by (unfold flip; fold (row L (at_rc L (row L i) (L - 1 - col L i))); rewrite row_at by auto; rewrite Z.mod_small by lia; reflexivity).
  assert (C : (flip L i) mod L = L - 1 - i mod L) by (unfold flip; fold (col L (at_rc L (row L i) (L - 1 - col L i))); rewrite col_at by auto; rewrite Z.mod_small by lia; reflexivity).
  destruct d; cbn [mirror_dir straddles]; rewrite ?R, ?C; lia.
Qed.
Lemma transpose_edge L : 0 < L -> keeps_edge L (transpose L) transpose_dir.
Proof.
  intros HL i d Hi. pose proof (row_bound L HL i Hi) as Hr. pose proof (col_bound L HL i) as Hc.
  assert (R : (transpose L i) / L = i mod L) by (unfold transpose; fold (row L (at_rc L (col L i) (row L i))); rewrite row_at by auto; rewrite Z.mod_small by lia; reflexivity).
  assert (C : (transpose L i) mod L = i / L) by (unfold transpose; fold (col L (at_rc L (col L i) (row L i))); rewrite col_at by auto; rewrite Z.mod_small by lia; reflexivity).
  destruct d; cbn [transpose_dir straddles]; rewrite ?R, ?C; lia.
Qed.
Lemma p_C113_symmetries L : 0 < L ->
  (forall r c, rule_symmetry KL1 L (translate L r c) (fun d => d)) /\
  (forall k, k = KL1 \/ k = KL2 -> rule_symmetry k L (transpose L) transpose_dir /\ rule_symmetry k L (flip L) mirror_dir /\
    forall f D g F, rule_symmetry k L f D -> rule_symmetry k L g F -> rule_symmetry k L (fun i => f (g i)) (fun d => D (F d))) /\
  (2 <= L -> ~ rule_symmetry KL2 L (translate L 0 1) (fun d => d)).
Proof.
  intros HL. split; [|split].
  - intros r c. split; [now apply translate_sym|now left].
  - intros k Hk. split; [split; [now apply transpose_sym|destruct Hk as [->| ->]; [now left|right; split; auto; now apply transpose_edge]]|].
    split; [split; [now apply flip_sym|destruct Hk as [->| ->]; [now left|right; split; auto; now apply flip_edge]]|].
    intros f D g F (A & A') (B & B'). split; [now apply (compose_sym L f D g F)|]. destruct A' as [|(_ & A')]; [now left|]. destruct B' as [|(E & B')]; [now left|]. right. split; auto.
    intros i d Hi. rewrite (B' i d Hi). apply A'. now apply (sy_site _ _ _ B).
  - intros H2 (_ & [C|(_ & K)]); [discriminate|]. specialize (K (L - 1) DRight). assert (Hi : is_site L (L - 1)) by (unfold is_site; nia). specialize (K Hi). cbn [straddles] in K.
    assert (C1 : (L - 1) mod L = L - 1) by (apply Z.mod_small; lia). assert (C2 : (translate L 0 1 (L - 1)) mod L = 0).
    { unfold translate. fold (col L (at_rc L (row L (L - 1) + 0) (col L (L - 1) + 1))). rewrite col_at by auto. unfold col. rewrite C1. replace (L - 1 + 1) with L by lia. apply Z_mod_same_full. }
    rewrite C1, C2 in K. lia.
Qed.
Lemma map_sites_inj L f D l j : symmetry L f D -> Forall (is_site L) l -> is_site L j -> (In (f j) (map f l) <-> In j l).
Proof.
  intros S Fl Hj. rewrite in_map_iff. split; [|intros H; exists j; auto]. intros (x & E & Hx). apply (sy_inj _ _ _ S) in E; auto; [now subst|]. now apply (proj1 (Forall_forall _ _) Fl).
Qed.
Lemma nth_sites_inj L f D l n j : symmetry L f D -> Forall (is_site L) l -> is_site L j -> (nth_error (map f l) n = Some (f j) <-> nth_error l n = Some j).
Proof.
  intros S Fl Hj. rewrite nth_error_map. destruct (nth_error l n) as [x|] eqn:Ex; cbn [option_map]; [|split; discriminate]. apply nth_error_In in Ex.
  split; intros [= E]; [|now subst]. apply (sy_inj _ _ _ S) in E; auto; [now subst|]. now apply (proj1 (Forall_forall _ _) Fl).
Qed.
Section L1.
Variables (ord : list Z -> list Z) (Mx : Z) (L : Z) (s : perc) (cs : list call) (W : nat).
Hypothesis Hord : env_ok (mkEnv ord (fun _ => 0)).
Hypothesis HL : 0 < L.
Hypothesis HF : fair Mx (L * L).
Hypothesis Hs : at_start ord KL1 L s.
Hypothesis Hp : Permutation (zrange (L * L)) (ids s).
Hypothesis Hg : Forall growing cs.
Hypothesis Hst : starts cs.
Hypothesis HW : (2 * all_tries cs <= W)%nat.
Lemma l1_ext A B m : (forall l, NoDup l -> Forall (is_site L) l -> (A l <-> B l)) -> how_many (ordering ord Mx W s cs A) m -> how_many (ordering ord Mx W s cs B) m.
Proof.
  apply (order_ext ord Mx KL1 L (translate L 0 0) (fun d => d) s cs W); auto. split; [now apply translate_sym|now left].
Qed.
Lemma l1_move i j (A : list Z -> Z -> Prop) m : (forall f l x, symmetry L f (fun d => d) -> NoDup l -> Forall (is_site L) l -> is_site L x -> (A (map f l) (f x) <-> A l x)) ->
  is_site L i -> is_site L j -> how_many (ordering ord Mx W s cs (fun l => A l i)) m -> how_many (ordering ord Mx W s cs (fun l => A l j)) m.
Proof.
  intros HA Hi Hj H. destruct (translate_to L HL i j Hi Hj) as (r & c & E). pose proof (translate_sym L r c HL) as S.
  apply (q_orders ord Mx KL1 L (translate L r c) (fun d => d) s cs W); auto; [split; [exact S|now left]|].
  apply (l1_ext (fun l => A l i)); auto. intros l N Fl. rewrite <- E. symmetry. now apply HA.
Qed.
Lemma q_L1 n m : (exists i, is_site L i /\ how_many (ordering ord Mx W s cs (fun l => nth_error l n = Some i)) m) ->
  (forall j, is_site L j -> how_many (ordering ord Mx W s cs (fun l => nth_error l n = Some j)) m) /\
  how_many (ordering ord Mx W s cs (fun l => (n < length l)%nat)) (L * L * m).
Proof.
  intros (i & Hi & H).
  assert (G : forall j, is_site L j -> how_many (ordering ord Mx W s cs (fun l => nth_error l n = Some j)) m).
  { intros j Hj. apply (l1_move i j (fun l x => nth_error l n = Some x)); auto. intros f l x S _ Fl Hx. now apply (nth_sites_inj L f (fun d => d)). }
  split; auto. pose proof (LL_pos L HL) as HLL.
  assert (K : forall c : nat, Z.of_nat c <= L * L -> how_many (ordering ord Mx W s cs (fun l => exists x, 0 <= x < Z.of_nat c /\ nth_error l n = Some x)) (Z.of_nat c * m)).
  { induction c as [|c IH]; intros Hc.
    - exists []. split; [constructor|]. split; [|reflexivity]. intros w. split; [intros []|]. intros (V & Q).
      destruct (Q (e_draw (fed ord (tick s) w))) as (x & Hx & _); [|cbn in Hx; lia]. intros q Hq. cbn [Couple.fed e_draw]. f_equal. lia.
    - assert (Hcs : is_site L (Z.of_nat c)) by (unfold is_site; lia). specialize (IH ltac:(lia)). specialize (G _ Hcs).
      replace (Z.of_nat (S c) * m) with (Z.of_nat c * m + m) by lia.
      refine (how_iff _ _ _ _ (how_or _ _ _ _ IH G _)).
      + intros w. unfold ordering. split.
        * intros [(V & Q)|(V & Q)]; (split; [exact V|]); intros d Hd; specialize (Q d Hd); [destruct Q as (x & Hx & Q); exists x; split; [lia|exact Q]|exists (Z.of_nat c); split; [lia|exact Q]].
        * intros (V & Q). destruct (Q (e_draw (fed ord (tick s) w))) as (x & Hx & Ex); [intros q Hq; cbn [Couple.fed e_draw]; f_equal; lia|].
          assert (U : forall d, (forall i, (i < W)%nat -> d (tick s + i)%nat = nth i w 0) -> nth_error (placed_order (events (mkEnv ord d) s cs)) n = Some x).
          { intros d Hd. destruct (grow_upto ord cs Hg (e_draw (fed ord (tick s) w)) d s) as (_ & A2); [|rewrite A2; exact Ex].
            intros q Hq. replace q with (tick s + (q - tick s))%nat at 1 by lia. rewrite Hd by lia. reflexivity. }
          destruct (Z.eq_dec x (Z.of_nat c)) as [->|Nx]; [right; split; auto|left; split; [exact V|]]. intros d Hd. exists x. split; [lia|now apply U].
      + intros w (V & Q) (_ & Q'). destruct (Q (e_draw (fed ord (tick s) w))) as (x & Hx & Ex); [intros q Hq; cbn [Couple.fed e_draw]; f_equal; lia|].
        specialize (Q' (e_draw (fed ord (tick s) w)) ltac:(intros q Hq; cbn [Couple.fed e_draw]; f_equal; lia)). rewrite Ex in Q'. injection Q' as Q'. lia. }
  specialize (K (Z.to_nat (L * L)) ltac:(lia)). rewrite Z2Nat.id in K by lia. revert K. apply l1_ext. intros l _ Fl. split.
  - intros (x & _ & Ex). apply nth_error_Some. congruence.
  - intros Hn. apply nth_error_Some in Hn. destruct (nth_error l n) as [x|] eqn:Ex; [|congruence]. exists x. split; auto. apply nth_error_In in Ex.
    exact (proj1 (Forall_forall _ _) Fl x Ex).
Qed.
Lemma q_L1_in i j m : is_site L i -> is_site L j -> how_many (ordering ord Mx W s cs (fun l => In i l)) m -> how_many (ordering ord Mx W s cs (fun l => In j l)) m.
Proof.
  intros Hi Hj. apply (l1_move i j (fun l x => In x l)); auto. intros f l x S _ Fl Hx. now apply (map_sites_inj L f (fun d => d)).
Qed.
End L1.

(** ** The statements *)
Lemma p_C113_orders ord Mx k L f D s cs W A m : env_ok (mkEnv ord (fun _ => 0)) -> 0 < L -> fair Mx (L * L) -> rule_symmetry k L f D ->
  at_start ord k L s -> Permutation (zrange (L * L)) (ids s) -> Forall growing cs -> starts cs -> (2 * all_tries cs <= W)%nat ->
  (how_many (ordering ord Mx W s cs (fun l => A (map f l))) m <-> how_many (ordering ord Mx W s cs A) m).
Proof. intros. now apply (q_orders ord Mx k L f D). Qed.
Lemma p_C113_values ord Mx k L f D s cs W Q Q' m : env_ok (mkEnv ord (fun _ => 0)) -> 0 < L -> fair Mx (L * L) -> rule_symmetry k L f D ->
  at_start ord k L s -> Permutation (zrange (L * L)) (ids s) -> Forall growing cs -> starts cs -> (2 * all_tries cs <= W)%nat ->
  (forall s t, same_set_values L f s t -> (Q s <-> Q' t)) ->
  (how_many (drawing ord Mx W s cs Q) m <-> how_many (drawing ord Mx W s cs Q') m).
Proof. intros. now apply (q_values ord Mx k L f D). Qed.
Lemma p_C113_loops ord Mx k L f D s cs W Q Q' m : env_ok (mkEnv ord (fun _ => 0)) -> 3 <= L -> fair Mx (L * L) -> rule_symmetry k L f D ->
  at_start ord k L s -> Permutation (zrange (L * L)) (ids s) -> Forall growing cs -> starts cs -> tracked cs -> (2 * all_tries cs <= W)%nat ->
  moved_question L f Q Q' ->
  (how_many (drawing ord Mx W s cs Q) m <-> how_many (drawing ord Mx W s cs Q') m).
Proof. intros. apply (q_loops ord Mx k L f D); auto. lia. Qed.
Lemma p_C113_L1 ord Mx L s cs W : env_ok (mkEnv ord (fun _ => 0)) -> 0 < L -> fair Mx (L * L) ->
  at_start ord KL1 L s -> Permutation (zrange (L * L)) (ids s) -> Forall growing cs -> starts cs -> (2 * all_tries cs <= W)%nat ->
  (forall n i m, is_site L i -> how_many (ordering ord Mx W s cs (fun l => nth_error l n = Some i)) m ->
     (forall j, is_site L j -> how_many (ordering ord Mx W s cs (fun l => nth_error l n = Some j)) m) /\
     how_many (ordering ord Mx W s cs (fun l => (n < length l)%nat)) (L * L * m)) /\
  (forall i j m, is_site L i -> is_site L j -> how_many (ordering ord Mx W s cs (In i)) m -> how_many (ordering ord Mx W s cs (In j)) m).
Proof.
  intros. split; [intros n i m Hi Hm; apply (q_L1 ord Mx L s cs W); eauto|]. intros i j m Hi Hj Hm. now apply (q_L1_in ord Mx L s cs W) with i.
Qed.
Lemma count_ordering ord Mx W s cs (A : list Z -> Prop) (b : list Z -> bool) : (forall l, b l = true <-> A l) -> Forall growing cs -> (2 * all_tries cs <= W)%nat ->
  how_many (ordering ord Mx W s cs A) (zlen (filter (fun w => b (placed_order (events (fed ord (tick s) w) s cs))) (all_words Mx W))).
Proof.
  intros Hb Hg HW. exists (filter (fun w => b (placed_order (events (fed ord (tick s) w) s cs))) (all_words Mx W)). split; [apply NoDup_filter, all_words_nodup|]. split; [|reflexivity].
  intros w. rewrite filter_In, all_words_in, Hb. split.
  - intros (V & H). split; [exact V|]. exact (proj2 (words_ext ord Mx s cs W Hg HW (fun _ e => A (placed_order e)) w V) H).
  - intros (V & H). split; [exact V|]. exact (proj1 (words_ext ord Mx s cs W Hg HW (fun _ e => A (placed_order e)) w V) H).
Qed.
