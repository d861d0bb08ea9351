(** * L1Chance: runs of the L1 rule whose site orders are translates of each other. *)
From Coq Require Import ZArith List Bool Lia Permutation Arith Factorial.
From Verif Require Import Py Lattice Cluster Perc Spec History PyFacts Torus Geometry LatFacts Inv Count Select Count Fresh Reach State Step Seq Cand CandRun
  RunProps2 SymSpec Symmetry Describe Wrap StateProps2 StateProps ChanceSpec Chance Unbiased L1ChanceSpec.
Import ListNotations.
Open Scope Z_scope.

Section Sim.
Variables (E E' : env) (f : Z -> Z) (L : Z).
Hypothesis HE : env_ok E.
Hypothesis HE' : env_ok E'.
Hypothesis S : symmetry L f (fun d => d).
Definition agree (t : nat) : Prop := forall m, (t <= m)%nat -> e_draw E' m = e_draw E m.

Record SRel (s s' : perc) : Prop := mkSRel {
  sr_ids : ids s' = map f (ids s);
  sr_cur : cur_idx s' = cur_idx s;
  sr_tick : tick s' = tick s;
  sr_occ : forall i, is_site L i -> occb (lat s') (f i) = occb (lat s) i;
  sr_nn : forall i, is_site L i -> nn1 (lat s') (f i) = nn1 (lat s) i;
  sr_sel : sel_id s' = option_map f (sel_id s)
}.
Record TRel (s s' : perc) : Prop := mkTRel {
  tr_kind : kind s = KL1; tr_kind' : kind s' = KL1;
  tr_inv : Inv L s; tr_inv' : Inv L s';
  tr_cand : Cand L s; tr_cand' : Cand L s';
  tr_sr : SRel s s'
}.

Lemma at_map l i : 0 <= i < zlen l -> at_ 0 (map f l) i = f (at_ 0 l i).
Proof.
  intros H. unfold at_. replace (0 <=? i) with true by lia. rewrite (nth_indep _ 0 (f 0)) by (rewrite map_length; unfold zlen in H; lia). apply map_nth.
Qed.
Lemma upd_map (l : list Z) : forall k x, upd (map f l) k (f x) = map f (upd l k x).
Proof. induction l as [|a l IH]; intros [|k] x; cbn [map upd]; auto. now rewrite IH. Qed.
Lemma zlen_map (l : list Z) : zlen (map f l) = zlen l.
Proof. unfold zlen. now rewrite map_length. Qed.
Lemma f_eqb i j : is_site L i -> is_site L j -> (f i =? f j) = (i =? j).
Proof. intros Hi Hj. destruct (Z.eqb_spec i j) as [->|N]; [apply Z.eqb_refl|]. apply Z.eqb_neq. intros Q. now apply N, (sy_inj _ _ _ S). Qed.

Lemma dec1_occb l X i : Static L l -> is_site L X -> occb (dec1 l X) i = occb l i.
Proof. intros St HX. destruct (set_nn_same L l X (Z.max 0 (nn1 l X - 1)) (nn2 l X) St HX) as ((_ & _ & Q) & _). unfold occb, dec1. now rewrite (proj1 (Q i)). Qed.
Lemma dec1_nn l X i : Static L l -> is_site L X -> nn1 (dec1 l X) i = if i =? X then Z.max 0 (nn1 l X - 1) else nn1 l i.
Proof. intros St HX. destruct (set_nn_same L l X (Z.max 0 (nn1 l X - 1)) (nn2 l X) St HX) as (_ & Q & _). apply Q. Qed.

Lemma sel_rel s s' : TRel s s' -> agree (tick s) ->
  snd (sel E' L s') = snd (sel E L s) /\ SRel (fst (sel E L s)) (fst (sel E' L s')) /\ (tick s <= tick (fst (sel E L s)))%nat.
Proof.
  intros [K K' I I' C C' [Ei Ec Et Eo En Es]] A. unfold sel. rewrite K, K'. unfold sel1.
  pose proof (cd_len _ _ C) as Hl. pose proof (cd_cur _ _ C) as Hc. pose proof (cd_len _ _ C') as Hl'.
  rewrite Ec, Hl'. destruct (Z.leb_spec (L * L) (cur_idx s)) as [Q|Q].
  { cbn [fst snd]. split; auto. split; auto. constructor; auto. }
  rewrite Hl. destruct (Z.leb_spec (L * L) (cur_idx s)) as [Q'|_]; [lia|].
  assert (R : rndi E' s' = rndi E s) by (unfold rndi; rewrite Ec, Et, Hl, Hl', (A (tick s)) by lia; reflexivity).
  pose proof (rndi_range E s ltac:(lia)) as Hr.
  assert (X' : candX E' s' = f (candX E s)) by (unfold candX; rewrite R, Ei; apply at_map; lia).
  assert (HX : is_site L (candX E s)) by (apply candX_site; [apply I|lia]).
  set (X := candX E s) in *. rewrite X', (Eo X HX). destruct (occb (lat s) X) eqn:OX.
  - assert (D : dirk E' (Datatypes.S (tick s')) = dirk E (Datatypes.S (tick s))) by (unfold dirk; rewrite Et, (A (Datatypes.S (tick s))) by lia; reflexivity).
    rewrite D. set (d := dirk E (Datatypes.S (tick s))). rewrite <- (sy_nbr _ _ _ S X d HX).
    assert (HY : is_site L (nbr L X d)) by (apply nbr_site; auto; apply (i_pos _ _ I)).
    rewrite (Eo _ HY). destruct (occb (lat s) (nbr L X d)) eqn:OY; cbn [fst snd].
    + split; [reflexivity|]. pose proof (i_static _ _ I) as St. pose proof (i_static _ _ I') as St'. pose proof (sy_site _ _ _ S X HX) as HfX.
      assert (N : forall i, is_site L i -> nn1 (dec1 (lat s') (f X)) (f i) = nn1 (dec1 (lat s) X) i).
      { intros i Hi. rewrite !dec1_nn by auto. rewrite f_eqb by auto. destruct (i =? X); rewrite En; auto. }
      assert (O : forall i, is_site L i -> occb (dec1 (lat s') (f X)) (f i) = occb (dec1 (lat s) X) i) by (intros i Hi; rewrite !dec1_occb; auto).
      rewrite (N X HX). destruct (nn1 (dec1 (lat s) X) X =? 0).
      * split; [|cbn; lia]. unfold dropped, mutate_ids. constructor; cbn; auto; [|lia].
        rewrite Ec, Ei, R, at_map by lia. apply upd_map.
      * split; [|cbn; lia]. constructor; cbn; auto.
    + split; [reflexivity|]. split; [|cbn; lia]. constructor; cbn; auto.
  - cbn [fst snd]. split; [reflexivity|]. split; [|cbn; lia]. constructor; cbn; auto.
Qed.

Lemma selected_clok Ev s : Inv L s -> Selected L s (fst (sel Ev L s)) (snd (sel Ev L s)) -> ClOK L (lat (fst (sel Ev L s))) (pool (fst (sel Ev L s))).
Proof.
  intros H Sd. set (s1 := fst (sel Ev L s)) in *. assert (Ep : pool s1 = pool s) by exact (f_equal pool (sd_core _ _ _ _ Sd)). rewrite Ep.
  eapply ClOK_same; [apply (i_cl _ _ H)|apply (sd_lab _ _ _ _ Sd)].
Qed.
Lemma core2_tick a b : core2 a = core2 b -> tick a = tick b.
Proof. intros H. exact (f_equal tick H). Qed.

Lemma place_rel s s' : TRel s s' -> agree (tick s) ->
  TRel (fst (place_one_site E s)) (fst (place_one_site E' s')) /\ (tick s <= tick (fst (place_one_site E s)))%nat /\
  event_of E' s' CPlace = map (fun e => match e with EPlace x => EPlace (f x) | ECheck x => ECheck (f x) | EClear => EClear end) (event_of E s CPlace).
Proof.
  intros T A. destruct (sel_rel s s' T A) as (Er & R & Ht). destruct T as [K K' I I' C C' _].
  destruct (place_cand E L s HE I C) as (J & D & Kj & _). destruct (place_cand E' L s' HE' I' C') as (J' & D' & Kj' & _).
  destruct (place_spec E L s HE I) as (Sd & P). destruct (place_spec E' L s' HE' I') as (Sd' & P').
  pose proof (selected_clok E s I Sd) as Q. pose proof (selected_clok E' s' I' Sd') as Q'. cbn [event_of].
  destruct (sel E L s) as [s1 r]. destruct (sel E' L s') as [s1' r']. cbn [fst snd] in *. subst r'.
  destruct r as [[]|e].
  - destruct P as (x & t & root & E1 & E2 & Ep & Pd). destruct P' as (x' & t' & root' & E1' & E2' & Ep' & Pd').
    assert (x' = f x) as -> by (pose proof (sr_sel _ _ R) as W; rewrite E1, E1' in W; cbn in W; congruence).
    rewrite Ep, Ep' in *. cbn [fst snd] in *. pose proof (pd_core _ _ _ _ _ _ Pd) as Ct. pose proof (pd_core _ _ _ _ _ _ Pd') as Ct'.
    destruct (core2_fields _ _ Ct) as (_ & F2 & _ & F4 & _ & _ & _ & F8 & _). destruct (core2_fields _ _ Ct') as (_ & G2 & _ & G4 & _ & _ & _ & G8 & _).
    apply core2_tick in Ct. apply core2_tick in Ct'. pose proof (pd_site _ _ _ _ _ _ Pd) as Hx. destruct R as [R1 R2 R3 R4 R5 R6].
    split; [|split].
    + constructor; try congruence. constructor; try congruence.
      * intros i Hi. rewrite (pd_occb E' L s1' (f x) t' root' Q' Pd') by (now apply (sy_site _ _ _ S)). rewrite (pd_occb E L s1 x t root Q Pd) by auto. rewrite f_eqb by auto. now rewrite R4.
      * intros i Hi. rewrite (proj1 (pd_nn _ _ _ _ _ _ Pd' (f i))), (proj1 (pd_nn _ _ _ _ _ _ Pd i)). auto.
    + lia.
    + unfold flag_is_success. rewrite (pd_flag _ _ _ _ _ _ Pd), (pd_flag _ _ _ _ _ _ Pd'). rewrite F8, G8, E1, E1'. reflexivity.
  - rewrite P, P' in *. cbn [fst snd] in *. split; [|split; [exact Ht|reflexivity]]. constructor; try congruence. destruct R as [R1 R2 R3 R4 R5 R6]. constructor; cbn; auto.
  - rewrite P, P' in *. cbn [fst snd] in *. split; [|split; [exact Ht|reflexivity]]. constructor; try congruence. destruct R as [R1 R2 R3 R4 R5 R6]. constructor; cbn; auto.
  - rewrite P, P' in *. cbn [fst snd] in *. split; [|split; [exact Ht|reflexivity]]. constructor; congruence.
Qed.
Lemma detect_tick s : Inv L s -> tick (fst (detect_wrapping s)) = tick s.
Proof. intros H. rewrite (detect_ok L) by apply H. unfold detect_res. destruct (after_wrap s); auto. destruct (sel_id s); auto. destruct (hitb _ _ _); auto. Qed.
Lemma detect_rel s s' : TRel s s' -> TRel (fst (detect_wrapping s)) (fst (detect_wrapping s')).
Proof.
  intros [K K' I I' C C' [R1 R2 R3 R4 R5 R6]].
  destruct (detect_cand L s I C) as (D & _ & Kd). destruct (detect_cand L s' I' C') as (D' & _ & Kd').
  destruct (detect_fields L s I) as (F1 & _ & F3 & _ & F5 & _). destruct (detect_fields L s' I') as (G1 & _ & G3 & _ & G5 & _).
  destruct (detect_seqv L s I) as (W & _). destruct (detect_seqv L s' I') as (W' & _). destruct (seqv_eqs _ _ W) as (_ & W2 & _). destruct (seqv_eqs _ _ W') as (_ & W2' & _).
  constructor; try congruence; try (now apply detect_inv).
  constructor; rewrite ?detect_tick by auto; try congruence; intros i Hi; rewrite F1, G1; auto.
Qed.
Definition moved (e : event) : event := match e with EPlace x => EPlace (f x) | ECheck x => ECheck (f x) | EClear => EClear end.
Lemma run_rel cs : Forall placing cs -> forall s s', TRel s s' -> agree (tick s) ->
  TRel (after E s cs) (after E' s' cs) /\ events E' s' cs = map moved (events E s cs).
Proof.
  induction 1 as [|c cs Hc _ IH]; intros s s' T A; [split; [exact T|reflexivity]|].
  cbn [events after fold_left]. destruct Hc as [-> | ->]; cbn [exec].
  - destruct (place_rel s s' T A) as (T1 & Ht & Ev). destruct (IH _ _ T1) as (I1 & I2); [intros m Hm; apply A; lia|]. split; [exact I1|].
    rewrite map_app. rewrite Ev. f_equal. exact I2.
  - pose proof (detect_rel s s' T) as T1. destruct (IH _ _ T1) as (I1 & I2); [rewrite detect_tick by apply T; exact A|]. split; [exact I1|].
    rewrite map_app. f_equal; [|exact I2]. cbn [event_of]. rewrite (sr_sel _ _ (tr_sr _ _ T)). destruct (sel_id s); reflexivity.
Qed.
Lemma order_moved evs : placed_order (map moved evs) = map f (placed_order evs).
Proof.
  assert (G : forall evs xs, fold_left note (map moved evs) (map f xs) = map f (fold_left note evs xs)).
  { induction evs0 as [|e evs0 IH]; intros xs; [reflexivity|]. cbn [map fold_left]. rewrite <- IH. f_equal. destruct e; cbn [note moved map]; auto. now rewrite map_app. }
  exact (G evs []).
Qed.
End Sim.

(** ** Counting, when the later draws are given *)
Section Later.
Variables (k : pkind) (L : Z) (t : nat) (w : nat -> Z).
Hypothesis HL : 0 < L.
Let n := Z.to_nat (L * L).
Let ids0 := zrange (L * L).
Let len0 : length ids0 = n := ids0_len L HL.
Let pos0 : (1 <= n)%nat := n_pos L HL.
Definition draws_then (c : list Z) : env := mkEnv (nodup Z.eq_dec)
  (fun m => if (m <? t + (Z.to_nat (L * L) - 1))%nat then nth (m - t) c 0 else w (m - (t + (Z.to_nat (L * L) - 1)))).
Lemma draws_then_ok c : env_ok (draws_then c).
Proof. intros l. split; [apply NoDup_nodup|]. intros x. apply nodup_In. Qed.
Lemma draws_then_later c : later_draws L t w (draws_then c).
Proof.
  intros m. unfold draws_then. cbn [e_draw]. destruct (Nat.ltb_spec (t + (Z.to_nat (L * L) - 1) + m) (t + (Z.to_nat (L * L) - 1))); [lia|]. f_equal. lia.
Qed.
Lemma draws_then_choices c : random_choices n c -> choices (draws_then c) t n = c.
Proof.
  intros Hc. rewrite <- (choices_with t n c pos0 Hc) at 2. unfold choices. apply map_ext_in. intros m Hm. apply in_seq in Hm. f_equal.
  unfold draws_then, with_draws. cbn [e_draw]. fold n. destruct (Nat.ltb_spec (t + m) (t + (n - 1))); [reflexivity|lia].
Qed.
(** An object constructed here. *)
Definition made (E : env) (s : perc) : Prop := env_ok E /\ new_perc E k L t = Ok s /\ later_draws L t w E.
Lemma made_perm E s : made E s -> Permutation ids0 (ids s).
Proof. intros (HE & E1 & _). rewrite (new_ids k L t E s E1). unfold random_shuffle. apply shuffle_from_perm. Qed.
Lemma made_onto c : random_choices n c -> exists E s, made E s /\ choices E t n = c /\ ids s = order_of t ids0 c.
Proof.
  intros Hc. set (E := draws_then c). destruct (new_perc_ok E k L t HL) as (lat1 & l & t' & rv & E1 & _).
  match type of E1 with _ = Ok ?S => exists E, S; pose proof (new_ids k L t E S E1) as Q end.
  split; [split; [apply draws_then_ok|split; [exact E1|apply draws_then_later]]|]. pose proof (draws_then_choices c Hc) as Ec. split; [exact Ec|]. rewrite Q.
  apply order_of_env; [apply NoDup_zrange| | |]; rewrite len0; auto; apply pos0.
Qed.
Lemma made_list l : Permutation ids0 l -> exists E s, made E s /\ ids s = l.
Proof.
  intros P. destruct (order_of_onto t ids0 l) as (c & Hc & Eo); auto; [apply NoDup_zrange|rewrite len0; apply pos0|].
  rewrite len0 in Hc. destruct (made_onto c Hc) as (E & s & M & _ & Q). exists E, s. split; auto. congruence.
Qed.
Lemma count_orders (PC : list Z -> Prop) (R : list Z -> Prop) m : (forall c, PC c -> random_choices n c) ->
  (forall c, random_choices n c -> (PC c <-> R (order_of t ids0 c))) ->
  how_many (fun l => Permutation ids0 l /\ R l) m -> how_many PC m.
Proof.
  intros Pr Ev (Y & NY & IY & ->). pose proof len0 as Hlen. pose proof pos0 as Hn. assert (Nd : NoDup ids0) by apply NoDup_zrange.
  destruct (choices_count n Hn) as (X & NX & IX & _).
  set (Yc := filter (fun c => if in_dec (list_eq_dec Z.eq_dec) (order_of t ids0 c) Y then true else false) X).
  assert (IYc : forall c, In c Yc <-> PC c).
  { intros c. unfold Yc. rewrite filter_In, IX. split.
    - intros (A & B). apply Ev; auto. destruct (in_dec _ _ Y) as [C|]; [|discriminate]. now apply IY in C.
    - intros A. assert (B : random_choices n c) by (now apply Pr). split; auto. apply Ev in A; auto.
      destruct (in_dec _ _ Y) as [|C]; auto. exfalso. apply C, IY. split; auto. apply order_of_perm. }
  exists Yc. split; [now apply NoDup_filter|]. split; auto. f_equal.
  rewrite <- (map_length (order_of t ids0) Yc). apply Permutation_length, NoDup_Permutation; auto.
  - assert (NoDup Yc) as NYc by (now apply NoDup_filter). assert (F : forall c, In c Yc -> random_choices n c) by (intros c A; apply IYc in A; now apply Pr).
    clear - NYc F Nd Hlen Hn. induction NYc as [|c l Nc N IH]; [constructor|]. cbn [map]. constructor; [|apply IH; intros c' A; apply F; now right].
    rewrite in_map_iff. intros (c' & E & A). apply Nc. assert (c' = c) as <-; auto. apply (order_of_inj t ids0); rewrite ?Hlen; auto; apply F; [now right|now left].
  - intros l. rewrite in_map_iff, IY. split.
    + intros (P & Rl). destruct (order_of_onto t ids0 l) as (c & Hc & E); auto; [lia|]. rewrite Hlen in Hc. exists c. split; auto. apply IYc, Ev; auto. now rewrite E.
    + intros (c & <- & A). apply IYc in A. split; [apply order_of_perm|]. apply Ev; auto.
Qed.
Lemma count_made (Q : env -> perc -> Prop) (R : list Z -> Prop) m : (forall E s, made E s -> (Q E s <-> R (ids s))) ->
  how_many (fun l => Permutation ids0 l /\ R l) m -> how_many (constructed_with k L t (then_draws L t w Q)) m.
Proof.
  intros QR. apply count_orders; [now intros c (A & _)|]. intros c Hc. unfold constructed_with, then_draws. fold n. split.
  - intros (_ & G). destruct (made_onto c Hc) as (E & s & M & Ec & Es). rewrite <- Es. apply (QR E s M). destruct M as (HE & E1 & W). now apply (G E s).
  - intros G. split; auto. intros E s HE Ec E1 W. apply (QR E s); [split; [exact HE|split; auto]|]. rewrite (new_ids k L t E s E1). fold ids0.
    rewrite (order_of_env E t ids0 c); auto; [apply NoDup_zrange| | |]; rewrite len0; auto; apply pos0.
Qed.

(** A property of a run and a site that moves with the translations. *)
Variable Q : env -> perc -> Z -> Prop.
Hypothesis moves : forall E s E' s' r c x, made E s -> made E' s' -> ids s' = map (translate L r c) (ids s) -> is_site L x -> Q E s x -> Q E' s' (translate L r c x).
Hypothesis dec : forall E s x, made E s -> is_site L x -> Q E s x \/ ~ Q E s x.
Definition of_order (l : list Z) (x : Z) : Prop := exists E s, made E s /\ ids s = l /\ Q E s x.
Lemma translate_0 x : is_site L x -> translate L 0 0 x = x.
Proof. intros Hx. unfold translate. rewrite !Z.add_0_r. now apply at_row_col. Qed.
Lemma map_0 l : Permutation ids0 l -> map (translate L 0 0) l = l.
Proof.
  intros P. rewrite <- (map_id l) at 2. apply map_ext_in. intros x Hx. apply translate_0. apply In_zrange. eapply Permutation_in; [apply Permutation_sym; exact P|exact Hx].
Qed.
Lemma of_order_made E s x : made E s -> is_site L x -> (Q E s x <-> of_order (ids s) x).
Proof.
  intros M Hx. split; [intros A; exists E, s; auto|]. intros (E' & s' & M' & Ei & A). rewrite <- (translate_0 x Hx). apply (moves E' s' E s 0 0 x); auto.
  rewrite Ei, map_0; auto. now apply made_perm in M.
Qed.
Lemma of_order_dec l x : Permutation ids0 l -> is_site L x -> of_order l x \/ ~ of_order l x.
Proof.
  intros P Hx. destruct (made_list l P) as (E & s & M & <-). destruct (dec E s x M Hx) as [A|A]; rewrite (of_order_made E s x M Hx) in A; auto.
Qed.
Lemma of_order_le i j a b : is_site L i -> is_site L j ->
  how_many (fun l => Permutation ids0 l /\ of_order l i) a -> how_many (fun l => Permutation ids0 l /\ of_order l j) b -> a <= b.
Proof.
  intros Hi Hj (Ya & Na & Ia & ->) (Yb & Nb & Ib & ->). destruct (translate_to L HL i j Hi Hj) as (r & c & Ef).
  pose proof (translate_sym L r c HL) as S. apply inj_le. rewrite <- (map_length (map (translate L r c)) Ya). apply NoDup_incl_length.
  - assert (F : forall l, In l Ya -> Permutation ids0 l) by (intros l A; now apply Ia in A). clear - Na F S. induction Na as [|l Y Nl N IH]; [constructor|]. cbn [map]. constructor.
    + rewrite in_map_iff. intros (l' & E & A). apply Nl. assert (l' = l) as <-; auto.
      assert (F1 : forall i, In i l' -> is_site L i). { intros i Q. apply In_zrange. eapply Permutation_in; [apply Permutation_sym, (F _ (or_intror A))|exact Q]. }
      assert (F2 : forall i, In i l -> is_site L i). { intros i Q. apply In_zrange. eapply Permutation_in; [apply Permutation_sym, (F _ (or_introl eq_refl))|exact Q]. }
      clear - E F1 F2 S. revert l E F1 F2. induction l' as [|a l' IH]; intros [|b l] E F1 F2; try discriminate; auto. cbn [map] in E. injection E as E1 E2. f_equal.
      * apply (sy_inj _ _ _ S); auto; [apply F1|apply F2]; now left.
      * apply IH; auto; intros i Q; [apply F1|apply F2]; now right.
    + apply IH. intros l' A. apply F. now right.
  - intros l A. apply in_map_iff in A as (l0 & <- & A). apply Ia in A as (P & E & s & M & Es & A). apply Ib.
    assert (P' : Permutation ids0 (map (translate L r c) l0)).
    { eapply perm_trans; [|apply Permutation_map; exact P]. apply Permutation_sym, (onto (L * L) (translate L r c)).
      - intros y Hy. now apply (sy_site _ _ _ S).
      - intros y z Hy Hz. now apply (sy_inj _ _ _ S). }
    split; auto. destruct (made_list _ P') as (E' & s' & M' & Es'). exists E', s'. split; auto. split; auto. rewrite <- Ef. apply (moves E s E' s'); auto. congruence.
Qed.
Lemma made_equal : exists good, forall x, is_site L x -> how_many (constructed_with k L t (then_draws L t w (fun E s => Q E s x))) good.
Proof.
  pose proof (perms_count ids0 (NoDup_zrange _)) as Tot.
  assert (G : forall x, is_site L x -> exists g, how_many (fun l => Permutation ids0 l /\ of_order l x) g).
  { intros x Hx. apply (how_sub _ (fun l => of_order l x) _ Tot). intros l P. now apply of_order_dec. }
  assert (H0 : is_site L 0) by (pose proof (LL_pos L HL); unfold is_site; lia). destruct (G 0 H0) as (g & Hg). exists g. intros x Hx.
  apply (count_made _ (fun l => of_order l x)); [intros E s M; now apply of_order_made|]. destruct (G x Hx) as (g' & Hg').
  assert (g' = g) as <-; auto. pose proof (of_order_le 0 x g g' H0 Hx Hg Hg'). pose proof (of_order_le x 0 g' g Hx H0 Hg' Hg). lia.
Qed.
Hypothesis one : forall E s x y, made E s -> Q E s x -> Q E s y -> x = y.
Hypothesis sites : forall E s x, made E s -> Q E s x -> is_site L x.
Hypothesis dec_any : forall E s, made E s -> (exists x, Q E s x) \/ ~ exists x, Q E s x.
Lemma made_split : exists all, how_many (constructed_with k L t (then_draws L t w (fun E s => exists x, Q E s x))) all /\
  forall x, is_site L x -> exists good, how_many (constructed_with k L t (then_draws L t w (fun E s => Q E s x))) good /\ L * L * good = all.
Proof.
  pose proof (LL_pos L HL) as HLL. pose proof (perms_count ids0 (NoDup_zrange _)) as Tot.
  destruct (how_sub _ (fun l => exists x, In x ids0 /\ of_order l x) _ Tot) as (all & Hall).
  { intros l P. destruct (made_list l P) as (E & s & M & <-). destruct (dec_any E s M) as [(x & A)|N].
    - left. pose proof (sites E s x M A) as Hx. exists x. split; [now apply In_zrange|]. now apply (of_order_made E s x M Hx).
    - right. intros (x & Hx & A). apply In_zrange in Hx. apply N. exists x. now apply (of_order_made E s x M Hx). }
  exists all. split.
  - apply (count_made _ (fun l => exists x, In x ids0 /\ of_order l x)); auto. intros E s M. split.
    + intros (x & A). pose proof (sites E s x M A) as Hx. exists x. split; [now apply In_zrange|now apply (of_order_made E s x M Hx)].
    + intros (x & Hx & A). apply In_zrange in Hx. exists x. now apply (of_order_made E s x M Hx).
  - intros x Hx. pose proof (zlen_zrange (L * L) ltac:(lia)) as Zl. fold ids0 in Zl.
    destruct (how_split (Permutation ids0) of_order ids0 all) with (i := x) as (good & Hg & Eg); eauto.
    + apply NoDup_zrange.
    + intros l i P Hi. apply In_zrange in Hi. now apply of_order_dec.
    + intros l a b (E & s & M & Es & A) (E' & s' & M' & Es' & B). apply (one E s a b M A).
      pose proof (sites E' s' b M' B) as Hb. apply (of_order_made E s b M Hb). exists E', s'. split; auto. split; auto. congruence.
    + intros i j a b Hi Hj. apply In_zrange in Hi. apply In_zrange in Hj. now apply of_order_le.
    + now apply In_zrange.
    + exists good. split; [|rewrite <- Zl; exact Eg]. apply (count_made _ (fun l => of_order l x)); auto. intros E s M. now apply (of_order_made E s x M Hx).
Qed.
Lemma made_share : (forall E s, made E s -> exists x, Q E s x) -> forall x, is_site L x -> share k L t (then_draws L t w (fun E s => Q E s x)) 1 (L * L).
Proof.
  intros Ex x Hx. destruct made_split as (all & Ha & G). destruct (G x Hx) as (good & Hg & Eg). exists (Z.of_nat (fact n)), good.
  split; [pose proof (lt_O_fact n); lia|]. pose proof (choices_count n pos0) as Hc. split; [exact Hc|]. split; auto. rewrite Eg, Z.mul_1_l. apply (how_fun _ _ _ Ha).
  eapply how_iff; [|exact Hc]. intros c. split.
  - intros A. split; [exact A|]. intros E s HE Ec E1 W. apply Ex. split; [exact HE|split; auto].
  - intros (A & _). exact A.
Qed.
End Later.

(** ** The L1 rule *)
Lemma shuffle_from_tick E k : forall t l, snd (shuffle_from E k t l) = (t + k)%nat.
Proof. induction k as [|k IH]; intros t l; cbn [shuffle_from snd]; [lia|]. rewrite IH. lia. Qed.
Lemma shuffle_tick E s : do_shuffle s = true -> tick (fst (shuffle E s)) = (tick s + pred (length (ids s)))%nat.
Proof.
  intros Hd. unfold shuffle, mbind, get. rewrite Hd, andb_false_r. pose proof (shuffle_from_tick E (pred (length (ids s))) (tick s) (ids s)) as Q.
  unfold random_shuffle. destruct (shuffle_from _ _ _ _) as [l t]. cbn [snd] in Q. unfold modify, lift. destruct (foldM _ _ _); cbn; auto.
Qed.
Lemma new_tick E k L t s : 0 < L -> new_perc E k L t = Ok s -> tick s = (t + (Z.to_nat (L * L) - 1))%nat /\ sel_id s = None.
Proof.
  intros HL H. pose proof (ids0_len L HL) as Q0. unfold new_perc in H. destruct (new_lattice L) as [l0|]; [|discriminate]. cbn [rbind] in H.
  destruct (init_clusters l0) as [[p l1]|]; [|discriminate]. cbn [rbind] in H. destruct (log_int _) as [mx|]; [|discriminate]. cbn [rbind] in H.
  match type of H with context [shuffle E ?S] => pose proof (shuffle_tick E S eq_refl) as Q; assert (W : sel_id (fst (shuffle E S)) = None);
    [|destruct (shuffle E S) as [s1 [u|e]]] end; [|injection H as <-|discriminate].
  - clear. unfold shuffle, mbind, get. cbn [do_shuffle]. rewrite andb_false_r. destruct (random_shuffle _ _ _) as [l t']. unfold modify, lift. destruct (foldM _ _ _); reflexivity.
  - cbn in Q, W. split; auto. rewrite Q, Q0. lia.
Qed.

Section L1.
Variables (L : Z) (t : nat).
Hypothesis HL : 0 < L.
Lemma new_trel E s E' s' r c : env_ok E -> new_perc E KL1 L t = Ok s -> env_ok E' -> new_perc E' KL1 L t = Ok s' ->
  ids s' = map (translate L r c) (ids s) -> TRel (translate L r c) L s s'.
Proof.
  intros HE E1 HE' E1' Ei. destruct (fresh_object_cand E KL1 L s HE eq_refl) as (F & I & K & C & _); [left; now exists t|].
  destruct (fresh_object_cand E' KL1 L s' HE' eq_refl) as (F' & I' & K' & C' & _); [left; now exists t|].
  destruct (new_tick E KL1 L t s HL E1) as (T & Q). destruct (new_tick E' KL1 L t s' HL E1') as (T' & Q').
  pose proof (translate_sym L r c HL) as S.
  constructor; auto. constructor; auto.
  - now rewrite (fs_cur _ _ F), (fs_cur _ _ F').
  - congruence.
  - intros i Hi. unfold occb. destruct (fr_site _ _ (fs_lat _ _ F) i Hi) as (-> & _). destruct (fr_site _ _ (fs_lat _ _ F') (translate L r c i) (sy_site _ _ _ S i Hi)) as (-> & _). reflexivity.
  - intros i Hi. unfold nn1. destruct (fr_site _ _ (fs_lat _ _ F) i Hi) as (_ & _ & -> & _). destruct (fr_site _ _ (fs_lat _ _ F') (translate L r c i) (sy_site _ _ _ S i Hi)) as (_ & _ & -> & _). reflexivity.
  - now rewrite Q, Q'.
Qed.
Lemma p_C105_moves E s E' s' r c cs : env_ok E -> new_perc E KL1 L t = Ok s -> env_ok E' -> new_perc E' KL1 L t = Ok s' ->
  ids s' = map (translate L r c) (ids s) -> (forall m, (t + (Z.to_nat (L * L) - 1) <= m)%nat -> e_draw E' m = e_draw E m) -> Forall placing cs ->
  placed_order (events E' s' cs) = map (translate L r c) (placed_order (events E s cs)) /\
  sel_id (after E' s' cs) = option_map (translate L r c) (sel_id (after E s cs)) /\
  forall i, is_site L i -> (occupied (after E' s' cs) (translate L r c i) <-> occupied (after E s cs) i).
Proof.
  intros HE E1 HE' E1' Ei A Hc. pose proof (new_trel E s E' s' r c HE E1 HE' E1' Ei) as T. pose proof (translate_sym L r c HL) as S.
  destruct (run_rel E E' (translate L r c) L HE HE' S cs Hc s s' T) as (T' & Ev).
  { intros m Hm. apply A. now rewrite (proj1 (new_tick E KL1 L t s HL E1)) in Hm. }
  split; [rewrite Ev; apply order_moved|]. split; [apply (sr_sel _ _ _ _ (tr_sr _ _ _ _ T'))|].
  intros i Hi. pose proof (sr_occ _ _ _ _ (tr_sr _ _ _ _ T') i Hi) as Q.
  rewrite (occupied_occ L) by (try (apply i_static, (tr_inv' _ _ _ _ T')); now apply (sy_site _ _ _ S)).
  rewrite (occupied_occ L) by (try (apply i_static, (tr_inv _ _ _ _ T')); auto). now rewrite <- !occb_true, Q.
Qed.

Lemma pairs_step m : Forall placing (pairs m) /\ Forall (call_ok L) (pairs m) /\ Forall stepwise (pairs m) /\ tracked (pairs m) /\ placements (pairs m) = m.
Proof.
  induction m as [|m (A & B & C & D & F)]; [repeat split; constructor|]. change (pairs (Datatypes.S m)) with (CPlace :: CDetect :: pairs m).
  split; [constructor; [now left|]; constructor; [now right|exact A]|]. split; [repeat (constructor; [exact I|]); exact B|]. split; [repeat (constructor; [exact I|]); exact C|].
  split; [exact (tr_place _ D)|]. cbn [placements]. lia.
Qed.
Lemma placing_ok cs : Forall placing cs -> Forall (call_ok L) cs /\ Forall stepwise cs.
Proof. induction 1 as [|c cs [-> | ->] _ (A & B)]; split; constructor; auto; exact I. Qed.
Lemma pairs_end E s m : after E s (pairs (Datatypes.S m)) = after E (after E s (pairs m)) [CPlace; CDetect].
Proof.
  assert (Q : pairs (Datatypes.S m) = pairs m ++ [CPlace; CDetect]).
  { induction m as [|m IH]; [reflexivity|]. change (pairs (Datatypes.S (Datatypes.S m))) with ([CPlace; CDetect] ++ pairs (Datatypes.S m)). rewrite IH at 1. reflexivity. }
  unfold after. rewrite Q. apply fold_left_app.
Qed.

Variable w : nat -> Z.
Lemma made_moves cs E s E' s' r c : made KL1 L t w E s -> made KL1 L t w E' s' -> ids s' = map (translate L r c) (ids s) -> Forall placing cs ->
  placed_order (events E' s' cs) = map (translate L r c) (placed_order (events E s cs)) /\
  sel_id (after E' s' cs) = option_map (translate L r c) (sel_id (after E s cs)) /\
  forall i, is_site L i -> (occupied (after E' s' cs) (translate L r c i) <-> occupied (after E s cs) i).
Proof.
  intros (HE & E1 & W) (HE' & E1' & W') Ei Hc. apply p_C105_moves; auto. intros m Hm.
  specialize (W (m - (t + (Z.to_nat (L * L) - 1)))%nat). specialize (W' (m - (t + (Z.to_nat (L * L) - 1)))%nat).
  replace (t + (Z.to_nat (L * L) - 1) + (m - (t + (Z.to_nat (L * L) - 1))))%nat with m in W, W' by lia. congruence.
Qed.
Lemma made_dx cs E s : made KL1 L t w E s -> Forall placing cs -> Dx L (placed_order (events E s cs)) (after E s cs).
Proof. intros (HE & E1 & W) Hc. destruct (placing_ok cs Hc) as (A & B). now apply (stepwise_dx E KL1 L t s cs). Qed.

Lemma p_C105_occupied cs : Forall placing cs -> exists good, forall i, is_site L i ->
  how_many (constructed_with KL1 L t (then_draws L t w (fun E s => occupied (after E s cs) i))) good.
Proof.
  intros Hc. apply (made_equal KL1 L t w HL (fun E s i => occupied (after E s cs) i)).
  - intros E s E' s' r c x M M' Ei Hx A. apply (made_moves cs E s E' s' r c M M' Ei Hc); auto.
  - intros E s x _ _. unfold occupied. lia.
Qed.
Lemma p_C105_ranked cs j : Forall placing cs -> exists good, forall i, is_site L i ->
  how_many (constructed_with KL1 L t (then_draws L t w (fun E s => nth_error (placed_order (events E s cs)) j = Some i))) good.
Proof.
  intros Hc. apply (made_equal KL1 L t w HL (fun E s i => nth_error (placed_order (events E s cs)) j = Some i)).
  - intros E s E' s' r c x M M' Ei Hx A. destruct (made_moves cs E s E' s' r c M M' Ei Hc) as (-> & _). now apply map_nth_error.
  - intros E s x _ _. destruct (nth_error _ _) as [y|]; [|right; discriminate]. destruct (Z.eq_dec y x) as [->|]; [now left|right; congruence].
Qed.
Lemma p_C105_position cs j i : Forall placing cs -> 5 * (L * L) <= Z.of_nat (placements cs) -> Z.of_nat j < L * L -> is_site L i ->
  share KL1 L t (then_draws L t w (fun E s => nth_error (placed_order (events E s cs)) j = Some i)) 1 (L * L).
Proof.
  intros Hc Hp Hj Hi. apply (made_share KL1 L t w HL (fun E s i => nth_error (placed_order (events E s cs)) j = Some i)); auto.
  - intros E s E' s' r c x M M' Ei Hx A. destruct (made_moves cs E s E' s' r c M M' Ei Hc) as (-> & _). now apply map_nth_error.
  - intros E s x _ _. destruct (nth_error _ _) as [y|]; [|right; discriminate]. destruct (Z.eq_dec y x) as [->|]; [now left|right; congruence].
  - intros E s x y _ A B. congruence.
  - intros E s x M A. apply nth_error_In in A. destruct (made_dx cs E s M Hc) as (_ & _ & D). now apply D in A.
  - intros E s _. destruct (nth_error _ _) as [y|]; [left; now exists y|right; intros (x & A); discriminate].
  - intros E s M. pose proof (made_dx cs E s M Hc) as D. apply dx_count in D. destruct M as (HE & E1 & _).
    destruct (p_C33 E KL1 L s HE (or_introl eq_refl) (or_introl (ex_intro _ t E1)) cs Hc) as (O & _ & F). destruct (F Hp) as (_ & G & _).
    unfold zlen in D. destruct (nth_error _ _) as [y|] eqn:Ey; [now exists y|]. apply nth_error_None in Ey. lia.
Qed.

Hypothesis H3 : 3 <= L.
Lemma made_wraps m E s : made KL1 L t w E s -> (after_wrap (after E s (pairs m)) = true <-> wraps L (among (placed_order (events E s (pairs m))))).
Proof.
  intros (HE & E1 & W). destruct (pairs_step m) as (A & B & C & D & _). destruct (stepwise_dx E KL1 L t s (pairs m) HE E1 B C) as (_ & G). apply (lo_wraps _ _ _ (G H3 D)).
Qed.
Lemma wraps_move m E s E' s' r c : made KL1 L t w E s -> made KL1 L t w E' s' -> ids s' = map (translate L r c) (ids s) ->
  after_wrap (after E' s' (pairs m)) = after_wrap (after E s (pairs m)).
Proof.
  intros M M' Ei. destruct (pairs_step m) as (A & _). destruct (made_moves (pairs m) E s E' s' r c M M' Ei A) as (O & _).
  apply eq_true_iff_eq. rewrite (made_wraps m E s M), (made_wraps m E' s' M'), O. symmetry. pose proof (translate_sym L r c HL) as S.
  destruct (made_dx (pairs m) E s M A) as (_ & _ & D).
  apply (sym_wraps L (translate L r c) (fun d => d) HL S). intros i Hi. unfold among. split; [now apply in_map|].
  intros Q. apply in_map_iff in Q as (j & Ej & Hj). pose proof (proj1 (D j) Hj) as (Sj & _). apply (sy_inj _ _ _ S) in Ej; auto. now subst j.
Qed.
Lemma closes_move m E s E' s' r c x : made KL1 L t w E s -> made KL1 L t w E' s' -> ids s' = map (translate L r c) (ids s) -> closes E s m x -> closes E' s' m (translate L r c x).
Proof.
  intros M M' Ei. unfold closes. cbv zeta. intros (A & B & C). pose proof (wraps_move m E s E' s' r c M M' Ei) as Q1. pose proof (wraps_move (Datatypes.S m) E s E' s' r c M M' Ei) as Q2.
  unfold pairs in Q1, Q2. rewrite Q1, Q2. split; auto. split; auto. destruct (pairs_step (Datatypes.S m)) as (Pl & _).
  destruct (made_moves (pairs (Datatypes.S m)) E s E' s' r c M M' Ei Pl) as (_ & G & _). unfold pairs in G. rewrite G, C. reflexivity.
Qed.
Lemma wrap_stays m d E s : made KL1 L t w E s -> after_wrap (after E s (pairs m)) = true -> after_wrap (after E s (pairs (m + d))) = true.
Proof.
  intros M W. induction d as [|d IH]; [now rewrite Nat.add_0_r|]. rewrite Nat.add_succ_r. destruct (pairs_step (m + d)) as (A & _).
  destruct (made_dx (pairs (m + d)) E s M A) as (I & _). rewrite pairs_end. set (u := after E s (pairs (m + d))) in *. cbn [after fold_left exec].
  destruct M as (HE & _). pose proof (place_inv E L u HE I) as I'. rewrite (detect_ok L) by apply I'. unfold detect_res.
  assert (Q : after_wrap (fst (place_one_site E u)) = true); [|now rewrite Q]. destruct (place_spec E L u HE I) as (Sd & P).
  destruct (sel E L u) as [s1 r]. cbn [fst snd] in Sd. assert (Fw : after_wrap s1 = after_wrap u) by exact (f_equal after_wrap (sd_core _ _ _ _ Sd)).
  destruct r as [[]|e].
  - destruct P as (x & s' & root & _ & _ & -> & Pd). cbn [fst]. assert (Q : after_wrap s' = after_wrap s1) by exact (f_equal after_wrap (pd_core _ _ _ _ _ _ Pd)). congruence.
  - rewrite P. cbn. congruence.
  - rewrite P. cbn. congruence.
  - rewrite P. cbn. congruence.
Qed.
Lemma closes_moment m m' x y E s : made KL1 L t w E s -> closes E s m x -> closes E s m' y -> m = m'.
Proof.
  intros M (A & B & _) (A' & B' & _). destruct (Nat.lt_trichotomy m m') as [H|[H|H]]; auto; exfalso.
  - pose proof (wrap_stays (Datatypes.S m) (m' - Datatypes.S m) E s M B) as Q. replace (Datatypes.S m + (m' - Datatypes.S m))%nat with m' in Q by lia. unfold pairs in Q. congruence.
  - pose proof (wrap_stays (Datatypes.S m') (m - Datatypes.S m') E s M B') as Q. replace (Datatypes.S m' + (m - Datatypes.S m'))%nat with m in Q by lia. unfold pairs in Q. congruence.
Qed.
Lemma closes_site m x E s : made KL1 L t w E s -> closes E s m x -> is_site L x.
Proof.
  intros M (_ & _ & C). destruct (pairs_step (Datatypes.S m)) as (A & _). destruct (made_dx (pairs (Datatypes.S m)) E s M A) as (I & _). unfold pairs in I.
  destruct (i_sel _ _ I) as [(N & _)|(i & Hi & N & _)]; congruence.
Qed.
(** Some pair is the first to report wrapping. *)
Lemma closes_exists E s : made KL1 L t w E s -> exists m x, closes E s m x.
Proof.
  intros M. set (N := Z.to_nat (5 * (L * L))). pose proof (LL_pos L HL) as HLL.
  assert (Wn : after_wrap (after E s (pairs N)) = true).
  { apply (made_wraps N E s M). destruct (pairs_step N) as (A & _ & _ & _ & Pn). destruct (made_dx (pairs N) E s M A) as (I & _ & D).
    destruct M as (HE & E1 & _). destruct (p_C33 E KL1 L s HE (or_introl eq_refl) (or_introl (ex_intro _ t E1)) (pairs N) A) as (_ & _ & F).
    destruct (F ltac:(rewrite Pn; unfold N; lia)) as (_ & _ & G). apply full_wraps; auto. intros i Hi. apply D. split; auto. apply (occupied_occ L); auto. now apply i_static. }
  assert (W0 : after_wrap (after E s (pairs 0)) = false).
  { destruct M as (HE & E1 & _). pose proof (new_perc_fresh _ _ _ _ _ E1) as F. apply (fs_wrap _ _ F). }
  assert (G : forall n, after_wrap (after E s (pairs n)) = true -> exists m, after_wrap (after E s (pairs m)) = false /\ after_wrap (after E s (pairs (Datatypes.S m))) = true).
  { induction n as [|n IH]; intros W; [congruence|]. destruct (after_wrap (after E s (pairs n))) eqn:Q; [now apply IH|]. now exists n. }
  destruct (G N Wn) as (m & A & B). destruct (pairs_step m) as (Pl & _). destruct (made_dx (pairs m) E s M Pl) as (I & _).
  rewrite pairs_end in B. set (u := after E s (pairs m)) in *. cbn [after fold_left exec] in B.
  destruct M as (HE & _). pose proof (place_inv E L u HE I) as I'. exists m. unfold closes. cbv zeta. fold (pairs m). fold (pairs (Datatypes.S m)). fold u. rewrite pairs_end. fold u. cbn [after fold_left exec].
  destruct (detect_fields L (fst (place_one_site E u)) I') as (_ & _ & _ & _ & Fs & _). rewrite Fs.
  destruct (sel_id (fst (place_one_site E u))) as [x|] eqn:Ex; [exists x; auto|exfalso].
  rewrite (detect_ok L) in B by apply I'. unfold detect_res in B. rewrite Ex in B.
  assert (Q : after_wrap (fst (place_one_site E u)) = false); [|rewrite Q in B; cbn in B; congruence]. clear B. destruct (place_spec E L u HE I) as (Sd & P).
  destruct (sel E L u) as [s1 r]. cbn [fst snd] in Sd. assert (Fw : after_wrap s1 = after_wrap u) by exact (f_equal after_wrap (sd_core _ _ _ _ Sd)).
  destruct r as [[]|e].
  - destruct P as (y & s' & root & _ & _ & -> & Pd). cbn [fst]. assert (Q : after_wrap s' = after_wrap s1) by exact (f_equal after_wrap (pd_core _ _ _ _ _ _ Pd)). congruence.
  - rewrite P. cbn. congruence.
  - rewrite P. cbn. congruence.
  - rewrite P. cbn. congruence.
Qed.
Lemma p_C105_loop x : is_site L x -> share KL1 L t (then_draws L t w (fun E s => exists m, closes E s m x)) 1 (L * L).
Proof.
  intros Hx. apply (made_share KL1 L t w HL (fun E s x => exists m, closes E s m x)); auto.
  - intros E s E' s' r c y M M' Ei Hy (m & A). exists m. now apply (closes_move m E s E' s').
  - intros E s y M Hy. destruct (closes_exists E s M) as (m & z & A). destruct (Z.eq_dec z y) as [->|N]; [left; now exists m|right].
    intros (m' & B). pose proof (closes_moment m m' z y E s M A B) as <-. destruct A as (_ & _ & A). destruct B as (_ & _ & B). congruence.
  - intros E s y z M (m & A) (m' & B). pose proof (closes_moment m m' y z E s M A B) as <-. destruct A as (_ & _ & A). destruct B as (_ & _ & B). congruence.
  - intros E s y M (m & A). now apply (closes_site m y E s).
  - intros E s M. left. destruct (closes_exists E s M) as (m & y & A). now exists y, m.
  - intros E s M. destruct (closes_exists E s M) as (m & y & A). now exists y, m.
Qed.
Lemma closes_dec E s m x : closes E s m x \/ ~ closes E s m x.
Proof.
  unfold closes. cbv zeta. destruct (after_wrap (after E s (concat (repeat [CPlace; CDetect] m)))); [right; intros (A & _); discriminate|].
  destruct (after_wrap (after E s (concat (repeat [CPlace; CDetect] (Datatypes.S m))))); [|right; intros (_ & A & _); discriminate].
  destruct (sel_id _) as [y|]; [|right; intros (_ & _ & A); discriminate]. destruct (Z.eq_dec y x) as [->|]; [left; auto|right; intros (_ & _ & A); congruence].
Qed.
Lemma p_C105_moment m : exists all, how_many (constructed_with KL1 L t (then_draws L t w (fun E s => exists y, closes E s m y))) all /\
  forall x, is_site L x -> exists good, how_many (constructed_with KL1 L t (then_draws L t w (fun E s => closes E s m x))) good /\ L * L * good = all.
Proof.
  apply (made_split KL1 L t w HL (fun E s x => closes E s m x)).
  - intros E s E' s' r c y M M' Ei Hy A. now apply (closes_move m E s E' s').
  - intros E s y M Hy. apply closes_dec.
  - intros E s y z M (_ & _ & A) (_ & _ & B). congruence.
  - intros E s y M A. now apply (closes_site m y E s).
  - intros E s M. destruct (closes_exists E s M) as (m' & y & A). destruct (Nat.eq_dec m' m) as [->|N]; [left; now exists y|right].
    intros (z & B). apply N. now apply (closes_moment m' m y z E s).
Qed.
End L1.

(** ** The statements *)
Lemma p_C105_runs L t r c E s E' s' cs : env_ok E -> env_ok E' -> new_perc E KL1 L t = Ok s -> new_perc E' KL1 L t = Ok s' ->
  get_site_id_sequence s' = map (translate L r c) (get_site_id_sequence s) ->
  (forall m, (t + (Z.to_nat (L * L) - 1) <= m)%nat -> e_draw E' m = e_draw E m) ->
  Forall (fun c => c = CPlace \/ c = CDetect) cs ->
  placed_order (events E' s' cs) = map (translate L r c) (placed_order (events E s cs)) /\
  forall i, is_site L i -> (occupied (after E' s' cs) (translate L r c i) <-> occupied (after E s cs) i).
Proof.
  intros HE HE' E1 E1' Ei A Hc. pose proof (new_perc_pos _ _ _ _ _ E1) as HL. destruct (p_C105_moves L t HL E s E' s' r c cs) as (B & _ & D); auto.
Qed.
Lemma p_C105_counts L t w cs : 0 < L -> Forall (fun c => c = CPlace \/ c = CDetect) cs ->
  (exists good, forall i, is_site L i -> how_many (constructed_with KL1 L t (then_draws L t w (fun E s => occupied (after E s cs) i))) good) /\
  forall j, exists good, forall i, is_site L i ->
    how_many (constructed_with KL1 L t (then_draws L t w (fun E s => nth_error (placed_order (events E s cs)) j = Some i))) good.
Proof. intros HL Hc. split; [now apply p_C105_occupied|]. intros j. now apply p_C105_ranked. Qed.
Lemma p_C105_shares L t w cs j i : 0 < L -> Forall (fun c => c = CPlace \/ c = CDetect) cs -> 5 * (L * L) <= Z.of_nat (placements cs) ->
  Z.of_nat j < L * L -> is_site L i ->
  share KL1 L t (then_draws L t w (fun E s => nth_error (placed_order (events E s cs)) j = Some i)) 1 (L * L).
Proof. intros HL Hc. now apply p_C105_position. Qed.
Lemma p_C105_first_loop L t w x : 3 <= L -> is_site L x ->
  share KL1 L t (then_draws L t w (fun E s => exists m, closes E s m x)) 1 (L * L) /\
  (forall m, exists all good, how_many (constructed_with KL1 L t (then_draws L t w (fun E s => exists y, closes E s m y))) all /\
     how_many (constructed_with KL1 L t (then_draws L t w (fun E s => closes E s m x))) good /\ L * L * good = all).
Proof.
  intros H3 Hx. assert (HL : 0 < L) by lia. split; [now apply p_C105_loop|]. intros m. destruct (p_C105_moment L t HL w H3 m) as (all & A & G).
  destruct (G x Hx) as (good & B & D). exists all, good. auto.
Qed.
Lemma p_C105_possible k L t w c : 0 < L -> random_choices (Z.to_nat (L * L)) c ->
  exists E s, env_ok E /\ choices E t (Z.to_nat (L * L)) = c /\ later_draws L t w E /\ new_perc E k L t = Ok s.
Proof. intros HL Hc. destruct (made_onto k L t w HL c Hc) as (E & s & (HE & E1 & W) & Ec & _). exists E, s. auto. Qed.
