(** * L2Chance: the third placement of the L2 rule is not equally likely everywhere. *)
From Coq Require Import ZArith List Bool Lia Permutation Arith Factorial.
From Verif Require Import Py Lattice Cluster Perc Spec History PyFacts Torus Geometry LatFacts Inv Count Select Count Fresh Reach State Step Seq Cand CandRun CandProps
  RunProps2 SymSpec Symmetry Describe StateProps ChanceSpec Chance Unbiased L1ChanceSpec L1Chance.
Import ListNotations.
Open Scope Z_scope.

Section L2.
Variables (L : Z) (t : nat) (w : nat -> Z).
Hypothesis H3 : 3 <= L.
Let HL : 0 < L. Proof. lia. Qed.
Let n := Z.to_nat (L * L).
Definition K2 (s : perc) : Prop := Inv L s /\ Cand L s /\ kind s = KL2 /\ cur_idx s < L * L.

(** What one call places. *)
Definition dY (E : env) (s : perc) : dir := dirk E (S (tick s)).
Definition xY (E : env) (s : perc) : Z := nbr L (candX E s) (dY E s).
Definition xZ (E : env) (s : perc) : Z := nbr L (xY E s) (dY E s).
Lemma K2_cand E s : K2 s -> is_site L (candX E s) /\ is_site L (xY E s) /\ is_site L (xZ E s).
Proof.
  intros (I & C & _ & Hc). assert (HX : is_site L (candX E s)) by (apply candX_site; [apply I|pose proof (cd_cur _ _ C); pose proof (cd_len _ _ C); lia]).
  split; auto. assert (HY : is_site L (xY E s)) by (now apply nbr_site). split; auto. now apply nbr_site.
Qed.
Lemma str_dec X d : straddles L X d \/ ~ straddles L X d.
Proof. destruct d; cbn; lia. Qed.
Lemma place2 E s : env_ok E -> K2 s -> let X := candX E s in let Y := xY E s in let Z2 := second L X Y in
  event_of E s CPlace = (if occb (lat s) X then if occb (lat s) Y then if occb (lat s) Z2 then [] else [EPlace Z2] else [EPlace Y] else [EPlace X]) /\
  (occb (lat s) X && occb (lat s) Y = false -> let x := if occb (lat s) X then Y else X in let s' := fst (place_one_site E s) in
    K2 s' /\ ids s' = ids s /\ cur_idx s' = cur_idx s /\ tick s' = (tick s + (if occb (lat s) X then 2 else 1))%nat /\
    forall i, is_site L i -> occb (lat s') i = (i =? x) || occb (lat s) i).
Proof.
  intros HE (I & C & K & Hc) X Y Z2. destruct (place_cand E L s HE I C) as (J & D & Kj & _). destruct (place_spec E L s HE I) as (Sd & P).
  pose proof (selected_clok L E s I Sd) as Q. cbn [event_of].
  assert (Es : sel E L s = sel2 E L s) by (unfold sel; now rewrite K). rewrite Es in *. unfold sel2 in *.
  destruct (Z.leb_spec (L * L) (cur_idx s)); [lia|]. pose proof (cd_len _ _ C) as Hl. destruct (Z.leb_spec (zlen (ids s)) (cur_idx s)); [lia|].
  fold X in P, Q |- *. change (nbr L X (dirk E (S (tick s)))) with Y in P, Q |- *. fold Z2 in P, Q |- *.
  assert (G : forall x s1, sel_id s1 = Some x -> ids s1 = ids s -> cur_idx s1 = cur_idx s -> ClOK L (lat s1) (pool s1) -> (forall i, sg (lat s1) i = sg (lat s) i) ->
    (exists x0 s' root, sel_id s1 = Some x0 /\ cur_site s1 = Some x0 /\ place_one_site E s = (s', Ok true) /\ Placed E L s1 x0 s' root) ->
    (match place_one_site E s with (s', Ok true) => if flag_is_success s' then match sel_id s' with Some x => [EPlace x] | None => [] end else [] | _ => [] end = [EPlace x]) /\
    let s' := fst (place_one_site E s) in K2 s' /\ ids s' = ids s /\ cur_idx s' = cur_idx s /\ tick s' = tick s1 /\ forall i, is_site L i -> occb (lat s') i = (i =? x) || occb (lat s) i).
  { intros x s1 F1 F2 F3 F4 F5 (x0 & s' & root & G1 & G2 & G3 & Pd). assert (x0 = x) as -> by congruence. rewrite G3 in *. cbn [fst snd] in *.
    pose proof (pd_core _ _ _ _ _ _ Pd) as Ct. destruct (core2_fields _ _ Ct) as (_ & W2 & _ & W4 & _ & _ & _ & W8 & _). apply core2_tick in Ct.
    unfold flag_is_success. rewrite (pd_flag _ _ _ _ _ _ Pd), W8, F1. split; auto. cbv zeta.
    split; [split; [exact J|split; [exact D|split; [congruence|rewrite W4, F3; exact Hc]]]|]. split; [congruence|]. split; [congruence|]. split; auto.
    intros i Hi. rewrite (pd_occb E L s1 x s' root F4 Pd i Hi). unfold occb. now rewrite F5. }
  destruct (occb (lat s) X) eqn:OX; cbn [andb].
  - destruct (occb (lat s) Y) eqn:OY; cbn [andb].
    + split; [|discriminate]. destruct (occb (lat s) Z2) eqn:OZ; cbn [fst snd] in *.
      * destruct (nn2 _ _ =? 0) in P; rewrite P; reflexivity.
      * destruct P as (x0 & s' & root & G1 & G2 & G3 & Pd). cbn in G1. injection G1 as <-. rewrite G3. destruct (core2_fields _ _ (pd_core _ _ _ _ _ _ Pd)) as (_ & _ & _ & _ & _ & _ & _ & W8 & _).
        unfold flag_is_success. rewrite (pd_flag _ _ _ _ _ _ Pd), W8. reflexivity.
    + cbn [fst snd] in *. match type of P with exists x0 s' root, sel_id ?S1 = _ /\ _ => destruct (G Y S1) as (G1 & G2) end; auto.
      split; auto. intros _. cbv zeta in G2 |- *. destruct G2 as (A & B & C' & T & O). repeat (split; auto). rewrite T. cbn. lia.
  - cbn [fst snd] in *. match type of P with exists x0 s' root, sel_id ?S1 = _ /\ _ => destruct (G X S1) as (G1 & G2) end; auto.
    split; auto. intros _. cbv zeta in G2 |- *. destruct G2 as (A & B & C' & T & O). repeat (split; auto). rewrite T. cbn. lia.
Qed.

(** ** Related steps *)
Definition R2 (f : Z -> Z) (s s' : perc) : Prop := K2 s /\ K2 s' /\ ids s' = map f (ids s) /\ cur_idx s' = cur_idx s /\ tick s' = tick s /\
  forall i, is_site L i -> occb (lat s') (f i) = occb (lat s) i.
Lemma rel_cand E E' f s s' : symmetry L f (fun d => d) -> R2 f s s' -> agree E E' (tick s) ->
  candX E' s' = f (candX E s) /\ dY E' s' = dY E s /\ xY E' s' = f (xY E s) /\ xZ E' s' = f (xZ E s).
Proof.
  intros S (A & B & Ei & Ec & Et & Eo) Ag. destruct (K2_cand E s A) as (HX & HY & HZ). destruct A as (I & C & _ & Hc). destruct B as (_ & C' & _).
  pose proof (cd_len _ _ C) as Hl. pose proof (cd_len _ _ C') as Hl'. pose proof (cd_cur _ _ C).
  assert (R : rndi E' s' = rndi E s) by (unfold rndi; rewrite Ec, Et, Hl, Hl', (Ag (tick s)) by lia; reflexivity).
  pose proof (rndi_range E s ltac:(lia)) as Hr.
  assert (X' : candX E' s' = f (candX E s)) by (unfold candX; rewrite R, Ei; apply at_map; lia).
  assert (D : dY E' s' = dY E s) by (unfold dY, dirk; rewrite Et, (Ag (Datatypes.S (tick s))) by lia; reflexivity).
  split; auto. split; auto. assert (Y' : xY E' s' = f (xY E s)) by (unfold xY; rewrite X', D; symmetry; now apply (sy_nbr _ _ _ S)).
  split; auto. unfold xZ. rewrite Y', D. symmetry. now apply (sy_nbr _ _ _ S).
Qed.
Lemma rel_place E E' f s s' : symmetry L f (fun d => d) -> env_ok E -> env_ok E' -> R2 f s s' -> agree E E' (tick s) ->
  occb (lat s) (candX E s) && occb (lat s) (xY E s) = false ->
  R2 f (fst (place_one_site E s)) (fst (place_one_site E' s')) /\ (tick s <= tick (fst (place_one_site E s)))%nat.
Proof.
  intros S HE HE' R Ag Hn. destruct (rel_cand E E' f s s' S R Ag) as (X' & D & Y' & _). destruct R as (A & B & Ei & Ec & Et & Eo).
  destruct (K2_cand E s A) as (HX & HY & HZ). destruct (place2 E s HE A) as (_ & P). destruct (place2 E' s' HE' B) as (_ & P').
  rewrite X', Y', !Eo in P' by auto. specialize (P Hn). specialize (P' Hn). cbv zeta in P, P'.
  destruct P as (P1 & P2 & P3 & P4 & P5). destruct P' as (P1' & P2' & P3' & P4' & P5').
  split; [|rewrite P4; lia]. split; auto. split; auto. split; [congruence|]. split; [congruence|]. split; [congruence|].
  intros i Hi. rewrite P5' by (now apply (sy_site _ _ _ S)). rewrite P5, Eo by auto. f_equal.
  replace (if occb (lat s) (candX E s) then f (xY E s) else f (candX E s)) with (f (if occb (lat s) (candX E s) then xY E s else candX E s)) by (destruct (occb _ _); reflexivity).
  apply (f_eqb f L S); auto. destruct (occb _ _); auto.
Qed.

(** ** The first two placements *)
Definition s1 (E : env) (s : perc) : perc := fst (place_one_site E s).
Definition s2 (E : env) (s : perc) : perc := s1 E (s1 E s).
Definition x1 (E : env) (s : perc) : Z := candX E s.
Definition x2 (E : env) (s : perc) : Z := if candX E (s1 E s) =? x1 E s then xY E (s1 E s) else candX E (s1 E s).
Definition again : bool := w 0%nat mod (L * L) =? w 1%nat mod (L * L).
Definition d3 : dir := nth (Z.to_nat (w (if again then 4 else 3)%nat mod 4)) all_dirs DRight.
Lemma w_at E m : later_draws L t w E -> e_draw E (t + (n - 1) + m) = w m.
Proof. intros W. apply W. Qed.
Lemma nbr_ne i d : is_site L i -> nbr L i d <> i.
Proof.
  intros Hi Q. pose proof (f_equal (row L) Q) as Q1. pose proof (f_equal (col L) Q) as Q2. unfold nbr in Q1, Q2. rewrite row_at in Q1 by lia. rewrite col_at in Q2 by lia.
  pose proof (row_bound L HL i Hi) as R. pose proof (col_bound L HL i) as C.
  assert (M1 : forall a, 0 <= a < L -> (a + 1) mod L <> a).
  { intros a Ha E. destruct (Z.eq_dec a (L - 1)) as [->|N]; [replace (L - 1 + 1) with (1 * L) in E by lia; rewrite Z.mod_mul in E by lia; lia|]. rewrite Z.mod_small in E by lia. lia. }
  assert (M2 : forall a, 0 <= a < L -> (a + -1) mod L <> a).
  { intros a Ha E. destruct (Z.eq_dec a 0) as [->|N]; [|rewrite Z.mod_small in E by lia; lia]. replace (0 + -1) with (L - 1 + (-1) * L) in E by lia. rewrite Z.mod_add in E by lia. rewrite Z.mod_small in E by lia. lia. }
  destruct d; cbn [step fst snd] in Q1, Q2; [apply (M1 _ C Q2)|apply (M1 _ R Q1)|apply (M2 _ C Q2)|apply (M2 _ R Q1)].
Qed.
Lemma two_ne i d : is_site L i -> nbr L (nbr L i d) d <> i.
Proof.
  intros Hi Q. assert (Hj : is_site L (nbr L i d)) by (now apply nbr_site).
  pose proof (f_equal (row L) Q) as Q1. pose proof (f_equal (col L) Q) as Q2. unfold nbr in Q1, Q2. rewrite !row_at in Q1 by lia. rewrite !col_at in Q2 by lia.
  pose proof (row_bound L HL i Hi) as R. pose proof (col_bound L HL i) as C. rewrite Zplus_mod_idemp_l in Q1. rewrite Zplus_mod_idemp_l in Q2.
  assert (M1 : forall a, 0 <= a < L -> (a + 1 + 1) mod L <> a).
  { intros a Ha E. destruct (Z_lt_le_dec (a + 2) L) as [N|N]; [rewrite Z.mod_small in E by lia; lia|]. replace (a + 1 + 1) with (a + 2 - L + 1 * L) in E by lia. rewrite Z.mod_add in E by lia. rewrite Z.mod_small in E by lia. lia. }
  assert (M2 : forall a, 0 <= a < L -> (a + -1 + -1) mod L <> a).
  { intros a Ha E. destruct (Z_lt_le_dec a 2) as [N|N]; [|rewrite Z.mod_small in E by lia; lia]. replace (a + -1 + -1) with (a - 2 + L + (-1) * L) in E by lia. rewrite Z.mod_add in E by lia. rewrite Z.mod_small in E by lia. lia. }
  destruct d; cbn [step fst snd] in Q1, Q2; [apply (M1 _ C Q2)|apply (M1 _ R Q1)|apply (M2 _ C Q2)|apply (M2 _ R Q1)].
Qed.
Lemma made_two E s : made KL2 L t w E s -> K2 s /\ K2 (s1 E s) /\ K2 (s2 E s) /\ ids (s2 E s) = ids s /\ cur_idx s = 0 /\ cur_idx (s1 E s) = 0 /\ cur_idx (s2 E s) = 0 /\
  tick s = (t + (n - 1))%nat /\ tick (s1 E s) = (t + (n - 1) + 1)%nat /\ tick (s2 E s) = (t + (n - 1) + (if again then 3 else 2))%nat /\
  (forall i, is_site L i -> occb (lat s) i = false) /\ (forall i, is_site L i -> occb (lat (s1 E s)) i = (i =? x1 E s)) /\
  (forall i, is_site L i -> occb (lat (s2 E s)) i = (i =? x2 E s) || (i =? x1 E s)) /\ is_site L (x1 E s) /\ is_site L (x2 E s) /\
  event_of E s CPlace = [EPlace (x1 E s)] /\ event_of E (s1 E s) CPlace = [EPlace (x2 E s)] /\
  (candX E (s1 E s) =? x1 E s) = again /\ dY E (s2 E s) = d3 /\ (again = true -> x2 E s = nbr L (x1 E s) (nth (Z.to_nat (w 2%nat mod 4)) all_dirs DRight)).
Proof.
  intros M. pose proof (made_perm KL2 L t w E s M) as Pm. destruct M as (HE & E1 & W). pose proof (LL_pos L HL) as HLL.
  destruct (fresh_object_cand E KL2 L s HE eq_refl) as (F & I & K & C & _); [left; now exists t|]. destruct (new_tick E KL2 L t s HL E1) as (T & _). fold n in T.
  pose proof (fs_cur _ _ F) as Hc. assert (A0 : K2 s) by (split; auto; split; auto; split; auto; lia).
  assert (O0 : forall i, is_site L i -> occb (lat s) i = false) by (intros i Hi; unfold occb; destruct (fr_site _ _ (fs_lat _ _ F) i Hi) as (-> & _); reflexivity).
  destruct (K2_cand E s A0) as (HX & HY & _). destruct (place2 E s HE A0) as (V1 & P). rewrite (O0 _ HX) in V1, P. specialize (P eq_refl). cbv zeta in P. fold (s1 E s) in P. fold (x1 E s) in P, V1, HX.
  destruct P as (A1 & I1 & C1 & T1 & O1). cbv zeta in V1.
  assert (O1' : forall i, is_site L i -> occb (lat (s1 E s)) i = (i =? x1 E s)) by (intros i Hi; rewrite O1, O0, orb_false_r; auto).
  destruct (K2_cand E (s1 E s) A1) as (HX1 & HY1 & _). destruct (place2 E (s1 E s) HE A1) as (V2 & P). rewrite (O1' _ HX1), (O1' _ HY1) in V2, P.
  assert (Sm : (candX E (s1 E s) =? x1 E s) && (xY E (s1 E s) =? x1 E s) = false).
  { destruct (Z.eqb_spec (candX E (s1 E s)) (x1 E s)) as [Q|]; auto. destruct (Z.eqb_spec (xY E (s1 E s)) (x1 E s)) as [Q'|]; auto. exfalso.
    apply (nbr_ne (candX E (s1 E s)) (dY E (s1 E s)) HX1). unfold xY in Q'. congruence. }
  specialize (P Sm). cbv zeta in P. fold (x2 E s) in P. change (fst (place_one_site E (s1 E s))) with (s2 E s) in P. destruct P as (A2 & I2 & C2 & T2 & O2).
  assert (HX2 : is_site L (x2 E s)) by (unfold x2; destruct (_ =? _); auto).
  assert (Ag : (candX E (s1 E s) =? x1 E s) = again).
  { assert (Zl : zlen (ids s) = L * L) by apply (cd_len _ _ C). assert (N : NoDup (ids s)) by (apply (Permutation_NoDup Pm), NoDup_zrange).
    assert (R0 : rndi E s = w 0%nat mod (L * L)) by (unfold rndi; rewrite Hc, Zl, T; rewrite <- (W 0%nat); fold n; rewrite Nat.add_0_r, Z.add_0_l; f_equal; lia).
    assert (R1 : rndi E (s1 E s) = w 1%nat mod (L * L)) by (unfold rndi; rewrite C1, Hc, I1, Zl, T1, T; rewrite <- (W 1%nat), Z.add_0_l; fold n; f_equal; lia).
    unfold x1, candX, again. rewrite I1, R0, R1. pose proof (Z.mod_pos_bound (w 0%nat) (L * L) HLL). pose proof (Z.mod_pos_bound (w 1%nat) (L * L) HLL).
    destruct (Z.eqb_spec (w 0%nat mod (L * L)) (w 1%nat mod (L * L))) as [->|Ne]; [apply Z.eqb_refl|]. apply Z.eqb_neq. intros Q. unfold at_ in Q.
    replace (0 <=? w 1%nat mod (L * L)) with true in Q by lia. replace (0 <=? w 0%nat mod (L * L)) with true in Q by lia.
    apply NoDup_nth in Q; auto; unfold zlen in Zl; lia. }
  rewrite Ag in T2. assert (T2' : tick (s2 E s) = (t + (n - 1) + (if again then 3 else 2))%nat) by (rewrite T2, T1, T; destruct again; lia).
  repeat (split; [solve [auto|congruence|lia]|]). split; [|split; [|split]]; auto.
  - intros i Hi. rewrite O2, O1' by auto. reflexivity.
  - split; auto. split; [|split; [exact Ag|]].
    + rewrite V2. unfold x2. destruct (Z.eqb_spec (candX E (s1 E s)) (x1 E s)) as [Q|Q]; auto. cbn [andb] in Sm. rewrite Sm. reflexivity.
    + split.
      * unfold dY, dirk, d3. rewrite T2'. rewrite <- (W (if again then 4 else 3)%nat). fold n. do 4 f_equal. destruct again; lia.
      * intros Y. rewrite Y in Ag. unfold x2. rewrite Ag. unfold xY. apply Z.eqb_eq in Ag. rewrite Ag. f_equal. unfold dY, dirk. rewrite T1, T. rewrite <- (W 2%nat). fold n. do 4 f_equal. lia.
Qed.

Lemma two_rel E s E' s' r c : made KL2 L t w E s -> made KL2 L t w E' s' -> ids s' = map (translate L r c) (ids s) ->
  let f := translate L r c in x1 E' s' = f (x1 E s) /\ x2 E' s' = f (x2 E s) /\ R2 f (s2 E s) (s2 E' s') /\ agree E E' (tick (s2 E s)).
Proof.
  intros M M' Ei f. pose proof (translate_sym L r c HL) as S. fold f in S, Ei.
  destruct (made_two E s M) as (A0 & A1 & A2 & I2 & C0 & C1 & C2 & T0 & T1 & T2 & O0 & O1 & O2 & X1 & X2 & _).
  destruct (made_two E' s' M') as (A0' & A1' & A2' & I2' & C0' & C1' & C2' & T0' & T1' & T2' & O0' & O1' & O2' & X1' & X2' & _).
  destruct M as (HE & E1 & W). destruct M' as (HE' & E1' & W').
  assert (Ag : forall q, (t + (n - 1) <= q)%nat -> agree E E' q).
  { intros q Hq m Hm. specialize (W (m - (t + (n - 1)))%nat). specialize (W' (m - (t + (n - 1)))%nat). fold n in W, W'.
    replace (t + (n - 1) + (m - (t + (n - 1))))%nat with m in W, W' by lia. congruence. }
  assert (R0 : R2 f s s'). { split; auto. split; auto. split; auto. split; [congruence|]. split; [congruence|]. intros i Hi. rewrite O0, O0'; auto. now apply (sy_site _ _ _ S). }
  assert (G0 : agree E E' (tick s)) by (apply Ag; lia). destruct (rel_cand E E' f s s' S R0 G0) as (Q1 & _).
  destruct (K2_cand E s A0) as (HX & HY & _). destruct (rel_place E E' f s s' S HE HE' R0 G0) as (R1 & _); [now rewrite O0|]. fold (s1 E s) in R1. fold (s1 E' s') in R1.
  assert (G1 : agree E E' (tick (s1 E s))) by (apply Ag; lia). destruct (rel_cand E E' f _ _ S R1 G1) as (Q2 & _ & Q2y & _). destruct (K2_cand E (s1 E s) A1) as (HX1 & HY1 & _).
  split; [exact Q1|]. split.
  - unfold x2. fold (x1 E' s') in Q1. fold (x1 E s) in Q1. rewrite Q1, Q2, Q2y, (f_eqb f L S) by auto. destruct (_ =? _); reflexivity.
  - split; [|apply Ag; lia]. destruct (rel_place E E' f _ _ S HE HE' R1 G1) as (R & _); auto. rewrite (O1 _ HX1), (O1 _ HY1).
    destruct (Z.eqb_spec (candX E (s1 E s)) (x1 E s)) as [Q|]; auto. destruct (Z.eqb_spec (xY E (s1 E s)) (x1 E s)) as [Q'|]; auto. exfalso.
    apply (nbr_ne (candX E (s1 E s)) (dY E (s1 E s)) HX1). unfold xY in Q'. congruence.
Qed.

(** ** The third placement *)
Definition placed_at (j : nat) (E : env) (s : perc) (i : Z) : Prop := nth_error (placed_order (events E s [CPlace; CPlace; CPlace])) j = Some i.
(** The third call takes a site without looking two steps away. *)
Definition near (E : env) (s : perc) (i : Z) : Prop := let u := s2 E s in
  (occb (lat u) (candX E u) = false /\ i = candX E u) \/ (occb (lat u) (candX E u) = true /\ occb (lat u) (xY E u) = false /\ i = xY E u).
(** The site two steps away, when that is where the rule arrives. *)
Definition far (E : env) (s : perc) (i : Z) : Prop := let u := s2 E s in
  occb (lat u) (candX E u) = true /\ occb (lat u) (xY E u) = true /\ occb (lat u) (xZ E u) = false /\ i = xZ E u.
Lemma order_three E s : made KL2 L t w E s -> exists zs, placed_order (events E s [CPlace; CPlace; CPlace]) = x1 E s :: x2 E s :: zs /\
  (zs = [] \/ exists z, zs = [z]) /\ forall i, zs = [i] <-> event_of E (s2 E s) CPlace = [EPlace i].
Proof.
  intros M. destruct (made_two E s M) as (_ & _ & A2 & _ & _ & _ & _ & _ & _ & _ & _ & _ & _ & _ & _ & V1 & V2 & _). destruct M as (HE & _).
  destruct (place2 E (s2 E s) HE A2) as (V3 & _). cbv zeta in V3. cbn [events]. change (exec E s CPlace) with (s1 E s). change (exec E (s1 E s) CPlace) with (s2 E s).
  rewrite V1, V2, V3. repeat match goal with |- context [if ?b then _ else _] => destruct b end;
  eexists; (split; [cbn; reflexivity|]); (split; [eauto|]); intros i; cbn [app]; split; intros Q; congruence.
Qed.
Lemma third_iff E s i : made KL2 L t w E s -> is_site L i -> let b := nbr L (nbr L i (opp d3)) (opp d3) in
  (straddles L b d3 -> (placed_at 2 E s i <-> near E s i)) /\ (~ straddles L b d3 -> (placed_at 2 E s i <-> near E s i \/ far E s i)).
Proof.
  intros M Hi b. destruct (order_three E s M) as (zs & Eo & Sh & Ez).
  assert (Q : placed_at 2 E s i <-> event_of E (s2 E s) CPlace = [EPlace i]).
  { rewrite <- Ez. unfold placed_at. rewrite Eo. cbn [nth_error]. destruct Sh as [-> | (z & ->)]; cbn; split; intros Q; congruence. }
  destruct (made_two E s M) as (_ & _ & A2 & _ & _ & _ & _ & _ & _ & _ & _ & _ & _ & _ & _ & _ & _ & _ & D3 & _).
  destruct M as (HE & _). set (u := s2 E s) in *. destruct (K2_cand E u A2) as (HX & HY & HZ).
  destruct (place2 E u HE A2) as (V3 & _). cbv zeta in V3. unfold near, far. cbv zeta. fold u.
  destruct (second_spec L (candX E u) (dY E u) HL HX) as (S1 & S2). fold (xY E u) in S1, S2. fold (xZ E u) in S2.
  assert (Bk : i = xZ E u -> b = candX E u).
  { intros ->. unfold b, xZ, xY. rewrite D3. now rewrite !nbr_opp by (auto; now apply nbr_site). }
  rewrite Q, V3. clear Q V3. destruct (occb (lat u) (candX E u)) eqn:OX; [|split; intros _; split; [intros [= ->]; auto| |intros [= ->]; auto|]].
  - destruct (occb (lat u) (xY E u)) eqn:OY; [|split; intros _; split; [intros [= ->]; auto| |intros [= ->]; auto|]].
    + destruct (str_dec (candX E u) (dY E u)) as [St|St].
      * rewrite (S1 St), OX. split; intros Sb; split; try discriminate.
        -- intros [(W & _)|(_ & W & _)]; discriminate.
        -- intros [[(W & _)|(_ & W & _)]|(_ & _ & _ & W)]; try discriminate. exfalso. apply Sb. rewrite (Bk W), <- D3. exact St.
      * rewrite (S2 St). split; intros Sb; split.
        -- destruct (occb (lat u) (xZ E u)); [discriminate|]. intros [= W]. exfalso. apply St. rewrite <- (Bk (eq_sym W)), D3. exact Sb.
        -- intros [(W & _)|(_ & W & _)]; discriminate.
        -- destruct (occb (lat u) (xZ E u)); [discriminate|]. intros [= W]. right. auto.
        -- intros [[(W & _)|(_ & W & _)]|(_ & _ & W1 & W)]; try discriminate. now rewrite W1, W.
    + intros [(W & _)|(_ & _ & ->)]; [discriminate|reflexivity].
    + intros [[(W & _)|(_ & _ & ->)]|(_ & W & _)]; try discriminate. reflexivity.
  - intros [(_ & ->)|(W & _)]; [reflexivity|discriminate].
  - intros [[(_ & ->)|(W & _)]|(W & _)]; [reflexivity|discriminate|discriminate].
Qed.
Lemma near_far_move E s E' s' r c i : made KL2 L t w E s -> made KL2 L t w E' s' -> ids s' = map (translate L r c) (ids s) -> is_site L i ->
  (near E s i -> near E' s' (translate L r c i)) /\ (far E s i -> far E' s' (translate L r c i)).
Proof.
  intros M M' Ei Hi. destruct (two_rel E s E' s' r c M M' Ei) as (_ & _ & R & Ag). pose proof (translate_sym L r c HL) as S.
  destruct (rel_cand E E' _ _ _ S R Ag) as (X & _ & Y & Z'). destruct R as (A & _ & _ & _ & _ & O). destruct (K2_cand E _ A) as (HX & HY & HZ).
  unfold near, far. cbv zeta. rewrite X, Y, Z', !O by auto. split.
  - intros [(B1 & ->)|(B1 & B2 & ->)]; auto.
  - intros (B1 & B2 & B3 & ->). auto.
Qed.
Lemma b_dec (b c : bool) : b = c \/ b <> c.
Proof. destruct b, c; auto; right; discriminate. Qed.
Lemma near_dec E s i : near E s i \/ ~ near E s i.
Proof.
  unfold near. cbv zeta. set (u := s2 E s). destruct (occb (lat u) (candX E u)), (occb (lat u) (xY E u)), (Z.eq_dec i (candX E u)), (Z.eq_dec i (xY E u)); intuition congruence.
Qed.
Lemma far_dec E s i : far E s i \/ ~ far E s i.
Proof.
  unfold far. cbv zeta. set (u := s2 E s). destruct (occb (lat u) (candX E u)), (occb (lat u) (xY E u)), (occb (lat u) (xZ E u)), (Z.eq_dec i (xZ E u)); intuition congruence.
Qed.
Lemma how_le {A} (P Q : A -> Prop) a b : how_many P a -> how_many Q b -> (forall x, P x -> Q x) -> a <= b.
Proof. intros (l & N & I & ->) (l' & N' & I' & ->) H. apply inj_le, NoDup_incl_length; auto. intros x Hx. apply I', H. now apply I. Qed.
Lemma made_iff (Q Q' : env -> perc -> Prop) m : (forall E s, made KL2 L t w E s -> (Q E s <-> Q' E s)) ->
  how_many (constructed_with KL2 L t (then_draws L t w Q)) m -> how_many (constructed_with KL2 L t (then_draws L t w Q')) m.
Proof.
  intros H. apply how_iff. intros c. unfold constructed_with, then_draws. split; intros (A & B); (split; [exact A|]); intros E s HE Ec E1 W.
  - apply H; [split; auto|now apply B].
  - apply H; [split; auto|now apply B].
Qed.
Lemma p_C106_third : exists d a g, 0 <= a <= g /\ forall i, is_site L i -> let b := nbr L (nbr L i (opp d)) (opp d) in
  (straddles L b d -> how_many (constructed_with KL2 L t (then_draws L t w (fun E s => placed_at 2 E s i))) a) /\
  (~ straddles L b d -> how_many (constructed_with KL2 L t (then_draws L t w (fun E s => placed_at 2 E s i))) g).
Proof.
  destruct (made_equal KL2 L t w HL (fun E s i => near E s i)) as (a & Ha).
  { intros E s E' s' r c x M M' Ei Hx. apply (near_far_move E s E' s'); auto. } { intros E s x _ _. apply near_dec. }
  destruct (made_equal KL2 L t w HL (fun E s i => near E s i \/ far E s i)) as (g & Hg).
  { intros E s E' s' r c x M M' Ei Hx. destruct (near_far_move E s E' s' r c x M M' Ei Hx). tauto. } { intros E s x _ _. destruct (near_dec E s x), (far_dec E s x); tauto. }
  exists d3, a, g. assert (H0 : is_site L 0) by (pose proof (LL_pos L HL); unfold is_site; lia). split.
  - split; [destruct (Ha 0 H0) as (l & _ & _ & ->); lia|]. apply (how_le _ _ _ _ (Ha 0 H0) (Hg 0 H0)). intros c (A & B). split; auto. intros E s HE Ec E1 W. left. now apply (B E s).
  - intros i Hi b. split; intros Sb.
    + eapply made_iff; [|exact (Ha i Hi)]. intros E s M. symmetry. now apply (third_iff E s i M Hi).
    + eapply made_iff; [|exact (Hg i Hi)]. intros E s M. symmetry. now apply (third_iff E s i M Hi).
Qed.
Lemma p_C106_two j i : (j < 2)%nat -> is_site L i -> share KL2 L t (then_draws L t w (fun E s => placed_at j E s i)) 1 (L * L).
Proof.
  intros Hj Hi. assert (Eq : forall E s, made KL2 L t w E s -> forall x, placed_at j E s x <-> (match j with O => x1 E s | _ => x2 E s end) = x).
  { intros E s M x. destruct (order_three E s M) as (zs & Eo & _). unfold placed_at. rewrite Eo. destruct j as [|[|]]; cbn [nth_error]; try lia; split; congruence. }
  apply (made_share KL2 L t w HL (fun E s i => placed_at j E s i)); auto.
  - intros E s E' s' r c x M M' Ei Hx. rewrite (Eq E s M), (Eq E' s' M'). destruct (two_rel E s E' s' r c M M' Ei) as (Q1 & Q2 & _). intros <-. destruct j; congruence.
  - intros E s x M _. rewrite (Eq E s M). destruct (Z.eq_dec (match j with O => x1 E s | _ => x2 E s end) x); auto.
  - intros E s x y M A B. apply (Eq E s M) in A. apply (Eq E s M) in B. congruence.
  - intros E s x M A. apply (Eq E s M) in A. destruct (made_two E s M) as (_ & _ & _ & _ & _ & _ & _ & _ & _ & _ & _ & _ & _ & X1 & X2 & _). destruct j; subst x; auto.
  - intros E s M. left. eexists. apply (Eq E s M). reflexivity.
  - intros E s M. eexists. apply (Eq E s M). reflexivity.
Qed.

(** ** Draws for which every third call looks two steps away *)
Variable d : dir.
Hypothesis W0 : w 0%nat = 0. Hypothesis W1 : w 1%nat = 0. Hypothesis W3 : w 3%nat = 0.
Hypothesis W2 : nth (Z.to_nat (w 2%nat mod 4)) all_dirs DRight = d. Hypothesis W4 : nth (Z.to_nat (w 4%nat mod 4)) all_dirs DRight = d.
Lemma all_far E s : made KL2 L t w E s -> far E s (nbr L (nbr L (x1 E s) d) d) /\ d3 = d.
Proof.
  intros M. destruct (made_two E s M) as (A0 & _ & A2 & I2 & C0 & _ & C2 & T0 & _ & T2 & _ & _ & O2 & X1 & X2 & _ & _ & Ag & D3 & V2).
  assert (Y : again = true) by (unfold again; now rewrite W0, W1, Z.eqb_refl). specialize (V2 Y). rewrite W2 in V2.
  assert (D : d3 = d) by (unfold d3; now rewrite Y). split; auto. set (u := s2 E s) in *.
  assert (X : candX E u = x1 E s).
  { destruct M as (HE & E1 & W). unfold x1, candX. rewrite I2. f_equal. unfold rndi. rewrite C0, C2, I2, T0, T2, Y. pose proof (W 3%nat) as Q3. pose proof (W 0%nat) as Q0. fold n in Q3, Q0. rewrite Nat.add_0_r in Q0.
    rewrite Q3, Q0, W0, W3. reflexivity. }
  assert (Yy : xY E u = x2 E s) by (unfold xY; rewrite X, D3, D, V2; reflexivity).
  assert (Zz : xZ E u = nbr L (nbr L (x1 E s) d) d) by (unfold xZ; rewrite Yy, D3, D, V2; reflexivity).
  unfold far. cbv zeta. fold u. rewrite X, Yy, Zz. assert (HZ : is_site L (nbr L (nbr L (x1 E s) d) d)) by (apply nbr_site; auto; now apply nbr_site).
  rewrite !O2 by auto. rewrite !Z.eqb_refl. cbn [orb]. split; [now rewrite orb_true_r|]. split; auto. split; auto.
  rewrite V2. apply orb_false_iff. split; apply Z.eqb_neq.
  - apply nbr_ne. now apply nbr_site.
  - apply two_ne; auto.
Qed.
Lemma far_not_near E s i j : far E s i -> near E s j -> False.
Proof. unfold far, near. cbv zeta. intros (A & B & _) [(C & _)|(_ & C & _)]; congruence. Qed.
Lemma far_shares i : is_site L i -> let b := nbr L (nbr L i (opp d)) (opp d) in
  (straddles L b d -> share KL2 L t (then_draws L t w (fun E s => placed_at 2 E s i)) 0 (L * L)) /\
  (~ straddles L b d -> share KL2 L t (then_draws L t w (fun E s => placed_at 2 E s i)) 1 (L * L)).
Proof.
  intros Hi b. pose proof (choices_count n (n_pos L HL)) as Hc. pose proof (lt_O_fact n) as Hp. split; intros Sb.
  - exists (Z.of_nat (fact n)), 0. split; [lia|]. split; [exact Hc|]. split; [|lia]. exists []. split; [constructor|]. split; [|reflexivity]. intros c. split; [intros []|].
    intros (A & B). destruct (made_onto KL2 L t w HL c A) as (E & s & M & Ec & _). destruct (all_far E s M) as (F & D).
    assert (P : placed_at 2 E s i) by (destruct M as (HE & E1 & W); now apply (B E s)).
    destruct (third_iff E s i M Hi) as (G & _). rewrite D in G. apply (G Sb) in P. eapply far_not_near; eauto.
  - assert (Sh : share KL2 L t (then_draws L t w (fun E s => far E s i)) 1 (L * L)).
    { apply (made_share KL2 L t w HL (fun E s i => far E s i)); auto.
      - intros E s E' s' r c x M M' Ei Hx. apply (near_far_move E s E' s'); auto.
      - intros E s x _ _. apply far_dec.
      - intros E s x y _ (_ & _ & _ & ->) (_ & _ & _ & ->). reflexivity.
      - intros E s x M (_ & _ & _ & ->). destruct (made_two E s M) as (_ & _ & A2 & _). now apply (K2_cand E (s2 E s)).
      - intros E s M. left. eexists. now apply all_far.
      - intros E s M. eexists. now apply all_far. }
    destruct Sh as (all & good & S1 & S2 & S3 & S4). exists all, good. split; auto. split; auto. split; auto. eapply made_iff; [|exact S3]. intros E s M.
    destruct (all_far E s M) as (F & D). destruct (third_iff E s i M Hi) as (_ & G). rewrite D in G. rewrite (G Sb). split; auto. intros [N|N]; auto. exfalso. eapply far_not_near; eauto.
Qed.
End L2.
Lemma p_C106_biased L t d : 3 <= L -> exists w, forall i, is_site L i -> let b := nbr L (nbr L i (opp d)) (opp d) in
  (straddles L b d -> share KL2 L t (then_draws L t w (fun E s => placed_at 2 E s i)) 0 (L * L)) /\
  (~ straddles L b d -> share KL2 L t (then_draws L t w (fun E s => placed_at 2 E s i)) 1 (L * L)).
Proof.
  intros H3. set (k := match d with DRight => 0 | DDown => 1 | DLeft => 2 | DUp => 3 end). exists (fun m => match m with 2%nat | 4%nat => k | _ => 0 end).
  intros i Hi. apply (far_shares L t _ H3 d); auto; unfold k; destruct d; reflexivity.
Qed.
(** In coordinates, for steps to the right. *)
Lemma p_C106_column L i : 3 <= L -> is_site L i -> (straddles L (nbr L (nbr L i DLeft) DLeft) DRight <-> col L i = 1).
Proof.
  intros H3 Hi. cbn [straddles]. change (nbr L (nbr L i DLeft) DLeft mod L) with (col L (nbr L (nbr L i DLeft) DLeft)). unfold nbr. rewrite !col_at by lia. cbn [step fst snd].
  rewrite Zplus_mod_idemp_l. pose proof (col_bound L ltac:(lia) i) as C. destruct (Z_lt_le_dec (col L i) 2) as [N|N].
  - replace (col L i + -1 + -1) with (col L i - 2 + L + (-1) * L) by lia. rewrite Z.mod_add by lia. rewrite Z.mod_small by lia. lia.
  - rewrite Z.mod_small by lia. lia.
Qed.

(** ** The statements *)
Lemma p_C106_first_two L t w j i : 3 <= L -> (j < 2)%nat -> is_site L i ->
  share KL2 L t (then_draws L t w (fun E s => nth_error (placed_order (events E s [CPlace; CPlace; CPlace])) j = Some i)) 1 (L * L).
Proof. intros H3 Hj Hi. now apply (p_C106_two L t w H3 j i). Qed.
Lemma p_C106_third_call L t w : 3 <= L ->
  let third i E s := nth_error (placed_order (events E s [CPlace; CPlace; CPlace])) 2 = Some i in
  exists d a g, 0 <= a <= g /\ forall i, is_site L i ->
    let b := nbr L (nbr L i (opp d)) (opp d) in
    (straddles L b d -> how_many (constructed_with KL2 L t (then_draws L t w (third i))) a) /\
    (~ straddles L b d -> how_many (constructed_with KL2 L t (then_draws L t w (third i))) g).
Proof. intros H3 third. exact (p_C106_third L t w H3). Qed.
Lemma p_C106_some_never L t d : 3 <= L ->
  let third i E s := nth_error (placed_order (events E s [CPlace; CPlace; CPlace])) 2 = Some i in
  exists w, forall i, is_site L i ->
    let b := nbr L (nbr L i (opp d)) (opp d) in
    (straddles L b d -> share KL2 L t (then_draws L t w (third i)) 0 (L * L)) /\
    (~ straddles L b d -> share KL2 L t (then_draws L t w (third i)) 1 (L * L)).
Proof. intros H3 third. exact (p_C106_biased L t d H3). Qed.
