(** * CandProps: the L1 and L2 selection rules (C35, C36, C44, C45). *)
From Coq Require Import ZArith List Bool Lia Permutation.
From Verif Require Import Py Lattice Cluster Perc Spec PyFacts Torus Geometry LatFacts Inv Merge Count Fresh Select State Step History Reach
  Micro StateProps Comm Seq RunBase RunProps RunProps2 Cand Cycle CandRun.
Import ListNotations.
Open Scope Z_scope.

(** ** The second site of the L2 rule *)
Lemma second_spec L X d : 0 < L -> is_site L X ->
  (straddles L X d -> second L X (nbr L X d) = X) /\ (~ straddles L X d -> second L X (nbr L X d) = nbr L (nbr L X d) d).
Proof.
  intros HL HX. unfold second, pos. set (Y := nbr L X d).
  assert (RX : row L X = X / L /\ col L X = X mod L) by (split; reflexivity). destruct RX as (RX & CX).
  assert (RY : row L Y = (X / L + fst (step d)) mod L /\ col L Y = (X mod L + snd (step d)) mod L).
  { unfold Y, nbr. rewrite row_at, col_at by auto. auto. }
  destruct RY as (RY & CY).
  pose proof (Z.mod_pos_bound X L HL) as Bc.
  assert (Br : 0 <= X / L < L) by (unfold is_site in HX; split; [apply Z.div_pos; lia|apply Z.div_lt_upper_bound; nia]).
  assert (EX : at_rc L (X / L) (X mod L) = X).
  { unfold at_rc. rewrite !Z.mod_small by lia. rewrite (Z.div_mod X L) at 3 by lia. lia. }
  assert (Hmod : forall a b a' b', a mod L = a' mod L -> b mod L = b' mod L -> at_rc L a b = at_rc L a' b').
  { intros. unfold at_rc. congruence. }
  assert (EN : nbr L Y d = at_rc L (row L Y + fst (step d)) (col L Y + snd (step d))) by reflexivity.
  assert (Z1 : forall a, 0 <= a < L -> (a + 0) mod L = a) by (intros a Ha; rewrite Z.add_0_r; apply Z.mod_small; lia).
  unfold index_sub, index_add, index_normalize.
  destruct d; cbn [step fst snd straddles] in *; rewrite ?Z1 in RY by lia; rewrite ?Z1 in CY by lia; rewrite EN, RX, CX, RY, CY; cbn [fst snd].
  - rewrite Z.sub_diag. cbn [Z.eqb andb negb]. destruct (Z.eq_dec (X mod L) (L - 1)) as [Hs|Hs].
    + split; [intros _|tauto]. replace ((X mod L + 1) mod L) with 0 by (rewrite Hs; replace (L - 1 + 1) with L by lia; now rewrite Z.mod_same by lia).
      destruct (Z.eqb_spec (0 - X mod L) 0); cbn [negb].
      * cbn [fst snd]. etransitivity; [|exact EX]. apply Hmod; f_equal; lia.
      * cbn [fst snd]. replace ((0 - X mod L) / Z.abs (0 - X mod L)) with (-1).
        2:{ rewrite Z.abs_neq by lia. apply Z.div_unique_exact; lia. }
        etransitivity; [|exact EX]. apply Hmod; [f_equal; lia|]. rewrite Hs. replace (0 + -1) with (L - 1 + (-1) * L) by lia. apply Z_mod_plus_full.
    + split; [tauto|intros _]. rewrite (Z.mod_small (X mod L + 1)) by lia.
      destruct (Z.eqb_spec (X mod L + 1 - X mod L) 0); [lia|]. cbn [negb fst snd].
      replace (X mod L + 1 - X mod L) with 1 by lia. reflexivity.
  - destruct (Z.eq_dec (X / L) (L - 1)) as [Hs|Hs].
    + split; [intros _|tauto]. replace ((X / L + 1) mod L) with 0 by (rewrite Hs; replace (L - 1 + 1) with L by lia; now rewrite Z.mod_same by lia).
      destruct (Z.eqb_spec (0 - X / L) 0); rewrite Z.sub_diag; cbn [negb andb Z.eqb].
      * cbn [fst snd]. etransitivity; [|exact EX]. apply Hmod; f_equal; lia.
      * cbn [fst snd]. replace ((0 - X / L) / Z.abs (0 - X / L)) with (-1).
        2:{ rewrite Z.abs_neq by lia. apply Z.div_unique_exact; lia. }
        etransitivity; [|exact EX]. apply Hmod; [|f_equal; lia]. rewrite Hs. replace (0 + -1) with (L - 1 + (-1) * L) by lia. apply Z_mod_plus_full.
    + split; [tauto|intros _]. rewrite (Z.mod_small (X / L + 1)) by lia.
      destruct (Z.eqb_spec (X / L + 1 - X / L) 0); [lia|]. rewrite Z.sub_diag. cbn [negb andb fst snd Z.eqb].
      replace (X / L + 1 - X / L) with 1 by lia. reflexivity.
  - rewrite Z.sub_diag. cbn [Z.eqb andb negb]. destruct (Z.eq_dec (X mod L) 0) as [Hs|Hs].
    + split; [intros _|tauto]. replace ((X mod L + -1) mod L) with (L - 1)
        by (rewrite Hs; replace (0 + -1) with (L - 1 + (-1) * L) by lia; rewrite Z_mod_plus_full; rewrite Z.mod_small; lia).
      destruct (Z.eqb_spec (L - 1 - X mod L) 0); cbn [negb].
      * cbn [fst snd]. etransitivity; [|exact EX]. apply Hmod; f_equal; lia.
      * cbn [fst snd]. replace ((L - 1 - X mod L) / Z.abs (L - 1 - X mod L)) with 1.
        2:{ rewrite Z.abs_eq by lia. apply Z.div_unique_exact; lia. }
        etransitivity; [|exact EX]. apply Hmod; [f_equal; lia|]. rewrite Hs. replace (L - 1 + 1) with (0 + 1 * L) by lia. apply Z_mod_plus_full.
    + split; [tauto|intros _]. rewrite (Z.mod_small (X mod L + -1)) by lia.
      destruct (Z.eqb_spec (X mod L + -1 - X mod L) 0); [lia|]. cbn [negb fst snd].
      replace (X mod L + -1 - X mod L) with (-1) by lia. reflexivity.
  - destruct (Z.eq_dec (X / L) 0) as [Hs|Hs].
    + split; [intros _|tauto]. replace ((X / L + -1) mod L) with (L - 1)
        by (rewrite Hs; replace (0 + -1) with (L - 1 + (-1) * L) by lia; rewrite Z_mod_plus_full; rewrite Z.mod_small; lia).
      destruct (Z.eqb_spec (L - 1 - X / L) 0); rewrite Z.sub_diag; cbn [negb andb Z.eqb].
      * cbn [fst snd]. etransitivity; [|exact EX]. apply Hmod; f_equal; lia.
      * cbn [fst snd]. replace ((L - 1 - X / L) / Z.abs (L - 1 - X / L)) with 1.
        2:{ rewrite Z.abs_eq by lia. apply Z.div_unique_exact; lia. }
        etransitivity; [|exact EX]. apply Hmod; [|f_equal; lia]. rewrite Hs. replace (L - 1 + 1) with (0 + 1 * L) by lia. apply Z_mod_plus_full.
    + split; [tauto|intros _]. rewrite (Z.mod_small (X / L + -1)) by lia.
      destruct (Z.eqb_spec (X / L + -1 - X / L) 0); [lia|]. rewrite Z.sub_diag. cbn [negb andb fst snd Z.eqb].
      replace (X / L + -1 - X / L) with (-1) by lia. reflexivity.
Qed.

(** ** The drawn candidate *)
Lemma zlen_cands s : 0 <= cur_idx s <= zlen (ids s) -> zlen (cands s) = zlen (ids s) - cur_idx s.
Proof. intros H. unfold cands, zlen in *. rewrite skipn_length. lia. Qed.
Lemma drawn_candX E s : 0 <= cur_idx s < zlen (ids s) -> drawn E s = candX E s.
Proof.
  intros H. unfold drawn, candX, rndi. change (candidates s) with (cands s). rewrite zlen_cands by lia.
  replace (zlen (ids s) - 1 - cur_idx s + 1) with (zlen (ids s) - cur_idx s) by lia.
  pose proof (Z.mod_pos_bound (e_draw E (tick s)) (zlen (ids s) - cur_idx s) ltac:(lia)).
  unfold cands, at_. rewrite skipn_nth. destruct (Z.leb_spec 0 (cur_idx s + e_draw E (tick s) mod (zlen (ids s) - cur_idx s))); [|lia].
  f_equal. lia.
Qed.
Lemma chances_cnt L k s i : Static L (lat s) -> is_site L i -> chances k s i = cnt k (lat s) i.
Proof. intros St Hi. unfold chances. rewrite (get_site_by_id_ok L) by auto. reflexivity. Qed.
Lemma cands_len s : 0 <= cur_idx s -> cands s <> [] -> cur_idx s < zlen (ids s).
Proof.
  intros H Hn. destruct (Z.lt_ge_cases (cur_idx s) (zlen (ids s))); auto. exfalso. apply Hn. unfold cands. apply skipn_all2. unfold zlen in *. lia.
Qed.

(** ** What a placement does, as a function of the two random words *)
Lemma place_L12 E k L s : env_ok E -> k = KL1 \/ k = KL2 -> reachable_k E k L s -> cur_idx s < L * L -> candidates s <> [] ->
  let X := drawn E s in let Y := nbr L X (drawn_dir E s) in let V := nbr L Y (drawn_dir E s) in
  let s' := fst (place_one_site E s) in
  let taken x := sel_flag s' = Some SUCESS /\ sel_id s' = Some x /\ candidates s' = candidates s /\
    (forall i, is_site L i -> chances k s' i = chances k s i) in
  let rejected := sel_flag s' = Some CURRENT_SITE_NOT_EMPTY /\ chances k s' X = Z.max 0 (chances k s X - 1) /\
    (forall i, is_site L i -> i <> X -> chances k s' i = chances k s i) /\
    (if chances k s' X =? 0 then Permutation (candidates s) (X :: candidates s') else candidates s' = candidates s) in
  snd (place_one_site E s) = Ok true /\ In X (candidates s) /\ is_site L X /\
  (~ occupied s X -> taken X) /\
  (occupied s X -> ~ occupied s Y -> taken Y) /\
  (occupied s X -> occupied s Y -> k = KL1 -> rejected) /\
  (occupied s X -> occupied s Y -> k = KL2 ->
     (straddles L X (drawn_dir E s) -> rejected) /\
     (~ straddles L X (drawn_dir E s) -> ~ occupied s V -> taken V) /\
     (~ straddles L X (drawn_dir E s) -> occupied s V -> rejected)).
Proof.
  intros HE Hk HR Hlt Hne. destruct (reachable_k_kind E k L s HE HR) as (H & Ek).
  pose proof (i_static _ _ H) as St. pose proof (st_pos _ _ St) as HL. pose proof (i_cur _ _ H) as Hc0.
  pose proof (cands_len s Hc0 Hne) as Hlt2.
  rewrite (drawn_candX E s) by lia. intros X Y V s' taken rejected.
  assert (HX : is_site L X) by (apply candX_site; [apply H|lia]).
  assert (HY : is_site L Y) by (now apply nbr_site). assert (HV : is_site L V) by (now apply nbr_site).
  destruct (place_spec E L s HE H) as (Sd & P).
  pose proof (rndi_range E s ltac:(lia)) as Hr.
  destruct (dec1_same L (lat s) X St HX) as ((Sd1 & Sl) & D1 & D2).
  destruct (dec2_same L (dec1 (lat s) X) X Sd1 HX) as ((Sd2 & _) & D3 & D4).
  destruct (second_spec L X (drawn_dir E s) HL HX) as (S1 & S2). fold Y V in S1, S2.
  assert (OC : forall i, is_site L i -> (occupied s i <-> occ (lat s) i)) by (intros i Hi; now apply (occupied_occ L)).
  assert (InX : In X (candidates s)) by (apply in_cands; lia).
  assert (Ed : dirk E (S (tick s)) = drawn_dir E s) by reflexivity.
  (* successful outcome *)
  assert (TK : forall x s1, sel E L s = (s1, Ok SUCESS) -> sel_id s1 = Some x -> ids s1 = ids s -> cur_idx s1 = cur_idx s ->
    (forall i, cnt k (lat s1) i = cnt k (lat s) i) -> snd (place_one_site E s) = Ok true /\ taken x).
  { intros x s1 Es Ex Ei Ec Hn. rewrite Es in *. cbn [fst snd] in *. unfold taken, s'. clear taken rejected s'.
    destruct P as (x' & s2 & root & E1 & E2 & P & Pd). rewrite P. cbn [fst snd].
    destruct (core2_fields _ _ (pd_core _ _ _ _ _ _ Pd)) as (F1 & F2 & F3 & F4 & F5 & F6 & F7 & F8 & _).
    split; auto. split; [apply (pd_flag _ _ _ _ _ _ Pd)|]. split; [congruence|].
    split. { unfold candidates, get_site_id_sequence. now rewrite F2, F4, Ei, Ec. }
    intros i Hi. rewrite (chances_cnt L) by (auto; apply (ck_static _ _ _ (pd_cl _ _ _ _ _ _ Pd))). rewrite (chances_cnt L) by auto.
    rewrite <- Hn. destruct (pd_nn _ _ _ _ _ _ Pd i) as (Q1 & Q2). unfold cnt. destruct k; auto. }
  (* rejection *)
  assert (RJ : forall s1, sel E L s = (s1, Ok CURRENT_SITE_NOT_EMPTY) -> Static L (lat s1) ->
    (forall i, cnt k (lat s1) i = decd k (lat s) X i) ->
    (if cnt k (lat s1) X =? 0
      then ids s1 = upd (ids s) (Z.to_nat (rndi E s)) (at_ 0 (ids s) (cur_idx s)) /\ cur_idx s1 = cur_idx s + 1
      else ids s1 = ids s /\ cur_idx s1 = cur_idx s) -> snd (place_one_site E s) = Ok true /\ rejected).
  { intros s1 Es St1 Hn Hd. rewrite Es in *. cbn [fst snd] in *. unfold rejected, s'. clear taken rejected s' TK.
    rewrite P. cbn [fst snd]. split; auto. split; [reflexivity|].
    assert (Qc : forall i, is_site L i -> chances k (set_sel_flag (Some CURRENT_SITE_NOT_EMPTY) s1) i = decd k (lat s) X i).
    { intros i Hi. rewrite (chances_cnt L) by auto. apply Hn. }
    split; [rewrite Qc, (chances_cnt L) by auto; unfold decd; now rewrite Z.eqb_refl|].
    split; [intros i Hi Hne'; rewrite Qc, (chances_cnt L) by auto; unfold decd; destruct (Z.eqb_spec i X); congruence|].
    rewrite Qc by auto. rewrite Hn in Hd. destruct (decd k (lat s) X X =? 0); destruct Hd as (Hd1 & Hd2).
    - unfold candidates, get_site_id_sequence. change (cur_idx (set_sel_flag _ s1)) with (cur_idx s1).
      change (ids (set_sel_flag _ s1)) with (ids s1). rewrite Hd1, Hd2. apply drop_perm; lia.
    - unfold candidates, get_site_id_sequence. change (cur_idx (set_sel_flag _ s1)) with (cur_idx s1).
      change (ids (set_sel_flag _ s1)) with (ids s1). now rewrite Hd1, Hd2. }
  unfold sel in TK, RJ. rewrite Ek in TK, RJ. clear P Sd.
  assert (G : forall P Q : Prop, P -> Q -> P /\ In X (candidates s) /\ is_site L X /\ Q) by tauto.
  destruct Hk as [-> | ->].
  - unfold sel1 in TK, RJ. destruct (Z.leb_spec (L * L) (cur_idx s)); [lia|]. destruct (Z.leb_spec (zlen (ids s)) (cur_idx s)); [lia|].
    cbv zeta in TK, RJ. fold X in TK, RJ. rewrite Ed in TK, RJ. fold Y in TK, RJ.
    destruct (occb_spec (lat s) X) as [Ho|Ho]; [destruct (occb_spec (lat s) Y) as [HoY|HoY]|].
    + assert (R : snd (place_one_site E s) = Ok true /\ rejected).
      { eapply RJ; [reflexivity|destruct (nn1 _ _ =? 0); exact Sd1| |];
          change (cnt KL1 (lat s) X) with (nn1 (lat s) X); destruct (nn1 (dec1 (lat s) X) X =? 0) eqn:Ez.
        - intros i. apply D1.
        - intros i. apply D1.
        - change (cnt KL1 (lat (dropped _ _)) X) with (nn1 (dec1 (lat s) X) X). rewrite Ez. split; reflexivity.
        - change (cnt KL1 (lat (set_lat _ _)) X) with (nn1 (dec1 (lat s) X) X). rewrite Ez. split; reflexivity. }
      destruct R as (R1 & R2). apply G; auto. rewrite !OC by auto. split; [tauto|]. split; [tauto|]. split; [auto|]. discriminate.
    + destruct (TK Y _ eq_refl eq_refl eq_refl eq_refl ltac:(reflexivity)) as (R1 & R2). apply G; auto. rewrite !OC by auto.
      split; [tauto|]. split; [auto|]. split; [tauto|]. discriminate.
    + destruct (TK X _ eq_refl eq_refl eq_refl eq_refl ltac:(reflexivity)) as (R1 & R2). apply G; auto. rewrite !OC by auto.
      split; [auto|]. split; [tauto|]. split; [tauto|]. discriminate.
  - unfold sel2 in TK, RJ. destruct (Z.leb_spec (L * L) (cur_idx s)); [lia|]. destruct (Z.leb_spec (zlen (ids s)) (cur_idx s)); [lia|].
    cbv zeta in TK, RJ. fold X in TK, RJ. rewrite Ed in TK, RJ. fold Y in TK, RJ.
    destruct (occb_spec (lat s) X) as [Ho|Ho]; [destruct (occb_spec (lat s) Y) as [HoY|HoY];
      [destruct (occb_spec (lat s) (second L X Y)) as [HoZ|HoZ]|]|].
    + set (l2 := dec2 (dec1 (lat s) X) X) in *.
      assert (Q : forall i, cnt KL2 l2 i = decd KL2 (lat s) X i).
      { intros i. unfold cnt, decd. cbn. rewrite D4, !D2. reflexivity. }
      assert (R : snd (place_one_site E s) = Ok true /\ rejected).
      { eapply RJ; [reflexivity|destruct (nn2 _ _ =? 0); exact Sd2| |]; destruct (nn2 l2 X =? 0) eqn:Ez; try exact Q.
        - change (cnt KL2 (lat (dropped _ _)) X) with (nn2 l2 X). rewrite Ez. split; reflexivity.
        - change (cnt KL2 (lat (set_lat _ _)) X) with (nn2 l2 X). rewrite Ez. split; reflexivity. }
      destruct R as (R1 & R2). apply G; auto. rewrite !OC by auto. split; [tauto|]. split; [tauto|]. split; [discriminate|].
      intros _ _ _. split; [auto|]. split; [|auto]. intros Hs Hn. rewrite (S2 Hs) in HoZ. contradiction.
    + assert (Q : forall i, cnt KL2 (dec1 (lat s) X) i = cnt KL2 (lat s) i) by (intros i; apply D2).
      destruct (TK (second L X Y) _ eq_refl eq_refl eq_refl eq_refl Q) as (R1 & R2). apply G; auto. rewrite !OC by auto.
      split; [tauto|]. split; [tauto|]. split; [discriminate|]. intros _ _ _.
      split; [intros Hs; rewrite (S1 Hs) in HoZ; contradiction|].
      split; [intros Hs _; now rewrite (S2 Hs) in R2|]. intros Hs Hv. rewrite (S2 Hs) in HoZ. contradiction.
    + destruct (TK Y _ eq_refl eq_refl eq_refl eq_refl ltac:(reflexivity)) as (R1 & R2). apply G; auto. rewrite !OC by auto.
      split; [tauto|]. split; [auto|]. split; [tauto|]. tauto.
    + destruct (TK X _ eq_refl eq_refl eq_refl eq_refl ltac:(reflexivity)) as (R1 & R2). apply G; auto. rewrite !OC by auto.
      split; [auto|]. split; [tauto|]. split; [tauto|]. tauto.
Qed.

Lemma success_open E k L s : env_ok E -> k = KL1 \/ k = KL2 -> reachable_k E k L s ->
  snd (place_one_site E s) = Ok true -> cur_idx s < L * L /\ candidates s <> [].
Proof.
  intros HE Hk HR Hp. destruct (reachable_k_kind E k L s HE HR) as (H & Ek). destruct (place_spec E L s HE H) as (_ & P).
  pose proof (i_cur _ _ H) as Hc.
  assert (Q : sel E L s = if L * L <=? cur_idx s then (s, Ok EMPTY_SITE_LIST) else if zlen (ids s) <=? cur_idx s then (s, Err ValueError) else sel E L s).
  { unfold sel, sel1, sel2. destruct Hk as [-> | ->]; rewrite Ek; destruct (L * L <=? cur_idx s); auto; destruct (zlen (ids s) <=? cur_idx s); auto. }
  destruct (Z.leb_spec (L * L) (cur_idx s)); [rewrite Q in P; rewrite P in Hp; discriminate|].
  destruct (Z.leb_spec (zlen (ids s)) (cur_idx s)) as [Hz|Hz]; [rewrite Q in P; rewrite P in Hp; discriminate|].
  split; auto. intros Hn. pose proof (zlen_cands s ltac:(lia)) as Hl. change (cands s = []) in Hn. rewrite Hn in Hl. unfold zlen in *. cbn in Hl. lia.
Qed.
Lemma p_C35 E L s x : env_ok E -> reachable_k E KL1 L s ->
  snd (place_one_site E s) = Ok true -> sel_flag (fst (place_one_site E s)) = Some SUCESS -> sel_id (fst (place_one_site E s)) = Some x ->
  is_site L x /\ ~ occupied s x /\
  (In x (candidates s) \/ exists X d, In X (candidates s) /\ occupied s X /\ x = nbr L X d).
Proof.
  intros HE HR Hp Hf Hx. destruct (success_open E KL1 L s HE (or_introl eq_refl) HR Hp) as (H1 & H2).
  destruct (place_L12 E KL1 L s HE (or_introl eq_refl) HR H1 H2) as (_ & P0 & PX & P1 & P2 & P3 & _).
  destruct (reachable_k_kind E KL1 L s HE HR) as (H & _). pose proof (i_pos _ _ H).
  assert (D : forall i, is_site L i -> occupied s i \/ ~ occupied s i) by (intros i Hi; unfold occupied; lia).
  destruct (D _ PX) as [O1|O1].
  - assert (HY : is_site L (nbr L (drawn E s) (drawn_dir E s))) by (now apply nbr_site). destruct (D _ HY) as [O2|O2].
    + destruct (P3 O1 O2 eq_refl) as (Q & _). congruence.
    + destruct (P2 O1 O2) as (_ & Q & _). rewrite Hx in Q. injection Q as ->. split; auto. split; auto. right. eauto 6.
  - destruct (P1 O1) as (_ & Q & _). rewrite Hx in Q. injection Q as ->. auto.
Qed.
Lemma p_C36 E L s x : env_ok E -> reachable_k E KL2 L s ->
  snd (place_one_site E s) = Ok true -> sel_flag (fst (place_one_site E s)) = Some SUCESS -> sel_id (fst (place_one_site E s)) = Some x ->
  is_site L x /\ ~ occupied s x /\
  (In x (candidates s) \/
   (exists X d, In X (candidates s) /\ occupied s X /\ x = nbr L X d) \/
   (exists X d, In X (candidates s) /\ occupied s X /\ occupied s (nbr L X d) /\ ~ straddles L X d /\ x = nbr L (nbr L X d) d)).
Proof.
  intros HE HR Hp Hf Hx. destruct (success_open E KL2 L s HE (or_intror eq_refl) HR Hp) as (H1 & H2).
  destruct (place_L12 E KL2 L s HE (or_intror eq_refl) HR H1 H2) as (_ & P0 & PX & P1 & P2 & _ & P3).
  destruct (reachable_k_kind E KL2 L s HE HR) as (H & _). pose proof (i_pos _ _ H).
  assert (D : forall i, is_site L i -> occupied s i \/ ~ occupied s i) by (intros i Hi; unfold occupied; lia).
  destruct (D _ PX) as [O1|O1].
  - assert (HY : is_site L (nbr L (drawn E s) (drawn_dir E s))) by (now apply nbr_site). destruct (D _ HY) as [O2|O2].
    + destruct (P3 O1 O2 eq_refl) as (Q1 & Q2 & Q3).
      assert (Ds : straddles L (drawn E s) (drawn_dir E s) \/ ~ straddles L (drawn E s) (drawn_dir E s)) by (destruct (drawn_dir E s); cbn; lia).
      destruct Ds as [Ds|Ds]; [destruct (Q1 Ds); congruence|].
      assert (HV : is_site L (nbr L (nbr L (drawn E s) (drawn_dir E s)) (drawn_dir E s))) by (now apply nbr_site).
      destruct (D _ HV) as [O3|O3]; [destruct (Q3 Ds O3); congruence|].
      destruct (Q2 Ds O3) as (_ & Q & _). rewrite Hx in Q. injection Q as ->. split; auto. split; auto. right. right. eauto 10.
    + destruct (P2 O1 O2) as (_ & Q & _). rewrite Hx in Q. injection Q as ->. split; auto. split; auto. right. left. eauto 6.
  - destruct (P1 O1) as (_ & Q & _). rewrite Hx in Q. injection Q as ->. auto.
Qed.

(** ** Short custom lists (C44) *)
Definition Short (L : Z) (s : perc) : Prop :=
  Inv L s /\ is_L12 (kind s) = true /\ zlen (ids s) < L * L /\ cur_idx s <= zlen (ids s) /\
  forall i, is_site L i -> 0 <= cnt (kind s) (lat s) i.
Definition mu (L : Z) (s : perc) : Z := weight L s + (zlen (ids s) - cur_idx s).
Lemma short_mu L s : Short L s -> 0 <= mu L s.
Proof.
  intros (H & Hk & Hl & Hc & Hn). unfold mu, weight. pose proof (nocc_le L (lat s) (i_pos _ _ H)). rewrite (i_occ _ _ H).
  assert (0 <= zsum (cnt (kind s) (lat s)) (zrange (L * L))) by (apply zsum_nonneg; intros x Hx; apply Hn; now apply In_zrange). lia.
Qed.
Lemma inv_cnt L s i : Inv L s -> is_site L i -> 0 <= cnt (kind s) (lat s) i.
Proof. intros H Hi. destruct (i_nn _ _ H i Hi). unfold cnt. destruct (kind s); auto. Qed.
Lemma zsum_le1 f g l X : NoDup l -> In X l -> (forall x, In x l -> g x = if x =? X then Z.max 0 (f X - 1) else f x) -> 0 <= f X ->
  zsum g l = zsum f l - (if 0 <? f X then 1 else 0).
Proof.
  intros Nd HX Hg H0. destruct (Z.ltb_spec 0 (f X)).
  - apply zsum_dec with X; auto. intros x Hx. rewrite Hg by auto. destruct (x =? X); auto. lia.
  - rewrite (zsum_ext g f); [lia|]. intros x Hx. rewrite Hg by auto. destruct (Z.eqb_spec x X); auto. subst. lia.
Qed.
Lemma place_short E L s : env_ok E -> Short L s ->
  let s' := fst (place_one_site E s) in
  Short L s' /\
  if cur_idx s =? zlen (ids s) then place_one_site E s = (s, Err ValueError)
  else snd (place_one_site E s) = Ok true /\ mu L s' < mu L s /\ (flag_is_success s' = true -> exists x, sel_id s' = Some x).
Proof.
  intros HE (H & Hk & Hl & Hc & Hn). pose proof (place_inv E L s HE H) as H'. pose proof (i_cur _ _ H) as Hc0.
  destruct (place_spec E L s HE H) as (Sd & P). cbv zeta.
  destruct (Z.eqb_spec (cur_idx s) (zlen (ids s))) as [Hz|Hz].
  - assert (Q : sel E L s = (s, Err ValueError)).
    { unfold sel, sel1, sel2. destruct (Z.leb_spec (L * L) (cur_idx s)); [lia|]. destruct (Z.leb_spec (zlen (ids s)) (cur_idx s)); [|lia].
      destruct (kind s); auto; discriminate. }
    rewrite Q in P. rewrite P. split; auto. unfold Short. cbn [fst]. auto.
  - destruct (sel_L12 E L s H Hk ltac:(lia) ltac:(lia)) as (InX & [(x & s1 & Es & Hx & Hu & Ei & Ec & Hn1 & Ex & _)|(Ho & s1 & Es & Hn1 & Hd & _)]);
      rewrite Es in *; cbn [fst snd] in *.
    + destruct P as (x' & s' & root & E1 & E2 & P & Pd). rewrite P in *. cbn [fst snd] in *.
      destruct (core2_fields _ _ (pd_core _ _ _ _ _ _ Pd)) as (F1 & F2 & F3 & F4 & F5 & F6 & F7 & F8 & _).
      assert (Fk : kind s1 = kind s) by exact (f_equal kind (sd_core _ _ _ _ Sd)).
      assert (Fo : occ_count s1 = occ_count s + 1) by (destruct (sd_res _ _ _ _ Sd) as (y & _ & _ & _ & _ & Q); exact Q).
      assert (Qn : forall i, cnt (kind s) (lat s') i = cnt (kind s) (lat s) i).
      { intros i. rewrite <- Hn1. destruct (pd_nn _ _ _ _ _ _ Pd i) as (Q1 & Q2). destruct (kind s); auto. }
      split. { split; auto. rewrite F1, F2, F4, Fk, Ei, Ec. split; auto. split; auto. split; auto. intros i Hi. rewrite Qn. auto. }
      split; auto. split; [|intros _; exists x'; congruence].
      unfold mu, weight. rewrite F1, F2, F4, F5, Fk, Fo, Ei, Ec. rewrite (zsum_ext _ (cnt (kind s) (lat s))) by auto. lia.
    + rewrite P in *. cbn [fst snd] in *. set (X := candX E s) in *.
      assert (HX : is_site L X) by (apply candX_site; [apply H|lia]).
      assert (Fk : kind s1 = kind s) by exact (f_equal kind (sd_core _ _ _ _ Sd)).
      assert (Fo : occ_count s1 = occ_count s) by (destruct (sd_res _ _ _ _ Sd) as (Q & _); exact Q).
      pose proof (sd_len _ _ _ _ Sd) as Fl.
      assert (Fc : cur_idx s <= cur_idx s1 <= cur_idx s + 1 /\ (cnt (kind s) (lat s) X = 0 -> cur_idx s1 = cur_idx s + 1)).
      { rewrite Hn1 in Hd. unfold decd in Hd. rewrite Z.eqb_refl in Hd. pose proof (Hn X HX).
        destruct (Z.eqb_spec (Z.max 0 (cnt (kind s) (lat s) X - 1)) 0); destruct Hd; lia. }
      split. { split; auto. split; [exact (eq_trans (f_equal is_L12 Fk) Hk)|].
        change (zlen (ids s1) < L * L /\ cur_idx s1 <= zlen (ids s1) /\ forall i, is_site L i -> 0 <= cnt (kind s1) (lat s1) i).
        rewrite Fl. split; auto. split; [lia|]. intros i Hi. exact (inv_cnt L _ i H' Hi). }
      split; auto. split; [|discriminate].
      change (mu L (set_sel_flag (Some CURRENT_SITE_NOT_EMPTY) s1)) with (mu L s1). unfold mu, weight. rewrite Fk, Fo, Fl.
      rewrite (zsum_le1 (cnt (kind s) (lat s)) (cnt (kind s) (lat s1)) (zrange (L * L)) X);
        [|apply NoDup_zrange|now apply In_zrange|intros x _; apply Hn1|now apply Hn].
      pose proof (Hn X HX). destruct (Z.ltb_spec 0 (cnt (kind s) (lat s) X)); lia.
Qed.
Lemma detect_short L s : Short L s -> Short L (fst (detect_wrapping s)) /\ mu L (fst (detect_wrapping s)) = mu L s /\
  cur_idx (fst (detect_wrapping s)) = cur_idx s /\ ids (fst (detect_wrapping s)) = ids s.
Proof.
  intros (H & S2). pose proof (detect_inv L s H) as H'. unfold Short. rewrite (detect_ok L) in * by apply H. unfold detect_res in *.
  destruct (after_wrap s); auto 10. destruct (sel_id s); auto 10. destruct (hitb L (lat s) z); auto 10.
Qed.
Lemma run_short E L : env_ok E -> forall f s, Short L s -> mu L s < Z.of_nat f -> snd (run_loop E f s) = Err ValueError.
Proof.
  intros HE. induction f as [|f IH]; intros s S Hf; [pose proof (short_mu L s S); lia|].
  cbn [run_loop]. unfold mbind at 1. destruct (place_short E L s HE S) as (S1 & P).
  destruct (Z.eqb_spec (cur_idx s) (zlen (ids s))) as [Hz|Hz].
  - rewrite P. reflexivity.
  - destruct P as (P1 & P2 & P3). destruct (place_one_site E s) as [s1 r]. cbn [fst snd] in *. subst r.
    unfold mbind at 1, get. unfold mbind at 1. destruct (flag_is_success s1) eqn:Ef.
    + destruct (P3 eq_refl) as (x & Ex). unfold mbind at 1. destruct (detect_bool L s1 x (proj1 S1) Ex) as (b & ->).
      destruct (detect_short L s1 S1) as (S2 & M2 & _). rewrite (record_ok L) by (apply S2). apply IH.
      * destruct S2 as (T1 & T2). split; [eapply inv_frame; [|exact T1]; reflexivity|exact T2].
      * change (mu L (recorded (fst (detect_wrapping s1)))) with (mu L (fst (detect_wrapping s1))). lia.
    + change (ret tt s1) with (s1, @Ok unit tt). cbv iota beta. apply IH; auto. lia.
Qed.
Lemma p_C44 E k L s l sh : env_ok E -> k = KL1 \/ k = KL2 -> fresh_object E k L s ->
  l <> [] -> Forall (is_site L) l -> Z.of_nat (length l) < L * L ->
  let s1 := fst (set_custome_site_id_list E l sh s) in
  snd (set_custome_site_id_list E l sh s) = Ok tt /\
  (forall cs, Forall (fun c => c = CPlace \/ c = CDetect) cs ->
     let t := after E s1 cs in
     (snd (place_one_site E t) = Ok true \/ place_one_site E t = (t, Err ValueError)) /\
     (6 * (L * L) <= Z.of_nat (placements cs) -> place_one_site E t = (t, Err ValueError))) /\
  (forall f, 6 * (L * L) <= Z.of_nat f -> snd (run_once E f s1) = Err ValueError).
Proof.
  intros HE Hk HF Hne Hl Hlen. destruct (fresh_object_cand E k L s HE ltac:(destruct Hk; subst; reflexivity) HF) as (F & H & Ek & C & W).
  pose proof (LL_pos L (i_pos _ _ H)) as HLL.
  assert (Es : set_custome_site_id_list E l sh s = shuffle E (installed l l true sh s)).
  { rewrite (set_ids_ok E L) by (now apply i_static). rewrite all_siteb by auto. destruct l; [congruence|reflexivity]. }
  assert (Hi : Inv L (installed l l true sh s)) by (now apply installed_inv).
  cbv zeta. rewrite Es. destruct (shuffle_inv E L _ Hi) as (s1 & E1 & H1). rewrite E1. cbn [fst snd]. split; auto.
  assert (X : Short L s1 /\ mu L s1 = 5 * (L * L) + Z.of_nat (length l)).
  { pose proof (fs_cur _ _ F) as C0.
    assert (G : ids s1 = ids s1 /\ length (ids s1) = length l /\ cur_idx s1 = 0 /\ lat s1 = lat s /\ kind s1 = kind s /\ occ_count s1 = occ_count s).
    { destruct (shuffle_ok E L (installed l l true sh s)) as [(E2 & ?)|(_ & l' & t' & rv & E2 & P & _)]; try apply Hi;
        rewrite E2 in E1; injection E1 as <-.
      - auto 10.
      - split; auto. split; [|auto]. cbn. symmetry. now apply Permutation_length in P. }
    destruct G as (_ & G1 & G2 & G3 & G4 & G5). split.
    - split; auto. rewrite G4, Ek. split; [destruct Hk; subst; auto|]. unfold zlen. rewrite G1, G2. split; auto. split; [lia|].
      intros i Hi'. rewrite G3, <- Ek. now apply (inv_cnt L s).
    - unfold mu, weight in *. rewrite G2, G3, G4, G5. unfold zlen. rewrite G1. lia. }
  destruct X as (S1 & M1). split.
  - intros cs Hcs.
    assert (G : forall s, Short L s -> let t := after E s cs in Short L t /\ (mu L t <= mu L s - Z.of_nat (placements cs) \/ cur_idx t = zlen (ids t))).
    { clear - HE Hcs. induction Hcs as [|c cs Hc Hcs IH]; intros s S.
      - cbn. split; auto. left. lia.
      - cbn [after fold_left placements]. fold (after E (exec E s c) cs). destruct Hc as [-> | ->]; cbn [exec].
        + destruct (place_short E L s HE S) as (S2 & P). destruct (Z.eqb_spec (cur_idx s) (zlen (ids s))) as [Hz|Hz].
          * rewrite P in *. cbn [fst] in *. split; [apply IH; auto|]. right.
            assert (Q : forall u, Short L u -> cur_idx u = zlen (ids u) -> cur_idx (after E u cs) = zlen (ids (after E u cs))).
            { clear - HE Hcs. induction Hcs as [|c cs Hc Hcs IH]; intros u Su Hu; auto. cbn [after fold_left]. fold (after E (exec E u c) cs).
              destruct Hc as [-> | ->]; cbn [exec].
              - destruct (place_short E L u HE Su) as (S2 & P). rewrite Hu, Z.eqb_refl in P. rewrite P. now apply IH.
              - destruct (detect_short L u Su) as (S2 & _ & Q1 & Q2). apply IH; auto. now rewrite Q1, Q2. }
            now apply Q.
          * destruct P as (_ & P & _). destruct (IH _ S2) as (I1 & [I2|I2]); split; auto. left. lia.
        + destruct (detect_short L s S) as (S2 & M2 & _). destruct (IH _ S2) as (I1 & [I2|I2]); split; auto. left. lia. }
    destruct (G s1 S1) as (St & Gt). set (t := after E s1 cs) in *. destruct (place_short E L t HE St) as (_ & P). split.
    + destruct (cur_idx t =? zlen (ids t)); [right; exact P|left; apply P].
    + intros Hp. destruct Gt as [Gt|Gt]; [|rewrite Gt, Z.eqb_refl in P; exact P].
      pose proof (short_mu L t St). lia.
  - intros f Hf. assert (R : snd (run_once_base E f s1) = Err ValueError).
    { unfold run_once_base, mbind. pose proof (run_short E L HE f s1 S1 ltac:(lia)) as Q. destruct (run_loop E f s1) as [s2 [u|e]]; cbn [snd] in *; congruence. }
    unfold run_once, mbind at 1, get. destruct S1 as (_ & Hk1 & _). destruct (kind s1); auto. discriminate.
Qed.
