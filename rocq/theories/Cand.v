(** * Cand: the remaining candidates of the L1 and L2 rules. *)
From Coq Require Import ZArith List Bool Lia Permutation.
From Verif Require Import Py Lattice Cluster Perc Spec PyFacts Torus Geometry LatFacts Inv Merge Count Fresh Select State Step History Reach
  Micro StateProps Seq RunProps.
Import ListNotations.
Open Scope Z_scope.

Definition cnt (k : pkind) (lat : lattice) (x : Z) : Z := match k with KL2 => nn2 lat x | _ => nn1 lat x end.
Definition cands (s : perc) : list Z := skipn (Z.to_nat (cur_idx s)) (ids s).

(** ** Origin of a selected site *)
Definition from1 (L : Z) (s : perc) (x : Z) : Prop :=
  In x (cands s) \/ exists X d, In X (cands s) /\ occ (lat s) X /\ x = nbr L X d.
Definition from2 (L : Z) (s : perc) (x : Z) : Prop :=
  from1 L s x \/ exists X d, In X (cands s) /\ occ (lat s) X /\ occ (lat s) (nbr L X d) /\ x = second L X (nbr L X d).

Lemma skipn_nth {A} (d : A) n : forall l k, nth k (skipn n l) d = nth (n + k) l d.
Proof. induction n as [|n IH]; intros [|x l] k; cbn; auto; now destruct k. Qed.
Lemma in_cands s j : 0 <= cur_idx s <= j -> j < zlen (ids s) -> In (at_ 0 (ids s) j) (cands s).
Proof.
  intros H1 H2. unfold cands, at_. destruct (Z.leb_spec 0 j); [|lia].
  assert (E : nth (Z.to_nat j) (ids s) 0 = nth (Z.to_nat j - Z.to_nat (cur_idx s)) (skipn (Z.to_nat (cur_idx s)) (ids s)) 0).
  { rewrite skipn_nth. f_equal. lia. }
  rewrite E. apply nth_In. rewrite skipn_length. unfold zlen in *. lia.
Qed.

Definition decd (k : pkind) (lat : lattice) (X i : Z) : Z := if i =? X then Z.max 0 (cnt k lat X - 1) else cnt k lat i.

Lemma sel_L12 E L s : Inv L s -> is_L12 (kind s) = true -> cur_idx s < L * L -> cur_idx s < zlen (ids s) ->
  let X := candX E s in
  In X (cands s) /\
  ((exists x s1, sel E L s = (s1, Ok SUCESS) /\ is_site L x /\ ~ occ (lat s) x /\ ids s1 = ids s /\ cur_idx s1 = cur_idx s /\
     (forall i, cnt (kind s) (lat s1) i = cnt (kind s) (lat s) i) /\ sel_id s1 = Some x /\
     (kind s = KL1 -> record s1 = record s ++ [x] /\ from1 L s x) /\ (kind s = KL2 -> from2 L s x)) \/
   (occ (lat s) X /\ exists s1, sel E L s = (s1, Ok CURRENT_SITE_NOT_EMPTY) /\
     (forall i, cnt (kind s) (lat s1) i = decd (kind s) (lat s) X i) /\
     (if cnt (kind s) (lat s1) X =? 0
      then ids s1 = upd (ids s) (Z.to_nat (rndi E s)) (at_ 0 (ids s) (cur_idx s)) /\ cur_idx s1 = cur_idx s + 1
      else ids s1 = ids s /\ cur_idx s1 = cur_idx s) /\
     record s1 = record s)).
Proof.
  intros H Hk Hc1 Hc2 X. pose proof (i_static _ _ H) as St. pose proof (i_cur _ _ H) as Hc0.
  assert (Hcr : 0 <= cur_idx s < zlen (ids s)) by lia.
  pose proof (rndi_range E s Hcr) as Hr.
  assert (HX : is_site L X) by (apply candX_site; auto; apply H).
  assert (InX : In X (cands s)) by (apply in_cands; lia). split; auto.
  destruct (dec1_same L (lat s) X St HX) as ((Sd & Sl) & D1 & D2).
  destruct (dec2_same L (dec1 (lat s) X) X Sd HX) as (_ & D3 & D4).
  pose proof (st_pos _ _ St) as HL.
  unfold sel. destruct (kind s) eqn:Ek; try discriminate Hk.
  - unfold sel1. destruct (Z.leb_spec (L * L) (cur_idx s)); [lia|]. destruct (Z.leb_spec (zlen (ids s)) (cur_idx s)); [lia|].
    cbv zeta. fold X. destruct (occb_spec (lat s) X) as [Ho|Ho].
    + set (Y := nbr L X (dirk E (S (tick s)))). destruct (occb_spec (lat s) Y) as [HoY|HoY].
      * right. split; auto. eexists. split; [reflexivity|].
        set (s3 := set_lat _ _). assert (Q : forall i, cnt KL1 (dec1 (lat s) X) i = decd KL1 (lat s) X i) by (intros i; apply D1).
        change (cnt KL1 (lat s) X) with (nn1 (lat s) X).
        assert (QX : nn1 (dec1 (lat s) X) X = Z.max 0 (nn1 (lat s) X - 1)) by (rewrite D1, Z.eqb_refl; reflexivity).
        destruct (nn1 (dec1 (lat s) X) X =? 0) eqn:Ez.
        -- split; [exact Q|]. change (cnt KL1 (lat (dropped (rndi E s) s3)) X) with (nn1 (dec1 (lat s) X) X). rewrite Ez. split; [split; reflexivity|reflexivity].
        -- split; [exact Q|]. change (cnt KL1 (lat s3) X) with (nn1 (dec1 (lat s) X) X). rewrite Ez. split; [split; reflexivity|reflexivity].
      * left. exists Y. eexists. split; [reflexivity|]. split; [now apply nbr_site|]. split; auto. split; [reflexivity|]. split; [reflexivity|].
        split; [reflexivity|]. split; [reflexivity|]. split; [|discriminate]. intros _. split; [reflexivity|].
        right. exists X, (dirk E (S (tick s))). auto.
    + left. exists X. eexists. split; [reflexivity|]. split; auto. split; auto. split; [reflexivity|]. split; [reflexivity|].
      split; [reflexivity|]. split; [reflexivity|]. split; [|discriminate]. intros _. split; [reflexivity|]. now left.
  - unfold sel2. destruct (Z.leb_spec (L * L) (cur_idx s)); [lia|]. destruct (Z.leb_spec (zlen (ids s)) (cur_idx s)); [lia|].
    cbv zeta. fold X. destruct (occb_spec (lat s) X) as [Ho|Ho].
    + set (Y := nbr L X (dirk E (S (tick s)))).
      assert (HY : is_site L Y) by (now apply nbr_site).
      destruct (occb_spec (lat s) Y) as [HoY|HoY].
      * destruct (occb_spec (lat s) (second L X Y)) as [HoZ|HoZ].
        -- right. split; auto. eexists. split; [reflexivity|].
           set (s3 := set_lat (dec2 _ _) _). set (l2 := dec2 (dec1 (lat s) X) X) in *.
           assert (Q : forall i, cnt KL2 l2 i = decd KL2 (lat s) X i).
           { intros i. unfold cnt, decd. cbn. rewrite D4, !D2. reflexivity. }
           destruct (nn2 l2 X =? 0) eqn:Ez.
           ++ split; [exact Q|]. change (cnt KL2 (lat (dropped (rndi E s) s3)) X) with (nn2 l2 X). rewrite Ez. split; [split; reflexivity|reflexivity].
           ++ split; [exact Q|]. change (cnt KL2 (lat s3) X) with (nn2 l2 X). rewrite Ez. split; [split; reflexivity|reflexivity].
        -- left. exists (second L X Y). eexists. split; [reflexivity|].
           split; [apply at_rc_site; apply (st_pos _ _ St)|]. split; auto. split; [reflexivity|]. split; [reflexivity|].
           split; [intros i; apply D2|]. split; [reflexivity|]. split; [discriminate|]. intros _.
           right. exists X, (dirk E (S (tick s))). auto.
      * left. exists Y. eexists. split; [reflexivity|]. split; auto. split; auto. split; [reflexivity|]. split; [reflexivity|].
        split; [reflexivity|]. split; [reflexivity|]. split; [discriminate|]. intros _.
        left. right. exists X, (dirk E (S (tick s))). auto.
    + left. exists X. eexists. split; [reflexivity|]. split; auto. split; auto. split; [reflexivity|]. split; [reflexivity|].
      split; [reflexivity|]. split; [reflexivity|]. split; [discriminate|]. intros _. left. now left.
Qed.

(** ** Dropping a candidate *)
Lemma perm_upd {A} (d : A) (l : list A) k v : (k < length l)%nat -> Permutation (v :: l) (nth k l d :: upd l k v).
Proof.
  revert k. induction l as [|x l IH]; intros [|k] Hk; cbn in *; try lia.
  - apply perm_swap.
  - eapply Permutation_trans; [apply perm_swap|]. eapply Permutation_trans; [apply perm_skip, (IH k); lia|]. apply perm_swap.
Qed.
Lemma skipn_upd_ge {A} n : forall (l : list A) k v, skipn n (upd l (n + k) v) = upd (skipn n l) k v.
Proof. induction n as [|n IH]; intros [|x l] k v; cbn; auto; now destruct k. Qed.
Lemma skipn_upd_lt {A} n : forall (l : list A) k v, (k < n)%nat -> skipn n (upd l k v) = skipn n l.
Proof. induction n as [|n IH]; intros [|x l] [|k] v Hk; cbn; auto; try lia. apply IH. lia. Qed.
Lemma skipn_cons {A} (d : A) n : forall l, (n < length l)%nat -> skipn n l = nth n l d :: skipn (S n) l.
Proof. induction n as [|n IH]; intros [|x l] Hl; cbn in *; try lia; auto. apply IH. lia. Qed.
Lemma drop_perm (l : list Z) c r : 0 <= c <= r -> r < zlen l ->
  Permutation (skipn (Z.to_nat c) l) (at_ 0 l r :: skipn (Z.to_nat (c + 1)) (upd l (Z.to_nat r) (at_ 0 l c))).
Proof.
  intros H1 H2. unfold zlen in H2. unfold at_. destruct (Z.leb_spec 0 r); [|lia]. destruct (Z.leb_spec 0 c); [|lia].
  replace (Z.to_nat (c + 1)) with (S (Z.to_nat c)) by lia.
  rewrite (skipn_cons 0) by lia. destruct (Z.eq_dec r c) as [->|Hn].
  - rewrite skipn_upd_lt by lia. apply Permutation_refl.
  - replace (Z.to_nat r) with (S (Z.to_nat c) + (Z.to_nat r - S (Z.to_nat c)))%nat at 2 by lia.
    rewrite skipn_upd_ge. rewrite (perm_upd 0 _ (Z.to_nat r - S (Z.to_nat c))) by (rewrite skipn_length; lia).
    rewrite skipn_nth. replace (S (Z.to_nat c) + (Z.to_nat r - S (Z.to_nat c)))%nat with (Z.to_nat r) by lia. apply Permutation_refl.
Qed.

(** ** Sums *)
Fixpoint zsum (f : Z -> Z) (l : list Z) : Z := match l with [] => 0 | x :: l => f x + zsum f l end.
Lemma zsum_ext f g l : (forall x, In x l -> f x = g x) -> zsum f l = zsum g l.
Proof.
  induction l as [|x l IH]; intros H; cbn; auto. rewrite (H x) by (now left).
  rewrite IH; [reflexivity|]. intros y Hy. apply H. now right.
Qed.
Lemma zsum_const c l : zsum (fun _ => c) l = c * zlen l.
Proof. induction l as [|x l IH]; unfold zlen in *; cbn [zsum length]; lia. Qed.
Lemma zsum_nonneg f l : (forall x, In x l -> 0 <= f x) -> 0 <= zsum f l.
Proof. induction l as [|x l IH]; intros H; cbn; [lia|]. pose proof (H x (or_introl eq_refl)). assert (0 <= zsum f l) by (apply IH; intros; apply H; now right). lia. Qed.
Lemma zsum_zero f l : (forall x, In x l -> 0 <= f x) -> zsum f l = 0 -> forall x, In x l -> f x = 0.
Proof.
  induction l as [|y l IH]; intros H H0 x Hx; [contradiction|]. cbn in H0. pose proof (H y (or_introl eq_refl)).
  assert (P : forall x, In x l -> 0 <= f x) by (intros; apply H; now right). pose proof (zsum_nonneg f l P).
  destruct Hx as [->|Hx]; [lia|]. apply IH; auto. lia.
Qed.
Lemma zsum_dec f g l X : NoDup l -> In X l -> (forall x, In x l -> g x = if x =? X then f X - 1 else f x) -> zsum g l = zsum f l - 1.
Proof.
  induction l as [|y l IH]; intros Nd HX H; [contradiction|]. apply NoDup_cons_iff in Nd as (N1 & N2). cbn.
  rewrite (H y) by (now left). destruct HX as [->|HX].
  - rewrite Z.eqb_refl. rewrite (zsum_ext g f); [lia|]. intros x Hx. rewrite H by (now right).
    destruct (Z.eqb_spec x X); [subst; contradiction|reflexivity].
  - destruct (Z.eqb_spec y X); [subst; contradiction|]. rewrite IH; auto; [lia|]. intros x Hx. apply H. now right.
Qed.

(** ** The candidate invariant *)
Record Cand (L : Z) (s : perc) : Prop := mkCand {
  cd_kind : is_L12 (kind s) = true;
  cd_len : zlen (ids s) = L * L;
  cd_cur : 0 <= cur_idx s <= L * L;
  cd_nd : NoDup (cands s);
  cd_in : forall x, is_site L x -> (In x (cands s) <-> 0 < cnt (kind s) (lat s) x);
  cd_rng : forall x, is_site L x -> 0 <= cnt (kind s) (lat s) x <= 4;
  cd_occ : forall x, is_site L x -> cnt (kind s) (lat s) x < 4 -> occ (lat s) x
}.
Definition weight (L : Z) (s : perc) : Z := L * L - occ_count s + zsum (cnt (kind s) (lat s)) (zrange (L * L)).

Lemma cand_frame L s s' : kind s' = kind s -> ids s' = ids s -> cur_idx s' = cur_idx s ->
  (forall i, cnt (kind s) (lat s') i = cnt (kind s) (lat s) i) ->
  (forall i, is_site L i -> occ (lat s) i -> occ (lat s') i) -> Cand L s -> Cand L s'.
Proof.
  intros Ek Ei Ec Hn Ho [C1 C2 C3 C4 C5 C6 C7]. assert (Q : cands s' = cands s) by (unfold cands; now rewrite Ei, Ec).
  constructor; rewrite ?Q, ?Ek, ?Ei, ?Ec; auto; intros x Hx; rewrite Hn; auto.
Qed.
Lemma fresh_cand L s : FreshState L s -> is_L12 (kind s) = true -> Permutation (zrange (L * L)) (ids s) -> Cand L s /\ weight L s = 5 * (L * L).
Proof.
  intros F Hk P. pose proof (fresh_inv _ _ F) as H. pose proof (LL_pos L (i_pos _ _ H)) as HLL.
  assert (Q : forall i, is_site L i -> cnt (kind s) (lat s) i = 4).
  { intros i Hi. destruct (fr_site _ _ (fs_lat _ _ F) i Hi) as (_ & _ & Q1 & Q2). destruct (kind s); auto. }
  assert (Qc : cands s = ids s) by (unfold cands; now rewrite (fs_cur _ _ F)).
  assert (Ql : zlen (ids s) = L * L) by (unfold zlen; rewrite <- (Permutation_length P); apply zlen_zrange; lia).
  split; [constructor; auto|].
  - rewrite (fs_cur _ _ F). lia.
  - rewrite Qc. eapply Permutation_NoDup; [exact P|apply NoDup_zrange].
  - intros x Hx. rewrite Qc, (Q x Hx). split; [lia|intros _]. eapply Permutation_in; [exact P|]. now apply In_zrange.
  - intros x Hx. rewrite (Q x Hx). lia.
  - intros x Hx. rewrite (Q x Hx). lia.
  - unfold weight. rewrite (fs_occ _ _ F), (zsum_ext _ (fun _ => 4)), zsum_const, zlen_zrange by (try lia; intros x Hx; apply Q; now apply In_zrange). lia.
Qed.
Lemma nocc_le L lat : 0 < L -> nocc L lat <= L * L.
Proof. intros HL. pose proof (LL_pos L HL). unfold nocc. pose proof (count_le_len (occb lat) (zrange (L * L))). rewrite zlen_zrange in *; lia. Qed.
Lemma cand_sum_nonneg L s : Cand L s -> 0 <= zsum (cnt (kind s) (lat s)) (zrange (L * L)).
Proof. intros C. apply zsum_nonneg. intros x Hx. apply (cd_rng _ _ C). now apply In_zrange. Qed.
Lemma weight_nonneg L s : Inv L s -> Cand L s -> 0 <= weight L s.
Proof. intros H C. pose proof (cand_sum_nonneg L s C). pose proof (nocc_le L (lat s) (i_pos _ _ H)). unfold weight. rewrite (i_occ _ _ H). lia. Qed.
Lemma weight_zero L s : Inv L s -> Cand L s -> (weight L s = 0 <-> cur_idx s = L * L).
Proof.
  intros H C. pose proof (cand_sum_nonneg L s C). pose proof (nocc_le L (lat s) (i_pos _ _ H)). pose proof (LL_pos L (i_pos _ _ H)).
  split.
  - intros Hw. unfold weight in Hw. rewrite (i_occ _ _ H) in Hw.
    assert (Hz : zsum (cnt (kind s) (lat s)) (zrange (L * L)) = 0) by lia.
    destruct (Z.eq_dec (cur_idx s) (L * L)) as [|Hne]; auto. exfalso.
    pose proof (cd_cur _ _ C). pose proof (cd_len _ _ C).
    assert (InX : In (at_ 0 (ids s) (cur_idx s)) (cands s)) by (apply in_cands; lia).
    assert (HX : is_site L (at_ 0 (ids s) (cur_idx s))) by (eapply Forall_forall; [apply (i_ids _ _ H)|apply at_In; lia]).
    apply (cd_in _ _ C _ HX) in InX.
    rewrite (zsum_zero _ _ (fun x Hx => proj1 (cd_rng _ _ C x (proj1 (In_zrange _ _) Hx))) Hz) in InX; [lia|now apply In_zrange].
  - intros Hc. assert (Hn : cands s = []) by (unfold cands; apply skipn_all2; pose proof (cd_len _ _ C); unfold zlen in *; lia).
    assert (Q : forall i, is_site L i -> cnt (kind s) (lat s) i = 0).
    { intros i Hi. pose proof (cd_rng _ _ C i Hi). pose proof (cd_in _ _ C i Hi) as Hin. rewrite Hn in Hin. cbn in Hin. lia. }
    unfold weight. rewrite (zsum_ext _ (fun _ => 0)), zsum_const by (intros x Hx; apply Q; now apply In_zrange).
    rewrite (i_occ _ _ H). unfold nocc. rewrite count_all, zlen_zrange; try lia. intros x Hx. apply occb_true.
    apply In_zrange in Hx. apply (cd_occ _ _ C); auto. rewrite Q; auto. lia.
Qed.
Lemma cand_full L s : Inv L s -> Cand L s -> weight L s = 0 -> forall i, is_site L i -> occ (lat s) i.
Proof.
  intros H C Hw i Hi. pose proof (cand_sum_nonneg L s C). pose proof (nocc_le L (lat s) (i_pos _ _ H)). pose proof (LL_pos L (i_pos _ _ H)).
  unfold weight in Hw. rewrite (i_occ _ _ H) in Hw. apply occb_true. apply (count_full _ (zrange (L * L))); [rewrite zlen_zrange by lia; unfold nocc in *; lia|].
  now apply In_zrange.
Qed.

Lemma place_cand E L s : env_ok E -> Inv L s -> Cand L s ->
  let s' := fst (place_one_site E s) in
  Inv L s' /\ Cand L s' /\ kind s' = kind s /\
  if weight L s =? 0 then snd (place_one_site E s) = Ok false /\ s' = set_sel_flag (Some EMPTY_SITE_LIST) s
  else snd (place_one_site E s) = Ok true /\ weight L s' = weight L s - 1 /\
    (if flag_is_success s' then sel_flag s' = Some SUCESS /\ occ_count s' = occ_count s + 1 /\ (exists x, is_site L x /\ sel_id s' = Some x)
     else sel_flag s' = Some CURRENT_SITE_NOT_EMPTY /\ occ_count s' = occ_count s).
Proof.
  intros HE H C. pose proof (cd_cur _ _ C) as Hc. pose proof (cd_len _ _ C) as Hl. pose proof (i_static _ _ H) as St.
  pose proof (place_inv E L s HE H) as H'. cbv zeta. split; auto.
  destruct (place_spec E L s HE H) as (Sd & P).
  destruct (Z.eqb_spec (weight L s) 0) as [Hw|Hw].
  - apply (weight_zero L s H C) in Hw.
    assert (Es : sel E L s = (s, Ok EMPTY_SITE_LIST)).
    { pose proof (cd_kind _ _ C) as Hk. unfold sel, sel1, sel2. rewrite Hw, Z.leb_refl. destruct (kind s); try discriminate; reflexivity. }
    rewrite Es in P. rewrite P. cbn [fst snd]. split; [|split; [reflexivity|split; reflexivity]].
    eapply (cand_frame L s); auto.
  - assert (Hlt : cur_idx s < L * L) by (rewrite (weight_zero L s H C) in Hw; lia).
    destruct (sel_L12 E L s H (cd_kind _ _ C) Hlt ltac:(lia)) as (InX & [(x & s1 & Es & Hx & Hu & Ei & Ec & Hn & _)|(Ho & s1 & Es & Hn & Hd & _)]);
      rewrite Es in *; cbn [fst snd] in *.
    + destruct P as (x' & s' & root & E1 & E2 & P & Pd). rewrite P in *. cbn [fst snd] in *.
      destruct (core2_fields _ _ (pd_core _ _ _ _ _ _ Pd)) as (F1 & F2 & F3 & F4 & F5 & F6 & F7 & F8 & _).
      assert (Fk : kind s1 = kind s) by exact (f_equal kind (sd_core _ _ _ _ Sd)).
      assert (Fo : occ_count s1 = occ_count s + 1) by (destruct (sd_res _ _ _ _ Sd) as (y & _ & _ & _ & _ & Q); exact Q).
      assert (Qn : forall i, cnt (kind s) (lat s') i = cnt (kind s) (lat s) i).
      { intros i. rewrite <- Hn. destruct (pd_nn _ _ _ _ _ _ Pd i) as (Q1 & Q2). destruct (kind s); auto. }
      split. { eapply (cand_frame L s); try congruence; auto. intros i Hi Hoi.
        pose proof (sd_lab _ _ _ _ Sd) as (St1 & _ & Sl).
        assert (C1 : ClOK L (lat s1) (pool s1)).
        { assert (Ep : pool s1 = pool s) by exact (f_equal pool (sd_core _ _ _ _ Sd)). rewrite Ep.
          eapply ClOK_same; [apply (i_cl _ _ H)|apply (sd_lab _ _ _ _ Sd)]. }
        rewrite (pd_occ_iff E L s1 x' s' root C1 Pd i Hi). right. unfold occ. now rewrite (proj1 (Sl i)). }
      split; [congruence|]. split; auto.
      split. { unfold weight. rewrite F5, Fo, F1, Fk. rewrite (zsum_ext _ (cnt (kind s) (lat s))) by auto. lia. }
      pose proof (pd_flag _ _ _ _ _ _ Pd) as Fg. unfold flag_is_success. rewrite Fg. split; auto. split; [lia|].
      exists x'. split; [apply (pd_site _ _ _ _ _ _ Pd)|congruence].
    + rewrite P in *. cbn [fst snd] in *. set (X := candX E s) in *.
      assert (HX : is_site L X) by (apply candX_site; [apply H|lia]).
      pose proof (rndi_range E s ltac:(lia)) as Hr.
      assert (Fk : kind s1 = kind s) by exact (f_equal kind (sd_core _ _ _ _ Sd)).
      assert (Fo : occ_count s1 = occ_count s) by (destruct (sd_res _ _ _ _ Sd) as (Q & _); exact Q).
      pose proof (proj1 (cd_in _ _ C X HX) InX) as Hp. pose proof (cd_rng _ _ C X HX) as Hr4.
      assert (Hn' : forall i, cnt (kind s) (lat s1) i = if i =? X then cnt (kind s) (lat s) X - 1 else cnt (kind s) (lat s) i).
      { intros i. rewrite Hn. unfold decd. destruct (i =? X); auto. lia. }
      assert (Oc : forall i, occ (lat s1) i <-> occ (lat s) i).
      { intros i. pose proof (sd_lab _ _ _ _ Sd) as (_ & _ & Sl). unfold occ. rewrite (proj1 (Sl i)). tauto. }
      assert (CC : zlen (ids s1) = L * L /\ 0 <= cur_idx s1 <= L * L /\ NoDup (cands s1) /\
        forall x, is_site L x -> (In x (cands s1) <-> 0 < cnt (kind s) (lat s1) x)).
      { pose proof (cd_nd _ _ C) as Nd. pose proof (cd_in _ _ C) as Hin.
        rewrite (Hn' X), Z.eqb_refl in Hd. destruct (Z.eqb_spec (cnt (kind s) (lat s) X - 1) 0) as [Hz|Hz]; destruct Hd as (Hd1 & Hd2).
        - assert (Pm : Permutation (cands s) (X :: cands s1)).
          { unfold cands. rewrite Hd1, Hd2. apply drop_perm; lia. }
          pose proof (Permutation_NoDup Pm Nd) as Nd'. apply NoDup_cons_iff in Nd' as (N1 & N2).
          split; [rewrite Hd1; unfold zlen in *; rewrite upd_length; auto|]. split; [lia|]. split; auto.
          intros x Hx'. rewrite Hn'. destruct (Z.eqb_spec x X) as [->|Hne]; [split; [contradiction|lia]|].
          rewrite <- Hin by auto. split; intros Hi.
          + eapply Permutation_in; [symmetry; exact Pm|now right].
          + eapply Permutation_in in Hi; [|exact Pm]. destruct Hi; [congruence|auto].
        - assert (Q : cands s1 = cands s) by (unfold cands; now rewrite Hd1, Hd2). rewrite Q, Hd1, Hd2.
          split; auto. split; auto. split; auto. intros x Hx'. rewrite Hn', Hin by auto.
          destruct (Z.eqb_spec x X) as [->|]; [lia|tauto]. }
      destruct CC as (K1 & K2 & K3 & K4).
      split. { constructor; change (kind (set_sel_flag _ s1)) with (kind s1); rewrite ?Fk; auto.
        - apply (cd_kind _ _ C).
        - intros x Hx'. change (lat (set_sel_flag _ s1)) with (lat s1). rewrite Hn'. pose proof (cd_rng _ _ C x Hx'). destruct (Z.eqb_spec x X) as [->|]; lia.
        - intros x Hx' Hlt4. change (lat (set_sel_flag _ s1)) with (lat s1) in *. apply Oc. rewrite Hn' in Hlt4.
          destruct (Z.eqb_spec x X) as [->|]; auto. now apply (cd_occ _ _ C). }
      split; auto. split; auto. split.
      { unfold weight. change (occ_count (set_sel_flag _ s1)) with (occ_count s1). change (kind (set_sel_flag _ s1)) with (kind s1).
        change (lat (set_sel_flag _ s1)) with (lat s1). rewrite Fo, Fk.
        rewrite (zsum_dec (cnt (kind s) (lat s)) (cnt (kind s) (lat s1)) (zrange (L * L)) X); [lia|apply NoDup_zrange|now apply In_zrange|].
        intros x _. apply Hn'. }
      cbn. auto.
Qed.
Lemma detect_cand L s : Inv L s -> Cand L s -> Cand L (fst (detect_wrapping s)) /\ weight L (fst (detect_wrapping s)) = weight L s /\
  kind (fst (detect_wrapping s)) = kind s.
Proof.
  intros H C. rewrite (detect_ok L) by apply H. unfold detect_res. destruct (after_wrap s); auto. destruct (sel_id s); auto.
  destruct (hitb L (lat s) z); auto. cbn [fst]. split; [|split; reflexivity]. eapply (cand_frame L s); auto.
Qed.
