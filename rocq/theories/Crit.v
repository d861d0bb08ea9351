(** * Crit: what the file of critical values estimates (C123). *)
From Coq Require Import ZArith List Bool Lia Permutation Factorial Sorted Reals Lra.
From Verif Require ShortEns.
From Verif Require Import Critical StateProps Py Lattice Cluster Perc Spec PyFacts Torus Geometry LatFacts Inv Merge Count Fresh Select State Step History Reach Micro Seq RunBase RunProps RunProps2 StateProps2
  Cycle Sim Wrap Unbiased Grow SymSpec Describe Symmetry ChanceSpec Chance CanonSpec Canon Real Curves IidSpec Iid Run EnsSpec Ens AverageSpec Average AverageProps MeanSpec Mean CritSpec.
Import ListNotations.
Open Scope Z_scope.

Lemma critical_same s s' : same_realization s s' -> critical_numbers s = critical_numbers s'.
Proof.
  unfold same_realization. intros (Hk & Hl & _ & _ & _ & _ & _ & _ & _ & _ & _ & _ & _ & Ha & _ & Hp & Hb & Hs & _ & _ & _ & Hq).
  unfold critical_numbers, get_pc, get_site_count_wrapping_cluster_pc, get_bond_count_wrapping_cluster_pc. rewrite <- Hl, <- Ha, <- Hp, <- Hb, <- Hs, <- Hk.
  destruct (kind s); try reflexivity. now rewrite (Hq eq_refl).
Qed.
Lemma rows_series E f s0 n rows phi : length rows = n -> (forall e, (1 <= e <= n)%nat -> exists r, nth_error rows (e - 1) = Some r /\ map feval r = critical_numbers (realization E f s0 e)) ->
  mean_of (map (fun r => phi (map feval r)) rows) = mean_of (map (fun s => phi (critical_numbers s)) (series E (exec E s0 CReset) [CRun f] n)).
Proof.
  intros Hl H. rewrite <- (mean_series E f s0 n (fun s => phi (critical_numbers s))). unfold mean, mean_of, total, sum_of. rewrite map_length, Hl. f_equal. f_equal.
  apply (nth_ext _ _ 0%R 0%R); [now rewrite !map_length, seq_length|]. rewrite map_length, Hl. intros j Hj.
  destruct (H (S j) ltac:(lia)) as (r & R & Er). replace (S j - 1)%nat with j in R by lia.
  rewrite (nth_error_nth _ _ _ (map_nth_error (fun r => phi (map feval r)) j rows R)).
  assert (Sq : nth_error (seq 1 n) j = Some (S j)) by (rewrite (nth_error_nth' _ O) by (now rewrite seq_length); now rewrite seq_nth).
  rewrite (nth_error_nth _ _ _ (map_nth_error (fun e => phi (critical_numbers (realization E f s0 e))) j _ Sq)).
  now rewrite Er.
Qed.
Lemma written_critical E k L t0 s0 f n F phi : env_ok E -> new_perc E k L t0 = Ok s0 -> 5 * (L * L) < Z.of_nat f -> 1 <= n ->
  writes_critical E f t0 k L n F -> row_mean phi F = mean_of (map (fun s => phi (critical_numbers s)) (series E (exec E s0 CReset) [CRun f] (Z.to_nat n))).
Proof.
  intros HE E0 Hf Hn Hw. assert (Kd : forall e, kind (realization E f s0 e) = k) by (intros e; exact (proj2 (re_inv E k L t0 s0 f HE E0 e))).
  unfold row_mean. destruct Hw as [(Hk & files & Hfi & Hw)|(-> & time & i & W)].
  - assert (A : critical_rows E f s0 (Z.to_nat n) (o_rows F)).
    { destruct Hw as [(time & W)|(time & q & W)].
      - destruct (p_C56 E k L t0 s0 f n time HE Hk E0 Hf Hn) as (_ & (d & c & W' & _ & _ & _ & _ & _ & A) & _). rewrite W in W'. injection W' as ->. injection Hfi as <-. exact A.
      - destruct (p_C56 E k L t0 s0 f n time HE Hk E0 Hf Hn) as (_ & _ & _ & Q). destruct (Q q) as (d & c & W' & _ & _ & _ & _ & _ & A). rewrite W in W'. injection W' as ->. injection Hfi as <-. exact A. }
    destruct A as (Hl & A). apply rows_series; [exact Hl|]. intros e He. destruct (A e He) as (pc & Ep & R). eexists. split; [exact R|].
    unfold critical_numbers. rewrite Ep, Kd. destruct k; try reflexivity. now contradiction Hk.
  - destruct (ShortEns.p_C83 E L t0 s0 f n i time HE E0 Hf) as (d & W' & _ & _ & _ & Hl & A). rewrite W in W'. injection W' as <-. apply rows_series; [exact Hl|]. intros e He.
    destruct (A e He) as (pc & Ep & R & _). eexists. split; [exact R|]. unfold critical_numbers. rewrite Ep, Kd. reflexivity.
Qed.
Lemma p_C123_rows ord d0 k L f phi : env_ok (mkEnv ord d0) -> k <> KL1 -> k <> KL2 -> 0 < L -> 5 * (L * L) < Z.of_nat f ->
  let N := Z.to_nat (L * L) in
  exists one mu v,
    (forall d t s, new_perc (mkEnv ord d) k L t = Ok s -> phi (critical_numbers (after (mkEnv ord d) s [CRun f])) = one (choices (mkEnv ord d) t N)) /\
    average (random_choices N) one mu /\ average (random_choices N) (fun c => (one c - mu) ^ 2)%R v /\
    forall t0 n, 1 <= n -> let m := S (Z.to_nat n) in exists all,
      (forall d c F, choice_lists N m c -> drawn (mkEnv ord d) t0 N c -> writes_critical (mkEnv ord d) f t0 k L n F -> row_mean phi F = all c) /\
      average (choice_lists N m) all mu /\ average (choice_lists N m) (fun c => (all c - mu) ^ 2)%R (v / IZR n).
Proof.
  intros HE K1 K2 HL Hf N. pose proof (plain_kind k K1 K2) as Hk.
  destruct (canon_ex ord k L HL) as (canon & Hcn).
  assert (Hc : Forall realizing [CRun f]) by repeat constructor. assert (Hs : starts [CRun f]) by (destruct f; [pose proof (LL_pos L HL); lia|exact I]).
  set (X := fun s => phi (critical_numbers s)). assert (HX : forall s s', same_realization s s' -> X s = X s') by (intros s s' H; unfold X; now rewrite (critical_same s s' H)).
  destruct (series_average ord L [CRun f] X HL canon (zrange (L * L)) 0 (Permutation_refl _)) as (mu & v & A1 & A2 & _).
  exists (one ord L [CRun f] X canon), mu, v. split; [intros d t s E1; now apply (one_ok ord k L [CRun f] X HL Hk Hc Hs HX canon Hcn)|]. split; [exact A1|]. split; [exact A2|].
  intros t0 n Hn m. exists (fun c => match c with x :: c => mean_of (map (G ord [CRun f] X canon) (orders (order_of 0 (zrange (L * L)) x) c)) | [] => 0%R end).
  assert (B : forall x, average (choice_lists N (Z.to_nat n)) (fun c => mean_of (map (G ord [CRun f] X canon) (orders (order_of 0 (zrange (L * L)) x) c))) mu /\
    average (choice_lists N (Z.to_nat n)) (fun c => (mean_of (map (G ord [CRun f] X canon) (orders (order_of 0 (zrange (L * L)) x) c)) - mu) ^ 2)%R (v / IZR n)).
  { intros x. replace (IZR n) with (INR (Z.to_nat n)) by (rewrite INR_IZR_INZ; f_equal; lia). destruct (Z.to_nat n) as [|q] eqn:En; [lia|].
    destruct (series_average ord L [CRun f] X HL canon (order_of 0 (zrange (L * L)) x) q (order_of_perm _ _ _)) as (mu' & v' & B1 & B2 & B3 & B4).
    assert (mu' = mu) as -> by exact (average_fun _ _ _ _ B1 A1). assert (v' = v) as -> by exact (average_fun _ _ _ _ B2 A2). split; [exact B3|exact B4]. }
  destruct (choices_enum L HL) as (O1 & N1 & I1 & Ne). split; [|split].
  - intros d c F (Hl & Hr) Hd Hw. destruct (new_perc_ok (mkEnv ord d) k L t0 HL) as (a1 & a2 & a3 & a4 & E0 & _). match type of E0 with _ = Ok ?S => set (s0 := S) in * end.
    assert (HE' : env_ok (mkEnv ord d)) by exact HE. rewrite (written_critical _ k L t0 s0 f n F phi HE' E0 Hf Hn Hw). destruct (new_start _ k L t0 s0 HL Hk E0) as (S0 & Ei & Et & Ed).
    destruct c as [|x c]; [discriminate|]. f_equal. fold X.
    rewrite (all_ok ord k L [CRun f] X HE HL Hk Hc Hs HX canon Hcn d s0 (Z.to_nat n) (start_inv _ _ _ S0) (sr_kind _ _ _ S0) Ed (sr_perm _ _ _ S0)).
    rewrite Ei, Et, (order_env L HL _ t0 _ (Permutation_refl _)). fold N. pose proof (Hd 0%nat ltac:(cbn; lia)) as D0. cbn [nth] in D0. rewrite Nat.mul_0_l, Nat.add_0_r in D0. rewrite D0.
    do 2 f_equal. injection Hl as Hl. rewrite <- Hl. symmetry. apply drawn_map. intros q Hq. specialize (Hd (S q) ltac:(cbn; lia)). cbn [nth] in Hd. rewrite <- Hd. f_equal. cbn [Nat.mul]. lia.
  - apply (average_cons N _ _ _ O1 N1 I1 Ne). intros x _. apply B.
  - apply (average_cons N _ _ _ O1 N1 I1 Ne). intros x _. apply B.
Qed.
(** ** Thresholds *)
Lemma p_C123_threshold ord d0 k L f : env_ok (mkEnv ord d0) -> k <> KL1 -> k <> KL2 -> 3 <= L -> 5 * (L * L) < Z.of_nat f ->
  let N := Z.to_nat (L * L) in
  exists (w c : nat -> Z) mu v,
    (forall m, (m < N)%nat -> 0 < c m /\ how_many (site_set L m) (c m) /\ how_many (fun S => site_set L m S /\ wraps L (among S)) (w m)) /\
    mu = (sum_of (map (fun m => 1 - IZR (w m) / IZR (c m)) (seq 0 N)) / INR N)%R /\
    (forall t0 n, 1 <= n -> let m := S (Z.to_nat n) in exists all,
      (forall d c F, choice_lists N m c -> drawn (mkEnv ord d) t0 N c -> writes_critical (mkEnv ord d) f t0 k L n F -> row_mean first_number F = all c) /\
      average (choice_lists N m) all mu /\ average (choice_lists N m) (fun c => (all c - mu) ^ 2)%R (v / IZR n)) /\
    (forall eps share, (0 < eps)%R -> (0 < share)%R -> exists n0, forall t0 n, n0 <= n -> let m := S (Z.to_nat n) in exists all,
      (forall d c F, choice_lists N m c -> drawn (mkEnv ord d) t0 N c -> writes_critical (mkEnv ord d) f t0 k L n F -> row_mean first_number F = all c) /\
      rarely (choice_lists N m) (fun c => eps <= Rabs (all c - mu))%R share).
Proof.
  intros HE K1 K2 H3 Hf N. assert (HL : 0 < L) by lia.
  destruct (p_C123_rows ord d0 k L f first_number HE K1 K2 HL Hf) as (one & mu & v & A1 & A2 & A3 & A4). cbv zeta in A4. fold N in A1, A2, A3, A4.
  destruct (p_C122_threshold ord d0 k L f HE K1 K2 H3 Hf) as (w & c & one' & mu' & B1 & B2 & B3 & B4 & _). fold N in B1, B2, B3, B4.
  assert (mu' = mu) as ->.
  { apply (average_fun (random_choices N) one); auto. eapply average_ext; [|exact B4]. intros x Hx. destruct (env_at ord k L HL x Hx) as (d & s & E1 & Ec).
    pose proof (A1 d 0%nat s E1) as Q1. pose proof (B3 d 0%nat s E1) as Q2. unfold N in Q1, Q2. rewrite Ec in Q1, Q2. rewrite <- Q1, <- Q2. reflexivity. }
  exists w, c, mu, v. split; auto. split; auto. split; [exact A4|].
  intros eps share He Hsh. destruct (enough v eps share He Hsh) as (n0 & Hn0 & Hm). exists (Z.of_nat n0). intros t0 n Hn. destruct (A4 t0 n ltac:(lia)) as (all & Q1 & Q2 & Q3).
  exists all. split; [exact Q1|]. replace (IZR n) with (INR (Z.to_nat n)) in Q3 by (rewrite INR_IZR_INZ; f_equal; lia). exact (dev_rare _ _ _ _ _ _ Q2 Q3 He (Hm (Z.to_nat n) ltac:(lia))).
Qed.
Lemma threshold_at_most E k L t s f m : env_ok E -> is_L12 k = false -> 3 <= L -> 5 * (L * L) < Z.of_nat f -> new_perc E k L t = Ok s -> (m <= Z.to_nat (L * L))%nat ->
  at_most (INR m / IZR (L * L)) (critical_numbers (after E s [CRun f])) = (if after_wrap (after E s (pairs m)) then 1 else 0)%R.
Proof.
  intros HE Hk H3 Hf E1 Hm. assert (HLL : 0 < L * L) by nia. destruct (threshold_at E k L t s f HE Hk H3 Hf E1) as (q & Ep & Hq & Hw).
  unfold at_most, first_number, critical_numbers. rewrite Ep. cbn [nth feval].
  assert (P : (0 < IZR (L * L))%R) by (apply IZR_lt; lia). assert (C := Hw m Hm).
  rewrite INR_IZR_INZ. destruct (Rle_dec _ _) as [Y|Y].
  - assert (q <= Z.of_nat m). { apply le_IZR. apply (Rmult_le_reg_r (/ IZR (L * L))); [now apply Rinv_0_lt_compat|exact Y]. } now rewrite (proj2 C H).
  - destruct (after_wrap (after E s (pairs m))); auto. exfalso. apply Y. apply Rmult_le_compat_r; [left; now apply Rinv_0_lt_compat|]. apply IZR_le. now apply C.
Qed.
Lemma p_C123_wrapping ord d0 k L f m : env_ok (mkEnv ord d0) -> k <> KL1 -> k <> KL2 -> 3 <= L -> 5 * (L * L) < Z.of_nat f ->
  let N := Z.to_nat (L * L) in (m <= N)%nat -> let phi := at_most (INR m / IZR (L * L)) in
  exists w c, 0 < c /\ how_many (site_set L m) c /\ how_many (fun S => site_set L m S /\ wraps L (among S)) w /\ let mu := (IZR w / IZR c)%R in
    (forall t0 n, 1 <= n -> let q := S (Z.to_nat n) in exists all,
      (forall d c F, choice_lists N q c -> drawn (mkEnv ord d) t0 N c -> writes_critical (mkEnv ord d) f t0 k L n F -> row_mean phi F = all c) /\
      average (choice_lists N q) all mu /\ average (choice_lists N q) (fun c => (all c - mu) ^ 2)%R (mu * (1 - mu) / IZR n)) /\
    (forall eps share, (0 < eps)%R -> (0 < share)%R -> exists n0, forall t0 n, n0 <= n -> let q := S (Z.to_nat n) in exists all,
      (forall d c F, choice_lists N q c -> drawn (mkEnv ord d) t0 N c -> writes_critical (mkEnv ord d) f t0 k L n F -> row_mean phi F = all c) /\
      rarely (choice_lists N q) (fun c => eps <= Rabs (all c - mu))%R share).
Proof.
  intros HE K1 K2 H3 Hf N Hm phi. assert (HL : 0 < L) by lia. pose proof (plain_kind k K1 K2) as Hk.
  destruct (p_C123_rows ord d0 k L f phi HE K1 K2 HL Hf) as (one & mu & v & A1 & A2 & A3 & A4). cbv zeta in A4. fold N in A1, A2, A3, A4.
  destruct (sets_without L k m H3 Hk Hm) as (b & w & c & B1 & B2 & B3 & B4 & B5). fold N in B5.
  assert (O : forall x, random_choices N x -> one x = (1 - (if b (set_at L m x) then 0 else 1))%R).
  { intros x Hx. destruct (env_at ord k L HL x Hx) as (d & s & E1 & Ec). pose proof (A1 d 0%nat s E1) as Q. unfold N in Q. rewrite Ec in Q. rewrite <- Q. unfold phi.
    rewrite (threshold_at_most (mkEnv ord d) k L 0 s f m HE Hk H3 Hf E1 Hm).
    destruct (set_shown ord k L HE HL Hk d s x m E1 Hx Ec Hm) as (HS & Sh).
    assert (W : after_wrap (after (mkEnv ord d) s (pairs m)) = true <-> b (set_at L m x) = true).
    { rewrite (B1 _ HS), (wrap_prefix k L 0 HL Hk H3 (mkEnv ord d) s m HE E1 Hm).
      pose proof (shows_firstn k L 0 Hk (mkEnv ord d) s m _ HE E1 HS Sh) as I. split; apply Critical.wraps_mono; intros i _; apply I. }
    destruct (after_wrap _), (b _); [lra|discriminate (proj1 W eq_refl)|discriminate (proj2 W eq_refl)|lra]. }
  destruct (choices_enum L HL) as (la & Nl & Il & Hl). fold N in Il.
  assert (Ln : INR (length la) <> 0%R) by (apply not_0_INR; destruct la; cbn; congruence).
  assert (Em : mu = (IZR w / IZR c)%R).
  { destruct (average_enum _ _ _ la A2 Nl Il) as (<- & _). destruct (average_enum _ _ _ la B5 Nl Il) as (E5 & _).
    enough (mean_of (map one la) = 1 - mean_of (map (fun x => if b (set_at L m x) then 0 else 1) la))%R by lra. unfold mean_of. rewrite !map_length.
    rewrite (map_ext_in one (fun x => 1 + (-1) * (if b (set_at L m x) then 0 else 1))%R) by (intros x Hx; rewrite (O x (proj1 (Il x) Hx)); lra).
    rewrite sum_plus, sum_const, sum_scal. field. exact Ln. }
  assert (Ev : v = (mu * (1 - mu))%R).
  { destruct (average_enum _ _ _ la A2 Nl Il) as (E2 & _). destruct (average_enum _ _ _ la A3 Nl Il) as (<- & _).
    assert (S1 : sum_of (map one la) = (mu * INR (length la))%R) by (rewrite <- E2; unfold mean_of; rewrite map_length; field; exact Ln).
    unfold mean_of. rewrite map_length.
    rewrite (map_ext_in (fun c0 => (one c0 - mu) ^ 2)%R (fun x => mu * mu + (1 - 2 * mu) * one x)%R).
    - rewrite sum_plus, sum_const, sum_scal, S1. field. exact Ln.
    - intros x Hx. rewrite (O x (proj1 (Il x) Hx)). destruct (b _); ring. }
  exists w, c. split; auto. split; auto. split; auto. cbv zeta. rewrite <- Em. rewrite Ev in A4. split; [exact A4|].
  intros eps share He Hsh. destruct (enough (mu * (1 - mu)) eps share He Hsh) as (n0 & Hn0 & Hq). exists (Z.of_nat n0). intros t0 n Hn. destruct (A4 t0 n ltac:(lia)) as (all & Q1 & Q2 & Q3).
  exists all. split; [exact Q1|]. replace (IZR n) with (INR (Z.to_nat n)) in Q3 by (rewrite INR_IZR_INZ; f_equal; lia). exact (dev_rare _ _ _ _ _ _ Q2 Q3 He (Hq (Z.to_nat n) ltac:(lia))).
Qed.
