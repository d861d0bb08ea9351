(** * ProgProps2: the other demonstration programs (C89 to C92). *)
From Coq Require Import String ZArith List Bool Lia Permutation.
From Verif Require Import Py Lattice Cluster Perc Run View Script Programs Spec PyFacts Torus Geometry LatFacts Inv Merge Count Fresh Select State Step History Reach
  Micro StateProps StateProps2 Comm Seq Wrap RunBase RunProps RunProps2 Cand Cycle CandRun CandProps Lines Normal Stop Critical Drive LatSpec ViewSpec ViewProps SelfTest EnsSpec Ens ShortEns Drivers Curves Late Grow SuiteProps ProgSpec ProgProps.
Import ListNotations.
Open Scope Z_scope.

(** ** Placements without detection *)
Lemma placed_snoc E n : forall s, placed E (S n) s = fst (place_one_site E (placed E n s)).
Proof. induction n as [|n IH]; intros s; [reflexivity|]. rewrite placed_S, IH, placed_S. reflexivity. Qed.
Lemma placed_inv E L n : forall s, env_ok E -> Inv L s -> Inv L (placed E n s).
Proof. induction n as [|n IH]; intros s HE H; auto. rewrite placed_S. apply IH; auto. now apply place_inv. Qed.
Lemma placed_base E L k s : env_ok E -> fresh_plain E k L s -> is_L12 k = false -> forall n, Z.of_nat n <= L * L ->
  Plain L (placed E n s) /\ rem L (placed E n s) = L * L - Z.of_nat n /\ occ_count (placed E n s) = Z.of_nat n /\ kind (placed E n s) = k /\
  after_wrap (placed E n s) = false.
Proof.
  intros HE HF Hk. destruct (fresh_plain_Plain E k L s HE HF) as (P & Ek & F & Hr). rewrite Hk in Hr.
  destruct (fresh_plain_runB E k L s HE Hk HF) as (_ & _ & _ & Hc).
  assert (G : forall t, Plain L t -> is_L12 (kind t) = false -> rem L t = L * L - cur_idx t /\ occ_count t = cur_idx t).
  { intros t Pt Kt. unfold rem. rewrite Kt. split; auto. destruct Pt as (_ & Pt & _). rewrite Kt in Pt. apply (rb_cnt _ _ (proj1 Pt)). }
  induction n as [|n IH]; intros Hn.
  { change (placed E 0 s) with s. destruct (G s P ltac:(now rewrite Ek)) as (G1 & G2). split; auto. split; [lia|]. split; [lia|]. split; auto. apply (fs_wrap _ _ F). }
  destruct (IH ltac:(lia)) as (Q & Rn & On & Kn & Wn). rewrite placed_snoc.
  destruct (plain_place E L _ HE Q) as (P1 & K1 & _ & R). destruct (Z.eqb_spec (rem L (placed E n s)) 0); [lia|]. destruct R as (_ & R).
  destruct (G _ P1 ltac:(now rewrite K1, Kn)) as (G1 & G2). split; auto. split; [lia|]. split; [lia|]. split; [congruence|].
  destruct (place_core E L _ HE (proj1 Q)) as (Cw & _). congruence.
Qed.
Lemma prob_of L s n : Inv L s -> occ_count s = n -> occupation_prob s = Ok (FDiv (FZ n) (FZ (L * L))).
Proof.
  intros H Hn. pose proof (LL_pos L (i_pos _ _ H)). unfold occupation_prob. now rewrite Hn, (st_sc _ _ (i_static _ _ H)), int_div_ok by lia.
Qed.
Lemma values_total w L : forall t, Inv L t -> values_of w t = Ok (out (values_of w t)).
Proof.
  intros t H. destruct (obs_ok L t H) as (A1 & A2 & A3). pose proof (entropy_v1_ok L t H) as A4.
  unfold values_of. rewrite A1, A2, A3, A4. cbn [rbind]. destruct w; reflexivity.
Qed.
Lemma print_ok L lat : Static L lat -> exists tb ti, print_bonds lat = Ok tb /\ print_sites lat = Ok ti.
Proof.
  intros St. unfold print_bonds, print_sites. rewrite (st_bc _ _ St), (st_sc _ _ St).
  match goal with |- context [mapM ?f (zrange (2 * (L * L)))] => set (f1 := f) end.
  match goal with |- context [mapM ?f (zrange (L * L))] => set (f2 := f) end.
  assert (E1 : mapM f1 (zrange (2 * (L * L))) = Ok (map (fun i => match f1 i with Ok t => t | Err _ => EmptyString end) (zrange (2 * (L * L))))).
  { apply mapM_total. intros i Hi. apply In_zrange in Hi. unfold f1. rewrite (get_bond L) by auto. reflexivity. }
  assert (E2 : mapM f2 (zrange (L * L)) = Ok (map (fun i => match f2 i with Ok t => t | Err _ => EmptyString end) (zrange (L * L)))).
  { apply mapM_total. intros i Hi. apply In_zrange in Hi. unfold f2. rewrite (get_site L) by auto. reflexivity. }
  rewrite E1, E2. cbn [rbind]. eauto.
Qed.

(** ** C89 *)
Lemma place_view_ok E L : env_ok E -> forall n s, Plain L s ->
  snd (place_and_view E n s) = Ok (flat_map (fun j => shown 3 (placed E j s) :: if (n - 2 <=? j)%nat then [shown 4 (placed E j s)] else []) (seq 1 n)).
Proof.
  intros HE. induction n as [|n IH]; intros s P; [reflexivity|]. cbn [place_and_view].
  destruct (plain_place E L s HE P) as (P1 & _ & _ & R).
  assert (Eb : exists b, place_one_site E s = (fst (place_one_site E s), Ok b)).
  { destruct (rem L s =? 0); [exists false; now rewrite R|exists true; rewrite <- (proj1 R); apply surjective_pairing]. }
  destruct Eb as (b & Eb). set (s1 := fst (place_one_site E s)) in *.
  rewrite (mbind_ok _ _ _ _ _ Eb). rewrite (mbind_ok _ _ s1 s1 s1) by reflexivity.
  rewrite (mbind_ok _ _ s1 s1 [shown 3 s1]) by (unfold lift; now rewrite (view_out L) by apply P1).
  rewrite (mbind_ok _ _ s1 s1 (if (S n <=? 3)%nat then [shown 4 s1] else [])).
  2:{ destruct (S n <=? 3)%nat; [|reflexivity]. unfold lift. now rewrite (view_out L) by apply P1. }
  specialize (IH s1 P1). unfold mbind. destruct (place_and_view E n s1) as [t r]. cbn [snd] in IH. rewrite IH. unfold ret. cbn [snd seq flat_map].
  f_equal. change (placed E 1 s) with s1. rewrite (flat_shift _ 1). cbn [app]. f_equal.
  assert (Q : (S n - 2 <=? 1)%nat = (S n <=? 3)%nat) by (destruct (Nat.leb_spec (S n - 2) 1), (Nat.leb_spec (S n) 3); auto; lia).
  rewrite Q. f_equal. apply flat_seq_ext. intros j Hj. rewrite placed_S. fold s1. f_equal.
  destruct (Nat.leb_spec (n - 2) j), (Nat.leb_spec (S n - 2) (S j)); auto; lia.
Qed.
Lemma shown_flag f s x : shown f (set_sel_flag x s) = shown f s.
Proof. reflexivity. Qed.
Lemma p_C89 E L t0 s0 f : env_ok E -> new_perc E KBase L t0 = Ok s0 -> L * L < Z.of_nat f ->
  let N := Z.to_nat (L * L) in
  let sN := placed E N s0 in
  (forall i, is_site L i -> occupied sN i) /\
  test_detect_wrapping_base E f L t0 = Ok (each (fun n => let s := placed E n s0 in
    [TStr "p= "; TNum (FDiv (FZ (Z.of_nat n)) (FZ (L * L))); TStr " entropy_v1 "; num (entropy_v1 s); TStr " entropy_v2 "; TNum (entropy_v2 s);
     TStr " order "; TNum (FZ 0)]%string) N) /\
  test_relative_index_base E L t0 =
    Ok (flat_map (fun n => shown 3 (placed E n s0) :: if (12 <=? n)%nat then [shown 4 (placed E n s0)] else []) (seq 1 14)) /\
  exists bonds sites, print_bonds (lat s0) = Ok bonds /\ print_sites (lat s0) = Ok sites /\
  test_site_percolation E f L t0 = Ok [[TStr bonds]; [TStr sites]; [TStr (viewCluster s0)]; shown 1 s0; shown 1 sN; shown 2 sN; shown 0 sN; [TStr (viewCluster sN)]].
Proof.
  intros HE H0 Hf N sN. pose proof (new_fresh_plain _ _ _ _ _ H0) as HF.
  destruct (fresh_plain_Plain E KBase L s0 HE HF) as (P & Ek & F & Hr). cbn [is_L12] in Hr. pose proof (proj1 P) as I0.
  pose proof (LL_pos L (i_pos _ _ I0)) as HLL.
  pose proof (placed_base E L KBase s0 HE HF eq_refl) as B.
  destruct (B N ltac:(unfold N; lia)) as (PN & RN & _). fold sN in PN, RN. assert (RN0 : rem L sN = 0) by (unfold N in RN; lia).
  split; [now apply full_occupied|]. split; [|split].
  - unfold test_detect_wrapping_base. rewrite H0. cbn [rbind].
    destruct (show_plain E L HE (values_of false) (values_total false L) f s0 P ltac:(lia)) as (Es & _). rewrite Hr in Es. rewrite Es. cbn [snd].
    f_equal. unfold each. rewrite <- flat_one. apply flat_seq_ext. intros n Hn. destruct (B n ltac:(unfold N in *; lia)) as (Pn & _ & On & _ & Wn).
    unfold values_of, num. rewrite (prob_of L _ (Z.of_nat n)) by (auto; apply Pn). cbn [rbind].
    rewrite (entropy_v1_ok L _ (proj1 Pn)). cbn [rbind]. unfold order_param_wrapping. rewrite Wn. reflexivity.
  - unfold test_relative_index_base. rewrite H0. cbn [rbind]. now rewrite (place_view_ok E L).
  - destruct (print_ok L (lat s0) (i_static _ _ I0)) as (tb & ti & A1 & A2). exists tb, ti. split; auto. split; auto.
    unfold test_site_percolation. rewrite H0. cbn [rbind]. rewrite A1. cbn [rbind]. rewrite A2. cbn [rbind]. rewrite (view_out L) by auto. cbn [rbind].
    destruct (show_plain E L HE (fun _ => Ok []) ltac:(reflexivity) f s0 P ltac:(lia)) as (Es & _). rewrite Hr in Es. fold N in Es. rewrite Es.
    cbn [rbind]. fold sN. rewrite (final_flag E L) by auto.
    assert (If : Inv L (set_sel_flag (Some EMPTY_SITE_LIST) sN)) by (rewrite <- (final_flag E L sN) by auto; apply place_inv; auto; apply PN).
    rewrite !(view_out L) by auto. cbn [rbind app]. rewrite !shown_flag. reflexivity.
Qed.
Lemma p_C89_L2 E L t0 s0 f : env_ok E -> new_perc E KL2 L t0 = Ok s0 -> 5 * (L * L) < Z.of_nat f ->
  let N := Z.to_nat (5 * (L * L)) in
  let sN := placed E N s0 in
  (forall i, is_site L i -> occupied sN i) /\
  test_L2 E f L t0 = Ok (each (fun n => shown 3 (placed E n s0)) N ++
    [[TStr "SitePercolationL2.occupied_summary"];
     [TStr "  1st neighor selected "; TNum (FZ (x_occ sN)); TStr " times"];
     [TStr "  2nd neighor selected "; TNum (FZ (y_occ sN)); TStr " times"];
     shown 1 sN; [TStr (viewCluster sN)]]%string).
Proof.
  intros HE H0 Hf N sN. pose proof (new_fresh_plain _ _ _ _ _ H0) as HF.
  destruct (fresh_plain_Plain E KL2 L s0 HE HF) as (P & Ek & F & Hr). cbn [is_L12] in Hr. pose proof (proj1 P) as I0.
  destruct (show_plain E L HE (view_of 3) (view_total L 3) f s0 P ltac:(lia)) as (Es & PN & RN & KN). rewrite Hr in Es, PN, RN, KN.
  fold N in Es, PN, RN, KN. fold sN in Es, PN, RN, KN. split; [now apply full_occupied|].
  unfold test_L2. rewrite H0. cbn [rbind]. rewrite Es. cbn [rbind]. rewrite (final_flag E L) by auto.
  assert (If : Inv L (set_sel_flag (Some EMPTY_SITE_LIST) sN)) by (rewrite <- (final_flag E L sN) by auto; apply place_inv; auto; apply PN).
  rewrite (view_out L) by auto. cbn [rbind]. rewrite shown_flag. f_equal. f_equal.
  - unfold each. rewrite <- flat_one. apply flat_seq_ext. intros n _. rewrite (view_out L); [reflexivity|]. apply placed_inv; auto.
  - unfold summary_of, occupied_summary. change (kind (set_sel_flag (Some EMPTY_SITE_LIST) sN)) with (kind sN). rewrite KN, Ek. reflexivity.
Qed.

(** ** C90 *)
Lemma detect_twice L s x : Inv L s -> sel_id s = Some x ->
  detect_wrapping (fst (detect_wrapping s)) = (fst (detect_wrapping s), Ok (after_wrap (fst (detect_wrapping s)))).
Proof.
  intros H Ex. rewrite (detect_ok L) at 1 by (apply (detect_inv L s H)). unfold detect_res at 1.
  destruct (after_wrap (fst (detect_wrapping s))) eqn:Ew; [reflexivity|]. revert Ew. rewrite (detect_ok L) by apply H. unfold detect_res.
  destruct (after_wrap s) eqn:Ew; cbn [fst]; [congruence|]. rewrite Ex. destruct (hitb L (lat s) x) eqn:Eh; cbn [fst]; [discriminate|].
  rewrite Ex, Eh. reflexivity.
Qed.
Lemma undetected_facts E L n s : env_ok E -> Inv L s -> (1 <= n)%nat ->
  let t := undetected E n s in
  Inv L t /\ trace E n s = fst (detect_wrapping t) /\ after_wrap t = after_wrap (trace E (n - 1) s) /\
  entropy_v1 t = entropy_v1 (trace E n s) /\ entropy_v2 t = entropy_v2 (trace E n s) /\
  order_param_largest_clstr t = order_param_largest_clstr (trace E n s) /\ occupation_prob t = occupation_prob (trace E n s).
Proof.
  intros HE H Hn t. destruct n as [|n]; [lia|]. unfold t, undetected. replace (S n - 1)%nat with n by lia. rewrite trace_snoc. unfold advance.
  pose proof (trace_inv E L HE n s H) as Hi. pose proof (place_inv E L _ HE Hi) as H1. set (u := fst (place_one_site E (trace E n s))) in *.
  destruct (detect_fields L u H1) as (D1 & D2 & _ & D4 & _ & _ & _ & D8 & D9 & _).
  assert (Dc : cluster_count (fst (detect_wrapping u)) = cluster_count u).
  { rewrite (detect_ok L) by apply H1. unfold detect_res. destruct (after_wrap u); [reflexivity|]. destruct (sel_id u); [|reflexivity]. destruct (hitb _ _ _); reflexivity. }
  split; auto. split; auto. split; [apply (place_core E L _ HE Hi)|].
  unfold entropy_v1, entropy_v2, order_param_largest_clstr, largest_cluster, occupation_prob. rewrite D1, D2, D4, D8, D9, Dc. repeat split.
Qed.
Lemma until_ok E L : env_ok E -> forall f s, Plain L s -> after_wrap s = false -> rem L s < Z.of_nat f ->
  forall m, first_hit E s (Z.to_nat (rem L s)) m -> let N := Z.to_nat (rem L s) in
  snd (values_until E f s) = Ok (map (fun n => values_line (undetected E n s)) (seq 1 (Nat.min m N)) ++
    if (m <=? N)%nat then [[TStr "p= "; num (occupation_prob (trace E m s)); TStr " entropy "; TNum (entropy_v2 (trace E m s)); TStr " order "; num (order_param_largest_clstr (trace E m s))];
                     [TStr "Wrapping detected ***************** <<<"]]%string else []).
Proof.
  intros HE. induction f as [|f IH]; intros s P Hw Hf m Hm; [pose proof (rem_nonneg L s P); lia|]. cbv zeta.
  cbn [values_until]. destruct (plain_place E L s HE P) as (P1 & K1 & S1 & R). destruct (plain_success E L s HE P) as (x & Hx & Ex & _).
  pose proof (rem_nonneg L s P) as Hn. destruct Hm as (M1 & M2).
  destruct (Z.eqb_spec (rem L s) 0) as [Hz|Hz].
  { rewrite Hz. change (Z.to_nat 0) with O. rewrite (mbind_ok _ _ _ _ _ R). destruct m as [|m]; [lia|]. reflexivity. }
  destruct R as (R1 & R2).
  assert (Ep : place_one_site E s = (fst (place_one_site E s), Ok true)) by (rewrite <- R1; apply surjective_pairing).
  set (s1 := fst (place_one_site E s)) in *. pose proof (plain_detect L s1 P1) as (P2 & Q2).
  pose proof (detect_answer L s1 x (proj1 P1) Ex) as Ed. pose proof (detect_twice L s1 x (proj1 P1) Ex) as Ed2.
  assert (U1 : undetected E 1 s = s1) by reflexivity. assert (T1 : trace E 1 s = fst (detect_wrapping s1)) by reflexivity.
  set (s2 := fst (detect_wrapping s1)) in *.
  rewrite (mbind_ok _ _ _ _ _ Ep). rewrite (mbind_ok _ _ s1 s1 s1) by reflexivity.
  rewrite (mbind_ok _ _ s1 s1 [values_line s1]) by (unfold lift; now rewrite (values_out L) by apply P1).
  rewrite (mbind_ok _ _ _ _ _ Ed). rewrite (mbind_ok _ _ _ _ _ Ed2).
  destruct (after_wrap s2) eqn:Ew.
  - assert (m = 1%nat). { assert (m <= 1)%nat by (apply (M2 1%nat); [lia|]; now rewrite T1). lia. } subst m.
    rewrite (mbind_ok _ _ s2 s2 s2) by reflexivity. destruct (obs_ok L s2 (proj1 P2)) as (A1 & A2 & A3).
    rewrite (mbind_ok _ _ s2 s2 (val (occupation_prob s2))) by (unfold lift; now rewrite A1).
    rewrite (mbind_ok _ _ s2 s2 (val (order_param_largest_clstr s2))) by (unfold lift; now rewrite A3 || now rewrite A2).
    unfold ret. cbn [snd]. replace (Nat.min 1 (Z.to_nat (rem L s))) with 1%nat by lia. destruct (Nat.leb_spec 1 (Z.to_nat (rem L s))); [|lia].
    cbn [seq map app]. rewrite U1, T1. unfold num. rewrite A1. first [rewrite A3|rewrite A2]. reflexivity.
  - assert (Hm2 : (2 <= m)%nat). { destruct (Nat.leb_spec m 1); [|lia]. assert (after_wrap (trace E 1 s) = true) by (apply M2; lia). congruence. }
    destruct m as [|m]; [lia|].
    assert (Fh : first_hit E s2 (Z.to_nat (rem L s2)) m).
    { split; [lia|]. intros n Hn'. specialize (M2 (S n) ltac:(lia)). change (trace E (S n) s) with (trace E n s2) in M2. rewrite M2. lia. }
    specialize (IH s2 P2 Ew ltac:(lia) m Fh). unfold mbind. destruct (values_until E f s2) as [t r]. cbn [snd] in IH. rewrite IH. unfold ret. cbn [snd app].
    f_equal. replace (Z.to_nat (rem L s)) with (S (Z.to_nat (rem L s2))) by lia. rewrite <- Nat.succ_min_distr. cbn [seq map]. rewrite U1.
    cbn [app]. f_equal. rewrite (seq_map_shift _ 1). f_equal. apply map_seq_ext. intros n Hn'. unfold undetected. destruct n as [|n]; [lia|].
    replace (S (S n) - 1)%nat with (S n) by lia. replace (S n - 1)%nat with n by lia. reflexivity.
Qed.

Lemma p_C90_L0 E L t0 s0 f : env_ok E -> new_perc E KL0 L t0 = Ok s0 -> L * L < Z.of_nat f ->
  let N := Z.to_nat (L * L) in
  let p n := FDiv (FZ (Z.of_nat n)) (FZ (L * L)) in
  exists m, first_hit E s0 N m /\ (3 <= L -> (m <= N)%nat) /\ (L <= 2 -> m = S N) /\
  test_detect_wrapping_L0 E f L t0 =
    Ok (each (fun n => line_with (p n) (FZ 0) (trace E n s0)) (Nat.min m N) ++
        if (m <=? N)%nat then
          [[TStr "p= "; TNum (p m); TStr " entropy "; TNum (entropy_v2 (trace E m s0)); TStr " order "; num (order_param_largest_clstr (trace E m s0))];
           [TStr "Wrapping detected ***************** <<<"]]%string
        else []).
Proof.
  intros HE H0 Hf N p. pose proof (new_fresh_plain _ _ _ _ _ H0) as HF.
  destruct (fresh_plain_Plain E KL0 L s0 HE HF) as (P & Ek & F & Hr). cbn [is_L12] in Hr. pose proof (proj1 P) as I0.
  pose proof (LL_pos L (i_pos _ _ I0)) as HLL.
  destruct (hit_run E KL0 L s0 HE HF) as (m & A & B & C). cbv iota in A, B, C. fold N in A, B, C. exists m. split; auto.
  split; [intros H3; apply (B H3)|]. split; auto. unfold test_detect_wrapping_L0. rewrite H0. cbn [rbind].
  assert (Op : forall n, (n <= N)%nat -> occupation_prob (trace E n s0) = Ok (p n)).
  { intros n Hn. apply prob_of; [now apply trace_inv|]. apply (base_occ E KL0 L); auto; try discriminate. unfold N in Hn. lia. }
  rewrite (until_ok E L HE f s0 P (proj1 (fs_wrap _ _ F)) ltac:(lia) m); [|rewrite Hr; exact A]. cbv zeta. rewrite Hr. fold N.
  f_equal. f_equal.
  - unfold each. apply map_seq_ext. intros n Hn. destruct (undetected_facts E L n s0 HE I0 ltac:(lia)) as (U1 & _ & U3 & U4 & U5 & U6 & U7).
    unfold values_line, line_with, num. rewrite U4, U5, U6, U7, Op by lia. unfold order_param_wrapping. rewrite U3.
    destruct (after_wrap (trace E (n - 1) s0)) eqn:Ew; [|reflexivity]. exfalso. apply A in Ew; lia.
  - destruct (Nat.leb_spec m N); [|reflexivity]. rewrite Op by auto. reflexivity.
Qed.
Lemma p_C90_L1 E L t0 s0 f : env_ok E -> new_perc E KL1 L t0 = Ok s0 -> 5 * (L * L) < Z.of_nat f ->
  let N := Z.to_nat (5 * (L * L)) in
  let sN := trace E N s0 in
  exists m pc, first_hit E s0 N m /\ (3 <= L -> (m <= N)%nat /\ pc = FDiv (FZ (occ_count (trace E m s0))) (FZ (L * L))) /\
    (L <= 2 -> m = S N /\ pc = FZ 0) /\ (forall i, is_site L i -> occupied sN i) /\
    test_L1 E f L t0 = Ok (each (fun n => shown 3 (trace E n s0)) N ++
      [[TStr "tc = "; TNum pc]; [TStr "SitePercolationL1.occupied_summary"];
       [TStr "  1st neighor selected "; TNum (FZ (x_occ sN)); TStr " times"]; [TStr (viewCluster sN)]]%string) /\
    exists order, 
      (forall n, (1 <= n <= m)%nat -> order n = FZ 0) /\
      (forall n, (m < n <= N)%nat -> exists b, 0 < b <= 2 * (L * L) /\ order n = FDiv (FZ b) (FZ (2 * (L * L))) /\
         order_param_wrapping (trace E n s0) = Ok (order n)) /\
      test_detect_wrapping_L1L2 E f L t0 =
        Ok (each (fun n => line_with (FDiv (FZ (occ_count (trace E n s0))) (FZ (L * L))) (order n) (trace E n s0)) N).
Proof.
  intros HE H0 Hf N sN. pose proof (new_fresh_plain _ _ _ _ _ H0) as HF.
  destruct (fresh_plain_Plain E KL1 L s0 HE HF) as (P & Ek & F & Hr). cbn [is_L12] in Hr. pose proof (proj1 P) as I0.
  pose proof (LL_pos L (i_pos _ _ I0)) as HLL.
  destruct (hit_run E KL1 L s0 HE HF) as (m & A & B & C). cbv iota in A, B, C. fold N in A, B, C. fold sN in B.
  destruct (show_detect E L HE (fun _ => Ok []) (fun _ => view_of 3) ltac:(reflexivity) ltac:(intros; now apply (view_total L)) f s0 P ltac:(lia)) as (E1 & PN & RN & KN).
  rewrite Hr in E1, PN, RN, KN. fold N in E1, PN, RN, KN. fold sN in PN, RN, KN, E1.
  destruct (show_detect E L HE (values_of true) quiet (values_total true L) ltac:(reflexivity) f s0 P ltac:(lia)) as (E2 & _).
  rewrite Hr in E2. fold N in E2. fold sN in E2.
  exists m, (val (get_pc sN)). split; auto. split; [|split; [|split; [now apply full_occupied|split]]].
  - intros H3. destruct (B H3) as (B1 & c & B2 & B3). split; auto. rewrite B2. now subst c.
  - intros H2. split; auto. unfold get_pc. now rewrite (small_no_wrap L) by (auto; apply PN).
  - unfold test_L1. rewrite H0. cbn [rbind]. rewrite E1. cbn [rbind]. rewrite (final_flag E L) by auto. rewrite get_pc_flag, (get_pc_ok L) by apply PN.
    cbn [rbind]. f_equal. f_equal.
    + unfold each. rewrite (seq_map_shift _ 0). rewrite <- flat_one. apply flat_seq_ext. intros n _. cbn [out app].
      rewrite (view_out L) by (apply trace_inv; auto). reflexivity.
    + unfold summary_of, occupied_summary. change (kind (set_sel_flag (Some EMPTY_SITE_LIST) sN)) with (kind sN). rewrite KN, Ek. reflexivity.
  - exists (fun n => val (order_param_wrapping (undetected E n s0))). split; [|split].
    + intros n Hn. destruct (undetected_facts E L n s0 HE I0 ltac:(lia)) as (U1 & _ & U3 & _). unfold order_param_wrapping. rewrite U3.
      destruct (after_wrap (trace E (n - 1) s0)) eqn:Ew; [|reflexivity].
      exfalso. assert (m <= S N)%nat by (destruct (Z.le_gt_cases L 2) as [H2|H2]; [rewrite (C H2); lia|destruct (B ltac:(lia)); lia]).
      apply A in Ew; lia.
    + intros n Hn. destruct (undetected_facts E L n s0 HE I0 ltac:(lia)) as (U1 & U2 & U3 & _).
      assert (Hw : after_wrap (undetected E n s0) = true) by (rewrite U3; apply A; lia).
      pose proof (wrap_label L _ U1 Hw) as Hl. unfold order_param_wrapping. rewrite Hw, (get_bsize L (lat (undetected E n s0))) by (auto; apply (i_cl _ _ U1)).
      cbn [rbind]. rewrite (st_bc _ _ (i_static _ _ U1)), int_div_ok by lia. eexists. split; [|split; [reflexivity|]].
      2:{ rewrite U2, (detect_ok L) by apply U1. unfold detect_res. rewrite Hw. cbn [fst val]. unfold order_param_wrapping. rewrite Hw, (get_bsize L (lat (undetected E n s0))) by (auto; apply (i_cl _ _ U1)).
          cbn [rbind]. now rewrite (st_bc _ _ (i_static _ _ U1)), int_div_ok by lia. }
      pose proof (wrap_size_le L _ U1 Hw). pose proof (big_bound L _ U1). lia.
    + unfold test_detect_wrapping_L1L2. rewrite H0. cbn [rbind]. rewrite E2. cbn [snd]. f_equal. unfold each.
      rewrite (seq_map_shift _ 0), <- flat_one. apply flat_seq_ext. intros n Hn. cbn [quiet out]. rewrite app_nil_r.
      destruct (undetected_facts E L (S n) s0 HE I0 ltac:(lia)) as (U1 & _ & _ & U4 & U5 & U6 & U7).
      assert (Eu : fst (place_one_site E (trace E n s0)) = undetected E (S n) s0) by (unfold undetected; now replace (S n - 1)%nat with n by lia).
      rewrite Eu, (values_out L) by auto. cbn [out]. unfold values_line, line_with, num. destruct (obs_ok L _ U1) as (_ & A2 & A3).
      rewrite U4, U5, U6, U7. rewrite (prob_of L _ _ (trace_inv E L HE (S n) s0 I0) eq_refl). reflexivity.
Qed.

(** ** C91 *)
Lemma p_C91 E L t0 s0 f n : env_ok E -> new_perc E KSP L t0 = Ok s0 -> 5 * (L * L) < Z.of_nat f ->
  ensemble_shortest_path_v1 E f L n t0 =
    Ok (each (fun e => [TStr "iteration "; TNum (FZ (Z.of_nat e)); TStr " p*= "; TNum (sp_p (realization E f s0 e))]%string) (Z.to_nat n)) /\
  (exists s, run_once E f s0 = (s, Ok tt) /\ run_shortest_path E f L t0 = Ok [shown 3 s; [TNum (sp_p s)]] /\
    (3 <= L -> exists q, sp_p s = FDiv (FZ q) (FZ (L * L)) /\ L <= q <= L * L /\ occ_count s = q /\ on_full_line L s) /\ (L <= 2 -> sp_p s = FZ 0)).
Proof.
  intros HE H0 Hf. pose proof (new_fresh_plain _ _ _ _ _ H0) as HF. split.
  - unfold ensemble_shortest_path_v1. rewrite H0. cbn [rbind].
    assert (G : forall m e, snd (shortest_print_loop E f m (Z.of_nat (S e)) (realization E f s0 e)) =
      Ok (map (fun e => [TStr "iteration "; TNum (FZ (Z.of_nat e)); TStr " p*= "; TNum (sp_p (realization E f s0 e))]%string) (seq (S e) m))).
    { induction m as [|m IH]; intros e; [reflexivity|]. cbn [shortest_print_loop].
      rewrite (mbind_ok _ _ _ _ _ (re_reset E KSP L t0 s0 f HE H0 e)). rewrite (mbind_ok _ _ _ _ _ (re_run E KSP L t0 s0 f HE H0 Hf e)).
      set (s1 := realization E f s0 (S e)) in *. rewrite (mbind_ok _ _ s1 s1 s1) by reflexivity.
      specialize (IH (S e)). fold s1 in IH. replace (Z.of_nat (S e) + 1) with (Z.of_nat (S (S e))) by lia. unfold mbind.
      destruct (shortest_print_loop E f m (Z.of_nat (S (S e))) s1) as [t r]. cbn [snd] in IH. rewrite IH. reflexivity. }
    specialize (G (Z.to_nat n) 0%nat). exact G.
  - destruct (sp_values E L s0 f HE HF Hf) as (s & Er & A & B). exists s. split; auto. split.
    + unfold run_shortest_path. rewrite H0. cbn [rbind]. rewrite Er. cbn [rbind].
      assert (I1 : Inv L s). { apply (reachable_inv E L s HE). exists KSP, t0, s0, [CRun f]. split; auto. split; [repeat constructor|]. unfold after. cbn [fold_left exec]. now rewrite Er. }
      now rewrite (view_out L).
    + split; [|intros H2; apply (B H2)]. intros H3. destruct (A H3) as (m & q & _ & A2 & A3 & A4 & _ & A6 & A7). exists q. split; auto. split; [lia|]. auto.
Qed.

(** ** C92 *)
Lemma new_lattice_edited L : 0 < L -> exists lat, new_lattice L = Ok lat /\ edited L lat.
Proof.
  intros HL. destruct (new_lattice_static L HL) as (lat & El & _). exists lat. split; [exact El|]. exists lat, []. split; [exact El|]. split; [constructor|reflexivity].
Qed.
Lemma p_C92 L : 0 < L -> exists lat v0 v1 v2, new_lattice L = Ok lat /\ edited L lat /\
  lat_view lat 0 = Ok v0 /\ lat_view lat 1 = Ok v1 /\ lat_view lat 2 = Ok v2 /\
  mTest_neighbors L = Ok [[TStr v0]; [TStr v1]; [TStr v2]; [TStr (list_all_sites lat)]; [TStr (list_all_bonds lat)]] /\
  test_index L = Ok [[TStr "index "; TStr "(0, 1, 2)"; TStr " id "; TNum (FZ (L + 2))]; [TStr (list_all_bonds lat)];
                     [TStr "index "; TStr "(3, 2)"; TStr " id "; TNum (FZ (3 * L + 2))]; [TStr (list_all_sites lat)]]%string /\
  (2 <= L -> test_neighbors L = Ok tt).
Proof.
  intros HL. destruct (new_lattice_edited L HL) as (lat & El & He). pose proof (edited_static _ _ HL He) as St.
  destruct (view_spec L lat St 0) as (v0 & E0 & _). destruct (view_spec L lat St 1) as (v1 & E1 & _). destruct (view_spec L lat St 2) as (v2 & E2 & _).
  exists lat, v0, v1, v2. split; auto. split; auto. split; auto. split; auto. split; auto. split; [|split].
  - unfold mTest_neighbors. rewrite El. cbn [rbind]. rewrite E0. cbn [rbind]. rewrite E1. cbn [rbind]. rewrite E2. reflexivity.
  - unfold test_index. rewrite El. cbn [rbind].
    assert (Q1 : calculate_id_from_index lat [0; 1; 2] = L + 2).
    { unfold calculate_id_from_index. change (zrange (zlen [0; 1; 2])) with [0; 1; 2]. cbn [map rev app combine fold_right]. rewrite (st_len _ _ St), Z.pow_0_r, Z.pow_1_r. ring. }
    assert (Q2 : calculate_id_from_index lat [3; 2] = 3 * L + 2).
    { unfold calculate_id_from_index. change (zrange (zlen [3; 2])) with [0; 1]. cbn [map rev app combine fold_right]. rewrite (st_len _ _ St), Z.pow_0_r, Z.pow_1_r. ring. }
    now rewrite Q1, Q2.
  - intros H2. destruct (p_C68 L lat H2 He) as (_ & A & B & _). unfold test_neighbors. rewrite El. cbn [rbind]. rewrite A. exact B.
Qed.
Lemma p_C92_drivers : 
  (forall W f L En th, run_simulation_threads_v3 W f L En th = run_simulation_threads_v4 W f L En th 0) /\
  (forall E E' f t0 t0' time d, e_ord E = e_ord E' -> run_simulations E f t0 time d = run_simulations E' f t0' time d) /\
  (forall W f, (forall i, env_ok (m_env (W i))) -> 500 < Z.of_nat f ->
     exists a b, main_script W f = Ok [a; b] /\
     forall i r, (i = 0 /\ r = a) \/ (i = 1 /\ r = b) -> exists s0 d c, new_perc (m_env (W i)) KL1 10 (m_tick (W i)) = Ok s0 /\ r = Ok [d; c] /\
       o_length d = 10 /\ o_ensemble d = 50 /\ o_ensemble c = 50 /\
       averages (m_env (W i)) f s0 10 50 (o_rows d) /\ critical_rows (m_env (W i)) f s0 50 (o_rows c)).
Proof.
  split; [|split].
  - intros W f L En th. reflexivity.
  - intros E E' f t0 t0' time d HO. apply (p_C64 E E' f t0 t0' time KL0 5 100 0 d); [lia|exact HO].
  - intros W f HW Hf. unfold main_script, run_simulation_threads_v4. cbn [Z.eqb]. change (zrange 2) with [0; 1]. cbn [map].
    do 2 eexists. split; [reflexivity|]. intros i r Hi.
    destruct (new_perc_ok (m_env (W i)) KL1 10 (m_tick (W i)) ltac:(lia)) as (? & ? & ? & ? & Es & _).
    destruct (p_C56 (m_env (W i)) KL1 10 (m_tick (W i)) _ f 50 (m_time (W i)) (HW i) ltac:(discriminate) Es ltac:(lia) ltac:(lia)) as (_ & _ & _ & P).
    destruct (P i) as (d & c & A1 & A2 & A3 & A4 & A5 & A6 & A7). do 3 eexists. split; [exact Es|].
    split; [destruct Hi as [(-> & ->)|(-> & ->)]; exact A1|]. auto.
Qed.
