(** * SuiteProps: which of the shipped tests pass, for every random stream (C86, C87). *)
From Coq Require Import String ZArith List Bool Lia Permutation.
From Verif Require Import Py Lattice Cluster Perc Script View TestSuite Spec PyFacts Torus Geometry LatFacts Inv Merge Count Fresh Select State Step History Reach
  GeomProps Micro StateProps StateProps2 Wrap Late Comm Seq RunBase RunProps RunProps2 Grow Cand Cycle CandRun Lines Normal Critical Drive Stop ViewProps CandProps.
Import ListNotations.
Open Scope Z_scope.

(** ** Checks either pass or fail an assertion *)
Definition ok_or_assert (r : res unit) : Prop := r = Ok tt \/ r = Err AssertionError.
Lemma oa_passert b : ok_or_assert (passert b).
Proof. destruct b; [left|right]; reflexivity. Qed.
Lemma oa_seq a (b : res unit) : ok_or_assert a -> ok_or_assert b -> ok_or_assert (_ <- a ;; b).
Proof. intros [-> | ->] H; [exact H|right; reflexivity]. Qed.
Lemma oa_fold {B} (f : unit -> B -> res unit) l : (forall x, In x l -> ok_or_assert (f tt x)) -> ok_or_assert (foldM f l tt).
Proof.
  induction l as [|a l IH]; intros H; [left; reflexivity|]. cbn [foldM]. destruct (H a (or_introl eq_refl)) as [-> | ->].
  - cbn [rbind]. apply IH. intros x Hx. apply H. now right.
  - right. reflexivity.
Qed.
Lemma oa_lat_test lat g : ok_or_assert (lat_test_lattice lat g).
Proof.
  unfold lat_test_lattice. apply oa_seq; apply oa_fold; intros x _; apply oa_seq; try apply oa_passert.
  - unfold site_test. apply oa_seq; apply oa_passert.
  - unfold bond_test. apply oa_seq; apply oa_passert.
Qed.
Lemma test_lattice_two L s : Inv L s -> 2 <= L ->
  test_lattice s = if occ_count s =? L * L then lat_test_lattice (lat s) (wid s) else Ok tt.
Proof.
  intros H H2. pose proof (i_static _ _ H) as St.
  unfold test_lattice. rewrite (test_neighbor_count_ok L) by auto. cbn [rbind].
  rewrite (test_relative_index_ok L (lat s) (pool s)) by (auto; apply (i_cl _ _ H)). cbn [rbind].
  rewrite (scan_bonds_ok L), (scan_sites_ok L) by auto. cbn [rbind]. now rewrite (st_sc _ _ St).
Qed.
Lemma test_lattice_one s : Inv 1 s -> test_lattice s = Err AssertionError.
Proof.
  intros H. pose proof (i_static _ _ H) as St. unfold test_lattice, test_neighbor_count.
  pose proof (st_ns _ _ St) as Hn. pose proof (st_site _ _ St 0 ltac:(unfold is_site; lia)) as (_ & _ & Eb).
  unfold site_at in Eb. destruct (l_sites (lat s)) as [|t [|u l]]; [discriminate Hn| |unfold zlen in Hn; cbn in Hn; lia].
  cbn [foldM]. change (at_ dsite [t] 0) with t in Eb. rewrite Eb. reflexivity.
Qed.
Lemma full_occ_count L s : Inv L s -> occ_count s = L * L -> forall i, is_site L i -> occupied s i.
Proof.
  intros H e i Hi. pose proof (LL_pos L (i_pos _ _ H)). rewrite (i_occ _ _ H) in e.
  apply (occupied_occ L); auto; [apply (i_static _ _ H)|]. apply occb_true.
  apply (count_full _ (zrange (L * L))); [rewrite zlen_zrange by lia; exact e|now apply In_zrange].
Qed.
Lemma test_lattice_tr L s : Tr L s -> 3 <= L -> test_lattice s = Ok tt.
Proof.
  intros (H & T) H3. rewrite (test_lattice_two L) by (auto; lia).
  destruct (Z.eqb_spec (occ_count s) (L * L)) as [e|]; [|reflexivity].
  pose proof (full_occ_count L s H e) as Ho. destruct (full_state L s H Ho) as (c & _ & _ & _ & _ & _ & A).
  destruct (A (full_flat_wraps L s (proj1 (T H3)) Ho) ltac:(lia)) as (_ & _ & _ & B).
  rewrite (test_lattice_two L) in B by (auto; lia). now rewrite e, Z.eqb_refl in B.
Qed.
Lemma test_lattice_small L s : Inv L s -> ok_or_assert (test_lattice s).
Proof.
  intros H. pose proof (i_pos _ _ H). destruct (Z_le_dec 2 L) as [H2|]; [|assert (L = 1) by lia; subst; right; now apply test_lattice_one].
  rewrite (test_lattice_two L) by auto. destruct (_ =? _); [apply oa_lat_test|left; reflexivity].
Qed.
Lemma view_ok L s f : Inv L s -> exists text, viewLattice s f = Ok text.
Proof.
  intros H. pose proof (i_static _ _ H) as St. unfold viewLattice. destruct (f <? 0); [eauto|]. destruct (f =? 3); [|destruct (f =? 4)].
  - destruct (rel_spec L (lat s) St) as (t & Et & _). eauto.
  - destruct (gids_spec L (lat s) St) as (t & Et & _). eauto.
  - destruct (view_spec L (lat s) St f) as (t & Et & _). eauto.
Qed.
Lemma small_no_wrap L s : Inv L s -> L <= 2 -> after_wrap s = false.
Proof.
  intros H H2. destruct (after_wrap s) eqn:Ew; auto. exfalso. pose proof (i_wrap _ _ H) as W. unfold WrapOK in W. rewrite Ew in W.
  destruct W as (H3 & _). lia.
Qed.
Lemma opw_small L s : Inv L s -> L <= 2 -> order_param_wrapping s = Ok (FZ 0).
Proof. intros H H2. unfold order_param_wrapping. now rewrite (small_no_wrap L s). Qed.
Lemma test_clusters_small L s : Inv L s -> L <= 2 -> (forall i, is_site L i -> occupied s i) -> test_clusters s = Err AssertionError.
Proof.
  intros H H2 Ho. pose proof (i_static _ _ H) as St. pose proof (LL_pos L (i_pos _ _ H)) as HLL.
  pose proof (all_occ_nocc L s H Ho) as Hn. destruct (full_one L (lat s) (pool s) (i_cl _ _ H) Hn) as (c & Hc & Hs & Hb & Sb & Ss & Hz).
  assert (Eo : occ_count s = L * L) by (rewrite (i_occ _ _ H); auto).
  assert (Ew : wid s = -1).
  { pose proof (i_wrap _ _ H) as W. unfold WrapOK in W. rewrite (small_no_wrap L s) in W by auto. apply W. }
  unfold test_clusters. rewrite (st_sc _ _ St), (st_len _ _ St), (st_bc _ _ St), Eo, Z.ltb_irrefl. cbv zeta.
  match goal with |- context [foldM ?f _ _] => set (step := f) end.
  assert (G : forall l a b, (forall g, In g l -> is_label L g) ->
     exists n m, foldM step l (a, b) = Ok (n, m) /\ n = a + fold_right Z.add 0 (map (bsize (pool s)) l)).
  { induction l as [|g l IH]; intros a b Hl; [exists a, b; split; [reflexivity|cbn; lia]|]. cbn [foldM].
    assert (Hg : is_label L g) by (apply Hl; simpl; auto).
    assert (Es : step (a, b) g = Ok (a + bsize (pool s) g, b + ssize (pool s) g)).
    { unfold step. rewrite (get_bsize L (lat s)), (get_ssize L (lat s)) by (auto; apply (i_cl _ _ H)). cbn [rbind].
      rewrite Ew. unfold is_label in Hg. replace (g =? -1) with false by lia. reflexivity. }
    rewrite Es. cbn [rbind]. destruct (IH (a + bsize (pool s) g) (b + ssize (pool s) g)) as (n & m & E1 & E2); [intros g' Hg'; apply Hl; simpl; auto|].
    exists n, m. split; auto. cbn [map fold_right]. lia. }
  destruct (G (zrange (2 * (L * L))) 0 0) as (n & m & E1 & E2); [intros g Hg; now apply In_zrange in Hg|].
  rewrite E1. cbn [rbind]. replace (n =? 0) with false; [reflexivity|]. symmetry. apply Z.eqb_neq. rewrite E2.
  assert (Q : forall l, (forall g, In g l -> is_label L g) -> In c l -> 2 * (L * L) <= fold_right Z.add 0 (map (bsize (pool s)) l) /\ 0 <= fold_right Z.add 0 (map (bsize (pool s)) l)).
  { induction l as [|g l IH]; intros Hl Hin; [contradiction|]. cbn [map fold_right].
    assert (Hg : 0 <= bsize (pool s) g).
    { destruct (Z.eq_dec g c) as [->|Hne]; [lia|]. destruct (Hz g (Hl g (or_introl eq_refl)) Hne) as (-> & _). lia. }
    assert (Hall : 0 <= fold_right Z.add 0 (map (bsize (pool s)) l)).
    { clear IH Hin. induction l as [|h l IHl]; cbn [map fold_right]; [lia|].
      assert (0 <= bsize (pool s) h).
      { destruct (Z.eq_dec h c) as [->|Hne]; [lia|]. destruct (Hz h (Hl h ltac:(simpl; auto)) Hne) as (-> & _). lia. }
      assert (0 <= fold_right Z.add 0 (map (bsize (pool s)) l)) by (apply IHl; intros x [->|Hx]; apply Hl; simpl; auto). lia. }
    destruct Hin as [->|Hin]; [rewrite Sb; lia|]. destruct IH as (I1 & _); auto; [intros x Hx; apply Hl; simpl; auto|lia]. }
  destruct (Q (zrange (2 * (L * L)))) as (Q1 & _); [intros g Hg; now apply In_zrange in Hg|now apply In_zrange|]. lia.
Qed.

(** ** The loop of the simulation tests *)
Lemma loop_ok E L check : env_ok E -> 3 <= L -> forall f s P1, Plain L s -> Tr L s -> rem L s < Z.of_nat f ->
  (order_param_wrapping s = Ok P1 \/ 0 < rem L s) ->
  exists t P, simulation_loop E check f P1 s = (t, Ok P) /\ order_param_wrapping t = Ok P /\ Tr L t /\ (forall i, is_site L i -> occupied t i).
Proof.
  intros HE H3. induction f as [|f IH]; intros s P1 P T Hf Hp; [pose proof (rem_nonneg L s P); lia|].
  cbn [simulation_loop]. destruct (plain_place E L s HE P) as (Pl1 & K1 & S1 & R).
  destruct (plain_success E L s HE P) as (x & Hx & Ex & _). pose proof (tr_advance E L s HE T) as TA.
  unfold mbind at 1. destruct (Z.eqb_spec (rem L s) 0) as [Hz|Hz].
  { rewrite R in *. cbn [fst snd] in *. eexists _, P1. split; [reflexivity|]. split; [destruct Hp as [Hp|]; [exact Hp|lia]|].
    split; [split; [eapply inv_frame; [|exact (proj1 T)]; reflexivity|]|].
    - intros _. eapply phys_pc; [|eapply inv_frame; [|exact (proj1 T)]|exact (proj2 T H3)]; reflexivity.
    - intros i Hi. apply (occupied_occ L); auto; [apply (i_static _ _ (proj1 T))|]. exact (rem_zero_full L s P Hz i Hi). }
  destruct R as (R1 & R2). destruct (place_one_site E s) as [s1 r]. cbn [fst snd] in *. subst r.
  destruct (detect_bool L s1 x (proj1 Pl1) Ex) as (w & Ed). pose proof (plain_detect L s1 Pl1) as (P2 & M2).
  set (s2 := fst (detect_wrapping s1)) in *. unfold mbind at 1. rewrite Ed. unfold mbind at 1, get. unfold mbind at 1, lift.
  destruct (view_ok L s2 3 (proj1 TA)) as (text & Ev).
  assert (Ec : (if check then _ <- viewLattice s2 3 ;; test_lattice s2 else Ok tt) = Ok tt).
  { destruct check; [|reflexivity]. rewrite Ev. cbn [rbind]. now apply (test_lattice_tr L). }
  rewrite Ec. unfold mbind at 1. assert (Eo : order_param_wrapping s2 = Ok (val (order_param_wrapping s2))) by apply (obs_ok L s2 (proj1 TA)).
  rewrite Eo. apply IH; auto. lia.
Qed.
Lemma loop_small E L check : env_ok E -> L <= 2 -> forall f s P1, Plain L s -> rem L s < Z.of_nat f -> equals_one P1 = false ->
  let '(t, r) := simulation_loop E check f P1 s in
  Inv L t /\ (r = Err AssertionError \/ exists P, r = Ok P /\ equals_one P = false).
Proof.
  intros HE H2. induction f as [|f IH]; intros s P1 P Hf Hp; [pose proof (rem_nonneg L s P); lia|].
  cbn [simulation_loop]. destruct (plain_place E L s HE P) as (Pl1 & K1 & S1 & R).
  destruct (plain_success E L s HE P) as (x & Hx & Ex & _).
  unfold mbind at 1. destruct (Z.eqb_spec (rem L s) 0) as [Hz|Hz].
  { rewrite R in *. cbn [fst snd] in *. split; [apply Pl1|]. right. exists P1. auto. }
  destruct R as (R1 & R2). destruct (place_one_site E s) as [s1 r]. cbn [fst snd] in *. subst r.
  destruct (detect_bool L s1 x (proj1 Pl1) Ex) as (w & Ed). pose proof (plain_detect L s1 Pl1) as (P2 & M2).
  set (s2 := fst (detect_wrapping s1)) in *. unfold mbind at 1. rewrite Ed. unfold mbind at 1, get. unfold mbind at 1, lift.
  destruct (view_ok L s2 3 (proj1 P2)) as (text & Ev).
  assert (Ec : ok_or_assert (if check then _ <- viewLattice s2 3 ;; test_lattice s2 else Ok tt)).
  { destruct check; [|left; reflexivity]. rewrite Ev. cbn [rbind]. apply (test_lattice_small L), P2. }
  destruct Ec as [-> | ->]; [|split; [apply P2|left; reflexivity]].
  unfold mbind at 1. rewrite (opw_small L) by (auto; apply P2). apply IH; auto. lia.
Qed.

Lemma run_end E k L s f : env_ok E -> k <> KSP -> fresh_plain E k L s -> 5 * (L * L) < Z.of_nat f ->
  exists s', run_once E f s = (s', Ok tt) /\ Inv L s' /\
    test_clusters s' = (if 3 <=? L then Ok tt else Err AssertionError) /\ (3 <= L -> test_lattice s' = Ok tt).
Proof.
  intros HE Hk HF Hf. destruct (fresh_plain_Plain E k L s HE HF) as ((I & _) & _).
  destruct (p_C77 E k L s f HE HF Hf) as (t & _ & Ho & _ & _ & A & B). destruct (B Hk) as (p & h & pw & pl & Er).
  pose proof (exec_inv E L s (CRun f) HE Logic.I I) as I'. cbn [exec] in I'. rewrite Er in I'. cbn [fst] in I'.
  eexists. split; [exact Er|]. split; [exact I'|]. split.
  - destruct (Z.leb_spec 3 L) as [H3|H3]; [apply A; auto|]. apply (test_clusters_small L); [exact I'|lia|exact Ho].
  - intros H3. apply A; auto.
Qed.
Lemma run_keeps E k L s f : reachable_no_custom E k L s -> reachable_no_custom E k L (fst (run_once E f s)).
Proof.
  intros (t0 & s0 & cs & E0 & Hc & Hn & ->). exists t0, s0, (cs ++ [CRun f]). split; auto. split; [|split].
  - apply Forall_app. split; auto. constructor; [exact I|constructor].
  - apply Forall_app. split; auto. constructor; [exact I|constructor].
  - unfold after. now rewrite fold_left_app.
Qed.
Lemma new_no_custom E k L t0 s0 : new_perc E k L t0 = Ok s0 -> reachable_no_custom E k L s0.
Proof. intros H. exists t0, s0, []. auto. Qed.

Lemma p_C86 E k L t0 f : env_ok E -> 0 < L -> k <> KSP -> 5 * (L * L) < Z.of_nat f ->
  let outcome := if 3 <=? L then Ok tt else Err AssertionError in
  test_simulation_seed E f k L t0 = outcome /\ test_simulation_reset E f k L t0 = outcome /\
  test_simulation_length E f k L t0 = outcome /\ test_simulation_parametrize E f k L t0 = outcome.
Proof.
  intros HE HL Hk Hf outcome. destruct (new_perc_ok E k L t0 HL) as (lat1 & l & t & rv & E0 & _).
  unfold test_simulation_seed, test_simulation_reset, test_simulation_length, test_simulation_parametrize.
  match type of E0 with _ = Ok ?u => set (s0 := u) in * end. rewrite E0. cbn [rbind].
  assert (F0 : fresh_plain E k L s0) by (left; exists t0; exact E0).
  destruct (fresh_plain_Plain E k L s0 HE F0) as (P0 & Ek & Fr & Hr). pose proof (LL_pos L HL) as HLL.
  pose proof (fresh_tr L s0 Fr) as T0.
  pose proof (new_no_custom E k L t0 s0 E0) as R0. clearbody s0.
  destruct (reset_inv E L s0 (proj1 P0)) as (s1 & Er & Rt).
  assert (F1 : fresh_plain E k L s1) by (right; exists s0; split; [exact R0|now rewrite Er]).
  destruct (fresh_plain_Plain E k L s1 HE F1) as (P1 & Ek1 & Fr1 & Hr1). pose proof (fresh_tr L s1 Fr1) as T1.
  assert (Z0 : 0 < rem L s0 < Z.of_nat f) by (rewrite Hr; destruct (is_L12 k); lia).
  assert (Z1 : 0 < rem L s1 < Z.of_nat f) by (rewrite Hr1; destruct (is_L12 k); lia).
  assert (Full : forall u P, order_param_wrapping u = Ok P -> Tr L u -> (forall i, is_site L i -> occupied u i) -> 3 <= L ->
    equals_one P = true /\ test_clusters u = Ok tt /\ test_lattice u = Ok tt).
  { intros u P Eo Tu Ho H3. destruct (full_state L u (proj1 Tu) Ho) as (c & _ & _ & _ & _ & _ & A).
    destruct (A (full_flat_wraps L u (proj1 (proj2 Tu H3)) Ho) ltac:(lia)) as (_ & B1 & B2 & B3).
    rewrite B1 in Eo. injection Eo as <-. split; [cbn [equals_one]; apply Z.eqb_refl|]. auto. }
  assert (Sim : forall check s, Plain L s -> Tr L s -> 0 < rem L s < Z.of_nat f -> forall views,
    snd ((do P1 <~ simulation_loop E check f (FZ (-222)) ;
          do s <~ get ;
          do _ <~ lift (passert (equals_one P1)) ;
          do _ <~ lift (if views : bool then viewLattice s 0 else Ok EmptyString) ;
          do _ <~ lift (viewLattice s 3) ;
          do _ <~ lift (test_clusters s) ;
          lift (test_lattice s)) s) = outcome).
  { intros check s P T Z views. unfold outcome. destruct (Z.leb_spec 3 L) as [H3|H3].
    - destruct (loop_ok E L check HE H3 f s (FZ (-222)) P T ltac:(lia) ltac:(lia)) as (u & Q & El & Eo & Tu & Ho).
      destruct (Full u Q Eo Tu Ho H3) as (B1 & B2 & B3). destruct (view_ok L u 3 (proj1 Tu)) as (x1 & V1). destruct (view_ok L u 0 (proj1 Tu)) as (x2 & V2).
      rewrite (mbind_ok _ _ _ _ _ El). unfold mbind, get, lift. rewrite B1. cbn [passert]. rewrite V1, V2, B2, B3. destruct views; reflexivity.
    - pose proof (loop_small E L check HE ltac:(lia) f s (FZ (-222)) P ltac:(lia) eq_refl) as Q.
      unfold mbind at 1. destruct (simulation_loop E check f (FZ (-222)) s) as [u r]. destruct Q as (Iu & [-> | (P' & -> & Eq)]); [reflexivity|].
      unfold mbind, get, lift. rewrite Eq. reflexivity. }
  split.
  { unfold mbind at 1, get. unfold mbind at 1, lift. destruct (Z_le_dec 3 L) as [H3|H3].
    - rewrite (test_lattice_tr L) by auto. rewrite <- (Sim true s0 P0 T0 Z0 false). reflexivity.
    - destruct (test_lattice_small L s0 (proj1 P0)) as [-> | ->].
      + rewrite <- (Sim true s0 P0 T0 Z0 false). reflexivity.
      + unfold outcome. now destruct (Z.leb_spec 3 L); [lia|]. }
  split.
  { rewrite (mbind_ok _ _ _ _ _ Er). exact (Sim false s1 P1 T1 Z1 true). }
  destruct (run_end E k L s1 f HE Hk F1 Hf) as (s2 & Er2 & I2 & C2 & L2).
  split.
  { rewrite (mbind_ok _ _ _ _ _ Er), (mbind_ok _ _ _ _ _ Er2). unfold mbind, get, lift. rewrite C2. fold outcome. unfold outcome.
    destruct (Z.leb_spec 3 L) as [H3|H3]; [now rewrite L2|reflexivity]. }
  destruct (run_end E k L s0 f HE Hk F0 Hf) as (s3 & Er3 & I3 & C3 & L3).
  rewrite (mbind_ok _ _ _ _ _ Er3). unfold mbind at 1, get. unfold mbind at 1, lift. rewrite C3. fold outcome. unfold outcome.
  destruct (Z.leb_spec 3 L) as [H3|H3]; [|reflexivity]. unfold mbind at 1. rewrite L3 by auto.
  destruct (reset_inv E L s3 I3) as (s4 & Er4 & _). rewrite (mbind_ok _ _ _ _ _ Er4).
  assert (F4 : fresh_plain E k L s4).
  { right. exists s3. split; [|now rewrite Er4]. replace s3 with (fst (run_once E f s0)) by now rewrite Er3. now apply run_keeps. }
  destruct (run_end E k L s4 f HE Hk F4 Hf) as (s5 & Er5 & I5 & C5 & L5). rewrite (mbind_ok _ _ _ _ _ Er5).
  unfold mbind, get. rewrite C5. destruct (Z.leb_spec 3 L); [|lia]. now rewrite L5.
Qed.

(** ** Tests with fixed lists *)
Lemma potential_no_wrap L (P : Z -> Prop) (h : Z -> Z * Z) :
  (forall i d, is_site L i -> P i -> P (nbr L i d) -> h (nbr L i d) = vadd (h i) (step d)) -> ~ wraps L P.
Proof.
  intros F (i & ds & W & D). apply D.
  assert (G : forall ds i j, walk L P i ds j -> disp ds = vsub (h j) (h i)).
  { clear - F. intros ds i j W. induction W as [i Hi Ho|i d ds j Hi Ho W IH].
    - unfold vsub. cbn [disp]. f_equal; lia.
    - cbn [disp]. rewrite IH. inversion W; subst; (rewrite (F i d Hi Ho) by auto); unfold vadd, vsub; cbn [fst snd]; f_equal; lia. }
  rewrite (G ds i i W). unfold vsub. f_equal; lia.
Qed.
Definition flat_listb (L : Z) (l : list Z) : bool :=
  forallb (fun i => forallb (fun d => negb (existsb (Z.eqb (nbr L i d)) l) ||
    (let p := vadd (i / L, i mod L) (step d) in (nbr L i d / L =? fst p) && (nbr L i d mod L =? snd p))) all_dirs) l.
Lemma flat_list_no_wrap L l (P : Z -> Prop) : flat_listb L l = true -> (forall i, is_site L i -> P i -> In i l) -> 0 < L -> ~ wraps L P.
Proof.
  intros F Hs HL. apply (potential_no_wrap L P (fun i => (i / L, i mod L))). intros i d Hi Hp Hq.
  pose proof (Hs i Hi Hp) as Hin. pose proof (Hs _ (nbr_site L HL i d) Hq) as Hin2.
  unfold flat_listb in F. rewrite forallb_forall in F. specialize (F i Hin). rewrite forallb_forall in F.
  specialize (F d ltac:(destruct d; simpl; auto)). apply orb_true_iff in F as [F|F].
  - exfalso. apply negb_true_iff in F. rewrite <- not_true_iff_false in F. apply F. apply existsb_exists. exists (nbr L i d). split; auto. apply Z.eqb_refl.
  - cbv zeta in F. apply andb_true_iff in F as (F1 & F2). apply Z.eqb_eq in F1, F2. rewrite F1, F2. now destruct (vadd _ _).
Qed.

Lemma place_all_end E L : env_ok E -> forall f s, Inv L s -> RunB L s -> zlen (ids s) - cur_idx s < Z.of_nat f ->
  exists n, place_all E f s = (after E s (repeat CPlace n), Ok tt) /\ zlen (ids s) - cur_idx s <= Z.of_nat n.
Proof.
  intros HE. induction f as [|f IH]; intros s I B Hf; [pose proof (rb_cur _ _ B); lia|].
  cbn [place_all]. destruct (Z.eq_dec (cur_idx s) (zlen (ids s))) as [e|Hne].
  - exists 1%nat. pose proof (runB_end E L s HE I B e) as Ep. unfold mbind. rewrite Ep. cbn [repeat]. split; [|lia].
    unfold after. cbn [fold_left exec]. now rewrite Ep.
  - destruct (runB_place E L s HE I B) as (s1 & Ep & _ & I1 & B1 & Ec & _ & Q & _); [pose proof (rb_cur _ _ B); lia|].
    destruct (seqv_eqs _ _ Q) as (_ & Ei & _). destruct (IH s1 I1 B1) as (n & En & Hn); [rewrite Ei, Ec; lia|].
    exists (S n). rewrite (mbind_ok _ _ _ _ _ Ep), En. cbn [repeat]. split; [|rewrite Ei, Ec in Hn; lia].
    unfold after. cbn [fold_left exec]. now rewrite Ep.
Qed.
Lemma repeat_placing n : Forall placing (repeat CPlace n).
Proof. apply Forall_forall. intros c Hc. apply repeat_spec in Hc. left. exact Hc. Qed.
Lemma placements_repeat n : placements (repeat CPlace n) = n.
Proof. induction n; cbn [repeat placements]; auto. Qed.

Definition config : list Z := [2; 8; 14; 19; 20; 25; 27; 28; 29; 34; 35].
Lemma nodup_config : NoDup (config ++ [26; 24]).
Proof. unfold config. cbn [app]. repeat (constructor; [cbn [In]; lia|]). constructor. Qed.
Lemma sites_config : Forall (is_site 6) (config ++ [26; 24]).
Proof. unfold config, is_site. cbn [app]. repeat (constructor; [lia|]). constructor. Qed.

Lemma p_C87_config1 E f t0 : env_ok E -> (13 <= f)%nat -> custome_lattice_config_1 E f t0 = Ok tt.
Proof.
  intros HE Hf. unfold custome_lattice_config_1. destruct (new_perc_ok E KL0 6 t0 ltac:(lia)) as (lat1 & l0 & tk & rv & E0 & _).
  match type of E0 with _ = Ok ?u => set (s0 := u) in * end. rewrite E0. cbn [rbind].
  assert (Fr : FreshState 6 s0) by (eapply new_perc_fresh; eauto).
  assert (Ek : is_L12 (kind s0) = false) by reflexivity.
  assert (R0 : exists k t0 z cs, new_perc E k 6 t0 = Ok z /\ Forall (call_ok 6) cs /\ s0 = after E z cs) by (exists KL0, t0, s0, []; auto).
  clearbody s0. clear E0. change [2; 8; 14; 19; 20; 25; 27; 28; 29; 34; 35] with config.
  assert (Nl : NoDup config) by (apply (nodup_app_l config [26; 24]), nodup_config).
  assert (Vl : Forall (is_site 6) config) by (pose proof sites_config as Q; now apply Forall_app in Q).
  destruct (set_list E 6 s0 config true Fr Ek ltac:(discriminate) Nl Vl) as (s1 & E1 & I1 & B1 & C1 & _ & Fr1 & P1 & _ & U1).
  rewrite (mbind_ok _ _ _ _ _ E1). pose proof (perm_len _ _ P1) as Len. change (zlen config) with 11 in Len.
  destruct (place_all_end E 6 HE f s1 I1 B1) as (n & En & Hn); [rewrite C1; lia|]. rewrite (mbind_ok _ _ _ _ _ En).
  destruct (follow_from E 6 s1 HE I1 B1 (repeat CPlace n) (repeat_placing n)) as (I2 & B2 & Ei2 & Ec2 & O2 & _).
  destruct (runB_history E 6 (repeat CPlace n) HE (repeat_placing n) s1 I1 B1) as (_ & _ & Q2 & _).
  assert (U2 : user_list (after E s1 (repeat CPlace n)) = ids s1).
  { destruct (seqv_eqs _ _ Q2) as (_ & _ & _ & _ & _ & _ & -> & _). exact U1. }
  assert (R2 : reachable E 6 (after E s1 (repeat CPlace n))).
  { destruct R0 as (k & tt0 & z & cs & A1 & A2 & A3). exists k, tt0, z, (cs ++ [CSetIds config true] ++ repeat CPlace n). split; auto. split.
    - apply Forall_app. split; auto. constructor; [exact Logic.I|]. apply Forall_forall. intros c Hc. apply repeat_spec in Hc. subst c. exact Logic.I.
    - unfold after in *. rewrite fold_left_app, <- A3. cbn [app fold_left exec]. now rewrite E1. }
  rewrite placements_repeat, C1 in *. set (s2 := after E s1 (repeat CPlace n)) in *.
  assert (Ec2' : cur_idx s2 = 11) by (rewrite Ec2, <- Len; cbn; lia).
  unfold mbind at 1, get. unfold mbind at 1, lift. destruct (view_ok 6 s2 3 I2) as (v2 & ->). rewrite U2.
  destruct (regrow E 6 s2 (ids s1 ++ [26; 24]) I2 B2) as (E3 & I3 & B3 & Ei3 & Ec3 & _).
  { intros Q. apply app_eq_nil in Q as (_ & Q). discriminate. }
  { eapply Permutation_NoDup; [apply Permutation_app_tail, P1|exact nodup_config]. }
  { eapply Permutation_Forall; [apply Permutation_app_tail, P1|exact sites_config]. }
  { unfold zlen in *. rewrite app_length. cbn [length]. lia. }
  { rewrite Ei2, Ec2', firstn_app. unfold zlen in Len. replace (Z.to_nat 11 - length (ids s1))%nat with O by lia. cbn [firstn]. apply app_nil_r. }
  rewrite (mbind_ok _ _ _ _ _ E3).
  assert (R3 : reachable E 6 (installed (ids s1 ++ [26; 24]) (ids s1 ++ [26; 24]) true false s2)).
  { destruct R2 as (k & tt0 & z & cs & A1 & A2 & A3). exists k, tt0, z, (cs ++ [CSetIds (ids s1 ++ [26; 24]) false]). split; auto. split.
    - apply Forall_app. split; auto. constructor; [exact Logic.I|constructor].
    - unfold after in *. rewrite fold_left_app, <- A3. cbn [fold_left exec]. now rewrite E3. }
  set (s3 := installed (ids s1 ++ [26; 24]) (ids s1 ++ [26; 24]) true false s2) in *. clearbody s3.
  assert (Len3 : zlen (ids s3) = 13) by (rewrite Ei3; unfold zlen in *; rewrite app_length; cbn [length]; lia).
  destruct f as [|[|[|f]]]; try lia. cbn [place_all].
  destruct (runB_place E 6 s3 HE I3 B3) as (s4 & E4 & F4 & I4 & B4 & Ec4 & Es4 & Q4 & _); [lia|].
  destruct (seqv_eqs _ _ Q4) as (_ & Ei4 & _).
  destruct (runB_place E 6 s4 HE I4 B4) as (s5 & E5 & F5 & I5 & B5 & Ec5 & Es5 & Q5 & _); [rewrite Ei4; lia|].
  destruct (seqv_eqs _ _ Q5) as (_ & Ei5 & _).
  pose proof (runB_end E 6 s5 HE I5 B5 ltac:(rewrite Ei5, Ei4; lia)) as E6.
  assert (R4 : reachable E 6 s4).
  { destruct R3 as (k & tt0 & z & cs & A1 & A2 & A3). exists k, tt0, z, (cs ++ [CPlace]). split; auto. split.
    - apply Forall_app. split; auto. constructor; [exact Logic.I|constructor].
    - unfold after in *. rewrite fold_left_app, <- A3. cbn [fold_left exec]. now rewrite E4. }
  unfold mbind at 1. rewrite (mbind_ok _ _ _ _ _ E4), (mbind_ok _ _ _ _ _ E5), (mbind_ok _ _ _ _ _ E6).
  change (ret tt (set_sel_flag (Some EMPTY_SITE_LIST) s5)) with (set_sel_flag (Some EMPTY_SITE_LIST) s5, @Ok unit tt). cbv iota beta.
  assert (I6 : Inv 6 (set_sel_flag (Some EMPTY_SITE_LIST) s5)) by (eapply inv_frame; [|exact I5]; reflexivity).
  unfold mbind at 1, get. unfold mbind at 1. destruct (view_ok 6 _ 3 I6) as (v6 & ->).
  assert (W4 : ~ wraps 6 (occupied s4)).
  { apply (flat_list_no_wrap 6 (config ++ [26])); [vm_compute; reflexivity| |lia]. intros i Hi Ho.
    rewrite (occupied_occ 6), (rb_occ _ _ B4), Ei4, Ei3, Ec4, Ec3, Ec2' in Ho by (auto; apply (i_static _ _ I4)).
    rewrite firstn_app in Ho. unfold zlen in Len. apply in_app_or in Ho as [Ho|Ho]; apply in_or_app.
    - left. apply (Permutation_in _ (Permutation_sym P1)). rewrite <- (firstn_skipn (Z.to_nat (11 + 1)) (ids s1)). apply in_or_app. now left.
    - right. replace (Z.to_nat (11 + 1) - length (ids s1))%nat with 1%nat in Ho by lia. exact Ho. }
  assert (W5 : wraps 6 (occupied s5)).
  { assert (Ho : forall i, is_site 6 i -> In i (config ++ [26; 24]) -> occupied s5 i).
    { intros i Hi Hin. rewrite (occupied_occ 6), (rb_occ _ _ B5), Ei5, Ei4, Ei3, Ec5, Ec4, Ec3, Ec2' by (auto; apply (i_static _ _ I5)).
      rewrite firstn_all2 by (unfold zlen in Len; rewrite app_length; cbn [length]; lia).
      apply in_app_or in Hin as [Hin|Hin]; apply in_or_app; [left|right; exact Hin]. now apply (Permutation_in _ P1). }
    exists 24, [DRight; DRight; DRight; DRight; DRight; DRight]. split; [|discriminate].
    assert (K : forall i, In i [24; 25; 26; 27; 28; 29] -> is_site 6 i /\ occupied s5 i).
    { intros i Hi. assert (is_site 6 i) by (unfold is_site; cbn [In] in Hi; lia). split; auto. apply Ho; auto. unfold config. cbn [app In] in *. lia. }
    do 6 (apply walk_cons; [apply K; cbn; tauto|apply K; cbn; tauto|]). apply walk_nil; apply K; cbn; tauto. }
  destruct (p_C84 E 6 s4 s5 HE ltac:(lia) R4 W4 E5 F5) as (b & D1 & D2 & _). apply D2 in W5. subst b.
  assert (Ed : snd (detect_wrapping (set_sel_flag (Some EMPTY_SITE_LIST) s5)) = Ok true).
  { rewrite <- D1. rewrite !(detect_ok 6) by (apply I5 || apply I6). unfold detect_res. cbn [after_wrap sel_id lat set_sel_flag].
    destruct (after_wrap s5); [reflexivity|]. destruct (sel_id s5); [|reflexivity]. destruct (hitb _ _ _); reflexivity. }
  unfold mbind at 1. destruct (detect_wrapping (set_sel_flag (Some EMPTY_SITE_LIST) s5)) as [s7 r]. cbn [snd] in Ed. subst r. reflexivity.
Qed.

Lemma p_C87_large E L f t0 : env_ok E -> 0 < L -> 5 * (L * L) < Z.of_nat f -> test_large_lattice E f L t0 = Ok tt.
Proof.
  intros HE HL Hf. unfold test_large_lattice. destruct (new_perc_ok E KSP L t0 HL) as (lat1 & l & tk & rv & E0 & _).
  match type of E0 with _ = Ok ?u => set (s0 := u) in * end. rewrite E0. cbn [rbind].
  assert (F0 : fresh_plain E KSP L s0) by (left; exists t0; exact E0). pose proof (LL_pos L HL) as HLL.
  destruct (p_C50 E L s0 f HE F0 ltac:(lia)) as (s1 & Er & A & B). rewrite (mbind_ok _ _ _ _ _ Er).
  assert (R1 : reachable E L s1).
  { exists KSP, t0, s0, [CRun f]. split; auto. split; [constructor; [exact I|constructor]|]. unfold after. cbn [fold_left exec]. now rewrite Er. }
  destruct (p_C51 E L s1 HE R1) as ((b1 & S1 & C1) & (b2 & S2 & C2) & _).
  unfold mbind, get, lift. rewrite S1, S2. destruct (Z_le_dec 3 L) as [H3|H3].
  - destruct (A H3) as (n & Hn & Ep & _ & _ & _ & (Ew & x & Ex & Hline) & _). rewrite Ep. cbn [equals_zero].
    replace (Z.of_nat n =? 0) with false by lia.
    destruct (i_sel _ _ (reachable_inv _ _ _ HE R1)) as [(Q & _)|(y & Hy & Q & _)]; [congruence|]. assert (y = x) by congruence. subst y.
    destruct Hline as [Hr|Hc].
    + replace b2 with true; [now rewrite orb_true_r|]. symmetry. apply C2. split; auto. exists (x / L). split; [|exact Hr].
      unfold is_site in Hy. split; [apply Z.div_pos; lia|apply Z.div_lt_upper_bound; lia].
    + replace b1 with true; [reflexivity|]. symmetry. apply C1. split; auto. exists (x mod L). split; [apply Z.mod_pos_bound; lia|exact Hc].
  - destruct (B ltac:(lia)) as (Ep & _). rewrite Ep. cbn [equals_zero]. rewrite Z.eqb_refl.
    pose proof (small_no_wrap L s1 (reachable_inv _ _ _ HE R1) ltac:(lia)) as Ew.
    assert (b1 = false) by (destruct b1; auto; destruct (proj1 C1 eq_refl); congruence).
    assert (b2 = false) by (destruct b2; auto; destruct (proj1 C2 eq_refl); congruence). subst. reflexivity.
Qed.

(** A run of the shortest-path class over a list that cannot wrap. *)
Lemma sp_loop_flat E L : env_ok E -> forall f s, Inv L s -> RunB L s -> ~ wraps L (fun i => In i (ids s)) -> after_wrap s = false ->
  zlen (ids s) - cur_idx s < Z.of_nat f ->
  exists t, sp_loop E f s = (t, Ok tt) /\ Inv L t /\ after_wrap t = false /\ sp_p t = sp_p s.
Proof.
  intros HE. induction f as [|f IH]; intros s I B W Ew Hf; [pose proof (rb_cur _ _ B); lia|].
  cbn [sp_loop]. destruct (Z.eq_dec (cur_idx s) (zlen (ids s))) as [e|Hne].
  - pose proof (runB_end E L s HE I B e) as Ep. rewrite (mbind_ok _ _ _ _ _ Ep). eexists. split; [reflexivity|].
    split; [eapply inv_frame; [|exact I]; reflexivity|]. split; [exact Ew|reflexivity].
  - destruct (runB_place E L s HE I B) as (s1 & Ep & Ef & I1 & B1 & Ec & Es & Q & _ & Esp); [pose proof (rb_cur _ _ B); lia|].
    destruct (seqv_eqs _ _ Q) as (_ & Ei & _). rewrite (mbind_ok _ _ _ _ _ Ep). unfold mbind at 1, get. rewrite Ef.
    pose proof (place_core E L s HE I) as (Ew1 & _). rewrite Ep in Ew1. cbn [fst] in Ew1. rewrite Ew in Ew1.
    assert (Ed : detect_wrapping s1 = (s1, Ok false)).
    { rewrite (detect_ok L) by apply I1. unfold detect_res. rewrite Ew1, Es.
      destruct (hitb L (lat s1) _) eqn:Eh; [|reflexivity]. exfalso. apply W.
      assert (Hx : is_site L (at_ 0 (ids s) (cur_idx s))).
      { pose proof (i_ids _ _ I) as Hi. rewrite Forall_forall in Hi. apply Hi. apply at_In. pose proof (rb_cur _ _ B). lia. }
      destruct (hit_wraps L (lat s1) (pool s1) _ (i_cl _ _ I1) Hx Eh) as (_ & Wx). exists (at_ 0 (ids s) (cur_idx s)). revert Wx. apply wraps_at_mono.
      intros j Hj Hoj. apply (rb_occ _ _ B1) in Hoj; auto. rewrite Ei in Hoj. rewrite <- (firstn_skipn (Z.to_nat (cur_idx s1)) (ids s)). apply in_or_app. now left. }
    rewrite (mbind_ok _ _ _ _ _ Ed). destruct (IH s1 I1 B1) as (t & Et & It & Wt & St); [now rewrite Ei|assumption|rewrite Ei, Ec; lia|].
    exists t. split; [exact Et|]. split; auto. split; auto. congruence.
Qed.
Lemma lremove_spec x l : In x l -> NoDup l -> exists l', lremove x l = Ok l' /\ NoDup l' /\ (forall y, In y l' <-> In y l /\ y <> x) /\ zlen l' = zlen l - 1.
Proof.
  intros Hx N. induction l as [|a l IH]; [contradiction|]. inversion N as [|? ? Ha Nl]; subst. cbn [lremove].
  destruct (Z.eqb_spec a x) as [->|Hax].
  - exists l. split; [reflexivity|]. split; auto. split; [|unfold zlen; cbn [length]; lia]. intros y. cbn [In]. split; [intros Hy; split; auto; congruence|].
    intros ([->|Hy] & Hne); [congruence|auto].
  - destruct Hx as [->|Hx]; [congruence|]. destruct (IH Hx Nl) as (l' & E1 & E2 & E3 & E4). exists (a :: l'). rewrite E1. split; [reflexivity|].
    split; [constructor; auto; intros Q; apply E3 in Q; tauto|]. split; [|unfold zlen in *; cbn [length]; lia].
    intros y. cbn [In]. rewrite E3. intuition congruence.
Qed.
Lemma p_C87_custom E f t0 : env_ok E -> (9 <= f)%nat -> test_custome_lattice E f t0 = Ok tt.
Proof.
  intros HE Hf. unfold test_custome_lattice. destruct (new_perc_ok E KSP 6 t0 ltac:(lia)) as (lat1 & l0 & tk & rv & E0 & _).
  match type of E0 with _ = Ok ?u => set (s0 := u) in * end. rewrite E0. cbn [rbind].
  assert (Fr : FreshState 6 s0) by (eapply new_perc_fresh; eauto).
  assert (Ek : is_L12 (kind s0) = false) by reflexivity. assert (Ekk : kind s0 = KSP) by reflexivity. assert (Esp : sp_p s0 = FZ 0) by reflexivity. clearbody s0.
  destruct (HE [15; 16; 17; 18; 19; 2; 6; 9]) as (N0 & In0). set (l := e_ord E _) in *.
  assert (Len : zlen l = 8).
  { unfold zlen. f_equal. change 8 with (Z.of_nat (length [15; 16; 17; 18; 19; 2; 6; 9])). f_equal. apply Permutation_length.
    apply NoDup_Permutation; auto. repeat (constructor; [cbn [In]; lia|]). constructor. }
  destruct (lremove_spec 15 l) as (ids0 & E1 & N1 & In1 & Len1); [apply In0; simpl; auto|exact N0|]. rewrite E1. cbn [rbind].
  assert (V1 : forall x, In x ids0 -> In x [16; 17; 18; 19; 2; 6; 9]).
  { intros x Hx. apply In1 in Hx as (Hx & Hne). apply In0 in Hx. cbn [In] in *. lia. }
  assert (Vl : Forall (is_site 6) ids0) by (apply Forall_forall; intros x Hx; apply V1 in Hx; cbn [In] in Hx; unfold is_site; lia).
  assert (Hne : ids0 <> []) by (intros ->; unfold zlen in *; cbn [length] in *; lia).
  destruct (set_list E 6 s0 ids0 false Fr Ek Hne N1 Vl) as (s1 & Es & I1 & B1 & C1 & K1 & Fr1 & P1 & Ei1 & _). specialize (Ei1 eq_refl).
  assert (Sp1 : sp_p s1 = FZ 0).
  { rewrite <- Esp. pose proof Es as Q. rewrite (set_ids_ok E 6), all_siteb in Q by (auto; apply (fr_static _ _ (fs_lat _ _ Fr))).
    destruct ids0; [congruence|]. rewrite shuffle_none in Q. injection Q as <-. reflexivity. }
  rewrite (mbind_ok _ _ _ _ _ Es).
  destruct (sp_loop_flat E 6 HE f s1 I1 B1) as (t & Et & It & Wt & St).
  { apply (flat_list_no_wrap 6 [16; 17; 18; 19; 2; 6; 9]); [|intros i Hi Hin; rewrite Ei1 in Hin; now apply V1|lia]. vm_compute. reflexivity. }
  { apply (fs_wrap _ _ Fr1). }
  { rewrite Ei1, C1. lia. }
  assert (Er : run_once E f s1 = (set_first_run false t, Ok tt)).
  { unfold run_once. rewrite (mbind_ok _ _ s1 s1 s1) by reflexivity. rewrite K1, Ekk. unfold sp_run_once. rewrite (mbind_ok _ _ _ _ _ Et). reflexivity. }
  rewrite (mbind_ok _ _ _ _ _ Er). assert (It' : Inv 6 (set_first_run false t)) by (eapply inv_frame; [|exact It]; reflexivity).
  assert (Ew : wid (set_first_run false t) = -1).
  { pose proof (i_wrap _ _ It') as W. unfold WrapOK in W. change (after_wrap (set_first_run false t)) with (after_wrap t) in W. rewrite Wt in W. apply W. }
  unfold mbind, get, lift. destruct (view_ok 6 _ 2 It') as (v1 & ->). destruct (view_ok 6 _ 3 It') as (v2 & ->).
  unfold scan_all_rows, scan_all_cols. rewrite Ew. cbn [Z.ltb Z.compare]. change (sp_p (set_first_run false t)) with (sp_p t). rewrite St, Sp1. reflexivity.
Qed.

Lemma place_all_err E s0 L : (forall cs, Forall placing cs ->
     (snd (place_one_site E (after E s0 cs)) = Ok true \/ place_one_site E (after E s0 cs) = (after E s0 cs, Err ValueError)) /\
     (6 * (L * L) <= Z.of_nat (placements cs) -> place_one_site E (after E s0 cs) = (after E s0 cs, Err ValueError))) ->
  forall f n, 6 * (L * L) < Z.of_nat (f + n) -> snd (place_all E f (after E s0 (repeat CPlace n))) = Err ValueError \/ (f = 0)%nat /\ 6 * (L * L) < Z.of_nat n.
Proof.
  intros H. induction f as [|f IH]; intros n Hf; [right; split; auto; lia|]. left. cbn [place_all].
  destruct (H (repeat CPlace n) (repeat_placing n)) as (A & B). rewrite placements_repeat in B.
  destruct A as [A|A]; [|unfold mbind; now rewrite A].
  destruct (Z_le_dec (6 * (L * L)) (Z.of_nat n)) as [Hn|Hn]; [rewrite (B Hn) in A; discriminate|].
  unfold mbind. destruct (place_one_site E (after E s0 (repeat CPlace n))) as [t r] eqn:Ep. cbn [snd] in A. subst r.
  assert (Et : t = after E s0 (repeat CPlace (S n))).
  { change (repeat CPlace (S n)) with (CPlace :: repeat CPlace n). rewrite repeat_cons. unfold after in *. rewrite fold_left_app. cbn [fold_left exec]. now rewrite Ep. }
  rewrite Et. destruct (IH (S n)) as [Q|(Q & Q2)]; [lia|exact Q|lia].
Qed.
Lemma p_C87_config2 E k f t0 : env_ok E -> (217 <= f)%nat ->
  custome_lattice_config_2 E f k t0 = match k with KL1 | KL2 => Err ValueError | _ => Ok tt end.
Proof.
  intros HE Hf. unfold custome_lattice_config_2. destruct (new_perc_ok E k 6 t0 ltac:(lia)) as (lat1 & l0 & tk & rv & E0 & _).
  match type of E0 with _ = Ok ?u => set (s0 := u) in * end. rewrite E0. cbn [rbind].
  assert (Fr : FreshState 6 s0) by (eapply new_perc_fresh; eauto). assert (Ek : kind s0 = k) by reflexivity.
  assert (F0 : fresh_object E k 6 s0) by (left; exists t0; exact E0). clearbody s0. clear E0.
  change [2; 8; 14; 19; 20; 25; 27; 28; 29; 34; 35; 26] with (config ++ [26]).
  assert (Nl : NoDup (config ++ [26])) by (apply (nodup_app_l (config ++ [26]) [24]); rewrite <- app_assoc; apply nodup_config).
  assert (Vl : Forall (is_site 6) (config ++ [26])) by (pose proof sites_config as Q; change [26; 24] with ([26] ++ [24]) in Q; rewrite app_assoc in Q; now apply Forall_app in Q).
  destruct (is_L12 k) eqn:E12.
  - assert (Hk : k = KL1 \/ k = KL2) by (destruct k; auto; discriminate).
    destruct (p_C44 E k 6 s0 (config ++ [26]) true HE Hk F0) as (A & B & _); [discriminate|exact Vl|cbn; lia|].
    transitivity (@Err unit ValueError); [|destruct Hk as [-> | ->]; reflexivity].
    destruct (set_custome_site_id_list E (config ++ [26]) true s0) as [s1 r] eqn:E1. cbn [fst snd] in *. subst r. rewrite (mbind_ok _ _ _ _ _ E1).
    destruct (place_all_err E s1 6 B f 0) as [Q|(Q & _)]; [lia| |lia]. cbn [repeat] in Q. change (after E s1 []) with s1 in Q.
    unfold mbind at 1. destruct (place_all E f s1) as [s2 r]. cbn [snd] in Q. subst r. reflexivity.
  - rewrite <- Ek in E12. destruct (set_list E 6 s0 (config ++ [26]) true Fr E12 ltac:(discriminate) Nl Vl) as (s1 & E1 & I1 & B1 & C1 & _ & _ & P1 & _).
    rewrite (mbind_ok _ _ _ _ _ E1). pose proof (perm_len _ _ P1) as Len. change (zlen (config ++ [26])) with 12 in Len.
    destruct (place_all_end E 6 HE f s1 I1 B1) as (n & En & Hn); [rewrite C1; lia|]. rewrite (mbind_ok _ _ _ _ _ En).
    destruct (follow_from E 6 s1 HE I1 B1 (repeat CPlace n) (repeat_placing n)) as (I2 & _).
    unfold mbind, get, lift. destruct (view_ok 6 _ 3 I2) as (v & ->). rewrite Ek in E12. destruct k; try discriminate; reflexivity.
Qed.
