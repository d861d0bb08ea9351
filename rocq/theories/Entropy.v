(** * Entropy: the running entropy in exact arithmetic (C17-C19). *)
From Coq Require Import ZArith List Bool Lia Permutation Reals Lra.
From Verif Require Import Py Lattice Cluster Perc Spec PyFacts Torus Geometry LatFacts Inv Merge Count Fresh Select State Step History Reach Micro StateProps StateProps2 RunProps CandRun Normal Real.
Import ListNotations.
Open Scope Z_scope.

(** ** Sums *)
Lemma rsum_ext f g l : (forall x, In x l -> f x = g x) -> rsum f l = rsum g l.
Proof.
  induction l as [|a l IH]; intros H; [reflexivity|]. cbn [rsum fold_right]. rewrite (H a) by (now left). f_equal. apply IH. intros; apply H; now right.
Qed.
Lemma rsum_cons f a l : rsum f (a :: l) = (f a + rsum f l)%R.
Proof. reflexivity. Qed.
Lemma rsum_app f l l' : rsum f (l ++ l') = (rsum f l + rsum f l')%R.
Proof. induction l as [|a l IH]; [change (rsum f l' = 0 + rsum f l')%R; lra|]. rewrite <- app_comm_cons, !rsum_cons, IH. lra. Qed.
Lemma rsum_perm f l l' : Permutation l l' -> rsum f l = rsum f l'.
Proof.
  induction 1 as [|x l l' P IH|x y l|l m n P1 I1 P2 I2]; rewrite ?rsum_cons; [reflexivity|lra|lra|congruence].
Qed.
Lemma rsum_0 f l : (forall x, In x l -> f x = 0%R) -> rsum f l = 0%R.
Proof.
  induction l as [|a l IH]; intros H; [reflexivity|]. rewrite rsum_cons, (H a) by (now left). rewrite IH; [lra|]. intros; apply H; now right.
Qed.
Lemma rsum_le f g l : (forall x, In x l -> (f x <= g x)%R) -> (rsum f l <= rsum g l)%R.
Proof.
  induction l as [|a l IH]; intros H; [cbn; lra|]. rewrite !rsum_cons.
  assert (f a <= g a)%R by (apply H; now left). assert (rsum f l <= rsum g l)%R by (apply IH; intros; apply H; now right). lra.
Qed.
Lemma rsum_scale f k l : rsum (fun x => (f x * k)%R) l = (rsum f l * k)%R.
Proof. induction l as [|a l IH]; [cbn; lra|]. rewrite !rsum_cons, IH. lra. Qed.
Lemma rsum_IZR f d l : rsum (fun x => (IZR (f x) / d)%R) l = (IZR (zsum (map f l)) / d)%R.
Proof.
  induction l as [|a l IH]; [cbn; unfold Rdiv; lra|]. cbn [map]. rewrite zsum_cons, plus_IZR.
  change (rsum (fun x => (IZR (f x) / d)%R) (a :: l)) with (IZR (f a) / d + rsum (fun x => (IZR (f x) / d)%R) l)%R. rewrite IH. unfold Rdiv. lra.
Qed.
Lemma split_perm K R : NoDup K -> NoDup R -> (forall x, In x K -> In x R) ->
  Permutation R (K ++ filter (fun x => negb (zmem x K)) R).
Proof.
  intros NK NR HI. apply NoDup_Permutation; auto.
  - apply NoDup_app_disjoint; auto; [now apply NoDup_filter|]. intros x Hx. rewrite filter_In. intros (_ & Hf).
    apply zmem_In in Hx. rewrite Hx in Hf. discriminate.
  - intros x. rewrite in_app_iff, filter_In. split.
    + intros Hx. destruct (zmem x K) eqn:E; [left; now apply zmem_In|right; auto].
    + intros [Hx|(Hx & _)]; auto.
Qed.

(** ** The function mu log mu *)
Lemma Rdiv_diag x : (x <> 0)%R -> (x / x = 1)%R.
Proof. intros. unfold Rdiv. now apply Rinv_r. Qed.
Definition phi (B n : Z) : R := (IZR n / IZR B * ln (IZR n / IZR B))%R.
Lemma phi_0 B : phi B 0 = 0%R.
Proof. unfold phi, Rdiv. lra. Qed.
Lemma phi_full B : 0 < B -> phi B B = 0%R.
Proof. intros HB. unfold phi. rewrite Rdiv_diag, ln_1 by (apply not_0_IZR; lia). lra. Qed.
Lemma share_pos B n : 0 < B -> 0 < n -> (0 < IZR n / IZR B)%R.
Proof. intros. apply Rdiv_lt_0_compat; now apply IZR_lt. Qed.
Lemma ln_le_mono x y : (0 < x)%R -> (x <= y)%R -> (ln x <= ln y)%R.
Proof. intros Hx [H|H]; [left; now apply ln_increasing|subst; right; reflexivity]. Qed.
Lemma ln_share_mono B a b : 0 < B -> 0 < a <= b -> (ln (IZR a / IZR B) <= ln (IZR b / IZR B))%R.
Proof.
  intros HB Hab. apply ln_le_mono; [apply share_pos; lia|]. unfold Rdiv. apply Rmult_le_compat_r; [|apply IZR_le; lia].
  left. apply Rinv_0_lt_compat. now apply IZR_lt.
Qed.
Lemma phi_le B a b : 0 < B -> 0 <= a <= b -> (phi B a <= IZR a / IZR B * ln (IZR b / IZR B))%R.
Proof.
  intros HB Hab. destruct (Z.eq_dec a 0) as [->|Ha]; [rewrite phi_0; unfold Rdiv; lra|]. unfold phi.
  apply Rmult_le_compat_l; [left; apply share_pos; lia|]. apply ln_share_mono; lia.
Qed.
Lemma phi_nonpos B n : 0 < B -> 0 <= n <= B -> (phi B n <= 0)%R.
Proof.
  intros HB Hn. pose proof (phi_le B n B HB Hn) as H. rewrite Rdiv_diag, ln_1 in H by (apply not_0_IZR; lia). lra.
Qed.
Lemma phi_ge B n : 0 < B -> 0 <= n -> (- (IZR n / IZR B * ln (IZR B)) <= phi B n)%R.
Proof.
  intros HB Hn. destruct (Z.eq_dec n 0) as [->|H0]; [rewrite phi_0; unfold Rdiv; lra|]. unfold phi.
  replace (- (IZR n / IZR B * ln (IZR B)))%R with (IZR n / IZR B * - ln (IZR B))%R by lra.
  apply Rmult_le_compat_l; [left; apply share_pos; lia|].
  unfold Rdiv. rewrite ln_mult, ln_Rinv; [|now apply IZR_lt|apply IZR_lt; lia|apply Rinv_0_lt_compat; now apply IZR_lt].
  assert (0 <= ln (IZR n))%R by (rewrite <- ln_1; apply ln_le_mono; [lra|apply IZR_le; lia]). lra.
Qed.

(** ** The running value *)
Definition hh (L : Z) (s : perc) : R := (- rsum (fun c => phi (2 * (L * L)) (bsize (pool s) c)) (zrange (2 * (L * L))))%R.
Lemma feval_fterm L n : feval (fterm L n) = phi (2 * (L * L)) n.
Proof. reflexivity. Qed.
Lemma feval_sum L b l e : feval (fold_left (fun h g => FAdd h (fterm L (b g))) l e) = (feval e + rsum (fun g => phi (2 * (L * L)) (b g)) l)%R.
Proof.
  revert e. induction l as [|a l IH]; intros e; [cbn; lra|]. cbn [fold_left]. rewrite IH, rsum_cons.
  change (feval (FAdd e (fterm L (b a)))) with (feval e + phi (2 * (L * L)) (b a))%R. lra.
Qed.
Lemma shannon_hh L s : Inv L s -> shannon L s = hh L s.
Proof.
  intros H. unfold shannon, hh. f_equal. apply rsum_ext. intros c Hc. apply In_zrange in Hc. unfold bond_share, phi.
  rewrite (cluster_bonds_cl L) by (auto; now apply inv_plen). unfold bsize, zlen. rewrite <- INR_IZR_INZ. reflexivity.
Qed.
Lemma v1_hh L s v : Inv L s -> entropy_v1 s = Ok v -> feval v = hh L s.
Proof.
  intros H. rewrite (entropy_v1_ok L) by auto. intros [= <-]. cbn [feval]. unfold hh. f_equal.
  assert (G : forall l e, feval (fold_left (fun h c => if bsize (pool s) c =? 0 then h else FAdd h (fterm L (bsize (pool s) c))) l e) =
    (feval e + rsum (fun c => phi (2 * (L * L)) (bsize (pool s) c)) l)%R).
  { induction l as [|a l IH]; intros e; [cbn; lra|]. cbn [fold_left]. rewrite IH.
    change (rsum (fun c => phi (2 * (L * L)) (bsize (pool s) c)) (a :: l)) with
      (phi (2 * (L * L)) (bsize (pool s) a) + rsum (fun c => phi (2 * (L * L)) (bsize (pool s) c)) l)%R.
    destruct (Z.eqb_spec (bsize (pool s) a) 0) as [->|]; [rewrite phi_0; lra|]. cbn [feval]. rewrite feval_fterm. lra. }
  rewrite G. apply Rplus_0_l.
Qed.
Lemma bsize_nonneg p c : 0 <= bsize p c.
Proof. unfold bsize. apply zlen_nonneg. Qed.

Lemma placed_hh E L s x s' root : env_ok E -> ClOK L (lat s) (pool s) -> Placed E L s x s' root ->
  let K := e_ord E (nb_labels L x (lat s)) in
  hh L s' = (hh L s + rsum (fun g => phi (2 * (L * L)) (bsize (pool s) g)) K - phi (2 * (L * L)) (bsize (pool s') root))%R /\
  bsize (pool s') root = zsum (map (bsize (pool s)) K) /\ NoDup K.
Proof.
  intros HE C Pd K. destruct (HE (nb_labels L x (lat s))) as (NK & HK). fold K in NK, HK.
  pose proof (st_pos _ _ (ck_static _ _ _ C)) as HL.
  assert (Hlab : forall g, In g K -> is_label L g).
  { intros g Hg. apply HK in Hg. destruct (nb_label_bond L x (lat s) g HL (pd_site _ _ _ _ _ _ Pd) Hg) as (b & Hb & _ & ->). apply (ck_blab _ _ _ C b Hb). }
  assert (Hroot : In root K) by (apply HK, (pd_root _ _ _ _ _ _ Pd)).
  split; [|split; auto]. 2:{ apply (pd_bsize_sum E L s x s' root C Pd); auto. }
  set (R := zrange (2 * (L * L))). assert (P : Permutation R (K ++ filter (fun x => negb (zmem x K)) R)).
  { apply split_perm; auto; [apply NoDup_zrange|]. intros g Hg. apply In_zrange. now apply Hlab. }
  unfold hh. fold R. rewrite (rsum_perm _ _ _ P), rsum_app. rewrite (rsum_perm (fun c => phi _ (bsize (pool s) c)) _ _ P), rsum_app.
  assert (E1 : rsum (fun c => phi (2 * (L * L)) (bsize (pool s') c)) (filter (fun x => negb (zmem x K)) R) =
               rsum (fun c => phi (2 * (L * L)) (bsize (pool s) c)) (filter (fun x => negb (zmem x K)) R)).
  { apply rsum_ext. intros c Hc. apply filter_In in Hc as (Hc & Hf). apply In_zrange in Hc. f_equal.
    apply (pd_bsize_other E L s x s' root C Pd); auto. apply zmem_false. intros Hin. apply HK in Hin. apply zmem_In in Hin. rewrite Hin in Hf. discriminate. }
  assert (P2 : Permutation K ([root] ++ filter (fun x => negb (zmem x [root])) K)).
  { apply split_perm; auto; [repeat constructor; intros []|]. intros g [<-|[]]. exact Hroot. }
  assert (E2 : rsum (fun c => phi (2 * (L * L)) (bsize (pool s') c)) K = phi (2 * (L * L)) (bsize (pool s') root)).
  { rewrite (rsum_perm _ _ _ P2), rsum_app. rewrite (rsum_0 _ (filter _ _)); [cbn; lra|]. intros c Hc. apply filter_In in Hc as (Hc & Hf).
    rewrite (pd_bsize_merged E L s x s' root Pd); [apply phi_0|now apply Hlab| |].
    - apply zmem_In. now apply HK.
    - intros ->. rewrite (proj2 (zmem_In root [root]) (or_introl eq_refl)) in Hf. discriminate. }
  rewrite E1, E2. lra.
Qed.
Lemma placed_ent E L s x s' root : env_ok E -> ClOK L (lat s) (pool s) -> Placed E L s x s' root ->
  feval (ent s) = hh L s -> feval (ent s') = hh L s'.
Proof.
  intros HE C Pd He. destruct (placed_hh E L s x s' root HE C Pd) as (-> & _). rewrite (pd_ent _ _ _ _ _ _ Pd). cbn [feval].
  rewrite feval_sum, feval_fterm. cbn [feval]. lra.
Qed.
Definition EntOK (L : Z) (s : perc) : Prop := feval (ent s) = hh L s.
Lemma fresh_ent L s : FreshState L s -> EntOK L s.
Proof.
  intros F. pose proof (fresh_inv _ _ F) as H. pose proof (LL_pos L (i_pos _ _ H)) as HLL. unfold EntOK. rewrite (fs_ent _ _ F). cbn [feval].
  unfold hh. set (B := 2 * (L * L)).
  assert (E1 : forall c, is_label L c -> bsize (pool s) c = 1).
  { intros c Hc. rewrite (bsize_count L (lat s)) by (auto; apply H).
    rewrite (count_ext _ (fun b => b =? c)) by (intros b Hb; apply In_zrange in Hb; now rewrite (fr_bond _ _ (fs_lat _ _ F) b Hb)).
    rewrite (count_add1 (fun _ => false) _ _ c (NoDup_zrange _)); [now rewrite count_none|now apply In_zrange|reflexivity|]. intros b _. now rewrite orb_false_r. }
  rewrite (rsum_ext _ (fun c => IZR 1 / IZR B * ln (/ IZR B))%R).
  - rewrite rsum_scale, (rsum_IZR (fun _ => 1)).
    assert (Hs : zsum (map (fun _ => 1) (zrange B)) = B).
    { transitivity (zlen (zrange B)); [|apply zlen_zrange; unfold B; lia]. generalize (zrange B). induction l as [|a l IH]; [reflexivity|]. cbn [map]. rewrite zsum_cons, IH, zlen_cons. lia. }
    rewrite Hs, Rdiv_diag, ln_Rinv by (apply IZR_lt || apply not_0_IZR; unfold B; lia). lra.
  - intros c Hc. apply In_zrange in Hc. unfold phi. rewrite E1 by exact Hc. f_equal. unfold Rdiv. now rewrite Rmult_1_l.
Qed.
Lemma hh_frame L s s' : pool s' = pool s -> hh L s' = hh L s.
Proof. intros E1. unfold hh. now rewrite E1. Qed.
Lemma micro_ent E L s s' : env_ok E -> Inv L s -> micro E L s s' -> EntOK L s -> EntOK L s'.
Proof.
  intros HE H M He. unfold EntOK in *. destruct M as [s s' Hp|s s' r Sd _|s s1 x s' root Sd E1 E2 Pd|s x Hx Es Ew Hh].
  - pose proof (f_equal ent Hp) as A. pose proof (f_equal pool Hp) as B. change (ent s' = ent s) in A. change (pool s' = pool s) in B.
    rewrite A, (hh_frame L s s') by auto. exact He.
  - assert (A : ent s' = ent s) by exact (f_equal ent (sd_core _ _ _ _ Sd)). assert (B : pool s' = pool s) by exact (f_equal pool (sd_core _ _ _ _ Sd)).
    rewrite A, (hh_frame L s s') by auto. exact He.
  - assert (A : ent s1 = ent s) by exact (f_equal ent (sd_core _ _ _ _ Sd)). assert (B : pool s1 = pool s) by exact (f_equal pool (sd_core _ _ _ _ Sd)).
    apply (placed_ent E L s1 x s' root HE); auto.
    + rewrite B. eapply ClOK_same; [apply H|apply (sd_lab _ _ _ _ Sd)].
    + rewrite A, (hh_frame L s s1) by auto. exact He.
  - exact He.
Qed.
Lemma reachable_ent E L s : env_ok E -> reachable E L s -> Inv L s /\ EntOK L s.
Proof.
  intros HE HR. split; [now apply (reachable_inv E)|]. revert s HR. apply reach_ind; auto; [apply fresh_ent|].
  intros s s' H _ M. now apply micro_ent with E.
Qed.

Lemma run_reachable E k L s f s' : fresh_object E k L s -> fst (run_once E f s) = s' -> reachable E L s'.
Proof.
  intros [(t0 & E0)|(s0 & (t0 & z & cs & A1 & A2 & ->) & ->)] <-; exists k, t0.
  - exists s, [CRun f]. split; auto. split; auto. constructor; auto. exact I.
  - exists z, (cs ++ [CReset; CRun f]). split; auto. split; [apply Forall_app; split; auto; repeat constructor|]. unfold after. now rewrite fold_left_app.
Qed.

(** ** C17-C19 *)
Lemma p_C17 E L s : env_ok E -> reachable E L s ->
  feval (entropy_v2 s) = shannon L s /\ exists v, entropy_v1 s = Ok v /\ feval v = shannon L s.
Proof.
  intros HE HR. destruct (reachable_ent E L s HE HR) as (H & He). rewrite (shannon_hh L) by auto. split; [exact He|].
  destruct (entropy_v1 s) as [v|e] eqn:Ev; [|rewrite (entropy_v1_ok L) in Ev by auto; discriminate]. exists v. split; auto. now apply (v1_hh L).
Qed.
Lemma hh_bounds L s : Inv L s -> (0 <= hh L s <= ln (IZR (2 * (L * L))))%R.
Proof.
  intros H. pose proof (LL_pos L (i_pos _ _ H)) as HLL. set (B := 2 * (L * L)) in *.
  assert (Hsum : zsum (map (bsize (pool s)) (zrange B)) = B).
  { rewrite (zsum_map_ext _ (fun c => count (fun b => bg (lat s) b =? c) (zrange B))).
    - rewrite count_sum by apply NoDup_zrange. rewrite count_all, zlen_zrange; [auto|unfold B; lia|].
      intros b Hb. apply In_zrange in Hb. apply zmem_In, In_zrange. apply (ck_blab _ _ _ (i_cl _ _ H) b Hb).
    - intros c Hc. apply In_zrange in Hc. apply bsize_count; auto. apply H. }
  unfold hh. fold B. split.
  - assert (rsum (fun c => phi B (bsize (pool s) c)) (zrange B) <= 0)%R; [|lra].
    rewrite <- (rsum_0 (fun _ => 0%R) (zrange B)) by auto. apply rsum_le. intros c Hc. apply phi_nonpos; [unfold B; lia|].
    split; [apply bsize_nonneg|]. rewrite <- Hsum. apply zsum_ge_in; [|now apply in_map]. intros y Hy. apply in_map_iff in Hy as (g' & <- & _). apply bsize_nonneg.
  - assert (rsum (fun c => (IZR (bsize (pool s) c) / IZR B * (- ln (IZR B)))%R) (zrange B) <= rsum (fun c => phi B (bsize (pool s) c)) (zrange B))%R.
    { apply rsum_le. intros c Hc. pose proof (phi_ge B (bsize (pool s) c) ltac:(unfold B; lia) (bsize_nonneg _ _)). lra. }
    rewrite rsum_scale, rsum_IZR, Hsum, Rdiv_diag in H0 by (apply not_0_IZR; unfold B; lia). lra.
Qed.
Lemma hh_full L s : Inv L s -> (forall i, is_site L i -> occupied s i) -> hh L s = 0%R.
Proof.
  intros H Ho. pose proof (all_occ_nocc L s H Ho) as Hn. pose proof (LL_pos L (i_pos _ _ H)) as HLL.
  destruct (full_one L (lat s) (pool s) (i_cl _ _ H) Hn) as (c & Hc & _ & _ & Sb & _ & Hz). unfold hh. rewrite rsum_0; [lra|].
  intros g Hg. apply In_zrange in Hg. destruct (Z.eq_dec g c) as [->|Hne]; [rewrite Sb; apply phi_full; lia|].
  destruct (Hz g Hg Hne) as (-> & _). apply phi_0.
Qed.
Lemma p_C18 E L s : env_ok E -> reachable E L s ->
  (0 <= feval (entropy_v2 s) <= ln (IZR (2 * (L * L))))%R /\
  (forall k, fresh_object E k L s -> feval (entropy_v2 s) = ln (IZR (2 * (L * L)))) /\
  ((forall i, is_site L i -> occupied s i) -> feval (entropy_v2 s) = 0%R).
Proof.
  intros HE HR. destruct (reachable_ent E L s HE HR) as (H & He). unfold EntOK, entropy_v2 in *. split; [|split].
  - rewrite He. now apply hh_bounds.
  - intros k HF. destruct (fresh_object_state E k L s HE HF) as (F & _). now rewrite (fs_ent _ _ F).
  - intros Ho. rewrite He. now apply hh_full.
Qed.
(** How the entropy and the partition of the bonds evolve. *)
Definition joined (L : Z) (s : perc) (b b' : Z) : Prop := bg (lat s) b = bg (lat s) b'.
Definition coarser (L : Z) (s t : perc) : Prop :=
  (forall b b', is_bond L b -> is_bond L b' -> joined L s b b' -> joined L t b b') /\
  ((hh L t = hh L s /\ forall b b', is_bond L b -> is_bond L b' -> joined L t b b' -> joined L s b b') \/
   ((hh L t < hh L s)%R /\ exists b b', is_bond L b /\ is_bond L b' /\ joined L t b b' /\ ~ joined L s b b')).
Lemma coarser_refl L s t : lat t = lat s -> pool t = pool s -> coarser L s t.
Proof.
  intros E1 E2. split; unfold joined; rewrite E1; auto. left. split; auto. now apply hh_frame.
Qed.
Lemma coarser_trans L s t u : coarser L s t -> coarser L t u -> coarser L s u.
Proof.
  intros (A1 & A2) (B1 & B2). split; auto. destruct A2 as [(A2 & A3)|(A2 & b & b' & A3 & A4 & A5 & A6)]; destruct B2 as [(B2 & B3)|(B2 & c & c' & B3 & B4 & B5 & B6)].
  - left. split; [lra|auto].
  - right. split; [lra|]. exists c, c'. auto 12.
  - right. split; [lra|]. exists b, b'. auto 12.
  - right. split; [lra|]. exists b, b'. auto 12.
Qed.
Lemma rsum_lt f g l x : (forall x, In x l -> (f x <= g x)%R) -> In x l -> (f x < g x)%R -> (rsum f l < rsum g l)%R.
Proof.
  induction l as [|a l IH]; intros H Hin Hx; [destruct Hin|]. rewrite !rsum_cons.
  assert (Ha : (f a <= g a)%R) by (apply H; now left). assert (Hl : (rsum f l <= rsum g l)%R) by (apply rsum_le; intros; apply H; now right).
  destruct Hin as [->|Hin]; [lra|]. assert (rsum f l < rsum g l)%R by (apply IH; auto; intros; apply H; now right). lra.
Qed.
Lemma phi_lt B a b : 0 < B -> 0 < a < b -> (phi B a < IZR a / IZR B * ln (IZR b / IZR B))%R.
Proof.
  intros HB Hab. unfold phi. apply Rmult_lt_compat_l; [apply share_pos; lia|]. apply ln_increasing; [apply share_pos; lia|].
  unfold Rdiv. apply Rmult_lt_compat_r; [apply Rinv_0_lt_compat; now apply IZR_lt|apply IZR_lt; lia].
Qed.
Lemma placed_coarser E L s x s' root : env_ok E -> ClOK L (lat s) (pool s) -> Placed E L s x s' root -> coarser L s s'.
Proof.
  intros HE C Pd. destruct (placed_hh E L s x s' root HE C Pd) as (Eh & Es & NK). pose proof (st_pos _ _ (ck_static _ _ _ C)) as HL. pose proof (LL_pos L HL) as HLL.
  set (K := e_ord E (nb_labels L x (lat s))) in *. destruct (HE (nb_labels L x (lat s))) as (_ & HK). fold K in HK.
  set (B := 2 * (L * L)) in *. set (N := bsize (pool s') root) in *.
  assert (Hbg : forall b, is_bond L b -> bg (lat s') b = if zmem (bg (lat s) b) (nb_labels L x (lat s)) then root else bg (lat s) b) by (intros b Hb; now apply (pd_bg _ _ _ _ _ _ Pd)).
  split; [intros b b' Hb Hb' Hj; unfold joined in *; rewrite !Hbg by auto; now rewrite Hj|].
  assert (Hroot : In root K) by (apply HK, (pd_root _ _ _ _ _ _ Pd)).
  assert (Hone : (forall g, In g K -> g = root) \/ exists g, In g K /\ g <> root).
  { clear - NK. induction K as [|a K IH]; [left; intros g []|]. inversion NK; subst. destruct (Z.eq_dec a root) as [->|Hn]; [|right; exists a; split; [now left|auto]].
    destruct IH as [IH|(g & G1 & G2)]; auto; [left; intros g [<-|Hg]; auto|right; exists g; split; [now right|auto]]. }
  destruct Hone as [Hone|(g & Hg & Hne)].
  - left. split.
    + assert (EK : K = [root]).
      { destruct K as [|a [|b K']]; [destruct Hroot|f_equal; apply Hone; now left|]. exfalso. inversion NK; subst. apply H1.
        rewrite (Hone a), <- (Hone b); [now left|right; now left|now left]. }
      rewrite EK in Es. cbn in Es. rewrite Z.add_0_r in Es. rewrite Eh, EK, Es. cbn [rsum fold_right]. lra.
    + intros b b' Hb Hb'. unfold joined. rewrite !Hbg by auto.
      assert (Hz : forall g, zmem g (nb_labels L x (lat s)) = true -> g = root) by (intros g Hz; apply Hone, HK, zmem_In, Hz).
      destruct (zmem (bg (lat s) b) _) eqn:Z1; destruct (zmem (bg (lat s) b') _) eqn:Z2; intros Hj; auto.
      * now rewrite (Hz _ Z1), (Hz _ Z2).
      * now rewrite (Hz _ Z1).
      * now rewrite (Hz _ Z2).
  - right.
    destruct (nb_label_bond L x (lat s) g HL (pd_site _ _ _ _ _ _ Pd) (proj1 (HK g) Hg)) as (b & Hb & _ & Eb).
    destruct (nb_label_bond L x (lat s) root HL (pd_site _ _ _ _ _ _ Pd) (pd_root _ _ _ _ _ _ Pd)) as (b' & Hb' & _ & Eb').
    split.
    + rewrite Eh. assert (rsum (fun g => phi B (bsize (pool s) g)) K < phi B N)%R; [|lra].
      assert (E3 : (rsum (fun g => IZR (bsize (pool s) g) / IZR B * ln (IZR N / IZR B)) K = phi B N)%R) by (rewrite rsum_scale, rsum_IZR, <- Es; reflexivity).
      rewrite <- E3. apply (rsum_lt _ _ _ g); auto.
      * intros c Hc. apply phi_le; [unfold B; lia|]. split; [apply bsize_nonneg|]. rewrite Es. apply zsum_ge_in.
        -- intros y Hy. apply in_map_iff in Hy as (g' & <- & _). apply bsize_nonneg.
        -- now apply in_map.
      * apply phi_lt; [unfold B; lia|]. split.
        -- rewrite (bsize_count L (lat s)); auto. 2:{ rewrite Eb. now apply (ck_blab _ _ _ C). }
           pose proof (count_pos (fun b0 => bg (lat s) b0 =? g) (zrange (2 * (L * L))) b (proj2 (In_zrange _ _) Hb) ltac:(now apply Z.eqb_eq)). lia.
        -- apply (pd_bsize_gt E L s x s' root C Pd); auto. now apply HK.
    + exists b, b'. split; auto. split; auto. unfold joined. rewrite !Hbg by auto. rewrite <- Eb, <- Eb'. split; auto.
      now rewrite (proj2 (zmem_In _ _) (proj1 (HK _) Hg)), (proj2 (zmem_In _ _) (proj1 (HK _) Hroot)).
Qed.
Lemma sel_coarser L s s' r : Selected L s s' r -> coarser L s s'.
Proof.
  intros Sd. assert (B : pool s' = pool s) by exact (f_equal pool (sd_core _ _ _ _ Sd)).
  assert (G : forall b, is_bond L b -> bg (lat s') b = bg (lat s) b) by (intros b Hb; apply (same_labels_bg L _ _ b (sd_lab _ _ _ _ Sd))).
  split; unfold joined; [intros b b' Hb Hb'; now rewrite !G|]. left. split; [now apply hh_frame|]. intros b b' Hb Hb'. now rewrite !G.
Qed.
Lemma micro_coarser E L s s' : env_ok E -> Inv L s -> micro E L s s' -> coarser L s s'.
Proof.
  intros HE H M. destruct M as [s s' Hp|s s' r Sd _|s s1 x s' root Sd E1 E2 Pd|s x Hx Es Ew Hh].
  - apply coarser_refl; [exact (f_equal lat Hp)|exact (f_equal pool Hp)].
  - apply sel_coarser with r; auto.
  - apply coarser_trans with s1; [now apply sel_coarser with (Ok SUCESS)|]. apply (placed_coarser E L s1 x s' root HE); auto.
    rewrite (f_equal pool (sd_core _ _ _ _ Sd) : pool s1 = pool s). eapply ClOK_same; [apply H|apply (sd_lab _ _ _ _ Sd)].
  - apply coarser_refl; reflexivity.
Qed.
Lemma steps_coarser E L s a : env_ok E -> steps E L s a -> coarser L s a.
Proof.
  intros HE S. induction S as [|s1 s2 S IH I1 M I2]; [now apply coarser_refl|]. apply coarser_trans with s1; auto. now apply micro_coarser with E.
Qed.
Lemma p_C19 E L s cs : env_ok E -> reachable E L s -> Forall (call_ok L) cs -> ~ In CReset cs ->
  let s' := after E s cs in
  (feval (entropy_v2 s') <= feval (entropy_v2 s))%R /\
  (feval (entropy_v2 s') = feval (entropy_v2 s) <->
   forall b b', is_bond L b -> is_bond L b' -> bond_label s' b = bond_label s' b' -> bond_label s b = bond_label s b').
Proof.
  intros HE HR Hc Hn s'. destruct (reachable_ent E L s HE HR) as (H & He).
  assert (Hnr : Forall no_reset cs).
  { apply Forall_forall. intros c Hin. destruct c; cbn; auto. }
  pose proof (after_inv E L cs HE s Hc H) as H'. fold s' in H'.
  assert (HR' : reachable E L s').
  { destruct HR as (k & t0 & s0 & cs0 & A1 & A2 & ->). exists k, t0, s0, (cs0 ++ cs). split; auto. split; [now apply Forall_app|]. unfold s', after. now rewrite fold_left_app. }
  destruct (reachable_ent E L s' HE HR') as (_ & He'). unfold EntOK, entropy_v2 in *. rewrite He, He'.
  destruct (steps_coarser E L s s' HE (after_steps E L cs HE s Hc Hnr H)) as (_ & [(A & B)|(A & b & b' & B1 & B2 & B3 & B4)]).
  - split; [lra|]. split; auto. intros _ b b' Hb Hb'. rewrite !(bond_label_bg L) by (auto; now apply i_static). now apply B.
  - split; [lra|]. split; [lra|]. intros G. exfalso. apply B4. unfold joined in *. specialize (G b b' B1 B2).
    rewrite !(bond_label_bg L) in G by (auto; now apply i_static). auto.
Qed.
Lemma p_C32 E k L s f : env_ok E -> k <> KSP -> fresh_plain E k L s -> 5 * (L * L) < Z.of_nat f ->
  exists s' c, run_once E f s = (s', Ok tt) /\
    (forall i, is_site L i -> site_label s' i = c) /\ (forall b, is_bond L b -> bond_label s' b = c) /\
    largest_cluster s' = 2 * (L * L) /\ feval (entropy_v2 s') = 0%R /\
    order_param_largest_clstr s' = Ok (FDiv (FZ (2 * (L * L))) (FZ (2 * (L * L)))) /\
    (3 <= L -> after_wrap s' = true /\ wid s' = c /\
       order_param_wrapping s' = Ok (FDiv (FZ (2 * (L * L))) (FZ (2 * (L * L)))) /\
       test_clusters s' = Ok tt /\ test_lattice s' = Ok tt).
Proof.
  intros HE Hk HF Hf. pose proof (fresh_plain_object _ _ _ _ HF) as HF'.
  destruct (fresh_object_state E k L s HE HF') as (F & _).
  pose proof (fresh_inv _ _ F) as H. pose proof (LL_pos L (i_pos _ _ H)) as HLL.
  assert (HR0 : exists s', run_once E f s = (s', Ok tt) /\ forall i, is_site L i -> occupied s' i).
  { destruct k; try (now destruct Hk).
    - destruct (p_C31 E KBase L s f HE (or_introl eq_refl) HF ltac:(lia)) as (_ & s' & Er & _ & _ & Ho & _). now exists s'.
    - destruct (p_C31 E KL0 L s f HE (or_intror eq_refl) HF ltac:(lia)) as (_ & s' & Er & _ & _ & Ho & _). now exists s'.
    - destruct (p_C33r E KL1 L s f HE (or_introl eq_refl) HF' Hf) as (_ & s' & Er & _ & _ & Ho & _). now exists s'.
    - destruct (p_C33r E KL2 L s f HE (or_intror eq_refl) HF' Hf) as (_ & s' & Er & _ & _ & Ho & _). now exists s'. }
  destruct HR0 as (s' & Er & Ho).
  assert (HR' : reachable E L s').
  { apply (run_reachable E k L s f s'); auto. now rewrite Er. }
  destruct (reachable_ent E L s' HE HR') as (H' & He').
  destruct (full_state L s' H' Ho) as (c & A1 & A2 & _ & A3 & A4 & A5). exists s', c.
  split; auto. split; auto. split; auto. split; auto. split; [unfold entropy_v2; rewrite He'; now apply hh_full|]. split; auto. intros H3.
  assert (Hw : after_wrap s' = true).
  { apply (full_flat_wraps L); auto. pose proof (run_flat E L s f HE H3 F) as G. now rewrite Er in G. }
  split; auto. apply A5; auto. lia.
Qed.
