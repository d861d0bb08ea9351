(** * FloatProps: rounding of the observables (C80, C81). *)
From Coq Require Import ZArith List Bool Lia Reals Lra Permutation.
From Flocq Require Import Core Relative.
From Verif Require Import Py Lattice Cluster Perc Spec PyFacts Torus Geometry LatFacts Inv Merge Count Fresh Select State Step History Reach
  Micro StateProps StateProps2 Normal Real Entropy Float.
Import ListNotations.
Open Scope R_scope.

Lemma prec53 : Prec_gt_0 53. Proof. reflexivity. Qed.
#[export] Existing Instance prec53.
Definition u : R := bpow radix2 (-53).
Definition eta : R := bpow radix2 (-1075).
Lemma u_val : u = / 9007199254740992.
Proof. unfold u. cbn. f_equal. Qed.
Lemma u_pos : 0 < u. Proof. apply bpow_gt_0. Qed.
Lemma eta_pos : 0 < eta. Proof. apply bpow_gt_0. Qed.
Lemma eta_small : eta <= u * / 1000000.
Proof.
  apply Rle_trans with (bpow radix2 (-53 + -20)); [apply bpow_le; lia|]. rewrite bpow_plus. fold u. apply Rmult_le_compat_l; [apply Rlt_le, u_pos|].
  cbn. apply Rle_Rinv; lra.
Qed.
Lemma half_bpow e : / 2 * bpow radix2 e = bpow radix2 (e - 1).
Proof. unfold Z.sub. rewrite bpow_plus, Rmult_comm. reflexivity. Qed.
Lemma rnd_err x : Rabs (rnd x - x) <= u * Rabs x + eta.
Proof.
  destruct (error_N_FLT radix2 (-1074) 53 ltac:(lia) (fun z => negb (Z.even z)) x) as (e & t & He & Ht & _ & E).
  unfold rnd. rewrite E. replace (x * (1 + e) + t - x) with (x * e + t) by ring.
  eapply Rle_trans; [apply Rabs_triang|]. rewrite Rabs_mult. apply Rplus_le_compat.
  - rewrite Rmult_comm. apply Rmult_le_compat_r; [apply Rabs_pos|]. rewrite half_bpow in He. exact He.
  - rewrite half_bpow in Ht. exact Ht.
Qed.
Lemma rnd_rel x : bpow radix2 (-1022) <= Rabs x -> Rabs (rnd x - x) <= u * Rabs x.
Proof.
  intros H. eapply Rle_trans; [apply (relative_error_N_FLT radix2 (-1074) 53); [lia|exact H]|]. rewrite half_bpow. right. reflexivity.
Qed.
Lemma rnd_le x y : x <= y -> rnd x <= rnd y.
Proof. apply round_le; auto with typeclass_instances. Qed.
Lemma double_int n : (Z.abs n <= 2 ^ 53)%Z -> is_double (IZR n).
Proof.
  intros H. destruct (Z.eq_dec (Z.abs n) (2 ^ 53)) as [E|E].
  - apply generic_format_FLT. exists (Float radix2 (Z.sgn n) 53); [|change (Z.abs (Z.sgn n) < 2 ^ 53)%Z; lia|cbn; lia].
    unfold F2R. cbn [Fnum Fexp]. rewrite <- (IZR_Zpower radix2 53) by lia. rewrite <- mult_IZR. f_equal. change (radix2 ^ 53)%Z with (2 ^ 53)%Z. lia.
  - apply generic_format_FLT. exists (Float radix2 n 0); [|change (Z.abs n < 2 ^ 53)%Z; lia|cbn; lia]. unfold F2R. cbn [Fnum Fexp bpow]. lra.
Qed.
Lemma rnd_double x : is_double (rnd x).
Proof. apply generic_format_round; auto with typeclass_instances. Qed.
Lemma rnd_id x : is_double x -> rnd x = x.
Proof. apply round_generic; auto with typeclass_instances. Qed.
Lemma rnd_0 : rnd 0 = 0. Proof. apply rnd_id, (double_int 0). lia. Qed.
Lemma rnd_1 : rnd 1 = 1. Proof. apply rnd_id, (double_int 1). lia. Qed.

(** ** Ratios of counters *)
Lemma ratio_facts n N : (0 <= n <= N)%Z -> (0 < N <= 2 ^ 52)%Z ->
  0 <= rnd (IZR n / IZR N) <= 1 /\ Rabs (rnd (IZR n / IZR N) - IZR n / IZR N) <= u /\ 
  ((0 < n)%Z -> / IZR (2 ^ 52) <= IZR n / IZR N /\ Rabs (rnd (IZR n / IZR N) - IZR n / IZR N) <= u * (IZR n / IZR N) /\ 0 < rnd (IZR n / IZR N)).
Proof.
  intros Hn HN. assert (PN : 0 < IZR N) by (apply IZR_lt; lia). assert (Pn : 0 <= IZR n <= IZR N) by (split; apply IZR_le; lia).
  assert (Q : 0 <= IZR n / IZR N <= 1).
  { split; [apply Rmult_le_pos; [lra|apply Rlt_le, Rinv_0_lt_compat; lra]|]. apply (Rmult_le_reg_r (IZR N)); auto. unfold Rdiv. rewrite Rmult_assoc, Rinv_l by lra. lra. }
  assert (G : (0 < n)%Z -> / IZR (2 ^ 52) <= IZR n / IZR N).
  { intros H. assert (1 <= IZR n) by (apply IZR_le; lia). apply Rle_trans with (1 * / IZR N).
    - rewrite Rmult_1_l. apply Rle_Rinv; auto; [apply IZR_lt; lia|apply IZR_le; lia].
    - apply Rmult_le_compat_r; auto. apply Rlt_le, Rinv_0_lt_compat; lra. }
  assert (A : Rabs (IZR n / IZR N) = IZR n / IZR N) by (apply Rabs_pos_eq; lra).
  assert (S : (0 < n)%Z -> Rabs (rnd (IZR n / IZR N) - IZR n / IZR N) <= u * (IZR n / IZR N)).
  { intros H. rewrite <- A at 3. apply rnd_rel. rewrite A. eapply Rle_trans; [|apply G; auto].
    apply Rle_trans with (bpow radix2 (-52)); [apply bpow_le; lia|right; reflexivity]. }
  split; [split; [rewrite <- rnd_0|rewrite <- rnd_1]; apply rnd_le; lra|]. pose proof u_pos as U. pose proof u_val as V. split.
  - destruct (Z.eq_dec n 0) as [->|H0].
    + unfold Rdiv. rewrite Rmult_0_l, rnd_0, Rminus_0_r, Rabs_R0. lra.
    + eapply Rle_trans; [apply S; lia|]. rewrite <- (Rmult_1_r u) at 2. apply Rmult_le_compat_l; lra.
  - intros H. split; auto. split; auto. specialize (S H). specialize (G H). apply Rabs_le_inv in S.
    assert (0 < / IZR (2 ^ 52)) by (apply Rinv_0_lt_compat, IZR_lt; lia).
    assert (u * (IZR n / IZR N) <= / 2 * (IZR n / IZR N)) by (apply Rmult_le_compat_r; lra). lra.
Qed.
Lemma ratio_lt a b N : (0 <= a < b)%Z -> (b <= N <= 2 ^ 50)%Z -> rnd (IZR a / IZR N) < rnd (IZR b / IZR N).
Proof.
  intros H HN. destruct (ratio_facts a N ltac:(lia) ltac:(lia)) as (_ & A & _). destruct (ratio_facts b N ltac:(lia) ltac:(lia)) as (_ & B & _).
  apply Rabs_le_inv in A, B. assert (PN : 0 < IZR N) by (apply IZR_lt; lia).
  assert (D : / IZR (2 ^ 50) <= IZR b / IZR N - IZR a / IZR N).
  { replace (IZR b / IZR N - IZR a / IZR N) with ((IZR b - IZR a) * / IZR N) by (unfold Rdiv; ring). rewrite <- minus_IZR.
    apply Rle_trans with (1 * / IZR N).
    - rewrite Rmult_1_l. apply Rle_Rinv; auto; [apply IZR_lt; lia|apply IZR_le; lia].
    - apply Rmult_le_compat_r; [apply Rlt_le, Rinv_0_lt_compat; lra|]. apply IZR_le. lia. }
  change (2 ^ 50)%Z with 1125899906842624%Z in D. rewrite u_val in *. lra.
Qed.

Definition frac (D n : Z) (x : fexpr) : Prop := (0 <= n <= D)%Z /\ (x = FDiv (FZ n) (FZ D) \/ (x = FZ 0 /\ n = 0%Z)).
Lemma frac_val D n x lg : frac D n x -> fl lg x = rnd (IZR n / IZR D) /\ feval x = IZR n / IZR D.
Proof.
  intros (_ & [->|(-> & ->)]); [split; reflexivity|]. cbn [fl feval]. unfold Rdiv. rewrite Rmult_0_l, rnd_0. auto.
Qed.
Lemma frac_cmp D m n : (0 < D)%Z -> (IZR m / IZR D < IZR n / IZR D <-> (m < n)%Z) /\ (IZR m / IZR D = IZR n / IZR D <-> m = n).
Proof.
  intros HD. assert (0 < IZR D) by (apply IZR_lt; lia). assert (P : 0 < / IZR D) by (now apply Rinv_0_lt_compat). unfold Rdiv. split; split; intros Q.
  - apply lt_IZR. now apply Rmult_lt_reg_r in Q.
  - apply Rmult_lt_compat_r; auto. now apply IZR_lt.
  - apply eq_IZR. apply Rmult_eq_reg_r in Q; auto. lra.
  - now rewrite Q.
Qed.
Lemma frac_fl_cmp D m n x y lg : frac D m x -> frac D n y -> (0 < D <= 2 ^ 50)%Z ->
  (fl lg x < fl lg y <-> feval x < feval y) /\ (fl lg x = fl lg y <-> feval x = feval y) /\ 0 <= fl lg x <= 1 /\ is_double (fl lg x) /\ Rabs (fl lg x - feval x) <= u.
Proof.
  intros Fx Fy HD. destruct (frac_val _ _ _ lg Fx) as (-> & ->). destruct (frac_val _ _ _ lg Fy) as (-> & ->).
  destruct Fx as (Hm & _), Fy as (Hn & _). destruct (frac_cmp D m n ltac:(lia)) as (-> & ->).
  destruct (ratio_facts m D ltac:(lia) ltac:(lia)) as (A & B & _). split; [|split; [|split; [exact A|split; [apply rnd_double|exact B]]]].
  - split; intros Q; [|apply ratio_lt; lia]. destruct (Z.lt_trichotomy m n) as [|[->|Z]]; auto; [lra|].
    pose proof (ratio_lt n m D ltac:(lia) ltac:(lia)). lra.
  - split; intros Q; [|now rewrite Q]. destruct (Z.lt_trichotomy m n) as [Z|[|Z]]; auto;
    [pose proof (ratio_lt m n D ltac:(lia) ltac:(lia))|pose proof (ratio_lt n m D ltac:(lia) ltac:(lia))]; lra.
Qed.
Definition of_sites : list (perc -> res fexpr) := [occupation_prob; get_pc].
Definition of_bonds : list (perc -> res fexpr) := [order_param_largest_clstr; order_param_wrapping].
Lemma of_sites_frac E L s f : env_ok E -> reachable E L s -> In f of_sites -> exists n x, f s = Ok x /\ frac (L * L) n x.
Proof.
  intros HE HR [<-|[<-|[]]].
  - destruct (p_C11 E L s HE HR) as (_ & A & B). exists (Z.of_nat (length (occupied_sites L s))). eexists. split; [exact B|]. split; [lia|]. left. reflexivity.
  - destruct (p_C27 E L s HE HR) as (A & B). pose proof (i_pos _ _ (reachable_inv _ _ _ HE HR)). destruct (after_wrap s).
    + destruct (B eq_refl) as (n & Q & Q1 & Q2 & _). exists n, (FDiv (FZ n) (FZ (L * L))). split; auto. split; auto. lia.
    + destruct (A eq_refl) as (Q & _). exists 0%Z, (FZ 0). split; auto. split; auto. nia.
Qed.
Lemma of_bonds_frac E L s f : env_ok E -> reachable E L s -> In f of_bonds -> exists n x, f s = Ok x /\ frac (2 * (L * L)) n x.
Proof.
  intros HE HR [<-|[<-|[]]].
  - destruct (p_C20 E L s HE HR) as (A & B & _). exists (largest_cluster s). eexists. split; [exact A|]. split; auto.
  - destruct (p_C21 E L s HE HR) as (A & B). pose proof (i_pos _ _ (reachable_inv _ _ _ HE HR)). destruct (after_wrap s).
    + destruct (B eq_refl) as (Q & Q1 & Q2 & _). exists (zlen (cluster_bonds s (wid s))). eexists. split; [exact Q|]. split; auto. lia.
    + exists 0%Z, (FZ 0). split; auto. split; auto. nia.
Qed.
Lemma p_C80 E L s t f g lg : env_ok E -> (L <= 2 ^ 24)%Z -> reachable E L s -> reachable E L t ->
  (In f [occupation_prob; get_pc] /\ In g [occupation_prob; get_pc]) \/
  (In f [order_param_largest_clstr; order_param_wrapping] /\ In g [order_param_largest_clstr; order_param_wrapping]) ->
  exists x y, f s = Ok x /\ g t = Ok y /\
    (fl lg x < fl lg y <-> feval x < feval y) /\ (fl lg x = fl lg y <-> feval x = feval y) /\
    0 <= fl lg x <= 1 /\ is_double (fl lg x) /\ Rabs (fl lg x - feval x) <= bpow radix2 (-53).
Proof.
  intros HE HL HS HT H. assert (P : (0 < L)%Z) by exact (i_pos _ _ (reachable_inv _ _ _ HE HS)).
  assert (Q : (0 < L * L <= 2 ^ 48)%Z) by nia. destruct H as [(Hf & Hg)|(Hf & Hg)].
  - destruct (of_sites_frac E L s f HE HS Hf) as (m & x & Ex & Fx). destruct (of_sites_frac E L t g HE HT Hg) as (n & y & Ey & Fy).
    exists x, y. split; auto. split; auto. apply (frac_fl_cmp (L * L) m n); auto. lia.
  - destruct (of_bonds_frac E L s f HE HS Hf) as (m & x & Ex & Fx). destruct (of_bonds_frac E L t g HE HT Hg) as (n & y & Ey & Fy).
    exists x, y. split; auto. split; auto. apply (frac_fl_cmp (2 * (L * L)) m n); auto. lia.
Qed.
