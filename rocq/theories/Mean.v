(** * Mean: averages over all random choices are averages over the sets of sites (C122). *)
From Coq Require Import ZArith List Bool Lia Permutation Factorial Sorted Reals Lra.
From Verif Require Entropy Stop ShortEns.
From Verif Require Import ProgProps Drive.
From Verif Require Import Critical StateProps Py Lattice Cluster Perc Spec PyFacts Torus Geometry LatFacts Inv Merge Count Fresh Select State Step History Reach Micro Seq RunBase RunProps RunProps2 StateProps2
  Cycle Sim Wrap Unbiased Grow SymSpec Describe Symmetry ChanceSpec Chance CanonSpec Canon Real Curves IidSpec Run EnsSpec AverageSpec Average AverageProps MeanSpec.
Import ListNotations.
Open Scope Z_scope.

(** ** Averages *)
Lemma mean_len l : (length l <> 0)%nat -> (sum_of l = mean_of l * INR (length l))%R.
Proof. intros H. unfold mean_of. field. now apply not_0_INR. Qed.
Lemma pick {A B} (dec : forall x y : A, {x = y} + {x <> y}) (P : A -> B -> Prop) (b0 : B) l : (forall a, In a l -> exists b, P a b) -> exists f, forall a, In a l -> P a (f a).
Proof.
  induction l as [|a l IH]; intros H; [exists (fun _ => b0); intros a []|].
  destruct IH as (f & Hf); [intros x Hx; apply H; now right|]. destruct (H a (or_introl eq_refl)) as (b & Hb).
  exists (fun x => if dec x a then b else f x). intros x [<-|Hx]; [destruct (dec a a); congruence|]. destruct (dec x a) as [->|]; auto.
Qed.
Lemma average_blocks B m (x : list Z -> R) : StronglySorted Z.lt B -> (m <= length B)%nat ->
  exists mu, average (subset B m) x mu /\ average (Permutation B) (fun l => x (beginning B m l)) mu.
Proof.
  intros HB Hm. destruct (subsets_count B m HB Hm) as (c & (ls & Nl & Il & Ec) & Ef). set (K := (fact m * fact (length B - m))%nat).
  assert (KP : (0 < K)%nat) by (unfold K; pose proof (lt_O_fact m); pose proof (lt_O_fact (length B - m)); nia).
  assert (G : forall ls', incl ls' ls -> NoDup ls' -> exists pl, NoDup pl /\ (forall l, In l pl <-> Permutation B l /\ In (beginning B m l) ls') /\
    length pl = (K * length ls')%nat /\ sum_of (map (fun l => x (beginning B m l)) pl) = (INR K * sum_of (map x ls'))%R).
  { induction ls' as [|S ls' IH]; intros Hi Nd.
    - exists []. split; [constructor|]. split; [intros l; cbn; tauto|]. split; [cbn; lia|]. cbn. lra.
    - inversion Nd as [|? ? NS Nd']; subst. destruct IH as (pl & Np & Ip & Lp & Sp); auto; [intros z Hz; apply Hi; now right|].
      assert (HS : subset B m S) by (apply Il, Hi; now left).
      destruct (subset_orders B m S HB HS) as (q & Nq & Iq & Eq).
      assert (Beg : forall l, In l q -> beginning B m l = S).
      { intros l Hl. apply Iq in Hl as (P & Q). apply sorted_eq; [apply sorted_filter, HB|apply HS|]. intros i. rewrite (beginning_In B m l i P). split; apply Permutation_in; [now apply Permutation_sym|exact Q]. }
      exists (q ++ pl). split; [|split; [|split]].
      + apply app_nodup; auto. intros l H1 H2. apply Ip in H2 as (_ & H2). rewrite (Beg l H1) in H2. contradiction.
      + intros l. rewrite in_app_iff, Ip, Iq. cbn [In]. split.
        * intros [H|(P & H)]; [|tauto]. split; [tauto|]. left. symmetry. apply Beg. now apply Iq.
        * intros (P & [H|H]); [|tauto]. left. split; auto. rewrite H. now apply beginning_perm.
      + rewrite app_length, Lp. cbn [length]. assert (length q = K) by (unfold K; lia). lia.
      + rewrite map_app, sum_app, Sp. cbn [map sum_of fold_right]. fold (sum_of (map x ls')).
        assert (Q : map (fun l => x (beginning B m l)) q = map (fun _ => x S) q) by (apply map_ext_in; intros l Hl; now rewrite Beg).
        rewrite Q, sum_const. replace (length q) with K by (unfold K; lia). lra. }
  destruct (G ls (incl_refl _) Nl) as (pl & Np & Ip & Lp & Sp).
  assert (Lne : (length ls <> 0)%nat) by (pose proof (lt_O_fact (length B)); intros E0; rewrite E0 in Ec; cbn in Ec; subst c; lia).
  exists (mean_of (map x ls)). split.
  - exists ls. split; auto. split; auto. split; [intros ->; now apply Lne|reflexivity].
  - exists pl. split; auto. split; [|split].
    + intros l. rewrite Ip. split; [tauto|]. intros P. split; auto. apply Il. now apply beginning_subset.
    + intros ->. cbn in Lp. nia.
    + unfold mean_of. rewrite Sp, !map_length, Lp, mult_INR. field. split; apply not_0_INR; lia.
Qed.
Lemma average_map {A B} (P : A -> Prop) (Q : B -> Prop) (g : A -> B) (f : B -> R) mu la : NoDup la -> (forall a, In a la <-> P a) ->
  (forall a, P a -> Q (g a)) -> (forall b, Q b -> exists a, P a /\ b = g a) -> (forall a a', P a -> P a' -> g a = g a' -> a = a') ->
  average Q f mu -> average P (fun a => f (g a)) mu.
Proof.
  intros N I H1 H2 H3 Av. assert (Nm : NoDup (map g la)).
  { assert (F : forall a, In a la -> P a) by (intros a; apply I). clear I. induction N as [|a l Na N IH]; [constructor|]. cbn [map]. constructor.
    - rewrite in_map_iff. intros (a' & E & Ha'). apply Na. rewrite <- (H3 a' a); auto; apply F; [now right|now left].
    - apply IH. intros x Hx. apply F. now right. }
  destruct (average_enum Q f mu (map g la) Av Nm) as (E & Ne).
  - intros b. rewrite in_map_iff. split; [intros (a & <- & Ha); apply H1, I, Ha|]. intros Hb. destruct (H2 b Hb) as (a & Ha & ->). exists a. split; auto. now apply I.
  - exists la. split; auto. split; auto. split; [intros ->; now apply Ne|]. now rewrite map_map in E.
Qed.
Lemma average_total {A C} (P : A -> Prop) (f : C -> A -> R) (mu : C -> R) l : (exists la, NoDup la /\ (forall a, In a la <-> P a) /\ la <> []) ->
  (forall m, In m l -> average P (f m) (mu m)) -> average P (fun a => sum_of (map (fun m => f m a) l)) (sum_of (map mu l)).
Proof.
  intros (la & N & I & Ne) H. exists la. split; auto. split; auto. split; auto. assert (Ln : INR (length la) <> 0%R) by (apply not_0_INR; destruct la; cbn; congruence).
  induction l as [|m l IH].
  - cbn [map sum_of fold_right]. unfold mean_of. rewrite sum_const, map_length. field. auto.
  - cbn [map]. change (sum_of (mu m :: map mu l)) with (mu m + sum_of (map mu l))%R. rewrite <- IH by (intros z Hz; apply H; now right).
    destruct (average_enum P (f m) (mu m) la (H m (or_introl eq_refl)) N I) as (E & _). rewrite <- E. unfold mean_of. rewrite !map_length.
    change (fun a => sum_of (f m a :: map (fun m0 => f m0 a) l)) with (fun a => f m a + sum_of (map (fun m0 => f m0 a) l))%R.
    rewrite sum_plus. field. auto.
Qed.
Lemma average_scale {A} (P : A -> Prop) f mu a : average P f mu -> average P (fun x => a * f x)%R (a * mu)%R.
Proof.
  intros (l & N & I & Ne & <-). exists l. split; auto. split; auto. split; auto. unfold mean_of. rewrite sum_scal, !map_length. field. apply not_0_INR. destruct l; cbn; congruence.
Qed.

(** ** Choices and sets *)
Section Made.
Variables (ord : list Z -> list Z) (k : pkind) (L : Z).
Hypothesis Hord : env_ok (mkEnv ord (fun _ => 0)).
Hypothesis HL : 0 < L.
Hypothesis Hk : is_L12 k = false.
Let n := Z.to_nat (L * L).
Let ids0 := zrange (L * L).
Definition set_at (m : nat) (c : list Z) : list Z := beginning ids0 m (order_of 0 ids0 c).
Lemma len0 : length ids0 = n /\ (1 <= n)%nat.
Proof. split; [apply ids0_len; auto|now apply n_pos]. Qed.
Lemma sets_average m (x : list Z -> R) : (m <= n)%nat -> exists mu, average (site_set L m) x mu /\ average (random_choices n) (fun c => x (set_at m c)) mu.
Proof.
  intros Hm. destruct len0 as (Hlen & Hn). destruct (average_blocks ids0 m x (sorted_zrange _) ltac:(lia)) as (mu & A & B). exists mu. split.
  - destruct A as (l & N & I & Ne & E). exists l. split; auto. split; auto. intros S. rewrite I. symmetry. apply site_subset.
  - destruct (choices_enum L HL) as (la & N & I & _).
    apply (average_map (random_choices n) (Permutation ids0) (order_of 0 ids0) (fun l => x (beginning ids0 m l)) mu la N I); auto.
    + intros c _. apply order_of_perm.
    + intros l P. destruct (order_of_onto 0 ids0 l) as (c & Hc & Eo); auto; [apply NoDup_zrange|lia|]. rewrite Hlen in Hc. exists c. auto.
    + intros c c' Hc Hc'. apply order_of_inj; rewrite ?Hlen; auto. apply NoDup_zrange.
Qed.
Lemma env_at c : random_choices n c -> exists d s, new_perc (mkEnv ord d) k L 0 = Ok s /\ choices (mkEnv ord d) 0 n = c.
Proof.
  intros Hc. destruct len0 as (_ & Hn). exists (e_draw (with_draws 0 c)).
  destruct (new_perc_ok (mkEnv ord (e_draw (with_draws 0 c))) k L 0 HL) as (a1 & a2 & a3 & a4 & E1 & _). eexists. split; [exact E1|].
  exact (choices_with 0 n c Hn Hc).
Qed.
Lemma set_shown d s c m : new_perc (mkEnv ord d) k L 0 = Ok s -> random_choices n c -> choices (mkEnv ord d) 0 n = c -> (m <= n)%nat ->
  site_set L m (set_at m c) /\ shows L (mkEnv ord d) s m (set_at m c).
Proof.
  intros E1 Hc Ec Hm. destruct len0 as (Hlen & Hn). assert (HE : env_ok (mkEnv ord d)) by exact Hord.
  assert (P : Permutation ids0 (order_of 0 ids0 c)) by apply order_of_perm. split.
  - apply site_subset. apply beginning_subset; auto; [apply sorted_zrange|]. fold ids0. lia.
  - intros i Hi. unfold set_at. rewrite (beginning_In ids0 m _ i P), (occupied_new k L 0 Hk (mkEnv ord d) s m i HE E1 Hi).
    rewrite (new_ids k L 0 (mkEnv ord d) s E1), (order_of_env (mkEnv ord d) 0 (zrange (L * L)) c); fold ids0; rewrite ?Hlen; auto; [reflexivity|apply NoDup_zrange].
Qed.
(** What depends on the set only has the average of its values on the sets. *)
Lemma law_average m (X : env -> perc -> R) (V : list Z -> R -> Prop) one mu : (m <= n)%nat ->
  (forall E s S, env_ok E -> new_perc E k L 0 = Ok s -> site_set L m S -> shows L E s m S -> forall v, V S v <-> v = X E s) ->
  (forall d s, new_perc (mkEnv ord d) k L 0 = Ok s -> X (mkEnv ord d) s = one (choices (mkEnv ord d) 0 n)) ->
  average (random_choices n) one mu ->
  exists x, (forall S, site_set L m S -> V S (x S)) /\ average (site_set L m) x mu.
Proof.
  intros Hm HX Ho Av. destruct (sets_count L HL m Hm) as (c & _ & (ls & Nl & Il & _) & _).
  destruct (pick (list_eq_dec Z.eq_dec) V 0%R ls) as (x & Hx).
  { intros S HS. apply Il in HS. destruct (shown k L 0 HL Hk m S HS) as (E & s & HE & E1 & Sh). exists (X E s). now apply (HX E s S). }
  exists x. assert (Hx' : forall S, site_set L m S -> V S (x S)) by (intros S HS; apply Hx; now apply Il). split; auto.
  destruct (sets_average m x Hm) as (mu' & A & B). assert (mu = mu') as ->; [|exact A].
  apply (average_fun (random_choices n) one); auto. eapply average_ext; [|exact B]. intros c0 Hc. cbn beta.
  destruct (env_at c0 Hc) as (d & s & E1 & Ec). destruct (set_shown d s c0 m E1 Hc Ec Hm) as (HS & Sh).
  rewrite <- Ec at 2. rewrite <- (Ho d s E1). apply (HX (mkEnv ord d) s (set_at m c0)); auto.
Qed.
End Made.

(** ** The recorded curves *)
Lemma trace_pairs E m : forall s, trace E m s = after E s (pairs m).
Proof. induction m as [|m IH]; intros s; [reflexivity|]. cbn [trace]. rewrite IH. reflexivity. Qed.
Lemma new_plain E k L t s : new_perc E k L t = Ok s -> fresh_plain E k L s.
Proof. intros H. left. now exists t. Qed.
Lemma pairs_reach E k L t s m : new_perc E k L t = Ok s -> reachable E L (after E s (pairs m)).
Proof.
  intros H. exists k, t, s, (pairs m). split; auto. split; [|reflexivity]. clear. induction m as [|m IH]; [constructor|]. repeat (constructor; [exact I|]). exact IH.
Qed.
Lemma run_columns E k L t s f i : env_ok E -> k = KBase \/ k = KL0 -> new_perc E k L t = Ok s -> 5 * (L * L) < Z.of_nat f -> (i < Z.to_nat (L * L))%nat ->
  let a := after E s (pairs (S i)) in let s' := after E s [CRun f] in
  column 1 i s' = feval (entropy_v2 a) /\ column 2 i s' = (IZR (largest_cluster a) / IZR (2 * (L * L)))%R /\
  (0 < feval (entry (pw_arr s') i) <-> after_wrap a = true)%R.
Proof.
  intros HE Hb E1 Hf Hi a s'. pose proof (pairs_reach E k L t s (S i) E1) as HR. fold a in HR. pose proof (i_pos _ _ (reachable_inv _ _ _ HE HR)) as HL. pose proof (LL_pos L HL) as HLL.
  destruct (p_C31 E k L s f HE Hb (new_plain _ _ _ _ _ E1) ltac:(lia)) as (_ & s2 & Er & _ & _ & _ & _ & _ & A1 & A2 & A3).
  assert (Es : s' = s2) by (unfold s'; cbn [after fold_left exec]; now rewrite Er). rewrite Es.
  assert (Sq : nth_error (seq 1 (Z.to_nat (L * L))) i = Some (S i)) by (rewrite (nth_error_nth' _ O) by (now rewrite seq_length); now rewrite seq_nth).
  split; [|split].
  - unfold column, entry. rewrite A1. f_equal. unfold a. rewrite <- trace_pairs. apply nth_error_nth. exact (map_nth_error (fun j => entropy_v2 (trace E j s)) i _ Sq).
  - destruct (nth_map_ok _ _ _ i (S i) (FZ 0) A3 Sq) as (y & Ey & En & _). unfold column, entry. rewrite En. destruct (opl_val E L a HE HR) as (y' & Ey' & Q).
    rewrite trace_pairs in Ey. fold a in Ey. rewrite Ey in Ey'. injection Ey' as ->. exact Q.
  - destruct (nth_map_ok _ _ _ i (S i) (FZ 0) A2 Sq) as (y & Ey & En & _). unfold entry. rewrite En. destruct (opw_val E L a HE HR) as (y' & Ey' & Q).
    rewrite trace_pairs in Ey. fold a in Ey. rewrite Ey in Ey'. injection Ey' as ->. rewrite Q. destruct (wn_le E L a HE HR) as (_ & <-). split.
    + intros H. pose proof (wn_nonneg a). destruct (Z.eq_dec (wn a) 0) as [E0|]; [|lia]. rewrite E0, rat_zero in H. lra.
    + intros H. apply rat_pos; lia.
Qed.
Lemma curve_law E k L t s f j i S : env_ok E -> k = KBase \/ k = KL0 -> new_perc E k L t = Ok s -> 5 * (L * L) < Z.of_nat f -> (1 <= j <= 2)%nat -> (i < Z.to_nat (L * L))%nat ->
  site_set L (Datatypes.S i) S -> shows L E s (Datatypes.S i) S -> forall v, curve_value j L S v <-> v = column j i (after E s [CRun f]).
Proof.
  intros HE Hb E1 Hf Hj Hi HS Sh v. assert (Hk : is_L12 k = false) by (destruct Hb as [-> | ->]; reflexivity). destruct (run_columns E k L t s f i HE Hb E1 Hf Hi) as (C1 & C2 & _).
  set (m := Datatypes.S i) in *. set (a := after E s (pairs m)) in *. assert (HL : 0 < L) by (apply (i_pos _ _ (reachable_inv _ _ _ HE (pairs_reach E k L t s m E1)))).
  destruct (described_new k L t HL Hk E s m HE E1 ltac:(lia)) as (D & _). fold a in D. pose proof (shows_firstn k L t Hk E s m S HE E1 HS Sh) as I.
  assert (Same : forall b0 v0, counts (bonds_like L (firstn m (ids s)) b0) v0 <-> counts (bonds_like L S b0) v0).
  { intros b0 v0. assert (J : forall b', bonds_like L (firstn m (ids s)) b0 b' <-> bonds_like L S b0 b').
    { intros b'. unfold bonds_like, bonds_joined. assert (K : forall i j, connected L (among (firstn m (ids s))) i j <-> connected L (among S) i j) by (intros i0 j0; apply connected_iff; intros x _; apply I).
      split; (intros (X1 & [->|(i0 & j0 & T1 & T2 & W)]); (split; [auto|]); [now left|right; exists i0, j0; split; auto; split; auto; now apply K]). }
    unfold counts. split; intros (l & N & Il & El); exists l; (split; [auto|]); (split; [|auto]); intros i0; rewrite Il; [apply J|symmetry; apply J]. }
  assert (j = 1 \/ j = 2)%nat as [-> | ->] by lia.
  - rewrite C1. destruct (de_entropy _ _ _ D) as (size & Hs & He). cbn [curve_value]. unfold entropy_of. split.
    + intros (size' & Hs' & ->). rewrite He. f_equal. apply Entropy.rsum_ext. intros b Hb'. apply In_zrange in Hb'. assert (Hb2 : is_bond L b) by exact Hb'.
      rewrite (counts_fun _ _ _ (proj2 (Same b _) (Hs' b Hb2)) (Hs b Hb2)). reflexivity.
    + intros ->. exists size. split; [intros b Hb'; apply Same; now apply Hs|exact He].
  - rewrite C2. cbn [curve_value].
    assert (Ne : firstn m (ids s) <> []).
    { intros X. destruct HS as (_ & _ & Ls). destruct S as [|u S]; [cbn in Ls; unfold m in Ls; lia|]. pose proof (proj2 (I u) (or_introl eq_refl)) as Y. rewrite X in Y. destruct Y. }
    destruct (de_largest _ _ _ D Ne) as ((b & Hb' & Cb) & Mx).
    assert (La : largest_of L S (largest_cluster a)).
    { split; [exists b; split; auto; now apply Same|]. intros b0 v0 H0 C0. apply (Mx b0); auto. now apply Same. }
    split.
    + intros (z & ((b1 & H1 & D1) & M1) & ->). assert (z = largest_cluster a) as ->; [|reflexivity].
      apply Z.le_antisymm; [apply (Mx b1); auto; now apply Same|apply (M1 b); auto; now apply Same].
    + intros ->. exists (largest_cluster a). auto.
Qed.
Lemma p_C122_curves ord d0 k L f j i : env_ok (mkEnv ord d0) -> k = KBase \/ k = KL0 -> 0 < L -> 5 * (L * L) < Z.of_nat f ->
  (1 <= j <= 2)%nat -> let N := Z.to_nat (L * L) in (i < N)%nat ->
  exists x mu, (forall S, site_set L (Datatypes.S i) S -> curve_value j L S (x S)) /\ average (site_set L (Datatypes.S i)) x mu /\
    (forall t0 n, 1 <= n -> let m := Datatypes.S (Z.to_nat n) in exists all,
      (forall d c F, choice_lists N m c -> drawn (mkEnv ord d) t0 N c -> writes (mkEnv ord d) f t0 k L n F -> cell F i j = all c) /\
      average (choice_lists N m) all mu) /\
    (forall eps share, (0 < eps)%R -> (0 < share)%R -> exists n0, forall t0 n, n0 <= n -> let m := Datatypes.S (Z.to_nat n) in exists all,
      (forall d c F, choice_lists N m c -> drawn (mkEnv ord d) t0 N c -> writes (mkEnv ord d) f t0 k L n F -> cell F i j = all c) /\
      rarely (choice_lists N m) (fun c => eps <= Rabs (all c - mu))%R share).
Proof.
  intros HE Hb HL Hf Hj N Hi. assert (Hk : is_L12 k = false) by (destruct Hb as [-> | ->]; reflexivity).
  assert (K1 : k <> KL1) by (intros ->; discriminate). assert (K2 : k <> KL2) by (intros ->; discriminate). assert (K3 : k <> KSP) by (destruct Hb as [-> | ->]; discriminate).
  destruct (p_C115_files ord d0 k L f j i HE K1 K2 K3 HL Hf ltac:(lia) Hi) as (one & mu & v & A1 & A2 & _ & A3).
  destruct (p_C115_files_converge ord d0 k L f j i HE K1 K2 K3 HL Hf ltac:(lia) Hi) as (one' & mu' & B1 & B2 & B3).
  assert (mu' = mu) as ->.
  { apply (average_fun (random_choices N) one); auto. eapply average_ext; [|exact B2]. intros c Hc. destruct (env_at ord k L HL c Hc) as (d & s & E1 & Ec).
    pose proof (A1 d 0%nat s E1) as Q1. pose proof (B1 d 0%nat s E1) as Q2. unfold N in Q1, Q2. rewrite Ec in Q1, Q2. congruence. }
  destruct (law_average ord k L HE HL Hk (Datatypes.S i) (fun E s => column j i (after E s [CRun f])) (curve_value j L) one mu) as (x & X1 & X2); auto.
  { intros E s S0 HE' E1 HS Sh. now apply (curve_law E k L 0 s f j i S0). }
  exists x, mu. split; auto. split; auto. split; auto. intros t0 n Hn. destruct (A3 t0 n Hn) as (all & Q1 & Q2 & _). now exists all.
Qed.

(** ** The threshold *)
Lemma sum_below m N : (sum_of (map (fun j => if Z.of_nat j <? m then 1 else 0) (seq 0 N)) = IZR (Z.max 0 (Z.min m (Z.of_nat N))))%R.
Proof.
  induction N as [|N IH]; [cbn [seq map sum_of fold_right]; now replace (Z.max 0 (Z.min m (Z.of_nat 0))) with 0%Z by lia|].
  rewrite seq_S, map_app, sum_app, IH. cbn [Nat.add map sum_of fold_right]. rewrite Rplus_0_r.
  destruct (Z.ltb_spec (Z.of_nat N) m); rewrite <- plus_IZR; f_equal; lia.
Qed.
Lemma sum_unless {A} (b : A -> bool) l : (sum_of (map (fun a => if b a then 0 else 1) l) = INR (length l) - INR (length (filter b l)))%R.
Proof.
  induction l as [|a l IH]; [cbn; lra|]. cbn [map sum_of fold_right filter]. change (fold_right Rplus 0%R) with sum_of. rewrite IH.
  destruct (b a); cbn [length]; rewrite ?S_INR; lra.
Qed.
Lemma sets_without (L : Z) (k : pkind) m : 3 <= L -> is_L12 k = false -> (m <= Z.to_nat (L * L))%nat ->
  exists (b : list Z -> bool) w c, (forall S, site_set L m S -> (b S = true <-> wraps L (among S))) /\ 0 < c /\ how_many (site_set L m) c /\
    how_many (fun S => site_set L m S /\ wraps L (among S)) w /\
    average (random_choices (Z.to_nat (L * L))) (fun v => if b (set_at L m v) then 0 else 1)%R (1 - IZR w / IZR c)%R.
Proof.
  intros H3 Hk Hm. assert (HL : 0 < L) by lia. destruct (sets_count L HL m Hm) as (c & Hc & (ls & Nl & Il & Ec) & _).
  destruct (pick (list_eq_dec Z.eq_dec) (fun S (b : bool) => b = true <-> wraps L (among S)) true ls) as (b & Hb).
  { intros S HS. apply Il in HS. destruct (shown k L 0 HL Hk m S HS) as (E & s & HE & E1 & Sh). exists (after_wrap (after E s (pairs m))).
    rewrite (wrap_prefix k L 0 HL Hk H3 E s m HE E1 Hm). pose proof (shows_firstn k L 0 Hk E s m S HE E1 HS Sh) as I. split; apply Critical.wraps_mono; intros i _; apply I. }
  exists b, (Z.of_nat (length (filter b ls))), c. split; [intros S HS; apply Hb; now apply Il|]. split; auto. split; [exists ls; auto|]. split.
  { exists (filter b ls). split; [now apply NoDup_filter|]. split; [|reflexivity]. intros S. rewrite filter_In. split; intros (A & B); (split; [now apply Il|apply (Hb S); auto]). now apply Il. }
  destruct (sets_average L HL m (fun S => if b S then 0 else 1)%R Hm) as (mu & A & B).
  assert (mu = 1 - IZR (Z.of_nat (length (filter b ls))) / IZR c)%R as <-; [|exact B].
  apply (average_fun (site_set L m) (fun S => if b S then 0 else 1)%R); auto. assert (Hn : ls <> []) by (intros ->; cbn in Ec; lia).
  exists ls. split; auto. split; auto. split; auto. unfold mean_of. rewrite map_length, sum_unless, Ec, <- !INR_IZR_INZ.
  field. apply not_0_INR. destruct ls; [congruence|discriminate].
Qed.
(** When detection follows every placement, the threshold is the number of placements until it first reports wrapping. *)
Lemma wrap_moment E L s : env_ok E -> Inv L s -> RunB L s -> after_wrap s = false -> cur_idx s = 0 -> forall n, Z.of_nat n <= zlen (ids s) ->
  (forall j, (j <= n)%nat -> after_wrap (trace E j s) = false) \/
  exists q, (1 <= q <= n)%nat /\ (forall j, (j <= n)%nat -> (after_wrap (trace E j s) = true <-> (q <= j)%nat)) /\ pc_occ (trace E n s) = Z.of_nat q.
Proof.
  intros HE H B Hw Hc. induction n as [|n IH]; intros Hn.
  - left. intros j Hj. replace j with 0%nat by lia. exact Hw.
  - set (t := trace E n s) in *. assert (Et : trace E (S n) s = advance E t) by apply trace_snoc.
    destruct (runB_trace E L n HE s H B ltac:(lia)) as (Ht & Bt & Ct & Sq & _). fold t in Ht, Bt, Ct, Sq. assert (Ei : ids t = ids s) by apply (seqv_eqs _ _ Sq).
    destruct (runB_place E L t HE Ht Bt ltac:(rewrite Ei; lia)) as (s1 & Ep & _ & H1 & B1 & C1 & Es & _). destruct (place_core E L t HE Ht) as (W1 & P1). rewrite Ep in W1, P1. cbn [fst] in W1, P1.
    assert (O1 : occ_count s1 = Z.of_nat (S n)) by (rewrite (rb_cnt _ _ B1), C1, Ct; lia).
    assert (Ad : advance E t = fst (detect_res L s1)) by (unfold advance; rewrite Ep; cbn [fst]; rewrite (detect_ok L) by apply H1; reflexivity).
    unfold detect_res in Ad. rewrite Es in Ad. destruct (IH ltac:(lia)) as [N|(q & Hq & Iq & Eq)].
    + assert (Ew : after_wrap s1 = false) by (rewrite W1; apply N; lia). rewrite Ew in Ad. destruct (hitb _ _ _) in Ad; cbn [fst] in Ad.
      * right. exists (S n). split; [lia|]. split.
        -- intros j Hj. destruct (Nat.eq_dec j (S n)) as [->|]; [rewrite Et, Ad; split; [lia|reflexivity]|]. rewrite (N j ltac:(lia)). split; [discriminate|lia].
        -- rewrite Et, Ad, <- O1. reflexivity.
      * left. intros j Hj. destruct (Nat.eq_dec j (S n)) as [->|]; [now rewrite Et, Ad|]. apply N. lia.
    + assert (Ew : after_wrap s1 = true) by (rewrite W1; apply Iq; lia). rewrite Ew in Ad. cbn [fst] in Ad. right. exists q. split; [lia|]. split.
      * intros j Hj. destruct (Nat.eq_dec j (S n)) as [->|]; [rewrite Et, Ad; split; [lia|auto]|]. apply Iq. lia.
      * rewrite Et, Ad, P1. exact Eq.
Qed.
Lemma new_unwrapped E k L t s : new_perc E k L t = Ok s -> after_wrap s = false.
Proof. intros E1. destruct (new_perc_ok E k L t (new_perc_pos _ _ _ _ _ E1)) as (a1 & a2 & a3 & a4 & E2 & _). rewrite E1 in E2. injection E2 as ->. reflexivity. Qed.
Lemma plain_cases k : is_L12 k = false -> k = KSP \/ k = KBase \/ k = KL0.
Proof. destruct k; cbn; auto; discriminate. Qed.
Lemma threshold_at E k L t s f : env_ok E -> is_L12 k = false -> 3 <= L -> 5 * (L * L) < Z.of_nat f -> new_perc E k L t = Ok s ->
  exists q, get_pc (after E s [CRun f]) = Ok (FDiv (FZ q) (FZ (L * L))) /\ L <= q <= L * L /\
    forall m, (m <= Z.to_nat (L * L))%nat -> (after_wrap (after E s (pairs m)) = true <-> q <= Z.of_nat m).
Proof.
  intros HE Hk H3 Hf E1. assert (HLL : 0 < L * L) by nia. pose proof (new_unwrapped _ _ _ _ _ E1) as Ew. destruct (plain_cases k Hk) as [->|Hb].
  - pose proof (new_plain _ _ _ _ _ E1) as HF. destruct (ShortEns.sp_values E L s f HE HF Hf) as (s' & Er & V & _). destruct (V H3) as (q & q' & Ep & _ & Hq & Hq' & _).
    assert (Es : after E s [CRun f] = s') by (cbn [after fold_left exec]; now rewrite Er). rewrite Es. exists q. split; [exact Ep|]. split; [lia|].
    destruct (fresh_plain_runB E KSP L s HE eq_refl HF) as (H & B & Hz & Hc). set (N := Z.to_nat (L * L)) in *.
    destruct (fresh_object_state E KSP L s HE (fresh_plain_object _ _ _ _ HF)) as (_ & Ek & _).
    assert (Hrun : run_once E f s = match sp_loop E f s with (s1, Ok _) => (set_first_run false s1, Ok tt) | (s1, Err e) => (s1, Err e) end) by (unfold run_once, mbind at 1, get; rewrite Ek; reflexivity).
    assert (M : exists n, (n <= N)%nat /\ after_wrap s' = after_wrap (trace E n s) /\ pc_occ s' = pc_occ (trace E n s) /\ lat s' = lat (trace E n s)).
    { destruct (Stop.sp_loop_B E L HE N s f H B) as [(m & Hm & _ & _ & A)|(_ & A)]; [unfold N; lia|unfold N; lia|exists m; split; [lia|]|exists N; split; [lia|]];
      rewrite Hrun, A in Er; injection Er as <-; split; [reflexivity|split; reflexivity|reflexivity|split; reflexivity]. }
    destruct M as (n & Hn & M1 & M2 & M3). unfold get_pc in Ep. destruct (after_wrap s') eqn:Ew'; [|discriminate].
    destruct (runB_trace E L n HE s H B ltac:(lia)) as (Ht & _). rewrite M3, (st_sc _ _ (i_static _ _ Ht)), int_div_ok in Ep by lia. injection Ep as Ep.
    destruct (wrap_moment E L s HE H B Ew Hc n ltac:(lia)) as [X|(a & Ha & Ia & Ea)]; [rewrite X in M1 by lia; discriminate|].
    destruct (wrap_moment E L s HE H B Ew Hc N ltac:(lia)) as [X|(b & Hb & Ib & Eb)]; [rewrite X in M1 by lia; discriminate|].
    assert (a = b) as -> by (apply Nat.le_antisymm; [apply Ia; [|apply Ib; [lia|]]|apply Ib; [|apply Ia]]; try lia;
      destruct (Nat.le_gt_cases b n); [lia|exfalso; assert (b <= n)%nat; [apply Ib; [lia|now rewrite <- M1]|lia]]).
    intros m Hm. rewrite <- trace_pairs, (Ib m Hm). lia.
  - assert (Ks : k <> KSP) by (destruct Hb as [-> | ->]; discriminate).
    destruct (p_C82 E k L s f HE Ks (new_plain _ _ _ _ _ E1) Hf) as (s' & Er & _ & W). destruct (W H3) as (q & Ep & Hq & Hw).
    assert (Es : after E s [CRun f] = s') by (cbn [after fold_left exec]; now rewrite Er). rewrite Es. exists q. split; [exact Ep|]. split; [lia|]. intros m Hm. destruct m as [|i].
    + change (after E s (pairs 0)) with s. rewrite Ew. split; [discriminate|lia].
    + destruct (run_columns E k L t s f i HE Hb E1 Hf ltac:(lia)) as (_ & _ & C). rewrite Es in C. rewrite (Hw i ltac:(lia)) in C. now symmetry.
Qed.
Lemma threshold_sum E k L t s f : env_ok E -> is_L12 k = false -> 3 <= L -> 5 * (L * L) < Z.of_nat f -> new_perc E k L t = Ok s ->
  (threshold (after E s [CRun f]) = / INR (Z.to_nat (L * L)) * sum_of (map (fun j => if after_wrap (after E s (pairs j)) then 0 else 1) (seq 0 (Z.to_nat (L * L)))))%R.
Proof.
  intros HE Hk H3 Hf E1. assert (HLL : 0 < L * L) by nia. set (N := Z.to_nat (L * L)).
  destruct (threshold_at E k L t s f HE Hk H3 Hf E1) as (q & Ep & Hq & Hw). unfold threshold. rewrite Ep. cbn [feval].
  rewrite (map_ext_in _ (fun j => if Z.of_nat j <? q then 1 else 0)%R).
  - rewrite sum_below. replace (Z.max 0 (Z.min q (Z.of_nat N))) with q by (unfold N; lia).
    replace (INR N) with (IZR (L * L)) by (unfold N; rewrite INR_IZR_INZ; f_equal; lia). unfold Rdiv. ring.
  - intros j Hj. apply in_seq in Hj. specialize (Hw j ltac:(unfold N in *; lia)).
    destruct (after_wrap (after E s (pairs j))), (Z.ltb_spec (Z.of_nat j) q); auto; [assert (q <= Z.of_nat j) by (now apply Hw); lia|].
    assert (false = true) by (apply Hw; lia). discriminate.
Qed.
Lemma p_C122_threshold ord d0 k L f : env_ok (mkEnv ord d0) -> k <> KL1 -> k <> KL2 -> 3 <= L -> 5 * (L * L) < Z.of_nat f ->
  let N := Z.to_nat (L * L) in
  exists (w c : nat -> Z) one mu,
    (forall m, (m < N)%nat -> 0 < c m /\ how_many (site_set L m) (c m) /\ how_many (fun S => site_set L m S /\ wraps L (among S)) (w m)) /\
    mu = (sum_of (map (fun m => 1 - IZR (w m) / IZR (c m)) (seq 0 N)) / INR N)%R /\
    (forall d t s, new_perc (mkEnv ord d) k L t = Ok s -> threshold (after (mkEnv ord d) s [CRun f]) = one (choices (mkEnv ord d) t N)) /\
    average (random_choices N) one mu /\
    forall eps share, (0 < eps)%R -> (0 < share)%R -> exists n0, forall E0 s0 n, env_ok E0 -> reachable_no_custom E0 k L s0 -> (n0 <= n)%nat -> exists all,
      (forall d c, choice_lists N n c -> drawn (mkEnv ord d) (tick s0) N c ->
         mean_of (map threshold (series (mkEnv ord d) (exec (mkEnv ord d) s0 CReset) [CRun f] n)) = all c) /\
      rarely (choice_lists N n) (fun c => eps <= Rabs (all c - mu))%R share.
Proof.
  intros HE K1 K2 H3 Hf N. assert (HL : 0 < L) by lia. pose proof (plain_kind k K1 K2) as Hk.
  assert (Hs : starts [CRun f]) by (destruct f; [lia|exact I]).
  assert (Hr : Forall realizing [CRun f]) by (constructor; [exact I|constructor]).
  destruct (p_C115_converge ord d0 k L [CRun f] threshold HE K1 K2 HL Hr Hs) as (one & mu & A1 & A2 & A3).
  { intros s s' H. unfold same_realization in H. destruct H as (_ & Hl & _ & _ & _ & _ & _ & _ & _ & _ & _ & _ & _ & Ha & _ & Hp & _). unfold threshold, get_pc. now rewrite Hl, Ha, Hp. }
  destruct (pick Nat.eq_dec (fun m (z : (list Z -> bool) * (Z * Z)) => let '(b, (w, c)) := z in
     (forall S, site_set L m S -> (b S = true <-> wraps L (among S))) /\ 0 < c /\ how_many (site_set L m) c /\
     how_many (fun S => site_set L m S /\ wraps L (among S)) w /\
     average (random_choices N) (fun v => if b (set_at L m v) then 0 else 1)%R (1 - IZR w / IZR c)%R) (fun _ => true, (0, 0)) (seq 0 N)) as (g & Hg).
  { intros m Hm. apply in_seq in Hm. destruct (sets_without L k m H3 Hk ltac:(unfold N in *; lia)) as (b & w & c & Q). exists (b, (w, c)). exact Q. }
  assert (Hg' : forall m, (m < N)%nat -> let b := fst (g m) in let w := fst (snd (g m)) in let c := snd (snd (g m)) in
     (forall S, site_set L m S -> (b S = true <-> wraps L (among S))) /\ 0 < c /\ how_many (site_set L m) c /\
     how_many (fun S => site_set L m S /\ wraps L (among S)) w /\
     average (random_choices N) (fun v => if b (set_at L m v) then 0 else 1)%R (1 - IZR w / IZR c)%R).
  { intros m Hm. assert (Q := Hg m ltac:(apply in_seq; lia)). destruct (g m) as (b & w & c). exact Q. }
  exists (fun m => fst (snd (g m))), (fun m => snd (snd (g m))), one, mu. split; [intros m Hm; destruct (Hg' m Hm) as (_ & Q1 & Q2 & Q3 & _); auto|].
  split; [|auto]. apply (average_fun (random_choices N) one); auto.
  destruct (choices_enum L HL) as (la & Nla & Ila & Hla).
  assert (T : average (random_choices N) (fun v => / INR N * sum_of (map (fun m => if fst (g m) (set_at L m v) then 0 else 1) (seq 0 N)))%R
     (/ INR N * sum_of (map (fun m => 1 - IZR (fst (snd (g m))) / IZR (snd (snd (g m)))) (seq 0 N)))%R).
  { apply average_scale. apply (average_total (random_choices N) (fun m v => if fst (g m) (set_at L m v) then 0 else 1)%R); [exists la; auto|].
    intros m Hm. apply in_seq in Hm. apply (Hg' m). lia. }
  rewrite Rmult_comm in T. eapply average_ext; [|exact T]. intros v Hv. cbn beta.
  destruct (env_at ord k L HL v Hv) as (d & s & E1 & Ec). pose proof (A1 d 0%nat s E1) as Q. fold N in Ec. unfold N in Q. fold N in Q. rewrite Ec in Q. rewrite <- Q.
  rewrite (threshold_sum (mkEnv ord d) k L 0 s f HE Hk H3 Hf E1). fold N. f_equal. f_equal. apply map_ext_in. intros m Hm. apply in_seq in Hm.
  destruct (set_shown ord k L HE HL Hk d s v m E1 Hv Ec ltac:(unfold N in *; lia)) as (HS & Sh). destruct (Hg' m ltac:(lia)) as (Hbm & _).
  assert (W : after_wrap (after (mkEnv ord d) s (pairs m)) = true <-> fst (g m) (set_at L m v) = true).
  { rewrite (Hbm _ HS), (wrap_prefix k L 0 HL Hk H3 (mkEnv ord d) s m HE E1 ltac:(unfold N in *; lia)).
    pose proof (shows_firstn k L 0 Hk (mkEnv ord d) s m _ HE E1 HS Sh) as I. split; apply Critical.wraps_mono; intros i _; apply I. }
  destruct (after_wrap _), (fst (g m) _); auto; [discriminate (proj1 W eq_refl)|discriminate (proj2 W eq_refl)].
Qed.
