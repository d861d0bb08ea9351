(** * ProgProps: what the demonstration programs print (C88 to C91). *)
From Coq Require Import String ZArith List Bool Lia Permutation.
From Verif Require Import Py Lattice Cluster Perc Run View Script Programs Spec PyFacts Torus Geometry LatFacts Inv Merge Count Fresh Select State Step History Reach
  Micro StateProps StateProps2 Comm Seq Wrap RunBase RunProps RunProps2 Cand Cycle CandRun CandProps Lines Normal Stop Critical Drive LatSpec ViewSpec ViewProps SelfTest EnsSpec Ens Curves Late Grow SuiteProps ProgSpec.
Import ListNotations.
Open Scope Z_scope.

Definition out {A} (r : res (list A)) : list A := match r with Ok l => l | Err _ => [] end.
Lemma detect_answer L s x : Inv L s -> sel_id s = Some x ->
  detect_wrapping s = (fst (detect_wrapping s), Ok (after_wrap (fst (detect_wrapping s)))).
Proof.
  intros H Ex. rewrite (detect_ok L) by apply H. unfold detect_res. rewrite Ex.
  destruct (after_wrap s) eqn:Ew; [cbn [fst]; now rewrite Ew|]. destruct (hitb L (lat s) x); cbn [fst]; [reflexivity|now rewrite Ew].
Qed.

Lemma flat_shift {A} (g : nat -> list A) a n : flat_map g (seq (S a) n) = flat_map (fun i => g (S i)) (seq a n).
Proof. rewrite <- seq_shift, flat_map_concat_map, map_map. now rewrite flat_map_concat_map. Qed.

Section Loops.
Variables (E : env) (L : Z).
Hypothesis HE : env_ok E.

(** ** With detection *)
Lemma show_detect pre post : (forall t, Inv L t -> pre t = Ok (out (pre t))) -> (forall w t, Inv L t -> post w t = Ok (out (post w t))) ->
  forall f s, Plain L s -> rem L s < Z.of_nat f ->
  let N := Z.to_nat (rem L s) in
  show_loop E pre (Some post) f s = (fst (place_one_site E (trace E N s)),
    Ok (flat_map (fun n => out (pre (fst (place_one_site E (trace E n s)))) ++
                           out (post (after_wrap (trace E (S n) s)) (trace E (S n) s))) (seq 0 N))) /\
  Plain L (trace E N s) /\ rem L (trace E N s) = 0 /\ kind (trace E N s) = kind s.
Proof.
  intros Hpre Hpost. induction f as [|f IH]; intros s P Hf; [pose proof (rem_nonneg L s P); lia|].
  cbn [show_loop]. cbv zeta. destruct (plain_place E L s HE P) as (P1 & K1 & S1 & R).
  destruct (plain_success E L s HE P) as (x & Hx & Ex & _).
  pose proof (rem_nonneg L s P) as Hn. destruct (Z.eqb_spec (rem L s) 0) as [Hz|Hz].
  { rewrite Hz. cbn [Z.to_nat seq flat_map trace]. rewrite (mbind_ok _ _ _ _ _ R). rewrite R. auto. }
  destruct R as (R1 & R2).
  assert (Ep : place_one_site E s = (fst (place_one_site E s), Ok true)) by (rewrite <- R1; apply surjective_pairing).
  set (s1 := fst (place_one_site E s)) in *. pose proof (plain_detect L s1 P1) as (P2 & M2).
  pose proof (detect_answer L s1 x (proj1 P1) Ex) as Ed. set (s2 := fst (detect_wrapping s1)) in *.
  assert (K2 : kind s2 = kind s1) by (destruct (detect_seqv L s1 (proj1 P1)) as (Q & _); destruct (seqv_eqs _ _ Q) as (Qk & _); exact Qk).
  rewrite (mbind_ok _ _ _ _ _ Ep). rewrite (mbind_ok _ _ s1 s1 s1) by reflexivity.
  rewrite (mbind_ok _ _ s1 s1 (out (pre s1))) by (unfold lift; now rewrite <- Hpre by apply P1).
  assert (Eb : (do w <~ detect_wrapping ; do s0 <~ get ; lift (post w s0)) s1 = (s2, Ok (out (post (after_wrap s2) s2)))).
  { rewrite (mbind_ok _ _ _ _ _ Ed). rewrite (mbind_ok _ _ s2 s2 s2) by reflexivity. unfold lift. now rewrite <- Hpost by apply P2. }
  rewrite (mbind_ok _ _ _ _ _ Eb). destruct (IH s2 P2 ltac:(lia)) as (Er & Pe & Re & Ke).
  replace (Z.to_nat (rem L s)) with (S (Z.to_nat (rem L s2))) by lia.
  change (trace E (S (Z.to_nat (rem L s2))) s) with (trace E (Z.to_nat (rem L s2)) s2).
  split; [|split; [auto|split; [auto|congruence]]].
  rewrite (mbind_ok _ _ _ _ _ Er). unfold ret. cbn [seq flat_map trace]. do 2 f_equal. rewrite <- app_assoc. do 2 f_equal.
  rewrite flat_shift. reflexivity.
Qed.
(** ** Without *)
Lemma placed_S n s : placed E (S n) s = placed E n (fst (place_one_site E s)).
Proof. reflexivity. Qed.
Lemma show_plain pre : (forall t, Inv L t -> pre t = Ok (out (pre t))) ->
  forall f s, Plain L s -> rem L s < Z.of_nat f ->
  let N := Z.to_nat (rem L s) in
  show_loop E pre None f s = (fst (place_one_site E (placed E N s)), Ok (flat_map (fun n => out (pre (placed E n s))) (seq 1 N))) /\
  Plain L (placed E N s) /\ rem L (placed E N s) = 0 /\ kind (placed E N s) = kind s.
Proof.
  intros Hpre. induction f as [|f IH]; intros s P Hf; [pose proof (rem_nonneg L s P); lia|].
  cbn [show_loop]. cbv zeta. destruct (plain_place E L s HE P) as (P1 & K1 & S1 & R).
  pose proof (rem_nonneg L s P) as Hn. destruct (Z.eqb_spec (rem L s) 0) as [Hz|Hz].
  { rewrite Hz. cbn [Z.to_nat seq flat_map]. change (placed E 0 s) with s. rewrite (mbind_ok _ _ _ _ _ R). rewrite R. auto. }
  destruct R as (R1 & R2).
  assert (Ep : place_one_site E s = (fst (place_one_site E s), Ok true)) by (rewrite <- R1; apply surjective_pairing).
  set (s1 := fst (place_one_site E s)) in *.
  rewrite (mbind_ok _ _ _ _ _ Ep). rewrite (mbind_ok _ _ s1 s1 s1) by reflexivity.
  rewrite (mbind_ok _ _ s1 s1 (out (pre s1))) by (unfold lift; now rewrite <- Hpre by apply P1).
  rewrite (mbind_ok _ _ s1 s1 []) by reflexivity.
  destruct (IH s1 P1 ltac:(lia)) as (Er & Pe & Re & Ke).
  replace (Z.to_nat (rem L s)) with (S (Z.to_nat (rem L s1))) by lia.
  rewrite placed_S. fold s1. split; [|split; [auto|split; [auto|congruence]]].
  rewrite (mbind_ok _ _ _ _ _ Er). unfold ret. cbn [seq flat_map]. do 2 f_equal.
  change (placed E 1 s) with s1. cbn [app]. f_equal.
  rewrite (flat_shift _ 1). reflexivity.
Qed.

(** ** The first hit *)
Lemma trace_snoc n : forall s, trace E (S n) s = advance E (trace E n s).
Proof. induction n as [|n IH]; intros s; [reflexivity|]. change (trace E (S (S n)) s) with (trace E (S n) (advance E s)). now rewrite IH. Qed.
Lemma trace_inv n : forall s, Inv L s -> Inv L (trace E n s).
Proof. induction n as [|n IH]; intros s H; auto. cbn [trace]. apply IH. apply detect_inv, place_inv; auto. Qed.
Lemma trace_tr n : forall s, Tr L s -> Tr L (trace E n s).
Proof. induction n as [|n IH]; intros s H; auto. cbn [trace]. apply IH. now apply tr_advance. Qed.
Lemma trace_plain n : forall s, Plain L s -> Plain L (trace E n s).
Proof.
  induction n as [|n IH]; intros s P; auto. cbn [trace]. apply IH. destruct (plain_place E L s HE P) as (P1 & _).
  now destruct (plain_detect L _ P1).
Qed.
Lemma hit_dec s : Inv L s -> after_wrap s = false -> forall N,
  (forall n, (n <= N)%nat -> after_wrap (trace E n s) = false) \/
  exists m, (m <= N)%nat /\ first_hit E s N m /\ pc_occ (trace E N s) = occ_count (trace E m s).
Proof.
  intros H Hw. induction N as [|N IH].
  { left. intros n Hn. replace n with O by lia. exact Hw. }
  pose proof (trace_inv N s H) as HN. rewrite trace_snoc. destruct (place_core E L _ HE HN) as (Cw & Cp).
  pose proof (place_inv E L _ HE HN) as H1. unfold advance. set (t := trace E N s) in *. set (t1 := fst (place_one_site E t)) in *.
  destruct IH as [IH|(m & Hm & (M1 & M2) & Mp)].
  - destruct (after_wrap (fst (detect_wrapping t1))) eqn:Ew.
    + right. exists (S N). split; auto. split.
      * split; [lia|]. intros n Hn. destruct (Nat.eq_dec n (S N)) as [->|Hne].
        -- rewrite trace_snoc. unfold advance. fold t. fold t1. rewrite Ew. split; auto.
        -- rewrite IH by lia. split; [discriminate|lia].
      * rewrite trace_snoc. unfold advance. fold t. fold t1. destruct (detect_fields L t1 H1) as (_ & _ & _ & D4 & _).
        specialize (IH N ltac:(lia)). fold t in IH. rewrite D4. revert Ew. rewrite (detect_ok L) by apply H1. unfold detect_res.
        rewrite Cw, IH. destruct (sel_id t1); [|cbn; congruence]. destruct (hitb L (lat t1) z); cbn; congruence.
    + left. intros n Hn. destruct (Nat.eq_dec n (S N)) as [->|Hne]; [|apply IH; lia]. rewrite trace_snoc. exact Ew.
  - right. assert (Ht : after_wrap t = true) by (apply M2; lia).
    pose proof (pcAt_detect L _ t1 (pcAt_place E L (pc_occ t) t HE (conj HN (conj Ht eq_refl)))) as (_ & A1 & A2).
    exists m. split; [lia|]. split; [|congruence]. split; auto. intros n Hn. destruct (Nat.eq_dec n (S N)) as [->|Hne]; [|apply M2; lia].
    rewrite trace_snoc. unfold advance. fold t. fold t1. rewrite A1. split; auto.
Qed.
End Loops.

(** ** The hit of a complete run *)
Lemma hit_run E k L s : env_ok E -> fresh_plain E k L s ->
  let N := Z.to_nat (match k with KL1 | KL2 => 5 * (L * L) | _ => L * L end) in
  exists m, first_hit E s N m /\
    (3 <= L -> (m <= N)%nat /\ exists c, get_pc (trace E N s) = Ok (FDiv (FZ c) (FZ (L * L))) /\ occ_count (trace E m s) = c) /\
    (L <= 2 -> m = S N).
Proof.
  intros HE HF N. destruct (fresh_plain_Plain E k L s HE HF) as (P & Ek & F & Hr). pose proof (fresh_tr L s F) as T.
  pose proof (LL_pos L (i_pos _ _ (proj1 P))) as HLL. pose proof (proj1 (fs_wrap _ _ F)) as Hw.
  destruct (show_detect E L HE (fun _ => Ok []) (fun _ _ => Ok []) ltac:(reflexivity) ltac:(reflexivity) (S (Z.to_nat (rem L s))) s P ltac:(pose proof (rem_nonneg L s P); lia)) as (_ & Pe & Re & _).
  replace (Z.to_nat (rem L s)) with N in * by (unfold N; rewrite Hr; destruct k; reflexivity).
  pose proof (trace_tr E L HE N s T) as TN. pose proof (proj1 Pe) as HN.
  assert (Small : L <= 2 -> forall n, after_wrap (trace E n s) = false).
  { intros H2 n. apply (small_no_wrap L); auto. apply trace_inv; auto. apply P. }
  destruct (hit_dec E L HE s (proj1 P) Hw N) as [A|(m & Hm & A & Ap)].
  - exists (S N). split; [|split; [|auto]].
    + split; [lia|]. intros n Hn. rewrite A by auto. split; [discriminate|lia].
    + intros H3. exfalso. assert (Q : after_wrap (trace E N s) = true).
      { apply (full_flat_wraps L); [apply (proj2 TN H3)|]. intros i Hi. apply (occupied_occ L); auto; [apply (i_static _ _ HN)|]. now apply (rem_zero_full L). }
      rewrite A in Q by auto. discriminate.
  - exists m. split; auto. split.
    + intros H3. split; auto. exists (pc_occ (trace E N s)). split; [|auto]. unfold get_pc.
      assert (Q : after_wrap (trace E N s) = true) by (apply A; auto). rewrite Q. unfold int_div. rewrite (st_sc _ _ (i_static _ _ HN)).
      destruct (Z.eqb_spec (L * L) 0); [lia|reflexivity].
    + intros H2. exfalso. pose proof (Small H2 m) as Q. destruct A as (_ & A). assert (after_wrap (trace E m s) = true) by (apply A; lia). congruence.
Qed.
Lemma base_occ E k L s : env_ok E -> k <> KL1 -> k <> KL2 -> fresh_plain E k L s -> forall n, Z.of_nat n <= L * L -> occ_count (trace E n s) = Z.of_nat n.
Proof.
  intros HE H1 H2 HF n Hn. assert (Hk : is_L12 k = false) by (destruct k; try reflexivity; congruence).
  destruct (fresh_plain_runB E k L s HE Hk HF) as (I0 & B & Hl & Hc).
  destruct (runB_trace E L n HE s I0 B) as (_ & B2 & E2 & _); [lia|]. rewrite (rb_cnt _ _ B2), E2, Hc. lia.
Qed.

(** ** Pieces *)
Lemma view_out L s f : Inv L s -> view_of f s = Ok [shown f s].
Proof. intros H. destruct (view_ok L s f H) as (t & Et). unfold view_of, shown. now rewrite Et. Qed.
Lemma view_total L f : forall t, Inv L t -> view_of f t = Ok (out (view_of f t)).
Proof. intros t H. now rewrite (view_out L). Qed.
Lemma values_out L s : Inv L s -> values_of true s = Ok [values_line s].
Proof.
  intros H. destruct (obs_ok L s H) as (A1 & A2 & A3). pose proof (entropy_v1_ok L s H) as A4.
  unfold values_of, values_line, num. rewrite A1, A2, A3, A4. reflexivity.
Qed.
Lemma place_lat_shown f L s : Inv L s -> shown f (fst (detect_wrapping s)) = shown f s.
Proof.
  intros H. unfold shown, viewLattice. destruct (detect_fields L s H) as (D1 & _). rewrite D1. reflexivity.
Qed.
Lemma flat_one {A B} (g : A -> B) l : flat_map (fun x => [g x]) l = map g l.
Proof. induction l as [|x l IH]; cbn; [reflexivity|now rewrite IH]. Qed.
Lemma seq_map_shift {B} (g : nat -> B) a n : map g (seq (S a) n) = map (fun i => g (S i)) (seq a n).
Proof. now rewrite <- seq_shift, map_map. Qed.
Lemma map_seq_ext {B} (g h : nat -> B) a n : (forall i, (a <= i < a + n)%nat -> g i = h i) -> map g (seq a n) = map h (seq a n).
Proof. intros H. apply map_ext_in. intros i Hi. apply in_seq in Hi. now apply H. Qed.
Lemma flat_seq_ext {B} (g h : nat -> list B) a n : (forall i, (a <= i < a + n)%nat -> g i = h i) -> flat_map g (seq a n) = flat_map h (seq a n).
Proof. intros H. rewrite !flat_map_concat_map. f_equal. now apply map_seq_ext. Qed.
Lemma new_fresh_plain E k L t0 s0 : new_perc E k L t0 = Ok s0 -> fresh_plain E k L s0.
Proof. intros H. left. now exists t0. Qed.
Lemma get_pc_flag s f : get_pc (set_sel_flag f s) = get_pc s.
Proof. reflexivity. Qed.
Lemma final_flag E L s : env_ok E -> Plain L s -> rem L s = 0 -> fst (place_one_site E s) = set_sel_flag (Some EMPTY_SITE_LIST) s.
Proof. intros HE P Hr. destruct (plain_place E L s HE P) as (_ & _ & _ & R). rewrite Hr in R. cbn in R. now rewrite R. Qed.
Lemma full_occupied L s : Plain L s -> rem L s = 0 -> forall i, is_site L i -> occupied s i.
Proof. intros P Hr i Hi. apply (occupied_occ L); auto; [apply (i_static _ _ (proj1 P))|]. now apply (rem_zero_full L). Qed.

(** ** C88: the announcements *)
Lemma announce_run E L s f : env_ok E -> fresh_plain E KBase L s -> L * L < Z.of_nat f ->
  let N := Z.to_nat (L * L) in
  exists m, first_hit E s N m /\
    (3 <= L -> get_pc (fst (place_one_site E (trace E N s))) = Ok (FDiv (FZ (Z.of_nat m)) (FZ (L * L))) /\ (m <= N)%nat) /\
    (L <= 2 -> m = S N) /\
    show_loop E (view_of 3) (Some announce) f s = (fst (place_one_site E (trace E N s)), Ok (announced E m N s)).
Proof.
  intros HE HF Hf N. destruct (fresh_plain_Plain E KBase L s HE HF) as (P & Ek & F & Hr). cbn [is_L12] in Hr.
  destruct (hit_run E KBase L s HE HF) as (m & A & B & C). cbv iota in A, B, C. fold N in A, B, C.
  destruct (show_detect E L HE (view_of 3) announce (view_total L 3) ltac:(reflexivity) f s P ltac:(lia)) as (Es & Pe & Re & _).
  rewrite Hr in Es, Pe, Re. fold N in Es, Pe, Re. exists m. split; auto. split; [|split; [auto|]].
  - intros H3. destruct (B H3) as (B1 & c & B2 & B3). split; auto. rewrite (final_flag E L) by auto. rewrite get_pc_flag, B2.
    rewrite (base_occ E KBase L) in B3; [now subst c|auto|discriminate|discriminate|auto|]. unfold N in B1. lia.
  - rewrite Es. do 2 f_equal. unfold announced. rewrite (flat_shift _ 0). apply flat_seq_ext. intros n Hn.
    pose proof (trace_inv E L HE n s (proj1 P)) as Hn1. pose proof (place_inv E L _ HE Hn1) as Hn2.
    rewrite (view_out L) by auto. cbn [out app announce]. f_equal.
    + rewrite trace_snoc. unfold advance. now rewrite (place_lat_shown 3 L).
    + destruct A as (_ & A). specialize (A (S n) ltac:(lia)). unfold announce. cbn [out]. destruct (after_wrap (trace E (S n) s)).
      * destruct (Nat.leb_spec m (S n)); [reflexivity|]. exfalso. assert (m <= S n)%nat by now apply A. lia.
      * destruct (Nat.leb_spec m (S n)); [|reflexivity]. assert (false = true) by now apply A. discriminate.
Qed.
Lemma trace_no_custom E k L : forall n s, reachable_no_custom E k L s -> reachable_no_custom E k L (trace E n s).
Proof.
  induction n as [|n IH]; intros s H; auto. cbn [trace]. apply IH. destruct H as (t0 & z & cs & A1 & A2 & A3 & ->).
  exists t0, z, (cs ++ [CPlace; CDetect]). split; auto. split; [apply Forall_app; split; auto; repeat constructor|].
  split; [apply Forall_app; split; auto; repeat constructor|]. unfold after. rewrite fold_left_app. reflexivity.
Qed.
Lemma place_no_custom E k L s : reachable_no_custom E k L s -> reachable_no_custom E k L (fst (place_one_site E s)).
Proof.
  intros (t0 & z & cs & A1 & A2 & A3 & ->). exists t0, z, (cs ++ [CPlace]). split; auto. split; [apply Forall_app; split; auto; repeat constructor|].
  split; [apply Forall_app; split; auto; repeat constructor|]. unfold after. rewrite fold_left_app. reflexivity.
Qed.

Lemma p_C88 E L t0 s0 f : env_ok E -> new_perc E KBase L t0 = Ok s0 -> L * L < Z.of_nat f ->
  let N := Z.to_nat (L * L) in
  let final s := fst (place_one_site E (trace E N s)) in
  let s1 := fst (reset E (final s0)) in
  exists m0 m1, first_hit E s0 N m0 /\ first_hit E s1 N m1 /\
    (3 <= L -> get_pc (final s0) = Ok (FDiv (FZ (Z.of_nat m0)) (FZ (L * L))) /\ (m0 <= N)%nat /\
               get_pc (final s1) = Ok (FDiv (FZ (Z.of_nat m1)) (FZ (L * L))) /\ (m1 <= N)%nat) /\
    (L <= 2 -> m0 = S N /\ m1 = S N) /\
    test_relative_index_L0 E f L t0 = Ok (announced E m0 N s0) /\
    test_reset_relative_index E f L t0 =
      Ok (announced E m0 N s0 ++ [[TStr "Resetting now ************** <<<<<<<<<<"%string]] ++ announced E m1 N s1).
Proof.
  intros HE H0 Hf N final s1. pose proof (new_fresh_plain _ _ _ _ _ H0) as HF.
  assert (HF1 : fresh_plain E KBase L s1).
  { right. exists (final s0). split; [|reflexivity]. apply place_no_custom, trace_no_custom. now apply (new_no_custom E KBase L t0). }
  destruct (announce_run E L s0 f HE HF Hf) as (m0 & A0 & B0 & C0 & D0). fold N in A0, B0, C0, D0.
  destruct (announce_run E L s1 f HE HF1 Hf) as (m1 & A1 & B1 & C1 & D1). fold N in A1, B1, C1, D1.
  exists m0, m1. split; auto. split; auto. split; [intros H3; destruct (B0 H3), (B1 H3); auto|]. split; [auto|].
  unfold test_relative_index_L0, test_reset_relative_index. rewrite H0. cbn [rbind]. rewrite D0. split; [reflexivity|]. cbn [rbind].
  assert (Er : reset E (final s0) = (s1, Ok tt)).
  { pose proof (trace_inv E L HE N s0) as Q. destruct (fresh_plain_Plain E KBase L s0 HE HF) as (P & _). specialize (Q (proj1 P)).
    destruct (reset_inv E L (final s0)) as (x & Ex & _); [apply place_inv; auto|]. unfold s1. now rewrite Ex. }
  unfold final in Er. rewrite Er. cbn [rbind]. rewrite D1. reflexivity.
Qed.
