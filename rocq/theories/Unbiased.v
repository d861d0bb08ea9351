(** * Unbiased: every order of the sites comes from exactly one choice of random
    indices (C61). *)
From Coq Require Import ZArith List Bool Lia Permutation.
From Verif Require Import Py Lattice Cluster Perc Spec PyFacts Torus Geometry LatFacts Inv Merge Count Fresh Select State Step History Reach Micro Seq RunBase RunProps Cycle Sim.
Import ListNotations.
Open Scope Z_scope.

(** ** The Fisher-Yates loop *)
Lemma swap_at_length l i j : length (swap_at l i j) = length l.
Proof. symmetry. apply Permutation_length, swap_at_perm. Qed.
Lemma swap_at_nth l i j x : (i < length l)%nat -> (j < length l)%nat ->
  nth x (swap_at l i j) 0 = if (x =? j)%nat then nth i l 0 else if (x =? i)%nat then nth j l 0 else nth x l 0.
Proof.
  intros Hi Hj. unfold swap_at. destruct (nth_error l i) as [a|] eqn:Ea; [|apply nth_error_None in Ea; lia].
  destruct (nth_error l j) as [b|] eqn:Eb; [|apply nth_error_None in Eb; lia].
  apply (nth_error_nth _ _ 0) in Ea. apply (nth_error_nth _ _ 0) in Eb.
  rewrite upd_nth_nat by (now rewrite upd_length). rewrite upd_nth_nat by auto. now rewrite Ea, Eb.
Qed.
Lemma shuffle_from_length E k : forall t l, length (fst (shuffle_from E k t l)) = length l.
Proof. intros t l. symmetry. apply Permutation_length, shuffle_from_perm. Qed.
(** Entries above [k] stay where they are. *)
Lemma shuffle_from_above E k : forall t l x, (k < x)%nat -> (k < length l)%nat -> nth x (fst (shuffle_from E k t l)) 0 = nth x l 0.
Proof.
  induction k as [|k IH]; intros t l x Hx Hl; [reflexivity|]. cbn [shuffle_from].
  set (j := Z.to_nat (e_draw E t mod (Z.of_nat (S k) + 1))).
  assert (Hj : (j <= S k)%nat) by (unfold j; pose proof (Z.mod_pos_bound (e_draw E t) (Z.of_nat (S k) + 1)); lia).
  rewrite IH by (rewrite ?swap_at_length; lia). rewrite swap_at_nth by lia.
  destruct (Nat.eqb_spec x j); [lia|]. destruct (Nat.eqb_spec x (S k)); [lia|]. reflexivity.
Qed.
(** The first index drawn decides which entry ends at position [k]. *)
Lemma shuffle_from_top E k t l : (S k < length l)%nat ->
  nth (S k) (fst (shuffle_from E (S k) t l)) 0 = nth (Z.to_nat (e_draw E t mod (Z.of_nat (S k) + 1))) l 0.
Proof.
  intros Hl. cbn [shuffle_from]. set (j := Z.to_nat (e_draw E t mod (Z.of_nat (S k) + 1))).
  assert (Hj : (j <= S k)%nat) by (unfold j; pose proof (Z.mod_pos_bound (e_draw E t) (Z.of_nat (S k) + 1)); lia).
  rewrite shuffle_from_above by (rewrite ?swap_at_length; lia). rewrite swap_at_nth by lia.
  destruct (Nat.eqb_spec (S k) j) as [<-|]; [reflexivity|]. now rewrite Nat.eqb_refl.
Qed.

Definition draws (E : env) (t k : nat) : list Z := map (fun m => e_draw E (t + m) mod Z.of_nat (S k - m)) (seq 0 k).
Lemma draws_S E t k : draws E t (S k) = e_draw E t mod (Z.of_nat (S k) + 1) :: draws E (S t) k.
Proof.
  unfold draws. cbn [seq map]. f_equal.
  - replace (t + 0)%nat with t by lia. f_equal. lia.
  - rewrite <- seq_shift, map_map. apply map_ext. intros m. replace (t + S m)%nat with (S t + m)%nat by lia. f_equal.
Qed.
Lemma shuffle_from_ext2 E E' k : forall t t' l, draws E t k = draws E' t' k -> fst (shuffle_from E k t l) = fst (shuffle_from E' k t' l).
Proof.
  induction k as [|k IH]; intros t t' l H; [reflexivity|]. rewrite !draws_S in H. pose proof (f_equal (hd 0) H) as H1. pose proof (f_equal (@tl Z) H) as H2. cbn [hd tl] in H1, H2. cbn [shuffle_from].
  rewrite H1. now apply IH.
Qed.
Lemma shuffle_from_inj E E' k : forall t t' l, NoDup l -> (k < length l)%nat ->
  fst (shuffle_from E k t l) = fst (shuffle_from E' k t' l) -> draws E t k = draws E' t' k.
Proof.
  induction k as [|k IH]; intros t t' l Nd Hl Heq; [reflexivity|]. rewrite !draws_S.
  assert (Q : nth (Z.to_nat (e_draw E t mod (Z.of_nat (S k) + 1))) l 0 = nth (Z.to_nat (e_draw E' t' mod (Z.of_nat (S k) + 1))) l 0).
  { rewrite <- !shuffle_from_top by auto. now rewrite Heq. }
  pose proof (Z.mod_pos_bound (e_draw E t) (Z.of_nat (S k) + 1)) as B1. pose proof (Z.mod_pos_bound (e_draw E' t') (Z.of_nat (S k) + 1)) as B2.
  apply (NoDup_nth l 0) in Q; auto; [|lia|lia]. assert (Q' : e_draw E t mod (Z.of_nat (S k) + 1) = e_draw E' t' mod (Z.of_nat (S k) + 1)) by lia.
  rewrite Q'. f_equal. cbn [shuffle_from] in Heq. rewrite Q' in Heq.
  apply (IH (S t) (S t') (swap_at l (S k) (Z.to_nat (e_draw E' t' mod (Z.of_nat (S k) + 1))))); auto.
  - eapply Permutation_NoDup; [apply swap_at_perm|exact Nd].
  - rewrite swap_at_length. lia.
Qed.

(** Drawing given indices. *)
Definition with_draws (t : nat) (c : list Z) : env := mkEnv (nodup Z.eq_dec) (fun n => nth (n - t) c 0).
Lemma with_draws_ok t c : env_ok (with_draws t c).
Proof. intros l. split; [apply NoDup_nodup|]. intros x. apply nodup_In. Qed.
Definition in_range (k : nat) (c : list Z) : Prop :=
  length c = k /\ forall m, (m < k)%nat -> 0 <= nth m c 0 < Z.of_nat (S k - m).
Lemma draws_with t k c : in_range k c -> draws (with_draws t c) t k = c.
Proof.
  intros (Hl & Hb). apply (nth_ext _ _ 0 0); unfold draws; rewrite map_length, seq_length; [auto|]. intros m Hm.
  rewrite (nth_indep _ 0 ((fun m => e_draw (with_draws t c) (t + m) mod Z.of_nat (S k - m)) 0%nat)) by (rewrite map_length, seq_length; auto).
  rewrite (map_nth (fun m => e_draw (with_draws t c) (t + m) mod Z.of_nat (S k - m))), seq_nth by auto. cbn [with_draws e_draw].
  replace (t + (0 + m) - t)%nat with m by lia. cbn [Nat.add]. apply Z.mod_small. now apply Hb.
Qed.
Lemma shuffle_from_surj k : forall t l l', NoDup l -> (k < length l)%nat -> Permutation l l' ->
  (forall x, (k < x)%nat -> nth x l' 0 = nth x l 0) ->
  exists c, in_range k c /\ forall E, draws E t k = c -> fst (shuffle_from E k t l) = l'.
Proof.
  induction k as [|k IH]; intros t l l' Nd Hl P Hab.
  - exists []. split; [split; [reflexivity|lia]|]. intros E _. cbn. symmetry.
    pose proof (Permutation_length P) as Hlen.
    destruct l as [|a l]; [cbn in Hl; lia|]. destruct l' as [|a' l']; [discriminate|].
    assert (l' = l). { apply (nth_ext _ _ 0 0); [cbn in Hlen; lia|]. intros x Hx. exact (Hab (S x) ltac:(lia)). }
    subst l'. f_equal. apply (Permutation_app_inv_r l [a] [a']) in P. apply Permutation_length_1 in P. auto.
  - pose proof (Permutation_length P) as Hlen.
    assert (Hin : In (nth (S k) l' 0) l) by (eapply Permutation_in; [apply Permutation_sym, P|]; apply nth_In; lia).
    apply (In_nth _ _ 0) in Hin as (j & Hj & Ej).
    assert (Hjk : (j <= S k)%nat).
    { destruct (le_lt_dec j (S k)) as [|Hlt]; auto. exfalso. rewrite <- (Hab j Hlt) in Ej.
      apply (NoDup_nth l' 0) in Ej; [lia|now apply (Permutation_NoDup P)|lia|lia]. }
    destruct (IH (S t) (swap_at l (S k) j) l') as (c & (Hc1 & Hc2) & Hc).
    + eapply Permutation_NoDup; [apply swap_at_perm|exact Nd].
    + rewrite swap_at_length. lia.
    + eapply perm_trans; [apply Permutation_sym, swap_at_perm|exact P].
    + intros x Hx. rewrite swap_at_nth by lia. destruct (Nat.eqb_spec x j) as [->|].
      * assert (j = S k) by lia. subst j. auto.
      * destruct (Nat.eqb_spec x (S k)) as [->|]; [auto|]. apply Hab. lia.
    + exists (Z.of_nat j :: c). split.
      { split; [cbn; lia|]. intros [|m] Hm; cbn [nth]; [lia|]. specialize (Hc2 m ltac:(lia)). lia. }
      intros E HE. rewrite draws_S in HE. pose proof (f_equal (hd 0) HE) as H1. pose proof (f_equal (@tl Z) HE) as H2. cbn [hd tl] in H1, H2. cbn [shuffle_from]. rewrite H1, Nat2Z.id. now apply Hc.
Qed.

(** ** Through the interface *)
Lemma choices_draws E t n : (1 <= n)%nat -> choices E t n = draws E t (n - 1).
Proof.
  intros Hn. unfold choices, draws. apply map_ext_in. intros m Hm. apply in_seq in Hm. do 2 f_equal. lia.
Qed.
(** The sequence obtained is an injective function of the choices and takes every value. *)
Definition fair (l : list Z) (t : nat) (result : env -> list Z) : Prop :=
  (forall E E', result E = result E' <-> choices E t (length l) = choices E' t (length l)) /\
  (forall l', Permutation l l' -> exists E, env_ok E /\ result E = l').
Lemma random_shuffle_fair l t : NoDup l -> fair l t (fun E => fst (random_shuffle E t l)).
Proof.
  intros Nd. destruct l as [|a l0] eqn:El.
  { split; [intros E E'; cbn; tauto|]. intros l' P. apply Permutation_nil in P. subst l'. exists (with_draws 0 []). split; [apply with_draws_ok|reflexivity]. }
  rewrite <- El in *. assert (Hn : (1 <= length l)%nat) by (rewrite El; cbn; lia). clear El.
  unfold random_shuffle. replace (Nat.pred (length l)) with (length l - 1)%nat by lia. split.
  - intros E E'. rewrite !choices_draws by auto. split.
    + apply shuffle_from_inj; auto. lia.
    + apply shuffle_from_ext2.
  - intros l' P. pose proof (Permutation_length P) as Hlen. destruct (shuffle_from_surj (length l - 1) t l l') as (c & Hc & Q); auto; [lia| |].
    + intros x Hx. rewrite !nth_overflow by lia. reflexivity.
    + exists (with_draws t c). split; [apply with_draws_ok|]. apply Q. now apply draws_with.
Qed.
Lemma fair_ext l t f g : (forall E, f E = g E) -> fair l t g -> fair l t f.
Proof.
  intros H (H1 & H2). split; [intros E E'; rewrite !H; apply H1|]. intros l' P. destruct (H2 l' P) as (E & HE & Q). exists E. split; auto. now rewrite H.
Qed.
Lemma shuffle_ids E s : do_shuffle s = true -> ids (fst (shuffle E s)) = fst (random_shuffle E (tick s) (ids s)).
Proof.
  intros Hd. unfold shuffle, mbind, get. rewrite Hd, andb_false_r. destruct (random_shuffle E (tick s) (ids s)) as [l t].
  unfold modify, lift. destruct (foldM _ _ _); reflexivity.
Qed.
Definition valid_choices (n : nat) (c : list Z) : Prop :=
  length c = (n - 1)%nat /\ forall m, (m < n - 1)%nat -> 0 <= nth m c 0 < Z.of_nat (n - m).
Lemma choices_any n t c : valid_choices n c -> exists E, env_ok E /\ choices E t n = c.
Proof.
  intros (H1 & H2). exists (with_draws t c). split; [apply with_draws_ok|]. destruct n as [|n].
  { destruct c; [reflexivity|discriminate]. }
  rewrite choices_draws by lia. apply draws_with. cbn [Nat.sub] in *. rewrite Nat.sub_0_r in *. split; auto.
Qed.

Lemma p_C61 k L t : 0 < L -> let n := Z.to_nat (L * L) in
  (forall E, exists s, new_perc E k L t = Ok s) /\
  (forall E E' s s', new_perc E k L t = Ok s -> new_perc E' k L t = Ok s' ->
     (get_site_id_sequence s = get_site_id_sequence s' <-> choices E t n = choices E' t n)) /\
  (forall l, Permutation (zrange (L * L)) l -> exists E s, env_ok E /\ new_perc E k L t = Ok s /\ get_site_id_sequence s = l) /\
  (forall c, length c = (n - 1)%nat -> (forall m, (m < n - 1)%nat -> 0 <= nth m c 0 < Z.of_nat (n - m)) ->
     exists E, env_ok E /\ choices E t n = c).
Proof.
  intros HL n. pose proof (LL_pos L HL) as HLL.
  assert (Ex : forall E, exists s, new_perc E k L t = Ok s).
  { intros E. destruct (new_perc_ok E k L t HL) as (lat1 & l & t' & rv & E1 & _). eauto. }
  assert (Ids : forall E s, new_perc E k L t = Ok s -> ids s = fst (random_shuffle E t (zrange (L * L)))).
  { intros E s H. unfold new_perc in H. destruct (new_lattice L) as [l0|]; [|discriminate]. cbn [rbind] in H.
    destruct (init_clusters l0) as [[p l1]|]; [|discriminate]. cbn [rbind] in H. destruct (log_int _) as [mx|]; [|discriminate]. cbn [rbind] in H.
    match type of H with context [shuffle E ?S] => pose proof (shuffle_ids E S eq_refl) as Q; destruct (shuffle E S) as [s1 [u|e]] end; [|discriminate].
    injection H as <-. exact Q. }
  assert (Hlen : length (zrange (L * L)) = n).
  { pose proof (zlen_zrange (L * L) ltac:(lia)) as Q. unfold zlen in Q. unfold n. lia. }
  destruct (random_shuffle_fair (zrange (L * L)) t (NoDup_zrange _)) as (F1 & F2). rewrite Hlen in F1.
  split; auto. split.
  - intros E E' s s' H H'. unfold get_site_id_sequence. rewrite (Ids E s H), (Ids E' s' H'). apply F1.
  - split.
    + intros l P. destruct (F2 l P) as (E & HE & Q). destruct (Ex E) as (s & Es). exists E, s. split; auto. split; auto.
      unfold get_site_id_sequence. now rewrite (Ids E s Es).
    + intros c H1 H2. apply choices_any. split; auto.
Qed.

Lemma reset_ids E L s : Inv L s -> is_L12 (kind s) = false -> do_shuffle s = true ->
  ids (fst (reset E s)) = fst (random_shuffle E (tick s) (ids s)).
Proof.
  intros H Hk Hd. destruct (reset_split L E s H) as (s0 & E0 & C0 & _). rewrite E0.
  assert (Kd : do_shuffle s0 = do_shuffle s) by exact (f_equal do_shuffle C0).
  assert (Kt : tick s0 = tick s) by exact (f_equal tick C0). assert (Ki : ids s0 = ids s) by exact (f_equal ids C0).
  assert (Kk : kind s0 = kind s) by exact (f_equal kind C0).
  rewrite <- Kt, <- Ki, <- shuffle_ids by congruence.
  pose proof (f_equal kind (shuffle_phys E s0)) as Kp. change (kind (fst (shuffle E s0)) = kind s0) in Kp.
  unfold reset_tail, mbind. destruct (shuffle E s0) as [s1 [u|e]]; [|reflexivity]. cbn [fst] in Kp. unfold modify, get.
  match goal with |- context [kind ?S] => change (kind S) with (kind s1) end. rewrite <- Kp in Kk. rewrite <- Kk in Hk.
  destruct (kind s1); try discriminate; reflexivity.
Qed.
Lemma p_C61_reset E0 k L s : env_ok E0 -> k <> KL1 -> k <> KL2 -> reachable_no_custom E0 k L s -> let n := Z.to_nat (L * L) in
  (forall E E', get_site_id_sequence (fst (reset E s)) = get_site_id_sequence (fst (reset E' s)) <->
                choices E (tick s) n = choices E' (tick s) n) /\
  (forall l, Permutation (zrange (L * L)) l -> exists E, env_ok E /\ get_site_id_sequence (fst (reset E s)) = l).
Proof.
  intros HE Hk1 Hk2 HR n. destruct (no_custom_seqOK E0 k L s HE Hk1 Hk2 HR) as [S1 S2 S3 S4 S5 S6].
  pose proof (reachable_k_kind E0 k L s HE (no_custom_k _ _ _ _ HR)) as (H & Ek).
  assert (Nd : NoDup (ids s)) by (eapply Permutation_NoDup; [exact S4|apply NoDup_zrange]).
  assert (Hlen : length (ids s) = n).
  { pose proof (perm_zlen L _ (i_pos _ _ H) S4) as Q. unfold zlen in Q. unfold n. lia. }
  destruct (fair_ext (ids s) (tick s) (fun E => ids (fst (reset E s))) _ (fun E => reset_ids E L s H S1 S3) (random_shuffle_fair (ids s) (tick s) Nd)) as (F1 & F2).
  rewrite Hlen in F1. split; [exact F1|]. intros l P. apply F2. eapply perm_trans; [apply Permutation_sym; exact S4|exact P].
Qed.
Lemma p_C61_custom E0 L s l : env_ok E0 -> reachable E0 L s -> NoDup l -> l <> [] -> Forall (is_site L) l ->
  (forall E E', get_site_id_sequence (fst (set_custome_site_id_list E l true s)) = get_site_id_sequence (fst (set_custome_site_id_list E' l true s)) <->
                choices E (tick s) (length l) = choices E' (tick s) (length l)) /\
  (forall l', Permutation l l' -> exists E, env_ok E /\ get_site_id_sequence (fst (set_custome_site_id_list E l true s)) = l').
Proof.
  intros HE HR Nd Hne Hl. pose proof (reachable_inv _ _ _ HE HR) as H.
  assert (Hall : forallb (siteb L) l = true).
  { apply forallb_forall. intros x Hx. rewrite Forall_forall in Hl. specialize (Hl x Hx). unfold is_site in Hl. unfold siteb. lia. }
  apply (fair_ext l (tick s) (fun E => ids (fst (set_custome_site_id_list E l true s))) (fun E => fst (random_shuffle E (tick s) l))).
  - intros E. rewrite (set_ids_ok E L) by (now apply i_static). rewrite Hall. destruct l as [|a l]; [congruence|].
    rewrite (shuffle_ids E (installed (a :: l) (a :: l) true true s)) by reflexivity. reflexivity.
  - now apply random_shuffle_fair.
Qed.
