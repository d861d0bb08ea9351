(** * Cycle: repeated runs of one object (C49). *)
From Coq Require Import ZArith List Bool Lia Permutation.
From Verif Require Import Py Lattice Cluster Perc Spec PyFacts Torus Geometry LatFacts Inv Merge Count Fresh Select State Step History Reach
  Micro StateProps Seq RunBase RunProps RunProps2.
Import ListNotations.
Open Scope Z_scope.

(** ** Enough fuel is enough *)
Lemma run_loop_mono E f : forall s s', run_loop E f s = (s', Ok tt) -> forall f', (f <= f')%nat -> run_loop E f' s = (s', Ok tt).
Proof.
  induction f as [|f IH]; intros s s' Hr f' Hf; [discriminate|]. destruct f' as [|f']; [lia|].
  cbn [run_loop] in *. unfold mbind in *. destruct (place_one_site E s) as [s1 [[]|e]]; auto.
  unfold get in *.
  destruct (flag_is_success s1); [destruct (detect_wrapping s1) as [s2 [b|e]]; [destruct (record_step s2) as [s3 [[]|e]]|]|unfold ret in *]; auto;
    apply IH; auto; lia.
Qed.
Lemma run_once_mono E s s' f f' : kind s <> KSP -> run_once E f s = (s', Ok tt) -> (f <= f')%nat -> run_once E f' s = (s', Ok tt).
Proof.
  intros Hk Hr Hf. unfold run_once, mbind, get in *.
  assert (G : run_once_base E f s = (s', Ok tt)) by (destruct (kind s); auto; congruence).
  assert (G' : run_once_base E f' s = (s', Ok tt)).
  { unfold run_once_base, mbind in *. destruct (run_loop E f s) as [s1 [[]|e]] eqn:E1; [|discriminate].
    now rewrite (run_loop_mono E f s s1 E1 f' Hf). }
  destruct (kind s); auto; congruence.
Qed.

(** ** A complete run of an object with the default sequence *)
Definition complete_run (E : env) (k : pkind) (L : Z) : Prop := forall s f s',
  fresh_plain E k L s -> run_once E f s = (s', Ok tt) ->
  let n := Z.to_nat (L * L) in
  length (h_arr s') = n /\ length (pl_arr s') = n /\ length (pw_arr s') = n /\ first_run s' = false /\
  p_arr s' = (if first_run s then map (fun j => FDiv (FZ (Z.of_nat j)) (FZ (L * L))) (seq 1 n) else p_arr s).
Lemma complete_base E k L : env_ok E -> k = KBase \/ k = KL0 -> complete_run E k L.
Proof.
  intros HE Hk s f s' HF Hr n.
  set (F := Nat.max f (S n)).
  assert (Ek : kind s <> KSP).
  { destruct (fresh_object_state E k L s HE (fresh_plain_object _ _ _ _ HF)) as (_ & -> & _). destruct Hk; congruence. }
  pose proof (run_once_mono E s s' f F Ek Hr ltac:(unfold F; lia)) as Hr'.
  destruct (p_C31 E k L s F HE Hk HF ltac:(unfold F; fold n; lia)) as (_ & s2 & E2 & _ & _ & _ & P1 & P2 & Q1 & Q2 & Q3).
  rewrite Hr' in E2. injection E2 as <-. fold n in P1, Q1, Q2, Q3.
  split; [rewrite Q1, map_length, seq_length; reflexivity|].
  split; [rewrite <- (map_length Ok), Q3, map_length, seq_length; reflexivity|].
  split; [rewrite <- (map_length Ok), Q2, map_length, seq_length; reflexivity|].
  split; [|destruct (first_run s); auto].
  unfold run_once, mbind, get in Hr.
  assert (G : run_once_base E f s = (s', Ok tt)) by (destruct (kind s); auto; congruence).
  unfold run_once_base, mbind in G. destruct (run_loop E f s) as [s1 [[]|e]]; [|discriminate]. injection G as <-. reflexivity.
Qed.

Lemma cycled_plain E k L s : cycled E k L s -> reachable_no_custom E k L s.
Proof.
  induction 1 as [t0 s f s' E0 Er|s f s' _ IH Er].
  - exists t0, s, [CRun f]. split; auto. split; [repeat constructor|]. split; [repeat constructor|]. unfold after. cbn [fold_left exec]. now rewrite Er.
  - destruct IH as (t0 & s0 & cs & E0 & H1 & H2 & ->). exists t0, s0, (cs ++ [CReset; CRun f]).
    split; auto. split; [apply Forall_app; split; auto; repeat constructor|].
    split; [apply Forall_app; split; auto; repeat constructor|].
    unfold after. rewrite fold_left_app. cbn [fold_left exec]. fold (after E s0 cs). now rewrite Er.
Qed.
Lemma plain_k E k L s : reachable_no_custom E k L s -> reachable_k E k L s.
Proof. intros (t0 & s0 & cs & E0 & H1 & _ & ->). exists t0, s0, cs. auto. Qed.

Lemma cycled_shape E k L s : env_ok E -> complete_run E k L -> cycled E k L s ->
  let n := Z.to_nat (L * L) in
  length (h_arr s) = n /\ length (pl_arr s) = n /\ length (pw_arr s) = n /\ first_run s = false /\
  p_arr s = map (fun j => FDiv (FZ (Z.of_nat j)) (FZ (L * L))) (seq 1 n).
Proof.
  cbv zeta. set (n := Z.to_nat (L * L)). intros HE HC Hc. induction Hc as [t0 s f s' E0 Er|s f s' Hc IH Er].
  - destruct (HC s f s' ltac:(left; eauto) Er) as (A1 & A2 & A3 & A4 & A5). fold n in A1, A2, A3, A5.
    destruct (new_arrs _ _ _ _ _ E0) as (_ & Ef & _). rewrite Ef in A5. auto.
  - destruct IH as (I1 & I2 & I3 & I4 & I5).
    assert (Hf : fresh_plain E k L (fst (reset E s))) by (right; exists s; split; auto; now apply cycled_plain).
    destruct (HC _ f s' Hf Er) as (A1 & A2 & A3 & A4 & A5). fold n in A1, A2, A3, A5.
    destruct (reachable_k_kind E k L s HE (plain_k _ _ _ _ (cycled_plain _ _ _ _ Hc))) as (H & _).
    destruct (reset_inv E L s H) as (s1 & E1 & R). rewrite E1 in A5. cbn [fst] in A5.
    destruct (rt_arrs _ _ _ R) as (R1 & _). rewrite (rt_first _ _ _ R), I4 in *. split; auto. split; auto. split; auto. split; auto. congruence.
Qed.

Lemma combine_nth_error {A B} (l : list A) (l' : list B) j a b :
  nth_error l j = Some a -> nth_error l' j = Some b -> nth_error (combine l l') j = Some (a, b).
Proof. revert l' j. induction l as [|x l IH]; intros [|y l'] [|j]; cbn; try discriminate; auto; congruence. Qed.

Lemma p_C49 E k L s : env_ok E -> complete_run E k L -> cycled E k L s ->
  exists rows, get_data_array s = Ok rows /\ length rows = Z.to_nat (L * L) /\
    forall j, (j < Z.to_nat (L * L))%nat -> exists h pl pw,
      nth_error rows j = Some [FDiv (FZ (Z.of_nat (S j))) (FZ (L * L)); h; pl; pw] /\
      nth_error (h_arr s) j = Some h /\ nth_error (pl_arr s) j = Some pl /\ nth_error (pw_arr s) j = Some pw.
Proof.
  intros HE HC Hc. destruct (cycled_shape E k L s HE HC Hc) as (A1 & A2 & A3 & _ & A5). set (n := Z.to_nat (L * L)) in *.
  assert (A0 : length (p_arr s) = n) by (rewrite A5, map_length, seq_length; reflexivity).
  unfold get_data_array. rewrite A0, A1, A2, A3, !Nat.eqb_refl. cbn [andb]. eexists. split; [reflexivity|].
  split; [rewrite map_length, !combine_length; lia|].
  intros j Hj. assert (G : forall l : list fexpr, length l = n -> exists x, nth_error l j = Some x).
  { intros l Hl. destruct (nth_error l j) eqn:Q; eauto. apply nth_error_None in Q. lia. }
  destruct (G _ A1) as (h & Eh), (G _ A2) as (pl & El), (G _ A3) as (pw & Ew). exists h, pl, pw.
  split; auto.
  apply (map_nth_error (fun '(p, (h, (pl, pw))) => [p; h; pl; pw]) j) with (d := (FDiv (FZ (Z.of_nat (S j))) (FZ (L * L)), (h, (pl, pw)))). apply combine_nth_error.
  - rewrite A5. apply (map_nth_error (fun j0 => FDiv (FZ (Z.of_nat j0)) (FZ (L * L))) j) with (d := S j).
    rewrite (nth_error_nth' _ 0%nat) by (rewrite seq_length; lia). now rewrite seq_nth.
  - apply combine_nth_error; auto. now apply combine_nth_error.
Qed.

(** With a sequence of another length installed after the first run the columns no longer fit together. *)
Lemma p_C49b E k L s l f : env_ok E -> k = KBase \/ k = KL0 -> cycled E k L s ->
  l <> [] -> NoDup l -> Forall (is_site L) l -> length l <> Z.to_nat (L * L) -> (length l < f)%nat ->
  forall sh, exists s', run_once E f (fst (set_custome_site_id_list E l sh (fst (reset E s)))) = (s', Ok tt) /\
    length (h_arr s') = length l /\ get_data_array s' = Err ValueError.
Proof.
  intros HE Hk Hc Hne Hd Hl Hlen Hf sh.
  destruct (cycled_shape E k L s HE (complete_base E k L HE Hk) Hc) as (_ & _ & _ & A4 & A5). set (n := Z.to_nat (L * L)) in *.
  destruct (reachable_k_kind E k L s HE (plain_k _ _ _ _ (cycled_plain _ _ _ _ Hc))) as (H & Ek).
  destruct (reset_inv E L s H) as (s1 & E1 & R). rewrite E1. cbn [fst].
  pose proof (rt_fresh _ _ _ R) as F. pose proof (fresh_inv _ _ F) as H1.
  destruct (rt_arrs _ _ _ R) as (R1 & R2 & R3 & R4). pose proof (rt_first _ _ _ R) as Rf. rewrite A4 in R1, Rf.
  assert (Ek1 : kind s1 = k) by (rewrite (rt_kind _ _ _ R); auto).
  assert (Es : set_custome_site_id_list E l sh s1 = shuffle E (installed l l true sh s1)).
  { rewrite (set_ids_ok E L) by (now apply i_static). rewrite all_siteb by auto. destruct l; [congruence|reflexivity]. }
  assert (Hi : Inv L (installed l l true sh s1)) by (apply installed_inv; auto; rewrite Ek1; destruct Hk; subst; auto).
  set (s2 := fst (shuffle E (installed l l true sh s1))).
  assert (X : Inv L s2 /\ Permutation l (ids s2) /\ cur_idx s2 = 0 /\ lat s2 = lat s1 /\ occ_count s2 = 0 /\ kind s2 = k /\ first_run s2 = false /\
     p_arr s2 = p_arr s1 /\ h_arr s2 = [] /\ pw_arr s2 = [] /\ pl_arr s2 = []).
  { unfold s2. destruct (shuffle_inv E L _ Hi) as (s3 & E3 & H3).
    pose proof (fs_cur _ _ F) as C0. pose proof (fs_occ _ _ F) as O0.
    destruct (shuffle_ok E L (installed l l true sh s1)) as [(E2 & ?)|(_ & l' & t' & rv & E2 & P & _)]; try apply Hi;
      rewrite E2 in *; cbn [fst] in *; injection E3 as <-; (split; [exact H3|]).
    - split; [apply Permutation_refl|]. repeat split; auto.
    - split; [exact P|]. repeat split; auto. }
  rewrite Es. fold s2. destruct X as (H2 & P2 & C2 & L2 & O2 & K2 & F2 & AP & AH & AW & AL).
  assert (B2 : RunB L s2).
  { constructor.
    - rewrite K2. destruct Hk as [-> | ->]; reflexivity.
    - eapply Permutation_NoDup; eauto.
    - rewrite C2. pose proof (zlen_nonneg (ids s2)). lia.
    - congruence.
    - intros i Hi'. rewrite C2, L2. cbn. destruct (fr_site _ _ (fs_lat _ _ F) i Hi') as (Q & _). unfold occ. lia. }
  assert (Ll : length (ids s2) = length l) by (symmetry; now apply Permutation_length).
  assert (Zl : zlen (ids s2) - cur_idx s2 = Z.of_nat (length l)) by (unfold zlen; rewrite Ll, C2; lia).
  destruct (run_once_B E L s2 f HE H2 B2) as (Er & _); [rewrite K2; destruct Hk; congruence|lia|].
  rewrite Zl, Nat2Z.id in Er. eexists. split; [exact Er|].
  unfold finished, filled. cbn [h_arr set_first_run set_sel_flag set_arrs].
  rewrite AH. cbn [app]. rewrite column_len. split; auto.
  unfold get_data_array. cbn [p_arr h_arr pl_arr pw_arr set_first_run set_sel_flag set_arrs]. rewrite F2, AP, R1. cbn [app].
  rewrite column_len. rewrite A5, map_length, seq_length.
  destruct (Nat.eqb_spec (length l) n); [contradiction|reflexivity].
Qed.
