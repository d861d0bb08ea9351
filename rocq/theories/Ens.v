(** * Ens: proofs about the drivers (C56, C57). *)
From Coq Require Import String ZArith List Bool Lia Permutation Reals Lra.
From Verif Require Import Py Lattice Cluster Perc Spec History Real PyFacts Torus Geometry LatFacts Inv Fresh State Step Reach Micro StateProps Seq RunBase RunProps RunProps2 Cycle CandRun Normal Run EnsSpec.
Import ListNotations.
Open Scope Z_scope.

Lemma total_S n g : total (S n) g = (total n g + g (S n))%R.
Proof.
  unfold total. rewrite seq_S, map_app. cbn [map Nat.add]. generalize (map g (seq 1 n)).
  induction l as [|x l IH]; cbn [app fold_right]; [lra|]. rewrite IH. lra.
Qed.
Lemma total_ext n g h : (forall e, (1 <= e <= n)%nat -> g e = h e) -> total n g = total n h.
Proof.
  intros H. induction n as [|n IH]; [reflexivity|]. rewrite !total_S, IH, (H (S n)) by (intros; try apply H; lia). reflexivity.
Qed.
Lemma total_const n c : total n (fun _ => c) = (INR n * c)%R.
Proof. induction n as [|n IH]; [cbn; lra|]. rewrite total_S, IH, S_INR. lra. Qed.
Lemma mean_const n c : (1 <= n)%nat -> mean n (fun _ => c) = c.
Proof. intros H. unfold mean. rewrite total_const. field. apply not_0_INR. lia. Qed.
Lemma realization_S E f s0 e : realization E f s0 (S e) = fst (run_once E f (fst (reset E (realization E f s0 e)))).
Proof. unfold realization. cbn [cycles]. unfold after. rewrite fold_left_app. reflexivity. Qed.
Lemma cycles_plain f e : Forall plain (cycles f e).
Proof. induction e; cbn [cycles]; [constructor|]. apply Forall_app. split; auto. repeat constructor. Qed.
Lemma cycles_ok L f e : Forall (call_ok L) (cycles f e).
Proof. induction e; cbn [cycles]; [constructor|]. apply Forall_app. split; auto. repeat constructor. Qed.
Lemma cycles_no_custom f e : Forall no_custom (cycles f e).
Proof. induction e; cbn [cycles]; [constructor|]. apply Forall_app. split; auto. repeat constructor. Qed.

Section Ensemble.
Context (E : env) (k : pkind) (L : Z) (t0 : nat) (s0 : perc) (f : nat).
Context (HE : env_ok E) (Hk : k <> KSP) (H0 : new_perc E k L t0 = Ok s0) (Hf : 5 * (L * L) < Z.of_nat f).
Notation n := (Z.to_nat (L * L)).
Notation Re := (realization E f s0).
Definition p_std := map (fun j => FDiv (FZ (Z.of_nat j)) (FZ (L * L))) (seq 1 n).

Lemma re_no_custom e : reachable_no_custom E k L (Re e).
Proof. exists t0, s0, (cycles f e). split; auto. split; [apply cycles_ok|]. split; [apply cycles_no_custom|reflexivity]. Qed.
Lemma re_inv e : Inv L (Re e) /\ kind (Re e) = k.
Proof. apply (reachable_k_kind E k L _ HE (plain_k _ _ _ _ (re_no_custom e))). Qed.
Lemma re_fresh e : fresh_plain E k L (fst (reset E (Re e))).
Proof. right. exists (Re e). split; auto using re_no_custom. Qed.
Lemma re_reset e : reset E (Re e) = (fst (reset E (Re e)), Ok tt).
Proof.
  destruct (p_C47 E k L t0 s0 (cycles f e) HE H0 (cycles_plain f e)) as (_ & Q & _).
  unfold realization. rewrite <- Q. apply surjective_pairing.
Qed.
Lemma re_run e : run_once E f (fst (reset E (Re e))) = (Re (S e), Ok tt).
Proof.
  destruct (p_C47 E k L t0 s0 (cycles f e ++ [CReset]) HE H0) as (_ & _ & Q & _).
  { apply Forall_app. split; [apply cycles_plain|]. repeat constructor. }
  unfold after in Q. rewrite fold_left_app in Q. cbn [fold_left exec] in Q. change (fold_left (exec E) (cycles f e) s0) with (Re e) in Q.
  rewrite realization_S, <- (Q f Hf). apply surjective_pairing.
Qed.
Lemma re_shape e : length (h_arr (Re (S e))) = n /\ length (pl_arr (Re (S e))) = n /\ length (pw_arr (Re (S e))) = n /\
  first_run (Re (S e)) = false /\ p_arr (Re (S e)) = p_std.
Proof.
  induction e as [|e IH].
  - destruct (complete_all E k L HE Hk _ f _ (re_fresh 0) (re_run 0)) as (A1 & A2 & A3 & A4 & A5).
    destruct (reset_inv E L (Re 0) (proj1 (re_inv 0))) as (s1 & E1 & R). rewrite E1 in A5. cbn [fst] in A5. rewrite (rt_first _ _ _ R) in A5.
    destruct (new_arrs _ _ _ _ _ H0) as (_ & Ef & _). change (Re 0) with s0 in A5. rewrite Ef in A5. auto.
  - destruct IH as (_ & _ & _ & F & P).
    destruct (complete_all E k L HE Hk _ f _ (re_fresh (S e)) (re_run (S e))) as (A1 & A2 & A3 & A4 & A5).
    destruct (reset_inv E L (Re (S e)) (proj1 (re_inv (S e)))) as (s1 & E1 & R). rewrite E1 in A5. cbn [fst] in A5. rewrite (rt_first _ _ _ R), F in A5.
    destruct (rt_arrs _ _ _ R) as (Q & _). rewrite F in Q. split; auto. split; auto. split; auto. split; auto. congruence.
Qed.
Definition data_row (e i : nat) : list fexpr :=
  [FDiv (FZ (Z.of_nat (S i))) (FZ (L * L)); entry (h_arr (Re e)) i; entry (pl_arr (Re e)) i; entry (pw_arr (Re e)) i].
Lemma re_data e : exists rows, get_data_array (Re (S e)) = Ok rows /\ length rows = n /\
  forall i, (i < n)%nat -> nth_error rows i = Some (data_row (S e) i).
Proof.
  destruct (re_shape e) as (A1 & A2 & A3 & _ & A5). pose proof (re_shape e) as _.
  assert (A0 : length (p_arr (Re (S e))) = n) by (rewrite A5; unfold p_std; rewrite map_length, seq_length; reflexivity).
  unfold get_data_array. rewrite A0, A1, A2, A3, !Nat.eqb_refl. cbn [andb]. eexists. split; [reflexivity|].
  split; [rewrite map_length, !combine_length; lia|].
  intros i Hi. unfold data_row, entry.
  apply (map_nth_error (fun '(p, (h, (pl, pw))) => [p; h; pl; pw]) i)
    with (d := (FDiv (FZ (Z.of_nat (S i))) (FZ (L * L)), (nth i (h_arr (Re (S e))) (FZ 0), (nth i (pl_arr (Re (S e))) (FZ 0), nth i (pw_arr (Re (S e))) (FZ 0))))).
  apply combine_nth_error.
  - rewrite A5. unfold p_std. apply (map_nth_error (fun j0 => FDiv (FZ (Z.of_nat j0)) (FZ (L * L))) i) with (d := S i).
    rewrite (nth_error_nth' _ 0%nat) by (rewrite seq_length; lia). now rewrite seq_nth.
  - apply combine_nth_error; [|apply combine_nth_error]; apply nth_error_nth'; lia.
Qed.
Definition crit_row (e : nat) (r : list fexpr) : Prop := exists pc, get_pc (Re e) = Ok pc /\
  r = [pc; FZ (get_site_count_wrapping_cluster_pc (Re e)); FZ (get_bond_count_wrapping_cluster_pc (Re e))].
Lemma re_pc e : exists pc, get_pc (Re e) = Ok pc.
Proof. destruct (p_C47 E k L t0 s0 (cycles f e) HE H0 (cycles_plain f e)) as (_ & _ & _ & _ & _ & _ & _ & Q & _). exact Q. Qed.

Definition acc_row (e i : nat) (r : list fexpr) : Prop := exists p h l w, r = [p; h; l; w] /\
  feval p = total e (fun _ => (IZR (Z.of_nat (S i)) / IZR (L * L))%R) /\
  feval h = total e (fun e => feval (entry (h_arr (Re e)) i)) /\
  feval l = total e (fun e => feval (entry (pl_arr (Re e)) i)) /\
  feval w = total e (fun e => feval (entry (pw_arr (Re e)) i)).
Definition acc (e : nat) (d : option (list (list fexpr))) : Prop :=
  match e with
  | O => d = None
  | S _ => exists rows, d = Some rows /\ length rows = n /\ forall i, (i < n)%nat -> exists r, nth_error rows i = Some r /\ acc_row e i r
  end.
Lemma combine_nth2 {A B} (l : list A) (l' : list B) i a b :
  nth_error l i = Some a -> nth_error l' i = Some b -> nth_error (combine l l') i = Some (a, b).
Proof. apply combine_nth_error. Qed.
Lemma accumulate_ok e d rows : acc e d -> get_data_array (Re (S e)) = Ok rows -> exists d', accumulate d rows = Ok d' /\ acc (S e) (Some d').
Proof.
  intros Ha Hd. destruct (re_data e) as (rows' & E1 & Hl & Hr). rewrite Hd in E1. injection E1 as <-.
  destruct e as [|e].
  - cbn in Ha. subst d. exists rows. split; [reflexivity|]. exists rows. split; auto. split; auto. intros i Hi.
    eexists. split; [apply Hr; auto|]. unfold data_row. do 4 eexists. split; [reflexivity|].
    rewrite !total_S. unfold total. cbn [seq map fold_right]. rewrite !Rplus_0_l. cbn [feval]. auto.
  - destruct Ha as (a & -> & La & Ra). cbn [accumulate]. unfold add_data. rewrite La, Hl, Nat.eqb_refl. eexists. split; [reflexivity|].
    eexists. split; [reflexivity|]. split; [rewrite map_length, combine_length; lia|].
    intros i Hi. destruct (Ra i Hi) as (r & Er & p & h & l & w & -> & P & Hh & Hl' & Hw).
    eexists. split.
    { apply (map_nth_error (fun '(x, y) => add_row x y) i). apply combine_nth2; [exact Er|apply Hr; auto]. }
    unfold data_row. cbn [add_row combine map]. do 4 eexists. split; [reflexivity|].
    rewrite (total_S (S e) (fun _ => _)), (total_S (S e) (fun e => feval (entry (h_arr (Re e)) i))), (total_S (S e) (fun e => feval (entry (pl_arr (Re e)) i))),
      (total_S (S e) (fun e => feval (entry (pw_arr (Re e)) i))).
    cbn [feval]. rewrite P, Hh, Hl', Hw. auto.
Qed.
Lemma loop_ok show m : forall e d crit, acc e d -> (0 < n)%nat ->
  exists d' rows, ensemble_loop E f show m d crit (Re e) = (Re (e + m), Ok (d', crit ++ rows)) /\ acc (e + m) d' /\
    length rows = m /\ forall j, (j < m)%nat -> exists r, nth_error rows j = Some r /\ crit_row (S (e + j)) r.
Proof.
  induction m as [|m IH]; intros e d crit Ha Hn.
  - exists d, []. rewrite Nat.add_0_r, app_nil_r. repeat split; auto. intros j Hj. lia.
  - cbn [ensemble_loop]. unfold mbind at 1. rewrite re_reset. unfold mbind at 1. rewrite re_run. unfold mbind at 1, get.
    destruct (re_pc (S e)) as (pc & Epc). unfold mbind at 1, lift. rewrite Epc.
    destruct (re_data e) as (rows & Ed & Hl & _). unfold mbind at 1. rewrite Ed.
    assert (Es : (if show then match rows with [] => Err IndexError | _ :: _ => Ok tt end else Ok tt) = Ok tt).
    { destruct show; auto. destruct rows; auto. cbn in Hl. lia. }
    unfold mbind at 1. rewrite Es. destruct (accumulate_ok e d rows Ha Ed) as (d1 & E1 & A1). unfold mbind at 1. rewrite E1.
    destruct (IH (S e) (Some d1) (crit ++ [[pc; FZ (get_site_count_wrapping_cluster_pc (Re (S e))); FZ (get_bond_count_wrapping_cluster_pc (Re (S e)))]]) A1 Hn)
      as (d2 & rows2 & E2 & A2 & L2 & R2).
    exists d2, ([pc; FZ (get_site_count_wrapping_cluster_pc (Re (S e))); FZ (get_bond_count_wrapping_cluster_pc (Re (S e)))] :: rows2).
    replace (e + S m)%nat with (S e + m)%nat by lia. rewrite E2, <- app_assoc. split; [reflexivity|]. split; auto. split; [cbn; lia|].
    intros [|j] Hj; cbn [nth_error].
    + eexists. split; [reflexivity|]. rewrite Nat.add_0_r. exists pc. auto.
    + destruct (R2 j) as (r & Er & Q); [lia|]. exists r. split; auto. replace (e + S j)%nat with (S e + j)%nat by lia. exact Q.
Qed.
End Ensemble.

Lemma loop_total E k L t0 s0 f show n : env_ok E -> k <> KSP -> new_perc E k L t0 = Ok s0 -> 5 * (L * L) < Z.of_nat f -> 1 <= n ->
  exists d rows crit, ensemble_loop E f show (Z.to_nat n) None [] s0 = (realization E f s0 (Z.to_nat n), Ok (Some d, crit)) /\
    average (Some d) n = Ok rows /\
    averages E f s0 L (Z.to_nat n) rows /\ critical_rows E f s0 (Z.to_nat n) crit /\ realized E f s0 (Z.to_nat n) /\
    kind (realization E f s0 (Z.to_nat n)) = k.
Proof.
  intros HE Hk H0 Hf Hn. pose proof (new_perc_pos _ _ _ _ _ H0) as HL. set (m := Z.to_nat n).
  destruct (loop_ok E k L t0 s0 f HE Hk H0 Hf show m 0 None [] eq_refl) as (d & crit & E1 & A & Lc & C); [nia|].
  cbn [Nat.add] in E1, A, C. change (realization E f s0 0) with s0 in E1. cbn [app] in E1.
  assert (Hm : (1 <= m)%nat) by (unfold m; lia). destruct m as [|m'] eqn:Em; [lia|]. destruct A as (d1 & -> & Ld & Rd).
  exists d1. eexists. exists crit. split; [exact E1|]. split; [reflexivity|].
  assert (Nn : IZR n = INR (S m')) by (rewrite INR_IZR_INZ; f_equal; lia).
  assert (Nz : INR (S m') <> 0%R) by (apply not_0_INR; lia).
  split; [split|split; [split|split]].
  - now rewrite map_length.
  - intros i Hi. destruct (Rd i Hi) as (r & Er & p & h & l & w & -> & P1 & P2 & P3 & P4).
    exists (FDiv p (FZ n)), (FDiv h (FZ n)), (FDiv l (FZ n)), (FDiv w (FZ n)).
    split; [exact (map_nth_error (map (fun x => FDiv x (FZ n))) i d1 Er)|]. cbn [feval]. rewrite P1, P2, P3, P4, Nn. unfold mean.
    split; [|auto]. rewrite total_const, <- INR_IZR_INZ. revert Nz. generalize (INR (S m')) (INR (S i)). intros a b Nz. field. split; auto. apply not_0_IZR. nia.
  - exact Lc.
  - intros e He. destruct (C (e - 1)%nat) as (r & Er & pc & Q1 & ->); [lia|]. replace (S (e - 1)) with e in * by lia.
    exists pc. auto.
  - intros e He. split; [apply (re_reset E k L t0 s0 f)|apply (re_run E k L t0 s0 f)]; auto.
  - eapply re_inv; eauto.
Qed.

Lemma sig_kind E f s0 n k : kind (realization E f s0 n) = k -> kind s0 = k -> get_signature (realization E f s0 n) = get_signature s0.
Proof. intros H1 H2. unfold get_signature. now rewrite H1, H2. Qed.

Lemma p_C56 E k L t0 s0 f n time : env_ok E -> k <> KSP -> new_perc E k L t0 = Ok s0 -> 5 * (L * L) < Z.of_nat f -> 1 <= n ->
  let m := Z.to_nat n in
  realized E f s0 m /\
  (exists d c, run_ensemble_entropy_order E f t0 time (AClass k) L n = Ok [d; c] /\
     o_length d = L /\ o_ensemble d = n /\ o_length c = L /\ o_ensemble c = n /\
     averages E f s0 L m (o_rows d) /\ critical_rows E f s0 m (o_rows c)) /\
  (forall i, exists d, run_ensemble_entropy_order_threads E f t0 time (AClass k) L n i = Ok [d] /\
     o_length d = L /\ o_ensemble d = n /\ averages E f s0 L m (o_rows d)) /\
  (forall i, exists d c, run_ensemble_entropy_order_threads_v2 E f t0 time (AClass k) L n i None = Ok [d; c] /\
     o_length d = L /\ o_ensemble d = n /\ o_length c = L /\ o_ensemble c = n /\
     averages E f s0 L m (o_rows d) /\ critical_rows E f s0 m (o_rows c)).
Proof.
  intros HE Hk H0 Hf Hn m.
  split. { destruct (loop_total E k L t0 s0 f true n HE Hk H0 Hf Hn) as (d & rows & crit & _ & _ & _ & _ & R & _). exact R. }
  split; [|split].
  - destruct (loop_total E k L t0 s0 f true n HE Hk H0 Hf Hn) as (d & rows & crit & E1 & E2 & A & C & _ & _).
    unfold run_ensemble_entropy_order. cbn [construct]. rewrite H0. cbn [rbind]. rewrite E1. cbn [rbind]. rewrite E2. cbn [rbind].
    do 2 eexists. split; [reflexivity|]. repeat (split; [reflexivity|]). split; [exact A|exact C].
  - intros i. destruct (loop_total E k L t0 s0 f false n HE Hk H0 Hf Hn) as (d & rows & crit & E1 & E2 & A & _).
    unfold run_ensemble_entropy_order_threads. cbn [construct]. rewrite H0. cbn [rbind]. rewrite E1. cbn [rbind]. rewrite E2. cbn [rbind].
    eexists. split; [reflexivity|]. repeat (split; [reflexivity|]). exact A.
  - intros i. destruct (loop_total E k L t0 s0 f false n HE Hk H0 Hf Hn) as (d & rows & crit & E1 & E2 & A & C & _ & _).
    unfold run_ensemble_entropy_order_threads_v2, construct_seeded. cbn [construct]. rewrite H0. cbn [rbind]. rewrite E1. cbn [rbind]. rewrite E2. cbn [rbind].
    do 2 eexists. split; [reflexivity|]. repeat (split; [reflexivity|]). split; [exact A|exact C].
Qed.

Lemma p_C56_empty E k L t0 f n time i seed : 0 < L -> n <= 0 ->
  run_ensemble_entropy_order E f t0 time (AClass k) L n = Err TypeError /\
  run_ensemble_entropy_order_threads E f t0 time (AClass k) L n i = Err TypeError /\
  run_ensemble_entropy_order_threads_v2 E f t0 time (AClass k) L n i seed = Err TypeError.
Proof.
  intros HL Hn. assert (G : forall E t, exists s, new_perc E k L t = Ok s).
  { intros E' t. destruct (new_perc_ok E' k L t HL) as (? & ? & ? & ? & Q & _). eauto. }
  destruct (G E t0) as (s & Es). replace (Z.to_nat n) with O by lia.
  unfold run_ensemble_entropy_order, run_ensemble_entropy_order_threads, run_ensemble_entropy_order_threads_v2, construct_seeded.
  cbn [construct]. rewrite Es. cbn [rbind]. replace (Z.to_nat n) with O by lia. split; [reflexivity|]. split; [reflexivity|].
  destruct seed as [d|]; [|reflexivity]. destruct (G (mkEnv (e_ord E) d) 0%nat) as (s1 & E1). rewrite E1. reflexivity.
Qed.

Lemma zrange_nth n i : (i < Z.to_nat n)%nat -> nth_error (zrange n) i = Some (Z.of_nat i).
Proof.
  intros H. unfold zrange. apply (map_nth_error Z.of_nat i). rewrite (nth_error_nth' _ 0%nat) by (rewrite seq_length; lia). now rewrite seq_nth.
Qed.
Definition worker_class (interaction : Z) : pkind := if interaction =? 1 then KL1 else if interaction =? 2 then KL2 else KL0.
Lemma p_C56_pool W f L En th x : (forall i, env_ok (m_env (W i))) -> 0 < L -> 5 * (L * L) < Z.of_nat f ->
  let k := if x =? 1 then KL1 else if x =? 2 then KL2 else KL0 in
  (th = 0 -> run_simulation_threads_v4 W f L En th x = Err ZeroDivisionError) /\
  (th < 0 -> run_simulation_threads_v4 W f L En th x = Ok []) /\
  (0 < th -> exists results, run_simulation_threads_v4 W f L En th x = Ok results /\ length results = Z.to_nat th /\
     forall i, 0 <= i < th -> exists s0, new_perc (m_env (W i)) k L (m_tick (W i)) = Ok s0 /\
       if En <? th then nth_error results (Z.to_nat i) = Some (Err TypeError)
       else exists d c, nth_error results (Z.to_nat i) = Some (Ok [d; c]) /\ o_ensemble d = (En - En mod th) / th /\
         averages (m_env (W i)) f s0 L (Z.to_nat ((En - En mod th) / th)) (o_rows d) /\
         critical_rows (m_env (W i)) f s0 (Z.to_nat ((En - En mod th) / th)) (o_rows c)).
Proof.
  intros HW HL Hf k. unfold run_simulation_threads_v4. fold k. split; [|split].
  - intros ->. reflexivity.
  - intros Ht. destruct (Z.eqb_spec th 0); [lia|]. unfold zrange. replace (Z.to_nat th) with O by lia. reflexivity.
  - intros Ht. destruct (Z.eqb_spec th 0); [lia|].
    assert (Eq : (En - En mod th) / th = En / th).
    { rewrite (Z.div_mod En th) at 1 by lia. replace (th * (En / th) + En mod th - En mod th) with ((En / th) * th) by lia. apply Z.div_mul. lia. }
    rewrite Eq. eexists. split; [reflexivity|]. split; [unfold zrange; rewrite !map_length, seq_length; reflexivity|].
    intros i Hi. destruct (new_perc_ok (m_env (W i)) k L (m_tick (W i)) HL) as (? & ? & ? & ? & Q & _). eexists. split; [exact Q|].
    assert (Hi' : nth_error (zrange th) (Z.to_nat i) = Some i) by (rewrite zrange_nth by lia; f_equal; lia).
    destruct (Z.ltb_spec En th).
    + erewrite map_nth_error by exact Hi'. f_equal. apply p_C56_empty; auto.
      destruct (Z.le_gt_cases 0 En); [rewrite Z.div_small by lia; lia|]. apply Z.lt_le_incl, Z.div_lt_upper_bound; lia.
    + assert (Hn : 1 <= En / th) by (apply Z.div_le_lower_bound; lia).
      assert (Hk : k <> KSP) by (unfold k; destruct (x =? 1), (x =? 2); discriminate).
      destruct (p_C56 (m_env (W i)) k L (m_tick (W i)) _ f (En / th) (m_time (W i)) (HW i) Hk Q Hf Hn) as (_ & _ & _ & P).
      destruct (P i) as (d & c & E1 & P1 & P2 & P3 & P4 & P5 & P6). exists d, c. erewrite map_nth_error by exact Hi'. rewrite E1. auto.
Qed.
Lemma p_C56_wrong_arguments W f :
  run_simulation_threads W f = [Err TypeError; Err TypeError; Err TypeError] /\
  run_simulation_threads_v2 W f = [Err TypeError; Err TypeError].
Proof. split; reflexivity. Qed.

Lemma p_C57 E k L t0 s0 f n time : env_ok E -> k <> KSP -> new_perc E k L t0 = Ok s0 -> 5 * (L * L) < Z.of_nat f -> 1 <= n ->
  let third rows i := nth 2 (nth i rows []) (FZ 0) in
  let fourth rows i := nth 3 (nth i rows []) (FZ 0) in
  let largest i := mean (Z.to_nat n) (fun e => feval (entry (pl_arr (realization E f s0 e)) i)) in
  let wrapping i := mean (Z.to_nat n) (fun e => feval (entry (pw_arr (realization E f s0 e)) i)) in
  let holds rows := forall i, (i < Z.to_nat (L * L))%nat -> feval (third rows i) = largest i /\ feval (fourth rows i) = wrapping i in
  (forall files d, run_ensemble_entropy_order E f t0 time (AClass k) L n = Ok files \/
                   (exists i, run_ensemble_entropy_order_threads_v2 E f t0 time (AClass k) L n i None = Ok files) ->
     nth_error files 0 = Some d ->
     o_columns d = ["p"; "H"; "P1"; "P2"]%string /\
     nth 2 (o_desc d) ""%string = "P1=order parameter by wrapping cluster"%string /\
     nth 3 (o_desc d) ""%string = "P2=order parameter by largest cluster"%string /\ holds (o_rows d)) /\
  (forall files d i, run_ensemble_entropy_order_threads E f t0 time (AClass k) L n i = Ok files -> nth_error files 0 = Some d ->
     o_columns d = ["p"; "H"; "P1"; "P2"]%string /\
     nth 2 (o_desc d) ""%string = "P2=order parameter by wrapping cluster"%string /\
     nth 3 (o_desc d) ""%string = "P1=order parameter by largest cluster"%string /\ holds (o_rows d)).
Proof.
  intros HE Hk H0 Hf Hn third fourth largest wrapping holds.
  assert (G : forall rows, averages E f s0 L (Z.to_nat n) rows -> holds rows).
  { intros rows (_ & A) i Hi. destruct (A i Hi) as (p & h & l & w & Er & _ & _ & P3 & P4). unfold third, fourth.
    rewrite (nth_error_nth _ _ _ Er). cbn [nth]. auto. }
  split.
  - intros files d [E1|(i & E1)] Ed.
    + destruct (loop_total E k L t0 s0 f true n HE Hk H0 Hf Hn) as (d0 & rows & crit & E2 & E3 & A & _).
      unfold run_ensemble_entropy_order in E1. cbn [construct] in E1. rewrite H0 in E1. cbn [rbind] in E1. rewrite E2 in E1. cbn [rbind] in E1.
      rewrite E3 in E1. cbn [rbind] in E1. injection E1 as <-. injection Ed as <-. repeat (split; [reflexivity|]). now apply G.
    + destruct (loop_total E k L t0 s0 f false n HE Hk H0 Hf Hn) as (d0 & rows & crit & E2 & E3 & A & _).
      unfold run_ensemble_entropy_order_threads_v2, construct_seeded in E1. cbn [construct] in E1. rewrite H0 in E1. cbn [rbind] in E1. rewrite E2 in E1. cbn [rbind] in E1.
      rewrite E3 in E1. cbn [rbind] in E1. injection E1 as <-. injection Ed as <-. repeat (split; [reflexivity|]). now apply G.
  - intros files d i E1 Ed.
    destruct (loop_total E k L t0 s0 f false n HE Hk H0 Hf Hn) as (d0 & rows & crit & E2 & E3 & A & _).
    unfold run_ensemble_entropy_order_threads in E1. cbn [construct] in E1. rewrite H0 in E1. cbn [rbind] in E1. rewrite E2 in E1. cbn [rbind] in E1.
    rewrite E3 in E1. cbn [rbind] in E1. injection E1 as <-. injection Ed as <-. repeat (split; [reflexivity|]). now apply G.
Qed.
