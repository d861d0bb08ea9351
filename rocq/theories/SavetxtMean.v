(** * SavetxtMean: the numbers in the files of curves (C125). *)
From Coq Require Import String Ascii ZArith List Bool Reals Lia Lra.
From Flocq Require Import Core.
From Verif Require Import Py Lattice Cluster Perc Run Spec History Reach State Inv StateProps2 RunProps Cycle EnsSpec Ens Real AverageSpec View Float FloatProps FloatEnt FloatMeanSpec FloatMean Util ViewSpec ViewProps Savetxt SavetxtSpec SavetxtProps.
Import ListNotations.
Open Scope R_scope.

Section Written.
Context (E : env) (k : pkind) (L : Z) (t0 : nat) (s0 : perc) (f : nat) (n : Z) (F : out_file).
Context (HE : env_ok E) (Hk : k <> KSP) (H0 : new_perc E k L t0 = Ok s0) (Hf : (5 * (L * L) < Z.of_nat f)%Z) (Hn : (1 <= n <= 2 ^ 50)%Z).
Context (Hw : writes E f t0 k L n F).
Notation N := (Z.to_nat (L * L)).
Definition mean_cell (i j : nat) : fexpr := FDiv (sumf (cellf E L s0 f i j) (Z.to_nat n)) (FZ (Z.of_nat (Z.to_nat n))).
Lemma written_cells : (Forall one_line (o_columns F) /\ Forall one_line (o_desc F)) /\ length (o_rows F) = N /\
  forall i, (i < N)%nat -> nth_error (o_rows F) i = Some [mean_cell i 0; mean_cell i 1; mean_cell i 2; mean_cell i 3].
Proof.
  destruct Hw as (files & Hfi & [(time & W)|[(time & q & W)|(time & q & W)]]).
  - destruct (total_cells E k L t0 s0 f HE Hk H0 Hf true n ltac:(lia)) as (s' & d & crit & rows & A & B & C & D).
    unfold run_ensemble_entropy_order in W. cbn [construct] in W. rewrite H0 in W. cbn [rbind] in W. rewrite A in W. cbn [rbind] in W. rewrite B in W. cbn [rbind] in W.
    injection W as <-. injection Hfi as <-. split; [split; repeat constructor|]. split; [exact C|exact D].
  - destruct (total_cells E k L t0 s0 f HE Hk H0 Hf false n ltac:(lia)) as (s' & d & crit & rows & A & B & C & D).
    unfold run_ensemble_entropy_order_threads in W. cbn [construct] in W. rewrite H0 in W. cbn [rbind] in W. rewrite A in W. cbn [rbind] in W. rewrite B in W. cbn [rbind] in W.
    injection W as <-. injection Hfi as <-. split; [split; repeat constructor|]. split; [exact C|exact D].
  - destruct (total_cells E k L t0 s0 f HE Hk H0 Hf false n ltac:(lia)) as (s' & d & crit & rows & A & B & C & D).
    unfold run_ensemble_entropy_order_threads_v2, construct_seeded in W. cbn [construct] in W. rewrite H0 in W. cbn [rbind] in W. rewrite A in W. cbn [rbind] in W. rewrite B in W. cbn [rbind] in W.
    injection W as <-. injection Hfi as <-. split; [split; repeat constructor|]. split; [exact C|exact D].
Qed.
Lemma cells_mean i : (i < N)%nat -> feval (mean_cell i 0) = INR (S i) / IZR (L * L) /\
  feval (mean_cell i 1) = mean (Z.to_nat n) (fun e => feval (entry (h_arr (realization E f s0 e)) i)) /\
  feval (mean_cell i 2) = mean (Z.to_nat n) (fun e => feval (entry (pl_arr (realization E f s0 e)) i)) /\
  feval (mean_cell i 3) = mean (Z.to_nat n) (fun e => feval (entry (pw_arr (realization E f s0 e)) i)).
Proof.
  intros Hi. assert (A : averages E f s0 L (Z.to_nat n) (o_rows F)).
  { destruct Hw as (files & Hfi & [(time & W)|[(time & q & W)|(time & q & W)]]).
    - destruct (p_C56 E k L t0 s0 f n time HE Hk H0 Hf ltac:(lia)) as (_ & (d & c & W' & _ & _ & _ & _ & A & _) & _). rewrite W in W'. injection W' as ->. injection Hfi as <-. exact A.
    - destruct (p_C56 E k L t0 s0 f n time HE Hk H0 Hf ltac:(lia)) as (_ & _ & Q & _). destruct (Q q) as (d & W' & _ & _ & A). rewrite W in W'. injection W' as ->. injection Hfi as <-. exact A.
    - destruct (p_C56 E k L t0 s0 f n time HE Hk H0 Hf ltac:(lia)) as (_ & _ & _ & Q). destruct (Q q) as (d & c & W' & _ & _ & _ & _ & A & _). rewrite W in W'. injection W' as ->. injection Hfi as <-. exact A. }
  destruct A as (_ & A). destruct (A i Hi) as (p & h & l & w & R & A0 & A1 & A2 & A3).
  destruct written_cells as (_ & _ & C). rewrite (C i Hi) in R. injection R as <- <- <- <-. auto.
Qed.
Context (lg : R -> R) (Hlg : log_accurate lg) (HL : (L <= 2 ^ 20)%Z).
Lemma n_small : INR (Z.to_nat n) * u <= / 4.
Proof.
  rewrite INR_IZR_INZ, Z2Nat.id by lia. rewrite u_val. assert (IZR n <= 1125899906842624) by (apply IZR_le; lia). lra.
Qed.
Lemma acc_ratio i j : (i < N)%nat -> j <> 1%nat -> (j < 4)%nat -> Rabs (fl lg (mean_cell i j) - feval (mean_cell i j)) <= ratio_bound n /\
  is_double (fl lg (mean_cell i j)) /\ Rabs (fl lg (mean_cell i j)) <= 200.
Proof.
  intros Hi H1 H4. destruct (mean_err lg (cellf E L s0 f i j) 1 u (Z.to_nat n) ltac:(lra)
    (fun e He => cells_ratio E k L t0 s0 f HE Hk H0 Hf lg HL i j e Hi H1 H4 (proj1 He)) n_small ltac:(lia)) as (A & B & C).
  fold (mean_cell i j) in A, B, C. split; [|split; [exact C|]].
  - eapply Rle_trans; [exact A|]. unfold ratio_bound, ulp. fold u. rewrite INR_IZR_INZ, Z2Nat.id by lia. right. ring.
  - lra.
Qed.
Lemma acc_entropy i : (i < N)%nat -> Rabs (fl lg (mean_cell i 1) - feval (mean_cell i 1)) <= entropy_bound L n i /\
  is_double (fl lg (mean_cell i 1)) /\ Rabs (fl lg (mean_cell i 1)) <= 200.
Proof.
  intros Hi. pose proof (new_perc_pos _ _ _ _ _ H0) as HP. pose proof (lnB_pos L ltac:(lia)) as LB. destruct (big_drift L ltac:(lia)) as (LU & _ & _). pose proof (drift_pos L ltac:(lia)) as Dp.
  destruct (mean_err lg (cellf E L s0 f i 1) (ln (IZR (2 * (L * L))) + 1) (INR (i + 2) * drift L) (Z.to_nat n) ltac:(lra)
    (fun e He => cells_entropy E k L t0 s0 f HE Hk H0 Hf lg Hlg HL i e Hi (proj1 He)) n_small ltac:(lia)) as (A & B & C).
  fold (mean_cell i 1) in A, B, C. split; [|split; [exact C|lra]].
  eapply Rle_trans; [exact A|]. unfold entropy_bound, ulp, drift. fold u. rewrite (INR_IZR_INZ (Z.to_nat n)), Z2Nat.id by lia. right. ring.
Qed.
End Written.

Lemma p_C125_accuracy E k L t0 s0 f n F lg : env_ok E -> k <> KSP -> new_perc E k L t0 = Ok s0 -> (5 * (L * L) < Z.of_nat f)%Z -> (1 <= n <= 2 ^ 50)%Z ->
  (L <= 2 ^ 20)%Z -> log_accurate lg -> writes E f t0 k L n F ->
  length (o_rows F) = Z.to_nat (L * L) /\
  forall i, (i < Z.to_nat (L * L))%nat -> exists p h l w, nth_error (o_rows F) i = Some [p; h; l; w] /\
    Rabs (fl lg p - INR (S i) / IZR (L * L)) <= ratio_bound n /\
    Rabs (fl lg h - mean (Z.to_nat n) (fun e => feval (entry (h_arr (realization E f s0 e)) i))) <= entropy_bound L n i /\
    Rabs (fl lg l - mean (Z.to_nat n) (fun e => feval (entry (pl_arr (realization E f s0 e)) i))) <= ratio_bound n /\
    Rabs (fl lg w - mean (Z.to_nat n) (fun e => feval (entry (pw_arr (realization E f s0 e)) i))) <= ratio_bound n.
Proof.
  intros HE Hk H0 Hf Hn HL Hlg Hw. destruct (written_cells E k L t0 s0 f n F HE Hk H0 Hf Hn Hw) as (_ & A & B). split; [exact A|]. intros i Hi.
  do 4 eexists. split; [apply B, Hi|]. destruct (cells_mean E k L t0 s0 f n F HE Hk H0 Hf Hn Hw i Hi) as (M0 & M1 & M2 & M3).
  rewrite <- M0, <- M1, <- M2, <- M3. pose proof (fun j => acc_ratio E k L t0 s0 f n HE Hk H0 Hf Hn lg HL i j Hi) as Q.
  split; [apply Q; lia|]. split; [exact (proj1 (acc_entropy E k L t0 s0 f n HE Hk H0 Hf Hn lg Hlg HL i Hi))|]. split; apply Q; lia.
Qed.
Lemma dec_close x m b : Rabs (x - m) <= b -> read_close (dec x) m b.
Proof.
  intros H. unfold read_close. pose proof (dec_error x) as D. replace (dec x - m) with ((dec x - x) + (x - m)) by ring.
  eapply Rle_trans; [apply Rabs_triang|]. assert (Rabs x <= Rabs m + b).
  { replace x with (m + (x - m)) by ring. eapply Rle_trans; [apply Rabs_triang|]. lra. }
  assert (Rabs x * (5 / 100000000000) <= (Rabs m + b) * (5 / 100000000000)) by (apply Rmult_le_compat_r; lra). lra.
Qed.
Lemma p_C125_text E k L t0 s0 f n F lg date clock : env_ok E -> k <> KSP -> new_perc E k L t0 = Ok s0 -> (5 * (L * L) < Z.of_nat f)%Z -> (1 <= n <= 2 ^ 50)%Z ->
  (L <= 2 ^ 20)%Z -> log_accurate lg -> one_line date -> one_line clock -> writes E f t0 k L n F ->
  exists table, read_table (file_text lg date clock F) = map (map Some) table /\ length table = Z.to_nat (L * L) /\
  forall i, (i < Z.to_nat (L * L))%nat -> exists p h l w, nth_error table i = Some [p; h; l; w] /\
    ((L * L <= 9 * 10 ^ 9)%Z -> (n * (L * L) <= 10 ^ 14)%Z -> gives (L * L) p (INR (S i) / IZR (L * L))) /\
    read_close p (INR (S i) / IZR (L * L)) (ratio_bound n) /\
    read_close h (mean (Z.to_nat n) (fun e => feval (entry (h_arr (realization E f s0 e)) i))) (entropy_bound L n i) /\
    read_close l (mean (Z.to_nat n) (fun e => feval (entry (pl_arr (realization E f s0 e)) i))) (ratio_bound n) /\
    read_close w (mean (Z.to_nat n) (fun e => feval (entry (pw_arr (realization E f s0 e)) i))) (ratio_bound n).
Proof.
  intros HE Hk H0 Hf Hn HL Hlg Hd Hc Hw. destruct (written_cells E k L t0 s0 f n F HE Hk H0 Hf Hn Hw) as ((Q1 & Q2) & A & B).
  assert (Hh : plain_head date clock F) by (apply head_plain; now repeat split). pose proof (new_perc_pos _ _ _ _ _ H0) as HP.
  assert (C : forall i j, (i < Z.to_nat (L * L))%nat -> (j < 4)%nat -> is_double (fl lg (mean_cell E L s0 f n i j)) /\ Rabs (fl lg (mean_cell E L s0 f n i j)) <= 200).
  { intros i j Hi Hj. destruct (Nat.eq_dec j 1) as [-> |Hj1]; [exact (proj2 (acc_entropy E k L t0 s0 f n HE Hk H0 Hf Hn lg Hlg HL i Hi))|exact (proj2 (acc_ratio E k L t0 s0 f n HE Hk H0 Hf Hn lg HL i j Hi Hj1 Hj))]. }
  exists (map (map (fun e => dec (rnd (fl lg e)))) (o_rows F)). split; [|split].
  - rewrite read_rows; [|exact Hh|].
    + rewrite map_map. apply map_ext. intros r. now rewrite map_map.
    + intros r Hr. apply In_nth_error in Hr as (i & Hi). assert (Hi' : (i < Z.to_nat (L * L))%nat) by (rewrite <- A; apply nth_error_Some; now rewrite Hi).
      rewrite (B i Hi') in Hi. injection Hi as <-. split; [discriminate|]. intros x Hx.
      assert (exists j, (j < 4)%nat /\ x = mean_cell E L s0 f n i j) as (j & Hj & ->).
      { destruct Hx as [<- |[<- |[<- |[<- |[]]]]]; [exists 0%nat|exists 1%nat|exists 2%nat|exists 3%nat]; (split; [lia|reflexivity]). }
      destruct (C i j Hi' Hj) as (C1 & C2). rewrite rnd_id by exact C1. apply finite_small; [exact C1|]. change (10 ^ 11)%Z with 100000000000%Z. lra.
  - now rewrite map_length.
  - intros i Hi. do 4 eexists. split; [erewrite map_nth_error by (apply B, Hi); cbn [map]; reflexivity|].
    rewrite !rnd_id by (apply C; [exact Hi|lia]).
    destruct (cells_mean E k L t0 s0 f n F HE Hk H0 Hf Hn Hw i Hi) as (M0 & M1 & M2 & M3).
    rewrite <- M1, <- M2, <- M3. pose proof (fun j => acc_ratio E k L t0 s0 f n HE Hk H0 Hf Hn lg HL i j Hi) as Q.
    assert (P : read_close (dec (fl lg (mean_cell E L s0 f n i 0))) (INR (S i) / IZR (L * L)) (ratio_bound n)) by (rewrite <- M0; apply dec_close, Q; lia).
    split.
    + intros G1 G2. exists (Z.of_nat (S i)). rewrite <- INR_IZR_INZ. split; [reflexivity|]. set (y := dec _) in *. unfold read_close in P.
      assert (PN : 0 < IZR (L * L) <= 9000000000) by (split; [apply IZR_lt; nia|apply IZR_le; lia]).
      assert (Pk : 0 <= INR (S i) <= IZR (L * L)) by (split; [apply pos_INR|rewrite INR_IZR_INZ; apply IZR_le; lia]).
      assert (PnN : IZR n * IZR (L * L) <= 100000000000000) by (rewrite <- mult_IZR; apply IZR_le; lia).
      set (D := IZR (L * L)) in *. set (c := INR (S i)) in *.
      assert (Pr : 0 <= c / D <= 1).
      { split; [apply Rmult_le_pos; [lra|apply Rlt_le, Rinv_0_lt_compat; lra]|]. apply Rmult_le_reg_r with D; [lra|]. unfold Rdiv. rewrite Rmult_assoc, Rinv_l by lra. lra. }
      rewrite (Rabs_pos_eq (c / D)) in P by lra. unfold ratio_bound, ulp in P. fold u in P. rewrite u_val in P.
      replace (y * D - c) with ((y - c / D) * D) by (field; lra). rewrite Rabs_mult, (Rabs_pos_eq D) by lra.
      set (b := (2 * IZR n + 5) * / 9007199254740992) in *.
      assert (Bn : 0 <= b) by (unfold b; assert (1 <= IZR n) by (apply IZR_le; lia); lra).
      assert (Bb : b * D <= 23 / 1000) by (unfold b; lra).
      eapply Rle_lt_trans; [apply Rmult_le_compat_r; [lra|exact P]|].
      assert (X : (b + 5 / 100000000000 * (c / D + b)) * D <= b * D + 5 / 100000000000 * (D + b * D)).
      { replace ((b + 5 / 100000000000 * (c / D + b)) * D) with (b * D + 5 / 100000000000 * ((c / D) * D + b * D)) by ring.
        replace (c / D * D) with c by (field; lra). lra. }
      lra.
    + split; [exact P|]. split; [apply dec_close; exact (proj1 (acc_entropy E k L t0 s0 f n HE Hk H0 Hf Hn lg Hlg HL i Hi))|]. split; apply dec_close, Q; lia.
Qed.
