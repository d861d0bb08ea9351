(** * FloatMean: rounding of the averaged curves (C125). *)
From Coq Require Import String ZArith List Bool Lia Reals Lra.
From Flocq Require Import Core.
From Verif Require Import Py Lattice Cluster Perc Spec PyFacts Torus Geometry LatFacts Inv Merge Count Fresh Select State Step History Reach
  Micro StateProps StateProps2 Normal Real Entropy Float FloatProps FloatEnt RunBase RunProps Cycle Run EnsSpec Ens Curves FloatMeanSpec.
Import ListNotations.
Open Scope R_scope.

(** ** Sums *)
Fixpoint sumf (F : nat -> fexpr) (m : nat) : fexpr :=
  match m with O => FZ 0 | 1%nat => F 1%nat | S m => FAdd (sumf F m) (F (S m)) end.
Lemma sumf_S F m : (1 <= m)%nat -> sumf F (S m) = FAdd (sumf F m) (F (S m)).
Proof. destruct m; [lia|reflexivity]. Qed.
Section Sum.
Context (lg : R -> R) (F : nat -> fexpr) (M e : R) (n : nat).
Context (HM : 0 <= M) (He : 0 <= e) (Hb : forall j, (1 <= j <= n)%nat -> Rabs (fl lg (F j)) <= M /\ Rabs (fl lg (F j) - feval (F j)) <= e).
Context (Hn : INR n * u <= / 4).
Lemma sumf_err m : (1 <= m <= n)%nat -> Rabs (fl lg (sumf F m)) <= INR m * M + INR m * INR m * u * (M + 1) /\
  Rabs (fl lg (sumf F m) - feval (sumf F m)) <= INR m * e + INR m * INR m * u * (M + 1).
Proof.
  pose proof u_pos as Pu. pose proof eta_small as Es.
  induction m as [|m IH]; [lia|]. intros Hm. destruct m as [|m].
  - cbn [sumf]. destruct (Hb 1 ltac:(lia)) as (A & B). cbn [INR]. assert (0 <= 1 * 1 * u * (M + 1)) by nra. lra.
  - destruct (IH ltac:(lia)) as (A & B). clear IH. rewrite sumf_S by lia. cbn [fl feval]. destruct (Hb (S (S m)) ltac:(lia)) as (C & D).
    set (q := S m) in *. rewrite (S_INR q). assert (Q : 1 <= INR q) by (apply (le_INR 1); lia). assert (Q' : INR q <= INR n) by (apply le_INR; lia).
    set (r := INR q) in *. clearbody r. set (s := fl lg (sumf F q)) in *. set (x := fl lg (F (S q))) in *.
    pose proof (rnd_err (s + x)) as E. pose proof (Rabs_triang s x) as T.
    assert (P : r * r * u * (M + 1) <= r * (M + 1) / 4).
    { replace (r * r * u * (M + 1)) with ((r * u) * (r * (M + 1))) by ring. assert (r * u <= / 4) by nra. assert (0 <= r * (M + 1)) by nra. nra. }
    assert (E' : Rabs (rnd (s + x) - (s + x)) <= (2 * r + 1) * u * (M + 1)).
    { eapply Rle_trans; [exact E|]. apply Rle_trans with (u * (r * M + r * (M + 1) / 4 + M) + u * / 1000000).
      - apply Rplus_le_compat; [apply Rmult_le_compat_l; lra|exact Es].
      - replace ((2 * r + 1) * u * (M + 1)) with (u * ((2 * r + 1) * (M + 1))) by ring. rewrite <- Rmult_plus_distr_l. apply Rmult_le_compat_l; [lra|]. nra. }
    assert (G : (r + 1) * (r + 1) * u * (M + 1) = r * r * u * (M + 1) + (2 * r + 1) * u * (M + 1)) by ring.
    split.
    + rewrite G. replace (rnd (s + x)) with ((rnd (s + x) - (s + x)) + (s + x)) by ring. eapply Rle_trans; [apply Rabs_triang|]. lra.
    + rewrite G. replace (rnd (s + x) - (feval (sumf F q) + feval (F (S q)))) with ((rnd (s + x) - (s + x)) + ((s - feval (sumf F q)) + (x - feval (F (S q))))) by ring.
      eapply Rle_trans; [apply Rabs_triang|]. pose proof (Rabs_triang (s - feval (sumf F q)) (x - feval (F (S q)))). lra.
Qed.
Lemma mean_err : (1 <= n)%nat -> let c := FDiv (sumf F n) (FZ (Z.of_nat n)) in
  Rabs (fl lg c - feval c) <= e + (INR n + 2) * u * (M + 1) /\ Rabs (fl lg c) <= M + 3 * (M + 1) /\ is_double (fl lg c).
Proof.
  intros H1 c. destruct (sumf_err n ltac:(lia)) as (A & B). pose proof u_pos as Pu. pose proof eta_small as Es.
  assert (Q : 1 <= INR n) by (apply (le_INR 1); lia). unfold c. cbn [fl feval]. rewrite <- INR_IZR_INZ. set (r := INR n) in *. clearbody r.
  set (s := fl lg (sumf F n)) in *. set (t := feval (sumf F n)) in *. pose proof (rnd_err (s / r)) as E.
  assert (Ar : Rabs (s / r) <= M + r * u * (M + 1)).
  { unfold Rdiv. rewrite Rabs_mult, (Rabs_pos_eq (/ r)) by (apply Rlt_le, Rinv_0_lt_compat; lra).
    apply Rle_trans with ((r * M + r * r * u * (M + 1)) * / r); [apply Rmult_le_compat_r; [apply Rlt_le, Rinv_0_lt_compat; lra|exact A]|]. right. field. lra. }
  assert (Br : Rabs (s / r - t / r) <= e + r * u * (M + 1)).
  { replace (s / r - t / r) with ((s - t) * / r) by (field; lra). rewrite Rabs_mult, (Rabs_pos_eq (/ r)) by (apply Rlt_le, Rinv_0_lt_compat; lra).
    apply Rle_trans with ((r * e + r * r * u * (M + 1)) * / r); [apply Rmult_le_compat_r; [apply Rlt_le, Rinv_0_lt_compat; lra|exact B]|]. right. field. lra. }
  assert (U : u <= 1) by (rewrite u_val; lra).
  assert (P : r * u * (M + 1) <= (M + 1) / 4) by nra.
  assert (E' : Rabs (rnd (s / r) - s / r) <= 2 * u * (M + 1)).
  { eapply Rle_trans; [exact E|]. apply Rle_trans with (u * (M + (M + 1) / 4) + u * / 1000000); [apply Rplus_le_compat; [apply Rmult_le_compat_l; lra|exact Es]|].
    replace (2 * u * (M + 1)) with (u * (2 * (M + 1))) by ring. rewrite <- Rmult_plus_distr_l. apply Rmult_le_compat_l; lra. }
  split; [|split; [|apply rnd_double]].
  - replace (rnd (s / r) - t / r) with ((rnd (s / r) - s / r) + (s / r - t / r)) by ring. eapply Rle_trans; [apply Rabs_triang|].
    replace ((r + 2) * u * (M + 1)) with (r * u * (M + 1) + 2 * u * (M + 1)) by ring. lra.
  - replace (rnd (s / r)) with ((rnd (s / r) - s / r) + s / r) by ring. eapply Rle_trans; [apply Rabs_triang|]. assert (2 * u * (M + 1) <= 2 * (M + 1)) by nra. lra.
Qed.
End Sum.

(** ** The cells of the written tables *)
Section Cells.
Context (E : env) (k : pkind) (L : Z) (t0 : nat) (s0 : perc) (f : nat).
Context (HE : env_ok E) (Hk : k <> KSP) (H0 : new_perc E k L t0 = Ok s0) (Hf : (5 * (L * L) < Z.of_nat f)%Z).
Notation n := (Z.to_nat (L * L)).
Notation Re := (realization E f s0).
Definition cellf (i j e : nat) : fexpr := nth j (data_row E L s0 f e i) (FZ 0).
Definition sum_row (m i : nat) : list fexpr := [sumf (cellf i 0) m; sumf (cellf i 1) m; sumf (cellf i 2) m; sumf (cellf i 3) m].
Definition accf (e : nat) (d : option (list (list fexpr))) : Prop :=
  match e with
  | O => d = None
  | S _ => exists rows, d = Some rows /\ length rows = n /\ forall i, (i < n)%nat -> nth_error rows i = Some (sum_row e i)
  end.
Lemma accf_step e d rows : accf e d -> get_data_array (Re (S e)) = Ok rows -> exists d', accumulate d rows = Ok d' /\ accf (S e) (Some d').
Proof.
  intros Ha Hd. destruct (re_data E k L t0 s0 f HE Hk H0 Hf e) as (rows' & E1 & Hl & Hr). rewrite Hd in E1. injection E1 as <-.
  destruct e as [|e].
  - cbn in Ha. subst d. exists rows. split; [reflexivity|]. exists rows. split; auto.
  - destruct Ha as (a & -> & La & Ra). cbn [accumulate]. unfold add_data. rewrite La, Hl, Nat.eqb_refl. eexists. split; [reflexivity|].
    eexists. split; [reflexivity|]. split; [rewrite map_length, combine_length; lia|].
    intros i Hi. exact (map_nth_error (fun '(x, y) => add_row x y) i _ (combine_nth2 _ _ _ _ _ (Ra i Hi) (Hr i Hi))).
Qed.
Lemma loop_cells show m : forall e d crit, accf e d -> (0 < n)%nat -> exists d' crit',
  ensemble_loop E f show m d crit (Re e) = (Re (e + m)%nat, Ok (d', crit')) /\ accf (e + m) d'.
Proof.
  induction m as [|m IH]; intros e d crit Ha Hn.
  - exists d, crit. rewrite Nat.add_0_r. split; [reflexivity|exact Ha].
  - cbn [ensemble_loop]. unfold mbind at 1. rewrite (re_reset E k L t0 s0 f HE H0 e). unfold mbind at 1. rewrite (re_run E k L t0 s0 f HE H0 Hf e). unfold mbind at 1, get.
    destruct (re_pc E k L t0 s0 f HE H0 (S e)) as (pc & Epc). unfold mbind at 1, lift. rewrite Epc.
    destruct (re_data E k L t0 s0 f HE Hk H0 Hf e) as (rows & Ed & Hl & _). unfold mbind at 1. rewrite Ed.
    assert (Es : (if show then match rows with [] => Err IndexError | _ :: _ => Ok tt end else Ok tt) = Ok tt).
    { destruct show; auto. destruct rows; auto. cbn in Hl. lia. }
    unfold mbind at 1. rewrite Es. destruct (accf_step e d rows Ha Ed) as (d1 & E1 & A1). unfold mbind at 1. rewrite E1.
    destruct (IH (S e) (Some d1) (crit ++ [[pc; FZ (get_site_count_wrapping_cluster_pc (Re (S e))); FZ (get_bond_count_wrapping_cluster_pc (Re (S e)))]]) A1 Hn)
      as (d2 & crit2 & E2 & A2).
    exists d2, crit2. replace (e + S m)%nat with (S e + m)%nat by lia. split; [exact E2|exact A2].
Qed.
Lemma total_cells show m : (1 <= m)%Z -> exists s' d crit rows, ensemble_loop E f show (Z.to_nat m) None [] s0 = (s', Ok (Some d, crit)) /\
  Run.average (Some d) m = Ok rows /\ length rows = n /\
  forall i, (i < n)%nat -> nth_error rows i = Some (map (fun j => FDiv (sumf (cellf i j) (Z.to_nat m)) (FZ (Z.of_nat (Z.to_nat m)))) [0; 1; 2; 3]%nat).
Proof.
  intros Hm. pose proof (new_perc_pos _ _ _ _ _ H0) as HL. destruct (loop_cells show (Z.to_nat m) 0 None [] eq_refl ltac:(nia)) as (d & crit & E1 & A).
  cbn [Nat.add] in E1, A. change (Re 0) with s0 in E1. destruct (Z.to_nat m) as [|q] eqn:Q; [lia|]. destruct A as (rows & -> & Hl & Hr).
  do 3 eexists. eexists. split; [exact E1|]. split; [reflexivity|]. split; [now rewrite map_length|].
  intros i Hi. rewrite (map_nth_error _ i rows (Hr i Hi)). unfold sum_row. cbn [map]. replace (Z.of_nat (S q)) with m by lia. reflexivity.
Qed.

(** ** One cell of one realization *)
Lemma row_states e i : (i < n)%nat -> exists a, reachable E L a /\ occ_count a = Z.of_nat (S i) /\
  cellf i 1 (S e) = entropy_v2 a /\ order_param_largest_clstr a = Ok (cellf i 2 (S e)) /\ order_param_wrapping a = Ok (cellf i 3 (S e)).
Proof.
  intros Hi. pose proof (re_fresh E k L t0 s0 f H0 e) as HF. pose proof (fresh_plain_object _ _ _ _ HF) as HO. pose proof (fresh_reachable E k L _ HO) as HR0.
  destruct (run_rows E k L _ f HE Hk HF Hf) as (N & s' & Er & Hl & Ho & Hin & A1 & A2 & A3 & _).
  rewrite (re_run E k L t0 s0 f HE H0 Hf e) in Er. injection Er as <-. set (w := run_log E N _) in *.
  destruct (nth_error w i) as [a|] eqn:Ea; [|apply nth_error_None in Ea; lia]. exists a. split; [|split; [|split; [|split]]].
  - apply (later_reach E L _ a HR0). apply (proj1 (Forall_forall _ _) (log_later E N _)). now apply nth_error_In with i.
  - pose proof (map_nth_error occ_count i w Ea) as Q. rewrite Ho in Q.
    assert (Es : nth_error (seq 1 n) i = Some (S i)) by (rewrite (nth_error_nth' _ O) by (now rewrite seq_length); now rewrite seq_nth).
    rewrite (map_nth_error Z.of_nat i _ Es) in Q. congruence.
  - unfold cellf, data_row, entry. cbn [nth]. rewrite A1. apply nth_error_nth. now apply map_nth_error.
  - unfold cellf, data_row, entry. cbn [nth]. destruct (nth_map_ok _ _ _ i a (FZ 0) A3 Ea) as (y & Ey & En & _). now rewrite En.
  - unfold cellf, data_row, entry. cbn [nth]. destruct (nth_map_ok _ _ _ i a (FZ 0) A2 Ea) as (y & Ey & En & _). now rewrite En.
Qed.
Lemma ratio_cell lg D m x : (0 < D <= 2 ^ 50)%Z -> frac D m x -> Rabs (fl lg x) <= 1 /\ Rabs (fl lg x - feval x) <= u.
Proof.
  intros HD Fr. destruct (frac_fl_cmp D m m x x lg Fr Fr HD) as (_ & _ & A & _ & B). rewrite Rabs_pos_eq by lra. split; [lra|exact B].
Qed.
Context (lg : R -> R) (Hlg : log_accurate lg) (HL : (L <= 2 ^ 20)%Z).
Lemma cells_ratio i j e : (i < n)%nat -> j <> 1%nat -> (j < 4)%nat -> (1 <= e)%nat -> Rabs (fl lg (cellf i j e)) <= 1 /\ Rabs (fl lg (cellf i j e) - feval (cellf i j e)) <= u.
Proof.
  intros Hi Hj1 Hj He. destruct e as [|e]; [lia|]. pose proof (new_perc_pos _ _ _ _ _ H0) as HP. destruct (row_states e i Hi) as (a & HR & _ & _ & A2 & A3).
  assert (j = 0 \/ j = 2 \/ j = 3)%nat as [-> |[-> | ->]] by lia.
  - apply (ratio_cell lg (L * L) (Z.of_nat (S i))); [nia|]. split; [lia|]. left. reflexivity.
  - destruct (of_bonds_frac E L a order_param_largest_clstr HE HR ltac:(now left)) as (m & x & Ex & Fr). rewrite A2 in Ex. injection Ex as <-. apply (ratio_cell lg (2 * (L * L)) m); [nia|exact Fr].
  - destruct (of_bonds_frac E L a order_param_wrapping HE HR ltac:(right; now left)) as (m & x & Ex & Fr). rewrite A3 in Ex. injection Ex as <-. apply (ratio_cell lg (2 * (L * L)) m); [nia|exact Fr].
Qed.
Lemma cells_entropy i e : (i < n)%nat -> (1 <= e)%nat -> Rabs (fl lg (cellf i 1 e)) <= ln (IZR (2 * (L * L))) + 1 /\ Rabs (fl lg (cellf i 1 e) - feval (cellf i 1 e)) <= INR (i + 2) * drift L.
Proof.
  intros Hi He. destruct e as [|e]; [lia|]. pose proof (new_perc_pos _ _ _ _ _ H0) as HP. destruct (row_states e i Hi) as (a & HR & Ho & A1 & _ & _).
  pose proof (reachable_inv E L a HE HR) as Ia. destruct (p_C81 E L a lg HE HL Hlg HR) as (A & _). rewrite (shannon_hh L) in A by auto.
  destruct (reachable_ent E L a HE HR) as (_ & En). unfold EntOK in En. rewrite A1. destruct (p_C18 E L a HE HR) as (B & _).
  unfold entropy_v2 in *. rewrite En in *. change (bpow radix2 (-53) * (72 + 2 * ln (IZR (2 * (L * L))))) with (drift L) in A. rewrite Ho in A. replace (IZR (Z.of_nat (S i) + 1)) with (INR (i + 2)) in A by (rewrite INR_IZR_INZ; f_equal; lia).
  split; [|exact A]. destruct (big_drift L ltac:(lia)) as (_ & G & _). pose proof (drift_pos L ltac:(lia)) as Dp.
  assert (Q : INR (i + 2) * drift L <= IZR (L * L + 1) * drift L) by (apply Rmult_le_compat_r; [lra|rewrite INR_IZR_INZ; apply IZR_le; lia]).
  apply Rabs_le_inv in A. apply Rabs_le. lra.
Qed.
End Cells.
