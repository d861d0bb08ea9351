(** * Average: averages over realizations are unbiased, and their variance falls like 1/n (C115). *)
From Coq Require Import ZArith List Bool Lia Permutation Reals Lra.
From Verif Require Import Py Lattice Cluster Perc Spec PyFacts History ChanceSpec IidSpec RulesLawSpec AverageSpec.
Import ListNotations.

(** ** Sums over all tuples *)
Lemma sum_app l l' : sum_of (l ++ l') = (sum_of l + sum_of l')%R.
Proof. unfold sum_of. induction l as [|x l IH]; cbn; [lra|]. rewrite IH. lra. Qed.
Lemma sum_perm l l' : Permutation l l' -> sum_of l = sum_of l'.
Proof. unfold sum_of. induction 1; cbn; lra. Qed.
Lemma sum_plus {A} (f g : A -> R) l : sum_of (map (fun x => f x + g x)%R l) = (sum_of (map f l) + sum_of (map g l))%R.
Proof. unfold sum_of. induction l as [|x l IH]; cbn; [lra|]. rewrite IH. lra. Qed.
Lemma sum_scal {A} (f : A -> R) a l : sum_of (map (fun x => a * f x)%R l) = (a * sum_of (map f l))%R.
Proof. unfold sum_of. induction l as [|x l IH]; cbn; [lra|]. rewrite IH. lra. Qed.
Lemma sum_const {A} (a : R) (l : list A) : sum_of (map (fun _ => a) l) = (a * INR (length l))%R.
Proof. unfold sum_of. induction l as [|x l IH]; [cbn; lra|]. cbn [map fold_right length]. rewrite IH, S_INR. lra. Qed.
Lemma sum_flat {A B} (f : B -> R) (h : A -> list B) l : sum_of (map f (flat_map h l)) = sum_of (map (fun x => sum_of (map f (h x))) l).
Proof. induction l as [|x l IH]; [reflexivity|]. cbn [flat_map map]. rewrite map_app, sum_app, IH. reflexivity. Qed.

Fixpoint tuples {A} (n : nat) (V : list A) : list (list A) :=
  match n with O => [[]] | S n => flat_map (fun v => map (cons v) (tuples n V)) V end.
Lemma tuples_len {A} n (V : list A) t : In t (tuples n V) -> length t = n.
Proof.
  revert t. induction n as [|n IH]; intros t Ht; cbn [tuples] in Ht; [destruct Ht as [<-|[]]; reflexivity|].
  apply in_flat_map in Ht as (v & _ & Ht). apply in_map_iff in Ht as (u & <- & Hu). cbn. now rewrite (IH u Hu).
Qed.
Lemma tuples_num {A} n (V : list A) : INR (length (tuples n V)) = (INR (length V) ^ n)%R.
Proof.
  induction n as [|n IH]; [reflexivity|]. cbn [tuples pow]. rewrite <- IH. generalize (tuples n V). intros T. clear IH.
  induction V as [|v V IH]; [cbn; lra|]. cbn [flat_map]. rewrite app_length, plus_INR, map_length, IH. cbn [length]. rewrite S_INR. lra.
Qed.
(** A centred quantity: the sum of the tuple sums is 0, the sum of their squares is n times as large as for one. *)
Section Centred.
Variable V : list R.
Hypothesis C : sum_of V = 0%R.
Lemma tuples_first n : sum_of (map sum_of (tuples n V)) = 0%R.
Proof.
  induction n as [|n IH]; [unfold sum_of; cbn; lra|]. cbn [tuples]. rewrite sum_flat.
  erewrite map_ext_in; [|intros v _; rewrite map_map; exact (sum_plus (fun _ => v) sum_of (tuples n V))].
  erewrite map_ext_in; [|intros v _; rewrite sum_const, IH; exact (eq_refl (v * INR (length (tuples n V)) + 0)%R)].
  rewrite (sum_plus (fun v => v * INR (length (tuples n V)))%R (fun _ => 0%R)), sum_const.
  erewrite map_ext_in; [|intros v _; exact (Rmult_comm v _)]. rewrite (sum_scal (fun v => v)), map_id, C. lra.
Qed.
Lemma tuples_square n : sum_of (map (fun t => sum_of t ^ 2)%R (tuples (S n) V)) = (INR (S n) * INR (length V) ^ n * sum_of (map (fun v => v ^ 2)%R V))%R.
Proof.
  assert (Step : forall n, sum_of (map (fun t => sum_of t ^ 2)%R (tuples (S n) V)) =
    (INR (length (tuples n V)) * sum_of (map (fun v => v ^ 2)%R V) + INR (length V) * sum_of (map (fun t => sum_of t ^ 2)%R (tuples n V)))%R).
  { clear n. intros n. cbn [tuples]. rewrite sum_flat.
    erewrite map_ext_in with (g := fun v => (INR (length (tuples n V)) * v ^ 2 + sum_of (map (fun t => sum_of t ^ 2)%R (tuples n V)))%R).
    - rewrite (sum_plus (fun v => INR (length (tuples n V)) * v ^ 2)%R (fun _ => sum_of (map (fun t => sum_of t ^ 2)%R (tuples n V)))), sum_scal, sum_const. lra.
    - intros v _. rewrite map_map.
      erewrite map_ext_in with (g := fun t => (v ^ 2 + (2 * v * sum_of t + sum_of t ^ 2))%R); [|intros t _; change (sum_of (v :: t)) with (v + sum_of t)%R; ring].
      rewrite (sum_plus (fun _ => v ^ 2)%R (fun t => 2 * v * sum_of t + sum_of t ^ 2)%R), (sum_plus (fun t => 2 * v * sum_of t)%R), sum_const, sum_scal, tuples_first. lra. }
  induction n as [|n IH].
  - rewrite Step. cbn [tuples map length pow]. unfold sum_of at 3. cbn [map fold_right]. unfold sum_of at 3. cbn. lra.
  - rewrite Step, IH, tuples_num, (S_INR (S n)). cbn [pow]. ring.
Qed.
End Centred.

Lemma mean_shift mu t : t <> [] -> (mean_of t - mu = sum_of (map (fun x => x - mu)%R t) / INR (length t))%R.
Proof.
  intros Ht. unfold mean_of. assert (INR (length t) <> 0%R) by (apply not_0_INR; destruct t; [congruence|discriminate]).
  replace (sum_of (map (fun x => x - mu)%R t)) with (sum_of t - mu * INR (length t))%R; [field; auto|].
  clear. unfold sum_of. induction t as [|x t IH]; [cbn; lra|]. cbn [map fold_right length]. rewrite <- IH, S_INR. lra.
Qed.
Lemma tuples_map {A B} (f : A -> B) n V : map (map f) (tuples n V) = tuples n (map f V).
Proof.
  induction n as [|n IH]; [reflexivity|]. cbn [tuples]. rewrite <- IH. generalize (tuples n V). intros T. clear IH.
  induction V as [|v V IH]; [reflexivity|]. cbn [flat_map map]. rewrite map_app, IH. f_equal. rewrite !map_map. reflexivity.
Qed.
Lemma tuples_mean V n : V <> [] -> let mu := mean_of V in
  sum_of (map (fun t => mean_of t - mu)%R (tuples (S n) V)) = 0%R /\
  (sum_of (map (fun t => (mean_of t - mu) ^ 2)%R (tuples (S n) V)) * INR (S n) = INR (length V) ^ n * sum_of (map (fun v => (v - mu) ^ 2)%R V))%R.
Proof.
  intros HV mu. set (U := map (fun x => x - mu)%R V). assert (NV : INR (length V) <> 0%R) by (apply not_0_INR; destruct V; [congruence|discriminate]).
  assert (C : sum_of U = 0%R). { pose proof (mean_shift mu V HV) as Q. fold U in Q. fold mu in Q. replace (mu - mu)%R with 0%R in Q by lra.
    symmetry in Q. apply (f_equal (fun z => z * INR (length V))%R) in Q. unfold Rdiv in Q. rewrite Rmult_assoc, Rinv_l, Rmult_1_r, Rmult_0_l in Q by auto. exact Q. }
  assert (NS : INR (S n) <> 0%R) by (apply not_0_INR; discriminate).
  assert (Sh : forall t, In t (tuples (S n) V) -> (mean_of t - mu = / INR (S n) * sum_of (map (fun x => x - mu) t))%R).
  { intros t Ht. apply tuples_len in Ht. rewrite mean_shift by (destruct t; discriminate). rewrite Ht. unfold Rdiv. ring. }
  split.
  - erewrite map_ext_in; [|exact Sh]. rewrite (sum_scal (fun t => sum_of (map (fun x => x - mu) t))%R). rewrite <- (map_map (map (fun x => x - mu)%R) sum_of), tuples_map. fold U. rewrite tuples_first by auto. ring.
  - erewrite map_ext_in with (g := fun t => (/ INR (S n) ^ 2 * sum_of (map (fun x => x - mu) t) ^ 2)%R); [|intros t Ht; rewrite (Sh t Ht); field; auto].
    rewrite (sum_scal (fun t => sum_of (map (fun x => x - mu) t) ^ 2)%R). rewrite <- (map_map (map (fun x => x - mu)%R) (fun t => sum_of t ^ 2)%R), tuples_map. fold U.
    rewrite tuples_square by auto. unfold U. rewrite map_length, map_map. field. auto.
Qed.

(** ** From the number of cases for each outcome to averages *)
Definition lR_dec : forall x y : list R, {x = y} + {x <> y} := list_eq_dec Req_EM_T.
Lemma tuples_occ V : forall n vs, length vs = n -> count_occ lR_dec (tuples n V) vs = fold_right Nat.mul 1%nat (map (count_occ Req_EM_T V) vs).
Proof.
  induction n as [|n IH]; intros [|v vs] Hl; try discriminate.
  - cbn [tuples map fold_right]. cbn. destruct (lR_dec [] []); congruence.
  - injection Hl as Hl. cbn [tuples map fold_right]. rewrite <- (IH vs Hl). generalize (tuples n V). intros T. clear IH.
    assert (K : forall x, count_occ lR_dec (map (cons x) T) (v :: vs) = if Req_EM_T x v then count_occ lR_dec T vs else 0%nat).
    { intros x. induction T as [|t T IH]; [cbn; now destruct (Req_EM_T x v)|]. cbn [map count_occ]. rewrite IH.
      destruct (lR_dec (x :: t) (v :: vs)) as [e|e], (Req_EM_T x v) as [e1|e1], (lR_dec t vs) as [e2|e2]; try congruence; try reflexivity. }
    induction V as [|x V IH]; [reflexivity|]. cbn [flat_map count_occ]. rewrite count_occ_app, IH, K. destruct (Req_EM_T x v); reflexivity.
Qed.
Lemma how_occ {A B} (dec : forall x y : B, {x = y} + {x <> y}) (W : list A) (F : A -> B) v m : NoDup W -> how_many (fun w => In w W /\ F w = v) m -> m = Z.of_nat (count_occ dec (map F W) v).
Proof.
  intros N (l & Nl & Il & ->). f_equal. assert (Q : forall w, In w l <-> In w (filter (fun w => if dec (F w) v then true else false) W)).
  { intros w. rewrite Il, filter_In. destruct (dec (F w) v); split; intros (X & Y); split; auto; congruence. }
  transitivity (length (filter (fun w => if dec (F w) v then true else false) W)).
  - apply Permutation_length, NoDup_Permutation; auto. now apply NoDup_filter.
  - clear. induction W as [|w W IH]; [reflexivity|]. cbn. destruct (dec (F w) v); cbn; now rewrite IH.
Qed.
Lemma occ_how {A B} (dec : forall x y : B, {x = y} + {x <> y}) (W : list A) (F : A -> B) v : NoDup W -> how_many (fun w => In w W /\ F w = v) (Z.of_nat (count_occ dec (map F W) v)).
Proof.
  intros N. exists (filter (fun w => if dec (F w) v then true else false) W). split; [now apply NoDup_filter|]. split.
  - intros w. rewrite filter_In. destruct (dec (F w) v); split; intros (X & Y); split; auto; congruence.
  - f_equal. clear. induction W as [|w W IH]; [reflexivity|]. cbn. destruct (dec (F w) v); cbn; now rewrite IH.
Qed.
Lemma mul_of_nat ms : fold_right Z.mul 1%Z (map Z.of_nat ms) = Z.of_nat (fold_right Nat.mul 1%nat ms).
Proof. induction ms as [|m ms IH]; [reflexivity|]. cbn [map fold_right]. rewrite IH, Nat2Z.inj_mul. reflexivity. Qed.

Section Transfer.
Context {A B : Type}.
Variables (O : list A) (n K : nat) (Xs : A -> list R) (O1 : list B) (g : B -> R).
Hypothesis N : NoDup O.
Hypothesis Len : forall w, In w O -> length (Xs w) = S n.
Hypothesis NE : O1 <> [].
Hypothesis KP : K <> 0%nat.
Hypothesis Law : forall vs, length vs = S n ->
  how_many (fun w => In w O /\ Xs w = vs) (fold_right Z.mul 1%Z (map (fun v => Z.of_nat (count_occ Req_EM_T (map g O1) v)) vs) * Z.of_nat K)%Z.
Let V := map g O1.
Lemma law_perm : Permutation (map Xs O) (concat (repeat (tuples (S n) V) K)).
Proof.
  apply (Permutation_count_occ lR_dec). intros vs.
  assert (Q : count_occ lR_dec (concat (repeat (tuples (S n) V) K)) vs = (K * count_occ lR_dec (tuples (S n) V) vs)%nat).
  { clear. induction K as [|k IH]; [reflexivity|]. cbn [repeat concat]. rewrite count_occ_app, IH. reflexivity. }
  rewrite Q. clear Q. destruct (Nat.eq_dec (length vs) (S n)) as [E|E].
  - rewrite tuples_occ by auto. pose proof (how_occ lR_dec O Xs vs _ N (Law vs E)) as Q. rewrite <- (map_map (count_occ Req_EM_T V) Z.of_nat), mul_of_nat in Q. fold V in Q. lia.
  - assert (Q1 : count_occ lR_dec (map Xs O) vs = 0%nat). { apply count_occ_not_In. intros H. apply in_map_iff in H as (w & <- & Hw). now apply E, Len. }
    assert (Q2 : count_occ lR_dec (tuples (S n) V) vs = 0%nat). { apply count_occ_not_In. intros H. now apply E, (tuples_len (S n) V). }
    rewrite Q1, Q2. lia.
Qed.
Lemma rep_sum (f : list R -> R) T k : sum_of (map f (concat (repeat T k))) = (INR k * sum_of (map f T))%R.
Proof. induction k as [|k IH]; [cbn; lra|]. cbn [repeat concat]. rewrite map_app, sum_app, IH, S_INR. lra. Qed.
Lemma rep_len {C} (T : list C) k : INR (length (concat (repeat T k))) = (INR k * INR (length T))%R.
Proof. induction k as [|k IH]; [cbn; lra|]. cbn [repeat concat]. rewrite app_length, plus_INR, IH, S_INR. lra. Qed.
Lemma transfer : let mu := mean_of (map g O1) in let v := mean_of (map (fun c => (g c - mu) ^ 2)%R O1) in
  O <> [] /\ mean_of (map (fun w => mean_of (Xs w)) O) = mu /\ mean_of (map (fun w => (mean_of (Xs w) - mu) ^ 2)%R O) = (v / INR (S n))%R.
Proof.
  intros mu v. assert (NV : V <> []) by (unfold V; destruct O1; [congruence|discriminate]).
  assert (LV : INR (length V) <> 0%R) by (apply not_0_INR; destruct V; [congruence|discriminate]).
  assert (LK : INR K <> 0%R) by (apply not_0_INR; auto). assert (LS : INR (S n) <> 0%R) by (apply not_0_INR; discriminate).
  assert (LO : INR (length O) = (INR K * INR (length V) ^ S n)%R).
  { rewrite <- (map_length Xs O), (Permutation_length law_perm), rep_len, tuples_num. reflexivity. }
  assert (LP : (INR (length V) ^ S n)%R <> 0%R) by (apply pow_nonzero; auto).
  assert (LO' : INR (length O) <> 0%R) by (rewrite LO; now apply Rmult_integral_contrapositive).
  assert (Sm : forall f, sum_of (map (fun w => f (Xs w)) O) = (INR K * sum_of (map f (tuples (S n) V)))%R).
  { intros f. rewrite <- (map_map Xs f), (sum_perm _ _ (Permutation_map f law_perm)). apply rep_sum. }
  destruct (tuples_mean V n NV) as (T1 & T2). fold V in mu. change (mean_of V) with mu in T1, T2.
  split; [intros ->; apply LO'; reflexivity|]. split.
  - unfold mean_of at 1. rewrite map_length, (Sm mean_of).
    replace (sum_of (map mean_of (tuples (S n) V))) with (mu * INR (length V) ^ S n)%R; [rewrite LO; field; auto|].
    rewrite <- tuples_num. unfold Rminus in T1. rewrite (sum_plus mean_of (fun _ => (- mu)%R)), sum_const in T1. lra.
  - unfold mean_of at 1. rewrite map_length, (Sm (fun t => (mean_of t - mu) ^ 2)%R), LO.
    unfold v, mean_of at 2. rewrite map_length. rewrite <- (map_map g (fun x => (x - mu) ^ 2)%R). fold V. replace (length O1) with (length V) by (unfold V; apply map_length).
    apply (Rmult_eq_reg_r (INR (S n))); [|auto]. transitivity (INR K * (sum_of (map (fun t => (mean_of t - mu) ^ 2) (tuples (S n) V)) * INR (S n)) / (INR K * INR (length V) ^ S n))%R; [field; auto|].
    rewrite T2. cbn [pow]. field. repeat split; auto. apply pow_nonzero; auto.
Qed.
End Transfer.
