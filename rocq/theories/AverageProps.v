(** * AverageProps: averages over realizations estimate what they should (C115). *)
From Coq Require Import ZArith List Bool Lia Permutation Factorial Reals Lra.
From Verif Require Import Py Lattice Cluster Perc Spec PyFacts Torus Geometry LatFacts Inv Merge Count Fresh Select State Step History Reach Micro Seq RunBase RunProps RunProps2 StateProps StateProps2
  Sim Cycle Unbiased ChanceSpec Chance BreakProps L1Chance IidSpec Iid Couple RulesLawSpec RulesLaw RulesJoint Real Run EnsSpec Ens WorldProps AverageSpec Average.
Import ListNotations.
Open Scope Z_scope.

(** ** Averages do not depend on the enumeration *)
Lemma mean_perm l l' : Permutation l l' -> mean_of l = mean_of l'.
Proof. intros P. unfold mean_of. now rewrite (sum_perm _ _ P), (Permutation_length P). Qed.
Lemma average_enum {A} (P : A -> Prop) f m l : average P f m -> NoDup l -> (forall x, In x l <-> P x) -> mean_of (map f l) = m /\ l <> [].
Proof.
  intros (l' & N' & I' & Ne & <-) N I. assert (Q : Permutation l l') by (apply NoDup_Permutation; auto; intros x; now rewrite I, I'). split; [apply mean_perm; now apply Permutation_map|].
  intros ->. apply Ne. now apply Permutation_nil.
Qed.
Lemma average_ext {A} (P : A -> Prop) f g m : (forall x, P x -> f x = g x) -> average P f m -> average P g m.
Proof. intros H (l & N & I & Ne & E). exists l. split; auto. split; auto. split; auto. rewrite <- E. f_equal. symmetry. apply map_ext_in. intros x Hx. apply H. now apply I. Qed.

(** ** Plans that ask for given values *)
Definition plan_of (cs : list call) (X : perc -> R) (vs : list R) : plan := map (fun v => (cs, fun z => X z = v)) vs.
Lemma all_series cs X vs : forall E s, all_hold E s (plan_of cs X vs) <-> map X (series E s cs (length vs)) = vs.
Proof.
  induction vs as [|v vs IH]; intros E s; cbn [plan_of map all_hold length series]; [tauto|]. fold (plan_of cs X vs). rewrite IH. split.
  - intros (A & B). now rewrite A, B.
  - intros Q. injection Q as A B. auto.
Qed.
Lemma series_len cs E n : forall s, length (series E s cs n) = n.
Proof. induction n as [|n IH]; intros s; cbn; auto. Qed.
Lemma own_plan cs X E s n : all_hold E s (plan_of cs X (map X (series E s cs n))).
Proof. apply all_series. now rewrite map_length, series_len. Qed.
Lemma after_snoc E s a b : after E s (a ++ b) = after E (after E s a) b.
Proof. unfold after. apply fold_left_app. Qed.
Lemma series_real E f s0 n : forall m, series E (exec E (realization E f s0 m) CReset) [CRun f] n = map (realization E f s0) (seq (S m) n).
Proof.
  induction n as [|n IH]; intros m; [reflexivity|]. cbn [series seq map].
  assert (Q : after E (exec E (realization E f s0 m) CReset) [CRun f] = realization E f s0 (S m)).
  { unfold realization. cbn [cycles]. rewrite after_snoc. reflexivity. }
  rewrite Q. f_equal. apply IH.
Qed.
Lemma mean_series E f s0 n X : mean n (fun e => X (realization E f s0 e)) = mean_of (map X (series E (exec E s0 CReset) [CRun f] n)).
Proof.
  change (exec E s0 CReset) with (exec E (realization E f s0 0) CReset). rewrite series_real, map_map. unfold mean, mean_of, total. rewrite map_length, seq_length. reflexivity.
Qed.

(** ** The classes that place in the order of their list *)
Section Plain.
Variables (ord : list Z -> list Z) (k : pkind) (L : Z) (cs : list call) (X : perc -> R).
Hypothesis Hord : env_ok (mkEnv ord (fun _ => 0)).
Hypothesis HL : 0 < L.
Hypothesis Hk : is_L12 k = false.
Hypothesis Hc : Forall realizing cs.
Hypothesis Hs : starts cs.
Hypothesis HX : forall s s', same_realization s s' -> X s = X s'.
Let n := Z.to_nat (L * L).
Let ids0 := zrange (L * L).
Variable canon : list Z -> perc.
Hypothesis Hcanon : forall l, Permutation ids0 l -> Start k L (canon l) /\ ids (canon l) = l.
Definition G (l : list Z) : R := X (after (mkEnv ord (fun _ => 0)) (canon l) cs).
Fixpoint orders (l : list Z) (c : list (list Z)) : list (list Z) :=
  match c with [] => [] | x :: c => order_of 0 l x :: orders (order_of 0 l x) c end.
Lemma orders_len c : forall l, length (orders l c) = length c.
Proof. induction c as [|x c IH]; intros l; cbn; auto. Qed.
Lemma about_X v : about_realization (fun z => X z = v).
Proof. intros s s' H E. now rewrite <- (HX s s' H). Qed.
Lemma joint_eq vs : forall l c, joint ord L canon (plan_of cs X vs) l c <-> length c = length vs /\ Forall (random_choices n) c /\ map G (orders l c) = vs.
Proof.
  induction vs as [|v vs IH]; intros l c.
  - destruct c as [|x c]; cbn [plan_of map joint orders]; [intuition constructor|]. split; [tauto|]. intros (A & _). discriminate.
  - destruct c as [|x c]; cbn [plan_of map joint orders]; [split; [tauto|intros (A & _); discriminate]|]. fold (plan_of cs X vs). rewrite IH. fold n. unfold asked. fold (G (order_of 0 l x)). split.
    + intros (A & B & C & D & E). split; [cbn; lia|]. split; [constructor; auto|]. now rewrite B, E.
    + intros (A & B & C). apply Forall_cons_iff in B as (B1 & B2). injection C as C1 C2. injection A as A. auto.
Qed.
Lemma order_env E t l : Permutation ids0 l -> fst (random_shuffle E t l) = order_of 0 l (choices E t n).
Proof.
  intros P. destruct (n_len L HL l P) as (Q1 & Q2 & Q3).
  unfold order_of, random_shuffle. apply shuffle_from_ext2. fold n in Q1, Q3. replace (pred (length l)) with (n - 1)%nat by lia.
  rewrite <- !choices_draws by auto. symmetry. apply choices_with; auto. now apply choices_valid.
Qed.
Definition one (c : list Z) : R := G (order_of 0 ids0 c).
Lemma G_start d s : Start k L s -> X (after (mkEnv ord d) s cs) = G (ids s).
Proof.
  intros S. pose proof (proj1 (asked_iff ord k L HL Hk canon Hcanon d s cs _ S Hc Hs (about_X (X (after (mkEnv ord d) s cs)))) eq_refl) as Q. symmetry. exact Q.
Qed.
Lemma one_ok d t s : new_perc (mkEnv ord d) k L t = Ok s -> X (after (mkEnv ord d) s cs) = one (choices (mkEnv ord d) t n).
Proof. intros E1. destruct (new_start _ k L t s HL Hk E1) as (S & Ei & _). rewrite (G_start d s S), Ei. unfold one. now rewrite (order_env _ t ids0 (Permutation_refl _)). Qed.
Lemma all_ok d s0 m : Inv L s0 -> kind s0 = k -> do_shuffle s0 = true -> Permutation ids0 (ids s0) ->
  map X (series (mkEnv ord d) (exec (mkEnv ord d) s0 CReset) cs m) = map G (orders (ids s0) (map (fun j => choices (mkEnv ord d) (tick s0 + j * (n - 1)) n) (seq 0 m))).
Proof.
  intros I Ek Ed P. destruct (reset_start (mkEnv ord d) k L s0 I Hk Ek Ed P) as (s' & Er & S' & Ei & Et & Ed').
  cbn [exec]. rewrite Er. cbn [fst]. set (vs := map X (series (mkEnv ord d) s' cs m)).
  pose proof (own_plan cs X (mkEnv ord d) s' m) as Q. fold vs in Q.
  apply (Iid.joint_runs ord k L Hord HL Hk canon Hcanon d) with (l := ids s0) (t := tick s0) in Q; auto.
  - apply joint_eq in Q as (_ & _ & Q). rewrite <- Q. do 2 f_equal. fold n. f_equal. f_equal. unfold plan_of, vs. now rewrite !map_length, series_len.
  - unfold plan_of. apply Forall_map, Forall_forall. intros v _. cbn [fst snd]. split; [exact Hc|]. split; [exact Hs|apply about_X].
Qed.
Lemma choices_enum : exists O1, NoDup O1 /\ (forall c, In c O1 <-> random_choices n c) /\ O1 <> [].
Proof.
  destruct (n_len L HL ids0 (Permutation_refl _)) as (_ & _ & Q3). destruct (choices_count n Q3) as (l & N & I & E). exists l. split; auto. split; auto.
  intros ->. pose proof (lt_O_fact n). cbn in E. lia.
Qed.
Lemma lists_enum m : exists O, NoDup O /\ forall c, In c O <-> choice_lists n m c.
Proof.
  assert (H : exists a, how_many (choice_lists n m) a).
  { destruct choices_enum as (O1 & N1 & I1 & _). induction m as [|m (a & IH)].
    - exists 1. exists [[]]. split; [constructor; [intros []|constructor]|]. split; [|reflexivity]. intros [|x c]; cbn; unfold choice_lists; split; auto; [intros [A|[]]; discriminate|intros (A & _); discriminate].
    - exists (Z.of_nat (length O1) * a). apply (how_iff (fun c => match c with x :: c' => random_choices n x /\ choice_lists n m c' | [] => False end)).
      + intros [|x c]; unfold choice_lists; [split; [tauto|intros (A & _); discriminate]|]. rewrite Forall_cons_iff. cbn [length]. split; [intros (A & B & C)|intros (A & B & C)]; auto.
      + apply (how_cons L (random_choices n) (fun _ => choice_lists n m)); [exists O1; auto|auto]. }
  destruct H as (a & O & N & I & _). exists O. auto.
Qed.
Lemma law1 O1 v : NoDup O1 -> (forall c, In c O1 <-> random_choices n c) ->
  how_many (fun l => Permutation ids0 l /\ asked ord canon cs (fun z => X z = v) l) (Z.of_nat (count_occ Req_EM_T (map one O1) v)).
Proof.
  intros N I. destruct (n_len L HL ids0 (Permutation_refl _)) as (Q1 & Q2 & Q3). fold n in Q1, Q3.
  apply (how_map (fun c => In c O1 /\ one c = v) _ (order_of 0 ids0)); [| | |now apply occ_how].
  - intros c (Hi & Ho). split; [apply order_of_perm|exact Ho].
  - intros l (P & A). destruct (order_of_onto 0 ids0 l Q2) as (c & Hc' & <-); [lia|auto|]. rewrite Q1 in Hc'. exists c. split; [split; [now apply I|exact A]|reflexivity].
  - intros c c' (A & _) (A' & _). apply order_of_inj; auto; [lia|rewrite Q1; now apply I|rewrite Q1; now apply I].
Qed.
Lemma series_average l m : Permutation ids0 l -> exists mu v,
  average (random_choices n) one mu /\ average (random_choices n) (fun c => (one c - mu) ^ 2)%R v /\
  average (choice_lists n (S m)) (fun c => mean_of (map G (orders l c))) mu /\ average (choice_lists n (S m)) (fun c => (mean_of (map G (orders l c)) - mu) ^ 2)%R (v / INR (S m)).
Proof.
  intros P. destruct choices_enum as (O1 & N1 & I1 & Ne). destruct (lists_enum (S m)) as (O & N & I).
  exists (mean_of (map one O1)), (mean_of (map (fun c => (one c - mean_of (map one O1)) ^ 2)%R O1)).
  assert (T := transfer O m 1 (fun c => map G (orders l c)) O1 one N). cbv zeta in T.
  destruct T as (T1 & T2 & T3); auto.
  - intros c Hc'. apply I in Hc' as (Q & _). now rewrite map_length, orders_len.
  - intros vs Hv. rewrite Z.mul_1_r. apply (how_iff (joint ord L canon (plan_of cs X vs) l)).
    + intros c. rewrite joint_eq. unfold choice_lists in I. rewrite I, Hv. tauto.
    + apply joint_count; auto. clear - N1 I1 HL. unfold plan_of. induction vs as [|v vs IH]; cbn [map]; constructor; auto. cbn [fst snd]. now apply law1.
  - split; [exists O1; auto|]. split; [exists O1; auto|]. split; [exists O; auto|exists O; auto].
Qed.
End Plain.

Lemma drawn_map E t N c : drawn E t N c -> c = map (fun j => choices E (t + j * (N - 1)) N) (seq 0 (length c)).
Proof.
  intros H. apply (nth_ext _ _ [] []); [now rewrite map_length, seq_length|]. intros j Hj.
  match goal with |- _ = nth j (map ?f ?l) [] => rewrite (nth_indep (map f l) [] (f 0%nat)) by (rewrite map_length, seq_length; lia); rewrite (map_nth f) end.
  rewrite seq_nth by lia. symmetry. now apply H.
Qed.
Lemma average_fun {A} (P : A -> Prop) f m m' : average P f m -> average P f m' -> m = m'.
Proof. intros H (l & N & I & Ne & <-). now destruct (average_enum P f m l H N I) as (<- & _). Qed.

Lemma p_C115_series ord d0 k L cs X : env_ok (mkEnv ord d0) -> k <> KL1 -> k <> KL2 -> 0 < L ->
  Forall realizing cs -> starts cs -> (forall s s', same_realization s s' -> X s = X s') -> let N := Z.to_nat (L * L) in
  exists one mu v,
    (forall d t s, new_perc (mkEnv ord d) k L t = Ok s -> X (after (mkEnv ord d) s cs) = one (choices (mkEnv ord d) t N)) /\
    average (random_choices N) one mu /\ average (random_choices N) (fun c => (one c - mu) ^ 2)%R v /\
    forall E0 s0 n, env_ok E0 -> reachable_no_custom E0 k L s0 -> (1 <= n)%nat -> exists all,
      (forall d c, choice_lists N n c -> drawn (mkEnv ord d) (tick s0) N c ->
         mean_of (map X (series (mkEnv ord d) (exec (mkEnv ord d) s0 CReset) cs n)) = all c) /\
      average (choice_lists N n) all mu /\ average (choice_lists N n) (fun c => (all c - mu) ^ 2)%R (v / INR n).
Proof.
  intros HE K1 K2 HL Hc Hs HX N. pose proof (plain_kind k K1 K2) as Hk. destruct (canon_ex ord k L HL) as (canon & Hcn).
  destruct (series_average ord L cs X HL canon (zrange (L * L)) 0 (Permutation_refl _)) as (mu & v & A1 & A2 & _).
  exists (one ord L cs X canon), mu, v. split; [intros d t s E1; now apply (one_ok ord k L cs X HL Hk Hc Hs HX canon Hcn)|]. split; [exact A1|]. split; [exact A2|].
  intros E0 s0 n HE0 HR Hn. pose proof (no_custom_seqOK E0 k L s0 HE0 K1 K2 HR) as SQ. pose proof (reachable_k_kind E0 k L s0 HE0 (no_custom_k _ _ _ _ HR)) as (H & Ek).
  exists (fun c => mean_of (map (G ord cs X canon) (orders (ids s0) c))). split.
  - intros d c (Hl & _) Hd. f_equal. rewrite (all_ok ord k L cs X HE HL Hk Hc Hs HX canon Hcn d s0 n H Ek (sq_shuf _ _ SQ) (sq_perm _ _ SQ)). fold N. rewrite <- Hl. now rewrite <- (drawn_map _ _ _ _ Hd).
  - destruct n as [|m]; [lia|]. destruct (series_average ord L cs X HL canon (ids s0) m (sq_perm _ _ SQ)) as (mu' & v' & B1 & B2 & B3 & B4).
    assert (mu' = mu) as -> by exact (average_fun _ _ _ _ B1 A1). assert (v' = v) as -> by exact (average_fun _ _ _ _ B2 A2). split; [exact B3|exact B4].
Qed.

(** ** The files of the ensemble programs *)
Lemma app_nodup {A} (l1 l2 : list A) : NoDup l1 -> NoDup l2 -> (forall x, In x l1 -> ~ In x l2) -> NoDup (l1 ++ l2).
Proof.
  intros N1 N2 D. induction N1 as [|x l1 Nx N1 IH1]; [exact N2|]. cbn [app]. constructor; [|apply IH1; intros y Hy; apply D; now right].
  rewrite in_app_iff. intros [H|H]; [auto|apply (D x); [now left|exact H]].
Qed.
Lemma average_pairs {A} (P : A -> Prop) (Q R : list A -> Prop) F mu O1 : NoDup O1 -> (forall x, In x O1 <-> P x) -> O1 <> [] ->
  (forall c, R c <-> match c with x :: c => P x /\ Q c | [] => False end) -> (forall x, P x -> average Q (fun c => F (x :: c)) mu) -> average R F mu.
Proof.
  intros N1 I1 Ne IR H. destruct O1 as [|x0 O1']; [congruence|]. destruct (H x0 (proj1 (I1 x0) (or_introl eq_refl))) as (O & NO & IO & NeO & _).
  set (O1 := x0 :: O1') in *. exists (flat_map (fun x => map (cons x) O) O1).
  assert (LO : INR (length O) <> 0%R) by (apply not_0_INR; destruct O; [congruence|discriminate]).
  assert (LO1 : INR (length O1) <> 0%R) by (apply not_0_INR; discriminate).
  assert (Ln : INR (length (flat_map (fun x => map (cons x) O) O1)) = (INR (length O1) * INR (length O))%R).
  { clear. induction O1 as [|x l IH]; [cbn; lra|]. cbn [flat_map]. rewrite app_length, plus_INR, map_length, IH. cbn [length]. rewrite S_INR. lra. }
  split; [|split; [|split]].
  - clear - N1 NO. induction N1 as [|x l Nx N1 IH]; cbn [flat_map]; [constructor|]. apply app_nodup; auto.
    + apply FinFun.Injective_map_NoDup; auto. intros a b E. now injection E.
    + intros c Hc Hf. apply in_map_iff in Hc as (w & <- & _). apply in_flat_map in Hf as (b & Hb & Hw). apply in_map_iff in Hw as (w' & E & _). injection E as -> _. auto.
  - intros c. rewrite in_flat_map, IR. split.
    + intros (x & Hx & Hc). apply in_map_iff in Hc as (w & <- & Hw). split; [now apply I1|now apply IO].
    + destruct c as [|x c]; [tauto|]. intros (B1 & B2). exists x. split; [now apply I1|]. apply in_map, IO, B2.
  - intros Z0. rewrite Z0 in Ln. cbn in Ln. symmetry in Ln. apply Rmult_integral in Ln as [Ln|Ln]; auto.
  - unfold mean_of. rewrite map_length, Ln, sum_flat. erewrite map_ext_in with (g := fun _ => (mu * INR (length O))%R).
    + rewrite sum_const. field. auto.
    + intros x Hx. destruct (average_enum _ _ _ O (H x (proj1 (I1 x) Hx)) NO IO) as (E & _). rewrite <- E, map_map. unfold mean_of. rewrite map_length. field. auto.
Qed.
Lemma average_cons N m F mu O1 : NoDup O1 -> (forall c, In c O1 <-> random_choices N c) -> O1 <> [] ->
  (forall x, random_choices N x -> average (choice_lists N m) (fun c => F (x :: c)) mu) -> average (choice_lists N (S m)) F mu.
Proof.
  intros N1 I1 Ne. apply (average_pairs _ _ _ _ _ O1 N1 I1 Ne). intros [|x c]; unfold choice_lists; [split; [intros (A & _); discriminate|tauto]|].
  rewrite Forall_cons_iff. cbn [length]. split; [intros (A & B & C)|intros (A & B & C)]; auto.
Qed.
Lemma average_app Mx B mu : 0 < Mx -> forall A F, (forall a, words Mx A a -> average (words Mx B) (fun b => F (a ++ b)) mu) -> average (words Mx (A + B)) F mu.
Proof.
  intros HM. induction A as [|A IH]; intros F H; [apply (H []); split; [reflexivity|constructor]|]. cbn [Nat.add].
  apply (average_pairs (fun x => 0 <= x < Mx) (words Mx (A + B)) _ F mu (zrange Mx)); [apply NoDup_zrange|intros x; apply In_zrange| | |].
  - intros Q. assert (In 0 (zrange Mx)) by (apply In_zrange; lia). now rewrite Q in *.
  - intros [|x c]; unfold words; [split; [intros (E & _); discriminate|tauto]|]. rewrite Forall_cons_iff. cbn [length]. split; [intros (C & D & E)|intros (C & D & E)]; auto.
  - intros x Hx. apply IH. intros a (Ha & Fa). apply (H (x :: a)). split; [cbn; lia|]. constructor; auto.
Qed.
Lemma column_same j i s s' : same_realization s s' -> column j i s = column j i s'.
Proof. unfold same_realization, column. intros H. repeat match goal with H : _ /\ _ |- _ => destruct H end. destruct j as [|[|[|j]]]; congruence. Qed.
Lemma written E k L t0 s0 f n F i j : env_ok E -> k <> KSP -> new_perc E k L t0 = Ok s0 -> 5 * (L * L) < Z.of_nat f -> 1 <= n -> (1 <= j <= 3)%nat -> (i < Z.to_nat (L * L))%nat ->
  writes E f t0 k L n F -> cell F i j = mean_of (map (column j i) (series E (exec E s0 CReset) [CRun f] (Z.to_nat n))).
Proof.
  intros HE Hk E0 Hf Hn Hj Hi (files & Hfi & Hw).
  assert (A : averages E f s0 L (Z.to_nat n) (o_rows F)).
  { destruct Hw as [(time & W)|[(time & q & W)|(time & q & W)]].
    - destruct (p_C56 E k L t0 s0 f n time HE Hk E0 Hf Hn) as (_ & (d & c & W' & _ & _ & _ & _ & A & _) & _). rewrite W in W'. injection W' as ->. injection Hfi as <-. exact A.
    - destruct (p_C56 E k L t0 s0 f n time HE Hk E0 Hf Hn) as (_ & _ & Q & _). destruct (Q q) as (d & W' & _ & _ & A). rewrite W in W'. injection W' as ->. injection Hfi as <-. exact A.
    - destruct (p_C56 E k L t0 s0 f n time HE Hk E0 Hf Hn) as (_ & _ & _ & Q). destruct (Q q) as (d & c & W' & _ & _ & _ & _ & A & _). rewrite W in W'. injection W' as ->. injection Hfi as <-. exact A. }
  destruct A as (_ & A). destruct (A i Hi) as (p & h & l & w & R & _ & A1 & A2 & A3). unfold cell. rewrite (nth_error_nth _ _ _ R).
  rewrite <- (mean_series E f s0 (Z.to_nat n) (column j i)). assert (j = 1 \/ j = 2 \/ j = 3)%nat as [-> | [-> | ->]] by lia; cbn [nth]; unfold column; auto.
Qed.
Lemma p_C115_files ord d0 k L f j i : env_ok (mkEnv ord d0) -> k <> KL1 -> k <> KL2 -> k <> KSP -> 0 < L -> 5 * (L * L) < Z.of_nat f ->
  (1 <= j <= 3)%nat -> let N := Z.to_nat (L * L) in (i < N)%nat ->
  exists one mu v,
    (forall d t s, new_perc (mkEnv ord d) k L t = Ok s -> column j i (after (mkEnv ord d) s [CRun f]) = one (choices (mkEnv ord d) t N)) /\
    average (random_choices N) one mu /\ average (random_choices N) (fun c => (one c - mu) ^ 2)%R v /\
    forall t0 n, 1 <= n -> let m := S (Z.to_nat n) in exists all,
      (forall d c F, choice_lists N m c -> drawn (mkEnv ord d) t0 N c -> writes (mkEnv ord d) f t0 k L n F -> cell F i j = all c) /\
      average (choice_lists N m) all mu /\ average (choice_lists N m) (fun c => (all c - mu) ^ 2)%R (v / IZR n).
Proof.
  intros HE K1 K2 K3 HL Hf Hj N Hi. pose proof (plain_kind k K1 K2) as Hk. destruct (canon_ex ord k L HL) as (canon & Hcn).
  assert (Hc : Forall realizing [CRun f]) by repeat constructor. assert (Hs : starts [CRun f]) by (destruct f; [pose proof (LL_pos L HL); lia|exact I]).
  set (X := column j i). assert (HX : forall s s', same_realization s s' -> X s = X s') by apply column_same.
  destruct (series_average ord L [CRun f] X HL canon (zrange (L * L)) 0 (Permutation_refl _)) as (mu & v & A1 & A2 & _).
  exists (one ord L [CRun f] X canon), mu, v. split; [intros d t s E1; now apply (one_ok ord k L [CRun f] X HL Hk Hc Hs HX canon Hcn)|]. split; [exact A1|]. split; [exact A2|].
  intros t0 n Hn m. exists (fun c => match c with x :: c => mean_of (map (G ord [CRun f] X canon) (orders (order_of 0 (zrange (L * L)) x) c)) | [] => 0%R end).
  assert (B : forall x, average (choice_lists N (Z.to_nat n)) (fun c => mean_of (map (G ord [CRun f] X canon) (orders (order_of 0 (zrange (L * L)) x) c))) mu /\
    average (choice_lists N (Z.to_nat n)) (fun c => (mean_of (map (G ord [CRun f] X canon) (orders (order_of 0 (zrange (L * L)) x) c)) - mu) ^ 2)%R (v / IZR n)).
  { intros x. replace (IZR n) with (INR (Z.to_nat n)) by (rewrite INR_IZR_INZ; f_equal; lia). destruct (Z.to_nat n) as [|q] eqn:En; [lia|].
    destruct (series_average ord L [CRun f] X HL canon (order_of 0 (zrange (L * L)) x) q (order_of_perm _ _ _)) as (mu' & v' & B1 & B2 & B3 & B4).
    assert (mu' = mu) as -> by exact (average_fun _ _ _ _ B1 A1). assert (v' = v) as -> by exact (average_fun _ _ _ _ B2 A2). split; [exact B3|exact B4]. }
  destruct (choices_enum L HL) as (O1 & N1 & I1 & Ne). split; [|split].
  - intros d c F (Hl & Hr) Hd Hw. destruct (new_perc_ok (mkEnv ord d) k L t0 HL) as (a1 & a2 & a3 & a4 & E0 & _). match type of E0 with _ = Ok ?S => set (s0 := S) in * end.
    assert (HE' : env_ok (mkEnv ord d)) by exact HE. rewrite (written _ k L t0 s0 f n F i j HE' K3 E0 Hf Hn Hj Hi Hw). destruct (new_start _ k L t0 s0 HL Hk E0) as (S0 & Ei & Et & Ed).
    destruct c as [|x c]; [discriminate|]. f_equal. fold X.
    rewrite (all_ok ord k L [CRun f] X HE HL Hk Hc Hs HX canon Hcn d s0 (Z.to_nat n) (start_inv _ _ _ S0) (sr_kind _ _ _ S0) Ed (sr_perm _ _ _ S0)).
    rewrite Ei, Et, (order_env L HL _ t0 _ (Permutation_refl _)). fold N. pose proof (Hd 0%nat ltac:(cbn; lia)) as D0. cbn [nth] in D0. rewrite Nat.mul_0_l, Nat.add_0_r in D0. rewrite D0.
    do 2 f_equal. injection Hl as Hl. rewrite <- Hl. symmetry. apply drawn_map. intros q Hq. specialize (Hd (S q) ltac:(cbn; lia)). cbn [nth] in Hd. rewrite <- Hd. f_equal. cbn [Nat.mul]. lia.
  - apply (average_cons N _ _ _ O1 N1 I1 Ne). intros x _. apply B.
  - apply (average_cons N _ _ _ O1 N1 I1 Ne). intros x _. apply B.
Qed.

(** ** Classes L1 and L2 *)
Section Rules.
Variables (ord : list Z -> list Z) (k : pkind) (L Mx : Z) (cs : list call) (X : perc -> R).
Hypothesis Hord : env_ok (mkEnv ord (fun _ => 0)).
Hypothesis HL : 0 < L.
Hypothesis Hk : k = KL1 \/ k = KL2.
Hypothesis HF : fair Mx (L * L).
Hypothesis Hc : Forall realizing cs.
Hypothesis Hs : starts cs.
Hypothesis HX : forall s s', same_growth s s' -> X s = X s'.
Let W1 := (2 * all_tries cs)%nat.
Let Wn m := (m * (2 * all_tries cs + (Z.to_nat (L * L) - 1)))%nat.
Definition one_w (s : perc) (w : list Z) : R := X (after (fed ord (tick s) w) s cs).
Definition all_w (s : perc) (m : nat) (w : list Z) : R := mean_of (map X (series (fed ord (tick s) w) s cs m)).
Lemma about_Xg v : about_growth (fun z => X z = v).
Proof. intros s s' H E. now rewrite <- (HX s s' H). Qed.
Lemma is12 : is_L12 k = true.
Proof. destruct Hk as [-> | ->]; reflexivity. Qed.
Lemma good_plan vs : Forall good (plan_of cs X vs).
Proof. unfold plan_of. apply Forall_map, Forall_forall. intros v _. split; [exact Hc|]. split; [exact Hs|apply about_Xg]. Qed.
Lemma needed_plan vs : words_needed L (plan_of cs X vs) = Wn (length vs).
Proof. unfold words_needed, plan_of, Wn. induction vs as [|v vs IH]; [reflexivity|]. cbn [map fold_right length]. rewrite IH. cbn [fst]. lia. Qed.
Lemma one_w_ok s d w : words Mx W1 w -> goes_on d (tick s) w -> X (after (mkEnv ord d) s cs) = one_w s w.
Proof.
  intros V Hd. destruct (proj2 (drawing_iff Mx ord W1 s cs (fun z => X z = one_w s w) w Hc (Nat.le_refl _) V) eq_refl) as (_ & Q). apply Q.
  intros i Hi. apply Hd. destruct V as (V & _). lia.
Qed.
Lemma all_w_ok s m d w : Cyc k L s -> words Mx (Wn m) w -> goes_on d (tick s) w -> map X (series (mkEnv ord d) s cs m) = map X (series (fed ord (tick s) w) s cs m).
Proof.
  intros C V Hd. set (vs := map X (series (fed ord (tick s) w) s cs m)). assert (Lv : length vs = m) by (unfold vs; now rewrite map_length, series_len).
  assert (J : jointly_drawing ord Mx (words_needed L (plan_of cs X vs)) s (plan_of cs X vs) w).
  { apply (joint_iff ord k L Mx Hord HL is12 _ s w (good_plan vs) C). rewrite needed_plan, Lv. split; [exact V|apply own_plan]. }
  destruct J as (_ & J). rewrite <- Lv at 1. apply all_series, J. rewrite needed_plan, Lv. intros i Hi. apply Hd. destruct V as (V & _). lia.
Qed.
Lemma law1_w s v : Cyc k L s -> how_many (drawing ord Mx W1 s cs (fun z => X z = v)) (Z.of_nat (count_occ Req_EM_T (map (one_w s) (all_words Mx W1)) v)).
Proof.
  intros C. apply (how_iff (fun w => In w (all_words Mx W1) /\ one_w s w = v)); [|apply occ_how, all_words_nodup].
  intros w. rewrite all_words_in. split.
  - intros (V & E). now apply (drawing_iff Mx ord W1 s cs _ w Hc (Nat.le_refl _) V).
  - intros D. assert (V : words Mx W1 w) by apply D. split; [exact V|]. now apply (drawing_iff Mx ord W1 s cs _ w Hc (Nat.le_refl _) V) in D.
Qed.
Lemma starts_perm s s' : at_start ord k L s -> at_start ord k L s' -> Permutation (zrange (L * L)) (ids s) -> Permutation (zrange (L * L)) (ids s') ->
  Permutation (map (one_w s) (all_words Mx W1)) (map (one_w s') (all_words Mx W1)).
Proof.
  intros A A' P P'. assert (C : Cyc k L s) by (split; [now apply (start12 ord k L Hord HL is12)|exact P]). assert (C' : Cyc k L s') by (split; [now apply (start12 ord k L Hord HL is12)|exact P']).
  apply (Permutation_count_occ Req_EM_T). intros v. pose proof (law1_w s v C) as Q. pose proof (law1_w s' v C') as Q'.
  apply (p_C112_law ord Mx k L s s' cs _ W1 _ Hord HL Hk HF A A') in Q; auto.
  - pose proof (how_fun _ _ _ Q Q'). lia.
  - eapply Permutation_NoDup; [exact P|apply NoDup_zrange].
  - eapply Permutation_trans; [apply Permutation_sym, P|exact P'].
  - apply about_Xg.
Qed.
Lemma all_words_ne W : all_words Mx W <> [].
Proof.
  intros Q. assert (H : In (repeat 0 W) (all_words Mx W)); [|now rewrite Q in H]. apply all_words_in. split; [apply repeat_length|].
  apply Forall_forall. intros x Hx. apply repeat_spec in Hx as ->. destruct HF as (H & _). lia.
Qed.
Lemma words_average s : at_start ord k L s -> Permutation (zrange (L * L)) (ids s) -> let mu := mean_of (map (one_w s) (all_words Mx W1)) in
  let v := mean_of (map (fun w => (one_w s w - mu) ^ 2)%R (all_words Mx W1)) in
  average (words Mx W1) (one_w s) mu /\ average (words Mx W1) (fun w => (one_w s w - mu) ^ 2)%R v /\
  forall m, average (words Mx (Wn (S m))) (all_w s (S m)) mu /\ average (words Mx (Wn (S m))) (fun w => (all_w s (S m) w - mu) ^ 2)%R (v / INR (S m)).
Proof.
  intros A P mu v. assert (C : Cyc k L s) by (split; [now apply (start12 ord k L Hord HL is12)|exact P]).
  split; [|split].
  - exists (all_words Mx W1). split; [apply all_words_nodup|]. split; [apply all_words_in|]. split; [apply all_words_ne|reflexivity].
  - exists (all_words Mx W1). split; [apply all_words_nodup|]. split; [apply all_words_in|]. split; [apply all_words_ne|reflexivity].
  - intros m. assert (MP : 0 < Mx) by apply HF. pose proof (LL_pos L HL) as LP.
    assert (T := transfer (all_words Mx (Wn (S m))) m (Z.to_nat (Mx ^ (Z.of_nat (S m) * (L * L - 1)))) (fun w => map X (series (fed ord (tick s) w) s cs (S m))) (all_words Mx W1) (one_w s) (all_words_nodup _ _)).
    cbv zeta in T. fold mu in T. fold v in T. destruct T as (T1 & T2 & T3).
    + intros w _. now rewrite map_length, series_len.
    + apply all_words_ne.
    + assert (0 < Mx ^ (Z.of_nat (S m) * (L * L - 1))) by (apply Z.pow_pos_nonneg; nia). lia.
    + intros vs Hv. rewrite Z2Nat.id by (apply Z.pow_nonneg; lia).
      apply (how_iff (jointly_drawing ord Mx (words_needed L (plan_of cs X vs)) s (plan_of cs X vs))).
      * intros w. rewrite <- (joint_iff ord k L Mx Hord HL is12 _ s w (good_plan vs) C), all_words_in, needed_plan, all_series, Hv. reflexivity.
      * assert (Q := p_C112_joint ord Mx k L s (plan_of cs X vs) (map (fun v => Z.of_nat (count_occ Req_EM_T (map (one_w s) (all_words Mx W1)) v)) vs) Hord HL Hk HF A P (good_plan vs)).
        replace (Z.of_nat (length (plan_of cs X vs))) with (Z.of_nat (S m)) in Q by (unfold plan_of; now rewrite map_length, Hv). apply Q.
        clear - C Hc. unfold plan_of. induction vs as [|u vs IH]; cbn [map]; constructor; auto. cbn [fst snd]. now apply law1_w.
    + split; (exists (all_words Mx (Wn (S m))); split; [apply all_words_nodup|]; split; [apply all_words_in|]; split; [apply all_words_ne|]); [exact T2|exact T3].
Qed.
End Rules.
Lemma mean_perm_map {A} (f g : A -> R) (h : R -> R) l : Permutation (map f l) (map g l) -> mean_of (map (fun x => h (f x)) l) = mean_of (map (fun x => h (g x)) l).
Proof. intros P. rewrite <- (map_map f h), <- (map_map g h). apply mean_perm. now apply Permutation_map. Qed.
Lemma p_C115_rules ord d0 k L Mx cs X : env_ok (mkEnv ord d0) -> k = KL1 \/ k = KL2 -> 0 < L -> fair Mx (L * L) ->
  Forall realizing cs -> starts cs -> (forall s s', same_growth s s' -> X s = X s') -> let W := (2 * all_tries cs)%nat in let N := Z.to_nat (L * L) in
  exists mu v, forall s, at_start ord k L s -> Permutation (zrange (L * L)) (ids s) ->
    (exists one, (forall d w, words Mx W w -> goes_on d (tick s) w -> X (after (mkEnv ord d) s cs) = one w) /\
      average (words Mx W) one mu /\ average (words Mx W) (fun w => (one w - mu) ^ 2)%R v) /\
    forall n, (1 <= n)%nat -> let Wn := (n * (W + (N - 1)))%nat in exists all,
      (forall d w, words Mx Wn w -> goes_on d (tick s) w -> mean_of (map X (series (mkEnv ord d) s cs n)) = all w) /\
      average (words Mx Wn) all mu /\ average (words Mx Wn) (fun w => (all w - mu) ^ 2)%R (v / INR n).
Proof.
  intros HE Hk HL HF Hc Hs HX W N. assert (HO : env_ok (mkEnv ord (fun _ => 0))) by exact HE.
  destruct (new_perc_ok (mkEnv ord d0) k L 0 HL) as (a1 & a2 & a3 & a4 & E0 & _ & P0 & _). match type of E0 with _ = Ok ?S => set (s0 := S) in * end.
  assert (A0 : at_start ord k L s0) by (eapply start_new; exact E0). assert (P0' : Permutation (zrange (L * L)) (ids s0)) by exact P0.
  exists (mean_of (map (one_w ord cs X s0) (all_words Mx W))), (mean_of (map (fun w => (one_w ord cs X s0 w - mean_of (map (one_w ord cs X s0) (all_words Mx W))) ^ 2)%R (all_words Mx W))).
  intros s A P. pose proof (starts_perm ord k L Mx cs X HO HL Hk HF Hc Hs HX s s0 A A0 P P0') as Q. fold W in Q.
  destruct (words_average ord k L Mx cs X HO HL Hk HF Hc Hs HX s A P) as (B1 & B2 & B3). fold W in B1, B2, B3. set (mu := mean_of (map (one_w ord cs X s0) (all_words Mx W))).
  assert (Em : mean_of (map (one_w ord cs X s) (all_words Mx W)) = mu) by (now apply mean_perm).
  rewrite Em in B1, B2, B3. rewrite (mean_perm_map _ _ (fun x => (x - mu) ^ 2)%R _ Q) in B2, B3. set (v := mean_of (map (fun w => (one_w ord cs X s0 w - mu) ^ 2)%R (all_words Mx W))) in *.
  split.
  - exists (one_w ord cs X s). split; [|auto]. intros d w V Hd. now apply (one_w_ok ord Mx cs X Hc).
  - intros n Hn Wn. destruct n as [|m]; [lia|]. exists (all_w ord cs X s (S m)). split; [|apply B3].
    intros d w V Hd. unfold all_w. f_equal. apply (all_w_ok ord k L Mx cs X HO HL Hk Hc Hs HX s (S m) d w); auto. split; [now apply (start12 ord k L HO HL (is12 k Hk))|exact P].
Qed.

(** ** The files of the ensemble programs for classes L1 and L2 *)
Lemma column_growth j i s s' : same_growth s s' -> column j i s = column j i s'.
Proof. unfold same_growth, column. intros H. repeat match goal with H : _ /\ _ |- _ => destruct H end. destruct j as [|[|[|j]]]; congruence. Qed.
Lemma reset_ticks E L s : Inv L s -> do_shuffle s = true -> Permutation (zrange (L * L)) (ids s) -> tick (fst (reset E s)) = (tick s + (Z.to_nat (L * L) - 1))%nat.
Proof.
  intros H Hd P. destruct (reset_split L E s H) as (s0 & E0 & C0 & _). rewrite E0.
  assert (Kd : do_shuffle s0 = do_shuffle s) by exact (f_equal do_shuffle C0).
  assert (Kt : tick s0 = tick s) by exact (f_equal tick C0). assert (Ki : ids s0 = ids s) by exact (f_equal ids C0).
  pose proof (shuffle_tick E s0 ltac:(congruence)) as Q. rewrite Kt, Ki in Q.
  assert (Hl : length (ids s) = Z.to_nat (L * L)) by (pose proof (perm_zlen L _ (i_pos _ _ H) P) as Q'; unfold zlen in Q'; lia).
  rewrite Hl in Q. replace (Z.to_nat (L * L) - 1)%nat with (pred (Z.to_nat (L * L))) by lia. rewrite <- Q. clear.
  unfold reset_tail, mbind. destruct (shuffle E s0) as [s1 [u|e]]; [|reflexivity]. unfold modify, get.
  match goal with |- context [kind ?S] => change (kind S) with (kind s1) end. destruct (kind s1); reflexivity.
Qed.
Lemma new_words ord k L t d d' s : 0 < L -> new_perc (mkEnv ord d) k L t = Ok s -> (forall i, (i < Z.to_nat (L * L) - 1)%nat -> d' (t + i)%nat = d (t + i)%nat) -> new_perc (mkEnv ord d') k L t = Ok s.
Proof.
  intros HL H G. pose proof (proj1 (new_tick _ k L t s HL H)) as Tk. unfold new_perc in *. destruct (new_lattice L) as [l0|]; [|discriminate]. cbn [rbind] in *.
  destruct (init_clusters l0) as [[p l1]|]; [|discriminate]. cbn [rbind] in *. destruct (log_int _) as [mx|]; [|discriminate]. cbn [rbind] in *.
  match type of H with context [shuffle _ ?S] => set (s0 := S) in * end. assert (T0 : tick s0 = t) by reflexivity.
  destruct (loc_shuffle (mkEnv ord d) s0) as (U & Q). specialize (Q d' (tick s0)). rewrite set_tick_id in Q. cbn [e_ord e_draw] in Q. rewrite Q.
  - destruct (shuffle (mkEnv ord d) s0) as [s1 [u|e]]; cbn [fst snd] in *; [|discriminate]. injection H as <-. f_equal. replace (tick s0 + (tick s1 - tick s0))%nat with (tick s1) by lia. apply set_tick_id.
  - intros i Hi. rewrite T0 in *. apply G. destruct (shuffle (mkEnv ord d) s0) as [s1 [u|e]]; cbn [fst snd] in *; [|discriminate]. injection H as <-. lia.
Qed.
Lemma goes_app d t a b : goes_on d t (a ++ b) <-> goes_on d t a /\ goes_on d (t + length a) b.
Proof.
  unfold goes_on. rewrite app_length. split.
  - intros H. split; intros i Hi.
    + rewrite (H i) by lia. now apply app_nth1.
    + rewrite <- Nat.add_assoc, (H (length a + i)%nat) by lia. rewrite app_nth2 by lia. f_equal. lia.
  - intros (H1 & H2) i Hi. destruct (Nat.lt_ge_cases i (length a)) as [Q|Q]; [rewrite app_nth1 by lia; now apply H1|].
    rewrite app_nth2 by lia. rewrite <- (H2 (i - length a)%nat) by lia. f_equal. lia.
Qed.
Lemma fed_goes ord t w : goes_on (e_draw (fed ord t w)) t w.
Proof. intros i _. cbn [fed e_draw]. f_equal. lia. Qed.
Lemma words_cut Mx A B w : words Mx (A + B) w -> words Mx A (firstn A w) /\ words Mx B (skipn A w) /\ w = firstn A w ++ skipn A w.
Proof.
  intros (H1 & H2). rewrite <- (firstn_skipn A w) in H2 at 1. apply Forall_app in H2 as (F1 & F2). split; [split; [rewrite firstn_length; lia|auto]|]. split; [split; [rewrite skipn_length; lia|auto]|]. symmetry. apply firstn_skipn.
Qed.
Lemma p_C115_rules_files ord d0 k L Mx f j i : env_ok (mkEnv ord d0) -> k = KL1 \/ k = KL2 -> 0 < L -> fair Mx (L * L) -> 5 * (L * L) < Z.of_nat f ->
  (1 <= j <= 3)%nat -> let N := Z.to_nat (L * L) in (i < N)%nat -> exists mu v,
    (forall t, let W := ((N - 1) + 2 * f)%nat in exists one,
      (forall d w s, words Mx W w -> goes_on d t w -> new_perc (mkEnv ord d) k L t = Ok s -> column j i (after (mkEnv ord d) s [CRun f]) = one w) /\
      average (words Mx W) one mu /\ average (words Mx W) (fun w => (one w - mu) ^ 2)%R v) /\
    forall t0 n, 1 <= n -> let W := (2 * (N - 1) + Z.to_nat n * (2 * f + (N - 1)))%nat in exists all,
      (forall d w F, words Mx W w -> goes_on d t0 w -> writes (mkEnv ord d) f t0 k L n F -> cell F i j = all w) /\
      average (words Mx W) all mu /\ average (words Mx W) (fun w => (all w - mu) ^ 2)%R (v / IZR n).
Proof.
  intros HE Hk HL HF Hf Hj N Hi. assert (HO : env_ok (mkEnv ord (fun _ => 0))) by exact HE. assert (HM : 0 < Mx) by apply HF. pose proof (is12 k Hk) as K12.
  assert (Hc : Forall realizing [CRun f]) by repeat constructor. assert (Hs : starts [CRun f]) by (destruct f; [pose proof (LL_pos L HL); lia|exact I]).
  assert (W1 : (2 * all_tries [CRun f] = 2 * f)%nat) by (cbn; lia).
  destruct (p_C115_rules ord d0 k L Mx [CRun f] (column j i) HE Hk HL HF Hc Hs (column_growth j i)) as (mu & v & A). cbv zeta in A. rewrite W1 in A. fold N in A.
  exists mu, v.
  assert (New : forall E t, exists s, new_perc E k L t = Ok s /\ Permutation (zrange (L * L)) (ids s)).
  { intros E t. destruct (new_perc_ok E k L t HL) as (a1 & a2 & a3 & a4 & E0 & _ & P0 & _). eexists. split; [exact E0|exact P0]. }
  assert (Same : forall d w t s, words Mx (N - 1) w -> goes_on d t w -> new_perc (mkEnv ord d) k L t = Ok s -> new_perc (fed ord t w) k L t = Ok s).
  { intros d w t s (V & _) Hd E0. apply (new_words ord k L t d _ s HL E0). intros x Hx. fold N in Hx. rewrite Hd by lia. exact (fed_goes ord t w x ltac:(lia)). }
  assert (Cut : forall (a b : list Z) M, length a = M -> firstn M (a ++ b) = a /\ skipn M (a ++ b) = b).
  { intros a b M <-. rewrite firstn_app, skipn_app, firstn_all, skipn_all, Nat.sub_diag. cbn. now rewrite app_nil_r. }
  assert (A1 : forall s, at_start ord k L s -> Permutation (zrange (L * L)) (ids s) -> average (words Mx (2 * f)) (one_w ord [CRun f] (column j i) s) mu /\
    average (words Mx (2 * f)) (fun w => (one_w ord [CRun f] (column j i) s w - mu) ^ 2)%R v).
  { intros s As Ps. destruct (proj1 (A s As Ps)) as (one & H1 & H2 & H3). assert (Q : forall w, words Mx (2 * f) w -> one w = one_w ord [CRun f] (column j i) s w).
    { intros w V. rewrite <- (H1 (e_draw (fed ord (tick s) w)) w V (fed_goes _ _ _)). reflexivity. }
    split; [exact (average_ext _ _ _ _ Q H2)|]. refine (average_ext _ _ _ _ _ H3). intros w V. cbn beta. now rewrite (Q w V). }
  assert (A2 : forall s m, at_start ord k L s -> Permutation (zrange (L * L)) (ids s) -> (1 <= m)%nat -> average (words Mx (m * (2 * f + (N - 1)))) (all_w ord [CRun f] (column j i) s m) mu /\
    average (words Mx (m * (2 * f + (N - 1)))) (fun w => (all_w ord [CRun f] (column j i) s m w - mu) ^ 2)%R (v / INR m)).
  { intros s m As Ps Hm. destruct (proj2 (A s As Ps) m Hm) as (all & H1 & H2 & H3). assert (Q : forall w, words Mx (m * (2 * f + (N - 1))) w -> all w = all_w ord [CRun f] (column j i) s m w).
    { intros w V. rewrite <- (H1 (e_draw (fed ord (tick s) w)) w V (fed_goes _ _ _)). reflexivity. }
    split; [exact (average_ext _ _ _ _ Q H2)|]. refine (average_ext _ _ _ _ _ H3). intros w V. cbn beta. now rewrite (Q w V). }
  split.
  - intros t W. exists (fun w => match new_perc (fed ord t (firstn (N - 1) w)) k L t with Ok s => one_w ord [CRun f] (column j i) s (skipn (N - 1) w) | Err _ => 0%R end). split.
    + intros d w s V Hd E0. apply words_cut in V as (V1 & V2 & Ew). rewrite Ew in Hd. apply goes_app in Hd as (D1 & D2).
      rewrite (Same d _ t s V1 D1 E0). apply (one_w_ok ord Mx [CRun f] (column j i) Hc); [rewrite W1; exact V2|].
      rewrite (proj1 (new_tick _ k L t s HL E0)). fold N. destruct V1 as (V1 & _). now rewrite V1 in D2.
    + split; (apply average_app; [exact HM|]); intros a (Va & _); destruct (New (fed ord t a) t) as (s & E0 & P0); assert (As : at_start ord k L s) by (eapply start_new; exact E0); destruct (A1 s As P0) as (B1 & B2);
        [refine (average_ext _ _ _ _ _ B1)|refine (average_ext _ _ _ _ _ B2)]; intros b _; cbn beta; destruct (Cut a b _ Va) as (-> & ->); now rewrite E0.
  - intros t0 n Hn W. set (s1 := fun a s => exec (fed ord t0 a) s CReset).
    exists (fun w => let a := firstn (2 * (N - 1)) w in match new_perc (fed ord t0 a) k L t0 with Ok s => all_w ord [CRun f] (column j i) (s1 a s) (Z.to_nat n) (skipn (2 * (N - 1)) w) | Err _ => 0%R end).
    assert (Nx : forall E d s, new_perc E k L t0 = Ok s -> E = mkEnv ord d -> let s' := exec E s CReset in at_start ord k L s' /\ Permutation (zrange (L * L)) (ids s') /\ tick s' = (t0 + 2 * (N - 1))%nat).
    { intros E d s E0 EE s'. assert (HE' : env_ok E) by (rewrite EE; exact HE). pose proof (new_perc_fresh E k L t0 s E0) as Fr. pose proof (fresh_inv _ _ Fr) as I0.
      assert (R0 : reachable_k E k L s) by (exists t0, s, []; split; [exact E0|split; [constructor|reflexivity]]).
      destruct (reset_inv E L s I0) as (z & Ez & Rz). assert (Es : s' = z) by (unfold s'; cbn [exec]; now rewrite Ez).
      assert (C : Cyc k L s). { split; [apply (start12 ord k L HO HL K12); subst E; eapply start_new; exact E0|]. destruct (New E t0) as (s2 & E2 & P2). rewrite E0 in E2. injection E2 as <-. exact P2. }
      assert (Cn : Cyc k L s'). { unfold s'. rewrite EE. exact (cyc_next ord k L HO HL K12 d s [] d C (Forall_nil _)). }
      split; [|split; [apply Cn|]].
      - rewrite Es. apply (start_reset ord k L E s d z HE' R0). now rewrite <- EE.
      - unfold s'. cbn [exec]. rewrite (reset_ticks E L s I0); [|destruct (new_perc_ok E k L t0 HL) as (a1 & a2 & a3 & a4 & E1 & _); rewrite E1 in E0; injection E0 as <-; reflexivity|apply C].
        rewrite (proj1 (new_tick E k L t0 s HL E0)). fold N. lia. }
    replace (IZR n) with (INR (Z.to_nat n)) by (rewrite INR_IZR_INZ; f_equal; lia). split.
    + intros d w F V Hd Hw. apply words_cut in V as (V1 & V2 & Ew). rewrite Ew in Hd. apply goes_app in Hd as (D1 & D2). set (a := firstn (2 * (N - 1)) w) in *. cbv zeta. fold a.
      assert (La : length a = (2 * (N - 1))%nat) by apply V1. rewrite La in D2.
      destruct (New (mkEnv ord d) t0) as (s & E0 & P0). assert (E0' : new_perc (fed ord t0 a) k L t0 = Ok s).
      { apply (new_words ord k L t0 d _ s HL E0). intros x Hx. fold N in Hx. rewrite D1 by lia. exact (fed_goes ord t0 a x ltac:(lia)). }
      rewrite E0'. assert (HE' : env_ok (mkEnv ord d)) by exact HE. assert (K3 : k <> KSP) by (destruct Hk as [-> | ->]; discriminate).
      rewrite (written _ k L t0 s f n F i j HE' K3 E0 Hf Hn Hj Hi Hw).
      assert (Er : exec (mkEnv ord d) s CReset = s1 a s).
      { unfold s1. apply (same_words ord (fun E s => exec E s CReset) (N - 1) s (e_draw (fed ord t0 a)) d).
        - apply (loc_call CReset).
        - destruct (Nx _ _ s E0' eq_refl) as (_ & _ & Q). change (mkEnv ord (e_draw (fed ord t0 a))) with (fed ord t0 a). rewrite Q, (proj1 (new_tick _ k L t0 s HL E0)). fold N. lia.
        - intros x Hx. rewrite (proj1 (new_tick _ k L t0 s HL E0)). fold N. rewrite <- Nat.add_assoc. rewrite D1 by lia. symmetry. exact (fed_goes ord t0 a (N - 1 + x)%nat ltac:(lia)). }
      rewrite Er. destruct (Nx _ _ s E0' eq_refl) as (As & Ps & Ts). fold (s1 a s) in As, Ps, Ts. unfold all_w. f_equal.
      apply (all_w_ok ord k L Mx [CRun f] (column j i) HO HL Hk Hc Hs (column_growth j i)); [split; [now apply (start12 ord k L HO HL K12)|exact Ps]|rewrite W1; exact V2|rewrite Ts; exact D2].
    + split; (apply average_app; [exact HM|]); intros a (Va & _); destruct (New (fed ord t0 a) t0) as (s & E0 & P0); destruct (Nx _ _ s E0 eq_refl) as (As & Ps & _); destruct (A2 _ (Z.to_nat n) As Ps ltac:(lia)) as (B1 & B2);
        [refine (average_ext _ _ _ _ _ B1)|refine (average_ext _ _ _ _ _ B2)]; intros b _; cbv zeta; destruct (Cut a b _ Va) as (-> & ->); now rewrite E0.
Qed.

(** ** Every list of indices or words is drawn by some stream *)
Lemma p_C115_streams ord t N n Mx : (1 <= N)%nat -> 0 < Mx ->
  (forall c, choice_lists N n c -> exists d, drawn (mkEnv ord d) t N c) /\
  (forall E, exists c, choice_lists N n c /\ drawn E t N c) /\
  (forall w, words Mx n w -> exists d, (forall m, 0 <= d m < Mx) /\ goes_on d t w) /\
  (forall d, (forall m, 0 <= d m < Mx) -> exists w, words Mx n w /\ goes_on d t w).
Proof.
  intros HN HM. split; [|split; [|split]].
  - intros c (Hl & Hr). exists (fun i => nth ((i - t) mod (N - 1)) (nth ((i - t) / (N - 1)) c []) 0). intros j Hj.
    pose proof (proj1 (Forall_forall _ _) Hr (nth j c []) (nth_In _ _ Hj)) as (R1 & R2). unfold choices. apply (nth_ext _ _ 0 0); [now rewrite map_length, seq_length|].
    rewrite map_length, seq_length. intros m Hm. match goal with |- nth m (map ?f ?l) 0 = _ => rewrite (nth_indep (map f l) 0 (f 0%nat)) by (rewrite map_length, seq_length; lia); rewrite (map_nth f) end.
    rewrite seq_nth by lia. cbn [Nat.add e_draw]. set (q := (N - 1)%nat) in *. replace (t + j * q + m - t)%nat with (m + j * q)%nat by lia.
    rewrite Nat.mod_add, Nat.div_add, Nat.mod_small, Nat.div_small by (auto; lia). cbn [Nat.add]. apply Z.mod_small. auto.
  - intros E. exists (map (fun j => choices E (t + j * (N - 1)) N) (seq 0 n)). split; [split; [now rewrite map_length, seq_length|]|].
    + apply Forall_map, Forall_forall. intros j _. now apply choices_valid.
    + intros j Hj. rewrite map_length, seq_length in Hj. match goal with |- _ = nth j (map ?f ?l) [] => rewrite (nth_indep (map f l) [] (f 0%nat)) by (rewrite map_length, seq_length; lia); rewrite (map_nth f) end.
      now rewrite seq_nth by lia.
  - intros w (_ & Hw). exists (fun i => nth (i - t) w 0). split.
    + intros m. destruct (nth_in_or_default (m - t) w 0) as [H | ->]; [exact (proj1 (Forall_forall _ _) Hw _ H)|lia].
    + intros i _. f_equal. lia.
  - intros d Hd. exists (map (fun i => d (t + i)%nat) (seq 0 n)). split; [split; [now rewrite map_length, seq_length|]|].
    + apply Forall_map, Forall_forall. auto.
    + intros i Hi. rewrite map_length, seq_length in Hi. match goal with |- _ = nth i (map ?f ?l) 0 => rewrite (nth_indep (map f l) 0 (f 0%nat)) by (rewrite map_length, seq_length; lia); rewrite (map_nth f) end.
      now rewrite seq_nth by lia.
Qed.

(** ** Large deviations are rare *)
Lemma sum_ge {A} (f g : A -> R) l : (forall x, In x l -> f x <= g x)%R -> (sum_of (map f l) <= sum_of (map g l))%R.
Proof. induction l as [|x l IH]; intros H; [cbn; lra|]. pose proof (H x (or_introl eq_refl)). specialize (IH (fun y Hy => H y (or_intror Hy))). unfold sum_of in *. cbn [map fold_right]. lra. Qed.
Lemma p_C115_deviations (A : Type) (P : A -> Prop) f mu v eps : average P f mu -> average P (fun c => (f c - mu) ^ 2)%R v -> (0 < eps)%R ->
  rarely P (fun c => eps <= Rabs (f c - mu))%R (v / eps ^ 2).
Proof.
  intros (l & N & Il & Ne & _) A2 He. destruct (average_enum _ _ _ l A2 N Il) as (Ev & _).
  set (dev := fun c => if Rle_dec eps (Rabs (f c - mu)) then true else false). assert (Dv : forall c, dev c = true <-> (eps <= Rabs (f c - mu))%R) by (intros c; unfold dev; destruct (Rle_dec _ _); split; auto; try discriminate; contradiction).
  exists (Z.of_nat (length (filter dev l))), (Z.of_nat (length l)). assert (Pl : (0 < INR (length l))%R) by (apply lt_0_INR; destruct l; [congruence|cbn; lia]).
  split; [|split; [exists l; auto|split; [destruct l; [congruence|cbn; lia]|]]].
  - exists (filter dev l). split; [now apply NoDup_filter|]. split; [|reflexivity]. intros c. now rewrite filter_In, Il, Dv.
  - assert (Q : (eps ^ 2 * INR (length (filter dev l)) <= sum_of (map (fun c => (f c - mu) ^ 2) l))%R).
    { assert (B : forall c, dev c = true -> (eps ^ 2 <= (f c - mu) ^ 2)%R) by (intros c Hc; apply Dv in Hc; rewrite <- (pow2_abs (f c - mu)); apply pow_incr; lra).
      clear - B. induction l as [|c l IH]; [cbn; lra|]. cbn [filter map]. assert (Z0 : (0 <= (f c - mu) ^ 2)%R) by apply pow2_ge_0. unfold sum_of in *. cbn [fold_right].
      destruct (dev c) eqn:Ed; [specialize (B c Ed); cbn [length]; rewrite S_INR|]; lra. }
    unfold mean_of in Ev. rewrite map_length in Ev. rewrite <- !INR_IZR_INZ, <- Ev. assert (E2 : (0 < eps ^ 2)%R) by (apply pow_lt; auto).
    apply (Rmult_le_reg_l (eps ^ 2)); [auto|]. eapply Rle_trans; [exact Q|]. right. field. split; lra.
Qed.
Lemma many v q : (0 < q)%R -> exists n0, (1 <= n0)%nat /\ forall n, (n0 <= n)%nat -> (v / INR n <= q)%R.
Proof.
  intros Hq. destruct (Rle_lt_dec v 0) as [H|H].
  - exists 1%nat. split; [lia|]. intros n Hn. assert (P : (0 < INR n)%R) by (apply lt_0_INR; lia). apply (Rle_trans _ 0); [|lra]. unfold Rdiv. assert (0 < / INR n)%R by (now apply Rinv_0_lt_compat). nra.
  - destruct (archimed (v / q)) as (U & _). assert (P0 : (0 < v / q)%R) by (apply Rdiv_lt_0_compat; auto). assert (Up : 0 < up (v / q)) by (apply lt_IZR; lra).
    exists (Z.to_nat (up (v / q))). split; [lia|]. intros n Hn. assert (Q : (v / q <= INR n)%R). { apply (Rle_trans _ (IZR (up (v / q)))); [lra|]. rewrite INR_IZR_INZ. apply IZR_le. lia. }
    assert (Pn : (0 < INR n)%R) by lra. apply (Rmult_le_reg_r (INR n)); [auto|]. replace (v / INR n * INR n)%R with v by (field; lra).
    apply (Rmult_le_compat_r q) in Q; [|lra]. replace (v / q * q)%R with v in Q by (field; lra). lra.
Qed.
Lemma dev_rare {A} (P : A -> Prop) f mu v eps share : average P f mu -> average P (fun c => (f c - mu) ^ 2)%R v -> (0 < eps)%R -> (v <= share * eps ^ 2)%R ->
  rarely P (fun c => eps <= Rabs (f c - mu))%R share.
Proof.
  intros A1 A2 He Hv. destruct (p_C115_deviations _ P f mu v eps A1 A2 He) as (bad & tot & H1 & H2 & H3 & H4). exists bad, tot. split; [exact H1|]. split; [exact H2|]. split; [exact H3|].
  eapply Rle_trans; [exact H4|]. apply Rmult_le_compat_r; [apply IZR_le; lia|]. assert (0 < eps ^ 2)%R by (now apply pow_lt). apply (Rmult_le_reg_r (eps ^ 2)); [auto|]. replace (v / eps ^ 2 * eps ^ 2)%R with v by (field; lra). exact Hv.
Qed.
Lemma enough v eps share : (0 < eps)%R -> (0 < share)%R -> exists n0, (1 <= n0)%nat /\ forall n, (n0 <= n)%nat -> (v / INR n <= share * eps ^ 2)%R.
Proof. intros He Hs. apply many. apply Rmult_lt_0_compat; [auto|]. now apply pow_lt. Qed.
Lemma p_C115_converge ord d0 k L cs X : env_ok (mkEnv ord d0) -> k <> KL1 -> k <> KL2 -> 0 < L ->
  Forall realizing cs -> starts cs -> (forall s s', same_realization s s' -> X s = X s') -> let N := Z.to_nat (L * L) in
  exists one mu,
    (forall d t s, new_perc (mkEnv ord d) k L t = Ok s -> X (after (mkEnv ord d) s cs) = one (choices (mkEnv ord d) t N)) /\
    average (random_choices N) one mu /\
    forall eps share, (0 < eps)%R -> (0 < share)%R -> exists n0, forall E0 s0 n, env_ok E0 -> reachable_no_custom E0 k L s0 -> (n0 <= n)%nat -> exists all,
      (forall d c, choice_lists N n c -> drawn (mkEnv ord d) (tick s0) N c ->
         mean_of (map X (series (mkEnv ord d) (exec (mkEnv ord d) s0 CReset) cs n)) = all c) /\
      rarely (choice_lists N n) (fun c => eps <= Rabs (all c - mu))%R share.
Proof.
  intros HE K1 K2 HL Hc Hs HX N. destruct (p_C115_series ord d0 k L cs X HE K1 K2 HL Hc Hs HX) as (one & mu & v & H1 & H2 & H3 & H4). exists one, mu. split; [exact H1|]. split; [exact H2|].
  intros eps share He Hsh. destruct (enough v eps share He Hsh) as (n0 & Hn0 & Hm). exists n0. intros E0 s0 n HE0 HR Hn. destruct (H4 E0 s0 n HE0 HR ltac:(lia)) as (all & A1 & A2 & A3).
  exists all. split; [exact A1|]. exact (dev_rare _ _ _ _ _ _ A2 A3 He (Hm n Hn)).
Qed.
Lemma p_C115_files_converge ord d0 k L f j i : env_ok (mkEnv ord d0) -> k <> KL1 -> k <> KL2 -> k <> KSP -> 0 < L -> 5 * (L * L) < Z.of_nat f ->
  (1 <= j <= 3)%nat -> let N := Z.to_nat (L * L) in (i < N)%nat ->
  exists one mu,
    (forall d t s, new_perc (mkEnv ord d) k L t = Ok s -> column j i (after (mkEnv ord d) s [CRun f]) = one (choices (mkEnv ord d) t N)) /\
    average (random_choices N) one mu /\
    forall eps share, (0 < eps)%R -> (0 < share)%R -> exists n0, forall t0 n, n0 <= n -> let m := S (Z.to_nat n) in exists all,
      (forall d c F, choice_lists N m c -> drawn (mkEnv ord d) t0 N c -> writes (mkEnv ord d) f t0 k L n F -> cell F i j = all c) /\
      rarely (choice_lists N m) (fun c => eps <= Rabs (all c - mu))%R share.
Proof.
  intros HE K1 K2 K3 HL Hf Hj N Hi. destruct (p_C115_files ord d0 k L f j i HE K1 K2 K3 HL Hf Hj Hi) as (one & mu & v & H1 & H2 & H3 & H4). exists one, mu. split; [exact H1|]. split; [exact H2|].
  intros eps share He Hsh. destruct (enough v eps share He Hsh) as (n0 & Hn0 & Hm). exists (Z.of_nat n0). intros t0 n Hn. destruct (H4 t0 n ltac:(lia)) as (all & A1 & A2 & A3).
  exists all. split; [exact A1|]. replace (IZR n) with (INR (Z.to_nat n)) in A3 by (rewrite INR_IZR_INZ; f_equal; lia). exact (dev_rare _ _ _ _ _ _ A2 A3 He (Hm (Z.to_nat n) ltac:(lia))).
Qed.
Lemma p_C115_rules_converge ord d0 k L Mx cs X : env_ok (mkEnv ord d0) -> k = KL1 \/ k = KL2 -> 0 < L -> fair Mx (L * L) ->
  Forall realizing cs -> starts cs -> (forall s s', same_growth s s' -> X s = X s') -> let W := (2 * all_tries cs)%nat in let N := Z.to_nat (L * L) in
  exists mu,
    (forall s, at_start ord k L s -> Permutation (zrange (L * L)) (ids s) -> exists one,
      (forall d w, words Mx W w -> goes_on d (tick s) w -> X (after (mkEnv ord d) s cs) = one w) /\ average (words Mx W) one mu) /\
    forall eps share, (0 < eps)%R -> (0 < share)%R -> exists n0, forall s n, at_start ord k L s -> Permutation (zrange (L * L)) (ids s) -> (n0 <= n)%nat ->
      let Wn := (n * (W + (N - 1)))%nat in exists all,
      (forall d w, words Mx Wn w -> goes_on d (tick s) w -> mean_of (map X (series (mkEnv ord d) s cs n)) = all w) /\
      rarely (words Mx Wn) (fun w => eps <= Rabs (all w - mu))%R share.
Proof.
  intros HE Hk HL HF Hc Hs HX W N. destruct (p_C115_rules ord d0 k L Mx cs X HE Hk HL HF Hc Hs HX) as (mu & v & H). exists mu. split.
  - intros s A P. destruct (proj1 (H s A P)) as (one & H1 & H2 & _). exists one. split; [exact H1|exact H2].
  - intros eps share He Hsh. destruct (enough v eps share He Hsh) as (n0 & Hn0 & Hm). exists n0. intros s n A P Hn Wn. destruct (proj2 (H s A P) n ltac:(lia)) as (all & A1 & A2 & A3).
    exists all. split; [exact A1|]. exact (dev_rare _ _ _ _ _ _ A2 A3 He (Hm n Hn)).
Qed.
Lemma p_C115_rules_files_converge ord d0 k L Mx f j i : env_ok (mkEnv ord d0) -> k = KL1 \/ k = KL2 -> 0 < L -> fair Mx (L * L) -> 5 * (L * L) < Z.of_nat f ->
  (1 <= j <= 3)%nat -> let N := Z.to_nat (L * L) in (i < N)%nat -> exists mu,
    (forall t, let W := ((N - 1) + 2 * f)%nat in exists one,
      (forall d w s, words Mx W w -> goes_on d t w -> new_perc (mkEnv ord d) k L t = Ok s -> column j i (after (mkEnv ord d) s [CRun f]) = one w) /\
      average (words Mx W) one mu) /\
    forall eps share, (0 < eps)%R -> (0 < share)%R -> exists n0, forall t0 n, n0 <= n -> let W := (2 * (N - 1) + Z.to_nat n * (2 * f + (N - 1)))%nat in exists all,
      (forall d w F, words Mx W w -> goes_on d t0 w -> writes (mkEnv ord d) f t0 k L n F -> cell F i j = all w) /\
      rarely (words Mx W) (fun w => eps <= Rabs (all w - mu))%R share.
Proof.
  intros HE Hk HL HF Hf Hj N Hi. destruct (p_C115_rules_files ord d0 k L Mx f j i HE Hk HL HF Hf Hj Hi) as (mu & v & H1 & H4). exists mu. split.
  - intros t W. destruct (H1 t) as (one & B1 & B2 & _). exists one. split; [exact B1|exact B2].
  - intros eps share He Hsh. destruct (enough v eps share He Hsh) as (n0 & Hn0 & Hm). exists (Z.of_nat n0). intros t0 n Hn. destruct (H4 t0 n ltac:(lia)) as (all & A1 & A2 & A3).
    exists all. split; [exact A1|]. replace (IZR n) with (INR (Z.to_nat n)) in A3 by (rewrite INR_IZR_INZ; f_equal; lia). exact (dev_rare _ _ _ _ _ _ A2 A3 He (Hm (Z.to_nat n) ltac:(lia))).
Qed.
