(** * Expected: the shape of the curves the files estimate (C127). *)
From Coq Require Import ZArith List Bool Lia Permutation Reals Lra.
From Verif Require Import Critical StateProps Py Lattice Cluster Perc Spec PyFacts Torus Geometry LatFacts Inv Merge Count Fresh Select State Step History Reach Micro Seq RunBase RunProps RunProps2 StateProps2
  Cycle Sim Wrap Unbiased Grow SymSpec Describe Symmetry ChanceSpec Chance CanonSpec Canon Real CurveSpec Curves IidSpec Iid Run EnsSpec Ens AverageSpec Average AverageProps MeanSpec Mean CritSpec Crit SampleSpec Sample.
Import ListNotations.
Open Scope R_scope.

Lemma sum_mono {A} (f g : A -> R) l : (forall x, In x l -> f x <= g x) -> sum_of (map f l) <= sum_of (map g l).
Proof.
  induction l as [|x l IH]; intros H; [apply Rle_refl|]. cbn [map sum_of fold_right]. apply Rplus_le_compat; [apply H; now left|]. apply IH. intros y Hy. apply H. now right.
Qed.
Lemma average_mono {A} (P : A -> Prop) f g a b : average P f a -> average P g b -> (forall x, P x -> f x <= g x) -> a <= b.
Proof.
  intros (l & Nl & Il & Hl & <-) G H. destruct (average_enum _ _ _ l G Nl Il) as (<- & _). unfold mean_of. rewrite !map_length.
  assert (Pl : 0 < INR (length l)) by (apply lt_0_INR; destruct l; [now contradiction Hl|cbn; lia]).
  apply Rmult_le_compat_r; [apply Rlt_le, Rinv_0_lt_compat, Pl|]. apply sum_mono. intros x Hx. now apply H, Il.
Qed.
Lemma average_bounds {A} (P : A -> Prop) f m a b : average P f m -> (forall x, P x -> a <= f x <= b) -> a <= m <= b.
Proof. intros (l & Nl & Il & Hl & <-) H. apply mean_bounds; auto. intros x Hx. now apply H, Il. Qed.

(** ** The curves *)
Lemma p_C127_curves ord d0 k L f j i i' : env_ok (mkEnv ord d0) -> k = KBase \/ k = KL0 -> (0 < L)%Z -> (5 * (L * L) < Z.of_nat f)%Z ->
  (1 <= j <= 2)%nat -> let N := Z.to_nat (L * L) in (i <= i' < N)%nat ->
  exists x x' mu mu',
    (forall S, site_set L (Datatypes.S i) S -> curve_value j L S (x S)) /\ average (site_set L (Datatypes.S i)) x mu /\
    (forall S, site_set L (Datatypes.S i') S -> curve_value j L S (x' S)) /\ average (site_set L (Datatypes.S i')) x' mu' /\
    (forall t0 n, (1 <= n)%Z -> let m := Datatypes.S (Z.to_nat n) in exists all all',
      (forall d c F, choice_lists N m c -> drawn (mkEnv ord d) t0 N c -> writes (mkEnv ord d) f t0 k L n F -> cell F i j = all c /\ cell F i' j = all' c) /\
      average (choice_lists N m) all mu /\ average (choice_lists N m) all' mu') /\
    (j = 1%nat -> mu' <= mu) /\ (j = 2%nat -> mu <= mu') /\ 0 <= mu <= curve_range j L /\ 0 <= mu' <= curve_range j L /\
    (i' = (N - 1)%nat -> mu' = match j with 1%nat => 0 | _ => 1 end).
Proof.
  intros HE Hb HL Hf Hj N Hi. assert (Hk : is_L12 k = false) by (destruct Hb as [-> | ->]; reflexivity).
  assert (K1 : k <> KL1) by (intros ->; discriminate). assert (K2 : k <> KL2) by (intros ->; discriminate). assert (K3 : k <> KSP) by (destruct Hb as [-> | ->]; discriminate).
  assert (Hi1 : (i < N)%nat) by lia. assert (Hi2 : (i' < N)%nat) by lia.
  destruct (p_C115_files ord d0 k L f j i HE K1 K2 K3 HL Hf ltac:(lia) Hi1) as (one & mu & v & A1 & A2 & _ & A3).
  destruct (p_C115_files ord d0 k L f j i' HE K1 K2 K3 HL Hf ltac:(lia) Hi2) as (one' & mu' & v' & B1 & B2 & _ & B3). fold N in A1, A2, A3, B1, B2, B3.
  destruct (law_average ord k L HE HL Hk (Datatypes.S i) (fun E s => column j i (after E s [CRun f])) (curve_value j L) one mu) as (x & X1 & X2); auto.
  { intros E s S0 HE' E1 HS Sh. now apply (curve_law E k L 0 s f j i S0). }
  destruct (law_average ord k L HE HL Hk (Datatypes.S i') (fun E s => column j i' (after E s [CRun f])) (curve_value j L) one' mu') as (x' & X3 & X4); auto.
  { intros E s S0 HE' E1 HS Sh. now apply (curve_law E k L 0 s f j i' S0). }
  exists x, x', mu, mu'. split; auto. split; auto. split; auto. split; auto. split.
  { intros t0 n Hn m. destruct (A3 t0 n Hn) as (all & Q1 & Q2 & _). destruct (B3 t0 n Hn) as (all' & Q1' & Q2' & _). exists all, all'. split; [|split; assumption].
    intros d c F Hc Hd Hw. split; [now apply (Q1 d)|now apply (Q1' d)]. }
  assert (O : forall c, random_choices N c -> exists d s, new_perc (mkEnv ord d) k L 0 = Ok s /\ one c = column j i (after (mkEnv ord d) s [CRun f]) /\ one' c = column j i' (after (mkEnv ord d) s [CRun f])).
  { intros c Hc. destruct (env_at ord k L HL c Hc) as (d & s & E1 & Ec). fold N in Ec. exists d, s. split; [exact E1|]. rewrite (A1 d 0%nat s E1), (B1 d 0%nat s E1), Ec. auto. }
  assert (M : forall c, random_choices N c -> (j = 1%nat -> one' c <= one c) /\ (j = 2%nat -> one c <= one' c) /\ (i' = (N - 1)%nat -> one' c = match j with 1%nat => 0 | _ => 1 end)).
  { intros c Hc. destruct (O c Hc) as (d & s & E1 & -> & ->). destruct (p_C82 (mkEnv ord d) k L s f HE K3 (or_introl (ex_intro _ 0%nat E1)) Hf) as (s' & Er & (Mo & _ & Z1 & Z2 & _) & _).
    unfold after. cbn [fold_left exec]. rewrite Er. cbn [fst]. destruct (Mo i i' Hi) as (M1 & M2 & _). unfold column.
    split; [intros ->; exact M1|]. split; [intros ->; exact M2|]. intros Ei. assert (j = 1 \/ j = 2)%nat as [-> | ->] by lia; rewrite Ei; unfold N; assumption. }
  split; [intros Ej; apply (average_mono _ _ _ _ _ B2 A2); intros c Hc; now apply M|]. split; [intros Ej; apply (average_mono _ _ _ _ _ A2 B2); intros c Hc; now apply M|].
  split; [apply (average_bounds _ _ _ _ _ A2); intros c Hc; destruct (O c Hc) as (d & s & E1 & -> & _); now apply (column_range (mkEnv ord d) k L 0 s f j i HE Hb E1 Hf ltac:(lia))|].
  split; [apply (average_bounds _ _ _ _ _ B2); intros c Hc; destruct (O c Hc) as (d & s & E1 & _ & ->); now apply (column_range (mkEnv ord d) k L 0 s f j i' HE Hb E1 Hf ltac:(lia))|].
  intros Ei. set (e := match j with 1%nat => 0 | _ => 1 end) in *. destruct (average_bounds _ _ _ e e B2) as (G1 & G2); [|now apply Rle_antisym].
  intros c Hc. rewrite (proj2 (proj2 (M c Hc)) Ei). split; apply Rle_refl.
Qed.

(** ** The wrapping probability *)
Lemma share_average ord d0 k L f m : env_ok (mkEnv ord d0) -> k <> KL1 -> k <> KL2 -> (3 <= L)%Z -> (5 * (L * L) < Z.of_nat f)%Z ->
  let N := Z.to_nat (L * L) in (m <= N)%nat ->
  exists w c one, (0 < c)%Z /\ how_many (site_set L m) c /\ how_many (fun S => site_set L m S /\ wraps L (among S)) w /\
    average (random_choices N) one (IZR w / IZR c) /\
    forall x, random_choices N x -> exists d s, new_perc (mkEnv ord d) k L 0 = Ok s /\ choices (mkEnv ord d) 0 N = x /\ one x = at_most (INR m / IZR (L * L)) (critical_numbers (after (mkEnv ord d) s [CRun f])).
Proof.
  intros HE K1 K2 H3 Hf N Hm. set (phi := at_most (INR m / IZR (L * L))). assert (HL : (0 < L)%Z) by lia. pose proof (plain_kind k K1 K2) as Hk.
  destruct (p_C123_rows ord d0 k L f phi HE K1 K2 HL Hf) as (one & mu & v & A1 & A2 & A3 & A4). cbv zeta in A4. fold N in A1, A2, A3, A4.
  destruct (sets_without L k m H3 Hk Hm) as (b & w & c & B1 & B2 & B3 & B4 & B5). fold N in B5.
  assert (O : forall x, random_choices N x -> one x = (1 - (if b (set_at L m x) then 0 else 1))%R).
  { intros x Hx. destruct (env_at ord k L HL x Hx) as (d & s & E1 & Ec). pose proof (A1 d 0%nat s E1) as Q. unfold N in Q. rewrite Ec in Q. rewrite <- Q. unfold phi.
    rewrite (threshold_at_most (mkEnv ord d) k L 0 s f m HE Hk H3 Hf E1 Hm).
    destruct (set_shown ord k L HE HL Hk d s x m E1 Hx Ec Hm) as (HS & Sh).
    assert (W : after_wrap (after (mkEnv ord d) s (pairs m)) = true <-> b (set_at L m x) = true).
    { rewrite (B1 _ HS), (wrap_prefix k L 0 HL Hk H3 (mkEnv ord d) s m HE E1 Hm).
      pose proof (shows_firstn k L 0 Hk (mkEnv ord d) s m _ HE E1 HS Sh) as I. split; apply Critical.wraps_mono; intros i _; apply I. }
    destruct (after_wrap _), (b _); [lra|discriminate (proj1 W eq_refl)|discriminate (proj2 W eq_refl)|lra]. }
  destruct (choices_enum L HL) as (la & Nl & Il & Hl). fold N in Il.
  assert (Ln : INR (length la) <> 0%R) by (apply not_0_INR; destruct la; cbn; congruence).
  assert (Em : mu = (IZR w / IZR c)%R).
  { destruct (average_enum _ _ _ la A2 Nl Il) as (<- & _). destruct (average_enum _ _ _ la B5 Nl Il) as (E5 & _).
    enough (mean_of (map one la) = 1 - mean_of (map (fun x => if b (set_at L m x) then 0 else 1) la))%R by lra. unfold mean_of. rewrite !map_length.
    rewrite (map_ext_in one (fun x => 1 + (-1) * (if b (set_at L m x) then 0 else 1))%R) by (intros x Hx; rewrite (O x (proj1 (Il x) Hx)); lra).
    rewrite sum_plus, sum_const, sum_scal. field. exact Ln. }
  exists w, c, one. split; auto. split; auto. split; auto. rewrite <- Em. split; auto.
  intros x Hx. destruct (env_at ord k L HL x Hx) as (d & s & E1 & Ec). exists d, s. split; auto. split; auto. pose proof (A1 d 0%nat s E1) as Q. fold N in Ec. rewrite Ec in Q. now rewrite <- Q.
Qed.

Lemma run_threshold ord d0 d L s f : env_ok (mkEnv ord d0) -> (3 <= L)%Z -> (5 * (L * L) < Z.of_nat f)%Z -> new_perc (mkEnv ord d) KBase L 0 = Ok s ->
  exists q, get_pc (after (mkEnv ord d) s [CRun f]) = Ok (FDiv (FZ q) (FZ (L * L))) /\ (L <= q <= L * L - L + 1)%Z.
Proof.
  intros HE H3 Hf E1. destruct (p_C82 (mkEnv ord d) KBase L s f HE ltac:(discriminate) (or_introl (ex_intro _ 0%nat E1)) Hf) as (s' & Er & _ & Q). destruct (Q H3) as (q & Q1 & Q2 & _).
  exists q. unfold after. cbn [fold_left exec]. rewrite Er. cbn [fst]. auto.
Qed.
Lemma run_at_most L m s q : (3 <= L)%Z -> get_pc s = Ok (FDiv (FZ q) (FZ (L * L))) -> at_most (INR m / IZR (L * L)) (critical_numbers s) = if Z.leb q (Z.of_nat m) then 1 else 0.
Proof.
  intros H3 Eq. unfold at_most, first_number, critical_numbers. rewrite Eq. cbn [nth feval].
  assert (P : 0 < IZR (L * L)) by (apply IZR_lt; nia). assert (Pi : 0 < / IZR (L * L)) by (now apply Rinv_0_lt_compat). rewrite INR_IZR_INZ.
  destruct (Rle_dec _ _) as [Q|Q], (Z.leb_spec q (Z.of_nat m)) as [G|G]; auto; exfalso.
  - apply IZR_lt in G. apply (Rmult_lt_compat_r _ _ _ Pi) in G. unfold Rdiv in Q. lra.
  - apply Q. apply IZR_le in G. unfold Rdiv. apply Rmult_le_compat_r; lra.
Qed.
Lemma p_C127_threshold ord d0 k L f : env_ok (mkEnv ord d0) -> k <> KL1 -> k <> KL2 -> (3 <= L)%Z -> (5 * (L * L) < Z.of_nat f)%Z ->
  let N := Z.to_nat (L * L) in
  exists (w c : nat -> Z) mu,
    (forall m, (m < N)%nat -> (0 < c m)%Z /\ how_many (site_set L m) (c m) /\ how_many (fun S => site_set L m S /\ wraps L (among S)) (w m)) /\
    (forall t0 n, (1 <= n)%Z -> let q := S (Z.to_nat n) in exists all,
      (forall d c F, choice_lists N q c -> drawn (mkEnv ord d) t0 N c -> writes_critical (mkEnv ord d) f t0 k L n F -> row_mean first_number F = all c) /\
      average (choice_lists N q) all mu) /\
    (forall m m', (m <= m' < N)%nat -> IZR (w m) / IZR (c m) <= IZR (w m') / IZR (c m')) /\
    (forall m, (Z.of_nat m < L)%Z -> w m = 0%Z) /\
    (forall m, (m < N)%nat -> (L * L - L + 1 <= Z.of_nat m)%Z -> w m = c m) /\
    IZR L / IZR (L * L) <= mu <= IZR (L * L - L + 1) / IZR (L * L).
Proof.
  intros HE K1 K2 H3 Hf N. assert (HLL : (0 < L * L)%Z) by nia. assert (HLN : (L < L * L)%Z) by nia.
  destruct (p_C123_threshold ord d0 k L f HE K1 K2 H3 Hf) as (w & c & mu & v & A1 & A2 & A3 & _). fold N in A1, A2, A3.
  exists w, c, mu. split; [exact A1|]. split. { intros t0 n Hn. destruct (A3 t0 n Hn) as (all & Q1 & Q2 & _). exists all. split; [exact Q1|exact Q2]. }
  assert (S1 : forall m, (m < N)%nat -> exists one, average (random_choices N) one (IZR (w m) / IZR (c m)) /\
    forall x, random_choices N x -> exists d s, new_perc (mkEnv ord d) KBase L 0 = Ok s /\ choices (mkEnv ord d) 0 N = x /\
      one x = at_most (INR m / IZR (L * L)) (critical_numbers (after (mkEnv ord d) s [CRun f]))).
  { intros m Hm. destruct (share_average ord d0 KBase L f m HE ltac:(discriminate) ltac:(discriminate) H3 Hf ltac:(fold N; lia)) as (w' & c' & one & B1 & B2 & B3 & B4 & B5).
    fold N in B4, B5. destruct (A1 m Hm) as (_ & C2 & C3). rewrite (how_fun _ _ _ C2 B2), (how_fun _ _ _ C3 B3). exists one. split; [exact B4|exact B5]. }
  split.
  { intros m m' Hm. destruct (p_C123_rows ord d0 KBase L f (at_most (INR m / IZR (L * L))) HE ltac:(discriminate) ltac:(discriminate) ltac:(lia) Hf) as (o & a & _ & O1 & O2 & _).
    destruct (p_C123_rows ord d0 KBase L f (at_most (INR m' / IZR (L * L))) HE ltac:(discriminate) ltac:(discriminate) ltac:(lia) Hf) as (o' & a' & _ & O1' & O2' & _). fold N in O1, O2, O1', O2'.
    destruct (S1 m ltac:(lia)) as (one & B4 & B5). destruct (S1 m' ltac:(lia)) as (one' & B4' & B5').
    assert (Ea : IZR (w m) / IZR (c m) = a). { apply (average_fun (random_choices N) one); [exact B4|]. eapply average_ext; [|exact O2]. intros x Hx. destruct (B5 x Hx) as (d & s & E1 & Ec & ->). rewrite (O1 d 0%nat s E1), Ec. reflexivity. }
    assert (Ea' : IZR (w m') / IZR (c m') = a'). { apply (average_fun (random_choices N) one'); [exact B4'|]. eapply average_ext; [|exact O2']. intros x Hx. destruct (B5' x Hx) as (d & s & E1 & Ec & ->). rewrite (O1' d 0%nat s E1), Ec. reflexivity. }
    rewrite Ea, Ea'. apply (average_mono _ _ _ _ _ O2 O2'). intros x Hx. destruct (B5 x Hx) as (d & s & E1 & Ec & _). rewrite <- Ec, <- (O1 d 0%nat s E1), <- (O1' d 0%nat s E1).
    destruct (run_threshold ord d0 d L s f HE H3 Hf E1) as (q & Eq & _). rewrite !(run_at_most L _ _ q H3 Eq).
    destruct (Z.leb_spec q (Z.of_nat m)), (Z.leb_spec q (Z.of_nat m')); try lra; lia. }
  split.
  { intros m Hm. assert (Hm' : (m < N)%nat) by (unfold N; lia). destruct (S1 m Hm') as (one & B4 & B5). destruct (A1 m Hm') as (C1 & _).
    destruct (average_bounds _ _ _ 0 0 B4) as (G1 & G2).
    { intros x Hx. destruct (B5 x Hx) as (d & s & E1 & _ & ->). destruct (run_threshold ord d0 d L s f HE H3 Hf E1) as (q & Eq & Hq). rewrite (run_at_most L _ _ q H3 Eq). destruct (Z.leb_spec q (Z.of_nat m)); [lia|lra]. }
    assert (Pc : 0 < IZR (c m)) by (apply IZR_lt; lia). apply eq_IZR. replace (IZR (w m)) with (IZR (w m) / IZR (c m) * IZR (c m)) by (field; lra). replace (IZR (w m) / IZR (c m)) with 0 by lra. lra. }
  split.
  { intros m Hm' Hm. destruct (S1 m Hm') as (one & B4 & B5). destruct (A1 m Hm') as (C1 & _).
    destruct (average_bounds _ _ _ 1 1 B4) as (G1 & G2).
    { intros x Hx. destruct (B5 x Hx) as (d & s & E1 & _ & ->). destruct (run_threshold ord d0 d L s f HE H3 Hf E1) as (q & Eq & Hq). rewrite (run_at_most L _ _ q H3 Eq). destruct (Z.leb_spec q (Z.of_nat m)); [lra|lia]. }
    assert (Pc : 0 < IZR (c m)) by (apply IZR_lt; lia). apply eq_IZR. replace (IZR (w m)) with (IZR (w m) / IZR (c m) * IZR (c m)) by (field; lra). replace (IZR (w m) / IZR (c m)) with 1 by lra. lra. }
  destruct (p_C122_threshold ord d0 KBase L f HE ltac:(discriminate) ltac:(discriminate) H3 Hf) as (w' & c' & one & mu' & B1 & B2 & B3 & B4 & _). fold N in B1, B2, B3, B4.
  assert (mu' = mu) as Emu.
  { rewrite A2, B2. f_equal. f_equal. apply map_ext_in. intros m Hm. apply in_seq in Hm. destruct (A1 m ltac:(lia)) as (_ & C2 & C3). destruct (B1 m ltac:(lia)) as (_ & C2' & C3').
    now rewrite (how_fun _ _ _ C2 C2'), (how_fun _ _ _ C3 C3'). }
  rewrite <- Emu. apply (average_bounds _ _ _ _ _ B4). intros x Hx. destruct (env_at ord KBase L ltac:(lia) x Hx) as (d & s & E1 & Ec). pose proof (B3 d 0%nat s E1) as Q. unfold N in Q. rewrite Ec in Q. rewrite <- Q.
  destruct (run_threshold ord d0 d L s f HE H3 Hf E1) as (q & Eq & Hq). unfold threshold. rewrite Eq. cbn [feval].
  assert (Pi : 0 < / IZR (L * L)) by (apply Rinv_0_lt_compat, IZR_lt; lia).
  split; apply Rmult_le_compat_r; try lra; apply IZR_le; lia.
Qed.
