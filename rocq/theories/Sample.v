(** * Sample: how many realizations are enough (C126). *)
From Coq Require Import String ZArith List Bool Lia Reals Lra.
From Flocq Require Import Core.
From Verif Require Import Py Lattice Cluster Perc Spec PyFacts Inv Fresh Select State History Reach StateProps2 RunBase RunProps Cycle Real Entropy Run EnsSpec Ens CurveSpec Curves Symmetry SymSpec ChanceSpec CanonSpec Canon IidSpec Chance Demo Iid AverageSpec Average AverageProps MeanSpec Mean CritSpec Crit
  Float FloatProps FloatEnt FloatMeanSpec FloatMean ViewSpec Savetxt SavetxtSpec SavetxtProps SavetxtCrit SavetxtMean SampleSpec.
Import ListNotations.
Open Scope R_scope.

(** ** Bounded values *)
Lemma mean_bounds {A} (f : A -> R) a b l : l <> [] -> (forall x, In x l -> a <= f x <= b) -> a <= mean_of (map f l) <= b.
Proof.
  intros Hl H. unfold mean_of. rewrite map_length. assert (P : 0 < INR (length l)) by (apply lt_0_INR; destruct l; [now contradiction Hl|cbn; lia]).
  assert (S : INR (length l) * a <= sum_of (map f l) <= INR (length l) * b).
  { clear P Hl. induction l as [|x l IH]; [cbn; lra|]. cbn [map sum_of fold_right length]. rewrite S_INR. destruct (H x ltac:(now left)).
    destruct IH as (IH1 & IH2); [intros y Hy; apply H; now right|]. unfold sum_of in *. lra. }
  split; apply (Rmult_le_reg_l (INR (length l))); auto; [|]; replace (INR (length l) * (sum_of (map f l) / INR (length l))) with (sum_of (map f l)) by (field; lra); lra.
Qed.
Lemma spread {A} (f : A -> R) a b mu l : (forall x, In x l -> a <= f x <= b) ->
  sum_of (map (fun x => (f x - mu) ^ 2) l) <= (a + b - 2 * mu) * sum_of (map f l) + INR (length l) * (mu ^ 2 - a * b).
Proof.
  induction l as [|x l IH]; intros H; [cbn; lra|]. cbn [map sum_of fold_right length]. rewrite S_INR. destruct (H x ltac:(now left)) as (H1 & H2).
  specialize (IH ltac:(intros y Hy; apply H; now right)). unfold sum_of in *. pose proof (Rmult_le_pos (f x - a) (b - f x) ltac:(lra) ltac:(lra)). nra.
Qed.
Lemma variance_le {A} (P : A -> Prop) f mu v a b : average P f mu -> average P (fun x => (f x - mu) ^ 2) v -> (forall x, P x -> a <= f x <= b) -> v <= (b - a) ^ 2 / 4.
Proof.
  intros (l & Nl & Il & Hl & M) V H. destruct (average_enum _ _ _ l V Nl Il) as (<- & _).
  assert (H' : forall x, In x l -> a <= f x <= b) by (intros x Hx; apply H, Il, Hx).
  pose proof (spread f a b mu l H') as Sp. unfold mean_of in *. rewrite map_length in *.
  assert (Pl : 0 < INR (length l)) by (apply lt_0_INR; destruct l; [now contradiction Hl|cbn; lia]).
  assert (Sf : sum_of (map f l) = INR (length l) * mu) by (rewrite <- M; field; lra). rewrite Sf in Sp.
  apply (Rmult_le_reg_l (INR (length l))); [exact Pl|]. replace (INR (length l) * (_ / _)) with (sum_of (map (fun x => (f x - mu) ^ 2) l)) by (field; lra).
  eapply Rle_trans; [exact Sp|]. replace ((a + b - 2 * mu) * (INR (length l) * mu) + INR (length l) * (mu ^ 2 - a * b)) with (INR (length l) * ((b - mu) * (mu - a))) by ring.
  apply Rmult_le_compat_l; [lra|]. pose proof (pow2_ge_0 (a + b - 2 * mu)). nra.
Qed.
Lemma bounded_rare {A B} (P : A -> Prop) (Q : B -> Prop) f g mu v a b n eps : average P f mu -> average P (fun x => (f x - mu) ^ 2) v -> (forall x, P x -> a <= f x <= b) ->
  (1 <= n)%Z -> 0 < eps -> average Q g mu -> average Q (fun c => (g c - mu) ^ 2) (v / IZR n) ->
  rarely Q (fun c => eps <= Rabs (g c - mu)) ((b - a) ^ 2 / (4 * IZR n * eps ^ 2)).
Proof.
  intros A1 A2 H Hn He B1 B2. pose proof (variance_le P f mu v a b A1 A2 H) as V. assert (Pn : 1 <= IZR n) by (apply IZR_le; lia).
  apply (dev_rare Q g mu _ eps _ B1 B2 He). assert (0 < eps ^ 2) by (apply pow_lt; lra).
  replace ((b - a) ^ 2 / (4 * IZR n * eps ^ 2) * eps ^ 2) with ((b - a) ^ 2 / 4 / IZR n) by (field; lra).
  apply Rmult_le_compat_r; [apply Rlt_le, Rinv_0_lt_compat; lra|exact V].
Qed.

(** ** The curves *)
Lemma column_range E k L t s f j i : env_ok E -> k = KBase \/ k = KL0 -> new_perc E k L t = Ok s -> (5 * (L * L) < Z.of_nat f)%Z -> (1 <= j <= 3)%nat -> (i < Z.to_nat (L * L))%nat ->
  0 <= column j i (after E s [CRun f]) <= curve_range j L.
Proof.
  intros HE Hb H0 Hf Hj Hi. assert (Hk : k <> KSP) by (destruct Hb as [-> | ->]; discriminate).
  destruct (p_C82 E k L s f HE Hk (or_introl (ex_intro _ t H0)) Hf) as (s' & Er & (_ & B & _) & _).
  unfold after. cbn [fold_left exec]. rewrite Er. cbn [fst]. destruct (B i Hi) as (B1 & B2 & B3).
  assert (j = 1 \/ j = 2 \/ j = 3)%nat as [-> |[-> | ->]] by lia; unfold column, curve_range; cbn; tauto || lra.
Qed.

Lemma read_shift y m mu b eps : read_close y m b -> Rabs (m - mu) < eps -> read_close y mu (eps + b).
Proof.
  unfold read_close. intros A B. pose proof (Rabs_triang (y - m) (m - mu)) as T. replace (y - m + (m - mu)) with (y - mu) in T by ring.
  pose proof (Rabs_triang (m - mu) mu) as T2. replace (m - mu + mu) with m in T2 by ring. lra.
Qed.
Lemma cell_text E k L t0 f n F lg date clock i j : env_ok E -> k <> KSP -> (0 < L)%Z -> (5 * (L * L) < Z.of_nat f)%Z -> (1 <= n <= 2 ^ 50)%Z ->
  (L <= 2 ^ 20)%Z -> log_accurate lg -> one_line date -> one_line clock -> writes E f t0 k L n F -> (i < Z.to_nat (L * L))%nat -> (1 <= j <= 3)%nat ->
  exists table y, read_table (file_text lg date clock F) = map (map Some) table /\ nth_error (nth i table []) j = Some y /\ read_close y (cell F i j) (curve_error j L n i).
Proof.
  intros HE Hk HP Hf Hn HL Hlg Hd Hc Hw Hi Hj. destruct (new_perc_ok E k L t0 HP) as (a1 & a2 & a3 & a4 & E0 & _). match type of E0 with _ = Ok ?S => set (s0 := S) in * end. clearbody s0.
  destruct (p_C125_text E k L t0 s0 f n F lg date clock HE Hk E0 Hf Hn HL Hlg Hd Hc Hw) as (table & T1 & T2 & T3).
  destruct (T3 i Hi) as (p & h & l & w & R & _ & _ & Q1 & Q2 & Q3). exists table.
  destruct (written_cells E k L t0 s0 f n F HE Hk E0 Hf Hn Hw) as (_ & _ & C). destruct (cells_mean E k L t0 s0 f n F HE Hk E0 Hf Hn Hw i Hi) as (_ & M1 & M2 & M3).
  pose proof (nth_error_nth _ _ [] (C i Hi)) as Cn. unfold cell. rewrite Cn. pose proof (nth_error_nth _ _ [] R) as Rn. rewrite Rn.
  assert (j = 1 \/ j = 2 \/ j = 3)%nat as [-> |[-> | ->]] by lia; unfold curve_error; cbn [nth nth_error]; [exists h; rewrite M1|exists l; rewrite M2|exists w; rewrite M3]; auto.
Qed.
Lemma p_C126_curves ord d0 k L f j i : env_ok (mkEnv ord d0) -> k = KBase \/ k = KL0 -> (0 < L)%Z -> (5 * (L * L) < Z.of_nat f)%Z ->
  (1 <= j <= 2)%nat -> let N := Z.to_nat (L * L) in (i < N)%nat ->
  exists x mu, (forall S, site_set L (Datatypes.S i) S -> curve_value j L S (x S)) /\ average (site_set L (Datatypes.S i)) x mu /\
    forall t0 n eps, (1 <= n)%Z -> 0 < eps -> let m := Datatypes.S (Z.to_nat n) in
      exists bad, rarely (choice_lists N m) bad (bad_luck (curve_range j L) n eps) /\
        forall d c F, choice_lists N m c -> drawn (mkEnv ord d) t0 N c -> writes (mkEnv ord d) f t0 k L n F -> ~ bad c ->
          Rabs (cell F i j - mu) < eps /\
          forall lg date clock, (L <= 2 ^ 20)%Z -> (n <= 2 ^ 50)%Z -> log_accurate lg -> one_line date -> one_line clock ->
            exists table y, read_table (file_text lg date clock F) = map (map Some) table /\ nth_error (nth i table []) j = Some y /\
              read_close y mu (eps + curve_error j L n i).
Proof.
  intros HE Hb HL Hf Hj N Hi. assert (Hk : is_L12 k = false) by (destruct Hb as [-> | ->]; reflexivity).
  assert (K1 : k <> KL1) by (intros ->; discriminate). assert (K2 : k <> KL2) by (intros ->; discriminate). assert (K3 : k <> KSP) by (destruct Hb as [-> | ->]; discriminate).
  destruct (p_C115_files ord d0 k L f j i HE K1 K2 K3 HL Hf ltac:(lia) Hi) as (one & mu & v & A1 & A2 & A2v & A3).
  destruct (law_average ord k L HE HL Hk (Datatypes.S i) (fun E s => column j i (after E s [CRun f])) (curve_value j L) one mu) as (x & X1 & X2); auto.
  { intros E s S0 HE' E1 HS Sh. now apply (curve_law E k L 0 s f j i S0). }
  exists x, mu. split; auto. split; auto. intros t0 n eps Hn He m. destruct (A3 t0 n Hn) as (all & Q1 & Q2 & Q3).
  exists (fun c => eps <= Rabs (all c - mu)). split.
  { unfold bad_luck. replace (curve_range j L) with (curve_range j L - 0) by ring. refine (bounded_rare (random_choices N) (choice_lists N m) one all mu v 0 (curve_range j L) n eps A2 A2v _ Hn He Q2 Q3).
    intros c Hc. destruct (env_at ord k L HL c Hc) as (d & s & E1 & Ec). pose proof (A1 d 0%nat s E1) as Q. unfold N in Q. rewrite Ec in Q. rewrite <- Q.
    apply (column_range (mkEnv ord d) k L 0 s f j i HE Hb E1 Hf ltac:(lia) Hi). }
  intros d c F Hc Hd Hw Hbad. assert (C : Rabs (cell F i j - mu) < eps) by (rewrite (Q1 d c F Hc Hd Hw); now apply Rnot_le_lt). split; [exact C|].
  intros lg date clock HL2 Hn2 Hlg Hda Hcl.
  destruct (cell_text (mkEnv ord d) k L t0 f n F lg date clock i j HE K3 HL Hf ltac:(lia) HL2 Hlg Hda Hcl Hw Hi ltac:(lia)) as (table & y & T1 & T2 & T3).
  exists table, y. split; [exact T1|]. split; [exact T2|]. exact (read_shift _ _ _ _ _ T3 C).
Qed.

(** ** The critical values *)
(** The integers recovered from the first column of a table. *)
Lemma critical_text E k L t0 f n F lg date clock : env_ok E -> (0 < L)%Z -> (5 * (L * L) < Z.of_nat f)%Z -> (1 <= n)%Z ->
  (L * L <= 9 * 10 ^ 9)%Z -> one_line date -> one_line clock -> writes_critical E f t0 k L n F ->
  exists table ms, read_table (file_text lg date clock F) = map (map Some) table /\ length table = Z.to_nat n /\
    Forall2 (fun r m => Rabs (first_number r * IZR (L * L) - IZR m) < / 2) table ms /\
    forall g, row_mean (fun r => g (first_number r)) F = mean_of (map (fun m => g (IZR m / IZR (L * L))) ms).
Proof.
  intros HE HP Hf Hn HL Hd Hc Hw. destruct (new_perc_ok E k L t0 HP) as (a1 & a2 & a3 & a4 & E0 & _). match type of E0 with _ = Ok ?S => set (s0 := S) in * end. clearbody s0.
  destruct (p_C124_critical E k L t0 s0 f n F lg date clock HE E0 Hf Hn HL Hd Hc Hw) as (table & T1 & T2 & T3).
  assert (Q : forall q (tb : list (list R)) a, length tb = q -> (forall e, (e < q)%nat -> exists pc y ys, get_pc (realization E f s0 (a + e)) = Ok pc /\ nth_error tb e = Some (y :: ys) /\ gives (L * L) y (feval pc)) ->
    exists ms, Forall2 (fun r m => Rabs (first_number r * IZR (L * L) - IZR m) < / 2) tb ms /\
      map (fun e => first_number (critical_numbers (realization E f s0 e))) (seq a q) = map (fun m => IZR m / IZR (L * L)) ms).
  { induction q as [|q IH]; intros tb a Hl H; [exists []; destruct tb; [split; [constructor|reflexivity]|discriminate]|].
    destruct tb as [|r tb]; [discriminate|]. injection Hl as Hl. destruct (H 0%nat ltac:(lia)) as (pc & y & ys & G1 & G2 & (m & G3 & G4)). injection G2 as ->. rewrite Nat.add_0_r in G1.
    destruct (IH tb (S a) Hl) as (ms & M1 & M2). { intros e He. destruct (H (S e) ltac:(lia)) as (pc' & y' & ys' & P1 & P2 & P3). exists pc', y', ys'. rewrite Nat.add_succ_r in P1. auto. }
    exists (m :: ms). split; [constructor; [exact G4|exact M1]|]. cbn [seq map]. rewrite M2. f_equal. unfold first_number, critical_numbers. rewrite G1. exact G3. }
  destruct (Q (Z.to_nat n) table 1%nat T2) as (ms & M1 & M2).
  { intros e He. destruct (T3 (1 + e)%nat ltac:(lia)) as (pc & y & ys & P1 & P2 & P3 & _). exists pc, y, ys. replace (1 + e - 1)%nat with e in P2 by lia. auto. }
  exists table, ms. split; [exact T1|]. split; [exact T2|]. split; [exact M1|]. intros g.
  rewrite (written_critical E k L t0 s0 f n F _ HE E0 Hf Hn Hw). change (exec E s0 CReset) with (exec E (realization E f s0 0) CReset). rewrite series_real, map_map. f_equal.
  rewrite <- (map_map (fun m => IZR m / IZR (L * L)) g), <- M2, map_map. reflexivity.
Qed.
Lemma threshold_range E k L t s f : env_ok E -> new_perc E k L t = Ok s -> (5 * (L * L) < Z.of_nat f)%Z -> 0 <= first_number (critical_numbers (after E s [CRun f])) <= 1.
Proof.
  intros HE H0 Hf. assert (HR : reachable E L (after E s [CRun f])) by (exists k, t, s, [CRun f]; repeat split; [exact H0|repeat constructor]).
  destruct (of_sites_frac E L _ get_pc HE HR ltac:(right; now left)) as (m & x & Ex & Fr). unfold first_number, critical_numbers. cbn [nth]. rewrite Ex.
  rewrite (proj2 (frac_val _ _ _ (fun x => x) Fr)). destruct Fr as (Hm & _). pose proof (new_perc_pos _ _ _ _ _ H0) as HP.
  assert (0 < IZR (L * L)) by (apply IZR_lt; nia). assert (0 <= IZR m <= IZR (L * L)) by (split; apply IZR_le; lia).
  split; apply (Rmult_le_reg_r (IZR (L * L))); auto; replace (IZR m / IZR (L * L) * IZR (L * L)) with (IZR m) by (field; lra); lra.
Qed.
Lemma p_C126_threshold ord d0 k L f : env_ok (mkEnv ord d0) -> k <> KL1 -> k <> KL2 -> (3 <= L)%Z -> (5 * (L * L) < Z.of_nat f)%Z ->
  let N := Z.to_nat (L * L) in
  exists (w c : nat -> Z) mu,
    (forall m, (m < N)%nat -> (0 < c m)%Z /\ how_many (site_set L m) (c m) /\ how_many (fun S => site_set L m S /\ wraps L (among S)) (w m)) /\
    mu = sum_of (map (fun m => 1 - IZR (w m) / IZR (c m)) (seq 0 N)) / INR N /\
    forall t0 n eps, (1 <= n)%Z -> 0 < eps -> let q := S (Z.to_nat n) in
      exists bad, rarely (choice_lists N q) bad (bad_luck 1 n eps) /\
        forall d c F, choice_lists N q c -> drawn (mkEnv ord d) t0 N c -> writes_critical (mkEnv ord d) f t0 k L n F -> ~ bad c ->
          forall lg date clock, (L * L <= 9 * 10 ^ 9)%Z -> one_line date -> one_line clock ->
            exists table ms, read_table (file_text lg date clock F) = map (map Some) table /\ length table = Z.to_nat n /\
              Forall2 (fun r m => Rabs (first_number r * IZR (L * L) - IZR m) < / 2) table ms /\
              Rabs (mean_of (map (fun m => IZR m / IZR (L * L)) ms) - mu) < eps.
Proof.
  intros HE K1 K2 H3 Hf N. assert (HL : (0 < L)%Z) by lia.
  destruct (p_C123_rows ord d0 k L f first_number HE K1 K2 HL Hf) as (one & mu & v & A1 & A2 & A3 & A4). cbv zeta in A4. fold N in A1, A2, A3, A4.
  destruct (p_C122_threshold ord d0 k L f HE K1 K2 H3 Hf) as (w & c & one' & mu' & B1 & B2 & B3 & B4 & _). fold N in B1, B2, B3, B4.
  assert (mu' = mu) as ->.
  { apply (average_fun (random_choices N) one); auto. eapply average_ext; [|exact B4]. intros x Hx. destruct (env_at ord k L HL x Hx) as (d & s & E1 & Ec).
    pose proof (A1 d 0%nat s E1) as Q1. pose proof (B3 d 0%nat s E1) as Q2. unfold N in Q1, Q2. rewrite Ec in Q1, Q2. rewrite <- Q1, <- Q2. reflexivity. }
  exists w, c, mu. split; auto. split; auto. intros t0 n eps Hn He q. destruct (A4 t0 n Hn) as (all & Q1 & Q2 & Q3).
  exists (fun c => eps <= Rabs (all c - mu)). split.
  { unfold bad_luck. replace 1 with (1 - 0) by ring. refine (bounded_rare (random_choices N) (choice_lists N q) one all mu v 0 1 n eps A2 A3 _ Hn He Q2 Q3).
    intros x Hx. destruct (env_at ord k L HL x Hx) as (d & s & E1 & Ec). pose proof (A1 d 0%nat s E1) as Q. unfold N in Q. rewrite Ec in Q. rewrite <- Q.
    exact (threshold_range (mkEnv ord d) k L 0 s f HE E1 Hf). }
  intros d x F Hx Hd Hw Hbad lg date clock HL2 Hda Hcl.
  destruct (critical_text (mkEnv ord d) k L t0 f n F lg date clock HE HL Hf Hn HL2 Hda Hcl Hw) as (table & ms & T1 & T2 & T3 & T4).
  exists table, ms. split; [exact T1|]. split; [exact T2|]. split; [exact T3|].
  rewrite <- (T4 (fun y => y)). change (row_mean (fun r => first_number r) F) with (row_mean first_number F). rewrite (Q1 d x F Hx Hd Hw). now apply Rnot_le_lt.
Qed.
Lemma p_C126_wrapping ord d0 k L f m : env_ok (mkEnv ord d0) -> k <> KL1 -> k <> KL2 -> (3 <= L)%Z -> (5 * (L * L) < Z.of_nat f)%Z ->
  let N := Z.to_nat (L * L) in (m <= N)%nat ->
  exists w c, (0 < c)%Z /\ how_many (site_set L m) c /\ how_many (fun S => site_set L m S /\ wraps L (among S)) w /\
    forall t0 n eps, (1 <= n)%Z -> 0 < eps -> let q := S (Z.to_nat n) in
      exists bad, rarely (choice_lists N q) bad (bad_luck 1 n eps) /\
        forall d x F, choice_lists N q x -> drawn (mkEnv ord d) t0 N x -> writes_critical (mkEnv ord d) f t0 k L n F -> ~ bad x ->
          forall lg date clock, (L * L <= 9 * 10 ^ 9)%Z -> one_line date -> one_line clock ->
            exists table ms, read_table (file_text lg date clock F) = map (map Some) table /\ length table = Z.to_nat n /\
              Forall2 (fun r m => Rabs (first_number r * IZR (L * L) - IZR m) < / 2) table ms /\
              Rabs (mean_of (map (fun h => if Z.leb h (Z.of_nat m) then 1 else 0) ms) - IZR w / IZR c) < eps.
Proof.
  intros HE K1 K2 H3 Hf N Hm. assert (HL : (0 < L)%Z) by lia.
  destruct (p_C123_wrapping ord d0 k L f m HE K1 K2 H3 Hf Hm) as (w & c & C1 & C2 & C3 & A4 & _). cbv zeta in A4. fold N in A4.
  exists w, c. split; [exact C1|]. split; [exact C2|]. split; [exact C3|]. set (mu := IZR w / IZR c) in *.
  intros t0 n eps Hn He q. destruct (A4 t0 n Hn) as (all & Q1 & Q2 & Q3). exists (fun c => eps <= Rabs (all c - mu)). split.
  { apply (dev_rare _ _ _ _ _ _ Q2 Q3 He). unfold bad_luck. assert (1 <= IZR n) by (apply IZR_le; lia). assert (0 < eps ^ 2) by (apply pow_lt; lra).
    replace (1 ^ 2 / (4 * IZR n * eps ^ 2) * eps ^ 2) with (1 / 4 / IZR n) by (field; lra). apply Rmult_le_compat_r; [apply Rlt_le, Rinv_0_lt_compat; lra|]. pose proof (pow2_ge_0 (mu - / 2)). nra. }
  intros d x F Hx Hd Hw Hbad lg date clock HL2 Hda Hcl.
  destruct (critical_text (mkEnv ord d) k L t0 f n F lg date clock HE HL Hf Hn HL2 Hda Hcl Hw) as (table & ms & T1 & T2 & T3 & T4).
  exists table, ms. split; [exact T1|]. split; [exact T2|]. split; [exact T3|].
  pose proof (T4 (fun y => if Rle_dec y (INR m / IZR (L * L)) then 1 else 0)) as T. change (row_mean (at_most (INR m / IZR (L * L))) F = mean_of (map (fun m0 => if Rle_dec (IZR m0 / IZR (L * L)) (INR m / IZR (L * L)) then 1 else 0) ms)) in T.
  assert (M : map (fun m0 => if Rle_dec (IZR m0 / IZR (L * L)) (INR m / IZR (L * L)) then 1 else 0) ms = map (fun h => if Z.leb h (Z.of_nat m) then 1 else 0) ms).
  { apply map_ext. intros h. assert (P : 0 < IZR (L * L)) by (apply IZR_lt; nia). assert (Pi : 0 < / IZR (L * L)) by (now apply Rinv_0_lt_compat). rewrite INR_IZR_INZ.
    destruct (Rle_dec _ _) as [Q|Q], (Z.leb_spec h (Z.of_nat m)) as [G|G]; auto; exfalso.
    - apply IZR_lt in G. apply (Rmult_lt_compat_r _ _ _ Pi) in G. unfold Rdiv in Q. lra.
    - apply Q. apply IZR_le in G. unfold Rdiv. apply Rmult_le_compat_r; lra. }
  rewrite <- M, <- T, (Q1 d x F Hx Hd Hw). now apply Rnot_le_lt.
Qed.

(** ** For the examples *)
Lemma demo_choices : choice_lists 9 3 [choices demo_env 0 9; choices demo_env 8 9; choices demo_env 16 9] /\
  drawn demo_env 0 9 [choices demo_env 0 9; choices demo_env 8 9; choices demo_env 16 9].
Proof.
  split; [split; [reflexivity|repeat constructor; apply choices_valid; lia]|]. intros j Hj. cbn [length] in Hj.
  assert (j = 0 \/ j = 1 \/ j = 2)%nat as [-> |[-> | ->]] by lia; reflexivity.
Qed.
