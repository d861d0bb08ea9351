(** * RulesJoint: realizations of one L1 or L2 object are independent (C112). *)
From Coq Require Import ZArith List Bool Lia Permutation Znumtheory.
From Verif Require Import Py Lattice Cluster Perc Spec PyFacts Torus Geometry LatFacts Inv Merge Count Fresh Select State Step History Reach RunProps Sim Cycle Unbiased ChanceSpec Chance BreakProps WorldProps Cand IidSpec Iid L1Chance Couple RulesLawSpec RulesLaw.
Import ListNotations.
Open Scope Z_scope.

(** ** Counting *)
Lemma how_pair {A} (P : A -> Prop) (Q : A -> A -> Prop) a b : how_many P a -> (forall x, P x -> how_many (Q x) b) ->
  how_many (fun l => match l with [x; y] => P x /\ Q x y | _ => False end) (a * b).
Proof.
  intros H G. apply (how_iff (fun l => match l with x :: l' => P x /\ (match l' with [y] => Q x y | _ => False end) | [] => False end)).
  - intros [|x [|y [|z l]]]; tauto.
  - apply (how_cons 1 P (fun x l' => match l' with [y] => Q x y | _ => False end)); auto. intros x Px. apply (how_map (Q x) _ (fun y => [y])); auto.
    + intros [|y [|z l]]; try contradiction. eauto.
    + intros y y' _ _ E. now injection E.
Qed.
Lemma how_range Mx : 0 < Mx -> how_many (fun x => 0 <= x < Mx) Mx.
Proof.
  intros H. exists (zrange Mx). split; [apply NoDup_zrange|]. split; [intros x; apply In_zrange|]. pose proof (zlen_zrange Mx ltac:(lia)) as Q. unfold zlen in Q. lia.
Qed.
Lemma how_vec Mx W : 0 < Mx -> how_many (vec Mx W) (Mx ^ Z.of_nat W).
Proof.
  intros H. induction W as [|W IH].
  - exists [[]]. split; [repeat constructor; intros []|]. split; [|reflexivity]. intros w. split; [intros [<-|[]]; split; [reflexivity|constructor]|].
    intros (E & _). left. symmetry. now apply length_zero_iff_nil.
  - replace (Mx ^ Z.of_nat (S W)) with (Mx * Mx ^ Z.of_nat W) by (rewrite Nat2Z.inj_succ, Z.pow_succ_r by lia; reflexivity).
    apply (how_iff (fun l => match l with x :: l' => 0 <= x < Mx /\ vec Mx W l' | [] => False end)).
    + intros [|x l]; [split; [tauto|intros (E & _); discriminate]|]. symmetry. apply (vec_cons Mx).
    + apply (how_cons 1 (fun x => 0 <= x < Mx) (fun _ => vec Mx W)); [now apply how_range|auto].
Qed.

(** ** Words a step does not take are free for the next *)
Section Markov.
Variables (Mx : Z) (ord : list Z -> list Z) (F : env -> perc -> perc) (s : perc) (B V : nat).
Hypothesis LF : local (fun E s => (F E s, Ok tt)).
Hypothesis BF : forall E, (tick (F E s) <= tick s + B)%nat.
Definition rn (w : list Z) : perc := F (fed ord (tick s) w) s.
Definition used (w : list Z) : nat := (tick (rn w) - tick s)%nat.
Lemma used_le w : (used w <= B)%nat.
Proof. unfold used, rn. specialize (BF (fed ord (tick s) w)). lia. Qed.
Lemma rn_prefix w w' : firstn (used w) w = firstn (used w) w' -> (used w <= length w)%nat -> (used w <= length w')%nat -> rn w' = rn w.
Proof.
  intros H Hl Hl'. destruct (LF (fed ord (tick s) w) s) as (T & G). cbn [fst snd] in *. fold (rn w) in T, G. specialize (G (e_draw (fed ord (tick s) w')) (tick s)).
  rewrite set_tick_id in G. change (mkEnv (e_ord (fed ord (tick s) w)) (e_draw (fed ord (tick s) w'))) with (fed ord (tick s) w') in G. fold (rn w') in G.
  assert (Q : (rn w', @Ok unit tt) = (set_tick (tick s + (tick (rn w) - tick s)) (rn w), Ok tt)).
  { apply G. intros i Hi. cbn [fed e_draw]. replace (tick s + i - tick s)%nat with i by lia.
    assert (Hu : (i < used w)%nat) by (unfold used; lia).
    assert (N : forall l : list Z, (used w <= length l)%nat -> nth i l 0 = nth i (firstn (used w) l) 0).
    { intros l Hll. rewrite <- (firstn_skipn (used w) l) at 1. rewrite app_nth1; auto. rewrite firstn_length. lia. }
    rewrite (N w Hl), (N w' Hl'). now rewrite H. }
  apply (f_equal fst) in Q. cbn [fst] in Q. rewrite Q. replace (tick s + (tick (rn w) - tick s))%nat with (tick (rn w)) by lia. apply set_tick_id.
Qed.
Definition weave (u v : list Z) : list Z := firstn (used u) u ++ v ++ skipn (used u) u.
Lemma weave_ok u v : vec Mx B u -> vec Mx V v -> vec Mx (B + V) (weave u v) /\ rn (weave u v) = rn u /\ firstn V (skipn (used (weave u v)) (weave u v)) = v /\
  firstn (used (weave u v)) (weave u v) = firstn (used u) u /\ skipn V (skipn (used (weave u v)) (weave u v)) = skipn (used u) u.
Proof.
  intros (L1 & F1) (L2 & F2). pose proof (used_le u) as U. assert (Lf : length (firstn (used u) u) = used u) by (rewrite firstn_length; lia).
  assert (E : rn (weave u v) = rn u).
  { apply rn_prefix; [|lia|unfold weave; rewrite !app_length, Lf; lia]. unfold weave. rewrite firstn_app, Lf, Nat.sub_diag. rewrite firstn_firstn, Nat.min_id. now rewrite app_nil_r. }
  assert (Eu : used (weave u v) = used u) by (unfold used at 1; rewrite E; reflexivity).
  assert (Sk : skipn (used u) (weave u v) = v ++ skipn (used u) u) by (unfold weave; rewrite skipn_app, Lf, Nat.sub_diag, skipn_all2 by lia; reflexivity).
  rewrite Eu, Sk. repeat split; auto.
  - unfold weave. rewrite !app_length, Lf, skipn_length. lia.
  - unfold weave. rewrite <- (firstn_skipn (used u) u) in F1. apply Forall_app in F1 as (A1 & A2). apply Forall_app. split; auto. apply Forall_app. auto.
  - rewrite firstn_app, L2, Nat.sub_diag, firstn_all2 by lia. now rewrite app_nil_r.
  - unfold weave. rewrite firstn_app, Lf, Nat.sub_diag. rewrite firstn_firstn, Nat.min_id. now rewrite app_nil_r.
  - rewrite skipn_app, L2, Nat.sub_diag, skipn_all2 by lia. reflexivity.
Qed.
Lemma weave_onto w : vec Mx (B + V) w -> exists u v, vec Mx B u /\ vec Mx V v /\ weave u v = w.
Proof.
  intros (L1 & F1). pose proof (used_le w) as U. set (j := used w) in *. set (u := firstn j w ++ skipn V (skipn j w)). set (v := firstn V (skipn j w)).
  assert (Lj : length (firstn j w) = j) by (rewrite firstn_length; lia).
  assert (Eu : rn u = rn w). { apply rn_prefix; fold j; [|lia|unfold u; rewrite app_length, Lj; lia]. unfold u. rewrite firstn_app, Lj, Nat.sub_diag, firstn_firstn, Nat.min_id. now rewrite app_nil_r. }
  assert (Uu : used u = j) by (unfold used; now rewrite Eu).
  assert (Fp : Forall (fun x => 0 <= x < Mx) (firstn j w) /\ Forall (fun x => 0 <= x < Mx) v /\ Forall (fun x => 0 <= x < Mx) (skipn V (skipn j w))).
  { rewrite <- (firstn_skipn j w) in F1. apply Forall_app in F1 as (A1 & A2). split; auto. rewrite <- (firstn_skipn V (skipn j w)) in A2. now apply Forall_app in A2. }
  exists u, v. split; [|split].
  - split; [unfold u; rewrite app_length, Lj, !skipn_length; lia|]. unfold u. apply Forall_app. tauto.
  - split; [unfold v; rewrite firstn_length, skipn_length; lia|tauto].
  - unfold weave. rewrite Uu. unfold u. rewrite firstn_app, Lj, Nat.sub_diag, firstn_firstn, Nat.min_id. cbn [firstn]. rewrite app_nil_r.
    rewrite skipn_app, Lj, Nat.sub_diag, (skipn_all2 (firstn j w)) by lia. cbn [skipn app]. unfold v. rewrite (firstn_skipn V). apply firstn_skipn.
Qed.
Lemma markov (P : perc -> Prop) (Q : perc -> list Z -> Prop) a c : how_many (fun u => vec Mx B u /\ P (rn u)) a -> (forall u, vec Mx B u -> P (rn u) -> how_many (fun v => vec Mx V v /\ Q (rn u) v) c) ->
  how_many (fun w => vec Mx (B + V) w /\ P (rn w) /\ Q (rn w) (firstn V (skipn (used w) w))) (a * c).
Proof.
  intros H G. pose proof (how_pair (fun u => vec Mx B u /\ P (rn u)) (fun u v => vec Mx V v /\ Q (rn u) v) a c H (fun u Hu => G u (proj1 Hu) (proj2 Hu))) as X.
  refine (how_map _ _ (fun l => match l with [u; v] => weave u v | _ => [] end) _ _ _ _ X).
  - intros [|u [|v [|? ?]]]; try contradiction. intros ((Hu & Pu) & Hv & Qv). destruct (weave_ok u v Hu Hv) as (A & E & D & _). rewrite E, D. auto.
  - intros w (Hw & Pw & Qw). destruct (weave_onto w Hw) as (u & v & Hu & Hv & <-). destruct (weave_ok u v Hu Hv) as (A & E & D & _). rewrite E, D in *. exists [u; v]. auto.
  - intros [|u [|v [|? ?]]] [|u' [|v' [|? ?]]]; try contradiction. intros ((Hu & _) & Hv & _) ((Hu' & _) & Hv' & _) E.
    destruct (weave_ok u v Hu Hv) as (_ & _ & D & D1 & D2). destruct (weave_ok u' v' Hu' Hv') as (_ & _ & D' & D1' & D2'). rewrite E in D, D1, D2. 
    assert (u = u') as <- by (rewrite <- (firstn_skipn (used u) u), <- D1, <- D2, D1', D2'; apply firstn_skipn). congruence.
Qed.
End Markov.

(** ** Realizing calls keep the length of the list of ids *)
Definition klen {A} (m : M A) : Prop := forall s, length (ids (fst (m s))) = length (ids s).
Lemma kl_ret {A} (x : A) : klen (ret x). Proof. intros s. reflexivity. Qed.
Lemma kl_raise {A} e : klen (@raise A e). Proof. intros s. reflexivity. Qed.
Lemma kl_lift {A} (r : res A) : klen (lift r). Proof. intros s. reflexivity. Qed.
Lemma kl_need {A} (o : option A) : klen (need o). Proof. destruct o; [apply kl_ret|apply kl_raise]. Qed.
Lemma kl_modify f : (forall s, ids (f s) = ids s) -> klen (modify f). Proof. intros H s. unfold modify. cbn [fst]. now rewrite H. Qed.
Lemma kl_bind {A B} (m : M A) (k : A -> M B) : klen m -> (forall x, klen (k x)) -> klen (mbind m k).
Proof. intros Hm Hk s. unfold mbind. specialize (Hm s). destruct (m s) as [s1 [x|e]]; cbn [fst] in *; [now rewrite (Hk x s1)|auto]. Qed.
Lemma kl_get {B} (k : perc -> M B) : (forall s, klen (k s)) -> klen (mbind get k).
Proof. intros H s. apply (H s s). Qed.
Lemma kl_randint E a b : klen (randint E a b).
Proof. intros s. unfold randint. destruct (b <? a); reflexivity. Qed.
Ltac kl := cbv beta zeta; lazymatch goal with
  | |- klen (ret _) => apply kl_ret
  | |- klen (raise _) => apply kl_raise
  | |- klen (lift _) => apply kl_lift
  | |- klen (need _) => apply kl_need
  | |- klen (randint _ _ _) => apply kl_randint
  | |- klen (modify _) => apply kl_modify; reflexivity
  | |- klen (mbind get _) => apply kl_get; intros ?
  | |- klen (mbind _ _) => apply kl_bind; [|intros ?]
  | |- klen (match ?x with _ => _ end) => destruct x
  end.
Lemma kl_select_id x : klen (select_id x). Proof. unfold select_id. repeat kl. Qed.
Lemma kl_drop x : klen (drop_candidate x).
Proof.
  intros s. unfold drop_candidate, mbind, get, lift, modify. destruct (lget (ids s) (cur_idx s)) as [v|]; [|reflexivity]. destruct (lset (ids s) x v) as [l|] eqn:E; [|reflexivity].
  cbn [fst ids set_cur_idx mutate_ids rebind_ids]. unfold lset in E. destruct (py_pos (zlen (ids s)) x) as [j|]; [|discriminate]. injection E as <-. apply upd_length.
Qed.
Lemma kl_select E : klen (select_site E).
Proof. unfold select_site, select_site_L1, select_site_L2, select_site_base. repeat first [apply kl_select_id|apply kl_drop|kl]. Qed.
Lemma kl_rest E f : klen (place_rest E f).
Proof. unfold place_rest, track_largest_cluster. repeat kl. Qed.
Lemma kl_place E : klen (place_one_site E).
Proof. rewrite place_split. apply kl_bind; [apply kl_select|apply kl_rest]. Qed.
Lemma kl_detect : klen detect_wrapping. Proof. unfold detect_wrapping. repeat kl. Qed.
Lemma kl_record : klen record_step. Proof. unfold record_step. repeat kl. Qed.
Lemma kl_run_loop E f : klen (run_loop E f).
Proof.
  induction f as [|f IH]; cbn [run_loop]; [kl|]. apply kl_bind; [apply kl_place|]. intros [|]; [|kl].
  kl. kl; [kl; [kl; [apply kl_detect|apply kl_record]|kl]|exact IH].
Qed.
Lemma kl_test_loop E f : klen (test_run_loop E f).
Proof.
  induction f as [|f IH]; cbn [test_run_loop]; [kl|]. apply kl_bind; [apply kl_place|]. intros [|]; [|kl].
  kl. kl; [|exact IH]. kl; [apply kl_detect|]. kl; [kl; kl; kl|]. kl; [apply kl_record|exact IH].
Qed.
Lemma kl_sp_loop E f : klen (sp_loop E f).
Proof.
  induction f as [|f IH]; cbn [sp_loop]; [kl|]. apply kl_bind; [apply kl_place|]. intros [|]; [|kl].
  kl. kl; [|exact IH]. kl; [apply kl_detect|]. kl; [|exact IH]. kl. kl; [kl|]. kl; [kl|]. kl; [kl|]. kl. kl; [|exact IH]. kl; kl.
Qed.
Lemma kl_exec E c s : realizing c -> length (ids (exec E s c)) = length (ids s).
Proof.
  intros Hc. destruct c; try contradiction; cbn [exec].
  - apply kl_place.
  - apply kl_detect.
  - assert (G : klen (run_once E fuel)); [|apply G]. unfold run_once, sp_run_once, run_once_base. kl.
    kl; (apply kl_bind; [first [apply kl_run_loop|apply kl_sp_loop]|intros _; kl]).
  - assert (G : klen (test_run_once E fuel)); [|apply G]. unfold test_run_once. apply kl_bind; [apply kl_test_loop|intros _; kl].
Qed.
Lemma kl_after E cs : forall s, Forall realizing cs -> length (ids (after E s cs)) = length (ids s).
Proof.
  induction cs as [|c cs IH]; intros s H; [reflexivity|]. inversion H; subst. change (after E s (c :: cs)) with (after E (exec E s c) cs). rewrite IH; auto. now apply kl_exec.
Qed.

(** ** Words taken by a reset *)
Definition upl {A} (m : M A) : Prop := forall s, (tick (fst (m s)) <= tick s + pred (length (ids s)))%nat.
Definition quiet {A} (m : M A) : Prop := forall s, tick (fst (m s)) = tick s /\ ids (fst (m s)) = ids s.
Lemma upl_pre {A B} (m : M A) (k : A -> M B) : quiet m -> (forall x, upl (k x)) -> upl (mbind m k).
Proof. intros Hm Hk s. unfold mbind. destruct (Hm s) as (H1 & H2). destruct (m s) as [s1 [x|e]]; cbn [fst] in *; [specialize (Hk x s1); rewrite H1, H2 in Hk; exact Hk|lia]. Qed.
Lemma upl_post {A B} (m : M A) (k : A -> M B) : upl m -> (forall x, upto 0 (k x)) -> upl (mbind m k).
Proof. intros Hm Hk s. unfold mbind. specialize (Hm s). destruct (m s) as [s1 [x|e]]; cbn [fst] in *; [specialize (Hk x s1); lia|lia]. Qed.
Lemma upl_get {B} (k : perc -> M B) : (forall s, upl (k s)) -> upl (mbind get k).
Proof. intros H s. apply (H s s). Qed.
Lemma quiet_lift {A} (r : res A) : quiet (lift r). Proof. intros s. auto. Qed.
Lemma quiet_modify f : (forall s, tick (f s) = tick s /\ ids (f s) = ids s) -> quiet (modify f). Proof. intros H s. apply H. Qed.
Lemma upl_shuffle E : upl (shuffle E).
Proof.
  intros s. destruct (do_shuffle s) eqn:Ed; [rewrite (shuffle_tick E s Ed); lia|]. unfold shuffle, mbind, get. rewrite Ed. destruct (mode_custom s && negb false); cbn; lia.
Qed.
Lemma upl_reset E : upl (reset E).
Proof.
  unfold reset. apply upl_post; [|intros _; repeat uu]. unfold reset_base. apply upl_get. intros s. apply upl_pre; [apply quiet_modify; auto|]. intros _. apply upl_pre; [apply quiet_modify; auto|]. intros _.
  apply upl_get. intros s1. apply upl_pre; [apply quiet_lift|]. intros [p lat1]. apply upl_pre; [apply quiet_modify; auto|]. intros _. apply upl_post; [apply upl_shuffle|]. intros _. repeat uu.
Qed.

(** ** Realizations one after another *)
Section Joint.
Variables (ord : list Z -> list Z) (k : pkind) (L : Z) (Mx : Z).
Hypothesis Hord : env_ok (mkEnv ord (fun _ => 0)).
Hypothesis HL : 0 < L.
Hypothesis Hk : is_L12 k = true.
Hypothesis HF : fair Mx (L * L).
Definition Cyc (s : perc) : Prop := Start12 k L s /\ Permutation (zrange (L * L)) (ids s).
Lemma cyc_len s : Cyc s -> length (ids s) = Z.to_nat (L * L).
Proof. intros (_ & P). rewrite <- (Permutation_length P). pose proof (zlen_zrange (L * L) ltac:(pose proof (LL_pos L HL); lia)) as Q. unfold zlen in Q. lia. Qed.
Lemma cyc_next d s cs d' : Cyc s -> Forall realizing cs -> Cyc (exec (mkEnv ord d') (after (mkEnv ord d) s cs) CReset).
Proof.
  intros (S & P) Hc. set (z := after (mkEnv ord d) s cs). assert (Ho : Forall (call_ok L) cs) by (eapply Forall_impl; [|exact Hc]; apply realizing_ok).
  pose proof (fresh_inv _ _ (s2_fresh _ _ _ S)) as I0. assert (I : Inv L z) by (apply after_inv; auto).
  assert (Kz : kind z = k) by (unfold z; rewrite (after_kind (mkEnv ord d) L) by auto; apply (s2_kind _ _ _ S)).
  cbn [exec]. destruct (reset_inv (mkEnv ord d') L z I) as (y & Er & R). rewrite Er. cbn [fst].
  assert (Ky : kind y = k) by (rewrite (rt_kind _ _ _ R); exact Kz). destruct (reset_xy _ _ _ Er) as (X & Y); [now rewrite Ky|].
  pose proof (rt_ids _ _ _ R) as J. rewrite Kz, Hk in J. destruct J as (J & _). split; [|now rewrite J].
  constructor; auto; [apply (rt_fresh _ _ _ R)|apply (rt_arrs _ _ _ R)|intros ->; apply Y; exact Ky| |rewrite J; now apply zr_ne].
  intros ->. rewrite (rt_record _ _ _ R), Kz. reflexivity.
Qed.
Lemma reset_le E s cs : Cyc s -> Forall realizing cs -> forall E', (tick (exec E' (after E s cs) CReset) <= tick (after E s cs) + (Z.to_nat (L * L) - 1))%nat.
Proof. intros C Hc E'. cbn [exec]. pose proof (upl_reset E' (after E s cs)) as U. rewrite (kl_after E cs s Hc), (cyc_len s C) in U. lia. Qed.
Lemma same_words (F : env -> perc -> perc) B s d d' : local (fun E s => (F E s, Ok tt)) -> (tick (F (mkEnv ord d) s) <= tick s + B)%nat ->
  (forall i, (i < B)%nat -> d' (tick s + i)%nat = d (tick s + i)%nat) -> F (mkEnv ord d') s = F (mkEnv ord d) s.
Proof.
  intros LF H G. destruct (LF (mkEnv ord d) s) as (T & Q). cbn [fst snd] in *. specialize (Q d' (tick s)). rewrite set_tick_id in Q. cbn [e_ord e_draw] in Q.
  assert (X : (F (mkEnv ord d') s, @Ok unit tt) = (set_tick (tick s + (tick (F (mkEnv ord d) s) - tick s)) (F (mkEnv ord d) s), Ok tt)) by (apply Q; intros i Hi; apply G; lia).
  apply (f_equal fst) in X. cbn [fst] in X. rewrite X. replace (tick s + (tick (F (mkEnv ord d) s) - tick s))%nat with (tick (F (mkEnv ord d) s)) by lia. apply set_tick_id.
Qed.
Definition good (q : list call * (perc -> Prop)) : Prop := Forall realizing (fst q) /\ starts (fst q) /\ about_growth (snd q).
Lemma all_agree p : Forall good p -> forall s d d', Cyc s -> (forall i, (i < words_needed L p)%nat -> d' (tick s + i)%nat = d (tick s + i)%nat) ->
  all_hold (mkEnv ord d) s p -> all_hold (mkEnv ord d') s p.
Proof.
  induction p as [|[cs R] p IH]; intros Hg s d d' C H A; [exact I|]. inversion Hg as [|q p' (Hc & _) Hg']; subst. cbn [fst snd] in *. destruct A as (A1 & A2). cbn [words_needed fold_right fst] in H. fold (words_needed L p) in H.
  pose proof (up_after (mkEnv ord d) cs s Hc) as U.
  assert (E1 : after (mkEnv ord d') s cs = after (mkEnv ord d) s cs) by (apply (same_words (fun E s => after E s cs) (2 * all_tries cs)); [apply loc_calls|exact U|intros i Hi; apply H; lia]).
  destruct (loc_calls cs (mkEnv ord d) s) as (T1 & _). unfold calls_m in T1. cbn [fst] in T1. cbn [all_hold]. rewrite E1. split; auto. pose proof (cyc_next d s cs d C Hc) as Cn. pose proof (reset_le (mkEnv ord d) s cs C Hc (mkEnv ord d)) as U2.
  set (z := after (mkEnv ord d) s cs) in *. destruct (loc_call CReset (mkEnv ord d) z) as (T2 & _). unfold call_m in T2. cbn [fst] in T2.
  assert (E2 : exec (mkEnv ord d') z CReset = exec (mkEnv ord d) z CReset).
  { apply (same_words (fun E s => exec E s CReset) (Z.to_nat (L * L) - 1)); [apply (loc_call CReset)|exact U2|]. intros i Hi. replace (tick z + i)%nat with (tick s + (tick z - tick s + i))%nat by lia. apply H. lia. }
  rewrite E2. set (y := exec (mkEnv ord d) z CReset) in *. apply (IH Hg' y d d'); auto. intros i Hi. replace (tick y + i)%nat with (tick s + (tick y - tick s + i))%nat by lia. apply H. lia.
Qed.
Lemma nth_cut V (l : list Z) i : (i < V)%nat -> nth i (firstn V l) 0 = nth i l 0.
Proof. revert V i. induction l as [|x l IH]; intros [|V] [|i] H; try lia; try reflexivity. cbn. apply IH. lia. Qed.
Lemma move_counts p ms s y : Forall good p -> Cyc s -> Cyc y -> Forall2 (fun q m => how_many (drawing ord Mx (2 * all_tries (fst q)) s (fst q) (snd q)) m) p ms ->
  Forall2 (fun q m => how_many (drawing ord Mx (2 * all_tries (fst q)) y (fst q) (snd q)) m) p ms.
Proof.
  intros Hg C Cy H. induction H as [|[cs R] m p ms Hq _ IH]; [constructor|]. inversion Hg as [|q p' (Hc & Hs & HR) Hg']; subst. cbn [fst snd] in *. constructor; [|apply IH; auto].
  cbn [fst snd]. destruct C as (C1 & C2), Cy as (C3 & C4). apply (law_starts ord k L Mx HL Hk HF _ s y); auto.
  - apply (Permutation_NoDup C2). apply NoDup_zrange.
  - eapply Permutation_trans; [apply Permutation_sym; exact C2|exact C4].
Qed.
Lemma joint_runs p : Forall good p -> forall s ms, Cyc s -> Forall2 (fun q m => how_many (drawing ord Mx (2 * all_tries (fst q)) s (fst q) (snd q)) m) p ms ->
  how_many (fun w => vec Mx (words_needed L p) w /\ all_hold (fed ord (tick s) w) s p) (fold_right Z.mul 1 ms * Mx ^ (Z.of_nat (length p) * (L * L - 1))).
Proof.
  assert (HM : 0 < Mx) by apply HF. assert (HN : 0 < L * L) by (pose proof (LL_pos L HL); lia).
  induction p as [|[cs R] p IH]; intros Hg s ms C Hm.
  - inversion Hm; subst. apply (how_iff (vec Mx 0)); [intros w; cbn [words_needed fold_right all_hold]; tauto|]. exact (how_vec Mx 0 HM).
  - inversion Hg as [|q p' (Hc & Hs & HR) Hg']; subst. inversion Hm as [|q m p' ms' Hm1 Hm2]; subst. cbn [fst snd] in *.
    set (B1 := (2 * all_tries cs)%nat) in *. set (B2 := (Z.to_nat (L * L) - 1)%nat). set (W := words_needed L p). set (c := fold_right Z.mul 1 ms' * Mx ^ (Z.of_nat (length p) * (L * L - 1))) in *.
    set (F1 := fun (E : env) (s : perc) => after E s cs). set (F2 := fun (E : env) (s : perc) => exec E s CReset).
    assert (Lf2 : local (fun E s => (F2 E s, Ok tt))) by apply (loc_call CReset). assert (Lf1 : local (fun E s => (F1 E s, Ok tt))) by apply (loc_calls cs).
    assert (U1 : forall E, (tick (F1 E s) <= tick s + B1)%nat) by (intros E; apply up_after; auto).
    set (Qi := fun (y : perc) (v : list Z) => all_hold (fed ord (tick y) v) y p).
    set (Qo := fun (z : perc) (v : list Z) => Qi (rn ord F2 z v) (firstn W (skipn (used ord F2 z v) v))).
    assert (X : how_many (fun w => vec Mx (B1 + (B2 + W)) w /\ R (rn ord F1 s w) /\ Qo (rn ord F1 s w) (firstn (B2 + W) (skipn (used ord F1 s w) w))) (m * (Mx ^ Z.of_nat B2 * c))).
    { apply (markov Mx ord F1 s B1 (B2 + W) Lf1 U1 R Qo).
      - apply (how_iff (drawing ord Mx B1 s cs R)); [|exact Hm1]. intros u. split.
        + intros H. pose proof (proj1 H) as Hw. split; [exact Hw|]. exact (proj1 (drawing_iff Mx ord B1 s cs R u Hc (le_n _) Hw) H).
        + intros (Hw & H). exact (proj2 (drawing_iff Mx ord B1 s cs R u Hc (le_n _) Hw) H).
      - intros u Hu Ru. set (z := rn ord F1 s u). pose proof (markov Mx ord F2 z B2 W Lf2 (fun E => reset_le (fed ord (tick s) u) s cs C Hc E) (fun _ => True) Qi (Mx ^ Z.of_nat B2) c) as Y.
        apply (how_iff (fun v => vec Mx (B2 + W) v /\ True /\ Qi (rn ord F2 z v) (firstn W (skipn (used ord F2 z v) v)))); [intros v; unfold Qo; tauto|]. apply Y.
        + apply (how_iff (vec Mx B2)); [intros v; tauto|]. now apply how_vec.
        + intros v Hv _. set (y := rn ord F2 z v). assert (Cy : Cyc y) by (apply (cyc_next _ s cs _ C Hc)). apply (IH Hg' y ms' Cy).
          exact (move_counts p ms' s y Hg' C Cy Hm2). }
    replace (fold_right Z.mul 1 (m :: ms') * Mx ^ (Z.of_nat (length ((cs, R) :: p)) * (L * L - 1))) with (m * (Mx ^ Z.of_nat B2 * c)).
    2:{ unfold c, B2. cbn [fold_right length]. rewrite Nat2Z.inj_succ. replace (Z.of_nat (Z.to_nat (L * L) - 1)) with (L * L - 1) by lia. replace (Z.succ (Z.of_nat (length p)) * (L * L - 1)) with ((L * L - 1) + Z.of_nat (length p) * (L * L - 1)) by lia.
        rewrite Z.pow_add_r by (try lia; apply Z.mul_nonneg_nonneg; lia). ring. }
    refine (how_iff _ _ _ _ X). intros w. cbn [words_needed fold_right fst]. fold (words_needed L p). fold W B1 B2. rewrite <- (Nat.add_assoc B1 B2 W).
    cbn [all_hold]. fold (rn ord F1 s w). apply and_iff_compat_l. apply and_iff_compat_l.
    set (z := rn ord F1 s w). set (v := firstn (B2 + W) (skipn (used ord F1 s w) w)).
    destruct (Lf1 (fed ord (tick s) w) s) as (T1 & _). cbn [fst] in T1. change (F1 (fed ord (tick s) w) s) with z in T1.
    assert (G : forall i, (i < B2 + W)%nat -> e_draw (fed ord (tick s) w) (tick z + i)%nat = e_draw (fed ord (tick z) v) (tick z + i)%nat).
    { intros i Hi. cbn [fed e_draw]. unfold v. replace (tick z + i - tick z)%nat with i by lia. rewrite nth_cut by exact Hi. rewrite nth_skip. f_equal. unfold used. fold z. lia. }
    pose proof (reset_le (fed ord (tick s) w) s cs C Hc (fed ord (tick z) v)) as U2. change (after (fed ord (tick s) w) s cs) with z in U2.
    assert (E2 : exec (fed ord (tick s) w) z CReset = rn ord F2 z v).
    { apply (same_words F2 B2); [exact Lf2|exact U2|]. intros i Hi. apply G. lia. }
    change (after (fed ord (tick s) w) s cs) with z. rewrite E2. assert (Cy : Cyc (rn ord F2 z v)) by (apply (cyc_next _ s cs _ C Hc)). unfold Qo, Qi.
    destruct (Lf2 (fed ord (tick z) v) z) as (T2 & _). cbn [fst] in T2. change (F2 (fed ord (tick z) v) z) with (rn ord F2 z v) in T2. change (exec (fed ord (tick z) v) z CReset) with (rn ord F2 z v) in U2. fold B2 in U2.
    set (y := rn ord F2 z v) in *. set (v2 := firstn W (skipn (used ord F2 z v) v)).
    assert (G2 : forall i, (i < W)%nat -> e_draw (fed ord (tick y) v2) (tick y + i)%nat = e_draw (fed ord (tick s) w) (tick y + i)%nat).
    { intros i Hi. replace (tick y + i)%nat with (tick z + (tick y - tick z + i))%nat by lia. rewrite G by lia. cbn [fed e_draw]. unfold v2. replace (tick z + (tick y - tick z + i) - tick y)%nat with i by lia. rewrite nth_cut by exact Hi. rewrite nth_skip. f_equal. unfold used. fold y. lia. }
    split; intros A; [apply (all_agree p Hg' y _ _ Cy) with (2 := A); intros i Hi; symmetry; now apply G2|apply (all_agree p Hg' y _ _ Cy) with (2 := A); intros i Hi; now apply G2].
Qed.
Lemma joint_iff p s w : Forall good p -> Cyc s -> (vec Mx (words_needed L p) w /\ all_hold (fed ord (tick s) w) s p <-> jointly_drawing ord Mx (words_needed L p) s p w).
Proof.
  intros Hg C. split.
  - intros (V & A). split; [exact V|]. intros d Hd. apply (all_agree p Hg s (e_draw (fed ord (tick s) w)) d C); [|exact A]. intros i Hi. rewrite Hd by exact Hi. cbn [fed e_draw]. f_equal. lia.
  - intros (V & A). split; [exact V|]. apply A. intros i Hi. f_equal. lia.
Qed.
End Joint.
Lemma p_C112_joint ord Mx k L s p ms : env_ok (mkEnv ord (fun _ => 0)) -> 0 < L -> k = KL1 \/ k = KL2 -> fair Mx (L * L) ->
  at_start ord k L s -> Permutation (zrange (L * L)) (ids s) ->
  Forall (fun q => Forall realizing (fst q) /\ starts (fst q) /\ about_growth (snd q)) p ->
  Forall2 (fun q m => how_many (drawing ord Mx (2 * all_tries (fst q)) s (fst q) (snd q)) m) p ms ->
  how_many (jointly_drawing ord Mx (words_needed L p) s p) (fold_right Z.mul 1 ms * Mx ^ (Z.of_nat (length p) * (L * L - 1))).
Proof.
  intros HO HL Hk HF A P Hg Hm. assert (K : is_L12 k = true) by (destruct Hk as [-> | ->]; reflexivity). assert (C : Cyc k L s) by (split; [now apply (start12 ord)|exact P]).
  refine (how_iff _ _ _ _ (joint_runs ord k L Mx HO HL K HF p Hg s ms C Hm)). intros w. now apply (joint_iff ord k L Mx HO HL K p s w Hg C).
Qed.
(** A realization after a reset has the law of a new object's. *)
Lemma p_C112_next ord Mx k L E z s s' d d' t cs R W m : env_ok (mkEnv ord (fun _ => 0)) -> 0 < L -> k = KL1 \/ k = KL2 -> fair Mx (L * L) ->
  new_perc (mkEnv ord d) k L t = Ok s -> env_ok E -> reachable_k E k L z -> reset (mkEnv ord d') z = (s', Ok tt) ->
  Forall realizing cs -> starts cs -> (2 * all_tries cs <= W)%nat -> about_growth R ->
  (how_many (drawing ord Mx W s cs R) m <-> how_many (drawing ord Mx W s' cs R) m).
Proof.
  intros HO HL Hk HF En HE Rz Er Hc Hs HW HR. assert (K : is_L12 k = true) by (destruct Hk as [-> | ->]; reflexivity).
  destruct (new_perc_ok (mkEnv ord d) k L t HL) as (lat1 & l & t' & rv & E1 & _ & P & _). assert (P' : Permutation (zrange (L * L)) (ids s)) by (rewrite E1 in En; injection En as <-; exact P).
  destruct (RunProps.reachable_k_kind E k L z HE Rz) as (I & Ek). destruct (reset_inv (mkEnv ord d') L z I) as (z' & Ez & Rt). rewrite Er in Ez. injection Ez as <-.
  pose proof (rt_ids _ _ _ Rt) as J. rewrite Ek, K in J. destruct J as (J & _).
  apply (p_C112_law ord Mx k L); auto; [eapply start_new; eauto|eapply start_reset; eauto|apply (Permutation_NoDup P'); apply NoDup_zrange|rewrite J; now apply Permutation_sym].
Qed.

(** ** Counting in examples *)
Fixpoint all_words (Mx : Z) (W : nat) : list (list Z) :=
  match W with O => [[]] | S W => flat_map (fun a => map (cons a) (all_words Mx W)) (zrange Mx) end.
Lemma all_words_in Mx W : forall w, In w (all_words Mx W) <-> vec Mx W w.
Proof.
  induction W as [|W IH]; intros w; cbn [all_words].
  - split; [intros [<-|[]]; split; [reflexivity|constructor]|]. intros (E & _). left. symmetry. now apply length_zero_iff_nil.
  - rewrite in_flat_map. split.
    + intros (a & Ha & Hw). apply in_map_iff in Hw as (w' & <- & Hw). apply vec_cons. split; [now apply In_zrange|now apply IH].
    + intros Hw. destruct w as [|a w]; [destruct Hw; discriminate|]. apply vec_cons in Hw as (Ha & Hw). exists a. split; [now apply In_zrange|]. apply in_map, IH, Hw.
Qed.
Lemma all_words_nodup Mx W : NoDup (all_words Mx W).
Proof.
  induction W as [|W IH]; cbn [all_words]; [repeat constructor; intros []|]. pose proof (NoDup_zrange Mx) as N. induction N as [|a l Na N IHl]; cbn [flat_map]; [constructor|].
  assert (App : forall l1 l2 : list (list Z), NoDup l1 -> NoDup l2 -> (forall x, In x l1 -> ~ In x l2) -> NoDup (l1 ++ l2)).
  { intros l1 l2 N1 N2 D. induction N1 as [|x l1 Nx N1 IH1]; [exact N2|]. cbn [app]. constructor; [|apply IH1; intros y Hy; apply D; now right].
    rewrite in_app_iff. intros [H|H]; [auto|apply (D x); [now left|exact H]]. }
  apply App; auto.
  - apply FinFun.Injective_map_NoDup; auto. intros x y E. now injection E.
  - intros x Hx Hf. apply in_map_iff in Hx as (w & <- & _). apply in_flat_map in Hf as (b & Hb & Hw). apply in_map_iff in Hw as (w' & E & _). injection E as -> _. auto.
Qed.
Lemma count_drawing ord Mx W s cs (R : perc -> Prop) (b : perc -> bool) : (forall z, b z = true <-> R z) -> Forall realizing cs -> (2 * all_tries cs <= W)%nat ->
  how_many (drawing ord Mx W s cs R) (zlen (filter (fun w => b (after (fed ord (tick s) w) s cs)) (all_words Mx W))).
Proof.
  intros Hb Hc HW. exists (filter (fun w => b (after (fed ord (tick s) w) s cs)) (all_words Mx W)). split; [apply NoDup_filter, all_words_nodup|]. split; [|reflexivity].
  intros w. rewrite filter_In, all_words_in, Hb. split.
  - intros (V & H). exact (proj2 (drawing_iff Mx ord W s cs R w Hc HW V) H).
  - intros H. pose proof (proj1 H) as V. split; [exact V|]. exact (proj1 (drawing_iff Mx ord W s cs R w Hc HW V) H).
Qed.
Lemma about_sel x : about_growth (fun s => sel_id s = x).
Proof. intros s s' (_ & _ & _ & _ & Q & _) H. congruence. Qed.
Lemma about_count (n : Z) : about_growth (fun s => cluster_count s = n).
Proof. intros s s' (_ & _ & _ & _ & _ & _ & _ & _ & _ & _ & Q & _) H. congruence. Qed.
Lemma fair_12_4 : fair 12 4.
Proof. split; [lia|]. split; [now exists 3|]. intros m Hm. assert (m = 1 \/ m = 2 \/ m = 3 \/ m = 4) as [-> | [-> | [-> | ->]]] by lia; [now exists 12|now exists 6|now exists 4|now exists 3]. Qed.
