(** * Stop: runs that stop early, [test_run_once] (C52) and the shortest-path run (C50). *)
From Coq Require Import ZArith List Bool Lia Permutation.
From Verif Require Import Py Lattice Cluster Perc Spec PyFacts Torus Geometry LatFacts Inv Merge Count Fresh Select State Step History Reach GeomProps Micro StateProps Seq Comm RunBase RunProps Cand CandRun CandProps Lines Normal Wrap.
Import ListNotations.
Open Scope Z_scope.

Lemma place_wrap E L s : env_ok E -> Inv L s -> after_wrap (fst (place_one_site E s)) = after_wrap s.
Proof.
  intros HE H. destruct (place_spec E L s HE H) as (Sd & P). destruct (sel E L s) as [s1 r]. cbn [fst snd] in *.
  assert (Q : after_wrap s1 = after_wrap s) by exact (f_equal after_wrap (sd_core _ _ _ _ Sd)).
  destruct r as [[]|e]; [|rewrite P; exact Q..].
  destruct P as (x & s' & root & _ & _ & -> & Pd). cbn [fst]. rewrite <- Q. exact (f_equal after_wrap (pd_core _ _ _ _ _ _ Pd)).
Qed.
Lemma run_state_S E n s : run_state E (S n) s = run_state E n (run_step E s).
Proof. reflexivity. Qed.
Lemma plain_step E L s : env_ok E -> Plain L s -> rem L s <> 0 -> Plain L (run_step E s) /\ rem L (run_step E s) = rem L s - 1.
Proof.
  intros HE P Hr. destruct (plain_place E L s HE P) as (P1 & K1 & _ & R). destruct (Z.eqb_spec (rem L s) 0); [lia|].
  unfold run_step. destruct (flag_is_success _); [|split; auto; apply R]. destruct (plain_detect L _ P1) as (P2 & M2). split; auto.
  rewrite M2. apply R.
Qed.
Lemma plain_stuck E L s : env_ok E -> Plain L s -> rem L s = 0 ->
  run_step E s = set_sel_flag (Some EMPTY_SITE_LIST) s.
Proof.
  intros HE P Hr. destruct (plain_place E L s HE P) as (_ & _ & _ & R). rewrite Hr in R. cbn in R. unfold run_step. rewrite R. reflexivity.
Qed.
Lemma plain_flag L s f : Plain L s -> Plain L (set_sel_flag f s) /\ rem L (set_sel_flag f s) = rem L s.
Proof.
  intros (H & G & J). split; [|reflexivity]. split; [eapply inv_frame; [|exact H]; reflexivity|]. split; [|exact J].
  cbn [kind set_sel_flag]. destruct (is_L12 (kind s)).
  - eapply (cand_frame L s); [..|exact G]; auto.
  - destruct G as (B & [S1 S2 S3 S4 S5 S6]). split; [|constructor; auto]. eapply runB_frame; [..|exact B]; auto.
Qed.
Lemma plain_stuck_n E L n : env_ok E -> forall s, Plain L s -> rem L s = 0 -> after_wrap (run_state E n s) = after_wrap s.
Proof.
  intros HE. induction n as [|n IH]; intros s P Hr; [reflexivity|]. rewrite run_state_S, (plain_stuck E L s HE P Hr).
  destruct (plain_flag L s (Some EMPTY_SITE_LIST) P) as (P1 & R1). rewrite IH by (auto; lia). reflexivity.
Qed.
Lemma first_shift E s : after_wrap s = false -> forall Q : perc -> Prop,
  (exists n, first_wrapping E s n /\ Q (run_state E n s)) <-> (exists n, first_wrapping E (run_step E s) n /\ Q (run_state E n (run_step E s))).
Proof.
  intros H0 Q. split.
  - intros ([|n] & (F1 & F2) & HQ); [cbn in F2; congruence|]. exists n. split; auto. split; auto. intros j Hj. apply (F1 (S j)). lia.
  - intros (n & (F1 & F2) & HQ). exists (S n). split; auto. split; auto. intros [|j] Hj; [exact H0|]. apply F1. lia.
Qed.
Lemma first_here E s : after_wrap s = false -> after_wrap (run_step E s) = true -> forall Q : perc -> Prop,
  (exists n, first_wrapping E s n /\ Q (run_state E n s)) <-> Q (run_step E s).
Proof.
  intros H0 H1 Q. rewrite (first_shift E s H0). split.
  - intros ([|n] & (F1 & F2) & HQ); [exact HQ|]. specialize (F1 O ltac:(lia)). cbn in F1. congruence.
  - intros HQ. exists O. split; auto. split; [lia|exact H1].
Qed.
Lemma first_put E p h pw pl b s (Q : perc -> Prop) : (forall t, Q (put_arrs p h pw pl b t) <-> Q t) ->
  (exists n, first_wrapping E (put_arrs p h pw pl b s) n /\ Q (run_state E n (put_arrs p h pw pl b s))) <->
  (exists n, first_wrapping E s n /\ Q (run_state E n s)).
Proof.
  intros HQ. split; intros (n & (F1 & F2) & Hq); exists n.
  - rewrite run_state_put in F2, Hq. split; [split|]; [|exact F2|exact (proj1 (HQ _) Hq)]. intros j Hj. specialize (F1 j Hj). rewrite run_state_put in F1. exact F1.
  - split; [split|]; [|rewrite run_state_put; exact F2|rewrite run_state_put; exact (proj2 (HQ _) Hq)]. intros j Hj. rewrite run_state_put. exact (F1 j Hj).
Qed.

(** ** test_run_once *)
Definition tight (L : Z) (t : perc) : Prop := forall i, is_site L i -> occupied t i -> site_label t i = wid t.
Lemma tight_wrapped L s x : Inv L s -> is_site L x -> occ (lat s) x ->
  tight L (wrapped s x) <-> occ_count s <= ssize (pool s) (sg (lat s) x).
Proof.
  intros H Hx Ho. pose proof (i_static _ _ H) as St. pose proof (i_cl _ _ H) as C.
  assert (Hl : is_label L (sg (lat s) x)) by (eapply sg_occ_label; eauto).
  rewrite (ssize_count L (lat s)) by auto. rewrite (i_occ _ _ H). unfold nocc.
  assert (T : tight L (wrapped s x) <-> forall i, is_site L i -> occ (lat s) i -> sg (lat s) i = sg (lat s) x).
  { unfold tight. split; intros Q i Hi Oi.
    - specialize (Q i Hi). rewrite <- (site_label_sg L s) by auto. apply Q. now apply (occupied_occ L (wrapped s x)).
    - rewrite (site_label_sg L (wrapped s x)) by auto. apply Q; auto. now apply (occupied_occ L (wrapped s x)) in Oi. }
  rewrite T. split.
  - intros Q. apply count_le. intros y Hy Oy. apply In_zrange in Hy. apply occb_true in Oy. apply Z.eqb_eq. now apply Q.
  - intros Q i Hi Oi. destruct (Z.eq_dec (sg (lat s) i) (sg (lat s) x)) as [|Hne]; auto. exfalso.
    pose proof (count_add1 (fun b => sg (lat s) b =? sg (lat s) x) (fun b => (b =? i) || (sg (lat s) b =? sg (lat s) x)) (zrange (L * L)) i) as A.
    assert (count (fun b => (b =? i) || (sg (lat s) b =? sg (lat s) x)) (zrange (L * L)) <= count (occb (lat s)) (zrange (L * L))).
    { apply count_le. intros y Hy. apply In_zrange in Hy. rewrite orb_true_iff, !Z.eqb_eq, occb_true. intros [->|Ey]; auto. unfold occ in *. lia. }
    rewrite A in H0; [lia| |now apply In_zrange| |].
    + apply NoDup_zrange.
    + now apply Z.eqb_neq.
    + reflexivity.
Qed.
Lemma detect_cases L s x : Inv L s -> sel_id s = Some x -> after_wrap s = false ->
  detect_wrapping s = (if hitb L (lat s) x then wrapped s x else s, Ok (hitb L (lat s) x)).
Proof. intros H Ex Ew. rewrite (detect_ok L) by apply H. unfold detect_res. rewrite Ew, Ex. destruct (hitb L (lat s) x); reflexivity. Qed.
Lemma tight_put L p h pw pl b t : tight L (put_arrs p h pw pl b t) <-> tight L t.
Proof. reflexivity. Qed.
Definition verdict E L s (r : res unit) : Prop :=
  (r = Ok tt /\ ~ exists n, first_wrapping E s n /\ tight L (run_state E n s)) \/
  (r = Err AssertionError /\ exists n, first_wrapping E s n /\ tight L (run_state E n s)).
Lemma test_loop_plain E L : env_ok E -> forall f s, Plain L s -> after_wrap s = false -> rem L s < Z.of_nat f ->
  verdict E L s (snd (test_run_loop E f s)).
Proof.
  intros HE. induction f as [|f IH]; intros s P Hw Hf; pose proof (rem_nonneg L s P) as Hr; [lia|].
  cbn [test_run_loop]. unfold mbind at 1. destruct (plain_place E L s HE P) as (P1 & K1 & _ & R).
  destruct (plain_success E L s HE P) as (x & Hx & Ex & _). pose proof (place_wrap E L s HE (proj1 P)) as Ew.
  destruct (Z.eqb_spec (rem L s) 0) as [Hz|Hz].
  { left. rewrite R. split; [reflexivity|]. intros (n & (_ & F2) & _). rewrite (plain_stuck_n E L n HE s P Hz) in F2. congruence. }
  destruct R as (R1 & R2).
  assert (Et : run_step E s = if flag_is_success (fst (place_one_site E s)) then fst (detect_wrapping (fst (place_one_site E s))) else fst (place_one_site E s)) by reflexivity.
  destruct (place_one_site E s) as [s1 r]. cbn [fst snd] in *. subst r. unfold mbind at 1, get.
  destruct (flag_is_success s1).
  - unfold mbind at 1. rewrite (detect_cases L s1 x (proj1 P1) Ex ltac:(congruence)) in *. cbn [fst] in Et. destruct (hitb L (lat s1) x) eqn:Eh.
    + pose proof (first_here E s Hw ltac:(rewrite Et; reflexivity) (tight L)) as FH. rewrite Et in FH.
      rewrite (tight_wrapped L s1 x (proj1 P1) Hx (hitb_occ L _ _ x (i_cl _ _ (proj1 P1)) Hx Eh)) in FH.
      unfold mbind at 1. cbn [pc_sites wrapped set_wrap need ret]. unfold mbind at 1, lift, passert. cbn [pc_occ wrapped set_wrap].
      unfold ret. cbv iota beta.
      destruct (Z.ltb_spec (ssize (pool s1) (sg (lat s1) x)) (occ_count s1)); [left|right]; (split; [reflexivity|]); rewrite FH; lia.
    + unfold mbind at 1. rewrite (record_ok L) by apply P1. unfold verdict. rewrite !first_shift by auto. rewrite Et. unfold recorded.
      destruct (plain_arrs L s1 (if first_run s1 then p_arr s1 ++ [val (occupation_prob s1)] else p_arr s1) (h_arr s1 ++ [ent s1])
        (pw_arr s1 ++ [val (order_param_wrapping s1)]) (pl_arr s1 ++ [val (order_param_largest_clstr s1)]) P1) as (P2 & M2).
      specialize (IH _ P2 ltac:(cbn; congruence) ltac:(rewrite M2; lia)). unfold verdict in IH. rewrite !put_eq in IH. rewrite !put_eq.
      unfold put in *. rewrite !(first_put E _ _ _ _ _ s1 (tight L) (tight_put L _ _ _ _ _)) in IH. exact IH.
  - unfold verdict. rewrite first_shift by auto. rewrite Et. apply IH; auto; [congruence|lia].
Qed.
Lemma p_C52 E k L t0 s0 cs f : env_ok E -> new_perc E k L t0 = Ok s0 -> Forall plain cs -> 5 * (L * L) < Z.of_nat f ->
  let s := after E s0 cs in after_wrap s = false ->
  (snd (test_run_once E f s) = Ok tt \/ snd (test_run_once E f s) = Err AssertionError) /\
  (snd (test_run_once E f s) = Err AssertionError <->
   exists n, first_wrapping E s n /\
     forall i, is_site L i -> occupied (run_state E n s) i -> site_label (run_state E n s) i = wid (run_state E n s)).
Proof.
  intros HE E0 Hcs Hf s Hw. destruct (new_plain E k L t0 s0 E0) as (P0 & _). destruct (plain_after E L cs HE Hcs s0 P0) as (P & _). fold s in P.
  pose proof (rem_nonneg L s P). destruct (test_loop_plain E L HE f s P Hw ltac:(lia)) as [(Q1 & Q2)|(Q1 & Q2)];
    unfold test_run_once, mbind; destruct (test_run_loop E f s) as [s1 r]; cbn [snd] in Q1; subst r; cbn [snd modify].
  - split; auto. split; [discriminate|]. intros Q. contradiction.
  - split; auto. split; auto.
Qed.

(** ** The shortest-path run *)
Lemma advance_wrap_res E L s s1 x : Inv L s1 -> sel_id s1 = Some x -> place_one_site E s = (s1, Ok true) ->
  detect_wrapping s1 = (advance E s, Ok (after_wrap (advance E s))).
Proof.
  intros H Ex Ep. unfold advance. rewrite Ep. cbn [fst]. rewrite (detect_ok L) by apply H. unfold detect_res. rewrite Ex.
  destruct (after_wrap s1) eqn:Ew; [cbn [fst]; now rewrite Ew|]. destruct (hitb L (lat s1) x); cbn [fst]; [reflexivity|now rewrite Ew].
Qed.
Definition lines_b (L : Z) (s : perc) (x : Z) : bool :=
  lineb L s (fun c => row L x * L + c) || lineb L s (fun r => r * L + col L x).
Lemma lines_b_true L s x : Inv L s -> sel_id s = Some x -> after_wrap s = true -> is_site L x ->
  lines_b L s x = true <-> on_full_line L s.
Proof.
  intros H Ex Ew Hx. pose proof (i_static _ _ H) as St. pose proof (i_pos _ _ H) as HL.
  pose proof (row_bound L HL x Hx) as Hr. pose proof (col_bound L HL x) as Hc.
  assert (Q : forall r c, 0 <= r < L -> 0 <= c < L -> site_label s (r * L + c) = sg (lat s) (r * L + c)).
  { intros r c Hr' Hc'. apply (site_label_sg L); auto. now apply rc_site. }
  unfold lines_b, on_full_line, full_row, full_col. rewrite orb_true_iff, !lineb_true. fold (row L x) (col L x) in *. split.
  - intros [A|A]; split; auto; exists x; (split; [auto|]); [left|right]; intros y Hy; fold (row L x) (col L x); rewrite Q by auto; auto.
  - intros (_ & y & Ey & A). rewrite Ex in Ey. injection Ey as <-. fold (row L x) (col L x) in A.
    destruct A as [A|A]; [left|right]; intros y Hy; rewrite <- Q by auto; auto.
Qed.
Definition sp_verdict E L n s (r : perc * res unit) : Prop :=
  (exists m, (1 <= m <= n)%nat /\ on_full_line L (trace E m s) /\ (forall j, (1 <= j < m)%nat -> ~ on_full_line L (trace E j s)) /\
     r = (set_sp (FDiv (FZ (occ_count (trace E m s))) (FZ (L * L))) (trace E m s), Ok tt)) \/
  ((forall j, (1 <= j <= n)%nat -> ~ on_full_line L (trace E j s)) /\ r = (set_sel_flag (Some EMPTY_SITE_LIST) (trace E n s), Ok tt)).
Lemma sp_loop_B E L : env_ok E -> forall n s f, Inv L s -> RunB L s -> zlen (ids s) - cur_idx s = Z.of_nat n -> (n < f)%nat ->
  sp_verdict E L n s (sp_loop E f s).
Proof.
  intros HE. induction n as [|n IH]; intros s f H B Hn Hf; (destruct f as [|f]; [lia|]); cbn [sp_loop]; unfold mbind at 1.
  - right. rewrite (runB_end E L s HE H B) by lia. split; [lia|reflexivity].
  - destruct (runB_place E L s HE H B) as (s1 & Ep & Ef & H1 & B1 & Ec & Es & Q1 & Q2 & Q3); [lia|].
    destruct (runB_advance E L s HE H B) as (H2 & B2 & E2 & Eq2 & _ & Es2); [lia|].
    assert (Ei : ids (advance E s) = ids s) by apply (seqv_eqs _ _ Eq2).
    pose proof (advance_wrap_res E L s s1 _ H1 Es Ep) as Ed. rewrite Ep. unfold mbind at 1, get. rewrite Ef. unfold mbind at 1. rewrite Ed.
    set (t := advance E s) in *. set (x := at_ 0 (ids s) (cur_idx s)) in *.
    assert (Hx : is_site L x) by (destruct (i_sel _ _ H2) as [(Q & _)|(y & Hy & Q & _)]; congruence).
    assert (Ecx : cur_site t = Some x) by (destruct (i_sel _ _ H2) as [(Q & _)|(y & Hy & Q & Q')]; congruence).
    pose proof (i_static _ _ H2) as St. pose proof (i_pos _ _ H2) as HL.
    assert (K : ~ on_full_line L t -> sp_verdict E L (S n) s (sp_loop E f t)).
    { intros Hno. destruct (IH t f H2 B2) as [(m & Hm & A1 & A2 & A3)|(A1 & A2)]; [rewrite Ei; lia|lia|left|right].
      - exists (S m). split; [lia|]. split; auto. split; [|exact A3]. intros [|[|j]] Hj; [lia|exact Hno|]. apply (A2 (S j)). lia.
      - split; [|exact A2]. intros [|[|j]] Hj; [lia|exact Hno|]. apply (A1 (S j)). lia. }
    destruct (after_wrap t) eqn:Ew; [|apply K; intros (Q & _); congruence].
    pose proof (lines_b_true L t x H2 Es2 Ew Hx) as LB.
    assert (Z1 : (do cur <~ need (cur_site t); do cs <~ lift (get_site_by_id (lat t) cur);
         do '(cf, rf) <~ lift (scan_row_col_of_selected_site t (s_index cs)); if cf || rf then do p <~ lift (occupation_prob t); modify (set_sp p) else sp_loop E f) t =
       if lines_b L t x then (set_sp (FDiv (FZ (occ_count t)) (FZ (L * L))) t, Ok tt) else sp_loop E f t).
    { rewrite Ecx. unfold mbind, need, ret, lift, modify. rewrite (get_site_by_id_ok L) by auto. rewrite (proj1 (proj2 (st_site _ _ St x Hx))).
      rewrite (scan_row_col_ok L _ (row L x) (col L x) St (row_bound L HL x Hx) (col_bound L HL x)). rewrite (occ_prob_count L) by auto.
      unfold lines_b. destruct (_ || _); reflexivity. }
    unfold mbind at 1. cbv iota beta. rewrite Z1. destruct (lines_b L t x).
    + left. exists 1%nat. split; [lia|]. split; [now apply LB|]. split; [lia|]. reflexivity.
    + apply K. intros Q. apply LB in Q. discriminate.
Qed.

Lemma trace_flat E L n : env_ok E -> 3 <= L -> forall s, FlatI L s -> FlatI L (trace E n s).
Proof.
  intros HE H3. induction n as [|n IH]; intros s F; [exact F|]. cbn [trace]. apply IH. unfold advance. apply detect_flat; auto. now apply place_flatP.
Qed.
Lemma trace_sel E L n s : env_ok E -> Inv L s -> RunB L s -> Z.of_nat (S n) <= zlen (ids s) - cur_idx s -> exists x, sel_id (trace E (S n) s) = Some x.
Proof.
  intros HE. revert s. induction n as [|n IH]; intros s H B Hn; destruct (runB_advance E L s HE H B) as (H2 & B2 & E2 & Eq2 & _ & Es2); try lia.
  - cbn [trace]. eauto.
  - assert (Ei : ids (advance E s) = ids s) by apply (seqv_eqs _ _ Eq2). change (trace E (S (S n)) s) with (trace E (S n) (advance E s)).
    apply IH; auto. rewrite Ei. lia.
Qed.
Lemma trace_sp E L n : env_ok E -> forall s, Inv L s -> RunB L s -> Z.of_nat n <= zlen (ids s) - cur_idx s -> sp_p (trace E n s) = sp_p s.
Proof.
  intros HE. induction n as [|n IH]; intros s H B Hn; [reflexivity|].
  destruct (runB_place E L s HE H B) as (s1 & Ep & Ef & H1 & B1 & Ec & Es & Q1 & Q2 & Q3); [lia|].
  destruct (runB_advance E L s HE H B) as (H2 & B2 & E2 & Eq2 & _ & Es2); [lia|].
  assert (Ei : ids (advance E s) = ids s) by apply (seqv_eqs _ _ Eq2). cbn [trace]. rewrite IH by (auto; rewrite Ei; lia).
  rewrite <- Q3. unfold advance. rewrite Ep. cbn [fst]. rewrite (detect_ok L) by apply H1. unfold detect_res. destruct (after_wrap s1); auto.
  destruct (sel_id s1); auto. destruct (hitb _ _ _); auto.
Qed.
Lemma small_no_wrap L s : Inv L s -> L <= 2 -> after_wrap s = false.
Proof. intros H HL. pose proof (i_wrap _ _ H) as W. unfold WrapOK in W. destruct (after_wrap s); auto. lia. Qed.
Lemma fresh_sp E L s : env_ok E -> fresh_plain E KSP L s -> sp_p s = FZ 0.
Proof.
  intros HE [(t0 & E0)|(s0 & HR & ->)].
  - destruct (new_perc_ok E KSP L t0 (new_perc_pos _ _ _ _ _ E0)) as (lat1 & l & t & rv & E1 & _). rewrite E1 in E0. injection E0 as <-. reflexivity.
  - destruct (reachable_k_kind E KSP L s0 HE (no_custom_k _ _ _ _ HR)) as (H & Ek). destruct (reset_inv E L s0 H) as (s' & Er & R). rewrite Er. cbn [fst].
    pose proof (rt_kind _ _ _ R) as Ek'. unfold reset, mbind in Er. destruct (reset_base E s0) as [s1 [u|e]]; [|discriminate]. unfold get in Er.
    destruct (kind s1) eqn:E1; injection Er as <-; cbn in Ek'; try congruence. reflexivity.
Qed.
Lemma p_C50 E L s f : env_ok E -> fresh_plain E KSP L s -> (Z.to_nat (L * L) < f)%nat ->
  exists s', run_once E f s = (s', Ok tt) /\
    (3 <= L -> exists n, (1 <= n <= Z.to_nat (L * L))%nat /\
       sp_p s' = FDiv (FZ (Z.of_nat n)) (FZ (L * L)) /\ occ_count s' = Z.of_nat n /\ wid s' = wid (trace E n s) /\
       (forall i, is_site L i -> site_label s' i = site_label (trace E n s) i) /\
       on_full_line L s' /\ (forall j, (1 <= j < n)%nat -> ~ on_full_line L (trace E j s))) /\
    (L <= 2 -> sp_p s' = FZ 0 /\ forall i, is_site L i -> occupied s' i).
Proof.
  intros HE HF Hf. destruct (fresh_plain_runB E KSP L s HE eq_refl HF) as (H & B & Hz & Hc).
  destruct (fresh_object_state E KSP L s HE (fresh_plain_object _ _ _ _ HF)) as (F & Ek & _). pose proof (LL_pos L (i_pos _ _ H)) as HLL.
  set (N := Z.to_nat (L * L)) in *.
  assert (Hrun : run_once E f s = match sp_loop E f s with (s1, Ok _) => (set_first_run false s1, Ok tt) | (s1, Err e) => (s1, Err e) end).
  { unfold run_once, mbind at 1, get. rewrite Ek. reflexivity. }
  destruct (runB_trace E L N HE s H B ltac:(unfold N; lia)) as (HN & BN & EcN & EqN & _).
  assert (Efull : forall i, is_site L i -> occupied (trace E N s) i).
  { apply full_occ; auto; [|rewrite EcN; unfold N; lia]. assert (ids (trace E N s) = ids s) as -> by apply (seqv_eqs _ _ EqN). auto. }
  destruct (sp_loop_B E L HE N s f H B) as [(m & Hm & A1 & A2 & A3)|(A1 & A2)]; [unfold N; lia|lia|..].
  - exists (set_first_run false (set_sp (FDiv (FZ (occ_count (trace E m s))) (FZ (L * L))) (trace E m s))). split; [now rewrite Hrun, A3|].
    destruct (runB_trace E L m HE s H B ltac:(unfold N in *; lia)) as (Ht & Bt & Ect & _).
    assert (Eo : occ_count (trace E m s) = Z.of_nat m) by (rewrite (rb_cnt _ _ Bt); lia).
    split.
    + intros H3. exists m. split; auto. split; [cbn; now rewrite Eo|]. split; [exact Eo|]. split; [reflexivity|]. split; [reflexivity|]. split; [exact A1|exact A2].
    + intros H2. destruct A1 as (Q & _). rewrite (small_no_wrap L _ Ht H2) in Q. discriminate.
  - exists (set_first_run false (set_sel_flag (Some EMPTY_SITE_LIST) (trace E N s))). split; [now rewrite Hrun, A2|]. split.
    + intros H3. exfalso. apply (A1 N); [unfold N; lia|].
      assert (FN : FlatI L (trace E N s)) by (apply trace_flat; auto; split; auto; intros _; now apply fresh_flat).
      pose proof (full_flat_wraps L _ FN Efull) as Ew. split; auto.
      destruct (full_state L _ HN Efull) as (c & C1 & _ & _ & _ & _ & C2). destruct (C2 Ew ltac:(lia)) as (C3 & _).
      assert (exists x, sel_id (trace E N s) = Some x) as (x & Ex).
      { destruct N as [|n0] eqn:EN; [unfold N in EN; lia|]. apply (trace_sel E L); auto. lia. }
      exists x. split; auto. left. intros c0 Hc0. rewrite C3. apply C1.
      destruct (i_sel _ _ HN) as [(Q & _)|(y & Hy & Q & _)]; [congruence|]. rewrite Ex in Q. injection Q as <-.
      apply rc_site; auto. apply row_bound; auto. apply (i_pos _ _ H).
    + intros H2. split; [|exact Efull]. rewrite <- (fresh_sp E L s HE HF). apply (trace_sp E L N HE s H B). unfold N. lia.
Qed.
