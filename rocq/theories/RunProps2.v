(** * RunProps2: custom lists followed in order, stuck runs, aliasing, detection
    before placement, aligned arrays (C40, C42, C43, C48, C49). *)
From Coq Require Import ZArith List Bool Lia Permutation.
From Verif Require Import Py Lattice Cluster Perc Spec PyFacts Torus Geometry LatFacts Inv Merge Count Fresh Select State Step History Reach GeomProps Micro StateProps StateProps2 Wrap Comm Seq RunBase RunProps.
Import ListNotations.
Open Scope Z_scope.

Definition placing (c : call) : Prop := c = CPlace \/ c = CDetect.

(** ** C40 *)
Lemma runB_step E L s c : env_ok E -> Inv L s -> RunB L s -> placing c ->
  Inv L (exec E s c) /\ RunB L (exec E s c) /\ seqv (exec E s c) = seqv s /\
  cur_idx (exec E s c) = Z.min (cur_idx s + Z.of_nat (placements [c])) (zlen (ids s)).
Proof.
  intros HE H B Hc. pose proof (rb_cur _ _ B) as Hr. destruct Hc as [-> | ->]; cbn [exec placements].
  - destruct (Z.eq_dec (cur_idx s) (zlen (ids s))) as [e|].
    + rewrite (runB_end E L) by auto. cbn [fst]. split; [eapply inv_frame; [|exact H]; reflexivity|].
      split; [eapply runB_frame; [..|exact B]; reflexivity|]. split; auto. cbn. lia.
    + destruct (runB_place E L s HE H B) as (s' & -> & _ & H' & B' & Ec & _ & Q & _); [lia|]. cbn [fst].
      split; auto. split; auto. split; auto. lia.
  - destruct (detect_seqv L s H) as (Q & _). destruct (detect_fields L s H) as (_ & _ & Ec & _).
    split; [now apply detect_inv|]. split; [now apply runB_detect|]. split; auto. lia.
Qed.
Lemma runB_history E L cs : env_ok E -> Forall placing cs -> forall s, Inv L s -> RunB L s ->
  Inv L (after E s cs) /\ RunB L (after E s cs) /\ seqv (after E s cs) = seqv s /\
  cur_idx (after E s cs) = Z.min (cur_idx s + Z.of_nat (placements cs)) (zlen (ids s)).
Proof.
  intros HE Hc. induction Hc as [|c cs Hc Hcs IH]; intros s H B.
  { cbn. pose proof (rb_cur _ _ B). split; auto. split; auto. split; auto. lia. }
  destruct (runB_step E L s c HE H B Hc) as (H1 & B1 & Q1 & C1). cbn [after fold_left].
  destruct (IH _ H1 B1) as (H2 & B2 & Q2 & C2). unfold after in *. split; auto. split; auto. split; [congruence|].
  assert (Ei : ids (exec E s c) = ids s) by apply (seqv_eqs _ _ Q1). rewrite C2, C1, Ei.
  replace (placements (c :: cs)) with (placements [c] + placements cs)%nat by (destruct Hc as [-> | ->]; reflexivity).
  pose proof (zlen_nonneg (ids s)). lia.
Qed.

(** The state of an accepted custom list without shuffling on a fresh object. *)
Lemma installed_fresh L l ul share s : FreshState L s -> Forall (is_site L) l -> FreshState L (installed l ul share false s).
Proof. intros [F1 F2 F3 F4 F5 F6 F7 F8 F9 F10 F11 F12 F13 F14 F15] Hl. constructor; auto. Qed.
Lemma shuffle_none E l ul share s : shuffle E (installed l ul share false s) = (installed l ul share false s, Ok tt).
Proof. reflexivity. Qed.
Lemma follow E L s l ul share : env_ok E -> FreshState L s -> is_L12 (kind s) = false -> NoDup l -> Forall (is_site L) l ->
  let s1 := installed l ul share false s in
  get_site_id_sequence s1 = l /\
  forall cs, Forall placing cs ->
    let t := after E s1 cs in
    (forall i, is_site L i -> (occupied t i <-> In i (firstn (placements cs) l))) /\
    get_site_id_sequence t = l /\
    (forall x, nth_error l (placements cs) = Some x ->
       snd (place_one_site E t) = Ok true /\ sel_id (fst (place_one_site E t)) = Some x /\
       forall i, is_site L i -> (occupied (fst (place_one_site E t)) i <-> i = x \/ occupied t i)) /\
    ((length l <= placements cs)%nat -> snd (place_one_site E t) = Ok false).
Proof.
  intros HE F Hk N Hl s1. assert (F1 : FreshState L s1) by (now apply installed_fresh).
  assert (B1 : RunB L s1) by (now apply fresh_RunB). pose proof (fresh_inv _ _ F1) as H1.
  split; [reflexivity|]. intros cs Hc t. destruct (runB_history E L cs HE Hc s1 H1 B1) as (H & B & Q & C).
  fold t in H, B, Q, C. rewrite (fs_cur _ _ F1) in C. change (ids s1) with l in C.
  assert (Ei : ids t = l) by (now destruct (seqv_eqs _ _ Q) as (_ & -> & _)).
  pose proof (i_static _ _ H) as St.
  assert (Hf : firstn (Z.to_nat (cur_idx t)) l = firstn (placements cs) l).
  { rewrite C. unfold zlen. destruct (Nat.le_gt_cases (length l) (placements cs)).
    - rewrite !firstn_all2 by lia. reflexivity.
    - f_equal. lia. }
  assert (Ho : forall i, is_site L i -> (occupied t i <-> In i (firstn (placements cs) l))).
  { intros i Hi. rewrite (occupied_occ L), (rb_occ _ _ B), Ei, Hf by auto. reflexivity. }
  split; auto. split; auto. split.
  - intros x Hx. assert (Hlt : (placements cs < length l)%nat) by (apply nth_error_Some; congruence).
    destruct (runB_place E L t HE H B) as (t' & Ep & _ & H' & B' & Ec & Es & Q' & _); [rewrite Ei; unfold zlen in *; lia|].
    rewrite Ep. cbn [fst snd]. assert (Ex : at_ 0 (ids t) (cur_idx t) = x).
    { rewrite Ei, C. unfold at_, zlen. replace (0 <=? _) with true by lia. apply nth_error_nth.
      rewrite <- Hx. f_equal. lia. }
    split; auto. split; [congruence|]. intros i Hi.
    assert (Ei' : ids t' = l) by (destruct (seqv_eqs _ _ Q') as (_ & -> & _); auto).
    rewrite !(occupied_occ L), (rb_occ _ _ B'), (rb_occ _ _ B), Ei', Ei, Ec by (auto; now apply i_static).
    rewrite firstn_snoc by (unfold zlen in *; lia). rewrite in_app_iff, <- Ex, Ei. cbn [In]. intuition congruence.
  - intros Hge. rewrite (runB_end E L); auto. rewrite Ei, C. unfold zlen. lia.
Qed.
Lemma all_siteb L l : Forall (is_site L) l -> forallb (siteb L) l = true.
Proof. intros F. apply forallb_forall. intros x Hx. apply siteb_true. rewrite Forall_forall in F. auto. Qed.
Lemma p_C40 E k L s l : env_ok E -> k <> KL1 -> k <> KL2 -> fresh_object E k L s ->
  l <> [] -> NoDup l -> Forall (is_site L) l ->
  let s1 := fst (set_custome_site_id_list E l false s) in
  snd (set_custome_site_id_list E l false s) = Ok tt /\ get_site_id_sequence s1 = l /\
  forall cs, Forall (fun c => c = CPlace \/ c = CDetect) cs ->
    let t := after E s1 cs in
    (forall i, is_site L i -> (occupied t i <-> In i (firstn (placements cs) l))) /\
    get_site_id_sequence t = l /\
    (forall x, nth_error l (placements cs) = Some x ->
       snd (place_one_site E t) = Ok true /\ sel_id (fst (place_one_site E t)) = Some x /\
       forall i, is_site L i -> (occupied (fst (place_one_site E t)) i <-> i = x \/ occupied t i)) /\
    ((length l <= placements cs)%nat -> snd (place_one_site E t) = Ok false).
Proof.
  intros HE Hk1 Hk2 HF Hne N Hl. destruct (fresh_object_state E k L s HE HF) as (F & Ek & _).
  assert (Es : set_custome_site_id_list E l false s = (installed l l true false s, Ok tt)).
  { rewrite (set_ids_ok E L) by apply (fr_static _ _ (fs_lat _ _ F)). rewrite all_siteb by auto.
    destruct l; [congruence|]. apply shuffle_none. }
  rewrite Es. cbn [fst snd]. split; auto. apply follow; auto. rewrite Ek. destruct k; auto; congruence.
Qed.
Lemma rc_inj L r c r' c' : 0 <= c < L -> 0 <= c' < L -> r * L + c = r' * L + c' -> r = r' /\ c = c'.
Proof. intros Hc Hc' E. assert (r = r') by nia. subst. split; lia. Qed.
Lemma p_C40i E k L s ixs : env_ok E -> k <> KL1 -> k <> KL2 -> fresh_object E k L s ->
  ixs <> [] -> NoDup ixs -> Forall (fun ix => 0 <= fst ix < L /\ 0 <= snd ix < L) ixs ->
  let l := map (fun ix => fst ix * L + snd ix) ixs in
  let r := set_custome_site_index_list E (map (fun ix => [fst ix; snd ix]) ixs) false s in
  let s1 := fst r in
  snd r = Ok tt /\ get_index_sequence s1 = Ok ixs /\ get_site_id_sequence s1 = l /\
  forall cs, Forall (fun c => c = CPlace \/ c = CDetect) cs ->
    let t := after E s1 cs in
    (forall i, is_site L i -> (occupied t i <-> In i (firstn (placements cs) l))) /\
    get_site_id_sequence t = l /\
    (forall x, nth_error l (placements cs) = Some x ->
       snd (place_one_site E t) = Ok true /\ sel_id (fst (place_one_site E t)) = Some x /\
       forall i, is_site L i -> (occupied (fst (place_one_site E t)) i <-> i = x \/ occupied t i)) /\
    ((length l <= placements cs)%nat -> snd (place_one_site E t) = Ok false).
Proof.
  intros HE Hk1 Hk2 HF Hne N Hr l r s1. destruct (fresh_object_state E k L s HE HF) as (F & Ek & _).
  pose proof (fr_static _ _ (fs_lat _ _ F)) as St. rewrite Forall_forall in Hr.
  assert (Hl : Forall (is_site L) l).
  { apply Forall_forall. intros x Hx. apply in_map_iff in Hx as ((a, b) & <- & Hin). apply Hr in Hin. cbn [fst snd] in *.
    unfold is_site. nia. }
  assert (Nl : NoDup l).
  { unfold l. clear - N Hr. induction N as [|(a, b) ixs Hn N IH]; [constructor|]. cbn [map]. constructor.
    - intros Hin. apply in_map_iff in Hin as ((a', b') & E1 & Hin). cbn [fst snd] in E1.
      pose proof (Hr (a, b) (or_introl eq_refl)) as R1. pose proof (Hr (a', b') (or_intror Hin)) as R2. cbn [fst snd] in *.
      destruct (rc_inj L a' b' a b) as (-> & ->); try tauto; lia.
    - apply IH. intros ix Hix. apply Hr. simpl; auto. }
  assert (El : map (calculate_id_from_index (lat s)) (map (fun ix => [fst ix; snd ix]) ixs) = l).
  { rewrite map_map. apply map_ext. intros (a, b). now rewrite calc2, (st_len _ _ St). }
  assert (Es : r = (installed l (user_list s) false false s, Ok tt)).
  { unfold r. rewrite (set_indices_ok E L) by auto. cbv zeta. rewrite El, all_siteb by auto.
    destruct l as [|h q] eqn:E0; [|rewrite <- E0; apply shuffle_none].
    destruct ixs; [congruence|discriminate]. }
  unfold s1. rewrite Es. cbn [fst snd]. split; auto. split.
  - unfold get_index_sequence. assert (Ek' : kind (installed l (user_list s) false false s) = k) by exact Ek. rewrite Ek'.
    change (lat (installed l (user_list s) false false s)) with (lat s).
    change (ids (installed l (user_list s) false false s)) with l.
    assert (G : mapM (fun id => t <- get_site_by_id (lat s) id ;; Ok (s_index t)) l = Ok ixs).
    { unfold l. clear - Hr St. induction ixs as [|(a, b) ixs IH]; [reflexivity|]. cbn [map mapM fst snd].
      pose proof (Hr (a, b) (or_introl eq_refl)) as R. cbn [fst snd] in R.
      assert (Hs : is_site L (a * L + b)) by (unfold is_site; nia).
      rewrite (get_site_by_id_ok L) by auto. cbn [rbind]. destruct (st_site _ _ St _ Hs) as (_ & -> & _).
      rewrite IH by (intros ix Hix; apply Hr; simpl; auto). cbn [rbind]. unfold row, col.
      rewrite Z.div_add_l, Z.div_small, Z.add_0_r by lia. rewrite Z.add_comm, Z_mod_plus_full, Z.mod_small by lia. reflexivity. }
    destruct k; auto; congruence.
  - apply follow; auto. rewrite Ek. destruct k; auto; congruence.
Qed.

(** ** C42 *)
Definition Stuck (L : Z) (x : Z) (s : perc) : Prop :=
  Inv L s /\ is_L12 (kind s) = false /\ cur_idx s < zlen (ids s) /\ at_ 0 (ids s) (cur_idx s) = x /\ occ (lat s) x.
Lemma stuck_place E L x s : env_ok E -> Stuck L x s -> place_one_site E s = (aim x s, Err AssertionError).
Proof.
  intros HE (H & Hk & Hc & Ex & Ho). pose proof (place_base E L s HE H Hk) as P.
  destruct (Z.leb_spec (zlen (ids s)) (cur_idx s)); [lia|]. cbv zeta in P. rewrite Ex in P. destruct P as (Hs & P).
  destruct (Z.eqb_spec (sg (lat s) x) (-1)) as [e|]; auto. unfold occ in Ho. lia.
Qed.
Lemma stuck_frame L x a b : Inv L b -> kind b = kind a -> ids b = ids a -> cur_idx b = cur_idx a -> lat b = lat a ->
  Stuck L x a -> Stuck L x b.
Proof. intros Hb E1 E2 E3 E4 (H & H1 & H2 & H3 & H4). split; auto. rewrite E1, E2, E3, E4. auto. Qed.
Lemma stuck_placed E L x s : env_ok E -> Stuck L x s -> Stuck L x (fst (place_one_site E s)).
Proof.
  intros HE H. pose proof (place_inv E L s HE (proj1 H)) as H'. rewrite (stuck_place E L x) in * by auto. cbn [fst] in *.
  eapply stuck_frame; [exact H'|..|exact H]; reflexivity.
Qed.
Lemma stuck_detect L x s : Stuck L x s -> Stuck L x (fst (detect_wrapping s)).
Proof.
  intros H. destruct (detect_seqv L s (proj1 H)) as (Q & _). destruct (seqv_eqs _ _ Q) as (Q1 & Q2 & _).
  destruct (detect_fields L s (proj1 H)) as (D1 & D2 & D3 & D4 & _).
  eapply stuck_frame; [apply detect_inv, H|..|exact H]; auto.
Qed.
Definition continuing (c : call) : Prop := match c with CPlace | CDetect | CRun _ | CTestRun _ => True | _ => False end.
Lemma run_stuck E L x s f : env_ok E -> Stuck L x s -> Stuck L x (fst (run_once E f s)) /\ occ_count (fst (run_once E f s)) = occ_count s /\
  lat (fst (run_once E f s)) = lat s /\ pool (fst (run_once E f s)) = pool s.
Proof.
  intros HE H. pose proof (stuck_place E L x s HE H) as Ep. pose proof (stuck_placed E L x s HE H) as Hp. rewrite Ep in Hp. cbn [fst] in Hp.
  assert (G : fst (run_once E f s) = s \/ fst (run_once E f s) = aim x s).
  { assert (Eo : run_once E f s = match kind s with KSP => sp_run_once E f s | _ => run_once_base E f s end).
    { unfold run_once, mbind at 1, get. destruct (kind s); reflexivity. }
    rewrite Eo. assert (A : fst (run_once_base E f s) = s \/ fst (run_once_base E f s) = aim x s).
    { unfold run_once_base. destruct f as [|f]; [now left|]. right. unfold mbind at 1. cbn [run_loop]. unfold mbind at 1. rewrite Ep. reflexivity. }
    assert (A' : fst (sp_run_once E f s) = s \/ fst (sp_run_once E f s) = aim x s).
    { unfold sp_run_once. destruct f as [|f]; [now left|]. right. unfold mbind at 1. cbn [sp_loop]. unfold mbind at 1. rewrite Ep. reflexivity. }
    destruct (kind s); auto. }
  destruct G as [-> | ->]; auto.
Qed.
Lemma test_run_stuck E L x s f : env_ok E -> Stuck L x s -> Stuck L x (fst (test_run_once E f s)) /\ occ_count (fst (test_run_once E f s)) = occ_count s /\
  lat (fst (test_run_once E f s)) = lat s /\ pool (fst (test_run_once E f s)) = pool s.
Proof.
  intros HE H. pose proof (stuck_place E L x s HE H) as Ep. pose proof (stuck_placed E L x s HE H) as Hp. rewrite Ep in Hp. cbn [fst] in Hp.
  assert (G : fst (test_run_once E f s) = s \/ fst (test_run_once E f s) = aim x s).
  { unfold test_run_once. destruct f as [|f]; [now left|]. right. unfold mbind at 1. cbn [test_run_loop]. unfold mbind at 1. rewrite Ep. reflexivity. }
  destruct G as [-> | ->]; auto.
Qed.
Lemma p_C42 E k L s x : env_ok E -> k <> KL1 -> k <> KL2 -> reachable_k E k L s ->
  0 <= cur_idx s -> lget (get_site_id_sequence s) (cur_idx s) = Ok x -> occupied s x ->
  snd (place_one_site E s) = Err AssertionError /\ nothing_changed L s (fst (place_one_site E s)) /\
  cur_idx (fst (place_one_site E s)) = cur_idx s /\
  forall cs, Forall (fun c => match c with CPlace | CDetect | CRun _ | CTestRun _ => True | _ => False end) cs ->
    snd (place_one_site E (after E s cs)) = Err AssertionError /\
    occ_count (after E s cs) = occ_count s /\ lat (after E s cs) = lat s /\ pool (after E s cs) = pool s.
Proof.
  intros HE Hk1 Hk2 HR Hc0 Hx Ho. destruct (reachable_k_kind E k L s HE HR) as (H & Ek).
  assert (Hc : cur_idx s < zlen (ids s)).
  { unfold get_site_id_sequence in Hx. destruct (Z.ltb_spec (cur_idx s) (zlen (ids s))); auto. exfalso.
    unfold lget, py_pos in Hx. replace (cur_idx s <? zlen (ids s)) with false in Hx by lia.
    replace (cur_idx s <? 0) with false in Hx by lia. rewrite !andb_false_r in Hx. discriminate. }
  assert (Ex : at_ 0 (ids s) (cur_idx s) = x). { unfold get_site_id_sequence in Hx. rewrite (lget_in 0) in Hx by lia. now injection Hx. }
  assert (Hs : is_site L x). { pose proof (i_ids _ _ H) as F. rewrite Forall_forall in F. apply F. rewrite <- Ex. apply at_In. lia. }
  assert (S : Stuck L x s).
  { split; auto. split; [rewrite Ek; destruct k; auto; congruence|]. split; auto. split; auto.
    rewrite <- (occupied_occ L) by (auto; now apply i_static). exact Ho. }
  rewrite (stuck_place E L x s HE S). cbn [fst snd]. split; auto.
  split. { split; [intros i Hi; split; reflexivity|]. split; [intros b Hb; reflexivity|]. repeat split. }
  split; auto. intros cs Hcs.
  assert (G : Stuck L x (after E s cs) /\ occ_count (after E s cs) = occ_count s /\ lat (after E s cs) = lat s /\ pool (after E s cs) = pool s).
  { clear - HE S Hcs. revert s S. induction Hcs as [|c cs Hc Hcs IH]; intros s S; auto. cbn [after fold_left].
    assert (G : Stuck L x (exec E s c) /\ occ_count (exec E s c) = occ_count s /\ lat (exec E s c) = lat s /\ pool (exec E s c) = pool s).
    { destruct c; cbn [exec] in *; try contradiction.
      - split; [now apply stuck_placed|]. rewrite (stuck_place E L x) by auto. auto.
      - split; [now apply stuck_detect|]. destruct (detect_fields L s (proj1 S)) as (D1 & D2 & D3 & D4 & _). auto.
      - now apply run_stuck.
      - now apply test_run_stuck. }
    destruct G as (G1 & G2 & G3 & G4). destruct (IH _ G1) as (J1 & J2 & J3 & J4). unfold after in *. split; [exact J1|]. repeat split; congruence. }
  destruct G as (G1 & G2). split; auto. now rewrite (stuck_place E L x).
Qed.

(** ** C43 *)
Lemma shuffle_exact E s : do_shuffle s = true -> forall s', shuffle E s = (s', Ok tt) ->
  ids s' = fst (random_shuffle E (tick s) (ids s)) /\ user_list s' = (if ids_shared s then ids s' else user_list s) /\ ids_shared s' = ids_shared s.
Proof.
  intros Hd s'. unfold shuffle, mbind, get. rewrite Hd, andb_false_r. destruct (random_shuffle E (tick s) (ids s)) as [l t].
  unfold modify, lift. destruct (foldM _ _ _); [|discriminate]. intros E1. injection E1 as <-. cbn. auto.
Qed.
Lemma reset_exact E L s : Inv L s -> is_L12 (kind s) = false -> do_shuffle s = true ->
  exists s', reset E s = (s', Ok tt) /\ ids s' = fst (random_shuffle E (tick s) (ids s)) /\
  user_list s' = (if ids_shared s then ids s' else user_list s) /\ ids_shared s' = ids_shared s.
Proof.
  intros H Hk Hd. destruct (lattice_reset_ok L (lat s) (i_static _ _ H)) as (Sr & Hf).
  destruct (init_fresh L _ Sr Hf) as (lat1 & E1 & F1).
  unfold reset, reset_base. unfold mbind at 1. unfold mbind at 1, get. unfold mbind at 1, modify. unfold mbind at 1, modify. unfold mbind at 1, get.
  match goal with |- context [lift (init_clusters ?l)] => change l with (lattice_reset (lat s)) end.
  rewrite (mbind_lift _ _ _ _ E1). unfold mbind at 1, modify.
  match goal with |- context [mbind (shuffle E) _ ?S0] => set (s0 := S0) end.
  destruct (shuffle_ok E L s0) as [(_ & Hd')|(_ & l & t & rv & Es & _)]; try apply H.
  { change (do_shuffle s0) with (do_shuffle s) in Hd'. congruence. }
  pose proof (shuffle_exact E s0 Hd _ Es) as (X1 & X2 & X3).
  change (tick s0) with (tick s) in X1. change (ids s0) with (ids s) in X1.
  change (user_list s0) with (user_list s) in X2. change (ids_shared s0) with (ids_shared s) in X2, X3.
  rewrite (mbind_ok _ _ _ _ _ Es). revert X1 X2 X3.
  match type of Es with _ = (?S1, _) => generalize S1 (eq_refl : kind S1 = kind s) end.
  intros s1 Ek1 X1 X2 X3. unfold mbind, modify, get. rewrite <- Ek1 in Hk.
  destruct (kind s1) eqn:Ek; try discriminate; cbn; rewrite ?Ek; eexists; (split; [reflexivity|]); cbn; auto.
Qed.
Definition Aliased (L : Z) (l : list Z) (s : perc) : Prop :=
  Inv L s /\ is_L12 (kind s) = false /\ do_shuffle s = true /\ ids_shared s = true /\ user_list s = ids s /\ Permutation l (ids s).
Lemma aliased_seqv L l a b : Inv L b -> seqv b = seqv a -> Aliased L l a -> Aliased L l b.
Proof.
  intros Hb Q (_ & A1 & A2 & A3 & A4 & A5). destruct (seqv_eqs _ _ Q) as (Q1 & Q2 & _ & _ & _ & Q6 & Q7 & Q8 & _).
  split; auto. rewrite Q1, Q2, Q6, Q7, Q8. auto.
Qed.
Lemma aliased_plain E L l s c : env_ok E -> plain c -> Aliased L l s -> Aliased L l (exec E s c).
Proof.
  intros HE Hc A. pose proof (proj1 A) as H.
  assert (PP : forall s, Aliased L l s -> Aliased L l (fst (place_one_site E s))).
  { intros t B. eapply aliased_seqv; [apply place_inv; auto; apply B| |exact B]. apply (place_base_seqv E L); auto; apply B. }
  assert (PD : forall s, Aliased L l s -> Aliased L l (fst (detect_wrapping s))).
  { intros t B. eapply aliased_seqv; [apply detect_inv, B| |exact B]. apply (detect_seqv L), B. }
  assert (PF : forall (f : perc -> perc) t, frame (f t) = frame t -> (kind (f t) = kind t /\ ids (f t) = ids t /\ do_shuffle (f t) = do_shuffle t /\
     ids_shared (f t) = ids_shared t /\ user_list (f t) = user_list t) -> Aliased L l t -> Aliased L l (f t)).
  { intros f t F1 (G1 & G2 & G3 & G4 & G5) (B1 & B2). split; [eapply inv_frame; [symmetry; exact F1|exact B1]|].
    rewrite G1, G2, G3, G4, G5. exact B2. }
  assert (HPP : forall s, Aliased L l s -> match place_one_site E s with
    | (s', Ok true) => if flag_is_success s' then Aliased L l s' else Aliased L l s' | (s', _) => Aliased L l s' end).
  { intros t Ht. pose proof (PP t Ht) as Ht'. destruct (place_one_site E t) as [s' [[]|e]]; auto. destruct (flag_is_success s'); auto. }
  destruct c as [| | |l' sh|l' sh|a b|f|f]; cbn [exec plain] in *; try contradiction.
  - now apply PP.
  - now apply PD.
  - destruct A as (_ & A1 & A2 & A3 & A4 & A5). destruct (reset_exact E L s H A1 A2) as (s' & Er & X1 & X2 & X3).
    destruct (reset_inv E L s H) as (s'' & Er' & R). rewrite Er in *. injection Er' as <-. cbn [fst].
    destruct R as [R1 R2 R3 _ _ _ _ (_ & _ & R10) _ _ _]. rewrite A3 in *.
    split; [now apply fresh_inv|]. rewrite R2, R10. split; auto. split; auto. split; auto. split; auto. rewrite X1.
    eapply Permutation_trans; [exact A5|apply random_shuffle_perm].
  - apply (run_once_pres E (Aliased L l) (Aliased L l)); auto.
    + intros t p h pw pl. apply (PF (set_arrs p h pw pl)); [reflexivity|repeat split].
    + intros t b. apply (PF (set_first_run b)); [reflexivity|repeat split].
    + intros t b. apply (PF (set_sp b)); [reflexivity|repeat split].
  - apply (test_run_once_pres E (Aliased L l) (Aliased L l)); auto.
    + intros t p h pw pl. apply (PF (set_arrs p h pw pl)); [reflexivity|repeat split].
    + intros t b. apply (PF (set_first_run b)); [reflexivity|repeat split].
Qed.
Lemma p_C43 E k L s l : env_ok E -> k <> KL1 -> k <> KL2 -> reachable_k E k L s -> l <> [] -> Forall (is_site L) l ->
  let s1 := fst (set_custome_site_id_list E l true s) in
  snd (set_custome_site_id_list E l true s) = Ok tt /\
  user_list s1 = fst (random_shuffle E (tick s) l) /\
  forall cs, Forall plain cs ->
    let t := after E s1 cs in
    Permutation l (user_list t) /\ get_site_id_sequence t = user_list t /\
    user_list (fst (reset E t)) = fst (random_shuffle E (tick t) (user_list t)).
Proof.
  intros HE Hk1 Hk2 HR Hne Hl. destruct (reachable_k_kind E k L s HE HR) as (H & Ek).
  assert (Hk : is_L12 (kind s) = false) by (rewrite Ek; destruct k; auto; congruence).
  assert (Es : set_custome_site_id_list E l true s = shuffle E (installed l l true true s)).
  { rewrite (set_ids_ok E L) by (now apply i_static). rewrite all_siteb by auto. destruct l; [congruence|reflexivity]. }
  assert (Hi : Inv L (installed l l true true s)) by (now apply installed_inv).
  destruct (shuffle_inv E L _ Hi) as (s1 & E1 & H1). destruct (shuffle_exact E (installed l l true true s) eq_refl _ E1) as (X1 & X2 & X3).
  cbn in X1, X2, X3. rewrite Es, E1. cbn [fst snd]. split; auto. split; [congruence|].
  assert (A : Aliased L l s1).
  { split; auto. destruct (shuffle_ok E L (installed l l true true s)) as [(_ & ?)|(_ & l' & t' & rv & E2 & P & _)]; try apply Hi; [discriminate|].
    rewrite E1 in E2. injection E2 as ->. split; [exact Hk|]. split; [reflexivity|]. split; [reflexivity|]. split; [reflexivity|exact P]. }
  intros cs Hcs. set (t := after E s1 cs). assert (At : Aliased L l t).
  { unfold t. clear - HE Hcs A. revert s1 A. induction Hcs as [|c cs Hc Hcs IH]; intros s1 A; auto.
    cbn [after fold_left]. apply IH. now apply aliased_plain. }
  destruct At as (Ht & B1 & B2 & B3 & B4 & B5). split; [now rewrite B4|]. split; [now symmetry|].
  destruct (reset_exact E L t Ht B1 B2) as (s' & -> & Y1 & Y2 & _). cbn [fst]. rewrite B3 in Y2. congruence.
Qed.

(** ** C48 *)
Lemma used_selected E L s : env_ok E -> reachable E L s -> sel_id s = None -> occ_count s = 0.
Proof.
  intros HE HR. revert s HR. apply (reach_ind E L (fun s => sel_id s = None -> occ_count s = 0)); auto.
  - intros s F _. apply (fs_occ _ _ F).
  - intros s s' H H' M IH. destruct M as [a b Hp|a b r Sd Hr|a s1 x b root Sd E1 E2 Pd|a x Hx Es Ew Hh].
    + assert (Q1 : sel_id b = sel_id a) by exact (f_equal sel_id Hp).
      assert (Q2 : occ_count b = occ_count a) by exact (f_equal occ_count Hp). rewrite Q1, Q2. exact IH.
    + pose proof (sd_res _ _ _ _ Sd) as R.
      assert (R' : occ_count b = occ_count a /\ ((sel_id b = sel_id a /\ cur_site b = cur_site a) \/
        exists i, is_site L i /\ sel_id b = Some i /\ cur_site b = Some i)) by (destruct r as [[]|e]; auto; contradiction).
      destruct R' as (-> & [(-> & _)|(i & _ & -> & _)]); [exact IH|discriminate].
    + destruct (core2_fields _ _ (pd_core _ _ _ _ _ _ Pd)) as (_ & _ & _ & _ & _ & _ & _ & Fs & _). rewrite Fs, E1. discriminate.
    + exact IH.
Qed.
Lemma p_C48 E k L : env_ok E ->
  (forall t0 s, new_perc E k L t0 = Ok s -> detect_wrapping s = (s, Err TypeError)) /\
  (forall s0, reachable E L s0 -> (exists i, is_site L i /\ occupied s0 i) ->
     let s := fst (reset E s0) in
     (forall i, is_site L i -> ~ occupied s i) /\ detect_wrapping s = (s, Ok false)).
Proof.
  intros HE. split.
  - intros t0 s E0. pose proof (fresh_inv _ _ (new_perc_fresh _ _ _ _ _ E0)) as H. pose proof (new_perc_fresh _ _ _ _ _ E0) as F.
    rewrite (detect_ok L) by apply H. unfold detect_res. destruct (fs_wrap _ _ F) as (-> & _).
    destruct (new_arrs _ _ _ _ _ E0) as (_ & _ & _ & ->). reflexivity.
  - intros s0 HR (j & Hj & Oj) s. pose proof (reachable_inv _ _ _ HE HR) as H0.
    destruct (reset_inv E L s0 H0) as (s' & Er & R). assert (Es : s = s') by (unfold s; now rewrite Er). rewrite Es. clear s Es.
    pose proof (rt_fresh _ _ _ R) as F. pose proof (fresh_inv _ _ F) as H. split.
    + intros i Hi. rewrite (occupied_occ L) by (auto; now apply i_static). destruct (fr_site _ _ (fs_lat _ _ F) i Hi) as (E1 & _). unfold occ. lia.
    + rewrite (detect_ok L) by apply H. unfold detect_res. destruct (fs_wrap _ _ F) as (-> & _).
      destruct (rt_sel _ _ _ R) as (Q & _). destruct (i_sel _ _ H) as [(Es & _)|(x & Hx & Es & _)]; rewrite Es.
      * exfalso. rewrite Q in Es. pose proof (used_selected E L s0 HE HR Es) as Z0.
        rewrite (i_occ _ _ H0) in Z0. rewrite (occupied_occ L) in Oj by (auto; now apply i_static).
        pose proof (count_zero _ _ Z0 j (proj2 (In_zrange _ _) Hj)) as Q0. apply occb_true in Oj. congruence.
      * destruct (hitb L (lat s') x) eqn:Eh; auto. exfalso. apply (hitb_occ L (lat s') (pool s') x) in Eh; auto; [|apply H].
        destruct (fr_site _ _ (fs_lat _ _ F) x Hx) as (E1 & _). unfold occ in Eh. lia.
Qed.
