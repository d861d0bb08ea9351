(** * Iid: realizations of one object are independent and equally distributed (C111). *)
From Coq Require Import ZArith List Bool Lia Permutation Factorial.
From Verif Require Import Py Lattice Cluster Perc Spec PyFacts Torus Geometry LatFacts Inv Merge Count Fresh Select State Step History Reach Micro Seq RunBase RunProps RunProps2 StateProps StateProps2
  Sim Cycle Unbiased ChanceSpec Chance BreakProps L1Chance IidSpec.
Import ListNotations.
Open Scope Z_scope.

(** ** Counting choices and counting orders *)
Section Made.
Variables (ord : list Z -> list Z) (n t : nat) (l0 : list Z) (made : env -> perc -> Prop) (Q : env -> perc -> Prop) (R : list Z -> Prop).
Hypothesis Nd : NoDup l0.
Hypothesis Len : length l0 = n.
Hypothesis Pos : (1 <= n)%nat.
Hypothesis Some_s : forall d, exists s, made (mkEnv ord d) s.
Hypothesis Ids : forall d s, made (mkEnv ord d) s -> ids s = fst (random_shuffle (mkEnv ord d) t l0).
Hypothesis QR : forall d s, made (mkEnv ord d) s -> (Q (mkEnv ord d) s <-> R (ids s)).
Lemma order_of_ord d c : random_choices n c -> choices (mkEnv ord d) t n = c -> fst (random_shuffle (mkEnv ord d) t l0) = order_of t l0 c.
Proof. intros Hc He. apply order_of_env; auto; rewrite Len; auto. Qed.
Lemma realized_iff c : random_choices n c -> (realized_with ord n t made Q c <-> R (order_of t l0 c)).
Proof.
  intros Hc. pose (d := e_draw (with_draws t c)). assert (He : choices (mkEnv ord d) t n = c) by exact (choices_with t n c Pos Hc). split.
  - intros (_ & G). destruct (Some_s d) as (s & Hs). pose proof (G d s He Hs) as G1. apply (QR d s Hs) in G1. rewrite (Ids d s Hs), (order_of_ord d c Hc He) in G1. exact G1.
  - intros G. split; auto. intros d' s He' Hs. apply (QR d' s Hs). rewrite (Ids d' s Hs), (order_of_ord d' c Hc He'). exact G.
Qed.
Lemma transfer_iff m : how_many (realized_with ord n t made Q) m <-> how_many (fun l => Permutation l0 l /\ R l) m.
Proof.
  split.
  - apply (how_map _ _ (order_of t l0)).
    + intros c Hc. split; [apply order_of_perm|]. apply realized_iff; auto. apply Hc.
    + intros l (P & Rl). destruct (order_of_onto t l0 l Nd ltac:(lia) P) as (c & Hc & <-). rewrite Len in Hc. exists c. split; auto. now apply realized_iff.
    + intros c c' (Hc & _) (Hc' & _). apply order_of_inj; auto; rewrite Len; auto.
  - intros (Y & NY & IY & ->). assert (F : forall l, In l Y -> exists c, realized_with ord n t made Q c /\ order_of t l0 c = l).
    { intros l Hl. apply IY in Hl as (P & Rl). destruct (order_of_onto t l0 l Nd ltac:(lia) P) as (c & Hc & <-). rewrite Len in Hc. exists c. split; auto. now apply realized_iff. }
    assert (G : exists X, NoDup X /\ map (order_of t l0) X = Y /\ forall c, In c X -> realized_with ord n t made Q c).
    { clear IY. induction NY as [|l Y Nl NY IH]; [exists []; split; [constructor|]; split; [reflexivity|intros c []]|]. destruct IH as (X & NX & EX & FX); [intros l' Hl'; apply F; now right|].
      destruct (F l (or_introl eq_refl)) as (c & Hc & El). exists (c :: X). split; [|split].
      - constructor; auto. intros I. apply Nl. rewrite <- EX, <- El. now apply in_map.
      - cbn [map]. now rewrite El, EX.
      - intros c' [<-|I]; auto. }
    destruct G as (X & NX & EX & FX). exists X. split; auto. split; [|now rewrite <- EX, map_length]. intros c. split; [apply FX|]. intros Hc.
    assert (I : In (order_of t l0 c) Y) by (apply IY; split; [apply order_of_perm|]; apply realized_iff; auto; apply Hc).
    rewrite <- EX in I. apply in_map_iff in I as (c' & Eq & I). assert (c' = c) as <-; auto. apply (order_of_inj t l0); rewrite ?Len; auto; [apply (FX c' I)|apply Hc].
Qed.
End Made.

(** ** What a realization does not depend on *)
Record aside := mkAside { a_tick : nat; a_rev : list Z; a_user : list Z; a_share : bool; a_first : bool; a_p : list fexpr; a_mc : bool; a_ds : bool; a_x : Z; a_y : Z; a_rec : list Z; a_sp : fexpr }.
Definition put (a : aside) (s : perc) : perc :=
  set_tick (a_tick a) (set_rev (a_rev a) (rebind_ids (ids s) (a_user a) (a_share a) (set_first_run (a_first a) (set_arrs (a_p a) (h_arr s) (pw_arr s) (pl_arr s)
    (set_custom (max_iter s) (a_mc a) (a_ds a) (set_xy (a_x a) (a_y a) (set_record (a_rec a) (set_sp (match kind s with KSP => sp_p s | _ => a_sp a end) s)))))))).
Definition aside_of (s : perc) : aside := mkAside (tick s) (rev_ids s) (user_list s) (ids_shared s) (first_run s) (p_arr s) (mode_custom s) (do_shuffle s) (x_occ s) (y_occ s) (record s) (sp_p s).
Lemma put_own s : put (aside_of s) s = s.
Proof. destruct s as [k]. destruct k; reflexivity. Qed.
Definition quad (s : perc) := (kind s, ids s, do_shuffle s, tick s).
Definition indep {A} (m1 m2 : M A) : Prop := forall a s, is_L12 (kind s) = false ->
  exists a', m2 (put a s) = (put a' (fst (m1 s)), snd (m1 s)) /\ quad (fst (m1 s)) = quad s.
Lemma in_ret {A} (x : A) : indep (ret x) (ret x).
Proof. intros a s K. exists a. split; auto. Qed.
Lemma in_raise {A} e : indep (@raise A e) (raise e).
Proof. intros a s K. exists a. split; auto. Qed.
Lemma in_lift {A} (r : res A) : indep (lift r) (lift r).
Proof. intros a s K. exists a. split; auto. Qed.
Lemma in_lift_eq {A} (r1 r2 : res A) : r1 = r2 -> indep (lift r1) (lift r2).
Proof. intros ->. apply in_lift. Qed.
Lemma in_need {A} (o : option A) : indep (need o) (need o).
Proof. destruct o; [apply in_ret|apply in_raise]. Qed.
Lemma in_bind {A C} (m1 m2 : M A) (k1 k2 : A -> M C) : indep m1 m2 -> (forall x, indep (k1 x) (k2 x)) -> indep (mbind m1 k1) (mbind m2 k2).
Proof.
  intros Hm Hk a s K. destruct (Hm a s K) as (a1 & E1 & K1). unfold mbind. rewrite E1. destruct (m1 s) as [s1 [x|e]]; cbn [fst snd] in *.
  - assert (K' : is_L12 (kind s1) = false) by (replace (kind s1) with (kind s) by (unfold quad in K1; congruence); exact K).
    destruct (Hk x a1 s1 K') as (a2 & E2 & K2). exists a2. split; auto. congruence.
  - exists a1. auto.
Qed.
Lemma in_get {C} (k1 k2 : perc -> M C) : (forall s a, k2 (put a s) = k2 s) -> (forall s, is_L12 (kind s) = false -> indep (k1 s) (k2 s)) -> indep (mbind get k1) (mbind get k2).
Proof. intros He Hk a s K. unfold mbind, get. rewrite He. apply (Hk s); auto. Qed.
Lemma in_modify f g : (forall s, quad (f s) = quad s) -> (forall s a, exists a', g (put a s) = put a' (f s)) -> indep (modify f) (modify g).
Proof. intros Kf Hf a s K. destruct (Hf s a) as (a' & E). exists a'. unfold modify. cbn [fst snd]. rewrite E, Kf. auto. Qed.
Ltac pick := let s := fresh "s" in let a := fresh "a" in intros s a;
  match goal with |- exists a', ?g = put a' ?f => exists (aside_of g) end; destruct s as [k]; destruct k; reflexivity.
Ltac ii := cbv beta zeta; lazymatch goal with
  | |- indep (ret _) _ => apply in_ret
  | |- indep (raise _) _ => apply in_raise
  | |- indep (lift _) _ => apply in_lift
  | |- indep (need _) _ => apply in_need
  | |- indep (mbind get _) _ => apply in_get; [intros; reflexivity|intros ? ?]
  | |- indep (mbind _ _) _ => apply in_bind; [|intro]
  | |- indep (modify _) _ => apply in_modify; [reflexivity|pick]
  | |- indep (match ?b with _ => _ end) _ => destruct b
  end.
Section TwoEnv.
Variables E1 E2 : env.
Hypothesis HO : e_ord E1 = e_ord E2.
Lemma in_select_id x : indep (select_id x) (select_id x).
Proof. unfold select_id. repeat ii. Qed.
Lemma in_select : indep (select_site E1) (select_site E2).
Proof.
  unfold select_site. apply in_get; [reflexivity|]. intros s K. assert (G : indep select_site_base select_site_base) by (unfold select_site_base; repeat first [apply in_select_id|ii]).
  destruct (kind s); auto; discriminate.
Qed.
Lemma in_place : indep (place_one_site E1) (place_one_site E2).
Proof.
  assert (H1 : forall l p x, entropy_subtract_amount E1 l p x = entropy_subtract_amount E2 l p x) by (intros; unfold entropy_subtract_amount; now rewrite HO).
  assert (H2 : forall l p x c w i b, merge_clusters_v2 E1 l p x c w i b = merge_clusters_v2 E2 l p x c w i b) by (intros; unfold merge_clusters_v2, get_bond_gids; now rewrite HO).
  unfold place_one_site. ii; [apply in_select|]. 
  repeat (cbv beta zeta; lazymatch goal with
  | |- indep (lift (entropy_subtract_amount _ _ _ _)) _ => apply in_lift_eq, H1
  | |- indep (lift (merge_clusters_v2 _ _ _ _ _ _ _ _)) _ => apply in_lift_eq, H2
  | |- indep (track_largest_cluster _) _ => unfold track_largest_cluster
  | |- _ => ii end).
Qed.
Lemma in_detect : indep detect_wrapping detect_wrapping.
Proof. unfold detect_wrapping. repeat ii. Qed.
Lemma in_record : indep record_step record_step.
Proof. unfold record_step. repeat ii. Qed.
Lemma in_run_loop f : indep (run_loop E1 f) (run_loop E2 f).
Proof.
  induction f as [|f IH]; cbn [run_loop]; [ii|]. ii; [apply in_place|]. ii; [|ii]. ii. ii; [|exact IH]. ii; [|ii]. ii; [apply in_detect|apply in_record].
Qed.
Lemma in_test_loop f : indep (test_run_loop E1 f) (test_run_loop E2 f).
Proof.
  induction f as [|f IH]; cbn [test_run_loop]; [ii|]. ii; [apply in_place|]. ii; [|ii]. ii. ii; [|exact IH]. ii; [apply in_detect|]. ii; [repeat ii|].
  ii; [apply in_record|exact IH].
Qed.
Lemma in_sp_loop f : indep (sp_loop E1 f) (sp_loop E2 f).
Proof.
  induction f as [|f IH]; cbn [sp_loop]; [ii|]. ii; [apply in_place|]. ii; [|ii]. ii. ii; [|exact IH]. ii; [apply in_detect|]. ii; [|exact IH].
  ii. ii; [ii|]. ii; [ii|]. ii; [ii|]. ii. ii; [|exact IH]. repeat ii.
Qed.
Lemma in_run f : indep (run_once E1 f) (run_once E2 f).
Proof.
  unfold run_once. ii. assert (G1 : indep (run_once_base E1 f) (run_once_base E2 f)) by (unfold run_once_base; ii; [apply in_run_loop|ii]).
  assert (G2 : indep (sp_run_once E1 f) (sp_run_once E2 f)) by (unfold sp_run_once; ii; [apply in_sp_loop|ii]). ii; auto.
Qed.
Definition kin (s s' : perc) : Prop := exists a, s' = put a s.
Lemma kin_exec s s' c : realizing c -> is_L12 (kind s) = false -> kin s s' -> kin (exec E1 s c) (exec E2 s' c) /\ quad (exec E1 s c) = quad s.
Proof.
  intros Hc K (a & ->). assert (G : forall A (m1 m2 : M A), indep m1 m2 -> kin (fst (m1 s)) (fst (m2 (put a s))) /\ quad (fst (m1 s)) = quad s).
  { intros A m1 m2 O. destruct (O a s K) as (a' & E & K'). split; [|exact K']. exists a'. now rewrite E. }
  destruct c; try contradiction; cbn [exec]; apply G; [apply in_place|apply in_detect|apply in_run|]. unfold test_run_once. ii; [apply in_test_loop|ii].
Qed.
Lemma kin_after cs : forall s s', Forall realizing cs -> is_L12 (kind s) = false -> kin s s' -> kin (after E1 s cs) (after E2 s' cs) /\ quad (after E1 s cs) = quad s.
Proof.
  induction cs as [|c cs IH]; intros s s' H K R; [split; [exact R|reflexivity]|]. inversion H as [|? ? Hc Hcs]; subst. destruct (kin_exec s s' c Hc K R) as (R1 & Q1).
  assert (K1 : is_L12 (kind (exec E1 s c)) = false) by (replace (kind (exec E1 s c)) with (kind s) by (unfold quad in Q1; congruence); exact K).
  destruct (IH (exec E1 s c) (exec E2 s' c) Hcs K1 R1) as (R2 & Q2). split; [exact R2|]. change (after E1 s (c :: cs)) with (after E1 (exec E1 s c) cs). congruence.
Qed.
End TwoEnv.
Lemma quad_after E s cs : Forall realizing cs -> is_L12 (kind s) = false -> quad (after E s cs) = quad s.
Proof. intros H K. refine (proj2 (kin_after E E eq_refl cs s s H K _)). exists (aside_of s). symmetry. apply put_own. Qed.
Lemma kin_same s s' : kin s s' -> same_realization s s'.
Proof. intros (a & ->). unfold same_realization. repeat split. intros K. cbn [put sp_p set_tick set_rev rebind_ids set_first_run set_arrs set_custom set_xy set_record set_sp]. now rewrite K. Qed.

(** ** The first call forgets the last selection *)
Lemma first_blind E L z a b c : FreshState L z -> ids z <> [] -> is_L12 (kind z) = false -> starts [c] -> exec E (put_sel a b z) c = exec E z c.
Proof.
  intros F N K Hc. assert (G : place_one_site E (put_sel a b z) = place_one_site E z) by (apply (place_blind E L); auto; intros K'; rewrite K in K'; discriminate).
  destruct c as [| | | | | |[|f]|[|f]]; try contradiction; cbn [exec].
  - now rewrite G.
  - f_equal. change (run_once E (S f) (put_sel a b z)) with ((match kind z with KSP => sp_run_once E (S f) | _ => run_once_base E (S f) end) (put_sel a b z)).
    change (run_once E (S f) z) with ((match kind z with KSP => sp_run_once E (S f) | _ => run_once_base E (S f) end) z).
    destruct (kind z); unfold run_once_base, sp_run_once; apply mbind_same; cbn [run_loop sp_loop]; apply mbind_same; exact G.
  - f_equal. unfold test_run_once. apply mbind_same. cbn [test_run_loop]. apply mbind_same. exact G.
Qed.
(** At the start of a realization. *)
Record Start (k : pkind) (L : Z) (s : perc) : Prop := mkStart {
  sr_fresh : FreshState L s; sr_kind : kind s = k; sr_perm : Permutation (zrange (L * L)) (ids s); sr_arrs : h_arr s = [] /\ pw_arr s = [] /\ pl_arr s = []; sr_sp : kind s = KSP -> sp_p s = FZ 0 }.
Lemma start_same E1 E2 k L s s' cs : 0 < L -> is_L12 k = false -> e_ord E1 = e_ord E2 -> Start k L s -> Start k L s' -> ids s = ids s' -> Forall realizing cs -> starts cs ->
  same_realization (after E1 s cs) (after E2 s' cs).
Proof.
  intros HL Hk HO S1 S2 Ei Hc Hs. destruct cs as [|c cs]; [contradiction|]. pose proof (LL_pos L HL) as HLL.
  assert (Hs' : starts [c]) by (destruct c; try contradiction; exact Hs).
  assert (N : forall z, Start k L z -> ids z <> []) by (intros z Sz E0; pose proof (perm_zlen L _ HL (sr_perm _ _ _ Sz)) as Q; rewrite E0 in Q; cbn in Q; lia).
  assert (Kz : forall z, Start k L z -> is_L12 (kind z) = false) by (intros z Sz; now rewrite (sr_kind _ _ _ Sz)).
  assert (G : forall E z, Start k L z -> after E z (c :: cs) = after E (put_sel None None z) (c :: cs)).
  { intros E z Sz. change (after E (exec E z c) cs = after E (exec E (put_sel None None z) c) cs). rewrite (first_blind E L z); auto. apply (sr_fresh _ _ _ Sz). }
  rewrite (G E1 s S1), (G E2 s' S2). apply kin_same. apply kin_after; auto; [exact (Kz s S1)|].
  destruct S1 as [F1 K1 P1 (A1 & A2 & A3) Sp1], S2 as [F2 K2 P2 (A4 & A5 & A6) Sp2].
  pose proof (fresh_unique L _ _ (fs_lat _ _ F1) (fs_lat _ _ F2)) as El.
  assert (Em : max_iter s = max_iter s') by (rewrite (fs_mi _ _ F1), (fs_mi _ _ F2), Ei; auto; [now rewrite K2|now rewrite K1]).
  destruct F1 as [_ B1 _ _ _ _ B2 B3 B4 _ (B5 & B6) (B7 & B8 & B9 & B10 & B11) B12 B13 B14], F2 as [_ C1 _ _ _ _ C2 C3 C4 _ (C5 & C6) (C7 & C8 & C9 & C10 & C11) C12 C13 C14].
  exists (aside_of s'). clear N Kz G. destruct s, s'.
  cbn [Perc.kind Perc.lat Perc.pool Perc.ids Perc.rev_ids Perc.cur_idx Perc.occ_count Perc.pc_occ Perc.cur_site Perc.sel_id Perc.sel_flag Perc.cluster_count Perc.largest_sz Perc.largest_id Perc.max_ent Perc.ent Perc.after_wrap Perc.wid Perc.first_run Perc.p_arr Perc.h_arr Perc.pw_arr Perc.pl_arr Perc.max_iter Perc.mode_custom Perc.do_shuffle Perc.pc_bonds Perc.pc_sites Perc.x_occ Perc.y_occ Perc.record Perc.sp_p Perc.user_list Perc.ids_shared Perc.tick] in *.
  subst. destruct k; try discriminate; try reflexivity. rewrite (Sp1 eq_refl), (Sp2 eq_refl). reflexivity.
Qed.

(** ** Construction and [reset] start a realization *)
Lemma same_sym s s' : same_realization s s' -> same_realization s' s.
Proof. unfold same_realization. intros H. repeat match goal with H : _ /\ _ |- _ => destruct H end. repeat split; auto. intros K. symmetry. match goal with H : _ -> sp_p _ = _ |- _ => apply H end. congruence. Qed.
Lemma new_start E k L t s : 0 < L -> is_L12 k = false -> new_perc E k L t = Ok s ->
  Start k L s /\ ids s = fst (random_shuffle E t (zrange (L * L))) /\ tick s = (t + (Z.to_nat (L * L) - 1))%nat /\ do_shuffle s = true.
Proof.
  intros HL Hk E0. split; [|split; [|split]].
  - pose proof (sq_perm _ _ (new_seqOK E k L t s Hk E0)) as P. pose proof (new_perc_fresh E k L t s E0) as F. destruct (new_perc_ok E k L t HL) as (lat1 & l & t' & rv & E1 & _). rewrite E1 in E0. injection E0 as <-.
    constructor; auto.
  - exact (new_ids k L t E s E0).
  - exact (proj1 (new_tick E k L t s HL E0)).
  - exact (sq_shuf _ _ (new_seqOK E k L t s Hk E0)).
Qed.
Lemma reset_tick E k L s : Inv L s -> is_L12 k = false -> kind s = k -> do_shuffle s = true -> Permutation (zrange (L * L)) (ids s) ->
  tick (fst (reset E s)) = (tick s + (Z.to_nat (L * L) - 1))%nat.
Proof.
  intros H Hk Ek Hd P. destruct (reset_split L E s H) as (s0 & E0 & C0 & _). rewrite E0.
  assert (Kd : do_shuffle s0 = do_shuffle s) by exact (f_equal do_shuffle C0).
  assert (Kt : tick s0 = tick s) by exact (f_equal tick C0). assert (Ki : ids s0 = ids s) by exact (f_equal ids C0).
  pose proof (shuffle_tick E s0 ltac:(congruence)) as Q. rewrite Kt, Ki in Q.
  assert (Hl : length (ids s) = Z.to_nat (L * L)) by (pose proof (perm_zlen L _ (i_pos _ _ H) P) as Q'; unfold zlen in Q'; lia).
  rewrite Hl in Q. replace (Z.to_nat (L * L) - 1)%nat with (pred (Z.to_nat (L * L))) by lia. rewrite <- Q. clear.
  unfold reset_tail, mbind. destruct (shuffle E s0) as [s1 [u|e]]; [|reflexivity]. unfold modify, get.
  match goal with |- context [kind ?S] => change (kind S) with (kind s1) end. destruct (kind s1); reflexivity.
Qed.
Lemma reset_start E k L s : Inv L s -> is_L12 k = false -> kind s = k -> do_shuffle s = true -> Permutation (zrange (L * L)) (ids s) ->
  exists s', reset E s = (s', Ok tt) /\ Start k L s' /\ ids s' = fst (random_shuffle E (tick s) (ids s)) /\ tick s' = (tick s + (Z.to_nat (L * L) - 1))%nat /\ do_shuffle s' = true.
Proof.
  intros H Hk Ek Hd P. destruct (reset_inv E L s H) as (s' & Er & R). exists s'. split; [exact Er|].
  assert (Kk : is_L12 (kind s) = false) by (now rewrite Ek). pose proof (reset_ids E L s H Kk Hd) as Ei. rewrite Er in Ei. cbn [fst] in Ei.
  split; [|split; [exact Ei|split]].
  - constructor.
    + apply (rt_fresh _ _ _ R).
    + now rewrite (rt_kind _ _ _ R).
    + rewrite Ei. eapply perm_trans; [exact P|]. unfold random_shuffle. apply shuffle_from_perm.
    + destruct (rt_arrs _ _ _ R) as (_ & A1 & A2 & A3). auto.
    + intros K. rewrite (rt_kind _ _ _ R) in K. rewrite (rt_sp _ _ _ R), K. reflexivity.
  - rewrite <- (reset_tick E k L s H Hk Ek Hd P), Er. reflexivity.
  - destruct (rt_custom _ _ _ R) as (_ & _ & Q). congruence.
Qed.
Lemma realizing_ok L c : realizing c -> call_ok L c.
Proof. destruct c; cbn; tauto. Qed.
Lemma start_inv k L s : Start k L s -> Inv L s.
Proof. intros S. apply fresh_inv, (sr_fresh _ _ _ S). Qed.

Section Law.
Variables (ord : list Z -> list Z) (k : pkind) (L : Z).
Hypothesis Hord : env_ok (mkEnv ord (fun _ => 0)).
Hypothesis HL : 0 < L.
Hypothesis Hk : is_L12 k = false.
Let n := Z.to_nat (L * L).
Let ids0 := zrange (L * L).
Lemma ok_ord d : env_ok (mkEnv ord d).
Proof. exact Hord. Qed.
Lemma n_len l : Permutation ids0 l -> length l = n /\ NoDup l /\ (1 <= n)%nat.
Proof.
  intros P. pose proof (LL_pos L HL). pose proof (perm_zlen L l HL P) as Q. unfold zlen in Q. split; [unfold n; lia|]. split; [|unfold n; lia].
  eapply Permutation_NoDup; [exact P|apply NoDup_zrange].
Qed.
(** A representative for each order of the sites. *)
Lemma canon_ex : exists canon : list Z -> perc, forall l, Permutation ids0 l -> Start k L (canon l) /\ ids (canon l) = l.
Proof.
  destruct (new_perc_ok (mkEnv ord (fun _ => 0)) k L 0 HL) as (lat1 & l0 & t' & rv & E1 & Fl & P0 & _). pose proof (new_perc_fresh _ k L 0 _ E1) as F.
  exists (fun l => rebind_ids l [] false (set_rev rv (set_tick t' (mutate_ids l0 (base_state k L lat1 0))))). intros l P. split; [|reflexivity].
  destruct F as [F1 F2 F3 F4 F5 F6 F7 F8 F9 F10 F11 F12 F13 F14 F15]. constructor; [|reflexivity|exact P|split; [reflexivity|split; reflexivity]|reflexivity].
  constructor; auto.
  - cbn [ids rebind_ids]. eapply Permutation_Forall; [exact P|apply zrange_sites].
  - intros _. cbn. symmetry. exact (perm_zlen L l HL P).
Qed.
Section Asked.
Variable canon : list Z -> perc.
Hypothesis Hcanon : forall l, Permutation ids0 l -> Start k L (canon l) /\ ids (canon l) = l.
Definition asked (cs : list call) (R : perc -> Prop) (l : list Z) : Prop := R (after (mkEnv ord (fun _ => 0)) (canon l) cs).
Lemma asked_iff d s cs R : Start k L s -> Forall realizing cs -> starts cs -> about_realization R -> (R (after (mkEnv ord d) s cs) <-> asked cs R (ids s)).
Proof.
  intros S Hc Hs HR. destruct (Hcanon (ids s) (sr_perm _ _ _ S)) as (Sc & Ec).
  pose proof (start_same (mkEnv ord d) (mkEnv ord (fun _ => 0)) k L s (canon (ids s)) cs HL Hk eq_refl S Sc (eq_sym Ec) Hc Hs) as Q.
  split; apply HR; [exact Q|now apply same_sym].
Qed.
Lemma new_count t cs R m : Forall realizing cs -> starts cs -> about_realization R ->
  (how_many (realized_with ord n t (made_new k L t) (fun E z => R (after E z cs))) m <-> how_many (fun l => Permutation ids0 l /\ asked cs R l) m).
Proof.
  intros Hc Hs HR. destruct (n_len ids0 (Permutation_refl _)) as (Q1 & Q2 & Q3). apply transfer_iff; auto; unfold made_new.
  - intros d. destruct (new_perc_ok (mkEnv ord d) k L t HL) as (a & b & c & e & E1 & _). eauto.
  - intros d s E1. apply (new_start _ k L t s HL Hk E1).
  - intros d s E1. apply asked_iff; auto. apply (new_start _ k L t s HL Hk E1).
Qed.
Lemma reset_count s cs R m : Inv L s -> kind s = k -> do_shuffle s = true -> Permutation ids0 (ids s) -> Forall realizing cs -> starts cs -> about_realization R ->
  (how_many (realized_with ord n (tick s) (made_by_reset s) (fun E z => R (after E z cs))) m <-> how_many (fun l => Permutation ids0 l /\ asked cs R l) m).
Proof.
  intros H Ek Hd P Hc Hs HR. destruct (n_len (ids s) P) as (Q1 & Q2 & Q3).
  assert (G : how_many (realized_with ord n (tick s) (made_by_reset s) (fun E z => R (after E z cs))) m <-> how_many (fun l => Permutation (ids s) l /\ asked cs R l) m).
  { apply transfer_iff; auto; unfold made_by_reset.
    - intros d. destruct (reset_start (mkEnv ord d) k L s H Hk Ek Hd P) as (s' & Er & _). eauto.
    - intros d z Ez. destruct (reset_start (mkEnv ord d) k L s H Hk Ek Hd P) as (s' & Er & _ & Q & _). rewrite Er in Ez. injection Ez as <-. exact Q.
    - intros d z Ez. destruct (reset_start (mkEnv ord d) k L s H Hk Ek Hd P) as (s' & Er & Q & _). rewrite Er in Ez. injection Ez as <-. now apply asked_iff. }
  rewrite G. assert (X : forall l, (Permutation (ids s) l /\ asked cs R l) <-> (Permutation ids0 l /\ asked cs R l)).
  { intros l. split; intros (A & B); split; auto; [exact (perm_trans P A)|exact (perm_trans (Permutation_sym P) A)]. }
  split; apply how_iff; intros l; [apply X|symmetry; apply X].
Qed.
(** ** Several realizations *)
Fixpoint joint (p : plan) (l : list Z) (c : list (list Z)) : Prop :=
  match p, c with
  | [], [] => True
  | (cs, R) :: p, x :: c => random_choices n x /\ asked cs R (order_of 0 l x) /\ joint p (order_of 0 l x) c
  | _, _ => False
  end.
Lemma how_cons {A} (P : A -> Prop) (Q : A -> list A -> Prop) a b : how_many P a -> (forall x, P x -> how_many (Q x) b) ->
  how_many (fun l => match l with x :: l' => P x /\ Q x l' | [] => False end) (a * b).
Proof.
  intros (X & NX & IX & ->) H. assert (G : forall Y, NoDup Y -> (forall x, In x Y -> P x) -> how_many (fun l => match l with x :: l' => In x Y /\ Q x l' | [] => False end) (Z.of_nat (length Y) * b)).
  { induction Y as [|y Y IH]; intros NY HY.
    - exists []. split; [constructor|]. split; [|reflexivity]. intros [|x l]; cbn; tauto.
    - inversion NY as [|? ? Ny NY']; subst. replace (Z.of_nat (length (y :: Y)) * b) with (b + Z.of_nat (length Y) * b) by (cbn [length]; lia).
      apply (how_iff (fun l => (match l with x :: l' => x = y /\ Q y l' | [] => False end) \/ (match l with x :: l' => In x Y /\ Q x l' | [] => False end))).
      + intros [|x l]; [tauto|]. cbn [In]. split; [intros [(-> & D)|D]; tauto|intros ([->|D] & D'); tauto].
      + apply how_or; [|apply IH; auto; intros x Hx; apply HY; now right|].
        * apply (how_map (Q y) _ (cons y)); [auto| | |apply H, HY; now left].
          -- intros [|x l]; [contradiction|]. intros (-> & D). eauto.
          -- intros l l' _ _ D. now injection D.
        * intros [|x l]; [tauto|]. intros (-> & _) (D & _). contradiction. }
  apply (how_iff (fun l => match l with x :: l' => In x X /\ Q x l' | [] => False end)); [|apply G; auto; intros x Hx; now apply IX].
  intros [|x l]; [tauto|]. now rewrite IX.
Qed.
Lemma perm_order l x : Permutation ids0 l -> Permutation ids0 (order_of 0 l x).
Proof. intros P. eapply perm_trans; [exact P|apply order_of_perm]. Qed.
Lemma one_count l cs R m : Permutation ids0 l -> how_many (fun l => Permutation ids0 l /\ asked cs R l) m -> how_many (fun x => random_choices n x /\ asked cs R (order_of 0 l x)) m.
Proof.
  intros P (Y & NY & IY & ->). destruct (n_len l P) as (Q1 & Q2 & Q3).
  assert (F : forall l', In l' Y -> exists c, random_choices n c /\ order_of 0 l c = l').
  { intros l' Hl. apply IY in Hl as (P' & _). destruct (order_of_onto 0 l l' Q2 ltac:(lia)) as (c & Hc & <-); [|rewrite Q1 in Hc; eauto].
    eapply perm_trans; [apply Permutation_sym; exact P|exact P']. }
  assert (G : exists X, NoDup X /\ map (order_of 0 l) X = Y /\ forall c, In c X -> random_choices n c).
  { clear IY. induction NY as [|l' Y Nl NY IH]; [exists []; split; [constructor|]; split; [reflexivity|intros c []]|]. destruct IH as (X & NX & EX & FX); [intros l'' Hl'; apply F; now right|].
    destruct (F l' (or_introl eq_refl)) as (c & Hc & El). exists (c :: X). split; [|split].
    - constructor; auto. intros I. apply Nl. rewrite <- EX, <- El. now apply in_map.
    - cbn [map]. now rewrite El, EX.
    - intros c' [<-|I]; auto. }
  destruct G as (X & NX & EX & FX). exists X. split; auto. split; [|now rewrite <- EX, map_length]. intros c. split.
  - intros I. split; auto. assert (I' : In (order_of 0 l c) Y) by (rewrite <- EX; now apply in_map). now apply IY in I'.
  - intros (Hc & Ha). assert (I : In (order_of 0 l c) Y) by (apply IY; split; auto; now apply perm_order).
    rewrite <- EX in I. apply in_map_iff in I as (c' & Eq & I). assert (c' = c) as <-; auto. apply (order_of_inj 0 l); rewrite ?Q1; auto.
Qed.
Lemma joint_count p ms : Forall2 (fun q m => how_many (fun l => Permutation ids0 l /\ asked (fst q) (snd q) l) m) p ms ->
  forall l, Permutation ids0 l -> how_many (joint p l) (fold_right Z.mul 1 ms).
Proof.
  induction 1 as [|[cs R] m p ms H1 _ IH]; intros l P.
  - exists [[]]. split; [constructor; [intros []|constructor]|]. split; [|reflexivity]. intros [|x c]; cbn; intuition congruence.
  - cbn [fold_right fst snd] in *. apply (how_iff (fun c => match c with x :: c' => (random_choices n x /\ asked cs R (order_of 0 l x)) /\ joint p (order_of 0 l x) c' | [] => False end)).
    + intros [|x c]; cbn [joint]; tauto.
    + apply how_cons; [now apply one_count|]. intros x _. apply IH. now apply perm_order.
Qed.
Lemma joint_runs d p : Forall (fun q => Forall realizing (fst q) /\ starts (fst q) /\ about_realization (snd q)) p -> forall l t s,
  Permutation ids0 l -> Start k L s -> ids s = fst (random_shuffle (mkEnv ord d) t l) -> tick s = (t + (n - 1))%nat -> do_shuffle s = true ->
  (all_hold (mkEnv ord d) s p <-> joint p l (map (fun j => choices (mkEnv ord d) (t + j * (n - 1)) n) (seq 0 (length p)))).
Proof.
  intros Hp. set (E := mkEnv ord d). induction Hp as [|[cs R] p (Hc & Hs & HR) _ IH]; intros l t s P S Ei Et Ed; [reflexivity|]. cbn [fst snd] in *.
  destruct (n_len l P) as (Q1 & Q2 & Q3).
  assert (Eo : forall t', fst (random_shuffle E t' l) = order_of 0 l (choices E t' n)).
  { intros t'. pose proof (random_shuffle_fair l 0 Q2) as (F & _). unfold order_of, random_shuffle. apply shuffle_from_ext2. replace (pred (length l)) with (n - 1)%nat by lia.
    rewrite <- !choices_draws by auto. symmetry. apply choices_with; auto. now apply choices_valid. }
  cbn [all_hold seq map length joint]. replace (t + 0 * (n - 1))%nat with t by lia.
  pose proof (asked_iff d s cs R S Hc Hs HR) as Ak. fold E in Ak. rewrite Ak, Ei. rewrite Eo. clear Ak.
  set (z := after E s cs). assert (Hz : Inv L z).
  { subst z. pose proof (start_inv _ _ _ S) as H. clear - H Hc Hord. revert s H. induction Hc as [|c cs H1 _ IH]; intros s H; [exact H|]. change (after E s (c :: cs)) with (after E (exec E s c) cs).
    apply IH. apply exec_inv; [exact Hord| |exact H]. now apply realizing_ok. }
  assert (Kq : quad z = quad s) by (apply quad_after; auto; now rewrite (sr_kind _ _ _ S)). unfold quad in Kq. injection Kq as Kk Ki Kd Kt.
  assert (Ek : kind z = k) by (rewrite Kk; apply (sr_kind _ _ _ S)).
  destruct (reset_start E k L z Hz Hk Ek ltac:(congruence)) as (s' & Er & S' & Ei' & Et' & Ed'); [rewrite Ki; apply (sr_perm _ _ _ S)|].
  cbn [exec]. rewrite Er. cbn [fst].
  rewrite (IH (ids z) (tick z) s') by (auto; rewrite Ki; apply (sr_perm _ _ _ S)).
  rewrite Ki, Ei, Eo, Kt, Et. rewrite <- seq_shift, map_map.
  assert (Em : map (fun j => choices E (t + (n - 1) + j * (n - 1)) n) (seq 0 (length p)) = map (fun j => choices E (t + Datatypes.S j * (n - 1)) n) (seq 0 (length p))).
  { apply map_ext. intros j. f_equal. lia. }
  rewrite Em. pose proof (choices_valid E t n Q3). tauto.
Qed.
Lemma draws_exist t (c : list (list Z)) : (1 <= n)%nat -> Forall (random_choices n) c ->
  exists d, forall j, (j < length c)%nat -> choices (mkEnv ord d) (t + j * (n - 1)) n = nth j c [].
Proof.
  intros Hn Hc. exists (fun i => nth ((i - t) mod (n - 1)) (nth ((i - t) / (n - 1)) c []) 0). intros j Hj.
  rewrite Forall_forall in Hc. destruct (Hc (nth j c []) (nth_In _ _ Hj)) as (H1 & H2).
  apply (nth_ext _ _ 0 0); unfold choices; rewrite map_length, seq_length; [auto|]. intros m Hm.
  match goal with |- nth m (map ?f _) 0 = _ => rewrite (nth_indep _ 0 (f 0%nat)) by (rewrite map_length, seq_length; auto); rewrite (map_nth f) end.
  rewrite seq_nth by auto. cbn [e_draw]. change (0 + m)%nat with m.
  set (q := (n - 1)%nat) in *. replace (t + j * q + m - t)%nat with (j * q + m)%nat by (generalize (j * q)%nat; intros; lia).
  rewrite Nat.div_add_l by lia. rewrite Nat.div_small, Nat.add_0_r by auto. rewrite Nat.add_comm, Nat.mod_add by lia. rewrite Nat.mod_small by auto.
  apply Z.mod_small. now apply H2.
Qed.
Lemma jointly_iff t p c : Forall (fun q => Forall realizing (fst q) /\ starts (fst q) /\ about_realization (snd q)) p ->
  (jointly_with ord k L t p c <-> joint p ids0 c).
Proof.
  intros Hp. destruct (n_len ids0 (Permutation_refl _)) as (Q1 & Q2 & Q3).
  assert (G : forall d s, length c = length p -> (forall j, (j < length c)%nat -> choices (mkEnv ord d) (t + j * (n - 1)) n = nth j c []) -> new_perc (mkEnv ord d) k L t = Ok s ->
    (all_hold (mkEnv ord d) s p <-> joint p ids0 c)).
  { intros d s El Ec E1. destruct (new_start _ k L t s HL Hk E1) as (S & Ei & Et & Ed). rewrite (joint_runs d p Hp ids0 t s (Permutation_refl _) S Ei Et Ed).
    replace (map _ _) with c; [reflexivity|]. apply (nth_ext _ _ [] []); [now rewrite map_length, seq_length|]. intros j Hj.
    match goal with |- _ = nth j (map ?f ?l) [] => rewrite (nth_indep (map f l) [] (f 0%nat)) by (rewrite map_length, seq_length; lia); rewrite (map_nth f) end.
    rewrite seq_nth by lia. symmetry. now apply Ec. }
  split.
  - intros (El & Hc & H). destruct (draws_exist t c Q3 Hc) as (d & Ed). destruct (new_perc_ok (mkEnv ord d) k L t HL) as (a1 & a2 & a3 & a4 & E1 & _).
    apply (G d _ El Ed E1). now apply H.
  - intros J. assert (Q : length c = length p /\ Forall (random_choices n) c).
    { clear - J. revert c J. generalize ids0. induction p as [|[cs R] p IH]; intros l [|x c] J; cbn [joint] in J; try contradiction; [split; constructor|].
      destruct J as (J1 & _ & J2). destruct (IH _ _ J2) as (A & B). split; [cbn; lia|now constructor]. }
    destruct Q as (El & Hc). split; auto. split; auto. intros d s Ed E1. now apply (G d s El Ed E1).
Qed.
End Asked.
End Law.

(** ** C111 *)
Lemma plain_kind k : k <> KL1 -> k <> KL2 -> is_L12 k = false.
Proof. destruct k; auto; congruence. Qed.
Lemma p_C111_next ord E0 k L s t cs R m : env_ok E0 -> k <> KL1 -> k <> KL2 -> reachable_no_custom E0 k L s ->
  Forall realizing cs -> starts cs -> about_realization R -> let n := Z.to_nat (L * L) in
  (how_many (realized_with ord n t (made_new k L t) (fun E z => R (after E z cs))) m <->
   how_many (realized_with ord n (tick s) (made_by_reset s) (fun E z => R (after E z cs))) m).
Proof.
  intros HE K1 K2 HR Hc Hs HA n. pose proof (no_custom_seqOK E0 k L s HE K1 K2 HR) as [_ _ S3 S4 _ _].
  pose proof (reachable_k_kind E0 k L s HE (no_custom_k _ _ _ _ HR)) as (H & Ek). pose proof (i_pos _ _ H) as HL. pose proof (plain_kind k K1 K2) as Hk.
  destruct (canon_ex ord k L HL) as (canon & Hcn). unfold n. rewrite (new_count ord k L HL Hk canon Hcn), (reset_count ord k L HL Hk canon Hcn) by auto. reflexivity.
Qed.
Lemma p_C111_joint ord d0 k L t p ms : env_ok (mkEnv ord d0) -> k <> KL1 -> k <> KL2 -> 0 < L ->
  Forall (fun q => Forall realizing (fst q) /\ starts (fst q) /\ about_realization (snd q)) p ->
  Forall2 (fun q m => how_many (realized_with ord (Z.to_nat (L * L)) t (made_new k L t) (fun E z => snd q (after E z (fst q)))) m) p ms ->
  how_many (jointly_with ord k L t p) (fold_right Z.mul 1 ms).
Proof.
  intros Ho K1 K2 HL Hp Hm. pose proof (plain_kind k K1 K2) as Hk. destruct (canon_ex ord k L HL) as (canon & Hcn).
  apply (how_iff (joint ord L canon p (zrange (L * L)))); [intros c; symmetry; now apply (jointly_iff ord k L Ho HL Hk canon Hcn)|].
  apply (joint_count ord L HL canon); auto. clear - HL Hk Hcn Hp Hm. induction Hm as [|q m p ms H1 _ IH]; [constructor|]. apply Forall_cons_iff in Hp as ((A & B & C) & Hp). constructor; auto.
  now apply (new_count ord k L HL Hk canon Hcn t).
Qed.
Lemma about_true : about_realization (fun _ => True).
Proof. intros s s' _ _. exact I. Qed.
Lemma about_seq l : about_realization (fun s => get_site_id_sequence s = l).
Proof. intros s s' (_ & _ & _ & Q & _) H. congruence. Qed.
Lemma any_count ord k L t (cs : list call) : 0 < L ->
  how_many (realized_with ord (Z.to_nat (L * L)) t (made_new k L t) (fun _ _ => True)) (Z.of_nat (fact (Z.to_nat (L * L)))).
Proof.
  intros HL. pose proof (LL_pos L HL). apply (how_iff (random_choices (Z.to_nat (L * L)))); [|apply choices_count; lia]. intros c. unfold realized_with. intuition.
Qed.
Lemma seq_count ord k L t cs l : k <> KL1 -> k <> KL2 -> 0 < L -> Forall realizing cs -> starts cs -> Permutation (zrange (L * L)) l ->
  how_many (realized_with ord (Z.to_nat (L * L)) t (made_new k L t) (fun E z => get_site_id_sequence (after E z cs) = l)) 1.
Proof.
  intros K1 K2 HL H1 H2 P. pose proof (plain_kind k K1 K2) as Hk. destruct (canon_ex ord k L HL) as (canon & Hcn).
  apply (new_count ord k L HL Hk canon Hcn t cs (fun s => get_site_id_sequence s = l)); auto; [apply about_seq|]. exists [l]. split; [constructor; [intros []|constructor]|]. split; [|reflexivity].
  assert (Q : forall l', Permutation (zrange (L * L)) l' -> get_site_id_sequence (after (mkEnv ord (fun _ => 0)) (canon l') cs) = l').
  { intros l' P'. destruct (Hcn l' P') as (S & Ei). assert (Kq : quad (after (mkEnv ord (fun _ => 0)) (canon l') cs) = quad (canon l')) by (apply quad_after; auto; now rewrite (sr_kind _ _ _ S)).
    unfold quad in Kq. unfold get_site_id_sequence. congruence. }
  intros l'. unfold asked. split; [intros [<-|[]]; split; auto|]. intros (P' & E'). rewrite (Q l' P') in E'. now left.
Qed.
Lemma p_C111_sequences ord d0 k L t css ls : env_ok (mkEnv ord d0) -> k <> KL1 -> k <> KL2 -> 0 < L ->
  Forall (fun cs => Forall realizing cs /\ starts cs) css -> length ls = length css -> Forall (Permutation (zrange (L * L))) ls ->
  how_many (jointly_with ord k L t (combine css (map (fun l s => get_site_id_sequence s = l) ls))) 1.
Proof.
  intros Ho K1 K2 HL Hc El Hl.
  replace 1 with (fold_right Z.mul 1 (map (fun _ => 1) ls)) by (clear; induction ls as [|l ls IH]; cbn [map fold_right]; lia).
  apply (p_C111_joint ord d0); auto.
  - clear - Hc. revert ls. induction Hc as [|cs css H1 _ IH]; intros [|l ls]; cbn [combine map]; constructor; auto. cbn [fst snd]. split; [apply H1|]. split; [apply H1|apply about_seq].
  - clear - Hc El Hl HL K1 K2. revert ls El Hl. induction Hc as [|cs css (H1 & H2) _ IH]; intros [|l ls] El Hl; try discriminate; cbn [combine map]; constructor; [|apply IH; [cbn in El; lia|now inversion Hl]].
    cbn [fst snd]. apply seq_count; auto. now inversion Hl.
Qed.
