(** * RulesLaw: the law of a realization of the L1 and L2 classes (C112). *)
From Coq Require Import ZArith List Bool Lia Permutation Znumtheory.
From Verif Require Import Py Lattice Cluster Perc Spec PyFacts Torus Geometry LatFacts Inv Merge Count Fresh Select State Step History Reach RunProps Sim Cycle Unbiased ChanceSpec Chance BreakProps WorldProps Cand IidSpec Iid Couple RulesLawSpec.
Import ListNotations.
Open Scope Z_scope.

(** ** Words taken *)
Definition upto {A} (b : nat) (m : M A) : Prop := forall s, (tick (fst (m s)) <= tick s + b)%nat.
Lemma up_ret {A} (x : A) : upto 0 (ret x). Proof. intros s. cbn. lia. Qed.
Lemma up_raise {A} e : upto 0 (@raise A e). Proof. intros s. cbn. lia. Qed.
Lemma up_lift {A} (r : res A) : upto 0 (lift r). Proof. intros s. cbn. lia. Qed.
Lemma up_need {A} (o : option A) : upto 0 (need o). Proof. destruct o; [apply up_ret|apply up_raise]. Qed.
Lemma up_modify f : (forall s, tick (f s) = tick s) -> upto 0 (modify f). Proof. intros H s. unfold modify. cbn [fst]. rewrite H. lia. Qed.
Lemma up_more {A} a b (m : M A) : (a <= b)%nat -> upto a m -> upto b m. Proof. intros H G s. specialize (G s). lia. Qed.
Lemma up_bind {A B} a b (m : M A) (k : A -> M B) : upto a m -> (forall x, upto b (k x)) -> upto (a + b) (mbind m k).
Proof. intros Hm Hk s. unfold mbind. specialize (Hm s). destruct (m s) as [s1 [x|e]]; cbn [fst] in *; [specialize (Hk x s1); lia|lia]. Qed.
Lemma up_bind0 {A B} b (m : M A) (k : A -> M B) : upto 0 m -> (forall x, upto b (k x)) -> upto b (mbind m k).
Proof. apply (up_bind 0 b). Qed.
Lemma up_get {B} b (k : perc -> M B) : (forall s, upto b (k s)) -> upto b (mbind get k).
Proof. intros H s. apply (H s s). Qed.
Lemma up_randint E a b : upto 1 (randint E a b).
Proof. intros s. unfold randint. destruct (b <? a); cbn; lia. Qed.
Ltac uu := cbv beta zeta; lazymatch goal with
  | |- upto _ (ret _) => apply (up_more 0); [lia|apply up_ret]
  | |- upto _ (raise _) => apply (up_more 0); [lia|apply up_raise]
  | |- upto _ (lift _) => apply (up_more 0); [lia|apply up_lift]
  | |- upto _ (need _) => apply (up_more 0); [lia|apply up_need]
  | |- upto _ (modify _) => apply (up_more 0); [lia|apply up_modify; reflexivity]
  | |- upto _ (mbind get _) => apply up_get; intros ?
  | |- upto (S ?b) (mbind (randint _ _ _) _) => apply (up_bind 1 b); [apply up_randint|intros ?]
  | |- upto _ (mbind _ _) => apply up_bind0; [|intros ?]
  | |- upto _ (match ?x with _ => _ end) => destruct x
  end.
Lemma up_select_id x : upto 0 (select_id x). Proof. unfold select_id. repeat uu. Qed.
Lemma up_drop x : upto 0 (drop_candidate x). Proof. unfold drop_candidate. repeat uu. Qed.
Lemma up_select E : upto 2 (select_site E).
Proof.
  unfold select_site, select_site_L1, select_site_L2, select_site_base. repeat first [apply (up_more 0); [lia|apply up_select_id]|apply (up_more 0); [lia|apply up_drop]|apply up_select_id|apply up_drop|uu].
Qed.
Lemma up_rest E f : upto 0 (place_rest E f).
Proof. unfold place_rest, track_largest_cluster. repeat uu. Qed.
Lemma up_place E : upto 2 (place_one_site E).
Proof. rewrite place_split. apply (up_bind 2 0); [apply up_select|apply up_rest]. Qed.
Lemma up_detect : upto 0 detect_wrapping. Proof. unfold detect_wrapping. repeat uu. Qed.
Lemma up_record : upto 0 record_step. Proof. unfold record_step. repeat uu. Qed.
Lemma up_run_loop E f : upto (2 * f) (run_loop E f).
Proof.
  induction f as [|f IH]; cbn [run_loop]; [uu|]. replace (2 * S f)%nat with (2 + 2 * f)%nat by lia. apply (up_bind 2); [apply up_place|]. intros [|]; [|uu].
  uu. uu; [uu; [uu; [apply up_detect|apply up_record]|uu]|exact IH].
Qed.
Lemma up_test_loop E f : upto (2 * f) (test_run_loop E f).
Proof.
  induction f as [|f IH]; cbn [test_run_loop]; [uu|]. replace (2 * S f)%nat with (2 + 2 * f)%nat by lia. apply (up_bind 2); [apply up_place|]. intros [|]; [|uu].
  uu. uu; [|exact IH]. uu; [apply up_detect|]. uu; [uu; uu; uu|]. uu; [apply up_record|exact IH].
Qed.
Lemma up_sp_loop E f : upto (2 * f) (sp_loop E f).
Proof.
  induction f as [|f IH]; cbn [sp_loop]; [uu|]. replace (2 * S f)%nat with (2 + 2 * f)%nat by lia. apply (up_bind 2); [apply up_place|]. intros [|]; [|uu].
  uu. uu; [|exact IH]. uu; [apply up_detect|]. uu; [|exact IH]. uu. uu; [uu|]. uu; [uu|]. uu; [uu|]. uu. uu; [|exact IH]. uu; uu.
Qed.
Lemma up_exec E c s : realizing c -> (tick (exec E s c) <= tick s + 2 * tries c)%nat.
Proof.
  intros Hc. destruct c; try contradiction; cbn [exec tries].
  - apply up_place.
  - apply up_detect.
  - assert (G : upto (2 * fuel) (run_once E fuel)); [|apply G]. unfold run_once, sp_run_once, run_once_base. uu.
    uu; (replace (2 * fuel)%nat with (2 * fuel + 0)%nat by lia; apply up_bind; [first [apply up_run_loop|apply up_sp_loop]|intros _; uu]).
  - assert (G : upto (2 * fuel) (test_run_once E fuel)); [|apply G]. unfold test_run_once.
    replace (2 * fuel)%nat with (2 * fuel + 0)%nat by lia; apply up_bind; [apply up_test_loop|intros _; uu].
Qed.
Lemma up_after E cs : forall s, Forall realizing cs -> (tick (after E s cs) <= tick s + 2 * all_tries cs)%nat.
Proof.
  induction cs as [|c cs IH]; intros s H; [cbn; lia|]. inversion H; subst. change (after E s (c :: cs)) with (after E (exec E s c) cs).
  specialize (IH (exec E s c)). pose proof (up_exec E c s). cbn [all_tries fold_right]. fold (all_tries cs). intuition lia.
Qed.

(** ** Calls *)
Definition call_m (c : call) (E : env) : M unit := fun s => (exec E s c, Ok tt).
Definition calls_m (cs : list call) (E : env) : M unit := fun s => (after E s cs, Ok tt).
Lemma loc_call c : local (call_m c).
Proof.
  intros E s. destruct (exec_local E s c) as (A & B). unfold call_m. cbn [fst snd]. split; [exact A|]. intros d t Hd. destruct (B d t Hd) as (B1 & _). now rewrite B1.
Qed.
Lemma calls_cons c cs E : calls_m (c :: cs) E = mbind (call_m c E) (fun _ => calls_m cs E).
Proof. reflexivity. Qed.
Lemma loc_calls cs : local (calls_m cs).
Proof.
  induction cs as [|c cs IH]; [exact (loc_ret (fun _ => tt) (fun _ _ => eq_refl))|]. apply (loc_bind (call_m c) (fun E _ => calls_m cs E)); [apply loc_call|intros _; exact IH].
Qed.
Section Law.
Variable Mx : Z.
Hypothesis HM : 0 < Mx.
Variable ord : list Z -> list Z.
Variable n : Z.
Hypothesis Hn : forall m, 1 <= m <= n -> (m | Mx).
Lemma cp_call c : realizing c -> coup Mx ord (cand n) (cand n) (2 * tries c) (call_m c) (call_m c).
Proof.
  intros Hc. assert (G : forall A (m : env -> M A) b, coup Mx ord (cand n) (cand n) b m m -> coup Mx ord (cand n) (cand n) b (fun E s => (fst (m E s), Ok tt)) (fun E s => (fst (m E s), Ok tt))).
  { intros A m b (L1 & _ & H). assert (Lo : local (fun E s => (fst (m E s), Ok tt))).
    { intros E s. destruct (L1 E s) as (A1 & A2). cbn [fst snd]. split; [exact A1|]. intros d t Hd. now rewrite (A2 d t Hd). }
    split; auto. split; auto. intros s s' R W K K' HW HK. exact (H s s' R W (fun j z _ w => K j z (Ok tt) w) (fun j z _ w => K' j z (Ok tt) w) HW (fun j z z' _ Hj Rz => HK j z z' (Ok tt) Hj Rz)). }
  destruct c; try contradiction; cbn [tries].
  - apply (G bool place_one_site 2%nat). now apply cp_place.
  - apply (G bool (fun _ => detect_wrapping) 0%nat). now apply cp_detect.
  - apply (G unit (fun E => run_once E fuel)). now apply cp_run.
  - apply (G unit (fun E => test_run_once E fuel)). now apply cp_test_run.
Qed.
Lemma cp_calls cs : Forall realizing cs -> coup Mx ord (cand n) (cand n) (2 * all_tries cs) (calls_m cs) (calls_m cs).
Proof.
  induction cs as [|c cs IH]; intros H.
  - apply (cp_trip Mx ord (cand n) (cand n) (calls_m []) (calls_m []) (ret tt) (ret tt)); [apply loc_calls|apply loc_calls|reflexivity|reflexivity|]. apply tr_ret. auto.
  - inversion H; subst. cbn [all_tries fold_right]. fold (all_tries cs). replace (2 * (tries c + all_tries cs))%nat with (2 * tries c + 2 * all_tries cs)%nat by lia.
    apply (cp_bind Mx ord (cand n) (cand n) (cand n) _ _ (call_m c) (call_m c) (fun E _ => calls_m cs E) (fun E _ => calls_m cs E)); [auto|now apply cp_call|]. intros _. now apply IH.
Qed.
Lemma put_y a s : kind s = KL2 -> y_occ s = y_occ (put a s).
Proof. destruct s as [k]. cbn [kind]. intros ->. reflexivity. Qed.
Lemma put_rec a s : kind s = KL1 -> record s = record (put a s).
Proof. destruct s as [k]. cbn [kind]. intros ->. reflexivity. Qed.
Lemma rel_growth s s' : relC (cand n) s s' -> same_growth s s'.
Proof.
  intros (a & -> & K & (C1 & C2 & C3 & C4 & C5)). unfold same_growth. do 22 (split; [reflexivity|]). split; [apply put_y|]. split; [apply put_rec|exact C5].
Qed.
Lemma drawing_iff W s cs R w : Forall realizing cs -> (2 * all_tries cs <= W)%nat -> words Mx W w ->
  (drawing ord Mx W s cs R w <-> R (after (fed ord (tick s) w) s cs)).
Proof.
  intros Hc HW Hw. split.
  - intros (_ & H). apply (H (e_draw (fed ord (tick s) w))). intros i Hi. cbn [fed e_draw]. f_equal. lia.
  - intros H. split; auto. intros d Hd. destruct (loc_calls cs (fed ord (tick s) w) s) as (_ & G). specialize (G d (tick s)).
    rewrite set_tick_id in G. unfold calls_m in G. cbn [fst snd] in G. pose proof (up_after (fed ord (tick s) w) cs s Hc) as U.
    change (e_ord (fed ord (tick s) w)) with ord in G. set (z := after (fed ord (tick s) w) s cs) in *.
    assert (Q : (after (mkEnv ord d) s cs, Ok tt) = (set_tick (tick s + (tick z - tick s)) z, @Ok unit tt)).
    { apply G. intros i Hi. rewrite Hd by lia. cbn [fed e_draw]. f_equal. lia. }
    apply (f_equal fst) in Q. cbn [fst] in Q. rewrite Q. destruct (loc_calls cs (fed ord (tick s) w) s) as (T & _). unfold calls_m in T. cbn [fst] in T. fold z in T.
    replace (tick s + (tick z - tick s))%nat with (tick z) by lia. now rewrite set_tick_id.
Qed.
Lemma growth_sym s s' : same_growth s s' -> same_growth s' s.
Proof.
  unfold same_growth. intros H. repeat match goal with H : _ /\ _ |- _ => destruct H end. repeat split; auto; try (intros; symmetry; match goal with H : _ -> _ = _ |- _ => apply H; congruence end). now apply Permutation_sym.
Qed.
Lemma law_same W s s' cs R m : Forall realizing cs -> (2 * all_tries cs <= W)%nat -> about_growth R -> relC (cand n) s s' ->
  how_many (drawing ord Mx W s cs R) m -> how_many (drawing ord Mx W s' cs R) m.
Proof.
  intros Hc HW HR Rs. destruct (cp_calls cs Hc) as (_ & _ & C). destruct (C s s' Rs W (fun _ z _ _ => R z) (fun _ z _ _ => R z) HW) as (g & h & G & H).
  { intros j z z' r _ Rz. apply bij_id. intros w _. pose proof (rel_growth z z' Rz) as Q. split; apply HR; auto. now apply growth_sym. }
  assert (D : forall z w, words Mx W w -> (drawing ord Mx W z cs R w <-> run1 ord (calls_m cs) z (fun _ z _ _ => R z) w)) by (intros z w Hw; now apply drawing_iff).
  apply (how_map _ _ g).
  - intros w Dw. pose proof (proj1 Dw) as Hw. apply (D s w Hw) in Dw. destruct (G w Hw Dw) as (A & B & _). now apply D.
  - intros w Dw. pose proof (proj1 Dw) as Hw. apply (D s' w Hw) in Dw. destruct (H w Hw Dw) as (A & B & E). exists (h w). split; auto. now apply D.
  - intros w w' Dw Dw' E. pose proof (proj1 Dw) as Hw. apply (D s w Hw) in Dw. pose proof (proj1 Dw') as Hw'. apply (D s w' Hw') in Dw'.
    destruct (G w Hw Dw) as (_ & _ & E1). destruct (G w' Hw' Dw') as (_ & _ & E2). congruence.
Qed.
End Law.

(** ** The first placement forgets the last selection *)
Lemma select_blind12 E L z a b : FreshState L z -> ids z <> [] -> is_L12 (kind z) = true -> select_site E (put_sel a b z) = select_site E z.
Proof.
  intros F N I. pose proof (fresh_inv _ _ F) as H. pose proof (inv_selhyp _ _ H) as SH. pose proof (LL_pos L (i_pos _ _ H)) as HLL.
  assert (SH' : SelHyp L (put_sel a b z)) by (destruct SH; constructor; auto).
  rewrite (select_ok E L (put_sel a b z)) by (auto; exact (fs_mi _ _ F)). rewrite (select_ok E L z) by (auto; exact (fs_mi _ _ F)).
  assert (Zl : 0 < zlen (ids z)). { destruct (ids z); [easy|]. unfold zlen. cbn [length]. lia. }
  pose proof (fs_cur _ _ F) as Hc. pose proof (fr_site _ _ (fs_lat _ _ F)) as Hs.
  assert (XS : is_site L (candX E z)) by (apply candX_site; [apply (fs_ids _ _ F)|lia]).
  assert (U : occb (lat z) (candX E z) = false) by (destruct (Hs _ XS) as (Q & _); unfold occb; now rewrite Q).
  unfold sel. change (kind (put_sel a b z)) with (kind z). destruct (kind z) eqn:Ek; try discriminate.
  - unfold sel1. change (cur_idx (put_sel a b z)) with (cur_idx z). change (ids (put_sel a b z)) with (ids z). change (lat (put_sel a b z)) with (lat z).
    change (candX E (put_sel a b z)) with (candX E z). rewrite Hc. destruct (Z.leb_spec (L * L) 0); [lia|]. destruct (Z.leb_spec (zlen (ids z)) 0); [lia|]. cbv zeta. rewrite U. reflexivity.
  - unfold sel2. change (cur_idx (put_sel a b z)) with (cur_idx z). change (ids (put_sel a b z)) with (ids z). change (lat (put_sel a b z)) with (lat z).
    change (candX E (put_sel a b z)) with (candX E z). rewrite Hc. destruct (Z.leb_spec (L * L) 0); [lia|]. destruct (Z.leb_spec (zlen (ids z)) 0); [lia|]. cbv zeta. rewrite U. reflexivity.
Qed.
Lemma first_blind12 E L z a b c : FreshState L z -> ids z <> [] -> is_L12 (kind z) = true -> starts [c] -> exec E (put_sel a b z) c = exec E z c.
Proof.
  intros F N K Hc. assert (G : place_one_site E (put_sel a b z) = place_one_site E z) by (unfold place_one_site; unfold mbind at 1; rewrite (select_blind12 E L) by auto; reflexivity).
  destruct c as [| | | | | |[|f]|[|f]]; try contradiction; cbn [exec].
  - now rewrite G.
  - f_equal. change (run_once E (S f) (put_sel a b z)) with ((match kind z with KSP => sp_run_once E (S f) | _ => run_once_base E (S f) end) (put_sel a b z)).
    change (run_once E (S f) z) with ((match kind z with KSP => sp_run_once E (S f) | _ => run_once_base E (S f) end) z).
    destruct (kind z); unfold run_once_base, sp_run_once; apply mbind_same; cbn [run_loop sp_loop]; apply mbind_same; exact G.
  - f_equal. unfold test_run_once. apply mbind_same. cbn [test_run_loop]. apply mbind_same. exact G.
Qed.

(** ** At the start of a realization *)
Record Start12 (k : pkind) (L : Z) (s : perc) : Prop := mkS12 {
  s2_fresh : FreshState L s; s2_kind : kind s = k; s2_arrs : h_arr s = [] /\ pw_arr s = [] /\ pl_arr s = []; s2_x : x_occ s = 0; s2_y : k = KL2 -> y_occ s = 0; s2_rec : k = KL1 -> record s = []; s2_ids : ids s <> [] }.
Definition kept (s : perc) := (kind s, lat s, pool s, (sel_id s, cur_site s), occ_count s, cluster_count s, cur_idx s, (largest_sz s, largest_id s), (after_wrap s, wid s, pc_occ s, pc_bonds s, pc_sites s), (max_ent s, ent s, sel_flag s), (h_arr s, pw_arr s, pl_arr s), (x_occ s, y_occ s, record s)).
Definition stays {A} (m : M A) : Prop := forall s, kept (fst (m s)) = kept s /\ (ids s <> [] -> ids (fst (m s)) <> []).
Lemma sy_ret {A} (x : A) : stays (ret x). Proof. intros s. split; auto. Qed.
Lemma sy_raise {A} e : stays (@raise A e). Proof. intros s. split; auto. Qed.
Lemma sy_lift {A} (r : res A) : stays (lift r). Proof. intros s. split; auto. Qed.
Lemma sy_bind {A B} (m : M A) (k : A -> M B) : stays m -> (forall x, stays (k x)) -> stays (mbind m k).
Proof. intros Hm Hk s. unfold mbind. specialize (Hm s). destruct (m s) as [s1 [x|e]]; cbn [fst] in *; auto. specialize (Hk x s1). destruct Hm, Hk. split; [congruence|auto]. Qed.
Lemma sy_get {B} (k : perc -> M B) : (forall s, stays (k s)) -> stays (mbind get k).
Proof. intros H s. apply (H s s). Qed.
Lemma sy_modify f : (forall s, kept (f s) = kept s) -> (forall s, ids s <> [] -> ids (f s) <> []) -> stays (modify f).
Proof. intros H G s. unfold modify. cbn [fst]. auto. Qed.
Ltac ss := cbv beta zeta; lazymatch goal with
  | |- stays (ret _) => apply sy_ret
  | |- stays (raise _) => apply sy_raise
  | |- stays (lift _) => apply sy_lift
  | |- stays (mbind get _) => apply sy_get; intros ?
  | |- stays (mbind _ _) => apply sy_bind; [|intros ?]
  | |- stays (modify _) => apply sy_modify; [reflexivity|auto]
  | |- stays (match ?x with _ => _ end) => destruct x
  end.
Lemma sy_rev : stays (do s <~ get ; do rv <~ lift (foldM (fun rv i => a <- lget (ids s) i ;; lset rv a i) (zrange (zlen (ids s))) (rev_ids s)) ; modify (set_rev rv)).
Proof. repeat ss. Qed.
Lemma sy_shuffle E : stays (shuffle E).
Proof.
  intros s. assert (P := random_shuffle_perm E (tick s) (ids s)). 
  assert (Es : shuffle E s = (if mode_custom s && negb (do_shuffle s) then (s, Ok tt) else if do_shuffle s then
    (do s <~ get ; do rv <~ lift (foldM (fun rv i => a <- lget (ids s) i ;; lset rv a i) (zrange (zlen (ids s))) (rev_ids s)) ; modify (set_rev rv)) (set_tick (snd (random_shuffle E (tick s) (ids s))) (mutate_ids (fst (random_shuffle E (tick s) (ids s))) s))
    else (s, Ok tt))).
  { unfold shuffle. unfold mbind at 1, get at 1. destruct (mode_custom s && negb (do_shuffle s)); [reflexivity|]. destruct (do_shuffle s); [|reflexivity]. destruct (random_shuffle E (tick s) (ids s)) as [l t]. reflexivity. }
  rewrite Es. destruct (mode_custom s && negb (do_shuffle s)); [split; auto|]. destruct (do_shuffle s); [|split; auto].
  set (l := fst (random_shuffle E (tick s) (ids s))) in *. destruct (sy_rev (set_tick (snd (random_shuffle E (tick s) (ids s))) (mutate_ids l s))) as (G1 & G2). split; [exact G1|]. intros N. apply G2.
  cbn [ids set_tick mutate_ids rebind_ids]. intros El. apply N. apply Permutation_nil. rewrite <- El. now apply Permutation_sym.
Qed.
Lemma sy_install E l ul sh b : l <> [] -> stays (run modify (rebind_ids l ul sh) ; run modify (set_custom (zlen l) true b) ; shuffle E).
Proof. intros N. ss; [apply sy_modify; [reflexivity|intros; exact N]|]. ss; [ss|]. apply sy_shuffle. Qed.
Lemma sy_list E c : list_call c -> forall s, kept (exec E s c) = kept s /\ (ids s <> [] -> ids (exec E s c) <> []).
Proof.
  intros Hc. destruct c; try contradiction; cbn [exec].
  - cut (stays (set_custome_site_id_list E l sh)); [intros G s; apply G|]. unfold set_custome_site_id_list. ss. destruct l as [|h t]; [intros z; split; auto|]. ss; [ss|]. ss; [ss|]. ss; [ss|]. now apply sy_install.
  - cut (stays (set_custome_site_index_list E l sh)); [intros G s; apply G|]. unfold set_custome_site_index_list. ss. destruct (map (calculate_id_from_index (lat s)) l) as [|h t]; [intros z; split; auto|]. ss; [ss|]. ss; [ss|]. ss; [ss|]. now apply sy_install.
  - intros s. assert (Q : forall l i v l', @lset Z l i v = Ok l' -> l <> [] -> l' <> []) by (intros l i v l'; unfold lset; destruct (py_pos (zlen l) i) as [j|]; [|discriminate]; intros [= <-] N C; apply N; apply length_zero_iff_nil; rewrite <- (upd_length l j v), C; reflexivity).
    unfold swap_ids. destruct (a =? b); [split; auto|]. unfold mbind, get, lift, modify. destruct (lget (rev_ids s) a) as [i1|]; [|split; auto]. destruct (lget (rev_ids s) b) as [i2|]; [|split; auto].
    destruct (lset (ids s) i1 b) as [l1|] eqn:E1; [|split; auto]. destruct (lset l1 i2 a) as [l2|] eqn:E2; [|split; [reflexivity|intros N; exact (Q _ _ _ _ E1 N)]].
    assert (N2 : ids s <> [] -> l2 <> []) by (intros N; exact (Q _ _ _ _ E2 (Q _ _ _ _ E1 N))).
    destruct (lset (rev_ids s) b i1) as [r1|]; [|split; [reflexivity|exact N2]]. destruct (lset r1 a i2) as [r2|]; (split; [reflexivity|exact N2]).
Qed.
Lemma reset_xy E s s' : reset E s = (s', Ok tt) -> is_L12 (kind s') = true -> x_occ s' = 0 /\ (kind s' = KL2 -> y_occ s' = 0).
Proof.
  unfold reset. unfold mbind at 1. destruct (reset_base E s) as [s1 [u|e]]; [|discriminate]. unfold mbind at 1, get at 1. destruct (kind s1) eqn:Ek; unfold mbind, modify, ret; intros [= <-]; try (cbn; rewrite ?Ek; discriminate).
  - intros _. split; [reflexivity|]. intros K. cbn [kind set_record set_xy rebind_ids] in K. rewrite Ek in K. discriminate.
  - intros _. split; [reflexivity|]. reflexivity.
Qed.
Section Starts.
Variables (ord : list Z -> list Z) (k : pkind) (L : Z).
Hypothesis Hord : env_ok (mkEnv ord (fun _ => 0)).
Hypothesis HL : 0 < L.
Hypothesis Hk : is_L12 k = true.
Lemma zr_ne : zrange (L * L) <> [].
Proof. pose proof (LL_pos L HL) as H. intros E. pose proof (zlen_zrange (L * L) ltac:(lia)) as Q. rewrite E in Q. cbn in Q. lia. Qed.
Lemma start12 s : at_start ord k L s -> Start12 k L s.
Proof.
  induction 1 as [d t s E0|E s d s' HE HR Er|d s c _ IH Hc Ho].
  - pose proof (new_perc_fresh _ k L t s E0) as F. destruct (new_perc_ok (mkEnv ord d) k L t HL) as (lat1 & l & t' & rv & E1 & _ & P & _). rewrite E1 in E0. injection E0 as <-. constructor; auto.
    cbn. intros ->. apply zr_ne. apply Permutation_nil. now apply Permutation_sym.
  - pose proof (reachable_inv E L s HE (ex_intro _ k HR)) as H. destruct (reset_inv (mkEnv ord d) L s H) as (z & Ez & R). rewrite Er in Ez. injection Ez as <-.
    assert (Ek : kind s = k) by (apply (RunProps.reachable_k_kind E k L s HE HR)).
    assert (K' : kind s' = k) by (rewrite (rt_kind _ _ _ R); exact Ek). destruct (reset_xy _ _ _ Er) as (X & Y); [now rewrite K'|].
    pose proof (rt_ids _ _ _ R) as I. rewrite Ek, Hk in I. constructor; auto; [apply (rt_fresh _ _ _ R)|apply (rt_arrs _ _ _ R)|intros ->; apply Y; exact K'| |destruct I as (-> & _); apply zr_ne].
    intros ->. rewrite (rt_record _ _ _ R), Ek. reflexivity.
  - destruct IH as [F K1 (A1 & A2 & A3) X Y Rc N]. destruct (sy_list (mkEnv ord d) c Hc s) as (Q & N'). pose proof (exec_inv (mkEnv ord d) L s c Hord Ho (fresh_inv _ _ F)) as H.
    set (z := exec (mkEnv ord d) s c) in *. unfold kept in Q. injection Q as Q1 Q2 Q3 Q4 Q5 Q6 Q7 Q8 Q9 Q10 Q11 Q12 Q13 Q14 Q15 Q16 Q17 Q18 Q19 Q20 Q21 Q22 Q23 Q24.
    destruct F as [F1 F2 F3 F4 F5 F6 F7 F8 F9 F10 F11 F12 F13 F14 F15].
    constructor; [constructor|..].
    all: try solve [congruence|auto|apply (i_ids _ _ H)|apply (i_rev _ _ H)|apply (i_rev0 _ _ H)|rewrite Q4, Q5; exact F6|intros K2; exfalso; rewrite Q1, K1, Hk in K2; discriminate|rewrite Q9, Q10; exact F11|repeat split; congruence|rewrite Q11, Q12, Q13, Q14, Q15; exact F12|intros E; rewrite Q23; auto|intros E; rewrite Q24; auto].
Qed.
End Starts.

(** ** The law does not depend on how the realization was started *)
Section Same.
Variables (ord : list Z -> list Z) (k : pkind) (L : Z) (Mx : Z).
Hypothesis HL : 0 < L.
Hypothesis Hk : is_L12 k = true.
Hypothesis HF : fair Mx (L * L).
Lemma forget E s c cs : Start12 k L s -> starts (c :: cs) -> after E s (c :: cs) = after E (put_sel None None s) (c :: cs).
Proof.
  intros S Hs. assert (Hs' : starts [c]) by (destruct c; try contradiction; exact Hs).
  change (after E (exec E s c) cs = after E (exec E (put_sel None None s) c) cs). rewrite (first_blind12 E L s); auto; [apply (s2_fresh _ _ _ S)|apply (s2_ids _ _ _ S)|now rewrite (s2_kind _ _ _ S)].
Qed.
Lemma rel_start s s' : Start12 k L s -> Start12 k L s' -> NoDup (ids s) -> Permutation (ids s) (ids s') -> relC (cand (L * L)) (put_sel None None s) (put_sel None None s').
Proof.
  intros [F1 K1 (A1 & A2 & A3) X1 Y1 R1 N1] [F2 K2 (A4 & A5 & A6) X2 Y2 R2 N2] Nd P.
  assert (Zl : zlen (ids s) <= L * L).
  { assert (I : incl (ids s) (zrange (L * L))) by (intros x Hx; apply In_zrange; exact (proj1 (Forall_forall _ _) (fs_ids _ _ F1) x Hx)).
    pose proof (NoDup_incl_length Nd I) as Q. pose proof (zlen_zrange (L * L) ltac:(pose proof (LL_pos L HL); lia)) as Q2. unfold zlen in *. lia. }
  assert (Cd : cand (L * L) (cur_idx s) (ids s) (ids s')) by (rewrite (fs_cur _ _ F1); repeat split; auto; [lia|now apply Permutation_length]).
  pose proof (fresh_unique L _ _ (fs_lat _ _ F1) (fs_lat _ _ F2)) as El.
  exists (aux_of s'). split; [|split; [cbn; now rewrite K1|exact Cd]].
  destruct F1 as [_ B1 _ _ _ _ B2 B3 B4 _ (B5 & B6) (B7 & B8 & B9 & B10 & B11) B12 B13 B14], F2 as [_ C1 _ _ _ _ C2 C3 C4 _ (C5 & C6) (C7 & C8 & C9 & C10 & C11) C12 C13 C14].
  clear Cd Zl P Nd N1 N2. destruct s, s'.
  cbn [Perc.kind Perc.lat Perc.pool Perc.ids Perc.rev_ids Perc.cur_idx Perc.occ_count Perc.pc_occ Perc.cur_site Perc.sel_id Perc.sel_flag Perc.cluster_count Perc.largest_sz Perc.largest_id Perc.max_ent Perc.ent Perc.after_wrap Perc.wid Perc.first_run Perc.p_arr Perc.h_arr Perc.pw_arr Perc.pl_arr Perc.max_iter Perc.mode_custom Perc.do_shuffle Perc.pc_bonds Perc.pc_sites Perc.x_occ Perc.y_occ Perc.record Perc.sp_p Perc.user_list Perc.ids_shared Perc.tick] in *.
  subst. destruct k; try discriminate; [rewrite (R1 eq_refl), (R2 eq_refl)|rewrite (Y1 eq_refl), (Y2 eq_refl)]; reflexivity.
Qed.
Lemma law_starts W s s' cs R m : Start12 k L s -> Start12 k L s' -> NoDup (ids s) -> Permutation (ids s) (ids s') ->
  Forall realizing cs -> starts cs -> (2 * all_tries cs <= W)%nat -> about_growth R ->
  how_many (drawing ord Mx W s cs R) m -> how_many (drawing ord Mx W s' cs R) m.
Proof.
  intros S1 S2 Nd P Hc Hs HW HR H. destruct cs as [|c cs]; [contradiction|]. destruct HF as (HM & _ & Hn).
  assert (G : forall z, Start12 k L z -> forall w, drawing ord Mx W z (c :: cs) R w <-> drawing ord Mx W (put_sel None None z) (c :: cs) R w).
  { intros z Sz w. unfold drawing. change (tick (put_sel None None z)) with (tick z). split; intros (A & B); (split; [exact A|]); intros d Hd; specialize (B d Hd); [rewrite <- (forget _ z c cs Sz Hs)|rewrite (forget _ z c cs Sz Hs)]; exact B. }
  apply (how_iff (drawing ord Mx W (put_sel None None s') (c :: cs) R)); [intros w; symmetry; now apply G|].
  apply (law_same Mx HM ord (L * L) Hn W (put_sel None None s)); auto; [now apply rel_start|].
  apply (how_iff (drawing ord Mx W s (c :: cs) R)); [intros w; now apply G|exact H].
Qed.
End Same.
Lemma p_C112_law ord Mx k L s s' cs R W m : env_ok (mkEnv ord (fun _ => 0)) -> 0 < L -> k = KL1 \/ k = KL2 -> fair Mx (L * L) ->
  at_start ord k L s -> at_start ord k L s' -> NoDup (ids s) -> Permutation (ids s) (ids s') ->
  Forall realizing cs -> starts cs -> (2 * all_tries cs <= W)%nat -> about_growth R ->
  (how_many (drawing ord Mx W s cs R) m <-> how_many (drawing ord Mx W s' cs R) m).
Proof.
  intros HO HL Hk HF A1 A2 Nd P Hc Hs HW HR. assert (K : is_L12 k = true) by (destruct Hk as [-> | ->]; reflexivity).
  pose proof (start12 ord k L HO HL K s A1) as S1. pose proof (start12 ord k L HO HL K s' A2) as S2.
  split; apply (law_starts ord k L Mx); auto; [eapply Permutation_NoDup; eauto|now apply Permutation_sym].
Qed.
