(** * BreakMoreProps: any call broken off (proofs for Props_BreakMore.v). *)
From Coq Require Import ZArith List Bool Lia Permutation.
From Verif Require Import Py Lattice Cluster Perc Spec PyFacts Torus Geometry LatFacts Inv Merge Fresh Select State Step History Reach Break BreakFacts BreakReset BreakKeep BreakSpec RunProps Demo Count SymSpec Critical Describe Drive Real Entropy Micro BreakProps Seq RunBase StateProps BreakMore BreakMoreSpec BreakMoreFacts.
Import ListNotations.
Open Scope Z_scope.

(** ** [reset] does not look at the number of sites that may be placed *)
Definition put_mi (c : Z) (s : perc) : perc := set_custom c (mode_custom s) (do_shuffle s) s.
Definition dull {A} (m : M A) : Prop := forall c s, m (put_mi c s) = (put_mi c (fst (m s)), snd (m s)).
Lemma dull_ret {A} (x : A) : dull (ret x).
Proof. intros c s. reflexivity. Qed.
Lemma dull_lift {A} (x : res A) : dull (lift x).
Proof. intros c s. reflexivity. Qed.
Lemma dull_modify f : (forall c s, f (put_mi c s) = put_mi c (f s)) -> dull (modify f).
Proof. intros H c s. unfold modify. cbn [fst snd]. now rewrite H. Qed.
Lemma dull_bind {A C} (m : M A) (k : A -> M C) : dull m -> (forall a, dull (k a)) -> dull (mbind m k).
Proof. intros Hm Hk c s. unfold mbind. rewrite (Hm c s). destruct (m s) as [s1 [x|e]]; cbn [fst snd]; [apply Hk|reflexivity]. Qed.
Lemma dull_get {C} (k : perc -> M C) : (forall c s, k (put_mi c s) = k s) -> (forall s, dull (k s)) -> dull (mbind get k).
Proof. intros H Hk c s. unfold mbind, get. rewrite H. apply Hk. Qed.
Ltac du := lazymatch goal with
  | |- dull (ret _) => apply dull_ret
  | |- dull (lift _) => apply dull_lift
  | |- dull (mbind get _) => apply dull_get; [reflexivity|intro]
  | |- dull (mbind _ _) => apply dull_bind; [|intro]
  | |- dull (modify _) => apply dull_modify; reflexivity
  | |- dull (match ?b with _ => _ end) => destruct b
  end.
Lemma dull_shuffle E : dull (shuffle E).
Proof. unfold shuffle. repeat du. Qed.
Lemma dull_reset E : dull (reset E).
Proof. unfold reset, reset_base. repeat first [du | apply dull_shuffle]. Qed.
Lemma put_mi_id s : put_mi (max_iter s) s = s.
Proof. destruct s. reflexivity. Qed.
Lemma put_mi_mi a b s : put_mi a (put_mi b s) = put_mi a s.
Proof. reflexivity. Qed.
Lemma firm_recovers E L k s : Firm L k s ->
  exists z, reset E s = (put_mi (max_iter s) (put_sel (sel_id s) (cur_site s) z), Ok tt) /\ ResetTo L (put_sel None None (put_mi (zlen (ids s)) s)) z.
Proof.
  intros F. set (t := put_mi (zlen (ids s)) s). assert (St : Sound L t t) by (destruct F as [[] K N]; constructor; auto).
  destruct (recover E L t t) as (z & Er & R); [intros _; reflexivity|exact St|]. exists z. split; auto.
  assert (Es : s = put_mi (max_iter s) t). { unfold t. rewrite put_mi_mi. symmetry. apply put_mi_id. }
  rewrite Es at 1. rewrite dull_reset, Er. reflexivity.
Qed.
Lemma firm_ids L k s z : Firm L k s -> ResetTo L (put_sel None None (put_mi (zlen (ids s)) s)) z ->
  kind z = k /\ (k = KL1 \/ k = KL2 -> ids z = zrange (L * L)) /\ (k <> KL1 -> k <> KL2 -> Permutation (ids s) (ids z)).
Proof.
  intros F R. pose proof (rt_kind _ _ _ R) as K. pose proof (rt_ids _ _ _ R) as P. cbn [kind put_sel put_mi set_custom set_cur_site set_sel_id ids] in K, P.
  rewrite (fi_kind _ _ _ F) in K, P. split; auto. split.
  - intros [->| ->]; apply P.
  - intros N1 N2. assert (Hb : is_L12 k = false) by (destruct k; auto; easy). rewrite Hb in P. apply P.
Qed.
Lemma firm_nonempty L k s z : Firm L k s -> ResetTo L (put_sel None None (put_mi (zlen (ids s)) s)) z -> ids z <> [] /\ (is_L12 (kind z) = true -> ids z = zrange (L * L)).
Proof.
  intros F R. destruct (firm_ids L k s z F R) as (K & A & B). rewrite K.
  assert (C : is_L12 k = true -> ids z = zrange (L * L)) by (intros X; apply A; destruct k; auto; discriminate). split; auto.
  destruct (is_L12 k) eqn:Ek.
  - rewrite C by auto. apply zrange_nonempty. apply (st_pos _ _ (so_static _ _ _ (fi_sound _ _ _ F))).
  - intros X. assert (P : Permutation (ids s) (ids z)) by (apply B; destruct k; discriminate). rewrite X in P. apply Permutation_sym, Permutation_nil in P.
    now apply (fi_ids _ _ _ F).
Qed.
Lemma firm_like L s z : ResetTo L (put_sel None None (put_mi (zlen (ids s)) s)) z -> forall E' k' t0 s0, new_perc E' k' L t0 = Ok s0 -> like_new z s0.
Proof.
  intros R E' k' t0 s0 E0. assert (F0 : FreshState L s0) by (eapply new_perc_fresh; eauto).
  assert (A0 : h_arr s0 = [] /\ pw_arr s0 = [] /\ pl_arr s0 = [] /\ p_arr s0 = []).
  { pose proof (new_perc_pos _ _ _ _ _ E0) as HL. destruct (new_perc_ok E' k' L t0 HL) as (lat1 & l & t & rv & E1 & _). rewrite E1 in E0. injection E0 as <-. auto. }
  destruct A0 as (A1 & A2 & A3 & A4). destruct R as [R1 R2 _ _ _ _ R7 _ _ _ _].
  destruct R1 as [f1 f2 f3 f4 f4' f5 f6 f7 f8 f9 f10 f11 f12 f13 f14].
  destruct F0 as [g1 g2 g3 g4 g4' g5 g6 g7 g8 g9 g10 g11 g12 g13 g14].
  destruct R7 as (r1 & r2 & r3 & r4). destruct f10, g10. destruct f11 as (? & ? & ? & ? & ?). destruct g11 as (? & ? & ? & ? & ?).
  split; [eapply fresh_unique; eauto|]. repeat (split; [congruence|]). congruence.
Qed.

Section Here.
Variables (E : env) (k : pkind) (L : Z) (s : perc) (cs : list (acall * nat)).
Hypothesis HE : env_ok E.
Hypothesis HR : reachable_k E k L s.
Hypothesis Hcs : Forall (fun c => acall_ok L (fst c)) cs.
Let i := leaves_all E cs (whole s).
Lemma firm_here : Firm L k (obj i).
Proof. apply firm_leaves_all; auto. cbn [obj whole]. exact (firm_reachable E k L s HE HR). Qed.
End Here.

Lemma p_C116_recover E k L s cs : env_ok E -> reachable_k E k L s -> Forall (fun c => acall_ok L (fst c)) cs ->
  let i := leaves_all E cs (whole s) in complete i ->
  exists s', reset E (obj i) = (s', Ok tt) /\
  (exists m, forall n, (m <= n)%nat -> b_reset E i n = (whole s', (n - m)%nat, Fin (Ok tt))) /\
  kind s' = k /\ (k = KL1 \/ k = KL2 -> ids s' = zrange (L * L)) /\ (k <> KL1 -> k <> KL2 -> Permutation (ids (obj i)) (ids s') /\ accepted L (ids s')) /\
  max_iter s' = max_iter (obj i) /\ mode_custom s' = mode_custom (obj i) /\ do_shuffle s' = do_shuffle (obj i) /\
  (first_run (obj i) = true -> p_arr s' = []) /\
  forall E' k' t0 s0, new_perc E' k' L t0 = Ok s0 -> like_new s' s0.
Proof.
  intros HE HR Hcs i Ci. pose proof (firm_here E k L s cs HE HR Hcs) as F. fold i in F. destruct (firm_recovers E L k (obj i) F) as (z & Er & R).
  set (s' := put_mi (max_iter (obj i)) (put_sel (sel_id (obj i)) (cur_site (obj i)) z)) in *.
  exists s'. split; auto. split.
  - pose proof (does_reset E (obj i) s' (so_alias _ _ _ (fi_sound _ _ _ F)) Er) as (m & _ & M). rewrite (whole_obj i Ci) in M. exists m. exact M.
  - destruct (firm_ids L k (obj i) z F R) as (K1 & K2 & K3). split; [exact K1|]. split; [exact K2|]. split.
    { intros N1 N2. split; [exact (K3 N1 N2)|]. split; [exact (proj1 (firm_nonempty L k (obj i) z F R))|exact (fs_ids _ _ (rt_fresh _ _ _ R))]. }
    split; [reflexivity|]. destruct (rt_custom _ _ _ R) as (_ & C2 & C3). split; [exact C2|]. split; [exact C3|]. split.
    + intros Hf. pose proof (proj1 (rt_arrs _ _ _ R)) as Q. change (first_run (put_sel None None (put_mi (zlen (ids (obj i))) (obj i)))) with (first_run (obj i)) in Q. rewrite Hf in Q. exact Q.
    + intros E' k' t0 s0 E0. exact (firm_like L (obj i) z R E' k' t0 s0 E0).
Qed.

(** ** After the reset *)
Lemma fresh_resume E L z a b : env_ok E -> FreshState L z -> ids z <> [] -> (is_L12 (kind z) = true -> ids z = zrange (L * L)) ->
  forall more, Forall (call_ok L) more -> Forall stepwise more ->
  let s' := put_sel a b z in
  let xs := placed_order (events E s' (CPlace :: more)) in
  let s2 := after E s' (CPlace :: more) in
  described L xs s2 /\ (3 <= L -> tracked (CPlace :: more) -> loop_described L xs s2).
Proof.
  intros HE F N I more Hc Hs s'. pose proof (fresh_inv _ _ F) as H.
  assert (G : place_one_site E s' = place_one_site E z) by (apply (place_blind E L); auto).
  cbn [events after fold_left exec event_of]. rewrite G.
  change (let xs := placed_order (events E z (CPlace :: more)) in let s2 := after E z (CPlace :: more) in
    described L xs s2 /\ (3 <= L -> tracked (CPlace :: more) -> loop_described L xs s2)). intros xs s2.
  assert (Hc' : Forall (call_ok L) (CPlace :: more)) by (constructor; [exact Logic.I|auto]). assert (Hs' : Forall stepwise (CPlace :: more)) by (constructor; [exact Logic.I|auto]).
  assert (D0 : Dx L [] z).
  { split; auto. split; [constructor|]. pose proof (i_occ _ _ H) as Q. rewrite (fs_occ _ _ F) in Q.
    intros j. split; [intros []|]. intros (Hi & Ho). pose proof (count_zero _ _ (eq_sym Q) j ltac:(now apply In_zrange)) as Z. apply occb_true in Ho. congruence. }
  pose proof (after_dx E L _ HE [] z Hc' Hs' D0) as D. change (add [] (events E z (CPlace :: more))) with xs in D. fold s2 in D.
  assert (He : EntOK L s2) by (apply ent_after; auto; now apply fresh_ent). split.
  - apply described_dx; auto. rewrite (shannon_hh L) by apply D. exact He.
  - intros H3 T. pose proof (fresh_tr L z F) as (_ & Pz). specialize (Pz H3). assert (Hx0 : Hx L [] z) by (intros Hw; pose proof (proj1 (fs_wrap _ _ F)); congruence).
    apply loop_dx; auto.
    + apply tracked_pc; auto.
    + apply (after_hx E L _ HE H3 T [] z); auto.
Qed.
Lemma fresh_mi L z c : FreshState L z -> (is_L12 (kind z) = false -> c = zlen (ids z)) -> FreshState L (put_mi c z).
Proof. intros [] H. constructor; auto. Qed.
Lemma firm_fresh L k s z : Firm L k s -> ResetTo L (put_sel None None (put_mi (zlen (ids s)) s)) z -> (k <> KL1 -> k <> KL2 -> settled s) ->
  FreshState L (put_mi (max_iter s) z).
Proof.
  intros F R Hs. apply fresh_mi; [apply R|]. destruct (firm_ids L k s z F R) as (K1 & K2 & K3). rewrite K1. intros X.
  assert (N1 : k <> KL1) by (destruct k; discriminate). assert (N2 : k <> KL2) by (destruct k; discriminate). rewrite (Hs N1 N2). apply perm_len. now apply K3.
Qed.
Lemma p_C116_resume E k L s cs : env_ok E -> reachable_k E k L s -> Forall (fun c => acall_ok L (fst c)) cs ->
  let i := leaves_all E cs (whole s) in (k <> KL1 -> k <> KL2 -> settled (obj i)) ->
  let s' := fst (reset E (obj i)) in
  forall more, Forall (call_ok L) more -> Forall stepwise more ->
  let xs := placed_order (events E s' (CPlace :: more)) in
  let s2 := after E s' (CPlace :: more) in
  described L xs s2 /\ (3 <= L -> tracked (CPlace :: more) -> loop_described L xs s2).
Proof.
  intros HE HR Hcs i Hs s' more Hc Hst. pose proof (firm_here E k L s cs HE HR Hcs) as F. fold i in F. destruct (firm_recovers E L k (obj i) F) as (z & Er & R).
  assert (Es : s' = put_sel (sel_id (obj i)) (cur_site (obj i)) (put_mi (max_iter (obj i)) z)) by (subst s'; rewrite Er; reflexivity).
  rewrite Es. destruct (firm_nonempty L k (obj i) z F R) as (N & I). apply (fresh_resume E L); auto. now apply (firm_fresh L k).
Qed.

(** ** Only a list call broken off in the middle makes the count and the sequence disagree *)
Lemma with_obj_obj f i : obj (with_obj f i) = f.
Proof. reflexivity. Qed.
Lemma install_points E l ul share sh i : forall n,
  (n <= 4)%nat ->
  fst (fst (b_install E l ul share sh i n)) =
    with_obj (set_custom (if (4 <=? n)%nat then zlen l else max_iter (obj i)) (if (2 <=? n)%nat then true else mode_custom (obj i)) (if (3 <=? n)%nat then sh else do_shuffle (obj i))
      (if (1 <=? n)%nat then rebind_ids l ul share (obj i) else obj i)) i.
Proof.
  intros n Hn. destruct i as [s x y z]. destruct n as [|[|[|[|[|n]]]]]; [destruct s; reflexivity..| |lia].
  unfold b_install, bbind, act, stmt, with_obj. cbn [obj no_h no_w no_l Nat.leb]. unfold b_shuffle, bbind, bget. cbn [obj].
  match goal with |- context [if ?b then _ else _] => destruct b end; [destruct s; reflexivity|]. match goal with |- context [if ?b then _ else _] => destruct b end; [|destruct s; reflexivity].
  assert (G : forall k i, fst (fst (b_shuffle_from E k i 0%nat)) = i /\ (snd (b_shuffle_from E k i 0%nat) = Cut \/ k = O)).
  { intros [|k] i; split; auto. }
  match goal with |- context [b_shuffle_from E ?k ?i 0%nat] => pose proof (G k i) as (Q & C); remember (b_shuffle_from E k i 0%nat) as m eqn:Em end.
  destruct m as [[j n] r]. cbn [fst snd] in *. subst j. destruct C as [->|C]; [destruct s; reflexivity|]. rewrite C in Em. injection Em as -> ->. cbn [obj].
  match goal with |- context [bfor ?l ?b ?i 0%nat] => assert (W : forall l1, fst (fst (bfor l1 b i 0%nat)) = i) end.
  { intros [|y0 l0]; [reflexivity|]. cbn [bfor]. unfold bbind, bget, blift. cbn [obj]. match goal with |- context [lget ?a ?b] => destruct (lget a b) end; [|reflexivity].
    match goal with |- context [lset ?a ?b ?c] => destruct (lset a b c) end; reflexivity. }
  rewrite W. destruct s; reflexivity.
Qed.
Lemma install_later E l ul share sh i n : (4 <= n)%nat ->
  b_install E l ul share sh i n = b_shuffle E (with_obj (set_custom (zlen l) true sh (rebind_ids l ul share (obj i))) i) (n - 4)%nat.
Proof.
  intros Hn. destruct n as [|[|[|[|n]]]]; try lia. replace (S (S (S (S n))) - 4)%nat with n by lia. destruct i as [s x y z].
  unfold b_install, bbind, act, stmt, with_obj. cbn [obj no_h no_w no_l]. reflexivity.
Qed.
(** The sequence is in another order, the caller's list is the same list, and nothing else but the
    positions and the generator has changed. *)
Definition shuffled (s t : perc) : Prop :=
  Permutation (ids s) (ids t) /\ t = set_tick (tick t) (set_rev (rev_ids t) (mutate_ids (ids t) s)).
Lemma shuffled_refl s : aliased s -> shuffled s s.
Proof. intros A. split; auto. rewrite mutate_same by auto. destruct s. reflexivity. Qed.
Lemma keeps_shuffled E s : keeps (shuffled s) (b_shuffle E).
Proof.
  assert (T : forall t n, shuffled s t -> shuffled s (set_tick n t)).
  { intros t n (P & Q). split; [exact P|]. rewrite Q at 1. destruct s, t. reflexivity. }
  assert (V : forall t r, shuffled s t -> shuffled s (set_rev r t)).
  { intros t r (P & Q). split; [exact P|]. rewrite Q at 1. destruct s, t. reflexivity. }
  assert (W : forall t l, shuffled s t -> Permutation (ids t) l -> shuffled s (mutate_ids l t)).
  { intros t l (P & Q) P'. split; [cbn; now apply (Permutation_trans P)|]. rewrite Q at 1. destruct s, t. unfold mutate_ids. cbn. destruct ids_shared; reflexivity. }
  assert (G : forall k, keeps (shuffled s) (b_shuffle_from E k)).
  { induction k as [|k IH]; cbn [b_shuffle_from]; [apply keeps_ret|]. apply keeps_get. intros t. cbv zeta. apply keeps_bind; [apply keeps_act; auto|]. intros _.
    apply keeps_bind; [|intros _; exact IH]. apply keeps_act. intros t1 H. apply W; auto. apply swap_at_perm. }
  unfold b_shuffle. apply keeps_get. intros t. match goal with |- context [if ?b then _ else _] => destruct b end; [apply keeps_ret|].
  match goal with |- context [if ?b then _ else _] => destruct b end; [|apply keeps_ret]. apply keeps_bind; [apply G|]. intros _. apply keeps_get. intros t1.
  apply keeps_for. intros x. apply keeps_get. intros t2. apply keeps_bind; [apply keeps_lift|]. intros a. apply keeps_bind; [apply keeps_lift|]. intros rv. apply keeps_act. auto.
Qed.
Lemma install_end E l ul share sh i n : (4 <= n)%nat -> (share = true -> ul = l) ->
  let s4 := set_custom (zlen l) true sh (rebind_ids l ul share (obj i)) in
  let t := obj (fst (fst (b_install E l ul share sh i n))) in
  shuffled s4 t /\ (sh = false -> t = s4).
Proof.
  intros Hn Hu s4 t. unfold t. rewrite install_later by auto. fold s4. split.
  - apply keeps_shuffled. cbn [obj with_obj]. apply shuffled_refl. exact Hu.
  - intros ->. reflexivity.
Qed.
Lemma install_installed E l ul share sh i n : (share = true -> ul = l) -> installed l ul share sh n (obj i) (obj (fst (fst (b_install E l ul share sh i n)))).
Proof.
  intros Hu. split.
  - intros Hn. rewrite install_points by auto. reflexivity.
  - intros Hn. set (s4 := set_custom (zlen l) true sh (rebind_ids l ul share (obj i))). destruct (install_end E l ul share sh i n Hn Hu) as ((P & Q) & R). fold s4 in P, Q, R. split; [exact P|]. split; [intros X; now rewrite (R X)|exact Q].
Qed.
Lemma settled_shuffled s t : settled s -> shuffled s t -> settled t.
Proof. unfold settled. intros H (P & Q). rewrite <- (perm_len _ _ P), <- H. rewrite Q at 1. reflexivity. Qed.
Lemma settled_install E l ul share sh i n : (share = true -> ul = l) -> n = 0%nat \/ (4 <= n)%nat -> settled (obj i) ->
  settled (obj (fst (fst (b_install E l ul share sh i n)))).
Proof.
  intros Hu [->|Hn] S; [exact S|]. destruct (install_end E l ul share sh i n Hn Hu) as (P & _). apply (settled_shuffled _ _ (eq_refl : settled (set_custom (zlen l) true sh (rebind_ids l ul share (obj i)))) P).
Qed.
Lemma settled_sound L k s0 s : Firm L k s0 -> is_L12 k = false -> Sound L s0 s -> settled s0 -> settled s.
Proof.
  intros F Hk S. unfold settled. rewrite (so_mi _ _ _ S). intros ->. destruct (so_perm _ _ _ S) as (P & _); [now rewrite (fi_kind _ _ _ F)|]. now apply perm_len.
Qed.
Lemma keeps_put_id_mi p x m : keeps (fun s => max_iter s = m /\ zlen (ids s) = m) (put_id p x).
Proof.
  apply (keeps_now (fun s => max_iter s = m /\ zlen (ids s) = m) (fun s => lset (ids s) p x) mutate_ids). intros s l (A & B) H. split; [exact A|].
  unfold lset in H. destruct (py_pos (zlen (ids s)) p); [|discriminate]. injection H as <-. cbn. now rewrite zlen_upd.
Qed.
Lemma settled_swap a b : keeps settled (b_swap a b).
Proof.
  intros i n S. unfold b_swap. destruct (a =? b); [exact S|]. unfold bbind at 1, bget. unfold bbind at 1, blift.
  destruct (lget (rev_ids (obj i)) a) as [p|e]; [|exact S]. unfold bbind at 1. destruct (lget (rev_ids (obj i)) b) as [q|e]; [|exact S].
  match goal with |- settled (obj (fst (fst (?m i n)))) => change m with (go put_id p b ; go put_id q a ; go put_rev b p ; put_rev a q) end.
  set (m := max_iter (obj i)). assert (G : keeps (fun s => max_iter s = m /\ zlen (ids s) = m) (go put_id p b ; go put_id q a ; go put_rev b p ; put_rev a q)).
  { apply keeps_bind; [apply keeps_put_id_mi|intros _]. apply keeps_bind; [apply keeps_put_id_mi|intros _].
    apply keeps_bind; [|intros _]; apply (keeps_now (fun s => max_iter s = m /\ zlen (ids s) = m) (fun s => lset (rev_ids s) _ _) set_rev); auto. }
  destruct (G i n) as (X & Y); [split; auto; now symmetry|]. unfold settled. congruence.
Qed.
Lemma settled_leaves E L k c n i : is_L12 k = false -> acall_ok L c -> list_call_whole (c, n) -> Firm L k (obj i) -> settled (obj i) -> settled (obj (leaves E c n i)).
Proof.
  intros Hk Hc Hl F S. destruct c as [c|l sh|ixs sh|a b|f]; cbn [leaves list_call_whole fst snd] in *.
  - apply (settled_sound L k (obj i)); auto. apply sound_left, F.
  - destruct (set_ids_runs E L k l sh i n F) as (A & N). destruct (accepted_or L l) as [Y|Y]; [rewrite (A Y); now apply settled_install|now rewrite (N Y)].
  - destruct (set_indices_runs E L k ixs sh i n F) as (A & N). destruct (accepted_or L (map (calculate_id_from_index (lat (obj i))) ixs)) as [Y|Y]; [rewrite (A Y); now apply settled_install|now rewrite (N Y)].
  - now apply settled_swap.
  - apply (settled_sound L k (obj i)); auto. apply keeps_test_run, F.
Qed.
Lemma p_C116_settled E k L s cs : env_ok E -> k <> KL1 -> k <> KL2 -> reachable_k E k L s ->
  Forall (fun c => acall_ok L (fst c)) cs -> Forall list_call_whole cs -> settled (obj (leaves_all E cs (whole s))).
Proof.
  intros HE N1 N2 HR. assert (Hk : is_L12 k = false) by (destruct k; auto; easy). pose proof (firm_reachable E k L s HE HR) as F.
  assert (S : settled s). { destruct (reachable_k_kind E k L s HE HR) as (H & K). apply (i_mi _ _ H). now rewrite K. }
  intros Hc Hl. change s with (obj (whole s)) in F, S. revert F S. generalize (whole s). induction cs as [|[c n] cs IH]; intros i F S; [exact S|].
  apply Forall_cons_iff in Hc as (Hc1 & Hc2). apply Forall_cons_iff in Hl as (Hl1 & Hl2). cbn [leaves_all fold_left fst snd]. apply IH; auto.
  - now apply firm_leaves.
  - now apply (settled_leaves E L k).
Qed.

(** ** A sequence with a repeated site *)
Definition Doomed (L : Z) (b : Z) (p q r : list Z) (s : perc) : Prop :=
  Inv L s /\ is_L12 (kind s) = false /\ ids s = p ++ b :: q ++ b :: r /\ 0 <= cur_idx s <= zlen p + 1 + zlen q /\ (zlen p < cur_idx s -> occ (lat s) b).
Lemma zlen_app' {A} (a b : list A) : zlen (a ++ b) = zlen a + zlen b.
Proof. unfold zlen. rewrite app_length. lia. Qed.
Lemma zlen_cons' {A} (a : A) b : zlen (a :: b) = zlen b + 1.
Proof. unfold zlen. cbn [length]. lia. Qed.
Lemma zlen_pos' {A} (l : list A) : 0 <= zlen l.
Proof. unfold zlen. lia. Qed.
Lemma at_mid d (p : list Z) x q : at_ d (p ++ x :: q) (zlen p) = x.
Proof. unfold at_, zlen. destruct (Z.leb_spec 0 (Z.of_nat (length p))); [|lia]. rewrite Nat2Z.id. now rewrite app_nth2, Nat.sub_diag by lia. Qed.
Lemma doomed_place E L b p q r s : env_ok E -> Doomed L b p q r s ->
  (cur_idx s = zlen p + 1 + zlen q /\ exists s', place_one_site E s = (s', Err AssertionError)) \/
  (exists s', place_one_site E s = (s', Err AssertionError)) \/
  (exists s', place_one_site E s = (s', Ok true) /\ Doomed L b p q r s' /\ cur_idx s' = cur_idx s + 1 /\ flag_is_success s' = true /\ sel_id s' <> None).
Proof.
  intros HE (H & Hk & Hi & Hc & Ho). pose proof (place_base E L s HE H Hk) as P. pose proof (place_inv E L s HE H) as H'. pose proof (place_base_seqv E L s HE H Hk) as (Q & _).
  pose proof (zlen_pos' p). pose proof (zlen_pos' q). pose proof (zlen_pos' r).
  assert (Zl : zlen (ids s) = zlen p + 1 + zlen q + 1 + zlen r) by (rewrite Hi, zlen_app', zlen_cons', zlen_app', zlen_cons'; lia).
  destruct (Z.leb_spec (zlen (ids s)) (cur_idx s)); [lia|]. cbv zeta in P. destruct P as (Hs & P).
  destruct (sg (lat s) (at_ 0 (ids s) (cur_idx s)) =? -1) eqn:Eg; [|right; left; eauto].
  destruct (Z.eq_dec (cur_idx s) (zlen p + 1 + zlen q)) as [Ec|Ec].
  - exfalso. assert (Eb : at_ 0 (ids s) (cur_idx s) = b).
    { rewrite Ec, Hi. change (p ++ b :: q ++ b :: r) with (p ++ (b :: q) ++ b :: r). rewrite app_assoc. replace (zlen p + 1 + zlen q) with (zlen (p ++ b :: q)) by (rewrite zlen_app', zlen_cons'; lia). apply at_mid. }
    rewrite Eb in Eg. specialize (Ho ltac:(lia)). unfold occ in Ho. apply Z.eqb_eq in Eg. lia.
  - right. right. destruct P as (s' & root & Ep & Pd). exists s'. rewrite Ep in *. cbn [fst] in *. split; auto.
    destruct (core2_fields _ _ (pd_core _ _ _ _ _ _ Pd)) as (K1 & K2 & _ & K4 & _ & _ & _ & K8 & _). cbn [kind ids cur_idx sel_id choose aim set_occ_count set_cur_site set_sel_id set_cur_idx] in *.
    assert (Cl : ClOK L (lat (choose (at_ 0 (ids s) (cur_idx s)) (set_cur_idx (cur_idx s + 1) s))) (pool (choose (at_ 0 (ids s) (cur_idx s)) (set_cur_idx (cur_idx s + 1) s)))) by apply (i_cl _ _ H).
    split; [|split; [exact K4|split]].
    + split; auto. split; [now rewrite K1|]. split; [now rewrite K2|]. split; [lia|]. intros X. assert (Sb : is_site L b).
      { pose proof (i_ids _ _ H) as F. rewrite Hi in F. rewrite Forall_forall in F. apply F. apply in_or_app. right. now left. }
      apply (pd_occ_iff E L _ _ _ _ Cl Pd); auto. destruct (Z.eq_dec (cur_idx s) (zlen p)) as [e|ne]; [left|right].
      * rewrite e, Hi. symmetry. apply at_mid.
      * apply Ho. lia.
    + unfold flag_is_success. now rewrite (pd_flag _ _ _ _ _ _ Pd).
    + rewrite K8. discriminate.
Qed.
Lemma doomed_detect L b p q r s : Doomed L b p q r s -> sel_id s <> None ->
  exists w, detect_wrapping s = (fst (detect_wrapping s), Ok w) /\ Doomed L b p q r (fst (detect_wrapping s)) /\ cur_idx (fst (detect_wrapping s)) = cur_idx s.
Proof.
  intros D Hs. pose proof D as (H & Hk & Hi & Hc & Ho). destruct (detect_seqv L s H) as (Q & _). destruct (seqv_eqs _ _ Q) as (Q1 & Q2 & _).
  destruct (detect_fields L s H) as (D1 & _ & D3 & _). pose proof (detect_inv L s H) as H'.
  assert (W : exists w, snd (detect_wrapping s) = Ok w).
  { rewrite (detect_ok L) by apply H. unfold detect_res. destruct (after_wrap s); [eexists; reflexivity|]. destruct (sel_id s); [|easy]. match goal with |- context [if ?x then _ else _] => destruct x end; eexists; reflexivity. }
  destruct W as (w & W). exists w. split; [rewrite <- W; now destruct (detect_wrapping s)|]. split; auto. split; auto. rewrite Q1, Q2, D1, D3. auto.
Qed.
Lemma doomed_record L b p q r s : Doomed L b p q r s -> exists s', record_step s = (s', Ok tt) /\ Doomed L b p q r s' /\ cur_idx s' = cur_idx s.
Proof.
  intros (H & D). exists (recorded s). rewrite (record_ok L) by auto. split; auto. split; auto. split; [|exact D]. unfold recorded. destruct H. constructor; auto.
Qed.
Lemma doomed_run E L b p q r : env_ok E -> forall f s, Doomed L b p q r s ->
  (exists s' e, run_loop E f s = (s', Err e)) /\ (zlen p + 1 + zlen q - cur_idx s < Z.of_nat f -> exists s', run_loop E f s = (s', Err AssertionError)).
Proof.
  intros HE. induction f as [|f IH]; intros s D.
  - split; [cbn; unfold raise; eauto|]. destruct D as (_ & _ & _ & D & _). lia.
  - cbn [run_loop]. destruct (doomed_place E L b p q r s HE D) as [(Ec & s' & Ep)|[(s' & Ep)|(s' & Ep & D' & Ec & Ef & Es)]].
    1, 2: (assert (G : run_loop E (S f) s = (s', Err AssertionError)) by (cbn [run_loop]; unfold mbind at 1; rewrite Ep; reflexivity)); cbn [run_loop] in G; rewrite G; split; eauto.
    destruct (doomed_detect L b p q r s' D' Es) as (w & Ed & D2 & Ec2). destruct (doomed_record L b p q r _ D2) as (s3 & Er & D3 & Ec3).
    assert (G : run_loop E (S f) s = run_loop E f s3).
    { cbn [run_loop]. unfold mbind at 1. rewrite Ep. unfold mbind at 1, get. rewrite Ef.
      assert (G : (mbind detect_wrapping (fun _ => record_step)) s' = (s3, Ok tt)) by (unfold mbind; rewrite Ed; exact Er).
      unfold mbind at 1. rewrite G. reflexivity. }
    cbn [run_loop] in G. rewrite G. destruct (IH s3 D3) as (A & C). split; [exact A|]. intros X. apply C. lia.
Qed.
Lemma fresh_doomed L s b p q r : FreshState L s -> is_L12 (kind s) = false -> ids s = p ++ b :: q ++ b :: r -> Doomed L b p q r s.
Proof.
  intros F Hk Hi. split; [now apply fresh_inv|]. split; auto. split; auto. rewrite (fs_cur _ _ F). pose proof (zlen_pos' p). pose proof (zlen_pos' q). split; lia.
Qed.
(** From a recovered object whose sequence repeats a site. *)
Lemma doomed_once E L z a b x f : env_ok E -> FreshState L z -> kind z = KBase \/ kind z = KL0 -> repeated x (ids z) -> zlen (ids z) < Z.of_nat f ->
  snd (run_once E f (put_sel a b z)) = Err AssertionError.
Proof.
  intros HE F Hk (p & q & r & Hi) Hf. assert (Hk' : is_L12 (kind z) = false) by (destruct Hk as [-> | ->]; reflexivity).
  assert (N : ids z <> []) by (rewrite Hi; destruct p; discriminate). pose proof (fresh_doomed L z x p q r F Hk' Hi) as D. pose proof (zlen_pos' r).
  assert (Zl : zlen (ids z) = zlen p + 1 + zlen q + 1 + zlen r) by (rewrite Hi, zlen_app', zlen_cons', zlen_app', zlen_cons'; lia).
  destruct (doomed_run E L x p q r HE f z D) as (_ & G). destruct G as (s' & G); [pose proof (fs_cur _ _ F); lia|].
  assert (Q : run_loop E f (put_sel a b z) = run_loop E f z).
  { destruct f as [|f]; [pose proof (zlen_pos' (ids z)); lia|]. cbn [run_loop]. apply mbind_same. apply (place_blind E L); auto. congruence. }
  unfold run_once, mbind at 1, get. change (kind (put_sel a b z)) with (kind z).
  assert (R : snd (run_once_base E f (put_sel a b z)) = Err AssertionError) by (unfold run_once_base, mbind; rewrite Q, G; reflexivity).
  destruct Hk as [-> | ->]; exact R.
Qed.

(** ** [swap_ids] broken off *)
Lemma lget_upd (l : list Z) i v j : 0 <= i < zlen l -> 0 <= j < zlen l -> lget (upd l (Z.to_nat i) v) j = if j =? i then Ok v else lget l j.
Proof.
  intros Hi Hj. rewrite (lget_in 0) by (rewrite zlen_upd; auto). rewrite at_upd by auto. destruct (j =? i); auto. symmetry. now apply lget_in.
Qed.
Lemma write_step {X} (f : perc -> res X) (g : X -> perc -> perc) (m : B unit) i n x : f (obj i) = Ok x ->
  bbind (do s <- bget ; do l <- blift (f s) ; act (g l)) (fun _ => m) i n = match n with O => (i, O, Cut) | S n' => m (with_obj (g x (obj i)) i) n' end.
Proof. intros H. unfold bbind, bget, blift. rewrite H. destruct n; reflexivity. Qed.
Lemma write_last {X} (f : perc -> res X) (g : X -> perc -> perc) i n x : f (obj i) = Ok x ->
  fst (fst (bbind bget (fun s => bbind (blift (f s)) (fun l => act (g l))) i n)) = match n with O => i | S _ => with_obj (g x (obj i)) i end.
Proof. intros H. unfold bbind, bget, blift. rewrite H. destruct n; reflexivity. Qed.
Lemma swap_run a b p q s n : a <> b -> lget (rev_ids s) a = Ok p -> lget (rev_ids s) b = Ok q -> 0 <= p < zlen (ids s) -> 0 <= q < zlen (ids s) ->
  0 <= a < zlen (rev_ids s) -> 0 <= b < zlen (rev_ids s) ->
  let l1 := upd (ids s) (Z.to_nat p) b in let l2 := upd l1 (Z.to_nat q) a in
  let r1 := upd (rev_ids s) (Z.to_nat b) p in let r2 := upd r1 (Z.to_nat a) q in
  leaves demo_env (ASwap a b) n (whole s) = whole (match n with O => s | 1 => mutate_ids l1 s | 2 => mutate_ids l2 (mutate_ids l1 s) | 3 => set_rev r1 (mutate_ids l2 (mutate_ids l1 s)) | _ => set_rev r2 (set_rev r1 (mutate_ids l2 (mutate_ids l1 s))) end)%nat.
Proof.
  intros Hab Ea Eb Hp Hq Ha Hb l1 l2 r1 r2. cbn [leaves]. unfold b_swap. destruct (Z.eqb_spec a b); [easy|].
  unfold bbind at 1, bget at 1. unfold bbind at 1, blift at 1. cbn [obj whole]. rewrite Ea. unfold bbind at 1, blift at 1. rewrite Eb.
  rewrite (write_step (fun s => lset (ids s) p b) mutate_ids _ _ _ l1) by (apply lset_in; auto). destruct n as [|n]; [reflexivity|].
  rewrite (write_step (fun s => lset (ids s) q a) mutate_ids _ _ _ l2) by (apply lset_in; unfold l1; cbn [obj with_obj ids mutate_ids rebind_ids whole]; now rewrite zlen_upd). destruct n as [|n]; [reflexivity|].
  rewrite (write_step (fun s => lset (rev_ids s) b p) set_rev _ _ _ r1) by (apply lset_in; auto). destruct n as [|n]; [reflexivity|].
  rewrite (write_last (fun s => lset (rev_ids s) a q) set_rev _ _ r2) by (apply lset_in; unfold r1; cbn [obj with_obj rev_ids mutate_ids rebind_ids set_rev whole]; now rewrite zlen_upd). destruct n as [|n]; reflexivity.
Qed.
Lemma swap_no_env E a b n i : leaves E (ASwap a b) n i = leaves demo_env (ASwap a b) n i.
Proof. reflexivity. Qed.
Lemma where_is L s x : SeqOK L s -> 0 < L -> is_site L x -> exists p, 0 <= p < L * L /\ lget (ids s) p = Ok x /\ lget (rev_ids s) x = Ok p.
Proof.
  intros Q HL Hx. assert (I : In x (ids s)). { apply (Permutation_in x (sq_perm _ _ Q)). now apply In_zrange. }
  apply (In_nth _ _ 0) in I as (m & Hm & Em). pose proof (perm_zlen L _ HL (sq_perm _ _ Q)) as Zl. assert (Hj : 0 <= Z.of_nat m < L * L) by (unfold zlen in Zl; lia).
  destruct (sq_tab _ _ Q (Z.of_nat m) Hj) as (y & Y1 & _ & Y3). exists (Z.of_nat m). split; auto.
  assert (y = x). { rewrite (lget_in 0) in Y1 by lia. injection Y1 as <-. unfold at_. destruct (Z.leb_spec 0 (Z.of_nat m)); [|lia]. rewrite Nat2Z.id. exact Em. }
  subst y. auto.
Qed.
Lemma p_C116_swap_points E k L s a b n : env_ok E -> k <> KL1 -> k <> KL2 -> reachable_no_custom E k L s -> is_site L a -> is_site L b -> a <> b ->
  let t := obj (leaves E (ASwap a b) n (whole s)) in
  exists p q, 0 <= p < L * L /\ 0 <= q < L * L /\ p <> q /\ lget (ids s) p = Ok a /\ lget (ids s) q = Ok b /\
  (forall j, 0 <= j < L * L -> lget (ids t) j = if (j =? p) && (1 <=? n)%nat then Ok b else if (j =? q) && (2 <=? n)%nat then Ok a else lget (ids s) j) /\
  (forall x, is_site L x -> lget (rev_ids t) x = if (x =? b) && (3 <=? n)%nat then Ok p else if (x =? a) && (4 <=? n)%nat then Ok q else lget (rev_ids s) x) /\
  t = set_rev (rev_ids t) (mutate_ids (ids t) s).
Proof.
  intros HE N1 N2 HR Ha Hb Hab t. pose proof (no_custom_seqOK E k L s HE N1 N2 HR) as Q.
  assert (HR' : reachable_k E k L s) by (destruct HR as (t0 & s0 & cs & H1 & H2 & _ & H4); exists t0, s0, cs; auto).
  pose proof (reachable_al E k L s HE HR') as (Al1 & _).
  destruct (reachable_k_kind E k L s HE HR') as (H & _). pose proof (i_pos _ _ H) as HL. pose proof (perm_zlen L _ HL (sq_perm _ _ Q)) as Zl. pose proof (sq_rev _ _ Q) as Zr.
  destruct (where_is L s a Q HL Ha) as (p & Hp & Ep & Ea). destruct (where_is L s b Q HL Hb) as (q & Hq & Eq & Eb).
  exists p, q. split; auto. split; auto. split; [intros ->; rewrite Ep in Eq; injection Eq as Eq; easy|]. split; auto. split; auto.
  assert (Hpq : p <> q) by (intros ->; rewrite Ep in Eq; injection Eq as Eq; easy). unfold is_site in *.
  unfold t. rewrite swap_no_env, (swap_run a b p q s n) by (auto; lia). cbn [obj whole].
  assert (J1 : forall j, 0 <= j < L * L -> lget (upd (ids s) (Z.to_nat p) b) j = if j =? p then Ok b else lget (ids s) j) by (intros j Hj; apply lget_upd; lia).
  assert (J2 : forall j, 0 <= j < L * L -> lget (upd (upd (ids s) (Z.to_nat p) b) (Z.to_nat q) a) j = if j =? p then Ok b else if j =? q then Ok a else lget (ids s) j).
  { intros j Hj. rewrite lget_upd by (rewrite zlen_upd; lia). rewrite J1 by auto. destruct (Z.eqb_spec j p), (Z.eqb_spec j q); auto. lia. }
  assert (K1 : forall x, 0 <= x < L * L -> lget (upd (rev_ids s) (Z.to_nat b) p) x = if x =? b then Ok p else lget (rev_ids s) x) by (intros x Hx; apply lget_upd; lia).
  assert (K2 : forall x, 0 <= x < L * L -> lget (upd (upd (rev_ids s) (Z.to_nat b) p) (Z.to_nat a) q) x = if x =? b then Ok p else if x =? a then Ok q else lget (rev_ids s) x).
  { intros x Hx. rewrite lget_upd by (rewrite zlen_upd; lia). rewrite K1 by auto. destruct (Z.eqb_spec x b), (Z.eqb_spec x a); auto. lia. }
  destruct n as [|[|[|[|n]]]]; cbn [Nat.leb]; cbn [ids rev_ids mutate_ids rebind_ids set_rev]; rewrite ?andb_true_r, ?andb_false_r.
  - split; [intros j Hj; now rewrite !andb_false_r|]. split; [intros x Hx; now rewrite !andb_false_r|]. rewrite mutate_same by auto. destruct s; reflexivity.
  - split; [intros j Hj; now rewrite J1, andb_true_r, andb_false_r by auto|]. split; [intros x Hx; now rewrite !andb_false_r|]. destruct s. unfold mutate_ids. cbn. destruct ids_shared; reflexivity.
  - split; [intros j Hj; now rewrite J2, !andb_true_r by auto|]. split; [intros x Hx; now rewrite !andb_false_r|]. destruct s. unfold mutate_ids. cbn. destruct ids_shared; reflexivity.
  - split; [intros j Hj; now rewrite J2, !andb_true_r by auto|]. split; [intros x Hx; now rewrite K1, !andb_true_r, !andb_false_r by auto|]. destruct s. unfold mutate_ids. cbn. destruct ids_shared; reflexivity.
  - split; [intros j Hj; now rewrite J2, !andb_true_r by auto|]. split; [intros x Hx; now rewrite K2, !andb_true_r by auto|]. destruct s. unfold mutate_ids. cbn. destruct ids_shared; reflexivity.
Qed.

Lemma p_C116_list_points E k L s cs n l ixs sh : env_ok E -> reachable_k E k L s -> Forall (fun c => acall_ok L (fst c)) cs ->
  let i := leaves_all E cs (whole s) in
  let l' := map (calculate_id_from_index (lat (obj i))) ixs in
  (accepted L l -> installed l l true sh n (obj i) (obj (leaves E (ASetIds l sh) n i))) /\
  (~ accepted L l -> leaves E (ASetIds l sh) n i = i) /\
  (accepted L l' -> installed l' (user_list (obj i)) false sh n (obj i) (obj (leaves E (ASetIndices ixs sh) n i))) /\
  (~ accepted L l' -> leaves E (ASetIndices ixs sh) n i = i).
Proof.
  intros HE HR Hc i l'. assert (F : Firm L k (obj i)) by (apply firm_leaves_all; auto; exact (firm_reachable E k L s HE HR)).
  destruct (set_ids_runs E L k l sh i n F) as (A1 & A2). destruct (set_indices_runs E L k ixs sh i n F) as (B1 & B2). cbn [leaves]. split; [|split; [|split]]; auto.
  - intros A. rewrite (A1 A). apply install_installed. auto.
  - intros A. rewrite (B1 A). apply install_installed. discriminate.
Qed.

Lemma repeated_perm x l : repeated x l <-> exists m, Permutation (x :: x :: m) l.
Proof.
  split.
  - intros (a & b & c & ->). exists (a ++ b ++ c). apply Permutation_cons_app. rewrite !app_assoc. apply Permutation_cons_app. now rewrite <- app_assoc.
  - intros (m & P). assert (I : In x l) by (apply (Permutation_in x P); now left). apply in_split in I as (u & v & ->).
    apply Permutation_cons_app_inv in P. assert (I : In x (u ++ v)) by (apply (Permutation_in x P); now left). apply in_app_iff in I as [I|I]; apply in_split in I as (a & b & ->).
    + exists a, b, v. now rewrite <- app_assoc.
    + exists u, a, b. reflexivity.
Qed.
Lemma repeated_move x l l' : Permutation l l' -> repeated x l -> repeated x l'.
Proof. intros P R. apply repeated_perm in R as (m & Q). apply repeated_perm. exists m. etransitivity; eauto. Qed.
Lemma lost_upd (l : list Z) p a b : NoDup l -> 0 <= p < zlen l -> lget l p = Ok a -> In b l -> a <> b -> ~ In a (upd l (Z.to_nat p) b) /\ repeated b (upd l (Z.to_nat p) b).
Proof.
  intros N Hp E Hb Hab. rewrite (lget_in 0) in E by auto. injection E as E. unfold at_ in E. destruct (Z.leb_spec 0 p); [|lia].
  assert (Hm : (Z.to_nat p < length l)%nat) by (unfold zlen in Hp; lia). revert E Hm. generalize (Z.to_nat p). intros m E Hm.
  destruct (nth_split l 0 Hm) as (u & v & El & Lu). rewrite E in El.
  assert (U : upd l m b = u ++ b :: v). { subst l m. clear. induction u; cbn; [reflexivity|]. now rewrite IHu. }
  rewrite U. subst l. apply NoDup_remove_2 in N. split.
  - intros I. apply N. apply in_app_iff in I as [I|[I|I]]; apply in_app_iff; auto. now subst.
  - apply repeated_perm. assert (I : In b (u ++ v)). { apply in_app_iff in Hb as [I|[I|I]]; apply in_app_iff; auto. easy. }
    apply in_split in I as (y & z & Q). exists (y ++ z). apply Permutation_cons_app. rewrite Q. apply Permutation_middle.
Qed.
Lemma sound_kept E L k cs : forall s0 i, Forall keeps_sequence cs -> Firm L k s0 -> Sound L s0 (obj i) -> Sound L s0 (obj (leaves_all E cs i)).
Proof.
  induction cs as [|[c n] cs IH]; intros s0 i H F S; [exact S|]. apply Forall_cons_iff in H as (H1 & H2). cbn [leaves_all fold_left fst snd]. apply IH; auto.
  destruct c as [c|l sh|ixs sh|a b|f]; try now destruct H1; cbn [leaves].
  - now apply sound_left.
  - now apply keeps_test_run.
Qed.
Lemma p_C116_swap_lost E k L s a b cs : env_ok E -> k <> KL1 -> k <> KL2 -> reachable_no_custom E k L s -> is_site L a -> is_site L b -> a <> b -> Forall keeps_sequence cs ->
  let j := leaves_all E ((ASwap a b, 1%nat) :: cs) (whole s) in
  (~ In a (ids (obj j)) /\ repeated b (ids (obj j))) /\
  (complete j ->
   let s' := fst (reset E (obj j)) in
   snd (reset E (obj j)) = Ok tt /\ ~ In a (ids s') /\ repeated b (ids s') /\
   (k = KBase \/ k = KL0 -> forall f, L * L < Z.of_nat f -> snd (run_once E f s') = Err AssertionError)).
Proof.
  intros HE N1 N2 HR Ha Hb Hab Hc j. pose proof (no_custom_seqOK E k L s HE N1 N2 HR) as Q.
  assert (HR' : reachable_k E k L s) by (destruct HR as (t0 & s0 & cs0 & H1 & H2 & _ & H4); exists t0, s0, cs0; auto).
  pose proof (firm_reachable E k L s HE HR') as F. destruct (reachable_k_kind E k L s HE HR') as (H & Hk). pose proof (i_pos _ _ H) as HL.
  pose proof (perm_zlen L _ HL (sq_perm _ _ Q)) as Zl. pose proof (sq_rev _ _ Q) as Zr.
  destruct (where_is L s a Q HL Ha) as (p & Hp & Ep & Ea). destruct (where_is L s b Q HL Hb) as (q & Hq & Eq & Eb). unfold is_site in Ha, Hb.
  set (i1 := leaves E (ASwap a b) 1 (whole s)). assert (F1 : Firm L k (obj i1)) by (apply firm_leaves; [split; auto|exact F]).
  assert (X1 : ids (obj i1) = upd (ids s) (Z.to_nat p) b). { unfold i1. rewrite swap_no_env, (swap_run a b p q s 1) by (auto; lia). reflexivity. }
  assert (Nd : NoDup (ids s)) by (apply (Permutation_NoDup (sq_perm _ _ Q)), NoDup_zrange).
  destruct (lost_upd (ids s) p a b Nd) as (L1 & L2); auto; [lia|apply (Permutation_in b (sq_perm _ _ Q)); now apply In_zrange|]. rewrite <- X1 in L1, L2.
  assert (Ek : is_L12 k = false) by (destruct k; easy).
  assert (Sj : Sound L (obj i1) (obj j)). { change j with (leaves_all E cs i1). apply (sound_kept E L k); auto. apply F1. }
  assert (Fj : Firm L k (obj j)) by now apply (firm_of L k (obj i1)).
  destruct (so_perm _ _ _ Sj) as (P & _); [now rewrite (fi_kind _ _ _ F1)|].
  assert (M1 : ~ In a (ids (obj j))) by (intros I; apply L1; now apply (Permutation_in a (Permutation_sym P))). assert (M2 : repeated b (ids (obj j))) by now apply (repeated_move b _ _ P).
  split; [now split|]. intros Cj s'. destruct (firm_recovers E L k (obj j) Fj) as (z & Er & R). destruct (firm_ids L k (obj j) z Fj R) as (K1 & _ & K3). specialize (K3 N1 N2).
  assert (Hs : settled (obj j)).
  { apply (p_C116_settled E k L s ((ASwap a b, 1%nat) :: cs)); auto.
    - constructor; [split; split; lia|]. apply Forall_forall. intros [c n] I. rewrite Forall_forall in Hc. specialize (Hc _ I). destruct c; try easy; now destruct Hc.
    - constructor; [exact Logic.I|]. apply Forall_forall. intros [c n] I. rewrite Forall_forall in Hc. specialize (Hc _ I). destruct c; try easy; now destruct Hc. }
  unfold s'. rewrite Er. cbn [fst snd]. split; auto.
  assert (Z1 : ~ In a (ids z)) by (intros I; apply M1; now apply (Permutation_in a (Permutation_sym K3))). assert (Z2 : repeated b (ids z)) by now apply (repeated_move b _ _ K3).
  split; [exact Z1|]. split; [exact Z2|]. intros Hkk f Hf.
  change (put_mi (max_iter (obj j)) (put_sel (sel_id (obj j)) (cur_site (obj j)) z)) with (put_sel (sel_id (obj j)) (cur_site (obj j)) (put_mi (max_iter (obj j)) z)).
  apply (doomed_once E L _ _ _ b f); auto.
  - now apply (firm_fresh L k (obj j)).
  - cbn [kind put_mi set_custom]. rewrite K1. exact Hkk.
  - cbn [ids put_mi set_custom]. rewrite <- (perm_len _ _ K3), <- (perm_len _ _ P), X1, zlen_upd, Zl. exact Hf.
Qed.

Lemma demo_reach_k k cs : Forall (call_ok 3) cs -> reachable_k demo_env k 3 (demo k 3 cs).
Proof. intros H. exists 0%nat, (demo0 k 3), cs. split; [apply demo0_ok|]. split; [exact H|reflexivity]. Qed.
Lemma p_C116_short : exists E k L s l n, env_ok E /\ reachable_k E k L s /\ accepted L l /\ NoDup l /\
  let i := leaves E (ASetIds l false) n (whole s) in complete i /\ snd (reset E (obj i)) = Ok tt /\
  let s' := fst (reset E (obj i)) in ids s' = l /\
  let s2 := after E s' (repeat CPlace (length l)) in placed_order (events E s' (repeat CPlace (length l))) = l /\
  snd (place_one_site E s2) = Err IndexError.
Proof.
  exists demo_env, KBase, 3, (demo KBase 3 []), [4; 0], 3%nat. split; [exact demo_env_ok|]. split; [apply demo_reach_k, Forall_nil|].
  split; [split; [discriminate|repeat (apply Forall_cons || apply Forall_nil); unfold is_site; lia]|]. split; [repeat constructor; cbn; intuition discriminate|].
  cbv zeta. split; [vm_compute; auto|]. split; [vm_compute; reflexivity|]. split; [vm_compute; reflexivity|]. split; [vm_compute; reflexivity|]. vm_compute. reflexivity.
Qed.
Lemma p_C116_long : exists E k L s l n, env_ok E /\ reachable_k E k L s /\ accepted L l /\ NoDup l /\
  let i := leaves E (ASetIds l false) n (whole s) in complete i /\ snd (reset E (obj i)) = Ok tt /\
  let s' := fst (reset E (obj i)) in ids s' = l /\
  exists m, (m < length l)%nat /\ let s2 := after E s' (repeat CPlace m) in placed_order (events E s' (repeat CPlace m)) = firstn m l /\
  snd (place_one_site E s2) = Ok false.
Proof.
  exists demo_env, KBase, 3, (demo KBase 3 [CSetIds [4; 0] false]), [4; 0; 1; 8], 1%nat. split; [exact demo_env_ok|].
  split; [apply demo_reach_k; repeat (apply Forall_cons || apply Forall_nil); exact I|].
  split; [split; [discriminate|repeat (apply Forall_cons || apply Forall_nil); unfold is_site; lia]|]. split; [repeat constructor; cbn; intuition discriminate|].
  cbv zeta. split; [vm_compute; auto|]. split; [vm_compute; auto|]. split; [vm_compute; auto|]. exists 2%nat. split; [cbn; lia|]. vm_compute. auto.
Qed.

(** ** A count that is not the length of the sequence *)
Definition select_rest (id : Z) : M selstate :=
  run select_id id ;
  run modify (fun s => set_cur_idx (cur_idx s + 1) s) ;
  run modify (fun s => set_occ_count (occ_count s + 1) s) ;
  ret SUCESS.
Lemma dull_raise {A} e : dull (@raise A e).
Proof. intros c s. reflexivity. Qed.
Lemma dull_need {A} (o : option A) : dull (need o).
Proof. destruct o; [apply dull_ret|apply dull_raise]. Qed.
Ltac du' := first [du | apply dull_need | apply dull_raise].
Lemma dull_select_rest id : dull (select_rest id).
Proof. unfold select_rest, select_id. repeat du'. Qed.
Lemma dull_track c : dull (track_largest_cluster c).
Proof. unfold track_largest_cluster. repeat du'. Qed.
Lemma dull_detect : dull detect_wrapping.
Proof. unfold detect_wrapping. repeat du'. Qed.
Lemma dull_record : dull record_step.
Proof. unfold record_step. repeat du'. Qed.
Definition place_rest (E : env) (flag : selstate) : M bool :=
  run modify (set_sel_flag (Some flag)) ;
  match flag with
  | SUCESS =>
      do s <~ get ;
      do selected <~ need (sel_id s) ;
      do cur <~ need (cur_site s) ;
      do lat1 <~ lift (lat_init_relative_index (lat s) selected) ;
      run modify (set_lat lat1) ;
      do cs <~ lift (get_site_by_id lat1 cur) ;
      let bond_neighbors := s_bonds cs in
      do H <~ lift (entropy_subtract_amount E lat1 (pool s) selected) ;
      run modify (fun s => set_ent (FAdd (ent s) H) s) ;
      do s <~ get ;
      do '(lat2, pool2, root) <~
        lift (merge_clusters_v2 E lat1 (pool s) selected (s_id cs) (after_wrap s) (wid s)
                bond_neighbors) ;
      run modify (fun s => set_pool pool2 (set_lat lat2 s)) ;
      run track_largest_cluster root ;
      do s <~ get ;
      do e' <~ lift (entropy_add_value (lat s) (pool s) root (ent s)) ;
      run modify (set_ent e') ;
      ret true
  | CURRENT_SITE_NOT_EMPTY => ret true
  | EMPTY_SITE_LIST => ret false
  end.
Lemma dull_place_rest E flag : dull (place_rest E flag).
Proof. unfold place_rest. repeat first [du' | apply dull_track]. Qed.
Lemma select_base_eq E s : is_L12 (kind s) = false -> select_site E s = select_site_base s.
Proof. unfold select_site, mbind, get. destruct (kind s); try discriminate; reflexivity. Qed.
Lemma select_base_steps s : select_site_base s =
  if max_iter s <=? cur_idx s then (s, Ok EMPTY_SITE_LIST) else match lget (ids s) (cur_idx s) with Ok id => select_rest id s | Err e => (s, Err e) end.
Proof. unfold select_site_base, mbind at 1, get. destruct (max_iter s <=? cur_idx s); [reflexivity|]. unfold mbind at 1, lift. destruct (lget (ids s) (cur_idx s)); reflexivity. Qed.
Lemma place_mi E m s : is_L12 (kind s) = false -> cur_idx s < max_iter s -> cur_idx s < m ->
  place_one_site E (put_mi m s) = (put_mi m (fst (place_one_site E s)), snd (place_one_site E s)).
Proof.
  intros Hk H1 H2. assert (Q : select_site E (put_mi m s) = (put_mi m (fst (select_site E s)), snd (select_site E s))).
  { rewrite !select_base_eq by auto. rewrite !select_base_steps. cbn [max_iter cur_idx put_mi set_custom ids].
    destruct (Z.leb_spec m (cur_idx s)); [lia|]. destruct (Z.leb_spec (max_iter s) (cur_idx s)); [lia|].
    destruct (lget (ids s) (cur_idx s)) as [id|e]; [|reflexivity]. exact (dull_select_rest id m s). }
  change (place_one_site E) with (mbind (select_site E) (place_rest E)). unfold mbind. rewrite Q. destruct (select_site E s) as [s1 [fl|e]]; cbn [fst snd]; [apply dull_place_rest|reflexivity].
Qed.
Lemma place_mi_empty E m s : is_L12 (kind s) = false -> m <= cur_idx s -> place_one_site E (put_mi m s) = (set_sel_flag (Some EMPTY_SITE_LIST) (put_mi m s), Ok false).
Proof.
  intros Hk H. change (place_one_site E) with (mbind (select_site E) (place_rest E)). unfold mbind at 1. rewrite select_base_eq, select_base_steps by auto. cbn [max_iter cur_idx put_mi set_custom].
  destruct (Z.leb_spec m (cur_idx s)); [|lia]. reflexivity.
Qed.
Lemma place_mi_over E m s : is_L12 (kind s) = false -> 0 <= cur_idx s -> zlen (ids s) <= cur_idx s < m -> snd (place_one_site E (put_mi m s)) = Err IndexError.
Proof.
  intros Hk H0 H. change (place_one_site E) with (mbind (select_site E) (place_rest E)). unfold mbind at 1. rewrite select_base_eq, select_base_steps by auto. cbn [max_iter cur_idx put_mi set_custom ids].
  destruct (Z.leb_spec m (cur_idx s)); [lia|]. unfold lget, py_pos. destruct (Z.leb_spec 0 (cur_idx s)); [|lia].
  destruct (Z.ltb_spec (cur_idx s) (zlen (ids s))); [lia|]. cbn [andb]. destruct (Z.ltb_spec (cur_idx s) 0); [lia|]. rewrite andb_false_r. reflexivity.
Qed.
Lemma run_mi E L m : env_ok E -> forall f s, Inv L s -> RunB L s -> cur_idx s <= m ->
  (m <= zlen (ids s) -> m - cur_idx s < Z.of_nat f -> exists t, run_loop E f (put_mi m s) = (put_mi m t, Ok tt) /\ RunB L t /\ Static L (lat t) /\ ids t = ids s /\ cur_idx t = m) /\
  (zlen (ids s) < m -> zlen (ids s) - cur_idx s < Z.of_nat f -> snd (run_loop E f (put_mi m s)) = Err IndexError).
Proof.
  intros HE. induction f as [|f IH]; intros s H B Hc.
  - destruct (rb_cur _ _ B). split; intros; lia.
  - pose proof (rb_kind _ _ B) as Hk. pose proof (rb_cur _ _ B) as Hr. pose proof (i_mi _ _ H Hk) as Hm.
    destruct (Z.eq_dec (cur_idx s) m) as [e|ne].
    { split; [|lia]. intros _ _. exists (set_sel_flag (Some EMPTY_SITE_LIST) s). cbn [run_loop]. unfold mbind at 1. rewrite place_mi_empty by (auto; lia). split; [reflexivity|]. split; [now apply (runB_frame L s)|]. split; [exact (i_static _ _ H)|]. auto. }
    destruct (Z.eq_dec (cur_idx s) (zlen (ids s))) as [e|ne2].
    { split; [lia|]. intros _ _. cbn [run_loop]. unfold mbind at 1. pose proof (place_mi_over E m s Hk ltac:(lia) ltac:(lia)) as Q. destruct (place_one_site E (put_mi m s)) as [s1 r]. cbn [snd] in Q. now rewrite Q. }
    destruct (runB_place E L s HE H B ltac:(lia)) as (s1 & Ep & Ef & H1 & B1 & Ec & Es & Eq & _).
    destruct (detect_bool L s1 _ H1 Es) as (w & Ed). pose proof (detect_inv L s1 H1) as H2. pose proof (runB_detect L s1 H1 B1) as B2.
    set (s2 := fst (detect_wrapping s1)) in *. pose proof (record_ok L s2 H2) as Er. set (s3 := recorded s2) in *.
    assert (H3 : Inv L s3) by (unfold s3, recorded; destruct H2; constructor; auto). assert (B3 : RunB L s3) by now apply (runB_frame L s2).
    destruct (detect_seqv L s1 H1) as (Q & _). destruct (seqv_eqs _ _ Q) as (_ & Q1 & _). destruct (seqv_eqs _ _ Eq) as (_ & Q2 & _). destruct (detect_fields L s1 H1) as (_ & _ & D3 & _).
    assert (I3 : ids s3 = ids s) by (change (ids s3) with (ids s2); unfold s2; congruence). assert (C3 : cur_idx s3 = cur_idx s + 1) by (change (cur_idx s3) with (cur_idx s2); unfold s2; congruence).
    assert (G : run_loop E (S f) (put_mi m s) = run_loop E f (put_mi m s3)).
    { assert (P : place_one_site E (put_mi m s) = (put_mi m s1, Ok true)) by (rewrite place_mi by (auto; lia); now rewrite Ep).
      assert (D : (mbind detect_wrapping (fun _ => record_step)) (put_mi m s1) = (put_mi m s3, Ok tt)).
      { unfold mbind. rewrite dull_detect, Ed. cbn [fst snd]. rewrite dull_record, Er. reflexivity. }
      cbn [run_loop]. unfold mbind at 1. rewrite P. unfold mbind at 1, get. change (flag_is_success (put_mi m s1)) with (flag_is_success s1). rewrite Ef. unfold mbind at 1. rewrite D. reflexivity. }
    rewrite G. destruct (IH s3 H3 B3 ltac:(lia)) as (A1 & A2). rewrite I3, C3 in A1, A2. split; [|intros; apply A2; lia]. intros X Y. destruct A1 as (t & T1 & T2 & Ts & T3 & T4); [lia..|]. exists t. auto.
Qed.
Lemma p_C116_unsettled E k L s cs f : env_ok E -> k = KBase \/ k = KL0 -> reachable_k E k L s -> Forall (fun c => acall_ok L (fst c)) cs ->
  let i := leaves_all E cs (whole s) in complete i -> NoDup (ids (obj i)) ->
  let s' := fst (reset E (obj i)) in Z.min (max_iter s') (zlen (ids s')) < Z.of_nat f ->
  (zlen (ids s') < max_iter s' -> snd (run_once E f s') = Err IndexError) /\
  (0 <= max_iter s' <= zlen (ids s') -> exists t, run_once E f s' = (t, Ok tt) /\ forall x, is_site L x -> (occupied t x <-> In x (firstn (Z.to_nat (max_iter s')) (ids s')))).
Proof.
  intros HE Hkk HR Hc i Ci N s' Hf. pose proof (firm_here E k L s cs HE HR Hc) as F. fold i in F. destruct (firm_recovers E L k (obj i) F) as (z & Er & R). destruct (firm_ids L k (obj i) z F R) as (K1 & _ & K3).
  assert (N1 : k <> KL1) by (destruct Hkk; subst; discriminate). assert (N2 : k <> KL2) by (destruct Hkk; subst; discriminate). specialize (K3 N1 N2).
  assert (Es : s' = put_sel (sel_id (obj i)) (cur_site (obj i)) (put_mi (max_iter (obj i)) z)) by (unfold s'; now rewrite Er). clearbody s'.
  set (m := max_iter (obj i)) in *. assert (Hk : is_L12 (kind z) = false) by (rewrite K1; destruct Hkk; subst; reflexivity). pose proof (rt_fresh _ _ _ R) as Fz.
  assert (Nz : NoDup (ids z)) by (apply (Permutation_NoDup K3 N)). pose proof (fresh_RunB L z Fz Hk Nz) as B. pose proof (fresh_inv L z Fz) as H.
  destruct (firm_nonempty L k (obj i) z F R) as (Ne & _).
  assert (Hid : ids s' = ids z) by now rewrite Es. assert (Hmi : max_iter s' = m) by now rewrite Es. rewrite Hid, Hmi in *.
  assert (Zp : 0 < zlen (ids z)) by (destruct (ids z); [easy|rewrite zlen_cons'; pose proof (zlen_pos' l); lia]). pose proof (fs_cur _ _ Fz) as Cz.
  assert (Rn : forall g, run_once E g s' = run_once_base E g s') by (intros g; unfold run_once, mbind at 1, get; rewrite Es; change (kind (put_sel (sel_id (obj i)) (cur_site (obj i)) (put_mi m z))) with (kind z); rewrite K1; destruct Hkk as [-> | ->]; reflexivity).
  rewrite Rn. unfold run_once_base.
  assert (Q : 0 < m -> run_loop E f s' = run_loop E f (put_mi m z)).
  { intros Hm. destruct f as [|f]; [lia|]. cbn [run_loop]. apply mbind_same. rewrite Es.
    change (put_sel (sel_id (obj i)) (cur_site (obj i)) (put_mi m z)) with (put_mi m (put_sel (sel_id (obj i)) (cur_site (obj i)) z)).
    pose proof (i_mi _ _ H Hk) as Mz. rewrite !place_mi by (auto; cbn [cur_idx max_iter put_sel set_cur_site set_sel_id]; lia). rewrite (place_blind E L) by (auto; congruence). reflexivity. }
  split.
  - intros Hm. unfold mbind at 1. rewrite (Q ltac:(lia)). destruct (run_mi E L m HE f z H B ltac:(lia)) as (_ & A). specialize (A Hm ltac:(lia)). destruct (run_loop E f (put_mi m z)) as [t r]. cbn [snd] in A. now rewrite A.
  - intros Hm. unfold mbind at 1. destruct (Z.eq_dec m 0) as [E0|E0].
    + destruct f as [|f]; [lia|]. set (t := set_sel_flag (Some EMPTY_SITE_LIST) s').
      assert (G : run_loop E (S f) s' = (t, Ok tt)).
      { assert (P : place_one_site E s' = (t, Ok false)).
        { unfold t. rewrite Es. change (put_sel (sel_id (obj i)) (cur_site (obj i)) (put_mi m z)) with (put_mi m (put_sel (sel_id (obj i)) (cur_site (obj i)) z)).
          apply place_mi_empty; [exact Hk|]. cbn [cur_idx put_sel set_cur_site set_sel_id]. lia. }
        cbn [run_loop]. unfold mbind at 1. rewrite P. reflexivity. }
      rewrite G. eexists. split; [reflexivity|]. intros x Hx. pose proof (rb_occ _ _ B x Hx) as O. rewrite Cz in O. rewrite E0. rewrite <- O. rewrite (occupied_occ L); auto; unfold t; rewrite Es; [reflexivity|exact (i_static _ _ H)].
    + rewrite (Q ltac:(lia)). destruct (run_mi E L m HE f z H B ltac:(lia)) as (A & _). destruct A as (t & T1 & T2 & Ts & T3 & T4); [lia..|]. rewrite T1. eexists. split; [reflexivity|].
      intros x Hx. pose proof (rb_occ _ _ T2 x Hx) as O. rewrite T3, T4 in O. rewrite <- O. change (occupied (set_first_run false (put_mi m t)) x <-> occ (lat (set_first_run false (put_mi m t))) x). now apply (occupied_occ L).
Qed.
