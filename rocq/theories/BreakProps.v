(** * BreakProps: broken-off calls (proofs for Props_Break.v). *)
From Coq Require Import ZArith List Bool Lia Permutation.
From Verif Require Import Py Lattice Cluster Perc Spec PyFacts Torus Geometry LatFacts Inv Merge Fresh Select State Step History Reach Break BreakFacts BreakReset BreakKeep BreakSpec RunProps Demo Count SymSpec Critical Describe Drive Real Entropy Micro.
Import ListNotations.
Open Scope Z_scope.

(** ** The caller's list and the object's list are the same list, and not empty *)
Definition Al (s : perc) : Prop := aliased s /\ ids s <> [].
Definition mk {A} (m : M A) : Prop := forall s, Al s -> Al (fst (m s)).
Lemma mk_ret {A} (a : A) : mk (ret a).
Proof. intros s H. exact H. Qed.
Lemma mk_raise {A} e : mk (@raise A e).
Proof. intros s H. exact H. Qed.
Lemma mk_lift {A} (r : res A) : mk (lift r).
Proof. intros s H. exact H. Qed.
Lemma mk_need {A} (o : option A) : mk (need o).
Proof. destruct o; [apply mk_ret|apply mk_raise]. Qed.
Lemma mk_bind {A C} (m : M A) (k : A -> M C) : mk m -> (forall a, mk (k a)) -> mk (mbind m k).
Proof. intros Hm Hk s H. unfold mbind. specialize (Hm s H). destruct (m s) as [s1 [a|e]]; cbn [fst] in *; auto. now apply Hk. Qed.
Lemma mk_get {C} (k : perc -> M C) : (forall s, mk (k s)) -> mk (mbind get k).
Proof. intros Hk. apply mk_bind; [intros s H; exact H|exact Hk]. Qed.
Lemma mk_modify f : (forall s, Al s -> Al (f s)) -> mk (modify f).
Proof. intros Hf s H. now apply Hf. Qed.
Lemma al_ext s t : Al s -> ids t = ids s -> ids_shared t = ids_shared s -> user_list t = user_list s -> Al t.
Proof. intros (A & B) E1 E2 E3. split; [|congruence]. unfold aliased. rewrite E1, E2, E3. exact A. Qed.
Ltac quiet := let s := fresh in let H := fresh in intros s H; apply (al_ext s); [exact H|reflexivity..].
Ltac mp := lazymatch goal with
  | |- mk (ret _) => apply mk_ret
  | |- mk (raise _) => apply mk_raise
  | |- mk (lift _) => apply mk_lift
  | |- mk (need _) => apply mk_need
  | |- mk (mbind get _) => apply mk_get; intro
  | |- mk (mbind _ _) => apply mk_bind; [|intro]
  | |- mk (modify _) => apply mk_modify; quiet
  | |- mk (match ?b with _ => _ end) => destruct b
  end.
Lemma al_mutate l s : l <> [] -> Al (mutate_ids l s).
Proof. intros N. split; [apply mutate_aliased|exact N]. Qed.
Lemma lset_nonempty {A} (l : list A) i v l' : l <> [] -> lset l i v = Ok l' -> l' <> [].
Proof.
  unfold lset. destruct (py_pos (zlen l) i) as [k|]; [|discriminate]. intros N H. injection H as <-. destruct l; [easy|]. destruct k; discriminate.
Qed.
Lemma mk_randint E a b : mk (randint E a b).
Proof. unfold randint. repeat mp. Qed.
Lemma mk_select_id x : mk (select_id x).
Proof. unfold select_id. repeat mp. Qed.
Lemma mk_drop r : mk (drop_candidate r).
Proof.
  intros s H. unfold drop_candidate, mbind, get, lift. destruct (lget (ids s) (cur_idx s)) as [v|e]; [|exact H]. destruct (lset (ids s) r v) as [l|e] eqn:E1; [|exact H].
  unfold modify. apply (al_ext (mutate_ids l s)); [|reflexivity..]. apply al_mutate. apply (lset_nonempty (ids s) r v); [apply H|exact E1].
Qed.
Ltac mq := lazymatch goal with
  | |- mk (drop_candidate _) => apply mk_drop
  | |- mk (select_id _) => apply mk_select_id
  | |- mk (randint _ _ _) => apply mk_randint
  | _ => mp
  end.
Lemma mk_select E : mk (select_site E).
Proof. unfold select_site. mp. mp; unfold select_site_base, select_site_L1, select_site_L2; cbv zeta; repeat mq. Qed.
Lemma mk_place E : mk (place_one_site E).
Proof.
  unfold place_one_site. mp; [apply mk_select|]. mp; [mp|]. mp; [|mp|mp]. cbv zeta. repeat first [mp | progress unfold track_largest_cluster].
Qed.
Lemma mk_detect : mk detect_wrapping.
Proof. unfold detect_wrapping. cbv zeta. repeat mp. Qed.
Lemma mk_shuffle E : mk (shuffle E).
Proof.
  unfold shuffle. intros s H. unfold mbind at 1. change (get s) with (s, Ok s). cbv beta iota. destruct (mode_custom s && negb (do_shuffle s)); [exact H|]. destruct (do_shuffle s); [|exact H].
  pose proof (random_shuffle_perm E (tick s) (ids s)) as P. destruct (random_shuffle E (tick s) (ids s)) as [l t]. cbn [fst] in P.
  assert (N : l <> []). { intros ->. apply Permutation_sym, Permutation_nil in P. now apply (proj2 H). }
  match goal with |- Al (fst (?m s)) => assert (G : mk m) end; [|now apply G].
  mp; [apply mk_modify; intros p Hp; apply (al_ext (mutate_ids l p)); [now apply al_mutate|reflexivity..]|]. repeat mp.
Qed.
Lemma zrange_nonempty L : 0 < L -> zrange (L * L) <> [].
Proof. intros HL E. pose proof (LL_pos L HL) as H. pose proof (zlen_zrange (L * L) ltac:(lia)) as Q. rewrite E in Q. cbn in Q. lia. Qed.
Lemma al_reset E L s : Inv L s -> Al s -> Al (fst (reset E s)).
Proof.
  intros H (A & N). destruct (reset_inv E L s H) as (s' & -> & R). cbn [fst]. pose proof (rt_ids _ _ _ R) as Q. pose proof (rt_shared_user _ _ _ R) as U.
  destruct (is_L12 (kind s)).
  - destruct Q as (Q1 & Q2). split; [intros X; congruence|]. rewrite Q1. apply zrange_nonempty, (i_pos _ _ H).
  - destruct Q as (P & Q2 & _). split.
    + intros X. apply U; auto; [congruence|]. apply A. congruence.
    + intros X. rewrite X in P. apply Permutation_sym, Permutation_nil in P. easy.
Qed.
Lemma mk_record : mk record_step.
Proof. unfold record_step. cbv zeta. repeat mp. Qed.
Lemma mk_run_loop E f : mk (run_loop E f).
Proof.
  induction f as [|f IH]; cbn [run_loop]; [mp|]. mp; [apply mk_place|]. mp; [|mp]. mp. mp; [|exact IH]. mp; [|mp]. mp; [apply mk_detect|apply mk_record].
Qed.
Lemma mk_test_loop E f : mk (test_run_loop E f).
Proof.
  induction f as [|f IH]; cbn [test_run_loop]; [mp|]. mp; [apply mk_place|]. mp; [|mp]. mp. mp; [|exact IH]. mp; [apply mk_detect|]. mp; [repeat mp|].
  mp; [apply mk_record|exact IH].
Qed.
Lemma mk_sp_loop E f : mk (sp_loop E f).
Proof.
  induction f as [|f IH]; cbn [sp_loop]; [mp|]. mp; [apply mk_place|]. mp; [|mp]. mp. mp; [|exact IH]. mp; [apply mk_detect|]. mp; [|exact IH].
  mp. mp; [mp|]. mp; [mp|]. mp; [mp|]. mp. mp; [|exact IH]. repeat mp.
Qed.
Lemma lmax_nonempty l m : lmax l = Ok m -> l <> [].
Proof. intros H ->. now apply lmax_in in H. Qed.
Lemma al_exec E L s c : env_ok E -> call_ok L c -> Inv L s -> Al s -> Al (exec E s c).
Proof.
  intros HE Hc H A. destruct c as [| | |l sh|l sh|x y|f|f]; cbn [exec].
  - now apply mk_place.
  - now apply mk_detect.
  - now apply (al_reset E L).
  - unfold set_custome_site_id_list. unfold mbind at 1, get. cbv zeta. unfold mbind at 1, lift. destruct (lmax l) as [mx|e] eqn:E1; [|exact A].
    unfold mbind at 1. destruct (lmin l) as [mn|e]; [|exact A]. match goal with |- context [if ?b then _ else _] => destruct b end; [exact A|].
    unfold mbind at 1, modify. unfold mbind at 1. apply mk_shuffle. apply (al_ext (rebind_ids l l true s)); [|reflexivity..].
    split; [intros _; reflexivity|]. exact (lmax_nonempty _ _ E1).
  - unfold set_custome_site_index_list. unfold mbind at 1, get. cbv zeta. unfold mbind at 1, lift. match goal with |- context [lmax ?x] => set (m := x) end.
    destruct (lmax m) as [mx|e] eqn:E1; [|exact A].
    unfold mbind at 1. destruct (lmin m) as [mn|e]; [|exact A]. match goal with |- context [if ?b then _ else _] => destruct b end; [exact A|].
    unfold mbind at 1, modify. unfold mbind at 1. apply mk_shuffle. apply (al_ext (rebind_ids m (user_list s) false s)); [|reflexivity..].
    split; [discriminate|]. exact (lmax_nonempty _ _ E1).
  - unfold swap_ids. destruct (x =? y); [exact A|]. unfold mbind at 1, get. unfold mbind at 1, lift. destruct (lget (rev_ids s) x) as [i1|e]; [|exact A].
    unfold mbind at 1. destruct (lget (rev_ids s) y) as [i2|e]; [|exact A]. unfold mbind at 1. destruct (lset (ids s) i1 y) as [l1|e] eqn:E1; [|exact A].
    pose proof (lset_nonempty _ _ _ _ (proj2 A) E1) as N1. unfold mbind at 1, modify. unfold mbind at 1. destruct (lset l1 i2 x) as [l2|e] eqn:E2; [|now apply al_mutate].
    pose proof (lset_nonempty _ _ _ _ N1 E2) as N2. unfold mbind at 1. generalize (al_mutate l2 (mutate_ids l1 s) N2). generalize (mutate_ids l2 (mutate_ids l1 s)).
    intros p Hp. unfold mbind at 1. destruct (lset (rev_ids s) y i1) as [r1|e]; [|exact Hp]. unfold mbind at 1. unfold mbind.
    destruct (lset r1 x i2) as [r2|e]; apply (al_ext p); auto.
  - unfold run_once. revert s H A. intros s _. revert s. change (mk (do s <~ get ; match kind s with KSP => sp_run_once E f | _ => run_once_base E f end)).
    mp. assert (G1 : mk (run_once_base E f)) by (unfold run_once_base; mp; [apply mk_run_loop|mp]). assert (G2 : mk (sp_run_once E f)) by (unfold sp_run_once; mp; [apply mk_sp_loop|mp]).
    mp; auto.
  - revert A. revert s H. intros s _. revert s. change (mk (test_run_once E f)). unfold test_run_once. mp; [apply mk_test_loop|mp].
Qed.
Lemma al_new E k L t0 s : new_perc E k L t0 = Ok s -> Al s.
Proof.
  intros H. pose proof (new_perc_pos _ _ _ _ _ H) as HL. destruct (new_perc_ok E k L t0 HL) as (lat1 & l & t & rv & E1 & _ & P & _). rewrite E1 in H. injection H as <-.
  split; [discriminate|]. cbn. intros X. rewrite X in P. apply Permutation_sym, Permutation_nil in P. now apply (zrange_nonempty L HL).
Qed.
Lemma reachable_al E k L s : env_ok E -> reachable_k E k L s -> Al s.
Proof.
  intros HE (t0 & s0 & cs & E0 & Hc & ->). pose proof (al_new _ _ _ _ _ E0) as A. assert (H : Inv L s0) by (eapply fresh_inv, new_perc_fresh; eauto).
  clear E0. revert s0 A H. induction Hc as [|c cs Hc Hcs IH]; intros s A H; [exact A|]. cbn [after fold_left]. apply IH.
  - now apply (al_exec E L).
  - now apply (exec_inv E L).
Qed.

(** ** Whole calls *)
Lemma does_agrees {A} (f : B A) (m : M A) s : (forall s' a, m s = (s', Ok a) -> does f (whole s) (whole s') a) -> agrees f m s.
Proof.
  intros H s' a E. destruct (H s' a E) as (k & K1 & K2). exists k. split; auto. intros n Hn. destruct (K1 n Hn) as (x & ->). reflexivity.
Qed.
Lemma p_C98_unbroken E L s : env_ok E -> reachable E L s ->
  agrees (b_place E) (place_one_site E) s /\ agrees b_detect detect_wrapping s /\
  agrees (b_reset E) (reset E) s /\ forall f, agrees (b_run_once E f) (run_once E f) s.
Proof.
  intros HE (k & HR). pose proof (reachable_al E k L s HE HR) as (A & _). split; [|split; [|split]].
  - apply does_agrees. intros s' a. apply does_place.
  - apply does_agrees. intros s' a. apply does_detect.
  - apply does_agrees. intros s' []. now apply does_reset.
  - intros f. apply does_agrees. intros s' []. apply does_run.
Qed.

(** ** Only [reset] ever lacks a list *)
Definition lacks (i : held) := (no_h i, no_w i, no_l i).
Definition flat {A} (m : B A) : Prop := forall i n, lacks (fst (fst (m i n))) = lacks i.
Lemma flat_ret {A} (a : A) : flat (bret a).
Proof. intros i n. reflexivity. Qed.
Lemma flat_raise {A} e : flat (@braise A e).
Proof. intros i n. reflexivity. Qed.
Lemma flat_lift {A} (r : res A) : flat (blift r).
Proof. intros i n. reflexivity. Qed.
Lemma flat_need {A} e (o : option A) : flat (bneed e o).
Proof. destruct o; [apply flat_ret|apply flat_raise]. Qed.
Lemma flat_bind {A C} (m : B A) (k : A -> B C) : flat m -> (forall a, flat (k a)) -> flat (bbind m k).
Proof.
  intros Hm Hk i n. unfold bbind. specialize (Hm i n). destruct (m i n) as [[i1 n1] [[a|e]|]]; cbn [fst] in *; auto. rewrite Hk. exact Hm.
Qed.
Lemma flat_get {C} (k : perc -> B C) : (forall s, flat (k s)) -> flat (bbind bget k).
Proof. intros Hk. apply flat_bind; [intros i n; reflexivity|exact Hk]. Qed.
Lemma flat_held {C} (k : held -> B C) : (forall s, flat (k s)) -> flat (bbind bheld k).
Proof. intros Hk. apply flat_bind; [intros i n; reflexivity|exact Hk]. Qed.
Lemma flat_act f : flat (act f).
Proof. intros i n. destruct n; reflexivity. Qed.
Lemma flat_for {A} (l : list A) b : (forall x, flat (b x)) -> flat (bfor l b).
Proof. intros Hb. induction l as [|x l IH]; [apply flat_ret|]. cbn [bfor]. apply flat_bind; auto. Qed.
Ltac fl := lazymatch goal with
  | |- flat (bret _) => apply flat_ret
  | |- flat (braise _) => apply flat_raise
  | |- flat (blift _) => apply flat_lift
  | |- flat (bneed _ _) => apply flat_need
  | |- flat (bbind bget _) => apply flat_get; intro
  | |- flat (bbind bheld _) => apply flat_held; intro
  | |- flat (bbind _ _) => apply flat_bind; [|intro]
  | |- flat (act _) => apply flat_act
  | |- flat (bfor _ _) => apply flat_for; intro
  | |- flat (match ?b with _ => _ end) => destruct b
  end.
Lemma flat_on_lat f : flat (on_lat f).
Proof. unfold on_lat. repeat fl. Qed.
Lemma flat_on_pool f : flat (on_pool f).
Proof. unfold on_pool. repeat fl. Qed.
Lemma flat_randint E a b : flat (b_randint E a b).
Proof. unfold b_randint. repeat fl. Qed.
Lemma flat_current x : flat (b_current x).
Proof. unfold b_current. repeat fl. Qed.
Lemma flat_drop x : flat (b_drop_candidate x).
Proof. unfold b_drop_candidate. repeat fl. Qed.
Ltac fm := lazymatch goal with
  | |- flat (on_lat _) => apply flat_on_lat
  | |- flat (on_pool _) => apply flat_on_pool
  | |- flat (b_randint _ _ _) => apply flat_randint
  | |- flat (b_current _) => apply flat_current
  | |- flat (b_drop_candidate _) => apply flat_drop
  | _ => fl
  end.
Lemma flat_select E : flat (b_select E).
Proof. unfold b_select, b_select_base, b_select_L1, b_select_L2. cbv zeta. repeat fm. Qed.
Lemma flat_merge E a b l : flat (b_merge E a b l).
Proof. unfold b_merge, b_relabel, b_merge_cluster_with, b_clear_cluster. cbv zeta. repeat fm. Qed.
Lemma flat_track c : flat (b_track_largest c).
Proof. unfold b_track_largest. repeat fm. Qed.
Lemma flat_place E : flat (b_place E).
Proof. unfold b_place. fl; [apply flat_select|]. fl; [fl|]. fl; try fl. repeat first [fm | apply flat_merge | apply flat_track]. Qed.
Lemma flat_detect : flat b_detect.
Proof. unfold b_detect. repeat fm. Qed.
Lemma flat_append h f : flat (b_append h f).
Proof. unfold b_append. repeat fl. Qed.
Lemma flat_record : flat b_record.
Proof. unfold b_record. cbv zeta. repeat first [fm | apply flat_append]. Qed.
Lemma flat_run E f : flat (b_run_once E f).
Proof.
  assert (G1 : flat (b_run_loop E f)).
  { induction f as [|f IH]; cbn [b_run_loop]; [fl|]. repeat first [fl | exact IH | apply flat_place | apply flat_detect | apply flat_record]. }
  assert (G2 : flat (b_sp_loop E f)).
  { clear G1. induction f as [|f IH]; cbn [b_sp_loop]; [fl|]. repeat first [fl | exact IH | apply flat_place | apply flat_detect | apply flat_record]. }
  unfold b_run_once. repeat first [fl | exact G1 | exact G2].
Qed.
Lemma lacks_left E c n i : c <> BReset -> lacks (left_by E c n i) = lacks i.
Proof. destruct c; intros H; cbn [left_by]; [apply flat_place|apply flat_detect|easy|apply flat_run]. Qed.
Lemma complete_lacks i : complete i <-> lacks i = (false, false, false).
Proof. unfold complete, lacks. split; [intros (-> & -> & ->); reflexivity|]. intros H. injection H as -> -> ->. auto. Qed.
Lemma p_C98_only_reset E cs i : complete i -> Forall (fun c => fst c <> BReset) cs -> complete (left_by_all E cs i).
Proof.
  intros Hi H. revert i Hi. induction H as [|c cs Hc _ IH]; intros i Hi; [exact Hi|]. cbn [left_by_all fold_left]. apply IH. apply complete_lacks. rewrite lacks_left by auto.
  now apply complete_lacks.
Qed.

(** ** Soundness *)
Lemma sound_left E L s0 c n i : Sound L s0 (obj i) -> Sound L s0 (obj (left_by E c n i)).
Proof. intros H. destruct c; cbn [left_by]; [now apply BreakKeep.keeps_place|now apply BreakKeep.keeps_detect|now apply BreakKeep.keeps_reset|now apply BreakKeep.keeps_run]. Qed.
Lemma sound_left_all E L s0 cs : forall i, Sound L s0 (obj i) -> Sound L s0 (obj (left_by_all E cs i)).
Proof. induction cs as [|c cs IH]; intros i H; [exact H|]. cbn [left_by_all fold_left]. apply IH. now apply sound_left. Qed.

(** ** The last selection does not matter to [reset] *)
Definition put_sel (a b : option Z) (s : perc) : perc := set_cur_site b (set_sel_id a s).
Definition blind {A} (m : M A) : Prop := forall a b s, m (put_sel a b s) = (put_sel a b (fst (m s)), snd (m s)).
Lemma blind_ret {A} (x : A) : blind (ret x).
Proof. intros a b s. reflexivity. Qed.
Lemma blind_lift {A} (x : res A) : blind (lift x).
Proof. intros a b s. reflexivity. Qed.
Lemma blind_modify f : (forall a b s, f (put_sel a b s) = put_sel a b (f s)) -> blind (modify f).
Proof. intros H a b s. unfold modify. cbn [fst snd]. now rewrite H. Qed.
Lemma blind_bind {A C} (m : M A) (k : A -> M C) : blind m -> (forall a, blind (k a)) -> blind (mbind m k).
Proof.
  intros Hm Hk a b s. unfold mbind. rewrite (Hm a b s). destruct (m s) as [s1 [x|e]]; cbn [fst snd]; [apply Hk|reflexivity].
Qed.
Lemma blind_get {C} (k : perc -> M C) : (forall a b s, k (put_sel a b s) = k s) -> (forall s, blind (k s)) -> blind (mbind get k).
Proof. intros H Hk a b s. unfold mbind, get. rewrite H. apply Hk. Qed.
Ltac bl := lazymatch goal with
  | |- blind (ret _) => apply blind_ret
  | |- blind (lift _) => apply blind_lift
  | |- blind (mbind get _) => apply blind_get; [reflexivity|intro]
  | |- blind (mbind _ _) => apply blind_bind; [|intro]
  | |- blind (modify _) => apply blind_modify; reflexivity
  | |- blind (match ?b with _ => _ end) => destruct b
  end.
Lemma blind_shuffle E : blind (shuffle E).
Proof. unfold shuffle. repeat bl. Qed.
Lemma blind_reset E : blind (reset E).
Proof. unfold reset, reset_base. repeat first [bl | apply blind_shuffle]. Qed.
Lemma put_sel_id s : put_sel (sel_id s) (cur_site s) s = s.
Proof. destruct s. reflexivity. Qed.

Lemma recover E L s0 s : (is_L12 (kind s0) = false -> max_iter s0 = zlen (ids s0)) -> Sound L s0 s ->
  exists s', reset E s = (put_sel (sel_id s) (cur_site s) s', Ok tt) /\ ResetTo L (put_sel None None s) s'.
Proof.
  intros Hmi [St Hi Hr Hr0 Hcc Hent Hk Hm Hcu Hp Ha].
  destruct (reset_ok E L (put_sel None None s)) as (s' & Er & R); auto.
  { change (is_L12 (kind s) = false -> max_iter s = zlen (ids s)). rewrite Hk, Hm. intros X. rewrite (Hmi X). destruct (Hp X) as (P & _). now apply perm_len. }
  exists s'. split; auto. rewrite <- (put_sel_id s) at 1. change (put_sel (sel_id s) (cur_site s) s) with (put_sel (sel_id s) (cur_site s) (put_sel None None s)).
  rewrite blind_reset, Er. reflexivity.
Qed.

Lemma whole_obj i : complete i -> whole (obj i) = i.
Proof. intros (A & B & C). destruct i as [s a b c]. cbn in *. subst. reflexivity. Qed.
Section Recovered.
Variables (E : env) (k : pkind) (L : Z) (s : perc) (cs : list (bcall * nat)).
Hypothesis HE : env_ok E.
Hypothesis HR : reachable_k E k L s.
Let i := left_by_all E cs (whole s).
Lemma sound_here : Sound L s (obj i).
Proof.
  apply sound_left_all. cbn [obj whole]. destruct (reachable_k_kind E k L s HE HR) as (H & _). apply sound_self; auto. apply (reachable_al E k L s HE HR).
Qed.
Lemma recover_here : exists z, reset E (obj i) = (put_sel (sel_id (obj i)) (cur_site (obj i)) z, Ok tt) /\ ResetTo L (put_sel None None (obj i)) z.
Proof.
  destruct (reachable_k_kind E k L s HE HR) as (H & _). apply (recover E L s (obj i)); [|exact sound_here]. apply (i_mi _ _ H).
Qed.
Lemma ids_here z : ResetTo L (put_sel None None (obj i)) z ->
  kind z = k /\ (k = KL1 \/ k = KL2 -> ids z = zrange (L * L)) /\ (k <> KL1 -> k <> KL2 -> Permutation (ids s) (ids z)).
Proof.
  intros R. destruct (reachable_k_kind E k L s HE HR) as (H & Hk). pose proof sound_here as Q. pose proof (rt_kind _ _ _ R) as K. pose proof (rt_ids _ _ _ R) as P.
  change (kind (put_sel None None (obj i))) with (kind (obj i)) in *. change (ids (put_sel None None (obj i))) with (ids (obj i)) in *.
  rewrite (so_kind _ _ _ Q), Hk in *. split; auto. split.
  - intros [->| ->]; apply P.
  - intros N1 N2. assert (Hb : is_L12 k = false) by (destruct k; auto; easy). rewrite Hb in P. destruct (so_perm _ _ _ Q) as (P1 & _); [now rewrite Hk|].
    apply (Permutation_trans P1), P.
Qed.
Lemma nonempty_here z : ResetTo L (put_sel None None (obj i)) z -> ids z <> [] /\ (is_L12 (kind z) = true -> ids z = zrange (L * L)).
Proof.
  intros R. destruct (ids_here z R) as (K & A & B). destruct (reachable_k_kind E k L s HE HR) as (H & Hk). rewrite K.
  assert (C : is_L12 k = true -> ids z = zrange (L * L)) by (intros X; apply A; destruct k; auto; discriminate). split; auto.
  destruct (is_L12 k) eqn:Ek.
  - rewrite C by auto. apply zrange_nonempty, (i_pos _ _ H).
  - intros X. assert (P : Permutation (ids s) (ids z)) by (apply B; destruct k; discriminate). rewrite X in P. apply Permutation_sym, Permutation_nil in P.
    now apply (proj2 (reachable_al E k L s HE HR)).
Qed.
Lemma like_here z : ResetTo L (put_sel None None (obj i)) z -> forall E' k' t0 s0, new_perc E' k' L t0 = Ok s0 -> like_new z s0.
Proof.
  intros R E' k' t0 s0 E0. assert (F0 : FreshState L s0) by (eapply new_perc_fresh; eauto).
  assert (A0 : h_arr s0 = [] /\ pw_arr s0 = [] /\ pl_arr s0 = [] /\ p_arr s0 = []).
  { pose proof (new_perc_pos _ _ _ _ _ E0) as HL. destruct (new_perc_ok E' k' L t0 HL) as (lat1 & l & t & rv & E1 & _). rewrite E1 in E0. injection E0 as <-. auto. }
  destruct A0 as (A1 & A2 & A3 & A4). destruct R as [R1 R2 _ _ _ _ R7 _ _ _ _].
  destruct R1 as [f1 f2 f3 f4 f4' f5 f6 f7 f8 f9 f10 f11 f12 f13 f14].
  destruct F0 as [g1 g2 g3 g4 g4' g5 g6 g7 g8 g9 g10 g11 g12 g13 g14].
  destruct R7 as (r1 & r2 & r3 & r4). destruct f10, g10. destruct f11 as (? & ? & ? & ? & ?). destruct g11 as (? & ? & ? & ? & ?).
  split; [eapply fresh_unique; eauto|]. repeat (split; [congruence|]). congruence.
Qed.
End Recovered.

Lemma p_C98_recover E k L s cs : env_ok E -> reachable_k E k L s ->
  let i := left_by_all E cs (whole s) in complete i ->
  exists s', reset E (obj i) = (s', Ok tt) /\
  (exists m, forall n, (m <= n)%nat -> b_reset E i n = (whole s', (n - m)%nat, Fin (Ok tt))) /\
  kind s' = k /\ (k = KL1 \/ k = KL2 -> ids s' = zrange (L * L)) /\ (k <> KL1 -> k <> KL2 -> Permutation (ids s) (ids s')) /\
  (first_run (obj i) = true -> p_arr s' = []) /\
  forall E' k' t0 s0, new_perc E' k' L t0 = Ok s0 -> like_new s' s0.
Proof.
  intros HE HR i Ci. destruct (recover_here E k L s cs HE HR) as (z & Er & R). fold i in Er, R. set (s' := put_sel (sel_id (obj i)) (cur_site (obj i)) z) in *.
  exists s'. split; auto. split.
  - pose proof (does_reset E (obj i) s' (so_alias _ _ _ (sound_here E k L s cs HE HR)) Er) as (m & _ & M). rewrite (whole_obj i Ci) in M. exists m. exact M.
  - destruct (ids_here E k L s cs HE HR z R) as (K1 & K2 & K3). split; [exact K1|]. split; [exact K2|]. split; [exact K3|]. split.
    + intros Hf. pose proof (proj1 (rt_arrs _ _ _ R)) as Q. change (first_run (put_sel None None (obj i))) with (first_run (obj i)) in Q. rewrite Hf in Q. exact Q.
    + intros E' k' t0 s0 E0. exact (like_here E L s cs z R E' k' t0 s0 E0).
Qed.

(** ** The next selection replaces what the broken-off call had selected *)
Lemma select_blind E L z a b : FreshState L z -> ids z <> [] -> (is_L12 (kind z) = true -> ids z = zrange (L * L)) ->
  select_site E (put_sel a b z) = select_site E z.
Proof.
  intros F N I. pose proof (fresh_inv _ _ F) as H. pose proof (inv_selhyp _ _ H) as SH. pose proof (LL_pos L (i_pos _ _ H)) as HLL.
  assert (SH' : SelHyp L (put_sel a b z)) by (destruct SH; constructor; auto).
  rewrite (select_ok E L (put_sel a b z)) by (auto; exact (fs_mi _ _ F)). rewrite (select_ok E L z) by (auto; exact (fs_mi _ _ F)).
  assert (Zl : 0 < zlen (ids z)). { destruct (ids z); [easy|]. unfold zlen. cbn [length]. lia. }
  pose proof (fs_cur _ _ F) as Hc. pose proof (fr_site _ _ (fs_lat _ _ F)) as Hs.
  assert (U : forall x, is_site L x -> sg (lat z) x = -1 /\ occb (lat z) x = false).
  { intros x Hx. destruct (Hs x Hx) as (Q & _). split; auto. unfold occb. rewrite Q. reflexivity. }
  assert (XS : is_site L (candX E z)) by (apply candX_site; [apply (fs_ids _ _ F)|lia]).
  unfold sel. change (kind (put_sel a b z)) with (kind z). destruct (kind z) eqn:Ek.
  3: { unfold sel1. change (cur_idx (put_sel a b z)) with (cur_idx z). change (ids (put_sel a b z)) with (ids z). change (lat (put_sel a b z)) with (lat z).
       change (candX E (put_sel a b z)) with (candX E z). rewrite Hc. destruct (Z.leb_spec (L * L) 0); [lia|]. destruct (Z.leb_spec (zlen (ids z)) 0); [lia|]. cbv zeta.
       rewrite (proj2 (U _ XS)). reflexivity. }
  3: { unfold sel2. change (cur_idx (put_sel a b z)) with (cur_idx z). change (ids (put_sel a b z)) with (ids z). change (lat (put_sel a b z)) with (lat z).
       change (candX E (put_sel a b z)) with (candX E z). rewrite Hc. destruct (Z.leb_spec (L * L) 0); [lia|]. destruct (Z.leb_spec (zlen (ids z)) 0); [lia|]. cbv zeta.
       rewrite (proj2 (U _ XS)). reflexivity. }
  all: unfold sel_base; change (cur_idx (put_sel a b z)) with (cur_idx z); change (ids (put_sel a b z)) with (ids z); change (lat (put_sel a b z)) with (lat z);
    change (max_iter (put_sel a b z)) with (max_iter z); rewrite Hc; pose proof (fs_mi _ _ F) as Hm; rewrite Ek in Hm; rewrite (Hm eq_refl);
    (destruct (Z.leb_spec (zlen (ids z)) 0); [lia|]); cbv zeta;
    assert (X0 : is_site L (at_ 0 (ids z) 0)) by (eapply Forall_forall; [apply (fs_ids _ _ F)|apply at_In; lia]);
    rewrite (proj1 (U _ X0)); reflexivity.
Qed.
Lemma place_blind E L z a b : FreshState L z -> ids z <> [] -> (is_L12 (kind z) = true -> ids z = zrange (L * L)) ->
  place_one_site E (put_sel a b z) = place_one_site E z.
Proof. intros F N I. unfold place_one_site. unfold mbind at 1. rewrite (select_blind E L) by auto. reflexivity. Qed.
Lemma mbind_same {A C} (m : M A) (k : A -> M C) s t : m s = m t -> mbind m k s = mbind m k t.
Proof. intros H. unfold mbind. now rewrite H. Qed.
(** The same object without a selected site. *)
Lemma p_C98_selection E k L s cs : env_ok E -> reachable_k E k L s ->
  let s' := fst (reset E (obj (left_by_all E cs (whole s)))) in
  let forgot := set_cur_site None (set_sel_id None s') in
  (forall c, c = CPlace \/ (exists f, c = CRun (S f) \/ c = CTestRun (S f)) -> exec E s' c = exec E forgot c) /\
  place_one_site E s' = place_one_site E forgot.
Proof.
  intros HE HR s' forgot. destruct (recover_here E k L s cs HE HR) as (z & Er & R). destruct (nonempty_here E k L s cs HE HR z R) as (N & I).
  assert (Es : s' = put_sel (sel_id s') (cur_site s') z) by (subst s'; rewrite Er; reflexivity).
  assert (Ef : forgot = put_sel None None z) by (subst forgot; rewrite Es; reflexivity).
  assert (G : place_one_site E s' = place_one_site E forgot).
  { rewrite Es at 1. rewrite Ef. rewrite !(place_blind E L) by (auto; apply R). reflexivity. }
  split; auto. assert (Ek : kind forgot = kind s') by reflexivity. intros c [->|(f & [->| ->])]; cbn [exec].
  - now rewrite G.
  - f_equal. change (run_once E (S f) s') with ((match kind s' with KSP => sp_run_once E (S f) | _ => run_once_base E (S f) end) s').
    change (run_once E (S f) forgot) with ((match kind s' with KSP => sp_run_once E (S f) | _ => run_once_base E (S f) end) forgot).
    destruct (kind s'); unfold run_once_base, sp_run_once; apply mbind_same; cbn [run_loop sp_loop]; apply mbind_same; exact G.
  - f_equal. unfold test_run_once. apply mbind_same. cbn [test_run_loop]. apply mbind_same. exact G.
Qed.

Lemma ent_after E L cs : env_ok E -> forall s, Forall (call_ok L) cs -> Inv L s -> EntOK L s -> EntOK L (after E s cs).
Proof.
  intros HE. induction cs as [|c cs IH]; intros s Hc H Q; [exact Q|]. apply Forall_cons_iff in Hc as (H1 & H2). cbn [after fold_left]. apply IH; auto; [now apply exec_inv|].
  destruct (match c with CReset => true | _ => false end) eqn:Ec.
  - destruct c; try discriminate. cbn [exec]. destruct (reset_inv E L s H) as (s' & -> & R). apply fresh_ent, R.
  - assert (S : steps E L s (exec E s c)) by (apply exec_steps; auto; destruct c; cbn; auto; discriminate). clear - HE S Q.
    induction S as [|s1 s2 S IH I1 M I2]; auto. apply (micro_ent E L s1); auto.
Qed.
Lemma p_C98_resume E k L s cs : env_ok E -> reachable_k E k L s ->
  let s' := fst (reset E (obj (left_by_all E cs (whole s)))) in
  forall more, Forall (call_ok L) more -> Forall stepwise more ->
  let xs := placed_order (events E s' (CPlace :: more)) in
  let s2 := after E s' (CPlace :: more) in
  described L xs s2 /\ (3 <= L -> tracked (CPlace :: more) -> loop_described L xs s2).
Proof.
  intros HE HR s' more Hc Hs. destruct (recover_here E k L s cs HE HR) as (z & Er & R). destruct (nonempty_here E k L s cs HE HR z R) as (N & I).
  pose proof (rt_fresh _ _ _ R) as F. pose proof (fresh_inv _ _ F) as H.
  assert (Es : s' = put_sel (sel_id s') (cur_site s') z) by (subst s'; rewrite Er; reflexivity).
  assert (G : place_one_site E s' = place_one_site E z) by (rewrite Es; apply (place_blind E L); auto).
  cbn [events after fold_left exec event_of]. rewrite G.
  change (let xs := placed_order (events E z (CPlace :: more)) in let s2 := after E z (CPlace :: more) in
    described L xs s2 /\ (3 <= L -> tracked (CPlace :: more) -> loop_described L xs s2)). intros xs s2.
  assert (Hc' : Forall (call_ok L) (CPlace :: more)) by (constructor; [exact Logic.I|auto]). assert (Hs' : Forall stepwise (CPlace :: more)) by (constructor; [exact Logic.I|auto]).
  assert (D0 : Dx L [] z).
  { split; auto. split; [constructor|]. pose proof (i_occ _ _ H) as Q. rewrite (fs_occ _ _ F) in Q.
    intros j. split; [intros []|]. intros (Hi & Ho). pose proof (count_zero _ _ (eq_sym Q) j ltac:(now apply In_zrange)) as Z. apply occb_true in Ho. congruence. }
  pose proof (after_dx E L _ HE [] z Hc' Hs' D0) as D. change (add [] (events E z (CPlace :: more))) with xs in D. fold s2 in D.
  assert (He : EntOK L s2) by (apply ent_after; auto; now apply fresh_ent). split.
  - apply described_dx; auto. rewrite (shannon_hh L) by apply D. exact He.
  - intros H3 T. pose proof (fresh_tr L z F) as (_ & Pz). specialize (Pz H3). assert (Hx0 : Hx L [] z) by (intros Hw; pose proof (proj1 (fs_wrap _ _ F)); congruence).
    apply loop_dx; auto.
    + apply tracked_pc; auto.
    + apply (after_hx E L _ HE H3 T [] z); auto.
Qed.

(** ** A list that is gone stays away *)
Definition stuck {A} (m : B A) : Prop := forall i n, ~ complete i -> ~ complete (fst (fst (m i n))) /\ forall a, snd (m i n) <> Fin (Ok a).
Lemma stuck_after {A C} (m : B A) (k : A -> B C) : flat m -> (forall a, stuck (k a)) -> stuck (bbind m k).
Proof.
  intros Hm Hk i n H. unfold bbind. specialize (Hm i n). destruct (m i n) as [[i1 n1] [[a|e]|]]; cbn [fst] in Hm; rewrite complete_lacks, <- Hm, <- complete_lacks in H.
  - now apply Hk.
  - cbn [fst snd]. split; [exact H|discriminate].
  - cbn [fst snd]. split; [exact H|discriminate].
Qed.
Lemma stuck_first {A C} (m : B A) (k : A -> B C) : stuck m -> stuck (bbind m k).
Proof.
  intros Hm i n H. unfold bbind. specialize (Hm i n H). destruct (m i n) as [[i1 n1] [[a|e]|]]; cbn [fst snd] in *.
  - destruct Hm as (_ & Hm). now destruct (Hm a).
  - split; [apply Hm|discriminate].
  - split; [apply Hm|discriminate].
Qed.
Lemma flat_shuffle E : flat (b_shuffle E).
Proof.
  assert (G : forall k, flat (b_shuffle_from E k)) by (induction k as [|k IH]; cbn [b_shuffle_from]; cbv zeta; repeat first [fm | exact IH]).
  unfold b_shuffle. repeat first [fm | apply G].
Qed.
Lemma stuck_reset E : stuck (b_reset E).
Proof.
  unfold b_reset. apply stuck_first. unfold b_reset_base.
  apply stuck_after; [unfold b_lattice_reset, b_site_reset; repeat fm|intros _]. apply stuck_after; [unfold b_pool_reset; repeat fm|intros _].
  do 2 (apply stuck_after; [fl|intros _]). apply stuck_after; [unfold b_init_clusters, b_pool_reset, b_create; cbv zeta; repeat fm|intros _].
  apply stuck_after; [apply flat_shuffle|intros _].
  do 9 (apply stuck_after; [fl|intros _]). apply stuck_after; [intros i n; reflexivity|intros s]. apply stuck_after; [repeat fl|intros _].
  intros [o a b c] n H. unfold complete in *. cbn [no_h no_w no_l] in H.
  destruct a, b, c; try (exfalso; apply H; auto; fail); destruct n as [|[|[|[|[|[|n]]]]]]; cbn; split; try discriminate; intros (X & Y & Z); discriminate.
Qed.
Lemma p_C99_stuck E cs i : ~ complete i ->
  ~ complete (left_by_all E cs i) /\ forall n u, snd (b_reset E (left_by_all E cs i) n) <> Fin (Ok u).
Proof.
  intros H. assert (G : ~ complete (left_by_all E cs i)).
  { revert i H. induction cs as [|[c n] cs IH]; intros i H; [exact H|]. cbn [left_by_all fold_left fst snd]. apply IH.
    destruct c; cbn [left_by]; try (rewrite complete_lacks, ?flat_place, ?flat_detect, ?flat_run, <- complete_lacks; exact H). now apply stuck_reset. }
  split; auto. intros n u. now apply stuck_reset.
Qed.

(** Every [reset] passes three such points. *)
(** What an action does to the object does not depend on which lists exist. *)
Definition unaware {A} (m : B A) : Prop := forall o x y z n,
  m (mkHeld o x y z) n = (let '(i, n', r) := m (whole o) n in (mkHeld (obj i) x y z, n', r)).
Lemma unaware_ret {A} (a : A) : unaware (bret a).
Proof. now intros o x y z n. Qed.
Lemma unaware_lift {A} (r : res A) : unaware (blift r).
Proof. now intros o x y z n. Qed.
Lemma unaware_act f : unaware (act f).
Proof. intros o x y z [|n]; reflexivity. Qed.
Lemma unaware_bind {A C} (m : B A) (k : A -> B C) : unaware m -> (forall a, unaware (k a)) -> unaware (bbind m k).
Proof.
  intros Hm Hk o x y z n. unfold bbind. pose proof (Hm o false false false n) as H0. change (mkHeld o false false false) with (whole o) in H0.
  rewrite (Hm o x y z n). destruct (m (whole o) n) as [[i1 n1] [[a|e]|]]; auto. injection H0 as H0. rewrite (Hk a (obj i1) x y z n1).
  unfold whole. now rewrite <- H0.
Qed.
Lemma unaware_get {C} (k : perc -> B C) : (forall s, unaware (k s)) -> unaware (bbind bget k).
Proof. intros Hk. apply unaware_bind; auto. now intros o x y z n. Qed.
Lemma unaware_for {A} (l : list A) b : (forall x, unaware (b x)) -> unaware (bfor l b).
Proof. intros H. induction l as [|a l IH]; cbn [bfor]; [apply unaware_ret|]. now apply unaware_bind. Qed.
Ltac un := lazymatch goal with
  | |- unaware (bret _) => apply unaware_ret
  | |- unaware (blift _) => apply unaware_lift
  | |- unaware (bbind bget _) => apply unaware_get; intro
  | |- unaware (bbind _ _) => apply unaware_bind; [|intro]
  | |- unaware (act _) => apply unaware_act
  | |- unaware (on_lat _) => unfold on_lat
  | |- unaware (bfor _ _) => apply unaware_for; intro
  | |- unaware (match ?b with _ => _ end) => destruct b
  end.
Lemma unaware_shuffle E : unaware (b_shuffle E).
Proof.
  assert (G : forall k, unaware (b_shuffle_from E k)) by (induction k as [|k IH]; cbn [b_shuffle_from]; cbv zeta; repeat first [un | exact IH]).
  unfold b_shuffle. repeat first [un | apply G].
Qed.
Lemma does_unaware {A} (m : B A) o o' a x y z : unaware m -> does m (whole o) (whole o') a -> does m (mkHeld o x y z) (mkHeld o' x y z) a.
Proof.
  intros Hm (q & H1 & H2). exists q. split; intros n Hn; rewrite (Hm o x y z n).
  - destruct (H1 n Hn) as (j & ->). eauto.
  - now rewrite (H2 n Hn).
Qed.
(** The end of [reset], where the lists are deleted and recreated. *)
Definition lists_part : B unit :=
  go b_del no_h lose_h ;
  go stmt (fun i => mkHeld (set_arrs (p_arr (obj i)) [] (pw_arr (obj i)) (pl_arr (obj i)) (obj i)) false (no_w i) (no_l i)) ;
  go b_del no_w lose_w ;
  go stmt (fun i => mkHeld (set_arrs (p_arr (obj i)) (h_arr (obj i)) [] (pl_arr (obj i)) (obj i)) (no_h i) false (no_l i)) ;
  go b_del no_l lose_l ;
  stmt (fun i => mkHeld (set_arrs (p_arr (obj i)) (h_arr (obj i)) (pw_arr (obj i)) [] (obj i)) (no_h i) (no_w i) false).
Definition comes_to (m : B unit) (i j : held) : Prop := exists q, forall n, m i (q + n)%nat = lists_part j n.
Lemma comes_bind {A} (m : B A) (k : A -> B unit) i i1 a j : does m i i1 a -> comes_to (k a) i1 j -> comes_to (bbind m k) i j.
Proof. intros (x & _ & X) (q & Hq). exists (x + q)%nat. intros n. unfold bbind. rewrite X by lia. replace (x + q + n - x)%nat with (q + n)%nat by lia. apply Hq. Qed.
Lemma to_lists E o s' x y z : aliased o -> reset E o = (s', Ok tt) -> exists o2, comes_to (b_reset_base E) (mkHeld o x y z) (mkHeld o2 x y z).
Proof.
  intros Ha Er. unfold reset in Er. apply mbind_inv in Er as ([] & s1 & H0 & _). unfold reset_base in H0. apply get_inv in H0. do 2 apply modify_inv in H0. apply get_inv in H0.
  apply lift_inv in H0 as ((p & l) & H1 & H0). apply modify_inv in H0. apply mbind_inv in H0 as ([] & s2 & H2 & _).
  assert (Q : forall A (m : B A) (k : A -> B unit) t t1 a, unaware m -> does m (whole t) (whole t1) a ->
    (exists o2, comes_to (k a) (mkHeld t1 x y z) (mkHeld o2 x y z)) -> exists o2, comes_to (bbind m k) (mkHeld t x y z) (mkHeld o2 x y z)).
  { intros A m k0 t t1 a U D (o2 & J). exists o2. apply (comes_bind m k0 _ (mkHeld t1 x y z) a); auto. now apply does_unaware. }
  unfold b_reset_base. eapply Q; [unfold b_lattice_reset, b_site_reset; repeat un|apply does_lattice_reset|].
  eapply Q; [unfold b_pool_reset; repeat un|apply does_pool_reset|]. do 2 (eapply Q; [apply unaware_act|apply does_act|]).
  eapply Q; [unfold b_init_clusters, b_pool_reset, b_create; cbv zeta; repeat un|apply does_init; exact H1|].
  eapply Q; [apply unaware_shuffle|apply does_shuffle; [|exact H2]; exact Ha|]. clear H1 H2.
  do 9 (eapply Q; [apply unaware_act|apply does_act|]). match goal with |- exists o2, comes_to _ (mkHeld ?t _ _ _) _ => generalize t end. clear. intros t.
  exists (if first_run t then set_arrs [] (h_arr t) (pw_arr t) (pl_arr t) t else t). exists (if first_run t then 1%nat else 0%nat). intros n.
  unfold bbind at 1, bget. cbn [obj]. destruct (first_run t); reflexivity.
Qed.
Lemma p_C99_points E k L s cs : env_ok E -> reachable_k E k L s -> let i := left_by_all E cs (whole s) in complete i ->
  exists n1 n2 n3, (n1 < n2)%nat /\ (n2 < n3)%nat /\
  (let j := left_by E BReset n1 i in no_h j = true /\ no_w j = false /\ no_l j = false) /\
  (let j := left_by E BReset n2 i in no_h j = false /\ no_w j = true /\ no_l j = false) /\
  (let j := left_by E BReset n3 i in no_h j = false /\ no_w j = false /\ no_l j = true) /\
  Forall (fun n => snd (b_reset E i n) = Cut) [n1; n2; n3].
Proof.
  intros HE HR i Ci. destruct (recover_here E k L s cs HE HR) as (z & Er & R). fold i in Er.
  destruct (to_lists E (obj i) _ false false false (so_alias _ _ _ (sound_here E k L s cs HE HR)) Er) as (o2 & q & Hq).
  change (mkHeld (obj i) false false false) with (whole (obj i)) in Hq. rewrite (whole_obj i Ci) in Hq.
  exists (q + 1)%nat, (q + 3)%nat, (q + 5)%nat. split; [lia|]. split; [lia|]. cbn [left_by].
  assert (G : forall n, (n < 6)%nat -> b_reset E i (q + n)%nat = lists_part (whole o2) n).
  { intros n Hn. unfold b_reset. unfold bbind at 1. rewrite Hq. change (mkHeld o2 false false false) with (whole o2).
    destruct n as [|[|[|[|[|[|n]]]]]]; try reflexivity. lia. }
  rewrite !G by lia. split; [now vm_compute|]. split; [now vm_compute|]. split; [now vm_compute|].
  repeat constructor; rewrite G by lia; reflexivity.
Qed.
Lemma p_C99_error E k L s cs : env_ok E -> reachable_k E k L s -> let i := left_by_all E cs (whole s) in ~ complete i ->
  exists m, forall n, (m <= n)%nat -> snd (b_reset E i n) = Fin (Err AttributeError).
Proof.
  intros HE HR i Ci. destruct (recover_here E k L s cs HE HR) as (z & Er & R). fold i in Er.
  destruct (to_lists E (obj i) _ (no_h i) (no_w i) (no_l i) (so_alias _ _ _ (sound_here E k L s cs HE HR)) Er) as (o2 & q & Hq).
  exists (q + 6)%nat. intros n Hn. replace n with (q + (6 + (n - q - 6)))%nat by lia. generalize (n - q - 6)%nat. intros r.
  unfold b_reset, bbind at 1. replace i with (mkHeld (obj i) (no_h i) (no_w i) (no_l i)) by (destruct i; reflexivity). cbn [obj no_h no_w no_l]. rewrite Hq.
  unfold complete in Ci. destruct (no_h i), (no_w i), (no_l i); try reflexivity. exfalso. apply Ci. auto.
Qed.

(** ** Going on without [reset] *)
Lemma p_C100 : exists E k L s n, env_ok E /\ reachable_k E k L s /\
  let i := left_by E BPlace n (whole s) in complete i /\
  exists s', run_once E 20 (obj i) = (s', Ok tt) /\ occ_count s' = L * L /\ occupation_prob s' = Ok (FDiv (FZ (L * L)) (FZ (L * L))) /\
    exists x, is_site L x /\ ~ occupied s' x.
Proof.
  exists demo_env, KBase, 3, (demo0 KBase 3), 4%nat. split; [apply demo_env_ok|]. split; [exists 0%nat, (demo0 KBase 3), []; split; [apply demo0_ok|]; split; [constructor|unfold after; cbn [fold_left]; reflexivity]|].
  split; [vm_compute; auto|]. eexists. split; [vm_compute; reflexivity|]. split; [reflexivity|]. split; [vm_compute; reflexivity|].
  exists 1. split; [unfold is_site; lia|]. vm_compute. intros H. now apply H.
Qed.
