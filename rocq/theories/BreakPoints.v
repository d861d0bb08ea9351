(** * BreakPoints: what a broken-off call leaves behind (C107). *)
From Coq Require Import ZArith List Bool Lia Permutation.
From Verif Require Import Py Lattice Cluster Perc Spec PyFacts Torus Geometry LatFacts Inv Merge Fresh Select State Step History Reach Break BreakFacts BreakReset BreakKeep BreakSpec BreakProps Demo.
Import ListNotations.
Open Scope Z_scope.

Section Attribute.
Context {X : Type} (f : perc -> X).
Definition val {A} (r : held * nat * ending A) : X := f (obj (fst (fst r))).
(** [m] never changes the attribute. *)
Definition still {A} (m : B A) : Prop := forall i n, val (m i n) = f (obj i).
(** Once [m] has changed the attribute it has its final value. *)
Definition settles {A} (m : B A) : Prop := forall i n d, val (m i n) = f (obj i) \/ val (m i (n + d)%nat) = val (m i n).
(** More statements than needed make no difference. *)
Definition steady {A} (m : B A) : Prop := forall i n i' k r d, m i n = (i', k, Fin r) -> m i (n + d)%nat = (i', (k + d)%nat, Fin r).

Lemma still_settles {A} (m : B A) : still m -> settles m.
Proof. intros H i n d. left. apply H. Qed.
Lemma still_ret {A} (a : A) : still (bret a).
Proof. now intros i n. Qed.
Lemma still_raise {A} e : still (@braise A e).
Proof. now intros i n. Qed.
Lemma still_lift {A} (r : res A) : still (blift r).
Proof. now intros i n. Qed.
Lemma still_need {A} e (o : option A) : still (bneed e o).
Proof. destruct o; [apply still_ret|apply still_raise]. Qed.
Lemma still_bind {A C} (m : B A) (k : A -> B C) : still m -> (forall a, still (k a)) -> still (bbind m k).
Proof.
  intros Hm Hk i n. unfold bbind. specialize (Hm i n). unfold val in *. destruct (m i n) as [[i1 n1] [[a|e]|]]; cbn [fst] in *; auto.
  etransitivity; [apply (Hk a i1 n1)|exact Hm].
Qed.
Lemma still_get {C} (k : perc -> B C) : (forall s, still (k s)) -> still (bbind bget k).
Proof. intros Hk. apply still_bind; auto. now intros i n. Qed.
Lemma still_act g : (forall s, f (g s) = f s) -> still (act g).
Proof. intros H i n. destruct n; [reflexivity|]. unfold val. cbn. apply H. Qed.
Lemma still_stmt g : (forall i, f (obj (g i)) = f (obj i)) -> still (stmt g).
Proof. intros H i n. destruct n; [reflexivity|]. unfold val. cbn. apply H. Qed.
Lemma still_del h g : (forall i, f (obj (g i)) = f (obj i)) -> still (b_del h g).
Proof. intros H. unfold b_del. apply still_bind; [intros i n; reflexivity|]. intros i. destruct (h i); [apply still_raise|now apply still_stmt]. Qed.
Lemma still_for {A} (l : list A) b : (forall x, still (b x)) -> still (bfor l b).
Proof. intros Hb. induction l as [|x l IH]; [apply still_ret|]. cbn [bfor]. now apply still_bind. Qed.

Lemma settles_after {A C} (m : B A) (k : A -> B C) : still m -> steady m -> (forall a, settles (k a)) -> settles (bbind m k).
Proof.
  intros Hm Hs Hk i n d. unfold bbind. pose proof (Hm i n) as H1. unfold val in H1. destruct (m i n) as [[i1 n1] [[a|e]|]] eqn:E1; cbn [fst] in H1.
  - rewrite (Hs _ _ _ _ _ d E1). destruct (Hk a i1 n1 d) as [H|H]; [left; now rewrite H|right; exact H].
  - left. exact H1.
  - left. exact H1.
Qed.
Lemma settles_before {A C} (m : B A) (k : A -> B C) : settles m -> (forall a, still (k a)) -> settles (bbind m k).
Proof.
  intros Hm Hk i n d.
  assert (G : forall n, val (bbind m k i n) = val (m i n)).
  { intros q. unfold bbind. destruct (m i q) as [[i1 n1] [[a|e]|]] eqn:E1; auto. rewrite (Hk a i1 n1). reflexivity. }
  rewrite !G. apply Hm.
Qed.
Lemma settles_stmt g : settles (stmt g).
Proof. intros i n d. destruct n; [left; reflexivity|right; reflexivity]. Qed.
Lemma settles_act g : settles (act g).
Proof. intros i n d. destruct n; [left; reflexivity|right; reflexivity]. Qed.
End Attribute.

Lemma steady_ret {A} (a : A) : steady (bret a).
Proof. intros i n i' k r d [= <- <- <-]. reflexivity. Qed.
Lemma steady_raise {A} e : steady (@braise A e).
Proof. intros i n i' k r d [= <- <- <-]. reflexivity. Qed.
Lemma steady_lift {A} (x : res A) : steady (blift x).
Proof. intros i n i' k r d [= <- <- <-]. reflexivity. Qed.
Lemma steady_need {A} e (o : option A) : steady (bneed e o).
Proof. destruct o; [apply steady_ret|apply steady_raise]. Qed.
Lemma steady_act g : steady (act g).
Proof. intros i n i' k r d. destruct n; [discriminate|]. intros [= <- <- <-]. reflexivity. Qed.
Lemma steady_stmt g : steady (stmt g).
Proof. intros i n i' k r d. destruct n; [discriminate|]. intros [= <- <- <-]. reflexivity. Qed.
Lemma steady_bind {A C} (m : B A) (k : A -> B C) : steady m -> (forall a, steady (k a)) -> steady (bbind m k).
Proof.
  intros Hm Hk i n i' q r d. unfold bbind. destruct (m i n) as [[i1 n1] [[a|e]|]] eqn:E1; [| |discriminate].
  - rewrite (Hm _ _ _ _ _ d E1). intros H. now apply Hk.
  - rewrite (Hm _ _ _ _ _ d E1). intros [= <- <- <-]. reflexivity.
Qed.
Lemma steady_del h g : steady (b_del h g).
Proof.
  unfold b_del. apply steady_bind; [intros i n i' q r d [= <- <- <-]; reflexivity|]. intros i. destruct (h i); [apply steady_raise|apply steady_stmt].
Qed.
Lemma steady_get {C} (k : perc -> B C) : (forall s, steady (k s)) -> steady (bbind bget k).
Proof. intros Hk. apply steady_bind; auto. intros i n i' q r d [= <- <- <-]. reflexivity. Qed.
Lemma steady_for {A} (l : list A) b : (forall x, steady (b x)) -> steady (bfor l b).
Proof. intros Hb. induction l as [|x l IH]; [apply steady_ret|]. cbn [bfor]. now apply steady_bind. Qed.
Ltac sd := lazymatch goal with
  | |- steady bget => let H := fresh in intros ? ? ? ? ? ? H; injection H as <- <- <-; reflexivity
  | |- steady (bret _) => apply steady_ret
  | |- steady (braise _) => apply steady_raise
  | |- steady (blift _) => apply steady_lift
  | |- steady (bneed _ _) => apply steady_need
  | |- steady (act _) => apply steady_act
  | |- steady (stmt _) => apply steady_stmt
  | |- steady (b_del _ _) => apply steady_del
  | |- steady (bbind bget _) => apply steady_get; intro
  | |- steady (bbind _ _) => apply steady_bind; [|intro]
  | |- steady (bfor _ _) => apply steady_for; intro
  | |- steady (on_lat _) => unfold on_lat
  | |- steady (on_pool _) => unfold on_pool
  | |- steady (b_randint _ _ _) => unfold b_randint
  | |- steady (b_current _) => unfold b_current
  | |- steady (b_drop_candidate _) => unfold b_drop_candidate
  | |- steady (match ?b with _ => _ end) => destruct b
  end.
Ltac st := lazymatch goal with
  | |- still _ bget => intros ? ?; reflexivity
  | |- still _ (bret _) => apply still_ret
  | |- still _ (braise _) => apply still_raise
  | |- still _ (blift _) => apply still_lift
  | |- still _ (bneed _ _) => apply still_need
  | |- still _ (act _) => apply still_act; reflexivity
  | |- still _ (stmt _) => apply still_stmt; reflexivity
  | |- still _ (b_del _ _) => apply still_del; reflexivity
  | |- still _ (bbind bget _) => apply still_get; intro
  | |- still _ (bbind _ _) => apply still_bind; [|intro]
  | |- still _ (bfor _ _) => apply still_for; intro
  | |- still _ (on_lat _) => unfold on_lat
  | |- still _ (on_pool _) => unfold on_pool
  | |- still _ (b_randint _ _ _) => unfold b_randint
  | |- still _ (b_current _) => unfold b_current
  | |- still _ (b_drop_candidate _) => unfold b_drop_candidate
  | |- still _ (match ?b with _ => _ end) => destruct b
  end.
Ltac all_still := solve [cbv zeta; repeat st].
Ltac se := lazymatch goal with
  | |- settles _ (act _) => apply settles_act
  | |- settles _ (stmt _) => apply settles_stmt
  | |- settles _ (on_lat _) => unfold on_lat
  | |- settles _ (on_pool _) => unfold on_pool
  | |- settles _ (b_randint _ _ _) => unfold b_randint
  | |- settles _ (b_current _) => unfold b_current
  | |- settles _ (b_drop_candidate _) => unfold b_drop_candidate
  | |- settles _ (bbind _ _) => first [apply settles_before; [|intro; all_still] | apply settles_after; [all_still|solve [cbv zeta; repeat sd]|intro]]
  | |- settles _ (match ?b with _ => _ end) => destruct b
  | |- settles _ _ => apply still_settles; all_still
  end.
Ltac pick f := apply (settles_after f); [try all_still|solve [cbv zeta; repeat sd]|intro].
Lemma steady_select E : steady (b_select E).
Proof. unfold b_select, b_select_base, b_select_L1, b_select_L2. cbv zeta. repeat sd. Qed.
Lemma steady_merge E a b l : steady (b_merge E a b l).
Proof. unfold b_merge, b_relabel, b_merge_cluster_with, b_clear_cluster. cbv zeta. repeat sd. Qed.

Lemma settles_select {X} (f : perc -> X) E :
  (settles f b_select_base) -> settles f (b_select_L1 E) -> settles f (b_select_L2 E) -> settles f (b_select E).
Proof.
  intros H0 H1 H2. unfold b_select. apply (settles_after f); [intros i n; reflexivity|intros i n i' q r d [= <- <- <-]; reflexivity|]. intros s. destruct (kind s); auto.
Qed.
Ltac sel_tac E := apply settles_select; [unfold b_select_base|unfold b_select_L1|unfold b_select_L2]; cbv zeta; repeat se.
Lemma settles_sel E : settles sel_id (b_select E).
Proof. sel_tac E. Qed.
Lemma settles_cur E : settles cur_site (b_select E).
Proof. sel_tac E. Qed.
Lemma settles_idx E : settles cur_idx (b_select E).
Proof. sel_tac E. Qed.
Lemma settles_occ E : settles occ_count (b_select E).
Proof. sel_tac E. Qed.
Lemma settles_rec E : settles record (b_select E).
Proof. sel_tac E. Qed.
Lemma settles_x E : settles x_occ (b_select E).
Proof. sel_tac E. Qed.
Lemma settles_y E : settles y_occ (b_select E).
Proof. sel_tac E. Qed.

(** ** Placing *)
Lemma steady_place E : steady (b_place E).
Proof. unfold b_place. apply steady_bind; [apply steady_select|intro]. repeat first [sd | apply steady_merge | progress unfold b_track_largest]. Qed.
Lemma settles_place_sel {X} (f : perc -> X) E : settles f (b_select E) -> (forall s l, f (set_lat l s) = f s) -> (forall s p, f (set_pool p s) = f s) ->
  (forall s e, f (set_ent e s) = f s) -> (forall s a b, f (set_largest a b s) = f s) -> (forall s v, f (set_sel_flag v s) = f s) -> settles f (b_place E).
Proof.
  intros H H1 H2 H3 H4 H5. unfold b_place. apply settles_before; auto. intros flag.
  assert (Q : forall g, (forall s, f (g s) = f s) -> still f (act g)) by (intros g; apply still_act).
  unfold b_merge, b_relabel, b_merge_cluster_with, b_clear_cluster, b_track_largest. cbv zeta.
  repeat first [apply still_act; intro; first [apply H1 | apply H2 | apply H3 | apply H4 | apply H5] | st].
Qed.
Lemma still_select_all {X} (f : perc -> X) E : (forall s v, f (set_sel_id v s) = f s) -> (forall s v, f (set_cur_site v s) = f s) -> (forall s v, f (set_cur_idx v s) = f s) ->
  (forall s v, f (set_occ_count v s) = f s) -> (forall s v, f (set_record v s) = f s) -> (forall s a b, f (set_xy a b s) = f s) -> (forall s v, f (set_lat v s) = f s) ->
  (forall s v, f (mutate_ids v s) = f s) -> (forall s v, f (set_tick v s) = f s) -> still f (b_select E).
Proof.
  intros H1 H2 H3 H4 H5 H6 H7 H8 H9. unfold b_select, b_select_base, b_select_L1, b_select_L2. cbv zeta.
  repeat first [apply still_act; intro; first [apply H1 | apply H2 | apply H3 | apply H4 | apply H5 | apply H6 | apply H7 | apply H8 | apply H9] | st].
Qed.
Lemma still_merge_all {X} (f : perc -> X) E a b l : (forall s v, f (set_lat v s) = f s) -> (forall s v, f (set_pool v s) = f s) -> still f (b_merge E a b l).
Proof.
  intros H1 H2. unfold b_merge, b_relabel, b_merge_cluster_with, b_clear_cluster. cbv zeta.
  repeat first [apply still_act; intro; first [apply H1 | apply H2] | st].
Qed.
Lemma settles_place_largest {X} (f : perc -> X) E : (forall a b l, still f (b_merge E a b l)) -> still f (b_select E) -> (forall s v, f (set_sel_flag v s) = f s) ->
  (forall s v, f (set_lat v s) = f s) -> (forall s v, f (set_ent v s) = f s) -> (forall c, settles f (b_track_largest c)) -> settles f (b_place E).
Proof.
  intros HM HS H1 H2 H3 HT. unfold b_place. apply settles_after; [exact HS|apply steady_select|intros flag].
  apply settles_after; [apply still_act; intro; apply H1|sd|intros _]. destruct flag; [|apply still_settles; apply still_ret|apply still_settles; apply still_ret].
  apply settles_after; [st|sd|intros s]. do 2 (apply settles_after; [st|sd|intro]).
  apply settles_after; [unfold on_lat; repeat first [apply still_act; intro; apply H2 | st]|repeat sd|intros _].
  apply settles_after; [st|sd|intros s1]. do 2 (apply settles_after; [st|sd|intro]).
  apply settles_after; [apply still_act; intro; apply H3|sd|intros _]. apply settles_after; [apply HM|apply steady_merge|intros root].
  apply settles_before; [apply HT|intros _]. repeat first [apply still_act; intro; apply H3 | st].
Qed.

Lemma settles_flag E : settles sel_flag (b_place E).
Proof.
  unfold b_place. apply settles_after; [apply still_select_all; reflexivity|apply steady_select|intros flag]. apply settles_before; [apply settles_act|intros _].
  destruct flag; [|apply still_ret|apply still_ret]. unfold b_merge, b_relabel, b_merge_cluster_with, b_clear_cluster, b_track_largest. cbv zeta. repeat st.
Qed.
Lemma settles_sz E : settles largest_sz (b_place E).
Proof.
  apply settles_place_largest; try reflexivity.
  - intros a b l. apply still_merge_all; reflexivity.
  - apply still_select_all; reflexivity.
  - intros c. unfold b_track_largest. repeat se.
Qed.
Lemma settles_lid E : settles largest_id (b_place E).
Proof.
  apply settles_place_largest; try reflexivity.
  - intros a b l. apply still_merge_all; reflexivity.
  - apply still_select_all; reflexivity.
  - intros c. unfold b_track_largest. repeat se.
Qed.
Lemma still_place {X} (f : perc -> X) E : still f (b_select E) -> (forall s l, f (set_lat l s) = f s) -> (forall s p, f (set_pool p s) = f s) ->
  (forall s e, f (set_ent e s) = f s) -> (forall s a b, f (set_largest a b s) = f s) -> (forall s v, f (set_sel_flag v s) = f s) -> still f (b_place E).
Proof.
  intros H H1 H2 H3 H4 H5. unfold b_place. apply still_bind; auto. intros flag.
  unfold b_merge, b_relabel, b_merge_cluster_with, b_clear_cluster, b_track_largest. cbv zeta.
  repeat first [apply still_act; intro; first [apply H1 | apply H2 | apply H3 | apply H4 | apply H5] | st].
Qed.
Lemma settled_between {X A} (f : perc -> X) (m : B A) s s' a n : settles f m -> does m (whole s) (whole s') a -> old_or_new f s (obj (fst (fst (m (whole s) n)))) s'.
Proof.
  intros H (k & _ & K). specialize (H (whole s) n k). unfold val in H. rewrite (K (n + k)%nat) in H by lia. cbn [fst obj whole] in H. unfold old_or_new. destruct H as [H|H]; auto.
Qed.
Lemma p_C107_place E L s s' b n : env_ok E -> reachable E L s -> place_one_site E s = (s', Ok b) ->
  let t := obj (left_by E BPlace n (whole s)) in
  (old_or_new sel_id s t s' /\ old_or_new cur_site s t s' /\ old_or_new sel_flag s t s' /\ old_or_new cur_idx s t s' /\ old_or_new occ_count s t s' /\
   old_or_new largest_sz s t s' /\ old_or_new largest_id s t s' /\ old_or_new record s t s' /\ old_or_new x_occ s t s' /\ old_or_new y_occ s t s') /\
  after_wrap t = after_wrap s /\ wid t = wid s /\ pc_occ t = pc_occ s /\ pc_bonds t = pc_bonds s /\ pc_sites t = pc_sites s /\
  p_arr t = p_arr s /\ h_arr t = h_arr s /\ pw_arr t = pw_arr s /\ pl_arr t = pl_arr s /\ first_run t = first_run s /\ cluster_count t = cluster_count s /\ sp_p t = sp_p s.
Proof.
  intros HE HR Hp t. pose proof (does_place E s s' b Hp) as D. cbn [left_by] in t. split.
  - repeat (split; [|]); apply (settled_between _ (b_place E) s s' b n); auto;
      solve [apply settles_flag | apply settles_sz | apply settles_lid |
             apply settles_place_sel; [first [apply settles_sel | apply settles_cur | apply settles_idx | apply settles_occ | apply settles_rec | apply settles_x | apply settles_y]|reflexivity..]].
  - assert (G : forall X (f : perc -> X), still f (b_place E) -> f t = f s) by (intros X f H; exact (H (whole s) n)).
    repeat (split; [|]); apply G; apply still_place; try reflexivity; apply still_select_all; reflexivity.
Qed.

(** ** Resetting *)
Lemma steady_shuffle E : steady (b_shuffle E).
Proof.
  assert (G : forall k, steady (b_shuffle_from E k)) by (induction k as [|k IH]; cbn [b_shuffle_from]; cbv zeta; repeat first [sd | exact IH]).
  unfold b_shuffle. repeat first [sd | apply G].
Qed.
Lemma still_shuffle {X} (f : perc -> X) E : (forall s v, f (set_tick v s) = f s) -> (forall s v, f (mutate_ids v s) = f s) -> (forall s v, f (set_rev v s) = f s) -> still f (b_shuffle E).
Proof.
  intros H1 H2 H3. assert (G : forall k, still f (b_shuffle_from E k)).
  { induction k as [|k IH]; cbn [b_shuffle_from]; cbv zeta; repeat first [exact IH | apply still_act; intro; first [apply H1 | apply H2] | st]. }
  unfold b_shuffle. repeat first [apply G | apply still_act; intro; apply H3 | st].
Qed.
Ltac shuffled := lazymatch goal with
  | |- still _ (b_shuffle _) => apply still_shuffle; reflexivity
  | |- steady (b_shuffle _) => apply steady_shuffle
  | |- still _ b_lattice_reset => unfold b_lattice_reset, b_site_reset
  | |- steady b_lattice_reset => unfold b_lattice_reset, b_site_reset
  | |- still _ b_init_clusters => unfold b_init_clusters, b_pool_reset, b_create
  | |- steady b_init_clusters => unfold b_init_clusters, b_pool_reset, b_create
  | |- still _ b_pool_reset => unfold b_pool_reset
  | |- steady b_pool_reset => unfold b_pool_reset
  | |- steady _ => cbv zeta; sd
  | |- still _ _ => cbv zeta; st
  end.
Ltac sr := lazymatch goal with
  | |- settles _ (act _) => apply settles_act
  | |- settles _ (stmt _) => apply settles_stmt
  | |- settles _ (bret _) => apply still_settles, still_ret
  | |- settles _ (bbind _ _) => first [apply settles_after; [solve [repeat shuffled]|solve [repeat shuffled]|intro] | apply settles_before; [|intro; solve [repeat shuffled]]]
  | |- settles _ (match ?b with _ => _ end) => destruct b
  end.
Lemma p_C107_reset E L s s' n : env_ok E -> reachable E L s -> reset E s = (s', Ok tt) ->
  let t := obj (left_by E BReset n (whole s)) in
  (old_or_new cur_idx s t s' /\ old_or_new occ_count s t s' /\ old_or_new sel_flag s t s' /\ old_or_new largest_sz s t s' /\ old_or_new largest_id s t s' /\
   old_or_new ent s t s' /\ old_or_new after_wrap s t s' /\ old_or_new wid s t s' /\ old_or_new pc_occ s t s' /\ old_or_new pc_bonds s t s' /\ old_or_new pc_sites s t s' /\
   old_or_new p_arr s t s' /\ old_or_new h_arr s t s' /\ old_or_new pw_arr s t s' /\ old_or_new pl_arr s t s' /\
   old_or_new record s t s' /\ old_or_new x_occ s t s' /\ old_or_new y_occ s t s' /\ old_or_new sp_p s t s') /\
  sel_id t = sel_id s /\ cur_site t = cur_site s /\ max_ent t = max_ent s /\ first_run t = first_run s /\ cluster_count t = cluster_count s.
Proof.
  intros HE (k & HR) Hp t. pose proof (does_reset E s s' (proj1 (reachable_al E k L s HE HR)) Hp) as D. cbn [left_by] in t. split.
  - repeat (split; [|]); apply (settled_between _ (b_reset E) s s' tt n); auto; unfold b_reset, b_reset_base; repeat sr.
  - assert (G : forall X (f : perc -> X), still f (b_reset E) -> f t = f s) by (intros X f H; exact (H (whole s) n)).
    repeat (split; [|]); apply G; unfold b_reset, b_reset_base; repeat shuffled.
Qed.

(** ** Detecting *)
Lemma p_C107_detect E L s s' b n : env_ok E -> reachable E L s -> detect_wrapping s = (s', Ok b) ->
  let now j := if (j <=? n)%nat then s' else s in
  left_by E BDetect n (whole s) =
    whole (set_wrap (after_wrap (now 1%nat)) (wid (now 2%nat)) (pc_occ (now 3%nat)) (pc_bonds (now 4%nat)) (pc_sites (now 5%nat)) s).
Proof.
  intros HE HR H now. cbn [left_by]. unfold detect_wrapping in H. apply get_inv in H. unfold b_detect, bbind at 1, bget. cbn [obj whole].
  assert (Same : forall s', s' = s -> whole s = whole (set_wrap (after_wrap (if (1 <=? n)%nat then s' else s)) (wid (if (2 <=? n)%nat then s' else s)) (pc_occ (if (3 <=? n)%nat then s' else s))
    (pc_bonds (if (4 <=? n)%nat then s' else s)) (pc_sites (if (5 <=? n)%nat then s' else s)) s)).
  { intros x ->. repeat match goal with |- context [if ?c then s else s] => destruct c end; destruct s; reflexivity. }
  destruct (after_wrap s) eqn:Ew.
  - injection H as <- <-. unfold bret. cbn [fst]. now apply Same.
  - apply need_inv in H as (sel & H1 & H). apply lift_inv in H as (nbs & H2 & H). apply need_inv in H as (cur & H3 & H). apply lift_inv in H as (cs & H4 & H).
    apply lift_inv in H as (hit & H5 & H). rewrite H1, H3. unfold bneed. unfold bbind at 1, bret at 1. unfold bbind at 1, blift at 1. rewrite H2.
    unfold bbind at 1, bret at 1. unfold bbind at 1, blift at 1. rewrite H4. unfold bbind at 1, blift at 1. rewrite H5.
    destruct hit; [|injection H as <- <-; unfold bret; cbn [fst]; now apply Same].
    apply lift_inv in H as (ss & H6 & H). apply modify_inv in H. apply lift_inv in H as (nb & H7 & H). apply modify_inv in H. apply lift_inv in H as (ns & H8 & H).
    apply modify_inv in H. injection H as <- _. rewrite H6. clear - H7 H8 Ew. subst now. unfold bbind, blift, act, stmt.
    destruct s. cbn [Perc.pool Perc.after_wrap] in *. subst.
    destruct n as [|[|[|n]]]; [reflexivity|reflexivity|reflexivity|]. cbn -[get_cluster_bond_count get_cluster_site_count]. rewrite H7.
    destruct n as [|n]; [reflexivity|]. cbn -[get_cluster_bond_count get_cluster_site_count]. rewrite H8. destruct n as [|n]; reflexivity.
Qed.

(** ** A detection broken off after the flag is set *)
Definition loopdata (s : perc) := (after_wrap s, wid s, pc_occ s, pc_bonds s, pc_sites s).
Section Lost.
Variable d : bool * Z * Z * option Z * option Z.
Hypothesis Hd : fst (fst (fst (fst d))) = true.
Definition kp {A} (m : M A) : Prop := forall s, loopdata s = d -> loopdata (fst (m s)) = d.
Lemma kp_ret {A} (a : A) : kp (ret a).
Proof. intros s H. exact H. Qed.
Lemma kp_raise {A} e : kp (@raise A e).
Proof. intros s H. exact H. Qed.
Lemma kp_lift {A} (r : res A) : kp (lift r).
Proof. intros s H. exact H. Qed.
Lemma kp_need {A} (o : option A) : kp (need o).
Proof. destruct o; [apply kp_ret|apply kp_raise]. Qed.
Lemma kp_bind {A C} (m : M A) (k : A -> M C) : kp m -> (forall a, kp (k a)) -> kp (mbind m k).
Proof. intros Hm Hk s H. unfold mbind. specialize (Hm s H). destruct (m s) as [s1 [a|e]]; cbn [fst] in *; auto. now apply Hk. Qed.
Lemma kp_get {C} (k : perc -> M C) : (forall s, kp (k s)) -> kp (mbind get k).
Proof. intros Hk. apply kp_bind; [intros s H; exact H|exact Hk]. Qed.
Lemma kp_modify f : (forall s, loopdata (f s) = loopdata s) -> kp (modify f).
Proof. intros Hf s H. cbn. now rewrite Hf. Qed.
Ltac kk := lazymatch goal with
  | |- kp (ret _) => apply kp_ret
  | |- kp (raise _) => apply kp_raise
  | |- kp (lift _) => apply kp_lift
  | |- kp (need _) => apply kp_need
  | |- kp (mbind get _) => apply kp_get; intro
  | |- kp (mbind _ _) => apply kp_bind; [|intro]
  | |- kp (modify _) => apply kp_modify; reflexivity
  | |- kp (match ?b with _ => _ end) => destruct b
  | |- kp (randint _ _ _) => unfold randint
  | |- kp (select_id _) => unfold select_id
  | |- kp (drop_candidate _) => unfold drop_candidate
  | |- kp (shuffle _) => unfold shuffle
  | |- kp record_step => unfold record_step; cbv zeta
  | |- kp (track_largest_cluster _) => unfold track_largest_cluster
  end.
Lemma kp_select E : kp (select_site E).
Proof. unfold select_site. kk. kk; unfold select_site_base, select_site_L1, select_site_L2; cbv zeta; repeat kk. Qed.
Lemma kp_place E : kp (place_one_site E).
Proof. unfold place_one_site. kk; [apply kp_select|]. kk; [kk|]. kk; [|kk|kk]. cbv zeta. repeat kk. Qed.
Lemma kp_detect : kp detect_wrapping.
Proof. intros s H. unfold detect_wrapping, mbind at 1, get. pose proof (f_equal (fun x => fst (fst (fst (fst x)))) H) as Q. cbn in Q. rewrite Q, Hd. exact H. Qed.
Lemma kp_run E f : kp (run_loop E f).
Proof. induction f as [|f IH]; cbn [run_loop]; repeat first [kk | apply kp_place | apply kp_detect | exact IH]. Qed.
Lemma kp_test E f : kp (test_run_loop E f).
Proof. induction f as [|f IH]; cbn [test_run_loop]; repeat first [kk | apply kp_place | apply kp_detect | exact IH]. Qed.
Lemma kp_sp E f : kp (sp_loop E f).
Proof. induction f as [|f IH]; cbn [sp_loop]; repeat first [kk | apply kp_place | apply kp_detect | exact IH]. Qed.
Lemma kp_exec E s c : c <> CReset -> loopdata s = d -> loopdata (exec E s c) = d.
Proof.
  intros Hc. assert (G : forall A (m : M A), kp m -> loopdata s = d -> loopdata (fst (m s)) = d) by (intros A m H; apply H).
  destruct c as [| | |l sh|l sh|x y|f|f]; cbn [exec]; apply G.
  - apply kp_place.
  - apply kp_detect.
  - easy.
  - unfold set_custome_site_id_list. cbv zeta. repeat kk.
  - unfold set_custome_site_index_list. cbv zeta. repeat kk.
  - unfold swap_ids. cbv zeta. repeat kk.
  - unfold run_once, run_once_base, sp_run_once. repeat first [kk | apply kp_run | apply kp_sp].
  - unfold test_run_once. repeat first [kk | apply kp_test].
Qed.
Lemma kp_after E cs : Forall (fun c => c <> CReset) cs -> forall s, loopdata s = d -> loopdata (after E s cs) = d.
Proof.
  induction 1 as [|c cs Hc _ IH]; intros s H; [exact H|]. cbn [after fold_left]. apply IH. now apply kp_exec.
Qed.
End Lost.
Lemma p_C107_lost E L s s' n cs : env_ok E -> reachable E L s -> after_wrap s = false -> detect_wrapping s = (s', Ok true) -> n = 1%nat \/ n = 2%nat ->
  Forall (fun c => c <> CReset) cs ->
  let u := after E (obj (left_by E BDetect n (whole s))) cs in
  detect_wrapping u = (u, Ok true) /\ get_pc u = int_div 0 (l_site_count (lat u)) /\
  get_site_count_wrapping_cluster_pc u = 0 /\ get_bond_count_wrapping_cluster_pc u = 0.
Proof.
  intros HE HR Hw Hd Hn Hc u. pose proof (p_C107_detect E L s s' true n HE HR Hd) as Q. cbv zeta in Q. subst u. rewrite Q. clear Q. cbn [obj whole].
  pose proof (reachable_inv E L s HE HR) as H. pose proof (i_wrap _ _ H) as W. unfold WrapOK in W. rewrite Hw in W. destruct W as (_ & W2 & W3 & W4).
  assert (Hw' : after_wrap s' = true).
  { unfold detect_wrapping, mbind, get in Hd. rewrite Hw in Hd. unfold need, lift, ret, raise, modify in Hd.
    destruct (sel_id s) as [x|]; [|discriminate]. destruct (get_sites_for_wrapping_test (lat s) x) as [nbs|]; [|discriminate]. destruct (cur_site s) as [cu|]; [|discriminate].
    destruct (get_site_by_id (lat s) cu) as [cs0|]; [|discriminate]. destruct (wrap_scan (lat s) (s_rel cs0) nbs) as [[|]|]; [|discriminate|discriminate].
    destruct (get_site_by_id (lat s) x) as [ss|]; [|discriminate]. destruct (get_cluster_bond_count (pool s) (s_gid ss)) as [nb|]; [|discriminate].
    destruct (get_cluster_site_count (pool s) (s_gid ss)) as [ns|]; [|discriminate]. injection Hd as <-. reflexivity. }
  match goal with |- context [after E ?x cs] => set (t := x) end.
  assert (T : after_wrap t = true /\ pc_occ t = 0 /\ pc_bonds t = None /\ pc_sites t = None).
  { subst t. destruct Hn as [->| ->]; cbn; auto. }
  destruct T as (T1 & T2 & T3 & T4). pose proof (kp_after (loopdata t) T1 E cs Hc t eq_refl) as K. unfold loopdata in K. rewrite T1, T2, T3, T4 in K. injection K as K1 K2 K3 K4 K5.
  unfold get_pc, get_site_count_wrapping_cluster_pc, get_bond_count_wrapping_cluster_pc. rewrite K1, K3, K4, K5. split; auto.
  unfold detect_wrapping, mbind at 1, get. now rewrite K1.
Qed.
Lemma p_C107_strength E L s s' : env_ok E -> reachable E L s -> after_wrap s = false -> detect_wrapping s = (s', Ok true) ->
  let t := obj (left_by E BDetect 1%nat (whole s)) in
  order_param_wrapping t = int_div (zlen (cluster_bonds s (2 * (L * L) - 1))) (2 * (L * L)) /\
  order_param_wrapping s' = int_div (zlen (cluster_bonds s (wid s'))) (2 * (L * L)).
Proof.
  intros HE HR Hw Hd t. pose proof (reachable_inv E L s HE HR) as H. pose proof (i_wrap _ _ H) as W. unfold WrapOK in W. rewrite Hw in W. destruct W as (W1 & _).
  assert (H' : Inv L s') by (pose proof (exec_inv E L s CDetect HE Logic.I H) as Q; cbn [exec] in Q; rewrite Hd in Q; exact Q).
  pose proof (pk_len _ _ _ _ (ck_pool _ _ _ (i_cl _ _ H))) as Hl. pose proof (LL_pos L (i_pos _ _ H)) as HLL. pose proof (st_bc _ _ (i_static _ _ H)) as Hb.
  pose proof (p_C107_detect E L s s' true 1%nat HE HR Hd) as Q. cbv zeta in Q. subst t. rewrite Q. clear Q. cbn [obj whole Nat.leb].
  assert (F : after_wrap s' = true /\ lat s' = lat s /\ pool s' = pool s).
  { unfold detect_wrapping, mbind, get in Hd. rewrite Hw in Hd. unfold need, lift, ret, raise, modify in Hd.
    destruct (sel_id s) as [x|]; [|discriminate]. destruct (get_sites_for_wrapping_test (lat s) x) as [nbs|]; [|discriminate]. destruct (cur_site s) as [cu|]; [|discriminate].
    destruct (get_site_by_id (lat s) cu) as [cs0|]; [|discriminate]. destruct (wrap_scan (lat s) (s_rel cs0) nbs) as [[|]|]; [|discriminate|discriminate].
    destruct (get_site_by_id (lat s) x) as [ss|]; [|discriminate]. destruct (get_cluster_bond_count (pool s) (s_gid ss)) as [nb|]; [|discriminate].
    destruct (get_cluster_site_count (pool s) (s_gid ss)) as [ns|]; [|discriminate]. injection Hd as <-. auto. }
  destruct F as (F1 & F2 & F3). split.
  - unfold order_param_wrapping. cbn [after_wrap set_wrap pool wid lat]. rewrite F1, W1, Hb. unfold get_cluster_bond_count, cluster_bonds, pool_get_bonds, lget.
    rewrite Hl. rewrite (py_pos_in (2 * (L * L)) (2 * (L * L) - 1)) by lia. unfold py_pos.
    destruct (Z.leb_spec 0 (-1)); [lia|]. destruct (Z.leb_spec (- (2 * (L * L))) (-1)); [|lia]. destruct (Z.ltb_spec (-1) 0); [|lia]. cbn [andb].
    change (2 * (L * L) + -1) with (2 * (L * L) - 1).
    destruct (nth_error (p_list (pool s)) (Z.to_nat (2 * (L * L) - 1))) eqn:En; [reflexivity|]. apply nth_error_None in En. unfold zlen in Hl. lia.
  - pose proof (i_wrap _ _ H') as W'. unfold WrapOK in W'. rewrite F1 in W'. destruct W' as (_ & W' & _). unfold order_param_wrapping. rewrite F1, F2, F3, Hb.
    unfold get_cluster_bond_count, cluster_bonds, pool_get_bonds. rewrite (lget_in dcluster) by (rewrite Hl; exact W'). reflexivity.
Qed.
Lemma p_C107_torn : exists E L s n, env_ok E /\ reachable E L s /\ snd (place_one_site E s) = Ok true /\
  let t := obj (left_by E BPlace n (whole s)) in
  largest_id t <> largest_id s /\ largest_sz t = largest_sz s /\ largest_sz t <> zlen (cluster_bonds t (largest_id t)).
Proof.
  exists demo_env, 3, (demo0 KBase 3), 31%nat. split; [apply demo_env_ok|].
  split; [exists KBase, 0%nat, (demo0 KBase 3), []; split; [apply demo0_ok|]; split; [constructor|unfold after; cbn [fold_left]; reflexivity]|].
  split; [vm_compute; reflexivity|]. split; [vm_compute; discriminate|]. split; [vm_compute; reflexivity|vm_compute; discriminate].
Qed.
