(** * BreakFacts: executing one statement at a time (for BreakProps.v). *)
From Coq Require Import ZArith List Bool Lia Permutation.
From Verif Require Import Py Lattice Cluster Perc Spec PyFacts Torus Geometry LatFacts Inv Merge Fresh Select State Step History Reach Break.
Import ListNotations.
Open Scope Z_scope.

(** ** Executions that are not broken off *)
(** [m] ends with [a] in [i'] after exactly [k] statements. *)
Definition takes {A} (m : B A) (i : held) (k : nat) (i' : held) (a : A) : Prop :=
  (forall n, (n < k)%nat -> exists x, m i n = (x, O, Cut)) /\
  (forall n, (k <= n)%nat -> m i n = (i', (n - k)%nat, Fin (Ok a))).
Definition does {A} (m : B A) (i i' : held) (a : A) : Prop := exists k, takes m i k i' a.

Lemma does_ret {A} (a : A) i : does (bret a) i i a.
Proof. exists O. split; [intros n Hn; lia|]. intros n _. unfold bret. now rewrite Nat.sub_0_r. Qed.
Lemma does_lift {A} (r : res A) a i : r = Ok a -> does (blift r) i i a.
Proof. intros ->. exists O. split; [intros n Hn; lia|]. intros n _. unfold blift. now rewrite Nat.sub_0_r. Qed.
Lemma does_stmt f i : does (stmt f) i (f i) tt.
Proof.
  exists 1%nat. split.
  - intros n Hn. assert (n = O) as -> by lia. eexists. reflexivity.
  - intros n Hn. destruct n as [|n]; [lia|]. cbn [stmt]. f_equal. f_equal. lia.
Qed.
Lemma does_bind {A C} (m : B A) (k : A -> B C) i i1 a i2 c : does m i i1 a -> does (k a) i1 i2 c -> does (bbind m k) i i2 c.
Proof.
  intros (x & X1 & X2) (y & Y1 & Y2). exists (x + y)%nat. split.
  - intros n Hn. unfold bbind. destruct (Nat.lt_ge_cases n x) as [Hx|Hx].
    + destruct (X1 n Hx) as (z & ->). now exists z.
    + rewrite (X2 n Hx). apply Y1. lia.
  - intros n Hn. unfold bbind. rewrite (X2 n) by lia. rewrite Y2 by lia. f_equal. f_equal. lia.
Qed.
Lemma does_get {C} (k : perc -> B C) i i2 c : does (k (obj i)) i i2 c -> does (bbind bget k) i i2 c.
Proof. apply (does_bind bget k). exists O. split; [intros n Hn; lia|]. intros n _. unfold bget. now rewrite Nat.sub_0_r. Qed.
Lemma does_held {C} (k : held -> B C) i i2 c : does (k i) i i2 c -> does (bbind bheld k) i i2 c.
Proof. apply (does_bind bheld k). exists O. split; [intros n Hn; lia|]. intros n _. unfold bheld. now rewrite Nat.sub_0_r. Qed.
Lemma does_lift_bind {A C} (r : res A) a (k : A -> B C) i i2 c : r = Ok a -> does (k a) i i2 c -> does (bbind (blift r) k) i i2 c.
Proof. intros Hr H. eapply does_bind; [apply does_lift; exact Hr|exact H]. Qed.
Lemma does_act f s : does (act f) (whole s) (whole (f s)) tt.
Proof. apply (does_stmt (fun i => with_obj (f (obj i)) i) (whole s)). Qed.
Ltac fin_act := match goal with |- does (act ?f) (whole ?s1) (whole ?s2) _ => change s2 with (f s1); apply (does_act f s1) end.
Lemma does_act_bind {C} f (k : unit -> B C) s i2 c : does (k tt) (whole (f s)) i2 c -> does (bbind (act f) k) (whole s) i2 c.
Proof. intros H. eapply does_bind; [apply does_act|exact H]. Qed.
Lemma does_ret_bind {A C} (a : A) (k : A -> B C) i i2 c : does (k a) i i2 c -> does (bbind (bret a) k) i i2 c.
Proof. intros H. eapply does_bind; [apply does_ret|exact H]. Qed.
Lemma does_on_lat f s l : f (lat s) = Ok l -> does (on_lat f) (whole s) (whole (set_lat l s)) tt.
Proof. intros Hf. apply does_get. eapply does_lift_bind; [exact Hf|]. apply does_act. Qed.
Lemma does_on_pool f s p : f (pool s) = Ok p -> does (on_pool f) (whole s) (whole (set_pool p s)) tt.
Proof. intros Hf. apply does_get. eapply does_lift_bind; [exact Hf|]. apply does_act. Qed.

(** The count of statements is unique, so a finished execution is determined. *)
Lemma does_fun {A} (m : B A) i i1 i2 a b : does m i i1 a -> does m i i2 b -> i1 = i2 /\ a = b.
Proof.
  intros (x & _ & X) (y & _ & Y). pose proof (X (x + y)%nat ltac:(lia)) as P. pose proof (Y (x + y)%nat ltac:(lia)) as Q.
  rewrite P in Q. injection Q as -> _ ->. auto.
Qed.

(** ** Inverting the transition model *)
Lemma mbind_inv {A C} (m : M A) (k : A -> M C) s s' c : mbind m k s = (s', Ok c) ->
  exists a s1, m s = (s1, Ok a) /\ k a s1 = (s', Ok c).
Proof. unfold mbind. destruct (m s) as [s1 [a|e]]; intros H; [eauto|discriminate]. Qed.
Lemma rbind_inv {A C} (m : res A) (k : A -> res C) c : rbind m k = Ok c -> exists a, m = Ok a /\ k a = Ok c.
Proof. destruct m; cbn; intros H; [eauto|discriminate]. Qed.
(** Computations on lattice and pool. *)
Definition put (l : lattice) (p : cpool) (s : perc) : perc := set_pool p (set_lat l s).
Lemma put_same s : put (lat s) (pool s) s = s.
Proof. destruct s. reflexivity. Qed.
Lemma set_lat_put l s : set_lat l s = put l (pool s) s.
Proof. destruct s. reflexivity. Qed.
Lemma set_pool_put p s : set_pool p s = put (lat s) p s.
Proof. destruct s. reflexivity. Qed.
Lemma put_put l p l' p' s : put l p (put l' p' s) = put l p s.
Proof. reflexivity. Qed.

(** A loop whose body is a function of lattice and pool. *)
Lemma does_for {A} (body : A -> B unit) (f : lattice * cpool -> A -> res (lattice * cpool)) l :
  (forall x s a p, f (lat s, pool s) x = Ok (a, p) -> does (body x) (whole s) (whole (put a p s)) tt) ->
  forall s a p, foldM f l (lat s, pool s) = Ok (a, p) -> does (bfor l body) (whole s) (whole (put a p s)) tt.
Proof.
  intros Hb. induction l as [|x l IH]; intros s a p H.
  - cbn in H. injection H as <- <-. rewrite put_same. apply does_ret.
  - cbn [foldM] in H. apply rbind_inv in H as ((a1 & p1) & H1 & H2). cbn [bfor].
    eapply does_bind; [apply Hb; exact H1|]. rewrite <- (put_put a p a1 p1 s). apply IH. exact H2.
Qed.
Lemma foldM_map {A C D} (g : C -> D) (f : D -> A -> res D) (h : C -> A -> res C) l : (forall c x, f (g c) x = rbind (h c x) (fun c' => Ok (g c'))) ->
  forall c, foldM f l (g c) = rbind (foldM h l c) (fun c' => Ok (g c')).
Proof.
  intros E. induction l as [|x l IH]; intros c; [reflexivity|]. cbn [foldM]. rewrite E. destruct (h c x); cbn [rbind]; auto.
Qed.
Lemma does_for_lat {A} (body : A -> B unit) (f : lattice -> A -> res lattice) l :
  (forall x s a, f (lat s) x = Ok a -> does (body x) (whole s) (whole (set_lat a s)) tt) ->
  forall s a, foldM f l (lat s) = Ok a -> does (bfor l body) (whole s) (whole (set_lat a s)) tt.
Proof.
  intros Hb. induction l as [|x l IH]; intros s a H.
  - cbn in H. injection H as <-. rewrite set_lat_put, put_same. apply does_ret.
  - cbn [foldM] in H. apply rbind_inv in H as (a1 & H1 & H2). cbn [bfor].
    eapply does_bind; [apply Hb; exact H1|]. change (set_lat a s) with (set_lat a (set_lat a1 s)). apply IH. exact H2.
Qed.
Lemma does_for_pool {A} (body : A -> B unit) (f : cpool -> A -> res cpool) l :
  (forall x s a, f (pool s) x = Ok a -> does (body x) (whole s) (whole (set_pool a s)) tt) ->
  forall s a, foldM f l (pool s) = Ok a -> does (bfor l body) (whole s) (whole (set_pool a s)) tt.
Proof.
  intros Hb. induction l as [|x l IH]; intros s a H.
  - cbn in H. injection H as <-. rewrite set_pool_put, put_same. apply does_ret.
  - cbn [foldM] in H. apply rbind_inv in H as (a1 & H1 & H2). cbn [bfor].
    eapply does_bind; [apply Hb; exact H1|]. change (set_pool a s) with (set_pool a (set_pool a1 s)). apply IH. exact H2.
Qed.

(** ** Agreement, method by method *)
Lemma get_inv {C} (k : perc -> M C) s r : mbind get k s = r -> k s s = r.
Proof. auto. Qed.
Lemma modify_inv {C} f (k : unit -> M C) s r : mbind (modify f) k s = r -> k tt (f s) = r.
Proof. auto. Qed.
Lemma ret_inv {A C} (a : A) (k : A -> M C) s r : mbind (ret a) k s = r -> k a s = r.
Proof. auto. Qed.
Lemma lift_inv {A C} (x : res A) (k : A -> M C) s s' c : mbind (lift x) k s = (s', Ok c) -> exists a, x = Ok a /\ k a s = (s', Ok c).
Proof. intros H. apply mbind_inv in H as (a & s1 & H1 & H2). injection H1 as <- H1. eauto. Qed.

Lemma does_randint E a b s s' v : randint E a b s = (s', Ok v) -> does (b_randint E a b) (whole s) (whole s') v.
Proof.
  unfold randint, b_randint. destruct (b <? a); [discriminate|]. intros H. apply get_inv in H. apply modify_inv in H. injection H as <- <-.
  apply does_get. apply does_act_bind. apply does_ret.
Qed.
(** [select_id] without its first assignment *)
Lemma does_current id s s' : select_id id s = (s', Ok tt) -> does (b_current id) (whole (set_sel_id (Some id) s)) (whole s') tt.
Proof.
  unfold select_id, b_current. intros H. apply modify_inv in H. apply get_inv in H. apply lift_inv in H as (t & H1 & H). apply modify_inv in H.
  injection H as <- H. apply does_get. eapply does_lift_bind; [exact H1|]. apply does_act_bind. now apply does_lift.
Qed.
Lemma does_drop rnd s s' : drop_candidate rnd s = (s', Ok tt) -> does (b_drop_candidate rnd) (whole s) (whole s') tt.
Proof.
  unfold drop_candidate, b_drop_candidate. intros H. apply get_inv in H. apply lift_inv in H as (v & H1 & H). apply lift_inv in H as (l & H2 & H).
  apply modify_inv in H. injection H as <-. apply does_get. eapply does_lift_bind; [exact H1|]. eapply does_lift_bind; [exact H2|].
  apply does_act_bind. fin_act.
Qed.
Lemma does_select_base s s' r : select_site_base s = (s', Ok r) -> does b_select_base (whole s) (whole s') r.
Proof.
  unfold select_site_base, b_select_base. intros H. apply get_inv in H. apply does_get. cbn [obj whole]. destruct (max_iter s <=? cur_idx s).
  - injection H as <- <-. apply does_ret.
  - apply lift_inv in H as (id & H1 & H). eapply does_lift_bind; [exact H1|]. apply mbind_inv in H as ([] & s1 & H2 & H).
    apply does_act_bind. eapply does_bind; [eapply does_current; exact H2|]. injection H as <- <-. do 2 apply does_act_bind. apply does_ret.
Qed.
Lemma record_commute id s s1 :
  select_id id (set_record (record s ++ [id]) (set_sel_id (Some id) s)) = (s1, Ok tt) ->
  does (b_current id) (whole (set_record (record s ++ [id]) (set_sel_id (Some id) s))) (whole s1) tt.
Proof. intros H. apply does_current in H. exact H. Qed.
Lemma does_select_L1 E s s' r : select_site_L1 E s = (s', Ok r) -> does (b_select_L1 E) (whole s) (whole s') r.
Proof.
  unfold select_site_L1, b_select_L1. intros H. apply get_inv in H. apply does_get. cbn [obj whole]. destruct (l_site_count (lat s) <=? cur_idx s).
  - injection H as <- <-. apply does_ret.
  - apply mbind_inv in H as (rnd & s1 & H1 & H). eapply does_bind; [apply does_randint; exact H1|].
    apply lift_inv in H as (X & H2 & H). eapply does_lift_bind; [exact H2|].
    apply lift_inv in H as (sx & H3 & H). eapply does_lift_bind; [exact H3|].
    assert (Fin : forall id t t' q,
      (run modify (set_sel_id (Some id)) ; run modify (fun s0 => set_record (record s0 ++ [id]) s0) ; run select_id id ;
       run modify (fun s0 => set_occ_count (occ_count s0 + 1) s0) ; ret SUCESS) t = (t', Ok q) ->
      does (go act (set_sel_id (Some id)) ; go act (fun s0 => set_record (record s0 ++ [id]) s0) ; go b_current id ;
            go act (fun s0 => set_occ_count (occ_count s0 + 1) s0) ; bret SUCESS) (whole t) (whole t') q).
    { intros id t t' q K. apply modify_inv in K. apply modify_inv in K. apply mbind_inv in K as ([] & t1 & K1 & K). injection K as <- <-.
      do 2 apply does_act_bind. eapply does_bind; [exact (record_commute id t t1 K1)|]. apply does_act_bind. apply does_ret. }
    destruct (site_is_occupied sx); [|now apply Fin].
    apply modify_inv in H. apply does_act_bind. apply lift_inv in H as (sites & H4 & H). eapply does_lift_bind; [exact H4|].
    apply mbind_inv in H as (k & s2 & H5 & H). eapply does_bind; [apply does_randint; exact H5|].
    apply lift_inv in H as (c2 & H6 & H). eapply does_lift_bind; [exact H6|]. apply lift_inv in H as (x2 & H7 & H). eapply does_lift_bind; [exact H7|].
    destruct (site_is_occupied x2); [|now apply Fin].
    apply lift_inv in H as (lat' & H8 & H). apply modify_inv in H. apply lift_inv in H as (sx' & H9 & H).
    assert (L2 : lat s2 = lat s).
    { unfold randint in H1, H5. destruct (zlen (ids s) - 1 <? cur_idx s); [discriminate|]. destruct (zlen sites - 1 <? 0); [discriminate|].
      apply get_inv in H1. apply modify_inv in H1. injection H1 as <- _. apply get_inv in H5. apply modify_inv in H5. injection H5 as <- _. reflexivity. }
    eapply does_bind; [apply does_on_lat; rewrite L2; exact H8|]. apply does_get. cbn [obj whole].
    eapply does_lift_bind; [exact H9|]. apply mbind_inv in H as ([] & s3 & Ha & Hb). injection Hb as <- <-.
    destruct (site_is_removable sx' 1).
    + eapply does_bind; [apply does_drop; exact Ha|]. apply does_ret.
    + injection Ha as <-. apply does_ret_bind. apply does_ret.
Qed.
Lemma does_select_L2 E s s' r : select_site_L2 E s = (s', Ok r) -> does (b_select_L2 E) (whole s) (whole s') r.
Proof.
  unfold select_site_L2, b_select_L2. intros H. apply get_inv in H. apply does_get. cbn [obj whole]. destruct (l_site_count (lat s) <=? cur_idx s).
  - injection H as <- <-. apply does_ret.
  - apply mbind_inv in H as (rnd & s1 & H1 & H). eapply does_bind; [apply does_randint; exact H1|].
    apply lift_inv in H as (X & H2 & H). eapply does_lift_bind; [exact H2|].
    apply lift_inv in H as (sx & H3 & H). eapply does_lift_bind; [exact H3|].
    assert (Fin : forall id t t' q,
      (run select_id id ; run modify (fun s0 => set_occ_count (occ_count s0 + 1) s0) ; ret SUCESS) t = (t', Ok q) ->
      does (go act (set_sel_id (Some id)) ; go b_current id ;
            go act (fun s0 => set_occ_count (occ_count s0 + 1) s0) ; bret SUCESS) (whole t) (whole t') q).
    { intros id t t' q K. apply mbind_inv in K as ([] & t1 & K1 & K). injection K as <- <-.
      apply does_act_bind. eapply does_bind; [apply does_current; exact K1|]. apply does_act_bind. apply does_ret. }
    destruct (site_is_occupied sx); [|now apply Fin].
    apply lift_inv in H as (sites & H4 & H). eapply does_lift_bind; [exact H4|].
    apply mbind_inv in H as (k & s2 & H5 & H). eapply does_bind; [apply does_randint; exact H5|].
    apply lift_inv in H as (Y & H6 & H). eapply does_lift_bind; [exact H6|].
    apply modify_inv in H. apply does_act_bind. apply lift_inv in H as (sy & H7 & H). eapply does_lift_bind; [exact H7|].
    destruct (site_is_occupied sy); [|now apply Fin].
    apply lift_inv in H as (lat' & H8 & H). apply modify_inv in H.
    assert (L2 : lat s2 = lat s).
    { unfold randint in H1, H5. destruct (zlen (ids s) - 1 <? cur_idx s); [discriminate|]. destruct (zlen sites - 1 <? 0); [discriminate|].
      apply get_inv in H1. apply modify_inv in H1. injection H1 as <- _. apply get_inv in H5. apply modify_inv in H5. injection H5 as <- _. reflexivity. }
    eapply does_bind; [apply does_on_lat; cbn [lat set_xy]; rewrite L2; exact H8|]. apply does_get. cbn [obj whole].
    apply lift_inv in H as (sx1 & H9 & H). eapply does_lift_bind; [exact H9|].
    apply lift_inv in H as (sy1 & H10 & H). eapply does_lift_bind; [exact H10|].
    apply lift_inv in H as (sz & H11 & H). eapply does_lift_bind; [exact H11|].
    apply lift_inv in H as (sz1 & H12 & H). eapply does_lift_bind; [exact H12|].
    destruct (site_is_occupied sz1); [|now apply Fin].
    apply modify_inv in H. apply does_act_bind. apply lift_inv in H as (lat'' & H13 & H). apply modify_inv in H.
    eapply does_bind; [apply does_on_lat; exact H13|]. apply does_get. cbn [obj whole].
    apply lift_inv in H as (sx2 & H14 & H). eapply does_lift_bind; [exact H14|].
    apply mbind_inv in H as ([] & s3 & Ha & Hb). injection Hb as <- <-.
    destruct (site_is_removable sx2 2).
    + eapply does_bind; [apply does_drop; exact Ha|]. apply does_ret.
    + injection Ha as <-. apply does_ret_bind. apply does_ret.
Qed.
Lemma does_select E s s' r : select_site E s = (s', Ok r) -> does (b_select E) (whole s) (whole s') r.
Proof.
  unfold select_site, b_select. intros H. apply get_inv in H. apply does_get. cbn [obj whole].
  destruct (kind s); [now apply does_select_base|now apply does_select_base|now apply does_select_L1|now apply does_select_L2|now apply does_select_base].
Qed.

(** ** Merging *)
Lemma upd_upd {A} (l : list A) k a b : upd (upd l k a) k b = upd l k b.
Proof. revert k. induction l as [|x l IH]; intros [|k]; cbn [upd]; auto. f_equal. apply IH. Qed.
Lemma nth_upd {A} (l : list A) k a b : nth_error l k = Some b -> nth_error (upd l k a) k = Some a.
Proof. revert k. induction l as [|x l IH]; intros [|k]; cbn [upd nth_error]; auto; discriminate. Qed.
Lemma on_cluster_inv idx p c : lget (p_list p) idx = Ok c -> forall f, exists l', lset (p_list p) idx (f c) = Ok l' /\
  on_cluster idx f p = Ok (mkPool l' (p_next p)) /\ lget l' idx = Ok (f c) /\ (forall d, lset l' idx d = lset (p_list p) idx d).
Proof.
  unfold on_cluster, lget, lset. intros H f. destruct (py_pos (zlen (p_list p)) idx) as [k|] eqn:Ep; [|discriminate].
  destruct (nth_error (p_list p) k) as [c'|] eqn:En; [|discriminate]. injection H as ->. exists (upd (p_list p) k (f c)). cbn [rbind].
  split; auto. split; auto. rewrite zlen_upd, Ep. split; [now rewrite (nth_upd _ _ _ c)|]. intros d. now rewrite upd_upd.
Qed.
Lemma does_clear idx s p : clear_cluster (pool s) idx = Ok p -> does (b_clear_cluster idx) (whole s) (whole (set_pool p s)) tt.
Proof.
  unfold clear_cluster, b_clear_cluster. intros H. apply rbind_inv in H as (c & H1 & H). apply rbind_inv in H as (l & H2 & H). injection H as <-.
  destruct (on_cluster_inv idx (pool s) c H1 (fun c => mkCluster [] (c_bonds c) (c_gid c) (c_id c))) as (l1 & _ & O1 & G1 & S1).
  eapply does_bind; [apply does_on_pool; exact O1|].
  destruct (on_cluster_inv idx (mkPool l1 (p_next (pool s))) _ G1 (fun c => mkCluster (c_sites c) [] (c_gid c) (c_id c))) as (l2 & _ & O2 & G2 & S2).
  eapply does_bind; [apply does_on_pool; exact O2|].
  destruct (on_cluster_inv idx (mkPool l2 (p_next (pool s))) _ G2 (fun c => mkCluster (c_sites c) (c_bonds c) (-1) (c_id c))) as (l3 & _ & O3 & G3 & S3).
  eapply does_bind; [apply does_on_pool; exact O3|].
  destruct (on_cluster_inv idx (mkPool l3 (p_next (pool s))) _ G3 (fun c => mkCluster (c_sites c) (c_bonds c) (c_gid c) (-1))) as (l4 & T4 & O4 & _).
  cbn [p_list p_next c_sites c_bonds c_gid c_id] in *. rewrite S3 in T4. cbn [p_list] in T4. rewrite S2 in T4. cbn [p_list] in T4. rewrite S1 in T4. cbn [p_list] in T4.
  unfold cluster_clear in H2. rewrite H2 in T4. injection T4 as <-.
  match goal with |- does _ (whole ?s1) (whole ?s2) _ => change s2 with (set_pool (mkPool l (p_next (pool s))) s1) end. apply does_on_pool. exact O4.
Qed.
Lemma does_merge_with a b s p l : merge_cluster_with (pool s) a b (lat s) = Ok (p, l) ->
  does (b_merge_cluster_with a b) (whole s) (whole (put l p s)) tt.
Proof.
  unfold merge_cluster_with, b_merge_cluster_with. intros H. apply rbind_inv in H as (ca & H1 & H). apply rbind_inv in H as (cb & H2 & H).
  apply rbind_inv in H as (l1 & H3 & H). apply rbind_inv in H as (l2 & H4 & H). apply rbind_inv in H as (ca' & H5 & H). rewrite H1 in H5. injection H5 as <-.
  apply rbind_inv in H as (q1 & H6 & H). apply rbind_inv in H as (ca1 & H7 & H). apply rbind_inv in H as (cb1 & H8 & H). apply rbind_inv in H as (q2 & H9 & H).
  injection H as <- <-. apply does_get. cbn [obj whole]. eapply does_lift_bind; [exact H1|]. eapply does_lift_bind; [exact H2|].
  eapply does_bind. { apply (does_for_lat _ (fun lat bb => set_bond_gid_by_id lat bb (c_gid ca))); [|exact H3]. intros x t y Hy. now apply (does_on_lat (fun l => set_bond_gid_by_id l x (c_gid ca))). }
  eapply does_bind. { apply (does_for_lat _ (fun lat ss => set_site_gid_by_id lat ss (c_gid ca))); [|exact H4]. intros x t y Hy. now apply (does_on_lat (fun l => set_site_gid_by_id l x (c_gid ca))). }
  apply does_get. cbn [obj whole]. eapply does_lift_bind; [exact H2|].
  eapply does_bind.
  { apply (does_on_pool _ _ (mkPool q1 (p_next (pool s)))). unfold on_cluster. cbn [pool set_lat]. rewrite H1. cbn [rbind]. rewrite H6. reflexivity. }
  apply does_get. cbn [obj whole]. eapply does_lift_bind; [exact H8|].
  match goal with |- does _ (whole ?s1) (whole ?s2) _ => change s2 with (set_pool (mkPool q2 (p_next (pool s))) s1) end. apply does_on_pool.
  unfold on_cluster. cbn [pool set_pool p_list]. rewrite H7. cbn [rbind]. rewrite H9. reflexivity.
Qed.
Lemma does_relabel central cb s l : relabel_relative_indices (lat s) (pool s) central cb = Ok l ->
  does (b_relabel central cb) (whole s) (whole (set_lat l s)) tt.
Proof.
  unfold relabel_relative_indices, b_relabel. intros H. apply rbind_inv in H as (bd & H1 & H). apply rbind_inv in H as (nb & H2 & H).
  apply rbind_inv in H as (sites & H3 & H). apply does_get. cbn [obj whole]. eapply does_lift_bind; [exact H1|]. eapply does_lift_bind; [exact H2|].
  eapply does_lift_bind; [exact H3|].
  assert (R : does (bret tt) (whole s) (whole (set_lat (lat s) s)) tt) by (rewrite set_lat_put, put_same; apply does_ret).
  destruct (zlen sites =? 0); [injection H as <-; exact R|].
  apply rbind_inv in H as (ns & H4 & H). eapply does_lift_bind; [exact H4|]. apply rbind_inv in H as (nr & H5 & H). eapply does_lift_bind; [exact H5|].
  apply rbind_inv in H as (cg & H6 & H). eapply does_lift_bind; [exact H6|]. destruct (0 <=? cg); [|injection H as <-; exact R].
  match goal with |- does (bfor _ (fun ss => on_lat (fun lat => update_site lat ss ?g))) _ _ _ =>
    apply (does_for_lat _ (fun lat ss => update_site lat ss g)); [|exact H]; intros x t y Hy; now apply (does_on_lat (fun l => update_site l x g)) end.
Qed.
Lemma does_merge E selected current bn s l p root :
  merge_clusters_v2 E (lat s) (pool s) selected current (after_wrap s) (wid s) bn = Ok (l, p, root) ->
  does (b_merge E selected current bn) (whole s) (whole (put l p s)) root.
Proof.
  unfold merge_clusters_v2, b_merge. intros H. apply rbind_inv in H as (bn1 & H1 & H). apply rbind_inv in H as (gids & H2 & H).
  apply rbind_inv in H as (r0 & H3 & H). apply rbind_inv in H as (r & H4 & H). apply rbind_inv in H as ((l1 & p1) & H5 & H).
  apply rbind_inv in H as ((l2 & p2) & H6 & H). apply rbind_inv in H as (p3 & H7 & H). injection H as <- <- <-.
  apply does_get. cbn [obj whole]. eapply does_lift_bind; [exact H1|]. eapply does_lift_bind; [exact H2|]. eapply does_lift_bind; [exact H3|].
  eapply does_lift_bind; [exact H4|].
  eapply does_bind.
  { eapply does_for; [|exact H5]. intros x t a q K. cbn beta iota in K. apply rbind_inv in K as (bbg & K1 & K). apply does_get. cbn [obj whole]. eapply does_lift_bind; [exact K1|].
    assert (R : does (bret tt) (whole t) (whole (put (lat t) (pool t) t)) tt) by (rewrite put_same; apply does_ret).
    destruct (bbg =? r); [|injection K as <- <-; exact R].
    apply rbind_inv in K as (la & K2 & K). apply rbind_inv in K as (pa & K3 & K). apply rbind_inv in K as (nb & K4 & K). apply rbind_inv in K as (g & K5 & K).
    eapply does_bind; [apply does_on_lat; exact K2|]. eapply does_bind; [apply does_on_pool; exact K3|]. apply does_get. cbn [obj whole].
    eapply does_lift_bind; [exact K4|]. eapply does_lift_bind; [exact K5|]. destruct (0 <=? g).
    - apply rbind_inv in K as (rri & K6 & K). apply rbind_inv in K as (lb & K7 & K). injection K as <- <-.
      eapply does_lift_bind; [exact K6|].
      match goal with |- does _ (whole ?s1) (whole ?s2) _ => change s2 with (set_lat lb s1) end. apply does_on_lat. exact K7.
    - injection K as <- <-. apply does_ret. }
  eapply does_bind.
  { eapply does_for; [|exact H6]. intros x t a q K. cbn beta iota in K. apply rbind_inv in K as (bbg & K1 & K). apply does_get. cbn [obj whole]. eapply does_lift_bind; [exact K1|].
    assert (R : does (bret tt) (whole t) (whole (put (lat t) (pool t) t)) tt) by (rewrite put_same; apply does_ret).
    destruct (bbg =? r); [injection K as <- <-; exact R|].
    apply rbind_inv in K as (la & K2 & K). apply rbind_inv in K as ((pb & lb) & K3 & K). injection K as <- <-.
    eapply does_bind; [apply does_relabel; exact K2|]. change (put lb pb t) with (put lb pb (set_lat la t)). apply does_merge_with. exact K3. }
  eapply does_bind.
  { apply (does_for_pool _ (fun p bbg => if bbg =? r then Ok p else clear_cluster p bbg)); [|exact H7]. intros x t a K. destruct (x =? r).
    - injection K as <-. rewrite set_pool_put, put_same. apply does_ret.
    - now apply does_clear. }
  apply does_ret.
Qed.

(** ** Placing and detecting *)
Lemma does_track c s s' : track_largest_cluster c s = (s', Ok tt) -> does (b_track_largest c) (whole s) (whole s') tt.
Proof.
  unfold track_largest_cluster, b_track_largest. intros H. apply get_inv in H. apply lift_inv in H as (n & H1 & H). apply does_get. cbn [obj whole].
  eapply does_lift_bind; [exact H1|]. destruct (largest_sz s <? n).
  - injection H as <-. apply does_act_bind.
    match goal with |- does (act ?f) (whole ?s1) (whole ?s2) _ => change s2 with (f s1) end. apply does_act.
  - injection H as <-. apply does_ret.
Qed.
Lemma does_need {A C} e (o : option A) a (k : A -> B C) i i2 c : o = Some a -> does (k a) i i2 c -> does (bbind (bneed e o) k) i i2 c.
Proof. intros -> H. apply does_ret_bind. exact H. Qed.
Lemma need_inv {A C} (o : option A) (k : A -> M C) s s' c : mbind (need o) k s = (s', Ok c) -> exists a, o = Some a /\ k a s = (s', Ok c).
Proof. destruct o as [a|]; [eauto|]. cbn. discriminate. Qed.
Lemma does_place E s s' r : place_one_site E s = (s', Ok r) -> does (b_place E) (whole s) (whole s') r.
Proof.
  unfold place_one_site, b_place. intros H. apply mbind_inv in H as (fl & s1 & H1 & H). apply modify_inv in H.
  eapply does_bind; [apply does_select; exact H1|]. apply does_act_bind. destruct fl; try (injection H as <- <-; apply does_ret).
  apply get_inv in H. apply need_inv in H as (sel & H2 & H). apply need_inv in H as (cur & H3 & H). apply lift_inv in H as (l1 & H4 & H).
  apply modify_inv in H. apply lift_inv in H as (cs & H5 & H). apply lift_inv in H as (hh & H6 & H). apply modify_inv in H. apply get_inv in H.
  apply lift_inv in H as (((l2 & p2) & root) & H7 & H). apply modify_inv in H. apply mbind_inv in H as ([] & s2 & H8 & H). apply get_inv in H.
  apply lift_inv in H as (e' & H9 & H). apply modify_inv in H. injection H as <- <-.
  apply does_get. eapply does_need; [exact H2|]. eapply does_need; [exact H3|]. eapply does_bind; [apply does_on_lat; exact H4|]. apply does_get. cbn [obj whole].
  eapply does_lift_bind; [exact H5|]. eapply does_lift_bind; [exact H6|]. apply does_act_bind.
  eapply does_bind; [apply does_merge; exact H7|]. eapply does_bind; [apply does_track; exact H8|]. apply does_get. cbn [obj whole].
  eapply does_lift_bind; [exact H9|]. apply does_act_bind. apply does_ret.
Qed.
Lemma does_detect s s' r : detect_wrapping s = (s', Ok r) -> does b_detect (whole s) (whole s') r.
Proof.
  unfold detect_wrapping, b_detect. intros H. apply get_inv in H. apply does_get. cbn [obj whole]. destruct (after_wrap s).
  - injection H as <- <-. apply does_ret.
  - apply need_inv in H as (sel & H1 & H). apply lift_inv in H as (nbs & H2 & H). apply need_inv in H as (cur & H3 & H). apply lift_inv in H as (cs & H4 & H).
    apply lift_inv in H as (hit & H5 & H). eapply does_need; [exact H1|]. eapply does_lift_bind; [exact H2|]. eapply does_need; [exact H3|].
    eapply does_lift_bind; [exact H4|]. eapply does_lift_bind; [exact H5|]. destruct hit; [|injection H as <- <-; apply does_ret].
    apply lift_inv in H as (ss & H6 & H). apply modify_inv in H. apply lift_inv in H as (nb & H7 & H). apply modify_inv in H. apply lift_inv in H as (ns & H8 & H).
    apply modify_inv in H. injection H as <- <-. apply does_act_bind. eapply does_lift_bind; [exact H6|]. do 2 apply does_act_bind. apply does_get. cbn [obj whole].
    eapply does_lift_bind; [exact H7|]. apply does_act_bind. eapply does_lift_bind; [exact H8|]. apply does_act_bind. apply does_ret.
Qed.
