(** * BreakReset: reset and runs, statement by statement (for BreakProps.v). *)
From Coq Require Import ZArith List Bool Lia Permutation.
From Verif Require Import Py Lattice Cluster Perc Spec PyFacts Torus Geometry LatFacts Inv Merge Fresh Select State Step History Reach Break BreakFacts.
Import ListNotations.
Open Scope Z_scope.

(** ** Resetting the elements *)
Lemma lget_mid {A} (pre : list A) x post : lget (pre ++ x :: post) (Z.of_nat (length pre)) = Ok x.
Proof.
  unfold lget. rewrite py_pos_in by (unfold zlen; rewrite app_length; cbn [length]; lia). rewrite Nat2Z.id, nth_error_app2 by lia.
  now rewrite Nat.sub_diag.
Qed.
Lemma lset_mid {A} (pre : list A) x post y : lset (pre ++ x :: post) (Z.of_nat (length pre)) y = Ok (pre ++ y :: post).
Proof.
  unfold lset. rewrite py_pos_in by (unfold zlen; rewrite app_length; cbn [length]; lia). rewrite Nat2Z.id. f_equal.
  induction pre as [|z pre IH]; cbn [length app upd]; auto. now rewrite IH.
Qed.
Lemma loop_each {A} (g : A -> A) post : forall pre,
  foldM (fun l i => x <- lget l i ;; lset l i (g x)) (map Z.of_nat (seq (length pre) (length post))) (pre ++ post) = Ok (pre ++ map g post).
Proof.
  induction post as [|x post IH]; intros pre; cbn [length seq map foldM]; [reflexivity|]. rewrite lget_mid. cbn [rbind]. rewrite lset_mid. cbn [rbind].
  specialize (IH (pre ++ [g x])). rewrite app_length, <- !app_assoc in IH. cbn [length app] in IH. now rewrite Nat.add_1_r in IH.
Qed.
Lemma loop_all {A} (g : A -> A) l : foldM (fun l i => x <- lget l i ;; lset l i (g x)) (zrange (zlen l)) l = Ok (map g l).
Proof. unfold zrange, zlen. rewrite Nat2Z.id. exact (loop_each g l []). Qed.
Lemma foldM_ext {A C} (f g : C -> A -> res C) l : (forall c x, f c x = g c x) -> forall c, foldM f l c = foldM g l c.
Proof. intros E. induction l as [|x l IH]; intros c; cbn [foldM]; auto. rewrite E. destruct (g c x); cbn [rbind]; auto. Qed.

Lemma plain_twice lat i f g :
  (l <- plain_update lat i f ;; plain_update l i g) = plain_update lat i (fun s => g (f s)).
Proof.
  unfold plain_update, update_site, lget, lset. destruct (py_pos (zlen (l_sites lat)) i) as [k|] eqn:Ep; cbn [rbind]; auto.
  destruct (nth_error (l_sites lat) k) as [x|] eqn:En; cbn [rbind]; auto. cbn [with_sites l_sites]. rewrite zlen_upd, Ep. cbn [rbind].
  rewrite (nth_upd _ _ _ x En). cbn [rbind]. now rewrite upd_upd.
Qed.
Lemma plain_split lat i f g l : plain_update lat i (fun s => g (f s)) = Ok l -> exists l1, plain_update lat i f = Ok l1 /\ plain_update l1 i g = Ok l.
Proof. rewrite <- plain_twice. apply rbind_inv. Qed.
Lemma does_site_reset i s l : plain_update (lat s) i site_reset = Ok l -> does (b_site_reset i) (whole s) (whole (set_lat l s)) tt.
Proof.
  intros H. unfold b_site_reset.
  destruct (plain_split (lat s) i (fun x => site_set_gid x (-1)) (fun x => site_set_nn (site_set_rel x (0, 0)) 4 4) l H) as (l1 & H1 & H1').
  destruct (plain_split l1 i (fun x => site_set_rel x (0, 0)) (fun x => site_set_nn x 4 4) l H1') as (l2 & H2 & H2').
  destruct (plain_split l2 i (fun x => site_set_nn x 4 (s_nn2 x)) (fun x => site_set_nn x (s_nn1 x) 4) l H2') as (l3 & H3 & H4).
  eapply does_bind; [apply does_on_lat; exact H1|]. eapply does_bind; [apply does_on_lat; exact H2|]. eapply does_bind; [apply does_on_lat; exact H3|].
  match goal with |- does _ (whole ?s1) (whole ?s2) _ => change s2 with (set_lat l s1) end. apply does_on_lat. exact H4.
Qed.
Lemma does_lattice_reset s : does b_lattice_reset (whole s) (whole (set_lat (lattice_reset (lat s)) s)) tt.
Proof.
  unfold b_lattice_reset. apply does_get. cbn [obj whole].
  eapply does_bind.
  { apply (does_for_lat _ (fun l i => plain_update l i site_reset) (zrange (zlen (l_sites (lat s)))) (fun x t a => does_site_reset x t a) s (with_sites (lat s) (map site_reset (l_sites (lat s))))).
    pose proof (foldM_map (with_sites (lat s)) (fun l i => plain_update l i site_reset) (fun ss i => x <- lget ss i ;; lset ss i (site_reset x)) (zrange (zlen (l_sites (lat s))))) as F.
    replace (lat s) with (with_sites (lat s) (l_sites (lat s))) at 2 by (destruct (lat s); reflexivity). rewrite F.
    - rewrite loop_all. reflexivity.
    - intros c x. unfold plain_update, update_site. cbn [with_sites l_sites]. destruct (lget c x); cbn [rbind]; auto. }
  pose proof (does_for_lat (fun b => on_lat (fun l => set_bond_gid_by_id l b (-1))) (fun l b => set_bond_gid_by_id l b (-1)) (zrange (zlen (l_bonds (lat s))))
    (fun x t a Hx => does_on_lat (fun l => set_bond_gid_by_id l x (-1)) t a Hx)
    (set_lat (with_sites (lat s) (map site_reset (l_sites (lat s)))) s) (lattice_reset (lat s))) as D.
  apply D. clear D. cbn [lat set_lat].
  set (l1 := with_sites (lat s) (map site_reset (l_sites (lat s)))).
  pose proof (foldM_map (with_bonds l1) (fun l i => set_bond_gid_by_id l i (-1)) (fun bs i => x <- lget bs i ;; lset bs i (bond_set_gid x (-1))) (zrange (zlen (l_bonds (lat s))))) as F.
  replace l1 with (with_bonds l1 (l_bonds (lat s))) at 1 by reflexivity. rewrite F.
  - rewrite (loop_all (fun x => bond_set_gid x (-1))). reflexivity.
  - intros c x. unfold set_bond_gid_by_id. cbn [with_bonds l_bonds]. destruct (lget c x); cbn [rbind]; auto.
Qed.
Lemma does_pool_reset s : does b_pool_reset (whole s) (whole (set_pool empty_pool s)) tt.
Proof. unfold b_pool_reset. apply does_act_bind. fin_act. Qed.
Lemma does_create bb s l p : create_new_cluster (pool s) [] [bb] (lat s) = Ok (p, l) -> does (b_create bb) (whole s) (whole (put l p s)) tt.
Proof.
  unfold create_new_cluster, b_create. cbn [foldM rbind]. intros H. apply rbind_inv in H as (l1 & H1 & H). injection H as <- <-.
  apply rbind_inv in H1 as (l2 & H1 & H2). injection H2 as <-. apply does_get. cbn [obj whole]. eapply does_bind; [apply does_on_lat; exact H1|].
  apply does_act_bind. fin_act.
Qed.
Lemma does_init s p l : init_clusters (lat s) = Ok (p, l) -> does b_init_clusters (whole s) (whole (put l p s)) tt.
Proof.
  unfold init_clusters, b_init_clusters. intros H. eapply does_bind; [apply does_pool_reset|]. apply does_get. cbn [obj whole lat set_pool].
  change (put l p s) with (put l p (set_pool empty_pool s)).
  apply (does_for _ (fun '(l, p) bb => '(p, l) <- create_new_cluster p [] [bb] l ;; Ok (l, p))).
  - intros x t a q K. cbn beta iota in K. apply rbind_inv in K as ((p1 & l1) & K1 & K2). injection K2 as <- <-. now apply does_create.
  - cbn [lat pool set_pool].
    pose proof (foldM_map (fun '(p, l) => (l, p)) (fun '(l, p) bb => '(p, l) <- create_new_cluster p [] [bb] l ;; Ok (l, p))
      (fun '(p, l) bb => create_new_cluster p [] [bb] l) (zrange (l_bond_count (lat s)))) as F.
    specialize (F ltac:(intros [q m] x; cbn beta iota; destruct (create_new_cluster q [] [x] m) as [[]|]; reflexivity) (empty_pool, lat s)).
    cbn beta iota in F. rewrite F, H. reflexivity.
Qed.

(** ** Shuffling *)
Definition aliased (s : perc) : Prop := ids_shared s = true -> user_list s = ids s.
Lemma mutate_same s : aliased s -> mutate_ids (ids s) s = s.
Proof. unfold aliased, mutate_ids. destruct s. cbn. intros H. destruct ids_shared; [rewrite H by auto|]; reflexivity. Qed.
Lemma mutate_twice l l' s : mutate_ids l (mutate_ids l' s) = mutate_ids l s.
Proof. destruct s. unfold mutate_ids. cbn. destruct ids_shared; reflexivity. Qed.
Lemma mutate_aliased l s : aliased (mutate_ids l s).
Proof. unfold aliased, mutate_ids. cbn. intros ->. reflexivity. Qed.
Lemma does_shuffle_from E k : forall s, aliased s ->
  does (b_shuffle_from E k) (whole s) (whole (set_tick (snd (shuffle_from E k (tick s) (ids s))) (mutate_ids (fst (shuffle_from E k (tick s) (ids s))) s))) tt.
Proof.
  induction k as [|k IH]; intros s Ha.
  - cbn [shuffle_from fst snd b_shuffle_from]. rewrite mutate_same by auto. replace (set_tick (tick s) s) with s by (destruct s; reflexivity). apply does_ret.
  - cbn [shuffle_from b_shuffle_from]. apply does_get. do 2 apply does_act_bind.
    set (j := Z.to_nat (e_draw E (tick s) mod (Z.of_nat (S k) + 1))). set (l := swap_at (ids s) (S k) j).
    match goal with |- does _ (whole ?s1) (whole ?s2) _ => set (t := s1);
      replace s2 with (set_tick (snd (shuffle_from E k (tick t) (ids t))) (mutate_ids (fst (shuffle_from E k (tick t) (ids t))) t)) end.
    + apply IH. apply mutate_aliased.
    + subst t. change (tick (mutate_ids (swap_at (ids (set_tick (S (tick s)) s)) (S k) j) (set_tick (S (tick s)) s))) with (S (tick s)).
      change (ids (mutate_ids (swap_at (ids (set_tick (S (tick s)) s)) (S k) j) (set_tick (S (tick s)) s))) with l.
      rewrite mutate_twice. destruct s. reflexivity.
Qed.
Lemma does_rev l : forall s rv, foldM (fun rv i => a <- lget (ids s) i ;; lset rv a i) l (rev_ids s) = Ok rv ->
  does (bfor l (fun i => do s <- bget ; do a <- blift (lget (ids s) i) ; do rv <- blift (lset (rev_ids s) a i) ; act (set_rev rv))) (whole s) (whole (set_rev rv s)) tt.
Proof.
  induction l as [|i l IH]; intros s rv H; cbn [foldM bfor] in *.
  - injection H as <-. replace (set_rev (rev_ids s) s) with s by (destruct s; reflexivity). apply does_ret.
  - apply rbind_inv in H as (r1 & H1 & H). apply rbind_inv in H1 as (a & H1 & H2).
    eapply does_bind. { apply does_get. cbn [obj whole]. eapply does_lift_bind; [exact H1|]. eapply does_lift_bind; [exact H2|]. apply does_act. }
    change (set_rev rv s) with (set_rev rv (set_rev r1 s)). apply IH. exact H.
Qed.
Lemma does_shuffle E s s' : aliased s -> shuffle E s = (s', Ok tt) -> does (b_shuffle E) (whole s) (whole s') tt.
Proof.
  intros Ha. unfold shuffle, b_shuffle. intros H. apply get_inv in H. apply does_get. cbn [obj whole]. destruct (mode_custom s && negb (do_shuffle s)).
  - injection H as <-. apply does_ret.
  - destruct (do_shuffle s); [|injection H as <-; apply does_ret].
    unfold random_shuffle in H. pose proof (does_shuffle_from E (pred (length (ids s))) s Ha) as D.
    destruct (shuffle_from E (pred (length (ids s))) (tick s) (ids s)) as [l t]. cbn [fst snd] in D. apply modify_inv in H. apply get_inv in H.
    apply lift_inv in H as (rv & H1 & H). injection H as <-. eapply does_bind; [exact D|]. apply does_get. cbn [obj whole]. now apply does_rev.
Qed.
Ltac red_state := cbv beta iota delta [set_lat set_pool rebind_ids set_cur_idx set_occ_count set_sel_flag set_largest set_ent set_wrap set_arrs set_xy set_record set_sp put
  kind lat pool ids rev_ids cur_idx occ_count pc_occ cur_site sel_id sel_flag cluster_count largest_sz largest_id max_ent ent after_wrap wid first_run p_arr h_arr pw_arr pl_arr
  max_iter mode_custom do_shuffle pc_bonds pc_sites x_occ y_occ record sp_p user_list ids_shared tick].
Ltac red_in H := cbv beta iota delta [set_lat set_pool rebind_ids set_cur_idx set_occ_count set_sel_flag set_largest set_ent set_wrap set_arrs set_xy set_record set_sp put
  kind lat pool ids rev_ids cur_idx occ_count pc_occ cur_site sel_id sel_flag cluster_count largest_sz largest_id max_ent ent after_wrap wid first_run p_arr h_arr pw_arr pl_arr
  max_iter mode_custom do_shuffle pc_bonds pc_sites x_occ y_occ record sp_p user_list ids_shared tick] in H.
Lemma does_lists s :
  does (go b_del no_h lose_h ;
      go stmt (fun i => mkHeld (set_arrs (p_arr (obj i)) [] (pw_arr (obj i)) (pl_arr (obj i)) (obj i)) false (no_w i) (no_l i)) ;
      go b_del no_w lose_w ;
      go stmt (fun i => mkHeld (set_arrs (p_arr (obj i)) (h_arr (obj i)) [] (pl_arr (obj i)) (obj i)) (no_h i) false (no_l i)) ;
      go b_del no_l lose_l ;
      stmt (fun i => mkHeld (set_arrs (p_arr (obj i)) (h_arr (obj i)) (pw_arr (obj i)) [] (obj i)) (no_h i) (no_w i) false))
      (whole s) (whole (set_arrs (p_arr s) [] [] [] s)) tt.
Proof.
  eapply does_bind; [apply does_held; apply (does_stmt lose_h)|]. eapply does_bind; [apply does_stmt|].
  eapply does_bind; [apply does_held; apply (does_stmt lose_w)|]. eapply does_bind; [apply does_stmt|].
  eapply does_bind; [apply does_held; apply (does_stmt lose_l)|].
  match goal with |- does (stmt ?f) ?i1 ?i2 _ => change i2 with (f i1) end. apply does_stmt.
Qed.
Lemma does_reset_base E s s' : aliased s -> reset_base E s = (s', Ok tt) -> does (b_reset_base E) (whole s) (whole s') tt.
Proof.
  intros Ha. unfold reset_base, b_reset_base. intros H. apply get_inv in H. do 2 apply modify_inv in H. apply get_inv in H.
  apply lift_inv in H as ((p & l) & H1 & H). apply modify_inv in H. apply mbind_inv in H as ([] & s1 & H2 & H).
  eapply does_bind; [apply does_lattice_reset|]. eapply does_bind; [apply does_pool_reset|]. do 2 apply does_act_bind.
  eapply does_bind; [apply does_init; exact H1|]. eapply does_bind; [apply does_shuffle; [|exact H2]; exact Ha|].
  clear H1 H2. destruct s1. do 6 (apply modify_inv in H; red_in H). unfold modify in H. red_in H. injection H as <-.
  do 9 (apply does_act_bind; red_state). apply does_get. cbv beta iota delta [obj whole Perc.first_run]. destruct first_run.
  - apply does_act_bind. red_state. eapply does_lists.
  - apply does_ret_bind. eapply does_lists.
Qed.
Lemma does_reset E s s' : aliased s -> reset E s = (s', Ok tt) -> does (b_reset E) (whole s) (whole s') tt.
Proof.
  intros Ha. unfold reset, b_reset. intros H. apply mbind_inv in H as ([] & s1 & H1 & H). eapply does_bind; [apply does_reset_base; [exact Ha|exact H1]|].
  apply get_inv in H. apply does_get. cbn [obj whole]. clear H1. destruct s1. cbv beta iota delta [Perc.kind] in H |- *. destruct kind.
  - injection H as <-. apply does_ret.
  - injection H as <-. apply does_ret.
  - do 2 (apply modify_inv in H; red_in H). unfold modify in H. red_in H. injection H as <-. do 2 (apply does_act_bind; red_state). fin_act.
  - apply modify_inv in H; red_in H. unfold modify in H. red_in H. injection H as <-. do 2 (apply does_act_bind; red_state). fin_act.
  - unfold modify in H. red_in H. injection H as <-. fin_act.
Qed.

(** ** Runs *)
Lemma does_append f g s : f (whole s) = false -> does (b_append f g) (whole s) (whole (g s)) tt.
Proof. intros Hf. apply does_held. rewrite Hf. apply does_act. Qed.
Lemma does_record s s' : record_step s = (s', Ok tt) -> does b_record (whole s) (whole s') tt.
Proof.
  unfold record_step, b_record. intros H. apply get_inv in H. apply lift_inv in H as (p & H1 & H). apply lift_inv in H as (P1 & H2 & H). apply lift_inv in H as (P2 & H3 & H).
  apply does_get. cbn [obj whole]. eapply does_lift_bind; [exact H1|]. eapply does_lift_bind; [exact H2|]. eapply does_lift_bind; [exact H3|]. clear H1 H2 H3.
  unfold entropy_v2 in *. destruct s. unfold modify in H. red_in H. injection H as <-. red_state. destruct first_run.
  - apply does_act_bind. red_state. do 2 (eapply does_bind; [apply does_append; reflexivity|]; red_state).
    match goal with |- does (b_append ?h ?f) (whole ?s1) (whole ?s2) _ => change s2 with (f s1) end. apply does_append. reflexivity.
  - apply does_ret_bind. do 2 (eapply does_bind; [apply does_append; reflexivity|]; red_state).
    match goal with |- does (b_append ?h ?f) (whole ?s1) (whole ?s2) _ => change s2 with (f s1) end. apply does_append. reflexivity.
Qed.
Lemma does_run_loop E f : forall s s', run_loop E f s = (s', Ok tt) -> does (b_run_loop E f) (whole s) (whole s') tt.
Proof.
  induction f as [|f IH]; intros s s' H; [discriminate|]. cbn [run_loop b_run_loop] in *. apply mbind_inv in H as (b & s1 & H1 & H).
  eapply does_bind; [apply does_place; exact H1|]. destruct b; [|injection H as <-; apply does_ret].
  apply get_inv in H. apply does_get. cbn [obj whole]. apply mbind_inv in H as ([] & s2 & H2 & H). eapply does_bind; [|apply IH; exact H].
  destruct (flag_is_success s1); [|injection H2 as <-; apply does_ret]. apply mbind_inv in H2 as (w & s3 & H2 & H3).
  eapply does_bind; [apply does_detect; exact H2|]. now apply does_record.
Qed.
Lemma does_sp_loop E f : forall s s', sp_loop E f s = (s', Ok tt) -> does (b_sp_loop E f) (whole s) (whole s') tt.
Proof.
  induction f as [|f IH]; intros s s' H; [discriminate|]. cbn [sp_loop b_sp_loop] in *. apply mbind_inv in H as (b & s1 & H1 & H).
  eapply does_bind; [apply does_place; exact H1|]. destruct b; [|injection H as <-; apply does_ret].
  apply get_inv in H. apply does_get. cbn [obj whole]. destruct (flag_is_success s1); [|now apply IH]. apply mbind_inv in H as (w & s3 & H2 & H3).
  eapply does_bind; [apply does_detect; exact H2|]. destruct w; [|now apply IH].
  apply get_inv in H3. apply need_inv in H3 as (cur & K1 & H3). apply lift_inv in H3 as (cs & K2 & H3). apply lift_inv in H3 as ((cf & rf) & K3 & H3).
  apply does_get. cbn [obj whole]. eapply does_need; [exact K1|]. eapply does_lift_bind; [exact K2|]. eapply does_lift_bind; [exact K3|]. cbn [fst snd].
  destruct (cf || rf); [|now apply IH]. apply lift_inv in H3 as (p & K4 & H3). injection H3 as <-. eapply does_lift_bind; [exact K4|]. fin_act.
Qed.
Lemma does_run E f s s' : run_once E f s = (s', Ok tt) -> does (b_run_once E f) (whole s) (whole s') tt.
Proof.
  unfold run_once, b_run_once. intros H. apply get_inv in H. apply does_get. cbn [obj whole].
  assert (Base : forall t, run_once_base E f s = (t, Ok tt) -> does (go b_run_loop E f ; act (set_first_run false)) (whole s) (whole t) tt).
  { intros t K. unfold run_once_base in K. apply mbind_inv in K as ([] & s1 & K1 & K). injection K as <-. eapply does_bind; [apply does_run_loop; exact K1|]. fin_act. }
  destruct (kind s); try (apply Base; exact H).
  unfold sp_run_once in H. apply mbind_inv in H as ([] & s1 & K1 & K). injection K as <-. eapply does_bind; [apply does_sp_loop; exact K1|]. fin_act.
Qed.
