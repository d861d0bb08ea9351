(** * BreakMoreFacts: the remaining methods, unbroken and broken off (for Props_BreakMore.v). *)
From Coq Require Import ZArith List Bool Lia Permutation.
From Verif Require Import Py Lattice Cluster Perc Spec PyFacts Torus Geometry LatFacts Inv Merge Fresh Select State Step History Reach Break BreakFacts BreakReset BreakKeep BreakSpec RunProps Demo Count SymSpec Critical Describe Drive Real Entropy Micro BreakProps BreakMore BreakMoreSpec.
Import ListNotations.
Open Scope Z_scope.

(** ** Unbroken *)
Ltac red_cu := cbv beta iota delta [set_custom rebind_ids kind lat pool ids rev_ids cur_idx occ_count pc_occ cur_site sel_id sel_flag cluster_count largest_sz largest_id max_ent ent after_wrap wid first_run p_arr h_arr pw_arr pl_arr
  max_iter mode_custom do_shuffle pc_bonds pc_sites x_occ y_occ record sp_p user_list ids_shared tick].
Lemma install_chain l ul share sh s :
  set_custom (zlen l) (mode_custom (set_custom (max_iter (set_custom (max_iter (rebind_ids l ul share s)) true (do_shuffle (rebind_ids l ul share s)) (rebind_ids l ul share s)))
    (mode_custom (set_custom (max_iter (rebind_ids l ul share s)) true (do_shuffle (rebind_ids l ul share s)) (rebind_ids l ul share s))) sh
    (set_custom (max_iter (rebind_ids l ul share s)) true (do_shuffle (rebind_ids l ul share s)) (rebind_ids l ul share s))))
    (do_shuffle (set_custom (max_iter (set_custom (max_iter (rebind_ids l ul share s)) true (do_shuffle (rebind_ids l ul share s)) (rebind_ids l ul share s)))
    (mode_custom (set_custom (max_iter (rebind_ids l ul share s)) true (do_shuffle (rebind_ids l ul share s)) (rebind_ids l ul share s))) sh
    (set_custom (max_iter (rebind_ids l ul share s)) true (do_shuffle (rebind_ids l ul share s)) (rebind_ids l ul share s))))
    (set_custom (max_iter (set_custom (max_iter (rebind_ids l ul share s)) true (do_shuffle (rebind_ids l ul share s)) (rebind_ids l ul share s)))
    (mode_custom (set_custom (max_iter (rebind_ids l ul share s)) true (do_shuffle (rebind_ids l ul share s)) (rebind_ids l ul share s))) sh
    (set_custom (max_iter (rebind_ids l ul share s)) true (do_shuffle (rebind_ids l ul share s)) (rebind_ids l ul share s)))
  = set_custom (zlen l) true sh (rebind_ids l ul share s).
Proof. reflexivity. Qed.
Lemma does_install E l ul share sh s s' : (share = true -> ul = l) ->
  shuffle E (set_custom (zlen l) true sh (rebind_ids l ul share s)) = (s', Ok tt) -> does (b_install E l ul share sh) (whole s) (whole s') tt.
Proof.
  intros Ha H. unfold b_install. do 4 apply does_act_bind. rewrite install_chain. apply does_shuffle; auto.
Qed.
Lemma does_set_ids E l sh s s' : set_custome_site_id_list E l sh s = (s', Ok tt) -> does (b_set_ids E l sh) (whole s) (whole s') tt.
Proof.
  unfold set_custome_site_id_list, b_set_ids. intros H. apply get_inv in H. apply does_get. cbn [obj whole]. cbv zeta in *.
  apply lift_inv in H as (mx & H1 & H). apply lift_inv in H as (mn & H2 & H). eapply does_lift_bind; [exact H1|]. eapply does_lift_bind; [exact H2|].
  match goal with |- context [if ?b then _ else _] => destruct b end; [injection H as <-; apply does_ret|].
  do 2 apply modify_inv in H. apply does_install; auto.
Qed.
Lemma does_set_indices E l sh s s' : set_custome_site_index_list E l sh s = (s', Ok tt) -> does (b_set_indices E l sh) (whole s) (whole s') tt.
Proof.
  unfold set_custome_site_index_list, b_set_indices. intros H. apply get_inv in H. apply does_get. cbn [obj whole]. cbv zeta in *.
  apply lift_inv in H as (mx & H1 & H). apply lift_inv in H as (mn & H2 & H). eapply does_lift_bind; [exact H1|]. eapply does_lift_bind; [exact H2|].
  match goal with |- context [if ?b then _ else _] => destruct b end; [injection H as <-; apply does_ret|].
  do 2 apply modify_inv in H. apply does_install; auto. discriminate.
Qed.
Lemma does_swap a b s s' : swap_ids a b s = (s', Ok tt) -> does (b_swap a b) (whole s) (whole s') tt.
Proof.
  unfold swap_ids, b_swap. destruct (a =? b); [intros H; injection H as <-; apply does_ret|]. intros H. apply get_inv in H. apply does_get. cbn [obj whole].
  apply lift_inv in H as (p & H1 & H). apply lift_inv in H as (q & H2 & H). apply lift_inv in H as (l1 & H3 & H). apply modify_inv in H.
  apply lift_inv in H as (l2 & H4 & H). apply modify_inv in H. apply lift_inv in H as (r1 & H5 & H). apply modify_inv in H. apply lift_inv in H as (r2 & H6 & H). injection H as <-.
  eapply does_lift_bind; [exact H1|]. eapply does_lift_bind; [exact H2|].
  eapply does_bind; [apply does_get; eapply does_lift_bind; [exact H3|]; apply does_act|].
  eapply does_bind; [apply does_get; eapply does_lift_bind; [exact H4|]; apply does_act|].
  eapply does_bind; [apply does_get; eapply does_lift_bind; [exact H5|]; apply does_act|].
  apply does_get. eapply does_lift_bind; [exact H6|]. apply does_act.
Qed.
Lemma does_test_loop E f : forall s s', test_run_loop E f s = (s', Ok tt) -> does (b_test_loop E f) (whole s) (whole s') tt.
Proof.
  induction f as [|f IH]; intros s s' H; [discriminate|]. cbn [test_run_loop b_test_loop] in *. apply mbind_inv in H as (b & s1 & H1 & H).
  eapply does_bind; [apply does_place; exact H1|]. destruct b; [|injection H as <-; apply does_ret].
  apply get_inv in H. apply does_get. cbn [obj whole]. destruct (flag_is_success s1); [|now apply IH]. apply mbind_inv in H as (w & s3 & H2 & H3).
  eapply does_bind; [apply does_detect; exact H2|]. destruct w.
  - apply get_inv in H3. apply need_inv in H3 as (n & K1 & H3). apply does_get. cbn [obj whole]. eapply does_need; [exact K1|].
    unfold lift in H3. injection H3 as <- H3. now apply does_lift.
  - apply mbind_inv in H3 as ([] & s4 & H3 & H4). eapply does_bind; [apply does_record; exact H3|]. now apply IH.
Qed.
Lemma does_test_run E f s s' : test_run_once E f s = (s', Ok tt) -> does (b_test_run E f) (whole s) (whole s') tt.
Proof.
  unfold test_run_once, b_test_run. intros H. apply mbind_inv in H as ([] & s1 & K1 & K). injection K as <-. eapply does_bind; [apply does_test_loop; exact K1|].
  apply does_act.
Qed.
Lemma p_C116_unbroken E s :
  (forall l sh, agrees (b_set_ids E l sh) (set_custome_site_id_list E l sh) s) /\
  (forall ixs sh, agrees (b_set_indices E ixs sh) (set_custome_site_index_list E ixs sh) s) /\
  (forall a b, agrees (b_swap a b) (swap_ids a b) s) /\
  (forall f, agrees (b_test_run E f) (test_run_once E f) s).
Proof.
  split; [|split; [|split]]; intros; apply does_agrees; intros s' [].
  - apply does_set_ids.
  - apply does_set_indices.
  - apply does_swap.
  - apply does_test_run.
Qed.

(** ** What every broken-off call keeps *)
Lemma resound L s0 s : Sound L s0 s -> Sound L s s.
Proof. intros []. constructor; auto. Qed.
Record Firm (L : Z) (k : pkind) (s : perc) : Prop := mkFirm {
  fi_sound : Sound L s s;
  fi_kind : kind s = k;
  fi_ids : is_L12 k = false -> ids s <> []
}.
Lemma firm_of L k s0 s : Firm L k s0 -> Sound L s0 s -> Firm L k s.
Proof.
  intros [F1 F2 F3] S. pose proof (so_kind _ _ _ S) as K. constructor; [now apply resound in S|congruence|]. intros X Y. destruct (so_perm _ _ _ S) as (P & _); [congruence|].
  rewrite Y in P. apply Permutation_sym, Permutation_nil in P. now apply (F3 X).
Qed.
Lemma keeps_firm {A} L k (m : B A) : (forall s0, keeps (Sound L s0) m) -> keeps (Firm L k) m.
Proof. intros H i n F. apply (firm_of L k (obj i)); auto. apply H. apply F. Qed.
Lemma keeps_test_loop E L s0 f : keeps (Sound L s0) (b_test_loop E f).
Proof.
  induction f as [|f IH]; cbn [b_test_loop]; [apply keeps_raise|]. apply keeps_bind; [apply BreakKeep.keeps_place|]. intros [|]; [|apply keeps_ret].
  apply keeps_get. intros s. destruct (flag_is_success s); [|exact IH]. apply keeps_bind; [apply BreakKeep.keeps_detect|]. intros [|].
  - apply keeps_get. intros s1. apply keeps_bind; [apply keeps_need|]. intros n. apply keeps_lift.
  - apply keeps_bind; [apply BreakKeep.keeps_record|]. intros _. exact IH.
Qed.
Lemma keeps_test_run E L s0 f : keeps (Sound L s0) (b_test_run E f).
Proof.
  unfold b_test_run. apply keeps_bind; [apply keeps_test_loop|]. intros _. apply keeps_act. intros s H. apply (sound_ext L s0 s); [exact H|reflexivity..].
Qed.
Lemma firm_rebind L k s l ul share : Firm L k s -> accepted L l -> (share = true -> ul = l) -> Firm L k (rebind_ids l ul share s).
Proof. intros [[] K N] (A1 & A2) Hs. constructor; auto. constructor; auto. Qed.
Lemma firm_custom L k s mi mc ds : Firm L k s -> Firm L k (set_custom mi mc ds s).
Proof. intros [[] K N]. constructor; auto. constructor; auto. Qed.
Lemma keeps_install E L k l ul share sh : accepted L l -> (share = true -> ul = l) -> keeps (Firm L k) (b_install E l ul share sh).
Proof.
  intros A Hs. unfold b_install. apply keeps_bind; [apply keeps_act; intros s F; now apply firm_rebind|]. intros _.
  do 3 (apply keeps_bind; [apply keeps_act; intros s F; now apply firm_custom|]; intros _). apply keeps_firm. intros s0. apply BreakKeep.keeps_shuffle.
Qed.
Lemma lmax_accepted L l mx mn : lmax l = Ok mx -> lmin l = Ok mn -> (L * L - 1 <? mx) || (mn <? 0) = false -> accepted L l.
Proof.
  intros H1 H2 H3. apply orb_false_iff in H3 as (H3 & H4). split; [exact (lmax_nonempty _ _ H1)|]. apply Forall_forall. intros x Hx.
  pose proof (lmax_spec _ _ H1 x Hx). pose proof (lmin_spec _ _ H2 x Hx). unfold is_site. lia.
Qed.
Lemma accepted_dec L l : (exists mx mn, lmax l = Ok mx /\ lmin l = Ok mn /\ (L * L - 1 <? mx) || (mn <? 0) = false) <-> accepted L l.
Proof.
  split; [intros (mx & mn & H1 & H2 & H3); now apply (lmax_accepted L l mx mn)|]. intros (N & F). destruct l as [|x l]; [easy|].
  destruct (lmax (x :: l)) as [mx|e] eqn:E1; [|discriminate]. destruct (lmin (x :: l)) as [mn|e] eqn:E2; [|discriminate].
  exists mx, mn. split; auto. split; auto. rewrite Forall_forall in F. pose proof (F _ (lmax_in _ _ E1)) as A. pose proof (F _ (lmin_in _ _ E2)) as C. unfold is_site in *.
  apply orb_false_iff. split; lia.
Qed.
Lemma set_ids_runs E L k l sh i n : Firm L k (obj i) ->
  (accepted L l -> b_set_ids E l sh i n = b_install E l l true sh i n) /\
  (~ accepted L l -> fst (fst (b_set_ids E l sh i n)) = i).
Proof.
  intros F. pose proof (st_len _ _ (so_static _ _ _ (fi_sound _ _ _ F))) as HL. unfold b_set_ids, bbind, bget, blift. rewrite HL. split.
  - intros A. apply accepted_dec in A as (mx & mn & -> & -> & ->). reflexivity.
  - intros A. destruct (lmax l) as [mx|e] eqn:E1; [|reflexivity]. destruct (lmin l) as [mn|e] eqn:E2; [|reflexivity].
    destruct ((L * L - 1 <? mx) || (mn <? 0)) eqn:E3; [reflexivity|]. exfalso. apply A. now apply (lmax_accepted L l mx mn).
Qed.
Lemma set_indices_runs E L k ixs sh i n : Firm L k (obj i) ->
  let l := map (calculate_id_from_index (lat (obj i))) ixs in
  (accepted L l -> b_set_indices E ixs sh i n = b_install E l (user_list (obj i)) false sh i n) /\
  (~ accepted L l -> fst (fst (b_set_indices E ixs sh i n)) = i).
Proof.
  intros F l. pose proof (st_len _ _ (so_static _ _ _ (fi_sound _ _ _ F))) as HL. unfold b_set_indices, bbind, bget, blift. rewrite HL. fold l. split.
  - intros A. apply accepted_dec in A as (mx & mn & -> & -> & ->). reflexivity.
  - intros A. destruct (lmax l) as [mx|e] eqn:E1; [|reflexivity]. destruct (lmin l) as [mn|e] eqn:E2; [|reflexivity].
    destruct ((L * L - 1 <? mx) || (mn <? 0)) eqn:E3; [reflexivity|]. exfalso. apply A. now apply (lmax_accepted L l mx mn).
Qed.
Lemma accepted_or L l : accepted L l \/ ~ accepted L l.
Proof.
  assert (D : forall x, {is_site L x} + {~ is_site L x}).
  { intros x. unfold is_site. destruct (Z_le_dec 0 x); [|right; lia]. destruct (Z_lt_dec x (L * L)); [left; lia|right; lia]. }
  destruct (list_eq_dec Z.eq_dec l []) as [->|N]; [right; intros (A & _); easy|]. destruct (Forall_dec _ D l) as [F|F]; [left; now split|right; now intros (_ & G)].
Qed.
Lemma keeps_set_ids E L k l sh : keeps (Firm L k) (b_set_ids E l sh).
Proof.
  intros i n F. destruct (set_ids_runs E L k l sh i n F) as (A & N). destruct (accepted_or L l) as [Y|Y].
  - rewrite (A Y). now apply keeps_install.
  - now rewrite (N Y).
Qed.
Lemma keeps_set_indices E L k l sh : keeps (Firm L k) (b_set_indices E l sh).
Proof.
  intros i n F. destruct (set_indices_runs E L k l sh i n F) as (A & N). destruct (accepted_or L (map (calculate_id_from_index (lat (obj i))) l)) as [Y|Y].
  - rewrite (A Y). now apply keeps_install.
  - now rewrite (N Y).
Qed.
Lemma lget_Forall {A} (P : A -> Prop) l i x : Forall P l -> lget l i = Ok x -> P x.
Proof. intros F H. rewrite Forall_forall in F. apply F. exact (lget_In l i x H). Qed.
Lemma firm_mutate L k s l : Firm L k s -> Forall (is_site L) l -> l <> [] -> zlen l = zlen (ids s) -> Firm L k (mutate_ids l s).
Proof. intros [[] K N] A1 A2 A3. constructor; auto. constructor; auto. apply mutate_aliased. Qed.
Lemma firm_rev L k s r : Firm L k s -> Forall (Z.le 0) r -> zlen r = L * L -> Firm L k (set_rev r s).
Proof. intros [[] K N] A1 A2. constructor; auto. constructor; auto. Qed.
Definition put_id (p x : Z) : B unit := do s <- bget ; do l <- blift (lset (ids s) p x) ; act (mutate_ids l).
Definition put_rev (x p : Z) : B unit := do s <- bget ; do r <- blift (lset (rev_ids s) x p) ; act (set_rev r).
Lemma keeps_put_id L k p x : is_site L x -> keeps (Firm L k) (put_id p x).
Proof.
  intros Hx. apply (keeps_now (Firm L k) (fun s => lset (ids s) p x) mutate_ids). intros s l F H. destruct (lset_Forall (is_site L) (ids s) p x l) as (A & C); auto.
  { apply F. }
  destruct (is_L12 k) eqn:Ek.
  - destruct F as [[] K N]. constructor; auto; [|congruence]. constructor; auto. apply mutate_aliased.
  - apply firm_mutate; auto. apply (lset_nonempty (ids s) p x); auto. now apply (fi_ids _ _ _ F).
Qed.
Lemma keeps_put_rev L k p x : 0 <= p -> keeps (Firm L k) (put_rev x p).
Proof.
  intros Hp. apply (keeps_now (Firm L k) (fun s => lset (rev_ids s) x p) set_rev). intros s r F H. pose proof (fi_sound _ _ _ F) as Q.
  destruct (lset_Forall (Z.le 0) (rev_ids s) x p r) as (A & C); auto; [apply Q|]. apply firm_rev; auto. rewrite C. apply Q.
Qed.
Lemma keeps_swap L k a b : is_site L a -> is_site L b -> keeps (Firm L k) (b_swap a b).
Proof.
  intros Ha Hb. unfold b_swap. destruct (a =? b); [apply keeps_ret|]. intros i n F. unfold bbind at 1, bget. unfold bbind at 1, blift.
  destruct (lget (rev_ids (obj i)) a) as [p|e] eqn:E1; [|exact F]. unfold bbind at 1. destruct (lget (rev_ids (obj i)) b) as [q|e] eqn:E2; [|exact F].
  pose proof (so_rev0 _ _ _ (fi_sound _ _ _ F)) as R0. pose proof (lget_Forall _ _ _ _ R0 E1) as Hp. pose proof (lget_Forall _ _ _ _ R0 E2) as Hq.
  match goal with |- Firm L k (obj (fst (fst (?m i n)))) => change m with (go put_id p b ; go put_id q a ; go put_rev b p ; put_rev a q) end.
  revert i n F E1 E2 R0. intros i n F _ _ _. revert i n F. change (keeps (Firm L k) (go put_id p b ; go put_id q a ; go put_rev b p ; put_rev a q)).
  apply keeps_bind; [now apply keeps_put_id|intros _]. apply keeps_bind; [now apply keeps_put_id|intros _]. apply keeps_bind; [now apply keeps_put_rev|intros _]. now apply keeps_put_rev.
Qed.
Lemma firm_leaves E L k c n i : acall_ok L c -> Firm L k (obj i) -> Firm L k (obj (leaves E c n i)).
Proof.
  intros Hc F. destruct c as [c|l sh|ixs sh|a b|f]; cbn [leaves].
  - apply (firm_of L k (obj i)); auto. apply sound_left. apply F.
  - now apply keeps_set_ids.
  - now apply keeps_set_indices.
  - destruct Hc. now apply keeps_swap.
  - apply (keeps_firm L k (b_test_run E f)); auto. intros s0. apply keeps_test_run.
Qed.
Lemma firm_leaves_all E L k cs : forall i, Forall (fun c => acall_ok L (fst c)) cs -> Firm L k (obj i) -> Firm L k (obj (leaves_all E cs i)).
Proof.
  induction cs as [|c cs IH]; intros i H F; [exact F|]. apply Forall_cons_iff in H as (H1 & H2). cbn [leaves_all fold_left]. apply IH; auto. now apply firm_leaves.
Qed.
Lemma firm_reachable E k L s : env_ok E -> reachable_k E k L s -> Firm L k s.
Proof.
  intros HE HR. destruct (reachable_k_kind E k L s HE HR) as (H & Hk). pose proof (reachable_al E k L s HE HR) as (A & N). constructor; auto. now apply sound_self.
Qed.
