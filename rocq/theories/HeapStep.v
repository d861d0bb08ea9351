(** * HeapStep: placing, detecting and running in the store. *)
From Coq Require Import ZArith List Bool Lia.
From Verif Require Import Py Lattice Cluster Perc PyFacts Spec Geometry Inv Merge Select State Fresh Reach LatFacts History Heap HeapFacts HeapMerge.
Import ListNotations.
Open Scope Z_scope.

(** ** Methods that leave clusters and relative indices alone *)
Section Keep.
Variables (P : cpool) (R : list index).
Definition held (s : perc) : Prop := pool s = P /\ map s_rel (l_sites (lat s)) = R.
Definition keep {A} (m : M A) : Prop := forall s, held s -> held (fst (m s)).
Lemma k_bind {A B} (m : M A) (k : A -> M B) : keep m -> (forall x, keep (k x)) -> keep (mbind m k).
Proof. intros Hm Hk s Hs. unfold mbind. pose proof (Hm s Hs) as H. destruct (m s) as [s1 [x|e]]; cbn [fst] in *; auto. now apply Hk. Qed.
Lemma k_get {A} (k : perc -> M A) : (forall s, held s -> keep (k s)) -> keep (mbind get k).
Proof. intros H s Hs. unfold mbind, get. now apply H. Qed.
Lemma k_lift {A B} (r : res A) (k : A -> M B) : (forall x, r = Ok x -> keep (k x)) -> keep (mbind (lift r) k).
Proof. intros H s Hs. unfold mbind, lift. destruct r; auto. now apply H. Qed.
Lemma k_lift1 {A} (r : res A) : keep (lift r).
Proof. intros s Hs. exact Hs. Qed.
Lemma k_ret {A} (x : A) : keep (ret x).
Proof. intros s Hs. exact Hs. Qed.
Lemma k_mod f : (forall s, held s -> held (f s)) -> keep (modify f).
Proof. intros H s Hs. now apply H. Qed.
Lemma k_lat l : map s_rel (l_sites l) = R -> keep (modify (set_lat l)).
Proof. intros H s (A & _). split; auto. Qed.
Lemma k_randint E a b : keep (randint E a b).
Proof. intros s Hs. unfold randint. destruct (b <? a); cbn; auto. Qed.
Lemma rel_upd l i f l' : (forall s s', f s = Ok s' -> s_rel s' = s_rel s) -> update_site l i f = Ok l' -> map s_rel (l_sites l') = map s_rel (l_sites l).
Proof.
  intros F H. unfold update_site in H. apply rbind_ok in H as (x & Ex & H). apply rbind_ok in H as (y & Ey & H). apply rbind_ok in H as (ss & Es & H). injection H as <-.
  cbn [l_sites with_sites]. destruct (lget_pos _ _ _ Ex) as (k & Ek & Hk). rewrite (lset_pos _ _ k) in Es by auto. injection Es as <-. rewrite map_upd, (F _ _ Ey).
  clear - Hk. revert k Hk. induction (l_sites l) as [|a t IH]; intros [|k] Hk; cbn in *; try discriminate; auto; [now injection Hk as ->|]. now rewrite IH.
Qed.
End Keep.

Lemma rel_red1 s s' : site_reduce_1st_nn s = Ok s' -> s_rel s' = s_rel s.
Proof. unfold site_reduce_1st_nn. intros H. destruct (s_nn1 s <=? 0); [apply rbind_ok in H as (? & _ & H)|]; now injection H as <-. Qed.
Lemma rel_red2 s s' : site_reduce_2st_directional_nn s = Ok s' -> s_rel s' = s_rel s.
Proof. unfold site_reduce_2st_directional_nn. intros H. destruct (s_nn2 s <=? 0); [apply rbind_ok in H as (? & _ & H)|]; now injection H as <-. Qed.

Ltac kstep := match goal with
  | |- keep _ _ (ret _) => apply k_ret
  | |- keep _ _ (lift _) => apply k_lift1
  | |- keep _ _ (modify (set_lat _)) => apply k_lat
  | |- keep _ _ (modify _) => apply k_mod; intros ? [? ?]; split; assumption
  | |- keep _ _ (mbind get _) => apply k_get; intros ? ?
  | |- keep _ _ (mbind (lift _) _) => apply k_lift; intros ? ?
  | |- keep _ _ (mbind _ _) => apply k_bind; [|intros ?]
  | |- keep _ _ (if ?b then _ else _) => destruct b
  | |- keep _ _ (match ?b with _ => _ end) => destruct b
  | |- keep _ _ (let '(_, _) := ?b in _) => destruct b
  | |- keep _ _ (randint _ _ _) => apply k_randint
  end.
Lemma k_select_id P R id : keep P R (select_id id).
Proof. unfold select_id. repeat kstep. Qed.
Lemma k_drop P R r : keep P R (drop_candidate r).
Proof. unfold drop_candidate. repeat kstep. Qed.
Lemma k_shuffle E P R : keep P R (shuffle E).
Proof. unfold shuffle. repeat kstep. Qed.
Lemma k_set_ids E l sh P R : keep P R (set_custome_site_id_list E l sh).
Proof. unfold set_custome_site_id_list. cbv zeta. repeat first [kstep|apply k_shuffle]. Qed.
Lemma k_set_indices E l sh P R : keep P R (set_custome_site_index_list E l sh).
Proof. unfold set_custome_site_index_list. cbv zeta. repeat first [kstep|apply k_shuffle]. Qed.
Lemma k_swap a b P R : keep P R (swap_ids a b).
Proof. unfold swap_ids. repeat kstep. Qed.
Lemma k_record P R : keep P R record_step.
Proof. unfold record_step. cbv zeta. repeat kstep. Qed.
Lemma k_track c P R : keep P R (track_largest_cluster c).
Proof. unfold track_largest_cluster. repeat kstep. Qed.
Lemma k_need {A} (o : option A) P R : keep P R (need o).
Proof. intros s Hs. destruct o; exact Hs. Qed.
Lemma k_select E P R : keep P R (select_site E).
Proof.
  unfold select_site, select_site_L1, select_site_L2, select_site_base. cbv zeta.
  repeat first [apply k_select_id|apply k_drop|kstep].
  all: repeat match goal with Q : update_site _ _ site_reduce_1st_nn = Ok _ |- _ => apply (rel_upd _ _ _ _ rel_red1) in Q | Q : update_site _ _ site_reduce_2st_directional_nn = Ok _ |- _ => apply (rel_upd _ _ _ _ rel_red2) in Q | Q : held _ _ _ |- _ => destruct Q end; congruence.
Qed.
Lemma keep_quiet {A} (m : M A) s : (forall P R, keep P R m) -> quiet_to s (fst (m s)).
Proof. intros H. exact (H (pool s) _ s (conj eq_refl eq_refl)). Qed.

(** ** What a call without [reset] may do to kept objects *)
Definition current (h : heap) (r : nat) : Prop := exists a, In a (h_cl h) /\ (r = o_sites (obj_at h a) \/ r = o_bonds (obj_at h a)).
Record G (h h' : heap) : Prop := mkG {
  g_cl : h_cl h' = h_cl h;
  g_clu : length (h_clu h') = length (h_clu h);
  g_len : (length (h_lists h) <= length (h_lists h'))%nat;
  g_idx : exists l, h_idx h' = h_idx h ++ l;
  g_dead : forall b, ~ In b (h_cl h) -> obj_at h' b = obj_at h b;
  g_obj : forall b, In b (h_cl h) -> obj_at h' b = obj_at h b \/
    (o_gid (obj_at h' b) = -1 /\ (length (h_lists h) <= o_sites (obj_at h' b))%nat /\ (length (h_lists h) <= o_bonds (obj_at h' b))%nat);
  g_free : forall r, (r < length (h_lists h))%nat -> ~ current h r -> contents h' r = contents h r;
  g_ext : forall r, (r < length (h_lists h))%nat -> exists l, contents h' r = contents h r ++ l
}.
Lemma T_G a h h' : In a (h_cl h) -> T a h h' -> G h h'.
Proof.
  intros Ha Q. constructor; try apply Q. intros r Hr N. apply (t_list _ _ _ Q); auto; intros E; apply N; exists a; auto.
Qed.
Lemma G_refl h : G h h.
Proof. constructor; auto; [exists []; now rewrite app_nil_r|intros; exists []; now rewrite app_nil_r]. Qed.
Lemma G_put s h : G h (put_obj s h).
Proof. constructor; auto; [exists []; now rewrite app_nil_r|intros; exists []; now rewrite app_nil_r]. Qed.
Lemma G_current h h' r : G h h' -> (r < length (h_lists h))%nat -> current h' r -> current h r.
Proof.
  intros Q Hr (a & Ha & E). rewrite (g_cl _ _ Q) in Ha. exists a. split; auto. destruct (g_obj _ _ Q a Ha) as [O|(_ & O1 & O2)]; [now rewrite O in E|]. lia.
Qed.
Lemma G_trans h1 h2 h3 : G h1 h2 -> G h2 h3 -> G h1 h3.
Proof.
  intros A B. pose proof (g_len _ _ A). pose proof (g_len _ _ B). constructor.
  - now rewrite (g_cl _ _ B), (g_cl _ _ A).
  - now rewrite (g_clu _ _ B), (g_clu _ _ A).
  - lia.
  - destruct (g_idx _ _ A) as (l & El). destruct (g_idx _ _ B) as (m & Em). exists (l ++ m). now rewrite Em, El, app_assoc.
  - intros b Hb. rewrite (g_dead _ _ B), (g_dead _ _ A); auto. now rewrite (g_cl _ _ A).
  - intros b Hb. assert (Hb2 : In b (h_cl h2)) by now rewrite (g_cl _ _ A).
    destruct (g_obj _ _ B b Hb2) as [E|(Q0 & P & Q)]; [rewrite E; exact (g_obj _ _ A b Hb)|]. right. split; [exact Q0|]. split; lia.
  - intros r Hr N. rewrite (g_free _ _ B); [now apply (g_free _ _ A)|lia|]. intros C. apply N. eapply G_current; eauto.
  - intros r Hr. destruct (g_ext _ _ A r Hr) as (l & El). destruct (g_ext _ _ B r) as (m & Em); [lia|]. exists (l ++ m). now rewrite Em, El, app_assoc.
Qed.

(** ** Exact refinement *)
Definition sim {A} (hm : HM A) (m : M A) (h : heap) : Prop :=
  m (load h) = (load (fst (hm h)), snd (hm h)) /\ wf (fst (hm h)) /\ G h (fst (hm h)).
Lemma sim_bind {A B} (hm : HM A) (m : M A) (hk : A -> HM B) (k : A -> M B) h : sim hm m h ->
  (forall h1 x, hm h = (h1, Ok x) -> wf h1 -> G h h1 -> sim (hk x) (k x) h1) -> sim (hbind hm hk) (mbind m k) h.
Proof.
  intros (E & W & Q) K. unfold sim, hbind, mbind. rewrite E. destruct (hm h) as [h1 [x|e]] eqn:Eh; cbn [fst snd] in *; [|auto].
  destruct (K h1 x eq_refl W Q) as (E2 & W2 & Q2). split; auto. split; auto. eapply G_trans; eauto.
Qed.
Lemma sim_lift {A} (m : M A) h : wf h -> quiet_to (load h) (fst (m (load h))) -> sim (hlift m) m h.
Proof.
  intros W Q. destruct (m (load h)) as [s1 r] eqn:E. destruct (load_put s1 h W Q) as (L & W' & _). unfold sim, hlift. rewrite E. cbn [fst snd]. rewrite L. split; auto. split; auto. apply G_put.
Qed.
Lemma sim_keep {A} (m : M A) h : wf h -> (forall P R, keep P R m) -> sim (hlift m) m h.
Proof. intros W K. apply sim_lift; auto. now apply keep_quiet. Qed.
Lemma sim_ret {A} (x : A) h : wf h -> sim (hret x) (ret x) h.
Proof. intros W. split; [reflexivity|]. split; auto. apply G_refl. Qed.
Lemma sim_res {A} (r : res A) h : wf h -> sim (hres r) (lift r) h.
Proof. intros W. split; [reflexivity|]. split; auto. apply G_refl. Qed.
Lemma sim_mod f h : wf h -> quiet_to (load h) (f (load h)) -> sim (hlift (modify f)) (modify f) h.
Proof. intros W Q. now apply sim_lift. Qed.
(** [hlift get] leaves an equivalent store. *)
Lemma sim_get {B} (hk : perc -> HM B) (k : perc -> M B) h : wf h ->
  (forall h1, load h1 = load h -> wf h1 -> G h h1 -> sim (hk (load h)) (k (load h)) h1) -> sim (hbind (hlift get) hk) (mbind get k) h.
Proof.
  intros W K. apply sim_bind; [apply sim_lift; [exact W|apply quiet_refl]|]. intros h1 x E W1 Q. unfold hlift, get in E. injection E as E1 E2. subst h1 x.
  apply K; auto. now destruct (load_put (load h) h W (quiet_refl _)).
Qed.
