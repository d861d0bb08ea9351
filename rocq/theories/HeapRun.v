(** * HeapRun: detecting and running in the store. *)
From Coq Require Import ZArith List Bool Lia.
From Verif Require Import Py Lattice Cluster Perc PyFacts Spec Geometry Inv Merge Select State Fresh Step Reach LatFacts History Heap HeapFacts HeapMerge HeapStep HeapPlace.
Import ListNotations.
Open Scope Z_scope.

Lemma sim_need {A B} (o : option A) (hk : A -> HM B) (k : A -> M B) h : wf h ->
  (forall h1 x, load h1 = load h -> wf h1 -> sim (hk x) (k x) h1) -> sim (hbind (hlift (need o)) hk) (mbind (need o) k) h.
Proof.
  intros W K. apply sim_bind; [apply sim_keep; auto; intros; apply k_need|]. intros h1 x E W1 Q. apply K; auto.
  destruct o as [y|]; cbn in E; unfold hlift in E; cbn in E; [|discriminate]. injection E as E1 _. subst h1. now destruct (load_put (load h) h W (quiet_refl _)).
Qed.
Lemma sim_bres {A B} (r : res A) (hk : A -> HM B) (k : A -> M B) h : wf h -> (forall x, r = Ok x -> sim (hk x) (k x) h) -> sim (hbind (hres r) hk) (mbind (lift r) k) h.
Proof. intros W K. destruct r as [x|e]; [exact (K x eq_refl)|]. split; [reflexivity|]. split; [exact W|apply G_refl]. Qed.
Lemma sim_bmod {B} f (hk : unit -> HM B) (k : unit -> M B) h : wf h -> (forall s, quiet_to s (f s)) ->
  (forall h1, load h1 = f (load h) -> wf h1 -> sim (hk tt) (k tt) h1) -> sim (hbind (hlift (modify f)) hk) (mbind (modify f) k) h.
Proof.
  intros W Q K. apply sim_bind; [apply sim_mod; auto|]. intros h1 [] E W1 _. apply K; auto. unfold hlift, modify in E. injection E as <-. now destruct (load_put (f (load h)) h W (Q _)).
Qed.
Lemma rel_err h id e : wf h -> lget (l_sites (lat (load h))) id = Err e -> rel_addr h id = Err e.
Proof.
  intros W E. unfold rel_addr, lget in *. assert (zlen (h_rel h) = zlen (l_sites (lat (load h)))) as Z by (unfold zlen; now rewrite (len_load h W)).
  rewrite Z. destruct (py_pos (zlen (l_sites (lat (load h)))) id) as [k|]; [|congruence].
  destruct (nth_error (l_sites (lat (load h))) k) eqn:En; [discriminate|]. apply nth_error_None in En. rewrite (len_load h W) in En. apply nth_error_None in En. rewrite En. congruence.
Qed.
Lemma wrap_scan_eq h c nbs : wf h -> i_cls c = CRel -> h_wrap_scan h c nbs = wrap_scan (lat (load h)) (as_list c) nbs.
Proof.
  intros W C. induction nbs as [|x nbs IH]; [reflexivity|]. cbn [h_wrap_scan wrap_scan]. unfold get_site_by_id.
  destruct (lget (l_sites (lat (load h))) x) as [t|e] eqn:E.
  - destruct (rel_get h x t W E) as (r & Er & Vr & Hr). rewrite Er. cbn [rbind]. pose proof (w_rc _ W r Hr) as Cr. unfold x_coord, y_coord. rewrite C, Cr. cbn [rbind].
    rewrite <- Vr, IH. reflexivity.
  - now rewrite (rel_err h x e W E).
Qed.
Lemma sim_hget {B} (hk : heap -> HM B) (m : M B) h : sim (hk h) m h -> sim (hbind hget hk) m h.
Proof. intros H. exact H. Qed.
Ltac qmod := split; reflexivity.
Lemma detect_sim h : wf h -> sim h_detect_wrapping detect_wrapping h.
Proof.
  intros W. unfold h_detect_wrapping, detect_wrapping. apply sim_get; auto. intros h1 L1 W1 _. destruct (after_wrap (load h)); [now apply sim_ret|].
  apply sim_need; auto. intros h2 sl L2 W2. apply sim_bres; auto. intros nbs Hn. apply sim_need; auto. intros h3 cur L3 W3.
  enough (Z : forall (hk : bool -> HM bool) (k : bool -> M bool), (forall b, sim (hk b) (k b) h3) ->
     sim (hdo h0 <~ hget ; hdo r <~ hres (rel_addr h0 cur) ; hdo hit <~ hres (h_wrap_scan h0 (idx_at h0 r) nbs) ; hk hit)
         (do cs <~ lift (get_site_by_id (lat (load h)) cur) ; do hit <~ lift (wrap_scan (lat (load h)) (s_rel cs) nbs) ; k hit) h3).
  { apply Z. intros [|]; [|now apply sim_ret]. apply sim_bres; auto. intros ss Hss. cbv zeta.
    apply sim_bmod; auto; [intros s0; qmod|]. intros h4 L4 W4. apply sim_bres; auto. intros nb Hnb.
    apply sim_bmod; auto; [intros s0; qmod|]. intros h5 L5 W5. apply sim_bres; auto. intros ns Hns.
    apply sim_bmod; auto; [intros s0; qmod|]. intros h6 L6 W6. now apply sim_ret. }
  intros hk k K. assert (Ls : load h = load h3) by congruence. rewrite Ls. unfold get_site_by_id.
  destruct (lget (l_sites (lat (load h3))) cur) as [t|e] eqn:E.
  - destruct (rel_get h3 cur t W3 E) as (r & Er & Vr & Hr). pose proof (w_rc _ W3 r Hr) as Cr.
    apply sim_hget. rewrite Er. change (sim (hdo hit <~ hres (h_wrap_scan h3 (idx_at h3 r) nbs) ; hk hit) (do hit <~ lift (wrap_scan (lat (load h3)) (s_rel t) nbs) ; k hit) h3).
    rewrite (wrap_scan_eq h3 _ nbs W3 Cr), Vr. apply sim_bres; auto.
  - unfold sim, hbind, hget, hres, mbind, lift. rewrite (rel_err h3 cur e W3 E). cbn [fst snd]. split; [reflexivity|]. split; [exact W3|apply G_refl].
Qed.

(** ** Running *)
Section Run.
Variables (E : env) (L : Z).
Hypothesis HE : env_ok E.
Lemma sim_place {B} (hk : bool -> HM B) (k : bool -> M B) h : wf h -> Inv L (load h) -> (forall h1 b, wf h1 -> Inv L (load h1) -> sim (hk b) (k b) h1) ->
  sim (hbind (h_place_one_site E) hk) (mbind (place_one_site E) k) h.
Proof.
  intros W H K. destruct (place_sim E L h HE W H) as (Z & _). apply sim_bind; [exact Z|]. intros h1 b E1 W1 _. apply K; auto.
  destruct Z as (Ez & _). rewrite E1 in Ez. cbn [fst] in Ez. pose proof (place_inv E L (load h) HE H) as I. rewrite Ez in I. exact I.
Qed.
Lemma sim_detect {B} (hk : bool -> HM B) (k : bool -> M B) h : wf h -> Inv L (load h) -> (forall h1 b, wf h1 -> Inv L (load h1) -> sim (hk b) (k b) h1) ->
  sim (hbind h_detect_wrapping hk) (mbind detect_wrapping k) h.
Proof.
  intros W H K. pose proof (detect_sim h W) as Z. apply sim_bind; [exact Z|]. intros h1 b E1 W1 _. apply K; auto.
  destruct Z as (Ez & _). rewrite E1 in Ez. cbn [fst] in Ez. pose proof (detect_inv L (load h) H) as I. rewrite Ez in I. exact I.
Qed.
Lemma record_inv s : Inv L s -> Inv L (fst (record_step s)).
Proof. apply record_step_pres. intros s0 p h pw pl H. eapply inv_frame; [|exact H]; reflexivity. Qed.
Lemma sim_record {B} (hk : unit -> HM B) (k : unit -> M B) h : wf h -> Inv L (load h) -> (forall h1, wf h1 -> Inv L (load h1) -> sim (hk tt) (k tt) h1) ->
  sim (hbind (hlift record_step) hk) (mbind record_step k) h.
Proof.
  intros W H K. assert (Z : sim (hlift record_step) record_step h) by (apply sim_keep; auto; intros; apply k_record). apply sim_bind; [exact Z|]. intros h1 [] E1 W1 _. apply K; auto.
  destruct Z as (Ez & _). rewrite E1 in Ez. cbn [fst] in Ez. pose proof (record_inv (load h) H) as I. rewrite Ez in I. exact I.
Qed.
Lemma sim_raise {A} e h : wf h -> sim (A := A) (hraise e) (raise e) h.
Proof. intros W. split; [reflexivity|]. split; [exact W|apply G_refl]. Qed.
Lemma sim_assoc {A B C} (hm : HM A) (hk : A -> HM B) (hj : B -> HM C) (m : M A) (k : A -> M B) (j : B -> M C) h :
  sim (hbind hm (fun x => hbind (hk x) hj)) (mbind m (fun x => mbind (k x) j)) h -> sim (hbind (hbind hm hk) hj) (mbind (mbind m k) j) h.
Proof.
  unfold sim. replace (hbind (hbind hm hk) hj h) with (hbind hm (fun x => hbind (hk x) hj) h). 2: { unfold hbind. destruct (hm h) as [? []]; auto. }
  replace (mbind (mbind m k) j (load h)) with (mbind m (fun x => mbind (k x) j) (load h)). 2: { unfold mbind. destruct (m (load h)) as [? []]; auto. } auto.
Qed.
Lemma run_loop_sim f : forall h, wf h -> Inv L (load h) -> sim (h_run_loop E f) (run_loop E f) h.
Proof.
  induction f as [|f IH]; intros h W H; cbn [h_run_loop run_loop]; [now apply sim_raise|]. apply sim_place; auto. intros h1 [|] W1 H1; [|now apply sim_ret].
  apply sim_get; auto. intros h2 L2 W2 _. rewrite <- L2 in H1. destruct (flag_is_success (load h1)).
  - apply sim_assoc. apply sim_detect; auto. intros h3 b W3 H3. apply sim_record; auto.
  - apply sim_bind; [now apply sim_ret|]. intros h3 [] E3 W3 _. injection E3 as <-. auto.
Qed.
Lemma test_run_loop_sim f : forall h, wf h -> Inv L (load h) -> sim (h_test_run_loop E f) (test_run_loop E f) h.
Proof.
  induction f as [|f IH]; intros h W H; cbn [h_test_run_loop test_run_loop]; [now apply sim_raise|]. apply sim_place; auto. intros h1 [|] W1 H1; [|now apply sim_ret].
  apply sim_get; auto. intros h2 L2 W2 _. rewrite <- L2 in H1. destruct (flag_is_success (load h1)); [|auto].
  apply sim_detect; auto. intros h3 [|] W3 H3.
  - apply sim_get; auto. intros h4 L4 W4 _. apply sim_need; auto. intros h5 n L5 W5. now apply sim_res.
  - apply sim_record; auto.
Qed.
Lemma sp_loop_sim f : forall h, wf h -> Inv L (load h) -> sim (h_sp_loop E f) (sp_loop E f) h.
Proof.
  induction f as [|f IH]; intros h W H; cbn [h_sp_loop sp_loop]; [now apply sim_raise|]. apply sim_place; auto. intros h1 [|] W1 H1; [|now apply sim_ret].
  apply sim_get; auto. intros h2 L2 W2 _. rewrite <- L2 in H1. destruct (flag_is_success (load h1)); [|auto].
  apply sim_detect; auto. intros h3 [|] W3 H3; [|auto]. apply sim_get; auto. intros h4 L4 W4 _. apply sim_need; auto. intros h5 c L5 W5.
  apply sim_bres; auto. intros cs Hcs. apply sim_bres; auto. intros [cf rf] Hfl. cbn [fst snd]. destruct (cf || rf).
  - apply sim_bres; auto. intros p Hp. apply sim_mod; auto. qmod.
  - apply IH; auto. congruence.
Qed.
Lemma run_once_sim f h : wf h -> Inv L (load h) -> sim (h_run_once E f) (run_once E f) h.
Proof.
  intros W H. unfold h_run_once, run_once. apply sim_get; auto. intros h1 L1 W1 _. rewrite <- L1 in H.
  destruct (kind (load h)); unfold run_once_base, sp_run_once; (apply sim_bind; [first [now apply run_loop_sim|now apply sp_loop_sim]|]; intros h2 x E2 W2 _; apply sim_mod; [auto|qmod]).
Qed.
Lemma test_run_once_sim f h : wf h -> Inv L (load h) -> sim (h_test_run_once E f) (test_run_once E f) h.
Proof. intros W H. apply sim_bind; [now apply test_run_loop_sim|]. intros h2 x E2 W2 _. apply sim_mod; [auto|qmod]. Qed.
End Run.
