(** * HeapProps: what a caller who keeps cluster, list and index objects sees. *)
From Coq Require Import ZArith List Bool Lia.
From Verif Require Import Py Lattice Cluster Perc PyFacts Spec Torus Geometry Inv Merge Select State Fresh Step Reach LatFacts History Heap HeapSpec HeapFacts HeapMerge HeapStep HeapPlace HeapRun HeapReset.
Import ListNotations.
Open Scope Z_scope.

Lemma exec_step E L h c : env_ok E -> call_ok L c -> wf h -> Inv L (load h) ->
  load (hexec E h c) = exec E (load h) c /\ wf (hexec E h c) /\ (c <> CReset -> G h (hexec E h c)) /\ (c = CReset -> renewed h (hexec E h c)).
Proof.
  intros HE Hc W H.
  assert (K : forall A (hm : HM A) (m : M A), sim hm m h -> load (fst (hm h)) = fst (m (load h)) /\ wf (fst (hm h)) /\ G h (fst (hm h))).
  { intros A hm m (Q1 & Q2 & Q3). rewrite Q1. auto. }
  destruct c; cbn [hexec exec].
  - destruct (K _ _ _ (proj1 (place_sim E L h HE W H))) as (A & B & C). (split; [exact A|split; [exact B|split; [intros _; exact C|discriminate]]]).
  - destruct (K _ _ _ (detect_sim h W)) as (A & B & C). (split; [exact A|split; [exact B|split; [intros _; exact C|discriminate]]]).
  - destruct (reset_step E L h W H) as (h' & R & Lr & Wr & Rn). rewrite R, Lr. cbn [fst]. split; [reflexivity|split; [exact Wr|split; [intros Q; now destruct Q|intros _; exact Rn]]].
  - destruct (K _ _ _ (sim_keep _ h W (k_set_ids E l sh))) as (A & B & C). (split; [exact A|split; [exact B|split; [intros _; exact C|discriminate]]]).
  - destruct (K _ _ _ (sim_keep _ h W (k_set_indices E l sh))) as (A & B & C). (split; [exact A|split; [exact B|split; [intros _; exact C|discriminate]]]).
  - destruct (K _ _ _ (sim_keep _ h W (k_swap a b))) as (A & B & C). (split; [exact A|split; [exact B|split; [intros _; exact C|discriminate]]]).
  - destruct (K _ _ _ (run_once_sim E L HE fuel h W H)) as (A & B & C). (split; [exact A|split; [exact B|split; [intros _; exact C|discriminate]]]).
  - destruct (K _ _ _ (test_run_once_sim E L HE fuel h W H)) as (A & B & C). (split; [exact A|split; [exact B|split; [intros _; exact C|discriminate]]]).
Qed.

Lemma new_back E k L t0 h0 : h_new E k L t0 = Ok h0 -> exists s0, new_perc E k L t0 = Ok s0 /\ load h0 = s0 /\ wf h0 /\ Inv L s0.
Proof.
  intros H. assert (HL : 0 < L).
  { destruct (Z.lt_trichotomy L 0) as [Q|[->|Q]]; auto; exfalso.
    - unfold h_new, new_lattice in H. destruct (Z.ltb_spec L 0); [discriminate|lia].
    - unfold h_new in H. assert (Hn : new_lattice 0 = Ok (mkLattice 0 0 0 [] [])) by (vm_compute; reflexivity). rewrite Hn in H. vm_compute in H. discriminate. }
  destruct (new_perc_ok E k L t0 HL) as (lat1 & l & t & rv & En & _). destruct (new_step E k L t0 _ En) as (h1 & R & Ld & W).
  assert (h1 = h0) by congruence. subst h1. eexists. split; [exact En|]. split; [exact Ld|]. split; [exact W|]. eapply fresh_inv, new_perc_fresh, En.
Qed.
Lemma hafter_app E h a b : hafter E h (a ++ b) = hafter E (hafter E h a) b.
Proof. apply fold_left_app. Qed.

Lemma hafter_reset E h cs : hafter E h (CReset :: cs) = hafter E (hexec E h CReset) cs.
Proof. reflexivity. Qed.
Lemma hexec_place E h : hexec E h CPlace = fst (h_place_one_site E h).
Proof. reflexivity. Qed.

Section Life.
Variables (E : env) (L : Z).
Hypothesis HE : env_ok E.
Lemma after_step cs : forall h, Forall (call_ok L) cs -> wf h -> Inv L (load h) ->
  load (hafter E h cs) = after E (load h) cs /\ wf (hafter E h cs) /\ Inv L (load (hafter E h cs)) /\ (no_reset cs -> G h (hafter E h cs)).
Proof.
  induction cs as [|c cs IH]; intros h Hc W H; [split; [reflexivity|split; [exact W|split; [exact H|intros _; apply G_refl]]]|].
  apply Forall_cons_iff in Hc as (H1 & H2). destruct (exec_step E L h c HE H1 W H) as (A & B & C & _).
  assert (I : Inv L (load (hexec E h c))) by (rewrite A; now apply exec_inv). destruct (IH (hexec E h c) H2 B I) as (A' & B' & I' & C'). cbn [hafter after fold_left] in *.
  unfold hafter, after in *. cbn [fold_left]. rewrite <- A. split; [exact A'|]. split; [exact B'|]. split; [exact I'|]. intros N. apply Forall_cons_iff in N as (N1 & N2). eapply G_trans; [apply C, N1|apply C', N2].
Qed.

(** Frozen lists and objects. *)
Definition free (h : heap) (r : nat) : Prop := (r < length (h_lists h))%nat /\ ~ current h r.
Definition gone (h : heap) (a : nat) : Prop := (a < length (h_clu h))%nat /\ ~ In a (h_cl h) /\ free h (o_sites (obj_at h a)) /\ free h (o_bonds (obj_at h a)).
Lemma free_G h h' r : G h h' -> free h r -> free h' r /\ contents h' r = contents h r.
Proof. intros Q (A & B). split; [|now apply (g_free _ _ Q)]. split; [pose proof (g_len _ _ Q); lia|]. intros C. apply B. eapply G_current; eauto. Qed.
Lemma free_R h h' r : renewed h h' -> (r < length (h_lists h))%nat -> free h' r /\ contents h' r = contents h r.
Proof.
  intros Q A. destruct (n_lists _ _ Q) as (l & El). split; [|now apply (con_app h h' l)]. split; [rewrite El, app_length; lia|].
  intros (a & Ha & D). destruct (n_cl _ _ Q a Ha) as (_ & B & C). lia.
Qed.
Lemma gone_G h h' a : G h h' -> gone h a -> gone h' a /\ shown h' a = shown h a.
Proof.
  intros Q (A & B & C & D). destruct (free_G _ _ _ Q C) as (C1 & C2). destruct (free_G _ _ _ Q D) as (D1 & D2).
  unfold gone, shown. rewrite (g_dead _ _ Q a B), (g_clu _ _ Q), (g_cl _ _ Q), C2, D2. auto.
Qed.
Lemma gone_R h h' a : renewed h h' -> (a < length (h_clu h))%nat -> (o_sites (obj_at h a) < length (h_lists h))%nat -> (o_bonds (obj_at h a) < length (h_lists h))%nat -> gone h' a /\ shown h' a = shown h a.
Proof.
  intros Q A S B. destruct (n_clu _ _ Q) as (os & Eo). pose proof (obj_app h h' os a Eo A) as O. destruct (free_R _ _ _ Q S) as (S1 & S2). destruct (free_R _ _ _ Q B) as (B1 & B2).
  unfold gone, shown. rewrite O, S2, B2. split; [|reflexivity]. split; [rewrite Eo, app_length; lia|]. split; [intros Ha; destruct (n_cl _ _ Q a Ha) as (X & _); lia|auto].
Qed.
Lemma life_free cs : forall h r, Forall (call_ok L) cs -> wf h -> Inv L (load h) -> free h r -> free (hafter E h cs) r /\ contents (hafter E h cs) r = contents h r.
Proof.
  induction cs as [|c cs IH]; intros h r Hc W H F; [auto|]. apply Forall_cons_iff in Hc as (H1 & H2). destruct (exec_step E L h c HE H1 W H) as (A & B & C & D).
  assert (I : Inv L (load (hexec E h c))) by (rewrite A; now apply exec_inv).
  assert (Z : free (hexec E h c) r /\ contents (hexec E h c) r = contents h r).
  { assert (Dc : c = CReset \/ c <> CReset) by (destruct c; auto; right; discriminate). destruct Dc as [Dc|Dc]; [apply free_R; [auto|apply F]|apply free_G; auto]. }
  destruct Z as (Z1 & Z2). destruct (IH _ r H2 B I Z1) as (Y1 & Y2). unfold hafter in *. cbn [fold_left]. split; [exact Y1|congruence].
Qed.
Lemma life_gone cs : forall h a, Forall (call_ok L) cs -> wf h -> Inv L (load h) -> gone h a -> gone (hafter E h cs) a /\ shown (hafter E h cs) a = shown h a.
Proof.
  induction cs as [|c cs IH]; intros h a Hc W H F; [auto|]. apply Forall_cons_iff in Hc as (H1 & H2). destruct (exec_step E L h c HE H1 W H) as (A & B & C & D).
  assert (I : Inv L (load (hexec E h c))) by (rewrite A; now apply exec_inv).
  assert (Z : gone (hexec E h c) a /\ shown (hexec E h c) a = shown h a).
  { assert (Dc : c = CReset \/ c <> CReset) by (destruct c; auto; right; discriminate). destruct Dc as [Dc|Dc]; [apply gone_R; [auto|apply F|apply F|apply F]|apply gone_G; auto]. }
  destruct Z as (Z1 & Z2). destruct (IH _ a H2 B I Z1) as (Y1 & Y2). unfold hafter in *. cbn [fold_left]. split; [exact Y1|congruence].
Qed.
Lemma life_idx cs : forall h, Forall (call_ok L) cs -> wf h -> Inv L (load h) -> exists l, h_idx (hafter E h cs) = h_idx h ++ l.
Proof.
  induction cs as [|c cs IH]; intros h Hc W H; [exists []; now rewrite app_nil_r|]. apply Forall_cons_iff in Hc as (H1 & H2). destruct (exec_step E L h c HE H1 W H) as (A & B & C & D).
  assert (I : Inv L (load (hexec E h c))) by (rewrite A; now apply exec_inv).
  assert (Z : exists l, h_idx (hexec E h c) = h_idx h ++ l).
  { assert (Dc : c = CReset \/ c <> CReset) by (destruct c; auto; right; discriminate). destruct Dc as [Dc|Dc]; [apply (n_idx _ _ (D Dc))|apply (g_idx _ _ (C Dc))]. }
  destruct Z as (l1 & Z1). destruct (IH _ H2 B I) as (l2 & Z2). unfold hafter in *. cbn [fold_left]. exists (l1 ++ l2). now rewrite Z2, Z1, app_assoc.
Qed.
Lemma life_ext cs : forall h r, Forall (call_ok L) cs -> wf h -> Inv L (load h) -> (r < length (h_lists h))%nat -> (r < length (h_lists (hafter E h cs)))%nat /\ exists l, contents (hafter E h cs) r = contents h r ++ l.
Proof.
  induction cs as [|c cs IH]; intros h r Hc W H F; [split; [exact F|exists []; now rewrite app_nil_r]|]. apply Forall_cons_iff in Hc as (H1 & H2). destruct (exec_step E L h c HE H1 W H) as (A & B & C & D).
  assert (I : Inv L (load (hexec E h c))) by (rewrite A; now apply exec_inv).
  assert (Z : (r < length (h_lists (hexec E h c)))%nat /\ exists l, contents (hexec E h c) r = contents h r ++ l).
  { assert (Dc : c = CReset \/ c <> CReset) by (destruct c; auto; right; discriminate). destruct Dc as [Dc|Dc].
    - destruct (n_lists _ _ (D Dc)) as (l & El). split; [rewrite El, app_length; lia|]. exists []. rewrite app_nil_r. now apply (con_app _ _ l).
    - split; [pose proof (g_len _ _ (C Dc)); lia|]. apply (g_ext _ _ (C Dc) r F). }
  destruct Z as (Z1 & l1 & Z2). destruct (IH _ r H2 B I Z1) as (Y1 & l2 & Y2). unfold hafter in *. cbn [fold_left]. split; [exact Y1|]. exists (l1 ++ l2). now rewrite Y2, Z2, app_assoc.
Qed.
End Life.

Lemma cluster_get h g a : is_cluster h g a -> lget (h_cl h) g = Ok a /\ In a (h_cl h) /\ 0 <= g < zlen (h_cl h).
Proof.
  intros (G0 & H). unfold get_cluster in H. destruct (Z.leb_spec (zlen (h_cl h)) g); [discriminate|]. apply rbind_ok in H as (x & Hx & H). injection H as ->.
  split; auto. split; [|lia]. destruct (lget_pos _ _ _ Hx) as (k & _ & Hk). eapply nth_error_In; eauto.
Qed.
Lemma get_is_cluster h g a : lget (h_cl h) g = Ok a -> 0 <= g < zlen (h_cl h) -> is_cluster h g a.
Proof. intros H B. split; [lia|]. unfold get_cluster. replace (zlen (h_cl h) <=? g) with false by lia. rewrite H. reflexivity. Qed.
Lemma cluster_in h a : In a (h_cl h) -> exists g, is_cluster h g a.
Proof.
  intros H. destruct (In_nth_error _ _ H) as (k & Hk). exists (Z.of_nat k). assert (B : (k < length (h_cl h))%nat) by (apply nth_error_Some; congruence).
  apply get_is_cluster; [|unfold zlen; lia]. unfold lget, py_pos, zlen. replace ((0 <=? Z.of_nat k) && (Z.of_nat k <? Z.of_nat (length (h_cl h)))) with true by lia. now rewrite Nat2Z.id, Hk.
Qed.
Lemma cluster_fun h g g' a : wf h -> is_cluster h g a -> is_cluster h g' a -> g' = g.
Proof.
  intros W A B. destruct (cluster_get _ _ _ A) as (A1 & _ & A3). destruct (cluster_get _ _ _ B) as (B1 & _ & B3).
  unfold lget, py_pos in A1, B1. replace ((0 <=? g) && (g <? zlen (h_cl h))) with true in A1 by lia. replace ((0 <=? g') && (g' <? zlen (h_cl h))) with true in B1 by lia.
  destruct (nth_error (h_cl h) (Z.to_nat g)) eqn:E1; [|discriminate]. destruct (nth_error (h_cl h) (Z.to_nat g')) eqn:E2; [|discriminate].
  assert (Z.to_nat g = Z.to_nat g'). { apply (NoDup_nth_error (h_cl h)); [apply (w_nd _ W)|apply nth_error_Some; congruence|congruence]. } lia.
Qed.
Lemma cluster_lists h g a : is_cluster h g a -> contents h (sites_list h a) = cluster_sites (load h) g /\ contents h (bonds_list h a) = cluster_bonds (load h) g.
Proof.
  intros H. destruct (cluster_get _ _ _ H) as (H1 & _ & _). unfold cluster_sites, cluster_bonds, pool_get_sites, pool_get_bonds. rewrite pool_get, H1. auto.
Qed.

Section Statements.
Variables (E : env) (k : pkind) (L : Z) (t0 : nat).
Hypothesis HE : env_ok E.
Lemma life_ok cs h : life E k L t0 cs h -> wf h /\ Inv L (load h) /\ exists s0, new_perc E k L t0 = Ok s0 /\ load h = after E s0 cs.
Proof.
  intros (h0 & H0 & Hc & ->). destruct (new_back _ _ _ _ _ H0) as (s0 & En & Ld & W & I). rewrite <- Ld in I. destruct (after_step E L HE cs h0 Hc W I) as (A & B & C & _).
  split; auto. split; auto. exists s0. rewrite A, Ld. auto.
Qed.
Lemma s_same cs h : life E k L t0 cs h -> exists s0, new_perc E k L t0 = Ok s0 /\ load h = after E s0 cs /\
  (forall h' r, h_place_one_site E h = (h', r) -> place_one_site E (load h) = (load h', r)) /\
  (forall h' r, h_detect_wrapping h = (h', r) -> detect_wrapping (load h) = (load h', r)) /\
  (forall h' r, h_reset E h = (h', r) -> reset E (load h) = (load h', r)) /\
  (forall n h' r, h_run_once E n h = (h', r) -> run_once E n (load h) = (load h', r)) /\
  (forall n h' r, h_test_run_once E n h = (h', r) -> test_run_once E n (load h) = (load h', r)).
Proof.
  intros Hl. destruct (life_ok _ _ Hl) as (W & I & s0 & En & Ea). exists s0. split; auto. split; auto.
  assert (K : forall A (hm : HM A) (m : M A), sim hm m h -> forall h' r, hm h = (h', r) -> m (load h) = (load h', r)).
  { intros A hm m (Q & _) h' r Eh. rewrite Eh in Q. exact Q. }
  split; [apply K, (place_sim E L); auto|]. split; [apply K, detect_sim; auto|]. split.
  - intros h' r Er. destruct (reset_step E L h W I) as (h1 & R1 & R2 & _). rewrite R1 in Er. injection Er as <- <-. exact R2.
  - split; intros n; apply K; [apply (run_once_sim E L)|apply (test_run_once_sim E L)]; auto.
Qed.
Lemma s_exists s0 : new_perc E k L t0 = Ok s0 -> exists h0, life E k L t0 [] h0 /\ load h0 = s0.
Proof. intros H. destruct (new_step _ _ _ _ _ H) as (h0 & A & B & _). exists h0. split; auto. exists h0. auto. Qed.

Lemma s_cluster cs h g a : life E k L t0 cs h -> is_cluster h g a ->
  (forall cs', Forall (call_ok L) cs' -> no_reset cs' -> let h' := hafter E h cs' in
     is_cluster h' g a /\ contents h' (sites_list h' a) = cluster_sites (load h') g /\ contents h' (bonds_list h' a) = cluster_bonds (load h') g) /\
  (forall cs', Forall (call_ok L) cs' -> let h' := hafter E h (CReset :: cs') in (forall g', ~ is_cluster h' g' a) /\ shown h' a = shown h a).
Proof.
  intros Hl Hg. destruct (life_ok _ _ Hl) as (W & I & _). destruct (cluster_get _ _ _ Hg) as (G1 & G2 & G3). split.
  - intros cs' Hc Hn h'. destruct (after_step E L HE cs' h Hc W I) as (_ & _ & _ & Q). specialize (Q Hn). fold h' in Q.
    assert (C : is_cluster h' g a) by (apply get_is_cluster; rewrite (g_cl _ _ Q); auto). split; auto. now apply cluster_lists.
  - intros cs' Hc. rewrite hafter_reset. intros h'. destruct (exec_step E L h CReset HE Logic.I W I) as (A & B & _ & D). specialize (D eq_refl).
    assert (I' : Inv L (load (hexec E h CReset))) by (rewrite A; apply exec_inv; auto; exact Logic.I).
    destruct (gone_R _ _ a D (w_cl _ W a G2) (w_s _ W a G2) (w_b _ W a G2)) as (X1 & X2). destruct (life_gone E L HE cs' _ a Hc B I' X1) as (Y1 & Y2).
    fold h' in Y1, Y2. clearbody h'. split; [|congruence]. intros g' Hg'. destruct (cluster_get _ _ _ Hg') as (_ & Z & _). destruct Y1 as (_ & Y1 & _). apply Y1. exact Z.
Qed.

Lemma list_free cs h g a r : life E k L t0 cs h -> is_cluster h g a -> is_list_of h a r -> (r < length (h_lists h))%nat.
Proof. intros Hl Hg Hr. destruct (life_ok _ _ Hl) as (W & _). destruct (cluster_get _ _ _ Hg) as (_ & G2 & _). destruct Hr as [->| ->]; [apply (w_s _ W)|apply (w_b _ W)]; auto. Qed.
Lemma let_go h h' a r : wf h -> G h h' -> In a (h_cl h) -> is_list_of h a r -> ~ is_list_of h' a r -> free h' r.
Proof.
  intros W Q Ha Hr N. assert (B : (r < length (h_lists h))%nat) by (destruct Hr as [->| ->]; [apply (w_s _ W)|apply (w_b _ W)]; auto).
  split; [pose proof (g_len _ _ Q); lia|]. intros (b & Hb & D). rewrite (g_cl _ _ Q) in Hb.
  destruct (g_obj _ _ Q b Hb) as [O|(_ & O1 & O2)]; [|lia]. rewrite O in D.
  assert (b = a). { unfold is_list_of, sites_list, bonds_list in Hr. destruct Hr as [Hr|Hr], D as [D|D]; rewrite Hr in D.
    - symmetry. apply (w_ss _ W); auto.
    - exfalso. exact (w_sb _ W a b Ha Hb D).
    - exfalso. exact (w_sb _ W b a Hb Ha (eq_sym D)).
    - symmetry. apply (w_bb _ W); auto. }
  subst b. apply N. unfold is_list_of, sites_list, bonds_list. rewrite O. exact D.
Qed.
Lemma s_list cs h g a r : life E k L t0 cs h -> is_cluster h g a -> is_list_of h a r ->
  (forall cs', Forall (call_ok L) cs' -> no_reset cs' -> let h' := hafter E h cs' in o_gid (obj_at h' a) <> -1 ->
     sites_list h' a = sites_list h a /\ bonds_list h' a = bonds_list h a) /\
  (forall cs', Forall (call_ok L) cs' -> let h' := hexec E h CPlace in ~ is_list_of h' a r -> contents (hafter E h' cs') r = contents h r) /\
  (forall cs' cs'', Forall (call_ok L) cs' -> Forall (call_ok L) cs'' -> no_reset cs' -> let h' := hafter E h cs' in ~ is_list_of h' a r ->
     contents (hafter E h' cs'') r = contents h' r) /\
  (forall cs', Forall (call_ok L) cs' -> contents (hafter E h (CReset :: cs')) r = contents h r) /\
  (forall cs', Forall (call_ok L) cs' -> exists l, contents (hafter E h cs') r = contents h r ++ l) /\
  (forall g' a', is_cluster h g' a' -> is_list_of h a' r -> g' = g /\ a' = a) /\
  sites_list h a <> bonds_list h a.
Proof.
  intros Hl Hg Hr. pose proof (list_free _ _ _ _ _ Hl Hg Hr) as B. destruct (life_ok _ _ Hl) as (W & I & _). destruct (cluster_get _ _ _ Hg) as (G1 & G2 & G3).
  split; [|split; [|split; [|split; [|split; [|split]]]]].
  - intros cs' Hc Hn h' Ng. destruct (after_step E L HE cs' h Hc W I) as (_ & _ & _ & Q). specialize (Q Hn). fold h' in Q.
    destruct (g_obj _ _ Q a G2) as [O|(O & _)]; [|contradiction]. unfold sites_list, bonds_list. now rewrite O.
  - intros cs' Hc h' Nr. destruct (exec_step E L h CPlace HE Logic.I W I) as (A & Bw & Q & _). specialize (Q ltac:(discriminate)). fold h' in A, Bw, Q.
    assert (I' : Inv L (load h')) by (rewrite A; apply exec_inv; auto; exact Logic.I). pose proof (let_go _ _ _ _ W Q G2 Hr Nr) as F. destruct (life_free E L HE cs' h' r Hc Bw I' F) as (_ & ->).
    destruct (place_sim E L h HE W I) as (_ & b & Hb & Tb). rewrite <- hexec_place in Tb. fold h' in Tb.
    assert (Nb : b <> a). { intros ->. apply Nr. pose proof (t_root _ _ _ Tb) as O. unfold is_list_of, sites_list, bonds_list. rewrite O. exact Hr. }
    apply (t_list _ _ _ Tb); auto; intros Q2; apply Nb; unfold is_list_of, sites_list, bonds_list in Hr; destruct Hr as [Hr|Hr]; rewrite Hr in Q2.
    + symmetry. apply (w_ss _ W); auto.
    + exfalso. exact (w_sb _ W b a Hb G2 (eq_sym Q2)).
    + exfalso. exact (w_sb _ W a b G2 Hb Q2).
    + symmetry. apply (w_bb _ W); auto.
  - intros cs' cs'' Hc Hc' Hn h' Nr. destruct (after_step E L HE cs' h Hc W I) as (_ & W' & I' & Q). specialize (Q Hn). fold h' in Q, W', I'.
    pose proof (let_go _ _ _ _ W Q G2 Hr Nr) as F. now destruct (life_free E L HE cs'' h' r Hc' W' I' F).
  - intros cs' Hc. rewrite hafter_reset. destruct (exec_step E L h CReset HE Logic.I W I) as (A & Bw & _ & D). specialize (D eq_refl).
    assert (I' : Inv L (load (hexec E h CReset))) by (rewrite A; apply exec_inv; auto; exact Logic.I).
    destruct (free_R _ _ r D B) as (F & Ef). destruct (life_free E L HE cs' _ r Hc Bw I' F) as (_ & Ef'). now rewrite Ef', Ef.
  - intros cs' Hc. now destruct (life_ext E L HE cs' h r Hc W I B).
  - intros g' a' Hg' Hr'. destruct (cluster_get _ _ _ Hg') as (_ & G2' & _).
    assert (a' = a). { unfold is_list_of, sites_list, bonds_list in *. destruct Hr as [Hr|Hr], Hr' as [Hr'|Hr']; rewrite Hr in Hr'.
      - symmetry. apply (w_ss _ W); auto.
      - exfalso. exact (w_sb _ W a a' G2 G2' Hr').
      - exfalso. exact (w_sb _ W a' a G2' G2 (eq_sym Hr')).
      - symmetry. apply (w_bb _ W); auto. }
    subst a'. split; auto. eapply cluster_fun; eauto.
  - apply (w_sb _ W); auto.
Qed.

Lemma index_get h i r : wf h -> is_index_of h i r -> exists n, i = Z.of_nat n /\ nth_error (h_rel h) n = Some r /\ (n < length (h_rel h))%nat.
Proof.
  intros W (I0 & H). exists (Z.to_nat i). split; [lia|]. unfold rel_addr in H. destruct (lget_pos _ _ _ H) as (n & Hn & En). unfold py_pos in Hn.
  replace (0 <=? i) with true in Hn by lia. destruct (i <? zlen (h_rel h)) eqn:Lt; cbn [andb] in Hn; [injection Hn as <-; split; auto; apply nth_error_Some; congruence|].
  replace (i <? 0) with false in Hn by lia. rewrite andb_false_r in Hn. discriminate.
Qed.
Lemma rel_index_at h i r : wf h -> is_index_of h i r -> rel_index (load h) i = as_list (idx_at h r).
Proof.
  intros W H. destruct (index_get _ _ _ W H) as (n & -> & En & Ln). unfold rel_index, get_site_by_id.
  assert (Ls : length (l_sites (lat (load h))) = length (h_rel h)) by now apply len_load.
  destruct (nth_error (l_sites (lat (load h))) n) as [x|] eqn:Ex; [|apply nth_error_None in Ex; lia].
  unfold lget, py_pos, zlen. replace ((0 <=? Z.of_nat n) && (Z.of_nat n <? Z.of_nat (length (l_sites (lat (load h)))))) with true by lia. rewrite Nat2Z.id, Ex.
  pose proof (rels_load h W) as R. apply (map_nth_error s_rel) in Ex. rewrite R in Ex. apply (map_nth_error (fun r => as_list (idx_at h r))) in En. congruence.
Qed.
Lemma s_index cs h i r : life E k L t0 cs h -> is_index_of h i r ->
  (forall cs', Forall (call_ok L) cs' -> idx_at (hafter E h cs') r = idx_at h r) /\
  i_cls (idx_at h r) = CRel /\ as_list (idx_at h r) = rel_index (load h) i /\
  (forall j, is_index_of h j r -> j = i) /\
  (forall j, ~ is_index_of (hexec E h CReset) j r).
Proof.
  intros Hl Hi. destruct (life_ok _ _ Hl) as (W & I & _). destruct (index_get _ _ _ W Hi) as (n & En & Hn & Ln). assert (Hr : In r (h_rel h)) by (eapply nth_error_In; eauto).
  split; [|split; [|split; [|split]]].
  - intros cs' Hc. destruct (life_idx E L HE cs' h Hc W I) as (l & El). unfold idx_at. rewrite El. apply app_nth1. now apply (w_ri _ W).
  - now apply (w_rc _ W).
  - symmetry. now apply rel_index_at.
  - intros j Hj. destruct (index_get _ _ _ W Hj) as (m & Em & Hm & Lm). assert (n = m); [|congruence]. apply (NoDup_nth_error (h_rel h)); [apply (w_rd _ W)|auto|congruence].
  - intros j Hj. destruct (exec_step E L h CReset HE Logic.I W I) as (A & Bw & _ & D). specialize (D eq_refl). destruct (index_get _ _ _ Bw Hj) as (m & Em & Hm & Lm).
    pose proof (n_rel _ _ D r (nth_error_In _ _ Hm)). pose proof (w_ri _ W r Hr). lia.
Qed.

Lemma gids_with l rs : length rs = length (l_sites l) -> map s_gid (l_sites (with_rels l rs)) = map s_gid (l_sites l).
Proof.
  unfold with_rels, with_sites. cbn [l_sites]. revert rs. induction (l_sites l) as [|x ss IH]; intros [|r rs]; cbn; try discriminate; auto.
  intros Q. f_equal. apply IH. lia.
Qed.
Lemma label_map s j : site_label s j = match lget (map s_gid (l_sites (lat s))) j with Ok g => g | Err _ => -1 end.
Proof. unfold site_label, get_site_gid_by_id. rewrite lget_map. destruct (lget (l_sites (lat s)) j); reflexivity. Qed.
Lemma idx_norm h r q : (r < length (h_idx h))%nat -> idx_at (caller_normalizes h r) q = if Nat.eqb q r then inormalize (idx_at h r) else idx_at h q.
Proof. intros H. unfold idx_at, caller_normalizes. cbn [h_idx put_idx]. apply nth_upd_nat. exact H. Qed.
Lemma inorm_cls a : i_cls (inormalize a) = i_cls a /\ as_list (inormalize a) = index_normalize (as_list a).
Proof. unfold inormalize, as_list. destruct (index_normalize (i_1 a, i_2 a)) as [x y]. auto. Qed.
Lemma wf_norm h r : wf h -> In r (h_rel h) -> wf (caller_normalizes h r).
Proof.
  intros W Hr. pose proof (w_ri _ W r Hr) as Lr. destruct W. constructor; auto.
  - intros q Hq. unfold caller_normalizes. cbn [h_idx put_idx]. rewrite upd_length. auto.
  - intros q Hq. rewrite idx_norm by auto. destruct (Nat.eqb q r); [rewrite (proj1 (inorm_cls _))|]; auto.
Qed.
Lemma s_normalize cs h i r : life E k L t0 cs h -> is_index_of h i r -> let h' := caller_normalizes h r in
  rel_index (load h') i = index_normalize (rel_index (load h) i) /\
  (forall j, is_site L j -> j <> i -> rel_index (load h') j = rel_index (load h) j) /\
  (forall j, site_label (load h') j = site_label (load h) j) /\ (forall b, bond_label (load h') b = bond_label (load h) b) /\
  pool (load h') = pool (load h).
Proof.
  intros Hl Hi h'. destruct (life_ok _ _ Hl) as (W & I & _). destruct (index_get _ _ _ W Hi) as (n & En & Hn & Ln). assert (Hr : In r (h_rel h)) by (eapply nth_error_In; eauto).
  pose proof (w_ri _ W r Hr) as Lr. pose proof (wf_norm h r W Hr) as W'. fold h' in W'. split; [|split; [|split; [|split]]].
  - rewrite (rel_index_at h i r W Hi), (rel_index_at h' i r W' Hi). unfold h'. rewrite idx_norm, Nat.eqb_refl by auto. apply inorm_cls.
  - intros j Hj Nj. assert (Hq : exists q, is_index_of h j q).
    { unfold is_index_of, rel_addr. pose proof (st_ns _ _ (i_static _ _ I)) as Ns. pose proof (len_load h W) as Ll. unfold is_site in Hj. unfold zlen in Ns.
      destruct (nth_error (h_rel h) (Z.to_nat j)) as [q|] eqn:Eq; [|apply nth_error_None in Eq; lia]. exists q. split; [lia|]. unfold lget, py_pos, zlen.
      replace ((0 <=? j) && (j <? Z.of_nat (length (h_rel h)))) with true by lia. now rewrite Eq. }
    destruct Hq as (q & Hq). rewrite (rel_index_at h j q W Hq), (rel_index_at h' j q W' Hq). unfold h'. rewrite idx_norm by auto.
    destruct (Nat.eqb_spec q r) as [->|]; [|reflexivity]. exfalso. apply Nj. destruct (s_index _ _ _ _ Hl Hi) as (_ & _ & _ & U & _). exact (U j Hq).
  - intros j. rewrite !label_map, !lat_load, !gids_with; [reflexivity| |]; rewrite map_length; [apply (w_rl _ W)|apply (w_rl _ W')].
  - reflexivity.
  - reflexivity.
Qed.
Lemma s_extend cs h g a ys : life E k L t0 cs h -> is_cluster h g a -> let h' := caller_extends h (sites_list h a) ys in
  cluster_sites (load h') g = cluster_sites (load h) g ++ ys /\
  (forall g', 0 <= g' -> g' <> g -> cluster_sites (load h') g' = cluster_sites (load h) g') /\
  (forall g', 0 <= g' -> cluster_bonds (load h') g' = cluster_bonds (load h) g') /\
  lat (load h') = lat (load h).
Proof.
  intros Hl Hg h'. destruct (life_ok _ _ Hl) as (W & I & _). destruct (cluster_get _ _ _ Hg) as (G1 & G2 & G3). pose proof (w_s _ W a G2) as Lr.
  assert (Co : forall q, contents h' q = if Nat.eqb q (sites_list h a) then contents h (sites_list h a) ++ ys else contents h q).
  { intros q. unfold h', caller_extends, contents. cbn [h_lists put_lists]. apply nth_upd_nat. exact Lr. }
  assert (Ob : forall b, obj_at h' b = obj_at h b) by reflexivity.
  assert (Hg' : is_cluster h' g a) by exact Hg.
  assert (Out : forall g', 0 <= g' -> (exists b, is_cluster h g' b) \/ (cluster_sites (load h') g' = cluster_sites (load h) g' /\ cluster_bonds (load h') g' = cluster_bonds (load h) g')).
  { intros g' H'. destruct (lget (h_cl h) g') as [b|e] eqn:Eb.
    - left. exists b. apply get_is_cluster; auto. destruct (lget_pos _ _ _ Eb) as (m & Em & _). unfold py_pos in Em. destruct (g' <? zlen (h_cl h)) eqn:Lt; [lia|]. rewrite andb_false_r in Em. replace (g' <? 0) with false in Em by lia. rewrite andb_false_r in Em. discriminate.
    - right. unfold cluster_sites, cluster_bonds, pool_get_sites, pool_get_bonds. rewrite !pool_get. change (h_cl h') with (h_cl h). rewrite Eb. auto. }
  split; [|split; [|split]].
  - destruct (cluster_lists _ _ _ Hg') as (A & _). destruct (cluster_lists _ _ _ Hg) as (B & _). rewrite <- A, <- B. unfold sites_list at 1. rewrite Ob. fold (sites_list h a). rewrite Co, Nat.eqb_refl. reflexivity.
  - intros g' H' N. destruct (Out g' H') as [(b & Hb)|(Q & _)]; [|exact Q]. destruct (cluster_get _ _ _ Hb) as (_ & B2 & _).
    destruct (cluster_lists h' g' b Hb) as (A & _). destruct (cluster_lists _ _ _ Hb) as (B & _). rewrite <- A, <- B. unfold sites_list. rewrite Ob, Co. destruct (Nat.eqb_spec (o_sites (obj_at h b)) (sites_list h a)) as [Q|]; [|reflexivity].
    exfalso. apply N. apply (w_ss _ W b a B2 G2) in Q. subst b. eapply cluster_fun; eauto.
  - intros g' H'. destruct (Out g' H') as [(b & Hb)|(_ & Q)]; [|exact Q]. destruct (cluster_get _ _ _ Hb) as (_ & B2 & _).
    destruct (cluster_lists h' g' b Hb) as (_ & A). destruct (cluster_lists _ _ _ Hb) as (_ & B). rewrite <- A, <- B. unfold bonds_list. rewrite Ob, Co. destruct (Nat.eqb_spec (o_bonds (obj_at h b)) (sites_list h a)) as [Q|]; [|reflexivity].
    exfalso. exact (w_sb _ W a b G2 B2 (eq_sym Q)).
  - reflexivity.
Qed.
End Statements.
(** ** The statements of the properties *)
Lemma p_C114_refines E k L t0 cs h : env_ok E -> life E k L t0 cs h -> exists s0, new_perc E k L t0 = Ok s0 /\ load h = after E s0 cs /\
  (forall h' r, h_place_one_site E h = (h', r) -> place_one_site E (load h) = (load h', r)) /\
  (forall h' r, h_detect_wrapping h = (h', r) -> detect_wrapping (load h) = (load h', r)) /\
  (forall h' r, h_reset E h = (h', r) -> reset E (load h) = (load h', r)) /\
  (forall n h' r, h_run_once E n h = (h', r) -> run_once E n (load h) = (load h', r)) /\
  (forall n h' r, h_test_run_once E n h = (h', r) -> test_run_once E n (load h) = (load h', r)).
Proof. intros HE. exact (s_same E k L t0 HE cs h). Qed.
Lemma p_C114_cluster E k L t0 cs h g a : env_ok E -> life E k L t0 cs h -> is_cluster h g a ->
  (forall cs', Forall (call_ok L) cs' -> no_reset cs' -> let h' := hafter E h cs' in
     is_cluster h' g a /\ contents h' (sites_list h' a) = cluster_sites (load h') g /\ contents h' (bonds_list h' a) = cluster_bonds (load h') g) /\
  (forall cs', Forall (call_ok L) cs' -> let h' := hafter E h (CReset :: cs') in (forall g', ~ is_cluster h' g' a) /\ shown h' a = shown h a).
Proof. intros HE. exact (s_cluster E k L t0 HE cs h g a). Qed.
Lemma p_C114_list E k L t0 cs h g a r : env_ok E -> life E k L t0 cs h -> is_cluster h g a -> is_list_of h a r ->
  (forall cs', Forall (call_ok L) cs' -> no_reset cs' -> let h' := hafter E h cs' in o_gid (obj_at h' a) <> -1 ->
     sites_list h' a = sites_list h a /\ bonds_list h' a = bonds_list h a) /\
  (forall cs', Forall (call_ok L) cs' -> let h' := hexec E h CPlace in ~ is_list_of h' a r -> contents (hafter E h' cs') r = contents h r) /\
  (forall cs' cs'', Forall (call_ok L) cs' -> Forall (call_ok L) cs'' -> no_reset cs' -> let h' := hafter E h cs' in ~ is_list_of h' a r ->
     contents (hafter E h' cs'') r = contents h' r) /\
  (forall cs', Forall (call_ok L) cs' -> contents (hafter E h (CReset :: cs')) r = contents h r) /\
  (forall cs', Forall (call_ok L) cs' -> exists l, contents (hafter E h cs') r = contents h r ++ l) /\
  (forall g' a', is_cluster h g' a' -> is_list_of h a' r -> g' = g /\ a' = a) /\
  sites_list h a <> bonds_list h a.
Proof. intros HE. exact (s_list E k L t0 HE cs h g a r). Qed.
Lemma p_C114_index E k L t0 cs h i r : env_ok E -> life E k L t0 cs h -> is_index_of h i r ->
  (forall cs', Forall (call_ok L) cs' -> idx_at (hafter E h cs') r = idx_at h r) /\
  i_cls (idx_at h r) = CRel /\ as_list (idx_at h r) = rel_index (load h) i /\
  (forall j, is_index_of h j r -> j = i) /\
  (forall j, ~ is_index_of (hexec E h CReset) j r).
Proof. intros HE. exact (s_index E k L t0 HE cs h i r). Qed.
Lemma p_C114_normalize E k L t0 cs h i r : env_ok E -> life E k L t0 cs h -> is_index_of h i r -> let h' := caller_normalizes h r in
  rel_index (load h') i = index_normalize (rel_index (load h) i) /\
  (forall j, is_site L j -> j <> i -> rel_index (load h') j = rel_index (load h) j) /\
  (forall j, site_label (load h') j = site_label (load h) j) /\ (forall b, bond_label (load h') b = bond_label (load h) b) /\
  pool (load h') = pool (load h).
Proof. intros HE. exact (s_normalize E k L t0 HE cs h i r). Qed.
Lemma p_C114_extend E k L t0 cs h g a ys : env_ok E -> life E k L t0 cs h -> is_cluster h g a -> let h' := caller_extends h (sites_list h a) ys in
  cluster_sites (load h') g = cluster_sites (load h) g ++ ys /\
  (forall g', 0 <= g' -> g' <> g -> cluster_sites (load h') g' = cluster_sites (load h) g') /\
  (forall g', 0 <= g' -> cluster_bonds (load h') g' = cluster_bonds (load h) g') /\
  lat (load h') = lat (load h).
Proof. intros HE. exact (s_extend E k L t0 HE cs h g a ys). Qed.
Lemma p_C114_exists E k L t0 s0 : env_ok E -> new_perc E k L t0 = Ok s0 -> exists h0, life E k L t0 [] h0 /\ load h0 = s0.
Proof. intros HE. exact (s_exists E k L t0 s0). Qed.
