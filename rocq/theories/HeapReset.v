(** * HeapReset: constructing and resetting in the store. *)
From Coq Require Import ZArith List Bool Lia.
From Verif Require Import Py Lattice Cluster Perc PyFacts Spec Torus Geometry Inv Merge Select State Fresh Step Reach LatFacts History Heap HeapFacts HeapMerge HeapStep HeapPlace HeapRun.
Import ListNotations.
Open Scope Z_scope.

(** New clusters are added, nothing else in the store changes. *)
Definition N (h h' : heap) : Prop := exists ls os az,
  h_lists h' = h_lists h ++ ls /\ h_clu h' = h_clu h ++ os /\ h_cl h' = h_cl h ++ az /\ h_idx h' = h_idx h /\ h_rel h' = h_rel h /\
  forall a, In a az -> (length (h_clu h) <= a)%nat /\ (length (h_lists h) <= o_sites (obj_at h' a))%nat /\ (length (h_lists h) <= o_bonds (obj_at h' a))%nat.
Lemma obj_app h h' os a : h_clu h' = h_clu h ++ os -> (a < length (h_clu h))%nat -> obj_at h' a = obj_at h a.
Proof. intros E H. unfold obj_at. rewrite E. now apply app_nth1. Qed.
Lemma con_app h h' ls r : h_lists h' = h_lists h ++ ls -> (r < length (h_lists h))%nat -> contents h' r = contents h r.
Proof. intros E H. unfold contents. rewrite E. now apply app_nth1. Qed.
Lemma NoDup_app_snoc {A} (l : list A) x : NoDup l -> ~ In x l -> NoDup (l ++ [x]).
Proof. intros H Hx. apply NoDup_rev in H. rewrite <- (rev_involutive (l ++ [x])). apply NoDup_rev. rewrite rev_app_distr. cbn. constructor; auto. now rewrite <- in_rev. Qed.
Lemma N_refl h : N h h.
Proof. exists [], [], []. rewrite !app_nil_r. repeat split; auto; destruct H. Qed.
Lemma N_trans a b c : wf b -> N a b -> N b c -> N a c.
Proof.
  intros W (l1 & o1 & z1 & A1 & B1 & C1 & D1 & F1 & G1) (l2 & o2 & z2 & A2 & B2 & C2 & D2 & F2 & G2).
  exists (l1 ++ l2), (o1 ++ o2), (z1 ++ z2). rewrite A2, A1, B2, B1, C2, C1, !app_assoc. split; auto. split; auto. split; auto. split; [congruence|]. split; [congruence|].
  intros x Hx. apply in_app_or in Hx as [Hx|Hx].
  - destruct (G1 x Hx) as (P1 & P2 & P3). assert (Lx : (x < length (h_clu b))%nat) by (apply (w_cl _ W); rewrite C1; apply in_or_app; now right).
    rewrite (obj_app b c o2 x B2 Lx). auto.
  - destruct (G2 x Hx) as (P1 & P2 & P3). rewrite A1, B1, !app_length in *. lia.
Qed.

Lemma create_step h bb p l : wf h -> create_new_cluster (pool (load h)) [] [bb] (lat (load h)) = Ok (p, l) ->
  exists h', h_create_new_cluster [] [bb] h = (h', Ok tt) /\ load h' = set_pool p (set_lat l (load h)) /\ wf h' /\ N h h'.
Proof.
  intros W E. unfold create_new_cluster in E. cbn [foldM] in E. apply rbind_ok in E as (l0 & E0 & E). assert (l0 = lat (load h)) as -> by congruence. clear E0.
  apply rbind_ok in E as (l1 & E1 & E). assert (El : l1 = l) by congruence. subst l1. assert (Ep : p = mkPool (map (shown h) (h_cl h) ++ [mkCluster [] [bb] (h_next h) (h_next h)]) (h_next h + 1)). { change (map (shown h) (h_cl h)) with (p_list (pool (load h))). change (h_next h) with (p_next (pool (load h))). congruence. } clear E.
  apply rbind_ok in E1 as (l1 & E1 & E2). injection E2 as ->. change (p_next (pool (load h))) with (h_next h) in E1. pose proof (rels_set_bond _ _ _ _ E1) as Rl.
  set (n := length (h_lists h)). set (o := mkObj n (S n) (h_next h) (h_next h)).
  set (h1 := put_clu (h_clu h ++ [o]) (put_lists (h_lists h ++ [[]; [bb]]) h)).
  assert (Ln1 : forall r, (r < n)%nat -> contents h1 r = contents h r) by (intros r Hr; unfold contents; cbn [h1 put_clu put_lists h_lists]; now apply app_nth1).
  assert (Lo1 : forall a, (a < length (h_clu h))%nat -> obj_at h1 a = obj_at h a) by (intros a Ha; unfold obj_at; cbn [h1 put_clu put_lists h_clu]; now apply app_nth1).
  assert (Lon : obj_at h1 (length (h_clu h)) = o) by (unfold obj_at; cbn [h1 put_clu put_lists h_clu]; rewrite app_nth2, Nat.sub_diag; auto).
  assert (Sh : forall a, In a (h_cl h) -> shown h1 a = shown h a).
  { intros a Ha. unfold shown. rewrite (Lo1 a (w_cl _ W a Ha)). now rewrite (Ln1 _ (w_s _ W a Ha)), (Ln1 _ (w_b _ W a Ha)). }
  assert (Sn : shown h1 (length (h_clu h)) = mkCluster [] [bb] (h_next h) (h_next h)).
  { unfold shown. rewrite Lon. cbn [o o_sites o_bonds o_gid o_id]. unfold contents. cbn [h1 put_clu put_lists h_lists]. rewrite !app_nth2; fold n; [|lia..]. rewrite Nat.sub_diag. replace (S n - n)%nat with 1%nat by lia. reflexivity. }
  assert (Ld1 : load h1 = load h). { unfold load at 1. cbn [h1 put_clu put_lists h_cl h_next h_obj h_rel]. rewrite (map_ext_in _ _ _ Sh). reflexivity. }
  set (h2 := put_obj (set_lat l (h_obj (put_obj (load h1) h1))) (put_obj (load h1) h1)).
  set (h3 := put_pool (h_cl h ++ [length (h_clu h)]) (h_next h + 1) h2).
  exists h3. split; [|split; [|split]].
  - unfold h_create_new_cluster. unfold hbind at 1, hget. cbv zeta. unfold hbind at 1, hmod at 1. unfold hbind at 1, hmod at 1. unfold hbind at 1. cbn [hfor]. unfold hret at 1.
    fold n. fold o. fold h1. unfold hbind at 1. unfold hbind at 1. rewrite h_lat_eq. rewrite Ld1. rewrite E1. unfold h3, h2. cbn [h_obj put_obj]. rewrite Ld1. reflexivity.
  - unfold load at 1. cbn [h3 h2 put_pool put_obj h_cl h_next h_obj h_rel]. rewrite map_app. cbn [map].
    change (shown h3) with (shown h1). rewrite Sn, (map_ext_in _ _ _ Sh). change (fun r => as_list (idx_at h3 r)) with (fun r => as_list (idx_at h r)).
    change (h_rel h1) with (h_rel h). change (lat (set_lat l (load h1))) with l. rewrite (with_rels_id l); [|rewrite Rl; now apply rels_load]. rewrite Ld1, Ep. reflexivity.
  - assert (Ob : forall a, In a (h_cl h3) -> (In a (h_cl h) /\ obj_at h3 a = obj_at h a) \/ (a = length (h_clu h) /\ obj_at h3 a = o)).
    { intros a Ha. apply in_app_or in Ha as [Ha|[<-|[]]]; [left; split; auto; exact (Lo1 a (w_cl _ W a Ha))|right; auto]. }
    assert (Lc : length (h_clu h3) = S (length (h_clu h))) by (change (h_clu h3) with (h_clu h ++ [o]); rewrite app_length; cbn; lia).
    assert (Ll : length (h_lists h3) = S (S n)) by (change (h_lists h3) with (h_lists h ++ [[]; [bb]]); rewrite app_length; cbn; fold n; lia).
    constructor.
    + intros a Ha. rewrite Lc. destruct (Ob a Ha) as [(Ia & _)|(-> & _)]; [pose proof (w_cl _ W a Ia)|]; lia.
    + change (NoDup (h_cl h ++ [length (h_clu h)])). apply NoDup_app_snoc; [apply (w_nd _ W)|]. intros Hn. pose proof (w_cl _ W _ Hn). lia.
    + intros a Ha. rewrite Ll. destruct (Ob a Ha) as [(Ia & ->)|(-> & ->)]; [pose proof (w_s _ W a Ia); subst n; lia|cbn; lia].
    + intros a Ha. rewrite Ll. destruct (Ob a Ha) as [(Ia & ->)|(-> & ->)]; [pose proof (w_b _ W a Ia); subst n; lia|cbn; lia].
    + intros a b Ha Hb. destruct (Ob a Ha) as [(Ia & ->)|(-> & ->)], (Ob b Hb) as [(Ib & ->)|(-> & ->)]; auto; [apply (w_ss _ W); auto| |]; cbn [o o_sites o_bonds].
      * pose proof (w_s _ W a Ia). subst n. lia.
      * pose proof (w_s _ W b Ib). subst n. lia.
    + intros a b Ha Hb. destruct (Ob a Ha) as [(Ia & ->)|(-> & ->)], (Ob b Hb) as [(Ib & ->)|(-> & ->)]; auto; [apply (w_bb _ W); auto| |]; cbn [o o_sites o_bonds].
      * pose proof (w_b _ W a Ia). subst n. lia.
      * pose proof (w_b _ W b Ib). subst n. lia.
    + intros a b Ha Hb. destruct (Ob a Ha) as [(Ia & ->)|(-> & ->)], (Ob b Hb) as [(Ib & ->)|(-> & ->)]; [apply (w_sb _ W); auto| | |]; cbn [o o_sites o_bonds].
      * pose proof (w_s _ W a Ia). subst n. lia.
      * pose proof (w_b _ W b Ib). subst n. lia.
      * lia.
    + change (h_rel h3) with (h_rel h). change (lat (h_obj h3)) with l. rewrite <- (map_length s_rel (l_sites l)), Rl, map_length. symmetry. now apply len_load.
    + exact (w_rd _ W).
    + exact (w_ri _ W).
    + exact (w_rc _ W).
  - exists [[]; [bb]], [o], [length (h_clu h)]. repeat (split; [reflexivity|]). intros a [<-|[]]. change (obj_at h3) with (obj_at h1). rewrite Lon. cbn [o o_sites o_bonds]. fold n. lia.
Qed.

Lemma wf_empty h : wf h -> wf (put_pool [] 0 h).
Proof. intros W. constructor; cbn [put_pool h_cl h_clu h_lists h_rel h_obj h_idx]; try solve [intros a []|intros a b []]. - constructor. - exact (w_rl _ W). - exact (w_rd _ W). - exact (w_ri _ W). - exact (w_rc _ W). Qed.
Lemma load_empty h : load (put_pool [] 0 h) = set_pool empty_pool (load h).
Proof. reflexivity. Qed.
Lemma wf_put h : wf h -> wf (put_obj (load h) h) /\ load (put_obj (load h) h) = load h.
Proof. intros W. destruct (load_put (load h) h W (quiet_refl _)) as (A & B & _). auto. Qed.
Lemma creates xs : forall h p l, wf h -> foldM (fun '(p, lat) bb => create_new_cluster p [] [bb] lat) xs (pool (load h), lat (load h)) = Ok (p, l) ->
  exists h', hfor xs (fun bb => h_create_new_cluster [] [bb]) h = (h', Ok tt) /\ load h' = set_pool p (set_lat l (load h)) /\ wf h' /\ N h h'.
Proof.
  induction xs as [|x xs IH]; intros h p l W E.
  - exists h. assert (p = pool (load h) /\ l = lat (load h)) as (-> & ->) by (cbn [foldM] in E; split; congruence). rewrite set_lat_id, set_pool_id. split; [reflexivity|]. split; [reflexivity|]. split; [exact W|apply N_refl].
  - rewrite foldM_cons in E. apply rbind_ok in E as ((p1 & l1) & E1 & E). destruct (create_step h x p1 l1 W E1) as (h1 & R1 & L1 & W1 & N1).
    destruct (IH h1 p l W1) as (h2 & R2 & L2 & W2 & N2); [rewrite L1; exact E|]. exists h2. cbn [hfor]. unfold hbind. rewrite R1, R2. split; auto. split; [rewrite L2, L1; reflexivity|]. split; auto.
    exact (N_trans h h1 h2 W1 N1 N2).
Qed.
Lemma init_step h p l : wf h -> init_clusters (lat (load h)) = Ok (p, l) ->
  exists h', h_init_clusters h = (h', Ok tt) /\ load h' = set_pool p (set_lat l (load h)) /\ wf h' /\ N (put_pool [] 0 h) h'.
Proof.
  intros W E. set (h1 := put_pool [] 0 h). assert (W1 : wf h1) by now apply wf_empty. destruct (wf_put h1 W1) as (W2 & L2).
  destruct (creates (zrange (l_bond_count (lat (load h1)))) (put_obj (load h1) h1) p l W2) as (h3 & R3 & L3 & W3 & N3). { rewrite L2. exact E. }
  exists h3. split; [unfold h_init_clusters, h_pool_reset; unfold hbind at 1, hmod at 1; fold h1; unfold hbind at 1; exact R3|].
  split; [rewrite L3, L2; reflexivity|]. split; [exact W3|exact N3].
Qed.

(** The rest of [reset] changes plain attributes only. *)
Definition qs {A} (hm : HM A) (m : M A) : Prop := forall h, wf h -> exists s, hm h = (put_obj s h, snd (m (load h))) /\ load (put_obj s h) = fst (m (load h)) /\ wf (put_obj s h).
Lemma qs_lift {A} (m : M A) : (forall P R, keep P R m) -> qs (hlift m) m.
Proof.
  intros K h W. pose proof (keep_quiet m (load h) K) as Q. unfold hlift. destruct (m (load h)) as [s r]. cbn [fst snd] in *. exists s. destruct (load_put s h W Q) as (A1 & A2 & _). auto.
Qed.
Lemma qs_bind {A B} (hm : HM A) (m : M A) (hk : A -> HM B) (k : A -> M B) : qs hm m -> (forall x, qs (hk x) (k x)) -> qs (hbind hm hk) (mbind m k).
Proof.
  intros Hm Hk h W. destruct (Hm h W) as (s & E & L & W1). unfold hbind, mbind. rewrite E. destruct (m (load h)) as [s1 [x|e]]; cbn [fst snd] in *; [|exists s; auto].
  destruct (Hk x _ W1) as (s2 & E2 & L2 & W2). exists s2. rewrite E2, L. rewrite L in L2. auto.
Qed.
Lemma qs_ret {A} (x : A) : qs (hret x) (ret x).
Proof. intros h W. exists (h_obj h). cbn. replace (put_obj (h_obj h) h) with h by (destruct h; reflexivity). auto. Qed.
Definition rest_of_reset (E : env) : M unit :=
  run modify (fun s => set_wrap (after_wrap s) (wid s) (pc_occ s) None None s) ;
  run shuffle E ;
  run modify (set_cur_idx 0) ;
  run modify (fun s => set_wrap false (-1) 0 (pc_bonds s) (pc_sites s) s) ;
  run modify (set_largest 0 (-1)) ;
  run modify (fun s => set_ent (max_ent s) s) ;
  run modify (set_occ_count 0) ;
  run modify (set_sel_flag None) ;
  run modify (fun s => set_arrs (if first_run s then [] else p_arr s) [] [] [] s) ;
  do s <~ get ;
  match kind s with
  | KL1 =>
      run modify (fun s => rebind_ids (zrange (l_length (lat s) * l_length (lat s))) (user_list s) false s) ;
      run modify (set_xy 0 (y_occ s)) ;
      modify (set_record [])
  | KL2 =>
      run modify (fun s => rebind_ids (zrange (l_length (lat s) * l_length (lat s))) (user_list s) false s) ;
      modify (set_xy 0 0)
  | KSP => modify (set_sp (FZ 0))
  | _ => ret tt
  end.
Definition h_rest_of_reset (E : env) : HM unit :=
  hrun hlift (modify (fun s => set_wrap (after_wrap s) (wid s) (pc_occ s) None None s)) ;
  hrun hlift (shuffle E) ;
  hrun hlift (modify (set_cur_idx 0)) ;
  hrun hlift (modify (fun s => set_wrap false (-1) 0 (pc_bonds s) (pc_sites s) s)) ;
  hrun hlift (modify (set_largest 0 (-1))) ;
  hrun hlift (modify (fun s => set_ent (max_ent s) s)) ;
  hrun hlift (modify (set_occ_count 0)) ;
  hrun hlift (modify (set_sel_flag None)) ;
  hrun hlift (modify (fun s => set_arrs (if first_run s then [] else p_arr s) [] [] [] s)) ;
  hdo s <~ hlift get ;
  match kind s with
  | KL1 =>
      hrun hlift (modify (fun s => rebind_ids (zrange (l_length (lat s) * l_length (lat s))) (user_list s) false s)) ;
      hrun hlift (modify (set_xy 0 (y_occ s))) ;
      hlift (modify (set_record []))
  | KL2 =>
      hrun hlift (modify (fun s => rebind_ids (zrange (l_length (lat s) * l_length (lat s))) (user_list s) false s)) ;
      hlift (modify (set_xy 0 0))
  | KSP => hlift (modify (set_sp (FZ 0)))
  | _ => hret tt
  end.
Lemma k_getter P R : keep P R get.
Proof. intros s Hs. exact Hs. Qed.
Lemma rest_qs E : qs (h_rest_of_reset E) (rest_of_reset E).
Proof.
  unfold h_rest_of_reset, rest_of_reset.
  repeat first [apply qs_bind; [|intros ?]|apply qs_lift; intros; first [apply k_shuffle|apply k_getter|kstep]|apply qs_ret|match goal with |- context [kind ?s] => destruct (kind s) end].
Qed.
Lemma reset_split E s p l : init_clusters (lattice_reset (lat s)) = Ok (p, l) ->
  reset E s = rest_of_reset E (set_pool p (set_lat l (set_pool empty_pool (set_lat (lattice_reset (lat s)) s)))).
Proof.
  intros H. unfold reset, reset_base, rest_of_reset, mbind, get, modify, lift. change (lat (set_pool empty_pool (set_lat (lattice_reset (lat s)) s))) with (lattice_reset (lat s)). rewrite H.
  match goal with |- ?a = ?b => match a with context [shuffle E ?x] => match b with context [shuffle E ?y] => change y with x end end end.
  match goal with |- context [shuffle E ?x] => destruct (shuffle E x) as [s1 [u|e]] end; reflexivity.
Qed.

Lemma h_reset_eq E : h_reset E = hrun h_lattice_reset ; hrun h_pool_reset ; hrun h_init_clusters ; h_rest_of_reset E.
Proof. unfold h_reset, h_rest_of_reset. reflexivity. Qed.
Lemma h_reset_split E h : h_reset E h = match h_lattice_reset h with
  | (h1, Ok _) => match h_init_clusters (put_pool [] 0 h1) with (h3, Ok _) => h_rest_of_reset E h3 | (h3, Err e) => (h3, Err e) end
  | (h1, Err e) => (h1, Err e) end.
Proof.
  rewrite h_reset_eq. unfold hbind at 1. destruct (h_lattice_reset h) as [h1 [u|e]]; [|reflexivity]. unfold hbind at 1. unfold h_pool_reset, hmod. unfold hbind.
  destruct (h_init_clusters (put_pool [] 0 h1)) as [h3 [v|e]]; reflexivity.
Qed.

Record renewed (h h' : heap) : Prop := mkRen {
  n_lists : exists l, h_lists h' = h_lists h ++ l;
  n_clu : exists l, h_clu h' = h_clu h ++ l;
  n_idx : exists l, h_idx h' = h_idx h ++ l;
  n_cl : forall a, In a (h_cl h') -> (length (h_clu h) <= a)%nat /\ (length (h_lists h) <= o_sites (obj_at h' a))%nat /\ (length (h_lists h) <= o_bonds (obj_at h' a))%nat;
  n_rel : forall r, In r (h_rel h') -> (length (h_idx h) <= r)%nat
}.
Lemma rels_reset l : map s_rel (l_sites (lattice_reset l)) = repeat (0, 0) (length (l_sites l)).
Proof. unfold lattice_reset. cbn [l_sites with_bonds with_sites]. induction (l_sites l) as [|x t IH]; [reflexivity|]. cbn [map length repeat]. rewrite IH. reflexivity. Qed.

Lemma nth_fresh {A} (l : list A) n (x d : A) r : (length l <= r < length l + n)%nat -> nth r (l ++ repeat x n) d = x.
Proof.
  intros H. rewrite app_nth2 by lia. assert (K : forall n k, (k < n)%nat -> nth k (repeat x n) d = x).
  { clear. induction n as [|n IH]; intros k Hk; [lia|]. destruct k; cbn; auto. apply IH. lia. } apply K. lia.
Qed.
Lemma fresh_rels (l : list iobj) n : map (fun r => as_list (nth r (l ++ repeat (new_rel 0 0) n) (new_rel 0 0))) (seq (length l) n) = repeat (0, 0) n.
Proof.
  rewrite (map_ext_in _ (fun _ => (0, 0))). 2: { intros r Hr. apply in_seq in Hr. now rewrite (nth_fresh l n). }
  clear. generalize (length l). induction n as [|n IH]; intros k; [reflexivity|]. cbn. now rewrite IH.
Qed.
Lemma lattice_reset_step h : wf h -> exists h', h_lattice_reset h = (h', Ok tt) /\ load h' = set_lat (lattice_reset (lat (load h))) (load h) /\ wf h' /\
  h_lists h' = h_lists h /\ h_clu h' = h_clu h /\ h_cl h' = h_cl h /\ (exists l, h_idx h' = h_idx h ++ l) /\ forall r, In r (h_rel h') -> (length (h_idx h) <= r)%nat.
Proof.
  intros W. unfold h_lattice_reset. unfold hbind at 1. rewrite h_lat_eq. unfold hmod.
  set (l := lattice_reset (lat (load h))). set (h1 := put_obj _ h). set (n := length (h_rel h1)).
  assert (En : n = length (h_rel h)) by reflexivity. assert (El : length (l_sites l) = n). { rewrite <- (map_length s_rel (l_sites l)). unfold l. rewrite (rels_reset (lat (load h))), repeat_length, En. now apply len_load. }
  assert (Ld : forall h2, h_obj h2 = set_lat l (load h) -> h_lists h2 = h_lists h -> h_clu h2 = h_clu h -> h_cl h2 = h_cl h -> h_next h2 = h_next h -> h_idx h2 = h_idx h ++ repeat (new_rel 0 0) n ->
      h_rel h2 = seq (length (h_idx h)) n -> load h2 = set_lat l (load h) /\ wf h2).
  { intros h2 A1 A2 A3 A4 A5 A6 A7. assert (O : forall a, obj_at h2 a = obj_at h a) by (intros; unfold obj_at; now rewrite A3).
    assert (Sh : forall a, shown h2 a = shown h a) by (intros; unfold shown, contents; now rewrite O, A2). split.
    - unfold load at 1. rewrite A1, A4, A5, A7. rewrite (map_ext _ _ Sh). unfold idx_at. rewrite A6, fresh_rels. change (lat (set_lat l (load h))) with l.
      rewrite (with_rels_id l); [reflexivity|]. unfold l. rewrite rels_reset, (len_load h W), En. reflexivity.
    - constructor; rewrite ?A2, ?A3, ?A4, ?A6, ?A7; intros; rewrite ?O in *; try solve [now apply (w_cl _ W)|now apply (w_nd _ W)|now apply (w_s _ W)|now apply (w_b _ W)|now apply (w_ss _ W)|now apply (w_bb _ W)|now apply (w_sb _ W)].
      + rewrite seq_length, A1. symmetry. exact El.
      + apply seq_NoDup.
      + match goal with Q : In _ (seq _ _) |- _ => apply in_seq in Q end. rewrite app_length, repeat_length. lia.
      + match goal with Q : In _ (seq _ _) |- _ => apply in_seq in Q end. unfold idx_at. rewrite A6, (nth_fresh (h_idx h) n); [reflexivity|lia]. }
  eexists. split; [reflexivity|]. match goal with |- load ?h2 = _ /\ _ => destruct (Ld h2) as (A & B); try reflexivity end.
  split; [exact A|]. split; [exact B|]. split; [reflexivity|]. split; [reflexivity|]. split; [reflexivity|]. split; [eexists; reflexivity|]. intros r Hr. change (In r (seq (length (h_idx h)) n)) in Hr. apply in_seq in Hr. lia.
Qed.

Lemma reset_step E L h : wf h -> Inv L (load h) -> exists h', h_reset E h = (h', Ok tt) /\ reset E (load h) = (load h', Ok tt) /\ wf h' /\ renewed h h'.
Proof.
  intros W H. destruct (lattice_reset_step h W) as (h1 & R1 & L1 & W1 & A1 & A2 & A3 & A4 & A5).
  destruct (lattice_reset_ok L (lat (load h)) (i_static _ _ H)) as (Sr & Hf). destruct (init_fresh L _ Sr Hf) as (l & Ei & _).
  set (h2 := put_pool [] 0 h1). assert (W2 : wf h2) by now apply wf_empty.
  assert (Ei2 : init_clusters (lat (load h2)) = Ok (fresh_pool L, l)) by (unfold h2; rewrite load_empty, L1; exact Ei).
  destruct (init_step h2 _ l W2 Ei2) as (h3 & R3 & L3 & W3 & N3).
  destruct (rest_qs E h3 W3) as (s & R4 & L4 & W4). pose proof (reset_split E (load h) _ _ Ei) as Es.
  assert (Ex : load h3 = set_pool (fresh_pool L) (set_lat l (set_pool empty_pool (set_lat (lattice_reset (lat (load h))) (load h))))) by (rewrite L3; unfold h2; rewrite load_empty, L1; reflexivity).
  destruct (reset_inv E L (load h) H) as (sr & Er & _). rewrite Ex in R4, L4. rewrite <- Es, Er in R4, L4. cbn [fst snd] in R4, L4.
  exists (put_obj s h3). split; [|split; [|split]].
  - rewrite h_reset_split, R1. fold h2. rewrite R3. exact R4.
  - rewrite L4. exact Er.
  - exact W4.
  - destruct N3 as (ls & os & az & B1 & B2 & B3 & B4 & B5 & B6). change (h_lists (put_pool [] 0 h2)) with (h_lists h1) in *. change (h_clu (put_pool [] 0 h2)) with (h_clu h1) in *.
    change (h_cl (put_pool [] 0 h2)) with (@nil nat) in B3. change (h_idx (put_pool [] 0 h2)) with (h_idx h1) in B4. change (h_rel (put_pool [] 0 h2)) with (h_rel h1) in B5.
    rewrite A1, A2 in *. constructor.
    + exists ls. exact B1.
    + exists os. exact B2.
    + destruct A4 as (li & A4). exists li. cbn [put_obj h_idx]. now rewrite B4.
    + intros a Ha. cbn [put_obj h_cl] in Ha. rewrite B3 in Ha. exact (B6 a Ha).
    + intros r Hr. cbn [put_obj h_rel] in Hr. rewrite B5 in Hr. auto.
Qed.

Lemma new_step E k L t0 s0 : new_perc E k L t0 = Ok s0 -> exists h0, h_new E k L t0 = Ok h0 /\ load h0 = s0 /\ wf h0.
Proof.
  intros Hn. pose proof (new_perc_pos _ _ _ _ _ Hn) as HL. unfold new_perc in Hn. apply rbind_ok in Hn as (lat0 & E0 & Hn). apply rbind_ok in Hn as ((p & lat1) & E1 & Hn).
  apply rbind_ok in Hn as (mx & Em & Hn). cbv zeta in Hn. unfold h_new. rewrite E0. cbn [rbind]. set (n := length (l_sites lat0)).
  destruct (new_fresh L lat0 HL E0) as (St & Hf).
  assert (Rl : map s_rel (l_sites lat0) = repeat (0, 0) n).
  { assert (Fa : Forall (fun x => s_rel x = (0, 0)) (l_sites lat0)).
    { apply Forall_forall. intros x Hx. destruct (In_nth _ _ x Hx) as (i & Hi & Ex). pose proof (st_ns _ _ St) as Zn. unfold zlen in Zn.
      assert (Si : is_site L (Z.of_nat i)) by (unfold is_site; lia). destruct (Hf _ Si) as (_ & Q & _). unfold rl, site_at, at_ in Q. replace (0 <=? Z.of_nat i) with true in Q by lia.
      rewrite Nat2Z.id, (nth_indep _ _ x Hi), Ex in Q. exact Q. }
    unfold n. clear - Fa. induction Fa as [|x t Hx Ft IH]; [reflexivity|]. cbn [map length repeat]. now rewrite Hx, IH. }
  set (h0 := mkHeap (blank k lat0) [] [] [] 0 (repeat (new_rel 0 0) n) (seq 0 n)).
  assert (Ln : length (l_sites lat0) = n) by reflexivity.
  assert (W0 : wf h0).
  { constructor; cbn [h0 h_cl h_clu h_lists h_rel h_obj h_idx]; try solve [intros a []|intros a b []].
    - constructor.
    - rewrite seq_length. reflexivity.
    - apply seq_NoDup.
    - intros r Hr. apply in_seq in Hr. rewrite repeat_length. lia.
    - intros r Hr. apply in_seq in Hr. unfold idx_at. cbn [h0 h_idx]. pose proof (nth_fresh [] n (new_rel 0 0) (new_rel 0 0) r) as Z. cbn in Z. rewrite Z by lia. reflexivity. }
  assert (L0 : load h0 = blank k lat0).
  { unfold load. cbn [h0 h_obj h_cl h_next h_rel map]. change (lat (blank k lat0)) with lat0. rewrite (with_rels_id lat0); [reflexivity|]. rewrite Rl.
    unfold idx_at. cbn [h0 h_idx]. symmetry. exact (fresh_rels [] n). }
  assert (Ei : init_clusters (lat (load h0)) = Ok (p, lat1)) by (rewrite L0; exact E1).
  destruct (init_step h0 p lat1 W0 Ei) as (h1 & R1 & L1 & W1 & _). rewrite R1.
  assert (La : with_rels (lat (h_obj h1)) (map (fun r => as_list (idx_at h1 r)) (h_rel h1)) = lat1) by (rewrite <- lat_load, L1; reflexivity).
  assert (Lb : l_bond_count (lat (h_obj h1)) = l_bond_count lat1) by (rewrite <- La; reflexivity).
  assert (Lc : l_site_count (lat (h_obj h1)) = l_site_count lat1) by (rewrite <- La; reflexivity).
  assert (Lp : mkPool (map (shown h1) (h_cl h1)) (h_next h1) = p) by (rewrite <- pool_load, L1; reflexivity).
  rewrite Lb, Lc, Em. cbn [rbind]. cbv zeta.
  match goal with |- context [hlift (shuffle E) ?x] => set (h2 := x) end.
  match type of Hn with context [shuffle E ?x] => set (s2 := x) in * end.
  assert (L2 : load h2 = s2).
  { transitivity (set_pool (mkPool (map (shown h1) (h_cl h1)) (h_next h1)) (set_lat (with_rels (lat (h_obj h1)) (map (fun r => as_list (idx_at h1 r)) (h_rel h1))) (h_obj h2))); [reflexivity|]. rewrite Lp, La. reflexivity. }
  assert (W2 : wf h2). { destruct W1. constructor; auto. }
  destruct (qs_lift (shuffle E) (k_shuffle E) h2 W2) as (s3 & R3 & L3 & W3). rewrite R3. rewrite L2 in *. destruct (shuffle E s2) as [s4 [u|e]]; [|discriminate]. cbn [fst snd] in *.
  exists (put_obj s3 h2). split; [reflexivity|]. split; [congruence|exact W3].
Qed.
