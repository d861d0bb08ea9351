(** * HeapFacts: the store of Heap.v refines the values of Perc.v. *)
From Coq Require Import ZArith List Bool Lia.
From Verif Require Import Py Lattice Cluster Perc PyFacts History Heap.
Import ListNotations.
Open Scope Z_scope.

Record wf (h : heap) : Prop := mkWf {
  w_cl : forall a, In a (h_cl h) -> (a < length (h_clu h))%nat;
  w_nd : NoDup (h_cl h);
  w_s : forall a, In a (h_cl h) -> (o_sites (obj_at h a) < length (h_lists h))%nat;
  w_b : forall a, In a (h_cl h) -> (o_bonds (obj_at h a) < length (h_lists h))%nat;
  w_ss : forall a b, In a (h_cl h) -> In b (h_cl h) -> o_sites (obj_at h a) = o_sites (obj_at h b) -> a = b;
  w_bb : forall a b, In a (h_cl h) -> In b (h_cl h) -> o_bonds (obj_at h a) = o_bonds (obj_at h b) -> a = b;
  w_sb : forall a b, In a (h_cl h) -> In b (h_cl h) -> o_sites (obj_at h a) <> o_bonds (obj_at h b);
  w_rl : length (h_rel h) = length (l_sites (lat (h_obj h)));
  w_rd : NoDup (h_rel h);
  w_ri : forall r, In r (h_rel h) -> (r < length (h_idx h))%nat;
  w_rc : forall r, In r (h_rel h) -> i_cls (idx_at h r) = CRel
}.

(** Only the lists of cluster [a] are written to; other clusters may be cleared. *)
Record T (a : nat) (h h' : heap) : Prop := mkT {
  t_cl : h_cl h' = h_cl h;
  t_clu : length (h_clu h') = length (h_clu h);
  t_len : (length (h_lists h) <= length (h_lists h'))%nat;
  t_idx : exists l, h_idx h' = h_idx h ++ l;
  t_dead : forall b, ~ In b (h_cl h) -> obj_at h' b = obj_at h b;
  t_root : obj_at h' a = obj_at h a;
  t_obj : forall b, In b (h_cl h) -> obj_at h' b = obj_at h b \/
    (o_gid (obj_at h' b) = -1 /\ (length (h_lists h) <= o_sites (obj_at h' b))%nat /\ (length (h_lists h) <= o_bonds (obj_at h' b))%nat);
  t_list : forall r, (r < length (h_lists h))%nat -> r <> o_sites (obj_at h a) -> r <> o_bonds (obj_at h a) -> contents h' r = contents h r;
  t_ext : forall r, (r < length (h_lists h))%nat -> exists l, contents h' r = contents h r ++ l
}.
Lemma T_refl a h : T a h h.
Proof. constructor; auto; [exists []; now rewrite app_nil_r|intros r _; exists []; now rewrite app_nil_r]. Qed.
Lemma T_same a h h' : h_cl h' = h_cl h -> h_clu h' = h_clu h -> h_lists h' = h_lists h -> (exists l, h_idx h' = h_idx h ++ l) -> T a h h'.
Proof.
  intros A B C D. assert (O : forall b, obj_at h' b = obj_at h b) by (intros; unfold obj_at; now rewrite B).
  assert (L : forall r, contents h' r = contents h r) by (intros; unfold contents; now rewrite C).
  constructor; auto; [now rewrite B|now rewrite C|intros r _; exists []; now rewrite app_nil_r, L].
Qed.
Lemma T_trans a h1 h2 h3 : T a h1 h2 -> T a h2 h3 -> T a h1 h3.
Proof.
  intros A B. pose proof (t_len _ _ _ A). pose proof (t_len _ _ _ B). constructor.
  - now rewrite (t_cl _ _ _ B), (t_cl _ _ _ A).
  - now rewrite (t_clu _ _ _ B), (t_clu _ _ _ A).
  - lia.
  - destruct (t_idx _ _ _ A) as (l & El). destruct (t_idx _ _ _ B) as (m & Em). exists (l ++ m). now rewrite Em, El, app_assoc.
  - intros b Hb. rewrite (t_dead _ _ _ B), (t_dead _ _ _ A); auto. now rewrite (t_cl _ _ _ A).
  - now rewrite (t_root _ _ _ B), (t_root _ _ _ A).
  - intros b Hb. assert (Hb2 : In b (h_cl h2)) by now rewrite (t_cl _ _ _ A).
    destruct (t_obj _ _ _ B b Hb2) as [E|(G & P & Q)]; [rewrite E; exact (t_obj _ _ _ A b Hb)|]. right. split; [exact G|]. split; lia.
  - intros r Hr N1 N2. rewrite (t_list _ _ _ B); [now apply (t_list _ _ _ A)|lia|rewrite (t_root _ _ _ A); auto..].
  - intros r Hr. destruct (t_ext _ _ _ A r Hr) as (l & El). destruct (t_ext _ _ _ B r) as (m & Em); [lia|]. exists (l ++ m). now rewrite Em, El, app_assoc.
Qed.

(** ** Loading *)
Lemma set_pool_id s : set_pool (pool s) s = s. Proof. destruct s; reflexivity. Qed.
Lemma set_lat_id s : set_lat (lat s) s = s. Proof. destruct s; reflexivity. Qed.
Lemma with_rels_id l rs : map s_rel (l_sites l) = rs -> with_rels l rs = l.
Proof.
  intros <-. unfold with_rels, with_sites. destruct l as [n b c ss bs]; cbn [l_sites l_length l_bond_count l_site_count l_bonds].
  f_equal. induction ss as [|x ss IH]; [reflexivity|]. cbn. rewrite IH. now destruct x.
Qed.
Lemma rels_with l rs : length rs = length (l_sites l) -> map s_rel (l_sites (with_rels l rs)) = rs.
Proof.
  unfold with_rels, with_sites. cbn [l_sites]. revert rs. induction (l_sites l) as [|x ss IH]; intros [|r rs]; cbn; try discriminate; auto.
  intros E. f_equal. apply IH. lia.
Qed.
Lemma len_with l rs : length rs = length (l_sites l) -> length (l_sites (with_rels l rs)) = length (l_sites l).
Proof. intros E. unfold with_rels, with_sites. cbn [l_sites]. rewrite map_length, combine_length. lia. Qed.
Lemma lat_load h : lat (load h) = with_rels (lat (h_obj h)) (map (fun r => as_list (idx_at h r)) (h_rel h)).
Proof. reflexivity. Qed.
Lemma pool_load h : pool (load h) = mkPool (map (shown h) (h_cl h)) (h_next h).
Proof. reflexivity. Qed.
Lemma rels_load h : wf h -> map s_rel (l_sites (lat (load h))) = map (fun r => as_list (idx_at h r)) (h_rel h).
Proof. intros W. rewrite lat_load. apply rels_with. now rewrite map_length, (w_rl _ W). Qed.
Lemma len_load h : wf h -> length (l_sites (lat (load h))) = length (h_rel h).
Proof. intros W. rewrite lat_load, len_with; [now rewrite (w_rl _ W)|]. now rewrite map_length, (w_rl _ W). Qed.

(** ** Methods that leave the store alone *)
Definition quiet_to (s s' : perc) : Prop := pool s' = pool s /\ map s_rel (l_sites (lat s')) = map s_rel (l_sites (lat s)).
Lemma load_put s' h : wf h -> quiet_to (load h) s' -> load (put_obj s' h) = s' /\ wf (put_obj s' h) /\ forall a, T a h (put_obj s' h).
Proof.
  intros W (P & R). split; [|split].
  - unfold load at 1. cbn [h_obj h_cl h_next h_rel put_obj].
    change (map (shown (put_obj s' h)) (h_cl h)) with (map (shown h) (h_cl h)). rewrite <- pool_load, <- P.
    change (fun r => as_list (idx_at (put_obj s' h) r)) with (fun r => as_list (idx_at h r)).
    rewrite (with_rels_id (lat s')) by (rewrite R; now apply rels_load). now rewrite set_lat_id, set_pool_id.
  - destruct W. constructor; auto. cbn [h_rel h_obj put_obj]. rewrite <- (map_length s_rel (l_sites (lat s'))), R, map_length. symmetry. now apply len_load.
  - intros a. apply T_same; auto. exists []. now rewrite app_nil_r.
Qed.
Definition quiet {A} (m : M A) : Prop := forall s, quiet_to s (fst (m s)).
Lemma quiet_refl s : quiet_to s s. Proof. split; reflexivity. Qed.
Lemma quiet_trans a b c : quiet_to a b -> quiet_to b c -> quiet_to a c.
Proof. intros (A & B) (C & D). split; congruence. Qed.

(** ** Successful steps *)
Definition stp {A} (a : nat) (hm : HM A) (h : heap) (s' : perc) (x : A) : Prop :=
  exists h', hm h = (h', Ok x) /\ load h' = s' /\ wf h' /\ T a h h'.
Lemma stp_bind {A B} a (m : HM A) (k : A -> HM B) h s1 s2 x y :
  stp a m h s1 x -> (forall h1, load h1 = s1 -> wf h1 -> T a h h1 -> stp a (k x) h1 s2 y) -> stp a (hbind m k) h s2 y.
Proof.
  intros (h1 & E1 & L1 & W1 & T1) K. destruct (K h1 L1 W1 T1) as (h2 & E2 & L2 & W2 & T2).
  exists h2. unfold hbind. rewrite E1. split; auto. split; auto. split; auto. eapply T_trans; eauto.
Qed.
Lemma stp_ret {A} a (x : A) h : wf h -> stp a (hret x) h (load h) x.
Proof. intros W. exists h. split; [reflexivity|]. split; auto. split; auto. apply T_refl. Qed.
Lemma stp_res {A} a (r : res A) x h : wf h -> r = Ok x -> stp a (hres r) h (load h) x.
Proof. intros W ->. now apply stp_ret. Qed.
Lemma stp_lift {A} a (m : M A) h s' x : wf h -> m (load h) = (s', Ok x) -> quiet_to (load h) s' -> stp a (hlift m) h s' x.
Proof.
  intros W E Q. destruct (load_put s' h W Q) as (L & W' & T'). exists (put_obj s' h). split; [|split; [exact L|split; auto]].
  unfold hlift. now rewrite E.
Qed.
Lemma stp_get a h : wf h -> stp a (hlift get) h (load h) (load h).
Proof. intros W. apply stp_lift; auto. apply quiet_refl. Qed.
Lemma stp_step {A B} a (m : HM A) (k : A -> HM B) h h1 x s2 y : m h = (h1, Ok x) -> T a h h1 -> stp a (k x) h1 s2 y -> stp a (hbind m k) h s2 y.
Proof. intros E T1 (h2 & E2 & L2 & W2 & T2). exists h2. unfold hbind. rewrite E. split; auto. split; auto. split; auto. eapply T_trans; eauto. Qed.
Lemma stp_hget {B} a (k : heap -> HM B) h s' y : stp a (k h) h s' y -> stp a (hbind hget k) h s' y.
Proof. intros H. exact H. Qed.
Lemma stp_bget {B} a (k : perc -> HM B) h s' y : wf h -> (forall h1, load h1 = load h -> wf h1 -> T a h h1 -> stp a (k (load h)) h1 s' y) ->
  stp a (hbind (hlift get) k) h s' y.
Proof. intros W K. eapply stp_bind; [now apply stp_get|]. exact K. Qed.
Lemma stp_bres {A B} a (r : res A) x (k : A -> HM B) h s' y : r = Ok x -> stp a (k x) h s' y -> stp a (hbind (hres r) k) h s' y.
Proof. intros -> K. exact K. Qed.

Lemma stp_lat a f h l : wf h -> f (lat (load h)) = Ok l -> map s_rel (l_sites l) = map s_rel (l_sites (lat (load h))) ->
  stp a (h_lat f) h (set_lat l (load h)) tt.
Proof.
  intros W E R. unfold h_lat. apply stp_bget; auto. intros h1 E1 W1 _. apply (stp_bres a _ l); [exact E|].
  exists (put_obj (set_lat l (h_obj h1)) h1). split; [reflexivity|].
  assert (Q : load (put_obj (set_lat l (h_obj h1)) h1) = set_lat l (load h)).
  { rewrite <- E1. unfold load. cbn [h_obj h_cl h_next h_rel put_obj].
    change (map (shown (put_obj (set_lat l (h_obj h1)) h1)) (h_cl h1)) with (map (shown h1) (h_cl h1)).
    change (fun r => as_list (idx_at (put_obj (set_lat l (h_obj h1)) h1) r)) with (fun r => as_list (idx_at h1 r)).
    change (lat (set_lat l (h_obj h1))) with l.
    rewrite (with_rels_id l) by (rewrite R, <- E1; now apply rels_load). reflexivity. }
  split; [exact Q|]. split.
  - assert (E2 : length (h_rel h1) = length (l_sites l)).
    { rewrite <- (map_length s_rel (l_sites l)), R, map_length, <- E1. symmetry. now apply len_load. }
    destruct W1. constructor; auto.
  - apply T_same; auto. exists []. now rewrite app_nil_r.
Qed.

(** ** Lists *)
Lemma lget_map {A B} (f : A -> B) l i : lget (map f l) i = (x <- lget l i ;; Ok (f x)).
Proof. unfold lget. rewrite zlen_map. destruct (py_pos (zlen l) i) as [k|]; [|reflexivity]. rewrite nth_error_map. destruct (nth_error l k); reflexivity. Qed.
Lemma lget_pos {A} (l : list A) i x : lget l i = Ok x -> exists k, py_pos (zlen l) i = Some k /\ nth_error l k = Some x.
Proof. unfold lget. destruct (py_pos (zlen l) i) as [k|]; [|discriminate]. destruct (nth_error l k) eqn:E; [|discriminate]. intros Q. injection Q as <-. eauto. Qed.
Lemma pos_lget {A} (l : list A) i k x : py_pos (zlen l) i = Some k -> nth_error l k = Some x -> lget l i = Ok x.
Proof. intros A1 B1. unfold lget. now rewrite A1, B1. Qed.
Lemma map_upd_at {A B} (f f' : A -> B) (l : list A) k a v : NoDup l -> nth_error l k = Some a ->
  (forall b, In b l -> b <> a -> f' b = f b) -> f' a = v -> map f' l = upd (map f l) k v.
Proof.
  intros ND. revert k. induction ND as [|b l Hb ND IH]; intros [|k]; cbn; try discriminate.
  - intros [= ->] H <-. f_equal. apply map_ext_in. intros c Hc. apply H; [now right|]. now intros ->.
  - intros E H <-. rewrite (IH k) by auto. f_equal. apply H; [now left|]. intros ->. apply Hb. eapply nth_error_In; eauto.
Qed.
Lemma nth_upd_nat {A} (d : A) (l : list A) : forall k r v, (k < length l)%nat -> nth r (upd l k v) d = if Nat.eqb r k then v else nth r l d.
Proof. intros. now apply upd_nth. Qed.

Lemma cont_ext h r ys q : (r < length (h_lists h))%nat ->
  contents (put_lists (upd (h_lists h) r (contents h r ++ ys)) h) q = if Nat.eqb q r then contents h r ++ ys else contents h q.
Proof. intros H. unfold contents at 1. cbn [h_lists put_lists]. rewrite upd_nth by auto. destruct (q =? r)%nat; reflexivity. Qed.
Lemma obj_pl l h b : obj_at (put_lists l h) b = obj_at h b. Proof. reflexivity. Qed.

Lemma wf_ext h l : wf h -> (length (h_lists h) <= length l)%nat -> wf (put_lists l h).
Proof.
  intros W Hl. destruct W. constructor; auto.
  - intros b Hb. specialize (w_s0 b Hb). unfold obj_at in *. cbn [h_lists put_lists h_clu] in *. lia.
  - intros b Hb. specialize (w_b0 b Hb). unfold obj_at in *. cbn [h_lists put_lists h_clu] in *. lia.
Qed.
Lemma T_ext a h r ys : (r < length (h_lists h))%nat -> r = o_sites (obj_at h a) \/ r = o_bonds (obj_at h a) ->
  T a h (put_lists (upd (h_lists h) r (contents h r ++ ys)) h).
Proof.
  intros Hr Ha. constructor; auto.
  - cbn [h_lists put_lists]. now rewrite upd_length.
  - exists []. now rewrite app_nil_r.
  - intros q Hq N1 N2. rewrite cont_ext by auto. destruct (Nat.eqb_spec q r); [exfalso; destruct Ha; congruence|reflexivity].
  - intros q Hq. rewrite cont_ext by auto. destruct (Nat.eqb_spec q r); [subst; now exists ys|exists []; now rewrite app_nil_r].
Qed.
Definition grown_s (c : cluster) (ys : list Z) : cluster := mkCluster (c_sites c ++ ys) (c_bonds c) (c_gid c) (c_id c).
Definition grown_b (c : cluster) (ys : list Z) : cluster := mkCluster (c_sites c) (c_bonds c ++ ys) (c_gid c) (c_id c).
Definition pool_upd (p : cpool) (k : nat) (c : cluster) : cpool := mkPool (upd (p_list p) k c) (p_next p).

Lemma load_lists h l : load (put_lists l h) = set_pool (mkPool (map (shown (put_lists l h)) (h_cl h)) (h_next h)) (load h).
Proof. reflexivity. Qed.

Lemma stp_ext_s a h k ys : wf h -> nth_error (h_cl h) k = Some a ->
  stp a (h_extend (sites_list h a) ys) h (set_pool (pool_upd (pool (load h)) k (grown_s (shown h a) ys)) (load h)) tt.
Proof.
  intros W Hk. pose proof (nth_error_In _ _ Hk) as Ia. pose proof (w_s _ W a Ia) as Hr. unfold sites_list. eexists. split; [reflexivity|]. split; [|split].
  - rewrite load_lists. unfold pool_upd. rewrite pool_load. cbn [p_list p_next]. f_equal. f_equal.
    apply (map_upd_at _ _ _ _ a); auto; [apply (w_nd _ W)| |].
    + intros b Ib Nb. unfold shown. rewrite obj_pl, !cont_ext by auto.
      destruct (Nat.eqb_spec (o_sites (obj_at h b)) (o_sites (obj_at h a))) as [Q|]; [exfalso; apply Nb; now apply (w_ss _ W)|].
      destruct (Nat.eqb_spec (o_bonds (obj_at h b)) (o_sites (obj_at h a))) as [Q|]; [exfalso; symmetry in Q; now apply (w_sb _ W a b) in Q|]. reflexivity.
    + unfold shown, grown_s. rewrite obj_pl, !cont_ext, Nat.eqb_refl by auto. cbn [c_sites c_bonds c_gid c_id].
      destruct (Nat.eqb_spec (o_bonds (obj_at h a)) (o_sites (obj_at h a))) as [Q|]; [exfalso; symmetry in Q; now apply (w_sb _ W a a) in Q|]. reflexivity.
  - apply wf_ext; auto. now rewrite upd_length.
  - apply T_ext; auto.
Qed.
Lemma stp_ext_b a h k ys : wf h -> nth_error (h_cl h) k = Some a ->
  stp a (h_extend (bonds_list h a) ys) h (set_pool (pool_upd (pool (load h)) k (grown_b (shown h a) ys)) (load h)) tt.
Proof.
  intros W Hk. pose proof (nth_error_In _ _ Hk) as Ia. pose proof (w_b _ W a Ia) as Hr. unfold bonds_list. eexists. split; [reflexivity|]. split; [|split].
  - rewrite load_lists. unfold pool_upd. rewrite pool_load. cbn [p_list p_next]. f_equal. f_equal.
    apply (map_upd_at _ _ _ _ a); auto; [apply (w_nd _ W)| |].
    + intros b Ib Nb. unfold shown. rewrite obj_pl, !cont_ext by auto.
      destruct (Nat.eqb_spec (o_bonds (obj_at h b)) (o_bonds (obj_at h a))) as [Q|]; [exfalso; apply Nb; now apply (w_bb _ W)|].
      destruct (Nat.eqb_spec (o_sites (obj_at h b)) (o_bonds (obj_at h a))) as [Q|]; [exfalso; now apply (w_sb _ W b a) in Q|]. reflexivity.
    + unfold shown, grown_b. rewrite obj_pl, !cont_ext, Nat.eqb_refl by auto. cbn [c_sites c_bonds c_gid c_id].
      destruct (Nat.eqb_spec (o_sites (obj_at h a)) (o_bonds (obj_at h a))) as [Q|]; [exfalso; now apply (w_sb _ W a a) in Q|]. reflexivity.
  - apply wf_ext; auto. now rewrite upd_length.
  - apply T_ext; auto.
Qed.

(** ** cluster.py *)
Lemma pool_get h g : lget (p_list (pool (load h))) g = (a <- lget (h_cl h) g ;; Ok (shown h a)).
Proof. rewrite pool_load. cbn [p_list]. apply lget_map. Qed.
Lemma zlen_pool h : zlen (p_list (pool (load h))) = zlen (h_cl h).
Proof. rewrite pool_load. cbn [p_list]. apply zlen_map. Qed.
Lemma rbind_ok {A B} (r : res A) (f : A -> res B) y : (x <- r ;; f x) = Ok y -> exists x, r = Ok x /\ f x = Ok y.
Proof. destruct r; [eauto|discriminate]. Qed.
Lemma lset_pos {A} (l : list A) i k v : py_pos (zlen l) i = Some k -> lset l i v = Ok (upd l k v).
Proof. intros E. unfold lset. now rewrite E. Qed.

Lemma stp_add_site a h g s p : wf h -> lget (h_cl h) g = Ok a -> pool_add_site (pool (load h)) g s = Ok p ->
  stp a (h_add_site g s) h (set_pool p (load h)) tt.
Proof.
  intros W Ea E. destruct (lget_pos _ _ _ Ea) as (k & Ek & Hk). unfold h_add_site. apply stp_hget. apply (stp_bres a _ a); auto.
  unfold pool_add_site in E. rewrite pool_get, Ea in E. cbn [rbind] in E. rewrite (lset_pos _ _ k) in E by (now rewrite zlen_pool).
  cbn [rbind] in E. injection E as <-. exact (stp_ext_s a h k [s] W Hk).
Qed.

Lemma stp_clear a b h g p : wf h -> lget (h_cl h) g = Ok b -> b <> a -> clear_cluster (pool (load h)) g = Ok p ->
  stp a (h_clear_cluster g) h (set_pool p (load h)) tt.
Proof.
  intros W Eb Nb E. destruct (lget_pos _ _ _ Eb) as (k & Ek & Hk). pose proof (nth_error_In _ _ Hk) as Ib.
  unfold clear_cluster in E. rewrite pool_get, Eb in E. cbn [rbind] in E. rewrite (lset_pos _ _ k) in E by (now rewrite zlen_pool).
  cbn [rbind] in E. injection E as <-. unfold h_clear_cluster. apply stp_hget. apply (stp_bres a _ b); auto. cbv zeta.
  set (n := length (h_lists h)). set (o := mkObj n (S n) (-1) (-1)).
  pose (h' := put_clu (upd (h_clu h) b o) (put_lists (h_lists h ++ [[]; []]) h)).
  exists h'. split; [reflexivity|]. assert (Hb : (b < length (h_clu h))%nat) by now apply (w_cl _ W).
  assert (O : forall c, obj_at h' c = if (c =? b)%nat then o else obj_at h c).
  { intros c. unfold obj_at, h'. cbn [h_clu put_clu]. now apply upd_nth. }
  assert (C : forall r, (r < n)%nat -> contents h' r = contents h r).
  { intros r Hr. unfold contents, h'. cbn [h_lists put_clu put_lists]. now rewrite app_nth1. }
  assert (C1 : contents h' n = [] /\ contents h' (S n) = []).
  { unfold contents, h', n. cbn [h_lists put_clu put_lists]. rewrite !app_nth2 by lia. rewrite Nat.sub_diag. replace (S (length (h_lists h)) - length (h_lists h))%nat with 1%nat by lia. split; reflexivity. }
  assert (Le : length (h_lists h') = (n + 2)%nat) by (unfold h'; cbn [h_lists put_clu put_lists]; rewrite app_length; reflexivity).
  assert (Bs : forall c, In c (h_cl h) -> (o_sites (obj_at h c) < n /\ o_bonds (obj_at h c) < n)%nat) by (intros c Hc; split; [now apply (w_s _ W)|now apply (w_b _ W)]).
  split; [|split].
  - transitivity (set_pool (mkPool (map (shown h') (h_cl h)) (h_next h)) (load h)); [reflexivity|]. f_equal. f_equal.
    apply (map_upd_at _ _ _ _ b); auto; [apply (w_nd _ W)| |].
    + intros c Hc Nc. unfold shown. rewrite O. destruct (Nat.eqb_spec c b); [congruence|]. destruct (Bs c Hc). now rewrite !C by auto.
    + unfold shown. rewrite O, Nat.eqb_refl. unfold o; cbn [o_sites o_bonds o_gid o_id]. destruct C1 as (-> & ->). reflexivity.
  - constructor; try solve [exact (w_nd _ W)|exact (w_rl _ W)|exact (w_rd _ W)|exact (w_ri _ W)|exact (w_rc _ W)].
    + intros c Hc. unfold h'. cbn [h_clu put_clu]. rewrite upd_length. now apply (w_cl _ W).
    + intros c Hc. rewrite O, Le. destruct (Nat.eqb_spec c b); [unfold o; cbn; lia|]. destruct (Bs c Hc). lia.
    + intros c Hc. rewrite O, Le. destruct (Nat.eqb_spec c b); [unfold o; cbn; lia|]. destruct (Bs c Hc). lia.
    + intros c d Hc Hd. rewrite !O. destruct (Bs c Hc), (Bs d Hd). destruct (Nat.eqb_spec c b), (Nat.eqb_spec d b); subst; auto; unfold o; cbn [o_sites]; try lia. now apply (w_ss _ W).
    + intros c d Hc Hd. rewrite !O. destruct (Bs c Hc), (Bs d Hd). destruct (Nat.eqb_spec c b), (Nat.eqb_spec d b); subst; auto; unfold o; cbn [o_bonds]; try lia. now apply (w_bb _ W).
    + intros c d Hc Hd. rewrite !O. destruct (Bs c Hc), (Bs d Hd). destruct (Nat.eqb_spec c b), (Nat.eqb_spec d b); subst; auto; unfold o; cbn [o_bonds o_sites]; try lia. now apply (w_sb _ W).
  - constructor; auto.
    + unfold h'. cbn [h_clu put_clu]. now rewrite upd_length.
    + rewrite Le. unfold n. lia.
    + exists []. now rewrite app_nil_r.
    + intros c Hc. rewrite O. destruct (Nat.eqb_spec c b); [subst; contradiction|reflexivity].
    + rewrite O. destruct (Nat.eqb_spec a b); [congruence|reflexivity].
    + intros c Hc. rewrite O. destruct (Nat.eqb_spec c b); [right; unfold o; cbn; fold n; repeat split; lia|now left].
    + intros r Hr. exists []. rewrite app_nil_r. now apply C.
Qed.

(** Loops that only change labels. *)
Lemma foldM_cons {A B} (f : A -> B -> res A) x l acc : foldM f (x :: l) acc = (acc' <- f acc x ;; foldM f l acc'). Proof. reflexivity. Qed.
Lemma rels_set_site l i g l' : set_site_gid_by_id l i g = Ok l' -> map s_rel (l_sites l') = map s_rel (l_sites l).
Proof.
  unfold set_site_gid_by_id. intros H. apply rbind_ok in H as (x & Ex & H). apply rbind_ok in H as (ss & Es & H). injection H as <-.
  cbn [l_sites with_sites]. destruct (lget_pos _ _ _ Ex) as (k & Ek & Hk). rewrite (lset_pos _ _ k) in Es by auto. injection Es as <-.
  clear Ek Ex. revert k Hk. induction (l_sites l) as [|y t IH]; intros [|k]; cbn; try discriminate; [now intros [= ->]|]. intros Q. now rewrite (IH k).
Qed.
Lemma rels_set_bond l i g l' : set_bond_gid_by_id l i g = Ok l' -> map s_rel (l_sites l') = map s_rel (l_sites l).
Proof. unfold set_bond_gid_by_id. intros H. apply rbind_ok in H as (x & Ex & H). apply rbind_ok in H as (ss & Es & H). now injection H as <-. Qed.
Lemma stp_labels a (f : lattice -> Z -> res lattice) (F : forall l x l', f l x = Ok l' -> map s_rel (l_sites l') = map s_rel (l_sites l)) xs :
  forall h l', wf h -> foldM f xs (lat (load h)) = Ok l' -> stp a (hfor xs (fun x => h_lat (fun l => f l x))) h (set_lat l' (load h)) tt.
Proof.
  induction xs as [|x xs IH]; intros h l' W H.
  - assert (l' = lat (load h)) as -> by (cbn [foldM] in H; congruence). rewrite set_lat_id. now apply stp_ret.
  - rewrite foldM_cons in H. apply rbind_ok in H as (l1 & E1 & H). cbn [hfor]. eapply stp_bind; [apply stp_lat; eauto|].
    intros h1 L1 W1 T1. specialize (IH h1 l' W1). rewrite L1 in IH. now apply IH.
Qed.
Lemma h_lat_eq f h : h_lat f h = match f (lat (load h)) with
  | Ok l => (put_obj (set_lat l (load h)) h, Ok tt) | Err e => (put_obj (load h) h, Err e) end.
Proof. unfold h_lat, hbind, hlift, get, hres, hmod. destruct (f (lat (load h))); reflexivity. Qed.
Lemma lists_labels (f : lattice -> Z -> res lattice) xs : forall h h' r, hfor xs (fun x => h_lat (fun l => f l x)) h = (h', r) ->
  h_lists h' = h_lists h /\ h_clu h' = h_clu h /\ h_cl h' = h_cl h.
Proof.
  induction xs as [|x xs IH]; intros h h' r H; [now injection H as <- _|]. cbn [hfor] in H. unfold hbind in H.
  rewrite h_lat_eq in H. destruct (f (lat (load h)) x).
  - apply IH in H. exact H.
  - now injection H as <- _.
Qed.

(** cluster.py:159-187 *)
Lemma stp_merge_with a b h ga gb p l : wf h -> lget (h_cl h) ga = Ok a -> lget (h_cl h) gb = Ok b -> a <> b ->
  merge_cluster_with (pool (load h)) ga gb (lat (load h)) = Ok (p, l) ->
  stp a (h_merge_cluster_with ga gb) h (set_pool p (set_lat l (load h))) tt.
Proof.
  intros W Ea Eb Nab E. destruct (lget_pos _ _ _ Ea) as (ka & Ka & Ha). destruct (lget_pos _ _ _ Eb) as (kb & Kb & Hb).
  pose proof (nth_error_In _ _ Ha) as Ia. pose proof (nth_error_In _ _ Hb) as Ib.
  unfold merge_cluster_with in E. rewrite !pool_get, Ea, Eb in E. cbn [rbind] in E.
  apply rbind_ok in E as (l1 & E1 & E). apply rbind_ok in E as (l2 & E2 & E).
  rewrite (lset_pos _ _ ka) in E by (now rewrite zlen_pool). cbn [rbind] in E.
  unfold h_merge_cluster_with. apply stp_hget. apply (stp_bres a _ a); auto. cbv zeta. apply (stp_bres a _ b); auto.
  destruct (stp_labels a (fun l x => set_bond_gid_by_id l x (o_gid (obj_at h a))) (fun l x l' => rels_set_bond l x _ l') _ h l1 W E1) as (h1 & R1 & L1 & W1 & T1).
  destruct (lists_labels _ _ _ _ _ R1) as (A1 & B1 & C1). apply (stp_step _ _ _ _ h1 tt); auto.
  assert (E2' : foldM (fun l x => set_site_gid_by_id l x (o_gid (obj_at h a))) (contents h (sites_list h b)) (lat (load h1)) = Ok l2) by (rewrite L1; exact E2).
  destruct (stp_labels a (fun l x => set_site_gid_by_id l x (o_gid (obj_at h a))) (fun l x l' => rels_set_site l x _ l') _ h1 l2 W1 E2') as (h2 & R2 & L2 & W2 & T2).
  destruct (lists_labels _ _ _ _ _ R2) as (A2 & B2 & C2). apply (stp_step _ _ _ _ h2 tt); auto. apply stp_hget. clear E1 E2 E2' R1 R2 T2 T1.
  assert (L2' : load h2 = set_lat l2 (load h)) by (rewrite L2, L1; reflexivity).
  assert (SH : forall c, shown h2 c = shown h c) by (intros c; unfold shown, obj_at, contents; now rewrite B2, B1, A2, A1).
  assert (Ha2 : nth_error (h_cl h2) ka = Some a) by now rewrite C2, C1. assert (Hb2 : nth_error (h_cl h2) kb = Some b) by now rewrite C2, C1.
  destruct (stp_ext_b a h2 ka (contents h2 (bonds_list h2 b)) W2 Ha2) as (h3 & R3 & L3 & W3 & T3). apply (stp_step _ _ _ _ h3 tt); auto. apply stp_hget.
  assert (Ha3 : nth_error (h_cl h3) ka = Some a) by now rewrite (t_cl _ _ _ T3). assert (C3 : h_cl h3 = h_cl h) by now rewrite (t_cl _ _ _ T3), C2, C1.
  assert (P3 : p_list (pool (load h3)) = upd (p_list (pool (load h))) ka (mkCluster (c_sites (shown h a)) (c_bonds (shown h a) ++ c_bonds (shown h b)) (c_gid (shown h a)) (c_id (shown h a)))).
  { rewrite L3. cbn [pool_upd pool set_pool p_list]. rewrite L2'. cbn [pool set_lat]. f_equal. unfold grown_b. rewrite SH.
    change (contents h2 (bonds_list h2 b)) with (c_bonds (shown h2 b)). now rewrite SH. }
  rewrite <- P3 in E. rewrite !pool_get, C3, Ea, Eb in E. cbn [rbind] in E.
  rewrite (lset_pos _ _ ka) in E by (now rewrite zlen_pool, C3). cbn [rbind] in E. injection E as <- <-.
  assert (N3 : h_next h3 = h_next h) by (change (p_next (pool (load h3)) = p_next (pool (load h))); rewrite L3, L2'; reflexivity).
  pose proof (stp_ext_s a h3 ka (contents h3 (sites_list h3 b)) W3 Ha3) as Q.
  match goal with |- stp _ _ _ ?s _ => match type of Q with stp _ _ _ ?u _ => replace s with u; [exact Q|] end end.
  unfold pool_upd. rewrite pool_load. cbn [p_list p_next]. rewrite N3, L3, !L2'. reflexivity.
Qed.

(** ** Relative indices *)
Lemma rel_get h id s : wf h -> lget (l_sites (lat (load h))) id = Ok s -> exists r, rel_addr h id = Ok r /\ as_list (idx_at h r) = s_rel s /\ In r (h_rel h).
Proof.
  intros W E. assert (Q : lget (map s_rel (l_sites (lat (load h)))) id = Ok (s_rel s)) by (rewrite lget_map, E; reflexivity).
  rewrite rels_load, lget_map in Q by auto. apply rbind_ok in Q as (r & Er & Q). exists r. split; [exact Er|]. split; [now injection Q|].
  destruct (lget_pos _ _ _ Er) as (k & _ & Hk). eapply nth_error_In; eauto.
Qed.
Lemma get_rel_index h c n r : wf h -> get_relative_index (lat (load h)) c n = Ok r -> exists v, h_get_relative_index h c n = Ok v /\ as_list v = r /\ i_cls v = CRel.
Proof.
  intros W E. unfold get_relative_index in E. apply rbind_ok in E as (sc & Ec & E). apply rbind_ok in E as (sn & En & E). injection E as <-.
  destruct (rel_get h c sc W Ec) as (ra & Ea & Er & _). unfold h_get_relative_index. rewrite Ec, En. cbn [rbind]. rewrite Ea. cbn [rbind].
  eexists. split; [reflexivity|]. split; [|reflexivity]. rewrite <- Er. reflexivity.
Qed.
Lemma map_rel_app h rs v : (forall r, In r rs -> (r < length (h_idx h))%nat) ->
  map (fun r => as_list (nth r (h_idx h ++ v) (new_rel 0 0))) rs = map (fun r => as_list (idx_at h r)) rs.
Proof. intros H. apply map_ext_in. intros r Hr. unfold idx_at. rewrite app_nth1; auto. Qed.
Lemma map_upd {A B} (f : A -> B) (l : list A) : forall k x, map f (upd l k x) = upd (map f l) k (f x).
Proof. induction l as [|a l IH]; intros [|k] x; cbn; auto. now rewrite IH. Qed.
Lemma with_rels_upd l : forall rs k r, length rs = length (l_sites l) ->
  with_rels l (upd rs k r) = with_sites (with_rels l rs) (upd (l_sites (with_rels l rs)) k (site_set_rel (nth k (l_sites (with_rels l rs)) (new_site 0 0 0)) r)).
Proof.
  intros rs k r H. unfold with_rels, with_sites. cbn [l_sites l_length l_bond_count l_site_count l_bonds]. f_equal.
  revert rs k H. induction (l_sites l) as [|x ss IH]; intros [|q rs] [|k]; cbn; try discriminate; auto; intros E; f_equal. apply IH. lia.
Qed.
Lemma upd_NoDup (l : list nat) k n : NoDup l -> ~ In n l -> NoDup (upd l k n) /\ forall x, In x (upd l k n) -> x = n \/ In x l.
Proof.
  intros ND. revert k. induction ND as [|a l Ha ND IH]; intros k Hn; cbn; [split; [constructor|tauto]|].
  destruct k as [|k].
  - split; [|cbn; intuition]. constructor; auto. intros Q. apply Hn. now right.
  - destruct (IH k) as (A & B); [intros Q; apply Hn; now right|]. split.
    + constructor; auto. intros Q. destruct (B a Q) as [->|]; [apply Hn; now left|contradiction].
    + intros x [->|Q]; [right; now left|]. destruct (B x Q); [now left|right; now right].
Qed.
Lemma stp_set_rel a h id v l : wf h -> i_cls v = CRel -> update_site (lat (load h)) id (fun s => Ok (site_set_rel s (as_list v))) = Ok l ->
  stp a (h_set_rel id v) h (set_lat l (load h)) tt.
Proof.
  intros W Cv E. unfold update_site in E. apply rbind_ok in E as (x & Ex & E). cbn [rbind] in E. apply rbind_ok in E as (ss & Es & E). injection E as <-.
  destruct (lget_pos _ _ _ Ex) as (k & Kx & Hx). rewrite (lset_pos _ _ k) in Es by auto. injection Es as <-.
  assert (Zl : zlen (h_rel h) = zlen (l_sites (lat (load h)))) by (unfold zlen; now rewrite len_load).
  unfold h_set_rel. apply stp_hget. apply (stp_bres a _ (upd (h_rel h) k (length (h_idx h)))); [apply lset_pos; now rewrite Zl|].
  set (n := length (h_idx h)). pose (h' := put_idx (h_idx h ++ [v]) (upd (h_rel h) k n) h). exists h'. split; [reflexivity|].
  assert (N : ~ In n (h_rel h)) by (intros Q; apply (w_ri _ W) in Q; unfold n in Q; lia).
  destruct (upd_NoDup (h_rel h) k n (w_rd _ W) N) as (ND & IN).
  assert (Iv : idx_at h' n = v) by (unfold idx_at, h', n; cbn [h_idx put_idx]; rewrite app_nth2, Nat.sub_diag by lia; reflexivity).
  split; [|split].
  - transitivity (set_pool (pool (load h)) (set_lat (with_rels (lat (h_obj h)) (map (fun r => as_list (idx_at h' r)) (upd (h_rel h) k n))) (h_obj h))); [reflexivity|].
    rewrite map_upd, Iv. unfold h' at 1, idx_at at 1. cbn [h_idx put_idx]. rewrite map_rel_app by (intros r Hr; now apply (w_ri _ W)).
    rewrite with_rels_upd by (now rewrite map_length, (w_rl _ W)). rewrite <- lat_load.
    rewrite (nth_error_nth _ _ (new_site 0 0 0) Hx). reflexivity.
  - constructor; try solve [exact (w_cl _ W)|exact (w_nd _ W)|exact (w_s _ W)|exact (w_b _ W)|exact (w_ss _ W)|exact (w_bb _ W)|exact (w_sb _ W)].
    + unfold h'. cbn [h_rel h_obj put_idx]. rewrite upd_length. apply (w_rl _ W).
    + exact ND.
    + intros r Hr. unfold h'. cbn [h_idx put_idx]. rewrite app_length. cbn. destruct (IN r Hr) as [->|Q]; [unfold n; lia|]. apply (w_ri _ W) in Q. lia.
    + intros r Hr. destruct (IN r Hr) as [->|Q]; [now rewrite Iv|]. unfold idx_at, h'. cbn [h_idx put_idx]. rewrite app_nth1 by now apply (w_ri _ W). now apply (w_rc _ W).
  - apply T_same; auto. exists [v]. reflexivity.
Qed.
Lemma set_rel_update l id r l' i : lget (zrange (l_site_count l)) id = Ok i -> lat_set_relative_index l id r = Ok l' -> update_site l i (fun s => Ok (site_set_rel s r)) = Ok l'.
Proof. unfold lat_set_relative_index, update_site. intros ->. cbn [rbind]. auto. Qed.
Lemma stp_set_relative_index a h id v l : wf h -> i_cls v = CRel -> lat_set_relative_index (lat (load h)) id (as_list v) = Ok l ->
  stp a (h_set_relative_index id v) h (set_lat l (load h)) tt.
Proof.
  intros W Cv E. unfold h_set_relative_index. apply stp_bget; auto. intros h1 L1 W1 _. pose proof E as E0. unfold lat_set_relative_index in E0.
  apply rbind_ok in E0 as (i & Ei & _). apply (stp_bres a _ i); auto. rewrite <- L1. rewrite <- L1 in Ei, E. apply stp_set_rel; auto. eapply set_rel_update; eauto.
Qed.
Lemma stp_relabel a h central cb l : wf h -> relabel_relative_indices (lat (load h)) (pool (load h)) central cb = Ok l ->
  stp a (h_relabel_relative_indices central cb) h (set_lat l (load h)) tt.
Proof.
  intros W E. unfold relabel_relative_indices in E. apply rbind_ok in E as (bd & Eb & E). cbv zeta in E. apply rbind_ok in E as (nb & En & E).
  apply rbind_ok in E as (sr & Er & E). unfold pool_get_sites in Er. rewrite pool_get in Er.
  unfold h_relabel_relative_indices. apply stp_bget; auto. intros h1 L1 W1 _.
  apply (stp_bres a _ bd); auto. cbv zeta. apply (stp_bres a _ nb); auto. apply stp_hget.
  assert (Er1 : pool_get_sites (pool (load h1)) (b_gid bd) = Ok sr) by (rewrite L1; unfold pool_get_sites; now rewrite pool_get).
  clear Er. unfold pool_get_sites in Er1. rewrite pool_get in Er1. apply rbind_ok in Er1 as (cc & Ec & Er1). injection Er1 as <-.
  apply rbind_ok in Ec as (c & Ec & Q). injection Q as <-. apply (stp_bres a _ c); auto. change (c_sites (shown h1 c)) with (contents h1 (sites_list h1 c)) in E.
  destruct (zlen _ =? 0) eqn:Ez; [assert (l = lat (load h)) as -> by congruence; rewrite set_lat_id, <- L1; now apply stp_ret|].
  apply rbind_ok in E as (ns & Ens & E). apply rbind_ok in E as (nr & Enr & E). apply rbind_ok in E as (cg & Ecg & E).
  pose proof Ens as Ens1. pose proof Enr as Enr1. rewrite <- L1 in Ens1, Enr1. destruct (rel_get h1 nb ns W1 Ens1) as (old & Eo & Vo & _). destruct (get_rel_index h1 central nb nr W1 Enr1) as (v & Ev & Vv & Cv).
  apply (stp_bres a _ old); auto. apply (stp_bres a _ v); auto. apply (stp_bres a _ cg); auto.
  destruct (0 <=? cg); [|assert (l = lat (load h)) as -> by congruence; rewrite set_lat_id, <- L1; now apply stp_ret].
  set (ch := h_get_change (idx_at h1 old) v). assert (Vc : as_list ch = get_change_in_relative_index (s_rel ns) nr) by (rewrite <- Vo, <- Vv; reflexivity).
  rewrite <- Vc in E. rewrite <- L1 in E |- *. clearbody ch. generalize dependent (contents h1 (sites_list h1 c)). intros xs _. clear - W1. revert h1 l W1.
  induction xs as [|x xs IH]; intros h l W E.
  - assert (l = lat (load h)) as -> by (cbn [foldM] in E; congruence). rewrite set_lat_id. now apply stp_ret.
  - rewrite foldM_cons in E. apply rbind_ok in E as (l1 & E1 & E). cbn [hfor]. eapply stp_bind.
    + pose proof E1 as E1'. unfold update_site in E1'. apply rbind_ok in E1' as (s & Es & _). destruct (rel_get h x s W Es) as (r & Er & Vr & _).
      apply stp_hget. apply (stp_bres a _ r); auto. apply stp_set_rel; [exact W|reflexivity|].
      unfold update_site in E1 |- *. rewrite Es in E1 |- *. cbn [rbind] in E1 |- *. rewrite <- E1, <- Vr. reflexivity.
    + intros h1 L1 W1 T1. specialize (IH h1 l W1). rewrite L1 in IH. now apply IH.
Qed.
