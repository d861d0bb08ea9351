(** * BreakKeep: what every broken-off call leaves intact (for BreakProps.v). *)
From Coq Require Import ZArith List Bool Lia Permutation.
From Verif Require Import Py Lattice Cluster Perc Spec PyFacts Torus Geometry LatFacts Inv Merge Fresh Select State Step History Reach Break BreakFacts BreakReset.
Import ListNotations.
Open Scope Z_scope.

(** ** The fixed part of the lattice *)
Definition fix_site (x : site) := (s_id x, s_index x, s_bonds x).
Definition fix_bond (x : bond) := (b_id x, b_type x, b_row x, b_col x, b_sites x).
Definition frame (l : lattice) := (l_length l, l_site_count l, l_bond_count l, map fix_site (l_sites l), map fix_bond (l_bonds l)).
Lemma at_map_any {A C} (f : A -> C) d l j : at_ (f d) (map f l) j = f (at_ d l j).
Proof. unfold at_. destruct (0 <=? j); auto. apply map_nth. Qed.
Lemma map_eq_at {A C} (f : A -> C) d a b j : map f a = map f b -> f (at_ d a j) = f (at_ d b j).
Proof. intros H. rewrite <- (at_map_any f d a j), H. apply at_map_any. Qed.
Lemma frame_static L a b : frame b = frame a -> Static L a -> Static L b.
Proof.
  unfold frame. intros F S. assert (F1 := f_equal (fun x => fst (fst (fst (fst x)))) F). assert (F2 := f_equal (fun x => snd (fst (fst (fst x)))) F).
  assert (F3 := f_equal (fun x => snd (fst (fst x))) F). assert (F4 := f_equal (fun x => snd (fst x)) F). assert (F5 := f_equal snd F). cbn [fst snd] in *.
  destruct S as [S1 S2 S3 S4 S5 S6 S7 S8]. constructor; try congruence.
  - rewrite <- S5. rewrite <- (zlen_map fix_site (l_sites b)), F4. now rewrite zlen_map.
  - rewrite <- S6. rewrite <- (zlen_map fix_bond (l_bonds b)), F5. now rewrite zlen_map.
  - intros i Hi. destruct (S7 i Hi) as (A & B & C). unfold site_at in *.
    match goal with |- context [at_ ?d (l_sites b) i] => pose proof (map_eq_at fix_site d _ _ i F4) as Q end. unfold fix_site in Q. injection Q as -> -> ->. auto.
  - intros i Hi. destruct (S8 i Hi) as (A & B & C & D & E). unfold bond_at in *.
    match goal with |- context [at_ ?d (l_bonds b) i] => pose proof (map_eq_at fix_bond d _ _ i F5) as Q end. unfold fix_bond in Q. injection Q as -> -> -> -> ->. auto.
Qed.
Lemma map_upd {A C} (f : A -> C) l k x v : nth_error l k = Some x -> f v = f x -> map f (upd l k v) = map f l.
Proof. revert k. induction l as [|y l IH]; intros [|k]; cbn [nth_error upd map]; intros H E; try discriminate; [injection H as ->; congruence|]. f_equal. now apply IH. Qed.
Lemma lset_map {A C} (f : A -> C) l i x v l' : lget l i = Ok x -> f v = f x -> lset l i v = Ok l' -> map f l' = map f l.
Proof.
  unfold lget, lset. destruct (py_pos (zlen l) i) as [k|]; [|discriminate]. destruct (nth_error l k) as [y|] eqn:En; [|discriminate]. intros H E H'. injection H as ->. injection H' as <-.
  now apply (map_upd f l k x).
Qed.
Definition steady (f : lattice -> res lattice) : Prop := forall l l', f l = Ok l' -> frame l' = frame l.
Lemma with_sites_frame l ss : map fix_site ss = map fix_site (l_sites l) -> frame (with_sites l ss) = frame l.
Proof. intros E. unfold frame. cbn. now rewrite E. Qed.
Lemma with_bonds_frame l bs : map fix_bond bs = map fix_bond (l_bonds l) -> frame (with_bonds l bs) = frame l.
Proof. intros E. unfold frame. cbn. now rewrite E. Qed.
Lemma steady_update i f : (forall x y, f x = Ok y -> fix_site y = fix_site x) -> steady (fun l => update_site l i f).
Proof.
  intros Hf l l' H. unfold update_site in H. apply rbind_inv in H as (x & H1 & H). apply rbind_inv in H as (y & H2 & H). apply rbind_inv in H as (ss & H3 & H).
  injection H as <-. apply with_sites_frame. apply (lset_map fix_site _ _ _ _ _ H1 (Hf _ _ H2) H3).
Qed.
Lemma steady_gid i g : steady (fun l => set_site_gid_by_id l i g).
Proof.
  intros l l' H. unfold set_site_gid_by_id in H. apply rbind_inv in H as (x & H1 & H). apply rbind_inv in H as (ss & H3 & H).
  injection H as <-. apply with_sites_frame. apply (lset_map fix_site _ _ x _ _ H1) in H3; [exact H3|reflexivity].
Qed.
Lemma steady_bgid i g : steady (fun l => set_bond_gid_by_id l i g).
Proof.
  intros l l' H. unfold set_bond_gid_by_id in H. apply rbind_inv in H as (x & H1 & H). apply rbind_inv in H as (ss & H3 & H).
  injection H as <-. apply with_bonds_frame. apply (lset_map fix_bond _ _ x _ _ H1) in H3; [exact H3|reflexivity].
Qed.
Lemma steady_rel i r : steady (fun l => lat_set_relative_index l i r).
Proof.
  intros l l' H. unfold lat_set_relative_index in H. apply rbind_inv in H as (j & H0 & H). apply rbind_inv in H as (x & H1 & H). apply rbind_inv in H as (ss & H3 & H).
  injection H as <-. apply with_sites_frame. apply (lset_map fix_site _ _ x _ _ H1) in H3; [exact H3|reflexivity].
Qed.
Lemma steady_plain i f : (forall x, fix_site (f x) = fix_site x) -> steady (fun l => plain_update l i f).
Proof. intros Hf. apply steady_update. intros x y H. injection H as <-. auto. Qed.
Lemma reduce1_fix x y : site_reduce_1st_nn x = Ok y -> fix_site y = fix_site x.
Proof. unfold site_reduce_1st_nn. destruct (s_nn1 x <=? 0); [intros H; apply rbind_inv in H as (_ & _ & H)|intros H]; injection H as <-; reflexivity. Qed.
Lemma reduce2_fix x y : site_reduce_2st_directional_nn x = Ok y -> fix_site y = fix_site x.
Proof. unfold site_reduce_2st_directional_nn. destruct (s_nn2 x <=? 0); [intros H; apply rbind_inv in H as (_ & _ & H)|intros H]; injection H as <-; reflexivity. Qed.

(** ** The part of an object that no broken-off call can damage *)
Record Sound (L : Z) (s0 s : perc) : Prop := mkSound {
  so_static : Static L (lat s);
  so_ids : Forall (is_site L) (ids s);
  so_rev : zlen (rev_ids s) = L * L;
  so_rev0 : Forall (Z.le 0) (rev_ids s);
  so_cc : cluster_count s = 2 * (L * L);
  so_ent : max_ent s = FLog (FZ (2 * (L * L)));
  so_kind : kind s = kind s0;
  so_mi : max_iter s = max_iter s0;
  so_custom : mode_custom s = mode_custom s0 /\ do_shuffle s = do_shuffle s0;
  so_perm : is_L12 (kind s0) = false -> Permutation (ids s0) (ids s) /\ ids_shared s = ids_shared s0;
  so_alias : aliased s
}.
Lemma sound_self L s : Inv L s -> aliased s -> Sound L s s.
Proof. intros H A. constructor; auto; apply H || now apply i_static. Qed.

Definition keeps {A} (R : perc -> Prop) (m : B A) : Prop := forall i n, R (obj i) -> R (obj (fst (fst (m i n)))).
Section Keep.
Variable R : perc -> Prop.
Lemma keeps_ret {A} (a : A) : keeps R (bret a).
Proof. intros i n H. exact H. Qed.
Lemma keeps_raise {A} e : keeps R (@braise A e).
Proof. intros i n H. exact H. Qed.
Lemma keeps_lift {A} (r : res A) : keeps R (blift r).
Proof. intros i n H. exact H. Qed.
Lemma keeps_need {A} e (o : option A) : keeps R (bneed e o).
Proof. destruct o; [apply keeps_ret|apply keeps_raise]. Qed.
Lemma keeps_bind {A C} (m : B A) (k : A -> B C) : keeps R m -> (forall a, keeps R (k a)) -> keeps R (bbind m k).
Proof.
  intros Hm Hk i n H. unfold bbind. specialize (Hm i n H). destruct (m i n) as [[i1 n1] [[a|e]|]]; cbn [fst] in *; auto. now apply Hk.
Qed.
Lemma keeps_get {C} (k : perc -> B C) : (forall s, keeps R (k s)) -> keeps R (bbind bget k).
Proof. intros Hk. apply keeps_bind; [intros i n H; exact H|exact Hk]. Qed.
Lemma keeps_held {C} (k : held -> B C) : (forall s, keeps R (k s)) -> keeps R (bbind bheld k).
Proof. intros Hk. apply keeps_bind; [intros i n H; exact H|exact Hk]. Qed.
Lemma keeps_stmt f : (forall i, R (obj i) -> R (obj (f i))) -> keeps R (stmt f).
Proof. intros Hf i n H. destruct n; cbn; auto. Qed.
Lemma keeps_act f : (forall s, R s -> R (f s)) -> keeps R (act f).
Proof. intros Hf. apply keeps_stmt. intros i. apply Hf. Qed.
Lemma keeps_for {A} (l : list A) b : (forall x, keeps R (b x)) -> keeps R (bfor l b).
Proof. intros Hb. induction l as [|x l IH]; [apply keeps_ret|]. cbn [bfor]. apply keeps_bind; auto. Qed.
(** A statement whose new value is computed from the present state. *)
Lemma keeps_now {A} (f : perc -> res A) (g : A -> perc -> perc) : (forall s a, R s -> f s = Ok a -> R (g a s)) ->
  keeps R (do s <- bget ; do a <- blift (f s) ; act (g a)).
Proof.
  intros H i n Hi. unfold bbind, bget, blift. destruct (f (obj i)) as [a|e] eqn:E; [|exact Hi]. unfold act, stmt. destruct n; [exact Hi|]. cbn [fst obj with_obj]. auto.
Qed.
Lemma keeps_now_then {A C} (f : perc -> res A) (g : A -> perc -> perc) (k : perc -> A -> B C) : (forall s a, R s -> f s = Ok a -> R (g a s)) ->
  (forall s a, keeps R (k s a)) ->
  keeps R (do s <- bget ; do a <- blift (f s) ; go act (g a) ; k s a).
Proof.
  intros H Hk i n Hi. unfold bbind, bget, blift. destruct (f (obj i)) as [a|e] eqn:E; [|exact Hi]. unfold act, stmt. destruct n; [exact Hi|]. apply Hk. cbn [obj with_obj]. auto.
Qed.
End Keep.

Section Sounds.
Variables (E : env) (L : Z) (s0 : perc).
Notation R := (Sound L s0).

Lemma sound_lat s l : R s -> Static L l -> R (set_lat l s).
Proof. intros [] Sl. constructor; auto. Qed.
Lemma keeps_on_lat f : steady f -> keeps R (on_lat f).
Proof. intros Sf. apply (keeps_now R (fun s => f (lat s)) set_lat). intros s l H E1. apply sound_lat; auto. apply (frame_static L (lat s)); [now apply Sf|apply H]. Qed.
Lemma sound_pool s p : R s -> R (set_pool p s).
Proof. intros []. constructor; auto. Qed.
Lemma keeps_on_pool f : keeps R (on_pool f).
Proof. apply (keeps_now R (fun s => f (pool s)) set_pool). intros s l H _. now apply sound_pool. Qed.
Lemma sound_ext s t : R s -> lat t = lat s -> ids t = ids s -> rev_ids t = rev_ids s -> cluster_count t = cluster_count s -> max_ent t = max_ent s ->
  kind t = kind s -> max_iter t = max_iter s -> mode_custom t = mode_custom s -> do_shuffle t = do_shuffle s -> ids_shared t = ids_shared s -> user_list t = user_list s -> R t.
Proof.
  intros [] E1 E2 E3 E4 E5 E6 E7 E8 E9 E10 E11. constructor; rewrite ?E1, ?E2, ?E3, ?E4, ?E5, ?E6, ?E7, ?E8, ?E9, ?E10; auto.
  unfold aliased. rewrite E2, E10, E11. auto.
Qed.
Ltac idle := let s := fresh in let H := fresh in intros s H; apply (sound_ext s); [exact H|reflexivity..].
Lemma keeps_randint a b : keeps R (b_randint E a b).
Proof. unfold b_randint. destruct (b <? a); [apply keeps_raise|]. apply keeps_get. intros s. apply keeps_bind; [apply keeps_act; idle|]. intros _. apply keeps_ret. Qed.
Lemma keeps_current id : keeps R (b_current id).
Proof.
  unfold b_current. apply keeps_get. intros s. apply keeps_bind; [apply keeps_lift|]. intros t. apply keeps_bind; [apply keeps_act; idle|]. intros _. apply keeps_lift.
Qed.
Lemma keeps_select_base : keeps R b_select_base.
Proof.
  unfold b_select_base. apply keeps_get. intros s. destruct (max_iter s <=? cur_idx s); [apply keeps_ret|].
  apply keeps_bind; [apply keeps_lift|]. intros id. apply keeps_bind; [apply keeps_act; idle|]. intros _. apply keeps_bind; [apply keeps_current|]. intros _.
  apply keeps_bind; [apply keeps_act; idle|]. intros _. apply keeps_bind; [apply keeps_act; idle|]. intros _. apply keeps_ret.
Qed.
Lemma lget_In {A} (l : list A) i x : lget l i = Ok x -> In x l.
Proof. unfold lget. destruct (py_pos (zlen l) i) as [k|]; [|discriminate]. destruct (nth_error l k) eqn:En; [|discriminate]. intros H. injection H as <-. now apply nth_error_In in En. Qed.
Lemma Forall_upd {A} (P : A -> Prop) l k v : Forall P l -> P v -> Forall P (upd l k v).
Proof. revert k. induction l as [|x l IH]; intros [|k] H Hv; cbn [upd]; auto; inversion H; subst; constructor; auto. Qed.
Lemma lset_Forall {A} (P : A -> Prop) l i v l' : Forall P l -> P v -> lset l i v = Ok l' -> Forall P l' /\ zlen l' = zlen l.
Proof.
  intros H Hv E1. unfold lset in E1. destruct (py_pos (zlen l) i) as [k|]; [|discriminate]. injection E1 as <-. split; [now apply Forall_upd|apply zlen_upd].
Qed.
Lemma keeps_drop rnd : is_L12 (kind s0) = true -> keeps R (b_drop_candidate rnd).
Proof.
  intros Hk. unfold b_drop_candidate.
  intros i n H. unfold bbind at 1, bget. unfold bbind at 1, blift. destruct (lget (ids (obj i)) (cur_idx (obj i))) as [v|e] eqn:E1; [|exact H].
  unfold bbind at 1. destruct (lset (ids (obj i)) rnd v) as [l|e] eqn:E2; [|exact H].
  pose proof (so_ids _ _ _ H) as Hi. pose proof (proj1 (Forall_forall _ _) Hi v (lget_In _ _ _ E1)) as Hv. destruct (lset_Forall _ _ _ _ _ Hi Hv E2) as (Fl & Zl).
  assert (H1 : R (mutate_ids l (obj i))).
  { destruct H. constructor; auto; [congruence|apply mutate_aliased]. }
  unfold bbind, act, stmt. destruct n as [|n]; [exact H|]. cbn [with_obj obj]. destruct n as [|n]; [exact H1|]. cbn [fst obj with_obj].
  apply (sound_ext (mutate_ids l (obj i))); [exact H1|reflexivity..].
Qed.
Ltac kp := first [apply keeps_ret | apply keeps_raise | apply keeps_lift | apply keeps_need | apply keeps_current | apply keeps_randint | apply keeps_on_pool
  | (apply keeps_get; intro) | (apply keeps_bind; [|intro]) | (apply keeps_act; idle)].
Lemma keeps_select_L1 : is_L12 (kind s0) = true -> keeps R (b_select_L1 E).
Proof.
  intros Hk. unfold b_select_L1. apply keeps_get. intros s. destruct (l_site_count (lat s) <=? cur_idx s); [apply keeps_ret|].
  kp; [kp|]. kp; [kp|]. kp; [kp|].
  match goal with |- keeps R (if ?b then _ else _) => destruct b end; [|repeat kp].
  kp; [kp|]. kp; [kp|]. kp; [kp|]. kp; [kp|]. kp; [kp|].
  match goal with |- keeps R (if ?b then _ else _) => destruct b end; [|repeat kp].
  apply keeps_bind; [apply keeps_on_lat, steady_update, reduce1_fix|intros _]. kp. kp; [kp|]. apply keeps_bind; [|intros; kp].
  match goal with |- keeps R (if ?b then _ else _) => destruct b end; [now apply keeps_drop|kp].
Qed.
Lemma keeps_select_L2 : is_L12 (kind s0) = true -> keeps R (b_select_L2 E).
Proof.
  intros Hk. unfold b_select_L2. apply keeps_get. intros s. destruct (l_site_count (lat s) <=? cur_idx s); [apply keeps_ret|].
  kp; [kp|]. kp; [kp|]. kp; [kp|].
  match goal with |- keeps R (if ?b then _ else _) => destruct b end; [|repeat kp].
  kp; [kp|]. kp; [kp|]. kp; [kp|]. kp; [kp|]. kp; [kp|].
  match goal with |- keeps R (if ?b then _ else _) => destruct b end; [|repeat kp].
  apply keeps_bind; [apply keeps_on_lat, steady_update, reduce1_fix|intros _]. kp. kp; [kp|]. kp; [kp|]. cbv zeta. kp; [kp|]. kp; [kp|].
  match goal with |- keeps R (if ?b then _ else _) => destruct b end; [|repeat kp].
  kp; [kp|]. apply keeps_bind; [apply keeps_on_lat, steady_update, reduce2_fix|intros _]. kp. kp; [kp|]. apply keeps_bind; [|intros; kp].
  match goal with |- keeps R (if ?b then _ else _) => destruct b end; [now apply keeps_drop|kp].
Qed.
Lemma keeps_select : keeps R (b_select E).
Proof.
  intros i n H. pose proof (so_kind _ _ _ H) as Hk. unfold b_select, bbind, bget. destruct (kind (obj i)) eqn:Ek.
  - now apply keeps_select_base.
  - now apply keeps_select_base.
  - apply keeps_select_L1; auto. now rewrite <- Hk.
  - apply keeps_select_L2; auto. now rewrite <- Hk.
  - now apply keeps_select_base.
Qed.
Lemma keeps_clear c : keeps R (b_clear_cluster c).
Proof. unfold b_clear_cluster. repeat kp. Qed.
Lemma keeps_merge_with a b : keeps R (b_merge_cluster_with a b).
Proof.
  unfold b_merge_cluster_with. kp. kp; [kp|]. kp; [kp|]. kp; [apply keeps_for; intros; apply keeps_on_lat, steady_bgid|].
  kp; [apply keeps_for; intros; apply keeps_on_lat, steady_gid|]. repeat kp.
Qed.
Lemma keeps_relabel a b : keeps R (b_relabel a b).
Proof.
  unfold b_relabel. kp. kp; [kp|]. cbv zeta. kp; [kp|]. kp; [kp|]. match goal with |- keeps R (if ?b then _ else _) => destruct b end; [kp|].
  kp; [kp|]. kp; [kp|]. kp; [kp|]. match goal with |- keeps R (if ?b then _ else _) => destruct b end; [|kp].
  apply keeps_for. intros x. apply keeps_on_lat. apply steady_update. intros y z Q. injection Q as <-. reflexivity.
Qed.
Lemma keeps_merge a b l : keeps R (b_merge E a b l).
Proof.
  unfold b_merge. kp. kp; [kp|]. kp; [kp|]. kp; [kp|]. kp; [kp|]. kp.
  { apply keeps_for. intros x. kp. kp; [kp|]. match goal with |- keeps R (if ?b then _ else _) => destruct b end; [|kp].
    kp; [apply keeps_on_lat, steady_gid|]. kp; [kp|]. kp. kp; [kp|]. kp; [kp|]. match goal with |- keeps R (if ?b then _ else _) => destruct b end; [|kp].
    kp; [kp|]. apply keeps_on_lat, steady_rel. }
  kp. { apply keeps_for. intros x. kp. kp; [kp|]. match goal with |- keeps R (if ?b then _ else _) => destruct b end; [kp|]. kp; [apply keeps_relabel|apply keeps_merge_with]. }
  kp. { apply keeps_for. intros x. match goal with |- keeps R (if ?b then _ else _) => destruct b end; [kp|apply keeps_clear]. }
  kp.
Qed.
Lemma keeps_track c : keeps R (b_track_largest c).
Proof. unfold b_track_largest. kp. kp; [kp|]. match goal with |- keeps R (if ?b then _ else _) => destruct b end; repeat kp. Qed.
Lemma keeps_place : keeps R (b_place E).
Proof.
  unfold b_place. kp; [apply keeps_select|]. kp; [kp|]. match goal with |- keeps R (match ?b with _ => _ end) => destruct b end; try kp.
  kp; [kp|]. kp; [kp|]. kp; [apply keeps_on_lat; apply steady_rel|]. kp. kp; [kp|]. kp; [kp|]. kp; [kp|]. kp; [apply keeps_merge|]. kp; [apply keeps_track|].
  repeat kp.
Qed.
Lemma keeps_detect : keeps R b_detect.
Proof.
  unfold b_detect. kp. match goal with |- keeps R (if ?b then _ else _) => destruct b end; [kp|]. kp; [kp|]. kp; [kp|]. kp; [kp|]. kp; [kp|]. kp; [kp|].
  match goal with |- keeps R (if ?b then _ else _) => destruct b end; repeat kp.
Qed.
Lemma keeps_append h f : (forall s, R s -> R (f s)) -> keeps R (b_append h f).
Proof. intros Hf. unfold b_append. apply keeps_held. intros i. destruct (h i); [kp|]. now apply keeps_act. Qed.
Lemma keeps_record : keeps R b_record.
Proof.
  unfold b_record. kp. kp; [kp|]. kp; [kp|]. kp; [kp|]. kp; [match goal with |- keeps R (if ?b then _ else _) => destruct b end; kp|].
  kp; [apply keeps_append; idle|]. kp; [apply keeps_append; idle|]. apply keeps_append; idle.
Qed.
Lemma keeps_run_loop f : keeps R (b_run_loop E f).
Proof.
  induction f as [|f IH]; cbn [b_run_loop]; [kp|]. kp; [apply keeps_place|]. match goal with |- keeps R (if ?b then _ else _) => destruct b end; [|kp].
  kp. kp; [|exact IH]. match goal with |- keeps R (if ?b then _ else _) => destruct b end; [|kp]. kp; [apply keeps_detect|apply keeps_record].
Qed.
Lemma keeps_sp_loop f : keeps R (b_sp_loop E f).
Proof.
  induction f as [|f IH]; cbn [b_sp_loop]; [kp|]. kp; [apply keeps_place|]. match goal with |- keeps R (if ?b then _ else _) => destruct b end; [|kp].
  kp. match goal with |- keeps R (if ?b then _ else _) => destruct b end; [|exact IH]. kp; [apply keeps_detect|].
  match goal with |- keeps R (if ?b then _ else _) => destruct b end; [|exact IH]. kp. kp; [kp|]. kp; [kp|]. kp; [kp|].
  match goal with |- keeps R (if ?b then _ else _) => destruct b end; [|exact IH]. kp; kp.
Qed.
Lemma keeps_run f : keeps R (b_run_once E f).
Proof.
  unfold b_run_once. kp. kp; [|kp]. match goal with |- keeps R (match ?b with _ => _ end) => destruct b end; first [apply keeps_run_loop|apply keeps_sp_loop].
Qed.

(** ** Resetting *)
Lemma keeps_lattice_reset : keeps R b_lattice_reset.
Proof.
  unfold b_lattice_reset. kp. kp; [|apply keeps_for; intros; apply keeps_on_lat, steady_bgid]. apply keeps_for. intros x. unfold b_site_reset.
  kp; [apply keeps_on_lat, steady_plain; reflexivity|]. kp; [apply keeps_on_lat, steady_plain; reflexivity|].
  kp; [apply keeps_on_lat, steady_plain; reflexivity|]. apply keeps_on_lat, steady_plain; reflexivity.
Qed.
Lemma keeps_pool_reset : keeps R b_pool_reset.
Proof. unfold b_pool_reset. repeat kp. Qed.
Lemma keeps_init : keeps R b_init_clusters.
Proof.
  unfold b_init_clusters. kp; [apply keeps_pool_reset|]. kp. apply keeps_for. intros x. unfold b_create. kp. kp; [apply keeps_on_lat, steady_bgid|]. repeat kp.
Qed.
Lemma sound_mutate s l : R s -> Permutation (ids s) l -> R (mutate_ids l s).
Proof.
  intros [] P. constructor; auto.
  - exact (Permutation_Forall P so_ids0).
  - intros Hk. destruct (so_perm0 Hk) as (A & B). split; [|exact B]. now apply (Permutation_trans A).
  - apply mutate_aliased.
Qed.
Lemma keeps_shuffle_from k : keeps R (b_shuffle_from E k).
Proof.
  induction k as [|k IH]; cbn [b_shuffle_from]; [kp|]. kp. cbv zeta. kp; [kp|]. kp; [|exact IH]. apply keeps_act. intros t H. apply sound_mutate; auto. apply swap_at_perm.
Qed.
Lemma keeps_shuffle : keeps R (b_shuffle E).
Proof.
  unfold b_shuffle. kp. match goal with |- keeps R (if ?b then _ else _) => destruct b end; [kp|]. match goal with |- keeps R (if ?b then _ else _) => destruct b end; [|kp].
  kp; [apply keeps_shuffle_from|]. kp. match goal with |- keeps R (bfor (zrange ?n) _) => generalize n end. intros z.
  assert (G : forall l, Forall (Z.le 0) l -> keeps R (bfor l (fun i => do s <- bget ; do a <- blift (lget (ids s) i) ; do rv <- blift (lset (rev_ids s) a i) ; act (set_rev rv)))).
  { induction l as [|x l IH]; intros Hl; [kp|]. inversion Hl as [|? ? Hx Hl']; subst. cbn [bfor]. kp; [|now apply IH].
    intros i n H. unfold bbind, bget, blift. destruct (lget (ids (obj i)) x) as [aa|e]; [|exact H]. destruct (lset (rev_ids (obj i)) aa x) as [rv|e] eqn:E2; [|exact H].
    unfold act, stmt. destruct n; [exact H|]. cbn [fst obj with_obj]. pose proof (so_rev0 _ _ _ H) as H0. destruct (lset_Forall _ _ _ _ _ H0 Hx E2) as (F & Zl).
    destruct H. constructor; auto. cbn. congruence. }
  apply G. apply Forall_forall. intros x Hx. apply in_map_iff in Hx as (y & <- & _). lia.
Qed.
Lemma keeps_del h d : (forall i, obj (d i) = obj i) -> keeps R (b_del h d).
Proof. intros Hd. unfold b_del. apply keeps_held. intros i. destruct (h i); [kp|]. apply keeps_stmt. intros j Hj. now rewrite Hd. Qed.
Lemma keeps_reset_base : keeps R (b_reset_base E).
Proof.
  unfold b_reset_base. kp; [apply keeps_lattice_reset|]. kp; [apply keeps_pool_reset|]. kp; [kp|]. kp; [kp|]. kp; [apply keeps_init|]. kp; [apply keeps_shuffle|].
  do 9 (kp; [kp|]). kp. kp; [match goal with |- keeps R (if ?b then _ else _) => destruct b end; kp|].
  kp; [apply keeps_del; reflexivity|]. kp; [apply keeps_stmt; intros i; cbn [obj]; generalize (obj i); idle|].
  kp; [apply keeps_del; reflexivity|]. kp; [apply keeps_stmt; intros i; cbn [obj]; generalize (obj i); idle|].
  kp; [apply keeps_del; reflexivity|]. apply keeps_stmt; intros i; cbn [obj]; generalize (obj i); idle.
Qed.
Lemma sound_rebind s : is_L12 (kind s0) = true -> R s -> R (rebind_ids (zrange (l_length (lat s) * l_length (lat s))) (user_list s) false s).
Proof.
  intros Hk []. rewrite (st_len _ _ so_static0). constructor; auto; cbn; [apply zrange_sites|congruence|discriminate].
Qed.
Lemma keeps_reset : keeps R (b_reset E).
Proof.
  unfold b_reset. kp; [apply keeps_reset_base|]. intros i n H. pose proof (so_kind _ _ _ H) as Hk. unfold bbind at 1, bget. destruct (kind (obj i)) eqn:Ek.
  - exact H.
  - exact H.
  - revert i n H Hk Ek. intros i n H Hk _.
    assert (G : keeps R (go act (fun s => rebind_ids (zrange (l_length (lat s) * l_length (lat s))) (user_list s) false s) ; go act (fun s => set_xy 0 (y_occ s) s) ; act (set_record []))).
    { kp; [apply keeps_act; intros s Hs; apply sound_rebind; auto; now rewrite <- Hk|]. repeat kp. }
    now apply G.
  - revert i n H Hk Ek. intros i n H Hk _.
    assert (G : keeps R (go act (fun s => rebind_ids (zrange (l_length (lat s) * l_length (lat s))) (user_list s) false s) ; go act (fun s => set_xy 0 (y_occ s) s) ; act (fun s => set_xy (x_occ s) 0 s))).
    { kp; [apply keeps_act; intros s Hs; apply sound_rebind; auto; now rewrite <- Hk|]. repeat kp. }
    now apply G.
  - assert (G : keeps R (act (set_sp (FZ 0)))) by kp. now apply G.
Qed.
End Sounds.
