(** * Couple: the order of the candidates does not matter to the L1 and L2 rules (C112). *)
From Coq Require Import ZArith List Bool Lia Permutation Znumtheory.
From Verif Require Import Py Lattice Cluster Perc Spec PyFacts Torus Select State History WorldProps Cand.
Import ListNotations.
Open Scope Z_scope.

Section Vectors.
Variable M : Z.
Hypothesis HM : 0 < M.
(** ** Words of length [W] over [0..M-1] *)
Definition vec (W : nat) (w : list Z) : Prop := length w = W /\ Forall (fun x => 0 <= x < M) w.
Lemma vec_skip W w j : vec W w -> (j <= W)%nat -> vec (W - j) (skipn j w).
Proof.
  intros (H1 & H2) Hj. split; [rewrite skipn_length; lia|]. apply Forall_forall. intros x Hx. apply (proj1 (Forall_forall _ _) H2). rewrite <- (firstn_skipn j w). apply in_or_app. now right.
Qed.
Lemma vec_cons W x w : vec (S W) (x :: w) <-> 0 <= x < M /\ vec W w.
Proof. unfold vec. cbn [length]. split; [intros (H1 & H2); inversion H2; subst; repeat split; auto; lia|intros (H1 & H2 & H3); split; [lia|now constructor]]. Qed.
Definition bij (W : nat) (P Q : list Z -> Prop) : Prop := exists g h,
  (forall w, vec W w -> P w -> vec W (g w) /\ Q (g w) /\ h (g w) = w) /\ (forall w, vec W w -> Q w -> vec W (h w) /\ P (h w) /\ g (h w) = w).
Lemma bij_iff W (P Q P' Q' : list Z -> Prop) : (forall w, vec W w -> (P w <-> P' w)) -> (forall w, vec W w -> (Q w <-> Q' w)) -> bij W P' Q' -> bij W P Q.
Proof.
  intros HP HQ (g & h & G & H). exists g, h. split; intros w Hw Pw.
  - destruct (G w Hw (proj1 (HP w Hw) Pw)) as (A & B & C). repeat split; try apply A; auto. now apply HQ.
  - destruct (H w Hw (proj1 (HQ w Hw) Pw)) as (A & B & C). repeat split; try apply A; auto. now apply HP.
Qed.
Lemma bij_id W (P Q : list Z -> Prop) : (forall w, vec W w -> (P w <-> Q w)) -> bij W P Q.
Proof. intros H. exists (fun w => w), (fun w => w). split; intros w Hw Pw; repeat split; try apply Hw; now apply H. Qed.
Lemma pick_each {X} (x0 : X) (R : Z -> X -> Prop) : (forall a, 0 <= a < M -> exists x, R a x) -> exists F, forall a, 0 <= a < M -> R a (F a).
Proof.
  intros H. assert (G : forall k : nat, (Z.of_nat k <= M) -> exists F, forall a, 0 <= a < Z.of_nat k -> R a (F a)).
  { induction k as [|k IH]; intros Hk; [exists (fun _ => x0); intros; lia|]. destruct IH as (F & HF); [lia|]. destruct (H (Z.of_nat k)) as (x & Hx); [lia|].
    exists (fun a => if a =? Z.of_nat k then x else F a). intros a Ha. destruct (Z.eqb_spec a (Z.of_nat k)) as [->|]; auto. apply HF. lia. }
  destruct (G (Z.to_nat M)) as (F & HF); [lia|]. exists F. intros a Ha. apply HF. lia.
Qed.
Lemma bij_cons W (P Q : list Z -> Prop) f f' : (forall a, 0 <= a < M -> 0 <= f a < M /\ f' (f a) = a) -> (forall a, 0 <= a < M -> 0 <= f' a < M /\ f (f' a) = a) ->
  (forall a, 0 <= a < M -> bij W (fun w => P (a :: w)) (fun w => Q (f a :: w))) -> bij (S W) P Q.
Proof.
  intros Hf Hf' H.
  destruct (pick_each (fun w : list Z => w, fun w : list Z => w) (fun a gh => (forall w, vec W w -> P (a :: w) -> vec W (fst gh w) /\ Q (f a :: fst gh w) /\ snd gh (fst gh w) = w) /\
     (forall w, vec W w -> Q (f a :: w) -> vec W (snd gh w) /\ P (a :: snd gh w) /\ fst gh (snd gh w) = w))) as (F & HF).
  { intros a Ha. destruct (H a Ha) as (g & h & G1 & G2). exists (g, h). split; auto. }
  exists (fun l => match l with [] => [] | a :: w => f a :: fst (F a) w end), (fun l => match l with [] => [] | b :: w => f' b :: snd (F (f' b)) w end). split.
  - intros [|a w] Hw Pw; [destruct Hw; discriminate|]. apply vec_cons in Hw as (Ha & Hw). destruct (Hf a Ha) as (Hr & Hi). destruct (HF a Ha) as (G1 & _).
    destruct (G1 w Hw Pw) as (A & B & C). split; [apply vec_cons; auto|]. split; auto. rewrite Hi, C. reflexivity.
  - intros [|b w] Hw Qw; [destruct Hw; discriminate|]. apply vec_cons in Hw as (Hb & Hw). destruct (Hf' b Hb) as (Hr & Hi). destruct (HF (f' b) Hr) as (_ & G2). rewrite Hi in G2.
    destruct (G2 w Hw Qw) as (A & B & C). split; [apply vec_cons; auto|]. split; auto. rewrite Hi, C. reflexivity.
Qed.
Lemma bij_same W (P Q : list Z -> Prop) : (forall a, 0 <= a < M -> bij W (fun w => P (a :: w)) (fun w => Q (a :: w))) -> bij (S W) P Q.
Proof. intros H. apply (bij_cons W P Q (fun a => a) (fun a => a)); auto. Qed.

(** ** Matching the entries of two rearrangements *)
Fixpoint pos (x : Z) (l : list Z) : nat := match l with [] => O | y :: l => if x =? y then O else S (pos x l) end.
Lemma pos_in x l : In x l -> (pos x l < length l)%nat /\ nth (pos x l) l 0 = x.
Proof.
  induction l as [|y l IH]; [intros []|]. cbn [pos length]. destruct (Z.eqb_spec x y) as [->|N]; [intros _; split; [lia|reflexivity]|].
  intros [->|I]; [easy|]. destruct (IH I). split; [lia|auto].
Qed.
Lemma pos_nth l i : NoDup l -> (i < length l)%nat -> pos (nth i l 0) l = i.
Proof.
  intros N Hi. assert (I : In (nth i l 0) l) by (now apply nth_In). destruct (pos_in _ _ I) as (P1 & P2). eapply (proj1 (NoDup_nth l 0)); eauto.
Qed.
Definition remap (l l' : list Z) (m a : Z) : Z := (a / m) * m + Z.of_nat (pos (nth (Z.to_nat (a mod m)) l 0) l').
Lemma remap_ok l l' m a : NoDup l -> Permutation l l' -> zlen l = m -> 0 < m -> (m | M) -> 0 <= a < M ->
  0 <= remap l l' m a < M /\ remap l' l m (remap l l' m a) = a /\ nth (Z.to_nat (remap l l' m a mod m)) l' 0 = nth (Z.to_nat (a mod m)) l 0.
Proof.
  intros N P Hl Hm (q & Hq) Ha. pose proof (Z.mod_pos_bound a m Hm) as Hb. unfold zlen in Hl.
  assert (N' : NoDup l') by (eapply Permutation_NoDup; eauto). pose proof (Permutation_length P) as Ep.
  assert (I : In (nth (Z.to_nat (a mod m)) l 0) l') by (eapply Permutation_in; [exact P|]; apply nth_In; lia).
  destruct (pos_in _ _ I) as (P1 & P2). set (p := pos (nth (Z.to_nat (a mod m)) l 0) l') in *.
  assert (D : remap l l' m a / m = a / m) by (unfold remap; fold p; rewrite Z.div_add_l, (Z.div_small (Z.of_nat p)) by lia; lia).
  assert (Mo : remap l l' m a mod m = Z.of_nat p) by (unfold remap; fold p; rewrite Z.add_comm, Z.mod_add, Z.mod_small by lia; lia).
  split; [|split].
  - assert (0 <= a / m < q) by (split; [apply Z.div_pos; lia|apply Z.div_lt_upper_bound; lia]). unfold remap. fold p. nia.
  - unfold remap at 1. rewrite D, Mo, Nat2Z.id, P2, pos_nth by (auto; lia). rewrite Z2Nat.id by lia. rewrite Z.mul_comm. symmetry. apply Z.div_mod. lia.
  - rewrite Mo, Nat2Z.id. exact P2.
Qed.
End Vectors.

(** ** Fields that may differ *)
Record aux := mkAux { a_tick : nat; a_rev : list Z; a_user : list Z; a_share : bool; a_first : bool; a_p : list fexpr; a_mi : Z; a_mc : bool; a_ds : bool; a_y : Z; a_rec : list Z; a_sp : fexpr; a_ids : list Z }.
Definition put (a : aux) (s : perc) : perc :=
  set_tick (a_tick a) (set_rev (a_rev a) (rebind_ids (a_ids a) (a_user a) (a_share a) (set_first_run (a_first a) (set_arrs (a_p a) (h_arr s) (pw_arr s) (pl_arr s)
    (set_custom (a_mi a) (a_mc a) (a_ds a) (set_xy (x_occ s) (match kind s with KL2 => y_occ s | _ => a_y a end) (set_record (match kind s with KL1 => record s | _ => a_rec a end) (set_sp (a_sp a) s)))))))).
Definition aux_of (s : perc) : aux := mkAux (tick s) (rev_ids s) (user_list s) (ids_shared s) (first_run s) (p_arr s) (max_iter s) (mode_custom s) (do_shuffle s) (y_occ s) (record s) (sp_p s) (ids s).

(** ** Steps that draw nothing *)
Definition where_ := Z -> list Z -> list Z -> Prop.
Definition trip {A} (C D : where_) (m1 m2 : M A) : Prop := forall a s, is_L12 (kind s) = true -> C (cur_idx s) (ids s) (a_ids a) ->
  exists a', m2 (put a s) = (put a' (fst (m1 s)), snd (m1 s)) /\ D (cur_idx (fst (m1 s))) (ids (fst (m1 s))) (a_ids a') /\
    kind (fst (m1 s)) = kind s /\ tick (fst (m1 s)) = tick s /\ a_tick a' = a_tick a.
Section Trip.
Variables (C D : where_).
Hypothesis CD : forall c l l', C c l l' -> D c l l'.
Lemma tr_ret {A} (x : A) : trip C D (ret x) (ret x).
Proof. intros a s K H. exists a. cbn [ret fst snd]. auto 6. Qed.
Lemma tr_raise {A} e : trip C D (@raise A e) (raise e).
Proof. intros a s K H. exists a. cbn [raise fst snd]. auto 6. Qed.
Lemma tr_lift {A} (r : res A) : trip C D (lift r) (lift r).
Proof. intros a s K H. exists a. cbn [lift fst snd]. auto 6. Qed.
Lemma tr_need {A} (o : option A) : trip C D (need o) (need o).
Proof. destruct o; [apply tr_ret|apply tr_raise]. Qed.
Lemma tr_modify f g : (forall s, (kind (f s), tick (f s), cur_idx (f s), ids (f s)) = (kind s, tick s, cur_idx s, ids s)) ->
  (forall s a, exists a', g (put a s) = put a' (f s) /\ a_ids a' = a_ids a /\ a_tick a' = a_tick a) -> trip C D (modify f) (modify g).
Proof.
  intros Kf Hf a s K H. destruct (Hf s a) as (a' & E & Ei & Et). specialize (Kf s). injection Kf as K1 K2 K3 K4. exists a'. unfold modify. cbn [fst snd]. rewrite E, K1, K2, K3, K4, Ei, Et. auto 6.
Qed.
Lemma tr_get {A} (k1 k2 : perc -> M A) : (forall s a, k2 (put a s) = k2 s) -> (forall s, trip C D (k1 s) (k2 s)) -> trip C D (mbind get k1) (mbind get k2).
Proof. intros He Hk a s K H. unfold mbind, get. rewrite He. now apply (Hk s). Qed.
End Trip.
Lemma tr_bind {A B} (C X D : where_) (m1 m2 : M A) (k1 k2 : A -> M B) : (forall c l l', X c l l' -> D c l l') ->
  trip C X m1 m2 -> (forall x, trip X D (k1 x) (k2 x)) -> trip C D (mbind m1 k1) (mbind m2 k2).
Proof.
  intros XD Hm Hk a s K H. destruct (Hm a s K H) as (a1 & E1 & H1 & K1 & T1 & U1). unfold mbind. rewrite E1. destruct (m1 s) as [s1 [x|e]]; cbn [fst snd] in *.
  - destruct (Hk x a1 s1) as (a2 & E2 & H2 & K2 & T2 & U2); [congruence|auto|]. exists a2. repeat split; auto; congruence.
  - exists a1. auto 6.
Qed.

Ltac pick2 := let s := fresh "s" in let a := fresh "a" in intros s a;
  match goal with |- exists a', ?g = put a' ?f /\ _ => exists (aux_of g) end; split; [let k := fresh "k" in destruct s as [k]; destruct k; reflexivity|split; reflexivity].
Ltac imp := first [assumption|now intros; auto].
Ltac tt_ := cbv beta zeta; lazymatch goal with
  | |- trip _ _ (ret _) _ => apply tr_ret; imp
  | |- trip _ _ (raise _) _ => apply tr_raise; imp
  | |- trip _ _ (lift _) _ => apply tr_lift; imp
  | |- trip _ _ (need _) _ => apply tr_need; imp
  | |- trip _ _ (mbind get _) _ => apply tr_get; [intros; reflexivity|intros ?]
  | |- trip ?C _ (mbind _ _) _ => apply (tr_bind C C); [imp| |intro]
  | |- trip _ _ (modify _) _ => apply tr_modify; [imp|reflexivity|pick2]
  | |- trip _ _ (match ?b with _ => _ end) _ => destruct b
  end.
(** The part of [place_one_site] after the selection. *)
Definition place_rest (E : env) (flag : selstate) : M bool :=
  run modify (set_sel_flag (Some flag)) ;
  match flag with
  | SUCESS =>
      do s <~ get ;
      do selected <~ need (sel_id s) ;
      do cur <~ need (cur_site s) ;
      do lat1 <~ lift (lat_init_relative_index (lat s) selected) ;
      run modify (set_lat lat1) ;
      do cs <~ lift (get_site_by_id lat1 cur) ;
      let bond_neighbors := s_bonds cs in
      do H <~ lift (entropy_subtract_amount E lat1 (pool s) selected) ;
      run modify (fun s => set_ent (FAdd (ent s) H) s) ;
      do s <~ get ;
      do '(lat2, pool2, root) <~
        lift (merge_clusters_v2 E lat1 (pool s) selected (s_id cs) (after_wrap s) (wid s)
                bond_neighbors) ;
      run modify (fun s => set_pool pool2 (set_lat lat2 s)) ;
      run track_largest_cluster root ;
      do s <~ get ;
      do e' <~ lift (entropy_add_value (lat s) (pool s) root (ent s)) ;
      run modify (set_ent e') ;
      ret true
  | CURRENT_SITE_NOT_EMPTY => ret true
  | EMPTY_SITE_LIST => ret false
  end.
Lemma place_split E : place_one_site E = mbind (select_site E) (place_rest E).
Proof. reflexivity. Qed.
Section Still.
Variable C : where_.
Lemma tr_rest E f : trip C C (place_rest E f) (place_rest E f).
Proof. unfold place_rest. repeat (first [progress unfold track_largest_cluster|tt_]). Qed.
Lemma tr_detect : trip C C detect_wrapping detect_wrapping.
Proof. unfold detect_wrapping. repeat tt_. Qed.
Lemma tr_record : trip C C record_step record_step.
Proof. unfold record_step. repeat tt_. Qed.
Lemma tr_select_id x : trip C C (select_id x) (select_id x).
Proof. unfold select_id. repeat tt_. Qed.
End Still.
(** ** After the first draw of a selection *)
Definition finish1 (id : Z) : M selstate :=
  run modify (set_sel_id (Some id)) ;
  run modify (fun s => set_record (record s ++ [id]) s) ;
  run select_id id ;
  run modify (fun s => set_occ_count (occ_count s + 1) s) ;
  ret SUCESS.
Definition after1 (la : lattice) (rnd X : Z) (sites : list Z) (k : Z) : M selstate :=
  do central2 <~ lift (lget sites k) ;
  do s2 <~ lift (get_site_by_id la central2) ;
  if site_is_occupied s2 then
    do lat' <~ lift (update_site la X site_reduce_1st_nn) ;
    run modify (set_lat lat') ;
    do sx' <~ lift (get_site_by_id lat' X) ;
    run (if site_is_removable sx' 1 then drop_candidate rnd else ret tt) ;
    ret CURRENT_SITE_NOT_EMPTY
  else finish1 central2.
Definition tail1 (E : env) (la : lattice) (rnd X : Z) : M selstate :=
  do sx <~ lift (get_site_by_id la X) ;
  if site_is_occupied sx then
    run modify (fun s => set_xy (x_occ s + 1) (y_occ s) s) ;
    do sites <~ lift (get_all_neighbor_sites la X) ;
    do k <~ randint E 0 (zlen sites - 1) ;
    after1 la rnd X sites k
  else finish1 X.
Definition finish2 (id : Z) : M selstate :=
  run select_id id ;
  run modify (fun s => set_occ_count (occ_count s + 1) s) ;
  ret SUCESS.
Definition after2 (la : lattice) (rnd X : Z) (sites : list Z) (k : Z) : M selstate :=
  do Y <~ lift (lget sites k) ;
  run modify (fun s => set_xy (x_occ s + 1) (y_occ s) s) ;
  do sy <~ lift (get_site_by_id la Y) ;
  if site_is_occupied sy then
    do lat' <~ lift (update_site la X site_reduce_1st_nn) ;
    run modify (set_lat lat') ;
    do sx <~ lift (get_site_by_id lat' X) ;
    do sy <~ lift (get_site_by_id lat' Y) ;
    let delta := index_normalize (index_sub (s_index sy) (s_index sx)) in
    let z_index := index_add (s_index sy) delta in
    let z_index := correct_index_for_periodicity lat' z_index in
    do sz <~ lift (get_site_by_index lat' z_index) ;
    let Zid := s_id sz in
    do sz <~ lift (get_site_by_id lat' Zid) ;
    if site_is_occupied sz then
      run modify (fun s => set_xy (x_occ s) (y_occ s + 1) s) ;
      do lat'' <~ lift (update_site lat' X site_reduce_2st_directional_nn) ;
      run modify (set_lat lat'') ;
      do sx' <~ lift (get_site_by_id lat'' X) ;
      run (if site_is_removable sx' 2 then drop_candidate rnd else ret tt) ;
      ret CURRENT_SITE_NOT_EMPTY
    else finish2 Zid
  else finish2 Y.
Definition tail2 (E : env) (la : lattice) (rnd X : Z) : M selstate :=
  do sx <~ lift (get_site_by_id la X) ;
  if site_is_occupied sx then
    do sites <~ lift (get_all_neighbor_sites la X) ;
    do k <~ randint E 0 (zlen sites - 1) ;
    after2 la rnd X sites k
  else finish2 X.
Definition from_candidate (tail : lattice -> Z -> Z -> M selstate) (E : env) : M selstate :=
  do s <~ get ;
  if l_site_count (lat s) <=? cur_idx s then ret EMPTY_SITE_LIST else
  do rnd <~ randint E (cur_idx s) (zlen (ids s) - 1) ;
  do X <~ lift (lget (ids s) rnd) ;
  tail (lat s) rnd X.
Lemma split1 E : select_site_L1 E = from_candidate (tail1 E) E.
Proof. reflexivity. Qed.
Lemma split2 E : select_site_L2 E = from_candidate (tail2 E) E.
Proof. reflexivity. Qed.
(** ** Candidates that are the same up to their order *)
Definition cand (n : Z) : where_ := fun c l l' => 0 <= c /\ length l = length l' /\ zlen l <= n /\ NoDup (skipn (Z.to_nat c) l) /\ Permutation (skipn (Z.to_nat c) l) (skipn (Z.to_nat c) l').
Definition cand_at (n rnd rnd' X : Z) : where_ := fun c l l' => cand n c l l' /\ c <= rnd < zlen l /\ c <= rnd' < zlen l' /\ at_ 0 l rnd = X /\ at_ 0 l' rnd' = X.
Lemma cand_drop n r r' X c l l' : cand_at n r r' X c l l' -> cand n (c + 1) (upd l (Z.to_nat r) (at_ 0 l c)) (upd l' (Z.to_nat r') (at_ 0 l' c)).
Proof.
  intros ((C1 & C2 & C3 & C4 & C5) & R1 & R2 & X1 & X2).
  pose proof (drop_perm l c r ltac:(lia) ltac:(lia)) as P1. pose proof (drop_perm l' c r' ltac:(lia) ltac:(lia)) as P2. rewrite X1 in P1. rewrite X2 in P2.
  repeat split; [lia|now rewrite !upd_length|unfold zlen in *; rewrite upd_length; lia| |].
  - pose proof (Permutation_NoDup P1 C4) as N. now inversion N.
  - apply (Permutation_cons_inv (a := X)). eapply perm_trans; [apply Permutation_sym; exact P1|]. eapply perm_trans; [exact C5|exact P2].
Qed.
Lemma cand_at_cand n r r' X c l l' : cand_at n r r' X c l l' -> cand n c l l'.
Proof. now intros (H & _). Qed.
Lemma put_ids a s : ids (put a s) = a_ids a. Proof. reflexivity. Qed.
Lemma put_cur a s : cur_idx (put a s) = cur_idx s. Proof. reflexivity. Qed.
Lemma put_drop s a l l' c : set_cur_idx c (mutate_ids l' (put a s)) = put (aux_of (set_cur_idx c (mutate_ids l' (put a s)))) (set_cur_idx c (mutate_ids l s)).
Proof. destruct s as [k], a. destruct k; vm_compute; reflexivity. Qed.
Lemma tr_drop n r r' X : trip (cand_at n r r' X) (cand n) (drop_candidate r) (drop_candidate r').
Proof.
  intros a s K H. pose proof H as ((C1 & C2 & C3 & _) & R1 & R2 & _). pose proof (cand_drop _ _ _ _ _ _ _ H) as G.
  assert (Z2 : zlen (a_ids a) = zlen (ids s)) by (unfold zlen; lia).
  assert (E1 : drop_candidate r s = (dropped r s, Ok tt)) by (apply drop_candidate_ok; lia).
  assert (E2 : drop_candidate r' (put a s) = (dropped r' (put a s), Ok tt)) by (apply drop_candidate_ok; rewrite put_ids, ?put_cur; lia).
  rewrite E1, E2. cbn [fst snd]. exists (aux_of (dropped r' (put a s))). split; [|split; [exact G|split; [reflexivity|split; reflexivity]]].
  apply (f_equal (fun z => (z, Ok tt))). apply put_drop.
Qed.
Lemma tr_after1 n r r' X la sites k : trip (cand_at n r r' X) (cand n) (after1 la r X sites k) (after1 la r' X sites k).
Proof.
  pose proof (cand_at_cand n r r' X) as I. unfold after1. tt_; [tt_|]. tt_; [tt_|]. tt_.
  - tt_; [tt_|]. tt_; [tt_|]. tt_; [tt_|]. eapply tr_bind; [intros c l l' Q; exact Q| |intros ?; tt_]. tt_; [apply tr_drop|tt_].
  - unfold finish1. tt_; [tt_|]. tt_; [tt_|]. tt_; [apply tr_select_id|]. tt_; [tt_|]. tt_.
Qed.
Lemma tr_after2 n r r' X la sites k : trip (cand_at n r r' X) (cand n) (after2 la r X sites k) (after2 la r' X sites k).
Proof.
  pose proof (cand_at_cand n r r' X) as I.
  assert (F : forall z, trip (cand_at n r r' X) (cand n) (finish2 z) (finish2 z)) by (intros z; unfold finish2; tt_; [apply tr_select_id|]; tt_; [tt_|]; tt_).
  unfold after2. tt_; [tt_|]. tt_; [tt_|]. tt_; [tt_|]. tt_; [|apply F].
  do 5 (tt_; [tt_|]). tt_; [tt_|]. tt_; [|apply F]. do 4 (tt_; [tt_|]). eapply tr_bind; [intros c l l' Q; exact Q| |intros ?; tt_]. tt_; [apply tr_drop|tt_].
Qed.

(** ** Runs fed with a word *)
Lemma nth_skip {A} (l : list A) j i d : nth i (skipn j l) d = nth (j + i) l d.
Proof. revert j. induction l as [|x l IH]; intros [|j]; cbn [skipn nth Nat.add]; auto. now destruct i. Qed.
Lemma skip_skip {A} i j : forall l : list A, skipn i (skipn j l) = skipn (i + j) l.
Proof. induction j as [|j IH]; intros l; [now rewrite Nat.add_0_r|]. destruct l as [|x l]; [now rewrite !skipn_nil|]. rewrite Nat.add_succ_r. cbn [skipn]. apply IH. Qed.
Section Coup.
Variable M : Z.
Hypothesis HM : 0 < M.
Variable ord : list Z -> list Z.
Definition fed (t : nat) (w : list Z) : env := mkEnv ord (fun i => nth (i - t) w 0).
Definition run1 {A} (m : env -> Perc.M A) (s : perc) (K : nat -> perc -> res A -> list Z -> Prop) (w : list Z) : Prop :=
  let o := m (fed (tick s) w) s in K (tick (fst o) - tick s)%nat (fst o) (snd o) (skipn (tick (fst o) - tick s) w).
Definition relC (C : where_) (s s' : perc) : Prop := exists a, s' = put a s /\ is_L12 (kind s) = true /\ C (cur_idx s) (ids s) (ids s').
Definition coup {A} (C D : where_) (B : nat) (m1 m2 : env -> Perc.M A) : Prop := local m1 /\ local m2 /\
  forall s s', relC C s s' -> forall W K K', (B <= W)%nat ->
    (forall j z z' r, (j <= B)%nat -> relC D z z' -> bij M (W - j) (K j z r) (K' j z' r)) ->
    bij M W (run1 m1 s K) (run1 m2 s' K').
Lemma fed_shift {A} (m : env -> Perc.M A) z t w : local m -> (t <= tick z)%nat -> m (fed t w) z = m (fed (tick z) (skipn (tick z - t) w)) z.
Proof.
  intros Hm Ht. destruct (Hm (fed t w) z) as (_ & G). specialize (G (e_draw (fed (tick z) (skipn (tick z - t) w))) (tick z)).
  rewrite set_tick_id in G. change (mkEnv (e_ord (fed t w)) (e_draw (fed (tick z) (skipn (tick z - t) w)))) with (fed (tick z) (skipn (tick z - t) w)) in G.
  destruct (Hm (fed t w) z) as (G1 & _). rewrite G.
  - replace (tick z + (tick (fst (m (fed t w) z)) - tick z))%nat with (tick (fst (m (fed t w) z))) by lia. rewrite set_tick_id. now destruct (m (fed t w) z).
  - intros i _. cbn [e_draw fed]. rewrite nth_skip. f_equal. lia.
Qed.
Lemma run1_bind {A C} (m : env -> Perc.M A) (k : env -> A -> Perc.M C) s K w : local m -> (forall x, local (fun E => k E x)) ->
  (run1 (fun E => mbind (m E) (k E)) s K w <->
   run1 m s (fun j z r w => match r with Ok x => run1 (fun E => k E x) z (fun j2 => K (j + j2)%nat) w | Err e => K j z (Err e) w end) w).
Proof.
  intros Hm Hk. unfold run1 at 1 2. unfold mbind. destruct (Hm (fed (tick s) w) s) as (T1 & _). destruct (m (fed (tick s) w) s) as [z [x|e]]; cbn [fst snd] in *; [|reflexivity].
  unfold run1. rewrite <- (fed_shift (fun E => k E x) z (tick s) w (Hk x) T1). destruct (Hk x (fed (tick s) w) z) as (T2 & _).
  rewrite skip_skip. replace (tick (fst (k (fed (tick s) w) x z)) - tick z + (tick z - tick s))%nat with (tick (fst (k (fed (tick s) w) x z)) - tick s)%nat by lia.
  replace (tick z - tick s + (tick (fst (k (fed (tick s) w) x z)) - tick z))%nat with (tick (fst (k (fed (tick s) w) x z)) - tick s)%nat by lia. reflexivity.
Qed.
Lemma cp_bind {A B} (C X D : where_) b1 b2 (m1 m2 : env -> Perc.M A) (k1 k2 : env -> A -> Perc.M B) : (forall c l l', X c l l' -> D c l l') ->
  coup C X b1 m1 m2 -> (forall x, coup X D b2 (fun E => k1 E x) (fun E => k2 E x)) -> coup C D (b1 + b2) (fun E => mbind (m1 E) (k1 E)) (fun E => mbind (m2 E) (k2 E)).
Proof.
  intros XD (L1 & L2 & Hm) Hk. split; [apply loc_bind; auto; intros x; apply (Hk x)|]. split; [apply loc_bind; auto; intros x; apply (Hk x)|].
  intros s s' R W K K' HW HK.
  eapply bij_iff; [intros w _; apply run1_bind; auto; intros x; apply (Hk x)|intros w _; apply run1_bind; auto; intros x; apply (Hk x)|].
  apply Hm; [exact R|lia|]. intros j z z' [x|e] Hj Rz.
  - apply (proj2 (proj2 (Hk x))); [exact Rz|lia|]. intros j2 z2 z2' r2 Hj2 Rz2. replace (W - j - j2)%nat with (W - (j + j2))%nat by lia. apply HK; [lia|exact Rz2].
  - apply HK; [lia|]. destruct Rz as (a & E1 & E2 & E3). exists a. auto.
Qed.
Lemma cp_more {A} (C D : where_) b b' (m1 m2 : env -> Perc.M A) : (b <= b')%nat -> coup C D b m1 m2 -> coup C D b' m1 m2.
Proof. intros Hb (L1 & L2 & H). split; auto. split; auto. intros s s' R W K K' HW HK. apply H; [exact R|lia|]. intros j z z' r Hj Rz. apply HK; auto. lia. Qed.
Lemma cp_trip {A} (C D : where_) (m1 m2 : env -> Perc.M A) (m01 m02 : Perc.M A) : local m1 -> local m2 -> (forall d, m1 (mkEnv ord d) = m01) -> (forall d, m2 (mkEnv ord d) = m02) ->
  trip C D m01 m02 -> coup C D 0 m1 m2.
Proof.
  intros L1 L2 E1 E2 T. split; auto. split; auto. intros s s' (a & -> & K0 & HC) W K K' _ HK.
  destruct (T a s K0 HC) as (a' & Em & HD & Kd & Ht & Hu).
  apply (bij_iff M W _ _ (K O (fst (m01 s)) (snd (m01 s))) (K' O (put a' (fst (m01 s))) (snd (m01 s)))).
  - intros w _. unfold run1, fed. rewrite E1, Ht, Nat.sub_diag. reflexivity.
  - intros w _. unfold run1, fed. rewrite E2, Em. cbn [fst snd]. change (tick (put a' (fst (m01 s)))) with (a_tick a'). change (tick (put a s)) with (a_tick a).
    rewrite Hu, Nat.sub_diag. reflexivity.
  - rewrite <- (Nat.sub_0_r W). apply HK; [lia|]. exists a'. split; [reflexivity|]. split; [congruence|exact HD].
Qed.
Lemma cp_get {A} (C D : where_) b (k1 k2 : env -> perc -> Perc.M A) : local (fun E => mbind get (k1 E)) -> local (fun E => mbind get (k2 E)) ->
  (forall s a, is_L12 (kind s) = true -> C (cur_idx s) (ids s) (a_ids a) -> coup C D b (fun E => k1 E s) (fun E => k2 E (put a s))) ->
  coup C D b (fun E => mbind get (k1 E)) (fun E => mbind get (k2 E)).
Proof.
  intros L1 L2 H. split; auto. split; auto. intros s s' (a & -> & K0 & HC) W K K' HW HK.
  apply (bij_iff M W _ _ (run1 (fun E => k1 E s) s K) (run1 (fun E => k2 E (put a s)) (put a s) K')); [reflexivity|reflexivity|].
  apply H; auto. exists a. auto.
Qed.
Lemma fed_head t x w : e_draw (fed t (x :: w)) t = x.
Proof. cbn [e_draw fed]. now rewrite Nat.sub_diag. Qed.
(** A draw whose outcome does not matter to the candidates. *)
Lemma cp_randint (C : where_) a b : coup C C 1 (fun E => randint E a b) (fun E => randint E a b).
Proof.
  split; [apply loc_randint|]. split; [apply loc_randint|]. intros s s' (au & -> & K0 & HC) W K K' HW HK. destruct (b <? a) eqn:Eb.
  - apply (bij_iff M W _ _ (K O s (Err ValueError)) (K' O (put au s) (Err ValueError))).
    + intros w _. unfold run1, randint. rewrite Eb. cbn [raise fst snd]. rewrite Nat.sub_diag. reflexivity.
    + intros w _. unfold run1, randint. rewrite Eb. cbn [raise fst snd]. rewrite Nat.sub_diag. reflexivity.
    + rewrite <- (Nat.sub_0_r W). apply HK; [lia|]. exists au. auto.
  - destruct W as [|W]; [lia|]. apply bij_same; [exact HM|]. intros x Hx.
    assert (G : forall z Kz w, run1 (fun E => randint E a b) z Kz (x :: w) <-> Kz 1%nat (set_tick (S (tick z)) z) (Ok (a + x mod (b - a + 1))) w).
    { intros z Kz w. unfold run1, randint. rewrite Eb. unfold mbind, get, modify, ret. cbn [fst snd]. rewrite fed_head. cbn [tick set_tick].
      replace (S (tick z) - tick z)%nat with 1%nat by lia. reflexivity. }
    eapply bij_iff; [intros w _; apply G|intros w _; apply G|]. replace W with (S W - 1)%nat by lia. apply HK; [lia|].
    exists (mkAux (S (a_tick au)) (a_rev au) (a_user au) (a_share au) (a_first au) (a_p au) (a_mi au) (a_mc au) (a_ds au) (a_y au) (a_rec au) (a_sp au) (a_ids au)).
    split; [reflexivity|]. split; [exact K0|exact HC].
Qed.

(** ** The draw of a candidate *)
Lemma put_lat a s : lat (put a s) = lat s. Proof. reflexivity. Qed.
Lemma put_tick a s : tick (put a s) = a_tick a. Proof. reflexivity. Qed.
Definition next_tick (a : aux) : aux := mkAux (S (a_tick a)) (a_rev a) (a_user a) (a_share a) (a_first a) (a_p a) (a_mi a) (a_mc a) (a_ds a) (a_y a) (a_rec a) (a_sp a) (a_ids a).
Lemma put_next a s t : set_tick (S (a_tick a)) (put a s) = put (next_tick a) (set_tick t s).
Proof. destruct s as [k], a. destruct k; vm_compute; reflexivity. Qed.
Variable n : Z.
Hypothesis Hn : forall m, 1 <= m <= n -> (m | M).
Lemma at_nth (l : list Z) i : 0 <= i -> at_ 0 l i = nth (Z.to_nat i) l 0.
Proof. intros H. unfold at_. destruct (Z.leb_spec 0 i); [reflexivity|lia]. Qed.
Lemma first_draw (tail : env -> lattice -> Z -> Z -> Perc.M selstate) z K x w : (forall la rnd X, local (fun E => tail E la rnd X)) ->
  (l_site_count (lat z) <=? cur_idx z) = false -> 0 <= cur_idx z < zlen (ids z) ->
  let rnd := cur_idx z + x mod (zlen (ids z) - cur_idx z) in
  (run1 (fun E => from_candidate (tail E) E) z K (x :: w) <-> run1 (fun E => tail E (lat z) rnd (at_ 0 (ids z) rnd)) (set_tick (S (tick z)) z) (fun j => K (S j)) w).
Proof.
  intros Lt Hl Hc rnd. pose proof (Z.mod_pos_bound x (zlen (ids z) - cur_idx z) ltac:(lia)) as Hb.
  assert (Es : forall E, e_draw E (tick z) = x -> from_candidate (tail E) E z = tail E (lat z) rnd (at_ 0 (ids z) rnd) (set_tick (S (tick z)) z)).
  { intros E Ed. unfold from_candidate. unfold mbind at 1, get at 1. rewrite Hl. unfold randint. destruct (Z.ltb_spec (zlen (ids z) - 1) (cur_idx z)); [lia|].
    unfold mbind, get, modify, ret, lift. rewrite Ed. replace (zlen (ids z) - 1 - cur_idx z + 1) with (zlen (ids z) - cur_idx z) by lia. fold rnd.
    rewrite (lget_in 0) by (unfold rnd; lia). reflexivity. }
  unfold run1 at 1. rewrite Es by apply fed_head. set (z1 := set_tick (S (tick z)) z). change (tick z) with (pred (tick z1)).
  rewrite (fed_shift (fun E => tail E (lat z) rnd (at_ 0 (ids z) rnd)) z1 (pred (tick z1)) (x :: w)) by (auto; lia).
  assert (E1 : (tick z1 - pred (tick z1) = 1)%nat) by (change (tick z1) with (S (tick z)); lia). rewrite E1. cbn [skipn]. unfold run1.
  destruct (Lt (lat z) rnd (at_ 0 (ids z) rnd) (fed (tick z1) w) z1) as (T & _). set (o := tail (fed (tick z1) w) (lat z) rnd (at_ 0 (ids z) rnd) z1) in *.
  replace (tick (fst o) - pred (tick z1))%nat with (S (tick (fst o) - tick z1)) by (change (tick z1) with (S (tick z)) in *; lia). reflexivity.
Qed.
Lemma stop_empty (tail : env -> lattice -> Z -> Z -> Perc.M selstate) z K w : (l_site_count (lat z) <=? cur_idx z) = true ->
  (run1 (fun E => from_candidate (tail E) E) z K w <-> K O z (Ok EMPTY_SITE_LIST) w).
Proof.
  intros H. assert (E1 : forall E, from_candidate (tail E) E z = (z, Ok EMPTY_SITE_LIST)) by (intros E; unfold from_candidate; unfold mbind at 1, get; rewrite H; reflexivity).
  unfold run1. rewrite E1. cbn [fst snd]. rewrite Nat.sub_diag. reflexivity.
Qed.
Lemma stop_err (tail : env -> lattice -> Z -> Z -> Perc.M selstate) z K w : (l_site_count (lat z) <=? cur_idx z) = false -> (zlen (ids z) - 1 <? cur_idx z) = true ->
  (run1 (fun E => from_candidate (tail E) E) z K w <-> K O z (Err ValueError) w).
Proof.
  intros H H2. assert (E1 : forall E, from_candidate (tail E) E z = (z, Err ValueError)) by (intros E; unfold from_candidate; unfold mbind at 1, get; rewrite H; unfold randint; rewrite H2; reflexivity).
  unfold run1. rewrite E1. cbn [fst snd]. rewrite Nat.sub_diag. reflexivity.
Qed.
Lemma cp_candidate (tail : env -> lattice -> Z -> Z -> Perc.M selstate) :
  (forall la r r' X, coup (cand_at n r r' X) (cand n) 1 (fun E => tail E la r X) (fun E => tail E la r' X)) -> local (fun E => from_candidate (tail E) E) ->
  coup (cand n) (cand n) 2 (fun E => from_candidate (tail E) E) (fun E => from_candidate (tail E) E).
Proof.
  intros Ht Lf. split; auto. split; auto. intros s s' (a & -> & K0 & HC) W K K' HW HK. pose proof HC as (C1 & C2 & C3 & C4 & C5). rewrite put_ids in *.
  assert (Zl : zlen (a_ids a) = zlen (ids s)) by (unfold zlen; lia).
  assert (Lt : forall la rnd X, local (fun E => tail E la rnd X)) by (intros la r X; apply (Ht la r r X)).
  destruct (l_site_count (lat s) <=? cur_idx s) eqn:El.
  { apply (bij_iff M W _ _ (K O s (Ok EMPTY_SITE_LIST)) (K' O (put a s) (Ok EMPTY_SITE_LIST))).
    - intros w _. now apply stop_empty.
    - intros w _. apply stop_empty. now rewrite put_lat, put_cur.
    - rewrite <- (Nat.sub_0_r W). apply HK; [lia|]. exists a. auto. }
  destruct (zlen (ids s) - 1 <? cur_idx s) eqn:Eb.
  { apply (bij_iff M W _ _ (K O s (Err ValueError)) (K' O (put a s) (Err ValueError))).
    - intros w _. now apply stop_err.
    - intros w _. apply stop_err; [now rewrite put_lat, put_cur|now rewrite put_ids, put_cur, Zl].
    - rewrite <- (Nat.sub_0_r W). apply HK; [lia|]. exists a. auto. }
  apply Z.ltb_ge in Eb. destruct W as [|W]; [lia|]. set (c := cur_idx s) in *. set (m := zlen (ids s) - c) in *.
  set (l := skipn (Z.to_nat c) (ids s)) in *. set (l' := skipn (Z.to_nat c) (a_ids a)) in *.
  assert (Hl : zlen l = m) by (unfold l, m, zlen in *; rewrite skipn_length; lia). assert (Hl' : zlen l' = m) by (unfold l', m, zlen in *; rewrite skipn_length; lia).
  assert (Hm : 1 <= m <= n) by (unfold m; lia). assert (N' : NoDup l') by (eapply Permutation_NoDup; [exact C5|exact C4]).
  apply (bij_cons M HM W _ _ (remap l l' m) (remap l' l m)).
  { intros x Hx. destruct (remap_ok M l l' m x C4 C5 Hl ltac:(lia) (Hn m Hm) Hx) as (A & B & _). auto. }
  { intros x Hx. destruct (remap_ok M l' l m x N' (Permutation_sym C5) Hl' ltac:(lia) (Hn m Hm) Hx) as (A & B & _). auto. }
  intros x Hx. destruct (remap_ok M l l' m x C4 C5 Hl ltac:(lia) (Hn m Hm) Hx) as (_ & _ & En).
  pose proof (Z.mod_pos_bound x m ltac:(lia)) as B1. pose proof (Z.mod_pos_bound (remap l l' m x) m ltac:(lia)) as B2.
  set (r := c + x mod m). set (r' := c + remap l l' m x mod m). set (X := at_ 0 (ids s) r).
  assert (EX : at_ 0 (a_ids a) r' = X).
  { unfold X. rewrite !at_nth by (unfold r, r'; lia). unfold l, l' in En. rewrite !nth_skip in En. unfold r, r'. rewrite !Z2Nat.inj_add by lia. exact En. }
  apply (bij_iff M W _ _ (run1 (fun E => tail E (lat s) r X) (set_tick (S (tick s)) s) (fun j => K (S j))) (run1 (fun E => tail E (lat s) r' X) (set_tick (S (a_tick a)) (put a s)) (fun j => K' (S j)))).
  - intros w _. apply first_draw; auto. fold c. lia.
  - intros w _. rewrite <- EX. pose proof (first_draw tail (put a s) K' (remap l l' m x) w Lt) as Q. rewrite put_lat, put_tick, put_ids, put_cur, Zl in Q. apply Q; [exact El|]. fold c. lia.
  - apply (proj2 (proj2 (Ht (lat s) r r' X))); [|lia|].
    + exists (next_tick a). split; [apply put_next|]. split; [exact K0|]. rewrite (put_next a s (S (tick s))), put_ids. change (cand_at n r r' X c (ids s) (a_ids a)).
      split; [exact HC|]. rewrite Zl. unfold m in *. repeat split; auto; unfold r, r'; lia.
    + intros j z z' q Hj Rz. replace (W - j)%nat with (S W - S j)%nat by lia. apply HK; [lia|exact Rz].
Qed.
Ltac step := first [apply loc_select_id|apply loc_drop|lc].
Lemma loc_fin1 x : local (fun E => finish1 x).
Proof. unfold finish1. repeat step. Qed.
Lemma loc_fin2 x : local (fun E => finish2 x).
Proof. unfold finish2. repeat step. Qed.
Lemma loc_after1 la r X si k : local (fun E => after1 la r X si k).
Proof. unfold after1. repeat first [apply loc_fin1|step]. Qed.
Lemma loc_after2 la r X si k : local (fun E => after2 la r X si k).
Proof. unfold after2. repeat first [apply loc_fin2|step]. Qed.
Ltac still0 := eapply cp_trip; [repeat step|repeat step|intros; reflexivity|intros; reflexivity|].
Lemma cp_tail1 la r r' X : coup (cand_at n r r' X) (cand n) 1 (fun E => tail1 E la r X) (fun E => tail1 E la r' X).
Proof.
  pose proof (cand_at_cand n r r' X) as I. unfold tail1.
  apply (cp_bind (cand_at n r r' X) (cand_at n r r' X) (cand n) 0 1); [exact I|still0; tt_|]. intros sx. destruct (site_is_occupied sx).
  - apply (cp_bind (cand_at n r r' X) (cand_at n r r' X) (cand n) 0 1); [exact I|still0; tt_|]. intros _.
    apply (cp_bind (cand_at n r r' X) (cand_at n r r' X) (cand n) 0 1); [exact I|still0; tt_|]. intros si.
    apply (cp_bind (cand_at n r r' X) (cand_at n r r' X) (cand n) 1 0); [exact I|apply cp_randint|]. intros k.
    eapply cp_trip; [apply loc_after1|apply loc_after1|intros; reflexivity|intros; reflexivity|]. apply tr_after1.
  - apply (cp_more _ _ 0); [lia|]. eapply cp_trip; [apply loc_fin1|apply loc_fin1|intros; reflexivity|intros; reflexivity|].
    unfold finish1. tt_; [tt_|]. tt_; [tt_|]. tt_; [apply tr_select_id|]. tt_; [tt_|]. tt_.
Qed.
Lemma cp_tail2 la r r' X : coup (cand_at n r r' X) (cand n) 1 (fun E => tail2 E la r X) (fun E => tail2 E la r' X).
Proof.
  pose proof (cand_at_cand n r r' X) as I. unfold tail2.
  apply (cp_bind (cand_at n r r' X) (cand_at n r r' X) (cand n) 0 1); [exact I|still0; tt_|]. intros sx. destruct (site_is_occupied sx).
  - apply (cp_bind (cand_at n r r' X) (cand_at n r r' X) (cand n) 0 1); [exact I|still0; tt_|]. intros si.
    apply (cp_bind (cand_at n r r' X) (cand_at n r r' X) (cand n) 1 0); [exact I|apply cp_randint|]. intros k.
    eapply cp_trip; [apply loc_after2|apply loc_after2|intros; reflexivity|intros; reflexivity|]. apply tr_after2.
  - apply (cp_more _ _ 0); [lia|]. eapply cp_trip; [apply loc_fin2|apply loc_fin2|intros; reflexivity|intros; reflexivity|].
    unfold finish2. tt_; [apply tr_select_id|]. tt_; [tt_|]. tt_.
Qed.
Lemma cp_select : coup (cand n) (cand n) 2 select_site select_site.
Proof.
  unfold select_site. apply (cp_get (cand n) (cand n) 2 (fun E s => match kind s with KL1 => select_site_L1 E | KL2 => select_site_L2 E | _ => select_site_base end)); [exact loc_select|exact loc_select|].
  intros s a K _. change (kind (put a s)) with (kind s). destruct (kind s); try discriminate.
  - apply (cp_candidate tail1); [exact cp_tail1|exact loc_L1].
  - apply (cp_candidate tail2); [exact cp_tail2|exact loc_L2].
Qed.
Lemma loc_rest f : local (fun E => place_rest E f).
Proof. unfold place_rest. repeat first [apply loc_need|apply loc_track|lc]. Qed.
Lemma cp_place : coup (cand n) (cand n) 2 place_one_site place_one_site.
Proof.
  apply (cp_bind (cand n) (cand n) (cand n) 2 0 select_site select_site place_rest place_rest); [auto|apply cp_select|]. intros f.
  apply (cp_trip (cand n) (cand n) _ _ (place_rest (mkEnv ord (fun _ => 0)) f) (place_rest (mkEnv ord (fun _ => 0)) f)); [apply loc_rest|apply loc_rest|reflexivity|reflexivity|]. apply tr_rest.
Qed.

(** ** Runs *)
Notation cn := (cand n).
Lemma cp_still {A} (m : Perc.M A) : local (fun _ => m) -> trip cn cn m m -> coup cn cn 0 (fun _ => m) (fun _ => m).
Proof. intros Lm T. apply (cp_trip cn cn _ _ m m); auto. Qed.
Lemma cp_detect : coup cn cn 0 (fun _ => detect_wrapping) (fun _ => detect_wrapping).
Proof. apply cp_still; [apply loc_detect|apply tr_detect]. Qed.
Lemma cp_record : coup cn cn 0 (fun _ => record_step) (fun _ => record_step).
Proof. apply cp_still; [apply loc_record|apply tr_record]. Qed.
Lemma cp_run_loop f : coup cn cn (2 * f) (fun E => run_loop E f) (fun E => run_loop E f).
Proof.
  induction f as [|f IH]; cbn [run_loop]; [apply cp_still; [lc|tt_]|]. replace (2 * S f)%nat with (2 + 2 * f)%nat by lia.
  apply (cp_bind cn cn cn 2 (2 * f) place_one_site place_one_site); [auto|apply cp_place|]. intros [|].
  - apply cp_get; [repeat first [apply loc_run_loop|apply loc_detect|apply loc_record|lc]|repeat first [apply loc_run_loop|apply loc_detect|apply loc_record|lc]|].
    intros s a K _. change (flag_is_success (put a s)) with (flag_is_success s).
    apply (cp_bind cn cn cn 0 (2 * f)); [auto| |intros _; exact IH]. destruct (flag_is_success s); [|apply cp_still; [lc|tt_]].
    apply (cp_bind cn cn cn 0 0); [auto|apply cp_detect|intros _; apply cp_record].
  - apply (cp_more cn cn 0); [lia|]. apply cp_still; [lc|tt_].
Qed.
Lemma cp_test_loop f : coup cn cn (2 * f) (fun E => test_run_loop E f) (fun E => test_run_loop E f).
Proof.
  induction f as [|f IH]; cbn [test_run_loop]; [apply cp_still; [lc|tt_]|]. replace (2 * S f)%nat with (2 + 2 * f)%nat by lia.
  assert (Lo : local (fun E => do s <~ get ; if flag_is_success s then do w <~ detect_wrapping ; if w then do s <~ get ; do n <~ need (pc_sites s) ; lift (passert (n <? pc_occ s)) else run record_step ; test_run_loop E f else test_run_loop E f))
    by (repeat first [apply loc_test_loop|apply loc_detect|apply loc_record|apply loc_need|lc]).
  apply (cp_bind cn cn cn 2 (2 * f) place_one_site place_one_site); [auto|apply cp_place|]. intros [|].
  - apply cp_get; [exact Lo|exact Lo|]. intros s a K _. change (flag_is_success (put a s)) with (flag_is_success s). destruct (flag_is_success s); [|exact IH].
    apply (cp_bind cn cn cn 0 (2 * f)); [auto|apply cp_detect|]. intros [|].
    + apply (cp_more cn cn 0); [lia|]. apply cp_still; [repeat first [apply loc_need|lc]|repeat tt_].
    + apply (cp_bind cn cn cn 0 (2 * f)); [auto|apply cp_record|intros _; exact IH].
  - apply (cp_more cn cn 0); [lia|]. apply cp_still; [lc|tt_].
Qed.
Lemma cp_finish : coup cn cn 0 (fun _ => modify (set_first_run false)) (fun _ => modify (set_first_run false)).
Proof. apply cp_still; [lc|tt_]. Qed.
Lemma cp_run f : coup cn cn (2 * f) (fun E => run_once E f) (fun E => run_once E f).
Proof.
  unfold run_once. apply (cp_get cn cn (2 * f) (fun E s => match kind s with KSP => sp_run_once E f | _ => run_once_base E f end)); [exact (loc_run f)|exact (loc_run f)|]. intros s a K _. change (kind (put a s)) with (kind s).
  assert (G : coup cn cn (2 * f) (fun E => run_once_base E f) (fun E => run_once_base E f)).
  { replace (2 * f)%nat with (2 * f + 0)%nat by lia. apply (cp_bind cn cn cn (2 * f) 0); [auto|apply cp_run_loop|intros _; apply cp_finish]. }
  destruct (kind s); try discriminate; exact G.
Qed.
Lemma cp_test_run f : coup cn cn (2 * f) (fun E => test_run_once E f) (fun E => test_run_once E f).
Proof. replace (2 * f)%nat with (2 * f + 0)%nat by lia. apply (cp_bind cn cn cn (2 * f) 0); [auto|apply cp_test_loop|intros _; apply cp_finish]. Qed.
End Coup.
