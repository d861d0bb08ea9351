(** * ArraysProps: curves that the caller keeps (proofs for Props_Arrays.v). *)
From Coq Require Import ZArith List Bool Lia.
From Verif Require Import Py Lattice Cluster Geometry Perc Spec History State Reach Demo WorldProps SharedProps Arrays ArraysSpec.
Import ListNotations.
Open Scope Z_scope.

(** ** Calls other than reset append *)
Definition grown (a b : list fexpr) : Prop := exists x, b = a ++ x.
Definition ext (s t : perc) : Prop :=
  grown (p_arr s) (p_arr t) /\ grown (h_arr s) (h_arr t) /\ grown (pw_arr s) (pw_arr t) /\ grown (pl_arr s) (pl_arr t) /\
  (first_run s = false -> first_run t = false /\ p_arr t = p_arr s).
Lemma grown_refl a : grown a a.
Proof. exists []. now rewrite app_nil_r. Qed.
Lemma grown_trans a b c : grown a b -> grown b c -> grown a c.
Proof. intros (x & ->) (y & ->). exists (x ++ y). now rewrite app_assoc. Qed.
Lemma ext_refl s : ext s s.
Proof. repeat split; auto using grown_refl. Qed.
Lemma ext_trans s t u : ext s t -> ext t u -> ext s u.
Proof.
  intros (A1 & A2 & A3 & A4 & A5) (B1 & B2 & B3 & B4 & B5). split; [eapply grown_trans; eauto|]. split; [eapply grown_trans; eauto|].
  split; [eapply grown_trans; eauto|]. split; [eapply grown_trans; eauto|]. intros F. destruct (A5 F) as (F1 & E1). destruct (B5 F1) as (F2 & E2). split; congruence.
Qed.
Lemma ext_same s t : p_arr t = p_arr s -> h_arr t = h_arr s -> pw_arr t = pw_arr s -> pl_arr t = pl_arr s -> (first_run s = false -> first_run t = false) -> ext s t.
Proof. intros E1 E2 E3 E4 E5. unfold ext. rewrite E1, E2, E3, E4. repeat split; auto using grown_refl. Qed.
Definition gw {A} (m : M A) : Prop := forall s, ext s (fst (m s)).
Lemma gw_ret {A} (a : A) : gw (ret a).
Proof. intros s. apply ext_refl. Qed.
Lemma gw_raise {A} e : gw (@raise A e).
Proof. intros s. apply ext_refl. Qed.
Lemma gw_lift {A} (r : res A) : gw (lift r).
Proof. intros s. apply ext_refl. Qed.
Lemma gw_need {A} (o : option A) : gw (need o).
Proof. destruct o; [apply gw_ret|apply gw_raise]. Qed.
Lemma gw_bind {A C} (m : M A) (k : A -> M C) : gw m -> (forall a, gw (k a)) -> gw (mbind m k).
Proof. intros Hm Hk s. unfold mbind. pose proof (Hm s) as H. destruct (m s) as [s1 [a|e]]; cbn [fst] in *; auto. eapply ext_trans; [exact H|apply Hk]. Qed.
Lemma gw_get {C} (k : perc -> M C) : (forall s, gw (k s)) -> gw (mbind get k).
Proof. intros Hk s. apply (Hk s s). Qed.
Lemma gw_modify f : (forall s, p_arr (f s) = p_arr s) -> (forall s, h_arr (f s) = h_arr s) -> (forall s, pw_arr (f s) = pw_arr s) -> (forall s, pl_arr (f s) = pl_arr s) ->
  (forall s, first_run s = false -> first_run (f s) = false) -> gw (modify f).
Proof. intros E1 E2 E3 E4 E5 s. exact (ext_same s (f s) (E1 s) (E2 s) (E3 s) (E4 s) (E5 s)). Qed.
Ltac gg := cbv beta zeta; lazymatch goal with
  | |- gw (ret _) => apply gw_ret
  | |- gw (raise _) => apply gw_raise
  | |- gw (lift _) => apply gw_lift
  | |- gw (need _) => apply gw_need
  | |- gw (mbind get _) => apply gw_get; intro
  | |- gw (mbind _ _) => apply gw_bind; [|intro]
  | |- gw (modify _) => apply gw_modify; try reflexivity; intros ? ?; first [assumption|reflexivity]
  | |- gw (match ?b with _ => _ end) => destruct b
  end.
Lemma gw_randint E a b : gw (randint E a b).
Proof. unfold randint. repeat gg. Qed.
Lemma gw_select_id x : gw (select_id x).
Proof. unfold select_id. repeat gg. Qed.
Lemma gw_drop r : gw (drop_candidate r).
Proof. unfold drop_candidate. repeat gg. Qed.
Ltac gc := first [apply gw_drop|apply gw_select_id|apply gw_randint|gg].
Lemma gw_select E : gw (select_site E).
Proof. unfold select_site. gg. gg; unfold select_site_base, select_site_L1, select_site_L2; repeat gc. Qed.
Lemma gw_place E : gw (place_one_site E).
Proof. unfold place_one_site. gg; [apply gw_select|]. repeat first [gg | progress unfold track_largest_cluster]. Qed.
Lemma gw_detect : gw detect_wrapping.
Proof. unfold detect_wrapping. repeat gg. Qed.
Lemma gw_record : gw record_step.
Proof.
  unfold record_step. gg. gg; [gg|]. gg; [gg|]. gg; [gg|]. intros t. unfold modify. cbn [fst]. unfold ext. cbn [p_arr h_arr pw_arr pl_arr first_run set_arrs].
  split; [destruct (first_run t); [now exists [a]|apply grown_refl]|]. split; [now eexists|]. split; [now eexists|]. split; [now eexists|].
  intros ->. auto.
Qed.
Lemma gw_run_loop E f : gw (run_loop E f).
Proof.
  induction f as [|f IH]; cbn [run_loop]; [gg|]. gg; [apply gw_place|]. gg; [|gg]. gg. gg; [|exact IH]. gg; [|gg]. gg; [apply gw_detect|apply gw_record].
Qed.
Lemma gw_test_loop E f : gw (test_run_loop E f).
Proof.
  induction f as [|f IH]; cbn [test_run_loop]; [gg|]. gg; [apply gw_place|]. gg; [|gg]. gg. gg; [|exact IH]. gg; [apply gw_detect|]. gg; [repeat gg|].
  gg; [apply gw_record|exact IH].
Qed.
Lemma gw_sp_loop E f : gw (sp_loop E f).
Proof.
  induction f as [|f IH]; cbn [sp_loop]; [gg|]. gg; [apply gw_place|]. gg; [|gg]. gg. gg; [|exact IH]. gg; [apply gw_detect|]. gg; [|exact IH].
  gg. gg; [gg|]. gg; [gg|]. gg; [gg|]. gg. gg; [|exact IH]. repeat gg.
Qed.
Lemma gw_run E f : gw (run_once E f).
Proof.
  unfold run_once. gg. assert (G1 : gw (run_once_base E f)) by (unfold run_once_base; gg; [apply gw_run_loop|gg]).
  assert (G2 : gw (sp_run_once E f)) by (unfold sp_run_once; gg; [apply gw_sp_loop|gg]). gg; auto.
Qed.
Lemma gw_shuffle E : gw (shuffle E).
Proof. unfold shuffle. gg. gg; [gg|]. gg; [|gg]. destruct (random_shuffle E (tick s) (ids s)) as [l t]. repeat gg. Qed.
Lemma exec_ext E s c : c <> CReset -> ext s (exec E s c).
Proof.
  intros Hc. destruct c; cbn [exec]; [apply gw_place|apply gw_detect|easy| | | |apply gw_run|].
  - revert s. change (gw (set_custome_site_id_list E l sh)). unfold set_custome_site_id_list. repeat first [apply gw_shuffle|gg].
  - revert s. change (gw (set_custome_site_index_list E l sh)). unfold set_custome_site_index_list. repeat first [apply gw_shuffle|gg].
  - revert s. change (gw (swap_ids a b)). unfold swap_ids. repeat gg.
  - revert s. change (gw (test_run_once E fuel)). unfold test_run_once. gg; [apply gw_test_loop|gg].
Qed.

(** ** Nothing depends on the curves *)
Definition obv {A} (m : M A) : Prop := forall s p h w l, exists p' h' w' l',
  m (set_arrs p h w l s) = (set_arrs p' h' w' l' (fst (m s)), snd (m s)).
Lemma obv_ret {A} (a : A) : obv (ret a).
Proof. intros s p h w l. exists p, h, w, l. reflexivity. Qed.
Lemma obv_raise {A} e : obv (@raise A e).
Proof. intros s p h w l. exists p, h, w, l. reflexivity. Qed.
Lemma obv_lift {A} (r : res A) : obv (lift r).
Proof. intros s p h w l. exists p, h, w, l. reflexivity. Qed.
Lemma obv_need {A} (o : option A) : obv (need o).
Proof. destruct o; [apply obv_ret|apply obv_raise]. Qed.
Lemma obv_bind {A C} (m : M A) (k : A -> M C) : obv m -> (forall a, obv (k a)) -> obv (mbind m k).
Proof.
  intros Hm Hk s p h w l. destruct (Hm s p h w l) as (p1 & h1 & w1 & l1 & E1). unfold mbind. rewrite E1. destruct (m s) as [s1 [a|e]]; cbn [fst snd] in *.
  - apply (Hk a).
  - exists p1, h1, w1, l1. reflexivity.
Qed.
Lemma obv_get {C} (k : perc -> M C) : (forall s p h w l, k (set_arrs p h w l s) = k s) -> (forall s, obv (k s)) -> obv (mbind get k).
Proof. intros He Hk s p h w l. unfold mbind, get. rewrite He. apply (Hk s s). Qed.
Lemma obv_modify f : (forall s p h w l, exists p' h' w' l', f (set_arrs p h w l s) = set_arrs p' h' w' l' (f s)) -> obv (modify f).
Proof. intros Hf s p h w l. destruct (Hf s p h w l) as (a & b & c & d & E). exists a, b, c, d. unfold modify. cbn [fst snd]. now rewrite E. Qed.
Ltac ov := cbv beta zeta; lazymatch goal with
  | |- obv (ret _) => apply obv_ret
  | |- obv (raise _) => apply obv_raise
  | |- obv (lift _) => apply obv_lift
  | |- obv (need _) => apply obv_need
  | |- obv (mbind get _) => apply obv_get; [intros; reflexivity|intro]
  | |- obv (mbind _ _) => apply obv_bind; [|intro]
  | |- obv (modify _) => apply obv_modify; intros; do 4 eexists; reflexivity
  | |- obv (match ?b with _ => _ end) => destruct b
  end.
Lemma obv_randint E a b : obv (randint E a b).
Proof. unfold randint. repeat ov. Qed.
Lemma obv_select_id x : obv (select_id x).
Proof. unfold select_id. repeat ov. Qed.
Lemma obv_drop r : obv (drop_candidate r).
Proof. unfold drop_candidate. repeat ov. Qed.
Ltac ow := first [apply obv_drop|apply obv_select_id|apply obv_randint|ov].
Lemma obv_select E : obv (select_site E).
Proof. unfold select_site. ov. ov; unfold select_site_base, select_site_L1, select_site_L2; repeat ow. Qed.
Lemma obv_place E : obv (place_one_site E).
Proof. unfold place_one_site. ov; [apply obv_select|]. repeat first [ov | progress unfold track_largest_cluster]. Qed.
Lemma obv_detect : obv detect_wrapping.
Proof. unfold detect_wrapping. repeat ov. Qed.
Lemma obv_record : obv record_step.
Proof. unfold record_step. repeat ov. Qed.
Lemma obv_run_loop E f : obv (run_loop E f).
Proof.
  induction f as [|f IH]; cbn [run_loop]; [ov|]. ov; [apply obv_place|]. ov; [|ov]. ov. ov; [|exact IH]. ov; [|ov]. ov; [apply obv_detect|apply obv_record].
Qed.
Lemma obv_test_loop E f : obv (test_run_loop E f).
Proof.
  induction f as [|f IH]; cbn [test_run_loop]; [ov|]. ov; [apply obv_place|]. ov; [|ov]. ov. ov; [|exact IH]. ov; [apply obv_detect|]. ov; [repeat ov|].
  ov; [apply obv_record|exact IH].
Qed.
Lemma obv_sp_loop E f : obv (sp_loop E f).
Proof.
  induction f as [|f IH]; cbn [sp_loop]; [ov|]. ov; [apply obv_place|]. ov; [|ov]. ov. ov; [|exact IH]. ov; [apply obv_detect|]. ov; [|exact IH].
  ov. ov; [ov|]. ov; [ov|]. ov; [ov|]. ov. ov; [|exact IH]. repeat ov.
Qed.
Lemma obv_shuffle E : obv (shuffle E).
Proof. unfold shuffle. ov. ov; [ov|]. ov; [|ov]. destruct (random_shuffle E (tick s) (ids s)) as [l t]. repeat ov. Qed.
Lemma obv_exec E s t c : bare s = bare t -> bare (exec E s c) = bare (exec E t c) /\ outcome E s c = outcome E t c.
Proof.
  intros H. assert (Q : exists p h w l, t = set_arrs p h w l s).
  { destruct s, t. unfold bare, set_arrs in *. cbn in *. injection H. intros. subst. do 4 eexists. reflexivity. }
  destruct Q as (p & h & w & l & ->). clear H.
  assert (G : forall A (m : M A), obv m -> bare (fst (m s)) = bare (fst (m (set_arrs p h w l s))) /\ snd (m (set_arrs p h w l s)) = snd (m s)).
  { intros A m O. destruct (O s p h w l) as (p' & h' & w' & l' & ->). split; reflexivity. }
  destruct c; cbn [exec outcome].
  - destruct (G _ _ (obv_place E)) as (A & ->). auto.
  - destruct (G _ _ obv_detect) as (A & ->). auto.
  - destruct (G _ (reset E)) as (A & ->); [|auto]. unfold reset. ov; [unfold reset_base; repeat first [apply obv_shuffle|ov]|]. repeat ov.
  - destruct (G _ (set_custome_site_id_list E l0 sh)) as (A & ->); [|auto]. unfold set_custome_site_id_list. repeat first [apply obv_shuffle|ov].
  - destruct (G _ (set_custome_site_index_list E l0 sh)) as (A & ->); [|auto]. unfold set_custome_site_index_list. repeat first [apply obv_shuffle|ov].
  - destruct (G _ (swap_ids a b)) as (A & ->); [|auto]. unfold swap_ids. repeat ov.
  - destruct (G _ (run_once E fuel)) as (A & ->); [|auto]. unfold run_once. ov. assert (G1 : obv (run_once_base E fuel)) by (unfold run_once_base; ov; [apply obv_run_loop|ov]).
    assert (G2 : obv (sp_run_once E fuel)) by (unfold sp_run_once; ov; [apply obv_sp_loop|ov]). ov; auto.
  - destruct (G _ (test_run_once E fuel)) as (A & ->); [|auto]. unfold test_run_once. ov; [apply obv_test_loop|ov].
Qed.

(** ** The store *)
Definition KW (a : keeper) : Prop :=
  (k_p a < length (k_store a) /\ k_h a < length (k_store a) /\ k_w a < length (k_store a) /\ k_l a < length (k_store a) /\
   k_p a <> k_h a /\ k_p a <> k_w a /\ k_p a <> k_l a /\ k_h a <> k_w a /\ k_h a <> k_l a /\ k_w a <> k_l a)%nat.
Lemma nth_upd_f (l : list (list fexpr)) : forall k r v, (k < length l)%nat -> nth r (upd l k v) [] = if Nat.eqb k r then v else nth r l [].
Proof.
  induction l as [|a l IH]; intros [|k] [|r] v H; cbn [length] in H; try lia; cbn [upd nth Nat.eqb]; auto. apply IH. lia.
Qed.
Lemma upd_len {A} (l : list A) k v : length (upd l k v) = length l.
Proof. apply PyFacts.upd_length. Qed.
Lemma append_contents a s r : KW a -> contents (kappend a s) r =
  if Nat.eqb (k_l a) r then pl_arr s else if Nat.eqb (k_w a) r then pw_arr s else if Nat.eqb (k_h a) r then h_arr s else if Nat.eqb (k_p a) r then p_arr s else contents a r.
Proof. intros (A & B & C & D & _). unfold contents, kappend. cbn [k_store]. rewrite !nth_upd_f by (rewrite ?upd_len; auto). reflexivity. Qed.
Lemma append_kw a s : KW a -> KW (kappend a s).
Proof. unfold KW, kappend. cbn [k_p k_h k_w k_l k_store]. rewrite !upd_len. auto. Qed.
Lemma set_arrs_id s : set_arrs (p_arr s) (h_arr s) (pw_arr s) (pl_arr s) s = s.
Proof. destruct s. reflexivity. Qed.
Lemma append_load a s : KW a -> kload (kappend a s) = s.
Proof.
  intros K. unfold kload. rewrite !append_contents by auto. destruct K as (_ & _ & _ & _ & N1 & N2 & N3 & N4 & N5 & N6). cbn [kappend k_p k_h k_w k_l k_obj].
  rewrite !Nat.eqb_refl. repeat match goal with |- context [Nat.eqb ?x ?y] => destruct (Nat.eqb_spec x y); [exfalso; congruence|] end. apply set_arrs_id.
Qed.
Lemma app_len3 {A} (l : list A) x y z : length (l ++ [x; y; z]) = (length l + 3)%nat.
Proof. rewrite app_length. reflexivity. Qed.
Lemma app_len4 {A} (l : list A) x y z w : length (l ++ [x; y; z; w]) = (length l + 4)%nat.
Proof. rewrite app_length. reflexivity. Qed.
Lemma reset_kw a s : KW a -> KW (kreset a s).
Proof.
  intros (A & B & C & D & _). unfold KW, kreset. destruct (first_run (k_obj a)); cbn [k_p k_h k_w k_l k_store]; rewrite ?app_len3, ?app_len4; repeat split; lia.
Qed.
Lemma reset_contents a s r : (r < length (k_store a))%nat -> contents (kreset a s) r = contents a r.
Proof. intros H. unfold contents, kreset. destruct (first_run (k_obj a)); cbn [k_store]; now rewrite app_nth1. Qed.
Lemma nth_at {A} (l m : list A) n d : nth (n + length l) (l ++ m) d = nth n m d.
Proof. rewrite app_nth2 by lia. f_equal. lia. Qed.
Lemma reset_load a s : KW a -> p_arr s = (if first_run (k_obj a) then [] else contents a (k_p a)) -> kload (kreset a s) = s.
Proof.
  intros K Hp. destruct (first_run (k_obj a)) eqn:F.
  - unfold kload, contents, kreset. rewrite F. cbn [k_p k_h k_w k_l k_obj k_store].
    pose proof (nth_at (k_store a) [p_arr s; h_arr s; pw_arr s; pl_arr s] 0 []) as E0. pose proof (nth_at (k_store a) [p_arr s; h_arr s; pw_arr s; pl_arr s] 1 []) as E1.
    pose proof (nth_at (k_store a) [p_arr s; h_arr s; pw_arr s; pl_arr s] 2 []) as E2. pose proof (nth_at (k_store a) [p_arr s; h_arr s; pw_arr s; pl_arr s] 3 []) as E3.
    cbn [Nat.add nth] in *. rewrite E0, E1, E2, E3. apply set_arrs_id.
  - assert (Ep : contents (kreset a s) (k_p a) = p_arr s) by (rewrite reset_contents by apply K; congruence).
    unfold kload. assert (Ek : k_p (kreset a s) = k_p a) by (unfold kreset; rewrite F; reflexivity). rewrite Ek, Ep. unfold contents, kreset. rewrite F. cbn [k_h k_w k_l k_obj k_store].
    pose proof (nth_at (k_store a) [h_arr s; pw_arr s; pl_arr s] 0 []) as E0. pose proof (nth_at (k_store a) [h_arr s; pw_arr s; pl_arr s] 1 []) as E1.
    pose proof (nth_at (k_store a) [h_arr s; pw_arr s; pl_arr s] 2 []) as E2. cbn [Nat.add nth] in *. rewrite E0, E1, E2. apply set_arrs_id.
Qed.
Lemma kstep_reset E a : kstep E a (ACall CReset) = kreset a (exec E (kload a) CReset).
Proof. reflexivity. Qed.
Lemma kstep_call E a c : c <> CReset -> kstep E a (ACall c) = kappend a (exec E (kload a) c).
Proof. destruct c; try reflexivity. congruence. Qed.
Lemma kw_step E a x : KW a -> KW (kstep E a x).
Proof.
  intros K. destruct x as [c|r l].
  - assert (D : c = CReset \/ c <> CReset) by (destruct c; auto; right; discriminate). destruct D as [-> |D]; [apply reset_kw; auto|]. rewrite kstep_call by auto. now apply append_kw.
  - unfold KW, kstep. cbn [k_p k_h k_w k_l k_store]. rewrite upd_len. exact K.
Qed.
Lemma kw_run E xs : forall a, KW a -> KW (krun E a xs).
Proof. induction xs as [|x xs IH]; intros a K; [exact K|]. apply (IH (kstep E a x)). now apply kw_step. Qed.
Lemma kw_start s : KW (kstart s).
Proof. unfold KW, kstart. cbn. repeat split; lia. Qed.
Lemma kload_start s : kload (kstart s) = s.
Proof. apply set_arrs_id. Qed.
Lemma len_step E a x : (length (k_store a) <= length (k_store (kstep E a x)))%nat.
Proof.
  destruct x as [c|r l].
  - assert (D : c = CReset \/ c <> CReset) by (destruct c; auto; right; discriminate). destruct D as [-> |D].
    + cbn [kstep]. unfold kreset. destruct (first_run (k_obj a)); cbn [k_store]; rewrite ?app_len3, ?app_len4; lia.
    + rewrite kstep_call by auto. cbn [kappend k_store]. rewrite !upd_len. lia.
  - cbn [kstep k_store]. rewrite upd_len. lia.
Qed.
(** One step that is a call. *)
Definition lasts (a a' : keeper) (r : nat) : Prop :=
  grown (contents a r) (contents a' r) /\ (~ in_use a r -> contents a' r = contents a r /\ ~ in_use a' r) /\
  (r = k_p a -> first_run (k_obj a) = false -> contents a' r = contents a r /\ k_p a' = r /\ first_run (k_obj a') = false).
Lemma step_lasts E a c r : KW a -> (c = CReset -> first_run (exec E (kload a) CReset) = first_run (k_obj a)) ->
  (r < length (k_store a))%nat -> lasts a (kstep E a (ACall c)) r.
Proof.
  intros K Hf Hr. assert (D : c = CReset \/ c <> CReset) by (destruct c; auto; right; discriminate). destruct D as [-> |D].
  - rewrite kstep_reset. specialize (Hf eq_refl). set (s := exec E (kload a) CReset) in *. unfold lasts. rewrite reset_contents by auto.
    split; [apply grown_refl|]. split.
    + intros N. split; [reflexivity|]. intros U. apply N. unfold in_use, get_occupation_prob_array, get_entropy_array, get_order_param_wrapping_array, get_order_param_largest_array, kreset in *.
      destruct (first_run (k_obj a)); cbn [k_p k_h k_w k_l] in U; [lia|]. destruct U as [U|U]; [now left|lia].
    + intros -> F. split; [reflexivity|]. unfold kreset. rewrite F. cbn [k_p k_obj]. split; [reflexivity|congruence].
  - rewrite kstep_call by auto. pose proof (exec_ext E (kload a) c D) as (X1 & X2 & X3 & X4 & X5). unfold lasts. rewrite append_contents by auto.
    change (p_arr (kload a)) with (contents a (k_p a)) in X1, X5. change (h_arr (kload a)) with (contents a (k_h a)) in X2.
    change (pw_arr (kload a)) with (contents a (k_w a)) in X3. change (pl_arr (kload a)) with (contents a (k_l a)) in X4. change (first_run (kload a)) with (first_run (k_obj a)) in X5.
    split; [|split].
    + destruct (Nat.eqb_spec (k_l a) r); [subst r; exact X4|]. destruct (Nat.eqb_spec (k_w a) r); [subst r; exact X3|].
      destruct (Nat.eqb_spec (k_h a) r); [subst r; exact X2|]. destruct (Nat.eqb_spec (k_p a) r); [subst r; exact X1|apply grown_refl].
    + intros N. split; [|exact N]. unfold in_use, get_occupation_prob_array, get_entropy_array, get_order_param_wrapping_array, get_order_param_largest_array in N.
      destruct (Nat.eqb_spec (k_l a) r); [subst r; tauto|]. destruct (Nat.eqb_spec (k_w a) r); [subst r; tauto|].
      destruct (Nat.eqb_spec (k_h a) r); [subst r; tauto|]. destruct (Nat.eqb_spec (k_p a) r); [subst r; tauto|reflexivity].
    + intros -> F. destruct (X5 F) as (F1 & F2). destruct K as (_ & _ & _ & _ & N1 & N2 & N3 & N4 & N5 & N6).
      repeat match goal with |- context [Nat.eqb ?x ?y] => destruct (Nat.eqb_spec x y); try (exfalso; congruence) end; try (split; [exact F2|]; split; [reflexivity|exact F1]).
Qed.

(** ** Keepers of valid objects *)
Lemma inv_arrs L s p h w l : Inv L s -> Inv L (set_arrs p h w l s).
Proof. intros [H1 H2 H3 H4 H5 H6 H7 H8 H9 H10 H11 H12 H13 H14]. constructor; assumption. Qed.
Definition KI (L : Z) (a : keeper) : Prop := KW a /\ Inv L (kload a).
Lemma ki_reset E L a : KI L a -> exists s, exec E (kload a) CReset = s /\ first_run s = first_run (k_obj a) /\
  p_arr s = (if first_run (k_obj a) then [] else contents a (k_p a)) /\ h_arr s = [] /\ pw_arr s = [] /\ pl_arr s = [].
Proof.
  intros (K & H). destruct (reset_inv E L _ H) as (s & Er & R). exists s. split; [cbn [exec]; now rewrite Er|]. pose proof (rt_first _ _ _ R) as F. destruct (rt_arrs _ _ _ R) as (A & B & C & D).
  repeat split; auto.
Qed.
Lemma ki_load E L a c : KI L a -> kload (kstep E a (ACall c)) = exec E (kload a) c.
Proof.
  intros H. assert (D : c = CReset \/ c <> CReset) by (destruct c; auto; right; discriminate). destruct D as [-> |D].
  - destruct (ki_reset E L a H) as (s & Es & _ & A & _). rewrite kstep_reset, Es. apply reset_load; auto. apply H.
  - rewrite kstep_call by auto. apply append_load. apply H.
Qed.
Lemma write_load E a r l : exists p h w q, kload (kstep E a (AWrite r l)) = set_arrs p h w q (kload a).
Proof. do 4 eexists. reflexivity. Qed.
Lemma ki_step E L a x : env_ok E -> (forall c, x = ACall c -> call_ok L c) -> KI L a -> KI L (kstep E a x).
Proof.
  intros HE Hx H. split; [apply kw_step; apply H|]. destruct x as [c|r l].
  - rewrite (ki_load E L) by auto. apply exec_inv; auto. apply H.
  - destruct (write_load E a r l) as (p & h & w & q & ->). apply inv_arrs, H.
Qed.
Lemma ki_run E L xs : forall a, env_ok E -> accesses_ok L xs -> KI L a -> KI L (krun E a xs).
Proof.
  induction xs as [|x xs IH]; intros a HE Hx H; [exact H|]. apply (IH (kstep E a x)); auto; [intros c Hc; apply Hx; now right|]. apply ki_step; auto. intros c ->. apply Hx. now left.
Qed.
Lemma ki_start E k L t0 s0 : env_ok E -> new_perc E k L t0 = Ok s0 -> KI L (kstart s0).
Proof. intros HE Hn. split; [apply kw_start|]. rewrite kload_start. apply (reachable_inv E L s0 HE). exists k, t0, s0, []. repeat split; auto. Qed.
Lemma only_cons x xs : only_calls (x :: xs) -> (exists c, x = ACall c) /\ only_calls xs.
Proof. intros H. split; [destruct x as [c|r l]; [now exists c|destruct (H r l); now left]|intros r l I; apply (H r l); now right]. Qed.
Lemma acc_cons L x xs : accesses_ok L (x :: xs) -> (forall c, x = ACall c -> call_ok L c) /\ accesses_ok L xs.
Proof. intros H. split; [intros c ->; apply H; now left|intros c I; apply H; now right]. Qed.

Lemma run_load E L xs : forall a, env_ok E -> accesses_ok L xs -> only_calls xs -> KI L a -> kload (krun E a xs) = after E (kload a) (calls_of xs).
Proof.
  induction xs as [|x xs IH]; intros a HE Hx Ho H; [reflexivity|]. apply only_cons in Ho as ((c & ->) & Ho). apply acc_cons in Hx as (Hc & Hx). change (krun E a (ACall c :: xs)) with (krun E (kstep E a (ACall c)) xs).
  rewrite IH; auto; [|apply ki_step; auto]. rewrite (ki_load E L) by auto. reflexivity.
Qed.
Lemma run_bare E L xs : forall a s, env_ok E -> accesses_ok L xs -> KI L a -> bare (kload a) = bare s -> bare (kload (krun E a xs)) = bare (after E s (calls_of xs)).
Proof.
  induction xs as [|x xs IH]; intros a s HE Hx H Hb; [exact Hb|]. apply acc_cons in Hx as (Hc & Hx). change (krun E a (x :: xs)) with (krun E (kstep E a x) xs).
  pose proof (ki_step E L a x HE Hc H) as H'. destruct x as [c|r l].
  - apply (IH _ (exec E s c)); auto. rewrite (ki_load E L) by auto. now apply obv_exec.
  - apply (IH _ s); auto.
Qed.
Lemma lasts_run E L xs : forall a r, env_ok E -> accesses_ok L xs -> only_calls xs -> KI L a -> (r < length (k_store a))%nat -> lasts a (krun E a xs) r.
Proof.
  induction xs as [|x xs IH]; intros a r HE Hx Ho H Hr.
  - repeat split; auto using grown_refl.
  - apply only_cons in Ho as ((c & ->) & Ho). apply acc_cons in Hx as (Hc & Hx). change (krun E a (ACall c :: xs)) with (krun E (kstep E a (ACall c)) xs).
    pose proof (ki_step E L a _ HE Hc H) as H'. assert (S1 : lasts a (kstep E a (ACall c)) r).
    { apply step_lasts; auto; [apply H|]. intros _. destruct (ki_reset E L a H) as (s & Es & F & _). now rewrite Es. }
    assert (S2 : lasts (kstep E a (ACall c)) (krun E (kstep E a (ACall c)) xs) r) by (apply IH; auto; pose proof (len_step E a (ACall c)); lia).
    destruct S1 as (A1 & A2 & A3), S2 as (B1 & B2 & B3). split; [eapply grown_trans; eauto|]. split.
    + intros N. destruct (A2 N) as (C1 & C2). destruct (B2 C2) as (D1 & D2). split; [congruence|auto].
    + intros Q F. destruct (A3 Q F) as (C1 & C2 & C3). destruct (B3 (eq_sym C2) C3) as (D1 & D2 & D3). split; [congruence|]. split; auto.
Qed.

Lemma kept_ki E L a : env_ok E -> kept E L a -> KI L a.
Proof. intros HE (k & t0 & s0 & xs & Hn & Hx & ->). apply ki_run; auto. eapply ki_start; eauto. Qed.
Lemma p_C110_contents E k L t0 s0 xs : env_ok E -> new_perc E k L t0 = Ok s0 -> accesses_ok L xs -> only_calls xs ->
  let a := krun E (kstart s0) xs in let s := after E s0 (calls_of xs) in
  contents a (get_occupation_prob_array a) = p_arr s /\ contents a (get_entropy_array a) = h_arr s /\
  contents a (get_order_param_wrapping_array a) = pw_arr s /\ contents a (get_order_param_largest_array a) = pl_arr s /\ kload a = s.
Proof.
  intros HE Hn Hx Ho a s. pose proof (run_load E L xs (kstart s0) HE Hx Ho (ki_start E k L t0 s0 HE Hn)) as Q. rewrite kload_start in Q. fold a in Q. fold s in Q.
  rewrite <- Q. repeat split; reflexivity.
Qed.
Lemma same_lists E ys : forall a, only_calls ys -> ~ In (ACall CReset) ys -> let b := krun E a ys in k_p b = k_p a /\ k_h b = k_h a /\ k_w b = k_w a /\ k_l b = k_l a.
Proof.
  induction ys as [|x ys IH]; intros a Ho Hn; [cbn; auto|]. apply only_cons in Ho as ((c & ->) & Ho). change (krun E a (ACall c :: ys)) with (krun E (kstep E a (ACall c)) ys).
  assert (D : c <> CReset) by (intros ->; apply Hn; now left). destruct (IH (kstep E a (ACall c)) Ho) as (A & B & C & F); [intros I; apply Hn; now right|].
  rewrite kstep_call in A, B, C, F by auto. cbv zeta. rewrite kstep_call by auto. auto.
Qed.
Lemma p_C110_live E L a ys r : env_ok E -> kept E L a -> accesses_ok L ys -> only_calls ys -> exists_in a r ->
  let b := krun E a ys in
  (exists more, contents b r = contents a r ++ more) /\ (~ in_use a r -> contents b r = contents a r /\ ~ in_use b r) /\
  (~ before_first_run a -> r = get_occupation_prob_array a -> contents b r = contents a r /\ get_occupation_prob_array b = r) /\
  (~ In (ACall CReset) ys -> get_occupation_prob_array b = get_occupation_prob_array a /\ get_entropy_array b = get_entropy_array a /\
     get_order_param_wrapping_array b = get_order_param_wrapping_array a /\ get_order_param_largest_array b = get_order_param_largest_array a).
Proof.
  intros HE Ha Hy Ho Hr b. destruct (lasts_run E L ys a r HE Hy Ho (kept_ki E L a HE Ha) Hr) as (A & B & C). split; [exact A|]. split; [exact B|]. split.
  - intros F Q. unfold before_first_run in F. destruct (C Q) as (C1 & C2 & _); [now destruct (first_run (k_obj a))|]. split; auto.
  - intros N. exact (same_lists E ys a Ho N).
Qed.
Lemma p_C110_reset E L a : env_ok E -> kept E L a ->
  let b := kstep E a (ACall CReset) in
  (~ exists_in a (get_entropy_array b) /\ contents b (get_entropy_array b) = []) /\
  (~ exists_in a (get_order_param_wrapping_array b) /\ contents b (get_order_param_wrapping_array b) = []) /\
  (~ exists_in a (get_order_param_largest_array b) /\ contents b (get_order_param_largest_array b) = []) /\
  (before_first_run a -> ~ exists_in a (get_occupation_prob_array b) /\ contents b (get_occupation_prob_array b) = []) /\
  (~ before_first_run a -> get_occupation_prob_array b = get_occupation_prob_array a) /\
  (forall r, exists_in a r -> contents b r = contents a r) /\
  (forall r ys, exists_in a r -> r <> get_occupation_prob_array b -> accesses_ok L ys -> only_calls ys -> contents (krun E b ys) r = contents a r).
Proof.
  intros HE Ha b. pose proof (kept_ki E L a HE Ha) as K. destruct (ki_reset E L a K) as (s & Es & F & P1 & P2 & P3 & P4).
  assert (Eb : b = kreset a s) by (unfold b; now rewrite kstep_reset, Es). assert (Kb : KI L b) by (apply ki_step; auto; intros c Hc; injection Hc as <-; exact I).
  assert (LD : kload b = s) by (rewrite Eb; apply reset_load; [apply K|exact P1]).
  assert (Q1 : contents b (k_h b) = []) by (change (h_arr (kload b) = []); now rewrite LD). assert (Q2 : contents b (k_w b) = []) by (change (pw_arr (kload b) = []); now rewrite LD).
  assert (Q3 : contents b (k_l b) = []) by (change (pl_arr (kload b) = []); now rewrite LD). assert (Q4 : contents b (k_p b) = p_arr s) by (change (p_arr (kload b) = p_arr s); now rewrite LD).
  unfold get_entropy_array, get_order_param_wrapping_array, get_order_param_largest_array, get_occupation_prob_array, exists_in, before_first_run.
  assert (N : (length (k_store a) <= k_h b /\ length (k_store a) <= k_w b /\ length (k_store a) <= k_l b)%nat /\
     (if first_run (k_obj a) then (length (k_store a) <= k_p b)%nat else k_p b = k_p a)).
  { rewrite Eb. unfold kreset. destruct (first_run (k_obj a)); cbn [k_h k_w k_l k_p]; lia. }
  destruct N as ((N1 & N2 & N3) & N4).
  assert (Old : forall r, (r < length (k_store a))%nat -> contents b r = contents a r) by (intros r Hr; rewrite Eb; now apply reset_contents).
  split; [split; [lia|exact Q1]|]. split; [split; [lia|exact Q2]|]. split; [split; [lia|exact Q3]|]. split; [|split; [|split]].
  - intros T. rewrite T in *. split; [lia|]. now rewrite Q4.
  - intros T. destruct (first_run (k_obj a)); [now destruct T|exact N4].
  - exact Old.
  - intros r ys Hr Hne Hy Ho. rewrite <- (Old r Hr). pose proof (len_step E a (ACall CReset)) as Hl. fold b in Hl.
    destruct (lasts_run E L ys b r HE Hy Ho Kb) as (_ & B & _); [lia|]. apply B. unfold in_use, get_entropy_array, get_order_param_wrapping_array, get_order_param_largest_array, get_occupation_prob_array. lia.
Qed.
Lemma p_C110_write E k L t0 s0 xs : env_ok E -> new_perc E k L t0 = Ok s0 -> accesses_ok L xs ->
  let s := kload (krun E (kstart s0) xs) in let s' := after E s0 (calls_of xs) in
  bare s = bare s' /\ forall c, outcome E s c = outcome E s' c.
Proof.
  intros HE Hn Hx s s'. assert (Q : bare s = bare s').
  { apply (run_bare E L xs (kstart s0) s0 HE Hx); [eapply ki_start; eauto|now rewrite kload_start]. }
  split; [exact Q|]. intros c. now apply obv_exec.
Qed.
Lemma p_C110_refuted : exists E s0, env_ok E /\ new_perc E KBase 3 0 = Ok s0 /\
  let rows xs := match get_data_array (kload (krun E (kstart s0) xs)) with Ok r => Ok (length r) | Err e => Err e end in
  let once := [ACall (CRun 12)] in let again := [ACall CReset; ACall (CRun 12)] in
  rows (once ++ again) = Ok 9%nat /\ rows (once ++ [AWrite 0 []] ++ again) = Err ValueError /\ rows (once ++ [AWrite 0 []] ++ again ++ again) = Err ValueError.
Proof. exists demo_env, (demo0 KBase 3). split; [exact demo_env_ok|]. split; [vm_compute; reflexivity|]. vm_compute. auto. Qed.
