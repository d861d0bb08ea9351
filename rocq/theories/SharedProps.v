(** * SharedProps: lists held by several objects (proofs for Props_Shared.v). *)
From Coq Require Import ZArith List Bool Lia Permutation.
From Verif Require Import Py Lattice Cluster Perc Spec PyFacts Torus Geometry LatFacts Inv Merge Fresh Select State Step History Reach Break BreakFacts BreakReset BreakKeep BreakSpec RunProps Demo Count SymSpec Critical Describe Drive Real Entropy Micro BreakProps StateProps StateProps2 WorldProps Shared SharedSpec.
Import ListNotations.
Open Scope Z_scope.

(** ** Predicates on what is held, carried through the methods *)
Definition same_held (s t : perc) : Prop :=
  ids t = ids s /\ user_list t = user_list s /\ ids_shared t = ids_shared s /\ kind t = kind s /\ mode_custom t = mode_custom s /\ do_shuffle t = do_shuffle s.
Section Keep.
Variable R : perc -> Prop.
Variable E : env.
Hypothesis Rext : forall s t, R s -> same_held s t -> R t.
Definition kp {A} (m : M A) : Prop := forall s, R s -> R (fst (m s)).
Hypothesis Rselect : kp (select_site E).
Lemma kp_ret {A} (a : A) : kp (ret a).
Proof. intros s H. exact H. Qed.
Lemma kp_raise {A} e : kp (@raise A e).
Proof. intros s H. exact H. Qed.
Lemma kp_lift {A} (r : res A) : kp (lift r).
Proof. intros s H. exact H. Qed.
Lemma kp_need {A} (o : option A) : kp (need o).
Proof. destruct o; [apply kp_ret|apply kp_raise]. Qed.
Lemma kp_bind {A C} (m : M A) (k : A -> M C) : kp m -> (forall a, kp (k a)) -> kp (mbind m k).
Proof. intros Hm Hk s H. unfold mbind. specialize (Hm s H). destruct (m s) as [s1 [a|e]]; cbn [fst] in *; auto. now apply Hk. Qed.
Lemma kp_get {C} (k : perc -> M C) : (forall s, kp (k s)) -> kp (mbind get k).
Proof. intros Hk. apply kp_bind; [intros s H; exact H|exact Hk]. Qed.
Lemma kp_modify f : (forall s, same_held s (f s)) -> kp (modify f).
Proof. intros Hf s H. exact (Rext s (f s) H (Hf s)). Qed.
Local Ltac kk := lazymatch goal with
  | |- kp (ret _) => apply kp_ret
  | |- kp (raise _) => apply kp_raise
  | |- kp (lift _) => apply kp_lift
  | |- kp (need _) => apply kp_need
  | |- kp (mbind get _) => apply kp_get; intro
  | |- kp (mbind _ _) => apply kp_bind; [|intro]
  | |- kp (modify _) => apply kp_modify; intro; repeat split; reflexivity
  | |- kp (match ?b with _ => _ end) => destruct b
  end.
Lemma kp_randint a b : kp (randint E a b).
Proof. unfold randint. repeat kk. Qed.
Lemma kp_select_id x : kp (select_id x).
Proof. unfold select_id. repeat kk. Qed.
Lemma kp_select_base : kp select_site_base.
Proof. unfold select_site_base. repeat first [apply kp_select_id|kk]. Qed.
Lemma kp_select_from (D : forall r, kp (drop_candidate r)) : kp (select_site E).
Proof.
  unfold select_site. kk. kk; unfold select_site_base, select_site_L1, select_site_L2; cbv zeta; repeat first [apply kp_select_id|apply kp_randint|apply D|kk].
Qed.
Lemma kp_place : kp (place_one_site E).
Proof.
  unfold place_one_site. kk; [exact Rselect|]. kk; [kk|]. kk; [|kk|kk]. cbv zeta. repeat first [kk | progress unfold track_largest_cluster].
Qed.
Lemma kp_detect : kp detect_wrapping.
Proof. unfold detect_wrapping. cbv zeta. repeat kk. Qed.
Lemma kp_record : kp record_step.
Proof. unfold record_step. cbv zeta. repeat kk. Qed.
Lemma kp_run_loop f : kp (run_loop E f).
Proof.
  induction f as [|f IH]; cbn [run_loop]; [kk|]. kk; [apply kp_place|]. kk; [|kk]. kk. kk; [|exact IH]. kk; [|kk]. kk; [apply kp_detect|apply kp_record].
Qed.
Lemma kp_test_loop f : kp (test_run_loop E f).
Proof.
  induction f as [|f IH]; cbn [test_run_loop]; [kk|]. kk; [apply kp_place|]. kk; [|kk]. kk. kk; [|exact IH]. kk; [apply kp_detect|]. kk; [repeat kk|].
  kk; [apply kp_record|exact IH].
Qed.
Lemma kp_sp_loop f : kp (sp_loop E f).
Proof.
  induction f as [|f IH]; cbn [sp_loop]; [kk|]. kk; [apply kp_place|]. kk; [|kk]. kk. kk; [|exact IH]. kk; [apply kp_detect|]. kk; [|exact IH].
  kk. kk; [kk|]. kk; [kk|]. kk; [kk|]. kk. kk; [|exact IH]. repeat kk.
Qed.
Lemma kp_run f : kp (run_once E f).
Proof.
  unfold run_once. kk. assert (G1 : kp (run_once_base E f)) by (unfold run_once_base; kk; [apply kp_run_loop|kk]).
  assert (G2 : kp (sp_run_once E f)) by (unfold sp_run_once; kk; [apply kp_sp_loop|kk]). kk; auto.
Qed.
Lemma kp_test_run f : kp (test_run_once E f).
Proof. unfold test_run_once. kk; [apply kp_test_loop|kk]. Qed.
Lemma kp_shuffle : (forall s t, R s -> Permutation (ids s) (ids t) -> kind t = kind s -> do_shuffle s = true -> mode_custom t = mode_custom s -> do_shuffle t = do_shuffle s -> ids_shared t = ids_shared s ->
    user_list t = (if ids_shared s then ids t else user_list s) -> R t) -> kp (shuffle E).
Proof.
  intros Hs. unfold shuffle. intros s H. unfold mbind at 1. change (get s) with (s, Ok s). cbv beta iota. destruct (mode_custom s && negb (do_shuffle s)); [exact H|].
  destruct (do_shuffle s) eqn:Ed; [|exact H].
  pose proof (random_shuffle_perm E (tick s) (ids s)) as P. destruct (random_shuffle E (tick s) (ids s)) as [l t]. cbn [fst] in P.
  unfold mbind at 1, modify at 1. assert (R1 : R (set_tick t (mutate_ids l s))).
  { apply (Hs s); auto; reflexivity. }
  revert R1. generalize (set_tick t (mutate_ids l s)). intros p R1. match goal with |- R (fst (?m p)) => assert (G : kp m); [|now apply G] end. repeat kk.
Qed.
Lemma kp_reset_base : kp (shuffle E) -> kp (reset_base E).
Proof. intros Hs. unfold reset_base. repeat first [exact Hs|kk]. Qed.
End Keep.

(** ** The list an object held stays a list of site ids of the same length *)
Definition Ul (L n : Z) (s : perc) : Prop :=
  Forall (is_site L) (user_list s) /\ zlen (user_list s) = n /\ (ids_shared s = true -> user_list s = ids s).
Lemma ul_ext L n s t : Ul L n s -> same_held s t -> Ul L n t.
Proof. intros (A & B & C) (E1 & E2 & E3 & _). unfold Ul. rewrite E1, E2, E3. auto. Qed.
Lemma ul_mutate L n s l : Ul L n s -> (ids_shared s = true -> Forall (is_site L) l /\ zlen l = zlen (ids s)) -> Ul L n (mutate_ids l s).
Proof.
  intros (A & B & C) H. unfold Ul. change (user_list (mutate_ids l s)) with (if ids_shared s then l else user_list s). change (ids_shared (mutate_ids l s)) with (ids_shared s).
  change (ids (mutate_ids l s)) with l. destruct (ids_shared s); [|split; auto; split; auto; discriminate]. destruct (H eq_refl) as (H1 & H2). split; [exact H1|]. split; [|auto]. rewrite H2, <- C by auto. exact B.
Qed.
Lemma lset_fits L l i v l' : is_site L v -> lset l i v = Ok l' -> Forall (is_site L) l -> Forall (is_site L) l' /\ zlen l' = zlen l.
Proof.
  unfold lset. destruct (py_pos (zlen l) i) as [k|]; [|discriminate]. intros V H F. injection H as <-. split.
  - now apply Forall_upd.
  - apply zlen_upd.
Qed.

Lemma ul_drop L n r : kp (Ul L n) (drop_candidate r).
Proof.
  intros s H. unfold drop_candidate, mbind, get, lift. destruct (lget (ids s) (cur_idx s)) as [v|e] eqn:E0; [|exact H]. destruct (lset (ids s) r v) as [l|e] eqn:E1; [|exact H].
  unfold modify. apply (ul_ext L n (mutate_ids l s)); [|repeat split; reflexivity]. apply ul_mutate; [exact H|]. intros Hs. destruct H as (A & B & C). rewrite <- (C Hs) in *.
  apply (lset_fits L _ r v); auto. rewrite Forall_forall in A. apply A. eapply lget_In; eauto.
Qed.
Lemma ul_shuffle E L n : kp (Ul L n) (shuffle E).
Proof.
  apply kp_shuffle; [apply ul_ext|]. intros s t (A & B & C) P _ _ _ _ E1 E2. unfold Ul. rewrite E2, E1. destruct (ids_shared s); [|split; auto; split; auto; discriminate].
  rewrite <- (C eq_refl) in P. split; [eapply Permutation_Forall; eauto|]. split; [|auto]. rewrite <- B. unfold zlen. f_equal. now apply Permutation_length, Permutation_sym.
Qed.
Lemma ul_swap L n a b : is_site L a -> is_site L b -> kp (Ul L n) (swap_ids a b).
Proof.
  intros Ha Hb s H. unfold swap_ids. destruct (a =? b); [exact H|]. unfold mbind at 1, get. unfold mbind at 1, lift. destruct (lget (rev_ids s) a) as [i1|e]; [|exact H].
  unfold mbind at 1. destruct (lget (rev_ids s) b) as [i2|e]; [|exact H]. unfold mbind at 1. destruct (lset (ids s) i1 b) as [l1|e] eqn:E1; [|exact H].
  assert (H1 : Ul L n (mutate_ids l1 s)).
  { apply ul_mutate; auto. intros X. apply (lset_fits L _ i1 b); auto. destruct H as (A & _ & C). rewrite <- C; auto. }
  unfold mbind at 1, modify. unfold mbind at 1. destruct (lset l1 i2 a) as [l2|e] eqn:E2; [|exact H1].
  assert (H2 : Ul L n (mutate_ids l2 (mutate_ids l1 s))).
  { apply ul_mutate; auto. intros X. change (ids (mutate_ids l1 s)) with l1. apply (lset_fits L _ i2 a); auto. destruct H1 as (A & _ & C). rewrite (C X) in A. exact A. }
  unfold mbind at 1. revert H2. generalize (mutate_ids l2 (mutate_ids l1 s)). intros p Hp. unfold mbind at 1. destruct (lset (rev_ids s) b i1) as [r1|e]; [|exact Hp].
  unfold mbind at 1. unfold mbind. destruct (lset r1 a i2) as [r2|e]; apply (ul_ext L n p); auto; repeat split; reflexivity.
Qed.
Lemma ul_rebind L n l s : Ul L n s -> Ul L n (rebind_ids l (user_list s) false s).
Proof. intros (A & B & _). split; [exact A|]. split; [exact B|discriminate]. Qed.
Lemma ul_reset E L n : kp (Ul L n) (reset E).
Proof.
  unfold reset. apply kp_bind; [apply kp_reset_base; [apply ul_ext|apply ul_shuffle]|]. intros _. apply kp_get. intros s0.
  assert (G : forall m, (forall s, Ul L n s -> Ul L n (fst (m s))) -> kp (Ul L n) (mbind (modify (fun s => rebind_ids (zrange (l_length (lat s) * l_length (lat s))) (user_list s) false s)) (fun _ => m : M unit))).
  { intros m Hm. apply kp_bind; [|intros _; exact Hm]. intros s H. now apply ul_rebind. }
  assert (Q : forall f, (forall s, same_held s (f s)) -> kp (Ul L n) (modify f)) by (intros; apply kp_modify; auto; apply ul_ext).
  destruct (kind s0).
  - apply kp_ret.
  - apply kp_ret.
  - apply G. apply kp_bind; [|intros _]; apply Q; intro; repeat split; reflexivity.
  - apply G. apply Q; intro; repeat split; reflexivity.
  - apply Q; intro; repeat split; reflexivity.
Qed.
Lemma ul_exec E L n s c : call_ok L c -> (forall l sh, c <> CSetIds l sh) -> Ul L n s -> Ul L n (exec E s c).
Proof.
  intros Hc Hn H. pose proof (kp_select_from _ E (ul_ext L n) (ul_drop L n)) as Sel.
  destruct c as [| | |l sh|l sh|x y|f|f]; cbn [exec].
  - apply (kp_place _ E (ul_ext L n) Sel); auto.
  - apply (kp_detect _ (ul_ext L n)); auto.
  - now apply ul_reset.
  - now destruct (Hn l sh).
  - unfold set_custome_site_index_list. unfold mbind at 1, get. cbv zeta. unfold mbind at 1, lift. match goal with |- context [lmax ?x] => set (m := x) end.
    destruct (lmax m) as [mx|e] eqn:E1; [|exact H].
    unfold mbind at 1. destruct (lmin m) as [mn|e]; [|exact H]. match goal with |- context [if ?b then _ else _] => destruct b end; [exact H|].
    unfold mbind at 1, modify. unfold mbind at 1. apply ul_shuffle. exact (ul_rebind L n m s H).
  - destruct Hc. now apply ul_swap.
  - apply (kp_run _ E (ul_ext L n) Sel); auto.
  - apply (kp_test_run _ E (ul_ext L n) Sel); auto.
Qed.

(** ** Setting a list *)
Lemma set_ids_case E s l sh : exec E s (CSetIds l sh) = s /\ accepts s l = false \/
  accepts s l = true /\ exec E s (CSetIds l sh) = fst (shuffle E (set_custom (zlen l) true sh (rebind_ids l l true s))).
Proof.
  assert (X : exec E s (CSetIds l sh) = match lmax l, lmin l with
    | Ok mx, Ok mn => if (l_length (lat s) * l_length (lat s) - 1 <? mx) || (mn <? 0) then s
                      else fst (shuffle E (set_custom (zlen l) true sh (rebind_ids l l true s)))
    | _, _ => s end).
  { cbn [exec]. unfold set_custome_site_id_list. unfold mbind at 1, get. cbv zeta. unfold mbind at 1, lift. destruct (lmax l) as [mx|e]; [|auto].
    unfold mbind at 1. destruct (lmin l) as [mn|e]; [|auto]. destruct ((_ <? mx) || (mn <? 0)); reflexivity. }
  rewrite X. unfold accepts. destruct (lmax l) as [mx|e]; [|auto]. destruct (lmin l) as [mn|e]; [|auto]. destruct ((_ <? mx) || (mn <? 0)); auto.
Qed.

Lemma accepts_sites L s l : l_length (lat s) = L -> accepts s l = true -> Forall (is_site L) l /\ l <> [].
Proof.
  unfold accepts. intros EL H. destruct (lmax l) as [mx|e] eqn:E1; [|discriminate]. destruct (lmin l) as [mn|e] eqn:E2; [|discriminate].
  apply negb_true_iff, orb_false_iff in H as (A & B). apply Z.ltb_ge in A, B. split; [|exact (lmax_nonempty _ _ E1)].
  apply Forall_forall. intros x Hx. pose proof (lmax_spec _ _ E1 x Hx). pose proof (lmin_spec _ _ E2 x Hx). unfold is_site. rewrite EL in A. lia.
Qed.
Lemma shuffle_held E L s : Ul L (zlen (user_list s)) s -> ids_shared s = true ->
  zlen (ids (fst (shuffle E s))) = zlen (ids s) /\ (do_shuffle s = false -> ids (fst (shuffle E s)) = ids s).
Proof.
  intros U Hs. split.
  - assert (K : kp (fun t => ids_shared t = true) (shuffle E)).
    { apply kp_shuffle; [intros a b Ha (_ & _ & Hb & _); congruence|]. intros a b Ha _ _ _ _ _ Hb _. congruence. }
    pose proof (ul_shuffle E L _ s U) as (_ & B & C). specialize (K s Hs). rewrite <- (C K), B. destruct U as (_ & _ & D). now rewrite (D Hs).
  - intros Hd. unfold shuffle, mbind, get. rewrite Hd. destruct (mode_custom s); reflexivity.
Qed.

(** ** The store *)
Lemma inv_rebind L s l u b : Inv L s -> Forall (is_site L) l -> zlen l = zlen (ids s) -> Inv L (rebind_ids l u b s).
Proof. intros [A1 A2 A3 A4 A5 A6 A7 A8 A9 A10 A11 A12 A13 A14] F Z. constructor; auto. intros K. cbn. rewrite Z. now apply A9. Qed.
Lemma exec_ent E L s c : env_ok E -> call_ok L c -> Inv L s -> EntOK L s -> EntOK L (exec E s c).
Proof.
  intros HE Hc H He. assert (D : no_reset c \/ c = CReset) by (destruct c; cbn; auto). destruct D as [D| ->].
  - pose proof (exec_steps E L s c HE Hc D H) as St. clear D. revert H He. induction St; intros; auto. apply (micro_ent E L s1); auto.
  - cbn [exec]. destruct (reset_inv E L s H) as (s' & -> & R). cbn [fst]. apply fresh_ent. apply (rt_fresh _ _ _ R).
Qed.
Definition okp (L : Z) (h : heap) (p : perc * nat) : Prop :=
  (snd p < length (cells h))%nat /\ Inv L (load h p) /\ EntOK L (load h p) /\ cell h (snd p) <> [].
Definition HOK (L : Z) (h : heap) : Prop := forall i p, nth_error (objs h) i = Some p -> okp L h p.
Definition fits (L : Z) (a b : list Z) : Prop := zlen b = zlen a /\ (Forall (is_site L) a -> Forall (is_site L) b).
Lemma fits_refl L a : fits L a a.
Proof. split; auto. Qed.
Definition grows (L : Z) (h h' : heap) : Prop :=
  (length (cells h) <= length (cells h'))%nat /\ forall r, (r < length (cells h))%nat -> fits L (cell h r) (cell h' r).
Lemma zlen_nil_inv {A} (l : list A) : zlen l = 0 -> l = [].
Proof. destruct l; [auto|]. unfold zlen. cbn [length]. lia. Qed.
Lemma okp_grows L h h' p : grows L h h' -> okp L h p -> okp L h' p.
Proof.
  intros (G1 & G2) (A & B & C & D). destruct (G2 _ A) as (F1 & F2). split; [lia|]. split; [|split; [exact C|]].
  - pose proof (inv_rebind L (load h p) (cell h' (snd p)) (cell h' (snd p)) true B (F2 (i_ids _ _ B)) F1) as Q. exact Q.
  - intros X. apply D. apply zlen_nil_inv. rewrite <- F1, X. reflexivity.
Qed.
Lemma hok_upd L h h' i p : HOK L h -> grows L h h' -> objs h' = upd (objs h) i p -> okp L h' p -> HOK L h'.
Proof.
  intros H G Eo Hp j q. rewrite Eo, nth_error_upd. destruct (Nat.eqb_spec i j) as [->|N].
  - destruct (nth_error (objs h) j); [|discriminate]. intros X. injection X as <-. exact Hp.
  - intros X. apply (okp_grows L h); auto. now apply (H j).
Qed.
Lemma cell_app h l os r : (r < length (cells h))%nat -> cell (mkHeap (cells h ++ [l]) os) r = cell h r.
Proof. intros H. unfold cell. cbn [cells]. now rewrite app_nth1. Qed.
Lemma cell_new cs l os : cell (mkHeap (cs ++ [l]) os) (length cs) = l.
Proof. unfold cell. cbn [cells]. rewrite app_nth2, Nat.sub_diag; auto. Qed.
Lemma nth_upd_at (l : list (list Z)) : forall k r v, (k < length l)%nat -> nth r (upd l k v) [] = if Nat.eqb k r then v else nth r l [].
Proof.
  induction l as [|a l IH]; intros [|k] [|r] v H; cbn [length] in H; try lia; cbn [upd nth Nat.eqb]; auto. apply IH. lia.
Qed.
Lemma cell_upd cs k v os r : (k < length cs)%nat -> cell (mkHeap (upd cs k v) os) r = if Nat.eqb k r then v else nth r cs [].
Proof. intros H. unfold cell. cbn [cells]. now apply nth_upd_at. Qed.
Lemma grows_app L h l os : grows L h (mkHeap (cells h ++ [l]) os).
Proof. split; [cbn [cells]; rewrite app_length; lia|]. intros r Hr. rewrite cell_app by auto. apply fits_refl. Qed.
Lemma load_al h p : cell h (snd p) <> [] -> Al (load h p).
Proof. intros H. split; [intros _; reflexivity|exact H]. Qed.
Lemma load_ul L h p : Inv L (load h p) -> Ul L (zlen (cell h (snd p))) (load h p).
Proof. intros H. split; [exact (i_ids _ _ H)|]. split; [reflexivity|reflexivity]. Qed.

Lemma hnew_ok E L h k : 0 < L -> HOK L h -> HOK L (hnew E L h k).
Proof.
  intros HL H. unfold hnew. destruct (new_perc E k L 0) as [s|e] eqn:En; [|exact H].
  pose proof (new_perc_fresh _ _ _ _ _ En) as F. pose proof (fresh_inv _ _ F) as I0. intros j q. cbn [objs]. intros Hj.
  destruct (Nat.lt_ge_cases j (length (objs h))) as [Lt|Ge].
  - rewrite nth_error_app1 in Hj by auto. apply (okp_grows L h); [apply grows_app|]. now apply (H j).
  - rewrite nth_error_app2 in Hj by auto. destruct (j - length (objs h))%nat as [|m]; [|destruct m; discriminate]. injection Hj as <-.
    split; [cbn [snd cells]; rewrite app_length; cbn; lia|]. unfold load. cbn [fst snd]. rewrite cell_new.
    split; [apply inv_rebind; auto; apply (i_ids _ _ I0)|]. split; [exact (fresh_ent L s F)|]. apply (al_new _ _ _ _ _ En).
Qed.
Lemma hset_ok E L h i q sh : env_ok E -> (q < length (cells h))%nat -> HOK L h -> HOK L (hset E h i q sh).
Proof.
  intros HE Hq H. unfold hset. destruct (nth_error (objs h) i) as [p|] eqn:Hi; [|exact H]. destruct (accepts (fst p) (cell h q)) eqn:Ha; [|exact H].
  destruct (H i p Hi) as (A & B & C & D). set (s := exec E (load h p) (CSetIds (cell h q) sh)).
  assert (Hc : call_ok L (CSetIds (cell h q) sh)) by exact I.
  pose proof (exec_inv E L _ _ HE Hc B) as B'. fold s in B'. pose proof (exec_ent E L _ _ HE Hc B C) as C'. fold s in C'.
  destruct (accepts_sites L (load h p) (cell h q)) as (Fs & Ne); [apply (st_len _ _ (i_static _ _ B))|exact Ha|].
  assert (Zs : zlen (ids s) = zlen (cell h q)).
  { destruct (set_ids_case E (load h p) (cell h q) sh) as [(_ & X)|(_ & X)]; [change (accepts (load h p) (cell h q)) with (accepts (fst p) (cell h q)) in X; congruence|].
    unfold s. rewrite X. destruct (shuffle_held E L (set_custom (zlen (cell h q)) true sh (rebind_ids (cell h q) (cell h q) true (load h p)))) as (Y & _); [|reflexivity|exact Y].
    split; [exact Fs|]. split; reflexivity. }
  eapply (hok_upd L h _ i (s, q)); [exact H| |reflexivity|].
  - split; [cbn [cells]; rewrite upd_length; lia|]. intros r Hr. rewrite cell_upd by auto. destruct (Nat.eqb_spec q r) as [->|]; [|apply fits_refl].
    split; [exact Zs|]. intros _. apply (i_ids _ _ B').
  - split; [cbn [cells snd]; rewrite upd_length; lia|]. unfold load. cbn [fst snd]. rewrite cell_upd, Nat.eqb_refl by auto.
    split; [apply inv_rebind; auto; apply (i_ids _ _ B')|]. split; [exact C'|]. intros X. apply Ne, zlen_nil_inv. rewrite <- Zs, X. reflexivity.
Qed.
Lemma hcall_ok E L h i c : env_ok E -> call_ok L c -> (forall l sh, c <> CSetIds l sh) -> HOK L h -> HOK L (hcall E h i c).
Proof.
  intros HE Hc Hn H. unfold hcall. destruct (nth_error (objs h) i) as [p|] eqn:Hi; [|exact H].
  destruct (H i p Hi) as (A & B & C & D). set (s := exec E (load h p) c). cbv zeta.
  pose proof (exec_inv E L _ _ HE Hc B) as B'. fold s in B'. pose proof (exec_ent E L _ _ HE Hc B C) as C'. fold s in C'.
  pose proof (al_exec E L _ _ HE Hc B (load_al h p D)) as (Al1 & Al2). fold s in Al1, Al2.
  pose proof (ul_exec E L _ _ c Hc Hn (load_ul L h p B)) as (U1 & U2 & U3). fold s in U1, U2, U3.
  assert (Fu : forall r, (r < length (cells h))%nat -> fits L (cell h r) (nth r (upd (cells h) (snd p) (user_list s)) [])).
  { intros r Hr. rewrite nth_upd_at by auto. destruct (Nat.eqb_spec (snd p) r) as [<-|]; [|apply fits_refl]. split; auto. }
  destruct (ids_shared s) eqn:Es.
  - eapply (hok_upd L h _ i (s, snd p)); [exact H| |reflexivity|].
    + split; [cbn [cells]; rewrite upd_length; lia|]. exact Fu.
    + split; [cbn [cells snd]; rewrite upd_length; lia|]. unfold load. cbn [fst snd]. rewrite cell_upd, Nat.eqb_refl by auto. rewrite (U3 eq_refl).
      split; [apply inv_rebind; auto; apply (i_ids _ _ B')|]. split; [exact C'|]. exact Al2.
  - eapply (hok_upd L h _ i (s, length (upd (cells h) (snd p) (user_list s)))); [exact H| |reflexivity|].
    + split; [cbn [cells]; rewrite app_length, upd_length; lia|]. intros r Hr. unfold cell at 2. cbn [cells]. rewrite app_nth1 by (rewrite upd_length; lia). now apply Fu.
    + split; [cbn [cells snd]; rewrite app_length; cbn [length]; lia|]. unfold load. cbn [fst snd]. rewrite cell_new.
      split; [apply inv_rebind; auto; apply (i_ids _ _ B')|]. split; [exact C'|]. exact Al2.
Qed.
Lemma hlist_ok L h l : HOK L h -> HOK L (mkHeap (cells h ++ [l]) (objs h)).
Proof. intros H i p Hi. apply (okp_grows L h); [apply grows_app|]. now apply (H i). Qed.
Lemma hstep_ok Es L h e : 0 < L -> (forall i, env_ok (Es i)) -> happening_ok L h e -> HOK L h -> HOK L (hstep Es L h e).
Proof.
  intros HL HE He H. destruct e as [k|l|i q sh|i c]; cbn [hstep happening_ok] in *.
  - now apply hnew_ok.
  - now apply hlist_ok.
  - apply hset_ok; auto. apply He.
  - destruct c; try (apply hcall_ok; [apply HE|apply He|discriminate|exact H]).
    apply hset_ok; [apply HE|cbn [cells]; rewrite app_length; cbn; lia|now apply hlist_ok].
Qed.
Lemma hrun_ok Es L es : 0 < L -> (forall i, env_ok (Es i)) -> forall h, happenings_ok Es L h es -> HOK L h -> HOK L (hrun Es L h es).
Proof.
  intros HL HE. induction es as [|e es IH]; intros h Ho H; [exact H|]. destruct Ho as (O1 & O2). apply (IH (hstep Es L h e)); auto. now apply hstep_ok.
Qed.

(** ** What the object does does not depend on who else sees its list *)
Definition obliv {A} (m : M A) : Prop := forall s ul sh, exists ul' sh',
  m (rebind_ids (ids s) ul sh s) = (rebind_ids (ids (fst (m s))) ul' sh' (fst (m s)), snd (m s)).
Lemma rebind_self s : rebind_ids (ids s) (user_list s) (ids_shared s) s = s.
Proof. destruct s. reflexivity. Qed.
Lemma ob_ret {A} (a : A) : obliv (ret a).
Proof. intros s ul sh. exists ul, sh. reflexivity. Qed.
Lemma ob_raise {A} e : obliv (@raise A e).
Proof. intros s ul sh. exists ul, sh. reflexivity. Qed.
Lemma ob_lift {A} (r : res A) : obliv (lift r).
Proof. intros s ul sh. exists ul, sh. reflexivity. Qed.
Lemma ob_need {A} (o : option A) : obliv (need o).
Proof. destruct o; [apply ob_ret|apply ob_raise]. Qed.
Lemma ob_bind {A C} (m : M A) (k : A -> M C) : obliv m -> (forall a, obliv (k a)) -> obliv (mbind m k).
Proof.
  intros Hm Hk s ul sh. destruct (Hm s ul sh) as (ul1 & sh1 & E1). unfold mbind. rewrite E1. destruct (m s) as [s1 [a|e]]; cbn [fst snd] in *.
  - apply (Hk a).
  - exists ul1, sh1. reflexivity.
Qed.
Lemma ob_get {C} (k : perc -> M C) : (forall s ul sh, k (rebind_ids (ids s) ul sh s) = k s) -> (forall s, obliv (k s)) -> obliv (mbind get k).
Proof. intros He Hk s ul sh. unfold mbind, get. rewrite He. apply (Hk s s). Qed.
Lemma ob_modify f : (forall s ul sh, exists ul' sh', f (rebind_ids (ids s) ul sh s) = rebind_ids (ids (f s)) ul' sh' (f s)) -> obliv (modify f).
Proof. intros Hf s ul sh. destruct (Hf s ul sh) as (a & b & E). exists a, b. unfold modify. cbn [fst snd]. now rewrite E. Qed.
Ltac ob := cbv beta zeta; lazymatch goal with
  | |- obliv (ret _) => apply ob_ret
  | |- obliv (raise _) => apply ob_raise
  | |- obliv (lift _) => apply ob_lift
  | |- obliv (need _) => apply ob_need
  | |- obliv (mbind get _) => apply ob_get; [intros; reflexivity|intro]
  | |- obliv (mbind _ _) => apply ob_bind; [|intro]
  | |- obliv (modify _) => apply ob_modify; intros; eexists; eexists; reflexivity
  | |- obliv (match ?b with _ => _ end) => destruct b
  end.
Lemma ob_randint E a b : obliv (randint E a b).
Proof. unfold randint. repeat ob. Qed.
Lemma ob_select_id x : obliv (select_id x).
Proof. unfold select_id. repeat ob. Qed.
Lemma ob_drop r : obliv (drop_candidate r).
Proof. unfold drop_candidate. repeat ob. Qed.
Ltac oc := first [apply ob_drop|apply ob_select_id|apply ob_randint|ob].
Lemma ob_select E : obliv (select_site E).
Proof. unfold select_site. ob. ob; unfold select_site_base, select_site_L1, select_site_L2; repeat oc. Qed.
Lemma ob_place E : obliv (place_one_site E).
Proof.
  unfold place_one_site. ob; [apply ob_select|]. repeat first [ob | progress unfold track_largest_cluster].
Qed.
Lemma ob_detect : obliv detect_wrapping.
Proof. unfold detect_wrapping. repeat ob. Qed.
Lemma ob_record : obliv record_step.
Proof. unfold record_step. repeat ob. Qed.
Lemma ob_run_loop E f : obliv (run_loop E f).
Proof.
  induction f as [|f IH]; cbn [run_loop]; [ob|]. ob; [apply ob_place|]. ob; [|ob]. ob. ob; [|exact IH]. ob; [|ob]. ob; [apply ob_detect|apply ob_record].
Qed.
Lemma ob_test_loop E f : obliv (test_run_loop E f).
Proof.
  induction f as [|f IH]; cbn [test_run_loop]; [ob|]. ob; [apply ob_place|]. ob; [|ob]. ob. ob; [|exact IH]. ob; [apply ob_detect|]. ob; [repeat ob|].
  ob; [apply ob_record|exact IH].
Qed.
Lemma ob_sp_loop E f : obliv (sp_loop E f).
Proof.
  induction f as [|f IH]; cbn [sp_loop]; [ob|]. ob; [apply ob_place|]. ob; [|ob]. ob. ob; [|exact IH]. ob; [apply ob_detect|]. ob; [|exact IH].
  ob. ob; [ob|]. ob; [ob|]. ob; [ob|]. ob. ob; [|exact IH]. repeat ob.
Qed.
Lemma ob_run E f : obliv (run_once E f).
Proof.
  unfold run_once. ob. assert (G1 : obliv (run_once_base E f)) by (unfold run_once_base; ob; [apply ob_run_loop|ob]).
  assert (G2 : obliv (sp_run_once E f)) by (unfold sp_run_once; ob; [apply ob_sp_loop|ob]). ob; auto.
Qed.
Lemma ob_test_run E f : obliv (test_run_once E f).
Proof. unfold test_run_once. ob; [apply ob_test_loop|ob]. Qed.
Lemma ob_shuffle E : obliv (shuffle E).
Proof. unfold shuffle. ob. ob; [ob|]. ob; [|ob]. destruct (random_shuffle E (tick s) (ids s)) as [l t]. repeat ob. Qed.
Lemma ob_reset E : obliv (reset E).
Proof. unfold reset. ob; [unfold reset_base; repeat first [apply ob_shuffle|ob]|]. repeat ob. Qed.
Lemma ob_swap a b : obliv (swap_ids a b).
Proof. unfold swap_ids. repeat ob. Qed.
Lemma ob_set_ids E l sh : obliv (set_custome_site_id_list E l sh).
Proof. unfold set_custome_site_id_list. repeat first [apply ob_shuffle|ob]. Qed.
Lemma ob_set_indices E l sh : obliv (set_custome_site_index_list E l sh).
Proof.
  set (m' := do s <~ get ; let l := map (calculate_id_from_index (lat s)) l in
    do mx <~ lift (lmax l) ; do mn <~ lift (lmin l) ;
    if (l_length (lat s) * l_length (lat s) - 1 <? mx) || (mn <? 0) then ret tt
    else run modify (fun s => rebind_ids l (user_list s) false s) ; run modify (set_custom (zlen l) true sh) ; shuffle E).
  assert (Eq : forall s, set_custome_site_index_list E l sh s = m' s).
  { intros s. unfold m', set_custome_site_index_list, mbind, get, lift, modify. destruct (lmax _) as [mx|e]; [|reflexivity]. destruct (lmin _) as [mn|e]; [|reflexivity].
    destruct ((_ <? mx) || (mn <? 0)); reflexivity. }
  assert (O : obliv m') by (unfold m'; repeat first [apply ob_shuffle|ob]).
  intros s ul sh'. rewrite !Eq. apply O.
Qed.
Lemma unshared_rebind s t : unshared s = unshared t -> t = rebind_ids (ids s) (user_list t) (ids_shared t) s.
Proof. destruct s, t. unfold unshared, rebind_ids. cbn. intros H. injection H. intros. subst. reflexivity. Qed.
Lemma obliv_exec E s t c : unshared s = unshared t -> unshared (exec E s c) = unshared (exec E t c) /\ outcome E s c = outcome E t c.
Proof.
  intros H. apply unshared_rebind in H. revert H. generalize (user_list t), (ids_shared t). intros ul sh ->.
  assert (G : forall A (m : M A), obliv m -> unshared (fst (m s)) = unshared (fst (m (rebind_ids (ids s) ul sh s))) /\ snd (m (rebind_ids (ids s) ul sh s)) = snd (m s)).
  { intros A m O. destruct (O s ul sh) as (u & b & ->). split; reflexivity. }
  destruct c; cbn [exec outcome].
  - destruct (G _ _ (ob_place E)) as (A & ->). auto.
  - destruct (G _ _ ob_detect) as (A & ->). auto.
  - destruct (G _ _ (ob_reset E)) as (A & ->). auto.
  - destruct (G _ _ (ob_set_ids E l sh0)) as (A & ->). auto.
  - destruct (G _ _ (ob_set_indices E l sh0)) as (A & ->). auto.
  - destruct (G _ _ (ob_swap a b)) as (A & ->). auto.
  - destruct (G _ _ (ob_run E fuel)) as (A & ->). auto.
  - destruct (G _ _ (ob_test_run E fuel)) as (A & ->). auto.
Qed.
Lemma obliv_after E cs : forall s t, unshared s = unshared t -> unshared (after E s cs) = unshared (after E t cs).
Proof. induction cs as [|c cs IH]; intros s t H; [exact H|]. apply (IH (exec E s c)). now apply obliv_exec. Qed.

(** ** Calls that only read the list *)
Lemma reads_exec E L s c u : Inv L s -> only_reads s c -> (forall l sh, c <> CSetIds l sh) -> user_list s = u -> ids_shared s = true -> ids s = u -> user_list (exec E s c) = u.
Proof.
  intros H Hr Hn Hu Hs Hi.
  assert (K : kind s <> KL1 /\ kind s <> KL2 -> forall A (m : M A), kp (fun t => user_list t = u /\ (kind t <> KL1 /\ kind t <> KL2)) m -> user_list (fst (m s)) = u).
  { intros Hk A m Hm. apply Hm. auto. }
  assert (X : forall a b, (user_list a = u /\ (kind a <> KL1 /\ kind a <> KL2)) -> same_held a b -> user_list b = u /\ (kind b <> KL1 /\ kind b <> KL2)).
  { intros a b (A1 & A2) (_ & B2 & _ & B4 & _). rewrite B2, B4. auto. }
  assert (Sel : kp (fun t => user_list t = u /\ (kind t <> KL1 /\ kind t <> KL2)) (select_site E)).
  { intros t Ht. assert (Eq : select_site E t = select_site_base t).
    { destruct Ht as (_ & K1 & K2). unfold select_site, mbind at 1, get. revert K1 K2. destruct (kind t); intros K1 K2; [reflexivity|reflexivity|now destruct K1|now destruct K2|reflexivity]. }
    rewrite Eq. exact (kp_select_base _ X t Ht). }
  destruct c; cbn [exec only_reads] in *.
  - apply K; auto. apply kp_place; auto.
  - refine (kp_detect (fun t => user_list t = u) _ s Hu). intros a b A (_ & B & _). congruence.
  - set (R := fun t => user_list t = u /\ do_shuffle t = false).
    assert (XR : forall a b, R a -> same_held a b -> R b) by (intros a b (A & B) (_ & C & _ & _ & _ & D); split; congruence).
    assert (Sh : kp R (shuffle E)) by (apply kp_shuffle; [exact XR|]; intros a b (_ & B) _ _ D; congruence).
    assert (Q : kp R (reset E)); [|now apply Q].
    unfold reset. apply kp_bind; [now apply kp_reset_base|]. intros _. apply kp_get. intros s0.
    assert (Q1 : kp R (modify (fun s => rebind_ids (zrange (l_length (lat s) * l_length (lat s))) (user_list s) false s))) by (intros t Ht; exact Ht).
    assert (Q2 : forall f, (forall s, same_held s (f s)) -> kp R (modify f)) by (intros; apply kp_modify; auto).
    destruct (kind s0); try apply kp_ret; try (apply kp_bind; [exact Q1|intros _]); try (apply kp_bind; [|intros _]); apply Q2; intro; repeat split; reflexivity.
  - now destruct (Hn l sh).
  - unfold set_custome_site_index_list. unfold mbind at 1, get. cbv zeta. unfold mbind at 1, lift. match goal with |- context [lmax ?x] => set (m := x) end.
    destruct (lmax m) as [mx|e]; [|exact Hu].
    unfold mbind at 1. destruct (lmin m) as [mn|e]; [|exact Hu]. match goal with |- context [if ?b then _ else _] => destruct b end; [exact Hu|].
    unfold mbind at 1, modify. unfold mbind at 1. set (R := fun t => user_list t = u /\ ids_shared t = false).
    assert (Sh : kp R (shuffle E)).
    { apply kp_shuffle; [intros a b (A & B) (_ & C & D & _); split; congruence|]. intros a b (A & B) _ _ _ _ _ C D. rewrite B in D. split; congruence. }
    match goal with |- user_list (fst (shuffle E ?t)) = u => apply (Sh t) end. split; [exact Hu|reflexivity].
  - subst b. unfold swap_ids. rewrite Z.eqb_refl. exact Hu.
  - apply K; auto. apply kp_run; auto.
  - apply K; auto. apply kp_test_run; auto.
Qed.

(** ** An object whose list nobody else writes into is as if alone *)
Lemma load_eq h h' p : cell h' (snd p) = cell h (snd p) -> load h' p = load h p.
Proof. unfold load. now intros ->. Qed.
Lemma unshared_load cs os s r : cell (mkHeap cs os) r = ids s -> unshared (load (mkHeap cs os) (s, r)) = unshared s.
Proof. unfold load, unshared. cbn [fst snd]. intros ->. reflexivity. Qed.
Lemma hset_own E L h i q sh p : env_ok E -> HOK L h -> nth_error (objs h) i = Some p -> (q < length (cells h))%nat ->
  exists p', nth_error (objs (hset E h i q sh)) i = Some p' /\ unshared (load (hset E h i q sh) p') = unshared (exec E (load h p) (CSetIds (cell h q) sh)).
Proof.
  intros HE H Hi Hq. unfold hset. rewrite Hi. destruct (accepts (fst p) (cell h q)) eqn:Ha.
  - cbv zeta. set (s := exec _ _ _). exists (s, q). split; [cbn [objs]; rewrite nth_error_upd, Nat.eqb_refl, Hi; reflexivity|].
    apply unshared_load. rewrite cell_upd, Nat.eqb_refl by auto. reflexivity.
  - exists p. split; [exact Hi|]. destruct (set_ids_case E (load h p) (cell h q) sh) as [(-> & _)|(X & _)]; [reflexivity|].
    change (accepts (load h p) (cell h q)) with (accepts (fst p) (cell h q)) in X. congruence.
Qed.
Lemma hcall_own E L h i c p : env_ok E -> call_ok L c -> HOK L h -> nth_error (objs h) i = Some p ->
  exists p', nth_error (objs (hcall E h i c)) i = Some p' /\ unshared (load (hcall E h i c) p') = unshared (exec E (load h p) c).
Proof.
  intros HE Hc H Hi. unfold hcall. rewrite Hi. destruct (H i p Hi) as (A & B & C & D). cbv zeta. set (s := exec _ _ _).
  pose proof (al_exec E L _ _ HE Hc B (load_al h p D)) as (Al1 & Al2). fold s in Al1, Al2.
  destruct (ids_shared s) eqn:Es.
  - exists (s, snd p). split; [cbn [objs]; rewrite nth_error_upd, Nat.eqb_refl, Hi; reflexivity|]. apply unshared_load. rewrite cell_upd, Nat.eqb_refl by auto. now apply Al1.
  - eexists. split; [cbn [objs]; rewrite nth_error_upd, Nat.eqb_refl, Hi; reflexivity|]. apply unshared_load. apply cell_new.
Qed.
Lemma hset_other E h i j q sh p : nth_error (objs h) i = Some p -> (q < length (cells h))%nat -> j <> i ->
  (q <> snd p \/ sh = false) ->
  nth_error (objs (hset E h j q sh)) i = Some p /\ cell (hset E h j q sh) (snd p) = cell h (snd p).
Proof.
  intros Hi Hq Hj Hd. unfold hset. destruct (nth_error (objs h) j) as [o|] eqn:Ho; [|auto]. destruct (accepts (fst o) (cell h q)) eqn:Ha; [|auto]. cbv zeta.
  split; [cbn [objs]; rewrite nth_error_upd; destruct (Nat.eqb_spec j i); [contradiction|exact Hi]|].
  rewrite cell_upd by auto. destruct (Nat.eqb_spec q (snd p)) as [->|]; [|reflexivity]. destruct Hd as [Hd| ->]; [contradiction|].
  destruct (set_ids_case E (load h o) (cell h (snd p)) false) as [(_ & X)|(_ & ->)].
  - change (accepts (load h o) (cell h (snd p))) with (accepts (fst o) (cell h (snd p))) in X. congruence.
  - unfold shuffle, mbind, get. reflexivity.
Qed.
Lemma hcall_other E L h i j c p : HOK L h -> nth_error (objs h) i = Some p -> j <> i -> (forall l sh, c <> CSetIds l sh) ->
  (forall o, nth_error (objs h) j = Some (o, snd p) -> only_reads o c) ->
  nth_error (objs (hcall E h j c)) i = Some p /\ cell (hcall E h j c) (snd p) = cell h (snd p).
Proof.
  intros H Hi Hj Hn Hr. unfold hcall. destruct (nth_error (objs h) j) as [o|] eqn:Ho; [|auto]. cbv zeta. set (s := exec _ _ _).
  destruct (H j o Ho) as (A & B & C & D). destruct (H i p Hi) as (A' & _).
  assert (Eu : nth (snd p) (upd (cells h) (snd o) (user_list s)) [] = cell h (snd p)).
  { rewrite nth_upd_at by auto. destruct (Nat.eqb_spec (snd o) (snd p)) as [Q|]; [|reflexivity]. rewrite <- Q. unfold s.
    apply (reads_exec E L); auto. assert (W : only_reads (fst o) c) by (apply Hr; rewrite <- Q; destruct o; reflexivity).
    destruct c; exact W. }
  destruct (ids_shared s); (split; [cbn [objs]; rewrite nth_error_upd; destruct (Nat.eqb_spec j i); [contradiction|exact Hi]|]).
  - exact Eu.
  - unfold cell at 1. cbn [cells]. rewrite app_nth1 by (rewrite upd_length; lia). exact Eu.
Qed.
Lemma step_alone Es L h e i p : 0 < L -> (forall i, env_ok (Es i)) -> happening_ok L h e -> HOK L h -> nth_error (objs h) i = Some p -> undisturbed_by h i e ->
  exists p', nth_error (objs (hstep Es L h e)) i = Some p' /\
    unshared (load (hstep Es L h e) p') = unshared (after (Es i) (load h p)
      match e with HCall j c => if Nat.eqb j i then [c] else [] | HSet j q sh => if Nat.eqb j i then [CSetIds (cell h q) sh] else [] | _ => [] end).
Proof.
  intros HL HE He H Hi Hu. unfold undisturbed_by in Hu. rewrite Hi in Hu. pose proof (H i p Hi) as (A & B & C & D).
  assert (Hlen : (i < length (objs h))%nat) by (apply nth_error_Some; congruence).
  destruct p as [o r]. cbn [snd] in *.
  destruct e as [k|l|j q sh|j c]; cbn [hstep happening_ok] in *.
  - exists (o, r). unfold hnew. destruct (new_perc _ _ _ _); [|auto]. split; [cbn [objs]; rewrite nth_error_app1; auto|].
    rewrite (load_eq h); [reflexivity|]. cbn [snd]. now apply cell_app.
  - exists (o, r). split; [exact Hi|]. rewrite (load_eq h); [reflexivity|]. cbn [snd]. now apply cell_app.
  - destruct (Nat.eqb_spec j i) as [->|Nj].
    + apply (hset_own (Es i) L); auto. apply He.
    + destruct (hset_other (Es j) h i j q sh (o, r)) as (X & Y); auto; [apply He|cbn [snd]; tauto|].
      exists (o, r). split; [exact X|]. rewrite (load_eq h); auto.
  - assert (Y : forall l sh, c = CSetIds l sh -> exists p', nth_error (objs (hset (Es j) (mkHeap (cells h ++ [l]) (objs h)) j (length (cells h)) sh)) i = Some p' /\
      unshared (load (hset (Es j) (mkHeap (cells h ++ [l]) (objs h)) j (length (cells h)) sh) p') = unshared (after (Es i) (load h (o, r)) (if Nat.eqb j i then [c] else []))).
    { intros l sh ->. set (h1 := mkHeap (cells h ++ [l]) (objs h)). assert (H1 : HOK L h1) by now apply hlist_ok.
      assert (Eq : load h1 (o, r) = load h (o, r)) by (apply load_eq; now apply cell_app).
      assert (Hq : (length (cells h) < length (cells h1))%nat) by (cbn [h1 cells]; rewrite app_length; cbn; lia).
      destruct (Nat.eqb_spec j i) as [->|Nj].
      - destruct (hset_own (Es i) L h1 i (length (cells h)) sh (o, r)) as (p' & X1 & X2); auto. exists p'. split; [exact X1|]. rewrite X2, Eq. unfold h1. now rewrite cell_new.
      - destruct (hset_other (Es j) h1 i j (length (cells h)) sh (o, r)) as (X1 & X2); auto; [left; cbn [snd]; lia|].
        exists (o, r). split; [exact X1|]. rewrite (load_eq h1), Eq; auto. }
    assert (Z : (forall l sh, c <> CSetIds l sh) -> exists p', nth_error (objs (hcall (Es j) h j c)) i = Some p' /\
      unshared (load (hcall (Es j) h j c) p') = unshared (after (Es i) (load h (o, r)) (if Nat.eqb j i then [c] else []))).
    { intros Hn. destruct (Nat.eqb_spec j i) as [->|Nj].
      - apply (hcall_own (Es i) L); auto. apply He.
      - destruct Hu as [Hu|Hu]; [contradiction|]. destruct (hcall_other (Es j) L h i j c (o, r)) as (X1 & X2); auto.
        exists (o, r). split; [exact X1|]. rewrite (load_eq h); auto. }
    destruct c; try (apply Z; discriminate). now apply Y.
Qed.
Lemma run_alone Es L i es : 0 < L -> (forall i, env_ok (Es i)) -> forall h p, happenings_ok Es L h es -> HOK L h -> nth_error (objs h) i = Some p -> undisturbed Es L h i es ->
  exists p', nth_error (objs (hrun Es L h es)) i = Some p' /\
    unshared (load (hrun Es L h es) p') = unshared (after (Es i) (load h p) (own_calls Es L h i es)).
Proof.
  intros HL HE. induction es as [|e es IH]; intros h p Ho H Hi Hu; [exists p; auto|].
  destruct Ho as (O1 & O2). destruct Hu as (U1 & U2). destruct (step_alone Es L h e i p HL HE O1 H Hi U1) as (p1 & P1 & P2).
  destruct (IH (hstep Es L h e) p1 O2 (hstep_ok Es L h e HL HE O1 H) P1 U2) as (p2 & Q1 & Q2). exists p2. split; [exact Q1|]. etransitivity; [exact Q2|].
  cbn [own_calls]. unfold after at 2. rewrite fold_left_app. now apply obliv_after.
Qed.

(** ** The statements *)
Definition nothing : heap := mkHeap [] [].
Lemma hok_nothing L : HOK L nothing.
Proof. intros [|i] p; discriminate. Qed.
Lemma inv_described L s : Inv L s -> EntOK L s -> described L (occupied_sites L s) s.
Proof.
  intros H He. apply described_dx; [|unfold entropy_v2; rewrite (shannon_hh L) by auto; exact He]. split; [exact H|].
  unfold occupied_sites. split; [apply NoDup_filter, NoDup_zrange|]. intros i. rewrite filter_In, In_zrange. unfold is_site, occ.
  split.
  - intros (Hi & Ho). rewrite (site_label_sg L) in Ho by (auto; now apply i_static). apply Z.leb_le in Ho. auto.
  - intros (Hi & Ho). rewrite (site_label_sg L) by (auto; now apply i_static). split; [exact Hi|]. now apply Z.leb_le.
Qed.
Lemma p_C109_safe Es L es i p : 0 < L -> (forall j, env_ok (Es j)) -> happenings_ok Es L nothing es ->
  let h := hrun Es L nothing es in nth_error (objs h) i = Some p -> let s := load h p in
  described L (occupied_sites L s) s /\
  (after_wrap s = true -> 0 <= wid s /\ exists j, is_site L j /\ site_label s j = wid s /\ wraps_at L (fun k => site_label s k = wid s) j) /\
  Forall (is_site L) (get_site_id_sequence s).
Proof.
  intros HL HE Ho h Hi s. destruct (hrun_ok Es L es HL HE nothing Ho (hok_nothing L) i p Hi) as (A & B & C & D). fold h in B, C. fold s in B, C.
  split; [now apply inv_described|]. split; [|exact (i_ids _ _ B)]. intros W. split; [|now apply wrap_sound].
  pose proof (i_wrap _ _ B) as Q. unfold WrapOK in Q. rewrite W in Q. apply Q.
Qed.
Lemma hok_app Es L es es' : forall h, happenings_ok Es L h (es ++ es') <-> happenings_ok Es L h es /\ happenings_ok Es L (hrun Es L h es) es'.
Proof. induction es as [|e es IH]; intros h; cbn [app happenings_ok]; [cbn; tauto|]. rewrite IH. cbn [hrun fold_left]. tauto. Qed.
Lemma p_C109_alone Es L k es0 es : 0 < L -> (forall j, env_ok (Es j)) -> happenings_ok Es L nothing (es0 ++ HNew k :: es) ->
  let h0 := hrun Es L nothing (es0 ++ [HNew k]) in let i := length (objs (hrun Es L nothing es0)) in
  undisturbed Es L h0 i es ->
  exists s0 p, new_perc (Es i) k L 0 = Ok s0 /\
    nth_error (objs (hrun Es L h0 es)) i = Some p /\ let s := load (hrun Es L h0 es) p in let s' := after (Es i) s0 (own_calls Es L h0 i es) in
    unshared s = unshared s' /\ forall c, outcome (Es i) s c = outcome (Es i) s' c.
Proof.
  intros HL HE Ho h0 i Hu. change (HNew k :: es) with ([HNew k] ++ es) in Ho. rewrite app_assoc in Ho. apply hok_app in Ho as (O1 & O2). fold h0 in O2.
  pose proof (hrun_ok Es L _ HL HE nothing O1 (hok_nothing L)) as H0. fold h0 in H0.
  destruct (new_perc (Es i) k L 0) as [s0|e] eqn:En.
  2:{ exfalso. destruct (new_perc_ok (Es i) k L 0 HL) as (l1 & l2 & l3 & l4 & E0 & _). congruence. }
  assert (Eh : h0 = mkHeap (cells (hrun Es L nothing es0) ++ [ids s0]) (objs (hrun Es L nothing es0) ++ [(s0, length (cells (hrun Es L nothing es0)))])).
  { unfold h0, hrun. rewrite fold_left_app. cbn [fold_left hstep]. fold (hrun Es L nothing es0). fold i. unfold hnew. now rewrite En. }
  set (p0 := (s0, length (cells (hrun Es L nothing es0)))) in *.
  assert (Hi : nth_error (objs h0) i = Some p0) by (rewrite Eh; cbn [objs]; rewrite nth_error_app2, Nat.sub_diag by auto; reflexivity).
  destruct (run_alone Es L i es HL HE h0 p0 O2 H0 Hi Hu) as (p & P1 & P2).
  exists s0, p. split; [reflexivity|]. split; [exact P1|]. cbv zeta.
  assert (X : unshared (load (hrun Es L h0 es) p) = unshared (after (Es i) s0 (own_calls Es L h0 i es))).
  { rewrite P2. apply obliv_after. rewrite Eh. apply unshared_load. apply cell_new. }
  split; [exact X|]. intros c. now apply obliv_exec.
Qed.
Definition zeros : nat -> env := fun _ => demo_env.
Lemma p_C109_refuted : exists Es, (forall i, env_ok (Es i)) /\
  let given := [HNew KBase; HNew KBase; HSet 1 0 true] in
  let own := [HCall 0 CPlace; HCall 0 CPlace; HCall 0 CPlace; HCall 0 CPlace] in
  let other := [HNew KBase; HNew KL1; HSet 1 0 false] in
  let answer es := map (fun p => outcome (Es O) (load (hrun Es 3 nothing es) p) CPlace) (firstn 1 (objs (hrun Es 3 nothing es))) in
  answer (given ++ own) = [Ok true] /\ answer (given ++ own ++ [HCall 1 CReset]) = [Err AssertionError] /\
  answer (other ++ own) = [Ok true] /\ answer (other ++ own ++ [HCall 1 (CRun 45)]) = [Err AssertionError].
Proof. exists (fun i => mkEnv (nodup Z.eq_dec) (fun n => (2 * Z.of_nat n + 1) * Z.of_nat i)). split; [intros i; exact demo_env_ok|]. vm_compute. auto. Qed.
