(** * WorldProps: objects of one process are coupled only by the words they draw. *)
From Coq Require Import ZArith List Bool Lia.
From Verif Require Import Py Lattice Cluster Perc History PyFacts Select State Reach World WorldSpec.
Import ListNotations.
Open Scope Z_scope.

(** ** A method depends only on the words it takes. *)
Definition local {A} (m : env -> M A) : Prop :=
  forall E s, (tick s <= tick (fst (m E s)))%nat /\
  forall d t, (forall i, (tick s + i < tick (fst (m E s)))%nat -> d (t + i)%nat = e_draw E (tick s + i)%nat) ->
  m (mkEnv (e_ord E) d) (set_tick t s) = (set_tick (t + (tick (fst (m E s)) - tick s))%nat (fst (m E s)), snd (m E s)).

Lemma set_tick_id s : set_tick (tick s) s = s. Proof. destruct s. reflexivity. Qed.
Lemma set_tick_plus s t u : t = u -> set_tick t s = set_tick u s. Proof. now intros ->. Qed.

Lemma loc_stay {A} (m : env -> M A) :
  (forall E s, tick (fst (m E s)) = tick s) ->
  (forall E d s t, m (mkEnv (e_ord E) d) (set_tick t s) = (set_tick t (fst (m E s)), snd (m E s))) -> local m.
Proof.
  intros H1 H2 E s. rewrite H1. split; [lia|]. intros d t _. rewrite H2. f_equal. apply set_tick_plus. lia.
Qed.
Lemma loc_ret {A} (a : env -> A) : (forall E d, a (mkEnv (e_ord E) d) = a E) -> local (fun E => ret (a E)).
Proof. intros H. apply loc_stay; intros; [reflexivity|]. unfold ret. rewrite H. reflexivity. Qed.
Lemma loc_lift {A} (a : env -> res A) : (forall E d, a (mkEnv (e_ord E) d) = a E) -> local (fun E => lift (a E)).
Proof. intros H. apply loc_stay; intros; [reflexivity|]. unfold lift. rewrite H. reflexivity. Qed.
Lemma loc_raise {A} e : local (fun E => @raise A e).
Proof. apply loc_stay; intros; reflexivity. Qed.
Lemma loc_modify f : (forall s, tick (f s) = tick s) -> (forall s t, f (set_tick t s) = set_tick t (f s)) -> local (fun E => modify f).
Proof. intros H1 H2. apply loc_stay; intros; unfold modify; cbn [fst snd]; [apply H1|]. now rewrite H2. Qed.
Lemma loc_bind {A B} (m : env -> M A) (k : env -> A -> M B) : local m -> (forall a, local (fun E => k E a)) -> local (fun E => mbind (m E) (k E)).
Proof.
  intros Hm Hk E s. specialize (Hm E s). destruct Hm as (M1 & M2). unfold mbind. destruct (m E s) as [s1 r1] eqn:Em. cbn [fst snd] in M1, M2.
  destruct r1 as [a|e].
  - specialize (Hk a E s1). destruct Hk as (K1 & K2). split; [lia|]. intros d t Hd.
    rewrite M2 by (intros i Hi; apply Hd; lia).
    specialize (K2 d (t + (tick s1 - tick s))%nat). rewrite K2.
    + f_equal. apply set_tick_plus. lia.
    + intros i Hi. replace (t + (tick s1 - tick s) + i)%nat with (t + ((tick s1 - tick s) + i))%nat by lia.
      rewrite Hd by lia. f_equal. lia.
  - cbn [fst snd]. split; [lia|]. intros d t Hd. rewrite M2 by (intros i Hi; apply Hd; lia). reflexivity.
Qed.
Lemma loc_get {A} (k : env -> perc -> M A) : (forall s0, local (fun E => k E s0)) ->
  (forall E s0 t, k E (set_tick t s0) = k E s0) -> local (fun E => mbind get (k E)).
Proof.
  intros Hk Hs E s. specialize (Hk s E s). destruct Hk as (K1 & K2). unfold mbind, get. split; [exact K1|].
  intros d t Hd. rewrite Hs. now apply K2.
Qed.
Lemma loc_ext {A} (m m' : env -> M A) : (forall E s, m E s = m' E s) -> local m -> local m'.
Proof. intros H Hm E s. rewrite <- !H. destruct (Hm E s) as (A1 & A2). split; [exact A1|]. intros. rewrite <- H. now apply A2. Qed.

Lemma loc_randint a b : local (fun E => randint E a b).
Proof.
  intros E s. unfold randint. destruct (b <? a); [unfold raise; cbn [fst snd]; split; [lia|]; intros; f_equal; apply set_tick_plus; lia|].
  unfold mbind, get, modify, ret. cbn [fst snd tick set_tick]. split; [lia|]. intros d t Hd. cbn [e_draw].
  specialize (Hd O). rewrite !Nat.add_0_r in Hd. rewrite Hd by lia. f_equal. change (set_tick (S t) s = set_tick (t + (S (tick s) - tick s)) s). apply set_tick_plus. lia.
Qed.
Lemma sf_loc E d k : forall t u l, snd (shuffle_from E k t l) = (t + k)%nat /\
  ((forall i, (i < k)%nat -> d (u + i)%nat = e_draw E (t + i)%nat) ->
   shuffle_from (mkEnv (e_ord E) d) k u l = (fst (shuffle_from E k t l), (u + k)%nat)).
Proof.
  induction k as [|k IH]; intros t u l.
  - cbn [shuffle_from fst snd]. split; [lia|]. intros _. f_equal. lia.
  - cbn [shuffle_from]. set (j := Z.to_nat (e_draw E t mod (Z.of_nat (S k) + 1))).
    destruct (IH (S t) (S u) (swap_at l (S k) j)) as (I1 & I2). split; [rewrite I1; lia|]. intros Hd.
    cbn [e_draw]. replace (d u) with (e_draw E t) by (specialize (Hd O); rewrite !Nat.add_0_r in Hd; symmetry; apply Hd; lia).
    fold j. rewrite I2; [f_equal; lia|]. intros i Hi. specialize (Hd (S i)). rewrite !Nat.add_succ_r in Hd. cbn [Nat.add]. apply Hd. lia.
Qed.
Definition mix (E : env) : M unit := fun s =>
  let '(l, t) := random_shuffle E (tick s) (ids s) in (set_tick t (mutate_ids l s), Ok tt).
Lemma loc_mix : local mix.
Proof.
  intros E s. unfold mix, random_shuffle. set (n := pred (length (ids s))).
  destruct (sf_loc E (e_draw E) n (tick s) (tick s) (ids s)) as (T1 & _).
  destruct (shuffle_from E n (tick s) (ids s)) as [l t1] eqn:Es. cbn [snd] in T1. subst t1. cbn [fst snd].
  change (tick (set_tick ?t ?s)) with t. split; [lia|]. intros d t Hd.
  change (ids (set_tick t s)) with (ids s). fold n.
  destruct (sf_loc E d n (tick s) t (ids s)) as (_ & T2). rewrite T2 by (intros i Hi; apply Hd; lia). rewrite Es. cbn [fst].
  replace (tick s + n - tick s)%nat with n by lia. reflexivity.
Qed.
Lemma loc_if {A} (b : bool) (m m' : env -> M A) : local m -> local m' -> local (fun E => if b then m E else m' E).
Proof. destruct b; auto. Qed.

(** One step of a locality proof. *)
Ltac lc := cbv beta zeta; lazymatch goal with
  | |- local (fun E => ret _) => apply loc_ret; reflexivity
  | |- local (fun E => raise _) => apply loc_raise
  | |- local (fun E => lift _) => apply loc_lift; reflexivity
  | |- local (fun E => modify _) => apply loc_modify; reflexivity
  | |- local (fun E => randint E _ _) => apply loc_randint
  | |- local (fun E => mbind get _) => apply loc_get; [intros|reflexivity]
  | |- local (fun E => mbind _ _) => apply loc_bind; [|intros]
  | |- local (fun E => if ?b then _ else _) => apply loc_if
  | |- local (fun E => match ?x with _ => _ end) => destruct x
  end.

Lemma loc_shuffle : local shuffle.
Proof.
  apply (loc_ext (fun E => do s <~ get ;
    if mode_custom s && negb (do_shuffle s) then ret tt
    else if do_shuffle s then
      run mix E ; do s <~ get ;
      do rv <~ lift (foldM (fun rv i => a <- lget (ids s) i ;; lset rv a i) (zrange (zlen (ids s))) (rev_ids s)) ;
      modify (set_rev rv)
    else ret tt)).
  - intros E s. unfold shuffle, mix, mbind, get. destruct (mode_custom s && negb (do_shuffle s)); [reflexivity|].
    destruct (do_shuffle s); [|reflexivity]. destruct (random_shuffle E (tick s) (ids s)). reflexivity.
  - lc. lc; [lc|]. lc; [|lc]. lc; [apply loc_mix|]. lc. lc; [lc|]. lc.
Qed.
Lemma loc_select_id i : local (fun E => select_id i).
Proof. unfold select_id. repeat lc. Qed.
Lemma loc_need {A} (o : option A) : local (fun E => need o).
Proof. unfold need. repeat lc. Qed.
Lemma loc_drop r : local (fun E => drop_candidate r).
Proof. unfold drop_candidate. repeat lc. Qed.
Lemma loc_base : local (fun E => select_site_base).
Proof. unfold select_site_base. repeat first [apply loc_select_id|lc]. Qed.
Lemma loc_L1 : local select_site_L1.
Proof. unfold select_site_L1. repeat first [apply loc_select_id|apply loc_drop|lc]. Qed.
Lemma loc_L2 : local select_site_L2.
Proof. unfold select_site_L2. repeat first [apply loc_select_id|apply loc_drop|lc]. Qed.
Lemma loc_select : local select_site.
Proof. unfold select_site. repeat first [apply loc_base|apply loc_L1|apply loc_L2|lc]. Qed.
Lemma loc_track c : local (fun E => track_largest_cluster c).
Proof. unfold track_largest_cluster. repeat lc. Qed.
Lemma loc_place : local place_one_site.
Proof. unfold place_one_site. lc; [apply loc_select|]. repeat first [apply loc_need|apply loc_track|lc]. Qed.
Lemma loc_detect : local (fun E => detect_wrapping).
Proof. unfold detect_wrapping. repeat first [apply loc_need|lc]. Qed.
Lemma loc_record : local (fun E => record_step).
Proof. unfold record_step. repeat lc. Qed.
Lemma loc_run_loop f : local (fun E => run_loop E f).
Proof. induction f as [|f IH]; cbn [run_loop]; repeat first [exact IH|apply loc_place|apply loc_detect|apply loc_record|lc]. Qed.
Lemma loc_test_loop f : local (fun E => test_run_loop E f).
Proof. induction f as [|f IH]; cbn [test_run_loop]; repeat first [exact IH|apply loc_place|apply loc_detect|apply loc_record|apply loc_need|lc]. Qed.
Lemma loc_sp_loop f : local (fun E => sp_loop E f).
Proof. induction f as [|f IH]; cbn [sp_loop]; repeat first [exact IH|apply loc_place|apply loc_detect|apply loc_record|apply loc_need|lc]. Qed.
Lemma loc_run f : local (fun E => run_once E f).
Proof. unfold run_once, sp_run_once, run_once_base. repeat first [apply loc_run_loop|apply loc_sp_loop|lc]. Qed.
Lemma loc_test_run f : local (fun E => test_run_once E f).
Proof. unfold test_run_once. repeat first [apply loc_test_loop|lc]. Qed.
Lemma loc_reset : local reset.
Proof. unfold reset, reset_base. repeat first [apply loc_shuffle|lc]. Qed.
Lemma loc_set_ids l b : local (fun E => set_custome_site_id_list E l b).
Proof. unfold set_custome_site_id_list. repeat first [apply loc_shuffle|lc]. Qed.
Lemma loc_set_indices l b : local (fun E => set_custome_site_index_list E l b).
Proof. unfold set_custome_site_index_list. repeat first [apply loc_shuffle|lc]. Qed.
Lemma loc_swap a b : local (fun E => swap_ids a b).
Proof. unfold swap_ids. repeat lc. Qed.

(** ** One call. *)
Lemma exec_local E s c : (tick s <= tick (exec E s c))%nat /\
  forall d t, (forall i, (tick s + i < tick (exec E s c))%nat -> d (t + i)%nat = e_draw E (tick s + i)%nat) ->
  exec (mkEnv (e_ord E) d) (set_tick t s) c = set_tick (t + (tick (exec E s c) - tick s)) (exec E s c) /\
  outcome (mkEnv (e_ord E) d) (set_tick t s) c = outcome E s c.
Proof.
  assert (G : forall A (m : env -> M A) (g : res A -> res bool), local m -> (tick s <= tick (fst (m E s)))%nat /\
    forall d t, (forall i, (tick s + i < tick (fst (m E s)))%nat -> d (t + i)%nat = e_draw E (tick s + i)%nat) ->
    fst (m (mkEnv (e_ord E) d) (set_tick t s)) = set_tick (t + (tick (fst (m E s)) - tick s)) (fst (m E s)) /\
    g (snd (m (mkEnv (e_ord E) d) (set_tick t s))) = g (snd (m E s))).
  { intros A m g H. destruct (H E s) as (H1 & H2). split; [exact H1|]. intros d t Hd. rewrite (H2 d t Hd). split; reflexivity. }
  destruct c; cbn [exec outcome].
  - exact (G _ _ (fun r => r) loc_place).
  - exact (G _ (fun _ => detect_wrapping) (fun r => r) loc_detect).
  - exact (G _ _ done loc_reset).
  - exact (G _ (fun E => set_custome_site_id_list E l sh) done (loc_set_ids l sh)).
  - exact (G _ (fun E => set_custome_site_index_list E l sh) done (loc_set_indices l sh)).
  - exact (G _ (fun _ => swap_ids a b) done (loc_swap a b)).
  - exact (G _ (fun E => run_once E fuel) done (loc_run fuel)).
  - exact (G _ (fun E => test_run_once E fuel) done (loc_test_run fuel)).
Qed.

Lemma nth_error_upd {A} (l : list A) i j v : nth_error (upd l j v) i =
  if Nat.eqb j i then match nth_error l i with Some _ => Some v | None => None end else nth_error l i.
Proof. revert i j. induction l as [|a l IH]; intros [|i] [|j]; cbn; auto. - destruct (Nat.eqb j i); reflexivity. Qed.

Lemma nth_ext_error {A} (l l' : list A) : length l = length l' -> (forall i, (i < length l)%nat -> nth_error l i = nth_error l' i) -> l = l'.
Proof.
  revert l'. induction l as [|a l IH]; intros [|b l'] H G; cbn in *; try discriminate; auto.
  f_equal; [specialize (G O); cbn in G; assert (Some a = Some b) by (apply G; lia); congruence|].
  apply IH; [lia|]. intros i Hi. apply (G (S i)). lia.
Qed.

(** The words taken by object [i] during a history. *)
Lemma project ord i es : forall w o, nth_error (w_objs w) i = Some o -> exists ws, forall d p,
  (forall j, (j < length ws)%nat -> d (p + j)%nat = nth j ws 0) ->
  let s := after (mkEnv ord d) (set_tick p o) (calls_to i es) in
  (nth_error (w_objs (wrun ord w es)) i = Some (set_tick 0 s) \/ (calls_to i es = [] /\ nth_error (w_objs (wrun ord w es)) i = Some o)) /\
  tick s = (p + length ws)%nat /\
  answers_of ord i w es = answers (mkEnv ord d) (set_tick p o) (calls_to i es).
Proof.
  induction es as [|e es IH]; intros w o Ho.
  - exists []. intros d p _. cbn. repeat split; auto; lia.
  - assert (K : forall w', nth_error (w_objs w') i = Some o -> wstep ord w e = w' -> (forall c, e <> ECall i c) -> exists ws, forall d p,
      (forall j, (j < length ws)%nat -> d (p + j)%nat = nth j ws 0) ->
      let s := after (mkEnv ord d) (set_tick p o) (calls_to i (e :: es)) in
      (nth_error (w_objs (wrun ord w (e :: es))) i = Some (set_tick 0 s) \/ (calls_to i (e :: es) = [] /\ nth_error (w_objs (wrun ord w (e :: es))) i = Some o)) /\
      tick s = (p + length ws)%nat /\
      answers_of ord i w (e :: es) = answers (mkEnv ord d) (set_tick p o) (calls_to i (e :: es))).
    { intros w' Hw' Ew He. destruct (IH w' o Hw') as (ws & Hws). exists ws. intros d p Hd.
      assert (C : calls_to i (e :: es) = calls_to i es) by (destruct e as [k L sd|j c|d' p']; cbn; auto; destruct (Nat.eqb_spec j i) as [->|]; [now destruct (He c)|reflexivity]).
      rewrite C. cbn [answers_of wrun fold_left]. rewrite Ew. fold (wrun ord w' es).
      replace (match e with ECall j c => if Nat.eqb j i then [wanswer ord w j c] else [] | _ => [] end) with (@nil (option (res bool)))
        by (destruct e as [k L sd|j c|d' p']; auto; destruct (Nat.eqb_spec j i) as [->|]; [now destruct (He c)|reflexivity]).
      exact (Hws d p Hd). }
    destruct e as [k L sd|j c|d' p'].
    + apply (K (wnew ord w k L sd)); [|reflexivity|discriminate]. unfold wnew.
      assert (Hi : (i < length (w_objs w))%nat) by (apply nth_error_Some; congruence).
      destruct sd; destruct (new_perc _ _ _ _); cbn [w_objs]; auto; rewrite nth_error_app1; auto.
    + destruct (Nat.eqb_spec j i) as [->|Hj].
      * cbn [wstep wrun fold_left calls_to answers_of]. fold (wrun ord (wcall ord w i c) es). rewrite Nat.eqb_refl. unfold wanswer. rewrite Ho.
        set (E0 := mkEnv ord (w_stream w)). set (o1 := set_tick (w_pos w) o).
        destruct (exec_local E0 o1 c) as (T1 & T2). change (tick o1) with (w_pos w) in T1, T2. set (s1 := exec E0 o1 c) in *.
        assert (Ho1 : nth_error (w_objs (wcall ord w i c)) i = Some (set_tick 0 s1)).
        { unfold wcall. rewrite Ho. cbn [w_objs]. rewrite nth_error_upd, Nat.eqb_refl, Ho. reflexivity. }
        destruct (IH _ _ Ho1) as (ws & Hws). set (n := (tick s1 - w_pos w)%nat) in *.
        exists (map (w_stream w) (seq (w_pos w) n) ++ ws). intros d p Hd. rewrite app_length, map_length, seq_length in *.
        destruct (T2 d p) as (X1 & X2).
        { intros j Hj. rewrite Hd by lia. rewrite app_nth1 by (rewrite map_length, seq_length; lia).
          rewrite nth_indep with (d' := w_stream w O) by (rewrite map_length, seq_length; lia). rewrite map_nth, seq_nth by lia. reflexivity. }
        change (set_tick p o1) with (set_tick p o) in X1, X2. change (e_ord E0) with ord in X1, X2.
        cbn [after fold_left answers]. fold (after (mkEnv ord d)). rewrite X1, X2.
        destruct (Hws d (p + n)%nat) as (W1 & W2 & W3).
        { intros j Hj. rewrite <- Nat.add_assoc, Hd by lia. rewrite app_nth2; rewrite map_length, seq_length; [f_equal; lia|lia]. }
        change (set_tick (p + n) (set_tick 0 s1)) with (set_tick (p + n) s1) in W1, W2, W3.
        unfold after in *. split; [|split; [rewrite W2; lia|cbn [app]; f_equal; exact W3]].
        destruct W1 as [W1|(W1 & W1')]; [left; exact W1|]. left. rewrite W1', W1. cbn [fold_left]. reflexivity.
      * apply (K (wcall ord w j c)); [|reflexivity|congruence]. unfold wcall. destruct (nth_error (w_objs w) j); [|exact Ho].
        cbn [w_objs]. rewrite nth_error_upd. destruct (Nat.eqb_spec j i); [contradiction|exact Ho].
    + apply (K (mkWorld (w_objs w) d' p')); [exact Ho|reflexivity|discriminate].
Qed.

(** ** Constructors. *)
Lemma new_local ord d0 k L t s : new_perc (mkEnv ord d0) k L t = Ok s -> (t <= tick s)%nat /\
  forall d u, (forall i, (t + i < tick s)%nat -> d (u + i)%nat = d0 (t + i)%nat) ->
  new_perc (mkEnv ord d) k L u = Ok (set_tick (u + (tick s - t)) s).
Proof.
  unfold new_perc. destruct (new_lattice L) as [lat0|]; [|discriminate]. cbn [rbind].
  destruct (init_clusters lat0) as [[p lat1]|]; [|discriminate]. cbn [rbind].
  destruct (log_int (l_bond_count lat1)) as [mx|]; [|discriminate]. cbn [rbind].
  set (z := fun t => mkPerc k lat1 p (zrange (L * L)) (repeat 0 (Z.to_nat (L * L)))
    0 0 0 None None None (l_bond_count lat1) 0 (-1) mx mx false (-1) true
    [] [] [] [] (l_site_count lat1) false true None None 0 0 [] (FZ 0) [] false t).
  fold (z t). destruct (loc_shuffle (mkEnv ord d0) (z t)) as (A1 & A2).
  destruct (shuffle (mkEnv ord d0) (z t)) as [s' [r|]]; [|discriminate]. cbn [fst snd] in A1, A2. intros [= <-].
  split; [exact A1|]. intros d u Hd. fold (z u). specialize (A2 d u Hd). change (set_tick u (z t)) with (z u) in A2.
  change (e_ord (mkEnv ord d0)) with ord in A2. rewrite A2. reflexivity.
Qed.

Lemma p_C108 ord w k L seed es : 0 < L -> let i := length (w_objs w) in
  exists d s0, new_perc (mkEnv ord d) k L 0 = Ok s0 /\
    nth_error (w_objs (wrun ord w (ENew k L seed :: es))) i = Some (set_tick 0 (after (mkEnv ord d) s0 (calls_to i es))) /\
    answers_of ord i (wnew ord w k L seed) es = answers (mkEnv ord d) s0 (calls_to i es).
Proof.
  intros HL i. cbn [wrun fold_left wstep]. fold (wrun ord (wnew ord w k L seed) es).
  set (d0 := match seed with Some d => d | None => w_stream w end).
  set (p0 := match seed with Some _ => O | None => w_pos w end).
  destruct (new_perc (mkEnv ord d0) k L p0) as [s|e] eqn:En.
  2:{ exfalso. destruct (new_perc_ok (mkEnv ord d0) k L p0 HL) as (l1 & l2 & l3 & l4 & E0 & _). congruence. }
  assert (Hw : wnew ord w k L seed = mkWorld (w_objs w ++ [set_tick 0 s]) d0 (tick s)).
  { unfold wnew. fold d0 p0. rewrite En. reflexivity. }
  rewrite Hw. set (w1 := mkWorld _ _ _). assert (H1 : nth_error (w_objs w1) i = Some (set_tick 0 s)).
  { cbn [w1 w_objs]. unfold i. rewrite nth_error_app2 by lia. rewrite Nat.sub_diag. reflexivity. }
  destruct (project ord i es w1 _ H1) as (ws & Hws). destruct (new_local _ _ _ _ _ _ En) as (T1 & T2).
  set (n := (tick s - p0)%nat) in *.
  set (d := fun j => if (j <? n)%nat then d0 (p0 + j)%nat else nth (j - n) ws 0).
  exists d, (set_tick n s). split; [|].
  - apply (T2 d O). intros j Hj. unfold d. cbn [Nat.add]. destruct (Nat.ltb_spec j n); [reflexivity|lia].
  - destruct (Hws d n) as (W1 & W2 & W3).
    { intros j Hj. unfold d. destruct (Nat.ltb_spec (n + j) n); [lia|]. f_equal. lia. }
    change (set_tick n (set_tick 0 s)) with (set_tick n s) in W1, W2, W3. split; [|exact W3].
    destruct W1 as [W1|(C & W1)]; [exact W1|]. rewrite C in *. exact W1.
Qed.

Lemma p_C108_reach ord w k L seed es : 0 < L -> let i := length (w_objs w) in Forall (call_ok L) (calls_to i es) ->
  exists d t o, nth_error (w_objs (wrun ord w (ENew k L seed :: es))) i = Some o /\ reachable_k (mkEnv ord d) k L (set_tick t o).
Proof.
  intros HL i Hc. destruct (p_C108 ord w k L seed es HL) as (d & s0 & H1 & H2 & _). fold i in H2.
  eexists d, (tick (after (mkEnv ord d) s0 (calls_to i es))), _. split; [exact H2|].
  exists O, s0, (calls_to i es). split; [exact H1|]. split; [exact Hc|].
  change (set_tick (tick (after (mkEnv ord d) s0 (calls_to i es))) (after (mkEnv ord d) s0 (calls_to i es)) = after (mkEnv ord d) s0 (calls_to i es)).
  apply set_tick_id.
Qed.

(** ** Calls that draw nothing. *)
Definition quiet {A} (m : M A) : Prop := forall s, is_L12 (kind s) = false -> tick (fst (m s)) = tick s /\ kind (fst (m s)) = kind s.
Lemma q_bind {A B} (m : M A) (k : A -> M B) : quiet m -> (forall a, quiet (k a)) -> quiet (mbind m k).
Proof.
  intros Hm Hk s Hs. destruct (Hm s Hs) as (A1 & A2). unfold mbind. destruct (m s) as [s1 [a|e]]; cbn [fst] in *; [|auto].
  destruct (Hk a s1) as (B1 & B2); [congruence|]. split; congruence.
Qed.
Lemma q_get {A} (k : perc -> M A) : (forall s, quiet (k s)) -> quiet (mbind get k).
Proof. intros H s Hs. apply (H s s Hs). Qed.
Lemma q_modify f : (forall s, tick (f s) = tick s) -> (forall s, kind (f s) = kind s) -> quiet (modify f).
Proof. intros H1 H2 s _. split; [apply H1|apply H2]. Qed.
Ltac qt := cbv beta zeta; lazymatch goal with
  | |- quiet (ret _) => intros ? ?; split; reflexivity
  | |- quiet (raise _) => intros ? ?; split; reflexivity
  | |- quiet (lift _) => intros ? ?; split; reflexivity
  | |- quiet (modify _) => apply q_modify; reflexivity
  | |- quiet (mbind get _) => apply q_get; intros
  | |- quiet (mbind _ _) => apply q_bind; [|intros]
  | |- quiet (if ?b then _ else _) => destruct b
  | |- quiet (match ?x with _ => _ end) => destruct x
  end.
Lemma q_select_id i : quiet (select_id i). Proof. unfold select_id. repeat qt. Qed.
Lemma q_need {A} (o : option A) : quiet (need o). Proof. unfold need. repeat qt. Qed.
Lemma q_base : quiet select_site_base. Proof. unfold select_site_base. repeat first [apply q_select_id|qt]. Qed.
Lemma q_select E : quiet (select_site E).
Proof.
  intros s Hs. unfold select_site, mbind at 1 2, get. destruct (kind s) eqn:K; try discriminate; cbv beta iota; rewrite <- K; apply q_base; now rewrite K.
Qed.
Lemma q_track c : quiet (track_largest_cluster c). Proof. unfold track_largest_cluster. repeat qt. Qed.
Lemma q_place E : quiet (place_one_site E).
Proof. unfold place_one_site. qt; [apply q_select|]. repeat first [apply q_need|apply q_track|qt]. Qed.
Lemma q_detect : quiet detect_wrapping. Proof. unfold detect_wrapping. repeat first [apply q_need|qt]. Qed.
Lemma q_record : quiet record_step. Proof. unfold record_step. repeat qt. Qed.
Lemma q_run_loop E f : quiet (run_loop E f).
Proof. induction f as [|f IH]; cbn [run_loop]; repeat first [exact IH|apply q_place|apply q_detect|apply q_record|qt]. Qed.
Lemma q_test_loop E f : quiet (test_run_loop E f).
Proof. induction f as [|f IH]; cbn [test_run_loop]; repeat first [exact IH|apply q_place|apply q_detect|apply q_record|apply q_need|qt]. Qed.
Lemma q_sp_loop E f : quiet (sp_loop E f).
Proof. induction f as [|f IH]; cbn [sp_loop]; repeat first [exact IH|apply q_place|apply q_detect|apply q_record|apply q_need|qt]. Qed.
Lemma q_run E f : quiet (run_once E f).
Proof. unfold run_once, sp_run_once, run_once_base. repeat first [apply q_run_loop|apply q_sp_loop|qt]. Qed.
Lemma q_test_run E f : quiet (test_run_once E f).
Proof. unfold test_run_once. repeat first [apply q_test_loop|qt]. Qed.
(** The same for every class. *)
Definition silent {A} (m : M A) : Prop := forall s, tick (fst (m s)) = tick s /\ kind (fst (m s)) = kind s.
Lemma si_bind {A B} (m : M A) (k : A -> M B) : silent m -> (forall a, silent (k a)) -> silent (mbind m k).
Proof.
  intros Hm Hk s. destruct (Hm s) as (A1 & A2). unfold mbind. destruct (m s) as [s1 [a|e]]; cbn [fst] in *; [|auto].
  destruct (Hk a s1) as (B1 & B2). split; congruence.
Qed.
Lemma si_get {A} (k : perc -> M A) : (forall s, silent (k s)) -> silent (mbind get k).
Proof. intros H s. apply (H s s). Qed.
Lemma si_modify f : (forall s, tick (f s) = tick s) -> (forall s, kind (f s) = kind s) -> silent (modify f).
Proof. intros H1 H2 s. split; [apply H1|apply H2]. Qed.
Ltac st := cbv beta zeta; lazymatch goal with
  | |- silent (ret _) => intros ?; split; reflexivity
  | |- silent (raise _) => intros ?; split; reflexivity
  | |- silent (lift _) => intros ?; split; reflexivity
  | |- silent (modify _) => apply si_modify; reflexivity
  | |- silent (mbind get _) => apply si_get; intros
  | |- silent (mbind _ _) => apply si_bind; [|intros]
  | |- silent (if ?b then _ else _) => destruct b
  | |- silent (match ?x with _ => _ end) => destruct x
  end.
Lemma si_need {A} (o : option A) : silent (need o). Proof. unfold need. repeat st. Qed.
Lemma si_detect : silent detect_wrapping. Proof. unfold detect_wrapping. repeat first [apply si_need|st]. Qed.
Lemma si_swap a b : silent (swap_ids a b). Proof. unfold swap_ids. repeat st. Qed.

Lemma drawless_exec E s c : drawless (kind s) c -> tick (exec E s c) = tick s /\ kind (exec E s c) = kind s.
Proof.
  assert (Hk : kind s <> KL1 /\ kind s <> KL2 -> is_L12 (kind s) = false) by (intros (A & B); destruct (kind s); auto; contradiction).
  destruct c; cbn [drawless exec]; intros H; try contradiction.
  - now apply q_place, Hk.
  - apply si_detect.
  - apply si_swap.
  - now apply q_run, Hk.
  - now apply q_test_run, Hk.
Qed.
(** Such a call does the same for every generator. *)
Lemma drawless_same E d s t c : drawless (kind s) c ->
  exec (mkEnv (e_ord E) d) (set_tick t s) c = set_tick t (exec E s c) /\
  outcome (mkEnv (e_ord E) d) (set_tick t s) c = outcome E s c.
Proof.
  intros H. destruct (drawless_exec E s c H) as (T & _). destruct (exec_local E s c) as (_ & G).
  destruct (G d t) as (G1 & G2); [intros i Hi; lia|]. split; [|exact G2]. rewrite G1. apply set_tick_plus. lia.
Qed.


Lemma drawless_after E cs : forall s, Forall (drawless (kind s)) cs -> tick (after E s cs) = tick s.
Proof.
  induction cs as [|c cs IH]; intros s H; [reflexivity|]. inversion H; subst. destruct (drawless_exec E s c) as (T & K); [assumption|].
  cbn [after fold_left]. fold (after E (exec E s c) cs). rewrite IH; [exact T|]. now rewrite K.
Qed.
Lemma drawless_pos ord es : forall w,
  (forall e, In e es -> exists i c, e = ECall i c) ->
  (forall i o, nth_error (w_objs w) i = Some o -> Forall (drawless (kind o)) (calls_to i es)) ->
  w_stream (wrun ord w es) = w_stream w /\ w_pos (wrun ord w es) = w_pos w /\ length (w_objs (wrun ord w es)) = length (w_objs w).
Proof.
  induction es as [|e es IH]; intros w He H; [auto|]. destruct (He e (or_introl eq_refl)) as (i & c & ->).
  cbn [wrun fold_left wstep]. fold (wrun ord (wcall ord w i c) es).
  assert (G : w_stream (wcall ord w i c) = w_stream w /\ w_pos (wcall ord w i c) = w_pos w /\ length (w_objs (wcall ord w i c)) = length (w_objs w) /\
     forall j o, nth_error (w_objs (wcall ord w i c)) j = Some o -> Forall (drawless (kind o)) (calls_to j es)).
  { unfold wcall. destruct (nth_error (w_objs w) i) as [o|] eqn:Ho.
    - pose proof (H i o Ho) as D. cbn [calls_to] in D. rewrite Nat.eqb_refl in D. inversion D; subst.
      destruct (drawless_exec (mkEnv ord (w_stream w)) (set_tick (w_pos w) o) c) as (T & K); [assumption|]. cbn [w_stream w_pos w_objs].
      split; [reflexivity|]. split; [exact T|]. split; [apply upd_length|]. intros j o'. rewrite nth_error_upd.
      destruct (Nat.eqb_spec i j) as [<-|Hij].
      + rewrite Ho. intros [= <-]. change (kind (set_tick 0 ?x)) with (kind x). rewrite K. assumption.
      + intros Hj. pose proof (H j o' Hj) as D'. cbn [calls_to] in D'. destruct (Nat.eqb_spec i j); [contradiction|exact D'].
    - repeat split; auto. intros j o' Hj. pose proof (H j o' Hj) as D'. cbn [calls_to] in D'.
      destruct (Nat.eqb_spec i j) as [<-|]; [congruence|exact D']. }
  destruct G as (G1 & G2 & G3 & G4). destruct (IH (wcall ord w i c)) as (I1 & I2 & I3); [intros e' H'; apply He; now right|exact G4|].
  repeat split; congruence.
Qed.

Lemma p_C108_interleave ord w es :
  (forall e, In e es -> exists i c, e = ECall i c) ->
  (forall i o, nth_error (w_objs w) i = Some o -> Forall (drawless (kind o)) (calls_to i es)) ->
  let w' := wrun ord w es in
  w_stream w' = w_stream w /\ w_pos w' = w_pos w /\ length (w_objs w') = length (w_objs w) /\
  forall i o, nth_error (w_objs w) i = Some o -> forall d p,
    answers_of ord i w es = answers (mkEnv ord d) (set_tick p o) (calls_to i es) /\
    (calls_to i es <> [] -> nth_error (w_objs w') i = Some (set_tick 0 (after (mkEnv ord d) (set_tick p o) (calls_to i es)))) /\
    (calls_to i es = [] -> nth_error (w_objs w') i = Some o).
Proof.
  intros He H w'. destruct (drawless_pos ord es w He H) as (A1 & A2 & A3). repeat split; auto.
  - destruct (project ord i es w o H0) as (ws & Hws).
    assert (N : length ws = O).
    { destruct (Hws (fun j => nth j ws 0) O) as (_ & T & _); [auto|]. rewrite (drawless_after _ _ (set_tick 0 o)) in T; [change (tick (set_tick 0 o)) with O in T; lia|].
      exact (H i o H0). }
    destruct (Hws d p) as (_ & _ & W); [rewrite N; lia|]. exact W.
  - intros Hne. destruct (project ord i es w o H0) as (ws & Hws).
    assert (N : length ws = O).
    { destruct (Hws (fun j => nth j ws 0) O) as (_ & T & _); [auto|]. rewrite (drawless_after _ _ (set_tick 0 o)) in T; [change (tick (set_tick 0 o)) with O in T; lia|].
      exact (H i o H0). }
    destruct (Hws d p) as ([W|(W & _)] & _); [rewrite N; lia|exact W|contradiction].
  - intros C. destruct (project ord i es w o H0) as (ws & Hws). destruct (Hws (fun j => nth j ws 0) O) as ([W|(_ & W)] & _); [auto| |exact W].
    rewrite C in W. unfold w'. clear - C H0. revert w H0. induction es as [|e es IH]; intros w Ho; [exact Ho|].
    cbn [wrun fold_left]. fold (wrun ord (wstep ord w e) es). destruct e as [k L sd|j c|d' p']; cbn [calls_to] in C; cbn [wstep].
    + apply IH; [exact C|]. assert (Hi : (i < length (w_objs w))%nat) by (apply nth_error_Some; congruence). unfold wnew.
      destruct sd; destruct (new_perc _ _ _ _); cbn [w_objs]; auto; rewrite nth_error_app1; auto.
    + destruct (Nat.eqb_spec j i); [discriminate|]. apply IH; [exact C|]. unfold wcall. destruct (nth_error (w_objs w) j); [|exact Ho].
      cbn [w_objs]. rewrite nth_error_upd. destruct (Nat.eqb_spec j i); [contradiction|exact Ho].
    + apply IH; [exact C|exact Ho].
Qed.
Lemma p_C108_orders ord w es es' :
  (forall e, In e (es ++ es') -> exists i c, e = ECall i c) ->
  (forall i o, nth_error (w_objs w) i = Some o -> Forall (drawless (kind o)) (calls_to i es)) ->
  (forall i, calls_to i es = calls_to i es') ->
  wrun ord w es = wrun ord w es' /\ forall i, (i < length (w_objs w))%nat -> answers_of ord i w es = answers_of ord i w es'.
Proof.
  intros He H Eq.
  destruct (p_C108_interleave ord w es) as (A1 & A2 & A3 & A4); [intros e Hi; apply He, in_or_app; auto|exact H|].
  destruct (p_C108_interleave ord w es') as (B1 & B2 & B3 & B4); [intros e Hi; apply He, in_or_app; auto|intros i o Ho; rewrite <- Eq; now apply H|].
  split.
  - destruct (wrun ord w es) as [o1 s1 p1], (wrun ord w es') as [o2 s2 p2]. cbn [w_objs w_stream w_pos] in *. subst. f_equal.
    apply nth_ext_error; [congruence|]. intros i Hi. rewrite A3 in Hi.
    destruct (nth_error (w_objs w) i) as [o|] eqn:Ho; [|apply nth_error_None in Ho; lia].
    destruct (A4 i o Ho (fun _ => 0) O) as (_ & P1 & P2). destruct (B4 i o Ho (fun _ => 0) O) as (_ & Q1 & Q2).
    rewrite <- Eq in Q1, Q2. destruct (calls_to i es); [rewrite P2, Q2; reflexivity|]. rewrite P1, Q1; congruence.
  - intros i Hi. destruct (nth_error (w_objs w) i) as [o|] eqn:Ho; [|apply nth_error_None in Ho; lia].
    destruct (A4 i o Ho (fun _ => 0) O) as (-> & _). destruct (B4 i o Ho (fun _ => 0) O) as (-> & _). now rewrite Eq.
Qed.

(** ** The seed belongs to the process, not to the object. *)
Definition count_up (n : nat) : Z := Z.of_nat n * Z.of_nat n mod 7.
Lemma p_C108_seed_refuted : exists d d', let ord := nodup Z.eq_dec in let w := mkWorld [] d 0 in
  nth_error (w_objs (wrun ord w [ENew KBase 3 (Some d); ECall 0 CReset])) 0 <>
    nth_error (w_objs (wrun ord w [ENew KBase 3 (Some d); ENew KBase 3 None; ECall 0 CReset])) 0 /\
  nth_error (w_objs (wrun ord w [ENew KBase 3 (Some d); ECall 0 CReset])) 0 <>
    nth_error (w_objs (wrun ord w [ENew KBase 3 (Some d); ENew KBase 3 (Some d'); ECall 0 CReset])) 0.
Proof.
  exists count_up, (fun _ => 0). cbv zeta. split; intros H; apply (f_equal (fun o => match o with Some s => ids s | None => [] end)) in H; revert H; vm_compute; discriminate.
Qed.

Lemma alone ord i es : forall w s, nth_error (w_objs w) i = Some (set_tick 0 s) -> w_pos w = tick s ->
  (forall e, In e es -> exists i c, e = ECall i c) ->
  (forall j o, j <> i -> nth_error (w_objs w) j = Some o -> Forall (drawless (kind o)) (calls_to j es)) ->
  nth_error (w_objs (wrun ord w es)) i = Some (set_tick 0 (after (mkEnv ord (w_stream w)) s (calls_to i es))) /\
  answers_of ord i w es = answers (mkEnv ord (w_stream w)) s (calls_to i es).
Proof.
  induction es as [|e es IH]; intros w s Hi Hp He H; [split; [exact Hi|reflexivity]|].
  destruct (He e (or_introl eq_refl)) as (j & c & ->). cbn [wrun fold_left wstep calls_to answers_of]. fold (wrun ord (wcall ord w j c) es).
  destruct (Nat.eqb_spec j i) as [->|Hj].
  - unfold wanswer. rewrite Hi. set (E0 := mkEnv ord (w_stream w)).
    assert (Es : set_tick (w_pos w) (set_tick 0 s) = s) by (rewrite Hp; exact (set_tick_id s)). rewrite Es.
    assert (W : wcall ord w i c = mkWorld (upd (w_objs w) i (set_tick 0 (exec E0 s c))) (w_stream w) (tick (exec E0 s c))).
    { unfold wcall. rewrite Hi, Es. reflexivity. }
    rewrite W. set (w1 := mkWorld _ _ _). destruct (IH w1 (exec E0 s c)) as (I1 & I2).
    + cbn [w1 w_objs]. rewrite nth_error_upd, Nat.eqb_refl, Hi. reflexivity.
    + reflexivity.
    + intros e' H'. apply He. now right.
    + intros k o Hk. cbn [w1 w_objs]. rewrite nth_error_upd. destruct (Nat.eqb_spec i k); [congruence|]. intros Ho.
      pose proof (H k o Hk Ho) as D. cbn [calls_to] in D. destruct (Nat.eqb_spec i k); [congruence|exact D].
    + split; [exact I1|]. cbn [answers app]. f_equal. exact I2.
  - assert (G : nth_error (w_objs (wcall ord w j c)) i = Some (set_tick 0 s) /\ w_pos (wcall ord w j c) = tick s /\ w_stream (wcall ord w j c) = w_stream w /\
      forall k o, k <> i -> nth_error (w_objs (wcall ord w j c)) k = Some o -> Forall (drawless (kind o)) (calls_to k es)).
    { unfold wcall. destruct (nth_error (w_objs w) j) as [o|] eqn:Ho.
      - pose proof (H j o Hj Ho) as D. cbn [calls_to] in D. rewrite Nat.eqb_refl in D. inversion D; subst.
        destruct (drawless_exec (mkEnv ord (w_stream w)) (set_tick (w_pos w) o) c) as (T & K); [assumption|]. cbn [w_stream w_pos w_objs].
        split; [rewrite nth_error_upd; destruct (Nat.eqb_spec j i); [contradiction|exact Hi]|]. split; [rewrite T; exact Hp|]. split; [reflexivity|].
        intros k o' Hk. rewrite nth_error_upd. destruct (Nat.eqb_spec j k) as [<-|Hjk].
        + rewrite Ho. intros [= <-]. change (kind (set_tick 0 ?x)) with (kind x). rewrite K. assumption.
        + intros Ho'. pose proof (H k o' Hk Ho') as D'. cbn [calls_to] in D'. destruct (Nat.eqb_spec j k); [contradiction|exact D'].
      - repeat split; auto. intros k o' Hk Ho'. pose proof (H k o' Hk Ho') as D'. cbn [calls_to] in D'.
        destruct (Nat.eqb_spec j k) as [<-|]; [congruence|exact D']. }
    destruct G as (G1 & G2 & G3 & G4). destruct (IH (wcall ord w j c) s G1 G2) as (I1 & I2); [intros e' H'; apply He; now right|exact G4|].
    rewrite G3 in I1, I2. split; [exact I1|exact I2].
Qed.
Lemma p_C108_seed ord w k L d es : 0 < L -> let i := length (w_objs w) in
  (forall e, In e es -> exists j c, e = ECall j c) ->
  (forall j o, nth_error (w_objs w) j = Some o -> Forall (drawless (kind o)) (calls_to j es)) ->
  exists s0, new_perc (mkEnv ord d) k L 0 = Ok s0 /\
    nth_error (w_objs (wrun ord w (ENew k L (Some d) :: es))) i = Some (set_tick 0 (after (mkEnv ord d) s0 (calls_to i es))) /\
    answers_of ord i (wnew ord w k L (Some d)) es = answers (mkEnv ord d) s0 (calls_to i es).
Proof.
  intros HL i He H. destruct (new_perc (mkEnv ord d) k L 0) as [s|e] eqn:En.
  2:{ exfalso. destruct (new_perc_ok (mkEnv ord d) k L 0 HL) as (l1 & l2 & l3 & l4 & E0 & _). congruence. }
  exists s. split; [reflexivity|]. cbn [wrun fold_left wstep]. fold (wrun ord (wnew ord w k L (Some d)) es).
  assert (W : wnew ord w k L (Some d) = mkWorld (w_objs w ++ [set_tick 0 s]) d (tick s)) by (unfold wnew; rewrite En; reflexivity).
  rewrite W. apply (alone ord i es (mkWorld (w_objs w ++ [set_tick 0 s]) d (tick s)) s); cbn [w_objs w_pos]; auto.
  - unfold i. rewrite nth_error_app2 by lia. rewrite Nat.sub_diag. reflexivity.
  - intros j o Hj Ho. apply H. destruct (Nat.lt_ge_cases j (length (w_objs w))); [rewrite nth_error_app1 in Ho; auto|].
    exfalso. assert (j < length (w_objs w ++ [set_tick 0 s]))%nat by (apply nth_error_Some; congruence). rewrite app_length in *. cbn in *. unfold i in Hj. lia.
Qed.
