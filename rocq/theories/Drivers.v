(** * Drivers: names of the output files (C62) and seeded runs (C64). *)
From Coq Require Import String ZArith List Bool Lia.
From Verif Require Import Py Lattice Cluster Perc Spec History PyFacts Torus Geometry LatFacts Inv Fresh State Step Reach Micro RunProps Run UtilSpec Util.
Import ListNotations.
Open Scope Z_scope.

Lemma signature_kind s k : kind s = k -> get_signature s = class_name k.
Proof. intros <-. unfold get_signature, class_name. destruct (kind s); reflexivity. Qed.

Section Kinds.
Context (E : env) (L : Z) (f : nat) (HE : env_ok E).
Lemma cycle_kind s : Inv L s ->
  exists s1, reset E s = (s1, Ok tt) /\ Inv L (fst (run_once E f s1)) /\ kind (fst (run_once E f s1)) = kind s.
Proof.
  intros H. destruct (reset_inv E L s H) as (s1 & E1 & R). exists s1. split; auto.
  assert (H1 : Inv L s1) by (pose proof (exec_inv E L s CReset HE I H) as Q; cbn [exec] in Q; now rewrite E1 in Q).
  split; [exact (exec_inv E L s1 (CRun f) HE I H1)|].
  etransitivity; [exact (exec_kind E L s1 (CRun f) HE I H1)|]. apply (rt_kind _ _ _ R).
Qed.
Lemma loop_kind show n : forall d c s, Inv L s -> kind (fst (ensemble_loop E f show n d c s)) = kind s.
Proof.
  induction n as [|n IH]; intros d c s H; [reflexivity|]. destruct (cycle_kind s H) as (s1 & E1 & H2 & K).
  cbn [ensemble_loop]. unfold mbind at 1. rewrite E1. unfold mbind at 1.
  destruct (run_once E f s1) as [s2 [[]|e]]; cbn [fst] in *; [|exact K]. unfold mbind at 1, get. unfold mbind at 1, lift.
  destruct (get_pc s2) as [pc|e]; [|exact K]. unfold mbind at 1. destruct (get_data_array s2) as [a|e]; [|exact K]. unfold mbind at 1.
  destruct (if show then match a with [] => Err IndexError | _ :: _ => Ok tt end else Ok tt) as [[]|e]; [|exact K].
  unfold mbind at 1. destruct (accumulate d a) as [d'|e]; [|exact K]. etransitivity; [now apply IH|exact K].
Qed.
Lemma shortest_kind n : forall c s, Inv L s -> kind (fst (shortest_loop E f n c s)) = kind s.
Proof.
  induction n as [|n IH]; intros c s H; [reflexivity|]. destruct (cycle_kind s H) as (s1 & E1 & H2 & K).
  cbn [shortest_loop]. unfold mbind at 1. rewrite E1. unfold mbind at 1.
  destruct (run_once E f s1) as [s2 [[]|e]]; cbn [fst] in *; [|exact K]. unfold mbind at 1, get. unfold mbind at 1, lift.
  destruct (get_pc s2) as [pc|e]; [|exact K]. etransitivity; [now apply IH|exact K].
Qed.
End Kinds.

Lemma seeded_ok E k L t0 seed E' s0 : env_ok E -> construct_seeded E (AClass k) L t0 seed = Ok (E', s0) ->
  env_ok E' /\ Inv L s0 /\ kind s0 = k.
Proof.
  intros HE H. unfold construct_seeded in H. cbn [construct] in H.
  destruct (new_perc E k L t0) as [s|] eqn:E0; cbn [rbind] in H; [|discriminate].
  destruct seed as [d|].
  - destruct (new_perc (mkEnv (e_ord E) d) k L 0) as [s1|] eqn:E1; cbn [rbind] in H; [|discriminate]. injection H as <- <-.
    split; [exact HE|]. split; [apply fresh_inv; eapply new_perc_fresh; eauto|eapply new_kind; eauto].
  - injection H as <- <-. split; [exact HE|]. split; [apply fresh_inv; eapply new_perc_fresh; eauto|eapply new_kind; eauto].
Qed.
Lemma v2_names E f t0 time k L n i seed files : env_ok E ->
  run_ensemble_entropy_order_threads_v2 E f t0 time (AClass k) L n i seed = Ok files ->
  map o_name files = [file_name (class_name k) "_entropy_order_L" L time (Some i); file_name (class_name k) "_critical_values_L" L time (Some i)].
Proof.
  intros HE H. unfold run_ensemble_entropy_order_threads_v2 in H.
  destruct (construct_seeded E (AClass k) L t0 seed) as [[E' s0]|] eqn:E0; cbn [rbind] in H; [|discriminate].
  destruct (seeded_ok E k L t0 seed E' s0 HE E0) as (HE' & H0 & K0).
  pose proof (loop_kind E' L f HE' false (Z.to_nat n) None [] s0 H0) as K.
  destruct (ensemble_loop E' f false (Z.to_nat n) None [] s0) as [s [[d c]|]]; cbn [rbind fst] in *; [|discriminate].
  destruct (average d n); cbn [rbind] in H; [|discriminate]. injection H as <-. cbn [map o_name write_entropy_order write_critical_values].
  rewrite (signature_kind s k) by congruence. reflexivity.
Qed.
Lemma threads_names E f t0 time k L n i files : env_ok E ->
  run_ensemble_entropy_order_threads E f t0 time (AClass k) L n i = Ok files ->
  map o_name files = [file_name (class_name k) "_entropy_order_L" L time (Some i)].
Proof.
  intros HE H. unfold run_ensemble_entropy_order_threads in H. cbn [construct] in H.
  destruct (new_perc E k L t0) as [s0|] eqn:E0; cbn [rbind] in H; [|discriminate].
  pose proof (loop_kind E L f HE false (Z.to_nat n) None [] s0 (fresh_inv _ _ (new_perc_fresh _ _ _ _ _ E0))) as K.
  destruct (ensemble_loop E f false (Z.to_nat n) None [] s0) as [s [[d c]|]]; cbn [rbind fst] in *; [|discriminate].
  destruct (average d n); cbn [rbind] in H; [|discriminate]. injection H as <-. cbn [map o_name write_threads].
  rewrite (signature_kind s k) by (rewrite K; eapply new_kind; eauto). reflexivity.
Qed.
Lemma serial_names E f t0 time k L n files : env_ok E ->
  run_ensemble_entropy_order E f t0 time (AClass k) L n = Ok files ->
  map o_name files = [file_name (class_name k) "_entropy_order_L" L time None; file_name (class_name k) "_critical_values_L" L time None].
Proof.
  intros HE H. unfold run_ensemble_entropy_order in H. cbn [construct] in H.
  destruct (new_perc E k L t0) as [s0|] eqn:E0; cbn [rbind] in H; [|discriminate].
  pose proof (loop_kind E L f HE true (Z.to_nat n) None [] s0 (fresh_inv _ _ (new_perc_fresh _ _ _ _ _ E0))) as K.
  destruct (ensemble_loop E f true (Z.to_nat n) None [] s0) as [s [[d c]|]]; cbn [rbind fst] in *; [|discriminate].
  destruct (average d n); cbn [rbind] in H; [|discriminate]. injection H as <-. cbn [map o_name write_entropy_order write_critical_values].
  rewrite (signature_kind s k) by (rewrite K; eapply new_kind; eauto). reflexivity.
Qed.
Lemma shortest_names E f t0 time k L n i seed files : env_ok E ->
  ensemble_shortest_path_v2_thread E f t0 time (AClass k) L n i seed = Ok files ->
  map o_name files = [file_name (class_name k) "_shortest_path_p_L" L time (Some i)].
Proof.
  intros HE H. unfold ensemble_shortest_path_v2_thread in H.
  destruct (construct_seeded E (AClass k) L t0 seed) as [[E' s0]|] eqn:E0; cbn [rbind] in H; [|discriminate].
  destruct (seeded_ok E k L t0 seed E' s0 HE E0) as (HE' & H0 & K0).
  destruct ((match k with KSP => true | _ => false end || (n <=? 0))%bool); [|discriminate].
  pose proof (shortest_kind E' L f HE' (Z.to_nat n) [] s0 H0) as K.
  destruct (shortest_loop E' f (Z.to_nat n) [] s0) as [s [c|]]; cbn [rbind fst] in *; [|discriminate].
  injection H as <-. cbn [map o_name write_p_p_star]. rewrite (signature_kind s k) by congruence. reflexivity.
Qed.

Lemma run_names E k L time w files d : env_ok E -> run_of E k L time w files -> In d files ->
  exists g, In g tags /\ o_name d = file_name (class_name k) g L time w.
Proof.
  intros HE H Hd. apply (in_map o_name) in Hd.
  destruct H as [(f & t0 & n & -> & H)|[(f & t0 & n & i & -> & H)|[(f & t0 & n & i & seed & -> & H)|(f & t0 & n & i & seed & -> & H)]]].
  - rewrite (serial_names _ _ _ _ _ _ _ _ HE H) in Hd. unfold tags. destruct Hd as [<-|[<-|[]]]; eexists; (split; [|reflexivity]); cbn; auto.
  - rewrite (threads_names _ _ _ _ _ _ _ _ _ HE H) in Hd. unfold tags. destruct Hd as [<-|[]]; eexists; (split; [|reflexivity]); cbn; auto.
  - rewrite (v2_names _ _ _ _ _ _ _ _ _ _ HE H) in Hd. unfold tags. destruct Hd as [<-|[<-|[]]]; eexists; (split; [|reflexivity]); cbn; auto.
  - rewrite (shortest_names _ _ _ _ _ _ _ _ _ _ HE H) in Hd. unfold tags. destruct Hd as [<-|[]]; eexists; (split; [|reflexivity]); cbn; auto.
Qed.
Lemma names_nodup E k L time w files : env_ok E -> run_of E k L time w files -> NoDup (map o_name files).
Proof.
  assert (N : forall w', file_name (class_name k) "_entropy_order_L" L time w' <> file_name (class_name k) "_critical_values_L" L time w').
  { intros w' Q. apply name_inj in Q; auto; try (cbn; auto). destruct Q as (_ & Q & _). discriminate. }
  intros HE [(f & t0 & n & -> & H)|[(f & t0 & n & i & -> & H)|[(f & t0 & n & i & seed & -> & H)|(f & t0 & n & i & seed & -> & H)]]].
  - rewrite (serial_names _ _ _ _ _ _ _ _ HE H). constructor; [|constructor; [intros []|constructor]]. intros [Q|[]]. symmetry in Q. now apply N in Q.
  - rewrite (threads_names _ _ _ _ _ _ _ _ _ HE H). constructor; [intros []|constructor].
  - rewrite (v2_names _ _ _ _ _ _ _ _ _ _ HE H). constructor; [|constructor; [intros []|constructor]]. intros [Q|[]]. symmetry in Q. now apply N in Q.
  - rewrite (shortest_names _ _ _ _ _ _ _ _ _ _ HE H). constructor; [intros []|constructor].
Qed.
Lemma p_C62 E E' k k' L L' time time' w w' files files' d d' : env_ok E -> env_ok E' ->
  run_of E k L time w files -> run_of E' k' L' time' w' files' -> String.length time = String.length time' ->
  In d files -> In d' files' -> o_name d = o_name d' -> k = k' /\ L = L' /\ time = time' /\ w = w'.
Proof.
  intros HE HE' H H' Hu Hd Hd' Q. destruct (run_names _ _ _ _ _ _ _ HE H Hd) as (g & Hg & Q1).
  destruct (run_names _ _ _ _ _ _ _ HE' H' Hd') as (g' & Hg' & Q2). rewrite Q1, Q2 in Q. apply name_inj in Q; auto. tauto.
Qed.
Lemma p_C62_files E k L time w files i j d d' : env_ok E -> run_of E k L time w files ->
  nth_error files i = Some d -> nth_error files j = Some d' -> o_name d = o_name d' -> i = j.
Proof.
  intros HE H Hi Hj Q. pose proof (names_nodup _ _ _ _ _ _ HE H) as N. rewrite NoDup_nth_error in N. apply N.
  - apply nth_error_Some. erewrite map_nth_error by eauto. discriminate.
  - erewrite !map_nth_error by eauto. congruence.
Qed.
Lemma zrange_at n i x : nth_error (zrange n) i = Some x -> x = Z.of_nat i.
Proof.
  intros H. unfold zrange in H. assert (Hi : (i < Z.to_nat n)%nat).
  { assert (Q : (i < length (map Z.of_nat (seq 0 (Z.to_nat n))))%nat) by (apply nth_error_Some; congruence).
    rewrite map_length, seq_length in Q. exact Q. }
  erewrite map_nth_error in H by (rewrite (nth_error_nth' _ 0%nat) by (rewrite seq_length; exact Hi); rewrite seq_nth by exact Hi; reflexivity).
  injection H as <-. reflexivity.
Qed.
Lemma map_nth_inv {A B} (g : A -> B) l i y : nth_error (map g l) i = Some y -> exists x, nth_error l i = Some x /\ g x = y.
Proof. revert i. induction l as [|a l IH]; intros [|i] H; cbn in *; try discriminate; [injection H as <-; eauto|auto]. Qed.
Lemma p_C62_pool W f L En th x results i j a b fs gs d e : (forall n, env_ok (m_env (W n))) ->
  (forall n m, String.length (m_time (W n)) = String.length (m_time (W m))) ->
  run_simulation_threads_v4 W f L En th x = Ok results \/ run_simulation_shortest_path_threads W f L En th = Ok results ->
  nth_error results i = Some (Ok fs) -> nth_error results j = Some (Ok gs) ->
  nth_error fs a = Some d -> nth_error gs b = Some e -> o_name d = o_name e -> i = j /\ a = b.
Proof.
  intros HW HT HR Hi Hj Hd He Q.
  assert (G : exists k, forall i fs, nth_error results i = Some (Ok fs) -> run_of (m_env (W (Z.of_nat i))) k L (m_time (W (Z.of_nat i))) (Some (Z.of_nat i)) fs).
  { unfold run_simulation_threads_v4, run_simulation_shortest_path_threads in HR. destruct (th =? 0); [destruct HR; discriminate|].
    destruct HR as [HR|HR]; injection HR as <-.
    - eexists. intros i' fs' H. apply map_nth_inv in H as (y & Hy & H). apply zrange_at in Hy. subst y. right. right. left. do 5 eexists. split; [reflexivity|exact H].
    - eexists. intros i' fs' H. apply map_nth_inv in H as (y & Hy & H). apply zrange_at in Hy. subst y. right. right. right. do 5 eexists. split; [reflexivity|exact H]. }
  destruct G as (k & G). pose proof (G _ _ Hi) as Gi. pose proof (G _ _ Hj) as Gj.
  destruct (p_C62 _ _ _ _ _ _ _ _ _ _ _ _ d e (HW _) (HW _) Gi Gj (HT _ _) (nth_error_In _ _ Hd) (nth_error_In _ _ He) Q) as (_ & _ & _ & Qw).
  assert (Eij : i = j) by (injection Qw as Qw; lia). split; auto. subst j. rewrite Hi in Hj. injection Hj as <-.
  eapply p_C62_files; eauto.
Qed.
Lemma p_C62_overwrite E E' f f' t0 t0' time k L n n' files files' : env_ok E -> env_ok E' ->
  run_ensemble_entropy_order E f t0 time (AClass k) L n = Ok files ->
  run_ensemble_entropy_order E' f' t0' time (AClass k) L n' = Ok files' -> map o_name files = map o_name files'.
Proof. intros HE HE' H H'. rewrite (serial_names _ _ _ _ _ _ _ _ HE H), (serial_names _ _ _ _ _ _ _ _ HE' H'). reflexivity. Qed.

(** ** Seeded runs *)
Lemma p_C64 E E' f t0 t0' time k L n i d : 0 < L -> e_ord E = e_ord E' ->
  run_ensemble_entropy_order_threads_v2 E f t0 time (AClass k) L n i (Some d) =
  run_ensemble_entropy_order_threads_v2 E' f t0' time (AClass k) L n i (Some d) /\
  ensemble_shortest_path_v2_thread E f t0 time (AClass k) L n i (Some d) =
  ensemble_shortest_path_v2_thread E' f t0' time (AClass k) L n i (Some d).
Proof.
  intros HL HO. unfold run_ensemble_entropy_order_threads_v2, ensemble_shortest_path_v2_thread, construct_seeded. cbn [construct].
  destruct (new_perc_ok E k L t0 HL) as (? & ? & ? & ? & -> & _). destruct (new_perc_ok E' k L t0' HL) as (? & ? & ? & ? & -> & _).
  cbn [rbind]. rewrite HO. split; reflexivity.
Qed.
