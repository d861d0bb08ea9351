(** * Wrap: completeness of wrapping detection when every placement is followed by it. *)
From Coq Require Import ZArith List Bool Lia Permutation.
From Verif Require Import Py Lattice Cluster Perc Spec PyFacts Torus Geometry LatFacts Inv Merge Count Fresh Select State Step History Reach Micro StateProps StateProps2.
Import ListNotations.
Open Scope Z_scope.

(** Adjacent occupied sites differ by the lattice step, except next to [x]. *)
Definition FlatX (L : Z) (lat : lattice) (x : option Z) : Prop :=
  forall i d, is_site L i -> occ lat i -> occ lat (nbr L i d) -> x <> Some i -> x <> Some (nbr L i d) ->
  rl lat (nbr L i d) = vadd (rl lat i) (step d).
Definition Flat (L : Z) (lat : lattice) : Prop := FlatX L lat None.

Lemma flat_walk L lat ds : Flat L lat -> forall i j, walk L (occ lat) i ds j -> disp ds = vsub (rl lat j) (rl lat i).
Proof.
  intros F i j W. induction W as [i Hi Ho|i d ds j Hi Ho W IH].
  - unfold vsub. cbn [disp]. f_equal; lia.
  - cbn [disp]. rewrite IH. inversion W; subst; (rewrite (F i d Hi Ho) by (auto; discriminate));
      unfold vadd, vsub; cbn [fst snd]; f_equal; lia.
Qed.
Lemma flat_no_wrap L lat : Flat L lat -> ~ wraps L (occ lat).
Proof.
  intros F (i & ds & W & D). apply D. rewrite (flat_walk L lat ds F i i W). unfold vsub. f_equal; lia.
Qed.

Lemma small_congr L a b : 3 <= L -> -1 <= a <= 1 -> -1 <= b <= 1 -> a mod L = b mod L -> a = b.
Proof.
  intros H3 Ha Hb E. pose proof (Z.div_mod a L ltac:(lia)). pose proof (Z.div_mod b L ltac:(lia)).
  assert (a / L = b / L) by nia. nia.
Qed.
Lemma congr_sub L a b c : 0 < L -> (a + b) mod L = (a + c) mod L -> b mod L = c mod L.
Proof.
  intros HL H. replace b with ((a + b) - a) by lia. replace c with ((a + c) - a) by lia.
  rewrite Zminus_mod, H, <- Zminus_mod. reflexivity.
Qed.
Lemma no_hit_flat L lat p x : ClOK L lat p -> 3 <= L -> is_site L x -> FlatX L lat (Some x) ->
  hitb L lat x = false -> Flat L lat.
Proof.
  intros C H3 Hx F Hh. assert (HL : 0 < L) by lia.
  assert (N : forall d, occ lat x -> occ lat (nbr L x d) -> rl lat (nbr L x d) = vadd (rl lat x) (step d)).
  { intros d Ho Hon. assert (Hn : is_site L (nbr L x d)) by (now apply nbr_site).
    assert (Es : sg lat (nbr L x d) = sg lat x).
    { symmetry. apply (label_connected L lat p); auto. exists [d]. constructor; auto. constructor; auto. }
    assert (H1 : hit1 lat x (nbr L x d) = false).
    { destruct (hit1 lat x (nbr L x d)) eqn:E1; auto. exfalso.
      assert (hitb L lat x = true); [|congruence]. apply existsb_exists. exists (nbr L x d). split; auto.
      apply in_map. destruct d; simpl; auto. }
    unfold hit1 in H1. rewrite Es, Z.eqb_refl in H1. cbn [andb] in H1. apply orb_false_iff in H1 as (H1 & H2).
    apply Z.ltb_ge in H1, H2.
    destruct (ck_walk _ _ _ C x (nbr L x d) Hx Hn Ho (eq_sym Es)) as (ds & W & D).
    destruct (walk_congr L HL _ _ _ _ W) as (C1 & C2). rewrite row_nbr, Zmod_mod in C1 by auto.
    rewrite col_nbr, Zmod_mod in C2 by auto. rewrite D in C1, C2. unfold vsub in C1, C2. cbn [fst snd] in C1, C2.
    apply congr_sub in C1, C2; auto.
    apply small_congr in C1; [|lia|lia|destruct d; cbn; lia]. apply small_congr in C2; [|lia|lia|destruct d; cbn; lia].
    unfold vadd. rewrite <- C1, <- C2. rewrite (surjective_pairing (rl lat (nbr L x d))) at 1. f_equal; lia. }
  intros i d Hi Ho Hon _ _. destruct (Z.eq_dec i x) as [->|Hix]; auto.
  destruct (Z.eq_dec (nbr L i d) x) as [En|Hnx].
  - assert (Ei : nbr L x (opp d) = i) by (rewrite <- En; now apply nbr_opp).
    specialize (N (opp d)). rewrite Ei in N. rewrite En in Hon |- *. rewrite N by auto.
    unfold vadd. rewrite (surjective_pairing (rl lat x)) at 1. destruct d; cbn [opp step fst snd]; f_equal; lia.
  - apply F; auto; congruence.
Qed.

(** ** The invariant *)
Definition FlatI (L : Z) (s : perc) : Prop := Inv L s /\ (after_wrap s = false -> Flat L (lat s)).
Definition FlatP (L : Z) (s : perc) : Prop := Inv L s /\
  (after_wrap s = false -> Flat L (lat s) \/ exists x, is_site L x /\ sel_id s = Some x /\ FlatX L (lat s) (Some x)).
Lemma flatI_P L s : FlatI L s -> FlatP L s.
Proof. intros (H & F). split; auto. Qed.

Lemma flat_same L a b : (forall i, sg b i = sg a i /\ rl b i = rl a i) -> Flat L a -> Flat L b.
Proof.
  intros H F i d Hi Ho Hon Ha Hb. unfold occ in *. destruct (H i) as (E1 & E2), (H (nbr L i d)) as (E3 & E4).
  rewrite E1 in Ho. rewrite E3 in Hon. rewrite E2, E4. apply F; auto.
Qed.
Lemma fresh_flat L s : FreshState L s -> Flat L (lat s).
Proof.
  intros F i d Hi Ho. exfalso. destruct (fr_site _ _ (fs_lat _ _ F) i Hi) as (E1 & _). unfold occ in Ho. lia.
Qed.
Lemma phys_flat L a b : phys b = phys a -> Inv L b -> FlatI L a -> FlatI L b.
Proof.
  intros Hp Hb (_ & F). split; auto.
  destruct (phys_fields _ _ Hp) as (_ & _ & El & _ & _ & _ & _ & _ & _ & _ & _ & _ & Ew & _).
  rewrite El, Ew. exact F.
Qed.
Lemma selected_flat L s s1 r : Selected L s s1 r -> (after_wrap s = false -> Flat L (lat s)) ->
  after_wrap s1 = false -> Flat L (lat s1).
Proof.
  intros Sd F Hw. destruct (core_fields _ _ (sd_core _ _ _ _ Sd)) as (_ & _ & _ & _ & _ & _ & _ & _ & _ & Ew & _).
  destruct (sd_lab _ _ _ _ Sd) as (_ & _ & Hl). apply (flat_same L (lat s)); [exact Hl|]. apply F. congruence.
Qed.
Lemma placed_flat E L s x s' root : ClOK L (lat s) (pool s) -> Placed E L s x s' root -> Flat L (lat s) ->
  FlatX L (lat s') (Some x).
Proof.
  intros C Pd F i d Hi Ho Hon Hx Hnx. pose proof (st_pos _ _ (ck_static _ _ _ C)) as HL.
  assert (Hn : is_site L (nbr L i d)) by (now apply nbr_site).
  assert (Hix : i <> x) by congruence. assert (Hnx' : nbr L i d <> x) by congruence.
  assert (Old : forall j, is_site L j -> j <> x -> occ (lat s') j -> occ (lat s) j).
  { intros j Hj Hjx Hoj. unfold occ in *. rewrite (pd_sg _ _ _ _ _ _ Pd) in Hoj by auto.
    replace (j =? x) with false in Hoj by lia. cbn [orb] in Hoj.
    destruct (zmem (sg (lat s) j) _) eqn:Em; auto. apply zmem_In in Em. apply (K_label _ _ _ _ _ _ C Pd) in Em.
    unfold is_label in Em. lia. }
  assert (O1 := Old i Hi Hix Ho). assert (O2 := Old _ Hn Hnx' Hon).
  assert (Es : sg (lat s) i = sg (lat s) (nbr L i d)).
  { apply (label_connected L (lat s) (pool s)); auto. exists [d]. constructor; auto. constructor; auto. }
  pose proof (pd_shift _ _ _ _ _ _ Pd i (nbr L i d) Hi Hn Hix Hnx' O1 Es) as Sh.
  rewrite (F i d Hi O1 O2) in Sh by discriminate. unfold vsub, vadd in *. cbn [fst snd] in Sh.
  injection Sh as S1 S2. rewrite (surjective_pairing (rl (lat s') (nbr L i d))). f_equal; lia.
Qed.

Lemma place_flat E L s : env_ok E -> FlatI L s ->
  match place_one_site E s with
  | (s', Ok true) => if flag_is_success s' then FlatP L s' else FlatI L s'
  | (s', _) => FlatI L s'
  end.
Proof.
  intros HE (H & F). pose proof (place_inv E L s HE H) as H'. destruct (place_spec E L s HE H) as (Sd & P).
  destruct (sel E L s) as [s1 r]. cbn [fst snd] in Sd.
  pose proof (selected_flat L s s1 r Sd F) as F1. destruct r as [[]|e].
  - destruct P as (x & s' & root & E1 & E2 & Ep & Pd). rewrite Ep in *. cbn [fst] in H'.
    unfold flag_is_success. rewrite (pd_flag _ _ _ _ _ _ Pd). split; auto. intros Hw. right. exists x.
    destruct (core2_fields _ _ (pd_core _ _ _ _ _ _ Pd)) as (_ & _ & _ & _ & _ & _ & _ & Es & _ & _ & Ew & _).
    split; [apply (pd_site _ _ _ _ _ _ Pd)|]. split; [congruence|].
    apply (placed_flat E L s1 x s' root); auto.
    + eapply selected_ClOK; [exact (i_cl _ _ H)|exact Sd].
    + apply F1. congruence.
  - rewrite P in *. cbn [fst] in H'. cbn [flag_is_success sel_flag set_sel_flag]. split; auto.
  - rewrite P in *. cbn [fst] in H'. split; auto.
  - rewrite P in *. cbn [fst] in H'. split; auto.
Qed.
Lemma place_flatP E L s : env_ok E -> FlatI L s -> FlatP L (fst (place_one_site E s)).
Proof.
  intros HE H. pose proof (place_flat E L s HE H) as P. destruct (place_one_site E s) as [s' [[]|e]]; cbn [fst].
  - destruct (flag_is_success s'); auto. now apply flatI_P.
  - now apply flatI_P.
  - now apply flatI_P.
Qed.
Lemma detect_flat L s : 3 <= L -> FlatP L s -> FlatI L (fst (detect_wrapping s)).
Proof.
  intros H3 (H & F). pose proof (detect_inv L s H) as H'. split; auto.
  rewrite (detect_ok L) in * by apply H. unfold detect_res in *.
  destruct (after_wrap s) eqn:Ew; [cbn [fst]; congruence|]. intros Hw.
  destruct (F eq_refl) as [F1|(x & Hx & Es & F1)].
  - destruct (sel_id s) as [x|]; auto. destruct (hitb L (lat s) x); auto.
  - rewrite Es in *. destruct (hitb L (lat s) x) eqn:Eh; [discriminate Hw|]. cbn [fst] in *.
    apply (no_hit_flat L (lat s) (pool s) x); auto. apply (i_cl _ _ H).
Qed.

Lemma exec_flat E L s c : env_ok E -> 3 <= L -> call_ok L c -> c <> CPlace -> FlatI L s -> FlatI L (exec E s c).
Proof.
  intros HE H3 Hc Hn F. pose proof (exec_inv E L s c HE Hc (proj1 F)) as H'. destruct c; cbn [exec] in *.
  - congruence.
  - apply detect_flat; auto. now apply flatI_P.
  - split; auto. intros _. destruct (reset_inv E L s (proj1 F)) as (s' & -> & R). apply fresh_flat, R.
  - eapply phys_flat; [apply set_ids_phys|exact H'|exact F].
  - eapply phys_flat; [apply set_indices_phys|exact H'|exact F].
  - eapply phys_flat; [apply swap_phys|exact H'|exact F].
  - apply (run_once_pres E (FlatI L) (FlatP L)); auto.
    + intros a Ha. now apply place_flat.
    + intros a Ha. now apply detect_flat.
    + intros a p h pw pl Ha. eapply phys_flat; [|eapply inv_frame; [|exact (proj1 Ha)]|exact Ha]; reflexivity.
    + intros a b Ha. eapply phys_flat; [|eapply inv_frame; [|exact (proj1 Ha)]|exact Ha]; reflexivity.
    + intros a b Ha. eapply phys_flat; [|eapply inv_frame; [|exact (proj1 Ha)]|exact Ha]; reflexivity.
  - apply (test_run_once_pres E (FlatI L) (FlatP L)); auto.
    + intros a Ha. now apply place_flat.
    + intros a Ha. now apply detect_flat.
    + intros a p h pw pl Ha. eapply phys_flat; [|eapply inv_frame; [|exact (proj1 Ha)]|exact Ha]; reflexivity.
    + intros a b Ha. eapply phys_flat; [|eapply inv_frame; [|exact (proj1 Ha)]|exact Ha]; reflexivity.
Qed.
Lemma tracked_flat E L cs : env_ok E -> 3 <= L -> tracked cs -> forall s, Forall (call_ok L) cs -> FlatI L s ->
  FlatI L (after E s cs).
Proof.
  intros HE H3 T. induction T as [|cs T IH|c cs Hc T IH]; intros s Ho F; auto.
  - inversion Ho as [|? ? _ Ho']; subst. inversion Ho' as [|? ? _ Ho'']; subst. cbn [after fold_left]. apply IH; auto.
    cbn [exec]. apply detect_flat; auto. now apply place_flatP.
  - inversion Ho; subst. cbn [after fold_left]. apply IH; auto. now apply exec_flat.
Qed.
Lemma reachable_tracked_flat E L s : env_ok E -> 3 <= L -> reachable_tracked E L s -> FlatI L s.
Proof.
  intros HE H3 (k & t0 & s0 & cs & E0 & Ho & T & ->). apply tracked_flat; auto.
  assert (F0 : FreshState L s0) by (eapply new_perc_fresh; eauto). split; [now apply fresh_inv|].
  intros _. now apply fresh_flat.
Qed.

Lemma wraps_iff L s : Inv L s -> (wraps L (occupied s) <-> wraps L (occ (lat s))).
Proof.
  intros H. pose proof (i_static _ _ H) as St. split; intros (i & W); exists i; revert W; apply wraps_at_mono;
  intros j Hj; now rewrite (occupied_occ L).
Qed.

Lemma p_C23 E L s : env_ok E -> 3 <= L -> reachable_tracked E L s ->
  (after_wrap s = true <-> wraps L (occupied s)).
Proof.
  intros HE H3 HR. destruct (reachable_tracked_flat E L s HE H3 HR) as (H & F). split.
  - intros Hw. destruct (wrap_sound L s H Hw) as (i & Hi & Ei & Wi). exists i. revert Wi. apply wraps_at_mono.
    intros j Hj Ej. pose proof (wrap_label L s H Hw) as Hl. unfold occupied. rewrite Ej. unfold is_label in Hl. lia.
  - intros W. destruct (after_wrap s); auto. exfalso. apply (flat_no_wrap L (lat s)); auto. now apply wraps_iff.
Qed.
Lemma p_C28b E L s : env_ok E -> 3 <= L -> reachable_tracked E L s -> after_wrap s = false ->
  forall i d, is_site L i -> occupied s i -> occupied s (nbr L i d) ->
  rel_index s (nbr L i d) = vadd (rel_index s i) (step d).
Proof.
  intros HE H3 HR Hw i d Hi Ho Hon. destruct (reachable_tracked_flat E L s HE H3 HR) as (H & F).
  pose proof (i_static _ _ H) as St. assert (Hn : is_site L (nbr L i d)) by (apply nbr_site, (i_pos _ _ H)).
  rewrite (occupied_occ L) in Ho, Hon by auto. rewrite !(rel_index_rl L) by auto. apply (F Hw); auto; discriminate.
Qed.
