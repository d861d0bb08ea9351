(** * Late: detection may be skipped while nothing wraps (C84). *)
From Coq Require Import ZArith List Bool Lia Permutation.
From Verif Require Import Py Lattice Cluster Perc Spec PyFacts Torus Geometry LatFacts Inv Merge Count Fresh Select State Step History Reach Micro StateProps StateProps2 Wrap.
Import ListNotations.
Open Scope Z_scope.

Definition NW (L : Z) (s : perc) : Prop := ~ wraps L (occ (lat s)) -> Flat L (lat s).

Lemma placed_nw E L s x s' root : ClOK L (lat s) (pool s) -> ClOK L (lat s') (pool s') -> 3 <= L -> is_site L x ->
  Placed E L s x s' root -> NW L s -> (forall i, is_site L i -> occ (lat s) i -> occ (lat s') i) -> NW L s'.
Proof.
  intros C C' H3 Hx Pd N M W. apply (no_hit_flat L (lat s') (pool s') x); auto.
  - apply (placed_flat E L s x s' root); auto. apply N. intros (i & Wi). apply W. exists i. revert Wi. now apply wraps_at_mono.
  - destruct (hitb L (lat s') x) eqn:Eh; auto. exfalso. apply W. exists x. now apply (hit_wraps L (lat s') (pool s') x).
Qed.
Lemma same_labels_nw L a b : (forall i, sg (lat b) i = sg (lat a) i /\ rl (lat b) i = rl (lat a) i) -> NW L a -> NW L b.
Proof.
  intros H N W. apply (flat_same L (lat a)); auto. apply N. intros (i & Wi). apply W. exists i. revert Wi. apply wraps_at_mono.
  intros j Hj. unfold occ. destruct (H j) as (-> & _). auto.
Qed.
Lemma micro_nw E L s s' : 3 <= L -> Inv L s -> Inv L s' -> micro E L s s' -> NW L s -> NW L s'.
Proof.
  intros H3 I I' M N. pose proof (i_cl _ _ I) as C. pose proof (i_cl _ _ I') as C'. destruct M as [s s' Hp|s s' r Sd _|s s1 x s' root Sd Es Ec Pd|s x Hx Es Ew Eh].
  - destruct (phys_fields _ _ Hp) as (_ & _ & El & _). unfold NW in *. now rewrite El.
  - apply (same_labels_nw L s); auto. apply (sd_lab _ _ _ _ Sd).
  - pose proof (sd_lab _ _ _ _ Sd) as (_ & _ & Hl).
    assert (C1 : ClOK L (lat s1) (pool s1)) by (eapply selected_ClOK; [exact C|exact Sd]).
    apply (placed_nw E L s1 x s' root); auto; [apply (pd_site _ _ _ _ _ _ Pd)|now apply (same_labels_nw L s)|].
    intros i Hi Ho. assert (K : Keeps L s s').
    { apply (keeps_steps E L); auto. apply steps_one; auto. eapply mi_place; eauto. }
    apply (kp_occ _ _ _ K); auto. unfold occ in *. now destruct (Hl i) as (<- & _).
  - exact N.
Qed.
Lemma reachable_nw E L s : env_ok E -> 3 <= L -> reachable E L s -> NW L s.
Proof.
  intros HE H3. revert s. apply (reach_ind E L (NW L)); auto.
  - intros s F _. now apply fresh_flat.
  - intros s s' I I' M N. apply (micro_nw E L s s'); auto.
Qed.

Lemma detect_exact L s x : 3 <= L -> Inv L s -> is_site L x -> sel_id s = Some x -> after_wrap s = false -> FlatX L (lat s) (Some x) ->
  snd (detect_wrapping s) = Ok (hitb L (lat s) x) /\ (hitb L (lat s) x = true <-> wraps L (occ (lat s))).
Proof.
  intros H3 I Hx Es Ew F. split.
  - rewrite (detect_ok L) by apply I. unfold detect_res. rewrite Ew, Es. destruct (hitb L (lat s) x); reflexivity.
  - split; intros H.
    + exists x. apply (hit_wraps L (lat s) (pool s)); auto. apply I.
    + destruct (hitb L (lat s) x) eqn:Eh; auto. exfalso. apply (flat_no_wrap L (lat s)); auto.
      apply (no_hit_flat L (lat s) (pool s) x); auto. apply I.
Qed.

Lemma p_C84 E L s s1 : env_ok E -> 3 <= L -> reachable E L s -> ~ wraps L (occupied s) ->
  place_one_site E s = (s1, Ok true) -> flag_is_success s1 = true ->
  let s2 := fst (detect_wrapping s1) in
  exists b, snd (detect_wrapping s1) = Ok b /\ (b = true <-> wraps L (occupied s1)) /\
    after_wrap s2 = b /\ (b = true -> get_pc s2 = occupation_prob s1).
Proof.
  intros HE H3 HR W Ep Ef s2. pose proof (reachable_inv _ _ _ HE HR) as I.
  assert (Wo : ~ wraps L (occ (lat s))) by (intros Q; apply W; now apply wraps_iff).
  pose proof (reachable_nw E L s HE H3 HR Wo) as Fl.
  assert (Ew : after_wrap s = false).
  { destruct (after_wrap s) eqn:Ew; auto. exfalso. destruct (wrap_sound L s I Ew) as (i & Hi & Ei & Wi). apply W. exists i. revert Wi.
    apply wraps_at_mono. intros j Hj Ej. pose proof (wrap_label L s I Ew) as Hl. unfold occupied. rewrite Ej. unfold is_label in Hl. lia. }
  pose proof (place_inv E L s HE I) as I1. destruct (place_spec E L s HE I) as (Sd & P).
  destruct (sel E L s) as [t r]. cbn [fst snd] in *. destruct r as [[]|e]; [|rewrite P in Ep; try discriminate; inversion Ep; subst; cbn in Ef; discriminate..].
  destruct P as (x & s' & root & E1 & E2 & Ep' & Pd). rewrite Ep' in *. injection Ep as ->. cbn [fst] in I1.
  destruct (core2_fields _ _ (pd_core _ _ _ _ _ _ Pd)) as (_ & _ & _ & _ & _ & _ & _ & Es & _ & _ & Ew' & _).
  destruct (core_fields _ _ (sd_core _ _ _ _ Sd)) as (_ & _ & _ & _ & _ & _ & _ & _ & _ & Ewt & _).
  destruct (sd_lab _ _ _ _ Sd) as (_ & _ & Hl).
  assert (Ew1 : after_wrap s1 = false) by congruence. assert (Es1 : sel_id s1 = Some x) by congruence.
  assert (Hx : is_site L x) by (apply (pd_site _ _ _ _ _ _ Pd)).
  destruct (detect_exact L s1 x H3 I1 Hx Es1 Ew1) as (D1 & D2).
  { apply (placed_flat E L t x s1 root); auto; [eapply selected_ClOK; [exact (i_cl _ _ I)|exact Sd]|]. now apply (flat_same L (lat s)). }
  exists (hitb L (lat s1) x). split; auto. split; [now rewrite (wraps_iff L s1 I1)|].
  unfold s2. rewrite (detect_ok L) by apply I1. unfold detect_res. rewrite Ew1, Es1.
  destruct (hitb L (lat s1) x); split; auto; discriminate.
Qed.
