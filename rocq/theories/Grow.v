(** * Grow: shuffled custom lists, and custom lists extended while they are used (C85). *)
From Coq Require Import ZArith List Bool Lia Permutation.
From Verif Require Import Py Lattice Cluster Perc Spec PyFacts Torus Geometry LatFacts Inv Merge Count Fresh Select State Step History Reach GeomProps Micro StateProps StateProps2 Wrap Comm Seq RunBase RunProps RunProps2.
Import ListNotations.
Open Scope Z_scope.

Lemma follow_from E L s : env_ok E -> Inv L s -> RunB L s ->
  forall cs, Forall placing cs ->
    let t := after E s cs in
    let n := (Z.to_nat (cur_idx s) + placements cs)%nat in
    Inv L t /\ RunB L t /\ ids t = ids s /\ cur_idx t = Z.min (Z.of_nat n) (zlen (ids s)) /\
    (forall i, is_site L i -> (occupied t i <-> In i (firstn n (ids s)))) /\
    (forall x, nth_error (ids s) n = Some x ->
       snd (place_one_site E t) = Ok true /\ sel_id (fst (place_one_site E t)) = Some x /\
       forall i, is_site L i -> (occupied (fst (place_one_site E t)) i <-> i = x \/ occupied t i)) /\
    ((length (ids s) <= n)%nat -> snd (place_one_site E t) = Ok false).
Proof.
  intros HE H1 B1 cs Hc t n. destruct (runB_history E L cs HE Hc s H1 B1) as (H & B & Q & C). fold t in H, B, Q, C.
  pose proof (rb_cur _ _ B1) as Hcur.
  assert (Ei : ids t = ids s) by (now destruct (seqv_eqs _ _ Q) as (_ & -> & _)).
  assert (Cn : cur_idx t = Z.min (Z.of_nat n) (zlen (ids s))) by (unfold n; lia).
  assert (Hf : firstn (Z.to_nat (cur_idx t)) (ids s) = firstn n (ids s)).
  { rewrite Cn. unfold zlen. destruct (Nat.le_gt_cases (length (ids s)) n).
    - rewrite !firstn_all2 by lia. reflexivity.
    - f_equal. lia. }
  pose proof (i_static _ _ H) as St.
  assert (Ho : forall i, is_site L i -> (occupied t i <-> In i (firstn n (ids s)))).
  { intros i Hi. rewrite (occupied_occ L), (rb_occ _ _ B), Ei, Hf by auto. reflexivity. }
  repeat (split; [assumption|]). split.
  - intros x Hx. assert (Hlt : (n < length (ids s))%nat) by (apply nth_error_Some; congruence).
    destruct (runB_place E L t HE H B) as (t' & Ep & _ & H' & B' & Ec & Es & Q' & _); [rewrite Ei; unfold zlen in *; lia|].
    rewrite Ep. cbn [fst snd]. assert (Ex : at_ 0 (ids t) (cur_idx t) = x).
    { rewrite Ei, Cn. unfold at_, zlen. replace (0 <=? _) with true by lia. apply nth_error_nth.
      rewrite <- Hx. f_equal. lia. }
    split; auto. split; [congruence|]. intros i Hi.
    assert (Ei' : ids t' = ids s) by (destruct (seqv_eqs _ _ Q') as (_ & -> & _); auto).
    rewrite !(occupied_occ L), (rb_occ _ _ B'), (rb_occ _ _ B), Ei', Ei, Ec by (auto; now apply i_static).
    rewrite firstn_snoc by (unfold zlen in *; lia). rewrite in_app_iff, <- Ex, Ei. cbn [In]. intuition congruence.
  - intros Hge. rewrite (runB_end E L); auto. rewrite Ei, Cn. unfold zlen. lia.
Qed.

(** Replacing the list by one that agrees on what has been used. *)
Lemma regrow E L s l : Inv L s -> RunB L s -> l <> [] -> NoDup l -> Forall (is_site L) l -> cur_idx s <= zlen l ->
  firstn (Z.to_nat (cur_idx s)) l = firstn (Z.to_nat (cur_idx s)) (ids s) ->
  let s1 := installed l l true false s in
  set_custome_site_id_list E l false s = (s1, Ok tt) /\ Inv L s1 /\ RunB L s1 /\ ids s1 = l /\ cur_idx s1 = cur_idx s /\ lat s1 = lat s /\ phys s1 = phys s.
Proof.
  intros H B Hne N Hl Hc Hf s1. split.
  { rewrite (set_ids_ok E L) by apply (i_static _ _ H). rewrite all_siteb by auto. destruct l; [congruence|]. apply shuffle_none. }
  split; [now apply installed_inv|]. split; [|repeat split; reflexivity].
  destruct B as [B1 B2 B3 B4 B5]. constructor; auto.
  - cbn. lia.
  - intros i Hi. change (ids s1) with l. change (cur_idx s1) with (cur_idx s). change (lat s1) with (lat s). rewrite Hf. auto.
Qed.

Lemma set_list E L s l sh : FreshState L s -> is_L12 (kind s) = false -> l <> [] -> NoDup l -> Forall (is_site L) l ->
  exists s1, set_custome_site_id_list E l sh s = (s1, Ok tt) /\ Inv L s1 /\ RunB L s1 /\ cur_idx s1 = 0 /\ kind s1 = kind s /\ FreshState L s1 /\
    Permutation l (ids s1) /\ (sh = false -> ids s1 = l) /\ user_list s1 = ids s1.
Proof.
  intros F Hk Hne N Hl. rewrite (set_ids_ok E L) by apply (fr_static _ _ (fs_lat _ _ F)). rewrite all_siteb by auto.
  assert (Em : match l with [] => (s, Err ValueError) | _ => shuffle E (installed l l true sh s) end = shuffle E (installed l l true sh s)) by (destruct l; congruence).
  rewrite Em. clear Em. set (u := installed l l true sh s).
  assert (Fu : FreshState L u) by (destruct F; constructor; auto).
  destruct (shuffle_ok E L u) as [(Es & Hc)|(_ & l' & t & rv & Es & P & H1 & H2 & _)].
  { exact Hl. }
  { apply (i_rev _ _ (fresh_inv _ _ Fu)). }
  { apply (i_rev0 _ _ (fresh_inv _ _ Fu)). }
  - exists u. split; auto. split; [now apply fresh_inv|]. split; [now apply fresh_RunB|]. split; [apply (fs_cur _ _ Fu)|].
    split; [reflexivity|]. split; [assumption|]. split; [apply Permutation_refl|]. split; reflexivity.
  - eexists. split; [exact Es|]. 
    assert (F1 : FreshState L (set_rev rv (set_tick t (mutate_ids l' u)))).
    { destruct Fu. constructor; auto; [exact (Permutation_Forall P Hl)|]. intros Hk'. cbn. rewrite <- (perm_len _ _ P). reflexivity. }
    split; [now apply fresh_inv|]. split; [apply fresh_RunB; auto; exact (Permutation_NoDup P N)|]. split; [apply (fs_cur _ _ F1)|].
    split; [reflexivity|]. split; [assumption|]. split; [exact P|]. split; [|reflexivity].
    intros ->. assert (shuffle E u = (u, Ok tt)) by apply shuffle_none. rewrite H in Es. injection Es as Es. rewrite <- Es. reflexivity.
Qed.

Lemma p_C85 E k L s l sh m cs1 : env_ok E -> k <> KL1 -> k <> KL2 -> fresh_object E k L s -> l <> [] -> NoDup (l ++ m) -> Forall (is_site L) (l ++ m) ->
  Forall (fun c => c = CPlace \/ c = CDetect) cs1 ->
  let r := set_custome_site_id_list E l sh s in
  let s1 := fst r in
  let l' := get_site_id_sequence s1 in
  snd r = Ok tt /\ Permutation l l' /\ (sh = false -> l' = l) /\ user_list s1 = l' /\
  let t1 := after E s1 cs1 in
  let n1 := Nat.min (placements cs1) (length l) in
  (forall i, is_site L i -> (occupied t1 i <-> In i (firstn n1 l'))) /\
  let r2 := set_custome_site_id_list E (l' ++ m) false t1 in
  let s2 := fst r2 in
  snd r2 = Ok tt /\ (forall i, is_site L i -> (occupied s2 i <-> occupied t1 i)) /\
  forall cs2, Forall (fun c => c = CPlace \/ c = CDetect) cs2 ->
    let t := after E s2 cs2 in
    let n := (n1 + placements cs2)%nat in
    (forall i, is_site L i -> (occupied t i <-> In i (firstn n (l' ++ m)))) /\
    (forall x, nth_error (l' ++ m) n = Some x ->
       snd (place_one_site E t) = Ok true /\ sel_id (fst (place_one_site E t)) = Some x /\
       forall i, is_site L i -> (occupied (fst (place_one_site E t)) i <-> i = x \/ occupied t i)) /\
    ((length (l ++ m) <= n)%nat -> snd (place_one_site E t) = Ok false).
Proof.
  intros HE Hk1 Hk2 HF Hne N Hl Hc1 r s1 l'. destruct (fresh_object_state E k L s HE HF) as (F & Ek & _).
  assert (Hk : is_L12 (kind s) = false) by (rewrite Ek; destruct k; auto; congruence).
  assert (Nl : NoDup l) by (now apply nodup_app_l in N). assert (Vl : Forall (is_site L) l) by (now apply Forall_app in Hl).
  destruct (set_list E L s l sh F Hk Hne Nl Vl) as (u & Eu & Iu & Bu & Cu & Ku & Fu & P & Ps & Ul).
  assert (Er : r = (u, Ok tt)) by exact Eu. assert (E1 : s1 = u) by (unfold s1; now rewrite Er). rewrite Er. cbn [snd].
  assert (El : l' = ids u) by (unfold l'; now rewrite E1). rewrite E1, El in *. clear E1 El s1 l' Er r.
  split; [reflexivity|]. split; [exact P|]. split; [exact Ps|]. split; [exact Ul|].
  set (t1 := after E u cs1). set (n1 := Nat.min (placements cs1) (length l)). destruct (follow_from E L u HE Iu Bu cs1 Hc1) as (It & Bt & Et & Ct & Ot & _). fold t1 in It, Bt, Et, Ct, Ot.
  pose proof (perm_len _ _ P) as Pl. unfold zlen in Pl.
  assert (Hn1 : Z.to_nat (cur_idx t1) = n1) by (rewrite Ct, Cu; unfold n1, zlen; lia).
  split.
  { intros i Hi. rewrite (Ot i Hi), Cu. change (Z.to_nat 0) with O. cbn [Nat.add]. unfold n1.
    destruct (Nat.le_gt_cases (length l) (placements cs1)) as [Hle|Hgt].
    - rewrite Nat.min_r by auto. rewrite !firstn_all2 by lia. reflexivity.
    - rewrite Nat.min_l by lia. reflexivity. }
  set (r2 := set_custome_site_id_list E (ids u ++ m) false t1). set (s2 := fst r2). destruct (regrow E L t1 (ids u ++ m) It Bt) as (Es2 & Ia & Ba & Ei & Ec & Elat & _).
  { intros Q. apply app_eq_nil in Q as (Q & _). rewrite Q in P. apply Permutation_sym, Permutation_nil in P. congruence. }
  { eapply Permutation_NoDup; [apply Permutation_app_tail, P|exact N]. }
  { eapply Permutation_Forall; [apply Permutation_app_tail, P|exact Hl]. }
  { unfold zlen. rewrite app_length. lia. }
  { rewrite Hn1, Et, firstn_app. replace (n1 - length (ids u))%nat with O by (unfold n1; lia). cbn [firstn]. apply app_nil_r. }
  assert (Er2 : r2 = (installed (ids u ++ m) (ids u ++ m) true false t1, Ok tt)) by exact Es2.
  assert (E2 : s2 = installed (ids u ++ m) (ids u ++ m) true false t1) by (unfold s2; now rewrite Er2).
  rewrite Er2. split; [reflexivity|]. rewrite <- E2 in *. clearbody s2. clear Er2 r2 Es2.
  split.
  { intros i Hi. unfold occupied, site_label. now rewrite Elat. }
  intros cs2 Hc2. set (t := after E s2 cs2). set (n := (n1 + placements cs2)%nat). destruct (follow_from E L s2 HE Ia Ba cs2 Hc2) as (_ & _ & _ & _ & O2 & P2 & Q2).
  rewrite Ec, Hn1, Ei in O2, P2, Q2. fold t in O2, P2, Q2. fold n in O2, P2, Q2.
  split; [exact O2|]. split; [exact P2|]. intros Hge. apply Q2. rewrite app_length in *. lia.
Qed.
