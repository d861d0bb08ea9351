(** * Canon: after m placements every set of m sites is equally likely (C121). *)
From Coq Require Import ZArith List Bool Lia Permutation Factorial Sorted.
From Verif Require Import Critical StateProps Py Lattice Cluster Perc Spec PyFacts Torus Geometry LatFacts Inv Merge Count Fresh Select State Step History Reach Micro Seq RunBase RunProps RunProps2 StateProps2
  Cycle Sim Wrap Unbiased Grow SymSpec Describe Symmetry ChanceSpec Chance CanonSpec.
Import ListNotations.
Open Scope Z_scope.

(** ** Counting *)
Lemma how_bind {A B} (P : A -> Prop) (Q : A -> B -> Prop) a b : how_many P a -> (forall x, P x -> how_many (Q x) b) ->
  (forall x x' y, Q x y -> Q x' y -> P x -> P x' -> x = x') -> how_many (fun y => exists x, P x /\ Q x y) (a * b).
Proof.
  intros (l & N & I & ->) H D.
  assert (G : forall l', incl l' l -> NoDup l' -> how_many (fun y => exists x, In x l' /\ Q x y) (Z.of_nat (length l') * b)).
  { induction l' as [|x l' IH]; intros Hi Nd.
    - exists []. split; [constructor|]. split; [|reflexivity]. intros y. split; [intros []|intros (x & [] & _)].
    - inversion Nd as [|? ? Nx Nd']; subst. assert (Px : P x) by (apply I, Hi; now left).
      assert (Hi' : incl l' l) by (intros z Hz; apply Hi; now right).
      cbn [length]. replace (Z.of_nat (S (length l')) * b) with (b + Z.of_nat (length l') * b) by lia.
      eapply how_iff; [|apply (how_or _ _ _ _ (H x Px) (IH Hi' Nd'))].
      + intros y. cbn [In]. split; [intros [A1|(z & A1 & A2)]; eauto|intros (z & [<-|A1] & A2); eauto].
      + intros y A1 (z & A2 & A3). apply Nx. rewrite (D x z y); auto. apply I, Hi', A2. }
  eapply how_iff; [|apply (G l (incl_refl l) N)]. intros y. split; intros (x & A1 & A2); exists x; (split; auto); now apply I.
Qed.
Lemma how_image {A B} (dec : forall x y : B, {x = y} + {x <> y}) (P : A -> Prop) (Q : B -> Prop) (g : A -> B) n : how_many P n ->
  (forall a, P a -> Q (g a)) -> (forall b, Q b -> exists a, P a /\ b = g a) -> exists m, how_many Q m.
Proof.
  intros (l & N & I & _) H1 H2. exists (Z.of_nat (length (nodup dec (map g l)))), (nodup dec (map g l)). split; [apply NoDup_nodup|]. split; auto.
  intros b. rewrite nodup_In, in_map_iff. split; [intros (a & <- & Ha); apply H1, I, Ha|]. intros Hb. destruct (H2 b Hb) as (a & Ha & ->). exists a. split; auto. now apply I.
Qed.

(** ** Increasing lists *)
Lemma sorted_nodup S : StronglySorted Z.lt S -> NoDup S.
Proof.
  induction 1 as [|a S H IH F]; constructor; auto. intros Ha. rewrite Forall_forall in F. apply F in Ha. lia.
Qed.
Lemma sorted_eq S : StronglySorted Z.lt S -> forall S', StronglySorted Z.lt S' -> (forall i, In i S <-> In i S') -> S = S'.
Proof.
  induction 1 as [|a S H IH F]; intros [|b S'] H' E; auto.
  - exfalso. apply (proj2 (E b)). now left.
  - exfalso. apply (proj1 (E a)). now left.
  - inversion H' as [|? ? H2 F2]; subst. rewrite Forall_forall in F, F2.
    assert (a = b).
    { destruct (proj1 (E a) (or_introl eq_refl)) as [<-|A]; auto. destruct (proj2 (E b) (or_introl eq_refl)) as [->|B]; auto.
      apply F2 in A. apply F in B. lia. }
    subst b. f_equal. apply IH; auto. intros i. specialize (E i). cbn [In] in E. split; intros A.
    + destruct (proj1 E (or_intror A)) as [<-|]; auto. apply F in A. lia.
    + destruct (proj2 E (or_intror A)) as [<-|]; auto. apply F2 in A. lia.
Qed.
Lemma sorted_filter f S : StronglySorted Z.lt S -> StronglySorted Z.lt (filter f S).
Proof.
  induction 1 as [|a S H IH F]; [constructor|]. cbn [filter]. destruct (f a); auto. constructor; auto.
  rewrite Forall_forall in *. intros i Hi. apply filter_In in Hi as (Hi & _). now apply F.
Qed.
Lemma sorted_map_S l : StronglySorted Nat.lt l -> StronglySorted Z.lt (map Z.of_nat l).
Proof.
  induction 1 as [|a S H IH F]; [constructor|]. cbn [map]. constructor; auto. rewrite Forall_forall in *. intros i Hi. apply in_map_iff in Hi as (j & <- & Hj). apply F in Hj. unfold Nat.lt in *. lia.
Qed.
Lemma sorted_seq k : forall a, StronglySorted Nat.lt (seq a k).
Proof.
  induction k as [|k IH]; intros a; [constructor|]. cbn [seq]. constructor; auto. rewrite Forall_forall. intros i Hi. apply in_seq in Hi. unfold Nat.lt. lia.
Qed.
Lemma sorted_zrange n : StronglySorted Z.lt (zrange n).
Proof. unfold zrange. apply sorted_map_S, sorted_seq. Qed.
Definition memb (l : list Z) (i : Z) : bool := existsb (Z.eqb i) l.
Lemma memb_In l i : memb l i = true <-> In i l.
Proof.
  unfold memb. rewrite existsb_exists. split; [intros (j & H & E); apply Z.eqb_eq in E; now subst|intros H; exists i; split; auto; apply Z.eqb_refl].
Qed.

(** ** Subsets of an increasing list *)
Definition subset (B : list Z) (m : nat) (S : list Z) : Prop := StronglySorted Z.lt S /\ incl S B /\ length S = m.
Definition beginning (B : list Z) (m : nat) (l : list Z) : list Z := filter (memb (firstn m l)) B.
Lemma beginning_In B m l i : Permutation B l -> (In i (beginning B m l) <-> In i (firstn m l)).
Proof.
  intros P. unfold beginning. rewrite filter_In, memb_In. split; [tauto|]. intros H. split; auto. apply (Permutation_in i (Permutation_sym P)).
  rewrite <- (firstn_skipn m l). apply in_or_app. now left.
Qed.
Lemma firstn_nodup (m : nat) (l : list Z) : NoDup l -> NoDup (firstn m l).
Proof.
  revert l. induction m as [|m IH]; intros [|a l] N; cbn [firstn]; try constructor; inversion N; subst; auto.
  intros A. apply H1. rewrite <- (firstn_skipn m l). apply in_or_app. now left.
Qed.
Lemma beginning_perm B m l : StronglySorted Z.lt B -> Permutation B l -> Permutation (beginning B m l) (firstn m l).
Proof.
  intros HB P. apply NoDup_Permutation.
  - apply sorted_nodup, sorted_filter, HB.
  - apply firstn_nodup, (Permutation_NoDup P), sorted_nodup, HB.
  - intros i. now apply beginning_In.
Qed.
Lemma beginning_subset B m l : StronglySorted Z.lt B -> Permutation B l -> (m <= length B)%nat -> subset B m (beginning B m l).
Proof.
  intros HB P Hm. split; [apply sorted_filter, HB|]. split.
  - intros i Hi. unfold beginning in Hi. apply filter_In in Hi. tauto.
  - rewrite (Permutation_length (beginning_perm B m l HB P)), firstn_length_le; auto. now rewrite <- (Permutation_length P).
Qed.
Lemma subset_orders B m S : StronglySorted Z.lt B -> subset B m S ->
  how_many (fun l => Permutation B l /\ Permutation S (firstn m l)) (Z.of_nat (fact m) * Z.of_nat (fact (length B - m))).
Proof.
  intros HB (HS & Hi & Hl). pose proof (perms_count S (sorted_nodup S HS)) as C. rewrite Hl in C.
  eapply how_iff; [|apply (how_bind _ (fun p l => Permutation B l /\ firstn m l = p) _ (Z.of_nat (fact (length B - m))) C)].
  - intros l. cbn beta. split.
    + intros (p & P1 & P2 & <-). auto.
    + intros (P1 & P2). exists (firstn m l). auto.
  - intros p P1. assert (Lp : length p = m) by (rewrite <- (Permutation_length P1); exact Hl).
    pose proof (perms_prefix B p (sorted_nodup B HB)) as Q. rewrite Lp in Q. apply Q.
    + apply (Permutation_NoDup P1), sorted_nodup, HS.
    + intros i Hp. apply Hi. now apply (Permutation_in i (Permutation_sym P1)).
  - intros p p' l (_ & <-) (_ & <-) _ _. reflexivity.
Qed.
Lemma subsets_orders B m R w : StronglySorted Z.lt B -> (m <= length B)%nat -> how_many (fun S => subset B m S /\ R S) w ->
  how_many (fun l => Permutation B l /\ R (beginning B m l)) (w * (Z.of_nat (fact m) * Z.of_nat (fact (length B - m)))).
Proof.
  intros HB Hm H.
  eapply how_iff; [|apply (how_bind _ (fun S l => Permutation B l /\ Permutation S (firstn m l)) _ _ H)].
  - intros l. cbn beta. split.
    + intros (S & (HS & HR) & P & Q). split; auto. assert (S = beginning B m l) as <-; auto.
      apply sorted_eq; [apply HS|apply sorted_filter, HB|]. intros i. rewrite (beginning_In B m l i P). split; apply Permutation_in; [exact Q|now apply Permutation_sym].
    + intros (P & HR). exists (beginning B m l). split; [split; auto; now apply beginning_subset|]. split; auto. now apply beginning_perm.
  - intros S (HS & _). now apply subset_orders.
  - intros S S' l (_ & Q) (_ & Q') (HS & _) (HS' & _). apply sorted_eq; [apply HS|apply HS'|]. intros i. split; intros Hi.
    + apply (Permutation_in i (Permutation_sym Q')), (Permutation_in i Q), Hi.
    + apply (Permutation_in i (Permutation_sym Q)), (Permutation_in i Q'), Hi.
Qed.
Lemma subsets_count B m : StronglySorted Z.lt B -> (m <= length B)%nat ->
  exists c, how_many (subset B m) c /\ c * (Z.of_nat (fact m) * Z.of_nat (fact (length B - m))) = Z.of_nat (fact (length B)).
Proof.
  intros HB Hm. pose proof (perms_count B (sorted_nodup B HB)) as C.
  destruct (how_image (list_eq_dec Z.eq_dec) (Permutation B) (subset B m) (beginning B m) _ C) as (c & Hc).
  - intros l P. now apply beginning_subset.
  - intros S (HS & Hi & Hl). pose proof (perms_prefix B S (sorted_nodup B HB) (sorted_nodup S HS) Hi) as (ls & _ & I & E).
    destruct ls as [|l ls]; [pose proof (lt_O_fact (length B - length S)); cbn in E; lia|]. destruct (proj1 (I l) (or_introl eq_refl)) as (P & F). rewrite Hl in F.
    exists l. split; auto. apply sorted_eq; auto; [apply sorted_filter, HB|]. intros i. rewrite (beginning_In B m l i P). now rewrite F.
  - exists c. split; auto. assert (H : how_many (fun S => subset B m S /\ True) c) by (eapply how_iff; [|exact Hc]; intros; tauto).
    apply (subsets_orders B m (fun _ => True)) in H; auto. apply (how_fun _ _ _ H). eapply how_iff; [|exact C]. intros; tauto.
Qed.
(** The subsets that contain given elements. *)
Lemma subsets_with B m T : StronglySorted Z.lt B -> NoDup T -> incl T B -> (length T <= m <= length B)%nat ->
  exists w, how_many (fun S => subset B m S /\ incl T S) w /\
    w * (Z.of_nat (fact (m - length T)) * Z.of_nat (fact (length B - m))) = Z.of_nat (fact (length B - length T)).
Proof.
  intros HB NT HT Hm. set (B' := filter (fun i => negb (memb T i)) B).
  assert (IB : forall i, In i B' <-> In i B /\ ~ In i T).
  { intros i. unfold B'. rewrite filter_In. pose proof (memb_In T i) as Q. destruct (memb T i); cbn; split; intros (A1 & A2); split; auto; [discriminate|exfalso; apply A2; now apply Q|intros X; apply Q in X; discriminate]. }
  assert (Split : forall S, StronglySorted Z.lt S -> incl T S -> Permutation S (T ++ filter (fun i => negb (memb T i)) S)).
  { intros S HS Hin. apply NoDup_Permutation; [now apply sorted_nodup|..].
    - apply NoDup_app_disjoint; auto; [apply NoDup_filter; now apply sorted_nodup|]. intros i A1 A2. apply filter_In in A2 as (_ & A2). apply memb_In in A1. rewrite A1 in A2. discriminate.
    - intros i. rewrite in_app_iff, filter_In. split.
      + intros Hi. destruct (memb T i) eqn:Q; [left; now apply memb_In|right; auto].
      + intros [Hi|(Hi & _)]; auto. }
  assert (LB : length B' = (length B - length T)%nat) by (pose proof (Permutation_length (Split B HB HT)) as Q; rewrite app_length in Q; fold B' in Q; lia).
  assert (HB' : StronglySorted Z.lt B') by (now apply sorted_filter).
  destruct (subsets_count B' (m - length T) HB' ltac:(lia)) as (w & Hw & Ew). exists w. split.
  - apply (how_map (subset B' (m - length T)) _ (fun S => filter (memb (T ++ S)) B)); auto.
    + intros S (HS & Hi & Hl). assert (I : forall i, In i (filter (memb (T ++ S)) B) <-> In i T \/ In i S).
      { intros i. rewrite filter_In, memb_In, in_app_iff. split; [tauto|]. intros X. split; auto. destruct X as [X|X]; [now apply HT|apply IB, Hi, X]. }
      split; [split; [now apply sorted_filter|split]|].
      * intros i X. apply filter_In in X. tauto.
      * assert (P : Permutation (filter (memb (T ++ S)) B) (T ++ S)).
        { apply NoDup_Permutation; [apply sorted_nodup; now apply sorted_filter|..].
          - apply NoDup_app_disjoint; auto; [now apply sorted_nodup|]. intros i A1 A2. apply Hi, IB in A2. tauto.
          - intros i. now rewrite I, in_app_iff. }
        rewrite (Permutation_length P), app_length. lia.
      * intros i X. apply I. now left.
    + intros S ((HS & Hi & Hl) & Hin). exists (filter (fun i => negb (memb T i)) S). split.
      * split; [now apply sorted_filter|]. split.
        -- intros i X. apply filter_In in X as (X1 & X2). apply IB. split; auto. intros X3. apply memb_In in X3. rewrite X3 in X2. discriminate.
        -- pose proof (Permutation_length (Split S HS Hin)) as Q. rewrite app_length in Q. lia.
      * apply sorted_eq; auto; [now apply sorted_filter|]. intros i. rewrite filter_In, memb_In. pose proof (Split S HS Hin) as P.
        split; [intros X; split; [now apply Hi|now apply (Permutation_in i P)]|intros (_ & X); now apply (Permutation_in i (Permutation_sym P))].
    + intros S S' (HS & Hi & _) (HS' & Hi' & _) E. apply sorted_eq; auto. intros i.
      assert (Q : forall S, incl S B' -> (In i S <-> In i (filter (memb (T ++ S)) B) /\ ~ In i T)).
      { intros S0 H0. rewrite filter_In, memb_In, in_app_iff. split; [intros X; pose proof (proj1 (IB i) (H0 i X)); tauto|tauto]. }
      rewrite (Q S Hi), (Q S' Hi'), E. reflexivity.
  - rewrite <- LB, <- Ew. f_equal. f_equal. rewrite LB. f_equal. f_equal. lia.
Qed.

(** ** Through the constructor *)
Lemma share_ratio k L t Q a b a' b' : share k L t Q a b -> 0 < b -> a * b' = a' * b -> share k L t Q a' b'.
Proof.
  intros (all & good & A & B & C & D) Hb E. exists all, good. split; auto. split; auto. split; auto.
  apply (Z.mul_reg_l _ _ b); [lia|]. replace (b * (b' * good)) with (b' * (b * good)) by ring. rewrite D.
  replace (b * (a' * all)) with ((a' * b) * all) by ring. rewrite <- E. ring.
Qed.
Section Made.
Variables (k : pkind) (L : Z) (t : nat).
Hypothesis HL : 0 < L.
Hypothesis Hk : is_L12 k = false.
Let n := Z.to_nat (L * L).
Let ids0 := zrange (L * L).
Lemma site_subset m S : site_set L m S <-> subset ids0 m S.
Proof.
  unfold site_set, subset, incl, ids0. rewrite Forall_forall. split; intros (A & B & C); (split; [auto|]); (split; [|auto]); intros i Hi; [apply In_zrange|apply In_zrange]; now apply B.
Qed.
Lemma sets_count m : (m <= n)%nat -> exists c, 0 < c /\ how_many (site_set L m) c /\ c * (Z.of_nat (fact m) * Z.of_nat (fact (n - m))) = Z.of_nat (fact n).
Proof.
  intros Hm. pose proof (ids0_len L HL) as Hlen. fold ids0 in Hlen. fold n in Hlen.
  destruct (subsets_count ids0 m (sorted_zrange _) ltac:(lia)) as (c & Hc & E). rewrite Hlen in E. exists c.
  split; [pose proof (lt_O_fact n); pose proof (lt_O_fact m); pose proof (lt_O_fact (n - m)); nia|]. split; auto.
  eapply how_iff; [|exact Hc]. intros S. symmetry. apply site_subset.
Qed.
Lemma occupied_new E s m i : env_ok E -> new_perc E k L t = Ok s -> is_site L i -> (occupied (after E s (pairs m)) i <-> In i (firstn m (ids s))).
Proof.
  intros HE E1 Hi. destruct (new_runB k L t Hk E s HE E1) as (H & B & C & _). destruct (pairs_placing L m) as (Pl & Pn).
  destruct (follow_from E L s HE H B (pairs m) Pl) as (_ & _ & _ & _ & O & _). rewrite O by auto. rewrite C, Pn. reflexivity.
Qed.
Definition shows (E : env) (s : perc) (m : nat) (S : list Z) : Prop := forall i, is_site L i -> (occupied (after E s (pairs m)) i <-> In i S).
Lemma law Q R m c w : (m <= n)%nat ->
  (forall E s S, env_ok E -> new_perc E k L t = Ok s -> site_set L m S -> shows E s m S -> (Q E s <-> R S)) ->
  how_many (site_set L m) c -> how_many (fun S => site_set L m S /\ R S) w -> share k L t Q w c.
Proof.
  intros Hm QR Hc Hw. pose proof (ids0_len L HL) as Hlen. fold ids0 in Hlen. fold n in Hlen.
  destruct (sets_count m Hm) as (c' & _ & Hc' & Ec). assert (c' = c) by (exact (how_fun _ _ _ Hc' Hc)). subst c'.
  apply (transfer_share k L t HL Q (fun l => R (beginning ids0 m l)) (w * (Z.of_nat (fact m) * Z.of_nat (fact (n - m))))).
  - intros E s HE E1. destruct (new_runB k L t Hk E s HE E1) as (_ & _ & _ & P & _). apply QR; auto.
    + apply site_subset. apply beginning_subset; auto; [apply sorted_zrange|lia].
    + intros i Hi. rewrite (occupied_new E s m i HE E1 Hi). symmetry. now apply beginning_In.
  - rewrite <- Hlen. apply subsets_orders; [apply sorted_zrange|lia|]. eapply how_iff; [|exact Hw]. intros S. cbn beta. now rewrite site_subset.
  - fold n. rewrite <- Ec. ring.
Qed.
Lemma each_set m S c : site_set L m S -> how_many (site_set L m) c -> share k L t (fun E s => shows E s m S) 1 c.
Proof.
  intros HS Hc. assert (Hm : (m <= n)%nat).
  { apply site_subset in HS as (A & B & C). pose proof (ids0_len L HL) as Hlen. fold ids0 in Hlen. fold n in Hlen. rewrite <- Hlen, <- C. apply NoDup_incl_length; auto. now apply sorted_nodup. }
  apply (law _ (fun S' => S' = S) m); auto.
  - intros E s S' HE E1 HS' Sh. split; [|intros ->; exact Sh]. intros Sh2.
    destruct HS as (A & F & _). destruct HS' as (A' & F' & _). rewrite Forall_forall in F, F'. apply sorted_eq; auto.
    intros i. split; intros Hi; [apply Sh2|apply Sh]; auto; [apply Sh|apply Sh2]; auto.
  - exists [S]. split; [repeat constructor; intros []|]. split; [|reflexivity]. intros S'. cbn [In]. split; [intros [<-|[]]; auto|intros (_ & ->); auto].
Qed.
Lemma joint T m : NoDup T -> Forall (is_site L) T -> (length T <= m <= n)%nat ->
  share k L t (fun E s => forall i, In i T -> occupied (after E s (pairs m)) i)
    (Z.of_nat (fact m) * Z.of_nat (fact (n - length T))) (Z.of_nat (fact n) * Z.of_nat (fact (m - length T))).
Proof.
  intros NT FT Hm. pose proof (ids0_len L HL) as Hlen. fold ids0 in Hlen. fold n in Hlen. rewrite Forall_forall in FT.
  destruct (sets_count m ltac:(lia)) as (c & Hc0 & Hc & Ec).
  destruct (subsets_with ids0 m T (sorted_zrange _) NT) as (w & Hw & Ew); [intros i Hi; apply In_zrange; now apply FT|lia|]. rewrite Hlen in Ew.
  apply (share_ratio k L t _ w c).
  - apply (law _ (fun S => incl T S) m); auto; [lia| |].
    + intros E s S HE E1 HS Sh. split; intros H i Hi; [apply Sh; auto|apply Sh; auto].
    + eapply how_iff; [|exact Hw]. intros S. cbn beta. now rewrite site_subset.
  - exact Hc0.
  - rewrite <- Ec, <- Ew. ring.
Qed.
Lemma fact_pred j : (1 <= j)%nat -> Z.of_nat (fact j) = Z.of_nat j * Z.of_nat (fact (j - 1)).
Proof. intros H. destruct j as [|j]; [lia|]. replace (S j - 1)%nat with j by lia. change (fact (S j)) with (S j * fact j)%nat. lia. Qed.
Lemma pair_of x y m : is_site L x -> is_site L y -> x <> y -> (m <= n)%nat ->
  share k L t (fun E s => occupied (after E s (pairs m)) x /\ occupied (after E s (pairs m)) y)
    (Z.of_nat m * (Z.of_nat m - 1)) (L * L * (L * L - 1)).
Proof.
  intros Hx Hy Nxy Hm. pose proof (LL_pos L HL) as HLL. assert (En : Z.of_nat n = L * L) by (unfold n; lia).
  assert (N2 : (2 <= n)%nat) by (unfold is_site in *; lia).
  destruct (Nat.lt_ge_cases m 2) as [Hlt|Hge].
  - destruct (sets_count m Hm) as (c & Hc0 & Hc & _). apply (share_ratio k L t _ 0 c); auto.
    + apply (law _ (fun S => In x S /\ In y S) m); auto.
      * intros E s S HE E1 HS Sh. rewrite (Sh x Hx), (Sh y Hy). reflexivity.
      * exists []. split; [constructor|]. split; [|reflexivity]. intros S. cbn [In]. split; [intros []|]. intros ((_ & _ & Ls) & A & B).
        destruct S as [|a [|b S]]; cbn in *; try lia; try tauto.
    + destruct m as [|[|m]]; lia.
  - pose proof (joint [x; y] m) as J. cbn [length] in J. assert (J1 : NoDup [x; y]) by (constructor; [intros [X|[]]; now apply Nxy|constructor; [intros []|constructor]]).
    assert (J2 : Forall (is_site L) [x; y]) by (constructor; [exact Hx|constructor; [exact Hy|constructor]]).
    assert (J' := J J1 J2 ltac:(lia)). clear J.
    eapply share_ratio in J'; [| |].
    + destruct J' as (all & good & A & B & C & D). exists all, good. split; [exact A|]. split; [exact B|]. split; [|exact D].
      destruct C as (l & C1 & C2 & C3). exists l. split; auto. split; auto. intros v. rewrite C2. unfold constructed_with. split; intros (V1 & V2); (split; [exact V1|]); intros E s W1 W2 W3; specialize (V2 E s W1 W2 W3).
      * split; apply V2; cbn; auto.
      * destruct V2. intros i [<-|[<-|[]]]; auto.
    + pose proof (lt_O_fact n). pose proof (lt_O_fact (m - 2)). nia.
    + rewrite (fact_pred n), (fact_pred (n - 1)), (fact_pred m), (fact_pred (m - 1)) by lia.
      replace (n - 1 - 1)%nat with (n - 2)%nat by lia. replace (m - 1 - 1)%nat with (m - 2)%nat by lia.
      replace (Z.of_nat (n - 1)) with (L * L - 1) by lia. replace (Z.of_nat (m - 1)) with (Z.of_nat m - 1) by lia. rewrite En. ring.
Qed.
Lemma described_new E s m : env_ok E -> new_perc E k L t = Ok s -> (m <= n)%nat ->
  described L (firstn m (ids s)) (after E s (pairs m)) /\ (3 <= L -> loop_described L (firstn m (ids s)) (after E s (pairs m))).
Proof.
  intros HE E1 Hm. destruct (pairs_ok m) as (T & _ & W). assert (Ho : Forall (call_ok L) (pairs m)).
  { clear. induction m as [|m IH]; [constructor|]. repeat (constructor; [exact I|]). exact IH. }
  destruct (p_C93 E k L t s (pairs m) HE E1 Ho W) as (D1 & D2). destruct (order_new k L t HL Hk E s m HE E1 Hm) as (Eo & _). rewrite Eo in D1, D2.
  split; auto.
Qed.
Lemma shows_firstn E s m S : env_ok E -> new_perc E k L t = Ok s -> site_set L m S -> shows E s m S -> forall i, In i (firstn m (ids s)) <-> In i S.
Proof.
  intros HE E1 (_ & F & _) Sh i. rewrite Forall_forall in F. destruct (new_runB k L t Hk E s HE E1) as (_ & _ & _ & P & _).
  split; intros Hi.
  - assert (Si : is_site L i). { apply In_zrange, (Permutation_in i (Permutation_sym P)). rewrite <- (firstn_skipn m (ids s)). apply in_or_app. now left. }
    apply Sh; auto. now apply occupied_new.
  - rewrite <- (occupied_new E s m i HE E1) by auto. apply Sh; auto.
Qed.
(** Every set shows up, so what an object can tell about its sites is decidable. *)
Lemma shown m S : site_set L m S -> exists E s, env_ok E /\ new_perc E k L t = Ok s /\ shows E s m S.
Proof.
  intros HS. apply site_subset in HS as (A & B & C). pose proof (ids0_len L HL) as Hlen. fold ids0 in Hlen. fold n in Hlen. pose proof (n_pos L HL) as Hn. fold n in Hn.
  pose proof (perms_prefix ids0 S (NoDup_zrange _) (sorted_nodup S A) B) as (ls & _ & I & El).
  destruct ls as [|l ls]; [pose proof (lt_O_fact (length ids0 - length S)); cbn in El; lia|]. destruct (proj1 (I l) (or_introl eq_refl)) as (P & F). rewrite C in F.
  destruct (order_of_onto t ids0 l) as (c & Hc & Eo); auto; [apply NoDup_zrange|lia|].
  set (E := with_draws t c). destruct (new_perc_ok E k L t HL) as (lat1 & l1 & t' & rv & E1 & _).
  match type of E1 with _ = Ok ?X => set (s := X) in * end.
  exists E, s. split; [apply with_draws_ok|]. split; [exact E1|]. intros i Hi. rewrite (occupied_new E s m i (with_draws_ok t c) E1 Hi).
  rewrite (new_ids k L t E s E1). change (fst (random_shuffle E t (zrange (L * L)))) with (order_of t ids0 c). now rewrite Eo, F.
Qed.
Lemma law_dec Q R m c : (m <= n)%nat ->
  (forall E s S, env_ok E -> new_perc E k L t = Ok s -> site_set L m S -> shows E s m S -> (Q E s <-> R S)) ->
  (forall E s, Q E s \/ ~ Q E s) -> how_many (site_set L m) c ->
  exists w, how_many (fun S => site_set L m S /\ R S) w /\ share k L t Q w c.
Proof.
  intros Hm QR D Hc. destruct (how_sub (site_set L m) R c Hc) as (w & Hw).
  - intros S HS. destruct (shown m S HS) as (E & s & HE & E1 & Sh). rewrite <- (QR E s S HE E1 HS Sh). apply D.
  - exists w. split; auto. now apply (law Q R m).
Qed.
Lemma wrap_law m c : 3 <= L -> (m <= n)%nat -> how_many (site_set L m) c -> exists w, how_many (fun S => site_set L m S /\ wraps L (among S)) w /\
  share k L t (fun E s => after_wrap (after E s (pairs m)) = true) w c.
Proof.
  intros H3 Hm Hc. apply law_dec; auto; [|intros E s; destruct (after_wrap _); auto]. intros E s S HE E1 HS Sh.
  rewrite (wrap_prefix k L t HL Hk H3 E s m HE E1 Hm).
  pose proof (shows_firstn E s m S HE E1 HS Sh) as I. split; apply Critical.wraps_mono; intros i _; apply I.
Qed.
Lemma largest_law m v c : (1 <= m <= n)%nat -> how_many (site_set L m) c -> exists w, how_many (fun S => site_set L m S /\ largest_of L S v) w /\
  share k L t (fun E s => largest_cluster (after E s (pairs m)) = v) w c.
Proof.
  intros Hm Hc. apply law_dec; auto; [lia| |intros E s; destruct (Z.eq_dec (largest_cluster (after E s (pairs m))) v); auto]. intros E s S HE E1 HS Sh.
  destruct (described_new E s m HE E1 ltac:(lia)) as (D & _). pose proof (shows_firstn E s m S HE E1 HS Sh) as I.
  assert (Ne : firstn m (ids s) <> []).
  { intros X. destruct HS as (_ & _ & Ls). destruct S as [|a S]; [cbn in Ls; lia|]. pose proof (proj2 (I a) (or_introl eq_refl)) as Y. rewrite X in Y. destruct Y. }
  destruct (de_largest _ _ _ D Ne) as ((b & Hb & Cb) & Mx).
  assert (Same : forall b0 v0, counts (bonds_like L (firstn m (ids s)) b0) v0 <-> counts (bonds_like L S b0) v0).
  { intros b0 v0. assert (J : forall b', bonds_like L (firstn m (ids s)) b0 b' <-> bonds_like L S b0 b').
    { intros b'. unfold bonds_like, bonds_joined. assert (K : forall i j, connected L (among (firstn m (ids s))) i j <-> connected L (among S) i j) by (intros i j; apply connected_iff; intros x _; apply I).
      split; (intros (X1 & [->|(i & j & T1 & T2 & W)]); (split; [auto|]); [now left|right; exists i, j; split; auto; split; auto; now apply K]). }
    unfold counts. split; intros (l & N & Il & El); exists l; (split; [auto|]); (split; [|auto]); intros i; rewrite Il; [apply J|symmetry; apply J]. }
  split.
  - intros <-. split; [exists b; split; auto; now apply Same|]. intros b0 v0 H0 C0. apply (Mx b0); auto. now apply Same.
  - intros ((b1 & H1 & C1) & M1). apply Z.le_antisymm; [apply (M1 b); auto; now apply Same|apply (Mx b1); auto; now apply Same].
Qed.
End Made.

Lemma p_C121_sets k L t m : 0 < L -> k <> KL1 -> k <> KL2 -> let n := Z.to_nat (L * L) in (m <= n)%nat ->
  exists c, 0 < c /\ how_many (site_set L m) c /\ c * (Z.of_nat (fact m) * Z.of_nat (fact (n - m))) = Z.of_nat (fact n) /\
  forall S, site_set L m S ->
    share k L t (fun E s => forall i, is_site L i -> (occupied (after E s (pairs m)) i <-> In i S)) 1 c.
Proof.
  intros HL K1 K2 n Hm. destruct (sets_count L HL m Hm) as (c & A & B & C). exists c. split; auto. split; auto. split; auto.
  intros S HS. apply (each_set k L t HL (plain_kind k K1 K2) m S c HS B).
Qed.
Lemma p_C121_law k L t m Q R c w : 0 < L -> k <> KL1 -> k <> KL2 -> (m <= Z.to_nat (L * L))%nat ->
  (forall E s S, env_ok E -> new_perc E k L t = Ok s -> site_set L m S ->
     (forall i, is_site L i -> (occupied (after E s (pairs m)) i <-> In i S)) -> (Q E s <-> R S)) ->
  how_many (site_set L m) c -> how_many (fun S => site_set L m S /\ R S) w -> share k L t Q w c.
Proof. intros HL K1 K2. apply (law k L t HL (plain_kind k K1 K2)). Qed.
Lemma p_C121_joint k L t m : 0 < L -> k <> KL1 -> k <> KL2 -> let n := Z.to_nat (L * L) in (m <= n)%nat ->
  (forall T, NoDup T -> Forall (is_site L) T -> (length T <= m)%nat ->
     share k L t (fun E s => forall i, In i T -> occupied (after E s (pairs m)) i)
       (Z.of_nat (fact m) * Z.of_nat (fact (n - length T))) (Z.of_nat (fact n) * Z.of_nat (fact (m - length T)))) /\
  (forall x y, is_site L x -> is_site L y -> x <> y ->
     share k L t (fun E s => occupied (after E s (pairs m)) x /\ occupied (after E s (pairs m)) y)
       (Z.of_nat m * (Z.of_nat m - 1)) (L * L * (L * L - 1))).
Proof.
  intros HL K1 K2 n Hm. split.
  - intros T A B C. apply (joint k L t HL (plain_kind k K1 K2)); auto.
  - intros x y A B C. apply (pair_of k L t HL (plain_kind k K1 K2)); auto.
Qed.
Lemma p_C121_wrapping k L t m : 3 <= L -> k <> KL1 -> k <> KL2 -> (m <= Z.to_nat (L * L))%nat ->
  exists c w, 0 < c /\ how_many (site_set L m) c /\ how_many (fun S => site_set L m S /\ wraps L (among S)) w /\
  share k L t (fun E s => after_wrap (after E s (pairs m)) = true) w c.
Proof.
  intros H3 K1 K2 Hm. assert (HL : 0 < L) by lia. destruct (sets_count L HL m Hm) as (c & A & B & C).
  destruct (wrap_law k L t HL (plain_kind k K1 K2) m c H3 Hm B) as (w & D & E). exists c, w. auto.
Qed.
Lemma p_C121_largest k L t m v : 0 < L -> k <> KL1 -> k <> KL2 -> (1 <= m <= Z.to_nat (L * L))%nat ->
  exists c w, 0 < c /\ how_many (site_set L m) c /\ how_many (fun S => site_set L m S /\ largest_of L S v) w /\
  share k L t (fun E s => largest_cluster (after E s (pairs m)) = v) w c.
Proof.
  intros HL K1 K2 Hm. destruct (sets_count L HL m ltac:(lia)) as (c & A & B & C).
  destruct (largest_law k L t HL (plain_kind k K1 K2) m v c Hm B) as (w & D & E). exists c, w. auto.
Qed.
