(** * Chance: shares of the random choices (C96, C97). *)
From Coq Require Import ZArith List Bool Lia Permutation Factorial.
From Verif Require Import Py Lattice Cluster Perc Spec PyFacts Torus Geometry LatFacts Inv Merge Count Fresh Select State Step History Reach Micro Seq RunBase RunProps RunProps2 StateProps2
  Cycle Sim Wrap Unbiased Grow SymSpec Describe Symmetry ChanceSpec.
Import ListNotations.
Open Scope Z_scope.

(** ** Counting *)
Lemma how_iff {A} (P Q : A -> Prop) n : (forall x, P x <-> Q x) -> how_many P n -> how_many Q n.
Proof. intros H (l & N & I & E). exists l. split; auto. split; auto. intros x. now rewrite I. Qed.
Lemma how_fun {A} (P : A -> Prop) n m : how_many P n -> how_many P m -> n = m.
Proof.
  intros (l & N & I & ->) (l' & N' & I' & ->). f_equal. apply Nat.le_antisymm; apply NoDup_incl_length; auto; intros x Hx; [apply I', I|apply I, I']; auto.
Qed.
Lemma how_or {A} (P Q : A -> Prop) n m : how_many P n -> how_many Q m -> (forall x, P x -> Q x -> False) -> how_many (fun x => P x \/ Q x) (n + m).
Proof.
  intros (l & N & I & ->) (l' & N' & I' & ->) D. exists (l ++ l'). split; [|split].
  - apply NoDup_app_disjoint; auto. intros x Hx Hx'. apply (D x); [now apply I|now apply I'].
  - intros x. now rewrite in_app_iff, I, I'.
  - rewrite app_length. lia.
Qed.
Lemma how_map {A B} (P : A -> Prop) (Q : B -> Prop) (g : A -> B) n : (forall a, P a -> Q (g a)) -> (forall b, Q b -> exists a, P a /\ b = g a) ->
  (forall a a', P a -> P a' -> g a = g a' -> a = a') -> how_many P n -> how_many Q n.
Proof.
  intros H1 H2 H3 (l & N & I & ->). exists (map g l). split; [|split; [|now rewrite map_length]].
  - assert (forall a, In a l -> P a) as F by (intros a; apply I). clear I. induction N as [|a l Na N IH]; [constructor|]. cbn [map]. constructor.
    + rewrite in_map_iff. intros (a' & E & Ha'). apply Na. rewrite <- (H3 a' a); auto; apply F; [now right|now left].
    + apply IH. intros x Hx. apply F. now right.
  - intros b. rewrite in_map_iff. split; [intros (a & <- & Ha); apply H1, I, Ha|]. intros Hb. destruct (H2 b Hb) as (a & Ha & ->). exists a. split; auto. now apply I.
Qed.
Lemma how_sub {A} (P Q : A -> Prop) n : how_many P n -> (forall x, P x -> Q x \/ ~ Q x) -> exists m, how_many (fun x => P x /\ Q x) m.
Proof.
  intros (l & N & I & _) D. assert (F : forall x, In x l -> Q x \/ ~ Q x) by (intros x Hx; apply D, I, Hx).
  assert (G : exists l', NoDup l' /\ forall x, In x l' <-> In x l /\ Q x).
  { clear I D. induction N as [|a l Na N IH]; [exists []; split; [constructor|intros x; cbn; tauto]|].
    destruct IH as (l' & N' & I'); [intros x Hx; apply F; now right|].
    destruct (F a (or_introl eq_refl)) as [Ha|Ha].
    - exists (a :: l'). split; [constructor; auto; rewrite I'; tauto|]. intros x. cbn [In]. rewrite I'. split; [intros [<-|(B & C)]; auto|intros ([<-|B] & C); auto].
    - exists l'. split; auto. intros x. cbn [In]. rewrite I'. split; [intros (B & C); auto|intros ([<-|B] & C); [contradiction|auto]]. }
  destruct G as (l' & N' & I'). exists (Z.of_nat (length l')), l'. split; auto. split; auto. intros x. now rewrite I', I.
Qed.
(** Equal shares of a quantity that takes exactly one of [K] values. *)
Lemma how_split {A} (P : A -> Prop) (R : A -> Z -> Prop) (K : list Z) n : NoDup K -> (forall x i, P x -> In i K -> R x i \/ ~ R x i) ->
  (forall x i j, R x i -> R x j -> i = j) -> (forall i j a b, In i K -> In j K -> how_many (fun x => P x /\ R x i) a -> how_many (fun x => P x /\ R x j) b -> a <= b) ->
  how_many (fun x => P x /\ exists i, In i K /\ R x i) n -> (exists m, how_many P m) ->
  forall i, In i K -> exists good, how_many (fun x => P x /\ R x i) good /\ zlen K * good = n.
Proof.
  intros NK D F Le Hn (tot & Ht) i Hi. destruct (how_sub P (fun x => R x i) tot Ht) as (good & Hg); [intros; now apply D|]. exists good. split; auto.
  assert (G : forall K', incl K' K -> NoDup K' -> how_many (fun x => P x /\ exists j, In j K' /\ R x j) (zlen K' * good)).
  { induction K' as [|j K' IH]; intros Hin Nd.
    - exists []. split; [constructor|]. split; [|reflexivity]. intros x. cbn [In]. split; [intros []|]. intros (_ & j & [] & _).
    - inversion Nd as [|? ? Nj Nd']; subst. assert (Hj : In j K) by (apply Hin; now left).
      destruct (how_sub P (fun x => R x j) tot Ht) as (gj & Hgj); [intros; now apply D|].
      assert (gj = good). { pose proof (Le i j good gj Hi Hj Hg Hgj). pose proof (Le j i gj good Hj Hi Hgj Hg). lia. } subst gj.
      assert (I' : incl K' K) by (intros x Hx; apply Hin; now right).
      pose proof (how_or _ _ _ _ Hgj (IH I' Nd')) as U. rewrite zlen_cons. replace ((zlen K' + 1) * good) with (good + zlen K' * good) by lia.
      eapply how_iff; [|apply U].
      + intros x. cbn [In]. split.
        * intros [(Px & Rx)|(Px & i0 & H0 & Rx)]; (split; [auto|]); eauto.
        * intros (Px & i0 & [<-|H0] & Rx); [left; auto|right; split; eauto].
      + intros x (_ & Rx) (_ & i0 & H0 & Rx'). apply Nj. now rewrite (F x j i0 Rx Rx'). }
  apply (how_fun _ _ _ (G K (incl_refl K) NK) Hn).
Qed.

(** ** All choices, all orders *)
Fixpoint vectors (k : nat) : list (list Z) :=
  match k with O => [[]] | S k => flat_map (fun a => map (cons a) (vectors k)) (zrange (Z.of_nat (S (S k)))) end.
Lemma vectors_in k : forall c, In c (vectors k) <-> in_range k c.
Proof.
  induction k as [|k IH]; intros c.
  - cbn [vectors In]. unfold in_range. split; [intros [<-|[]]; split; [reflexivity|lia]|]. intros (Hl & _). destruct c; [now left|discriminate].
  - cbn [vectors]. rewrite in_flat_map. split.
    + intros (a & Ha & Hc). apply In_zrange in Ha. apply in_map_iff in Hc as (c' & <- & Hc). apply IH in Hc as (H1 & H2). split; [cbn; lia|].
      intros [|m] Hm; cbn [nth]; [lia|]. specialize (H2 m ltac:(lia)). lia.
    + intros (H1 & H2). destruct c as [|a c]; [discriminate|]. exists a. split.
      * apply In_zrange. specialize (H2 O ltac:(lia)). cbn [nth] in H2. lia.
      * apply in_map, IH. split; [cbn in H1; lia|]. intros m Hm. specialize (H2 (S m) ltac:(lia)). cbn [nth] in H2. lia.
Qed.
Lemma vectors_nodup k : NoDup (vectors k).
Proof.
  induction k as [|k IH]; [repeat constructor; intros []|]. cbn [vectors]. generalize (NoDup_zrange (Z.of_nat (S (S k)))). generalize (zrange (Z.of_nat (S (S k)))) as K.
  induction K as [|a K IK]; intros Nd; [constructor|]. inversion Nd as [|? ? Na Nd']; subst. cbn [flat_map]. apply NoDup_app_disjoint.
  - clear - IH. induction IH as [|c l Nc N I]; [constructor|]. cbn [map]. constructor; auto. rewrite in_map_iff. intros (c' & E & Hc'). injection E as ->. auto.
  - now apply IK.
  - intros x Hx Hx'. apply in_map_iff in Hx as (c & <- & _). apply in_flat_map in Hx' as (a' & Ha' & Hc). apply in_map_iff in Hc as (c' & E & _). injection E as -> _. auto.
Qed.
Lemma vectors_length k : length (vectors k) = fact (S k).
Proof.
  induction k as [|k IH]; [reflexivity|]. cbn [vectors].
  assert (G : forall K : list Z, length (flat_map (fun a => map (cons a) (vectors k)) K) = (length K * length (vectors k))%nat).
  { induction K as [|a K IK]; [reflexivity|]. cbn [flat_map]. rewrite app_length, map_length, IK. reflexivity. }
  rewrite G, IH. pose proof (zlen_zrange (Z.of_nat (S (S k))) ltac:(lia)) as Q. unfold zlen in Q. replace (length (zrange (Z.of_nat (S (S k))))) with (S (S k)) by lia. reflexivity.
Qed.
Lemma choices_range n c : (1 <= n)%nat -> (random_choices n c <-> in_range (n - 1) c).
Proof.
  intros Hn. unfold random_choices, in_range. replace (S (n - 1)) with n by lia. reflexivity.
Qed.
Lemma choices_count n : (1 <= n)%nat -> how_many (random_choices n) (Z.of_nat (fact n)).
Proof.
  intros Hn. exists (vectors (n - 1)). split; [apply vectors_nodup|]. split.
  - intros c. now rewrite vectors_in, choices_range.
  - rewrite vectors_length. do 2 f_equal. lia.
Qed.
(** The order a vector of choices produces. *)
Definition order_of (t : nat) (l c : list Z) : list Z := fst (random_shuffle (with_draws t c) t l).
Lemma choices_with t n c : (1 <= n)%nat -> random_choices n c -> choices (with_draws t c) t n = c.
Proof. intros Hn Hc. rewrite choices_draws by auto. apply draws_with. now apply choices_range. Qed.
Lemma order_of_env E t l c : NoDup l -> (1 <= length l)%nat -> random_choices (length l) c -> choices E t (length l) = c -> fst (random_shuffle E t l) = order_of t l c.
Proof.
  intros Nd Hl Hc HE. destruct (random_shuffle_fair l t Nd) as (F & _). apply F. now rewrite choices_with.
Qed.
Lemma choices_valid E t n : (1 <= n)%nat -> random_choices n (choices E t n).
Proof.
  intros Hn. unfold random_choices, choices. rewrite map_length, seq_length. split; auto. intros m Hm.
  rewrite (nth_indep _ 0 ((fun m => e_draw E (t + m) mod Z.of_nat (n - m)) 0%nat)) by (rewrite map_length, seq_length; auto).
  rewrite (map_nth (fun m => e_draw E (t + m) mod Z.of_nat (n - m))), seq_nth by auto. apply Z.mod_pos_bound. lia.
Qed.
Lemma order_of_perm t l c : Permutation l (order_of t l c).
Proof. unfold order_of, random_shuffle. apply shuffle_from_perm. Qed.
Lemma order_of_inj t l c c' : NoDup l -> (1 <= length l)%nat -> random_choices (length l) c -> random_choices (length l) c' ->
  order_of t l c = order_of t l c' -> c = c'.
Proof.
  intros Nd Hl Hc Hc' E. destruct (random_shuffle_fair l t Nd) as (F & _). apply F in E. now rewrite !choices_with in E.
Qed.
Lemma order_of_onto t l l' : NoDup l -> (1 <= length l)%nat -> Permutation l l' -> exists c, random_choices (length l) c /\ order_of t l c = l'.
Proof.
  intros Nd Hl P. destruct (random_shuffle_fair l t Nd) as (_ & F). destruct (F l' P) as (E & _ & Q).
  exists (choices E t (length l)). split; [now apply choices_valid|]. rewrite <- Q. symmetry. apply order_of_env; auto. now apply choices_valid.
Qed.
Lemma perms_count (l : list Z) : NoDup l -> how_many (Permutation l) (Z.of_nat (fact (length l))).
Proof.
  intros Nd. destruct (length l) as [|k] eqn:El.
  - destruct l; [|discriminate]. exists [[]]. split; [repeat constructor; intros []|]. split; [|reflexivity]. intros x. cbn [In]. split.
    + intros [<-|[]]. constructor.
    + intros P. left. now apply Permutation_nil in P.
  - assert (Hl : (1 <= length l)%nat) by lia. rewrite <- El. apply (how_map (random_choices (length l)) _ (order_of 0 l)).
    + intros c _. apply order_of_perm.
    + intros l' P. destruct (order_of_onto 0 l l' Nd Hl P) as (c & Hc & <-). eauto.
    + intros c c' Hc Hc'. now apply order_of_inj.
    + now apply choices_count.
Qed.

(** ** Orders with a given beginning, with a given site at a given position *)
Lemma perms_prefix (l xs : list Z) : NoDup l -> NoDup xs -> incl xs l ->
  how_many (fun l' => Permutation l l' /\ firstn (length xs) l' = xs) (Z.of_nat (fact (length l - length xs))).
Proof.
  intros Nd Nx Hi. set (rest := @filter Z (fun i => negb (existsb (Z.eqb i) xs)) l).
  assert (Ir : forall i, In i rest <-> In i l /\ ~ In i xs).
  { intros i. unfold rest. rewrite filter_In. split; intros (A & B); split; auto.
    - intros C. assert (existsb (Z.eqb i) xs = true) as Q by (apply existsb_exists; exists i; split; auto; apply Z.eqb_refl). rewrite Q in B. discriminate.
    - destruct (existsb (Z.eqb i) xs) eqn:Q; auto. apply existsb_exists in Q as (j & Hj & Ej). apply Z.eqb_eq in Ej. subst j. contradiction. }
  assert (Nr : NoDup rest) by (now apply NoDup_filter).
  assert (P : Permutation l (xs ++ rest)).
  { apply NoDup_Permutation; auto.
    - apply NoDup_app_disjoint; auto. intros i A B. apply Ir in B as (_ & B). auto.
    - intros i. rewrite in_app_iff, Ir. split; [intros A; destruct (in_dec Z.eq_dec i xs); auto|intros [A|(A & _)]; auto]. }
  assert (El : length rest = (length l - length xs)%nat) by (apply Permutation_length in P; rewrite app_length in P; lia).
  rewrite <- El. apply (how_map (Permutation rest) _ (app xs)).
  - intros r Pr. split.
    + eapply perm_trans; [exact P|]. now apply Permutation_app_head.
    + rewrite firstn_app, firstn_all, Nat.sub_diag. cbn [firstn]. apply app_nil_r.
  - intros l' (P' & Hf). exists (skipn (length xs) l'). split.
    + apply (Permutation_app_inv_l xs). rewrite <- Hf at 2. rewrite firstn_skipn. eapply perm_trans; [apply Permutation_sym, P|exact P'].
    + rewrite <- Hf at 1. now rewrite firstn_skipn.
  - intros a a' _ _ E. now apply app_inv_head in E.
  - now apply perms_count.
Qed.
Lemma perms_at (l : list Z) j i : NoDup l -> In i l -> (j < length l)%nat ->
  how_many (fun l' => Permutation l l' /\ nth_error l' j = Some i) (Z.of_nat (fact (length l - 1))).
Proof.
  intros Nd Hi Hj. destruct (in_split _ _ Hi) as (a & b & El). assert (P : Permutation l (i :: a ++ b)) by (rewrite El; apply Permutation_sym, Permutation_middle).
  assert (Nr : NoDup (a ++ b)) by (apply (Permutation_NoDup P) in Nd; now inversion Nd).
  assert (Len : length (a ++ b) = (length l - 1)%nat) by (apply Permutation_length in P; cbn [length] in P; lia). rewrite <- Len.
  apply (how_map (Permutation (a ++ b)) _ (fun r => firstn j r ++ i :: skipn j r)).
  - intros r Pr. assert (Lr : length r = length (a ++ b)) by (symmetry; now apply Permutation_length). split.
    + eapply perm_trans; [exact P|]. eapply perm_trans; [apply perm_skip; exact Pr|]. rewrite <- (firstn_skipn j r) at 1. apply Permutation_middle.
    + rewrite nth_error_app2; rewrite firstn_length_le by lia; [|lia]. now rewrite Nat.sub_diag.
  - intros l' (P' & Hn). apply nth_error_split in Hn as (u & v & -> & Lu). exists (u ++ v). split.
    + apply (Permutation_cons_inv (a := i)). eapply perm_trans; [apply Permutation_sym, P|]. eapply perm_trans; [exact P'|]. apply Permutation_sym, Permutation_middle.
    + subst j. rewrite firstn_app, firstn_all, skipn_app, skipn_all, Nat.sub_diag. cbn [firstn skipn app]. now rewrite app_nil_r.
  - intros r r' Pr Pr' E. apply Permutation_length in Pr. apply Permutation_length in Pr'.
    assert (Q : firstn j r = firstn j r' /\ i :: skipn j r = i :: skipn j r').
    { assert (Lf : length (firstn j r) = length (firstn j r')) by (rewrite !firstn_length; lia). revert E Lf.
      generalize (firstn j r) (firstn j r') (i :: skipn j r) (i :: skipn j r'). clear. induction l as [|x l IH]; intros [|y l'] u v E Lf; cbn in *; try discriminate; auto.
      injection E as -> E. destruct (IH l' u v E) as (-> & ->); auto. }
    destruct Q as (Q1 & Q2). injection Q2 as Q2. rewrite <- (firstn_skipn j r), <- (firstn_skipn j r'), Q1, Q2. reflexivity.
  - now apply perms_count.
Qed.
Lemma perms_early (l : list Z) i : NoDup l -> In i l -> forall m, (m <= length l)%nat ->
  how_many (fun l' => Permutation l l' /\ In i (firstn m l')) (Z.of_nat m * Z.of_nat (fact (length l - 1))).
Proof.
  intros Nd Hi. induction m as [|m IH]; intros Hm.
  - exists []. split; [constructor|]. split; [|reflexivity]. intros x. cbn. tauto.
  - replace (Z.of_nat (S m) * Z.of_nat (fact (length l - 1))) with (Z.of_nat m * Z.of_nat (fact (length l - 1)) + Z.of_nat (fact (length l - 1))) by lia.
    assert (Sn : forall (l' : list Z) x, nth_error l' m = Some x -> firstn (S m) l' = firstn m l' ++ [x]).
    { clear. induction m as [|m IH]; intros [|a l'] x E; try discriminate; [cbn in E; injection E as ->; reflexivity|].
      change (firstn (S (S m)) (a :: l')) with (a :: firstn (S m) l'). now rewrite (IH l' x E). }
    eapply how_iff; [|apply (how_or _ _ _ _ (IH ltac:(lia)) (perms_at l m i Nd Hi ltac:(lia)))].
    + intros l'. cbn beta. split.
      * intros [(P & F)|(P & F)]; (split; [auto|]); destruct (nth_error l' m) as [y|] eqn:Ey.
        -- rewrite (Sn _ _ Ey), in_app_iff. auto.
        -- apply nth_error_None in Ey. rewrite firstn_all2 in F by auto. rewrite firstn_all2 by lia. auto.
        -- injection F as ->. rewrite (Sn _ _ Ey), in_app_iff. right. now left.
        -- discriminate.
      * intros (P & F). apply Permutation_length in P as Lp. destruct (nth_error l' m) as [y|] eqn:Ey; [|apply nth_error_None in Ey; lia].
        rewrite (Sn _ _ Ey), in_app_iff in F. destruct F as [F|[->|[]]]; auto.
    + intros l' (P & F) (_ & E). assert (N' : NoDup l') by (now apply (Permutation_NoDup P)). apply nth_error_split in E as (u & v & -> & Lu). subst m.
      rewrite firstn_app, firstn_all, Nat.sub_diag in F. cbn [firstn] in F. rewrite app_nil_r in F. apply NoDup_remove_2 in N'. apply N', in_app_iff. now left.
Qed.

(** ** Through the constructor *)
Section Made.
Variables (k : pkind) (L : Z) (t : nat).
Hypothesis HL : 0 < L.
Let n := Z.to_nat (L * L).
Let ids0 := zrange (L * L).
Lemma ids0_len : length ids0 = n.
Proof. pose proof (LL_pos L HL). pose proof (zlen_zrange (L * L) ltac:(lia)) as Q. unfold zlen in Q. unfold ids0, n. lia. Qed.
Lemma n_pos : (1 <= n)%nat.
Proof. pose proof (LL_pos L HL). unfold n. lia. Qed.
Lemma new_ids E s : new_perc E k L t = Ok s -> ids s = fst (random_shuffle E t ids0).
Proof.
  intros H. unfold new_perc in H. destruct (new_lattice L) as [l0|]; [|discriminate]. cbn [rbind] in H.
  destruct (init_clusters l0) as [[p l1]|]; [|discriminate]. cbn [rbind] in H. destruct (log_int _) as [mx|]; [|discriminate]. cbn [rbind] in H.
  match type of H with context [shuffle E ?S] => pose proof (shuffle_ids E S eq_refl) as Q; destruct (shuffle E S) as [s1 [u|e]] end; [|discriminate].
  injection H as <-. exact Q.
Qed.
Lemma transfer (Q : env -> perc -> Prop) (R : list Z -> Prop) m :
  (forall E s, env_ok E -> new_perc E k L t = Ok s -> (Q E s <-> R (ids s))) ->
  how_many (fun l => Permutation ids0 l /\ R l) m -> how_many (constructed_with k L t Q) m.
Proof.
  intros QR H. pose proof ids0_len as Hlen. pose proof n_pos as Hn. assert (Nd : NoDup ids0) by apply NoDup_zrange.
  assert (Ev : forall c, random_choices n c -> (constructed_with k L t Q c <-> R (order_of t ids0 c))).
  { intros c Hc. unfold constructed_with. fold n. split.
    - intros (_ & G). set (E := with_draws t c). destruct (new_perc_ok E k L t HL) as (lat1 & l & t' & rv & E1 & _).
      pose proof (G E _ (with_draws_ok t c) (choices_with t n c Hn Hc) E1) as G1. apply (QR E _ (with_draws_ok t c) E1) in G1.
      rewrite (new_ids E _ E1) in G1. exact G1.
    - intros G. split; auto. intros E s HE Ec E1. apply (QR E s HE E1). rewrite (new_ids E s E1).
      rewrite (order_of_env E t ids0 c); auto; rewrite Hlen; auto. }
  destruct H as (Y & NY & IY & ->). destruct (choices_count n Hn) as (X & NX & IX & _).
  set (Yc := filter (fun c => if in_dec (list_eq_dec Z.eq_dec) (order_of t ids0 c) Y then true else false) X).
  assert (IYc : forall c, In c Yc <-> constructed_with k L t Q c).
  { intros c. unfold Yc. rewrite filter_In, IX. split.
    - intros (A & B). apply Ev; auto. destruct (in_dec _ _ Y) as [C|]; [|discriminate]. now apply IY in C.
    - intros A. assert (B : random_choices n c) by apply A. split; auto. apply Ev in A; auto.
      destruct (in_dec _ _ Y) as [|C]; auto. exfalso. apply C, IY. split; auto. apply order_of_perm. }
  exists Yc. split; [now apply NoDup_filter|]. split; auto. f_equal.
  rewrite <- (map_length (order_of t ids0) Yc). apply Permutation_length, NoDup_Permutation; auto.
  - assert (NoDup Yc) as NYc by (now apply NoDup_filter). assert (F : forall c, In c Yc -> random_choices n c) by (intros c A; apply IYc in A; exact (proj1 A)).
    clear - NYc F Nd Hlen Hn. induction NYc as [|c l Nc N IH]; [constructor|]. cbn [map]. constructor; [|apply IH; intros c' A; apply F; now right].
    rewrite in_map_iff. intros (c' & E & A). apply Nc. assert (c' = c) as <-; auto. apply (order_of_inj t ids0); rewrite ?Hlen; auto; apply F; [now right|now left].
  - intros l. rewrite in_map_iff, IY. split.
    + intros (P & Rl). destruct (order_of_onto t ids0 l) as (c & Hc & E); auto; [lia|]. rewrite Hlen in Hc. exists c. split; auto. apply IYc, Ev; auto. now rewrite E.
    + intros (c & <- & A). apply IYc in A. split; [apply order_of_perm|]. apply Ev; auto. apply A.
Qed.
Lemma transfer_share (Q : env -> perc -> Prop) (R : list Z -> Prop) m a b :
  (forall E s, env_ok E -> new_perc E k L t = Ok s -> (Q E s <-> R (ids s))) ->
  how_many (fun l => Permutation ids0 l /\ R l) m -> b * m = a * Z.of_nat (fact n) -> share k L t Q a b.
Proof.
  intros QR H E. exists (Z.of_nat (fact n)), m. split; [pose proof (lt_O_fact n); lia|]. split; [apply choices_count, n_pos|]. split; auto. now apply (transfer Q R).
Qed.

(** ** The placements follow the sequence *)
Hypothesis Hk : is_L12 k = false.
Lemma pairs_placing m : Forall placing (pairs m) /\ placements (pairs m) = m.
Proof.
  induction m as [|m (A & B)]; [split; [constructor|reflexivity]|]. split.
  - constructor; [now left|]. constructor; [now right|exact A].
  - change (pairs (S m)) with (CPlace :: CDetect :: pairs m). cbn [placements]. lia.
Qed.
Lemma new_runB E s : env_ok E -> new_perc E k L t = Ok s -> Inv L s /\ RunB L s /\ cur_idx s = 0 /\ Permutation ids0 (ids s) /\ FreshState L s.
Proof.
  intros HE E1. assert (F : FreshState L s) by (eapply new_perc_fresh; eauto).
  assert (P : Permutation ids0 (ids s)) by (rewrite (new_ids E s E1); unfold random_shuffle; apply shuffle_from_perm).
  split; [now apply fresh_inv|]. split; [|split; [apply (fs_cur _ _ F)|auto]].
  apply fresh_RunB; auto; [|apply (Permutation_NoDup P), NoDup_zrange].
  pose proof (new_kind E k L t s E1) as Ek. now rewrite Ek.
Qed.
Lemma skipn_nth (l : list Z) : forall j x, nth_error l j = Some x -> skipn j l = x :: skipn (S j) l.
Proof.
  induction l as [|a l IH]; intros [|j] x E; try discriminate; [cbn in E; injection E as ->; reflexivity|].
  cbn [skipn]. now apply IH.
Qed.
Lemma order_from E m : env_ok E -> forall s xs, Inv L s -> RunB L s -> (Z.to_nat (cur_idx s) + m <= length (ids s))%nat ->
  add xs (events E s (pairs m)) = xs ++ firstn m (skipn (Z.to_nat (cur_idx s)) (ids s)) /\
  (forall x, nth_error (ids s) (Z.to_nat (cur_idx s) + m - 1) = Some x -> (1 <= m)%nat -> sel_id (after E s (pairs m)) = Some x).
Proof.
  intros HE. induction m as [|m IH]; intros s xs H B Hm.
  - split; [cbn; now rewrite app_nil_r|lia].
  - pose proof (rb_cur _ _ B) as Hc. destruct (runB_place E L s HE H B) as (s' & Ep & Ef & H' & B' & Ec & Es & Qs & _); [unfold zlen; lia|].
    assert (Ei : ids s' = ids s) by apply (seqv_eqs _ _ Qs).
    change (pairs (S m)) with (CPlace :: CDetect :: pairs m). cbn [events after fold_left exec]. rewrite Ep. cbn [fst].
    set (s2 := fst (detect_wrapping s')).
    assert (H2 : Inv L s2) by (now apply detect_inv). assert (B2 : RunB L s2) by (now apply runB_detect).
    destruct (detect_fields L s' H') as (_ & _ & Dc & _ & Ds & _). fold s2 in Dc, Ds.
    assert (Di : ids s2 = ids s) by (destruct (detect_seqv L s' H') as (Q & _); destruct (seqv_eqs _ _ Q) as (_ & Q2 & _); fold s2 in Q2; congruence).
    assert (Hnat : Z.to_nat (cur_idx s2) = S (Z.to_nat (cur_idx s))) by lia.
    assert (Hx : nth_error (ids s) (Z.to_nat (cur_idx s)) = Some (at_ 0 (ids s) (cur_idx s))).
    { unfold at_. replace (0 <=? cur_idx s) with true by lia. apply nth_error_nth'. lia. }
    cbn [event_of]. rewrite Ep, Ef, Es. unfold add. rewrite !fold_left_app. cbn [fold_left note].
    destruct (IH s2 (xs ++ [at_ 0 (ids s) (cur_idx s)]) H2 B2) as (I1 & I2); [rewrite Di; lia|]. split.
    + fold s2. unfold add in I1. rewrite I1, Di, Hnat, <- app_assoc. f_equal. cbn [app].
      rewrite (skipn_nth _ _ _ Hx). reflexivity.
    + intros x Hx' _. fold (after E s2 (pairs m)). destruct m as [|m].
      * cbn [pairs repeat concat after fold_left]. rewrite Ds, Es. replace (Z.to_nat (cur_idx s) + 1 - 1)%nat with (Z.to_nat (cur_idx s)) in Hx' by lia. congruence.
      * apply I2; [|lia]. rewrite Di, Hnat. rewrite <- Hx'. f_equal. lia.
Qed.
Lemma order_new E s m : env_ok E -> new_perc E k L t = Ok s -> (m <= n)%nat ->
  placed_order (events E s (pairs m)) = firstn m (ids s) /\
  (forall x, (1 <= m)%nat -> nth_error (ids s) (m - 1) = Some x -> sel_id (after E s (pairs m)) = Some x).
Proof.
  intros HE E1 Hm. destruct (new_runB E s HE E1) as (H & B & C & P & _). pose proof (Permutation_length P) as Lp. rewrite ids0_len in Lp.
  destruct (order_from E m HE s [] H B) as (A1 & A2); [rewrite C; cbn; lia|]. rewrite C in A1, A2. split; [exact A1|].
  intros x H1 Hx. now apply A2.
Qed.

Lemma p_C96_first xs : NoDup xs -> Forall (is_site L) xs ->
  how_many (random_choices n) (Z.of_nat (fact n)) /\
  how_many (constructed_with k L t (fun E s => placed_order (events E s (pairs (length xs))) = xs)) (Z.of_nat (fact (n - length xs))).
Proof.
  intros Nx Fx. split; [apply choices_count, n_pos|].
  assert (Hi : incl xs ids0) by (intros i Hi; apply In_zrange; rewrite Forall_forall in Fx; now apply Fx).
  assert (Hlen : (length xs <= n)%nat) by (rewrite <- ids0_len; now apply NoDup_incl_length).
  apply (transfer _ (fun l => firstn (length xs) l = xs)).
  - intros E s HE E1. destruct (order_new E s (length xs) HE E1 Hlen) as (-> & _). reflexivity.
  - pose proof (perms_prefix ids0 xs (NoDup_zrange _) Nx Hi) as Q. now rewrite ids0_len in Q.
Qed.
Lemma p_C96_position i j : is_site L i -> (j < n)%nat ->
  share k L t (fun E s => nth_error (placed_order (events E s (pairs n))) j = Some i) 1 (L * L).
Proof.
  intros Hi Hj. pose proof (LL_pos L HL) as HLL. pose proof ids0_len as Hlen.
  apply (transfer_share _ (fun l => nth_error l j = Some i) (Z.of_nat (fact (n - 1)))).
  - intros E s HE E1. destruct (order_new E s n HE E1 (le_n _)) as (-> & _). destruct (new_runB E s HE E1) as (_ & _ & _ & P & _). apply Permutation_length in P.
    rewrite firstn_all2 by lia. reflexivity.
  - pose proof (perms_at ids0 j i (NoDup_zrange _) (proj2 (In_zrange _ _) Hi) ltac:(lia)) as Q. now rewrite Hlen in Q.
  - assert (E : fact n = (n * fact (n - 1))%nat) by (replace n with (S (n - 1)) at 1 2 by (pose proof n_pos; lia); reflexivity).
    rewrite E, Nat2Z.inj_mul. unfold n at 2. rewrite Z2Nat.id by lia. lia.
Qed.
Lemma p_C96_occupied i m : is_site L i -> (m <= n)%nat ->
  share k L t (fun E s => occupied (after E s (pairs m)) i) (Z.of_nat m) (L * L).
Proof.
  intros Hi Hm. pose proof (LL_pos L HL) as HLL. pose proof ids0_len as Hlen.
  apply (transfer_share _ (fun l => In i (firstn m l)) (Z.of_nat m * Z.of_nat (fact (n - 1)))).
  - intros E s HE E1. destruct (new_runB E s HE E1) as (H & B & C & _). destruct (pairs_placing m) as (Pl & Pn).
    destruct (follow_from E L s HE H B (pairs m) Pl) as (_ & _ & _ & _ & O & _). rewrite O by auto. rewrite C, Pn. reflexivity.
  - pose proof (perms_early ids0 i (NoDup_zrange _) (proj2 (In_zrange _ _) Hi) m ltac:(lia)) as Q. now rewrite Hlen in Q.
  - assert (E : fact n = (n * fact (n - 1))%nat) by (replace n with (S (n - 1)) at 1 2 by (pose proof n_pos; lia); reflexivity).
    rewrite E, Nat2Z.inj_mul. unfold n at 2. rewrite Z2Nat.id by lia. lia.
Qed.

(** ** The closing site *)
Hypothesis H3 : 3 <= L.
Definition closing (l : list Z) (m : nat) (x : Z) : Prop := exists ys, first_loop L l ys x /\ length ys = m.
Lemma wrap_prefix E s m : env_ok E -> new_perc E k L t = Ok s -> (m <= n)%nat -> (after_wrap (after E s (pairs m)) = true <-> wraps L (among (firstn m (ids s)))).
Proof.
  intros HE E1 Hm. destruct (pairs_ok m) as (T & _ & W). assert (Ho : Forall (call_ok L) (pairs m)).
  { clear. induction m as [|m IH]; [constructor|]. repeat (constructor; [exact I|]). exact IH. }
  destruct (stepwise_dx E k L t s (pairs m) HE E1 Ho W) as (_ & D). destruct (order_new E s m HE E1 Hm) as (Eo & _). rewrite Eo in D. apply (lo_wraps _ _ _ (D H3 T)).
Qed.
Lemma closes_closing E s m x : env_ok E -> new_perc E k L t = Ok s -> (m < n)%nat -> (closes E s m x <-> closing (ids s) m x).
Proof.
  intros HE E1 Hm. destruct (new_runB E s HE E1) as (_ & _ & _ & P & _). pose proof (Permutation_length P) as Lp. rewrite ids0_len in Lp.
  change (closes E s m x) with (after_wrap (after E s (pairs m)) = false /\ after_wrap (after E s (pairs (S m))) = true /\ sel_id (after E s (pairs (S m))) = Some x).
  destruct (order_new E s (S m) HE E1 ltac:(lia)) as (_ & Sl). replace (S m - 1)%nat with m in Sl by lia.
  destruct (nth_error (ids s) m) as [y|] eqn:Ey; [|apply nth_error_None in Ey; lia]. rewrite (Sl y ltac:(lia) eq_refl).
  pose proof (wrap_prefix E s m HE E1 ltac:(lia)) as W1. pose proof (wrap_prefix E s (S m) HE E1 ltac:(lia)) as W2.
  apply nth_error_split in Ey as (u & v & Ev & Lu). rewrite Ev in W1, W2. subst m. rewrite firstn_app, firstn_all, Nat.sub_diag in W1. cbn [firstn] in W1. rewrite app_nil_r in W1.
  rewrite firstn_app, firstn_all2 in W2 by lia. replace (S (length u) - length u)%nat with 1%nat in W2 by lia. cbn [firstn] in W2.
  split.
  - intros (A & C & D). injection D as ->. exists u. split; auto. rewrite Ev. split; [now exists v|]. split; [|now apply W2].
    intros W. apply W1 in W. congruence.
  - intros (ys & ((zs & Ez) & Nw & Ww) & Ly). rewrite Ev in Ez. destruct (prefix_cases _ _ _ _ _ _ Ez) as [(-> & ->)|[(c & ->)|(c & Ec)]].
    + split; [|split; [now apply W2|auto]]. destruct (after_wrap _); auto. exfalso. apply Nw. now apply W1.
    + rewrite app_length in Ly. cbn in Ly. lia.
    + rewrite Ec, app_length in Ly. cbn in Ly. lia.
Qed.
Lemma closing_dec l m x : Permutation ids0 l -> (m < n)%nat -> closing l m x \/ ~ closing l m x.
Proof.
  intros P Hm. destruct (order_of_onto t ids0 l) as (c & Hc & Eo); auto; [apply NoDup_zrange|rewrite ids0_len; apply n_pos|].
  set (E := with_draws t c). destruct (new_perc_ok E k L t HL) as (lat1 & l1 & t' & rv & E1 & _).
  match type of E1 with _ = Ok ?S => set (s := S) in * end.
  pose proof (closes_closing E s m x (with_draws_ok t c) E1 Hm) as Q. rewrite (new_ids E s E1) in Q. change (fst (random_shuffle E t ids0)) with (order_of t ids0 c) in Q. rewrite Eo in Q.
  rewrite <- Q. unfold closes. cbv zeta. destruct (after_wrap (after E s (concat (repeat [CPlace; CDetect] m)))); [right; intros (A & _); discriminate|].
  destruct (after_wrap (after E s (concat (repeat [CPlace; CDetect] (S m))))); [|right; intros (_ & A & _); discriminate].
  destruct (sel_id _) as [y|]; [|right; intros (_ & _ & A); discriminate]. destruct (Z.eq_dec y x) as [->|]; [left; auto|right; intros (_ & _ & A); congruence].
Qed.
Lemma closing_exists l : Permutation ids0 l -> exists m x, (m < n)%nat /\ is_site L x /\ closing l m x.
Proof.
  intros P. pose proof (Permutation_length P) as Lp. rewrite ids0_len in Lp.
  assert (Full : wraps L (among (firstn n l))).
  { rewrite firstn_all2 by lia. apply full_wraps; auto. intros i Hi. apply (Permutation_in i P). now apply In_zrange. }
  assert (Dec : forall m, (m <= n)%nat -> wraps L (among (firstn m l)) \/ ~ wraps L (among (firstn m l))).
  { intros m Hm. destruct (order_of_onto t ids0 l) as (c & Hc & Eo); auto; [apply NoDup_zrange|rewrite ids0_len; apply n_pos|].
    set (E := with_draws t c). destruct (new_perc_ok E k L t HL) as (lat1 & l1 & t' & rv & E1 & _).
    match type of E1 with _ = Ok ?S => set (s := S) in * end.
    pose proof (wrap_prefix E s m (with_draws_ok t c) E1 Hm) as Q. rewrite (new_ids E s E1) in Q. change (fst (random_shuffle E t ids0)) with (order_of t ids0 c) in Q. rewrite Eo in Q.
    rewrite <- Q. destruct (after_wrap _); auto. }
  assert (G : forall m, (m <= n)%nat -> wraps L (among (firstn m l)) -> exists m' , (m' < m)%nat /\ ~ wraps L (among (firstn m' l)) /\ wraps L (among (firstn (S m') l))).
  { induction m as [|m IH]; intros Hm W.
    - exfalso. destruct W as (i & ds & W & _). apply walk_sites in W as (_ & _ & W & _). destruct W.
    - destruct (Dec m ltac:(lia)) as [W'|W'].
      + destruct (IH ltac:(lia) W') as (m' & A & B). exists m'. split; [lia|auto].
      + exists m. auto. }
  destruct (G n (le_n _) Full) as (m & Hm & N & W). destruct (nth_error l m) as [x|] eqn:Ex; [|apply nth_error_None in Ex; lia].
  assert (Hx : is_site L x) by (apply nth_error_In in Ex; apply In_zrange; apply Permutation_sym in P; now apply (Permutation_in x P)).
  apply nth_error_split in Ex as (u & v & -> & Lu). exists m, x. split; auto. split; auto. exists u. split; auto. subst m.
  rewrite firstn_app, firstn_all, Nat.sub_diag in N. cbn [firstn] in N. rewrite app_nil_r in N.
  rewrite firstn_app, firstn_all2 in W by lia. replace (S (length u) - length u)%nat with 1%nat in W by lia. cbn [firstn] in W.
  split; [now exists v|auto].
Qed.
Lemma closing_fun l m x m' x' : closing l m x -> closing l m' x' -> m = m' /\ x = x'.
Proof. intros (ys & F & <-) (ys' & F' & <-). destruct (first_loop_unique _ _ _ _ _ _ F F') as (-> & ->). auto. Qed.
Lemma closing_move l m x f D : symmetry L f D -> Permutation ids0 l -> closing l m x -> Permutation ids0 (map f l) /\ closing (map f l) m (f x).
Proof.
  intros S P (ys & F & <-).
  assert (Hs : forall i, In i l -> is_site L i) by (intros i Hi; apply In_zrange; apply Permutation_sym in P; now apply (Permutation_in i P)).
  split.
  - eapply perm_trans; [|apply Permutation_map; exact P]. apply Permutation_sym, (onto (L * L) f).
    + intros i Hi. now apply (sy_site _ _ _ S).
    + intros i j Hi Hj. now apply (sy_inj _ _ _ S).
  - exists (map f ys). split; [now apply (sym_first L f D HL S)|apply map_length].
Qed.
Lemma translate_to x y : is_site L x -> is_site L y -> exists r c, translate L r c x = y.
Proof.
  intros Hx Hy. exists (row L y - row L x), (col L y - col L x). unfold translate.
  replace (row L x + (row L y - row L x)) with (row L y) by lia. replace (col L x + (col L y - col L x)) with (col L y) by lia. now apply at_row_col.
Qed.
(** Both shares at once: [M] says which of the moments counts. *)
Lemma closing_shares (M : nat -> Prop) : (forall m, M m \/ ~ M m) -> exists all, how_many (fun l => Permutation ids0 l /\ exists m x, (m < n)%nat /\ M m /\ closing l m x) all /\
  forall x, is_site L x -> exists good, how_many (fun l => Permutation ids0 l /\ exists m, (m < n)%nat /\ M m /\ closing l m x) good /\ L * L * good = all.
Proof.
  intros HM. pose proof (LL_pos L HL) as HLL. set (R := fun (l : list Z) x => exists m, (m < n)%nat /\ M m /\ closing l m x).
  pose proof (perms_count ids0 (NoDup_zrange _)) as Tot.
  assert (Dec : forall l x, Permutation ids0 l -> In x ids0 -> R l x \/ ~ R l x).
  { intros l x P Hx. destruct (closing_exists l P) as (m & y & Hm & Hy & Cl). destruct (Z.eq_dec y x) as [->|Hne].
    - destruct (HM m) as [A|A]; [left; exists m; auto|right]. intros (m' & _ & B & Cl'). destruct (closing_fun _ _ _ _ _ Cl Cl') as (<- & _). auto.
    - right. intros (m' & _ & _ & Cl'). destruct (closing_fun _ _ _ _ _ Cl Cl'). auto. }
  assert (Sel : forall l x, Permutation ids0 l -> R l x -> is_site L x).
  { intros l x P (m & Hm & _ & Cl). destruct (closing_exists l P) as (m' & y & _ & Hy & Cl'). destruct (closing_fun _ _ _ _ _ Cl Cl') as (_ & ->). auto. }
  destruct (how_sub _ (fun l => exists x, In x ids0 /\ R l x) _ Tot) as (all & Hall).
  { intros l P. destruct (closing_exists l P) as (m & y & Hm & Hy & Cl). destruct (HM m) as [A|A].
    - left. exists y. split; [now apply In_zrange|exists m; auto].
    - right. intros (x & _ & m' & _ & B & Cl'). destruct (closing_fun _ _ _ _ _ Cl Cl') as (<- & _). auto. }
  exists all. split.
  - eapply how_iff; [|exact Hall]. intros l. cbn beta. split.
    + intros (P & x & _ & m & A). split; auto. exists m, x. auto.
    + intros (P & m & x & A). split; auto. assert (RR : R l x) by (exists m; auto). exists x. split; auto. apply In_zrange. now apply (Sel l).
  - intros x Hx. pose proof (zlen_zrange (L * L) ltac:(lia)) as Zl. fold ids0 in Zl. rewrite <- Zl.
    apply (how_split (Permutation ids0) R ids0 all); eauto; [apply NoDup_zrange| | |now apply In_zrange].
    + intros l a b (m & _ & _ & Ca) (m' & _ & _ & Cb). now destruct (closing_fun _ _ _ _ _ Ca Cb).
    + intros i j a b Hi Hj (Ya & Na & Ia & ->) (Yb & Nb & Ib & ->). apply In_zrange in Hi. apply In_zrange in Hj. destruct (translate_to i j Hi Hj) as (r & c & Ef).
      pose proof (translate_sym L r c HL) as S. apply inj_le. rewrite <- (map_length (map (translate L r c)) Ya). apply NoDup_incl_length.
      * assert (F : forall l, In l Ya -> Permutation ids0 l) by (intros l A; now apply Ia in A). clear - Na F S. induction Na as [|l Y Nl N IH]; [constructor|]. cbn [map]. constructor.
        -- rewrite in_map_iff. intros (l' & E & A). apply Nl. assert (l' = l) as <-; auto.
           assert (F1 : forall i, In i l' -> is_site L i). { intros i Q. apply In_zrange. eapply Permutation_in; [apply Permutation_sym, (F _ (or_intror A))|exact Q]. }
           assert (F2 : forall i, In i l -> is_site L i). { intros i Q. apply In_zrange. eapply Permutation_in; [apply Permutation_sym, (F _ (or_introl eq_refl))|exact Q]. }
           clear - E F1 F2 S. revert l E F1 F2. induction l' as [|a l' IH]; intros [|b l] E F1 F2; try discriminate; auto. cbn [map] in E. injection E as E1 E2. f_equal.
           ++ apply (sy_inj _ _ _ S); auto; [apply F1|apply F2]; now left.
           ++ apply IH; auto; intros i Q; [apply F1|apply F2]; now right.
        -- apply IH. intros l' A. apply F. now right.
      * intros l A. apply in_map_iff in A as (l0 & <- & A). apply Ia in A as (P & m & Hm & A & Cl). apply Ib.
        destruct (closing_move l0 m i _ _ S P Cl) as (P' & Cl'). split; auto. exists m. rewrite Ef in Cl'. auto.
Qed.
Lemma p_C97_site x : is_site L x -> share k L t (fun E s => exists m, (m < n)%nat /\ closes E s m x) 1 (L * L).
Proof.
  intros Hx. destruct (closing_shares (fun _ => True)) as (all & Hall & G); [auto|]. destruct (G x Hx) as (good & Hg & Eq).
  assert (Ea : all = Z.of_nat (fact n)).
  { apply (how_fun _ _ _ Hall). rewrite <- ids0_len. eapply how_iff; [|apply (perms_count ids0), NoDup_zrange]. intros l. split; [|intros (P & _); exact P].
    intros P. split; [exact P|]. destruct (closing_exists l P) as (m & y & Hm & Hy & Cl). exists m, y. split; [rewrite ids0_len; exact Hm|]. split; [exact I|exact Cl]. }
  apply (transfer_share _ (fun l => exists m, (m < n)%nat /\ True /\ closing l m x) good); auto; [|lia].
  intros E s HE E1. split; intros (m & Hm & A).
  - exists m. split; auto. split; auto. now apply (closes_closing E s).
  - exists m. split; auto. apply (closes_closing E s); auto. apply A.
Qed.
Lemma p_C97_moment m : (m < n)%nat -> exists all, how_many (constructed_with k L t (fun E s => exists x, closes E s m x)) all /\
  forall x, is_site L x -> exists good, how_many (constructed_with k L t (fun E s => closes E s m x)) good /\ L * L * good = all.
Proof.
  intros Hm. destruct (closing_shares (fun m' => m' = m)) as (all & Hall & G); [intros m'; destruct (Nat.eq_dec m' m); auto|]. exists all. split.
  - apply (transfer _ (fun l => exists m' x, (m' < n)%nat /\ m' = m /\ closing l m' x)); auto. intros E s HE E1. split.
    + intros (x & A). exists m, x. split; auto. split; auto. now apply (closes_closing E s).
    + intros (m' & x & _ & -> & A). exists x. now apply (closes_closing E s).
  - intros x Hx. destruct (G x Hx) as (good & Hg & Eq). exists good. split; auto.
    apply (transfer _ (fun l => exists m', (m' < n)%nat /\ m' = m /\ closing l m' x)); auto. intros E s HE E1. split.
    + intros A. exists m. split; auto. split; auto. now apply (closes_closing E s).
    + intros (m' & _ & -> & A). now apply (closes_closing E s).
Qed.
End Made.

(** ** The statements *)
Lemma plain_kind k : k <> KL1 -> k <> KL2 -> is_L12 k = false.
Proof. destruct k; auto; congruence. Qed.
Lemma p_C96 k L t xs : 0 < L -> k <> KL1 -> k <> KL2 -> NoDup xs -> Forall (is_site L) xs -> let n := Z.to_nat (L * L) in
  how_many (random_choices n) (Z.of_nat (fact n)) /\
  how_many (constructed_with k L t (fun E s => placed_order (events E s (pairs (length xs))) = xs)) (Z.of_nat (fact (n - length xs))).
Proof. intros HL K1 K2 Nx Fx n. apply p_C96_first; auto. now apply plain_kind. Qed.
Lemma p_C96_share k L t i : 0 < L -> k <> KL1 -> k <> KL2 -> is_site L i -> let n := Z.to_nat (L * L) in
  (forall j, (j < n)%nat -> share k L t (fun E s => nth_error (placed_order (events E s (pairs n))) j = Some i) 1 (L * L)) /\
  (forall m, (m <= n)%nat -> share k L t (fun E s => occupied (after E s (pairs m)) i) (Z.of_nat m) (L * L)).
Proof. intros HL K1 K2 Hi n. pose proof (plain_kind k K1 K2) as Hk. split; intros; [now apply p_C96_position|now apply p_C96_occupied]. Qed.
Lemma p_C97 k L t x : 3 <= L -> k <> KL1 -> k <> KL2 -> is_site L x -> let n := Z.to_nat (L * L) in
  share k L t (fun E s => exists m, (m < n)%nat /\ closes E s m x) 1 (L * L) /\
  (forall m, (m < n)%nat -> exists all good, how_many (constructed_with k L t (fun E s => exists y, closes E s m y)) all /\
     how_many (constructed_with k L t (fun E s => closes E s m x)) good /\ L * L * good = all).
Proof.
  intros H3 K1 K2 Hx n. pose proof (plain_kind k K1 K2) as Hk. assert (HL : 0 < L) by lia. split; [now apply p_C97_site|].
  intros m Hm. destruct (p_C97_moment k L t HL Hk H3 m Hm) as (all & A & G). destruct (G x Hx) as (good & B & C). exists all, good. auto.
Qed.
