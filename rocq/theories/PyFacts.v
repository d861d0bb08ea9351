(** * PyFacts: lemmas about the Python layer. *)
From Coq Require Import ZArith List Bool Lia Permutation.
From Verif Require Import Py.
Import ListNotations.
Open Scope Z_scope.

(** ** Total access: default outside the range, no negative indices. *)
Definition at_ {A} (d : A) (l : list A) (j : Z) : A :=
  if 0 <=? j then nth (Z.to_nat j) l d else d.

Lemma upd_length {A} (l : list A) k v : length (upd l k v) = length l.
Proof. revert k; induction l; intros [|k]; simpl; auto. Qed.

Lemma upd_nth {A} (d : A) l k v j :
  (k < length l)%nat ->
  nth j (upd l k v) d = if (j =? k)%nat then v else nth j l d.
Proof.
  revert k j; induction l as [|h t IH]; intros k j Hk; simpl in Hk; [lia|].
  destruct k, j; simpl; auto. apply IH. lia.
Qed.

Lemma zlen_upd {A} (l : list A) k v : zlen (upd l k v) = zlen l.
Proof. unfold zlen. now rewrite upd_length. Qed.

Lemma zlen_nonneg {A} (l : list A) : 0 <= zlen l.
Proof. unfold zlen; lia. Qed.

Lemma zlen_app {A} (l l' : list A) : zlen (l ++ l') = zlen l + zlen l'.
Proof. unfold zlen; rewrite app_length; lia. Qed.
Lemma zlen_map {A B} (f : A -> B) (l : list A) : zlen (map f l) = zlen l.
Proof. unfold zlen; now rewrite map_length. Qed.
Lemma zlen_repeat {A} (x : A) n : zlen (repeat x n) = Z.of_nat n.
Proof. unfold zlen; now rewrite repeat_length. Qed.

Lemma at_upd {A} (d : A) l i v j :
  0 <= i < zlen l ->
  at_ d (upd l (Z.to_nat i) v) j = if j =? i then v else at_ d l j.
Proof.
  intros Hi. unfold at_, zlen in *.
  destruct (Z.leb_spec 0 j).
  - rewrite upd_nth by lia.
    destruct (Nat.eqb_spec (Z.to_nat j) (Z.to_nat i)); destruct (Z.eqb_spec j i); auto; lia.
  - destruct (Z.eqb_spec j i); auto; lia.
Qed.

Lemma py_pos_in n i : 0 <= i < n -> py_pos n i = Some (Z.to_nat i).
Proof.
  intros. unfold py_pos.
  replace ((0 <=? i) && (i <? n)) with true by lia. reflexivity.
Qed.

Lemma lget_in {A} (d : A) (l : list A) i :
  0 <= i < zlen l -> lget l i = Ok (at_ d l i).
Proof.
  intros H. unfold lget. rewrite py_pos_in by auto.
  unfold at_. replace (0 <=? i) with true by lia.
  unfold zlen in H.
  rewrite (nth_error_nth' l d) by lia. reflexivity.
Qed.

Lemma lset_in {A} (l : list A) i v :
  0 <= i < zlen l -> lset l i v = Ok (upd l (Z.to_nat i) v).
Proof. intros H. unfold lset. now rewrite py_pos_in by auto. Qed.

Lemma at_ext {A} (d : A) l l' :
  zlen l = zlen l' -> (forall j, 0 <= j < zlen l -> at_ d l j = at_ d l' j) -> l = l'.
Proof.
  unfold zlen. intros Hl H. apply (nth_ext _ _ d d); [lia|].
  intros n Hn. specialize (H (Z.of_nat n)). unfold at_ in H.
  replace (0 <=? Z.of_nat n) with true in H by lia. rewrite Nat2Z.id in H. apply H. lia.
Qed.

Lemma at_map {A B} (f : A -> B) d d' l j :
  0 <= j < zlen l -> at_ d' (map f l) j = f (at_ d l j).
Proof.
  intros H. unfold at_, zlen in *. replace (0 <=? j) with true by lia.
  rewrite (nth_indep _ d' (f d)) by (rewrite map_length; lia). apply map_nth.
Qed.

Lemma at_In {A} (d : A) l j : 0 <= j < zlen l -> In (at_ d l j) l.
Proof.
  intros H. unfold at_, zlen in *. replace (0 <=? j) with true by lia. apply nth_In. lia.
Qed.

Lemma In_at {A} (d : A) l x : In x l -> exists j, 0 <= j < zlen l /\ at_ d l j = x.
Proof.
  intros H. destruct (In_nth l x d H) as (n & Hn & E).
  exists (Z.of_nat n). unfold at_, zlen. split; [lia|].
  replace (0 <=? Z.of_nat n) with true by lia. now rewrite Nat2Z.id.
Qed.

Lemma at_out {A} (d : A) l j : ~ (0 <= j < zlen l) -> at_ d l j = d.
Proof.
  intros H. unfold at_, zlen in *. destruct (Z.leb_spec 0 j); auto.
  apply nth_overflow. lia.
Qed.

(** ** Error monad *)
Lemma rbind_ok {A B} (m : res A) (k : A -> res B) b :
  rbind m k = Ok b -> exists a, m = Ok a /\ k a = Ok b.
Proof. destruct m; simpl; [eauto|discriminate]. Qed.

(** Loop rule: an invariant indexed by the part of the list already consumed. *)
Lemma foldM_inv {A B} (f : A -> B -> res A) (Inv : list B -> A -> Prop) :
  forall l pre acc,
  Inv pre acc ->
  (forall p x s a, pre ++ l = p ++ x :: s -> Inv p a -> exists a', f a x = Ok a' /\ Inv (p ++ [x]) a') ->
  exists a', foldM f l acc = Ok a' /\ Inv (pre ++ l) a'.
Proof.
  induction l as [|x l IH]; intros pre acc H0 Hs; simpl.
  - exists acc. split; auto. now rewrite app_nil_r.
  - destruct (Hs pre x l acc eq_refl H0) as (a' & E & H1).
    rewrite E; simpl.
    destruct (IH (pre ++ [x]) a' H1) as (a'' & E' & H2).
    + intros p y s a Heq. apply Hs with (s := s). rewrite <- Heq, <- app_assoc. reflexivity.
    + exists a''. split; auto. now rewrite <- app_assoc in H2.
Qed.

Lemma foldM_rule {A B} (f : A -> B -> res A) (Inv : list B -> A -> Prop) l acc :
  Inv [] acc ->
  (forall p x s a, l = p ++ x :: s -> Inv p a -> exists a', f a x = Ok a' /\ Inv (p ++ [x]) a') ->
  exists a', foldM f l acc = Ok a' /\ Inv l a'.
Proof. intros. apply (foldM_inv f Inv l [] acc); auto. Qed.

(** The same with an invariant that does not look at the consumed part. *)
Lemma foldM_const {A B} (f : A -> B -> res A) (Inv : A -> Prop) l acc :
  Inv acc ->
  (forall x a, In x l -> Inv a -> exists a', f a x = Ok a' /\ Inv a') ->
  exists a', foldM f l acc = Ok a' /\ Inv a'.
Proof.
  intros H0 Hs. apply (foldM_rule f (fun _ a => Inv a)); auto.
  intros p x s a -> Ha. apply Hs; auto. apply in_or_app; simpl; auto.
Qed.

Lemma foldM_app {A B} (f : A -> B -> res A) l1 l2 acc :
  foldM f (l1 ++ l2) acc = rbind (foldM f l1 acc) (foldM f l2).
Proof. revert acc; induction l1; intros; simpl; auto. destruct (f acc a); simpl; auto. Qed.

Lemma foldM_ext {A B} (f g : A -> B -> res A) l acc :
  (forall a x, In x l -> f a x = g a x) -> foldM f l acc = foldM g l acc.
Proof.
  revert acc; induction l as [|x l IH]; intros acc H; simpl; auto.
  rewrite H by (simpl; auto). destruct (g acc x); simpl; auto.
  apply IH. intros; apply H; simpl; auto.
Qed.

Lemma foldM_map {A B C} (f : A -> C -> res A) (h : B -> C) l acc :
  foldM f (map h l) acc = foldM (fun a x => f a (h x)) l acc.
Proof. revert acc; induction l; intros; simpl; auto. destruct (f acc (h a)); simpl; auto. Qed.

Lemma foldM_total {A B} (f : A -> B -> res A) (g : A -> B -> A) l acc :
  (forall a x, In x l -> f a x = Ok (g a x)) -> foldM f l acc = Ok (fold_left g l acc).
Proof.
  revert acc; induction l as [|x l IH]; intros acc H; simpl; auto.
  rewrite H by (simpl; auto). simpl. apply IH. intros; apply H; simpl; auto.
Qed.

Lemma mapM_total {A B} (f : A -> res B) (g : A -> B) l :
  (forall x, In x l -> f x = Ok (g x)) -> mapM f l = Ok (map g l).
Proof.
  induction l as [|x l IH]; intros H; simpl; auto.
  rewrite H by (simpl; auto). simpl. rewrite IH by (intros; apply H; simpl; auto). reflexivity.
Qed.

(** ** Ranges *)
Lemma zrange_length n : length (zrange n) = Z.to_nat n.
Proof. unfold zrange. now rewrite map_length, seq_length. Qed.
Lemma zlen_zrange n : 0 <= n -> zlen (zrange n) = n.
Proof. intros. unfold zlen. rewrite zrange_length. lia. Qed.
Lemma In_zrange n x : In x (zrange n) <-> 0 <= x < n.
Proof.
  unfold zrange. rewrite in_map_iff. split.
  - intros (k & <- & Hk). apply in_seq in Hk. lia.
  - intros H. exists (Z.to_nat x). split; [lia|]. apply in_seq. lia.
Qed.
Lemma NoDup_zrange n : NoDup (zrange n).
Proof.
  unfold zrange. apply FinFun.Injective_map_NoDup; [|apply seq_NoDup].
  intros x y; lia.
Qed.
Lemma zrange_S n : 0 <= n -> zrange (n + 1) = zrange n ++ [n].
Proof.
  intros. unfold zrange. replace (Z.to_nat (n + 1)) with (S (Z.to_nat n)) by lia.
  rewrite seq_S, map_app. simpl. now rewrite Z2Nat.id by lia.
Qed.
Lemma zrange_0 : zrange 0 = [].
Proof. reflexivity. Qed.
Lemma at_zrange d n j : 0 <= j < n -> at_ d (zrange n) j = j.
Proof.
  intros. unfold at_, zrange. replace (0 <=? j) with true by lia.
  rewrite (nth_indep _ d (Z.of_nat 0)) by (rewrite map_length, seq_length; lia).
  rewrite map_nth, seq_nth; lia.
Qed.
(** Splitting a range: the consumed prefix is a range itself. *)
Lemma zrange_split n p x s : zrange n = p ++ x :: s -> 0 <= x < n /\ p = zrange x.
Proof.
  intros E.
  assert (Hx : 0 <= x < n) by (apply In_zrange; rewrite E; apply in_or_app; simpl; auto).
  split; auto.
  assert (Hlen : zlen p + 1 + zlen s = n).
  { rewrite <- (zlen_zrange n) by lia. rewrite E, zlen_app. unfold zlen. simpl length. lia. }
  assert (Hpx : zlen p = x).
  { pose proof (at_zrange 0 n (zlen p)) as Ha.
    pose proof (zlen_nonneg p). pose proof (zlen_nonneg s).
    assert (Hr : 0 <= zlen p < n) by lia. specialize (Ha Hr). rewrite E in Ha.
    rewrite <- Ha. unfold at_, zlen.
    rewrite (proj2 (Z.leb_le 0 (Z.of_nat (length p)))) by apply Nat2Z.is_nonneg.
    rewrite Nat2Z.id, nth_middle. reflexivity. }
  apply (at_ext 0); [rewrite zlen_zrange; lia|].
  intros j Hj. rewrite at_zrange by lia.
  transitivity (at_ 0 (zrange n) j); [|apply at_zrange; lia].
  rewrite E. unfold at_, zlen in *. destruct (0 <=? j); auto. rewrite app_nth1; auto. lia.
Qed.

(** ** Membership and removal *)
Lemma zmem_In x l : zmem x l = true <-> In x l.
Proof.
  unfold zmem. rewrite existsb_exists. split.
  - intros (y & Hy & E). apply Z.eqb_eq in E. now subst.
  - intros. exists x. split; auto. apply Z.eqb_refl.
Qed.
Lemma zmem_false x l : zmem x l = false <-> ~ In x l.
Proof. rewrite <- zmem_In. destruct (zmem x l); split; congruence. Qed.

Lemma passert_true b : b = true -> passert b = Ok tt.
Proof. now intros ->. Qed.

(** ** max / min *)
Lemma fold_max_spec l a :
  a <= fold_left Z.max l a /\ (forall x, In x l -> x <= fold_left Z.max l a) /\
  In (fold_left Z.max l a) (a :: l).
Proof.
  revert a; induction l as [|h t IH]; intros a; simpl.
  - split; [lia|]. split; [tauto|auto].
  - destruct (IH (Z.max a h)) as (H1 & H2 & H3). split; [lia|]. split.
    + intros x [<-|Hx]; [lia|auto].
    + simpl in H3. destruct H3 as [H3|H3]; auto.
      rewrite <- H3. destruct (Z.max_spec a h) as [[_ ->]|[_ ->]]; auto.
Qed.
Lemma fold_min_spec l a :
  fold_left Z.min l a <= a /\ (forall x, In x l -> fold_left Z.min l a <= x) /\
  In (fold_left Z.min l a) (a :: l).
Proof.
  revert a; induction l as [|h t IH]; intros a; simpl.
  - split; [lia|]. split; [tauto|auto].
  - destruct (IH (Z.min a h)) as (H1 & H2 & H3). split; [lia|]. split.
    + intros x [<-|Hx]; [lia|auto].
    + simpl in H3. destruct H3 as [H3|H3]; auto.
      rewrite <- H3. destruct (Z.min_spec a h) as [[_ ->]|[_ ->]]; auto.
Qed.
