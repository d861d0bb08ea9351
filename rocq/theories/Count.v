(** * Count: counting elements of lists of integers. *)
From Coq Require Import ZArith List Bool Lia Permutation.
From Verif Require Import Py PyFacts.
Import ListNotations.
Open Scope Z_scope.

Definition count {A} (f : A -> bool) (l : list A) : Z := zlen (filter f l).
Definition zsum (l : list Z) : Z := fold_right Z.add 0 l.

Lemma zlen_cons {A} (x : A) l : zlen (x :: l) = zlen l + 1.
Proof. unfold zlen. cbn [length]. lia. Qed.
Lemma zlen_nil {A} : zlen (@nil A) = 0.
Proof. reflexivity. Qed.
Lemma zlen_0 {A} (l : list A) : zlen l = 0 -> l = [].
Proof. destruct l; auto. rewrite zlen_cons. pose proof (zlen_nonneg l). lia. Qed.
Lemma zlen_perm {A} (l l' : list A) : Permutation l l' -> zlen l = zlen l'.
Proof. intros H. unfold zlen. now rewrite (Permutation_length H). Qed.

Lemma count_nil {A} (f : A -> bool) : count f [] = 0.
Proof. reflexivity. Qed.
Lemma count_cons {A} (f : A -> bool) x l : count f (x :: l) = (if f x then 1 else 0) + count f l.
Proof. unfold count. cbn [filter]. destruct (f x); [rewrite zlen_cons|]; lia. Qed.
Lemma count_app {A} (f : A -> bool) l l' : count f (l ++ l') = count f l + count f l'.
Proof. induction l; cbn [app]; rewrite ?count_cons, ?count_nil, ?IHl; lia. Qed.
Lemma count_nonneg {A} (f : A -> bool) l : 0 <= count f l.
Proof. apply zlen_nonneg. Qed.
Lemma count_ext {A} (f g : A -> bool) l : (forall x, In x l -> f x = g x) -> count f l = count g l.
Proof.
  induction l as [|a l IH]; intros H; auto. rewrite !count_cons, (H a) by (simpl; auto).
  rewrite IH; auto. intros; apply H; simpl; auto.
Qed.
Lemma count_le {A} (f g : A -> bool) l : (forall x, In x l -> f x = true -> g x = true) ->
  count f l <= count g l.
Proof.
  induction l as [|a l IH]; intros H; [rewrite !count_nil; lia|]. rewrite !count_cons.
  assert (count f l <= count g l) by (apply IH; intros; apply H; simpl; auto).
  pose proof (H a (or_introl eq_refl)). destruct (f a), (g a); lia || intuition congruence.
Qed.
Lemma count_all {A} (f : A -> bool) l : (forall x, In x l -> f x = true) -> count f l = zlen l.
Proof.
  induction l as [|a l IH]; intros H; auto. rewrite count_cons, zlen_cons, (H a) by (simpl; auto).
  rewrite IH; [lia|]. intros; apply H; simpl; auto.
Qed.
Lemma count_none {A} (f : A -> bool) l : (forall x, In x l -> f x = false) -> count f l = 0.
Proof.
  induction l as [|a l IH]; intros H; auto. rewrite count_cons, (H a) by (simpl; auto).
  rewrite IH; [lia|]. intros; apply H; simpl; auto.
Qed.
Lemma count_le_len {A} (f : A -> bool) l : count f l <= zlen l.
Proof. rewrite <- (count_all (fun _ => true) l) by auto. apply count_le. auto. Qed.
Lemma count_full {A} (f : A -> bool) l : count f l = zlen l -> forall x, In x l -> f x = true.
Proof.
  induction l as [|a l IH]; intros H x Hx; [destruct Hx|].
  rewrite count_cons, zlen_cons in H. pose proof (count_le_len f l).
  destruct (f a) eqn:Ef; [|lia]. destruct Hx as [->|Hx]; auto. apply IH; auto. lia.
Qed.
Lemma count_zero {A} (f : A -> bool) l : count f l = 0 -> forall x, In x l -> f x = false.
Proof.
  induction l as [|a l IH]; intros H x Hx; [destruct Hx|].
  rewrite count_cons in H. pose proof (count_nonneg f l).
  destruct (f a) eqn:Ef; [lia|]. destruct Hx as [->|Hx]; [auto|apply IH; auto; lia].
Qed.
Lemma count_pos {A} (f : A -> bool) l x : In x l -> f x = true -> 1 <= count f l.
Proof.
  intros Hx Hf. pose proof (count_nonneg f l).
  destruct (Z.eq_dec (count f l) 0) as [E|E]; [|lia].
  pose proof (count_zero f l E x Hx). congruence.
Qed.
Lemma count_ex {A} (f : A -> bool) l : 0 < count f l -> exists x, In x l /\ f x = true.
Proof.
  induction l as [|a l IH]; intros H; [rewrite count_nil in H; lia|].
  rewrite count_cons in H. destruct (f a) eqn:Ef; [exists a; simpl; auto|].
  destruct IH as (x & Hx & E); [lia|]. exists x; simpl; auto.
Qed.

(** A duplicate-free list of exactly the elements counted. *)
Lemma count_list (f : Z -> bool) n l : NoDup l ->
  (forall x, In x l <-> 0 <= x < n /\ f x = true) -> zlen l = count f (zrange n).
Proof.
  intros N H. unfold count. apply zlen_perm. apply NoDup_Permutation; auto.
  - apply NoDup_filter. apply NoDup_zrange.
  - intros x. rewrite filter_In, H, In_zrange. tauto.
Qed.

(** Adding one element to the counted set. *)
Lemma count_add1 (f g : Z -> bool) l s : NoDup l -> In s l -> f s = false ->
  (forall x, In x l -> g x = (x =? s) || f x) -> count g l = count f l + 1.
Proof.
  induction l as [|a l IH]; intros N Hs Hf Hg; [destruct Hs|].
  rewrite !count_cons. inversion N as [|? ? Na Nl]; subst.
  rewrite (Hg a) by (simpl; auto). destruct Hs as [->|Hs].
  - rewrite Z.eqb_refl, Hf. cbn [orb].
    rewrite (count_ext g f l); [lia|]. intros x Hx. rewrite Hg by (simpl; auto).
    destruct (Z.eqb_spec x s); [subst; tauto|reflexivity].
  - destruct (Z.eqb_spec a s); [subst; tauto|]. cbn [orb].
    rewrite IH; auto; [lia|]. intros; apply Hg; simpl; auto.
Qed.

(** Counting by value of a function. *)
Lemma zsum_cons a b : zsum (a :: b) = a + zsum b.
Proof. reflexivity. Qed.
Lemma zsum_app a b : zsum (a ++ b) = zsum a + zsum b.
Proof. induction a as [|x a IH]; cbn [app]; [reflexivity|]. rewrite !zsum_cons, IH. lia. Qed.
Lemma zsum_map_0 {A} (f : A -> Z) l : (forall x, In x l -> f x = 0) -> zsum (map f l) = 0.
Proof.
  induction l as [|a l IH]; intros H; auto. cbn [map]. rewrite zsum_cons, (H a), IH; auto.
  - intros; apply H; simpl; auto.
  - simpl; auto.
Qed.
Lemma zsum_map_add {A} (f g h : A -> Z) l : (forall x, In x l -> f x = g x + h x) ->
  zsum (map f l) = zsum (map g l) + zsum (map h l).
Proof.
  induction l as [|a l IH]; intros H; auto. cbn [map]. rewrite !zsum_cons, (H a), IH.
  - lia.
  - intros; apply H; simpl; auto.
  - simpl; auto.
Qed.
Lemma zsum_map_ext {A} (f g : A -> Z) l : (forall x, In x l -> f x = g x) ->
  zsum (map f l) = zsum (map g l).
Proof. intros H. f_equal. apply map_ext_in. exact H. Qed.
Lemma zsum_ind K x : NoDup K -> zsum (map (fun c => if x =? c then 1 else 0) K) = if zmem x K then 1 else 0.
Proof.
  induction K as [|a K IH]; intros N; auto. inversion N; subst. cbn [map].
  rewrite zsum_cons. unfold zmem. cbn [existsb]. fold (zmem x K).
  destruct (Z.eqb_spec x a).
  - subst. cbn [orb]. rewrite zsum_map_0; [lia|]. intros y Hy.
    destruct (Z.eqb_spec a y); [subst; tauto|auto].
  - cbn [orb]. rewrite IH; auto.
Qed.
Lemma count_sum {A} (h : A -> Z) l K : NoDup K ->
  zsum (map (fun c => count (fun b => h b =? c) l) K) = count (fun b => zmem (h b) K) l.
Proof.
  intros N. induction l as [|a l IH].
  - rewrite count_nil. apply zsum_map_0. auto.
  - rewrite count_cons, <- IH.
    rewrite (zsum_map_add _ (fun c => if h a =? c then 1 else 0)
               (fun c => count (fun b => h b =? c) l)).
    + rewrite zsum_ind; auto.
    + intros c _. now rewrite count_cons.
Qed.
Lemma zsum_perm l l' : Permutation l l' -> zsum l = zsum l'.
Proof.
  induction 1; rewrite ?zsum_cons; lia.
Qed.
Lemma zsum_nonneg l : (forall x, In x l -> 0 <= x) -> 0 <= zsum l.
Proof.
  induction l as [|a l IH]; intros H; [cbn; lia|]. rewrite zsum_cons.
  pose proof (H a (or_introl eq_refl)). assert (0 <= zsum l) by (apply IH; intros; apply H; simpl; auto). lia.
Qed.
Lemma zsum_ge_in l x : (forall x, In x l -> 0 <= x) -> In x l -> x <= zsum l.
Proof.
  induction l as [|a l IH]; intros H Hx; [destruct Hx|]. destruct Hx as [->|Hx]; rewrite zsum_cons.
  - assert (0 <= zsum l) by (apply zsum_nonneg; intros; apply H; simpl; auto). lia.
  - pose proof (H a (or_introl eq_refl)). assert (x <= zsum l) by (apply IH; auto; intros; apply H; simpl; auto). lia.
Qed.

(** Two disjoint counted sets inside a third. *)
Lemma count_disj {A} (f g h : A -> bool) l : (forall x, In x l -> f x = true -> h x = true /\ g x = false) ->
  (forall x, In x l -> g x = true -> h x = true) -> count f l + count g l <= count h l.
Proof.
  induction l as [|a l IH]; intros H1 H2; [rewrite !count_nil; lia|]. rewrite !count_cons.
  assert (count f l + count g l <= count h l)
    by (apply IH; intros; [apply H1|apply H2]; simpl; auto).
  pose proof (H1 a (or_introl eq_refl)). pose proof (H2 a (or_introl eq_refl)).
  destruct (f a), (g a), (h a); lia || intuition congruence.
Qed.
Lemma count_inj {A B} (f : A -> bool) (g : B -> bool) (h : A -> B) l m : NoDup l ->
  (forall x, In x l -> f x = true -> In (h x) m /\ g (h x) = true) ->
  (forall x y, In x l -> In y l -> f x = true -> f y = true -> h x = h y -> x = y) ->
  count f l <= count g m.
Proof.
  intros N H1 H2. unfold count, zlen. rewrite <- (map_length h (filter f l)).
  apply inj_le. apply NoDup_incl_length.
  - assert (Hin : forall x, In x (filter f l) -> In x l /\ f x = true) by (intros; now apply filter_In).
    assert (NF : NoDup (filter f l)) by now apply NoDup_filter.
    induction (filter f l) as [|a r IH]; cbn [map]; constructor; inversion NF; subst.
    + intros Hx. apply in_map_iff in Hx as (y & E & Hy).
      destruct (Hin a (or_introl eq_refl)). destruct (Hin y (or_intror Hy)).
      assert (y = a) by (apply H2; auto). subst; tauto.
    + apply IH; auto. intros; apply Hin; simpl; auto.
  - intros y Hy. apply in_map_iff in Hy as (x & <- & Hx). apply filter_In in Hx as [Hx Hf].
    apply filter_In. now apply H1.
Qed.
