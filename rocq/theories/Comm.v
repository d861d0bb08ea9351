(** * Comm: placements and detections neither read nor write the recorded arrays. *)
From Coq Require Import ZArith List Bool Lia.
From Verif Require Import Py Lattice Cluster Perc.
Import ListNotations.
Open Scope Z_scope.

Definition commutes {A} (put : perc -> perc) (m : M A) : Prop :=
  forall s, m (put s) = (put (fst (m s)), snd (m s)).

Section Rules.
Variable put : perc -> perc.
Lemma cm_ret {A} (a : A) : commutes put (ret a).
Proof. intros s. reflexivity. Qed.
Lemma cm_raise {A} e : commutes put (@raise A e).
Proof. intros s. reflexivity. Qed.
Lemma cm_lift {A} (r : res A) : commutes put (lift r).
Proof. intros s. reflexivity. Qed.
Lemma cm_bind {A B} (m : M A) (k : A -> M B) : commutes put m -> (forall a, commutes put (k a)) ->
  commutes put (mbind m k).
Proof.
  intros Hm Hk s. unfold mbind. rewrite Hm. destruct (m s) as [s' [a|e]]; cbn [fst snd]; [apply Hk|reflexivity].
Qed.
Lemma cm_get {B} (k : perc -> M B) : (forall s, k (put s) = k s) -> (forall s, commutes put (k s)) ->
  commutes put (mbind get k).
Proof. intros H1 H2 s. unfold mbind, get. rewrite H1. apply H2. Qed.
Lemma cm_modify f : (forall s, f (put s) = put (f s)) -> commutes put (modify f).
Proof. intros H s. unfold modify. rewrite H. reflexivity. Qed.
Lemma cm_need {A} (o : option A) : commutes put (need o).
Proof. destruct o; intros s; reflexivity. Qed.
End Rules.

Ltac cm1 :=
  match goal with
  | |- commutes _ (mbind get _) => apply cm_get; [intros; reflexivity|intros]
  | |- commutes _ (mbind _ _) => apply cm_bind; [|intros]
  | |- commutes _ (ret _) => apply cm_ret
  | |- commutes _ (raise _) => apply cm_raise
  | |- commutes _ (lift _) => apply cm_lift
  | |- commutes _ (need _) => apply cm_need
  | |- commutes _ (modify _) => apply cm_modify; intros; reflexivity
  | |- commutes _ (let '(_, _) := ?p in _) => destruct p
  | |- commutes _ (if ?b then _ else _) => destruct b
  | |- commutes _ (match ?x with _ => _ end) => destruct x
  end.
Ltac cm := repeat cm1.

Definition put_arrs p h pw pl b (s : perc) : perc := set_first_run b (set_arrs p h pw pl s).

Lemma cm_randint put E a b : (forall s, tick (put s) = tick s) -> (forall t s, set_tick t (put s) = put (set_tick t s)) ->
  commutes put (randint E a b).
Proof.
  intros H1 H2. unfold randint. destruct (b <? a); [apply cm_raise|]. intros s. unfold mbind, get, modify, ret. cbn [fst snd].
  now rewrite H1, H2.
Qed.
Ltac cmr := repeat (cm; try match goal with |- commutes _ (randint _ _ _) => apply cm_randint; reflexivity end).

Section Arrs.
Variables (p h pw pl : list fexpr) (b : bool).
Let put := put_arrs p h pw pl b.
Lemma cm_select_id id : commutes put (select_id id).
Proof. unfold select_id. cm. Qed.
Lemma cm_select_base : commutes put select_site_base.
Proof. unfold select_site_base. cm; try apply cm_select_id. Qed.
Lemma cm_drop rnd : commutes put (drop_candidate rnd).
Proof. unfold drop_candidate. cm. Qed.
Lemma cm_select_L1 E : commutes put (select_site_L1 E).
Proof. unfold select_site_L1. cbv zeta. repeat (cmr; try match goal with |- commutes _ (select_id _) => apply cm_select_id | |- commutes _ (drop_candidate _) => apply cm_drop end). Qed.
Lemma cm_select_L2 E : commutes put (select_site_L2 E).
Proof. unfold select_site_L2. cbv zeta. repeat (cmr; try match goal with |- commutes _ (select_id _) => apply cm_select_id | |- commutes _ (drop_candidate _) => apply cm_drop end). Qed.
Lemma cm_place E : commutes put (place_one_site E).
Proof.
  unfold place_one_site, select_site. apply cm_bind.
  - apply cm_get; [intros; reflexivity|]. intros s.
    destruct (kind s); first [apply cm_select_base | apply cm_select_L1 | apply cm_select_L2].
  - intros f. apply cm_bind; [apply cm_modify; reflexivity|]. intros _. unfold track_largest_cluster. cm.
Qed.
Lemma cm_detect : commutes put detect_wrapping.
Proof. unfold detect_wrapping. cbv zeta. cm. Qed.
End Arrs.
