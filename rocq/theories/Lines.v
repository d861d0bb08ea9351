(** * Lines: the row and column scans of the shortest-path class, and the shape of its run. *)
From Coq Require Import ZArith List Bool Lia Permutation.
From Verif Require Import Py Lattice Cluster Perc Spec PyFacts Torus Geometry LatFacts Inv Merge Count Fresh Select State Step History Reach StateProps RunProps.
Import ListNotations.
Open Scope Z_scope.

Lemma and_fold (f : Z -> bool) l : forall b, fold_left (fun b x => if negb (f x) then false else b) l b = b && forallb f l.
Proof.
  induction l as [|x l IH]; intros b; cbn [fold_left forallb]; [now rewrite andb_true_r|]. rewrite IH.
  destruct (f x), b; reflexivity.
Qed.
Lemma and_fold2 (f g : Z -> bool) l : forall b c,
  fold_left (fun '(b, c) x => (if negb (f x) then false else b, if negb (g x) then false else c)) l (b, c) =
  (b && forallb f l, c && forallb g l).
Proof.
  induction l as [|x l IH]; intros b c; cbn [fold_left forallb]; [now rewrite !andb_true_r|]. rewrite IH.
  destruct (f x), (g x), b, c; reflexivity.
Qed.
Lemma rc_site L r c : 0 <= r < L -> 0 <= c < L -> is_site L (r * L + c).
Proof. intros. unfold is_site. nia. Qed.

Definition lineb (L : Z) (s : perc) (id_of : Z -> Z) : bool := forallb (fun x => sg (lat s) (id_of x) =? wid s) (zrange L).
Lemma lineb_true L s id_of : lineb L s id_of = true <-> forall x, 0 <= x < L -> sg (lat s) (id_of x) = wid s.
Proof.
  unfold lineb. rewrite forallb_forall. split; intros H x Hx.
  - apply Z.eqb_eq, H. now apply In_zrange.
  - apply Z.eqb_eq, H. now apply In_zrange.
Qed.
Lemma scan_row_col_ok L s r c : Static L (lat s) -> 0 <= r < L -> 0 <= c < L ->
  scan_row_col_of_selected_site s (r, c) = Ok (lineb L s (fun x => r * L + x), lineb L s (fun x => x * L + c)).
Proof.
  intros St Hr Hc. unfold scan_row_col_of_selected_site. rewrite (st_len _ _ St).
  rewrite (foldM_total _ (fun '(b, c0) x => (if negb (sg (lat s) (r * L + x) =? wid s) then false else b,
    if negb (sg (lat s) (x * L + c) =? wid s) then false else c0))).
  - rewrite (and_fold2 (fun x => sg (lat s) (r * L + x) =? wid s) (fun x => sg (lat s) (x * L + c) =? wid s)). reflexivity.
  - intros [a b] x Hx. apply In_zrange in Hx. unfold get_id_from_index. rewrite (st_len _ _ St).
    rewrite !(get_site_gid_ok L) by (auto; now apply rc_site). reflexivity.
Qed.
Lemma scan_lines_ok L s id_of l : Static L (lat s) -> (forall a b, In a l -> 0 <= b < L -> is_site L (id_of a b)) ->
  scan_lines s id_of l = Ok (existsb (fun a => lineb L s (id_of a)) l).
Proof.
  intros St H. induction l as [|a l IH]; [reflexivity|]. cbn [scan_lines existsb]. rewrite (st_len _ _ St).
  rewrite (foldM_total _ (fun f x => if negb (sg (lat s) (id_of a x) =? wid s) then false else f)).
  - rewrite (and_fold (fun x => sg (lat s) (id_of a x) =? wid s)). cbn [rbind andb]. fold (lineb L s (id_of a)).
    destruct (lineb L s (id_of a)); [reflexivity|]. apply IH. intros; apply H; auto. now right.
  - intros f x Hx. apply In_zrange in Hx. rewrite (get_site_gid_ok L) by (auto; apply H; auto; now left). reflexivity.
Qed.
Lemma wid_sign L s : Inv L s -> (wid s <? 0) = negb (after_wrap s).
Proof.
  intros H. pose proof (i_wrap _ _ H) as W. unfold WrapOK in W. destruct (after_wrap s); cbn [negb].
  - destruct W as (_ & (W & _) & _). lia.
  - destruct W as (-> & _). reflexivity.
Qed.
Lemma p_C51 E L s : env_ok E -> reachable E L s ->
  (exists b, scan_all_rows s = Ok b /\
     (b = true <-> after_wrap s = true /\ exists c, 0 <= c < L /\ forall r, 0 <= r < L -> site_label s (r * L + c) = wid s)) /\
  (exists b, scan_all_cols s = Ok b /\
     (b = true <-> after_wrap s = true /\ exists r, 0 <= r < L /\ forall c, 0 <= c < L -> site_label s (r * L + c) = wid s)) /\
  (forall r c, 0 <= r < L -> 0 <= c < L -> exists cf rf, scan_row_col_of_selected_site s (r, c) = Ok (cf, rf) /\
     (cf = true <-> forall x, 0 <= x < L -> site_label s (r * L + x) = wid s) /\
     (rf = true <-> forall x, 0 <= x < L -> site_label s (x * L + c) = wid s)).
Proof.
  intros HE HR. pose proof (reachable_inv E L s HE HR) as H. pose proof (i_static _ _ H) as St.
  assert (Q : forall r c, 0 <= r < L -> 0 <= c < L -> site_label s (r * L + c) = sg (lat s) (r * L + c)).
  { intros r c Hr Hc. apply (site_label_sg L); auto. now apply rc_site. }
  split; [|split].
  - unfold scan_all_rows. rewrite (wid_sign L s H), (st_len _ _ St). destruct (after_wrap s); cbn [negb].
    + rewrite (scan_lines_ok L) by (auto; intros a b Ha Hb; apply In_zrange in Ha; unfold get_id_from_index; rewrite (st_len _ _ St); now apply rc_site).
      eexists. split; [reflexivity|]. rewrite existsb_exists. split.
      * intros (c & Hc & Hl). apply In_zrange in Hc. split; auto. exists c. split; auto. intros r Hr. rewrite Q by auto.
        rewrite lineb_true in Hl. unfold get_id_from_index in Hl. rewrite (st_len _ _ St) in Hl. auto.
      * intros (_ & c & Hc & Hl). exists c. split; [now apply In_zrange|]. apply lineb_true. intros r Hr. unfold get_id_from_index.
        rewrite (st_len _ _ St), <- Q by auto. auto.
    + exists false. split; auto. split; [discriminate|intros (? & _); discriminate].
  - unfold scan_all_cols. rewrite (wid_sign L s H), (st_len _ _ St). destruct (after_wrap s); cbn [negb].
    + rewrite (scan_lines_ok L) by (auto; intros a b Ha Hb; apply In_zrange in Ha; unfold get_id_from_index; rewrite (st_len _ _ St); now apply rc_site).
      eexists. split; [reflexivity|]. rewrite existsb_exists. split.
      * intros (c & Hc & Hl). apply In_zrange in Hc. split; auto. exists c. split; auto. intros r Hr. rewrite Q by auto.
        rewrite lineb_true in Hl. unfold get_id_from_index in Hl. rewrite (st_len _ _ St) in Hl. auto.
      * intros (_ & c & Hc & Hl). exists c. split; [now apply In_zrange|]. apply lineb_true. intros r Hr. unfold get_id_from_index.
        rewrite (st_len _ _ St), <- Q by auto. auto.
    + exists false. split; auto. split; [discriminate|intros (? & _); discriminate].
  - intros r c Hr Hc. do 2 eexists. split; [now apply (scan_row_col_ok L)|]. rewrite !lineb_true.
    split; split; intros G x Hx; specialize (G x Hx); rewrite ?Q in * by auto; auto.
Qed.
