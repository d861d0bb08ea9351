(** * RawProps: proofs of C120. *)
From Coq Require Import ZArith List Bool Lia.
From Verif Require Import Py Lattice Cluster Perc Spec PyFacts Geometry LatFacts BareProps Raw RawSpec.
Import ListNotations.
Open Scope Z_scope.

Lemma zlen_map0 {A B} (f : A -> B) l : zlen (map f l) = zlen l.
Proof. unfold zlen. now rewrite map_length. Qed.
Lemma lget_obj {A} (l : list A) i : lget (map Obj l) i = (x <- lget l i ;; Ok (Obj x)).
Proof. unfold lget. rewrite zlen_map0. destruct (py_pos (zlen l) i) as [k|]; [|reflexivity]. rewrite nth_error_map. destruct (nth_error l k); reflexivity. Qed.
Lemma cget_obj {A} (l : list A) i : cget (map Obj l) i = lget l i.
Proof. unfold cget. rewrite lget_obj. destruct (lget l i); reflexivity. Qed.
Lemma upd_map {A B} (f : A -> B) l k v : upd (map f l) k (f v) = map f (upd l k v).
Proof. revert k. induction l as [|x l IH]; intros [|k]; cbn; auto. now rewrite IH. Qed.
Lemma lset_obj {A} (l : list A) i v : lset (map Obj l) i (Obj v) = (x <- lset l i v ;; Ok (map Obj x)).
Proof. unfold lset. rewrite zlen_map0. destruct (py_pos (zlen l) i) as [k|]; [|reflexivity]. cbn [rbind]. now rewrite upd_map. Qed.
Lemma foldM_emb {A A' B} (emb : A -> A') (f : A -> B -> res A) (f' : A' -> B -> res A') l :
  (forall a x, f' (emb a) x = (r <- f a x ;; Ok (emb r))) -> forall a, foldM f' l (emb a) = (r <- foldM f l a ;; Ok (emb r)).
Proof.
  intros H. induction l as [|x l IH]; intros a; [reflexivity|]. cbn [foldM]. rewrite H. destruct (f a x) as [r|e]; [|reflexivity]. cbn [rbind]. apply IH.
Qed.
Lemma foldM_map {A B C} (f : A -> C -> res A) (g : B -> C) l : forall a, foldM f (map g l) a = foldM (fun a x => f a (g x)) l a.
Proof. induction l as [|x l IH]; intros a; [reflexivity|]. cbn [foldM map]. destruct (f a (g x)); [|reflexivity]. cbn [rbind]. apply IH. Qed.
Lemma foldM_ext {A B} (f g : A -> B -> res A) l : (forall a x, f a x = g a x) -> forall a, foldM f l a = foldM g l a.
Proof. intros H. induction l as [|x l IH]; intros a; [reflexivity|]. cbn [foldM]. rewrite H. destruct (g a x); [|reflexivity]. cbn [rbind]. apply IH. Qed.
Lemma mapM_ext {A B} (f g : A -> res B) l : (forall x, f x = g x) -> mapM f l = mapM g l.
Proof. intros H. induction l as [|x l IH]; [reflexivity|]. cbn [mapM]. now rewrite H, IH. Qed.

(** ** Building *)
Definition sim {A} (l' : list (cell A)) (l : list A) : Prop := length l' = length l /\ forall i a, nth_error l' i = Some (Obj a) -> nth_error l i = Some a.
Definition filled {A} (l : list (cell A)) (i : Z) : Prop := exists a, nth_error l (Z.to_nat i) = Some (Obj a).

Lemma nth_error_upd {A} (l : list A) k v i : nth_error (upd l k v) i = if Nat.eqb i k then match nth_error l i with Some _ => Some v | None => None end else nth_error l i.
Proof. revert k i. induction l as [|x l IH]; intros k i; destruct k, i; cbn; auto. - now destruct (Nat.eqb i k). Qed.
Lemma sim_upd {A} (l' : list (cell A)) l k v : sim l' l -> sim (upd l' k (Obj v)) (upd l k v).
Proof.
  intros (E & H). split; [now rewrite !upd_length|]. intros i a. rewrite !nth_error_upd. destruct (Nat.eqb_spec i k) as [->|]; [|apply H].
  destruct (nth_error l' k) eqn:Q; [|discriminate]. intros X. injection X as <-. assert (K : (k < length l)%nat) by (rewrite <- E; apply nth_error_Some; congruence).
  apply nth_error_Some in K. now destruct (nth_error l k).
Qed.
Lemma sim_zlen {A} (l' : list (cell A)) (l : list A) : sim l' l -> zlen l' = zlen l.
Proof. intros (E & _). unfold zlen. now rewrite E. Qed.
Lemma filled_upd {A} (l : list (cell A)) k v i : filled l i -> filled (upd l k (Obj v)) i.
Proof. intros (a & E). unfold filled. rewrite nth_error_upd. destruct (Nat.eqb (Z.to_nat i) k); rewrite E; eauto. Qed.
Lemma filled_here {A} (l : list (cell A)) v i : 0 <= i < zlen l -> filled (upd l (Z.to_nat i) (Obj v)) i.
Proof.
  intros H. unfold filled. rewrite nth_error_upd, Nat.eqb_refl. destruct (nth_error l (Z.to_nat i)) eqn:E; eauto. apply nth_error_None in E. unfold zlen in H. lia.
Qed.

Record rel (L : Z) (w : raw) (lat : lattice) : Prop := mkRel {
  r_len : w_len w = L; r_len' : l_length lat = L; r_bc : w_bc w = l_bond_count lat; r_sc : w_sc w = l_site_count lat;
  r_s : sim (w_sites w) (l_sites lat); r_b : sim (w_bonds w) (l_bonds lat);
  r_zs : zlen (w_sites w) = L * L; r_zb : zlen (w_bonds w) = 2 * (L * L) }.

Lemma build_step L w lat rr cc : rel L w lat -> 0 <= rr < L -> 0 <= cc < L ->
  exists w' lat',
    (let s_index := rr * w_len w + cc in let v_bond_index := s_index + w_len w * w_len w in
     ss <- lset (w_sites w) s_index (Obj (new_site rr cc s_index)) ;;
     bs <- lset (w_bonds w) s_index (Obj (new_bond rr cc 0 s_index)) ;;
     bs <- lset bs v_bond_index (Obj (new_bond rr cc 1 v_bond_index)) ;;
     Ok (w_with_bonds (w_with_sites w ss) bs)) = Ok w' /\
    (let s_index := rr * l_length lat + cc in let v_bond_index := s_index + l_length lat * l_length lat in
     ss <- lset (l_sites lat) s_index (new_site rr cc s_index) ;;
     bs <- lset (l_bonds lat) s_index (new_bond rr cc 0 s_index) ;;
     bs <- lset bs v_bond_index (new_bond rr cc 1 v_bond_index) ;;
     Ok (with_bonds (with_sites lat ss) bs)) = Ok lat' /\
    rel L w' lat' /\
    (forall i, filled (w_sites w) i -> filled (w_sites w') i) /\ (forall i, filled (w_bonds w) i -> filled (w_bonds w') i) /\
    filled (w_sites w') (rr * L + cc) /\ filled (w_bonds w') (rr * L + cc) /\ filled (w_bonds w') (rr * L + cc + L * L).
Proof.
  intros [A A' B C S T Z1 Z2] Hr Hc. cbv zeta. rewrite A, A'. set (i := rr * L + cc).
  assert (Hi : 0 <= i < L * L) by (unfold i; nia).
  pose proof (sim_zlen _ _ S) as S1. pose proof (sim_zlen _ _ T) as T1.
  rewrite !lset_in by lia. cbn [rbind]. rewrite !lset_in by (rewrite zlen_upd; lia). cbn [rbind].
  do 2 eexists. split; [reflexivity|]. split; [reflexivity|].
  cbn [w_with_bonds w_with_sites w_sites w_bonds]. split; [|split; [|split; [|split; [|split]]]].
  - constructor; cbn; auto; rewrite ?zlen_upd; auto; [now apply sim_upd|now apply sim_upd, sim_upd].
  - intros j. apply filled_upd.
  - intros j F. now apply filled_upd, filled_upd.
  - apply filled_here. lia.
  - apply filled_upd, filled_here. lia.
  - apply filled_here. rewrite zlen_upd. lia.
Qed.
Lemma in_rc L p : In p (rc_pairs L) <-> 0 <= fst p < L /\ 0 <= snd p < L.
Proof.
  unfold rc_pairs. rewrite in_flat_map. split.
  - intros (r & Hr & H). apply in_map_iff in H. destruct H as (c & <- & Hc). apply In_zrange in Hr, Hc. now cbn.
  - intros (H1 & H2). exists (fst p). split; [now apply In_zrange|]. apply in_map_iff. exists (snd p). split; [now destruct p|now apply In_zrange].
Qed.
Lemma build_loop L ps : (forall p, In p ps -> 0 <= fst p < L /\ 0 <= snd p < L) -> forall w lat, rel L w lat ->
  exists w' lat',
    foldM (fun w '(rr, cc) =>
      let s_index := rr * w_len w + cc in let v_bond_index := s_index + w_len w * w_len w in
      ss <- lset (w_sites w) s_index (Obj (new_site rr cc s_index)) ;;
      bs <- lset (w_bonds w) s_index (Obj (new_bond rr cc 0 s_index)) ;;
      bs <- lset bs v_bond_index (Obj (new_bond rr cc 1 v_bond_index)) ;;
      Ok (w_with_bonds (w_with_sites w ss) bs)) ps w = Ok w' /\
    foldM (fun lat '(rr, cc) =>
      let s_index := rr * l_length lat + cc in let v_bond_index := s_index + l_length lat * l_length lat in
      ss <- lset (l_sites lat) s_index (new_site rr cc s_index) ;;
      bs <- lset (l_bonds lat) s_index (new_bond rr cc 0 s_index) ;;
      bs <- lset bs v_bond_index (new_bond rr cc 1 v_bond_index) ;;
      Ok (with_bonds (with_sites lat ss) bs)) ps lat = Ok lat' /\
    rel L w' lat' /\
    (forall i, filled (w_sites w) i -> filled (w_sites w') i) /\ (forall i, filled (w_bonds w) i -> filled (w_bonds w') i) /\
    (forall p, In p ps -> filled (w_sites w') (fst p * L + snd p) /\ filled (w_bonds w') (fst p * L + snd p) /\ filled (w_bonds w') (fst p * L + snd p + L * L)).
Proof.
  induction ps as [|(rr, cc) ps IH]; intros Hp w lat R.
  - exists w, lat. repeat split; auto; try apply R; contradiction.
  - destruct (build_step L w lat rr cc R) as (w1 & lat1 & E1 & E1' & R1 & F1 & G1 & P1 & P2 & P3); try (apply (Hp (rr, cc)); now left).
    destruct (IH (fun p I => Hp p (or_intror I)) w1 lat1 R1) as (w' & lat' & E2 & E2' & R2 & F2 & G2 & Q).
    exists w', lat'. cbn [foldM]. cbv zeta in E1, E1'. rewrite E1, E1'. cbn [rbind]. split; [exact E2|]. split; [exact E2'|]. split; [exact R2|]. split; [auto|]. split; [auto|].
    intros p [<-|I]; [|now apply Q]. cbn [fst snd]. auto.
Qed.
Lemma sim_full {A} (l' : list (cell A)) l : sim l' l -> (forall i, 0 <= i < zlen l' -> filled l' i) -> l' = map Obj l.
Proof.
  intros (E & H) F. apply (nth_ext _ _ Zero Zero); [now rewrite map_length|]. intros n Hn. destruct (F (Z.of_nat n)) as (a & Q); [unfold zlen; lia|]. rewrite Nat2Z.id in Q.
  rewrite (nth_error_nth _ _ _ Q). pose proof (H _ _ Q) as Q'. symmetry. apply nth_error_nth. rewrite nth_error_map, Q'. reflexivity.
Qed.
Lemma find_nb lat s : w_find_neighbor_bonds (raw_of lat) s = find_neighbor_bonds lat s.
Proof. reflexivity. Qed.
Lemma init_ids_emb lat : w_init_ids (raw_of lat) = (r <- init_ids lat ;; Ok (raw_of r)).
Proof.
  unfold w_init_ids, init_ids. change (w_len (raw_of lat)) with (l_length lat). apply (foldM_emb raw_of). intros a (rr, cc).
  rewrite find_nb. change (w_len (raw_of a)) with (l_length a). set (s0 := rr * l_length a + cc). set (bs0 := find_neighbor_bonds a s0).
  destruct (passert (zlen bs0 =? 4)) as [u|e]; [|reflexivity]. cbn [rbind]. cbn [raw_of w_sites w_bonds]. rewrite cget_obj. destruct (lget (l_sites a) s0) as [s|e]; [|reflexivity]. cbn [rbind].
  rewrite lset_obj. destruct (lset (l_sites a) s0 _) as [ss|e]; [|reflexivity]. cbn [rbind].
  rewrite (foldM_emb (map Obj) (fun bs bb => b <- lget bs bb ;; lset bs bb (bond_add_connected_site b s0))).
  - destruct (foldM _ bs0 (l_bonds a)) as [bs|e]; reflexivity.
  - intros l x. rewrite cget_obj. destruct (lget l x) as [b|e]; [|reflexivity]. cbn [rbind]. apply lset_obj.
Qed.
Lemma sim_zero {A} n (a : A) : sim (repeat Zero n) (repeat a n).
Proof.
  split; [now rewrite !repeat_length|]. intros i x E. exfalso. apply nth_error_In, repeat_spec in E. discriminate.
Qed.
Lemma zlen_rep {A} (a : A) n : 0 <= n -> zlen (repeat a (Z.to_nat n)) = n.
Proof. intros. unfold zlen. rewrite repeat_length. lia. Qed.

(** C120 *)
Lemma p_C120_nonneg L : 0 <= L -> exists lat, new_lattice L = Ok lat /\ w_new L = Ok (raw_of lat).
Proof.
  intros HL. destruct (Z.eq_dec L 0) as [->|HL']; [eexists; split; vm_compute; reflexivity|].
  destruct (new_lattice_static L ltac:(lia)) as (lat & E & _). exists lat. split; [exact E|].
  unfold new_lattice in E. destruct (Z.ltb_spec L 0); [lia|]. unfold w_new.
  match type of E with (_ <- init_lattice ?x ;; _) = _ => set (lat0 := x) in * end.
  match goal with |- (_ <- w_init_lattice ?x ;; _) = _ => set (w0 := x) end.
  assert (R0 : rel L w0 lat0) by (constructor; try reflexivity; try apply sim_zero; apply zlen_rep; nia).
  destruct (build_loop L (rc_pairs L) (fun p I => proj1 (in_rc L p) I) w0 lat0 R0) as (w1 & lat1 & E1 & E1' & R1 & _ & _ & Q).
  assert (X1 : w_init_lattice w0 = Ok w1) by exact E1. assert (X2 : init_lattice lat0 = Ok lat1) by exact E1'. rewrite X1. cbn [rbind]. rewrite X2 in E. cbn [rbind] in E.
  assert (K : forall i, 0 <= i < L * L -> exists p, In p (rc_pairs L) /\ fst p * L + snd p = i).
  { intros i Hi. exists (i / L, i mod L). split; [apply in_rc; cbn; split; [split; [apply Z.div_pos; lia|apply Z.div_lt_upper_bound; lia]|apply Z.mod_pos_bound; lia]|]. cbn. rewrite (Z.div_mod i L) at 3 by lia. lia. }
  assert (X : w1 = raw_of lat1).
  { destruct R1 as [a1 a2 a3 a4 a5 a6 a7 a8]. unfold raw_of. rewrite <- (sim_full _ _ a5), <- (sim_full _ _ a6).
    - rewrite a2, <- a3, <- a4, <- a1. now destruct w1.
    - rewrite a8. intros i Hi. destruct (Z_lt_ge_dec i (L * L)) as [h|h].
      + destruct (K i ltac:(lia)) as (p & I & <-). now apply Q.
      + destruct (K (i - L * L) ltac:(lia)) as (p & I & Ep). replace i with (fst p * L + snd p + L * L) by lia. now apply Q.
    - rewrite a7. intros i Hi. destruct (K i Hi) as (p & I & <-). now apply Q. }
  rewrite X, init_ids_emb, E. reflexivity.
Qed.
Lemma p_C120_negative L : L < 0 -> w_new L = Ok (zeros L) /\ w_init_lattice (zeros L) = Ok (zeros L) /\ w_init_ids (zeros L) = Ok (zeros L).
Proof.
  intros H. assert (E : rc_pairs L = []) by (unfold rc_pairs, zrange; destruct L; try lia; reflexivity).
  assert (A : w_init_lattice (zeros L) = Ok (zeros L)) by (unfold w_init_lattice; change (w_len (zeros L)) with L; now rewrite E).
  assert (B : w_init_ids (zeros L) = Ok (zeros L)) by (unfold w_init_ids; change (w_len (zeros L)) with L; now rewrite E).
  split; [|now split]. unfold w_new. fold (zeros L). now rewrite A.
Qed.

Lemma lget_zero {A} n i : 0 <= n -> lget (repeat (@Zero A) (Z.to_nat n)) i = if (- n <=? i) && (i <? n) then Ok Zero else Err IndexError.
Proof.
  intros Hn. destruct (any_index (repeat (@Zero A) (Z.to_nat n)) i) as [(j & (Hj & Hi) & E & _)|(N & E & _)]; rewrite zlen_rep in * by exact Hn; rewrite E.
  - destruct (Z.leb_spec (- n) i); [|lia]. destruct (Z.ltb_spec i n); [|lia]. cbn [andb]. rewrite (lget_in Zero) by (rewrite zlen_rep; lia). f_equal. unfold at_. destruct (0 <=? j); [|reflexivity].
    destruct (nth_in_or_default (Z.to_nat j) (repeat (@Zero A) (Z.to_nat n)) Zero) as [I|I]; [|exact I]. now apply repeat_spec in I.
  - destruct (Z.leb_spec (- n) i), (Z.ltb_spec i n); cbn [andb]; try reflexivity; lia.
Qed.
Lemma cget_zero {A} n i : 0 <= n -> cget (repeat (@Zero A) (Z.to_nat n)) i = Err (if (- n <=? i) && (i <? n) then AttributeError else IndexError).
Proof. intros H. unfold cget. rewrite lget_zero by exact H. now destruct ((- n <=? i) && (i <? n)). Qed.
Lemma rep_cons {A} (a : A) n : 0 < n -> exists t, repeat a (Z.to_nat n) = a :: t.
Proof. intros H. destruct (Z.to_nat n) eqn:E; [lia|]. cbn. eauto. Qed.

Lemma p_C120_unusable L : L < 0 -> let w := zeros L in let n := L * L in
  w_reset w = (w, Err AttributeError) /\
  (forall i, - n <= i < n -> w_get_site_by_id w i = Ok Zero) /\ (forall i, - (2 * n) <= i < 2 * n -> w_get_bond_by_id w i = Ok Zero) /\
  (forall i g, w_set_site_gid_by_id w i g = Err (bad n i) /\ w_get_site_gid_by_id w i = Err (bad n i)) /\
  (forall i g, w_set_bond_gid_by_id w i g = Err (bad (2 * n) i) /\ w_get_bond_gid_by_id w i = Err (bad (2 * n) i)) /\
  (forall i, w_get_neighbor_bonds w i = Err (bad n i) /\ w_get_site_neighbor_of_site w i = Err (bad n i) /\ w_get_sites_for_wrapping_test w i = Err (bad n i) /\ w_get_all_neighbor_sites w i = Err (bad n i)) /\
  (forall i, w_get_neighbor_sites w i = Err (bad (2 * n) i)) /\
  (forall i r, w_set_relative_index w i r = Err (bad n i)) /\
  w_scan_sites w = Err AttributeError /\ w_scan_bonds w = Err AttributeError /\
  w_test_neighbor_count w = Err AttributeError /\ (forall g, w_test_lattice w g = Err AttributeError) /\
  w_init_clusters w = Err AttributeError.
Proof.
  intros HL. cbv zeta. assert (H1 : 0 <= L * L) by nia. assert (H0 : 0 < L * L) by nia. assert (H2 : 0 <= 2 * (L * L)) by lia.
  destruct (rep_cons (@Zero site) (L * L) H0) as (ts & Es). destruct (rep_cons (@Zero bond) (2 * (L * L)) ltac:(lia)) as (tb & Eb).
  assert (P : forall n i, - n <= i < n -> (- n <=? i) && (i <? n) = true) by (intros n i H; destruct (Z.leb_spec (- n) i), (Z.ltb_spec i n); try reflexivity; lia).
  split. { unfold w_reset. cbn [zeros w_sites]. rewrite Es. cbn [reset_cells]. unfold w_with_sites, zeros. cbn. now rewrite Es. }
  split. { intros i Hi. unfold w_get_site_by_id, zeros. cbn [w_sites]. now rewrite lget_zero, P. }
  split. { intros i Hi. unfold w_get_bond_by_id, zeros. cbn [w_bonds]. now rewrite lget_zero, P. }
  split. { intros i g. unfold w_set_site_gid_by_id, w_get_site_gid_by_id, zeros. cbn [w_sites]. now rewrite cget_zero. }
  split. { intros i g. unfold w_set_bond_gid_by_id, w_get_bond_gid_by_id, zeros. cbn [w_bonds]. now rewrite cget_zero. }
  split. { intros i. unfold w_get_all_neighbor_sites, w_get_site_neighbor_of_site, w_get_sites_for_wrapping_test, w_get_neighbor_bonds, zeros. cbn [w_sites]. now rewrite cget_zero. }
  split. { intros i. unfold w_get_neighbor_sites, zeros. cbn [w_bonds]. now rewrite cget_zero. }
  split. { intros i r. unfold w_set_relative_index. cbn [zeros w_sites w_sc]. unfold bad.
    destruct (any_index (zrange (L * L)) i) as [(j & (Hj & Hi) & E & _)|(N & E & _)]; rewrite zlen_zrange in * by exact H1; rewrite E.
    - rewrite (lget_in 0) by (rewrite zlen_zrange; lia). cbn [rbind]. rewrite cget_zero by exact H1. rewrite (P (L * L) i) by lia.
      assert (I : In (at_ 0 (zrange (L * L)) j) (zrange (L * L))). { unfold at_. destruct (Z.leb_spec 0 j); [|lia]. apply nth_In. pose proof (zlen_zrange (L * L) H1) as Q. unfold zlen in Q. lia. }
      apply In_zrange in I. rewrite P by lia. reflexivity.
    - destruct (Z.leb_spec (- (L * L)) i), (Z.ltb_spec i (L * L)); cbn [andb]; try reflexivity; lia. }
  split. { unfold w_scan_sites. cbn [zeros w_sites]. now rewrite Es. }
  split. { unfold w_scan_bonds. cbn [zeros w_bonds]. now rewrite Eb. }
  split. { unfold w_test_neighbor_count. cbn [zeros w_sites]. now rewrite Es. }
  split. { intros g. unfold w_test_lattice. cbn [zeros w_sites]. now rewrite Es. }
  unfold w_init_clusters. cbn [zeros w_bc]. assert (Z0 : exists t, zrange (2 * (L * L)) = 0 :: t).
  { unfold zrange. destruct (Z.to_nat (2 * (L * L))) eqn:E; [lia|]. cbn. eauto. }
  destruct Z0 as (t & ->). cbn [foldM]. unfold w_create_new_cluster. cbn [foldM rbind]. unfold w_set_bond_gid_by_id. fold (zeros L). cbn [zeros w_bonds]. rewrite cget_zero by exact H2. rewrite P by lia. reflexivity.
Qed.

Lemma reset_cells_obj {A} (f : A -> A) l : reset_cells f (map Obj l) = (map Obj (map f l), Ok tt).
Proof. induction l as [|x l IH]; [reflexivity|]. cbn [map reset_cells]. now rewrite IH. Qed.
Lemma set_site_emb lat i g : w_set_site_gid_by_id (raw_of lat) i g = emb (set_site_gid_by_id lat i g).
Proof. unfold w_set_site_gid_by_id, set_site_gid_by_id, emb. cbn [raw_of w_sites]. rewrite cget_obj. destruct (lget (l_sites lat) i); [|reflexivity]. cbn [rbind]. rewrite lset_obj. destruct (lset (l_sites lat) i _); reflexivity. Qed.
Lemma set_bond_emb lat i g : w_set_bond_gid_by_id (raw_of lat) i g = emb (set_bond_gid_by_id lat i g).
Proof. unfold w_set_bond_gid_by_id, set_bond_gid_by_id, emb. cbn [raw_of w_bonds]. rewrite cget_obj. destruct (lget (l_bonds lat) i); [|reflexivity]. cbn [rbind]. rewrite lset_obj. destruct (lset (l_bonds lat) i _); reflexivity. Qed.
Lemma nbs_emb lat i : w_get_neighbor_sites (raw_of lat) i = get_neighbor_sites lat i.
Proof. unfold w_get_neighbor_sites. cbn [raw_of w_bonds]. now rewrite cget_obj. Qed.
Lemma nbb_emb lat i : w_get_neighbor_bonds (raw_of lat) i = get_neighbor_bonds lat i.
Proof. unfold w_get_neighbor_bonds. cbn [raw_of w_sites]. now rewrite cget_obj. Qed.

Lemma p_C120_agree lat :
  w_reset (raw_of lat) = (raw_of (lattice_reset lat), Ok tt) /\
  (forall i g, w_set_site_gid_by_id (raw_of lat) i g = emb (set_site_gid_by_id lat i g)) /\
  (forall i g, w_set_bond_gid_by_id (raw_of lat) i g = emb (set_bond_gid_by_id lat i g)) /\
  (forall i r, w_set_relative_index (raw_of lat) i r = emb (lat_set_relative_index lat i r)) /\
  (forall i, w_get_site_by_id (raw_of lat) i = (s <- get_site_by_id lat i ;; Ok (Obj s))) /\
  (forall i, w_get_bond_by_id (raw_of lat) i = (b <- get_bond_by_id lat i ;; Ok (Obj b))) /\
  (forall i, w_get_site_gid_by_id (raw_of lat) i = get_site_gid_by_id lat i) /\
  (forall i, w_get_bond_gid_by_id (raw_of lat) i = get_bond_gid_by_id lat i) /\
  (forall i, w_get_neighbor_bonds (raw_of lat) i = get_neighbor_bonds lat i) /\
  (forall i, w_get_neighbor_sites (raw_of lat) i = get_neighbor_sites lat i) /\
  (forall i, w_get_site_neighbor_of_site (raw_of lat) i = get_site_neighbor_of_site lat i) /\
  (forall i, w_get_sites_for_wrapping_test (raw_of lat) i = get_sites_for_wrapping_test lat i) /\
  (forall i, w_get_all_neighbor_sites (raw_of lat) i = get_all_neighbor_sites lat i) /\
  w_scan_sites (raw_of lat) = scan_sites lat /\ w_scan_bonds (raw_of lat) = scan_bonds lat /\
  w_test_neighbor_count (raw_of lat) = test_neighbor_count lat /\ (forall g, w_test_lattice (raw_of lat) g = lat_test_lattice lat g) /\
  w_init_ids (raw_of lat) = emb (init_ids lat) /\
  w_init_clusters (raw_of lat) = ('(p, l) <- init_clusters lat ;; Ok (p, raw_of l)).
Proof.
  split. { unfold w_reset. cbn [raw_of w_sites w_bonds]. now rewrite !reset_cells_obj. }
  split; [intros; apply set_site_emb|]. split; [intros; apply set_bond_emb|].
  split. { intros i r. unfold w_set_relative_index, lat_set_relative_index, emb. cbn [raw_of w_sites w_sc]. destruct (lget (zrange (l_site_count lat)) i) as [j|e]; [|reflexivity]. cbn [rbind].
    rewrite cget_obj. destruct (lget (l_sites lat) j); [|reflexivity]. cbn [rbind]. rewrite lset_obj. destruct (lset (l_sites lat) j _); reflexivity. }
  split; [intros i; apply lget_obj|]. split; [intros i; apply lget_obj|].
  split; [intros i; unfold w_get_site_gid_by_id; cbn [raw_of w_sites]; now rewrite cget_obj|].
  split; [intros i; unfold w_get_bond_gid_by_id; cbn [raw_of w_bonds]; now rewrite cget_obj|].
  split; [apply nbb_emb|]. split; [apply nbs_emb|].
  split. { intros i. unfold w_get_site_neighbor_of_site, get_site_neighbor_of_site. rewrite nbb_emb. destruct (get_neighbor_bonds lat i) as [l|e]; [|reflexivity]. cbn [rbind]. apply mapM_ext. intros x. now rewrite nbs_emb. }
  split. { intros i. unfold w_get_sites_for_wrapping_test, get_sites_for_wrapping_test. cbn [raw_of w_sites]. rewrite cget_obj. destruct (lget (l_sites lat) i) as [c|e]; [|reflexivity]. cbn [rbind]. apply foldM_ext. intros o x.
    fold (raw_of lat). rewrite nbs_emb. destruct (get_neighbor_sites lat x) as [nn|e]; [|reflexivity]. cbn [rbind]. destruct (lremove i nn) as [nn'|e]; [|reflexivity]. cbn [rbind]. destruct (lget nn' 0); [|reflexivity]. cbn [rbind]. now rewrite cget_obj. }
  split. { intros i. unfold w_get_all_neighbor_sites, get_all_neighbor_sites. rewrite nbb_emb. destruct (get_neighbor_bonds lat i) as [l|e]; [|reflexivity]. cbn [rbind].
    erewrite mapM_ext; [reflexivity|]. intros x. cbn beta. now rewrite nbs_emb. }
  split. { unfold w_scan_sites, scan_sites. cbn [raw_of w_sites]. rewrite foldM_map. apply foldM_ext. intros u x. cbn [obj rbind]. fold (raw_of lat). change (w_calculate_id (raw_of lat)) with (calculate_id_from_index lat).
    destruct (passert (s_id x =? _)); [|reflexivity]. cbn [rbind]. destruct (passert (zlen (s_bonds x) =? 4)); [|reflexivity]. cbn [rbind]. apply foldM_ext. intros v y. now rewrite nbs_emb. }
  split. { unfold w_scan_bonds, scan_bonds. cbn [raw_of w_bonds]. rewrite foldM_map. apply foldM_ext. intros u x. cbn [obj rbind]. fold (raw_of lat). change (w_calculate_id (raw_of lat)) with (calculate_id_from_index lat).
    destruct (passert (b_id x =? _)); [|reflexivity]. cbn [rbind]. destruct (passert (zlen (b_sites x) =? 2)); [|reflexivity]. cbn [rbind]. apply foldM_ext. intros v y. now rewrite nbb_emb. }
  split. { unfold w_test_neighbor_count, test_neighbor_count. cbn [raw_of w_sites w_bonds]. now rewrite !foldM_map. }
  split. { intros g. unfold w_test_lattice, lat_test_lattice. cbn [raw_of w_sites w_bonds]. now rewrite !foldM_map. }
  split; [apply init_ids_emb|].
  unfold w_init_clusters, init_clusters. change (w_bc (raw_of lat)) with (l_bond_count lat).
  set (em := fun q : cpool * lattice => (fst q, raw_of (snd q))). change (empty_pool, raw_of lat) with (em (empty_pool, lat)).
  rewrite (foldM_emb em (fun '(p, lat) bb => create_new_cluster p [] [bb] lat)).
  - destruct (foldM _ (zrange (l_bond_count lat)) (empty_pool, lat)) as [(p, l)|e]; reflexivity.
  - intros (p, l) x. unfold em. cbn [fst snd]. unfold w_create_new_cluster, create_new_cluster. cbn [foldM rbind]. rewrite set_bond_emb. unfold emb. destruct (set_bond_gid_by_id l x (p_next p)); reflexivity.
Qed.

Lemma p_C120_constructor E k L t0 :
  (0 <= L -> exists lat w, new_lattice L = Ok lat /\ w_new L = Ok w /\ w_init_clusters w = ('(p, l) <- init_clusters lat ;; Ok (p, raw_of l))) /\
  (L < 0 -> exists w, w_new L = Ok w /\ w_init_clusters w = Err AttributeError /\ new_perc E k L t0 = Err AttributeError).
Proof.
  split.
  - intros H. destruct (p_C120_nonneg L H) as (lat & A & B). exists lat, (raw_of lat). split; [exact A|]. split; [exact B|]. apply p_C120_agree.
  - intros H. exists (zeros L). split; [now apply p_C120_negative|]. split; [now apply p_C120_unusable|]. unfold new_perc, new_lattice. destruct (Z.ltb_spec L 0); [reflexivity|lia].
Qed.
