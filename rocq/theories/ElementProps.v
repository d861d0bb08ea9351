(** * ElementProps: proofs of C117 and C118. *)
From Coq Require Import String ZArith QArith Qabs List Bool Lia Permutation.
From Verif Require Import Py Lattice Cluster Perc Spec History Heap Run View PyFacts Geometry Reach GeomProps RunProps Element ElementSpec.
Import ListNotations.
Open Scope Z_scope.

Lemma site_after_snoc cs c s : site_after (cs ++ [c]) s = fst (fst (site_do c (site_after cs s))).
Proof. unfold site_after. now rewrite fold_left_app. Qed.
Lemma site_after_app cs ds s : site_after (cs ++ ds) s = site_after ds (site_after cs s).
Proof. unfold site_after. now rewrite fold_left_app. Qed.
Lemma bond_after_snoc cs c s : bond_after (cs ++ [c]) s = fst (bond_do c (bond_after cs s)).
Proof. unfold bond_after. now rewrite fold_left_app. Qed.
Lemma bond_after_app cs ds s : bond_after (cs ++ ds) s = bond_after ds (bond_after cs s).
Proof. unfold bond_after. now rewrite fold_left_app. Qed.

Lemma zlen_len {A} (l : list A) : zlen l = Z.of_nat (length l).
Proof. reflexivity. Qed.

Lemma flat_map_one {A B} (f : A -> list B) a : flat_map f [a] = f a.
Proof. cbn. apply app_nil_r. Qed.

Lemma gathered_same n o ids : gathered n o ids -> gathered n (o ++ []) ids.
Proof. now rewrite app_nil_r. Qed.
Lemma gathered_full n o ids x : gathered n o ids -> (n <= length ids)%nat -> gathered n (o ++ x) ids.
Proof.
  intros (u & r & Q & Qi & H & G) F. exists u, (r ++ x). split; [now rewrite Q, app_assoc|]. split; [exact Qi|]. split; [auto|exact G].
Qed.
Lemma gathered_take n o ids g : gathered n o ids -> (length ids < n)%nat -> gathered n (o ++ [g]) (ids ++ g).
Proof.
  intros (u & r & Q & Qi & H & G) F. destruct r as [|r0 r].
  - rewrite app_nil_r in Q. subst o. exists (u ++ [g]), []. split; [now rewrite app_nil_r|]. split; [rewrite concat_app, Qi; cbn; now rewrite app_nil_r|].
    split; [now intros []|]. intros v h E. apply app_inj_tail in E. destruct E as (-> & _). now rewrite <- Qi.
  - exfalso. assert (n <= length ids)%nat by (apply H; discriminate). lia.
Qed.
Lemma gathered_nil n : gathered n [] [].
Proof. exists [], []. split; [reflexivity|]. split; [reflexivity|]. split; [now intros []|]. intros [|? ?] g E; discriminate E. Qed.

Lemma add_bonds a s : ls_bonds (fst (ls_add a s)) =
  if (4 <=? length (ls_bonds s))%nat then ls_bonds s else ls_bonds s ++ List.concat (offer 4 a).
Proof.
  unfold ls_add. rewrite zlen_len. destruct (Nat.leb_spec 4 (length (ls_bonds s))) as [H|H].
  - destruct (Z.leb_spec 4 (Z.of_nat (length (ls_bonds s)))); [reflexivity|lia].
  - destruct (Z.leb_spec 4 (Z.of_nat (length (ls_bonds s)))); [lia|]. destruct a as [x|l]; [reflexivity|]. cbn [offer]. rewrite zlen_len.
    destruct (Nat.eqb_spec (length l) 4) as [E|E]; destruct (Z.eqb_spec (Z.of_nat (length l)) 4); try lia; cbn; now rewrite ?app_nil_r.
Qed.
Lemma add_sites a b : lb_sites (fst (lb_add a b)) =
  if (2 <=? length (lb_sites b))%nat then lb_sites b else lb_sites b ++ List.concat (offer 2 a).
Proof.
  unfold lb_add. rewrite zlen_len. destruct (Nat.leb_spec 2 (length (lb_sites b))) as [H|H].
  - destruct (Z.leb_spec 2 (Z.of_nat (length (lb_sites b)))); [reflexivity|lia].
  - destruct (Z.leb_spec 2 (Z.of_nat (length (lb_sites b)))); [lia|]. destruct a as [x|l]; [reflexivity|]. cbn [offer]. rewrite zlen_len.
    destruct (Nat.eqb_spec (length l) 2) as [E|E]; destruct (Z.eqb_spec (Z.of_nat (length l)) 2); try lia; cbn; now rewrite ?app_nil_r.
Qed.
Lemma offer_cases n a : offer n a = [] \/ exists g, offer n a = [g] /\ (length g = 1%nat \/ length g = n).
Proof. destruct a as [x|l]; cbn; [right; eexists; split; [reflexivity|now left]|]. destruct (Nat.eqb_spec (length l) n); [right; eexists; split; [reflexivity|now right]|now left]. Qed.
Lemma step_gathered n a o ids : gathered n o ids ->
  gathered n (o ++ offer n a) (if (n <=? length ids)%nat then ids else ids ++ List.concat (offer n a)).
Proof.
  intros H. destruct (Nat.leb_spec n (length ids)) as [F|F]; [now apply gathered_full|].
  destruct (offer_cases n a) as [->|(g & -> & _)]; cbn [List.concat]; rewrite ?app_nil_r; [exact H|]. now apply gathered_take.
Qed.

(** Which attributes a call leaves alone. *)
Lemma do_bonds c s : ls_bonds (fst (fst (site_do c s))) = match c with SAdd a => ls_bonds (fst (ls_add a s)) | _ => ls_bonds s end.
Proof. destruct c; try reflexivity; cbn [site_do]; unfold ls_reduce1, ls_reduce2, passert, rbind; cbn; repeat match goal with |- context [if ?b then _ else _] => destruct b; cbn end; reflexivity. Qed.

Lemma do_kept c s : let t := fst (fst (site_do c s)) in
  ls_index t = ls_index s /\ ls_id t = match c with SSetId i => Some i | _ => ls_id s end /\
  ls_gid t = match c with SSetGid g => g | SReset => -1 | _ => ls_gid s end /\
  ls_rel t = match c with SReset | SInitRel => new_rel 0 0 | SSetRel r => r | _ => ls_rel s end.
Proof.
  destruct c; cbn; try (repeat split; reflexivity).
  - unfold ls_add. destruct (4 <=? zlen (ls_bonds s)); [auto|]. destruct a as [x|l]; [cbn; auto|]. destruct (zlen l =? 4); cbn; auto.
  - unfold ls_reduce1, passert, rbind. repeat match goal with |- context [if ?b then _ else _] => destruct b; cbn end; auto.
  - unfold ls_reduce2, passert, rbind. repeat match goal with |- context [if ?b then _ else _] => destruct b; cbn end; auto.
Qed.

Lemma do_nn c s : 0 <= ls_nn1 s -> 0 <= ls_nn2 s -> let t := fst (fst (site_do c s)) in
  ls_nn1 t = match c with SReduce1 => Z.max 0 (ls_nn1 s - 1) | SReset => 4 | _ => ls_nn1 s end /\
  ls_nn2 t = match c with SReduce2 => Z.max 0 (ls_nn2 s - 1) | SReset => 4 | _ => ls_nn2 s end /\
  snd (site_do c s) = Ok tt.
Proof.
  intros H1 H2. destruct c; cbn; try (repeat split; reflexivity).
  - unfold ls_add. destruct (4 <=? zlen (ls_bonds s)); [auto|]. destruct a as [x|l]; [cbn; auto|]. destruct (zlen l =? 4); cbn; auto.
  - unfold ls_reduce1, passert, rbind. destruct (Z.leb_spec (ls_nn1 s) 0).
    + destruct (Z.leb_spec 0 (ls_nn1 s)); [|lia]. cbn. split; [lia|auto].
    + cbn. split; [lia|auto].
  - unfold ls_reduce2, passert, rbind. destruct (Z.leb_spec (ls_nn2 s) 0).
    + destruct (Z.leb_spec 0 (ls_nn2 s)); [|lia]. cbn. split; [auto|split; [lia|auto]].
    + cbn. split; [auto|split; [lia|auto]].
Qed.

Lemma nn_pos cs row col : let s := site_after cs (lone_site_new row col) in 0 <= ls_nn1 s <= 4 /\ 0 <= ls_nn2 s <= 4.
Proof.
  induction cs as [|c cs IH] using rev_ind; cbn zeta; [cbn; lia|]. rewrite site_after_snoc. cbn zeta in IH.
  destruct (do_nn c (site_after cs (lone_site_new row col)) ltac:(lia) ltac:(lia)) as (Q1 & Q2 & _). cbn zeta in Q1, Q2. rewrite Q1, Q2. destruct c; lia.
Qed.

(** C117: the bonds of a site. *)
Lemma site_bonds cs row col : gathered 4 (site_offers cs) (ls_connecting_bonds (site_after cs (lone_site_new row col))).
Proof.
  unfold ls_connecting_bonds. induction cs as [|c cs IH] using rev_ind; [apply gathered_nil|].
  rewrite site_after_snoc, do_bonds. unfold site_offers in *. rewrite flat_map_app, flat_map_one.
  destruct c; try (rewrite app_nil_r; exact IH). rewrite add_bonds. now apply step_gathered.
Qed.
Lemma gathered_len n o ids : (0 < n)%nat -> gathered n o ids -> Forall (fun g => length g = 1%nat \/ length g = n) o -> (length ids <= 2 * n - 1)%nat.
Proof.
  intros Hn (u & r & Q & Qi & H & G) F. destruct u as [|h u] using rev_ind; [subst ids; cbn; lia|].
  specialize (G u h eq_refl). assert (length h = 1%nat \/ length h = n). { rewrite Forall_forall in F. apply F. rewrite Q. apply in_or_app. left. apply in_or_app. right. now left. }
  subst ids. rewrite concat_app, app_length. cbn. rewrite app_nil_r. lia.
Qed.
Lemma offers_len cs : Forall (fun g => length g = 1%nat \/ length g = 4%nat) (site_offers cs).
Proof.
  apply Forall_forall. intros g I. apply in_flat_map in I. destruct I as (c & _ & I). destruct c; try contradiction.
  destruct (offer_cases 4 a) as [Q|(g' & Q & L)]; rewrite Q in I; [contradiction|]. destruct I as [<-|[]]. exact L.
Qed.
Lemma bond_offers_len cs : Forall (fun g => length g = 1%nat \/ length g = 2%nat) (bond_offers cs).
Proof.
  apply Forall_forall. intros g I. apply in_flat_map in I. destruct I as (c & _ & I). destruct c; try contradiction.
  destruct (offer_cases 2 a) as [Q|(g' & Q & L)]; rewrite Q in I; [contradiction|]. destruct I as [<-|[]]. exact L.
Qed.
Lemma gathered_one n o ids l : gathered n o ids -> length l = n -> (0 < n)%nat -> o = [l] -> ids = l.
Proof.
  intros (u & r & Q & Qi & H & G) Hl Hn E. rewrite E in Q. destruct u as [|h u].
  - cbn in Q. subst r ids. cbn in H. specialize (H ltac:(discriminate)). lia.
  - injection Q as <- Q. symmetry in Q. apply app_eq_nil in Q. destruct Q as (-> & ->). subst ids. cbn. apply app_nil_r.
Qed.

Lemma singles_gathered n o : Forall (fun g : list Z => length g = 1%nat) o -> forall ids, gathered n o ids -> ids = firstn n (List.concat o).
Proof.
  intros F ids (u & r & Q & Qi & H & G). rewrite Q, concat_app, <- Qi.
  assert (Lu : (length ids <= n)%nat).
  { destruct u as [|h u] using rev_ind; [subst ids; cbn; lia|]. specialize (G u h eq_refl).
    assert (length h = 1%nat). { rewrite Forall_forall in F. apply F. rewrite Q. apply in_or_app. left. apply in_or_app. right. now left. }
    subst ids. rewrite concat_app, app_length. cbn. rewrite app_nil_r. lia. }
  destruct r as [|r0 r].
  - cbn. rewrite app_nil_r. symmetry. now apply firstn_all2.
  - specialize (H ltac:(discriminate)). assert (E : length ids = n) by lia. rewrite firstn_app, E, Nat.sub_diag. cbn. rewrite app_nil_r. rewrite <- E. now rewrite firstn_all.
Qed.

Lemma prefix_cases {A} (a b c d : list A) : a ++ b = c ++ d -> (exists x, c = a ++ x /\ b = x ++ d) \/ (exists x, a = c ++ x /\ d = x ++ b).
Proof.
  revert c. induction a as [|h a IH]; intros c E; [left; now exists c|]. destruct c as [|k c]; [right; exists (h :: a); auto|].
  injection E as <- E. destruct (IH c E) as [(x & -> & ->)|(x & -> & ->)]; [left|right]; now exists x.
Qed.
Lemma gathered_unique n o i j : gathered n o i -> gathered n o j -> i = j.
Proof.
  assert (W : forall u r v s : list (list Z), u ++ r = v ++ s -> (r <> [] -> (n <= length (List.concat u))%nat) ->
    (forall w g, v = w ++ [g] -> (length (List.concat w) < n)%nat) -> forall x, v = u ++ x -> x = []).
  { intros u r v s E H G x Q. destruct x as [|h x _] using rev_ind; [reflexivity|]. exfalso. rewrite Q in G, E. rewrite app_assoc in G. specialize (G _ _ eq_refl).
    rewrite concat_app, app_length in G. assert (r <> []). { intros ->. rewrite app_nil_r, <- !app_assoc in E. apply (f_equal (@length _)) in E. rewrite !app_length in E. cbn in E. lia. }
    specialize (H H0). lia. }
  intros (u & r & Q & Qi & H & G) (v & s & Q' & Qi' & H' & G'). rewrite Qi in H. rewrite Qi' in H'. subst i j o.
  destruct (prefix_cases _ _ _ _ Q') as [(x & Qx & _)|(x & Qx & _)].
  - rewrite (W _ _ _ _ Q' H G' x Qx), app_nil_r in Qx. now rewrite Qx.
  - rewrite (W _ _ _ _ (eq_sym Q') H' G x Qx), app_nil_r in Qx. now rewrite Qx.
Qed.
Lemma p_C117_site_bonds cs row col l : ls_connecting_bonds (site_after cs (lone_site_new row col)) = l <-> gathered 4 (site_offers cs) l.
Proof. split; [intros <-; apply site_bonds|]. intros G. exact (gathered_unique _ _ _ _ (site_bonds cs row col) G). Qed.
Lemma singles_len (l : list (list Z)) : Forall (fun g => length g = 1%nat) l -> length (List.concat l) = length l.
Proof. induction 1; [reflexivity|]. cbn. rewrite app_length. lia. Qed.
Lemma gathered_more o ids : gathered 4 o ids -> Forall (fun g : list Z => length g = 1%nat \/ length g = 4%nat) o ->
  (4 < length ids)%nat <-> exists singles g rest, o = singles ++ g :: rest /\ Forall (fun x => length x = 1%nat) singles /\
    (1 <= length singles <= 3)%nat /\ length g = 4%nat.
Proof.
  intros GA F. split.
  - intros HL. destruct GA as (u & r & Q & Qi & H & G). destruct u as [|g u _] using rev_ind; [subst ids; cbn in HL; lia|].
    specialize (G u g eq_refl). rewrite Q in F. apply Forall_app in F. destruct F as (F & _). apply Forall_app in F. destruct F as (Fu & Fg). inversion Fg as [|? ? Lg _]; subst.
    rewrite concat_app, app_length in HL. cbn in HL. rewrite app_nil_r in HL.
    assert (S1 : Forall (fun x => length x = 1%nat) u).
    { apply Forall_forall. intros x I. rewrite Forall_forall in Fu. destruct (Fu x I) as [L|L]; [exact L|]. exfalso. apply in_split in I. destruct I as (a & b & ->). rewrite concat_app, app_length in G. cbn in G. rewrite app_length in G. lia. }
    exists u, g, r. split; [now rewrite <- app_assoc|]. split; [exact S1|]. rewrite (singles_len _ S1) in *. lia.
  - intros (u & g & r & Q & S1 & K & Lg). assert (E : ids = List.concat (u ++ [g])).
    { apply (gathered_unique 4 o); [exact GA|]. exists (u ++ [g]), r. split; [now rewrite <- app_assoc|]. split; [reflexivity|]. rewrite concat_app, app_length, (singles_len _ S1). cbn. rewrite app_nil_r.
      split; [lia|]. intros w h E. apply app_inj_tail in E. destruct E as (<- & _). rewrite (singles_len _ S1). lia. }
    rewrite E, concat_app, app_length, (singles_len _ S1). cbn. rewrite app_nil_r. lia.
Qed.

Lemma p_C117_site_limit cs row col : let l := ls_connecting_bonds (site_after cs (lone_site_new row col)) in
  (length l <= 7)%nat /\
  ((4 < length l)%nat <-> exists singles g rest, site_offers cs = singles ++ g :: rest /\ Forall (fun x => length x = 1%nat) singles /\
     (1 <= length singles <= 3)%nat /\ length g = 4%nat) /\
  (Forall (fun g => length g = 1%nat) (site_offers cs) -> l = firstn 4 (List.concat (site_offers cs))) /\
  (forall g rest, site_offers cs = g :: rest -> length g = 4%nat -> l = g).
Proof.
  cbn zeta. pose proof (site_bonds cs row col) as G. split; [exact (gathered_len 4 _ _ ltac:(lia) G (offers_len cs))|].
  split; [exact (gathered_more _ _ G (offers_len cs))|].
  split; [intros F; exact (singles_gathered 4 _ F _ G)|].
  intros g rest E Lg. destruct G as (u & r & Q & Qi & H & G). rewrite E in Q. destruct u as [|h u].
  - exfalso. cbn in Q. rewrite <- Q in H. specialize (H ltac:(discriminate)). rewrite Qi in H. cbn in H. lia.
  - injection Q as <- Q. destruct u as [|k u] using rev_ind; [rewrite Qi; cbn; apply app_nil_r|].
    exfalso. specialize (G (g :: u) k eq_refl). cbn in G. rewrite app_length in G. lia.
Qed.

Lemma nodup_len {A} (dec : forall x y : A, {x = y} + {x <> y}) l : length (nodup dec l) = length l <-> NoDup l.
Proof.
  split; [|intros N; now rewrite nodup_fixed_point].
  intros E. apply NoDup_incl_NoDup with (l := nodup dec l); [apply NoDup_nodup|lia|]. intros x I. now apply nodup_In in I.
Qed.
Lemma test_iff n (l : list Z) : (_ <- passert (zlen l =? Z.of_nat n) ;; passert (zlen (nodup Z.eq_dec l) =? Z.of_nat n)) = Ok tt <-> (length l = n /\ NoDup l).
Proof.
  unfold passert, rbind. rewrite !zlen_len. destruct (Z.eqb_spec (Z.of_nat (length l)) (Z.of_nat n)) as [E|E].
  - destruct (Z.eqb_spec (Z.of_nat (length (nodup Z.eq_dec l))) (Z.of_nat n)) as [E'|E'].
    + split; [intros _|reflexivity]. split; [lia|]. apply (proj1 (nodup_len Z.eq_dec l)). lia.
    + split; [discriminate|]. intros (H & N). apply (nodup_len Z.eq_dec) in N. lia.
  - split; [discriminate|]. intros (H & _). lia.
Qed.
Lemma test_other n (l : list Z) : let r := (_ <- passert (zlen l =? Z.of_nat n) ;; passert (zlen (nodup Z.eq_dec l) =? Z.of_nat n)) in r = Ok tt \/ r = Err AssertionError.
Proof. unfold passert, rbind. cbn zeta. repeat match goal with |- context [if ?b then _ else _] => destruct b; cbn end; auto. Qed.
Lemma p_C117_tests s b :
  (ls_test s = Ok tt <-> length (ls_connecting_bonds s) = 4%nat /\ NoDup (ls_connecting_bonds s)) /\
  (ls_test s = Ok tt \/ ls_test s = Err AssertionError) /\
  (lb_test b = Ok tt <-> length (lb_connected_sites b) = 2%nat /\ NoDup (lb_connected_sites b)) /\
  (lb_test b = Ok tt \/ lb_test b = Err AssertionError).
Proof.
  split; [exact (test_iff 4 (ls_bonds s))|]. split; [exact (test_other 4 (ls_bonds s))|]. split; [exact (test_iff 2 (lb_sites b))|exact (test_other 2 (lb_sites b))].
Qed.

(** C117: the counters. *)
Lemma filter_one {A} (f : A -> bool) c : filter f [c] = if f c then [c] else [].
Proof. reflexivity. Qed.
Lemma clean_state cs row col : clean cs -> let s := site_after cs (lone_site_new row col) in
  ls_gid s = -1 /\ ls_rel s = new_rel 0 0 /\ ls_nn1 s = 4 /\ ls_nn2 s = 4.
Proof. intros [->|(c & ->)]; cbn zeta; [cbn; auto|]. rewrite site_after_snoc. cbn. auto. Qed.
Lemma p_C117_site_counts cs ds row col : clean cs -> ~ In SReset ds ->
  let s := site_after (cs ++ ds) (lone_site_new row col) in
  ls_get_nn_count s = (Z.max 0 (4 - times1 ds), Z.max 0 (4 - times2 ds)) /\
  (forall type, ls_is_removable type s = true <-> (type = 1 /\ 4 <= times1 ds) \/ (type = 2 /\ 4 <= times2 ds)) /\
  (forall c, snd (site_do c s) = Ok tt).
Proof.
  intros C N. cbn zeta. rewrite site_after_app. set (s0 := site_after cs (lone_site_new row col)).
  assert (Q : ls_nn1 (site_after ds s0) = Z.max 0 (4 - times1 ds) /\ ls_nn2 (site_after ds s0) = Z.max 0 (4 - times2 ds)).
  { clear -C N. induction ds as [|d ds IH] using rev_ind.
    - destruct (clean_state cs row col C) as (_ & _ & Q1 & Q2). fold s0 in Q1, Q2. cbn. now rewrite Q1, Q2.
    - destruct IH as (Q1 & Q2). { intros I. apply N. apply in_or_app. now left. }
      assert (Nd : d <> SReset). { intros ->. apply N. apply in_or_app. right. now left. }
      rewrite site_after_snoc. destruct (do_nn d (site_after ds s0) ltac:(lia) ltac:(lia)) as (R1 & R2 & _). cbn zeta in R1, R2. rewrite R1, R2.
      unfold times1, times2 in *. rewrite !filter_app, !filter_one, !zlen_len, !app_length in *.
      destruct d; cbn [length]; try (exfalso; now apply Nd); rewrite ?Q1, ?Q2; rewrite ?zlen_len in *; split; lia. }
  destruct Q as (Q1 & Q2). unfold ls_get_nn_count. rewrite Q1, Q2. split; [reflexivity|]. split.
  - intros type. unfold ls_is_removable. rewrite Q1, Q2. destruct (Z.eqb_spec type 1) as [->|n1].
    + rewrite Z.eqb_eq. split; [intros; left; split; [reflexivity|lia]|]. intros [(_ & H)|(H & _)]; [lia|discriminate].
    + destruct (Z.eqb_spec type 2) as [->|n2].
      * rewrite Z.eqb_eq. split; [intros; right; split; [reflexivity|lia]|]. intros [(H & _)|(_ & H)]; [discriminate|lia].
      * split; [discriminate|]. intros [(H & _)|(H & _)]; contradiction.
  - intros c. unfold s0. rewrite <- site_after_app. pose proof (nn_pos (cs ++ ds) row col) as P. cbn zeta in P.
    now destruct (do_nn c (site_after (cs ++ ds) (lone_site_new row col)) ltac:(lia) ltac:(lia)) as (_ & _ & Q).
Qed.

(** C117: ids, group ids, indexes. *)
Lemma p_C117_site_id cs row col : let s := site_after cs (lone_site_new row col) in
  ls_index s = new_index row col /\
  (ls_id s = None <-> forall i, ~ In (SSetId i) cs) /\
  (forall i ds, (forall j, ~ In (SSetId j) ds) -> ls_id (site_after (cs ++ SSetId i :: ds) (lone_site_new row col)) = Some i).
Proof.
  cbn zeta. split; [|split].
  - induction cs as [|c cs IH] using rev_ind; [reflexivity|]. rewrite site_after_snoc. destruct (do_kept c (site_after cs (lone_site_new row col))) as (Q & _). cbn zeta in Q. now rewrite Q.
  - induction cs as [|c cs IH] using rev_ind; [cbn; split; [auto|reflexivity]|]. rewrite site_after_snoc. destruct (do_kept c (site_after cs (lone_site_new row col))) as (_ & Q & _). cbn zeta in Q. rewrite Q.
    split.
    + intros E i I. apply in_app_or in I. destruct I as [I|[->|[]]]; [|discriminate]. assert (E' : ls_id (site_after cs (lone_site_new row col)) = None) by (destruct c; try discriminate; exact E). exact (proj1 IH E' i I).
    + intros N. assert (E' : ls_id (site_after cs (lone_site_new row col)) = None). { apply IH. intros i I. apply (N i). apply in_or_app. now left. }
      destruct c; try exact E'. exfalso. apply (N i). apply in_or_app. right. now left.
  - intros i ds. induction ds as [|d ds IH] using rev_ind; intros N.
    + rewrite site_after_snoc. reflexivity.
    + change (cs ++ SSetId i :: ds ++ [d]) with (cs ++ (SSetId i :: ds) ++ [d]). rewrite app_assoc, site_after_snoc.
      destruct (do_kept d (site_after (cs ++ SSetId i :: ds) (lone_site_new row col))) as (_ & Q & _). cbn zeta in Q. rewrite Q.
      rewrite IH by (intros j I; apply (N j); apply in_or_app; now left). destruct d; try reflexivity. exfalso. apply (N i0). apply in_or_app. right. now left.
Qed.
Lemma tail_gid ds : (forall g, ~ In (SSetGid g) ds) -> ~ In SReset ds -> forall s, ls_gid (site_after ds s) = ls_gid s.
Proof.
  induction ds as [|d ds IH] using rev_ind; intros N R s; [reflexivity|]. rewrite site_after_snoc. destruct (do_kept d (site_after ds s)) as (_ & _ & Q & _). cbn zeta in Q. rewrite Q.
  rewrite IH by (intros; intro I; first [apply R; apply in_or_app; left; exact I|eapply N; apply in_or_app; left; exact I]).
  destruct d; try reflexivity; exfalso; [apply R|eapply N]; apply in_or_app; right; left; reflexivity.
Qed.
Lemma p_C117_site_gid cs ds row col : (forall g, ~ In (SSetGid g) ds) -> ~ In SReset ds ->
  (clean cs -> let s := site_after (cs ++ ds) (lone_site_new row col) in ls_get_gid s = -1 /\ ls_is_occupied s = false) /\
  (forall g, let s := site_after (cs ++ SSetGid g :: ds) (lone_site_new row col) in
     ls_get_gid s = g /\ (ls_is_occupied s = true <-> 0 <= g)).
Proof.
  intros N R. split.
  - intros C. cbn zeta. unfold ls_get_gid, ls_is_occupied. rewrite site_after_app, tail_gid by assumption. destruct (clean_state cs row col C) as (Q & _). now rewrite Q.
  - intros g. cbn zeta. unfold ls_get_gid, ls_is_occupied. rewrite site_after_app. change (SSetGid g :: ds) with ([SSetGid g] ++ ds). rewrite site_after_app, tail_gid by assumption. cbn. split; [reflexivity|]. apply Z.leb_le.
Qed.
Lemma tail_rel ds : (forall r, ~ In (SSetRel r) ds) -> ~ In SInitRel ds -> ~ In SReset ds -> forall s, ls_rel (site_after ds s) = ls_rel s.
Proof.
  induction ds as [|d ds IH] using rev_ind; intros N I0 R s; [reflexivity|]. rewrite site_after_snoc. destruct (do_kept d (site_after ds s)) as (_ & _ & _ & Q). cbn zeta in Q. rewrite Q.
  rewrite IH by (intros; intro I; first [apply R; apply in_or_app; left; exact I|apply I0; apply in_or_app; left; exact I|eapply N; apply in_or_app; left; exact I]).
  destruct d; try reflexivity; exfalso; [apply R|apply I0|eapply N]; apply in_or_app; right; left; reflexivity.
Qed.
Lemma p_C117_site_rel cs ds row col : (forall r, ~ In (SSetRel r) ds) -> ~ In SInitRel ds -> ~ In SReset ds ->
  (clean cs \/ (exists c, cs = c ++ [SInitRel]) -> let s := site_after (cs ++ ds) (lone_site_new row col) in ls_rel s = new_rel 0 0 /\ ls_is_root s = true) /\
  (forall r, let s := site_after (cs ++ SSetRel r :: ds) (lone_site_new row col) in
     ls_rel s = r /\ (ls_is_root s = true <-> as_list r = (0, 0))).
Proof.
  intros N I0 R. split.
  - intros C. cbn zeta. unfold ls_is_root. rewrite site_after_app, tail_rel by assumption.
    assert (Q : ls_rel (site_after cs (lone_site_new row col)) = new_rel 0 0).
    { destruct C as [C|(c & ->)]; [now destruct (clean_state cs row col C) as (_ & Q & _)|]. now rewrite site_after_snoc. }
    now rewrite Q.
  - intros r. cbn zeta. unfold ls_is_root. rewrite site_after_app. change (SSetRel r :: ds) with ([SSetRel r] ++ ds). rewrite site_after_app, tail_rel by assumption. cbn. split; [reflexivity|].
    unfold as_list. rewrite andb_true_iff, !Z.eqb_eq. split; [intros (-> & ->); reflexivity|intros Q; injection Q; auto].
Qed.

(** C117: what a call prints. *)
Lemma p_C117_site_prints cs c row col : let s := site_after cs (lone_site_new row col) in
  let out := snd (fst (site_do c s)) in
  out = [] \/
  (exists a, c = SAdd a /\ (4 <= length (ls_connecting_bonds s))%nat /\ out = ["A site connects only four bonds"%string]) \/
  (exists g, c = SSetGid g /\ (forall i, ~ In (SSetId i) cs) /\ out = ["!!warning!! id is not set."%string]).
Proof.
  cbn zeta. set (s := site_after cs (lone_site_new row col)). destruct c; try (left; reflexivity).
  - cbn [site_do fst snd]. unfold ls_add. destruct (4 <=? zlen (ls_bonds s)) eqn:E.
    + right. left. exists a. split; [reflexivity|]. split; [|reflexivity]. apply Z.leb_le in E. rewrite zlen_len in E. unfold ls_connecting_bonds. lia.
    + left. destruct a as [x|l]; [reflexivity|]. now destruct (zlen l =? 4).
  - left. cbn. unfold ls_reduce1. destruct (ls_nn1 s <=? 0); [unfold passert; destruct (0 <=? ls_nn1 s)|]; reflexivity.
  - left. cbn. unfold ls_reduce2. destruct (ls_nn2 s <=? 0); [unfold passert; destruct (0 <=? ls_nn2 s)|]; reflexivity.
  - destruct (ls_id s) as [j|] eqn:E; cbn; rewrite E; [left; reflexivity|]. right. right. exists g. split; [reflexivity|]. split; [|reflexivity].
    destruct (p_C117_site_id cs row col) as (_ & H & _). cbn zeta in H. fold s in H. now apply H.
Qed.
Lemma p_C117_site_warns cs row col : let s := site_after cs (lone_site_new row col) in
  ((4 <= length (ls_connecting_bonds s))%nat -> forall a, site_do (SAdd a) s = (s, ["A site connects only four bonds"%string], Ok tt)) /\
  ((forall i, ~ In (SSetId i) cs) -> forall g, snd (fst (site_do (SSetGid g) s)) = ["!!warning!! id is not set."%string]) /\
  (forall f, ls_get_str f s = Err TypeError <-> (f = 1 \/ f = 2) /\ (forall i, ~ In (SSetId i) cs)) /\
  (exists x, ls_str s = Ok x).
Proof.
  cbn zeta. set (s := site_after cs (lone_site_new row col)). destruct (p_C117_site_id cs row col) as (_ & H & _). cbn zeta in H. fold s in H.
  split; [|split; [|split]].
  - intros F a. cbn. unfold ls_add. rewrite zlen_len. unfold ls_connecting_bonds in F. destruct (Z.leb_spec 4 (Z.of_nat (length (ls_bonds s)))); [reflexivity|lia].
  - intros N g. cbn. now rewrite (proj2 H N).
  - intros f. rewrite <- H. unfold ls_get_str, fmt_id. destruct (Z.eqb_spec f 1) as [->|n1]; [|destruct (Z.eqb_spec f 2) as [->|n2]].
    + destruct (ls_id s); cbn; split; auto; try discriminate; intros (_ & Q); discriminate.
    + destruct (ls_id s); cbn; split; auto; try discriminate; intros (_ & Q); discriminate.
    + split; [discriminate|]. intros ([Q|Q] & _); contradiction.
  - eexists. reflexivity.
Qed.

(** C117: bonds. *)
Lemma bdo_sites c b : lb_sites (fst (bond_do c b)) = match c with BdAdd a => lb_sites (fst (lb_add a b)) | _ => lb_sites b end.
Proof. destruct c; reflexivity. Qed.
Lemma bdo_kept c b : let t := fst (bond_do c b) in
  lb_get_index t = lb_get_index b /\ lb_id t = match c with BdSetId i => Some i | _ => lb_id b end /\
  lb_gid t = match c with BdSetGid g => g | BdReset => -1 | _ => lb_gid b end.
Proof.
  destruct c; cbn; try (repeat split; reflexivity). unfold lb_add. destruct (2 <=? zlen (lb_sites b)); [auto|]. destruct a as [x|l]; [cbn; auto|]. destruct (zlen l =? 2); cbn; auto.
Qed.
Lemma p_C117_bond_sites cs row col type : let l := lb_connected_sites (bond_after cs (lone_bond_new row col type)) in
  gathered 2 (bond_offers cs) l /\ (length l <= 3)%nat /\
  (Forall (fun g => length g = 1%nat) (bond_offers cs) -> l = firstn 2 (List.concat (bond_offers cs))) /\
  (length l = 3%nat <-> exists x y z rest, bond_offers cs = [x] :: [y; z] :: rest).
Proof.
  cbn zeta. assert (G : gathered 2 (bond_offers cs) (lb_connected_sites (bond_after cs (lone_bond_new row col type)))).
  { unfold lb_connected_sites. induction cs as [|c cs IH] using rev_ind; [apply gathered_nil|].
    rewrite bond_after_snoc, bdo_sites. unfold bond_offers in *. rewrite flat_map_app, flat_map_one.
    destruct c; try (rewrite app_nil_r; exact IH). rewrite add_sites. now apply step_gathered. }
  split; [exact G|]. split; [exact (gathered_len 2 _ _ ltac:(lia) G (bond_offers_len cs))|]. split; [intros F; exact (singles_gathered 2 _ F _ G)|].
  pose proof (bond_offers_len cs) as F. destruct G as (u & r & Q & Qi & H & G). rewrite Q in F |- *. rewrite Qi in *. clear Qi.
  destruct u as [|u1 [|u2 u]].
  - split; [discriminate|]. intros (x & y & z & rest & E). cbn in E. rewrite E in H. specialize (H ltac:(discriminate)). cbn in H. lia.
  - cbn in F |- *. inversion F as [|? ? F1 F2]; subst. rewrite app_nil_r in *. split; [lia|].
    intros (x & y & z & rest & E). injection E as -> E. cbn in H. rewrite E in H. specialize (H ltac:(discriminate)). cbn in H. lia.
  - inversion F as [|? ? F1 F2]; subst. inversion F2 as [|? ? F3 F4]; subst.
    assert (Z : u = [] \/ (2 <= length u1 + length u2)%nat) by (right; lia).
    destruct u as [|u3 u _] using rev_ind.
    + cbn. rewrite app_nil_r, app_length. pose proof (G [u1] u2 eq_refl) as G1. cbn in G1. rewrite app_nil_r in G1.
      assert (length u1 = 1%nat) by lia. destruct u1 as [|x [|? ?]]; try discriminate. cbn. split.
      * intros L. assert (L2 : length u2 = 2%nat) by lia. destruct u2 as [|y [|z [|? ?]]]; try discriminate. now exists x, y, z, r.
      * intros (x' & y & z & rest & E). injection E as _ -> _. reflexivity.
    + exfalso. specialize (G (u1 :: u2 :: u) u3 eq_refl). cbn in G. rewrite !app_length in G. lia.
Qed.
Lemma p_C117_bond_rest cs c row col type : let b := bond_after cs (lone_bond_new row col type) in
  lb_get_index b = (type, row, col) /\
  (lb_id b = None <-> forall i, ~ In (BdSetId i) cs) /\
  (snd (bond_do c b) = [] \/
   (exists a, c = BdAdd a /\ (2 <= length (lb_connected_sites b))%nat /\ fst (bond_do c b) = b /\ snd (bond_do c b) = ["A bond connects only two sites"%string]) \/
   (exists g, c = BdSetGid g /\ (forall i, ~ In (BdSetId i) cs) /\ snd (bond_do c b) = ["!!warning!! id is not set."%string])) /\
  ((2 <= length (lb_connected_sites b))%nat -> forall a, bond_do (BdAdd a) b = (b, ["A bond connects only two sites"%string])) /\
  (lb_str b = Err TypeError <-> forall i, ~ In (BdSetId i) cs) /\
  (forall ds, (forall j, ~ In (BdSetId j) ds) -> forall i, lb_id (bond_after (cs ++ BdSetId i :: ds) (lone_bond_new row col type)) = Some i) /\
  (forall ds, (forall j, ~ In (BdSetGid j) ds) -> ~ In BdReset ds ->
     (forall g, lb_gid (bond_after (cs ++ BdSetGid g :: ds) (lone_bond_new row col type)) = g) /\
     (clean_bond cs -> lb_gid (bond_after (cs ++ ds) (lone_bond_new row col type)) = -1)).
Proof.
  cbn zeta. set (b0 := lone_bond_new row col type).
  assert (HI : lb_id (bond_after cs b0) = None <-> forall i, ~ In (BdSetId i) cs).
  { induction cs as [|d cs IH] using rev_ind; [cbn; split; [auto|reflexivity]|]. rewrite bond_after_snoc. destruct (bdo_kept d (bond_after cs b0)) as (_ & Q & _). cbn zeta in Q. rewrite Q. split.
    - intros E i I. apply in_app_or in I. destruct I as [I|[->|[]]]; [|discriminate]. assert (E' : lb_id (bond_after cs b0) = None) by (destruct d; try discriminate; exact E). exact (proj1 IH E' i I).
    - intros N. assert (E' : lb_id (bond_after cs b0) = None). { apply IH. intros i I. apply (N i). apply in_or_app. now left. }
      destruct d; try exact E'. exfalso. apply (N i). apply in_or_app. right. now left. }
  split; [|split; [exact HI|split; [|split; [|split; [|split]]]]].
  - clear HI. induction cs as [|d cs IH] using rev_ind; [reflexivity|]. rewrite bond_after_snoc. destruct (bdo_kept d (bond_after cs b0)) as (Q & _). cbn zeta in Q. now rewrite Q.
  - set (b := bond_after cs b0) in *. destruct c; try (left; reflexivity).
    + cbn [bond_do]. unfold lb_add. destruct (2 <=? zlen (lb_sites b)) eqn:E.
      * right. left. exists a. split; [reflexivity|]. split; [|split; reflexivity]. apply Z.leb_le in E. rewrite zlen_len in E. unfold lb_connected_sites. lia.
      * left. destruct a as [x|l]; [reflexivity|]. now destruct (zlen l =? 2).
    + destruct (lb_id b) as [j|] eqn:E; cbn; rewrite E; [left; reflexivity|]. right. right. exists g. split; [reflexivity|]. split; [|reflexivity]. now apply HI.
  - intros F a. cbn. unfold lb_add. rewrite zlen_len. unfold lb_connected_sites in F. destruct (Z.leb_spec 2 (Z.of_nat (length (lb_sites (bond_after cs b0))))); [reflexivity|lia].
  - rewrite <- HI. unfold lb_str, lb_get_str, fmt_id. cbn. destruct (lb_id (bond_after cs b0)); cbn; split; auto; discriminate.
  - intros ds N i. rewrite bond_after_app. change (BdSetId i :: ds) with ([BdSetId i] ++ ds). rewrite bond_after_app.
    induction ds as [|d ds IH] using rev_ind; [reflexivity|]. rewrite bond_after_snoc.
    destruct (bdo_kept d (bond_after ds (bond_after [BdSetId i] (bond_after cs b0)))) as (_ & Q & _). cbn zeta in Q. rewrite Q, IH by (intros j I; apply (N j); apply in_or_app; now left).
    destruct d; try reflexivity. exfalso. apply (N i0). apply in_or_app. right. now left.
  - intros ds N R. assert (T : forall b, lb_gid (bond_after ds b) = lb_gid b).
    { intros b. induction ds as [|d ds IH] using rev_ind; [reflexivity|]. rewrite bond_after_snoc. destruct (bdo_kept d (bond_after ds b)) as (_ & _ & Q). cbn zeta in Q. rewrite Q.
      rewrite IH by (intros; intro I; first [apply R; apply in_or_app; left; exact I|eapply N; apply in_or_app; left; exact I]).
      destruct d; try reflexivity; exfalso; [apply R|eapply N]; apply in_or_app; right; left; reflexivity. }
    split.
    + intros g. rewrite bond_after_app. change (BdSetGid g :: ds) with ([BdSetGid g] ++ ds). rewrite bond_after_app, T. reflexivity.
    + intros C. rewrite bond_after_app, T. destruct C as [->|(c' & ->)]; [reflexivity|]. now rewrite bond_after_snoc.
Qed.

(** C117: the elements of a lattice are these objects. *)
Lemma p_C117_in_lattice s m : site_like s m ->
  (forall g, site_like (fst (fst (site_do (SSetGid g) s))) (site_set_gid m g)) /\
  site_like (fst (fst (site_do SReset s))) (site_reset m) /\
  (forall l, site_like (fst (fst (site_do (SAdd (Many l)) s))) (site_add_connecting_bonds m l)) /\
  (forall r, site_like (fst (fst (site_do (SSetRel r) s))) (site_set_rel m (as_list r))) /\
  (forall m', site_reduce_1st_nn m = Ok m' -> site_like (fst (fst (site_do SReduce1 s))) m') /\
  (forall m', site_reduce_2st_directional_nn m = Ok m' -> site_like (fst (fst (site_do SReduce2 s))) m') /\
  ls_test s = site_test m /\ (forall t, ls_is_removable t s = site_is_removable m t) /\ ls_is_occupied s = site_is_occupied m /\
  (forall f, ls_get_str f s = Ok (site_str m f)).
Proof.
  destruct s as [i g b ix rl a c], m as [i' g' b' ix' rl' a' c']. unfold site_like. cbn [ls_id ls_gid ls_bonds ls_index ls_rel ls_nn1 ls_nn2 s_id s_gid s_bonds s_index s_rel s_nn1 s_nn2].
  intros (-> & -> & -> & <- & <- & -> & ->).
  split; [intros; cbn; auto 10|]. split; [cbn; auto 10|]. split.
  { intros l. cbn. unfold ls_add, site_add_connecting_bonds. cbn. destruct (4 <=? zlen b'); [cbn; auto 10|]. destruct (zlen l =? 4); cbn; auto 10. }
  split; [intros; cbn; auto 10|]. split.
  { intros m'. cbn. unfold ls_reduce1, site_reduce_1st_nn, passert, rbind. cbn. destruct (a' <=? 0); [destruct (0 <=? a')|]; intros Q; inversion Q; cbn; auto 10. }
  split.
  { intros m'. cbn. unfold ls_reduce2, site_reduce_2st_directional_nn, passert, rbind. cbn. destruct (c' <=? 0); [destruct (0 <=? c')|]; intros Q; inversion Q; cbn; auto 10. }
  split; [reflexivity|]. split; [reflexivity|]. split; [reflexivity|].
  intros f. unfold ls_get_str, site_str, fmt_id. cbn. destruct (f =? 1); [reflexivity|]. destruct (f =? 2); reflexivity.
Qed.
Lemma p_C117_bond_in_lattice b m : bond_like b m ->
  (forall g, bond_like (fst (bond_do (BdSetGid g) b)) (bond_set_gid m g)) /\
  bond_like (fst (bond_do BdReset b)) (bond_reset m) /\
  (forall x, bond_like (fst (bond_do (BdAdd (One x)) b)) (bond_add_connected_site m x)) /\
  lb_test b = bond_test m /\ (forall f, lb_get_str f b = Ok (bond_str m f)).
Proof.
  destruct b as [i g r c t l], m as [i' g' r' c' t' l']. unfold bond_like. cbn [lb_id lb_gid lb_row lb_col lb_type lb_sites b_id b_gid b_row b_col b_type b_sites].
  intros (-> & -> & -> & -> & -> & ->).
  split; [intros; cbn; auto 10|]. split; [cbn; auto 10|]. split.
  { intros x. cbn. unfold lb_add, bond_add_connected_site. cbn. destruct (2 <=? zlen l'); cbn; auto 10. }
  split; [reflexivity|].
  intros f. unfold lb_get_str, bond_str, fmt_id. cbn. destruct (f =? 1); [reflexivity|]. destruct (f =? 2); reflexivity.
Qed.

Lemma p_C117_id_lists E k L s : env_ok E -> reachable_k E k L s ->
  (forall i, In i (get_site_id_list (lat s)) <-> is_site L i) /\
  (forall b, In b (get_bond_id_list (lat s)) <-> is_bond L b) /\
  (forall n, (n < length (get_site_id_list (lat s)))%nat -> nth n (get_site_id_list (lat s)) (-1) = Z.of_nat n) /\
  (forall n, (n < length (get_bond_id_list (lat s)))%nat -> nth n (get_bond_id_list (lat s)) (-1) = Z.of_nat n).
Proof.
  intros HE HR. destruct (reachable_k_kind E k L s HE HR) as (I & _).
  assert (HS : Static L (lat s)) by (apply I). unfold get_site_id_list, get_bond_id_list. rewrite (st_sc _ _ HS), (st_bc _ _ HS).
  assert (NT : forall m n, (n < length (zrange m))%nat -> nth n (zrange m) (-1) = Z.of_nat n).
  { intros m n Hn. unfold zrange in *. rewrite map_length, seq_length in Hn. rewrite (nth_indep _ _ (Z.of_nat 0)) by (now rewrite map_length, seq_length). rewrite map_nth, seq_nth by exact Hn. reflexivity. }
  split; [intros i; apply In_zrange|]. split; [intros b; rewrite In_zrange; unfold is_bond; tauto|]. split; apply NT.
Qed.

(** C118: index objects. *)
Lemma p_C118_sum a b : as_list (iadd a b) = (i_1 a + i_1 b, i_2 a + i_2 b) /\ i_cls (iadd a b) = CIndex /\
  as_list (isub a b) = (i_1 a - i_1 b, i_2 a - i_2 b) /\ i_cls (isub a b) = i_cls a /\
  as_list (isub (iadd a b) b) = as_list a /\ as_list (iadd (isub a b) b) = as_list a /\
  as_list (iadd a b) = as_list (iadd b a).
Proof. unfold as_list, iadd, isub. cbn. repeat split; f_equal; lia. Qed.
Lemma norm_axis c : c <> 0 -> c / Z.abs c = Z.sgn c.
Proof.
  intros N. destruct c as [|p|p]; [contradiction| |]; cbn [Z.abs Z.sgn].
  - apply Z.div_same. discriminate.
  - replace (Z.neg p) with (-1 * Z.pos p) by lia. apply Z.div_mul. discriminate.
Qed.
Lemma p_C118_normalize a :
  i_cls (inormalize a) = i_cls a /\
  ((i_1 a = 0 \/ i_2 a = 0) -> as_list (inormalize a) = (Z.sgn (i_1 a), Z.sgn (i_2 a))) /\
  ((i_1 a <> 0 /\ i_2 a <> 0) -> inormalize a = a) /\
  inormalize (inormalize a) = inormalize a.
Proof.
  destruct a as [k x y]. unfold inormalize, index_normalize, as_list. cbn [i_cls i_1 i_2].
  destruct (Z.eqb_spec x 0) as [Ex|Nx]; destruct (Z.eqb_spec y 0) as [Ey|Ny]; cbn [negb andb i_cls i_1 i_2]; subst.
  - repeat split; try reflexivity; tauto.
  - split; [reflexivity|]. rewrite (norm_axis y Ny). split; [reflexivity|]. split; [tauto|].
    destruct (Z.eqb_spec (Z.sgn y) 0) as [E|E]; [apply (proj1 (Z.sgn_null_iff _)) in E; contradiction|]. cbn. f_equal. destruct y; [contradiction|reflexivity|reflexivity].
  - split; [reflexivity|]. rewrite (norm_axis x Nx). split; [reflexivity|]. split; [tauto|].
    destruct (Z.eqb_spec (Z.sgn x) 0) as [E|E]; [apply (proj1 (Z.sgn_null_iff _)) in E; contradiction|]. cbn. f_equal. destruct x; [contradiction|reflexivity|reflexivity].
  - split; [reflexivity|]. split; [tauto|]. split; [reflexivity|].
    destruct (Z.eqb_spec x 0) as [E|_]; [contradiction|]. destruct (Z.eqb_spec y 0) as [E|_]; [contradiction|]. reflexivity.
Qed.
Lemma to_int_stands x : stands_for x (to_int x).
Proof.
  destruct x as [n|b|[n d]]; [reflexivity|reflexivity|]. cbn [stands_for to_int Qnum Qden].
  assert (A : Z.abs (n ÷ Z.pos d) * Z.pos d <= Z.abs n < (Z.abs (n ÷ Z.pos d) + 1) * Z.pos d).
  { rewrite <- Z.quot_abs by discriminate. cbn [Z.abs]. rewrite Z.quot_div_nonneg by lia.
    pose proof (Z.div_mod (Z.abs n) (Zpos d) ltac:(discriminate)). pose proof (Z.mod_pos_bound (Z.abs n) (Zpos d) ltac:(reflexivity)). nia. }
  assert (P : n <= 0 -> n ÷ Z.pos d <= 0).
  { intros H. assert (0 <= (-n) ÷ Z.pos d) by (apply Z.quot_pos; lia). rewrite Z.quot_opp_l in H0 by discriminate. lia. }
  assert (M : 0 <= n -> 0 <= n ÷ Z.pos d) by (intros; apply Z.quot_pos; lia).
  unfold Qle, Qlt, Qabs, inject_Z. cbn [Qnum Qden]. repeat split; lia.
Qed.
Lemma p_C118_make row col : exists o out, index_make row col = (o, out) /\
  i_cls o = CIndex /\ stands_for row (i_1 o) /\ stands_for col (i_2 o) /\
  (forall m, In m out <-> (m = "warning : row index is not integer"%string /\ forall z, row <> NInt z) \/
                          (m = "warning : col index is not integer"%string /\ forall z, col <> NInt z)) /\
  NoDup out.
Proof.
  unfold index_make. eexists. eexists. split; [reflexivity|]. split; [reflexivity|]. split; [apply to_int_stands|]. split; [apply to_int_stands|].
  assert (D : forall x, (is_int x = true /\ exists z, x = NInt z) \/ (is_int x = false /\ forall z, x <> NInt z)).
  { intros [z|b|q]; [left; split; [reflexivity|now exists z]|right; split; [reflexivity|discriminate]|right; split; [reflexivity|discriminate]]. }
  destruct (D row) as [(-> & r & ->)|(-> & Nr)]; destruct (D col) as [(-> & c & ->)|(-> & Nc)]; cbn [app In].
  - split; [|constructor]. intros m. split; [contradiction|]. intros [(_ & H)|(_ & H)]; [now apply (H r)|now apply (H c)].
  - split; [|repeat constructor; intros []]. intros m. split; [intros [<-|[]]; right; auto|]. intros [(_ & H)|(-> & H)]; [exfalso; now apply (H r)|now left].
  - split; [|repeat constructor; intros []]. intros m. split; [intros [<-|[]]; left; auto|]. intros [(-> & H)|(_ & H)]; [now left|exfalso; now apply (H c)].
  - split; [|repeat constructor; cbn; [intros [Q|[]]; discriminate Q|intros []]]. intros m. split; [intros [<-|[<-|[]]]; auto|]. intros [(-> & _)|(-> & _)]; auto.
Qed.
Lemma p_C118_relative x y index :
  (forall a, index = XIndex a -> exists o, rel_make x y index = (Some o, []) /\ as_list o = as_list a /\ i_cls o = CRel) /\
  (index = XNone -> exists o, rel_make x y index = (Some o, snd (index_make x y)) /\ as_list o = as_list (fst (index_make x y)) /\ i_cls o = CRel) /\
  (index = XOther -> snd (rel_make x y index) = ["Wrong type. RelativeIndex"%string] /\
     comp_1 (fst (rel_make x y index)) = Err AttributeError /\ comp_2 (fst (rel_make x y index)) = Err AttributeError) /\
  (index <> XOther -> exists o, comp_1 (fst (rel_make x y index)) = Ok (i_1 o) /\ comp_2 (fst (rel_make x y index)) = Ok (i_2 o)).
Proof.
  split; [intros a ->; eexists; split; [reflexivity|]; split; reflexivity|]. split; [intros ->; eexists; split; [reflexivity|]; split; reflexivity|].
  split; [intros ->; repeat split; reflexivity|]. intros N. destruct index; [| |contradiction]; eexists; split; reflexivity.
Qed.
