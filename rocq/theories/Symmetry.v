(** * Symmetry: relabelling the sites by a symmetry of the torus changes nothing (C94, C95). *)
From Coq Require Import ZArith List Bool Lia Permutation Reals Lra.
From Verif Require Import Py Lattice Cluster Perc Spec PyFacts Torus Count History StateProps Wrap Critical Real Entropy SymSpec Describe.
Import ListNotations.
Open Scope Z_scope.

Lemma counts_map (P Q : Z -> Prop) (g : Z -> Z) n : (forall b, P b -> Q (g b)) -> (forall c, Q c -> exists b, P b /\ c = g b) ->
  (forall a b, P a -> P b -> g a = g b -> a = b) -> counts P n -> counts Q n.
Proof.
  intros H1 H2 H3 (l & N & I & ->). exists (map g l). split; [|split].
  - assert (J : forall a b, In a l -> In b l -> g a = g b -> a = b) by (intros a b Ha Hb; apply H3; now apply I).
    clear -N J. induction l as [|a l IH]; cbn [map]; constructor; inversion N; subst.
    + intros Hx. apply in_map_iff in Hx as (y & E & Hy). assert (y = a) by (apply J; [now right|now left|auto]). subst. auto.
    + apply IH; auto. intros x y Hx Hy. apply J; now right.
  - intros c. rewrite in_map_iff. split.
    + intros (b & <- & Hb). apply H1. now apply I.
    + intros Hc. destruct (H2 c Hc) as (b & Hb & ->). exists b. split; auto. now apply I.
  - now rewrite map_length.
Qed.
Lemma onto n (g : Z -> Z) : (forall i, 0 <= i < n -> 0 <= g i < n) -> (forall i j, 0 <= i < n -> 0 <= j < n -> g i = g j -> i = j) ->
  Permutation (map g (zrange n)) (zrange n).
Proof.
  intros H1 H2. apply NoDup_Permutation_bis.
  - assert (G : forall l, NoDup l -> (forall i, In i l -> 0 <= i < n) -> NoDup (map g l)).
    { induction l as [|a l IH]; intros N Hb; cbn [map]; constructor; inversion N; subst.
      - intros Hx. apply in_map_iff in Hx as (y & E & Hy). assert (y = a) by (apply H2; [apply Hb; now right|apply Hb; now left|auto]). now subst.
      - apply IH; auto. intros i Hi. apply Hb. now right. }
    apply G; [apply NoDup_zrange|]. intros i. now rewrite In_zrange.
  - rewrite map_length. lia.
  - intros y Hy. apply in_map_iff in Hy as (i & <- & Hi). apply In_zrange in Hi. apply In_zrange. auto.
Qed.

Lemma bond_dir_eq L s d s' d' : 0 < L -> is_site L s -> is_site L s' -> bond_dir L s d = bond_dir L s' d' ->
  (s = s' /\ d = d') \/ (s' = nbr L s d /\ d' = opp d).
Proof.
  intros HL Hs Hs' E. pose proof (nbr_site L HL s DLeft) as A1. pose proof (nbr_site L HL s DUp) as A2.
  pose proof (nbr_site L HL s' DLeft) as A3. pose proof (nbr_site L HL s' DUp) as A4. unfold is_site in *.
  destruct d, d'; cbn [bond_dir opp] in *; try (exfalso; lia).
  - left. auto.
  - right. split; auto. subst. symmetry. now apply (nbr_opp L HL s' DLeft).
  - left. split; auto. lia.
  - right. split; auto. replace s with (nbr L s' DUp) by lia. symmetry. now apply (nbr_opp L HL s' DUp).
  - right. split; auto.
  - left. split; auto. now apply (nbr_inj L HL s s' DLeft).
  - right. split; auto. lia.
  - left. split; auto. apply (nbr_inj L HL s s' DUp); auto. lia.
Qed.

Section Sym.
Variables (L : Z) (f : Z -> Z) (D : dir -> dir).
Hypothesis HL : 0 < L.
Hypothesis S : symmetry L f D.

Lemma sym_onto j : is_site L j -> exists i, is_site L i /\ f i = j.
Proof.
  intros Hj. pose proof (onto (L * L) f (sy_site _ _ _ S) (sy_inj _ _ _ S)) as P.
  assert (Hi : In j (map f (zrange (L * L)))) by (apply (Permutation_in _ (Permutation_sym P)); now apply In_zrange).
  apply in_map_iff in Hi as (i & E & Hi). apply In_zrange in Hi. eauto.
Qed.
Lemma dir_onto d : exists d', D d' = d.
Proof.
  pose proof (sy_opp _ _ _ S DRight) as O1. pose proof (sy_opp _ _ _ S DDown) as O2. cbn [opp] in *.
  pose proof (sy_dir _ _ _ S DRight DDown) as N1. pose proof (sy_dir _ _ _ S DLeft DDown) as N2.
  destruct (D DRight) eqn:E1, (D DDown) eqn:E2; cbn [opp] in *; try (exfalso; discriminate (N1 eq_refl));
  try (rewrite O1 in N2; exfalso; discriminate (N2 eq_refl)); destruct d; eauto.
Qed.
Lemma disp_map ds : disp (map D ds) =
  (fst (disp ds) * fst (step (D DDown)) + snd (disp ds) * fst (step (D DRight)),
   fst (disp ds) * snd (step (D DDown)) + snd (disp ds) * snd (step (D DRight))).
Proof.
  induction ds as [|d ds IH]; [reflexivity|]. cbn [map disp]. rewrite IH. clear IH.
  destruct (disp ds) as [a b]. unfold vadd. destruct d; cbn [step fst snd].
  - f_equal; lia.
  - f_equal; lia.
  - change DLeft with (opp DRight). rewrite (sy_opp _ _ _ S), opp_step. cbn [fst snd]. f_equal; lia.
  - change DUp with (opp DDown). rewrite (sy_opp _ _ _ S), opp_step. cbn [fst snd]. f_equal; lia.
Qed.
Lemma disp_zero ds : disp (map D ds) = (0, 0) <-> disp ds = (0, 0).
Proof.
  rewrite disp_map. destruct (disp ds) as [a b]. cbn [fst snd].
  pose proof (sy_opp _ _ _ S DRight) as O1. cbn [opp] in *.
  pose proof (sy_dir _ _ _ S DRight DDown) as N1. pose proof (sy_dir _ _ _ S DLeft DDown) as N2.
  destruct (D DRight) eqn:E1, (D DDown) eqn:E2; cbn [opp] in *; try (exfalso; discriminate (N1 eq_refl));
  try (rewrite O1 in N2; exfalso; discriminate (N2 eq_refl)); cbn [step fst snd]; split; intros Q; injection Q as Q1 Q2; f_equal; lia.
Qed.

Section Sets.
Variables P Q : Z -> Prop.
Hypothesis PQ : forall i, is_site L i -> (P i <-> Q (f i)).
Lemma walk_to i ds j : walk L P i ds j -> walk L Q (f i) (map D ds) (f j).
Proof.
  induction 1 as [i Hi Ho|i d ds j Hi Ho W IH]; cbn [map]; constructor; try (now apply PQ); try (now apply (sy_site _ _ _ S)).
  now rewrite <- (sy_nbr _ _ _ S).
Qed.
Lemma walk_from a ds b : walk L Q a ds b -> forall i, is_site L i -> a = f i -> exists es j, is_site L j /\ ds = map D es /\ b = f j /\ walk L P i es j.
Proof.
  induction 1 as [a Ha Ho|a d ds b Ha Ho W IH]; intros i Hi ->.
  - exists [], i. split; auto. split; auto. split; auto. constructor; auto. now apply PQ.
  - destruct (dir_onto d) as (e & <-). destruct (IH (nbr L i e)) as (es & j & Hj & -> & -> & We).
    + now apply nbr_site.
    + symmetry. now apply (sy_nbr _ _ _ S).
    + exists (e :: es), j. split; auto. split; auto. split; auto. constructor; auto. now apply PQ.
Qed.
Lemma sym_connected i j : is_site L i -> is_site L j -> (connected L P i j <-> connected L Q (f i) (f j)).
Proof.
  intros Hi Hj. split.
  - intros (ds & W). exists (map D ds). now apply walk_to.
  - intros (ds & W). destruct (walk_from _ _ _ W i Hi eq_refl) as (es & j' & Hj' & _ & E & We).
    apply (sy_inj _ _ _ S) in E; auto. subst j'. now exists es.
Qed.
Lemma sym_wraps : wraps L P <-> wraps L Q.
Proof.
  split.
  - intros (i & ds & W & N). exists (f i), (map D ds). split; [now apply walk_to|]. now rewrite disp_zero.
  - intros (a & ds & W & N). destruct (walk_sites _ _ _ _ _ W) as (Ha & _). destruct (sym_onto a Ha) as (i & Hi & <-).
    destruct (walk_from _ _ _ W i Hi eq_refl) as (es & j & Hj & -> & E & We). apply (sy_inj _ _ _ S) in E; auto. subst j.
    exists i, es. split; auto. now rewrite <- disp_zero.
Qed.
End Sets.

(** The image of a bond. *)
Definition bdir (b : Z) : dir := if b <? L * L then DRight else DDown.
Definition bmap (b : Z) : Z := bond_dir L (f (end1 L b)) (D (bdir b)).
Lemma bond_split b : is_bond L b -> b = bond_dir L (end1 L b) (bdir b) /\ end2 L b = nbr L (end1 L b) (bdir b).
Proof. intros Hb. unfold bdir, end1, end2. destruct (b <? L * L); cbn [bond_dir]; split; auto; lia. Qed.
Lemma bmap_bond b : is_bond L b -> is_bond L (bmap b).
Proof. intros Hb. apply bond_dir_bond; auto. apply (sy_site _ _ _ S). now apply end1_site. Qed.
Lemma bmap_inj b b' : is_bond L b -> is_bond L b' -> bmap b = bmap b' -> b = b'.
Proof.
  intros Hb Hb' E. pose proof (end1_site L b Hb) as S1. pose proof (end1_site L b' Hb') as S2.
  apply bond_dir_eq in E; auto; try (now apply (sy_site _ _ _ S)). destruct E as [(E1 & E2)|(_ & E2)].
  - apply (sy_inj _ _ _ S) in E1; auto. apply (sy_dir _ _ _ S) in E2. rewrite (proj1 (bond_split b Hb)), (proj1 (bond_split b' Hb')). congruence.
  - rewrite <- (sy_opp _ _ _ S) in E2. apply (sy_dir _ _ _ S) in E2. unfold bdir in E2. destruct (b <? L * L), (b' <? L * L); discriminate.
Qed.
Lemma bmap_perm : Permutation (map bmap (zrange (2 * (L * L)))) (zrange (2 * (L * L))).
Proof. apply onto; [exact bmap_bond|exact bmap_inj]. Qed.
Lemma bmap_onto c : is_bond L c -> exists b, is_bond L b /\ c = bmap b.
Proof.
  intros Hc. assert (Hi : In c (map bmap (zrange (2 * (L * L))))) by (apply (Permutation_in _ (Permutation_sym bmap_perm)); now apply In_zrange).
  apply in_map_iff in Hi as (b & E & Hb). apply In_zrange in Hb. exists b. auto.
Qed.
Lemma touches_site b i : is_bond L b -> touches L b i -> is_site L i.
Proof. intros Hb [->| ->]; [now apply end1_site|now apply end2_site]. Qed.
Lemma bmap_touches b i : is_bond L b -> is_site L i -> (touches L b i <-> touches L (bmap b) (f i)).
Proof.
  intros Hb Hi. pose proof (end1_site L b Hb) as S1. pose proof (end2_site L HL b) as S2. destruct (bond_split b Hb) as (_ & E2).
  assert (J : forall a, is_site L a -> (i = a <-> f i = f a)) by (intros a Ha; split; [now intros ->|now apply (sy_inj _ _ _ S)]).
  unfold touches. rewrite (J (end1 L b)), (J (end2 L b)) by auto. rewrite E2, (sy_nbr _ _ _ S) by auto. unfold bmap.
  destruct (bond_dir_ends L HL (f (end1 L b)) (D (bdir b)) (sy_site _ _ _ S _ S1)) as [(-> & ->)|(-> & ->)]; tauto.
Qed.

Section Lists.
Variables xs ys : list Z.
Hypothesis XY : forall i, is_site L i -> (In i xs <-> In (f i) ys).
Lemma sym_joined b b' : is_bond L b -> is_bond L b' -> (bonds_joined L (among xs) b b' <-> bonds_joined L (among ys) (bmap b) (bmap b')).
Proof.
  intros Hb Hb'. unfold bonds_joined. split.
  - intros [->|(i & j & T1 & T2 & C)]; [now left|right]. pose proof (touches_site _ _ Hb T1). pose proof (touches_site _ _ Hb' T2).
    exists (f i), (f j). split; [now apply -> bmap_touches|]. split; [now apply -> bmap_touches|]. now apply (sym_connected (among xs) (among ys) XY).
  - intros [E|(i & j & T1 & T2 & C)]; [left; now apply bmap_inj|right].
    destruct (sym_onto i (touches_site _ _ (bmap_bond _ Hb) T1)) as (i' & Hi & <-). destruct (sym_onto j (touches_site _ _ (bmap_bond _ Hb') T2)) as (j' & Hj & <-).
    exists i', j'. split; [now apply <- bmap_touches|]. split; [now apply <- bmap_touches|]. now apply (sym_connected (among xs) (among ys) XY).
Qed.
Lemma sym_like b n : is_bond L b -> counts (bonds_like L xs b) n -> counts (bonds_like L ys (bmap b)) n.
Proof.
  intros Hb. apply (counts_map _ _ bmap).
  - intros c (Hc & J). split; [now apply bmap_bond|]. now apply (proj1 (sym_joined _ _ Hb Hc)).
  - intros c (Hc & J). destruct (bmap_onto c Hc) as (a & Ha & ->). exists a. split; auto. split; auto. now apply (proj2 (sym_joined _ _ Hb Ha)).
  - intros a c (Ha & _) (Hc & _). now apply bmap_inj.
Qed.
Lemma sym_like_back b n : is_bond L b -> counts (bonds_like L ys (bmap b)) n -> 0 <= n -> counts (bonds_like L xs b) n.
Proof.
  intros Hb (l & N & I & ->) _.
  assert (G : exists m, counts (bonds_like L xs b) m).
  { exists (Z.of_nat (length (filter (fun a => zmem (bmap a) l) (zrange (2 * (L * L)))))).
    exists (filter (fun a => zmem (bmap a) l) (zrange (2 * (L * L)))). split; [apply NoDup_filter, NoDup_zrange|]. split; auto.
    intros a. rewrite filter_In, In_zrange, zmem_In, I. unfold bonds_like. fold (is_bond L a). split.
    - intros (Ha & _ & J). split; auto. now apply (proj2 (sym_joined _ _ Hb Ha)).
    - intros (Ha & J). split; auto. split; [now apply bmap_bond|now apply (proj1 (sym_joined _ _ Hb Ha))]. }
  destruct G as (m & G). pose proof (sym_like b m Hb G) as G'. replace (Z.of_nat (length l)) with m; auto.
  apply (counts_fun _ _ _ G'). exists l. auto.
Qed.
Lemma sym_sites_with x i : is_site L x -> is_site L i -> (sites_with L xs x i <-> sites_with L ys (f x) (f i)).
Proof.
  intros Hx Hi. unfold sites_with. pose proof (sy_site _ _ _ S i Hi). pose proof (sym_connected (among xs) (among ys) XY x i Hx Hi) as C. unfold among in *. tauto.
Qed.
Lemma sym_bonds_with x b : is_site L x -> is_bond L b -> (bonds_with L xs x b <-> bonds_with L ys (f x) (bmap b)).
Proof.
  intros Hx Hb. unfold bonds_with. split.
  - intros (_ & i & T & C). split; [now apply bmap_bond|]. pose proof (touches_site _ _ Hb T) as Hi. exists (f i). split; [now apply -> bmap_touches|].
    now apply (sym_connected (among xs) (among ys) XY).
  - intros (_ & i & T & C). split; auto. destruct (sym_onto i (touches_site _ _ (bmap_bond _ Hb) T)) as (j & Hj & <-). exists j.
    split; [now apply <- bmap_touches|]. now apply (sym_connected (among xs) (among ys) XY).
Qed.
Lemma sym_sites_count x n : is_site L x -> counts (sites_with L xs x) n -> counts (sites_with L ys (f x)) n.
Proof.
  intros Hx. apply (counts_map _ _ f).
  - intros i Hi. apply sym_sites_with; auto. apply Hi.
  - intros i Hi. destruct (sym_onto i (proj1 Hi)) as (j & Hj & <-). exists j. split; auto. now apply sym_sites_with.
  - intros a b (Ha & _) (Hb & _). now apply (sy_inj _ _ _ S).
Qed.
Lemma sym_bonds_count x n : is_site L x -> counts (bonds_with L xs x) n -> counts (bonds_with L ys (f x)) n.
Proof.
  intros Hx. apply (counts_map _ _ bmap).
  - intros b Hb. apply sym_bonds_with; auto. apply Hb.
  - intros c Hc. destruct (bmap_onto c (proj1 Hc)) as (b & Hb & ->). exists b. split; auto. now apply sym_bonds_with.
  - intros a b (Ha & _) (Hb & _). now apply bmap_inj.
Qed.
Lemma sym_length : NoDup xs -> NoDup ys -> (forall i, In i xs -> is_site L i) -> (forall i, In i ys -> is_site L i) -> length xs = length ys.
Proof.
  intros Nx Ny Sx Sy. rewrite <- (map_length f xs). apply Permutation_length, NoDup_Permutation; auto.
  - clear -Nx Sx S. induction xs as [|a l IH]; cbn [map]; constructor; inversion Nx; subst.
    + intros Hx. apply in_map_iff in Hx as (y & E & Hy). apply (sy_inj _ _ _ S) in E; [|apply Sx; now right|apply Sx; now left]. subst. auto.
    + apply IH; auto. intros i Hi. apply Sx. now right.
  - intros i. rewrite in_map_iff. split.
    + intros (j & <- & Hj). apply XY; auto.
    + intros Hi. destruct (sym_onto i (Sy i Hi)) as (j & Hj & <-). exists j. split; auto. now apply XY.
Qed.
Lemma sym_described s t : described L xs s -> described L ys t -> same_set_values L f s t.
Proof.
  intros A B. pose proof (sym_length (de_nodup _ _ _ A) (de_nodup _ _ _ B) (de_sites _ _ _ A) (de_sites _ _ _ B)) as El.
  assert (Eb : largest_cluster s = largest_cluster t).
  { destruct xs as [|x xs'] eqn:Ex.
    - rewrite (de_largest0 _ _ _ A), (de_largest0 _ _ _ B); auto. destruct ys; [auto|discriminate].
    - assert (Ny : ys <> []) by (destruct ys; [discriminate|congruence]). rewrite <- Ex in *.
      assert (Nx : xs <> []) by (rewrite Ex; discriminate).
      destruct (de_largest _ _ _ A Nx) as ((b & Hb & Cb) & Ma). destruct (de_largest _ _ _ B Ny) as ((c & Hc & Cc) & Mb).
      apply Z.le_antisymm.
      + apply (Mb (bmap b)); [now apply bmap_bond|]. now apply sym_like.
      + destruct (bmap_onto c Hc) as (a & Ha & ->). apply (Ma a); auto. apply sym_like_back; auto. apply (counts_nonneg _ _ Cc). }
  constructor; auto.
  - intros i Hi. rewrite (de_occupied _ _ _ A), (de_occupied _ _ _ B) by (auto; now apply (sy_site _ _ _ S)). now apply XY.
  - intros i j Hi Hj Oi Oj. apply (de_occupied _ _ _ A) in Oi, Oj; auto.
    rewrite (de_clusters _ _ _ A), (de_clusters _ _ _ B) by (auto; now apply XY). now apply (sym_connected (among xs) (among ys) XY).
  - now rewrite (de_count _ _ _ A), (de_count _ _ _ B), El.
  - now rewrite (de_probability _ _ _ A), (de_probability _ _ _ B), El.
  - now rewrite (de_order _ _ _ A), (de_order _ _ _ B), Eb.
  - destruct (de_entropy _ _ _ A) as (m & Cm & ->). destruct (de_entropy _ _ _ B) as (n & Cn & ->). f_equal. symmetry.
    rewrite <- (rsum_perm _ _ _ bmap_perm).
    assert (G : forall (h : Z -> R) l, rsum h (map bmap l) = rsum (fun b => h (bmap b)) l).
    { intros h. induction l as [|a l IH]; [reflexivity|]. cbn [map]. now rewrite !rsum_cons, IH. }
    rewrite G. apply rsum_ext. intros b Hb. apply In_zrange in Hb. cbv beta.
    now rewrite (counts_fun _ _ _ (Cn (bmap b) (bmap_bond b Hb)) (sym_like b _ Hb (Cm b Hb))).
Qed.
Lemma sym_wrapped s t : loop_described L xs s -> loop_described L ys t -> after_wrap s = after_wrap t.
Proof.
  intros A B. apply eq_true_iff_eq. rewrite (lo_wraps _ _ _ A), (lo_wraps _ _ _ B). exact (sym_wraps (among xs) (among ys) XY).
Qed.
End Lists.

Lemma map_iff xs : (forall i, In i xs -> is_site L i) -> forall i, is_site L i -> (In i xs <-> In (f i) (map f xs)).
Proof.
  intros Sx i Hi. split; [apply in_map|]. intros H. apply in_map_iff in H as (j & E & Hj). apply (sy_inj _ _ _ S) in E; auto. now subst.
Qed.
Lemma sym_first xs ys x : (forall i, In i xs -> is_site L i) -> first_loop L xs ys x -> first_loop L (map f xs) (map f ys) (f x).
Proof.
  intros Sx ((zs & ->) & N & W). split; [exists (map f zs); now rewrite map_app|].
  assert (Sy : forall i, In i ys -> is_site L i) by (intros i Hi; apply Sx, in_app_iff; now left).
  assert (S1 : forall i, In i (ys ++ [x]) -> is_site L i) by (intros i; rewrite in_app_iff; cbn [In]; intros [H|[<-|[]]]; auto; apply Sx, in_app_iff; right; now left).
  split.
  - rewrite <- (sym_wraps (among ys) (among (map f ys))); auto. now apply map_iff.
  - change [f x] with (map f [x]). rewrite <- map_app. rewrite <- (sym_wraps (among (ys ++ [x])) (among (map f (ys ++ [x])))); auto. now apply map_iff.
Qed.
Lemma sym_loop xs s t : (forall i, In i xs -> is_site L i) -> loop_described L xs s -> loop_described L (map f xs) t -> same_loop_values L f s t.
Proof.
  intros Sx A B. pose proof (sym_wrapped xs (map f xs) (map_iff xs Sx) s t A B) as Ew. destruct (after_wrap s) eqn:Hw.
  - destruct (lo_split _ _ _ A Hw) as (ys & x & F). pose proof (sym_first xs ys x Sx F) as F'.
    destruct (lo_values _ _ _ A ys x F) as (A1 & A2 & A3 & A4 & A5 & n & A6 & A7).
    destruct (lo_values _ _ _ B _ _ F') as (B1 & B2 & B3 & B4 & B5 & m & B6 & B7).
    change [f x] with (map f [x]) in B1, B2, B3. rewrite <- map_app in B1, B2, B3. rewrite map_length in B1.
    assert (Hx : is_site L x) by (apply Sx; destruct F as ((zs & ->) & _); apply in_app_iff; right; now left).
    assert (S1 : forall i, In i (ys ++ [x]) -> is_site L i).
    { intros i Hi. apply Sx. destruct F as ((zs & ->) & _). rewrite in_app_iff in *. cbn [In] in *. tauto. }
    pose proof (map_iff xs Sx) as XY. pose proof (map_iff (ys ++ [x]) S1) as XY1.
    constructor; try congruence.
    + intros _ i Hi. rewrite A4, B4 by (auto; now apply (sy_site _ _ _ S)). now apply sym_sites_with.
    + rewrite A7, B7. do 3 f_equal. now rewrite (counts_fun _ _ _ B6 (sym_bonds_count xs (map f xs) XY x n Hx A6)).
    + exact (counts_fun _ _ _ (sym_sites_count _ _ XY1 x _ Hx A2) B2).
    + exact (counts_fun _ _ _ (sym_bonds_count _ _ XY1 x _ Hx A3) B3).
  - destruct (lo_none _ _ _ A Hw) as (A1 & A2 & A3 & A4). destruct (lo_none _ _ _ B (eq_sym Ew)) as (B1 & B2 & B3 & B4).
    constructor; try congruence.
Qed.
End Sym.

Lemma p_C94 E1 E2 k1 k2 L a b s0 t0 cs ds f D : env_ok E1 -> env_ok E2 -> new_perc E1 k1 L a = Ok s0 -> new_perc E2 k2 L b = Ok t0 ->
  Forall (call_ok L) cs -> Forall (call_ok L) ds -> Forall stepwise cs -> Forall stepwise ds -> symmetry L f D ->
  let xs := placed_order (events E1 s0 cs) in
  let ys := placed_order (events E2 t0 ds) in
  let s := after E1 s0 cs in
  let t := after E2 t0 ds in
  ((forall i, is_site L i -> (In i xs <-> In (f i) ys)) ->
     same_set_values L f s t /\ (3 <= L -> tracked cs -> tracked ds -> after_wrap s = after_wrap t)) /\
  (ys = map f xs -> same_set_values L f s t /\ (3 <= L -> tracked cs -> tracked ds -> same_loop_values L f s t)).
Proof.
  intros HE1 HE2 H1 H2 Hc Hd Sc Sd Sy xs ys s t.
  destruct (p_C93 E1 k1 L a s0 cs HE1 H1 Hc Sc) as (A & A3). destruct (p_C93 E2 k2 L b t0 ds HE2 H2 Hd Sd) as (B & B3).
  fold xs in A, A3. fold s in A, A3. fold ys in B, B3. fold t in B, B3.
  assert (HL : 0 < L).
  { assert (HR : reachable E1 L s) by (exists k1, a, s0, cs; auto). exact (State.i_pos _ _ (Reach.reachable_inv _ _ _ HE1 HR)). }
  assert (G : (forall i, is_site L i -> (In i xs <-> In (f i) ys)) -> same_set_values L f s t).
  { intros XY. now apply (sym_described L f D HL Sy xs ys). }
  split.
  - intros XY. split; auto. intros H3 Tc Td. apply (sym_wrapped L f D HL Sy xs ys XY); auto.
  - intros Ey. split.
    + apply G. rewrite Ey. apply (map_iff L f D Sy). apply (de_sites _ _ _ A).
    + intros H3 Tc Td. apply (sym_loop L f D HL Sy xs); auto; [apply (de_sites _ _ _ A)|]. rewrite <- Ey. auto.
Qed.

(** ** The symmetries named in the specification *)
Lemma at_rc_inj L r c r' c' : 0 < L -> at_rc L r c = at_rc L r' c' -> r mod L = r' mod L /\ c mod L = c' mod L.
Proof.
  intros HL E. pose proof (f_equal (row L) E) as A. pose proof (f_equal (col L) E) as B.
  rewrite !(row_at L HL) in A. rewrite !(col_at L HL) in B. auto.
Qed.
Lemma nbr_at L r c d : 0 < L -> nbr L (at_rc L r c) d = at_rc L (r + fst (step d)) (c + snd (step d)).
Proof. intros HL. unfold nbr. rewrite row_at, col_at by auto. apply at_rc_congr; now rewrite Zplus_mod_idemp_l. Qed.
Lemma mod_cancel L a b r : 0 < L -> (a + r) mod L = (b + r) mod L -> a mod L = b mod L.
Proof.
  intros HL E. replace a with (a + r - r) by lia. replace b with (b + r - r) by lia.
  rewrite <- (Zminus_mod_idemp_l (a + r)), <- (Zminus_mod_idemp_l (b + r)), E. reflexivity.
Qed.
Lemma site_by_mod L i j : 0 < L -> is_site L i -> is_site L j -> row L i mod L = row L j mod L -> col L i mod L = col L j mod L -> i = j.
Proof.
  intros HL Hi Hj A B. pose proof (row_bound L HL i Hi). pose proof (row_bound L HL j Hj). pose proof (col_bound L HL i). pose proof (col_bound L HL j).
  rewrite !Z.mod_small in A, B by auto. now apply (site_eq L).
Qed.
Lemma translate_sym L r c : 0 < L -> symmetry L (translate L r c) (fun d => d).
Proof.
  intros HL. constructor; auto.
  - intros i _. now apply at_rc_site.
  - intros i j Hi Hj E. apply at_rc_inj in E as (A & B); auto. apply (site_by_mod L); auto; [now apply (mod_cancel L _ _ r)|now apply (mod_cancel L _ _ c)].
  - intros i d Hi. unfold translate. rewrite nbr_at by auto. rewrite row_nbr, col_nbr by auto. apply at_rc_congr; rewrite Zplus_mod_idemp_l; f_equal; lia.
Qed.
Lemma transpose_sym L : 0 < L -> symmetry L (transpose L) transpose_dir.
Proof.
  intros HL. constructor.
  - intros i _. now apply at_rc_site.
  - intros i j Hi Hj E. apply at_rc_inj in E as (A & B); auto. now apply (site_by_mod L).
  - intros i d Hi. unfold transpose. rewrite nbr_at by auto. rewrite row_nbr, col_nbr by auto. destruct d; cbn [step transpose_dir fst snd]; apply at_rc_congr; now rewrite Zmod_mod.
  - intros []; reflexivity.
  - intros [] []; cbn; congruence.
Qed.
Lemma mirror_sym L : 0 < L -> symmetry L (mirror L) mirror_dir.
Proof.
  intros HL. constructor.
  - intros i _. now apply at_rc_site.
  - intros i j Hi Hj E. apply at_rc_inj in E as (A & B); auto. apply (site_by_mod L); auto.
    rewrite <- (Z.opp_involutive (col L i)), <- (Z.opp_involutive (col L j)).
    rewrite <- (Z.sub_0_l (- col L i)), <- (Z.sub_0_l (- col L j)). rewrite <- (Zminus_mod_idemp_r 0 (- col L i)), B. now rewrite Zminus_mod_idemp_r.
  - intros i d Hi. unfold mirror. rewrite nbr_at by auto. rewrite row_nbr, col_nbr by auto.
    assert (G : forall x, (- (x mod L)) mod L = (- x) mod L) by (intros x; rewrite <- (Z.sub_0_l (x mod L)), Zminus_mod_idemp_r, Z.sub_0_l; reflexivity).
    destruct d; cbn [step mirror_dir fst snd]; apply at_rc_congr; rewrite ?Zmod_mod, ?G; f_equal; lia.
  - intros []; reflexivity.
  - intros [] []; cbn; congruence.
Qed.
Lemma identity_sym L : 0 < L -> symmetry L (fun i => i) (fun d => d).
Proof. intros HL. constructor; auto. Qed.
Lemma compose_sym L f D g F : symmetry L f D -> symmetry L g F -> symmetry L (fun i => f (g i)) (fun d => D (F d)).
Proof.
  intros A B. constructor.
  - intros i Hi. apply (sy_site _ _ _ A). now apply (sy_site _ _ _ B).
  - intros i j Hi Hj E. apply (sy_inj _ _ _ B); auto. apply (sy_inj _ _ _ A); auto; now apply (sy_site _ _ _ B).
  - intros i d Hi. rewrite (sy_nbr _ _ _ B) by auto. apply (sy_nbr _ _ _ A). now apply (sy_site _ _ _ B).
  - intros d. now rewrite (sy_opp _ _ _ B), (sy_opp _ _ _ A).
  - intros d d' E. apply (sy_dir _ _ _ B). now apply (sy_dir _ _ _ A).
Qed.
Lemma p_C94_group L : 0 < L ->
  symmetry L (fun i => i) (fun d => d) /\ (forall r c, symmetry L (translate L r c) (fun d => d)) /\
  symmetry L (transpose L) transpose_dir /\ symmetry L (mirror L) mirror_dir /\
  (forall f D g F, symmetry L f D -> symmetry L g F -> symmetry L (fun i => f (g i)) (fun d => D (F d))).
Proof.
  intros HL. split; [now apply identity_sym|]. split; [intros; now apply translate_sym|]. split; [now apply transpose_sym|].
  split; [now apply mirror_sym|]. intros. now apply compose_sym.
Qed.

(** ** The order of placement does not matter for the final configuration *)
Lemma p_C95 E1 E2 k1 k2 L a b s0 t0 cs ds : env_ok E1 -> env_ok E2 -> new_perc E1 k1 L a = Ok s0 -> new_perc E2 k2 L b = Ok t0 ->
  Forall (call_ok L) cs -> Forall (call_ok L) ds -> Forall stepwise cs -> Forall stepwise ds ->
  (forall i, In i (placed_order (events E1 s0 cs)) <-> In i (placed_order (events E2 t0 ds))) ->
  let s := after E1 s0 cs in
  let t := after E2 t0 ds in
  same_set_values L (fun i => i) s t /\
  (forall c c', is_bond L c -> is_bond L c' -> (bond_label s c = bond_label s c' <-> bond_label t c = bond_label t c')) /\
  (3 <= L -> tracked cs -> tracked ds -> after_wrap s = after_wrap t).
Proof.
  intros HE1 HE2 H1 H2 Hc Hd Sc Sd XY s t.
  assert (HL : 0 < L).
  { assert (HR : reachable E1 L s) by (exists k1, a, s0, cs; auto). exact (State.i_pos _ _ (Reach.reachable_inv _ _ _ HE1 HR)). }
  pose proof (p_C94 E1 E2 k1 k2 L a b s0 t0 cs ds _ _ HE1 HE2 H1 H2 Hc Hd Sc Sd (identity_sym L HL)) as (G & _).
  fold s in G. fold t in G. destruct G as (G1 & G2); [intros i _; apply XY|]. split; auto. split; auto.
  destruct (p_C93 E1 k1 L a s0 cs HE1 H1 Hc Sc) as (A & _). destruct (p_C93 E2 k2 L b t0 ds HE2 H2 Hd Sd) as (B & _).
  fold s in A. fold t in B. intros c c' Ic Ic'. rewrite (de_bonds _ _ _ A), (de_bonds _ _ _ B) by auto. unfold bonds_joined.
  assert (C : forall i j, connected L (among (placed_order (events E1 s0 cs))) i j <-> connected L (among (placed_order (events E2 t0 ds))) i j).
  { intros i j. apply connected_iff. intros k _. apply XY. }
  split; (intros [->|(i & j & T1 & T2 & W)]; [now left|right; exists i, j; split; auto; split; auto; now apply C]).
Qed.

(** ** Histories for the examples: n placements, each followed by detection *)
Definition pairs (n : nat) : list call := concat (repeat [CPlace; CDetect] n).
Lemma pairs_ok n : tracked (pairs n) /\ Forall (call_ok 3) (pairs n) /\ Forall stepwise (pairs n).
Proof.
  induction n as [|n (T & C & W)]; [repeat split; constructor|].
  split; [exact (tr_place _ T)|]. split; repeat (constructor; [exact I|]); assumption.
Qed.
