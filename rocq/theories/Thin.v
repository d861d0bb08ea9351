(** * Thin: which sets of exactly L sites wrap (for C121). *)
From Coq Require Import ZArith List Bool Lia Permutation Factorial Sorted.
From Verif Require Import Critical StateProps StateProps2 Py Lattice Cluster Perc History Spec PyFacts Torus Geometry LatFacts Inv Merge Count Fresh Select State Step SymSpec Symmetry ChanceSpec Chance CanonSpec Canon.
Import ListNotations.
Open Scope Z_scope.

(** ** Full columns wrap *)
Lemma walk_in_col L (P : Z -> Prop) c : 0 < L -> (forall r, P (at_rc L r c)) ->
  forall n r, walk L P (at_rc L r c) (repeat DDown n) (at_rc L (r + Z.of_nat n) c).
Proof.
  intros HL HP. induction n as [|n IH]; intros r.
  - cbn [repeat]. replace (r + Z.of_nat 0) with r by lia. constructor; auto. now apply at_rc_site.
  - cbn [repeat]. constructor; auto; [now apply at_rc_site|].
    replace (nbr L (at_rc L r c) DDown) with (at_rc L (r + 1) c).
    + replace (r + Z.of_nat (S n)) with (r + 1 + Z.of_nat n) by lia. apply IH.
    + unfold nbr. cbn [step fst snd]. rewrite row_at, col_at by auto. apply at_rc_congr; auto.
      * now rewrite Zplus_mod_idemp_l.
      * rewrite Z.add_0_r, Zmod_mod. reflexivity.
Qed.
Lemma col_wraps L (P : Z -> Prop) c : 0 < L -> (forall r, P (at_rc L r c)) -> wraps L P.
Proof.
  intros HL HP. exists (at_rc L 0 c), (repeat DDown (Z.to_nat L)). split.
  - pose proof (walk_in_col L P c HL HP (Z.to_nat L) 0) as W. rewrite Z2Nat.id in W by lia.
    match type of W with walk _ _ _ _ ?t => replace t with (at_rc L 0 c) in W; [exact W|] end.
    apply at_rc_congr; auto. replace (0 + L) with (0 + 1 * L) by lia. now rewrite Z_mod_plus_full.
  - rewrite disp_repeat, Z2Nat.id by lia. cbn [step fst snd]. intros E. injection E. lia.
Qed.

(** ** A loop meets every row or every column *)
Lemma cover_target L a q r : 0 < L -> q <> 0 -> 0 <= r < L -> let k := if 0 <? q then (r - a) mod L else (r - a) mod L - L in
  (0 <= k <= q * L \/ q * L <= k <= 0) /\ (a + k) mod L = r.
Proof.
  intros HL Hq Hr k. pose proof (Z.mod_pos_bound (r - a) L HL) as B. split.
  - unfold k. destruct (Z.ltb_spec 0 q); [left|right]; nia.
  - unfold k. replace r with (r mod L) at 3 by (apply Z.mod_small; lia). destruct (0 <? q).
    + rewrite Z.add_mod_idemp_r by lia. f_equal. lia.
    + replace (a + ((r - a) mod L - L)) with (a + (r - a) mod L + (-1) * L) by lia.
      rewrite Z.mod_add by lia. rewrite Z.add_mod_idemp_r by lia. f_equal. lia.
Qed.
Lemma row_cover L P i ds : 0 < L -> walk L P i ds i -> fst (disp ds) <> 0 -> forall r, 0 <= r < L -> exists u, is_site L u /\ P u /\ row L u = r.
Proof.
  intros HL W Hd r Hr. destruct (walk_congr L HL _ _ _ _ W) as (E & _). apply mod_eq_mult in E as (q & E); auto.
  destruct (cover_target L (row L i) q r HL ltac:(intros ->; apply Hd; lia) Hr) as (A & B). rewrite <- E in A.
  destruct (walk_rows L P i ds i HL W _ A) as (u & Hu & Pu & Eu). exists u. split; auto. split; auto. now rewrite Eu.
Qed.
Lemma col_cover L P i ds : 0 < L -> walk L P i ds i -> snd (disp ds) <> 0 -> forall c, 0 <= c < L -> exists u, is_site L u /\ P u /\ col L u = c.
Proof.
  intros HL W Hd c Hc. destruct (walk_congr L HL _ _ _ _ W) as (_ & E). apply mod_eq_mult in E as (q & E); auto.
  destruct (cover_target L (col L i) q c HL ltac:(intros ->; apply Hd; lia) Hc) as (A & B). rewrite <- E in A.
  destruct (walk_cols L P i ds i HL W _ A) as (u & Hu & Pu & Eu). exists u. split; auto. split; auto. now rewrite Eu.
Qed.

(** ** A set with one site per row keeps to a column *)
Lemma map_inj (f : Z -> Z) (S : list Z) : NoDup (map f S) -> forall x y, In x S -> In y S -> f x = f y -> x = y.
Proof.
  induction S as [|a S IH]; intros N x y Hx Hy E; [destruct Hx|]. cbn [map] in N. inversion N as [|? ? Na N']; subst.
  destruct Hx as [<-|Hx], Hy as [<-|Hy]; auto; exfalso; apply Na; [rewrite E|rewrite <- E]; now apply in_map.
Qed.
Lemma one_each L (f : Z -> Z) S : 0 < L -> length S = Z.to_nat L -> (forall r, 0 <= r < L -> exists u, In u S /\ f u = r) ->
  forall x y, In x S -> In y S -> f x = f y -> x = y.
Proof.
  intros HL Hl H. apply map_inj. apply (@NoDup_incl_NoDup Z (zrange L)).
  - apply NoDup_zrange.
  - rewrite map_length, Hl. pose proof (zlen_zrange L ltac:(lia)) as Q. unfold zlen in Q. lia.
  - intros r Hr. apply In_zrange in Hr. destruct (H r Hr) as (u & Hu & <-). now apply in_map.
Qed.
Lemma thin L (f g : Z -> Z) (along : dir -> bool) S : (forall x y, In x S -> In y S -> f x = f y -> x = y) ->
  (forall i d, is_site L i -> along d = false -> f (nbr L i d) = f i /\ g (nbr L i d) <> g i) ->
  (forall i d, is_site L i -> along d = true -> g (nbr L i d) = g i) ->
  forall i ds j, walk L (among S) i ds j -> walk L (fun u => In u S /\ g u = g i) i ds j.
Proof.
  intros Inj H1 H2 i ds j W. remember (g i) as c eqn:Ec. induction W as [i Hi Pi|i d ds j Hi Pi W IH].
  - constructor; auto.
  - constructor; auto. apply IH. subst c. destruct (walk_sites _ _ _ _ _ W) as (_ & _ & Pn & _).
    destruct (along d) eqn:Ed; [symmetry; now apply H2|]. destruct (H1 i d Hi Ed) as (A & B). exfalso. apply B.
    now rewrite (Inj _ _ Pn Pi A).
Qed.
Definition vertical (d : dir) : bool := match d with DUp | DDown => true | _ => false end.
Lemma shift_ne L a s : 2 <= L -> 0 <= a < L -> s = 1 \/ s = -1 -> (a + s) mod L <> a.
Proof.
  intros HL Ha Hs E. assert (Q : (a + s) mod L = a mod L) by (rewrite E; symmetry; now apply Z.mod_small).
  apply mod_eq_mult in Q as (q & Q); [|lia]. clear E Ha. assert (q <= -1 \/ q = 0 \/ 1 <= q) as [X|[->|X]] by lia; destruct Hs; subst s; nia.
Qed.
Lemma thin_wraps L S : 2 <= L -> Forall (is_site L) S -> length S = Z.to_nat L -> wraps L (among S) ->
  (exists r, 0 <= r < L /\ forall c, In (at_rc L r c) S) \/ (exists c, 0 <= c < L /\ forall r, In (at_rc L r c) S).
Proof.
  intros HL FS Hl (i & ds & W & Hd). rewrite Forall_forall in FS. destruct (walk_sites _ _ _ _ _ W) as (Hi & _).
  assert (Hq : fst (disp ds) <> 0 \/ snd (disp ds) <> 0).
  { destruct (disp ds) as [a b]. cbn. destruct (Z.eq_dec a 0); [|auto]. destruct (Z.eq_dec b 0); [|auto]. subst. now exfalso. }
  destruct Hq as [Hq|Hq].
  - right. assert (Inj : forall x y, In x S -> In y S -> row L x = row L y -> x = y).
    { apply (one_each L); [lia|auto|]. intros r Hr. destruct (row_cover L _ i ds ltac:(lia) W Hq r Hr) as (u & _ & Pu & Eu). now exists u. }
    assert (W' : walk L (fun u => In u S /\ col L u = col L i) i ds i).
    { apply (thin L (row L) (col L) vertical); auto.
      - intros j d Hj Ed. rewrite row_nbr, col_nbr by lia. pose proof (row_bound L ltac:(lia) j Hj). pose proof (col_bound L ltac:(lia) j).
        destruct d; try discriminate; cbn [step fst snd]; (split; [rewrite Z.add_0_r; apply Z.mod_small; lia|apply shift_ne; lia]).
      - intros j d Hj Ed. rewrite col_nbr by lia. pose proof (col_bound L ltac:(lia) j).
        destruct d; try discriminate; cbn [step fst snd]; rewrite Z.add_0_r; apply Z.mod_small; lia. }
    exists (col L i). split; [apply col_bound; lia|]. intros r. destruct (row_cover L _ i ds ltac:(lia) W' Hq (r mod L)) as (u & Hu & (Pu & Cu) & Ru); [apply Z.mod_pos_bound; lia|].
    replace (at_rc L r (col L i)) with u; auto. rewrite <- (at_row_col L ltac:(lia) u Hu), Ru, Cu. apply at_rc_congr; auto. now rewrite Zmod_mod.
  - left. assert (Inj : forall x y, In x S -> In y S -> col L x = col L y -> x = y).
    { apply (one_each L); [lia|auto|]. intros r Hr. destruct (col_cover L _ i ds ltac:(lia) W Hq r Hr) as (u & _ & Pu & Eu). now exists u. }
    assert (W' : walk L (fun u => In u S /\ row L u = row L i) i ds i).
    { apply (thin L (col L) (row L) (fun d => negb (vertical d))); auto.
      - intros j d Hj Ed. rewrite row_nbr, col_nbr by lia. pose proof (row_bound L ltac:(lia) j Hj). pose proof (col_bound L ltac:(lia) j).
        destruct d; try discriminate; cbn [step fst snd]; (split; [rewrite Z.add_0_r; apply Z.mod_small; lia|apply shift_ne; lia]).
      - intros j d Hj Ed. rewrite row_nbr by lia. pose proof (row_bound L ltac:(lia) j Hj).
        destruct d; try discriminate; cbn [step fst snd]; rewrite Z.add_0_r; apply Z.mod_small; lia. }
    exists (row L i). split; [apply row_bound; [lia|auto]|]. intros c. destruct (col_cover L _ i ds ltac:(lia) W' Hq (c mod L)) as (u & Hu & (Pu & Ru) & Cu); [apply Z.mod_pos_bound; lia|].
    replace (at_rc L (row L i) c) with u; auto. rewrite <- (at_row_col L ltac:(lia) u Hu), Ru, Cu. apply at_rc_congr; auto. now rewrite Zmod_mod.
Qed.

(** ** The 2L lines *)
Definition line (L j : Z) : list Z :=
  if j <? L then filter (fun i => row L i =? j) (zrange (L * L)) else filter (fun i => col L i =? j - L) (zrange (L * L)).
Definition on_line (L j i : Z) : Prop := is_site L i /\ if j <? L then row L i = j else col L i = j - L.
Lemma line_In L j i : In i (line L j) <-> on_line L j i.
Proof.
  unfold line, on_line. destruct (j <? L); rewrite filter_In, In_zrange, Z.eqb_eq; reflexivity.
Qed.
Definition spot (L j x : Z) : Z := if j <? L then at_rc L j x else at_rc L x (j - L).
Lemma spot_on L j x : 0 < L -> 0 <= j < 2 * L -> on_line L j (spot L j x).
Proof.
  intros HL Hj. unfold on_line, spot. destruct (Z.ltb_spec j L); (split; [now apply at_rc_site|]).
  - rewrite row_at by auto. apply Z.mod_small. lia.
  - rewrite col_at by auto. apply Z.mod_small. lia.
Qed.
Lemma line_perm L j : 0 < L -> 0 <= j < 2 * L -> Permutation (line L j) (map (spot L j) (zrange L)).
Proof.
  intros HL Hj. apply NoDup_Permutation.
  - unfold line. destruct (j <? L); apply NoDup_filter, NoDup_zrange.
  - assert (Inj : forall x y, 0 <= x < L -> 0 <= y < L -> spot L j x = spot L j y -> x = y).
    { intros x y Hx Hy E. unfold spot in E. destruct (j <? L).
      - apply (f_equal (col L)) in E. rewrite !col_at, !Z.mod_small in E; auto.
      - apply (f_equal (row L)) in E. rewrite !row_at, !Z.mod_small in E; auto. }
    assert (G : forall l, NoDup l -> (forall x, In x l -> 0 <= x < L) -> NoDup (map (spot L j) l)).
    { induction 1 as [|a l Na N IH]; intros F; [constructor|]. cbn [map]. constructor; [|apply IH; intros x Hx; apply F; now right].
      rewrite in_map_iff. intros (x & E & Hx). apply Na. rewrite <- (Inj x a); auto; apply F; [now right|now left]. }
    apply G; [apply NoDup_zrange|]. intros x. apply In_zrange.
  - intros i. rewrite line_In, in_map_iff. split.
    + intros (Hi & H). unfold spot. destruct (j <? L).
      * exists (col L i). rewrite <- H. split; [now apply at_row_col|apply In_zrange, col_bound; auto].
      * exists (row L i). rewrite <- H. split; [now apply at_row_col|apply In_zrange, row_bound; auto].
    + intros (x & <- & _). now apply spot_on.
Qed.
Lemma line_set L j : 0 < L -> 0 <= j < 2 * L -> site_set L (Z.to_nat L) (line L j).
Proof.
  intros HL Hj. split; [unfold line; destruct (j <? L); apply sorted_filter, sorted_zrange|]. split.
  - rewrite Forall_forall. intros i Hi. apply line_In in Hi. apply Hi.
  - rewrite (Permutation_length (line_perm L j HL Hj)), map_length. pose proof (zlen_zrange L ltac:(lia)) as Q. unfold zlen in Q. lia.
Qed.
Lemma line_wraps L j : 0 < L -> 0 <= j < 2 * L -> wraps L (among (line L j)).
Proof.
  intros HL Hj. destruct (Z.ltb_spec j L) as [H|H].
  - apply (row_wraps L _ j HL). intros c. apply line_In. pose proof (spot_on L j c HL Hj) as Q. unfold spot in Q. replace (j <? L) with true in Q by lia. exact Q.
  - apply (col_wraps L _ (j - L) HL). intros r. apply line_In. pose proof (spot_on L j r HL Hj) as Q. unfold spot in Q. replace (j <? L) with false in Q by lia. exact Q.
Qed.
Lemma line_only L S : 2 <= L -> site_set L (Z.to_nat L) S -> wraps L (among S) -> exists j, 0 <= j < 2 * L /\ S = line L j.
Proof.
  intros HL (A & B & C) W.
  assert (G : forall j, 0 <= j < 2 * L -> (forall x, In (spot L j x) S) -> S = line L j).
  { intros j Hj H. destruct (line_set L j ltac:(lia) Hj) as (A' & B' & C'). apply sorted_eq; auto. pose proof (line_perm L j ltac:(lia) Hj) as P.
    assert (Hin : incl (line L j) S). { intros i Hi. apply (Permutation_in i P) in Hi. apply in_map_iff in Hi as (x & <- & _). apply H. }
    intros i. split; [|apply Hin]. apply (NoDup_length_incl (sorted_nodup _ A')); [lia|exact Hin]. }
  destruct (thin_wraps L S HL B C W) as [(r & Hr & H)|(c & Hc & H)].
  - exists r. split; [lia|]. apply G; [lia|]. intros x. unfold spot. replace (r <? L) with true by lia. apply H.
  - exists (L + c). split; [lia|]. apply G; [lia|]. intros x. unfold spot. replace (L + c <? L) with false by lia. replace (L + c - L) with c by lia. apply H.
Qed.
Lemma line_inj L j j' : 2 <= L -> 0 <= j < 2 * L -> 0 <= j' < 2 * L -> line L j = line L j' -> j = j'.
Proof.
  intros HL Hj Hj' E. assert (H : forall i, on_line L j i <-> on_line L j' i) by (intros i; now rewrite <- !line_In, E).
  pose proof (proj1 (H _) (spot_on L j 0 ltac:(lia) Hj)) as (_ & H0). pose proof (proj1 (H _) (spot_on L j 1 ltac:(lia) Hj)) as (_ & H1).
  unfold spot in *. destruct (Z.ltb_spec j L), (Z.ltb_spec j' L); rewrite ?row_at, ?col_at, ?Z.mod_small in * by lia; lia.
Qed.
Lemma wrapping_lines L : 2 <= L -> how_many (fun S => site_set L (Z.to_nat L) S /\ wraps L (among S)) (2 * L).
Proof.
  intros HL. apply (how_map (fun j => 0 <= j < 2 * L) _ (line L)).
  - intros j Hj. split; [apply line_set; lia|apply line_wraps; lia].
  - intros S (A & B). now apply line_only.
  - intros j j' Hj Hj'. now apply line_inj.
  - exists (zrange (2 * L)). split; [apply NoDup_zrange|]. split; [intros; apply In_zrange|]. pose proof (zlen_zrange (2 * L) ltac:(lia)) as Q. unfold zlen in Q. lia.
Qed.

(** ** The earliest possible moment *)
Lemma p_C121_earliest k L t : 3 <= L -> k <> KL1 -> k <> KL2 -> let n := Z.to_nat (L * L) in let l := Z.to_nat L in
  exists c, 0 < c /\ c * (Z.of_nat (fact l) * Z.of_nat (fact (n - l))) = Z.of_nat (fact n) /\
  share k L t (fun E s => after_wrap (after E s (pairs l)) = true) (2 * L) c.
Proof.
  intros H3 K1 K2 n l. assert (HL : 0 < L) by lia. assert (Hm : (l <= n)%nat) by (unfold l, n; nia).
  destruct (sets_count L HL l Hm) as (c & A & B & C). exists c. split; auto. split; auto.
  destruct (wrap_law k L t HL (plain_kind k K1 K2) l c H3 Hm B) as (w & D & E).
  assert (w = 2 * L) as -> by (apply (how_fun _ _ _ D); apply wrapping_lines; lia). exact E.
Qed.
