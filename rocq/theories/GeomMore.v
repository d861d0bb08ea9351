(** * GeomMore: distances and four-neighbour lists on lattices of every size (C08, C09). *)
From Coq Require Import ZArith List Bool Lia.
From Verif Require Import Py Lattice Cluster Perc Spec PyFacts Torus Geometry LatFacts GeomProps GeomSpec.
Import ListNotations.
Open Scope Z_scope.

Lemma ring_min L x y : 0 < L -> 0 <= x < L -> 0 <= y < L -> ring_distance L x y (Z.min (Z.abs (x - y)) (L - Z.abs (x - y))).
Proof.
  intros HL Hx Hy. split.
  - destruct (Z.le_gt_cases (Z.abs (x - y)) (L - Z.abs (x - y))).
    + exists 0. lia.
    + destruct (Z.le_gt_cases y x); [exists (-1)|exists 1]; lia.
  - intros k. destruct (Z.eq_dec k 0) as [->|N]; [lia|]. assert (k >= 1 \/ k <= -1) as [|] by lia; nia.
Qed.
Lemma ring_unique L x y m n : ring_distance L x y m -> ring_distance L x y n -> m = n.
Proof. intros ((k & E1) & H1) ((j & E2) & H2). specialize (H1 j). specialize (H2 k). lia. Qed.
Lemma g_C08_exact L lat : new_lattice L = Ok lat ->
  forall r c r' c' m n, 0 <= r < L -> 0 <= c < L -> 0 <= r' < L -> 0 <= c' < L -> ring_distance L r r' m -> ring_distance L c c' n ->
  let d := distance_btn_sites lat (r, c) (r', c') in
  m <= fst d /\ n <= snd d /\
  (fst d = m <-> L <> 1 /\ (2 * Z.abs (r - r') <= L \/ Z.abs (r - r') = L - 1)) /\
  (snd d = n <-> L <> 1 /\ (2 * Z.abs (c - c') <= L \/ Z.abs (c - c') = L - 1)) /\
  (L = 1 -> d = (1, 1)).
Proof.
  intros E r c r' c' m n Hr Hc Hr' Hc' Rm Rn. assert (HL : 0 < L) by lia. pose proof (new_lattice_static' L lat E HL) as St.
  rewrite (ring_unique _ _ _ _ _ Rm (ring_min L r r' HL Hr Hr')), (ring_unique _ _ _ _ _ Rn (ring_min L c c' HL Hc Hc')).
  unfold distance_btn_sites. cbn [fst snd]. rewrite (st_len _ _ St). cbv zeta. cbn [fst snd].
  assert (Z.abs (r - r') < L) by lia. assert (Z.abs (c - c') < L) by lia.
  destruct (Z.eqb_spec (Z.abs (r - r')) (L - 1)); destruct (Z.eqb_spec (Z.abs (c - c')) (L - 1));
    (split; [lia|]); (split; [lia|]); (split; [lia|]); (split; [lia|]); intros ->; f_equal; lia.
Qed.
Lemma g_C09_sizes L lat : new_lattice L = Ok lat -> forall r c, 0 <= r < L -> 0 <= c < L ->
  get_four_neighbor_sites lat (r * L + c) =
    if negb (L =? 1) && (((r =? 0) && negb (c =? 0)) || ((r =? L - 1) && (c =? 0)) || (negb (r =? L - 1) && (c =? L - 1)))
    then Err AssertionError
    else Ok [at_rc L r (c + 1); at_rc L (r + 1) c; at_rc L r (c - 1); at_rc L (r - 1) c].
Proof.
  intros E r c Hr Hc. assert (D : 3 <= L \/ L = 1 \/ L = 2) by lia. destruct D as [D|[->| ->]].
  - rewrite (g_C09 L lat E D r c Hr Hc). destruct (Z.eqb_spec L 1); [lia|]. reflexivity.
  - assert (r = 0 /\ c = 0) as (-> & ->) by lia. vm_compute in E. injection E as <-. vm_compute. reflexivity.
  - vm_compute in E. injection E as <-. assert (D : (r = 0 \/ r = 1) /\ (c = 0 \/ c = 1)) by lia. destruct D as ([->| ->] & [->| ->]); vm_compute; reflexivity.
Qed.
