(** * Util: proofs about analyze/lines.py, main.py and the file names (C58, C59, C62, C63). *)
From Coq Require Import Ascii String DecimalString DecimalPos DecimalZ ZArith QArith Qround List Bool Lia Lqa.
From Verif Require Import Py PyFacts Perc Run UtilSpec.
Import ListNotations.
Open Scope Z_scope.

(** ** argmax *)
Lemma argmax_from_spec l : forall i best v pre, Z.of_nat (length pre) = i ->
  (exists b, best = Z.of_nat b /\ (b < length pre)%nat /\ nth b pre 0 = v /\
     (forall j, (j < length pre)%nat -> nth j pre 0 <= v) /\ (forall j, (j < b)%nat -> nth j pre 0 < v)) ->
  exists b, argmax_from i best v l = Z.of_nat b /\ (b < length (pre ++ l))%nat /\
     (forall j, (j < length (pre ++ l))%nat -> nth j (pre ++ l) 0 <= nth b (pre ++ l) 0) /\
     (forall j, (j < b)%nat -> nth j (pre ++ l) 0 < nth b (pre ++ l) 0).
Proof.
  induction l as [|a l IH]; intros i best v pre Hi (b & Eb & Hb & Ev & H1 & H2); cbn [argmax_from].
  - rewrite app_nil_r. exists b. rewrite Ev. auto.
  - assert (Ea : (pre ++ a :: l) = ((pre ++ [a]) ++ l)) by (rewrite <- app_assoc; reflexivity). rewrite Ea.
    assert (La : length (pre ++ [a]) = S (length pre)) by (rewrite app_length; cbn; lia).
    assert (Na : nth (length pre) (pre ++ [a]) 0 = a) by (rewrite app_nth2, Nat.sub_diag by lia; reflexivity).
    assert (Np : forall j, (j < length pre)%nat -> nth j (pre ++ [a]) 0 = nth j pre 0) by (intros; apply app_nth1; auto).
    destruct (Z.ltb_spec v a).
    + apply IH; [lia|]. exists (length pre). split; [lia|]. split; [lia|]. split; auto. split.
      * intros j Hj. destruct (Nat.eq_dec j (length pre)) as [->|]; [lia|]. rewrite Np by lia. specialize (H1 j ltac:(lia)). lia.
      * intros j Hj. rewrite Np by lia. specialize (H1 j ltac:(lia)). lia.
    + apply IH; [lia|]. exists b. split; auto. split; [lia|]. split; [now rewrite Np|]. split.
      * intros j Hj. destruct (Nat.eq_dec j (length pre)) as [->|]; [lia|]. rewrite Np by lia. apply H1. lia.
      * intros j Hj. rewrite Np by lia. auto.
Qed.
Lemma np_argmax_spec l : l <> [] -> exists b, np_argmax l = Ok (Z.of_nat b) /\ (b < length l)%nat /\
  (forall j, (j < length l)%nat -> nth j l 0 <= nth b l 0) /\ (forall j, (j < b)%nat -> nth j l 0 < nth b l 0).
Proof.
  destruct l as [|a l]; [congruence|]. intros _. cbn [np_argmax].
  destruct (argmax_from_spec l 1 0 a [a] eq_refl) as (b & E & H); [exists O; cbn; repeat split; auto; intros; try lia; destruct j; lia|].
  exists b. rewrite E. auto.
Qed.
Lemma np_diff_length l : length (np_diff l) = (length l - 1)%nat.
Proof. induction l as [|a [|b l] IH]; auto. change (np_diff (a :: b :: l)) with ((b - a) :: np_diff (b :: l)). cbn [length] in *. lia. Qed.
Lemma np_diff_nth l : forall j, (S j < length l)%nat -> nth j (np_diff l) 0 = nth (S j) l 0 - nth j l 0.
Proof.
  induction l as [|a [|b l] IH]; intros j Hj; cbn [length] in Hj; try lia.
  change (np_diff (a :: b :: l)) with ((b - a) :: np_diff (b :: l)). destruct j as [|j]; [reflexivity|].
  cbn [nth]. rewrite IH by (cbn [length]; lia). reflexivity.
Qed.
Lemma qsign_sub a b : qsign (a - b) = side a b.
Proof.
  unfold qsign, side. destruct (Qcompare_spec (a - b) 0); destruct (Qcompare_spec a b); auto; exfalso; lra.
Qed.
Lemma side_range a b : -1 <= side a b <= 1.
Proof. unfold side. destruct (a ?= b)%Q; lia. Qed.

Lemma find_same x1 x2 : length x1 = length x2 ->
  exists dx, find_intersection x1 x2 = np_argmax dx /\ length dx = (length x1 - 1)%nat /\
    forall j, (S j < length x1)%nat -> nth j dx 0 = jump x1 x2 j.
Proof.
  intros Hl. unfold find_intersection, np_sub. rewrite Hl, Nat.eqb_refl. cbn [rbind]. eexists. split; [reflexivity|].
  split; [rewrite map_length, np_diff_length, !map_length, combine_length; lia|].
  intros j Hj. set (d := map qsign _).
  assert (Ld : length d = length x1) by (unfold d; rewrite !map_length, combine_length; lia).
  assert (Nd : forall i, (i < length x1)%nat -> nth i d 0 = side (nth i x1 0%Q) (nth i x2 0%Q)).
  { intros i Hi. unfold d. rewrite map_map. rewrite <- qsign_sub.
    set (g := fun x : Q * Q => qsign (let '(a, b) := x in (a - b)%Q)).
    rewrite (nth_indep (map g _) 0 (g (0%Q, 0%Q))) by (rewrite map_length, combine_length; lia). rewrite (map_nth g), combine_nth by auto. reflexivity. }
  rewrite (nth_indep _ 0 (Z.abs 0)) by (rewrite map_length, np_diff_length; lia). rewrite map_nth, np_diff_nth by lia.
  rewrite !Nd by lia. reflexivity.
Qed.
Lemma find_broadcast x b : (length x <> 1)%nat -> find_intersection x [b] = find_intersection x (repeat b (length x)) /\
  find_intersection [b] x = find_intersection (repeat b (length x)) x.
Proof.
  intros Hx. unfold find_intersection, np_sub. rewrite repeat_length, Nat.eqb_refl. cbn [length].
  destruct (Nat.eqb_spec (length x) 1); [contradiction|]. destruct (Nat.eqb_spec 1 (length x)); [congruence|].
  assert (E1 : map (fun a => (a - b)%Q) x = map (fun '(a, b) => (a - b)%Q) (combine x (repeat b (length x)))).
  { clear. induction x as [|a x IH]; cbn; [auto|]. now rewrite IH. }
  assert (E2 : map (fun a => (b - a)%Q) x = map (fun '(a, b) => (a - b)%Q) (combine (repeat b (length x)) x)).
  { clear. induction x as [|a x IH]; cbn; [auto|]. now rewrite IH. }
  destruct x as [|a [|a' x]]; [split; reflexivity|cbn in Hx; congruence|]. rewrite <- E1, <- E2. split; reflexivity.
Qed.

Lemma p_C58 x1 x2 :
  (length x1 = length x2 -> (2 <= length x1)%nat ->
   exists i, find_intersection x1 x2 = Ok (Z.of_nat i) /\ (S i < length x1)%nat /\
     (forall j, (S j < length x1)%nat -> jump x1 x2 j <= jump x1 x2 i) /\ (forall j, (j < i)%nat -> jump x1 x2 j < jump x1 x2 i) /\
     (forall j, (S j < length x1)%nat -> crosses x1 x2 j -> (forall j', (j' < j)%nat -> ~ crosses x1 x2 j') -> i = j) /\
     ((forall j, (S j < length x1)%nat -> side (nth j x1 0%Q) (nth j x2 0%Q) = side (nth (S j) x1 0%Q) (nth (S j) x2 0%Q)) -> i = O)) /\
  (length x1 = length x2 -> (length x1 < 2)%nat -> find_intersection x1 x2 = Err ValueError) /\
  (length x1 <> length x2 -> length x1 <> 1%nat -> length x2 <> 1%nat -> find_intersection x1 x2 = Err ValueError).
Proof.
  split; [|split].
  - intros Hl Hn. destruct (find_same x1 x2 Hl) as (dx & E1 & Ld & Nd).
    destruct (np_argmax_spec dx) as (i & E2 & Hi & M1 & M2); [intros ->; cbn in Ld; lia|].
    exists i. rewrite E1. split; auto. split; [lia|].
    assert (J1 : forall j, (S j < length x1)%nat -> jump x1 x2 j <= jump x1 x2 i) by (intros j Hj; rewrite <- !Nd by lia; apply M1; lia).
    assert (J2 : forall j, (j < i)%nat -> jump x1 x2 j < jump x1 x2 i) by (intros j Hj; rewrite <- !Nd by lia; apply M2; lia).
    split; auto. split; auto.
    assert (Jc : forall j, crosses x1 x2 j <-> jump x1 x2 j = 2).
    { intros j. unfold crosses, jump, side. destruct (Qcompare_spec (nth j x1 0%Q) (nth j x2 0%Q)) as [a|a|a];
        destruct (Qcompare_spec (nth (S j) x1 0%Q) (nth (S j) x2 0%Q)) as [b|b|b]; split; intros c; try lia; try lra; destruct c as [c|c]; lra. }
    assert (Jm : forall j, jump x1 x2 j <= 2).
    { intros j. unfold jump. pose proof (side_range (nth j x1 0%Q) (nth j x2 0%Q)). pose proof (side_range (nth (S j) x1 0%Q) (nth (S j) x2 0%Q)). lia. }
    split.
    + intros j Hj Hc Hf. apply Jc in Hc. destruct (lt_eq_lt_dec i j) as [[Q|Q]|Q]; auto; exfalso.
      * apply (Hf i Q). apply Jc. specialize (J1 j Hj). specialize (Jm i). lia.
      * specialize (J2 j Q). specialize (Jm i). lia.
    + intros Hs. destruct i as [|i]; auto. exfalso. specialize (J2 O ltac:(lia)). unfold jump in J2.
      rewrite <- (Hs (S i)) in J2 by lia. rewrite <- (Hs O) in J2 by lia. lia.
  - intros Hl Hn. destruct (find_same x1 x2 Hl) as (dx & E1 & Ld & _). rewrite E1. destruct dx; [reflexivity|cbn in Ld; lia].
  - intros H H1 H2. unfold find_intersection, np_sub. destruct (Nat.eqb_spec (length x1) (length x2)); [contradiction|].
    destruct x1 as [|a [|a' x1]], x2 as [|b [|b' x2]]; cbn in *; try congruence; reflexivity.
Qed.

(** ** Durations *)
Lemma p_C59 t : let '(h, m, s) := print_duration t in
  (t == inject_Z h * 3600 + inject_Z m * 60 + s)%Q /\
  ((0 <= t)%Q -> 0 <= h /\ 0 <= m < 60 /\ (0 <= s < 60)%Q /\ (inject_Z h * 3600 <= t < inject_Z (h + 1) * 3600)%Q).
Proof.
  unfold print_duration. set (h := py_int t / 3600). set (t1 := (t - inject_Z (h * 3600))%Q). set (m := py_int t1 / 60).
  split.
  - unfold t1. rewrite !inject_Z_mult. change (inject_Z 3600) with 3600%Q. change (inject_Z 60) with 60%Q. ring.
  - intros Ht.
    assert (P0 : forall q, (0 <= q)%Q -> py_int q = Qfloor q).
    { intros q Hq. unfold py_int. apply Qle_bool_iff in Hq. now rewrite Hq. }
    assert (F : forall q, (inject_Z (Qfloor q) <= q < inject_Z (Qfloor q + 1))%Q) by (intros q; split; [apply Qfloor_le|apply Qlt_floor]).
    assert (Fn : forall q, (0 <= q)%Q -> 0 <= Qfloor q).
    { intros q Hq. change 0 with (Qfloor 0). now apply Qfloor_resp_le. }
    pose proof (F t) as (F1 & F2). pose proof (Fn t Ht) as N0. set (N := Qfloor t) in *.
    assert (Eh : h = N / 3600) by (unfold h; rewrite (P0 t Ht); reflexivity). clearbody h.
    pose proof (Z.div_mod N 3600 ltac:(lia)) as D. pose proof (Z.mod_pos_bound N 3600 ltac:(lia)) as D'.
    pose proof (Z.div_pos N 3600 ltac:(lia) ltac:(lia)) as Hh. rewrite <- Eh in D, Hh. set (r := N mod 3600) in *. clearbody N r.
    assert (T1 : (inject_Z r <= t1 < inject_Z (r + 1))%Q).
    { unfold t1. rewrite D in F1, F2. rewrite !inject_Z_plus, !inject_Z_mult in *. change (inject_Z 1) with 1%Q in *.
      change (inject_Z 3600) with 3600%Q in *. lra. }
    assert (T0 : (0 <= t1)%Q) by (apply Qle_trans with (inject_Z r); [change 0%Q with (inject_Z 0); rewrite <- Zle_Qle; lia|apply T1]).
    assert (Em : m = Qfloor t1 / 60) by (unfold m; rewrite (P0 t1 T0); reflexivity).
    assert (Er : Qfloor t1 = r).
    { pose proof (F t1) as (G1 & G2). assert (inject_Z (Qfloor t1) < inject_Z (r + 1))%Q by lra. assert (inject_Z r < inject_Z (Qfloor t1 + 1))%Q by lra.
      rewrite <- Zlt_Qlt in *. lia. }
    rewrite Er in Em. clearbody m t1. pose proof (Z.div_mod r 60 ltac:(lia)) as D2. pose proof (Z.mod_pos_bound r 60 ltac:(lia)) as D2'.
    pose proof (Z.div_pos r 60 ltac:(lia) ltac:(lia)) as Hm. assert (r / 60 < 60) by (apply Z.div_lt_upper_bound; lia).
    rewrite <- Em in *. set (u := r mod 60) in *. clearbody u. split; auto. split; [lia|].
    assert (U0 : (inject_Z 0 <= inject_Z u)%Q) by (rewrite <- Zle_Qle; lia). assert (U1 : (inject_Z (u + 1) <= inject_Z 60)%Q) by (rewrite <- Zle_Qle; lia).
    assert (A1 : (inject_Z (h * 3600) <= inject_Z N)%Q) by (rewrite <- Zle_Qle; lia).
    assert (A2 : (inject_Z (N + 1) <= inject_Z ((h + 1) * 3600))%Q) by (rewrite <- Zle_Qle; lia).
    destruct T1 as (T1 & T1'). rewrite D2 in T1, T1'. rewrite !inject_Z_plus, !inject_Z_mult in *. rewrite !inject_Z_plus in *.
    change (inject_Z 0) with 0%Q in *. change (inject_Z 1) with 1%Q in *. change (inject_Z 60) with 60%Q in *. change (inject_Z 3600) with 3600%Q in *.
    split; lra.
Qed.

(** ** Straight lines *)
Lemma zrange_nth_d n i : (i < Z.to_nat n)%nat -> nth i (zrange n) 0 = Z.of_nat i.
Proof. intros H. unfold zrange. rewrite (nth_indep _ 0 (Z.of_nat 0)) by (now rewrite map_length, seq_length). rewrite map_nth, seq_nth; auto. Qed.
Lemma zrange_len n : length (zrange n) = Z.to_nat n.
Proof. unfold zrange. now rewrite map_length, seq_length. Qed.
Lemma linspace_spec a b n : 2 <= n -> exists l, linspace a b n = Ok l /\ length l = Z.to_nat n /\
  (nth 0 l 0 == a)%Q /\ (nth (Z.to_nat n - 1) l 0 == b)%Q /\
  forall i, (S i < Z.to_nat n)%nat -> (nth (S i) l 0 - nth i l 0 == (b - a) / inject_Z (n - 1))%Q.
Proof.
  intros Hn. unfold linspace. destruct (Z.ltb_spec n 0); [lia|]. destruct (Z.eqb_spec n 1); [lia|].
  set (g := fun i => (a + inject_Z i * ((b - a) / inject_Z (n - 1)))%Q). exists (map g (zrange n)). split; [reflexivity|].
  split; [now rewrite map_length, zrange_len|].
  assert (Q : forall i, (i < Z.to_nat n)%nat -> nth i (map g (zrange n)) 0%Q = g (Z.of_nat i)).
  { intros i Hi. rewrite (nth_indep _ 0%Q (g 0)) by (now rewrite map_length, zrange_len). rewrite map_nth, zrange_nth_d; auto. }
  assert (Nz : ~ (inject_Z (n - 1) == 0)%Q) by (unfold Qeq; cbn [Qnum Qden inject_Z]; lia).
  split; [rewrite Q by lia; unfold g; cbn [Z.of_nat]; change (inject_Z 0) with 0%Q; field; auto|].
  split.
  - rewrite Q by lia. unfold g. replace (Z.of_nat (Z.to_nat n - 1)) with (n - 1) by lia. field; auto.
  - intros i Hi. rewrite !Q by lia. unfold g. replace (Z.of_nat (S i)) with (Z.of_nat i + 1) by lia. rewrite inject_Z_plus. change (inject_Z 1) with 1%Q. field; auto.
Qed.
Lemma const_line {A} (v : A) n : map (fun _ => v) (zrange n) = repeat v (Z.to_nat n).
Proof. rewrite <- (zrange_len n). induction (zrange n) as [|x l IH]; cbn; [auto|]. now rewrite IH. Qed.
Lemma p_C63 v a b n : 2 <= n -> exists l,
  draw_vertical_line_at v [a; b] n = Ok (repeat v (Z.to_nat n), l) /\
  draw_horizontal_line_at v [a; b] n = Ok (l, repeat v (Z.to_nat n)) /\
  length l = Z.to_nat n /\ (nth 0 l 0 == a)%Q /\ (nth (Z.to_nat n - 1) l 0 == b)%Q /\
  forall i, (S i < Z.to_nat n)%nat -> (nth (S i) l 0 - nth i l 0 == (b - a) / inject_Z (n - 1))%Q.
Proof.
  intros Hn. destruct (linspace_spec a b n Hn) as (l & E & R). exists l. unfold draw_vertical_line_at, draw_horizontal_line_at.
  change (lget [a; b] 0) with (Ok a). change (lget [a; b] 1) with (Ok b). cbn [rbind]. rewrite E. cbn [rbind]. rewrite !const_line. auto.
Qed.
Lemma p_C63_default v n : draw_horizontal_line_at v default_xrange n = Err IndexError.
Proof. reflexivity. Qed.
Lemma p_C63_other v n r :
  (n < 0 -> (2 <= length r)%nat -> draw_vertical_line_at v r n = Err ValueError /\ draw_horizontal_line_at v r n = Err ValueError) /\
  ((length r < 2)%nat -> draw_vertical_line_at v r n = Err IndexError /\ draw_horizontal_line_at v r n = Err IndexError) /\
  ((2 <= length r)%nat -> draw_vertical_line_at v r 0 = Ok ([], []) /\ draw_horizontal_line_at v r 0 = Ok ([], []) /\
     draw_vertical_line_at v r 1 = Ok ([v], [nth 0 r 0%Q]) /\ draw_horizontal_line_at v r 1 = Ok ([nth 0 r 0%Q], [v])).
Proof.
  destruct r as [|a [|b r]].
  - split; [intros _ H; cbn in H; lia|]. split; [intros _; split; reflexivity|cbn; lia].
  - split; [intros _ H; cbn in H; lia|]. split; [intros _; split; reflexivity|cbn; lia].
  - assert (G0 : lget (a :: b :: r) 0 = Ok a) by (rewrite (lget_in a) by (unfold zlen; cbn [length]; lia); reflexivity).
    assert (G1 : lget (a :: b :: r) 1 = Ok b) by (rewrite (lget_in a) by (unfold zlen; cbn [length]; lia); reflexivity).
    assert (A : forall n, draw_vertical_line_at v (a :: b :: r) n = (yy <- linspace a b n ;; Ok (map (fun _ => v) (zrange n), yy))) by (intros m; unfold draw_vertical_line_at; now rewrite G0, G1).
    assert (B : forall n, draw_horizontal_line_at v (a :: b :: r) n = (yy <- linspace a b n ;; Ok (yy, map (fun _ => v) (zrange n)))) by (intros m; unfold draw_horizontal_line_at; now rewrite G0, G1).
    split; [|split; [cbn; lia|intros _; rewrite !A, !B; repeat split; reflexivity]]. intros Hn _. rewrite A, B. unfold linspace. destruct (Z.ltb_spec n 0); [|lia]. auto.
Qed.

(** ** File names *)
Fixpoint has (c : Ascii.ascii) (s : string) : bool :=
  match s with EmptyString => false | String a s => Ascii.eqb a c || has c s end.
Lemma app_split c s1 : forall s2 r1 r2, has c s1 = false -> has c s2 = false ->
  (s1 ++ String c r1)%string = (s2 ++ String c r2)%string -> s1 = s2 /\ r1 = r2.
Proof.
  induction s1 as [|a s1 IH]; intros [|b s2] r1 r2; cbn [has append]; intros H1 H2 E.
  - injection E as <-. auto.
  - injection E as <- _. rewrite Ascii.eqb_refl in H2. discriminate.
  - injection E as -> _. rewrite Ascii.eqb_refl in H1. discriminate.
  - injection E as <- E. apply orb_false_iff in H1, H2. destruct (IH s2 r1 r2) as (-> & ->); auto; tauto.
Qed.
Lemma app_same_length s1 : forall s2 r1 r2, String.length s1 = String.length s2 -> (s1 ++ r1)%string = (s2 ++ r2)%string -> s1 = s2 /\ r1 = r2.
Proof.
  induction s1 as [|a s1 IH]; intros [|b s2] r1 r2; cbn [String.length append]; intros H E; try discriminate; [auto|].
  injection E as <- E. destruct (IH s2 r1 r2) as (-> & ->); auto.
Qed.
Lemma app_assoc_s a b c : ((a ++ b) ++ c)%string = (a ++ (b ++ c))%string.
Proof. induction a as [|x a IH]; cbn [append]; [auto|]. now rewrite IH. Qed.
Lemma uint_chars d : has "_"%char (NilEmpty.string_of_uint d) = false /\ has "."%char (NilEmpty.string_of_uint d) = false.
Proof. induction d; cbn; auto. Qed.
Lemma str_int_chars n : has "_"%char (str_int n) = false /\ has "."%char (str_int n) = false.
Proof.
  unfold str_int, NilZero.string_of_int. destruct (Z.to_int n) as [d|d].
  - destruct d; try apply uint_chars; cbn; auto.
  - destruct d; try (cbn; auto); apply uint_chars.
Qed.
Lemma str_int_inj n m : str_int n = str_int m -> n = m.
Proof.
  intros H. assert (G : forall z, NilZero.int_of_string (str_int z) = Some (Z.to_int z)).
  { intros z. unfold str_int. apply NilZero.isi; destruct z as [|p|p]; cbn; try discriminate; intros X; injection X as X;
      now apply DecimalPos.Unsigned.to_uint_nonnil in X. }
  pose proof (G n) as Gn. rewrite H, G in Gn. injection Gn as Gn. rewrite <- (DecimalZ.of_to n), <- (DecimalZ.of_to m). congruence.
Qed.
Lemma prefix_free k k' g g' r r' : In g tags -> In g' tags ->
  (class_name k ++ (g ++ r))%string = (class_name k' ++ (g' ++ r'))%string -> k = k' /\ g = g' /\ r = r'.
Proof.
  intros Hg Hg' H.
  assert (Q : k = k' /\ g = g').
  { unfold tags in *. cbn [In] in Hg, Hg'.
    destruct Hg as [<-|[<-|[<-|[]]]], Hg' as [<-|[<-|[<-|[]]]], k, k'; cbn [class_name append] in H;
      try (split; reflexivity); exfalso; clear - H; discriminate H. }
  destruct Q as (<- & <-). apply app_same_length in H; [|reflexivity]. destruct H as (_ & H).
  apply app_same_length in H; [|reflexivity]. destruct H as (_ & H). auto.
Qed.
Lemma name_inj k k' g g' L L' u u' i i' : In g tags -> In g' tags -> String.length u = String.length u' ->
  file_name (class_name k) g L u i = file_name (class_name k') g' L' u' i' -> k = k' /\ g = g' /\ L = L' /\ u = u' /\ i = i'.
Proof.
  intros Hg Hg' Hu H. unfold file_name in H.
  apply (app_same_length "./data/"%string "./data/"%string) in H; [|reflexivity]. destruct H as (_ & H).
  assert (H' : (class_name k ++ (g ++ (str_int L ++ String "_"%char (u ++ match i with Some j => ("_th" ++ (str_int j ++ ".txt"))%string | None => ".txt"%string end))))%string =
     (class_name k' ++ (g' ++ (str_int L' ++ String "_"%char (u' ++ match i' with Some j => ("_th" ++ (str_int j ++ ".txt"))%string | None => ".txt"%string end))))%string).
  { destruct i, i'; rewrite !app_assoc_s in H; exact H. }
  clear H. destruct (prefix_free _ _ _ _ _ _ Hg Hg' H') as (Q1 & Q2 & Q3). clear H'. split; auto. split; auto.
  destruct (app_split "_"%char _ _ _ _ (proj1 (str_int_chars L)) (proj1 (str_int_chars L')) Q3) as (Q4 & Q5).
  split; [now apply str_int_inj|]. destruct (app_same_length _ _ _ _ Hu Q5) as (Q6 & Q7). split; auto.
  destruct i as [i|], i' as [i'|]; try discriminate; auto. f_equal.
  apply (app_same_length "_th"%string "_th"%string) in Q7; [|reflexivity]. destruct Q7 as (_ & Q7).
  destruct (app_split "."%char _ _ _ _ (proj2 (str_int_chars i)) (proj2 (str_int_chars i')) Q7) as (Q8 & _). now apply str_int_inj.
Qed.
