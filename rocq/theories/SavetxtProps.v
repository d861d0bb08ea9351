(** * SavetxtProps: what can be read back from the written files (C124). *)
From Coq Require Import String Ascii ZArith List Bool Reals Lia Lra.
From Flocq Require Import Core Relative.
From Verif Require Import Py Run View Float FloatProps Util ViewSpec ViewProps Savetxt SavetxtSpec.
Import ListNotations.
Open Scope Z_scope.

(** ** Digits *)
Lemma digit_val d : 0 <= d <= 9 -> Z.of_nat (nat_of_ascii (digit d)) = 48 + d.
Proof. intros H. unfold digit. rewrite nat_ascii_embedding by lia. lia. Qed.
Lemma value_app a : forall v b, value_from v (a ++ b)%string = match value_from v a with Some w => value_from w b | None => None end.
Proof. induction a as [|c a IH]; intros v b; cbn [append value_from]; [reflexivity|]. destruct (_ && _); [apply IH|reflexivity]. Qed.
Lemma value_digits w : forall v n, value_from v (digits w n) = Some (v * 10 ^ Z.of_nat w + n mod 10 ^ Z.of_nat w).
Proof.
  induction w as [|w IH]; intros v n; cbn [digits].
  - cbn [value_from]. f_equal. change (10 ^ Z.of_nat 0) with 1. rewrite Z.mod_1_r. lia.
  - rewrite value_app, IH. cbn [value_from]. pose proof (Z.mod_pos_bound n 10 ltac:(lia)) as B. rewrite digit_val by lia.
    replace (48 + n mod 10 - 48) with (n mod 10) by lia.
    destruct (Z.leb_spec 0 (n mod 10)); [|lia]. destruct (Z.leb_spec (n mod 10) 9); [|lia]. cbn [andb]. f_equal.
    rewrite Nat2Z.inj_succ, Z.pow_succ_r by lia. rewrite (Z.rem_mul_r n 10 (10 ^ Z.of_nat w)) by lia. lia.
Qed.
Lemma digits_length w : forall n, String.length (digits w n) = w.
Proof. induction w as [|w IH]; intros n; [reflexivity|]. cbn [digits]. assert (A : forall a b, String.length (a ++ b)%string = (String.length a + String.length b)%nat) by (induction a; cbn; auto). rewrite A, IH. cbn. lia. Qed.
Lemma digits_has c w : forall n, (nat_of_ascii c < 48 \/ 57 < nat_of_ascii c)%nat -> has c (digits w n) = false.
Proof.
  induction w as [|w IH]; intros n H; [reflexivity|]. cbn [digits]. rewrite has_app, IH by auto. cbn [has orb]. rewrite orb_false_r.
  apply Ascii.eqb_neq. intros E. pose proof (Z.mod_pos_bound n 10 ltac:(lia)). pose proof (digit_val (n mod 10) ltac:(lia)) as V. rewrite E in V. lia.
Qed.
Lemma value_of_digits w n : value (digits (S w) n) = Some (n mod 10 ^ Z.of_nat (S w)).
Proof.
  unfold value. destruct (digits (S w) n =? "")%string eqn:E.
  - apply String.eqb_eq in E. pose proof (digits_length (S w) n) as Q. rewrite E in Q. discriminate.
  - rewrite value_digits. f_equal.
Qed.
Lemma cut_app c a b : has c a = false -> cut c (a ++ String c b)%string = Some (a, b).
Proof.
  induction a as [|x a IH]; cbn [has append cut]; intros H.
  - now rewrite Ascii.eqb_refl.
  - apply orb_false_iff in H as (H1 & H2). now rewrite H1, IH.
Qed.

(** ** The eleven digits *)
#[local] Instance p11 : Prec_gt_0 11 := eq_refl.
Definition dec (x : R) : R := round ten (FLX_exp 11) ZnearestE x.
Lemma bpow_ten e : bpow ten e = powerRZ 10 e.
Proof. rewrite bpow_powerRZ. reflexivity. Qed.
Lemma sci_dec x : x <> 0%R -> let '(d, e) := sci x in 10 ^ 10 <= d < 10 ^ 11 /\ dec (Rabs x) = (IZR d * bpow ten (e - 10))%R /\ mag ten x - 1 <= e <= mag ten x.
Proof.
  intros Hx. unfold sci. rewrite Req_bool_false by exact Hx. cbn zeta.
  assert (Hm : mag ten (Rabs x) = mag ten x :> Z) by apply mag_abs.
  set (m := mag ten x : Z) in *.
  assert (B : (bpow ten (m - 1) <= Rabs x < bpow ten m)%R).
  { unfold m. destruct (mag ten x) as (e & He). cbn. auto. }
  set (y := (Rabs x * bpow ten (10 - (m - 1)))%R).
  assert (B1 : (IZR (10 ^ 10) <= y < IZR (10 ^ 11))%R).
  { replace (10 ^ 10)%Z with (Zpower ten 10) by reflexivity. replace (10 ^ 11)%Z with (Zpower ten 11) by reflexivity.
    rewrite !IZR_Zpower by lia. unfold y. split.
    - replace 10 with ((m - 1) + (10 - (m - 1))) at 1 by lia. rewrite bpow_plus. apply Rmult_le_compat_r; [apply bpow_ge_0|apply B].
    - replace 11 with (m + (10 - (m - 1))) at 1 by lia. rewrite bpow_plus. apply Rmult_lt_compat_r; [apply bpow_gt_0|apply B]. }
  assert (Q : dec (Rabs x) = (IZR (ZnearestE y) * bpow ten (m - 11))%R).
  { unfold dec, round, F2R, scaled_mantissa, cexp. cbn [Fnum Fexp]. rewrite Hm. unfold FLX_exp. unfold y. replace (10 - (m - 1)) with (- (m - 11)) by lia. reflexivity. }
  assert (D : 10 ^ 10 <= ZnearestE y <= 10 ^ 11).
  { split.
    - rewrite <- (Zrnd_IZR ZnearestE (10 ^ 10)). apply Zrnd_le; [typeclasses eauto|apply B1].
    - rewrite <- (Zrnd_IZR ZnearestE (10 ^ 11)). apply Zrnd_le; [typeclasses eauto|]. apply Rlt_le, B1. }
  destruct (Z.eqb_spec (ZnearestE y) (10 ^ 11)) as [E|E].
  - split; [split; [apply Z.le_refl|reflexivity]|]. split; [|lia]. rewrite Q, E.
    replace (10 ^ 11)%Z with (10 ^ 10 * 10) by reflexivity. rewrite mult_IZR, Rmult_assoc. f_equal.
    replace (m - 1 + 1 - 10) with (1 + (m - 11)) by lia. rewrite bpow_plus. f_equal.
  - split; [lia|]. split; [|lia]. rewrite Q. do 2 f_equal. lia.
Qed.
Lemma range_up : (bpow radix2 1024 <= bpow ten 400)%R.
Proof. rewrite <- !IZR_Zpower by lia. apply IZR_le. apply Z.leb_le. vm_compute. reflexivity. Qed.
Lemma range_down : (bpow ten (-400) <= bpow radix2 (-1074))%R.
Proof.
  change (-400) with (Z.opp 400). change (-1074) with (Z.opp 1074). rewrite !bpow_opp. apply Rinv_le; [apply bpow_gt_0|].
  rewrite <- !IZR_Zpower by lia. apply IZR_le. apply Z.leb_le. vm_compute. reflexivity.
Qed.
Lemma finite_mag x : finite x -> x <> 0%R -> -399 <= mag ten x <= 400.
Proof.
  intros (Hd & Hb) Hx. split.
  - apply mag_ge_bpow. replace (-399 - 1) with (-400) by reflexivity. apply Rle_trans with (1 := range_down).
    apply (generic_format_ge_bpow radix2 (FLT_exp (-1074) 53) (-1074)); [intros e; apply Z.le_max_r|now apply Rabs_pos_lt|].
    now apply generic_format_abs.
  - apply mag_le_bpow; [exact Hx|]. apply Rlt_le_trans with (1 := Hb), range_up.
Qed.
Lemma exponent_read e : Z.abs e < 1000 -> exists s sg, signed (exponent e) = (sg, s) /\ exists v, value s = Some v /\ sg * v = e.
Proof.
  intros He. unfold exponent. set (s := if Z.abs e <? 100 then digits 2 (Z.abs e) else digits 3 (Z.abs e)).
  assert (V : value s = Some (Z.abs e)).
  { unfold s. destruct (Z.ltb_spec (Z.abs e) 100); rewrite value_of_digits; f_equal; apply Z.mod_small; [change (10 ^ Z.of_nat 2) with 100|change (10 ^ Z.of_nat 3) with 1000]; lia. }
  destruct (Z.ltb_spec e 0); cbn [append signed]; eexists _, _; (split; [reflexivity|]); exists (Z.abs e); (split; [exact V|lia]).
Qed.
Lemma exponent_has c e : (nat_of_ascii c < 48 \/ 57 < nat_of_ascii c)%nat -> Ascii.eqb "-" c = false -> Ascii.eqb "+" c = false -> has c (exponent e) = false.
Proof.
  intros H H1 H2. unfold exponent. rewrite has_app. destruct (e <? 0), (Z.abs e <? 100); cbn [has]; rewrite ?H1, ?H2; cbn [orb]; now apply digits_has.
Qed.
Lemma body_read sg d e : 0 <= d < 10 ^ 11 -> Z.abs e < 1000 ->
  let body := (digits 1 (d / 10 ^ 10) ++ "." ++ digits 10 (d mod 10 ^ 10) ++ "e" ++ exponent e)%string in
  signed body = (1, body) /\
  (forall s, signed s = (sg, body) -> read_number s = Some (IZR sg * (IZR d * bpow ten (e - 10)))%R).
Proof.
  intros Hd He body. change (10 ^ 11) with (10 * 10 ^ 10) in Hd.
  assert (Hq : 0 <= d / 10 ^ 10 <= 9).
  { split; [apply Z.div_pos; lia|]. enough (d / 10 ^ 10 < 10) by lia. apply Z.div_lt_upper_bound; lia. }
  assert (Hr : 0 <= d mod 10 ^ 10 < 10 ^ 10) by (apply Z.mod_pos_bound; reflexivity).
  split.
  - unfold body. clear body. set (r := ("." ++ _)%string). clearbody r. set (q := d / 10 ^ 10) in *. clearbody q.
    assert (q = 0 \/ q = 1 \/ q = 2 \/ q = 3 \/ q = 4 \/ q = 5 \/ q = 6 \/ q = 7 \/ q = 8 \/ q = 9) as C by lia.
    repeat destruct C as [-> |C]; [..|subst q]; reflexivity.
  - intros s Es. unfold read_number. rewrite Es. unfold body.
    replace (digits 1 (d / 10 ^ 10) ++ "." ++ digits 10 (d mod 10 ^ 10) ++ "e" ++ exponent e)%string
      with ((digits 1 (d / 10 ^ 10) ++ String "." (digits 10 (d mod 10 ^ 10))) ++ String "e" (exponent e))%string by (rewrite app_assoc_s; reflexivity).
    rewrite cut_app.
    2:{ rewrite has_app. cbn [has]. rewrite !digits_has by (vm_compute; lia). reflexivity. }
    destruct (exponent_read e He) as (x & sx & -> & v & Ev & Pv).
    rewrite cut_app by (apply digits_has; vm_compute; lia). rewrite !value_of_digits, Ev, digits_length.
    change (10 ^ Z.of_nat 1) with 10. change (10 ^ Z.of_nat 10) with (10 ^ 10). rewrite Pv. rewrite !Z.mod_small by lia. f_equal.
    rewrite Rmult_assoc. f_equal. rewrite <- bpow_ten. unfold Zminus. rewrite bpow_plus. change (-10) with (Z.opp 10). rewrite bpow_opp.
    rewrite <- (IZR_Zpower ten 10) by lia. change (Zpower ten 10) with (10 ^ 10).
    rewrite (Z.div_mod d (10 ^ 10)) at 3 by discriminate. rewrite plus_IZR, mult_IZR.
    assert (IZR (10 ^ 10) <> 0)%R by (apply not_0_IZR; discriminate). field. assumption.
Qed.
Lemma dec_0 : dec 0 = 0%R. Proof. unfold dec. apply round_0. typeclasses eauto. Qed.
Lemma dec_opp x : dec (- x) = (- dec x)%R. Proof. unfold dec. apply round_NE_opp. Qed.
Lemma read_format x : finite x -> read_number (format_e x) = Some (dec x).
Proof.
  intros F. unfold format_e. destruct (Req_dec x 0) as [-> |Hx].
  - unfold sci. rewrite Req_bool_true by reflexivity. rewrite Rlt_bool_false by apply Rle_refl. rewrite dec_0.
    destruct (body_read 1 0 0 ltac:(split; [lia|reflexivity]) ltac:(reflexivity)) as (A & B). refine (eq_trans (B _ A) _). f_equal. ring.
  - pose proof (sci_dec x Hx) as Q. pose proof (finite_mag x F Hx) as M. destruct (sci x) as (d, e). destruct Q as (Hd & Q & He).
    destruct (Rlt_bool_spec x 0) as [N|N].
    + destruct (body_read (-1) d e ltac:(lia) ltac:(lia)) as (A & B). match goal with |- read_number ?s = _ => refine (eq_trans (B s eq_refl) _) end.
      rewrite <- Q, Rabs_left by exact N. rewrite dec_opp. f_equal. ring.
    + destruct (body_read 1 d e ltac:(lia) ltac:(lia)) as (A & B). refine (eq_trans (B _ A) _). rewrite <- Q, Rabs_right by lra. f_equal. ring.
Qed.
(** ** Rounding *)
Lemma eleven_format y : eleven y <-> generic_format ten (FLX_exp 11) y.
Proof.
  split.
  - intros (d & e & Hd & ->). rewrite <- bpow_ten. apply generic_format_FLX. exists (Float ten d e); [reflexivity|exact Hd].
  - intros G. apply FLX_format_generic in G; [|typeclasses eauto]. destruct G as [f -> Hf]. exists (Fnum f), (Fexp f). split; [exact Hf|]. now rewrite <- bpow_ten.
Qed.
Lemma dec_nearest x : nearest_eleven x (dec x).
Proof.
  split; [apply eleven_format, generic_format_round; typeclasses eauto|]. intros z Hz. apply eleven_format in Hz.
  destruct (round_N_pt ten (FLX_exp 11) (fun n => negb (Z.even n)) x) as (_ & N). apply N, Hz.
Qed.
Lemma dec_error x : (Rabs (dec x - x) <= Rabs x * (5 / 100000000000))%R.
Proof.
  apply Rle_trans with (1 := relative_error_N_FLX ten 11 p11 (fun n => negb (Z.even n)) x).
  rewrite Rmult_comm. apply Rmult_le_compat_l; [apply Rabs_pos|]. change (- (11) + 1) with (Z.opp 10). rewrite bpow_opp, <- IZR_Zpower by lia.
  change (Zpower ten 10) with 10000000000. lra.
Qed.
Lemma p_C124_number x : finite x -> exists y, reads_as (format_e x) x y.
Proof. intros F. exists (dec x). split; [now apply read_format|]. split; [apply dec_nearest|apply dec_error]. Qed.
Lemma p_C124_order x x' y y' : finite x -> finite x' -> (x <= x')%R -> read_number (format_e x) = Some y -> read_number (format_e x') = Some y' -> (y <= y')%R.
Proof.
  intros F F' H. rewrite !read_format by auto. intros [= <-] [= <-]. apply round_le; try typeclasses eauto. exact H.
Qed.
Lemma finite_small x : is_double x -> (Rabs x <= IZR (10 ^ 11))%R -> finite x.
Proof.
  intros D H. split; [exact D|]. apply Rle_lt_trans with (1 := H). rewrite <- IZR_Zpower by lia. apply IZR_lt. apply Z.ltb_lt. vm_compute. reflexivity.
Qed.
Lemma int_finite n : Z.abs n < 10 ^ 11 -> finite (IZR n).
Proof. intros H. apply finite_small; [apply double_int; lia|]. rewrite <- abs_IZR. apply IZR_le. lia. Qed.
Lemma dec_int n : Z.abs n < 10 ^ 11 -> dec (IZR n) = IZR n.
Proof.
  intros H. apply round_generic; [typeclasses eauto|]. apply eleven_format. exists n, 0. split; [exact H|]. cbn. ring.
Qed.
Lemma p_C124_integer n : Z.abs n < 10 ^ 11 -> read_number (format_e (IZR n)) = Some (IZR n).
Proof. intros H. rewrite read_format by now apply int_finite. now rewrite dec_int. Qed.
Lemma ratio_finite n N : 0 < N < 10 ^ 10 -> 0 <= n <= N -> finite (rnd (IZR n / IZR N)) /\ (Rabs (rnd (IZR n / IZR N) - IZR n / IZR N) <= bpow radix2 (-53))%R /\ (0 <= rnd (IZR n / IZR N) <= 1)%R.
Proof.
  intros HN Hn. destruct (ratio_facts n N ltac:(lia) ltac:(lia)) as (A & B & _). split; [|split; [exact B|exact A]].
  apply finite_small; [apply rnd_double|]. rewrite Rabs_pos_eq by lra. change (10 ^ 11) with 100000000000. lra.
Qed.
Lemma dec_ratio n N : 0 < N <= 9 * 10 ^ 9 -> 0 <= n <= N -> (Rabs (dec (rnd (IZR n / IZR N)) * IZR N - IZR n) < / 2)%R.
Proof.
  intros HN Hn. destruct (ratio_finite n N ltac:(lia) Hn) as (_ & B & A). set (x := rnd _) in *.
  pose proof (dec_error x) as D. rewrite (Rabs_pos_eq x) in D by lra.
  assert (P : (0 < IZR N <= 9000000000)%R) by (split; [apply IZR_lt|apply IZR_le]; lia).
  replace (dec x * IZR N - IZR n)%R with ((dec x - x + (x - IZR n / IZR N)) * IZR N)%R by (field; lra).
  rewrite Rabs_mult, (Rabs_pos_eq (IZR N)) by lra.
  apply Rle_lt_trans with ((5 / 100000000000 + bpow radix2 (-53)) * IZR N)%R.
  - apply Rmult_le_compat_r; [lra|]. apply Rle_trans with (1 := Rabs_triang _ _). apply Rplus_le_compat; [|exact B]. nra.
  - assert (U : (bpow radix2 (-53) <= / 1000000000000000)%R).
    { change (-53) with (Z.opp 53). rewrite bpow_opp, <- IZR_Zpower by lia. apply Rinv_le; [lra|]. apply IZR_le. apply Z.leb_le. vm_compute. reflexivity. }
    nra.
Qed.

(** ** The table *)
Definition plain_char (c : ascii) : Prop := (nat_of_ascii c < 43 \/ 57 < nat_of_ascii c)%nat /\ Ascii.eqb "e" c = false.
Lemma format_has c x : plain_char c -> has c (format_e x) = false.
Proof.
  intros (H & He). unfold format_e. destruct (sci x) as (d, e).
  assert (Q : forall a, (43 <= nat_of_ascii a <= 57)%nat -> Ascii.eqb a c = false) by (intros a Ha; apply Ascii.eqb_neq; intros ->; lia).
  rewrite !has_app, !digits_has, exponent_has by (first [lia|apply Q; vm_compute; lia]).
  assert (forall b : bool, has c (if b then "-" else "")%string = false) as -> by (intros []; cbn [has]; [rewrite Q by (vm_compute; lia)|]; reflexivity).
  cbn [has orb]. rewrite Q by (vm_compute; lia). now rewrite He.
Qed.
Lemma format_full x : has "." (format_e x) = true.
Proof. unfold format_e. destruct (sci x) as (d, e). rewrite !has_app. change (has "." ".") with true. cbn [orb]. now rewrite !orb_true_r. Qed.
Lemma words_app w : forall cur s, has " " w = false -> words_from cur (w ++ " " ++ s)%string = (cur ++ w)%string :: words_from EmptyString s.
Proof.
  induction w as [|c w IH]; intros cur s H.
  - cbn. now rewrite app_nil_s.
  - cbn [has] in H. apply orb_false_iff in H as (H1 & H2). change ((String c w ++ " " ++ s)%string) with (String c (w ++ " " ++ s)). cbn [words_from]. rewrite H1, IH by exact H2. now rewrite app_assoc_s.
Qed.
Lemma words_one w : forall cur, has " " w = false -> words_from cur w = [(cur ++ w)%string].
Proof.
  induction w as [|c w IH]; intros cur H; cbn [words_from].
  - now rewrite app_nil_s.
  - cbn [has] in H. apply orb_false_iff in H as (H1 & H2). rewrite H1, IH by exact H2. now rewrite app_assoc_s.
Qed.
Lemma words_join l : l <> [] -> (forall w, In w l -> has " " w = false) -> words_from EmptyString (join " " l) = l.
Proof.
  induction l as [|w l IH]; intros Hl H; [now contradiction Hl|]. cbn [join]. destruct l as [|w' l].
  - rewrite words_one by (apply H; now left). reflexivity.
  - rewrite words_app by (apply H; now left). cbn [append]. f_equal. apply IH; [discriminate|]. intros v Hv. apply H. now right.
Qed.
Lemma nonl_quoted s : nonl s -> nonl (quoted s).
Proof. intros H. unfold quoted, nonl. rewrite has_app. cbn [has]. unfold nonl in H. now rewrite H. Qed.
Lemma nonl_strings l : Forall nonl l -> nonl (json_strings l).
Proof.
  intros H. unfold json_strings. apply nonl_app; [reflexivity|]. apply nonl_app; [|reflexivity]. apply join_nonl; [reflexivity|].
  intros x Hx. apply in_map_iff in Hx as (y & <- & Hy). apply nonl_quoted. rewrite Forall_forall in H. now apply H.
Qed.
Definition plain_head (date clock : string) (F : out_file) : Prop :=
  nonl date /\ nonl clock /\ Forall nonl (o_columns F) /\ Forall nonl (o_desc F).
Lemma nonl_head date clock F : plain_head date clock F -> nonl ("# " ++ json_head date clock F).
Proof.
  intros (H1 & H2 & H3 & H4). apply nonl_app; [reflexivity|]. unfold json_head. apply nonl_app; [reflexivity|]. apply nonl_app; [|reflexivity].
  apply join_nonl; [reflexivity|]. intros x Hx. apply in_map_iff in Hx as ((a & b) & <- & Hx). cbn [fst snd].
  assert (Q : nonl a /\ nonl b).
  { cbn [In] in Hx. repeat destruct Hx as [[= <- <-]|Hx]; [..|contradiction Hx]; (split; [reflexivity|]);
      first [apply nonl_int|apply nonl_quoted; assumption|apply nonl_strings; assumption]. }
  destruct Q. apply nonl_app; [now apply nonl_quoted|]. now apply nonl_app.
Qed.
Definition row_line (lg : R -> R) (r : list fexpr) : string := join " " (map (fun e => format_e (rnd (fl lg e))) r).
Lemma file_lines lg date clock F : plain_head date clock F ->
  lines (file_text lg date clock F) = ("# " ++ json_head date clock F)%string :: map (row_line lg) (o_rows F) ++ [EmptyString].
Proof.
  intros H. replace (file_text lg date clock F) with (text_of (("# " ++ json_head date clock F)%string :: map (row_line lg) (o_rows F))).
  - rewrite lines_text; [reflexivity|]. constructor; [now apply nonl_head|]. apply Forall_forall. intros l Hl.
    apply in_map_iff in Hl as (r & <- & _). apply join_nonl; [reflexivity|]. intros w Hw. apply in_map_iff in Hw as (e & <- & _).
    apply format_has. split; [vm_compute; lia|reflexivity].
  - rewrite text_cons. unfold file_text, text_of. rewrite map_map. rewrite app_assoc_s. reflexivity.
Qed.
Lemma data_line lg r : r <> [] -> is_data (row_line lg r) = true.
Proof.
  intros Hr. destruct r as [|e r]; [now contradiction Hr|]. unfold row_line. cbn [map].
  set (w := format_e (rnd (fl lg e))). assert (exists s, join " " (w :: map (fun e => format_e (rnd (fl lg e))) r) = (w ++ s)%string) as (s & ->).
  { cbn [join]. destruct (map _ r); [exists EmptyString; now rewrite app_nil_s|eexists; reflexivity]. }
  pose proof (format_full (rnd (fl lg e))) as Q. pose proof (format_has "#" (rnd (fl lg e)) ltac:(split; [vm_compute; lia|reflexivity])) as P.
  fold w in Q, P. destruct w as [|c w]; [discriminate|]. cbn [has] in P. apply orb_false_iff in P as (P & _). cbn [append is_data]. now rewrite P.
Qed.
Lemma read_rows lg date clock F : plain_head date clock F -> (forall r, In r (o_rows F) -> r <> [] /\ forall e, In e r -> finite (rnd (fl lg e))) ->
  read_table (file_text lg date clock F) = map (map (fun e => Some (dec (rnd (fl lg e))))) (o_rows F).
Proof.
  intros Hh Hr. unfold read_table. rewrite file_lines by exact Hh. cbn [filter]. change (is_data ("# " ++ json_head date clock F)) with false. cbn iota.
  rewrite filter_app. cbn [filter is_data]. rewrite app_nil_r.
  assert (Fl : filter is_data (map (row_line lg) (o_rows F)) = map (row_line lg) (o_rows F)).
  { induction (o_rows F) as [|r l IH]; [reflexivity|]. cbn [map filter]. rewrite data_line by (apply (Hr r); now left). f_equal. apply IH. intros r' H'. apply Hr. now right. }
  rewrite Fl, map_map. apply map_ext_in. intros r H. destruct (Hr r H) as (Ne & Fi). unfold row_line. rewrite words_join.
  - rewrite map_map. apply map_ext_in. intros e He. now apply read_format, Fi.
  - destruct r; [now contradiction Ne|discriminate].
  - intros w Hw. apply in_map_iff in Hw as (e & <- & _). apply format_has. split; [vm_compute; lia|reflexivity].
Qed.
Lemma lines_some s : forall cur, lines_from cur s <> [].
Proof. induction s as [|c s IH]; intros cur; cbn [lines_from]; [discriminate|]. destruct (Ascii.eqb c "010"); [discriminate|apply IH]. Qed.
Lemma lines_one s : forall cur x, lines_from cur s = [x] -> nonl s.
Proof.
  induction s as [|c s IH]; intros cur x; cbn [lines_from]; [reflexivity|]. unfold nonl. cbn [has]. destruct (Ascii.eqb c "010").
  - intros [= _ Q]. now apply lines_some in Q.
  - intros Q. apply IH in Q. exact Q.
Qed.
Lemma head_plain date clock F : head_lines date clock F -> plain_head date clock F.
Proof.
  intros (H1 & H2 & H3 & H4). split; [|split; [|split]]; try (eapply lines_one; eassumption);
  (eapply Forall_impl; [|eassumption]; intros s Hs; eapply lines_one; exact Hs).
Qed.
Lemma p_C124_table lg date clock F : head_lines date clock F -> (forall r, In r (o_rows F) -> r <> [] /\ forall e, In e r -> finite (rnd (fl lg e))) ->
  line (file_text lg date clock F) 0 = ("# " ++ json_head date clock F)%string /\
  length (lines (file_text lg date clock F)) = S (S (length (o_rows F))) /\
  exists table, read_table (file_text lg date clock F) = map (map Some) table /\
    Forall2 (Forall2 (fun y e => nearest_eleven (rnd (fl lg e)) y /\ (Rabs (y - rnd (fl lg e)) <= Rabs (rnd (fl lg e)) * (5 / 100000000000))%R)) table (o_rows F).
Proof.
  intros Hh Hr. apply head_plain in Hh. unfold line. rewrite file_lines by exact Hh. split; [reflexivity|]. split.
  - cbn [length]. rewrite app_length, map_length. cbn [length]. lia.
  - exists (map (map (fun e => dec (rnd (fl lg e)))) (o_rows F)). split.
    + rewrite read_rows by auto. rewrite map_map. apply map_ext. intros r. now rewrite map_map.
    + clear. induction (o_rows F) as [|r l IH]; constructor; [|exact IH]. induction r as [|e r IHr]; constructor; [|exact IHr]. split; [apply dec_nearest|apply dec_error].
Qed.
Lemma p_C124_fraction n N : 0 < N <= 9 * 10 ^ 9 -> 0 <= n <= N ->
  (exists y, read_number (format_e (rnd (IZR n / IZR N))) = Some y /\ gives N y (IZR n / IZR N)) /\
  forall m, 0 <= m <= N -> format_e (rnd (IZR m / IZR N)) = format_e (rnd (IZR n / IZR N)) -> m = n.
Proof.
  intros HN Hn. assert (Fi : forall m, 0 <= m <= N -> read_number (format_e (rnd (IZR m / IZR N))) = Some (dec (rnd (IZR m / IZR N)))).
  { intros m Hm. apply read_format. apply ratio_finite; lia. }
  split.
  - eexists. split; [now apply Fi|]. exists n. split; [reflexivity|now apply dec_ratio].
  - intros m Hm E. pose proof (Fi m Hm) as A. rewrite E, (Fi n Hn) in A. injection A as A.
    pose proof (dec_ratio m N HN Hm) as B. pose proof (dec_ratio n N HN Hn) as C. rewrite A in C.
    apply Rabs_def2 in B as (B1 & B2). apply Rabs_def2 in C as (C1 & C2).
    enough (-1 < m - n < 1) by lia. split; apply lt_IZR; rewrite minus_IZR; lra.
Qed.
