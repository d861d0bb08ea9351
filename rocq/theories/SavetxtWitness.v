(** * SavetxtWitness: concrete texts. *)
From Coq Require Import String Ascii ZArith List Bool Reals Lia Lra.
From Flocq Require Import Core.
From Verif Require Import Py Run View Float FloatProps ViewSpec ViewProps Savetxt SavetxtSpec SavetxtProps.
Import ListNotations.
Open Scope Z_scope.

Lemma sci_val x e d : (bpow ten e <= Rabs x < bpow ten (e + 1))%R -> (Rabs (Rabs x * bpow ten (10 - e) - IZR d) < / 2)%R -> d <> 10 ^ 11 -> sci x = (d, e).
Proof.
  intros B D N. assert (Hx : x <> 0%R).
  { intros ->. rewrite Rabs_R0 in B. pose proof (bpow_gt_0 ten e). lra. }
  assert (M : mag ten x = e + 1 :> Z) by (apply mag_unique; now replace (e + 1 - 1) with e by lia).
  unfold sci. rewrite Req_bool_false by exact Hx. rewrite M. replace (e + 1 - 1) with e by lia. cbn zeta.
  rewrite (Znearest_imp _ _ d D). apply Z.eqb_neq in N. now rewrite N.
Qed.
Lemma bpow_neg e : 0 <= e -> bpow ten (- e) = (/ IZR (10 ^ e))%R.
Proof. intros H. rewrite bpow_opp. now rewrite <- (IZR_Zpower ten e H). Qed.
Lemma bpow_nat e : 0 <= e -> bpow ten e = IZR (10 ^ e).
Proof. intros H. now rewrite <- (IZR_Zpower ten e H). Qed.
Lemma four_ninths : format_e (rnd (4 / 9)) = "4.4444444444e-01"%string.
Proof.
  destruct (ratio_finite 4 9 ltac:(lia) ltac:(lia)) as (_ & B & A). set (x := rnd (4 / 9)) in *.
  assert (U : (bpow radix2 (-53) <= / 1000000000000000)%R).
  { change (-53) with (Z.opp 53). rewrite bpow_opp, <- IZR_Zpower by lia. apply Rinv_le; [lra|]. apply IZR_le. apply Z.leb_le. vm_compute. reflexivity. }
  apply Rabs_le_inv in B as (B1 & B2). assert (P : (4 / 9 - / 1000000000000000 <= x <= 4 / 9 + / 1000000000000000)%R) by lra.
  unfold format_e. rewrite (sci_val x (-1) 44444444444).
  - rewrite Rlt_bool_false by lra. vm_compute. reflexivity.
  - rewrite Rabs_pos_eq by lra. change (-1 + 1) with 0. change (-1) with (Z.opp 1). rewrite bpow_neg, bpow_nat by lia.
    change (10 ^ 1) with 10. change (10 ^ 0) with 1. lra.
  - rewrite (Rabs_pos_eq x) by lra. change (10 - -1) with 11. rewrite bpow_nat by lia. change (10 ^ 11) with 100000000000. apply Rabs_def1; lra.
  - discriminate.
Qed.
Lemma int_text n e t : 0 < n -> 0 <= e <= 10 -> 10 ^ e <= n < 10 ^ (e + 1) -> n * 10 ^ (10 - e) <> 10 ^ 11 ->
  (digits 1 (n * 10 ^ (10 - e) / 10 ^ 10) ++ "." ++ digits 10 (n * 10 ^ (10 - e) mod 10 ^ 10) ++ "e" ++ exponent e)%string = t -> format_e (IZR n) = t.
Proof.
  intros Hn He B N <-. assert (P : (0 < IZR n)%R) by (now apply IZR_lt).
  unfold format_e. rewrite (sci_val (IZR n) e (n * 10 ^ (10 - e))).
  - rewrite Rlt_bool_false by lra. reflexivity.
  - rewrite Rabs_pos_eq by lra. rewrite !bpow_nat by lia. split; [apply IZR_le|apply IZR_lt]; lia.
  - rewrite (Rabs_pos_eq (IZR n)) by lra. rewrite bpow_nat by lia. rewrite mult_IZR. rewrite Rminus_diag_eq by reflexivity. rewrite Rabs_R0. lra.
  - exact N.
Qed.
Lemma text_4 : format_e 4 = "4.0000000000e+00"%string.
Proof. apply (int_text 4 0); [lia|lia|split; reflexivity || (vm_compute; discriminate)|discriminate|reflexivity]. Qed.
Lemma text_12 : format_e 12 = "1.2000000000e+01"%string.
Proof. apply (int_text 12 1); [lia|lia|split; reflexivity || (vm_compute; discriminate)|discriminate|reflexivity]. Qed.
Lemma text_0 : format_e 0 = "0.0000000000e+00"%string.
Proof. unfold format_e, sci. rewrite Req_bool_true by reflexivity. rewrite Rlt_bool_false by lra. reflexivity. Qed.

(** A file of one realization. *)
Definition demo_out : out_file := write_critical_values "20260101_000000" [[FDiv (FZ 4) (FZ 9); FZ 4; FZ 12]] 1 3 "sq" None.
Definition demo_text : string := (
  "# {""length"": 3, ""L"": 3, ""ensemble_size"": 1, ""En"": 1, ""date"": ""2026.01.01"", ""time"": ""00:00:00"", " ++
  """columns"": [""pc"", ""wrapping cluster site count at pc"", ""wrapping cluster bond count at pc""], ""desc"": [""pc=critical ocupation probability""]}" ++ nl ++
  "4.4444444444e-01 4.0000000000e+00 1.2000000000e+01" ++ nl)%string.
Lemma demo_file lg : file_text lg "2026.01.01" "00:00:00" demo_out = demo_text.
Proof.
  unfold file_text, demo_out, write_critical_values, row_text. cbn [o_rows map fl]. rewrite (rnd_id (rnd _)) by apply rnd_double.
  rewrite (rnd_id 4), (rnd_id 12) by (apply double_int; lia). rewrite four_ninths, text_4, text_12. vm_compute. reflexivity.
Qed.
