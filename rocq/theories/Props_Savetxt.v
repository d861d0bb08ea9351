(** * The text of the written files: C124.

    [format_e x]: the text "%.10e" gives for x; [file_text lg date clock F]: the text of the file F,
    where lg is the library's logarithm (Savetxt.v); [rnd (fl lg e)]: the binary64 value of the
    number e (Float.v).  [read_number], [read_table]: the number, the table written in a text;
    [nearest_eleven x y]: y is a decimal of at most eleven significant digits nearest to x;
    [reads_as text x y]: y is read from the text, nearest to x and within 5e-11 of it, relatively;
    [gives N y x]: x is m/N for the integer m nearest to y N (SavetxtSpec.v).
    [writes_critical]: a program that keeps critical values writes this file (CritSpec.v). *)
From Coq Require Import String ZArith List Bool Lia Lra Reals.
From Flocq Require Import Core.
From Verif Require Import Py Lattice Cluster Perc Spec History Demo Run EnsSpec UtilSpec EnsWitness Real AverageSpec MeanSpec CritSpec View ViewSpec Float FloatProps Savetxt SavetxtSpec SavetxtProps SavetxtCrit SavetxtWitness.
Import ListNotations.
Open Scope Z_scope.

Example ex_C124_number : finite (rnd (4 / 9)) /\ format_e (rnd (4 / 9)) = "4.4444444444e-01"%string.
Proof. split; [apply (ratio_finite 4 9); lia|exact four_ninths]. Qed.
Theorem C124_number : forall x, finite x -> exists y, reads_as (format_e x) x y.
Proof. exact p_C124_number. Qed.
Print Assumptions C124_number.

Example ex_C124_order : finite 4 /\ finite 12 /\ (4 <= 12)%R /\ read_number (format_e 4) = Some 4%R /\ read_number (format_e 12) = Some 12%R.
Proof. split; [apply int_finite; lia|]. split; [apply int_finite; lia|]. split; [lra|]. split; apply p_C124_integer; lia. Qed.
Theorem C124_order : forall x x' y y', finite x -> finite x' -> (x <= x')%R -> read_number (format_e x) = Some y -> read_number (format_e x') = Some y' -> (y <= y')%R.
Proof. exact p_C124_order. Qed.
Print Assumptions C124_order.

Example ex_C124_integer : Z.abs 12 < 10 ^ 11 /\ format_e 12 = "1.2000000000e+01"%string.
Proof. split; [lia|exact text_12]. Qed.
Theorem C124_integer : forall n, Z.abs n < 10 ^ 11 -> read_number (format_e (IZR n)) = Some (IZR n).
Proof. exact p_C124_integer. Qed.
Print Assumptions C124_integer.

Example ex_C124_fraction : 0 < 9 <= 9 * 10 ^ 9 /\ 0 <= 4 <= 9 /\ format_e (rnd (4 / 9)) = "4.4444444444e-01"%string /\ format_e (rnd (0 / 9)) = "0.0000000000e+00"%string.
Proof. split; [lia|]. split; [lia|]. split; [exact four_ninths|]. unfold Rdiv. rewrite Rmult_0_l, rnd_0. exact text_0. Qed.
Theorem C124_fraction : forall n N, 0 < N <= 9 * 10 ^ 9 -> 0 <= n <= N ->
  (exists y, read_number (format_e (rnd (IZR n / IZR N))) = Some y /\ gives N y (IZR n / IZR N)) /\
  forall m, 0 <= m <= N -> format_e (rnd (IZR m / IZR N)) = format_e (rnd (IZR n / IZR N)) -> m = n.
Proof. exact p_C124_fraction. Qed.
Print Assumptions C124_fraction.

Example ex_C124_table : forall lg, head_lines "2026.01.01" "00:00:00" demo_out /\ file_text lg "2026.01.01" "00:00:00" demo_out = demo_text /\
  (forall r, In r (o_rows demo_out) -> r <> [] /\ forall e, In e r -> finite (rnd (fl lg e))).
Proof.
  intros lg. split; [split; [reflexivity|]; split; [reflexivity|]; split; repeat constructor|]. split; [apply demo_file|].
  intros r [<- |[]]. split; [discriminate|]. intros e [<- |[<- |[<- |[]]]]; cbn [fl]; rewrite rnd_id by (first [apply rnd_double|apply double_int; lia]);
  [apply (ratio_finite 4 9); lia|apply int_finite; lia|apply int_finite; lia].
Qed.
Theorem C124_table : forall lg date clock F, head_lines date clock F -> (forall r, In r (o_rows F) -> r <> [] /\ forall e, In e r -> finite (rnd (fl lg e))) ->
  line (file_text lg date clock F) 0 = ("# " ++ json_head date clock F)%string /\
  length (lines (file_text lg date clock F)) = S (S (length (o_rows F))) /\
  exists table, read_table (file_text lg date clock F) = map (map Some) table /\
    Forall2 (Forall2 (fun y e => nearest_eleven (rnd (fl lg e)) y /\ (Rabs (y - rnd (fl lg e)) <= Rabs (rnd (fl lg e)) * (5 / 100000000000))%R)) table (o_rows F).
Proof. exact p_C124_table. Qed.
Print Assumptions C124_table.

Example ex_C124_critical : exists F, writes_critical demo_env 60 0 KSP 3 2 F /\ o_rows F = [[FDiv (FZ 4) (FZ 9); FDiv (FZ 4) (FZ 9)]; [FDiv (FZ 3) (FZ 9); FDiv (FZ 3) (FZ 9)]] /\
  one_line "2026.01.01" /\ one_line "00:00:00".
Proof.
  exists (match ensemble_shortest_path_v2_thread demo_env 60 0 stamp (AClass KSP) 3 2 0 None with Ok [d] => d | _ => mkOut "" 0 0 [] [] [] end).
  split; [|split; [vm_compute; reflexivity|split; reflexivity]]. right. split; [reflexivity|]. exists stamp, 0. vm_compute. reflexivity.
Qed.
Theorem C124_critical : forall E k L t0 s0 f n F lg date clock, env_ok E -> new_perc E k L t0 = Ok s0 -> 5 * (L * L) < Z.of_nat f -> 1 <= n ->
  L * L <= 9 * 10 ^ 9 -> one_line date -> one_line clock -> writes_critical E f t0 k L n F ->
  exists table, read_table (file_text lg date clock F) = map (map Some) table /\ length table = Z.to_nat n /\
    forall e, (1 <= e <= Z.to_nat n)%nat -> let s := realization E f s0 e in
      exists pc y ys, get_pc s = Ok pc /\ nth_error table (e - 1) = Some (y :: ys) /\ gives (L * L) y (feval pc) /\
        match k with
        | KSP => exists y', ys = [y'] /\ gives (L * L) y' (feval (sp_p s))
        | _ => ys = [IZR (get_site_count_wrapping_cluster_pc s); IZR (get_bond_count_wrapping_cluster_pc s)]
        end.
Proof. exact p_C124_critical. Qed.
Print Assumptions C124_critical.
