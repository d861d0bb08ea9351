(** * Savetxt: the text of the files the ensemble programs write.

    Every file is written by [np.savetxt(filename, data, fmt="%.10e", header=header_str)]
    (ens:72, 93, 154; spr:46) with [header_str = json.dumps(head)].  [np.savetxt] writes the
    header behind "# ", then one line per row: the numbers of the row, as binary64 values,
    formatted with "%.10e" and separated by one space.  The date and the time of day are
    parameters. *)
From Coq Require Import String Ascii ZArith List Bool Reals.
From Flocq Require Import Core.
From Verif Require Import Py Run View Float.
Import ListNotations.
Open Scope Z_scope.

Definition ten : radix := Build_radix 10 eq_refl.

(** One decimal digit, and the last [w] decimal digits of [n], with leading zeros. *)
Definition digit (d : Z) : ascii := ascii_of_nat (Z.to_nat (48 + d)).
Fixpoint digits (w : nat) (n : Z) : string :=
  match w with O => EmptyString | S w => (digits w (n / 10) ++ String (digit (n mod 10)) EmptyString)%string end.

(** C's "%.10e", as CPython implements it (correctly rounded, ties to even): the eleven
    significant digits, as one integer, and the decimal exponent; rounding up to 10^11 moves
    the point.  The sign of a negative zero is left out. *)
Definition sci (x : R) : Z * Z :=
  if Req_bool x 0 then (0, 0) else
  let e := mag ten x - 1 in
  let d := ZnearestE (Rabs x * bpow ten (10 - e)) in
  if d =? 10 ^ 11 then (10 ^ 10, e + 1) else (d, e).
(** The exponent has a sign and at least two digits; those of binary64 values have at most three. *)
Definition exponent (e : Z) : string :=
  ((if (e <? 0)%Z then "-" else "+") ++ (if (Z.abs e <? 100)%Z then digits 2 (Z.abs e) else digits 3 (Z.abs e)))%string.
Definition format_e (x : R) : string :=
  let '(d, e) := sci x in
  ((if Rlt_bool x 0 then "-" else "") ++ digits 1 (d / 10 ^ 10)%Z ++ "." ++ digits 10 (d mod 10 ^ 10)%Z ++ "e" ++ exponent e)%string.

(** ens:60-70, 82-91, 141-151, spr:33-44: [json.dumps(head)]; none of the strings needs escaping. *)
Definition quoted (s : string) : string := (String "034" s ++ String "034" EmptyString)%string.
Definition json_strings (l : list string) : string := ("[" ++ join ", " (map quoted l) ++ "]")%string.
Definition json_head (date clock : string) (F : out_file) : string :=
  ("{" ++ join ", " (map (fun e => quoted (fst e) ++ ": " ++ snd e)
    [("length", str_int (o_length F)); ("L", str_int (o_length F));
     ("ensemble_size", str_int (o_ensemble F)); ("En", str_int (o_ensemble F));
     ("date", quoted date); ("time", quoted clock);
     ("columns", json_strings (o_columns F)); ("desc", json_strings (o_desc F))]) ++ "}")%string.

(** ens:72, 93, 154, spr:46: the text [np.savetxt] writes; the data become an array of binary64 values. *)
Definition row_text (lg : R -> R) (r : list fexpr) : string :=
  (join " " (map (fun e => format_e (rnd (fl lg e))) r) ++ nl)%string.
Definition file_text (lg : R -> R) (date clock : string) (F : out_file) : string :=
  ("# " ++ json_head date clock F ++ nl ++ concat_s (map (row_text lg) (o_rows F)))%string.
