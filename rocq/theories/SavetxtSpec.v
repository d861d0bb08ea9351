(** * SavetxtSpec: reading a table of decimal numbers, and rounding to eleven digits. *)
From Coq Require Import String Ascii ZArith List Bool Reals.
From Flocq Require Import Core.
From Verif Require Import Py Run Float ViewSpec.
Import ListNotations.
Open Scope Z_scope.

(** The number a string of decimal digits stands for. *)
Fixpoint value_from (v : Z) (s : string) : option Z :=
  match s with
  | EmptyString => Some v
  | String c s => let d := Z.of_nat (nat_of_ascii c) - 48 in
                  if (0 <=? d) && (d <=? 9) then value_from (10 * v + d) s else None
  end.
Definition value (s : string) : option Z := if (s =? "")%string then None else value_from 0 s.
(** The two parts of a string before and after the first [c]. *)
Fixpoint cut (c : ascii) (s : string) : option (string * string) :=
  match s with
  | EmptyString => None
  | String a s => if Ascii.eqb a c then Some (EmptyString, s)
                  else match cut c s with Some (l, r) => Some (String a l, r) | None => None end
  end.
(** The sign in front of a numeral. *)
Definition signed (s : string) : Z * string :=
  match s with
  | String "-" s => (-1, s)
  | String "+" s => (1, s)
  | s => (1, s)
  end.
(** The number written in scientific notation: sign, digits, point, digits, "e", sign, digits. *)
Definition read_number (s : string) : option R :=
  let '(sg, s) := signed s in
  match cut "e" s with
  | None => None
  | Some (m, x) =>
    let '(sx, x) := signed x in
    match cut "." m with
    | None => None
    | Some (a, b) =>
      match value a, value b, value x with
      | Some va, Some vb, Some vx =>
        Some (IZR sg * (IZR va + IZR vb / IZR (10 ^ Z.of_nat (String.length b))) * powerRZ 10 (sx * vx))%R
      | _, _, _ => None
      end
    end
  end.
(** The words of a line: its parts between single spaces. *)
Fixpoint words_from (cur s : string) : list string :=
  match s with
  | EmptyString => [cur]
  | String c s => if Ascii.eqb c " " then cur :: words_from EmptyString s
                  else words_from (cur ++ String c EmptyString) s
  end.
(** The lines that hold data: not empty and not a comment. *)
Definition is_data (l : string) : bool :=
  match l with EmptyString => false | String c _ => negb (Ascii.eqb c "#") end.
(** The table in a text. *)
Definition read_table (text : string) : list (list (option R)) :=
  map (fun l => map read_number (words_from EmptyString l)) (filter is_data (lines text)).

(** The finite binary64 values. *)
Definition finite (x : R) : Prop := is_double x /\ (Rabs x < bpow radix2 1024)%R.
(** A decimal number of at most eleven significant digits; [y] is one nearest to [x]. *)
Definition eleven (y : R) : Prop := exists d e, Z.abs d < 10 ^ 11 /\ y = (IZR d * powerRZ 10 e)%R.
Definition nearest_eleven (x y : R) : Prop := eleven y /\ forall z, eleven z -> (Rabs (y - x) <= Rabs (z - x))%R.
(** The number [y] read back for the value [x]. *)
Definition reads_as (text : string) (x y : R) : Prop :=
  read_number text = Some y /\ nearest_eleven x y /\ (Rabs (y - x) <= Rabs x * (5 / 100000000000))%R.
(** A text without a line break. *)
Definition one_line (s : string) : Prop := lines s = [s].
Definition head_lines (date clock : string) (F : out_file) : Prop :=
  one_line date /\ one_line clock /\ Forall one_line (o_columns F) /\ Forall one_line (o_desc F).
(** [y] gives the fraction [x] of [N] exactly: [x] is m/N and m is the integer nearest to y N. *)
Definition gives (N : Z) (y x : R) : Prop := exists m, x = (IZR m / IZR N)%R /\ (Rabs (y * IZR N - IZR m) < / 2)%R.
