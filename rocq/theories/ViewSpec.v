(** * ViewSpec: reading printed text. *)
From Coq Require Import String Ascii DecimalString ZArith List Bool.
From Verif Require Import Perc History.
Import ListNotations.
Open Scope Z_scope.

(** The lines of a text; a text ending with a newline has an empty last line. *)
Fixpoint lines_from (cur s : string) : list string :=
  match s with
  | EmptyString => [cur]
  | String c s => if Ascii.eqb c "010"%char then cur :: lines_from EmptyString s
                  else lines_from (cur ++ String c EmptyString) s
  end.
Definition lines (s : string) : list string := lines_from EmptyString s.
Definition line (s : string) (n : nat) : string := nth n (lines s) EmptyString.

(** The integers written in a text: its longest runs of digits and minus signs, read as decimals. *)
Definition numeric (c : ascii) : bool :=
  ((48 <=? Z.of_nat (nat_of_ascii c)) && (Z.of_nat (nat_of_ascii c) <=? 57)) || Ascii.eqb c "-"%char.
Fixpoint runs (cur s : string) : list string :=
  match s with
  | EmptyString => [cur]
  | String c s => if numeric c then runs (cur ++ String c EmptyString) s else cur :: runs EmptyString s
  end.
Definition read_int (t : string) : list Z :=
  if (t =? EmptyString)%string then [] else
  match NilZero.int_of_string t with Some i => [Z.of_int i] | None => [] end.
Definition ints (s : string) : list Z := flat_map read_int (runs EmptyString s).

(** The numbers the general view shows for site (r, c) and for bond [b] lying right of or below that site. *)
Definition shown_site (L : Z) (s : perc) (format r c : Z) : list Z :=
  if format =? 1 then [site_label s (r * L + c); r * L + c]
  else if format =? 2 then [r * L + c; r; c] else [r; c].
Definition shown_bond (s : perc) (format b r c : Z) : list Z :=
  if format =? 1 then [bond_label s b; b]
  else if format =? 2 then [b; r; c] else [r; c].
