(** * Float: the floating-point values the code computes.

    CPython's [float] is the IEEE 754 binary64 format with rounding to nearest,
    ties to even.  [fl lg e] is the value the interpreter obtains for the
    expression [e]: every operation is rounded once; the quotient of two integers
    is correctly rounded, as CPython's true division is; [lg] is the [log] of the C
    library.  Overflow is not modelled; the theorems bound the values. *)
From Coq Require Import ZArith List Reals.
From Flocq Require Import Core.
From Verif Require Import Py.
Open Scope R_scope.

(** Rounding to binary64 (without overflow). *)
Definition rnd (x : R) : R := round radix2 (FLT_exp (-1074) 53) ZnearestE x.
Definition is_double (x : R) : Prop := generic_format radix2 (FLT_exp (-1074) 53) x.

Fixpoint fl (lg : R -> R) (e : fexpr) : R :=
  match e with
  | FZ n => IZR n
  | FDiv a b => rnd (fl lg a / fl lg b)
  | FAdd a b => rnd (fl lg a + fl lg b)
  | FSub a b => rnd (fl lg a - fl lg b)
  | FMul a b => rnd (fl lg a * fl lg b)
  | FNeg a => - fl lg a
  | FLog a => lg (fl lg a)
  end.

(** The accuracy assumed of the library's logarithm: a relative error of at most
    2^-51, that is a few units in the last place. *)
Definition log_accurate (lg : R -> R) : Prop :=
  forall x, is_double x -> 0 < x -> Rabs (lg x - ln x) <= bpow radix2 (-51) * Rabs (ln x) + bpow radix2 (-1074).
