(** * Py: the fragment of Python used by the model.

    Exceptions are values; lists are Coq lists indexed by [Z] with Python's
    negative-index rule; [range] is a list of integers.  None of this models a
    particular line of /repo: it is the language layer that the citations in the
    other model files rest on. *)
From Coq Require Import ZArith List Bool Lia.
Import ListNotations.
Open Scope Z_scope.

(** Python exceptions that the modelled code can raise.  [OutOfFuel] is not a
    Python exception: it marks exhaustion of the fuel given to a [while] loop. *)
Inductive exn :=
| IndexError | ValueError | AssertionError | TypeError | AttributeError
| ZeroDivisionError | OutOfFuel.

Inductive res (A : Type) :=
| Ok (a : A)
| Err (e : exn).
Arguments Ok {A} a.
Arguments Err {A} e.

Definition rbind {A B} (m : res A) (k : A -> res B) : res B :=
  match m with Ok a => k a | Err e => Err e end.
Notation "x <- m ;; k" := (rbind m (fun x => k))
  (at level 61, m at next level, right associativity).
Notation "' p <- m ;; k" := (rbind m (fun x => match x with p => k end))
  (at level 61, p pattern, m at next level, right associativity).

(** [range(n)] (empty when [n <= 0]). *)
Definition zrange (n : Z) : list Z := map Z.of_nat (seq 0 (Z.to_nat n)).

Definition zlen {A} (l : list A) : Z := Z.of_nat (length l).

(** Position denoted by the Python index [i] in a list of length [n]. *)
Definition py_pos (n i : Z) : option nat :=
  if (0 <=? i) && (i <? n) then Some (Z.to_nat i)
  else if (- n <=? i) && (i <? 0) then Some (Z.to_nat (n + i))
  else None.

(** [l[i]] *)
Definition lget {A} (l : list A) (i : Z) : res A :=
  match py_pos (zlen l) i with
  | Some k => match nth_error l k with Some a => Ok a | None => Err IndexError end
  | None => Err IndexError
  end.

Fixpoint upd {A} (l : list A) (k : nat) (v : A) : list A :=
  match l, k with
  | [], _ => []
  | _ :: t, O => v :: t
  | h :: t, S k' => h :: upd t k' v
  end.

(** [l[i] = v] *)
Definition lset {A} (l : list A) (i : Z) (v : A) : res (list A) :=
  match py_pos (zlen l) i with
  | Some k => Ok (upd l k v)
  | None => Err IndexError
  end.

(** [x in l] on integers *)
Definition zmem (x : Z) (l : list Z) : bool := existsb (Z.eqb x) l.

(** [l.remove(x)]: drops the first occurrence, [ValueError] if there is none. *)
Fixpoint lremove (x : Z) (l : list Z) : res (list Z) :=
  match l with
  | [] => Err ValueError
  | h :: t => if h =? x then Ok t else t' <- lremove x t ;; Ok (h :: t')
  end.

(** [for x in l: acc = f acc x] where the body may raise. *)
Fixpoint foldM {A B} (f : A -> B -> res A) (l : list B) (acc : A) : res A :=
  match l with
  | [] => Ok acc
  | x :: t => acc' <- f acc x ;; foldM f t acc'
  end.

(** [[f x for x in l]] where the body may raise. *)
Fixpoint mapM {A B} (f : A -> res B) (l : list A) : res (list B) :=
  match l with
  | [] => Ok []
  | x :: t => y <- f x ;; ys <- mapM f t ;; Ok (y :: ys)
  end.

(** [max(l)], [min(l)]: [ValueError] on the empty list. *)
Definition lmax (l : list Z) : res Z :=
  match l with [] => Err ValueError | h :: t => Ok (fold_left Z.max t h) end.
Definition lmin (l : list Z) : res Z :=
  match l with [] => Err ValueError | h :: t => Ok (fold_left Z.min t h) end.

(** [assert b] *)
Definition passert (b : bool) : res unit := if b then Ok tt else Err AssertionError.

(** Symbolic floating-point values: the expression tree the code evaluates, in
    the order in which it evaluates it.  [FEval.v] interprets these trees over
    the real numbers, so a theorem about [feval] is about exact arithmetic. *)
Inductive fexpr :=
| FZ (n : Z)                 (* an integer literal or counter *)
| FDiv (a b : fexpr)
| FAdd (a b : fexpr)
| FSub (a b : fexpr)
| FMul (a b : fexpr)
| FNeg (a : fexpr)
| FLog (a : fexpr).

(** True division of two integers, [a / b]. *)
Definition int_div (a b : Z) : res fexpr :=
  if b =? 0 then Err ZeroDivisionError else Ok (FDiv (FZ a) (FZ b)).
(** [math.log(a / b)] for integers: [ValueError] (domain error) unless positive. *)
Definition log_ratio (a b : Z) : res fexpr :=
  q <- int_div a b ;;
  if 0 <? a * b then Ok (FLog q) else Err ValueError.
(** [math.log(n)] for an integer. *)
Definition log_int (n : Z) : res fexpr :=
  if 0 <? n then Ok (FLog (FZ n)) else Err ValueError.
