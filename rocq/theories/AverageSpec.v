(** * AverageSpec: what is expected of averages over several realizations. *)
From Coq Require Import ZArith List Reals.
From Verif Require Import Py Perc History Real ChanceSpec IidSpec RulesLawSpec Run EnsSpec.
Import ListNotations.

Definition sum_of (l : list R) : R := fold_right Rplus 0%R l.
Definition mean_of (l : list R) : R := (sum_of l / INR (length l))%R.
(** Finitely many values satisfy [P], at least one; the average of [f] over them is [m]. *)
Definition average {A} (P : A -> Prop) (f : A -> R) (m : R) : Prop :=
  exists l, NoDup l /\ (forall x, In x l <-> P x) /\ l <> [] /\ mean_of (map f l) = m.
(** The object after each of [n] realizations consisting of the calls [cs]; a [reset] comes
    between two of them. *)
Fixpoint series (E : env) (s : perc) (cs : list call) (n : nat) : list perc :=
  match n with
  | O => []
  | S n => after E s cs :: series E (exec E (after E s cs) CReset) cs n
  end.
(** The indices drawn by [n] shuffles of [N] entries, all possible ones. *)
Definition choice_lists (N n : nat) (c : list (list Z)) : Prop := length c = n /\ Forall (random_choices N) c.
(** The shuffles from position [t] of the random stream on draw [c]. *)
Definition drawn (E : env) (t N : nat) (c : list (list Z)) : Prop :=
  forall j, (j < length c)%nat -> choices E (t + j * (N - 1)) N = nth j c [].
(** The random stream goes on with the words [w] at position [t]. *)
Definition goes_on (d : nat -> Z) (t : nat) (w : list Z) : Prop :=
  forall i, (i < length w)%nat -> d (t + i)%nat = nth i w 0%Z.
(** Columns 1, 2 and 3 of the file written by an ensemble program, for one realization: entropy,
    order parameter of the largest and of the wrapping cluster after [i + 1] placements. *)
Definition column (j i : nat) (s : perc) : R :=
  feval (entry (match j with 1%nat => h_arr s | 2%nat => pl_arr s | _ => pw_arr s end) i).
(** One of the ensemble programs, run for [n] realizations, writes [F] (and perhaps a second file). *)
Definition writes (E : env) (f t0 : nat) (k : pkind) (L n : Z) (F : out_file) : Prop :=
  exists files, nth_error files 0 = Some F /\
    ((exists time, run_ensemble_entropy_order E f t0 time (AClass k) L n = Ok files) \/
     (exists time i, run_ensemble_entropy_order_threads E f t0 time (AClass k) L n i = Ok files) \/
     (exists time i, run_ensemble_entropy_order_threads_v2 E f t0 time (AClass k) L n i None = Ok files)).
Definition cell (F : out_file) (i j : nat) : R := feval (nth j (nth i (o_rows F) []) (FZ 0)).
(** Of the values that satisfy [P], of which there are finitely many, at most [share] satisfy [Q]. *)
Definition rarely {A} (P Q : A -> Prop) (share : R) : Prop :=
  exists bad total, how_many (fun c => P c /\ Q c) bad /\ how_many P total /\ (0 < total)%Z /\ (IZR bad <= share * IZR total)%R.
