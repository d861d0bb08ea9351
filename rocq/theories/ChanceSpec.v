(** * ChanceSpec: how often something happens over all random choices.

    Constructing an object draws [L*L - 1] random indices, the [m]-th of them
    below [L*L - m].  [random_choices] is the set of all these vectors of indices;
    when the random generator is uniform each is equally likely, so the share of
    the vectors with a property is its probability.  [choices] (History.v) are the
    indices an environment hands out. *)
From Coq Require Import ZArith List.
From Verif Require Import Py Perc History.
Import ListNotations.
Open Scope Z_scope.

(** Exactly [n] values satisfy [P]. *)
Definition how_many {A} (P : A -> Prop) (n : Z) : Prop :=
  exists l, NoDup l /\ (forall x, In x l <-> P x) /\ n = Z.of_nat (length l).
(** All vectors of indices a shuffle of [n] entries can draw. *)
Definition random_choices (n : nat) (c : list Z) : Prop :=
  length c = (n - 1)%nat /\ forall m, (m < n - 1)%nat -> 0 <= nth m c 0 < Z.of_nat (n - m).
(** [Q] holds of the object constructed with the indices [c], whatever the rest of the environment does. *)
Definition constructed_with (k : pkind) (L : Z) (t : nat) (Q : env -> perc -> Prop) (c : list Z) : Prop :=
  random_choices (Z.to_nat (L * L)) c /\
  forall E s, env_ok E -> choices E t (Z.to_nat (L * L)) = c -> new_perc E k L t = Ok s -> Q E s.
(** [Q] holds for the share [a / b] of all choices. *)
Definition share (k : pkind) (L : Z) (t : nat) (Q : env -> perc -> Prop) (a b : Z) : Prop :=
  exists all good, 0 < all /\ how_many (random_choices (Z.to_nat (L * L))) all /\
    how_many (constructed_with k L t Q) good /\ b * good = a * all.
(** The pair of a placement and a detection after [m] such pairs is the one that
    first reports wrapping, and the site it placed is [x]. *)
Definition closes (E : env) (s : perc) (m : nat) (x : Z) : Prop :=
  let pairs n := concat (repeat [CPlace; CDetect] n) in
  after_wrap (after E s (pairs m)) = false /\ after_wrap (after E s (pairs (S m))) = true /\
  sel_id (after E s (pairs (S m))) = Some x.
