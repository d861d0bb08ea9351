(** * WorldSpec: histories of several objects, seen from one of them. *)
From Coq Require Import ZArith List Bool.
From Verif Require Import Py Lattice Cluster Perc History World.
Import ListNotations.
Open Scope Z_scope.

(** The calls made to object [i], in order. *)
Fixpoint calls_to (i : nat) (es : list event) : list call :=
  match es with
  | [] => []
  | ECall j c :: es => if Nat.eqb j i then c :: calls_to i es else calls_to i es
  | _ :: es => calls_to i es
  end.
(** The answers object [i] gives during a history of the whole process. *)
Fixpoint answers_of (ord : list Z -> list Z) (i : nat) (w : world) (es : list event) : list (option (res bool)) :=
  match es with
  | [] => []
  | e :: es =>
      match e with ECall j c => if Nat.eqb j i then [wanswer ord w j c] else [] | _ => [] end ++
      answers_of ord i (wstep ord w e) es
  end.
(** The answers of an object that is alone in its process. *)
Fixpoint answers (E : env) (s : perc) (cs : list call) : list (option (res bool)) :=
  match cs with
  | [] => []
  | c :: cs => Some (outcome E s c) :: answers E (exec E s c) cs
  end.
(** Calls that take nothing from the generator, for an object of class [k]:
    placement, detection and runs except under L1 and L2, [swap_ids]. *)
Definition drawless (k : pkind) (c : call) : Prop :=
  match c with
  | CPlace | CRun _ | CTestRun _ => k <> KL1 /\ k <> KL2
  | CDetect | CSwap _ _ => True
  | _ => False
  end.
