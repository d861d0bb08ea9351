(** * SharedSpec: what an object with a shared list may rely on. *)
From Coq Require Import ZArith List Bool.
From Verif Require Import Py Lattice Cluster Perc Spec History Shared.
Import ListNotations.
Open Scope Z_scope.

(** [swap_ids] is only used with site ids; objects and lists that are used exist. *)
Definition happening_ok (L : Z) (h : heap) (e : happening) : Prop :=
  match e with
  | HNew _ | HList _ => True
  | HSet i q _ => (i < length (objs h))%nat /\ (q < length (cells h))%nat
  | HCall i c => (i < length (objs h))%nat /\ call_ok L c
  end.
Fixpoint happenings_ok (Es : nat -> env) (L : Z) (h : heap) (es : list happening) : Prop :=
  match es with
  | [] => True
  | e :: es => happening_ok L h e /\ happenings_ok Es L (hstep Es L h e) es
  end.

(** Calls that do not write into the list the object holds: detection; setting another
    list; placement and runs except under L1 and L2; reset of an object told not to shuffle. *)
Definition only_reads (s : perc) (c : call) : Prop :=
  match c with
  | CDetect | CSetIds _ _ | CSetIndices _ _ => True
  | CPlace | CRun _ | CTestRun _ => kind s <> KL1 /\ kind s <> KL2
  | CReset => do_shuffle s = false
  | CSwap a b => a = b
  end.
(** Nobody but [i] writes into the list that [i] holds. *)
Definition undisturbed_by (h : heap) (i : nat) (e : happening) : Prop :=
  match nth_error (objs h) i with
  | None => True
  | Some (_, r) =>
      match e with
      | HCall j c => j = i \/ forall o, nth_error (objs h) j = Some (o, r) -> only_reads o c
      | HSet j q sh => j = i \/ q <> r \/ sh = false
      | _ => True
      end
  end.
Fixpoint undisturbed (Es : nat -> env) (L : Z) (h : heap) (i : nat) (es : list happening) : Prop :=
  match es with
  | [] => True
  | e :: es => undisturbed_by h i e /\ undisturbed Es L (hstep Es L h e) i es
  end.
(** The calls of object [i], each list written out as it was when it was handed over. *)
Fixpoint own_calls (Es : nat -> env) (L : Z) (h : heap) (i : nat) (es : list happening) : list call :=
  match es with
  | [] => []
  | e :: es =>
      match e with
      | HCall j c => if Nat.eqb j i then [c] else []
      | HSet j q sh => if Nat.eqb j i then [CSetIds (cell h q) sh] else []
      | _ => []
      end ++ own_calls Es L (hstep Es L h e) i es
  end.
(** The object without the note on who else sees its list. *)
Definition unshared (s : perc) : perc := rebind_ids (ids s) [] false s.
