(** * What the random choices make equally likely: C96 and C97.

    [random_choices n]: the vectors of indices a shuffle of n entries can draw;
    [how_many P n]: exactly n values satisfy P; [constructed_with k L t Q c]: Q holds of
    the object constructed with the indices c; [share k L t Q a b]: Q holds for the share
    a / b of all vectors; [closes E s m x]: the pair of placement and detection number
    m + 1 is the first to report wrapping and placed x (ChanceSpec.v).  [pairs n]: n
    placements, each followed by detection; [placed_order]: SymSpec.v. *)
From Coq Require Import ZArith List Bool Lia Factorial.
From Verif Require Import Py Lattice Cluster Perc Spec History Demo SymSpec Symmetry ChanceSpec Chance.
Import ListNotations.
Open Scope Z_scope.

Example ex_C96 : NoDup [4; 0] /\ Forall (is_site 3) [4; 0] /\ random_choices 9 [0; 1; 2; 3; 4; 0; 1; 1] /\
  env_ok demo_env /\ placed_order (events demo_env (demo0 KBase 3) (pairs 2)) = [1; 2].
Proof.
  split; [repeat constructor; cbn; lia|]. split; [repeat constructor; unfold is_site; lia|].
  split; [split; [reflexivity|]; intros m Hm; do 8 (destruct m as [|m]; [cbn; lia|]); lia|]. split; [apply demo_env_ok|vm_compute; reflexivity].
Qed.
Theorem C96_first_sites : forall k L t xs, 0 < L -> k <> KL1 -> k <> KL2 -> NoDup xs -> Forall (is_site L) xs -> let n := Z.to_nat (L * L) in
  how_many (random_choices n) (Z.of_nat (fact n)) /\
  how_many (constructed_with k L t (fun E s => placed_order (events E s (pairs (length xs))) = xs)) (Z.of_nat (fact (n - length xs))).
Proof. exact p_C96. Qed.
Print Assumptions C96_first_sites.

Example ex_C96_share : is_site 3 4 /\ nth_error (placed_order (events demo_env (demo0 KBase 3) (pairs 9))) 3 = Some 4.
Proof. split; [unfold is_site; lia|vm_compute; reflexivity]. Qed.
Theorem C96_equal_shares : forall k L t i, 0 < L -> k <> KL1 -> k <> KL2 -> is_site L i -> let n := Z.to_nat (L * L) in
  (forall j, (j < n)%nat -> share k L t (fun E s => nth_error (placed_order (events E s (pairs n))) j = Some i) 1 (L * L)) /\
  (forall m, (m <= n)%nat -> share k L t (fun E s => occupied (after E s (pairs m)) i) (Z.of_nat m) (L * L)).
Proof. exact p_C96_share. Qed.
Print Assumptions C96_equal_shares.

Example ex_C97 : closes demo_env (demo0 KBase 3) 4 5 /\ new_perc demo_env KBase 3 0 = Ok (demo0 KBase 3).
Proof. split; [vm_compute; auto|apply demo0_ok]. Qed.
Theorem C97_first_loop_anywhere : forall k L t x, 3 <= L -> k <> KL1 -> k <> KL2 -> is_site L x -> let n := Z.to_nat (L * L) in
  share k L t (fun E s => exists m, (m < n)%nat /\ closes E s m x) 1 (L * L) /\
  (forall m, (m < n)%nat -> exists all good, how_many (constructed_with k L t (fun E s => exists y, closes E s m y)) all /\
     how_many (constructed_with k L t (fun E s => closes E s m x)) good /\ L * L * good = all).
Proof. exact p_C97. Qed.
Print Assumptions C97_first_loop_anywhere.
