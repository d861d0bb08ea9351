(** * HeapDemo: a store that meets the hypotheses of C114. *)
From Coq Require Import ZArith List Bool Lia.
From Verif Require Import Py Lattice Cluster Perc Spec History Demo Heap HeapSpec.
Import ListNotations.
Open Scope Z_scope.

Definition hdemo0 : heap :=
  match h_new demo_env KL0 3 0 with Ok h => h | Err _ => mkHeap (demo0 KL0 3) [] [] [] 0 [] [] end.
(** Sites 1 and 2 are one cluster, site 3 is another, with number 9. *)
Definition hdemo : heap := hafter demo_env hdemo0 [CPlace; CPlace; CPlace].
(** The fourth site joins them; cluster 9 is absorbed. *)
Definition hjoined : heap := hexec demo_env hdemo CPlace.
Lemma hdemo_life : life demo_env KL0 3 0 [CPlace; CPlace; CPlace] hdemo.
Proof. exists hdemo0. split; [vm_compute; reflexivity|]. split; [repeat constructor|reflexivity]. Qed.
Definition hrow0 : heap :=
  match h_new demo_env KBase 4 0 with Ok h => h | Err _ => hdemo0 end.
