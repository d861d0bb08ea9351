(** * SelfWitness: a wrapped 4x4 lattice on which the row scan fails (C69). *)
From Coq Require Import ZArith List Bool Lia.
From Verif Require Import Py Lattice Cluster Perc Run Spec History Wrap Demo View LatSpec.
Import ListNotations.
Open Scope Z_scope.

Definition calls_scan : list call :=
  CSetIds [2; 13; 15; 4; 6; 8; 3; 5; 12; 14; 7; 9; 10; 1; 11; 0] false :: concat (repeat [CPlace; CDetect] 12).
Definition demo_scan : perc := demo KBase 4 calls_scan.
Lemma demo_scan_new : new_perc demo_env KBase 4 0 = Ok (demo0 KBase 4).
Proof. vm_compute. reflexivity. Qed.
Lemma demo_scan_reachable : reachable_tracked demo_env 4 demo_scan.
Proof.
  exists KBase, 0%nat, (demo0 KBase 4), calls_scan. split; [apply demo_scan_new|].
  split; [unfold calls_scan; repeat (apply Forall_cons || apply Forall_nil); exact I|]. split; [|reflexivity].
  unfold calls_scan. apply tr_other; [discriminate|]. cbn [repeat concat app]. repeat apply tr_place. apply tr_nil.
Qed.
Lemma p_C69_refuted : exists E L s, env_ok E /\ reachable_tracked E L s /\
  test_rwo_col_scan (lat s) = Err AssertionError /\ test_relative_index (lat s) = Ok tt.
Proof.
  exists demo_env, 4, demo_scan. split; [apply demo_env_ok|]. split; [apply demo_scan_reachable|]. split; vm_compute; reflexivity.
Qed.

(** A lattice of length 3 edited through its setters. *)
Definition demo_edits : list edit := [ESite 4 7; ERel 4 (2, -1); EBond 12 5; ESite 5 7; EReset; ESite 0 3; ESite 1 3; EBond 0 3; ERel 1 (0, 1)].
Definition demo_lat : lattice :=
  match new_lattice 3 with
  | Ok l => match foldM do_edit demo_edits l with Ok l' => l' | Err _ => l end
  | Err _ => mkLattice 0 0 0 [] []
  end.
Lemma demo_lat_edited : edited 3 demo_lat.
Proof.
  destruct (new_lattice 3) as [l|] eqn:E; [|discriminate (eq_trans (eq_sym E) ltac:(vm_compute; reflexivity))].
  exists l, demo_edits. split; [exact E|]. split.
  - unfold demo_edits. repeat (apply Forall_cons || apply Forall_nil); unfold edit_ok, is_site, is_bond; try lia; exact I.
  - unfold demo_lat. rewrite E. assert (X : new_lattice 3 = Ok l) by exact E. revert X. vm_compute. intros X. injection X as <-. reflexivity.
Qed.
Lemma demo_a_no_wrap : ~ wraps 3 (occupied demo_a).
Proof.
  intros W. apply (p_C23 demo_env 3 demo_a demo_env_ok ltac:(lia) demo_a_tracked) in W. revert W. vm_compute. discriminate.
Qed.
