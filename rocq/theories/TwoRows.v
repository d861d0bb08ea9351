(** * TwoRows: a 5x5 lattice with two wrapping clusters (C79). *)
From Coq Require Import ZArith List Bool Lia.
From Verif Require Import Py Lattice Cluster Perc Spec History StateProps Demo.
Import ListNotations.
Open Scope Z_scope.

Definition calls_two : list call :=
  CSetIds [0; 1; 2; 3; 4; 10; 11; 12; 13; 14; 15; 20] false :: concat (repeat [CPlace; CDetect] 11).
Definition demo_two : perc := demo KBase 5 calls_two.
Lemma demo_two_new : new_perc demo_env KBase 5 0 = Ok (demo0 KBase 5).
Proof. vm_compute. reflexivity. Qed.
Lemma demo_two_tracked : reachable_tracked demo_env 5 demo_two.
Proof.
  exists KBase, 0%nat, (demo0 KBase 5), calls_two. split; [apply demo_two_new|].
  split; [unfold calls_two; repeat (apply Forall_cons || apply Forall_nil); exact I|]. split; [|reflexivity].
  unfold calls_two. apply tr_other; [discriminate|]. cbn [repeat concat app]. repeat apply tr_place. apply tr_nil.
Qed.
Lemma p_C79_refuted : exists E L s a b m n, env_ok E /\ 3 <= L /\ reachable_tracked E L s /\
  wraps_at L (occupied s) a /\ wraps_at L (occupied s) b /\ ~ connected L (occupied s) a b /\ after_wrap s = true /\
  order_param_wrapping s = Ok (FDiv (FZ m) (FZ (2 * (L * L)))) /\
  order_param_largest_clstr s = Ok (FDiv (FZ n) (FZ (2 * (L * L)))) /\ m < n.
Proof.
  exists demo_env, 5, demo_two, 0, 10, 15, 18. split; [apply demo_env_ok|]. split; [lia|]. split; [apply demo_two_tracked|].
  assert (W : forall r, r = 0 \/ r = 10 -> wraps_at 5 (occupied demo_two) r).
  { intros r Hr. exists [DRight; DRight; DRight; DRight; DRight]. split; [|vm_compute; discriminate].
    destruct Hr as [-> | ->]; repeat (apply walk_cons; [split; vm_compute; congruence|vm_compute; discriminate|]);
      (apply walk_nil; [split; vm_compute; congruence|vm_compute; discriminate]). }
  split; [auto|]. split; [auto|]. split; [|vm_compute; split; [reflexivity|]; split; [reflexivity|]; split; reflexivity].
  assert (R : reachable demo_env 5 demo_two).
  { destruct demo_two_tracked as (k & t0 & s0 & cs & E0 & Hc & _ & Es). exists k, t0, s0, cs. auto. }
  intros C. apply (p_C14 demo_env 5 demo_two demo_env_ok R) in C; [|split; vm_compute; congruence..|vm_compute; discriminate|vm_compute; discriminate].
  revert C. vm_compute. discriminate.
Qed.
