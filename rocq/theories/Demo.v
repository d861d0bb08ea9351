(** * Demo: concrete objects that meet the hypotheses of the property theorems. *)
From Coq Require Import ZArith List Bool Lia.
From Verif Require Import Py Lattice Cluster Perc Spec History.
Import ListNotations.
Open Scope Z_scope.

(** Sets iterate in first-insertion order; the random words are all 0. *)
Definition demo_env : env := mkEnv (fun l => nodup Z.eq_dec l) (fun _ => 0).
Lemma demo_env_ok : env_ok demo_env.
Proof. intros l. split; [apply NoDup_nodup|]. intros x. apply nodup_In. Qed.

Definition demo0 (k : pkind) (L : Z) : perc :=
  match new_perc demo_env k L 0 with Ok s => s | Err _ => mkPerc k (mkLattice 0 0 0 [] []) empty_pool [] []
    0 0 0 None None None 0 0 0 (FZ 0) (FZ 0) false 0 true [] [] [] [] 0 false true None None 0 0 [] (FZ 0) [] false 0 end.
Definition demo (k : pkind) (L : Z) (cs : list call) : perc := after demo_env (demo0 k L) cs.

Lemma demo0_ok k : new_perc demo_env k 3 0 = Ok (demo0 k 3).
Proof. destruct k; vm_compute; reflexivity. Qed.
Lemma demo_reachable k cs : Forall (call_ok 3) cs -> reachable demo_env 3 (demo k 3 cs).
Proof. intros H. exists k, 0%nat, (demo0 k 3), cs. split; [apply demo0_ok|]. auto. Qed.

(** A 3x3 base-rule object: sites 4, 0, 1 occupied (one cluster), nothing wraps. *)
Definition calls_a : list call :=
  [CSetIds [4; 0; 1; 2; 8] false; CPlace; CDetect; CPlace; CDetect; CPlace; CDetect].
Definition demo_a : perc := demo KBase 3 calls_a.
Lemma demo_a_reachable : reachable demo_env 3 demo_a.
Proof. unfold demo_a. apply demo_reachable. repeat (apply Forall_cons || apply Forall_nil); exact I. Qed.
(** One more placement completes the first row, and the wrapping is recorded. *)
Definition calls_b : list call :=
  [CSetIds [4; 0; 1; 2; 8] false; CPlace; CDetect; CPlace; CDetect; CPlace; CDetect; CPlace; CDetect].
Definition demo_b : perc := demo KBase 3 calls_b.
Lemma demo_b_reachable : reachable demo_env 3 demo_b.
Proof. unfold demo_b. apply demo_reachable. repeat (apply Forall_cons || apply Forall_nil); exact I. Qed.
(** The same two objects as tracked histories. *)
Lemma demo_a_tracked : reachable_tracked demo_env 3 demo_a.
Proof.
  exists KBase, 0%nat, (demo0 KBase 3), calls_a. split; [apply demo0_ok|].
  split; [repeat (apply Forall_cons || apply Forall_nil); exact I|]. split; [|reflexivity].
  unfold calls_a. apply tr_other; [discriminate|]. repeat apply tr_place. apply tr_nil.
Qed.
Lemma demo_b_tracked : reachable_tracked demo_env 3 demo_b.
Proof.
  exists KBase, 0%nat, (demo0 KBase 3), calls_b. split; [apply demo0_ok|].
  split; [repeat (apply Forall_cons || apply Forall_nil); exact I|]. split; [|reflexivity].
  unfold calls_b. apply tr_other; [discriminate|]. repeat apply tr_place. apply tr_nil.
Qed.
(** A 3x3 shortest-path object after a swap, two placements and a reset. *)
Definition calls_d : list call := [CSwap 1 5; CPlace; CDetect; CPlace; CReset; CSwap 0 8].
Definition demo_d : perc := demo KSP 3 calls_d.
Lemma demo_d_reachable : reachable_no_custom demo_env KSP 3 demo_d.
Proof.
  exists 0%nat, (demo0 KSP 3), calls_d. split; [apply demo0_ok|].
  split; [|split; [|reflexivity]]; unfold calls_d; repeat (apply Forall_cons || apply Forall_nil); try exact I;
    split; unfold is_site; lia.
Qed.
(** A duplicated entry: after the first placement the next entry is occupied. *)
Definition calls_e : list call := [CSetIds [4; 4; 1] false; CPlace; CDetect].
Definition demo_e : perc := demo KL0 3 calls_e.
Lemma demo_e_reachable : reachable_k demo_env KL0 3 demo_e.
Proof.
  exists 0%nat, (demo0 KL0 3), calls_e. split; [apply demo0_ok|].
  split; [repeat (apply Forall_cons || apply Forall_nil); exact I|reflexivity].
Qed.
Lemma demo_a_reachable_k : reachable_k demo_env KBase 3 demo_a.
Proof.
  exists 0%nat, (demo0 KBase 3), calls_a. split; [apply demo0_ok|].
  split; [repeat (apply Forall_cons || apply Forall_nil); exact I|reflexivity].
Qed.
Lemma demo0_fresh k : fresh_plain demo_env k 3 (demo0 k 3).
Proof. left. exists 0%nat. apply demo0_ok. Qed.
Lemma demo_d_fresh : fresh_plain demo_env KSP 3 (fst (reset demo_env demo_d)).
Proof. right. exists demo_d. split; [apply demo_d_reachable|reflexivity]. Qed.
Lemma demo_a_fresh : fresh_object demo_env KBase 3 (fst (reset demo_env demo_a)).
Proof. right. exists demo_a. split; [apply demo_a_reachable_k|reflexivity]. Qed.
(** L1 and L2 objects: the random words are all 0, so the third placement starts
    at an occupied candidate and takes a neighbour (L1: rejected; L2: two steps). *)
Definition calls_f : list call := [CPlace; CDetect; CPlace; CDetect].
Definition demo_f (k : pkind) : perc := demo k 3 calls_f.
Lemma demo_f_reachable k : reachable_k demo_env k 3 (demo_f k).
Proof.
  exists 0%nat, (demo0 k 3), calls_f. split; [apply demo0_ok|].
  split; [repeat (apply Forall_cons || apply Forall_nil); exact I|reflexivity].
Qed.
Lemma demo_f_plain k : reachable_plain demo_env k 3 (demo_f k).
Proof.
  exists 0%nat, (demo0 k 3), calls_f. split; [apply demo0_ok|].
  split; [repeat (apply Forall_cons || apply Forall_nil); exact I|reflexivity].
Qed.
Lemma demo0_fresh_object k : fresh_object demo_env k 3 (demo0 k 3).
Proof. left. exists 0%nat. apply demo0_ok. Qed.
Lemma demo_f_fresh k : fresh_object demo_env k 3 (fst (reset demo_env (demo_f k))).
Proof. right. exists (demo_f k). split; [apply demo_f_reachable|reflexivity]. Qed.

(** The same random words, but sets iterate in the opposite order. *)
Definition demo_rev : env := mkEnv (fun l => rev (nodup Z.eq_dec l)) (fun _ => 0).
Lemma demo_rev_ok : env_ok demo_rev.
Proof.
  intros l. split; [apply NoDup_rev, NoDup_nodup|]. intros x. cbn [e_ord demo_rev]. rewrite <- in_rev. apply nodup_In.
Qed.
