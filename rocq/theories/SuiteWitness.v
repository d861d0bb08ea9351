(** * SuiteWitness: four placements without a detection call, and the one that wraps. *)
From Coq Require Import ZArith List Bool Lia.
From Verif Require Import Py Lattice Cluster Perc Spec PyFacts Torus Geometry Inv Count State History Reach StateProps Demo SuiteProps.
Import ListNotations.
Open Scope Z_scope.

Definition demo_skip : perc := after demo_env (demo0 KBase 3) (repeat CPlace 4).
Definition demo_hit : perc := fst (place_one_site demo_env demo_skip).
Lemma demo_skip_reachable : reachable demo_env 3 demo_skip.
Proof. exists KBase, O, (demo0 KBase 3), (repeat CPlace 4). split; [apply demo0_ok|]. split; [repeat constructor|reflexivity]. Qed.
Lemma demo_skip_no_wrap : ~ wraps 3 (occupied demo_skip).
Proof.
  apply (flat_list_no_wrap 3 [1; 2; 3; 4]); [vm_compute; reflexivity| |lia]. intros i Hi Ho.
  assert (Q : forallb (fun i => (site_label demo_skip i <? 0) || existsb (Z.eqb i) [1; 2; 3; 4]) (zrange 9) = true) by (vm_compute; reflexivity).
  rewrite forallb_forall in Q. specialize (Q i ltac:(apply In_zrange; unfold is_site in Hi; lia)). unfold occupied in Ho.
  apply orb_true_iff in Q as [Q|Q]; [apply Z.ltb_lt in Q; lia|]. apply existsb_exists in Q as (j & Hj & Ej). apply Z.eqb_eq in Ej. now subst.
Qed.
Lemma demo_hit_ok : place_one_site demo_env demo_skip = (demo_hit, Ok true) /\ flag_is_success demo_hit = true.
Proof.
  assert (Q : snd (place_one_site demo_env demo_skip) = Ok true /\ flag_is_success demo_hit = true) by (vm_compute; split; reflexivity).
  destruct Q as (Q & F). split; [|exact F]. unfold demo_hit. rewrite <- Q. apply surjective_pairing.
Qed.
