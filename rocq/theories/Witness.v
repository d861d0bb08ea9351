(** * Witness: concrete histories showing what the library does not guarantee. *)
From Coq Require Import ZArith List Bool Lia.
From Verif Require Import Py Lattice Cluster Perc Spec History Demo.
Import ListNotations.
Open Scope Z_scope.

(** C24: the first row is completed, site 4 is placed, and only then the wrapping is looked for. *)
Definition calls_c : list call := [CSetIds [0; 1; 2; 4] false; CPlace; CPlace; CPlace; CPlace].
Definition demo_c : perc := demo KBase 3 calls_c.
Lemma demo_c_reachable : reachable demo_env 3 demo_c.
Proof. unfold demo_c. apply demo_reachable. repeat (apply Forall_cons || apply Forall_nil); exact I. Qed.
Lemma demo_c_labels : (0 <=? site_label demo_c 0) && (0 <=? site_label demo_c 1) && (0 <=? site_label demo_c 2) = true /\
  snd (detect_wrapping demo_c) = Ok false.
Proof. vm_compute. split; reflexivity. Qed.
Lemma row0_wraps s : occupied s 0 -> occupied s 1 -> occupied s 2 -> wraps 3 (occupied s).
Proof.
  intros H0 H1 H2. exists 0, [DRight; DRight; DRight]. split; [|discriminate].
  assert (S : forall i, 0 <= i < 9 -> is_site 3 i) by (unfold is_site; lia).
  apply walk_cons; [apply S; lia|exact H0|]. change (nbr 3 0 DRight) with 1.
  apply walk_cons; [apply S; lia|exact H1|]. change (nbr 3 1 DRight) with 2.
  apply walk_cons; [apply S; lia|exact H2|]. change (nbr 3 2 DRight) with 0.
  apply walk_nil; [apply S; lia|exact H0].
Qed.
Lemma p_C24 : exists E L s, env_ok E /\ 3 <= L /\ reachable E L s /\
  wraps L (occupied s) /\ snd (detect_wrapping s) = Ok false.
Proof.
  exists demo_env, 3, demo_c. split; [exact demo_env_ok|]. split; [lia|]. split; [exact demo_c_reachable|].
  destruct demo_c_labels as (E1 & E2). apply andb_prop in E1 as (E1 & C). apply andb_prop in E1 as (A & B).
  split; [|exact E2]. apply row0_wraps; unfold occupied; apply Z.leb_le; [exact A|exact B|exact C].
Qed.

(** C50: the sites 0, 1, 2, 7, 8, 9, 4 wrap around rows 0 and 1 of a 5x5 lattice, row 3 is
    filled next, site 12 attaches it, and site 3 then completes row 0. *)
Definition draws_g : list Z := [24; 23; 22; 21; 20; 14; 13; 11; 10; 6; 5; 3; 12; 5; 3; 5; 3; 6; 4; 5; 3; 3; 2; 1].
Definition env_g : env := mkEnv (fun l => nodup Z.eq_dec l) (fun t => nth t draws_g 0).
Lemma env_g_ok : env_ok env_g.
Proof. intros l. split; [apply NoDup_nodup|]. intros x. apply nodup_In. Qed.
Definition demo_g : perc :=
  match new_perc env_g KSP 5 0 with Ok s => s | Err _ => demo0 KSP 5 end.
Lemma demo_g_new : new_perc env_g KSP 5 0 = Ok demo_g.
Proof. vm_compute. reflexivity. Qed.
Definition check_g : bool :=
  let t := trace env_g 13 demo_g in
  after_wrap t && forallb (fun c => site_label t (3 * 5 + c) =? wid t) [0; 1; 2; 3; 4] &&
  match sp_p (fst (run_once env_g 26 demo_g)) with FDiv (FZ a) (FZ b) => (a =? 14) && (b =? 25) | _ => false end.
Lemma check_g_ok : check_g = true.
Proof. vm_compute. reflexivity. Qed.
Lemma p_C50_first : exists E L s n r, env_ok E /\ 3 <= L /\ new_perc E KSP L 0 = Ok s /\
  sp_p (fst (run_once E (S (Z.to_nat (L * L))) s)) = FDiv (FZ (Z.of_nat (S n))) (FZ (L * L)) /\
  after_wrap (trace E n s) = true /\ 0 <= r < L /\ full_row L (trace E n s) r.
Proof.
  exists env_g, 5, demo_g, 13%nat, 3. split; [exact env_g_ok|]. split; [lia|]. split; [exact demo_g_new|].
  pose proof check_g_ok as C. unfold check_g in C. cbv zeta in C. apply andb_prop in C as (C & C3). apply andb_prop in C as (C1 & C2).
  split; [|split; [exact C1|split; [lia|]]].
  - change (S (Z.to_nat (5 * 5))) with 26%nat. destruct (sp_p (fst (run_once env_g 26 demo_g))) as [|a b| | | | |]; try discriminate C3.
    destruct a; try discriminate C3. destruct b; try discriminate C3. apply andb_prop in C3 as (A & B).
    apply Z.eqb_eq in A, B. subst. reflexivity.
  - intros c Hc. rewrite forallb_forall in C2. apply Z.eqb_eq, C2. assert (c = 0 \/ c = 1 \/ c = 2 \/ c = 3 \/ c = 4) by lia. cbn. intuition auto.
Qed.
