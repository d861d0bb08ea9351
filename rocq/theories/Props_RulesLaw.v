(** * The law of L1 and L2 realizations, and their independence: C112.

    [words M W w]: w is a list of W words from 0..M-1; [fair M n]: such a word taken modulo 4 or
    modulo any m up to n is fair.  [drawing ord M W s cs R w]: R holds after the calls cs on s
    when the next words of the random stream are w; [how_many P m]: exactly m values satisfy P.
    [at_start ord k L s]: s is new, or was just reset after any history, and after that was
    perhaps given other site lists.  [about_growth R]: R looks at what [same_growth] lists:
    everything reported but the order in which the remaining candidates are stored.
    [jointly_drawing]: the same for a [plan] of several realizations with a reset between two
    of them; [words_needed]: enough words for the plan (RulesLawSpec.v, IidSpec.v). *)
From Coq Require Import ZArith List Bool Lia Permutation.
From Verif Require Import Py Lattice Cluster Perc Spec History Demo ChanceSpec IidSpec RulesLawSpec RulesLaw RulesJoint.
Import ListNotations.
Open Scope Z_scope.

Example ex_C112_law : let s := demo0 KL1 3 in let s' := exec demo_env s (CSetIds [8; 7; 6; 5; 4; 3; 2; 1; 0] false) in
  env_ok (mkEnv (e_ord demo_env) (fun _ => 0)) /\ fair 2520 (3 * 3) /\ at_start (e_ord demo_env) KL1 3 s /\ at_start (e_ord demo_env) KL1 3 s' /\ NoDup (ids s) /\ Permutation (ids s) (ids s') /\ ids s <> ids s' /\
  about_growth (fun z => sel_id z = Some 4) /\ drawing (e_ord demo_env) 12 2 (demo0 KL1 2) [CPlace] (fun z => sel_id z = Some 2) [1; 0].
Proof.
  cbv zeta. split; [exact demo_env_ok|]. split.
  { split; [lia|]. split; [now exists 630|]. intros m Hm. assert (m = 1 \/ m = 2 \/ m = 3 \/ m = 4 \/ m = 5 \/ m = 6 \/ m = 7 \/ m = 8 \/ m = 9) as Q by lia.
    exists (2520 / m). repeat destruct Q as [-> | Q]; [reflexivity..|]. now subst m. }
  assert (A : at_start (e_ord demo_env) KL1 3 (demo0 KL1 3)) by (apply (start_new _ _ _ (fun _ => 0) 0); vm_compute; reflexivity).
  split; [exact A|]. split; [apply (start_list _ _ _ (fun _ => 0)); [exact A|exact I|exact I]|]. split.
  { vm_compute. repeat constructor; cbn; intuition discriminate. }
  split.
  { apply NoDup_Permutation; [vm_compute; repeat constructor; cbn; intuition discriminate..|]. intros x. vm_compute. tauto. }
  split; [vm_compute; discriminate|]. split; [apply about_sel|].
assert (V : words 12 2 [1; 0]) by (split; [reflexivity|repeat constructor; lia]). assert (F : Forall realizing [CPlace]) by repeat constructor.
  exact (proj2 (drawing_iff 12 (e_ord demo_env) 2 (demo0 KL1 2) [CPlace] (fun z => sel_id z = Some 2) [1; 0] F (le_n 2) V) ltac:(vm_compute; reflexivity)).
Qed.
Theorem C112_law : forall ord Mx k L s s' cs R W m, env_ok (mkEnv ord (fun _ => 0)) -> 0 < L -> k = KL1 \/ k = KL2 -> fair Mx (L * L) ->
  at_start ord k L s -> at_start ord k L s' -> NoDup (ids s) -> Permutation (ids s) (ids s') ->
  Forall realizing cs -> starts cs -> (2 * all_tries cs <= W)%nat -> about_growth R ->
  (how_many (drawing ord Mx W s cs R) m <-> how_many (drawing ord Mx W s' cs R) m).
Proof. exact p_C112_law. Qed.
Print Assumptions C112_law.

Example ex_C112_next : let z := demo KL2 2 [CPlace; CPlace; CDetect] in let R z := sel_id z = Some 3 in let cs := [CPlace] in
  env_ok demo_env /\ fair 12 (2 * 2) /\ reachable_k demo_env KL2 2 z /\ reset demo_env z = (fst (reset demo_env z), Ok tt) /\ Forall realizing cs /\ starts cs /\ about_growth R /\
  how_many (drawing (e_ord demo_env) 12 2 (demo0 KL2 2) cs R) 36.
Proof.
  cbv zeta. split; [exact demo_env_ok|]. split; [exact fair_12_4|]. split.
  { exists O, (demo0 KL2 2), [CPlace; CPlace; CDetect]. split; [vm_compute; reflexivity|]. split; [repeat constructor|reflexivity]. }
  split; [vm_compute; reflexivity|]. split; [repeat constructor|]. split; [exact I|]. split; [apply about_sel|].
  pose proof (count_drawing (e_ord demo_env) 12 2 (demo0 KL2 2) [CPlace] (fun z => sel_id z = Some 3) (fun z => match sel_id z with Some x => x =? 3 | None => false end)) as Q. replace (zlen _) with 36 in Q by (vm_compute; reflexivity). apply Q; [|repeat constructor|apply le_n].
    intros z. destruct (sel_id z) as [x|]; [rewrite Z.eqb_eq; split; [intros ->; reflexivity|intros E; now injection E]|split; discriminate].
Qed.
Theorem C112_next : forall ord Mx k L E z s s' d d' t cs R W m, env_ok (mkEnv ord (fun _ => 0)) -> 0 < L -> k = KL1 \/ k = KL2 -> fair Mx (L * L) ->
  new_perc (mkEnv ord d) k L t = Ok s -> env_ok E -> reachable_k E k L z -> reset (mkEnv ord d') z = (s', Ok tt) ->
  Forall realizing cs -> starts cs -> (2 * all_tries cs <= W)%nat -> about_growth R ->
  (how_many (drawing ord Mx W s cs R) m <-> how_many (drawing ord Mx W s' cs R) m).
Proof. exact p_C112_next. Qed.
Print Assumptions C112_next.

Example ex_C112_joint : let p := [([CPlace], fun z => sel_id z = Some 1); ([CPlace], fun z => sel_id z = Some 2)] in
  env_ok demo_env /\ fair 12 (2 * 2) /\ at_start (e_ord demo_env) KL1 2 (demo0 KL1 2) /\ Permutation (zrange (2 * 2)) (ids (demo0 KL1 2)) /\
  Forall (fun q => Forall realizing (fst q) /\ starts (fst q) /\ about_growth (snd q)) p /\
  Forall2 (fun q m => how_many (drawing (e_ord demo_env) 12 (2 * all_tries (fst q)) (demo0 KL1 2) (fst q) (snd q)) m) p [36; 36].
Proof.
  cbv zeta. split; [exact demo_env_ok|]. split; [exact fair_12_4|]. split; [apply (start_new _ _ _ (fun _ => 0) 0); vm_compute; reflexivity|]. split.
  { apply NoDup_Permutation; [vm_compute; repeat constructor; cbn; intuition discriminate..|]. intros x. vm_compute. tauto. }
  split; [repeat constructor; apply about_sel|].
  constructor; [|constructor; [|constructor]]; cbn [fst snd].
  - pose proof (count_drawing (e_ord demo_env) 12 2 (demo0 KL1 2) [CPlace] (fun z => sel_id z = Some 1) (fun z => match sel_id z with Some x => x =? 1 | None => false end)) as Q. replace (zlen _) with 36 in Q by (vm_compute; reflexivity). apply Q; [|repeat constructor|apply le_n].
    intros z. destruct (sel_id z) as [x|]; [rewrite Z.eqb_eq; split; [intros ->; reflexivity|intros E; now injection E]|split; discriminate].
  - pose proof (count_drawing (e_ord demo_env) 12 2 (demo0 KL1 2) [CPlace] (fun z => sel_id z = Some 2) (fun z => match sel_id z with Some x => x =? 2 | None => false end)) as Q. replace (zlen _) with 36 in Q by (vm_compute; reflexivity). apply Q; [|repeat constructor|apply le_n].
    intros z. destruct (sel_id z) as [x|]; [rewrite Z.eqb_eq; split; [intros ->; reflexivity|intros E; now injection E]|split; discriminate].
Qed.
Theorem C112_joint : forall ord Mx k L s p ms, env_ok (mkEnv ord (fun _ => 0)) -> 0 < L -> k = KL1 \/ k = KL2 -> fair Mx (L * L) ->
  at_start ord k L s -> Permutation (zrange (L * L)) (ids s) ->
  Forall (fun q => Forall realizing (fst q) /\ starts (fst q) /\ about_growth (snd q)) p ->
  Forall2 (fun q m => how_many (drawing ord Mx (2 * all_tries (fst q)) s (fst q) (snd q)) m) p ms ->
  how_many (jointly_drawing ord Mx (words_needed L p) s p) (fold_right Z.mul 1 ms * Mx ^ (Z.of_nat (length p) * (L * L - 1))).
Proof. exact p_C112_joint. Qed.
Print Assumptions C112_joint.
