(** * L1 and L2 growth has no preferred direction, and L1 growth no preferred place: C113.

    [rule_symmetry k L f D]: f maps the lattice onto itself and neighbours in direction d to
    neighbours in direction D d; for L2 it also maps the edge of the index range onto itself.
    [ordering ord M W s cs A w]: A holds of the list of sites placed by the calls cs on s when
    the next words of the random stream are w; [drawing]: the same for what the object reports
    afterwards; [how_many P m]: exactly m values satisfy P; [fair M n]: a word from 0..M-1 taken
    modulo 4 or modulo any m up to n is fair; [at_start]: new, or reset after any history, and
    perhaps given another list (RulesSymSpec.v, RulesLawSpec.v).  [same_set_values L f s t],
    [same_loop_values L f s t]: t reports about the moved picture what s reports (SymSpec.v). *)
From Coq Require Import ZArith List Bool Lia Permutation.
From Verif Require Import Py Lattice Cluster Perc Spec History Demo ChanceSpec IidSpec SymSpec Symmetry RulesLawSpec RulesJoint RulesSymSpec RulesSym.
Import ListNotations.
Open Scope Z_scope.

Example ex_C113_symmetries : translate 3 1 2 0 = 5 /\ transpose 3 1 = 3 /\ flip 3 3 = 5 /\ straddles 3 5 DRight /\ ~ straddles 3 (translate 3 0 1 5) DRight /\ straddles 3 (flip 3 5) DLeft.
Proof. vm_compute. repeat split; discriminate. Qed.
Theorem C113_symmetries : forall L, 0 < L ->
  (forall r c, rule_symmetry KL1 L (translate L r c) (fun d => d)) /\
  (forall k, k = KL1 \/ k = KL2 -> rule_symmetry k L (transpose L) transpose_dir /\ rule_symmetry k L (flip L) mirror_dir /\
    forall f D g F, rule_symmetry k L f D -> rule_symmetry k L g F -> rule_symmetry k L (fun i => f (g i)) (fun d => D (F d))) /\
  (2 <= L -> ~ rule_symmetry KL2 L (translate L 0 1) (fun d => d)).
Proof. exact p_C113_symmetries. Qed.
Print Assumptions C113_symmetries.

Example ex_C113_orders : let s := demo0 KL2 2 in let cs := [CPlace; CPlace] in
  env_ok (mkEnv (e_ord demo_env) (fun _ => 0)) /\ fair 12 (2 * 2) /\ rule_symmetry KL2 2 (flip 2) mirror_dir /\ at_start (e_ord demo_env) KL2 2 s /\ Permutation (zrange (2 * 2)) (ids s) /\
  Forall growing cs /\ starts cs /\ flip 2 2 = 3 /\ how_many (ordering (e_ord demo_env) 12 4 s cs (fun l => nth_error l 1 = Some 3)) 5184.
Proof.
  cbv zeta. split; [exact demo_env_ok|]. split; [exact fair_12_4|]. split.
  { destruct (p_C113_symmetries 2) as (_ & H & _); [lia|]. destruct (H KL2 (or_intror eq_refl)) as (_ & Q & _). exact Q. }
  split; [apply (start_new _ _ _ (fun _ => 0) 0); vm_compute; reflexivity|]. split.
  { apply NoDup_Permutation; [vm_compute; repeat constructor; cbn; intuition discriminate..|]. intros x. vm_compute. tauto. }
  split; [repeat constructor|]. split; [exact I|]. split; [reflexivity|].
  pose proof (count_ordering (e_ord demo_env) 12 4 (demo0 KL2 2) [CPlace; CPlace] (fun l => nth_error l 1 = Some 3) (fun l => match nth_error l 1 with Some x => x =? 3 | None => false end)) as Q. replace (zlen _) with 5184 in Q by (vm_compute; reflexivity). apply Q; [|repeat constructor|apply le_n].
    intros l. destruct (nth_error l 1) as [x|]; [rewrite Z.eqb_eq; split; [intros ->; reflexivity|intros E; now injection E]|split; discriminate].
Qed.
Theorem C113_orders : forall ord Mx k L f D s cs W A m, env_ok (mkEnv ord (fun _ => 0)) -> 0 < L -> fair Mx (L * L) -> rule_symmetry k L f D ->
  at_start ord k L s -> Permutation (zrange (L * L)) (ids s) -> Forall growing cs -> starts cs -> (2 * all_tries cs <= W)%nat ->
  (how_many (ordering ord Mx W s cs (fun l => A (map f l))) m <-> how_many (ordering ord Mx W s cs A) m).
Proof. exact p_C113_orders. Qed.
Print Assumptions C113_orders.

Example ex_C113_values : let s := demo0 KL2 2 in let cs := [CPlace] in
  fair 12 (2 * 2) /\ rule_symmetry KL2 2 (transpose 2) transpose_dir /\ Forall growing cs /\ starts cs /\ transpose 2 1 = 2 /\
  (forall s t, same_set_values 2 (transpose 2) s t -> (occupied s 1 <-> occupied t (transpose 2 1))) /\
  how_many (drawing (e_ord demo_env) 12 2 s cs (fun z => site_label z 1 >=? 0 = true)) 36.
Proof.
  cbv zeta. split; [exact fair_12_4|]. split.
  { destruct (p_C113_symmetries 2) as (_ & H & _); [lia|]. destruct (H KL2 (or_intror eq_refl)) as (Q & _). exact Q. }
  split; [repeat constructor|]. split; [exact I|]. split; [reflexivity|]. split.
  { intros s t H. apply (sv_occupied _ _ _ _ H). unfold is_site. lia. }
  pose proof (count_drawing (e_ord demo_env) 12 2 (demo0 KL2 2) [CPlace] (fun z => site_label z 1 >=? 0 = true) (fun z => site_label z 1 >=? 0)) as Q. replace (zlen _) with 36 in Q by (vm_compute; reflexivity). apply Q; [reflexivity|repeat constructor|apply le_n].
Qed.
Theorem C113_values : forall ord Mx k L f D s cs W Q Q' m, env_ok (mkEnv ord (fun _ => 0)) -> 0 < L -> fair Mx (L * L) -> rule_symmetry k L f D ->
  at_start ord k L s -> Permutation (zrange (L * L)) (ids s) -> Forall growing cs -> starts cs -> (2 * all_tries cs <= W)%nat ->
  (forall s t, same_set_values L f s t -> (Q s <-> Q' t)) ->
  (how_many (drawing ord Mx W s cs Q) m <-> how_many (drawing ord Mx W s cs Q') m).
Proof. exact p_C113_values. Qed.
Print Assumptions C113_values.

Example ex_C113_loops : let s := demo0 KL2 3 in let cs := pairs 5 in let in_loop i z := after_wrap z = true /\ site_label z i = wid z in
  fair 2520 (3 * 3) /\ rule_symmetry KL2 3 (flip 3) mirror_dir /\ at_start (e_ord demo_env) KL2 3 s /\ Permutation (zrange (3 * 3)) (ids s) /\ Forall growing cs /\ starts cs /\ tracked cs /\
  moved_question 3 (flip 3) (fun z => in_loop 3 z) (fun z => in_loop 5 z) /\ flip 3 3 = 5 /\ after_wrap (after demo_env s (pairs 9)) = true.
Proof.
  cbv zeta. split.
  { split; [lia|]. split; [now exists 630|]. intros m Hm. assert (m = 1 \/ m = 2 \/ m = 3 \/ m = 4 \/ m = 5 \/ m = 6 \/ m = 7 \/ m = 8 \/ m = 9) as Q by lia.
    exists (2520 / m). repeat destruct Q as [-> | Q]; [reflexivity..|]. now subst m. }
  split.
  { destruct (p_C113_symmetries 3) as (_ & H & _); [lia|]. destruct (H KL2 (or_intror eq_refl)) as (_ & Q & _). exact Q. }
  split; [apply (start_new _ _ _ (fun _ => 0) 0); vm_compute; reflexivity|]. split.
  { apply NoDup_Permutation; [vm_compute; repeat constructor; cbn; intuition discriminate..|]. intros x. vm_compute. tauto. }
  split; [repeat (apply Forall_cons; [unfold growing; tauto|]); apply Forall_nil|]. split; [exact I|]. split; [repeat constructor; discriminate|]. split.
  { intros s t A B. assert (H3 : is_site 3 3) by (unfold is_site; lia). pose proof (sl_wrapped _ _ _ _ B) as E. rewrite <- E. split; intros (Hw & Hl); (split; [exact Hw|]); apply (sl_cluster _ _ _ _ B Hw 3 H3); exact Hl. }
  split; [reflexivity|]. vm_compute. reflexivity.
Qed.
Theorem C113_loops : forall ord Mx k L f D s cs W Q Q' m, env_ok (mkEnv ord (fun _ => 0)) -> 3 <= L -> fair Mx (L * L) -> rule_symmetry k L f D ->
  at_start ord k L s -> Permutation (zrange (L * L)) (ids s) -> Forall growing cs -> starts cs -> tracked cs -> (2 * all_tries cs <= W)%nat ->
  moved_question L f Q Q' ->
  (how_many (drawing ord Mx W s cs Q) m <-> how_many (drawing ord Mx W s cs Q') m).
Proof. exact p_C113_loops. Qed.
Print Assumptions C113_loops.

Example ex_C113_L1 : let s := demo0 KL1 2 in let cs := [CPlace; CPlace] in
  env_ok (mkEnv (e_ord demo_env) (fun _ => 0)) /\ fair 12 (2 * 2) /\ at_start (e_ord demo_env) KL1 2 s /\ Permutation (zrange (2 * 2)) (ids s) /\ Forall growing cs /\ starts cs /\
  how_many (ordering (e_ord demo_env) 12 4 s cs (fun l => nth_error l 1 = Some 3)) 5184.
Proof.
  cbv zeta. split; [exact demo_env_ok|]. split; [exact fair_12_4|]. split; [apply (start_new _ _ _ (fun _ => 0) 0); vm_compute; reflexivity|]. split.
  { apply NoDup_Permutation; [vm_compute; repeat constructor; cbn; intuition discriminate..|]. intros x. vm_compute. tauto. }
  split; [repeat constructor|]. split; [exact I|].
  pose proof (count_ordering (e_ord demo_env) 12 4 (demo0 KL1 2) [CPlace; CPlace] (fun l => nth_error l 1 = Some 3) (fun l => match nth_error l 1 with Some x => x =? 3 | None => false end)) as Q. replace (zlen _) with 5184 in Q by (vm_compute; reflexivity). apply Q; [|repeat constructor|apply le_n].
    intros l. destruct (nth_error l 1) as [x|]; [rewrite Z.eqb_eq; split; [intros ->; reflexivity|intros E; now injection E]|split; discriminate].
Qed.
Theorem C113_L1 : forall ord Mx L s cs W, env_ok (mkEnv ord (fun _ => 0)) -> 0 < L -> fair Mx (L * L) ->
  at_start ord KL1 L s -> Permutation (zrange (L * L)) (ids s) -> Forall growing cs -> starts cs -> (2 * all_tries cs <= W)%nat ->
  (forall n i m, is_site L i -> how_many (ordering ord Mx W s cs (fun l => nth_error l n = Some i)) m ->
     (forall j, is_site L j -> how_many (ordering ord Mx W s cs (fun l => nth_error l n = Some j)) m) /\
     how_many (ordering ord Mx W s cs (fun l => (n < length l)%nat)) (L * L * m)) /\
  (forall i j m, is_site L i -> is_site L j -> how_many (ordering ord Mx W s cs (In i)) m -> how_many (ordering ord Mx W s cs (In j)) m).
Proof. exact p_C113_L1. Qed.
Print Assumptions C113_L1.
