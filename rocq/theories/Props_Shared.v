(** * One site-id list held by several simulations: C109.

    Shared.v: the id lists are list objects in a store; an object that was given a list
    holds that list, and so may others.  [hrun Es L h es]: the store after the constructors,
    new lists, [set_custome_site_id_list] with an existing list and other calls es, object i
    drawing from Es i; [load h p]: the object p with its list as it is now;
    [undisturbed Es L h i es]: nobody but object i writes into the list i holds;
    [own_calls]: the calls of i; [unshared]: the object without the note on who else sees
    its list (SharedSpec.v).  [described L xs s]: everything s reports is the right function
    of the occupied sites xs (SymSpec.v). *)
From Coq Require Import ZArith List Bool Lia.
From Verif Require Import Py Lattice Cluster Perc Spec History Demo SymSpec Shared SharedSpec SharedProps.
Import ListNotations.
Open Scope Z_scope.

Example ex_C109_safe : let es := [HNew KBase; HNew KL1; HSet 1 0 false; HCall 0 CPlace; HCall 0 CPlace; HCall 1 (CRun 20); HCall 1 CReset; HList [3; 3; 5]; HSet 0 3 true] in
  let h := hrun zeros 3 nothing es in happenings_ok zeros 3 nothing es /\ map snd (objs h) = [3%nat; 2%nat] /\ map (fun p => zlen (occupied_sites 3 (load h p))) (objs h) = [2; 0].
Proof. cbv zeta. split; [vm_compute; repeat split; lia|vm_compute; auto]. Qed.
Theorem C109_safe : forall Es L es i p, 0 < L -> (forall j, env_ok (Es j)) -> happenings_ok Es L nothing es ->
  let h := hrun Es L nothing es in nth_error (objs h) i = Some p -> let s := load h p in
  described L (occupied_sites L s) s /\
  (after_wrap s = true -> 0 <= wid s /\ exists j, is_site L j /\ site_label s j = wid s /\ wraps_at L (fun k => site_label s k = wid s) j) /\
  Forall (is_site L) (get_site_id_sequence s).
Proof. exact p_C109_safe. Qed.
Print Assumptions C109_safe.

Example ex_C109_as_alone : let es := [HNew KBase; HSet 1 0 false; HCall 0 CPlace; HCall 1 (CRun 9); HCall 1 CReset; HCall 0 CPlace] in
  let h0 := hrun zeros 3 nothing [HNew KBase] in
  happenings_ok zeros 3 nothing (HNew KBase :: es) /\ undisturbed zeros 3 h0 0 es /\ map snd (objs (hrun zeros 3 h0 es)) = [0%nat; 0%nat] /\
  own_calls zeros 3 h0 0 es = [CPlace; CPlace] /\ map (fun p => occ_count (fst p)) (objs (hrun zeros 3 h0 es)) = [2; 0].
Proof.
  cbv zeta. split; [vm_compute; repeat split; lia|]. split; [|vm_compute; auto].
  cbn [undisturbed].
  assert (K : forall h e, match e with HCall j _ => j = O | HSet _ _ sh => sh = false | _ => True end -> undisturbed_by h 0 e).
  { intros h e He. unfold undisturbed_by. destruct (nth_error (objs h) 0) as [[o r]|]; [|exact I]. destruct e; auto. }
  split; [apply K; exact I|]. split; [apply K; reflexivity|]. split; [apply K; reflexivity|]. split; [|split; [|split; [apply K; reflexivity|exact I]]].
  - unfold undisturbed_by. destruct (nth_error _ 0) as [[o0 r0]|]; [|exact I]. right. intros o Ho.
    apply (f_equal (option_map (fun p => kind (fst p)))) in Ho. cbn [option_map fst] in Ho. assert (Ek : Some KBase = Some (kind o)) by (rewrite <- Ho; vm_compute; reflexivity). injection Ek as Ek. unfold only_reads. rewrite <- Ek. split; discriminate.
  - unfold undisturbed_by. destruct (nth_error _ 0) as [[o0 r0]|]; [|exact I]. right. intros o Ho.
    apply (f_equal (option_map (fun p => do_shuffle (fst p)))) in Ho. cbn [option_map fst] in Ho. assert (Ek : Some false = Some (do_shuffle o)) by (rewrite <- Ho; vm_compute; reflexivity). injection Ek as Ek. unfold only_reads. now rewrite <- Ek.
Qed.
Theorem C109_as_alone : forall Es L k es0 es, 0 < L -> (forall j, env_ok (Es j)) -> happenings_ok Es L nothing (es0 ++ HNew k :: es) ->
  let h0 := hrun Es L nothing (es0 ++ [HNew k]) in let i := length (objs (hrun Es L nothing es0)) in
  undisturbed Es L h0 i es ->
  exists s0 p, new_perc (Es i) k L 0 = Ok s0 /\
    nth_error (objs (hrun Es L h0 es)) i = Some p /\ let s := load (hrun Es L h0 es) p in let s' := after (Es i) s0 (own_calls Es L h0 i es) in
    unshared s = unshared s' /\ forall c, outcome (Es i) s c = outcome (Es i) s' c.
Proof. exact p_C109_alone. Qed.
Print Assumptions C109_as_alone.

Theorem C109_undisturbed_refuted : exists Es, (forall i, env_ok (Es i)) /\
  let given := [HNew KBase; HNew KBase; HSet 1 0 true] in
  let own := [HCall 0 CPlace; HCall 0 CPlace; HCall 0 CPlace; HCall 0 CPlace] in
  let other := [HNew KBase; HNew KL1; HSet 1 0 false] in
  let answer es := map (fun p => outcome (Es O) (load (hrun Es 3 nothing es) p) CPlace) (firstn 1 (objs (hrun Es 3 nothing es))) in
  answer (given ++ own) = [Ok true] /\ answer (given ++ own ++ [HCall 1 CReset]) = [Err AssertionError] /\
  answer (other ++ own) = [Ok true] /\ answer (other ++ own ++ [HCall 1 (CRun 45)]) = [Err AssertionError].
Proof. exact p_C109_refuted. Qed.
Print Assumptions C109_undisturbed_refuted.
