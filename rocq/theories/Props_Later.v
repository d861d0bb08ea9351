(** * Chances under the rules L1 and L2: C105 and C106.

    [share], [how_many], [constructed_with], [closes]: ChanceSpec.v.  [then_draws L t w Q]:
    Q, provided the random generator hands out w 0, w 1, ... after the construction
    (L1ChanceSpec.v).  [translate L r c]: moves a site by r rows and c columns
    (SymSpec.v).  [straddles L b d]: the step from b in direction d crosses the border of
    the index range (History.v). *)
From Coq Require Import ZArith List Bool Lia.
From Verif Require Import Py Lattice Cluster Perc Spec History Demo SymSpec Symmetry ChanceSpec L1ChanceSpec L1Chance L2Chance.
Import ListNotations.
Open Scope Z_scope.

Definition moved_env : env := mkEnv (fun l => nodup Z.eq_dec l) (fun m => nth m [3; 2; 1; 0; 3; 2; 1; 0] 0).
Definition moved0 : perc := match new_perc moved_env KL1 3 0 with Ok s => s | Err _ => demo0 KL1 3 end.
Example ex_C105_runs : env_ok moved_env /\ new_perc moved_env KL1 3 0 = Ok moved0 /\ new_perc demo_env KL1 3 0 = Ok (demo0 KL1 3) /\
  (forall m, (8 <= m)%nat -> e_draw moved_env m = e_draw demo_env m) /\
  get_site_id_sequence (demo0 KL1 3) = [1; 2; 3; 4; 5; 6; 7; 8; 0] /\ get_site_id_sequence moved0 = map (translate 3 1 0) [1; 2; 3; 4; 5; 6; 7; 8; 0] /\
  placed_order (events demo_env (demo0 KL1 3) (pairs 12)) = [1; 2; 0; 3] /\ placed_order (events moved_env moved0 (pairs 12)) = [4; 5; 3; 6].
Proof.
  split; [intros l; split; [apply NoDup_nodup|]; intros x; apply nodup_In|]. split; [vm_compute; reflexivity|]. split; [apply demo0_ok|]. split; [|repeat (split; [vm_compute; reflexivity|]); vm_compute; reflexivity].
  intros m Hm. do 8 (destruct m as [|m]; [lia|]). cbn. now destruct m.
Qed.
Theorem C105_translated_runs : forall L t r c E s E' s' cs, env_ok E -> env_ok E' -> new_perc E KL1 L t = Ok s -> new_perc E' KL1 L t = Ok s' ->
  get_site_id_sequence s' = map (translate L r c) (get_site_id_sequence s) ->
  (forall m, (t + (Z.to_nat (L * L) - 1) <= m)%nat -> e_draw E' m = e_draw E m) ->
  Forall (fun c => c = CPlace \/ c = CDetect) cs ->
  placed_order (events E' s' cs) = map (translate L r c) (placed_order (events E s cs)) /\
  forall i, is_site L i -> (occupied (after E' s' cs) (translate L r c i) <-> occupied (after E s cs) i).
Proof. exact p_C105_runs. Qed.
Print Assumptions C105_translated_runs.

Theorem C105_all_draws_possible : forall k L t w c, 0 < L -> random_choices (Z.to_nat (L * L)) c ->
  exists E s, env_ok E /\ choices E t (Z.to_nat (L * L)) = c /\ later_draws L t w E /\ new_perc E k L t = Ok s.
Proof. exact p_C105_possible. Qed.
Print Assumptions C105_all_draws_possible.

Example ex_C105 : later_draws 3 0 (fun _ => 0) demo_env /\ new_perc demo_env KL1 3 0 = Ok (demo0 KL1 3) /\ random_choices 9 (choices demo_env 0 9).
Proof.
  split; [intros m; reflexivity|]. split; [apply demo0_ok|]. split; [reflexivity|]. intros m Hm. do 8 (destruct m as [|m]; [cbn; lia|]). lia.
Qed.
Theorem C105_equal_counts : forall L t w cs, 0 < L -> Forall (fun c => c = CPlace \/ c = CDetect) cs ->
  (exists good, forall i, is_site L i -> how_many (constructed_with KL1 L t (then_draws L t w (fun E s => occupied (after E s cs) i))) good) /\
  forall j, exists good, forall i, is_site L i ->
    how_many (constructed_with KL1 L t (then_draws L t w (fun E s => nth_error (placed_order (events E s cs)) j = Some i))) good.
Proof. exact p_C105_counts. Qed.
Print Assumptions C105_equal_counts.

Example ex_C105_shares : Forall (fun c => c = CPlace \/ c = CDetect) (pairs 45) /\ placements (pairs 45) = 45%nat /\ nth_error (placed_order (events demo_env (demo0 KL1 3) (pairs 45))) 8 <> None.
Proof. split; [repeat (constructor; [auto|]); constructor|]. split; [reflexivity|]. vm_compute. discriminate. Qed.
Theorem C105_equal_shares : forall L t w cs j i, 0 < L -> Forall (fun c => c = CPlace \/ c = CDetect) cs -> 5 * (L * L) <= Z.of_nat (placements cs) ->
  Z.of_nat j < L * L -> is_site L i ->
  share KL1 L t (then_draws L t w (fun E s => nth_error (placed_order (events E s cs)) j = Some i)) 1 (L * L).
Proof. exact p_C105_shares. Qed.
Print Assumptions C105_equal_shares.

Example ex_C105_loop : exists m x, closes demo_env (demo0 KL1 3) m x.
Proof. exists 6%nat, 0. vm_compute. auto. Qed.
Theorem C105_first_loop : forall L t w x, 3 <= L -> is_site L x ->
  share KL1 L t (then_draws L t w (fun E s => exists m, closes E s m x)) 1 (L * L) /\
  (forall m, exists all good, how_many (constructed_with KL1 L t (then_draws L t w (fun E s => exists y, closes E s m y))) all /\
     how_many (constructed_with KL1 L t (then_draws L t w (fun E s => closes E s m x))) good /\ L * L * good = all).
Proof. exact p_C105_first_loop. Qed.
Print Assumptions C105_first_loop.

Example ex_C106 : later_draws 3 0 (fun _ => 0) demo_env /\ new_perc demo_env KL2 3 0 = Ok (demo0 KL2 3) /\
  placed_order (events demo_env (demo0 KL2 3) [CPlace; CPlace; CPlace]) = [1; 2; 0].
Proof. split; [intros m; reflexivity|]. split; [apply demo0_ok|vm_compute; reflexivity]. Qed.
Theorem C106_first_two : forall L t w j i, 3 <= L -> (j < 2)%nat -> is_site L i ->
  share KL2 L t (then_draws L t w (fun E s => nth_error (placed_order (events E s [CPlace; CPlace; CPlace])) j = Some i)) 1 (L * L).
Proof. exact p_C106_first_two. Qed.
Print Assumptions C106_first_two.

Theorem C106_third_call : forall L t w, 3 <= L ->
  let third i E s := nth_error (placed_order (events E s [CPlace; CPlace; CPlace])) 2 = Some i in
  exists d a g, 0 <= a <= g /\ forall i, is_site L i ->
    let b := nbr L (nbr L i (opp d)) (opp d) in
    (straddles L b d -> how_many (constructed_with KL2 L t (then_draws L t w (third i))) a) /\
    (~ straddles L b d -> how_many (constructed_with KL2 L t (then_draws L t w (third i))) g).
Proof. exact p_C106_third_call. Qed.
Print Assumptions C106_third_call.

Theorem C106_some_never : forall L t d, 3 <= L ->
  let third i E s := nth_error (placed_order (events E s [CPlace; CPlace; CPlace])) 2 = Some i in
  exists w, forall i, is_site L i ->
    let b := nbr L (nbr L i (opp d)) (opp d) in
    (straddles L b d -> share KL2 L t (then_draws L t w (third i)) 0 (L * L)) /\
    (~ straddles L b d -> share KL2 L t (then_draws L t w (third i)) 1 (L * L)).
Proof. exact p_C106_some_never. Qed.
Print Assumptions C106_some_never.

Example ex_C106_column : is_site 3 4 /\ col 3 4 = 1.
Proof. split; [unfold is_site; lia|reflexivity]. Qed.
Theorem C106_in_coordinates : forall L i, 3 <= L -> is_site L i -> (straddles L (nbr L (nbr L i DLeft) DLeft) DRight <-> col L i = 1).
Proof. exact p_C106_column. Qed.
Print Assumptions C106_in_coordinates.
