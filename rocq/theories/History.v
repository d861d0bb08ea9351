(** * History: what a user of the library observes, and call histories.

    The observables are read through the getters of the modelled API; a history
    is a finite list of calls on one object, continued after calls that raised. *)
From Coq Require Import ZArith List Bool.
From Verif Require Import Py Lattice Cluster Perc Spec.
Import ListNotations.
Open Scope Z_scope.

(** ** Observables *)

(** Cluster label of a site / bond as reported by the lattice ([-1] for none). *)
Definition site_label (s : perc) (i : Z) : Z :=
  match get_site_gid_by_id (lat s) i with Ok g => g | Err _ => -1 end.
Definition bond_label (s : perc) (b : Z) : Z :=
  match get_bond_gid_by_id (lat s) b with Ok g => g | Err _ => -1 end.
(** A site is occupied when it carries a cluster label. *)
Definition occupied (s : perc) (i : Z) : Prop := 0 <= site_label s i.
(** The relative index stored in a site. *)
Definition rel_index (s : perc) (i : Z) : Z * Z :=
  match get_site_by_id (lat s) i with Ok t => s_rel t | Err _ => (0, 0) end.
(** Contents of a cluster as reported by the cluster pool. *)
Definition cluster_bonds (s : perc) (c : Z) : list Z :=
  match pool_get_bonds (pool s) c with Ok l => l | Err _ => [] end.
Definition cluster_sites (s : perc) (c : Z) : list Z :=
  match pool_get_sites (pool s) c with Ok l => l | Err _ => [] end.
(** The occupied sites in increasing order of id. *)
Definition occupied_sites (L : Z) (s : perc) : list Z :=
  filter (fun i => 0 <=? site_label s i) (zrange (L * L)).

(** What a site / bond says about its place in the lattice. *)
Definition site_geometry (t : site) := (s_id t, s_index t, s_bonds t).
Definition bond_geometry (b : bond) := (b_id b, b_type b, (b_row b, b_col b), b_sites b).
(** Sum of [f 0], ..., [f (n-1)]. *)
Definition sum_over (f : Z -> Z) (n : Z) : Z := fold_right Z.add 0 (map f (zrange n)).
(** Labels, relative indices, clusters, counters, entropy and wrapping as before. *)
Definition nothing_changed (L : Z) (s s' : perc) : Prop :=
  (forall i, is_site L i -> site_label s' i = site_label s i /\ rel_index s' i = rel_index s i) /\
  (forall b, is_bond L b -> bond_label s' b = bond_label s b) /\
  pool s' = pool s /\ occ_count s' = occ_count s /\ largest_cluster s' = largest_cluster s /\
  entropy_v2 s' = entropy_v2 s /\ after_wrap s' = after_wrap s.

(** ** Calls *)
Inductive call :=
| CPlace                                        (* place_one_site() *)
| CDetect                                       (* detect_wrapping() *)
| CReset                                        (* reset() *)
| CSetIds (l : list Z) (sh : bool)              (* set_custome_site_id_list(l, sh) *)
| CSetIndices (l : list (list Z)) (sh : bool)   (* set_custome_site_index_list(l, sh) *)
| CSwap (a b : Z)                               (* swap_ids(a, b) *)
| CRun (fuel : nat)                             (* run_once(), at most [fuel] iterations *)
| CTestRun (fuel : nat).                        (* test_run_once() *)

(** The object after a call, whether or not the call raised. *)
Definition exec (E : env) (s : perc) (c : call) : perc :=
  match c with
  | CPlace => fst (place_one_site E s)
  | CDetect => fst (detect_wrapping s)
  | CReset => fst (reset E s)
  | CSetIds l sh => fst (set_custome_site_id_list E l sh s)
  | CSetIndices l sh => fst (set_custome_site_index_list E l sh s)
  | CSwap a b => fst (swap_ids a b s)
  | CRun f => fst (run_once E f s)
  | CTestRun f => fst (test_run_once E f s)
  end.
Definition after (E : env) (s : perc) (cs : list call) : perc := fold_left (exec E) cs s.

(** Custom lists may be any lists; [swap_ids] is only used with site ids. *)
Definition call_ok (L : Z) (c : call) : Prop :=
  match c with CSwap a b => is_site L a /\ is_site L b | _ => True end.
(** No custom lists and no [swap_ids]. *)
Definition plain (c : call) : Prop :=
  match c with CSetIds _ _ | CSetIndices _ _ | CSwap _ _ => False | _ => True end.

(** States reached by an object of class [k] and length [L]. *)
Definition reachable_k (E : env) (k : pkind) (L : Z) (s : perc) : Prop :=
  exists t0 s0 cs, new_perc E k L t0 = Ok s0 /\ Forall (call_ok L) cs /\ s = after E s0 cs.
Definition reachable (E : env) (L : Z) (s : perc) : Prop := exists k, reachable_k E k L s.
(** The same without custom lists. *)
Definition reachable_plain (E : env) (k : pkind) (L : Z) (s : perc) : Prop :=
  exists t0 s0 cs, new_perc E k L t0 = Ok s0 /\ Forall plain cs /\ s = after E s0 cs.

(** Histories in which every placement is followed by [detect_wrapping]. *)
Inductive tracked : list call -> Prop :=
| tr_nil : tracked []
| tr_place cs : tracked cs -> tracked (CPlace :: CDetect :: cs)
| tr_other c cs : c <> CPlace -> tracked cs -> tracked (c :: cs).
Definition reachable_tracked (E : env) (L : Z) (s : perc) : Prop :=
  exists k t0 s0 cs, new_perc E k L t0 = Ok s0 /\ Forall (call_ok L) cs /\ tracked cs /\ s = after E s0 cs.

(** Histories without custom lists; [swap_ids] is allowed. *)
Definition no_custom (c : call) : Prop :=
  match c with CSetIds _ _ | CSetIndices _ _ => False | _ => True end.
Definition reachable_no_custom (E : env) (k : pkind) (L : Z) (s : perc) : Prop :=
  exists t0 s0 cs, new_perc E k L t0 = Ok s0 /\ Forall (call_ok L) cs /\ Forall no_custom cs /\ s = after E s0 cs.

(** One placement followed by wrapping detection, and [n] of these. *)
Definition advance (E : env) (s : perc) : perc := fst (detect_wrapping (fst (place_one_site E s))).
Fixpoint trace (E : env) (n : nat) (s : perc) : perc :=
  match n with O => s | S n => trace E n (advance E s) end.

(** A newly constructed object, or one just reset. *)
Definition fresh_object (E : env) (k : pkind) (L : Z) (s : perc) : Prop :=
  (exists t0, new_perc E k L t0 = Ok s) \/ (exists s0, reachable_k E k L s0 /\ s = fst (reset E s0)).
(** The same without custom lists before the reset. *)
Definition fresh_plain (E : env) (k : pkind) (L : Z) (s : perc) : Prop :=
  (exists t0, new_perc E k L t0 = Ok s) \/ (exists s0, reachable_no_custom E k L s0 /\ s = fst (reset E s0)).
(** Number of placements in a history. *)
Fixpoint placements (cs : list call) : nat :=
  match cs with [] => O | CPlace :: cs => S (placements cs) | _ :: cs => placements cs end.

(** Objects that went through new; run_once; (reset; run_once)*. *)
Inductive cycled (E : env) (k : pkind) (L : Z) : perc -> Prop :=
| cy_first t0 s f s' : new_perc E k L t0 = Ok s -> run_once E f s = (s', Ok tt) -> cycled E k L s'
| cy_next s f s' : cycled E k L s -> run_once E f (fst (reset E s)) = (s', Ok tt) -> cycled E k L s'.

(** One iteration of the loop of [run_once] without the recording, [n] of
    them, and the states after the successful ones (perc:668-690). *)
Definition run_step (E : env) (s : perc) : perc :=
  let s1 := fst (place_one_site E s) in if flag_is_success s1 then fst (detect_wrapping s1) else s1.
Fixpoint run_state (E : env) (n : nat) (s : perc) : perc :=
  match n with O => s | S n => run_state E n (run_step E s) end.
Fixpoint run_log (E : env) (n : nat) (s : perc) : list perc :=
  match n with
  | O => []
  | S n => (if flag_is_success (run_step E s) then [run_step E s] else []) ++ run_log E n (run_step E s)
  end.
(** Number of successful placements in a history from [s]. *)
Fixpoint successes (E : env) (s : perc) (cs : list call) : nat :=
  match cs with
  | [] => O
  | c :: cs => (match c with CPlace => if flag_is_success (exec E s c) then 1 else 0 | _ => 0 end +
                successes E (exec E s c) cs)%nat
  end.

(** The remaining candidates of the L1 and L2 rules: the entries of the site
    list from [current_idx] on (L1L2:84, 197). *)
Definition candidates (s : perc) : list Z := skipn (Z.to_nat (cur_idx s)) (get_site_id_sequence s).
(** The step in direction [d] from site [X] crosses the boundary of the index range. *)
Definition straddles (L X : Z) (d : dir) : Prop :=
  match d with DRight => X mod L = L - 1 | DLeft => X mod L = 0 | DDown => X / L = L - 1 | DUp => X / L = 0 end.
(** How many more times site [i] may be rejected before it is withdrawn from the
    candidates: the counters of site.py:45-63 used by L1 and by L2. *)
Definition chances (k : pkind) (s : perc) (i : Z) : Z :=
  match get_site_by_id (lat s) i with
  | Ok t => match k with KL2 => s_nn2 t | _ => s_nn1 t end
  | Err _ => 0
  end.
(** The candidate and the direction designated by the next two random words. *)
Definition drawn (E : env) (s : perc) : Z :=
  nth (Z.to_nat (e_draw E (tick s) mod zlen (candidates s))) (candidates s) 0.
Definition drawn_dir (E : env) (s : perc) : dir :=
  nth (Z.to_nat (e_draw E (S (tick s)) mod 4)) all_dirs DRight.

(** Calls that attempt at least one placement. *)
Definition attempts (c : call) : bool :=
  match c with CPlace => true | CRun (S _) | CTestRun (S _) => true | _ => false end.

(** The first iteration of a run after which a wrapping is recorded. *)
Definition first_wrapping (E : env) (s : perc) (n : nat) : Prop :=
  (forall j, (j < n)%nat -> after_wrap (run_state E j s) = false) /\ after_wrap (run_state E n s) = true.
(** Row [r] (column [c]) consists of sites of the wrapping cluster. *)
Definition full_row (L : Z) (s : perc) (r : Z) : Prop := forall c, 0 <= c < L -> site_label s (r * L + c) = wid s.
Definition full_col (L : Z) (s : perc) (c : Z) : Prop := forall r, 0 <= r < L -> site_label s (r * L + c) = wid s.
(** A wrapping is recorded and the row or the column of the site placed last lies
    in the wrapping cluster. *)
Definition on_full_line (L : Z) (s : perc) : Prop :=
  after_wrap s = true /\ exists x, sel_id s = Some x /\ (full_row L s (x / L) \/ full_col L s (x mod L)).

(** ** Comparing two objects *)

(** The same physical content: occupied sites, division of the sites and bonds
    into clusters, sizes, displacements inside a cluster, counters, order
    parameters, and everything about wrapping.  Labels may differ. *)
Record same_physics (L : Z) (s t : perc) : Prop := mkSamePhysics {
  ph_occupied : forall i, is_site L i -> (occupied s i <-> occupied t i);
  ph_sites : forall i j, is_site L i -> is_site L j ->
    (site_label s i = site_label s j <-> site_label t i = site_label t j);
  ph_bonds : forall b b', is_bond L b -> is_bond L b' ->
    (bond_label s b = bond_label s b' <-> bond_label t b = bond_label t b');
  ph_bonds_sites : forall b i, is_bond L b -> is_site L i ->
    (bond_label s b = site_label s i <-> bond_label t b = site_label t i);
  ph_sizes : forall b, is_bond L b ->
    length (cluster_bonds s (bond_label s b)) = length (cluster_bonds t (bond_label t b)) /\
    length (cluster_sites s (bond_label s b)) = length (cluster_sites t (bond_label t b));
  ph_displacement : forall i j, is_site L i -> is_site L j -> occupied s i -> site_label s i = site_label s j ->
    vsub (rel_index s j) (rel_index s i) = vsub (rel_index t j) (rel_index t i);
  ph_count : occ_count s = occ_count t;
  ph_probability : occupation_prob s = occupation_prob t;
  ph_largest : largest_cluster s = largest_cluster t;
  ph_order1 : order_param_largest_clstr s = order_param_largest_clstr t;
  ph_order2 : order_param_wrapping s = order_param_wrapping t;
  ph_wrapped : after_wrap s = after_wrap t;
  ph_wrapping_cluster : after_wrap s = true -> forall b, is_bond L b ->
    (bond_label s b = wid s <-> bond_label t b = wid t);
  ph_pc : get_pc s = get_pc t;
  ph_pc_sites : get_site_count_wrapping_cluster_pc s = get_site_count_wrapping_cluster_pc t;
  ph_pc_bonds : get_bond_count_wrapping_cluster_pc s = get_bond_count_wrapping_cluster_pc t
}.

(** What a call returned or raised; procedures that return nothing give [Ok true]. *)
Definition done (r : res unit) : res bool := match r with Ok _ => Ok true | Err e => Err e end.
Definition outcome (E : env) (s : perc) (c : call) : res bool :=
  match c with
  | CPlace => snd (place_one_site E s)
  | CDetect => snd (detect_wrapping s)
  | CReset => done (snd (reset E s))
  | CSetIds l sh => done (snd (set_custome_site_id_list E l sh s))
  | CSetIndices l sh => done (snd (set_custome_site_index_list E l sh s))
  | CSwap a b => done (snd (swap_ids a b s))
  | CRun f => done (snd (run_once E f s))
  | CTestRun f => done (snd (test_run_once E f s))
  end.

(** What a call does to the lattice: a successful placement occupies the
    selected site, a detection looks around the selected site, a reset empties
    the lattice; other calls do nothing. *)
Inductive event := EPlace (x : Z) | ECheck (x : Z) | EClear.
Definition event_of (E : env) (s : perc) (c : call) : list event :=
  match c with
  | CPlace =>
      match place_one_site E s with
      | (s', Ok true) => if flag_is_success s' then match sel_id s' with Some x => [EPlace x] | None => [] end else []
      | _ => []
      end
  | CDetect => match sel_id s with Some x => [ECheck x] | None => [] end
  | CReset => [EClear]
  | _ => []
  end.
Fixpoint events (E : env) (s : perc) (cs : list call) : list event :=
  match cs with [] => [] | c :: cs => event_of E s c ++ events E (exec E s c) cs end.
(** Histories made of single steps (no [run_once], no [test_run_once]). *)
Definition stepwise (c : call) : Prop := match c with CRun _ | CTestRun _ => False | _ => True end.

(** Shuffling [n] entries draws [n-1] random indices; the [m]-th one is a number
    below [n-m].  [choices E t n] lists them for the stream starting at [t]. *)
Definition choices (E : env) (t n : nat) : list Z :=
  map (fun m => e_draw E (t + m) mod Z.of_nat (n - m)) (seq 0 (n - 1)).

(** The labels of the clusters that meet at site [x]: those of the bonds that end there. *)
Definition meets (L : Z) (s : perc) (x g : Z) : Prop :=
  exists b, is_bond L b /\ (end1 L b = x \/ end2 L b = x) /\ bond_label s b = g.
(** How often the label of bond [b] changes during a history. *)
Fixpoint relabels (E : env) (s : perc) (cs : list call) (b : Z) : nat :=
  match cs with
  | [] => O
  | c :: cs => (if (bond_label (exec E s c) b =? bond_label s b)%Z then O else 1%nat) + relabels E (exec E s c) cs b
  end.
