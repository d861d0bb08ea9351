(** * SymSpec: what an object should report, given only the list of placed sites,
    and the symmetries of the torus.

    Everything here is said with the walks of Spec.v about a list of site ids;
    no cluster label, relative index or counter of the model is involved. *)
From Coq Require Import ZArith List Reals.
From Verif Require Import Py Lattice Cluster Perc Spec History Real.
Import ListNotations.
Open Scope Z_scope.

(** The sites placed since the last reset, in the order of their placement. *)
Definition placed_order (evs : list event) : list Z :=
  fold_left (fun xs e => match e with EPlace x => xs ++ [x] | ECheck _ => xs | EClear => [] end) evs [].

(** Exactly [n] integers satisfy [P]. *)
Definition counts (P : Z -> Prop) (n : Z) : Prop :=
  exists l, NoDup l /\ (forall i, In i l <-> P i) /\ n = Z.of_nat (length l).
Definition among (xs : list Z) (i : Z) : Prop := In i xs.
(** The bonds that belong together with bond [b] when the sites [xs] are occupied. *)
Definition bonds_like (L : Z) (xs : list Z) (b b' : Z) : Prop := is_bond L b' /\ bonds_joined L (among xs) b b'.
(** The sites connected to site [x], and the bonds that end at one of them. *)
Definition sites_with (L : Z) (xs : list Z) (x i : Z) : Prop := is_site L i /\ connected L (among xs) x i.
Definition bonds_with (L : Z) (xs : list Z) (x b : Z) : Prop :=
  is_bond L b /\ exists i, touches L b i /\ connected L (among xs) x i.
(** [x], placed after [ys], is the site that closed the first non-contractible loop. *)
Definition first_loop (L : Z) (xs ys : list Z) (x : Z) : Prop :=
  (exists zs, xs = ys ++ x :: zs) /\ ~ wraps L (among ys) /\ wraps L (among (ys ++ [x])).

(** What the getters should return once the sites [xs] are placed. *)
Record described (L : Z) (xs : list Z) (s : perc) : Prop := mkDescribed {
  de_nodup : NoDup xs;
  de_sites : forall i, In i xs -> is_site L i;
  de_occupied : forall i, is_site L i -> (occupied s i <-> In i xs);
  de_count : occ_count s = Z.of_nat (length xs);
  de_probability : occupation_prob s = Ok (FDiv (FZ (Z.of_nat (length xs))) (FZ (L * L)));
  de_clusters : forall i j, In i xs -> In j xs -> (site_label s i = site_label s j <-> connected L (among xs) i j);
  de_bonds : forall b b', is_bond L b -> is_bond L b' ->
    (bond_label s b = bond_label s b' <-> bonds_joined L (among xs) b b');
  de_own : forall i b, In i xs -> is_bond L b -> (bond_label s b = site_label s i <-> bonds_with L xs i b);
  de_largest0 : xs = [] -> largest_cluster s = 0;
  de_largest : xs <> [] ->
    (exists b, is_bond L b /\ counts (bonds_like L xs b) (largest_cluster s)) /\
    (forall b n, is_bond L b -> counts (bonds_like L xs b) n -> n <= largest_cluster s);
  de_order : order_param_largest_clstr s = Ok (FDiv (FZ (largest_cluster s)) (FZ (2 * (L * L))));
  de_entropy : exists size, (forall b, is_bond L b -> counts (bonds_like L xs b) (size b)) /\
    feval (entropy_v2 s) =
      (- rsum (fun b => / IZR (2 * (L * L)) * ln (IZR (size b) / IZR (2 * (L * L)))) (zrange (2 * (L * L))))%R
}.

(** The same for wrapping: the critical values are those of the moment the first
    loop was closed, the order parameter follows the cluster of the closing site. *)
Record loop_described (L : Z) (xs : list Z) (s : perc) : Prop := mkLoopDescribed {
  lo_wraps : after_wrap s = true <-> wraps L (among xs);
  lo_split : after_wrap s = true -> exists ys x, first_loop L xs ys x;
  lo_none : after_wrap s = false -> get_pc s = Ok (FZ 0) /\ order_param_wrapping s = Ok (FZ 0) /\
    get_site_count_wrapping_cluster_pc s = 0 /\ get_bond_count_wrapping_cluster_pc s = 0;
  lo_values : forall ys x, first_loop L xs ys x ->
    get_pc s = Ok (FDiv (FZ (Z.of_nat (length (ys ++ [x])))) (FZ (L * L))) /\
    counts (sites_with L (ys ++ [x]) x) (get_site_count_wrapping_cluster_pc s) /\
    counts (bonds_with L (ys ++ [x]) x) (get_bond_count_wrapping_cluster_pc s) /\
    (forall i, is_site L i -> (site_label s i = wid s <-> sites_with L xs x i)) /\
    (forall b, is_bond L b -> (bond_label s b = wid s <-> bonds_with L xs x b)) /\
    exists n, counts (bonds_with L xs x) n /\ order_param_wrapping s = Ok (FDiv (FZ n) (FZ (2 * (L * L))))
}.

(** ** Symmetries of the torus *)

(** [f] permutes the sites and takes the neighbour in direction [d] to the
    neighbour in direction [D d]; opposite directions stay opposite. *)
Record symmetry (L : Z) (f : Z -> Z) (D : dir -> dir) : Prop := mkSymmetry {
  sy_site : forall i, is_site L i -> is_site L (f i);
  sy_inj : forall i j, is_site L i -> is_site L j -> f i = f j -> i = j;
  sy_nbr : forall i d, is_site L i -> f (nbr L i d) = nbr L (f i) (D d);
  sy_opp : forall d, D (opp d) = opp (D d);
  sy_dir : forall d d', D d = D d' -> d = d'
}.
(** Translation by [r] rows and [c] columns. *)
Definition translate (L r c i : Z) : Z := at_rc L (row L i + r) (col L i + c).
(** Reflection in the main diagonal. *)
Definition transpose (L i : Z) : Z := at_rc L (col L i) (row L i).
Definition transpose_dir (d : dir) : dir :=
  match d with DRight => DDown | DDown => DRight | DLeft => DUp | DUp => DLeft end.
(** Reflection that reverses the order of the columns. *)
Definition mirror (L i : Z) : Z := at_rc L (row L i) (- col L i).
Definition mirror_dir (d : dir) : dir :=
  match d with DRight => DLeft | DLeft => DRight | DDown => DDown | DUp => DUp end.

(** The observables that depend on the set of placed sites only, up to [f]. *)
Record same_set_values (L : Z) (f : Z -> Z) (s t : perc) : Prop := mkSameSet {
  sv_occupied : forall i, is_site L i -> (occupied s i <-> occupied t (f i));
  sv_clusters : forall i j, is_site L i -> is_site L j -> occupied s i -> occupied s j ->
    (site_label s i = site_label s j <-> site_label t (f i) = site_label t (f j));
  sv_count : occ_count s = occ_count t;
  sv_probability : occupation_prob s = occupation_prob t;
  sv_largest : largest_cluster s = largest_cluster t;
  sv_order : order_param_largest_clstr s = order_param_largest_clstr t;
  sv_entropy : feval (entropy_v2 s) = feval (entropy_v2 t)
}.
(** The observables of wrapping, up to [f]. *)
Record same_loop_values (L : Z) (f : Z -> Z) (s t : perc) : Prop := mkSameLoop {
  sl_wrapped : after_wrap s = after_wrap t;
  sl_cluster : after_wrap s = true -> forall i, is_site L i -> (site_label s i = wid s <-> site_label t (f i) = wid t);
  sl_order : order_param_wrapping s = order_param_wrapping t;
  sl_pc : get_pc s = get_pc t;
  sl_pc_sites : get_site_count_wrapping_cluster_pc s = get_site_count_wrapping_cluster_pc t;
  sl_pc_bonds : get_bond_count_wrapping_cluster_pc s = get_bond_count_wrapping_cluster_pc t
}.
