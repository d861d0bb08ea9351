(** * FilesWitness: recorded realizations, and the reference data that ships with
    the code, run through the model. *)
From Coq Require Import ZArith List Bool Lia.
From Verif Require Import Py Lattice Cluster Perc Spec History PyFacts Demo Run.
Import ListNotations.
Open Scope Z_scope.

(** Random words with some spread. *)
Definition spread (m : Z) : env :=
  mkEnv (fun l => nodup Z.eq_dec l) (fun t => (Z.of_nat t * Z.of_nat t * 13 + 7 * m * Z.of_nat t + 5) mod 101).
Lemma spread_ok m : env_ok (spread m).
Proof. intros l. split; [apply NoDup_nodup|]. intros x. apply nodup_In. Qed.
Definition demo_check (m : Z) (k : pkind) (L : Z) : cross_check :=
  match single_realization (spread m) 130 0 k L with Ok x => x | Err _ => mkCheck 0 [] [] (FZ 0) 0 0 [] [] [] end.

(** An L2 file lists the same site twice, and its replay raises. *)
Lemma p_C65_refuted : exists E L f x, env_ok E /\ single_realization E f 0 KL2 L = Ok x /\ ~ NoDup (x_indices x) /\
  replay_file E (S (Z.to_nat (L * L))) 0 x = Err AssertionError.
Proof.
  exists (spread 4), 3, 130%nat, (demo_check 4 KL2 3). split; [apply spread_ok|]. split; [vm_compute; reflexivity|]. split; [|vm_compute; reflexivity].
  intros N. assert (E : x_indices (demo_check 4 KL2 3) = [(0, 0); (0, 1); (0, 2); (1, 0); (1, 1)] ++ (1, 2) :: [(2, 0); (1, 2); (1, 2)]) by (vm_compute; reflexivity).
  rewrite E in N. apply NoDup_remove_2 in N. apply N. rewrite in_app_iff. right. cbn. auto.
Qed.

(** The numerator a model value must have for a recorded order parameter n/(2L^2). *)
Definition numerator (f : fexpr) : Z := match f with FDiv (FZ a) _ => a | FZ a => a | _ => -1 end.
Definition replayed (L : Z) (ixs : list index) : res (fexpr * Z * Z * list Z * list Z) :=
  match replay_file demo_env (S (Z.to_nat (L * L))) 0 (mkCheck L [] ixs (FZ 0) 0 0 [] [] []) with
  | Ok (pc, ns, nb, _, pl, pw) => Ok (pc, ns, nb, map numerator pl, map numerator pw)
  | Err e => Err e
  end.

(** data_pytest/SitePercolationL0__percolation_cross_check_data_L5_20210329_192337.txt *)
Example recorded_5 : replayed 5 [(4, 0); (3, 3); (2, 4); (4, 1); (1, 3); (1, 4); (2, 0); (0, 2); (0, 0); (1, 1); (2, 2); (0, 4); (3, 0); (4, 3); (4, 2); (1, 0);
    (3, 4); (2, 3); (3, 2); (2, 1); (4, 4); (0, 3); (1, 2); (0, 1); (3, 1)] =
  Ok (FDiv (FZ 13) (FZ 25), 9, 27,
    [4; 4; 4; 7; 7; 10; 13; 13; 13; 13; 13; 25; 27; 27; 39; 43; 44; 48; 49; 50; 50; 50; 50; 50; 50],
    [0; 0; 0; 0; 0; 0; 0; 0; 0; 0; 0; 0; 27; 27; 39; 43; 44; 48; 49; 50; 50; 50; 50; 50; 50]).
Proof. vm_compute. reflexivity. Qed.

(** data_pytest/SitePercolationL0__percolation_cross_check_data_L10_20210329_192124.txt *)
Example recorded_10 : replayed 10 [(5, 4); (3, 4); (5, 7); (6, 9); (8, 3); (6, 0); (8, 1); (6, 1); (7, 1); (4, 9); (7, 2); (0, 8); (3, 9); (7, 0); (1, 6); (8,
    6); (7, 6); (7, 8); (0, 7); (0, 2); (5, 8); (2, 4); (4, 3); (4, 1); (0, 6); (9, 9); (4, 7); (0, 3); (4, 0); (4, 4); (3, 2); (1, 1); (0, 9); (6, 5); (0, 5);
    (5, 6); (2, 7); (1, 9); (3, 0); (7, 4); (5, 5); (5, 3); (9, 4); (9, 5); (0, 1); (2, 6); (6, 4); (3, 8); (1, 2); (9, 3); (3, 1); (9, 2); (2, 3); (8, 4); (6,
    2); (5, 1); (6, 8); (3, 6); (6, 3); (8, 0); (1, 0); (8, 2); (2, 5); (1, 8); (3, 3); (9, 6); (3, 7); (2, 8); (1, 4); (6, 6); (9, 0); (5, 0); (0, 0); (2, 1);
    (4, 5); (5, 9); (8, 5); (9, 7); (0, 4); (7, 5); (3, 5); (1, 3); (9, 8); (5, 2); (2, 9); (6, 7); (4, 2); (8, 8); (1, 5); (7, 9); (7, 3); (7, 7); (9, 1); (1,
    7); (4, 8); (8, 9); (2, 2); (2, 0); (4, 6); (8, 7)] =
  Ok (FDiv (FZ 59) (FZ 100), 57, 161,
    [4; 4; 4; 4; 4; 7; 7; 10; 16; 16; 19; 19; 19; 21; 21; 21; 21; 21; 21; 21; 21; 21; 21; 21; 21; 21; 21; 21; 21; 21; 21; 21; 21; 21; 22; 22; 22; 25; 25; 25;
    34; 36; 36; 36; 36; 37; 41; 41; 41; 57; 57; 59; 59; 104; 104; 104; 157; 160; 161; 163; 165; 165; 167; 169; 169; 177; 177; 178; 181; 182; 184; 185; 185; 187;
    189; 189; 190; 192; 192; 192; 192; 192; 193; 194; 195; 196; 196; 198; 198; 199; 199; 200; 200; 200; 200; 200; 200; 200; 200; 200],
    [0; 0; 0; 0; 0; 0; 0; 0; 0; 0; 0; 0; 0; 0; 0; 0; 0; 0; 0; 0; 0; 0; 0; 0; 0; 0; 0; 0; 0; 0; 0; 0; 0; 0; 0; 0; 0; 0; 0; 0; 0; 0; 0; 0; 0; 0; 0; 0; 0; 0; 0; 0;
    0; 0; 0; 0; 0; 0; 161; 163; 165; 165; 167; 169; 169; 177; 177; 178; 181; 182; 184; 185; 185; 187; 189; 189; 190; 192; 192; 192; 192; 192; 193; 194; 195;
    196; 196; 198; 198; 199; 199; 200; 200; 200; 200; 200; 200; 200; 200; 200]).
Proof. vm_compute. reflexivity. Qed.
