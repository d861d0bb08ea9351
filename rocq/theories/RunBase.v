(** * RunBase: sequences and full runs of the base rule. *)
From Coq Require Import ZArith List Bool Lia Permutation.
From Verif Require Import Py Lattice Cluster Perc Spec PyFacts Torus Geometry LatFacts Inv Merge Count Fresh Select State Step History Reach GeomProps Micro StateProps StateProps2 Wrap Comm Seq.
Import ListNotations.
Open Scope Z_scope.

(** The occupied sites are the first [cur_idx] entries of a repetition-free sequence. *)
Record RunB (L : Z) (s : perc) : Prop := mkRunB {
  rb_kind : is_L12 (kind s) = false;
  rb_nd : NoDup (ids s);
  rb_cur : 0 <= cur_idx s <= zlen (ids s);
  rb_cnt : occ_count s = cur_idx s;
  rb_occ : forall i, is_site L i -> (occ (lat s) i <-> In i (firstn (Z.to_nat (cur_idx s)) (ids s)))
}.

Lemma firstn_snoc (l : list Z) k : 0 <= k < zlen l ->
  firstn (Z.to_nat (k + 1)) l = firstn (Z.to_nat k) l ++ [at_ 0 l k].
Proof.
  intros Hk. unfold zlen in Hk. replace (Z.to_nat (k + 1)) with (S (Z.to_nat k)) by lia.
  unfold at_. replace (0 <=? k) with true by lia. assert (Hn : (Z.to_nat k < length l)%nat) by lia.
  revert Hn. generalize (Z.to_nat k) as n. clear. induction l as [|a l IH]; intros n Hn; [cbn in Hn; lia|].
  destruct n as [|n]; [reflexivity|]. cbn [firstn nth app]. f_equal. apply IH. cbn in Hn. lia.
Qed.
Lemma nodup_app_l {A} (l l' : list A) : NoDup (l ++ l') -> NoDup l.
Proof.
  induction l as [|a l IH]; cbn; intros N; [constructor|]. inversion N; subst. constructor; [|auto].
  rewrite in_app_iff in H1. tauto.
Qed.
Lemma nodup_at_notin (l : list Z) k : NoDup l -> 0 <= k < zlen l -> ~ In (at_ 0 l k) (firstn (Z.to_nat k) l).
Proof.
  intros N Hk Hin. assert (NoDup (firstn (Z.to_nat (k + 1)) l)) as N2.
  { rewrite <- (firstn_skipn (Z.to_nat (k + 1)) l) in N. now apply nodup_app_l in N. }
  rewrite firstn_snoc in N2 by auto. apply NoDup_remove_2 in N2. rewrite app_nil_r in N2. auto.
Qed.
Lemma fresh_RunB L s : FreshState L s -> is_L12 (kind s) = false -> NoDup (ids s) -> RunB L s.
Proof.
  intros F Hk N. constructor; auto.
  - rewrite (fs_cur _ _ F). pose proof (zlen_nonneg (ids s)). lia.
  - rewrite (fs_occ _ _ F), (fs_cur _ _ F). reflexivity.
  - intros i Hi. rewrite (fs_cur _ _ F). cbn. destruct (fr_site _ _ (fs_lat _ _ F) i Hi) as (E1 & _). unfold occ. lia.
Qed.

Lemma runB_place E L s : env_ok E -> Inv L s -> RunB L s -> cur_idx s < zlen (ids s) ->
  exists s', place_one_site E s = (s', Ok true) /\ flag_is_success s' = true /\ Inv L s' /\ RunB L s' /\
    cur_idx s' = cur_idx s + 1 /\ sel_id s' = Some (at_ 0 (ids s) (cur_idx s)) /\
    seqv s' = seqv s /\ arrv s' = arrv s /\ sp_p s' = sp_p s.
Proof.
  intros HE H [B1 B2 B3 B4 B5] Hlt. pose proof (place_base E L s HE H B1) as P.
  destruct (Z.leb_spec (zlen (ids s)) (cur_idx s)) as [|_]; [lia|]. cbv zeta in P. destruct P as (Hs & P).
  set (x := at_ 0 (ids s) (cur_idx s)) in *.
  assert (Hun : sg (lat s) x = -1).
  { apply (sg_unocc L _ _ x (i_cl _ _ H)); auto. intros Ho. apply B5 in Ho; auto. revert Ho. apply nodup_at_notin; auto. lia. }
  rewrite Hun in P. change (-1 =? -1) with true in P. cbv iota in P. destruct P as (s' & root & Ep & Pd).
  pose proof (place_inv E L s HE H) as H'. rewrite Ep in H'. cbn [fst] in H'.
  destruct (core2_seqv _ _ (pd_core _ _ _ _ _ _ Pd)) as (Q1 & Q2).
  destruct (core2_fields _ _ (pd_core _ _ _ _ _ _ Pd)) as (Fk & Fi & _ & Fc & Fo & _ & _ & Fs & _).
  pose proof (f_equal sp_p (pd_core _ _ _ _ _ _ Pd)) as Fp.
  cbn [kind ids cur_idx occ_count sel_id choose aim set_cur_idx set_occ_count set_cur_site set_sel_id] in Fk, Fi, Fc, Fo, Fs.
  exists s'. split; auto. split; [unfold flag_is_success; now rewrite (pd_flag _ _ _ _ _ _ Pd)|]. split; auto.
  split; [|split; auto; split; auto]. constructor.
  - now rewrite Fk.
  - now rewrite Fi.
  - rewrite Fc, Fi. lia.
  - rewrite Fo, Fc. lia.
  - intros i Hi. rewrite Fc, Fi, firstn_snoc by lia. fold x. rewrite in_app_iff, <- B5 by auto.
    rewrite (pd_occ_iff E L (choose x (set_cur_idx (cur_idx s + 1) s)) x s' root (i_cl _ _ H) Pd) by auto.
    change (lat (choose x (set_cur_idx (cur_idx s + 1) s))) with (lat s). cbn [In].
    split; [intros [->|?]; auto|intros [?|[?|[]]]; auto].
Qed.
Lemma runB_end E L s : env_ok E -> Inv L s -> RunB L s -> cur_idx s = zlen (ids s) ->
  place_one_site E s = (set_sel_flag (Some EMPTY_SITE_LIST) s, Ok false).
Proof.
  intros HE H B Ec. pose proof (place_base E L s HE H (rb_kind _ _ B)) as P.
  destruct (Z.leb_spec (zlen (ids s)) (cur_idx s)); [exact P|lia].
Qed.
Lemma runB_frame L a b : kind b = kind a -> ids b = ids a -> cur_idx b = cur_idx a -> occ_count b = occ_count a ->
  lat b = lat a -> RunB L a -> RunB L b.
Proof. intros E1 E2 E3 E4 E5 [B1 B2 B3 B4 B5]. constructor; rewrite ?E1, ?E2, ?E3, ?E4, ?E5; auto. Qed.
Lemma runB_detect L s : Inv L s -> RunB L s -> RunB L (fst (detect_wrapping s)).
Proof.
  intros H B. destruct (detect_seqv L s H) as (Q & _). destruct (seqv_eqs _ _ Q) as (Q1 & Q2 & _).
  destruct (detect_fields L s H) as (D1 & D2 & D3 & D4 & _). eapply runB_frame; eauto.
Qed.
Lemma detect_bool L s x : Inv L s -> sel_id s = Some x -> exists b, detect_wrapping s = (fst (detect_wrapping s), Ok b).
Proof.
  intros H Es. rewrite (detect_ok L) by apply H. unfold detect_res. rewrite Es. destruct (after_wrap s); [eauto|].
  destruct (hitb _ _ _); eauto.
Qed.

(** ** Recording *)
Definition val (r : res fexpr) : fexpr := match r with Ok v => v | Err _ => FZ 0 end.
Lemma obs_ok L s : Inv L s ->
  occupation_prob s = Ok (val (occupation_prob s)) /\ order_param_wrapping s = Ok (val (order_param_wrapping s)) /\
  order_param_largest_clstr s = Ok (val (order_param_largest_clstr s)).
Proof.
  intros H. pose proof (i_static _ _ H) as St. pose proof (LL_pos L (i_pos _ _ H)). split; [|split].
  - unfold occupation_prob. rewrite (st_sc _ _ St), int_div_ok by lia. reflexivity.
  - unfold order_param_wrapping. destruct (after_wrap s) eqn:Ew; [|reflexivity].
    rewrite (get_bsize L (lat s)) by (apply (i_cl _ _ H) || now apply (wrap_label L)). cbn [rbind].
    rewrite (st_bc _ _ St), int_div_ok by lia. reflexivity.
  - unfold order_param_largest_clstr. rewrite (st_bc _ _ St), int_div_ok by lia. reflexivity.
Qed.
Definition recorded (s : perc) : perc :=
  set_arrs (if first_run s then p_arr s ++ [val (occupation_prob s)] else p_arr s)
    (h_arr s ++ [ent s]) (pw_arr s ++ [val (order_param_wrapping s)])
    (pl_arr s ++ [val (order_param_largest_clstr s)]) s.
Lemma record_ok L s : Inv L s -> record_step s = (recorded s, Ok tt).
Proof.
  intros H. destruct (obs_ok L s H) as (E1 & E2 & E3). unfold record_step, mbind, get, lift, modify.
  rewrite E1, E2, E3. reflexivity.
Qed.
Definition put (p h pw pl : list fexpr) (s : perc) : perc := put_arrs p h pw pl (first_run s) s.
Lemma put_eq p h pw pl s : set_arrs p h pw pl s = put p h pw pl s.
Proof. reflexivity. Qed.

Lemma advance_first E L s : env_ok E -> Inv L s -> is_L12 (kind s) = false -> first_run (advance E s) = first_run s.
Proof.
  intros HE H Hk. unfold advance. pose proof (place_inv E L s HE H) as H'.
  destruct (detect_seqv L _ H') as (Q & _). destruct (seqv_eqs _ _ Q) as (_ & _ & _ & _ & _ & _ & _ & _ & -> & _).
  destruct (place_base_seqv E L s HE H Hk) as (Q' & _). now destruct (seqv_eqs _ _ Q') as (_ & _ & _ & _ & _ & _ & _ & _ & -> & _).
Qed.
Lemma advance_put E p h pw pl b s : advance E (put_arrs p h pw pl b s) = put_arrs p h pw pl b (advance E s).
Proof. unfold advance. rewrite cm_place. cbn [fst]. rewrite cm_detect. reflexivity. Qed.
Lemma trace_put E p h pw pl b n : forall s, trace E n (put_arrs p h pw pl b s) = put_arrs p h pw pl b (trace E n s).
Proof. induction n as [|n IH]; intros s; [reflexivity|]. cbn [trace]. now rewrite advance_put, IH. Qed.
Lemma runB_advance E L s : env_ok E -> Inv L s -> RunB L s -> cur_idx s < zlen (ids s) ->
  Inv L (advance E s) /\ RunB L (advance E s) /\ cur_idx (advance E s) = cur_idx s + 1 /\
  seqv (advance E s) = seqv s /\ arrv (advance E s) = arrv s /\
  sel_id (advance E s) = Some (at_ 0 (ids s) (cur_idx s)).
Proof.
  intros HE H B Hlt. destruct (runB_place E L s HE H B Hlt) as (s' & Ep & Ef & H' & B' & Ec & Es & Q1 & Q2 & Q3).
  unfold advance. rewrite Ep. cbn [fst]. destruct (detect_seqv L s' H') as (Q4 & Q5).
  destruct (detect_fields L s' H') as (D1 & D2 & D3 & D4 & D5 & _).
  split; [now apply detect_inv|]. split; [now apply runB_detect|]. repeat split; congruence.
Qed.
Lemma runB_trace E L n : env_ok E -> forall s, Inv L s -> RunB L s -> Z.of_nat n <= zlen (ids s) - cur_idx s ->
  Inv L (trace E n s) /\ RunB L (trace E n s) /\ cur_idx (trace E n s) = cur_idx s + Z.of_nat n /\
  seqv (trace E n s) = seqv s /\ arrv (trace E n s) = arrv s.
Proof.
  intros HE. induction n as [|n IH]; intros s H B Hn; [cbn [trace]; split; auto; split; auto; split; [lia|auto]|].
  destruct (runB_advance E L s HE H B) as (H1 & B1 & E1 & E2 & E3 & _); [lia|].
  assert (Ei : ids (advance E s) = ids s) by apply (seqv_eqs _ _ E2).
  destruct (IH (advance E s) H1 B1) as (H2 & B2 & E4 & E5 & E6); [rewrite Ei; lia|]. cbn [trace].
  split; auto. split; auto. split; [lia|]. split; congruence.
Qed.

(** What the recorded columns look like after [n] placements from [s]. *)
Definition column (f : perc -> fexpr) (E : env) (s : perc) (n : nat) : list fexpr :=
  map (fun k => f (trace E k s)) (seq 1 n).
Lemma col_S f E s n : column f E s (S n) = f (advance E s) :: column f E (advance E s) n.
Proof.
  unfold column. cbn [seq map]. f_equal. rewrite <- seq_shift, map_map. reflexivity.
Qed.
Definition filled (E : env) (s : perc) (n : nat) : perc :=
  set_arrs (if first_run s then p_arr s ++ column (fun t => val (occupation_prob t)) E s n else p_arr s)
    (h_arr s ++ column entropy_v2 E s n) (pw_arr s ++ column (fun t => val (order_param_wrapping t)) E s n)
    (pl_arr s ++ column (fun t => val (order_param_largest_clstr t)) E s n) (trace E n s).
Lemma set_arrs_same s : set_arrs (p_arr s) (h_arr s) (pw_arr s) (pl_arr s) s = s.
Proof. destruct s; reflexivity. Qed.

Lemma col_put f E s n p h pw pl b : (forall t, f (put_arrs p h pw pl b t) = f t) ->
  column f E (put_arrs p h pw pl b s) n = column f E s n.
Proof. intros Hf. unfold column. apply map_ext. intros k. now rewrite trace_put, Hf. Qed.

Lemma run_loop_B E L : env_ok E -> forall n s f, Inv L s -> RunB L s ->
  zlen (ids s) - cur_idx s = Z.of_nat n -> (n < f)%nat ->
  run_loop E f s = (set_sel_flag (Some EMPTY_SITE_LIST) (filled E s n), Ok tt).
Proof.
  intros HE. induction n as [|n IH]; intros s f H B Hn Hf; (destruct f as [|f]; [lia|]); cbn [run_loop]; unfold mbind at 1.
  - rewrite (runB_end E L s HE H B) by lia. unfold ret. unfold filled, column. cbn [seq map trace]. rewrite !app_nil_r.
    destruct (first_run s); rewrite set_arrs_same; reflexivity.
  - destruct (runB_place E L s HE H B) as (s' & Ep & Ef & H' & B' & Ec & Es & Q1 & Q2 & Q3); [lia|].
    rewrite Ep. unfold mbind at 1, get. unfold mbind at 1. rewrite Ef. unfold mbind at 1.
    destruct (detect_bool L s' _ H' Es) as (b & ->).
    assert (Ea : fst (detect_wrapping s') = advance E s) by (unfold advance; now rewrite Ep).
    rewrite Ea. destruct (runB_advance E L s HE H B) as (H1 & B1 & E1 & E2 & E3 & _); [lia|].
    rewrite (record_ok L) by auto. set (t := advance E s) in *.
    destruct (seqv_eqs _ _ E2) as (_ & Ei & _ & _ & _ & _ & _ & _ & Ff & _).
    unfold arrv in E3. injection E3 as A1 A2 A3 A4.
    unfold recorded. rewrite A1, A2, A3, A4, Ff.
    set (P := if first_run s then _ else _). set (Hh := h_arr s ++ _). set (W := pw_arr s ++ _). set (G := pl_arr s ++ _).
    rewrite put_eq. unfold put. rewrite Ff.
    rewrite (IH (put_arrs P Hh W G (first_run s) t)).
    + f_equal. f_equal. unfold filled. cbn [first_run p_arr h_arr pw_arr pl_arr put_arrs set_first_run set_arrs].
      rewrite !col_put by reflexivity. rewrite !col_S. fold t. cbn [trace]. fold t.
      rewrite trace_put. unfold Hh, W, G, P. rewrite <- !app_assoc. cbn [app].
      destruct (runB_trace E L n HE t H1 B1) as (_ & _ & _ & T4 & _); [rewrite Ei; lia|].
      destruct (seqv_eqs _ _ T4) as (_ & _ & _ & _ & _ & _ & _ & _ & Tf & _).
      assert (Ff' : first_run (trace E n t) = first_run s) by congruence.
      unfold put_arrs. destruct (first_run s) eqn:Efr; rewrite <- ?app_assoc; cbn [app];
        destruct (trace E n t); cbn in Ff' |- *; subst; reflexivity.
    + eapply inv_frame; [|exact H1]; reflexivity.
    + eapply runB_frame; [..|exact B1]; reflexivity.
    + change (zlen (ids t) - cur_idx t = Z.of_nat n). rewrite Ei. lia.
    + lia.
Qed.
