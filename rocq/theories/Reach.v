(** * Reach: construction, reset, custom lists, loops; every reachable object
    satisfies the invariant. *)
From Coq Require Import ZArith List Bool Lia Permutation.
From Verif Require Import Py Lattice Cluster Perc Spec PyFacts Torus Geometry LatFacts Inv Merge Count Fresh
  Select State Step History.
Import ListNotations.
Open Scope Z_scope.

Lemma nocc_fresh L lat : FreshLat L lat -> nocc L lat = 0.
Proof.
  intros F. apply count_none. intros i Hi. apply In_zrange in Hi. unfold occb.
  destruct (fr_site _ _ F i Hi) as (-> & _). reflexivity.
Qed.

(** An object on a fresh lattice. *)
Record FreshState (L : Z) (s : perc) : Prop := mkFS {
  fs_lat : FreshLat L (lat s);
  fs_pool : pool s = fresh_pool L;
  fs_ids : Forall (is_site L) (ids s);
  fs_rev : zlen (rev_ids s) = L * L;
  fs_rev0 : Forall (Z.le 0) (rev_ids s);
  fs_sel : (sel_id s = None /\ cur_site s = None) \/
          exists i, is_site L i /\ sel_id s = Some i /\ cur_site s = Some i;
  fs_occ : occ_count s = 0;
  fs_cc : cluster_count s = 2 * (L * L);
  fs_cur : cur_idx s = 0;
  fs_mi : is_L12 (kind s) = false -> max_iter s = zlen (ids s);
  fs_big : largest_sz s = 0 /\ largest_id s = -1;
  fs_wrap : after_wrap s = false /\ wid s = -1 /\ pc_occ s = 0 /\ pc_bonds s = None /\ pc_sites s = None;
  fs_maxent : max_ent s = FLog (FZ (2 * (L * L)));
  fs_ent : ent s = FLog (FZ (2 * (L * L)));
  fs_flag : sel_flag s = None
}.
Lemma fresh_inv L s : FreshState L s -> Inv L s.
Proof.
  intros [F1 F2 F3 F4 F5 F6 F7 F8 F9 F10 F11 F12 F13 F14 F15]. constructor; auto.
  - rewrite F2. now apply fresh_ClOK.
  - rewrite F7. symmetry. now apply nocc_fresh.
  - lia.
  - intros i Hi. destruct (fr_site _ _ F1 i Hi) as (_ & _ & E1 & E2). unfold nn1, nn2. lia.
  - lia.
  - unfold WrapOK. destruct F12 as (-> & F12). exact F12.
Qed.

(** ** Construction *)
Definition base_state (k : pkind) (L : Z) (lat1 : lattice) (t0 : nat) : perc :=
  mkPerc k lat1 (fresh_pool L) (zrange (L * L)) (repeat 0 (Z.to_nat (L * L)))
    0 0 0 None None None (2 * (L * L)) 0 (-1) (FLog (FZ (2 * (L * L)))) (FLog (FZ (2 * (L * L)))) false (-1) true
    [] [] [] [] (L * L) false true None None 0 0 [] (FZ 0) [] false t0.

Lemma zrange_sites L : Forall (is_site L) (zrange (L * L)).
Proof. apply Forall_forall. intros i Hi. now apply In_zrange in Hi. Qed.

Lemma new_perc_ok E k L t0 : 0 < L -> exists lat1 l t rv,
  new_perc E k L t0 = Ok (set_rev rv (set_tick t (mutate_ids l (base_state k L lat1 t0)))) /\
  FreshLat L lat1 /\ Permutation (zrange (L * L)) l /\ zlen rv = L * L /\ Forall (Z.le 0) rv /\
  (forall i, 0 <= i < zlen l -> at_ 0 rv (at_ 0 l i) = i).
Proof.
  intros HL. pose proof (LL_pos L HL) as HLL.
  destruct (new_lattice_static L HL) as (lat0 & E0 & St0).
  destruct (new_fresh L lat0 HL E0) as (_ & Hf).
  destruct (init_fresh L lat0 St0 Hf) as (lat1 & E1 & F1).
  unfold new_perc. rewrite E0. cbn [rbind]. rewrite E1. cbn [rbind].
  rewrite (st_bc _ _ (fr_static _ _ F1)), (st_sc _ _ (fr_static _ _ F1)).
  unfold log_int. destruct (Z.ltb_spec 0 (2 * (L * L))); [|lia]. cbn [rbind].
  fold (base_state k L lat1 t0).
  destruct (shuffle_ok E L (base_state k L lat1 t0)) as [(_ & H')|(_ & l & t & rv & Es & P & H1 & H2 & H3)].
  - apply zrange_sites.
  - unfold base_state; cbn [rev_ids]. unfold zlen. rewrite repeat_length. lia.
  - apply Forall_forall. intros x Hx. apply repeat_spec in Hx. lia.
  - discriminate.
  - rewrite Es. exists lat1, l, t, rv. split; auto. split; auto. split; auto. split; auto. split; auto.
    apply H3. apply NoDup_zrange.
Qed.

Lemma new_perc_pos E k L t0 s : new_perc E k L t0 = Ok s -> 0 < L.
Proof.
  unfold new_perc. intros H. destruct (new_lattice L) as [lat0|] eqn:El; [|discriminate].
  assert (0 <= L). { unfold new_lattice in El. destruct (Z.ltb_spec L 0); [discriminate|auto]. }
  destruct (Z.eq_dec L 0) as [->|]; [|lia]. exfalso.
  assert (Hn : new_lattice 0 = Ok (mkLattice 0 0 0 [] [])) by (vm_compute; reflexivity).
  rewrite Hn in El. injection El as <-. vm_compute in H. discriminate.
Qed.

Lemma perm_len {A} (l l' : list A) : Permutation l l' -> zlen l = zlen l'.
Proof. intros P. unfold zlen. now rewrite (Permutation_length P). Qed.

Lemma new_perc_fresh E k L t0 s : new_perc E k L t0 = Ok s -> FreshState L s.
Proof.
  intros H. pose proof (new_perc_pos _ _ _ _ _ H) as HL. pose proof (LL_pos L HL).
  destruct (new_perc_ok E k L t0 HL) as (lat1 & l & t & rv & E1 & F & P & H1 & H2 & H3).
  rewrite E1 in H. injection H as <-. constructor; try reflexivity; auto.
  - exact (Permutation_Forall P (zrange_sites L)).
  - intros _. cbn. rewrite <- (perm_len _ _ P), zlen_zrange; lia.
Qed.

(** ** Reset *)
Record ResetTo (L : Z) (s s' : perc) : Prop := mkRT {
  rt_fresh : FreshState L s';
  rt_kind : kind s' = kind s;
  rt_ids : if is_L12 (kind s) then ids s' = zrange (L * L) /\ ids_shared s' = false
           else Permutation (ids s) (ids s') /\ ids_shared s' = ids_shared s /\
                (do_shuffle s = false -> ids s' = ids s /\ rev_ids s' = rev_ids s /\ tick s' = tick s /\
                   user_list s' = user_list s) /\
                (NoDup (ids s) -> do_shuffle s = true ->
                 forall i, 0 <= i < zlen (ids s') -> at_ 0 (rev_ids s') (at_ 0 (ids s') i) = i);
  rt_user : if ids_shared s then Permutation (ids s) (user_list s') \/ user_list s' = user_list s
            else user_list s' = user_list s;
  rt_sel : sel_id s' = sel_id s /\ cur_site s' = cur_site s;
  rt_first : first_run s' = first_run s;
  rt_arrs : p_arr s' = (if first_run s then [] else p_arr s) /\ h_arr s' = [] /\ pw_arr s' = [] /\ pl_arr s' = [];
  rt_custom : max_iter s' = max_iter s /\ mode_custom s' = mode_custom s /\ do_shuffle s' = do_shuffle s;
  rt_record : record s' = match kind s with KL1 => [] | _ => record s end;
  rt_sp : sp_p s' = match kind s with KSP => FZ 0 | _ => sp_p s end;
  rt_shared_user : is_L12 (kind s) = false -> ids_shared s = true -> user_list s = ids s -> user_list s' = ids s'
}.

Lemma reset_ok E L s : Static L (lat s) -> Forall (is_site L) (ids s) -> zlen (rev_ids s) = L * L ->
  Forall (Z.le 0) (rev_ids s) ->
  ((sel_id s = None /\ cur_site s = None) \/ exists i, is_site L i /\ sel_id s = Some i /\ cur_site s = Some i) ->
  cluster_count s = 2 * (L * L) -> (is_L12 (kind s) = false -> max_iter s = zlen (ids s)) ->
  max_ent s = FLog (FZ (2 * (L * L))) ->
  exists s', reset E s = (s', Ok tt) /\ ResetTo L s s'.
Proof.
  intros St Hl Hr Hr0 Hsel Hcc Hmi Hme. pose proof (st_pos _ _ St) as HL.
  destruct (lattice_reset_ok L (lat s) St) as (Sr & Hf).
  destruct (init_fresh L _ Sr Hf) as (lat1 & E1 & F1).
  assert (Hb : exists s1, reset_base E s = (s1, Ok tt) /\
    (FreshState L s1 /\ kind s1 = kind s /\
     (Permutation (ids s) (ids s1) /\ ids_shared s1 = ids_shared s /\
      (do_shuffle s = false -> ids s1 = ids s /\ rev_ids s1 = rev_ids s /\ tick s1 = tick s /\ user_list s1 = user_list s) /\
      (NoDup (ids s) -> do_shuffle s = true ->
       forall i, 0 <= i < zlen (ids s1) -> at_ 0 (rev_ids s1) (at_ 0 (ids s1) i) = i)) /\
     (if ids_shared s then Permutation (ids s) (user_list s1) \/ user_list s1 = user_list s
            else user_list s1 = user_list s) /\
     (sel_id s1 = sel_id s /\ cur_site s1 = cur_site s) /\ first_run s1 = first_run s /\
     (p_arr s1 = (if first_run s then [] else p_arr s) /\ h_arr s1 = [] /\ pw_arr s1 = [] /\ pl_arr s1 = []) /\
     (max_iter s1 = max_iter s /\ mode_custom s1 = mode_custom s /\ do_shuffle s1 = do_shuffle s) /\
     record s1 = record s /\ sp_p s1 = sp_p s /\
     (ids_shared s = true -> user_list s = ids s -> user_list s1 = ids s1))).
  { unfold reset_base. unfold mbind at 1, get. unfold mbind at 1, modify. unfold mbind at 1, modify.
    unfold mbind at 1, get.
    match goal with |- context [lift (init_clusters ?l)] => change l with (lattice_reset (lat s)) end.
    rewrite (mbind_lift _ _ _ _ E1). unfold mbind at 1, modify.
    match goal with |- context [mbind (shuffle E) _ ?S0] => set (s0 := S0) end.
    destruct (shuffle_ok E L s0) as [(Es & Ed)|(Ed & l & t & rv & Es & P & H1 & H2 & H3)]; auto.
    - rewrite (mbind_ok _ _ _ _ _ Es).
      unfold mbind, modify. eexists. split; [reflexivity|].
      split; [constructor; try reflexivity; auto; repeat split; reflexivity|].
      split; [reflexivity|]. split.
      { split; [apply Permutation_refl|]. split; [reflexivity|]. split; [auto|].
        intros _ Ed'. change (do_shuffle s0) with (do_shuffle s) in Ed. congruence. }
      split; [cbn; destruct (ids_shared s); auto|]. repeat split; auto.
    - rewrite (mbind_ok _ _ _ _ _ Es). unfold mbind, modify. eexists. split; [reflexivity|].
      split.
      { constructor; try reflexivity; auto.
        - exact (Permutation_Forall P Hl).
        - intros Hk. change (max_iter s = zlen l). rewrite <- (perm_len _ _ P). exact (Hmi Hk). }
      split; [reflexivity|]. split.
      { split; [exact P|]. split; [reflexivity|]. split; [|intros N _; apply H3; exact N].
        change (do_shuffle s0) with (do_shuffle s) in Ed. congruence. }
      split; [cbn; destruct (ids_shared s); [left; exact P|auto]|].
      split; [auto|]. split; [auto|]. split; [auto|]. split; [auto|]. split; [auto|]. split; [auto|].
      intros Hsh _. cbn. now rewrite Hsh. }
  destruct Hb as (s1 & Eb & B1 & B2 & B3 & B4 & B5 & B6 & B7 & B8 & B9 & B10 & B11).
  unfold reset. rewrite (mbind_ok _ _ _ _ _ Eb). unfold mbind at 1, get. rewrite B2.
  pose proof B1 as [F1' F2 F3 F4 F5 F6 F7 F8 F9 F10 F11 F12 F13 F14 F15].
  destruct (kind s) eqn:Ek.
  - exists s1. split; [reflexivity|]. constructor; rewrite ?Ek; auto.
  - exists s1. split; [reflexivity|]. constructor; rewrite ?Ek; auto.
  - unfold mbind, modify. eexists. split; [reflexivity|].
    rewrite (st_len _ _ (fr_static _ _ F1')).
    constructor; rewrite ?Ek; auto; try discriminate.
    + constructor; auto; [apply zrange_sites|]. cbn. rewrite ?B2. discriminate.
    + split; reflexivity.
  - unfold mbind, modify. eexists. split; [reflexivity|].
    rewrite (st_len _ _ (fr_static _ _ F1')).
    constructor; rewrite ?Ek; auto; try discriminate.
    + constructor; auto; [apply zrange_sites|]. cbn. rewrite ?B2. discriminate.
    + split; reflexivity.
  - unfold modify. eexists. split; [reflexivity|].
    constructor; rewrite ?Ek; auto.
    constructor; auto.
Qed.

Lemma reset_inv E L s : Inv L s -> exists s', reset E s = (s', Ok tt) /\ ResetTo L s s'.
Proof.
  intros H. apply reset_ok; try apply H.
Qed.

(** ** Custom lists *)
Lemma lmax_spec l m : lmax l = Ok m -> forall x, In x l -> x <= m.
Proof.
  destruct l as [|h t]; [discriminate|]. cbn. intros E. injection E as <-.
  assert (G : forall t h, h <= fold_left Z.max t h /\ forall x, In x t -> x <= fold_left Z.max t h).
  { clear. induction t as [|a t IH]; intros h; cbn; [split; [lia|tauto]|].
    destruct (IH (Z.max h a)) as (G1 & G2). split; [lia|]. intros x [->|Hx]; [lia|auto]. }
  intros x Hx. destruct (G t h) as (G1 & G2). destruct Hx as [<-|Hx]; auto.
Qed.
Lemma lmin_spec l m : lmin l = Ok m -> forall x, In x l -> m <= x.
Proof.
  destruct l as [|h t]; [discriminate|]. cbn. intros E. injection E as <-.
  assert (G : forall t h, fold_left Z.min t h <= h /\ forall x, In x t -> fold_left Z.min t h <= x).
  { clear. induction t as [|a t IH]; intros h; cbn; [split; [lia|tauto]|].
    destruct (IH (Z.min h a)) as (G1 & G2). split; [lia|]. intros x [->|Hx]; [lia|auto]. }
  intros x Hx. destruct (G t h) as (G1 & G2). destruct Hx as [<-|Hx]; auto.
Qed.
Lemma lmax_in l m : lmax l = Ok m -> In m l.
Proof.
  destruct l as [|h t]; [discriminate|]. cbn [lmax]. intros E. injection E as <-.
  assert (G : forall t h, In (fold_left Z.max t h) (h :: t)).
  { clear. induction t as [|a t IH]; intros h; cbn [fold_left]; [simpl; auto|].
    destruct (IH (Z.max h a)) as [G|G]; [|simpl; auto]. rewrite <- G.
    destruct (Z.max_spec h a) as [(_ & ->)|(_ & ->)]; simpl; auto. }
  apply G.
Qed.
Lemma lmin_in l m : lmin l = Ok m -> In m l.
Proof.
  destruct l as [|h t]; [discriminate|]. cbn [lmin]. intros E. injection E as <-.
  assert (G : forall t h, In (fold_left Z.min t h) (h :: t)).
  { clear. induction t as [|a t IH]; intros h; cbn [fold_left]; [simpl; auto|].
    destruct (IH (Z.min h a)) as [G|G]; [|simpl; auto]. rewrite <- G.
    destruct (Z.min_spec h a) as [(_ & ->)|(_ & ->)]; simpl; auto. }
  apply G.
Qed.

Lemma site_dec L i : {is_site L i} + {~ is_site L i}.
Proof. unfold is_site. destruct (Z_le_dec 0 i), (Z_lt_dec i (L * L)); auto; right; lia. Qed.
Definition siteb (L i : Z) : bool := (0 <=? i) && (i <? L * L).
Lemma siteb_true L i : siteb L i = true <-> is_site L i.
Proof. unfold siteb, is_site. rewrite andb_true_iff, Z.leb_le, Z.ltb_lt. reflexivity. Qed.

(** The common tail of the two setters. *)
Definition installed (l ul : list Z) (share : bool) (sh : bool) (s : perc) : perc :=
  set_custom (zlen l) true sh (rebind_ids l ul share s).

Lemma range_test L l mx mn : lmax l = Ok mx -> lmin l = Ok mn ->
  (L * L - 1 <? mx) || (mn <? 0) = negb (forallb (siteb L) l).
Proof.
  intros Ex En. destruct (forallb (siteb L) l) eqn:Ef; cbn [negb].
  - rewrite forallb_forall in Ef.
    pose proof (Ef _ (lmax_in _ _ Ex)) as A. pose proof (Ef _ (lmin_in _ _ En)) as B.
    apply siteb_true in A, B. unfold is_site in *. lia.
  - apply orb_true_iff. assert (Hn : ~ (forall x, In x l -> siteb L x = true)).
    { intros Hn. rewrite <- forallb_forall in Hn. congruence. }
    destruct (Z_lt_dec (L * L - 1) mx); [left; lia|]. destruct (Z_lt_dec mn 0); [right; lia|]. exfalso. apply Hn.
    intros x Hx. apply siteb_true. pose proof (lmax_spec _ _ Ex x Hx). pose proof (lmin_spec _ _ En x Hx).
    unfold is_site. lia.
Qed.

Lemma set_ids_ok E L l sh s : Static L (lat s) ->
  set_custome_site_id_list E l sh s =
  match l with
  | [] => (s, Err ValueError)
  | _ => if forallb (siteb L) l then shuffle E (installed l l true sh s) else (s, Ok tt)
  end.
Proof.
  intros St. unfold set_custome_site_id_list. unfold mbind at 1, get. rewrite (st_len _ _ St).
  destruct l as [|h t]; [reflexivity|].
  destruct (lmax (h :: t)) as [mx|] eqn:Ex; [|discriminate].
  destruct (lmin (h :: t)) as [mn|] eqn:En; [|discriminate].
  unfold mbind, lift. rewrite (range_test L (h :: t) mx mn Ex En).
  destruct (forallb (siteb L) (h :: t)); reflexivity.
Qed.
Lemma set_indices_ok E L ixs sh s : Static L (lat s) ->
  set_custome_site_index_list E ixs sh s =
  let l := map (calculate_id_from_index (lat s)) ixs in
  match l with
  | [] => (s, Err ValueError)
  | _ => if forallb (siteb L) l then shuffle E (installed l (user_list s) false sh s) else (s, Ok tt)
  end.
Proof.
  intros St. unfold set_custome_site_index_list. unfold mbind at 1, get. rewrite (st_len _ _ St). cbv zeta.
  destruct (map (calculate_id_from_index (lat s)) ixs) as [|h t]; [reflexivity|].
  destruct (lmax (h :: t)) as [mx|] eqn:Ex; [|discriminate].
  destruct (lmin (h :: t)) as [mn|] eqn:En; [|discriminate].
  unfold mbind, lift. rewrite (range_test L (h :: t) mx mn Ex En).
  destruct (forallb (siteb L) (h :: t)); reflexivity.
Qed.

Lemma forallb_sites L l : forallb (siteb L) l = true -> Forall (is_site L) l.
Proof. intros H. rewrite forallb_forall in H. apply Forall_forall. intros x Hx. apply siteb_true. auto. Qed.

Lemma inv_ids L s l rv ul sh t mi mc ds : Inv L s -> Forall (is_site L) l -> zlen rv = L * L -> Forall (Z.le 0) rv ->
  (is_L12 (kind s) = false -> mi = zlen l) ->
  Inv L (set_custom mi mc ds (set_rev rv (set_tick t (rebind_ids l ul sh s)))).
Proof.
  intros [I1 I2 I3 I4 I5 I6 I7 I8 I9 I10 I11 I12 I13 I14] Hl Hr Hr0 Hm. constructor; auto.
Qed.
Lemma shuffle_inv E L s : Inv L s -> exists s', shuffle E s = (s', Ok tt) /\ Inv L s'.
Proof.
  intros H. destruct (shuffle_ok E L s) as [(Es & _)|(_ & l & t & rv & Es & P & H1 & H2 & _)]; try apply H.
  - exists s. auto.
  - eexists. split; [exact Es|].
    pose proof (inv_ids L s l rv (if ids_shared s then l else user_list s) (ids_shared s) t (max_iter s) (mode_custom s) (do_shuffle s) H) as G.
    unfold mutate_ids. apply (inv_frame L) with (2 := G (Permutation_Forall P (i_ids _ _ H)) H1 H2
      (fun Hk => eq_trans (i_mi _ _ H Hk) (perm_len _ _ P))). reflexivity.
Qed.
Lemma installed_inv L l ul share sh s : Inv L s -> Forall (is_site L) l -> Inv L (installed l ul share sh s).
Proof.
  intros [I1 I2 I3 I4 I5 I6 I7 I8 I9 I10 I11 I12 I13 I14] Hl. constructor; auto.
Qed.
Lemma set_ids_inv E L l sh s : Inv L s -> Inv L (fst (set_custome_site_id_list E l sh s)).
Proof.
  intros H. rewrite (set_ids_ok E L) by (now apply i_static). destruct l as [|h t]; auto.
  destruct (forallb (siteb L) (h :: t)) eqn:Ef; auto.
  destruct (shuffle_inv E L (installed (h :: t) (h :: t) true sh s)) as (s' & -> & H'); auto.
  apply installed_inv; auto. now apply forallb_sites.
Qed.
Lemma set_indices_inv E L l sh s : Inv L s -> Inv L (fst (set_custome_site_index_list E l sh s)).
Proof.
  intros H. rewrite (set_indices_ok E L) by (now apply i_static). cbv zeta.
  destruct (map _ l) as [|h t]; auto.
  destruct (forallb (siteb L) (h :: t)) eqn:Ef; auto.
  destruct (shuffle_inv E L (installed (h :: t) (user_list s) false sh s)) as (s' & -> & H'); auto.
  apply installed_inv; auto. now apply forallb_sites.
Qed.

(** ** swap_ids *)
Lemma lset_nonneg {A} (l : list A) i v : 0 <= i ->
  lset l i v = if i <? zlen l then Ok (upd l (Z.to_nat i) v) else Err IndexError.
Proof.
  intros Hi. destruct (Z.ltb_spec i (zlen l)); [apply lset_in; lia|].
  unfold lset, py_pos. replace (i <? zlen l) with false by lia. replace (i <? 0) with false by lia.
  rewrite !andb_false_r. reflexivity.
Qed.
Lemma swap_ids_inv L a b s : Inv L s -> is_site L a -> is_site L b -> Inv L (fst (swap_ids a b s)).
Proof.
  intros H Ha Hb. unfold swap_ids. destruct (a =? b); auto.
  unfold mbind at 1, get. pose proof (i_rev _ _ H) as Hr.
  rewrite (mbind_lift _ _ _ (at_ 0 (rev_ids s) a)) by (apply lget_in; rewrite Hr; exact Ha).
  rewrite (mbind_lift _ _ _ (at_ 0 (rev_ids s) b)) by (apply lget_in; rewrite Hr; exact Hb).
  assert (Hp : forall c, is_site L c -> 0 <= at_ 0 (rev_ids s) c).
  { intros c Hc. pose proof (i_rev0 _ _ H) as F. rewrite Forall_forall in F. apply F. apply at_In.
    rewrite Hr. exact Hc. }
  pose proof (Hp a Ha) as H1. pose proof (Hp b Hb) as H2.
  set (i1 := at_ 0 (rev_ids s) a) in *. set (i2 := at_ 0 (rev_ids s) b) in *.
  assert (Hids : forall l ul sh, Forall (is_site L) l -> zlen l = zlen (ids s) -> forall rv, zlen rv = L * L ->
    Forall (Z.le 0) rv -> Inv L (set_rev rv (rebind_ids l ul sh s))).
  { intros l ul sh Hl Hlen rv Hz Hz0.
    apply (inv_frame L) with (2 := inv_ids L s l rv ul sh (tick s) (max_iter s) (mode_custom s) (do_shuffle s) H Hl Hz Hz0
      (fun Hk => eq_trans (i_mi _ _ H Hk) (eq_sym Hlen))). reflexivity. }
  rewrite lset_nonneg by auto. destruct (Z.ltb_spec i1 (zlen (ids s))); [|exact H].
  rewrite (mbind_lift _ _ _ _ eq_refl). unfold mbind at 1, modify.
  set (l1 := upd (ids s) (Z.to_nat i1) b).
  assert (Hl1 : Forall (is_site L) l1) by (apply Forall_upd; auto; apply (i_ids _ _ H)).
  assert (Hz1 : zlen l1 = zlen (ids s)) by apply zlen_upd.
  rewrite lset_nonneg by auto. rewrite Hz1.
  assert (Hnr : forall l ul sh, rebind_ids l ul sh s = set_rev (rev_ids s) (rebind_ids l ul sh s)) by reflexivity.
  destruct (Z.ltb_spec i2 (zlen (ids s))).
  2:{ cbn [fst lift mbind]. unfold mutate_ids. rewrite Hnr. apply Hids; auto; apply H. }
  rewrite (mbind_lift _ _ _ _ eq_refl). unfold mbind at 1, modify.
  set (l2 := upd l1 (Z.to_nat i2) a).
  assert (Hl2 : Forall (is_site L) l2) by (apply Forall_upd; auto).
  assert (Hz2 : zlen l2 = zlen (ids s)) by (unfold l2; rewrite zlen_upd; auto).
  rewrite (mbind_lift _ _ _ (upd (rev_ids s) (Z.to_nat b) i1)) by (apply lset_in; rewrite Hr; exact Hb).
  unfold mbind at 1, modify.
  rewrite (mbind_lift _ _ _ (upd (upd (rev_ids s) (Z.to_nat b) i1) (Z.to_nat a) i2))
    by (apply lset_in; rewrite zlen_upd, Hr; exact Ha).
  unfold modify. cbn [fst]. unfold mutate_ids.
  match goal with |- Inv L ?S => set (S0 := S) end.
  apply (inv_frame L (set_rev (upd (upd (rev_ids s) (Z.to_nat b) i1) (Z.to_nat a) i2)
     (rebind_ids l2 (user_list S0) (ids_shared S0) s))); [reflexivity|].
  apply Hids; auto.
  - now rewrite !zlen_upd.
  - apply Forall_upd; auto. apply Forall_upd; auto. apply (i_rev0 _ _ H).
Qed.

(** ** Loops *)
Section Loops.
Variable E : env.
Variables P Q : perc -> Prop.
Hypothesis HP : forall s, P s ->
  match place_one_site E s with
  | (s', Ok true) => if flag_is_success s' then Q s' else P s'
  | (s', _) => P s'
  end.
Hypothesis HD : forall s, Q s -> P (fst (detect_wrapping s)).
Hypothesis HA : forall s p h pw pl, P s -> P (set_arrs p h pw pl s).
Hypothesis HF : forall s b, P s -> P (set_first_run b s).
Hypothesis HS : forall s b, P s -> P (set_sp b s).

Lemma record_step_pres s : P s -> P (fst (record_step s)).
Proof.
  intros H. unfold record_step, mbind, get, lift.
  destruct (occupation_prob s); [|exact H].
  destruct (order_param_wrapping s); [|exact H].
  destruct (order_param_largest_clstr s); [|exact H]. cbn [fst modify]. apply HA, H.
Qed.
Lemma run_loop_pres f s : P s -> P (fst (run_loop E f s)).
Proof.
  revert s. induction f as [|f IH]; intros s H; [exact H|]. cbn [run_loop]. unfold mbind at 1.
  pose proof (HP s H) as H'. destruct (place_one_site E s) as [s' [[]|e]]; auto.
  unfold mbind at 1, get. unfold mbind at 1.
  destruct (flag_is_success s'); [|now apply IH].
  unfold mbind at 1. pose proof (HD s' H') as H2.
  destruct (detect_wrapping s') as [s2 [b|e]]; auto.
  pose proof (record_step_pres s2 H2) as H3. destruct (record_step s2) as [s3 [u|e]]; auto.
Qed.
Lemma test_run_loop_pres f s : P s -> P (fst (test_run_loop E f s)).
Proof.
  revert s. induction f as [|f IH]; intros s H; [exact H|]. cbn [test_run_loop]. unfold mbind at 1.
  pose proof (HP s H) as H'. destruct (place_one_site E s) as [s' [[]|e]]; auto.
  unfold mbind at 1, get. destruct (flag_is_success s'); [|now apply IH].
  unfold mbind at 1. pose proof (HD s' H') as H2.
  destruct (detect_wrapping s') as [s2 [[]|e]]; auto.
  - unfold mbind, get, lift. cbn [fst snd] in H2. destruct (pc_sites s2); exact H2.
  - unfold mbind at 1. pose proof (record_step_pres s2 H2) as H3.
    destruct (record_step s2) as [s3 [u|e]]; auto.
Qed.
Lemma sp_loop_pres f s : P s -> P (fst (sp_loop E f s)).
Proof.
  revert s. induction f as [|f IH]; intros s H; [exact H|]. cbn [sp_loop]. unfold mbind at 1.
  pose proof (HP s H) as H'. destruct (place_one_site E s) as [s' [[]|e]]; auto.
  unfold mbind at 1, get. destruct (flag_is_success s'); [|now apply IH].
  unfold mbind at 1. pose proof (HD s' H') as H2.
  destruct (detect_wrapping s') as [s2 [[]|e]]; auto.
  unfold mbind at 1, get. cbn [fst] in H2. unfold mbind at 1.
  destruct (cur_site s2) as [c|]; cbn [need ret raise]; auto.
  unfold mbind at 1, lift. destruct (get_site_by_id (lat s2) c) as [cs|]; auto.
  unfold mbind at 1. destruct (scan_row_col_of_selected_site s2 (s_index cs)) as [[cf rf]|]; auto.
  destruct (cf || rf); [|now apply IH].
  unfold mbind. destruct (occupation_prob s2); auto. cbn [fst modify]. now apply HS.
Qed.
Lemma run_once_pres f s : P s -> P (fst (run_once E f s)).
Proof.
  intros H. unfold run_once. unfold mbind at 1, get.
  pose proof (run_loop_pres f s H) as H1. pose proof (sp_loop_pres f s H) as H2.
  assert (G1 : P (fst (run_once_base E f s))).
  { unfold run_once_base, mbind. destruct (run_loop E f s) as [s1 [u|e]]; cbn [fst] in *; auto. now apply HF. }
  assert (G2 : P (fst (sp_run_once E f s))).
  { unfold sp_run_once, mbind. destruct (sp_loop E f s) as [s1 [u|e]]; cbn [fst] in *; auto. now apply HF. }
  destruct (kind s); auto.
Qed.
Lemma test_run_once_pres f s : P s -> P (fst (test_run_once E f s)).
Proof.
  intros H. unfold test_run_once. pose proof (test_run_loop_pres f s H) as H1. unfold mbind.
  destruct (test_run_loop E f s) as [s1 [u|e]]; cbn [fst] in *; auto. now apply HF.
Qed.
End Loops.

Lemma loop_hyp_inv E L : env_ok E -> forall s, Inv L s ->
  match place_one_site E s with
  | (s', Ok true) => if flag_is_success s' then Inv L s' else Inv L s'
  | (s', _) => Inv L s'
  end.
Proof.
  intros HE s H. pose proof (place_inv E L s HE H) as H'.
  destruct (place_one_site E s) as [s' [[]|e]]; auto. destruct (flag_is_success s'); auto.
Qed.
Lemma run_once_inv E L f s : env_ok E -> Inv L s -> Inv L (fst (run_once E f s)).
Proof.
  intros HE. apply (run_once_pres E (Inv L) (Inv L)).
  - now apply loop_hyp_inv.
  - apply detect_inv.
  - intros s0 p h pw pl H. eapply inv_frame; [|exact H]; reflexivity.
  - intros s0 b H. eapply inv_frame; [|exact H]; reflexivity.
  - intros s0 b H. eapply inv_frame; [|exact H]; reflexivity.
Qed.
Lemma test_run_once_inv E L f s : env_ok E -> Inv L s -> Inv L (fst (test_run_once E f s)).
Proof.
  intros HE. apply (test_run_once_pres E (Inv L) (Inv L)).
  - now apply loop_hyp_inv.
  - apply detect_inv.
  - intros s0 p h pw pl H. eapply inv_frame; [|exact H]; reflexivity.
  - intros s0 b H. eapply inv_frame; [|exact H]; reflexivity.
Qed.

Lemma exec_inv E L s c : env_ok E -> call_ok L c -> Inv L s -> Inv L (exec E s c).
Proof.
  intros HE Hc H. destruct c; cbn [exec call_ok] in *.
  - now apply place_inv.
  - now apply detect_inv.
  - destruct (reset_inv E L s H) as (s' & -> & R). apply fresh_inv, R.
  - now apply set_ids_inv.
  - now apply set_indices_inv.
  - now apply swap_ids_inv.
  - now apply run_once_inv.
  - now apply test_run_once_inv.
Qed.
Lemma after_inv E L cs : env_ok E -> forall s, Forall (call_ok L) cs -> Inv L s -> Inv L (after E s cs).
Proof.
  intros HE. induction cs as [|c cs IH]; intros s Hc H; [exact H|].
  apply Forall_cons_iff in Hc as (H1 & H2). cbn. apply IH; auto. now apply exec_inv.
Qed.
Theorem reachable_inv E L s : env_ok E -> reachable E L s -> Inv L s.
Proof.
  intros HE (k & t0 & s0 & cs & E0 & Hc & ->). apply after_inv; auto.
  apply fresh_inv. eapply new_perc_fresh; eauto.
Qed.
