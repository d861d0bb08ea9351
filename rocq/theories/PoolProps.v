(** * PoolProps: cluster pools used directly (C104). *)
From Coq Require Import ZArith List Bool Lia.
From Verif Require Import Py Lattice Cluster Spec PyFacts Torus Geometry LatFacts Inv Merge Fresh LatSpec SelfTest Extra PoolSpec.
Import ListNotations.
Open Scope Z_scope.

Record PI (L : Z) (lat : lattice) (p : cpool) : Prop := mkPI {
  q_static : Static L lat;
  q_next : p_next p = zlen (p_list p);
  q_live : forall c, 0 <= c < zlen (p_list p) -> c_gid (cl p c) = c \/ (cl p c = mkCluster [] [] (-1) (-1));
  q_slab : forall i, is_site L i -> sg lat i = -1 \/ (0 <= sg lat i < zlen (p_list p) /\ c_gid (cl p (sg lat i)) = sg lat i);
  q_blab : forall b, is_bond L b -> bg lat b = -1 \/ (0 <= bg lat b < zlen (p_list p) /\ c_gid (cl p (bg lat b)) = bg lat b);
  q_sites : forall c, 0 <= c < zlen (p_list p) -> NoDup (c_sites (cl p c)) /\ forall i, In i (c_sites (cl p c)) <-> is_site L i /\ sg lat i = c;
  q_bonds : forall c, 0 <= c < zlen (p_list p) -> NoDup (c_bonds (cl p c)) /\ forall b, In b (c_bonds (cl p c)) <-> is_bond L b /\ bg lat b = c
}.

Lemma live_iff p c : live p c <-> 0 <= c < zlen (p_list p) /\ c_gid (cl p c) = c.
Proof.
  unfold live. split.
  - intros (H & k & E & G). split; auto. rewrite (lget_in dcluster) in E by auto. injection E as <-. exact G.
  - intros (H & G). split; auto. exists (cl p c). split; auto. now rewrite (lget_in dcluster) by auto.
Qed.
Lemma sites_in_cl p c : 0 <= c < zlen (p_list p) -> sites_in p c = c_sites (cl p c).
Proof. intros H. unfold sites_in, pool_get_sites. now rewrite (lget_in dcluster) by auto. Qed.
Lemma bonds_in_cl p c : 0 <= c < zlen (p_list p) -> bonds_in p c = c_bonds (cl p c).
Proof. intros H. unfold bonds_in, pool_get_bonds. now rewrite (lget_in dcluster) by auto. Qed.

Lemma pi_new L lat : 0 < L -> new_lattice L = Ok lat -> PI L lat empty_pool.
Proof.
  intros HL E. destruct (new_fresh L lat HL E) as (St & Hs). destruct (new_lattice_spec L HL) as (lat' & E' & _ & _ & Hb). rewrite E in E'. injection E' as <-.
  constructor; auto.
  - intros c Hc. cbn in Hc. lia.
  - intros i Hi. left. now apply Hs.
  - intros b Hbb. left. unfold bg. now rewrite Hb by auto.
  - intros c Hc. cbn in Hc. lia.
  - intros c Hc. cbn in Hc. lia.
Qed.

(** ** Creating *)
Lemma pi_create L lat p ss bs : PI L lat p -> NoDup ss -> NoDup bs ->
  (forall i, In i ss -> is_site L i /\ sg lat i = -1) -> (forall b, In b bs -> is_bond L b /\ bg lat b = -1) ->
  exists lat' p', create_new_cluster p ss bs lat = Ok (p', lat') /\ PI L lat' p' /\
    zlen (p_list p') = zlen (p_list p) + 1 /\
    (forall i, sg lat' i = if zmem i ss then zlen (p_list p) else sg lat i) /\
    (forall b, bg lat' b = if zmem b bs then zlen (p_list p) else bg lat b) /\
    (forall c, cl p' c = if c =? zlen (p_list p) then mkCluster ss bs c c else cl p c).
Proof.
  intros P Ns Nb Hs Hb. pose proof (q_static _ _ _ P) as St. unfold create_new_cluster. rewrite (q_next _ _ _ P). set (g := zlen (p_list p)).
  pose proof (zlen_nonneg (p_list p)) as Hg. fold g in Hg.
  destruct (update_sites_ok L lat ss (fun lat ss => set_site_gid_by_id lat ss g) (fun s => site_set_gid s g) St Ns) as (lat1 & E1 & S1 & B1 & H1).
  { intros i Hi. now apply Hs. } { intros t. repeat split. } { intros lt i Slt Hi. now apply (set_site_gid_ok L). }
  rewrite E1. cbn [rbind].
  destruct (set_bond_gids_ok L lat1 bs g S1) as (lat2 & E2 & S2 & Es2 & H2); [intros b B; now apply Hb|]. rewrite E2. cbn [rbind].
  exists lat2, (mkPool (p_list p ++ [mkCluster ss bs g g]) (g + 1)). split; [reflexivity|].
  assert (Hsg : forall i, sg lat2 i = if zmem i ss then g else sg lat i).
  { intros i. unfold sg, site_at. rewrite Es2. fold (site_at lat1 i). rewrite H1. destruct (zmem i ss); reflexivity. }
  assert (Hbg : forall b, bg lat2 b = if zmem b bs then g else bg lat b).
  { intros b. unfold bg. rewrite H2. unfold bond_at. rewrite B1. destruct (zmem b bs); reflexivity. }
  assert (Hcl : forall c, cl (mkPool (p_list p ++ [mkCluster ss bs g g]) (g + 1)) c = if c =? g then mkCluster ss bs c c else cl p c).
  { intros c. unfold cl. cbn [p_list]. destruct (Z.eqb_spec c g) as [->|Hc].
    - unfold at_. destruct (Z.leb_spec 0 g); [|lia]. unfold g, zlen. rewrite Nat2Z.id, app_nth2, Nat.sub_diag by lia. reflexivity.
    - unfold at_. destruct (Z.leb_spec 0 c); auto. destruct (Z_lt_ge_dec c g).
      + rewrite app_nth1; auto. unfold g, zlen in l. lia.
      + rewrite !nth_overflow; auto; [|rewrite app_length; cbn]; unfold g, zlen in *; lia. }
  assert (Hlen : zlen (p_list p ++ [mkCluster ss bs g g]) = g + 1) by (rewrite zlen_app; reflexivity).
  split; [|split; [exact Hlen|auto]].
  constructor; cbn [p_list p_next]; rewrite ?Hlen; auto.
  - intros c Hc. rewrite Hcl. destruct (Z.eqb_spec c g); [left; reflexivity|]. apply (q_live _ _ _ P). fold g. lia.
  - intros i Hi. rewrite Hsg, Hcl. destruct (zmem_spec i ss) as [Q|Q]; [rewrite Z.eqb_refl; right; cbn; lia|].
    destruct (q_slab _ _ _ P i Hi) as [A|(A & B)]; auto. fold g in A. right. destruct (Z.eqb_spec (sg lat i) g); [lia|]. split; [lia|auto].
  - intros i Hi. rewrite Hbg, Hcl. destruct (zmem_spec i bs) as [Q|Q]; [rewrite Z.eqb_refl; right; cbn; lia|].
    destruct (q_blab _ _ _ P i Hi) as [A|(A & B)]; auto. fold g in A. right. destruct (Z.eqb_spec (bg lat i) g); [lia|]. split; [lia|auto].
  - intros c Hc. rewrite Hcl. destruct (Z.eqb_spec c g) as [->|Q].
    + cbn [c_sites]. split; auto. intros i. rewrite Hsg. destruct (zmem_spec i ss) as [M|M].
      * split; auto. intros _. split; auto. now apply Hs.
      * split; [contradiction|]. intros (Hi & Ei). destruct (q_slab _ _ _ P i Hi) as [A|(A & B)]; try (fold g in A); lia.
    + destruct (q_sites _ _ _ P c) as (N & I); [fold g; lia|]. split; auto. intros i. rewrite I, Hsg. destruct (zmem_spec i ss) as [M|M]; [|reflexivity].
      destruct (Hs i M) as (_ & ->). split; intros (_ & A); [|exfalso; apply Q; auto]. lia.
  - intros c Hc. rewrite Hcl. destruct (Z.eqb_spec c g) as [->|Q].
    + cbn [c_bonds]. split; auto. intros i. rewrite Hbg. destruct (zmem_spec i bs) as [M|M].
      * split; auto. intros _. split; auto. now apply Hb.
      * split; [contradiction|]. intros (Hi & Ei). destruct (q_blab _ _ _ P i Hi) as [A|(A & B)]; try (fold g in A); lia.
    + destruct (q_bonds _ _ _ P c) as (N & I); [fold g; lia|]. split; auto. intros i. rewrite I, Hbg. destruct (zmem_spec i bs) as [M|M]; [|reflexivity].
      destruct (Hb i M) as (_ & ->). split; intros (_ & A); [|exfalso; apply Q; auto]. lia.
Qed.

(** ** Merging and clearing *)
Lemma merge_any L p a b lat : Static L lat -> 0 <= a < zlen (p_list p) -> 0 <= b < zlen (p_list p) -> a <> b ->
  (forall x, In x (c_bonds (cl p b)) -> is_bond L x) -> NoDup (c_sites (cl p b)) -> (forall x, In x (c_sites (cl p b)) -> is_site L x) ->
  exists p' lat', merge_cluster_with p a b lat = Ok (p', lat') /\ Static L lat' /\ zlen (p_list p') = zlen (p_list p) /\ p_next p' = p_next p /\
    (forall c, cl p' c = if c =? a then mkCluster (c_sites (cl p a) ++ c_sites (cl p b)) (c_bonds (cl p a) ++ c_bonds (cl p b)) (c_gid (cl p a)) (c_id (cl p a)) else cl p c) /\
    (forall x, bg lat' x = if zmem x (c_bonds (cl p b)) then c_gid (cl p a) else bg lat x) /\
    (forall i, sg lat' i = if zmem i (c_sites (cl p b)) then c_gid (cl p a) else sg lat i).
Proof.
  intros St Ha Hb Hab Hbb Hnd Hss. unfold merge_cluster_with.
  rewrite (lget_in dcluster) by lia. cbn [rbind]. fold (cl p a).
  rewrite (lget_in dcluster) by lia. cbn [rbind]. fold (cl p b). set (g := c_gid (cl p a)).
  destruct (set_bond_gids_ok L lat (c_bonds (cl p b)) g St Hbb) as (lat1 & E1 & S1 & Es1 & Hb1).
  rewrite E1. cbn [rbind].
  destruct (update_sites_ok L lat1 (c_sites (cl p b)) (fun lat ss => set_site_gid_by_id lat ss g)
             (fun s => site_set_gid s g) S1 Hnd Hss) as (lat2 & E2 & S2 & Eb2 & Hs2).
  { intros s. repeat split. } { intros lt i Slt Hi. now apply (set_site_gid_ok L). }
  rewrite E2. cbn [rbind].
  rewrite lset_in by lia. cbn [rbind].
  rewrite (lget_in dcluster) by (rewrite zlen_upd; lia). cbn [rbind].
  rewrite (lget_in dcluster) by (rewrite zlen_upd; lia). cbn [rbind].
  rewrite lset_in by (rewrite zlen_upd; lia). cbn [rbind].
  rewrite !at_upd by lia. rewrite Z.eqb_refl.
  replace (b =? a) with false by lia. fold (cl p b). cbn [c_sites c_bonds c_gid c_id].
  eexists _, lat2. split; [reflexivity|]. split; auto. cbn [p_list p_next].
  split; [now rewrite !zlen_upd|]. split; auto. split; [|split].
  - intros c. unfold cl at 1. cbn [p_list]. rewrite at_upd by (rewrite zlen_upd; lia).
    destruct (Z.eqb_spec c a); [reflexivity|]. rewrite at_upd by lia.
    destruct (Z.eqb_spec c a); [lia|]. reflexivity.
  - intros x. unfold bg, bond_at at 1. rewrite Eb2. fold (bond_at lat1 x). rewrite Hb1. destruct (zmem x _); reflexivity.
  - intros i. unfold sg. rewrite Hs2. unfold site_at. rewrite Es1. destruct (zmem i _); reflexivity.
Qed.

Lemma pi_join L lat p a b : PI L lat p -> live p a -> live p b -> a <> b ->
  exists lat' p', do_pcall (lat, p) (PJoin a b) = Ok (lat', p') /\ PI L lat' p' /\
    zlen (p_list p') = zlen (p_list p) /\
    (forall i, is_site L i -> sg lat' i = if sg lat i =? b then a else sg lat i) /\
    (forall x, is_bond L x -> bg lat' x = if bg lat x =? b then a else bg lat x) /\
    (forall c, cl p' c = if c =? b then mkCluster [] [] (-1) (-1) else
       if c =? a then mkCluster (c_sites (cl p a) ++ c_sites (cl p b)) (c_bonds (cl p a) ++ c_bonds (cl p b)) (c_gid (cl p a)) (c_id (cl p a)) else cl p c).
Proof.
  intros P (Ha & Ga)%live_iff (Hb & Gb)%live_iff Hab. pose proof (q_static _ _ _ P) as St.
  destruct (q_sites _ _ _ P a Ha) as (NSa & ISa). destruct (q_sites _ _ _ P b Hb) as (NSb & ISb).
  destruct (q_bonds _ _ _ P a Ha) as (NBa & IBa). destruct (q_bonds _ _ _ P b Hb) as (NBb & IBb).
  destruct (merge_any L p a b lat St Ha Hb Hab) as (p1 & lat1 & E1 & S1 & L1 & X1 & C1 & B1 & D1); auto.
  { intros x Hx. now apply IBb in Hx. } { intros x Hx. now apply ISb in Hx. }
  cbn [do_pcall]. rewrite E1. cbn [rbind]. unfold clear_cluster. rewrite (lget_in dcluster) by lia. cbn [rbind]. rewrite lset_in by lia. cbn [rbind cluster_clear].
  eexists lat1, _. split; [reflexivity|]. set (p2 := mkPool _ _).
  assert (C2 : forall c, cl p2 c = if c =? b then mkCluster [] [] (-1) (-1) else
       if c =? a then mkCluster (c_sites (cl p a) ++ c_sites (cl p b)) (c_bonds (cl p a) ++ c_bonds (cl p b)) (c_gid (cl p a)) (c_id (cl p a)) else cl p c).
  { intros c. unfold p2. rewrite cl_upd by lia. destruct (Z.eqb_spec c b); [reflexivity|]. apply C1. }
  assert (L2 : zlen (p_list p2) = zlen (p_list p)) by (unfold p2; cbn [p_list]; now rewrite zlen_upd).
  rewrite Ga in *.
  assert (Hsg : forall i, is_site L i -> sg lat1 i = if sg lat i =? b then a else sg lat i).
  { intros i Hi. rewrite D1. destruct (zmem_spec i (c_sites (cl p b))) as [Q|Q].
    - apply ISb in Q as (_ & ->). now rewrite Z.eqb_refl.
    - destruct (Z.eqb_spec (sg lat i) b) as [Q'|Q']; auto. exfalso. apply Q, ISb. auto. }
  assert (Hbg : forall i, is_bond L i -> bg lat1 i = if bg lat i =? b then a else bg lat i).
  { intros i Hi. rewrite B1. destruct (zmem_spec i (c_bonds (cl p b))) as [Q|Q].
    - apply IBb in Q as (_ & ->). now rewrite Z.eqb_refl.
    - destruct (Z.eqb_spec (bg lat i) b) as [Q'|Q']; auto. exfalso. apply Q, IBb. auto. }
  split; [|split; [exact L2|auto]].
  constructor; rewrite ?L2; auto.
  - unfold p2. cbn [p_next]. rewrite X1. apply P.
  - intros c Hc. rewrite C2. destruct (Z.eqb_spec c b); [now right|]. destruct (Z.eqb_spec c a) as [->|]; [left; reflexivity|]. now apply (q_live _ _ _ P).
  - intros i Hi. rewrite Hsg, C2 by auto. destruct (Z.eqb_spec (sg lat i) b) as [Q|Q].
    + right. split; auto. destruct (Z.eqb_spec a b); [contradiction|]. rewrite Z.eqb_refl. reflexivity.
    + destruct (q_slab _ _ _ P i Hi) as [A|(A & B)]; auto. right. split; auto. destruct (Z.eqb_spec (sg lat i) b); [contradiction|].
      destruct (Z.eqb_spec (sg lat i) a) as [Ea|]; auto.
  - intros i Hi. rewrite Hbg, C2 by auto. destruct (Z.eqb_spec (bg lat i) b) as [Q|Q].
    + right. split; auto. destruct (Z.eqb_spec a b); [contradiction|]. rewrite Z.eqb_refl. reflexivity.
    + destruct (q_blab _ _ _ P i Hi) as [A|(A & B)]; auto. right. split; auto. destruct (Z.eqb_spec (bg lat i) b); [contradiction|].
      destruct (Z.eqb_spec (bg lat i) a) as [Ea|]; auto.
  - intros c Hc. rewrite C2. destruct (Z.eqb_spec c b) as [->|Q]; [|destruct (Z.eqb_spec c a) as [->|Q']].
    + cbn [c_sites]. split; [constructor|]. intros i. split; [intros []|]. intros (Hi & Ei). rewrite Hsg in Ei by auto. destruct (Z.eqb_spec (sg lat i) b); congruence.
    + cbn [c_sites]. split.
      * apply NoDup_app_disjoint; auto. intros x X1' X2'. apply ISa in X1' as (_ & ?). apply ISb in X2' as (_ & ?). congruence.
      * intros i. rewrite in_app_iff, ISa, ISb. split.
        -- intros [(Hi & Ei)|(Hi & Ei)]; (split; [exact Hi|]); rewrite Hsg, Ei by auto; [destruct (Z.eqb_spec a b); congruence|now rewrite Z.eqb_refl].
        -- intros (Hi & Ei). rewrite Hsg in Ei by auto. destruct (Z.eqb_spec (sg lat i) b); auto.
    + destruct (q_sites _ _ _ P c Hc) as (N & I). split; auto. intros i. rewrite I. split.
      * intros (Hi & Ei). split; auto. rewrite Hsg, Ei by auto. destruct (Z.eqb_spec c b); congruence.
      * intros (Hi & Ei). split; auto. rewrite Hsg in Ei by auto. destruct (Z.eqb_spec (sg lat i) b); congruence.
  - intros c Hc. rewrite C2. destruct (Z.eqb_spec c b) as [->|Q]; [|destruct (Z.eqb_spec c a) as [->|Q']].
    + cbn [c_bonds]. split; [constructor|]. intros i. split; [intros []|]. intros (Hi & Ei). rewrite Hbg in Ei by auto. destruct (Z.eqb_spec (bg lat i) b); congruence.
    + cbn [c_bonds]. split.
      * apply NoDup_app_disjoint; auto. intros x X1' X2'. apply IBa in X1' as (_ & ?). apply IBb in X2' as (_ & ?). congruence.
      * intros i. rewrite in_app_iff, IBa, IBb. split.
        -- intros [(Hi & Ei)|(Hi & Ei)]; (split; [exact Hi|]); rewrite Hbg, Ei by auto; [destruct (Z.eqb_spec a b); congruence|now rewrite Z.eqb_refl].
        -- intros (Hi & Ei). rewrite Hbg in Ei by auto. destruct (Z.eqb_spec (bg lat i) b); auto.
    + destruct (q_bonds _ _ _ P c Hc) as (N & I). split; auto. intros i. rewrite I. split.
      * intros (Hi & Ei). split; auto. rewrite Hbg, Ei by auto. destruct (Z.eqb_spec c b); congruence.
      * intros (Hi & Ei). split; auto. rewrite Hbg in Ei by auto. destruct (Z.eqb_spec (bg lat i) b); congruence.
Qed.

Lemma pooled_pi L st : pooled L st -> 0 < L -> PI L (fst st) (snd st).
Proof.
  intros H HL. induction H as [lat E|[lat p] c [lat' p'] H IH Hok E]; [now apply pi_new|].
  cbn [fst snd] in *. destruct c as [ss bs|a b].
  - destruct Hok as (N1 & N2 & A & B). pose proof (q_static _ _ _ IH) as St.
    destruct (pi_create L lat p ss bs IH N1 N2) as (l2 & p2 & E2 & P2 & _).
    { intros i Hi. destruct (A i Hi) as (A1 & A2). split; auto. now rewrite (site_gid_sg L) in A2. }
    { intros i Hi. destruct (B i Hi) as (A1 & A2). split; auto. now rewrite (bond_gid_bg L) in A2. }
    cbn [do_pcall] in E. rewrite E2 in E. cbn [rbind] in E. injection E as <- <-. exact P2.
  - destruct Hok as (A & B & N). destruct (pi_join L lat p a b IH A B N) as (l2 & p2 & E2 & P2 & _). rewrite E2 in E. injection E as <- <-. exact P2.
Qed.

(** The state of a pool. *)
Lemma p_pool_state L lat p : 0 < L -> pooled L (lat, p) ->
  (forall i, is_site L i -> site_gid lat i = -1 \/ live p (site_gid lat i)) /\
  (forall b, is_bond L b -> bond_gid lat b = -1 \/ live p (bond_gid lat b)) /\
  (forall c, 0 <= c < zlen (p_list p) ->
     NoDup (sites_in p c) /\ (forall i, In i (sites_in p c) <-> is_site L i /\ site_gid lat i = c) /\
     NoDup (bonds_in p c) /\ (forall b, In b (bonds_in p c) <-> is_bond L b /\ bond_gid lat b = c) /\
     (~ live p c -> sites_in p c = [] /\ bonds_in p c = [])).
Proof.
  intros HL H. pose proof (pooled_pi L _ H HL) as P. cbn [fst snd] in P. pose proof (q_static _ _ _ P) as St. split; [|split].
  - intros i Hi. rewrite (site_gid_sg L), live_iff by auto. apply P; auto.
  - intros i Hi. rewrite (bond_gid_bg L), live_iff by auto. apply P; auto.
  - intros c Hc. rewrite sites_in_cl, bonds_in_cl by auto.
    destruct (q_sites _ _ _ P c Hc) as (N1 & I1). destruct (q_bonds _ _ _ P c Hc) as (N2 & I2).
    split; [exact N1|]. split.
    { intros i. rewrite I1. split; intros (Hi & Ei); (split; [exact Hi|]); [rewrite (site_gid_sg L)|rewrite (site_gid_sg L) in Ei]; auto. }
    split; [exact N2|]. split.
    { intros i. rewrite I2. split; intros (Hi & Ei); (split; [exact Hi|]); [rewrite (bond_gid_bg L)|rewrite (bond_gid_bg L) in Ei]; auto. }
    rewrite live_iff. intros Nl. destruct (q_live _ _ _ P c Hc) as [Q|Q]; [exfalso; apply Nl; auto|]. now rewrite Q.
Qed.

(** The effect of a call. *)
Lemma p_pool_call L lat p c : 0 < L -> pooled L (lat, p) -> pcall_ok L (lat, p) c ->
  exists lat' p', do_pcall (lat, p) c = Ok (lat', p') /\
  match c with
  | PCreate ss bs => let g := zlen (p_list p) in
      zlen (p_list p') = g + 1 /\ live p' g /\ sites_in p' g = ss /\ bonds_in p' g = bs /\
      (forall d, live p' d <-> d = g \/ live p d) /\
      (forall i, is_site L i -> (In i ss -> site_gid lat' i = g) /\ (~ In i ss -> site_gid lat' i = site_gid lat i)) /\
      (forall b, is_bond L b -> (In b bs -> bond_gid lat' b = g) /\ (~ In b bs -> bond_gid lat' b = bond_gid lat b))
  | PJoin a b =>
      zlen (p_list p') = zlen (p_list p) /\ (forall d, live p' d <-> d <> b /\ live p d) /\
      sites_in p' a = sites_in p a ++ sites_in p b /\ bonds_in p' a = bonds_in p a ++ bonds_in p b /\
      (forall i, is_site L i -> site_gid lat' i = if site_gid lat i =? b then a else site_gid lat i) /\
      (forall x, is_bond L x -> bond_gid lat' x = if bond_gid lat x =? b then a else bond_gid lat x)
  end.
Proof.
  intros HL H Hok. pose proof (pooled_pi L _ H HL) as P. cbn [fst snd] in P. pose proof (q_static _ _ _ P) as St. destruct c as [ss bs|a b].
  - destruct Hok as (N1 & N2 & A & B).
    destruct (pi_create L lat p ss bs P N1 N2) as (l2 & p2 & E2 & P2 & L2 & Hs & Hb & Hc).
    { intros i Hi. destruct (A i Hi) as (A1 & A2). split; auto. now rewrite (site_gid_sg L) in A2. }
    { intros i Hi. destruct (B i Hi) as (A1 & A2). split; auto. now rewrite (bond_gid_bg L) in A2. }
    exists l2, p2. cbn [do_pcall]. rewrite E2. split; [reflexivity|]. cbv zeta. set (g := zlen (p_list p)) in *.
    pose proof (q_static _ _ _ P2) as S2. pose proof (zlen_nonneg (p_list p)) as Hg. fold g in Hg.
    split; [exact L2|]. split; [rewrite live_iff, L2, Hc, Z.eqb_refl; cbn; lia|].
    split; [rewrite sites_in_cl, Hc, Z.eqb_refl by lia; reflexivity|]. split; [rewrite bonds_in_cl, Hc, Z.eqb_refl by lia; reflexivity|]. split; [|split].
    + intros d. rewrite !live_iff, L2, Hc. fold g. destruct (Z.eqb_spec d g) as [->|Q]; [cbn; split; auto; lia|]. split; [intros (X & Y); right; split; auto; lia|]. intros [|(X & Y)]; [contradiction|]. split; auto. lia.
    + intros i Hi. rewrite !(site_gid_sg L) by auto. rewrite Hs. destruct (zmem_spec i ss); split; intros; auto; contradiction.
    + intros i Hi. rewrite !(bond_gid_bg L) by auto. rewrite Hb. destruct (zmem_spec i bs); split; intros; auto; contradiction.
  - destruct Hok as (A & B & N). destruct (pi_join L lat p a b P A B N) as (l2 & p2 & E2 & P2 & L2 & Hs & Hb & Hc).
    exists l2, p2. split; [exact E2|]. pose proof (q_static _ _ _ P2) as S2. pose proof (proj1 (proj1 (live_iff p a) A)) as Ha. pose proof (proj1 (proj1 (live_iff p b) B)) as Hbb.
    split; [exact L2|]. split; [|split; [|split; [|split]]].
    + intros d. rewrite !live_iff, L2, Hc. destruct (Z.eqb_spec d b) as [->|Q]; [cbn; split; [lia|tauto]|]. destruct (Z.eqb_spec d a) as [->|Q']; [cbn|]; tauto.
    + rewrite !sites_in_cl, Hc, Z.eqb_refl by lia. destruct (Z.eqb_spec a b); [contradiction|reflexivity].
    + rewrite !bonds_in_cl, Hc, Z.eqb_refl by lia. destruct (Z.eqb_spec a b); [contradiction|reflexivity].
    + intros i Hi. rewrite !(site_gid_sg L) by auto. auto.
    + intros i Hi. rewrite !(bond_gid_bg L) by auto. auto.
Qed.

(** Other uses of the pool. *)
Lemma cl_mk l n c : cl (mkPool l n) c = at_ dcluster l c.
Proof. reflexivity. Qed.
Lemma p_pool_misuse L lat p : 0 < L -> pooled L (lat, p) ->
  (forall a, live p a -> exists p' lat', merge_cluster_with p a a lat = Ok (p', lat') /\
     sites_in p' a = sites_in p a ++ sites_in p a /\ bonds_in p' a = bonds_in p a ++ bonds_in p a) /\
  (forall a b, live p a -> live p b -> a <> b -> exists p' lat', merge_cluster_with p a b lat = Ok (p', lat') /\
     sites_in p' a = sites_in p a ++ sites_in p b /\ bonds_in p' a = bonds_in p a ++ bonds_in p b /\
     sites_in p' b = sites_in p b /\ bonds_in p' b = bonds_in p b) /\
  (forall a b, 0 <= a < zlen (p_list p) -> ~ live p a -> live p b -> exists p' lat', merge_cluster_with p a b lat = Ok (p', lat') /\
     bonds_in p' a = bonds_in p b /\ (forall i, In i (sites_in p b) -> site_gid lat' i = -1) /\ (forall x, In x (bonds_in p b) -> bond_gid lat' x = -1)).
Proof.
  intros HL H. pose proof (pooled_pi L _ H HL) as P. cbn [fst snd] in P. pose proof (q_static _ _ _ P) as St. split; [|split].
  - intros a (Ha & Ga)%live_iff. destruct (q_sites _ _ _ P a Ha) as (NS & IS). destruct (q_bonds _ _ _ P a Ha) as (NB & IB).
    unfold merge_cluster_with. rewrite (lget_in dcluster) by lia. cbn [rbind]. fold (cl p a). rewrite Ga.
    destruct (set_bond_gids_ok L lat (c_bonds (cl p a)) a St) as (lat1 & E1 & S1 & Es1 & Hb1); [intros x Hx; now apply IB in Hx|].
    rewrite E1. cbn [rbind].
    destruct (update_sites_ok L lat1 (c_sites (cl p a)) (fun lat ss => set_site_gid_by_id lat ss a) (fun s => site_set_gid s a) S1 NS) as (lat2 & E2 & S2 & Eb2 & Hs2).
    { intros x Hx. now apply IS in Hx. } { intros s. repeat split. } { intros lt i Slt Hi. now apply (set_site_gid_ok L). }
    rewrite E2. cbn [rbind]. rewrite lset_in by lia. cbn [rbind].
    rewrite !(lget_in dcluster) by (rewrite zlen_upd; lia). cbn [rbind].
    rewrite lset_in by (rewrite zlen_upd; lia). cbn [rbind]. rewrite !at_upd by lia. rewrite Z.eqb_refl. cbn [c_sites c_bonds c_gid c_id].
    eexists _, lat2. split; [reflexivity|].
    rewrite !(sites_in_cl p), !(bonds_in_cl p) by auto. rewrite sites_in_cl, bonds_in_cl by (cbn [p_list]; rewrite !zlen_upd; auto).
    rewrite !cl_mk, !at_upd by (rewrite ?zlen_upd; lia). rewrite Z.eqb_refl. auto.
  - intros a b (Ha & Ga)%live_iff (Hb & Gb)%live_iff Hab. destruct (q_sites _ _ _ P b Hb) as (NS & IS). destruct (q_bonds _ _ _ P b Hb) as (NB & IB).
    destruct (merge_any L p a b lat St Ha Hb Hab) as (p1 & lat1 & E1 & S1 & L1 & X1 & C1 & B1 & D1); auto.
    { intros x Hx. now apply IB in Hx. } { intros x Hx. now apply IS in Hx. }
    exists p1, lat1. split; auto. rewrite !(sites_in_cl p), !(bonds_in_cl p), !sites_in_cl, !bonds_in_cl, !C1, Z.eqb_refl by (rewrite ?L1; auto).
    destruct (Z.eqb_spec b a); [congruence|]. auto.
  - intros a b Ha Na Lb. assert (Hab : a <> b) by congruence. apply live_iff in Lb as (Hb & Gb). destruct (q_sites _ _ _ P b Hb) as (NS & IS). destruct (q_bonds _ _ _ P b Hb) as (NB & IB).
    destruct (merge_any L p a b lat St Ha Hb Hab) as (p1 & lat1 & E1 & S1 & L1 & X1 & C1 & B1 & D1); auto.
    { intros x Hx. now apply IB in Hx. } { intros x Hx. now apply IS in Hx. }
    rewrite live_iff in Na. destruct (q_live _ _ _ P a Ha) as [Q|Q]; [exfalso; auto|]. rewrite Q in *. cbn [c_gid c_sites c_bonds c_id app] in *.
    exists p1, lat1. split; auto. rewrite (sites_in_cl p), !(bonds_in_cl p), bonds_in_cl, C1, Z.eqb_refl by (rewrite ?L1; auto). split; [reflexivity|]. split.
    + intros i Hi. rewrite (site_gid_sg L) by (auto; now apply IS in Hi). rewrite D1. apply zmem_In in Hi. now rewrite Hi.
    + intros i Hi. rewrite (bond_gid_bg L) by (auto; now apply IB in Hi). rewrite B1. apply zmem_In in Hi. now rewrite Hi.
Qed.

(** ** Looking clusters up and adding to them *)
Lemma p_pool_lookup p id : let n := zlen (p_list p) in
  (n <= id -> get_cluster p id = Ok None) /\
  (id < - n -> get_cluster p id = Err IndexError) /\
  (- n <= id < 0 -> get_cluster p id = get_cluster p (id + n)) /\
  (- n <= id < n -> exists c, get_cluster p id = Ok (Some c) /\
     pool_get_sites p id = Ok (c_sites c) /\ pool_get_bonds p id = Ok (c_bonds c) /\
     get_cluster_site_count p id = Ok (zlen (c_sites c)) /\ get_cluster_bond_count p id = Ok (zlen (c_bonds c))).
Proof.
  intros n. unfold get_cluster. fold n. assert (Hn : 0 <= n) by (unfold n, zlen; lia).
  assert (Neg : forall j, - n <= j < 0 -> lget (p_list p) j = lget (p_list p) (j + n)).
  { intros j Hj. unfold lget. fold n. rewrite (py_pos_in n (j + n)) by lia. unfold py_pos. destruct (Z.leb_spec 0 j); [lia|]. destruct (Z.leb_spec (- n) j); [|lia]. destruct (Z.ltb_spec j 0); [|lia].
    cbn [andb]. now rewrite Z.add_comm. }
  split; [|split; [|split]].
  - intros H. destruct (Z.leb_spec n id); [reflexivity|lia].
  - intros H. destruct (Z.leb_spec n id); [lia|]. unfold lget, py_pos. fold n. destruct (Z.leb_spec 0 id); [lia|]. destruct (Z.leb_spec (- n) id); [lia|]. reflexivity.
  - intros H. destruct (Z.leb_spec n id); [lia|]. destruct (Z.leb_spec n (id + n)); [lia|]. now rewrite Neg.
  - intros H. assert (G : exists c, lget (p_list p) id = Ok c).
    { destruct (Z.lt_ge_cases id 0) as [H0|H0]; [rewrite Neg by lia|]; rewrite (lget_in dcluster) by (fold n; lia); eauto. }
    destruct G as (c & G). exists c. unfold pool_get_sites, pool_get_bonds, get_cluster_site_count, get_cluster_bond_count. rewrite G. cbn [rbind].
    destruct (Z.leb_spec n id); [lia|]. auto.
Qed.
Lemma p_pool_add p idx l : let n := zlen (p_list p) in 0 <= idx < n ->
  (exists p', pool_add_sites p idx l = Ok p' /\ zlen (p_list p') = n /\
     sites_in p' idx = sites_in p idx ++ l /\ bonds_in p' idx = bonds_in p idx /\
     forall c, 0 <= c < n -> c <> idx -> sites_in p' c = sites_in p c /\ bonds_in p' c = bonds_in p c) /\
  (exists p', pool_add_bonds p idx l = Ok p' /\ zlen (p_list p') = n /\
     bonds_in p' idx = bonds_in p idx ++ l /\ sites_in p' idx = sites_in p idx /\
     forall c, 0 <= c < n -> c <> idx -> sites_in p' c = sites_in p c /\ bonds_in p' c = bonds_in p c).
Proof.
  intros n H. unfold pool_add_sites, pool_add_bonds. rewrite (lget_in dcluster) by auto. cbn [rbind]. rewrite !lset_in by auto. cbn [rbind].
  split; (eexists; split; [reflexivity|]; cbn [p_list]; rewrite zlen_upd; split; [reflexivity|]);
  (rewrite !sites_in_cl, !bonds_in_cl by (cbn [p_list]; rewrite ?zlen_upd; auto)); rewrite !cl_mk, !at_upd by auto; rewrite Z.eqb_refl;
  (split; [reflexivity|]; split; [reflexivity|]); intros c Hc Hn;
  (rewrite !sites_in_cl, !bonds_in_cl by (cbn [p_list]; rewrite ?zlen_upd; auto)); rewrite !cl_mk, !at_upd by auto;
  (destruct (Z.eqb_spec c idx); [congruence|]); auto.
Qed.

(** ** A concrete pool: three clusters on the 3x3 lattice, the second absorbed by the first. *)
Definition pd_get (r : res (lattice * cpool)) := match r with Ok st => st | Err _ => (mkLattice 0 0 0 [] [], empty_pool) end.
Definition pd0 := Eval vm_compute in pd_get (l <- new_lattice 3 ;; Ok (l, empty_pool)).
Definition pd1 := Eval vm_compute in pd_get (do_pcall pd0 (PCreate [0; 1] [0; 3])).
Definition pd2 := Eval vm_compute in pd_get (do_pcall pd1 (PCreate [4] [7; 8])).
Definition pd3 := Eval vm_compute in pd_get (do_pcall pd2 (PCreate [] [10])).
Definition pd4 := Eval vm_compute in pd_get (do_pcall pd3 (PJoin 0 1)).
Lemma pool_demo : exists lat p, pooled 3 (lat, p) /\ live p 0 /\ ~ live p 1 /\ live p 2 /\
  sites_in p 0 = [0; 1; 4] /\ bonds_in p 0 = [0; 3; 7; 8] /\ bonds_in p 2 = [10] /\ site_gid lat 4 = 0 /\ bond_gid lat 10 = 2.
Proof.
  assert (H0 : pooled 3 pd0) by (apply pooled_new; vm_compute; reflexivity).
  assert (F : forall (P : Z -> Prop) l, Forall P l -> forall x, In x l -> P x) by (intros P l; rewrite Forall_forall; auto).
  assert (LV : forall p c, 0 <= c < zlen (p_list p) -> (match lget (p_list p) c with Ok k => c_gid k | Err _ => c + 1 end) = c -> live p c).
  { intros p c Hc Q. split; auto. destruct (lget (p_list p) c) as [k|] eqn:Ek; [eauto|lia]. }
  assert (H1 : pooled 3 pd1).
  { refine (pooled_call 3 pd0 (PCreate [0; 1] [0; 3]) pd1 H0 _ ltac:(vm_compute; reflexivity)).
    split; [repeat constructor; cbn; intuition lia|]. split; [repeat constructor; cbn; intuition lia|].
    split; apply F; repeat constructor; try (vm_compute; reflexivity); unfold is_site, is_bond; lia. }
  assert (H2 : pooled 3 pd2).
  { refine (pooled_call 3 pd1 (PCreate [4] [7; 8]) pd2 H1 _ ltac:(vm_compute; reflexivity)).
    split; [repeat constructor; cbn; intuition lia|]. split; [repeat constructor; cbn; intuition lia|].
    split; apply F; repeat constructor; try (vm_compute; reflexivity); unfold is_site, is_bond; lia. }
  assert (H3 : pooled 3 pd3).
  { refine (pooled_call 3 pd2 (PCreate [] [10]) pd3 H2 _ ltac:(vm_compute; reflexivity)).
    split; [repeat constructor; cbn; intuition lia|]. split; [repeat constructor; cbn; intuition lia|].
    split; apply F; repeat constructor; try (vm_compute; reflexivity); unfold is_site, is_bond; lia. }
  assert (H4 : pooled 3 pd4).
  { refine (pooled_call 3 pd3 (PJoin 0 1) pd4 H3 _ ltac:(vm_compute; reflexivity)).
    split; [|split]; [| |lia]; apply LV; vm_compute; auto; split; congruence. }
  exists (fst pd4), (snd pd4). split; [exact H4|].
  split; [apply LV; vm_compute; auto; split; congruence|]. split.
  { intros (_ & k & Ek & Gk). revert Ek Gk. vm_compute. intros [= <-]. discriminate. }
  split; [apply LV; vm_compute; auto; split; congruence|]. repeat split; vm_compute; reflexivity.
Qed.
