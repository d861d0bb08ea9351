(** * ViewProps: what the printing methods show (C70, C71). *)
From Coq Require Import String Ascii DecimalString DecimalFacts ZArith List Bool Sorting.Sorted Lia.
From Verif Require Import Py Lattice Cluster Perc Run Spec PyFacts Torus Geometry LatFacts Inv Merge Count Fresh Select State Step History Reach Micro StateProps StateProps2 EnsSpec UtilSpec Util View LatSpec ViewSpec SelfTest.
Import ListNotations.
Open Scope Z_scope.

(** ** Lines *)
Definition nonl (s : string) : Prop := has "010"%char s = false.
Lemma has_app c a b : has c (a ++ b)%string = has c a || has c b.
Proof. induction a as [|x a IH]; cbn [has append]; [reflexivity|]. rewrite IH. now rewrite orb_assoc. Qed.
Lemma nonl_app a b : nonl a -> nonl b -> nonl (a ++ b)%string.
Proof. unfold nonl. intros Ha Hb. now rewrite has_app, Ha, Hb. Qed.
Lemma nonl_chars n c : Ascii.eqb c "010"%char = false -> nonl (chars n c).
Proof. intros H. unfold nonl. induction n; cbn [chars has]; [reflexivity|]. now rewrite H, IHn. Qed.
Lemma uint_nonl d : nonl (NilEmpty.string_of_uint d).
Proof. unfold nonl. induction d; cbn; auto. Qed.
Lemma nonl_int n : nonl (str_int n).
Proof.
  unfold str_int, NilZero.string_of_int. destruct (Z.to_int n) as [d|d]; destruct d; try reflexivity; apply uint_nonl.
Qed.
Lemma app_nil_s a : (a ++ EmptyString)%string = a.
Proof. induction a as [|x a IH]; cbn [append]; [reflexivity|now rewrite IH]. Qed.
Lemma join_nonl sep l : nonl sep -> (forall x, In x l -> nonl x) -> nonl (join sep l).
Proof.
  intros Hs. induction l as [|x l IH]; intros H; [reflexivity|]. cbn [join]. destruct l as [|y l].
  - apply H. now left.
  - apply nonl_app; [apply H; now left|]. apply nonl_app; [exact Hs|]. apply IH. intros z Hz. apply H. now right.
Qed.
Lemma concat_cons x l : concat_s (x :: l) = (x ++ concat_s l)%string.
Proof. unfold concat_s. cbn [join]. destruct l; [cbn [join]; now rewrite app_nil_s|reflexivity]. Qed.
Lemma concat_app a b : concat_s (a ++ b) = (concat_s a ++ concat_s b)%string.
Proof. induction a as [|x a IH]; [reflexivity|]. cbn [app]. rewrite !concat_cons, IH. now rewrite app_assoc_s. Qed.

Definition text_of (ls : list string) : string := concat_s (map (fun l => (l ++ nl)%string) ls).
Lemma text_cons l ls : text_of (l :: ls) = (l ++ nl ++ text_of ls)%string.
Proof. unfold text_of. cbn [map]. now rewrite concat_cons, app_assoc_s. Qed.
Lemma text_app a b : text_of (a ++ b) = (text_of a ++ text_of b)%string.
Proof. unfold text_of. now rewrite map_app, concat_app. Qed.
Lemma text_flat {A} (f : A -> list string) l : concat_s (map (fun x => text_of (f x)) l) = text_of (flat_map f l).
Proof. induction l as [|x l IH]; [reflexivity|]. cbn [map flat_map]. now rewrite concat_cons, text_app, IH. Qed.
Lemma lines_from_nl l : forall cur s, nonl l -> lines_from cur (l ++ nl ++ s)%string = (cur ++ l)%string :: lines_from EmptyString s.
Proof.
  induction l as [|c l IH]; intros cur s H.
  - cbn. now rewrite app_nil_s.
  - unfold nonl in H. cbn [has] in H. apply orb_false_iff in H as (H1 & H2). cbn [append lines_from]. rewrite H1. rewrite IH by exact H2.
    now rewrite app_assoc_s.
Qed.
Lemma lines_text ls : Forall nonl ls -> lines (text_of ls) = ls ++ [EmptyString].
Proof.
  unfold lines. induction ls as [|l ls IH]; intros H; [reflexivity|]. apply Forall_cons_iff in H as (H1 & H2).
  rewrite text_cons, lines_from_nl by auto. cbn [append app]. now rewrite IH.
Qed.
Lemma line_text ls n : Forall nonl ls -> line (text_of ls) n = nth n ls EmptyString.
Proof.
  intros H. unfold line. rewrite lines_text by auto. destruct (Nat.lt_ge_cases n (length ls)).
  - now apply app_nth1.
  - rewrite (nth_overflow ls) by lia. rewrite app_nth2 by lia. destruct (n - length ls)%nat as [|[|k]]; reflexivity.
Qed.

(** ** Integers *)
Definition stop (s : string) : Prop := match s with EmptyString => True | String c _ => numeric c = false end.
Lemma runs_num a : forall cur s, (forall c, has c a = true -> numeric c = true) -> runs cur (a ++ s)%string = runs (cur ++ a)%string s.
Proof.
  induction a as [|c a IH]; intros cur s H; [now rewrite app_nil_s|].
  cbn [append runs]. rewrite H by (cbn [has]; now rewrite Ascii.eqb_refl). rewrite IH.
  - now rewrite app_assoc_s.
  - intros d Hd. apply H. cbn [has]. now rewrite Hd, orb_true_r.
Qed.
Lemma uint_numeric d c : has c (NilEmpty.string_of_uint d) = true -> numeric c = true.
Proof.
  induction d; cbn [NilEmpty.string_of_uint has]; try discriminate; intros H; apply orb_true_iff in H as [H|H]; auto;
    apply Ascii.eqb_eq in H; subst c; reflexivity.
Qed.
Lemma int_numeric n c : has c (str_int n) = true -> numeric c = true.
Proof.
  unfold str_int, NilZero.string_of_int, NilZero.string_of_uint. destruct (Z.to_int n) as [d|d].
  - destruct d; try apply uint_numeric. cbn [has]. intros H. apply orb_true_iff in H as [H|H]; [|discriminate]. apply Ascii.eqb_eq in H. now subst c.
  - cbn [has]. intros H. apply orb_true_iff in H as [H|H]; [apply Ascii.eqb_eq in H; now subst c|].
    destruct d; try (revert H; apply uint_numeric). cbn [has] in H. apply orb_true_iff in H as [H|H]; [|discriminate]. apply Ascii.eqb_eq in H. now subst c.
Qed.
Lemma read_str n : read_int (str_int n) = [n].
Proof.
  unfold read_int. assert (G : NilZero.int_of_string (str_int n) = Some (Z.to_int n)).
  { unfold str_int. apply NilZero.isi; destruct n as [|p|p]; cbn; try discriminate; intros X; injection X as X;
      now apply DecimalPos.Unsigned.to_uint_nonnil in X. }
  rewrite G, DecimalZ.of_to. destruct (String.eqb_spec (str_int n) EmptyString) as [E|]; [|reflexivity].
  rewrite E in G. discriminate G.
Qed.
Lemma runs_stop cur s : stop s -> flat_map read_int (runs cur s) = read_int cur ++ ints s.
Proof.
  intros H. destruct s as [|c s]; cbn [stop runs] in *.
  - unfold ints. cbn. now rewrite app_nil_r.
  - unfold ints. cbn [runs]. rewrite H. reflexivity.
Qed.
Lemma ints_num n s : stop s -> ints (str_int n ++ s)%string = n :: ints s.
Proof.
  intros H. unfold ints at 1. rewrite runs_num by apply int_numeric. cbn [append]. rewrite runs_stop by auto. now rewrite read_str.
Qed.
Lemma ints_char c s : numeric c = false -> ints (String c s) = ints s.
Proof. intros H. unfold ints. cbn [runs]. now rewrite H. Qed.
Lemma ints_spaces n s : ints (spaces n ++ s)%string = ints s.
Proof. unfold spaces. induction n; cbn [chars append]; [reflexivity|]. now rewrite ints_char. Qed.
Lemma stop_spaces n s : stop s -> stop (spaces n ++ s)%string.
Proof. destruct n; cbn; auto. Qed.
Lemma ints_pad_left w n s : stop s -> ints (pad_left w (str_int n) ++ s)%string = n :: ints s.
Proof. intros H. unfold pad_left. rewrite app_assoc_s, ints_spaces. now apply ints_num. Qed.
Lemma ints_center w n s : stop s -> ints (center w (str_int n) ++ s)%string = n :: ints s.
Proof. intros H. unfold center. rewrite !app_assoc_s, ints_spaces, ints_num, ints_spaces; auto. now apply stop_spaces. Qed.
Ltac ints_step := first
  [ rewrite ints_char by reflexivity
  | rewrite ints_spaces
  | rewrite ints_num by (first [reflexivity | apply stop_spaces; reflexivity | exact I])
  | rewrite ints_pad_left by (first [reflexivity | apply stop_spaces; reflexivity | exact I])
  | rewrite ints_center by (first [reflexivity | apply stop_spaces; reflexivity | exact I]) ].
Lemma join_cons sep x y l : join sep (x :: y :: l) = (x ++ sep ++ join sep (y :: l))%string.
Proof. reflexivity. Qed.
Lemma ints_list l s : stop s -> ints (str_list l ++ s)%string = l ++ ints s.
Proof.
  intros Hs. unfold str_list. rewrite !app_assoc_s. cbn [append]. rewrite ints_char by reflexivity.
  induction l as [|x l IH]; [cbn [map join append]; now rewrite ints_char|].
  destruct l as [|y l].
  - cbn [map join app]. rewrite ints_num by reflexivity. cbn [append]. now rewrite ints_char.
  - change (map str_int (x :: y :: l)) with (str_int x :: str_int y :: map str_int l).
    rewrite join_cons, !app_assoc_s. cbn [append]. rewrite ints_num by reflexivity. rewrite !ints_char by reflexivity.
    cbn [app]. f_equal. exact IH.
Qed.
(** Cells that end in a character which is not part of a number. *)
Lemma ints_concat {A} (f : A -> string) (g : A -> list Z) l s :
  (forall x t, In x l -> ints (f x ++ t)%string = g x ++ ints t) ->
  ints (concat_s (map f l) ++ s)%string = flat_map g l ++ ints s.
Proof.
  intros H. induction l as [|x l IH]; [reflexivity|]. cbn [map flat_map]. rewrite concat_cons, app_assoc_s, H by now left.
  rewrite IH by (intros; apply H; now right). now rewrite app_assoc.
Qed.
Lemma ints_strings {A} (f : A -> string) (g : A -> list Z) l s :
  (forall x t, In x l -> stop t -> ints (f x ++ t)%string = g x ++ ints t) -> stop s ->
  ints (str_strings (map f l) ++ s)%string = flat_map g l ++ ints s.
Proof.
  intros H Hs. unfold str_strings. rewrite !app_assoc_s. cbn [append]. rewrite ints_char by reflexivity.
  induction l as [|x l IH]; [cbn [map join append flat_map]; now rewrite ints_char|].
  destruct l as [|y l].
  - cbn [map join flat_map append]. rewrite !app_assoc_s. cbn [append]. rewrite ints_char, H by (first [reflexivity|now left]).
    rewrite !ints_char by reflexivity. now rewrite app_nil_r.
  - cbn [map]. rewrite join_cons. cbn [append]. rewrite !app_assoc_s. cbn [append]. rewrite ints_char, H by (first [reflexivity|now left]).
    rewrite !ints_char by reflexivity. cbn [flat_map]. rewrite <- app_assoc. f_equal.
    apply IH. intros z t Hz. apply H. now right.
Qed.
Definition site_nums (t : site) (f : Z) : list Z :=
  if f =? 1 then [s_gid t; s_id t] else if f =? 2 then [s_id t; fst (s_index t); snd (s_index t)] else [fst (s_index t); snd (s_index t)].
Definition bond_nums (b : bond) (f : Z) : list Z :=
  if f =? 1 then [b_gid b; b_id b] else if f =? 2 then [b_id b; b_row b; b_col b] else [b_row b; b_col b].
Lemma ints_site t f s : ints (site_str t f ++ s)%string = site_nums t f ++ ints s.
Proof.
  unfold site_str, site_nums. destruct (f =? 1); [|destruct (f =? 2)]; rewrite ?app_assoc_s; cbn [append]; repeat ints_step; reflexivity.
Qed.
Lemma ints_bond b f s : ints (bond_str b f ++ s)%string = bond_nums b f ++ ints s.
Proof.
  unfold bond_str, bond_nums. destruct (f =? 1); [|destruct (f =? 2)]; rewrite ?app_assoc_s; cbn [append]; repeat ints_step; try reflexivity.
  destruct (b_type b =? 0); cbn [append]; repeat ints_step; reflexivity.
Qed.
Lemma flat_single {A B} (f : A -> B) l : flat_map (fun x => [f x]) l = map f l.
Proof. induction l as [|x l IH]; cbn; congruence. Qed.

(** ** The lattice *)
Section Views.
Variables (L : Z) (lat : lattice).
Hypothesis St : Static L lat.
Let HL : 0 < L := st_pos _ _ St.
Let sep (n : nat) := concat_s (map (fun _ : Z => chars n "-"%char) (zrange L)).

Lemma concat_nonl l : (forall x, In x l -> nonl x) -> nonl (concat_s l).
Proof. apply join_nonl. reflexivity. Qed.
Lemma sep_nonl n : nonl (sep n).
Proof. apply concat_nonl. intros x Hx. apply in_map_iff in Hx as (? & <- & _). now apply nonl_chars. Qed.
Lemma sep_line n : print_row_separator lat n = (sep n ++ nl)%string.
Proof. unfold print_row_separator. now rewrite (st_len _ _ St). Qed.
Lemma rc_is_site r c : 0 <= r < L -> 0 <= c < L -> is_site L (r * L + c).
Proof. unfold is_site. nia. Qed.
Lemma pad_nonl w s : nonl s -> nonl (pad_left w s).
Proof. intros H. apply nonl_app; auto. now apply nonl_chars. Qed.
Lemma padr_nonl w s : nonl s -> nonl (pad_right w s).
Proof. intros H. apply nonl_app; auto. now apply nonl_chars. Qed.
Lemma center_nonl w s : nonl s -> nonl (center w s).
Proof. intros H. apply nonl_app; [now apply nonl_chars|]. apply nonl_app; auto. now apply nonl_chars. Qed.
Lemma rel_nonl i : nonl (str_rel i).
Proof. unfold str_rel. repeat (apply nonl_app; [first [reflexivity | apply pad_nonl, nonl_int]|]). reflexivity. Qed.
Lemma index_nonl i : nonl (str_index i).
Proof. unfold str_index. repeat (apply nonl_app; [first [reflexivity | apply pad_nonl, nonl_int]|]). reflexivity. Qed.
Lemma list_nonl l : nonl (str_list l).
Proof.
  unfold str_list. apply nonl_app; [reflexivity|]. apply nonl_app; [|reflexivity]. apply join_nonl; [reflexivity|].
  intros x Hx. apply in_map_iff in Hx as (? & <- & _). apply nonl_int.
Qed.
Lemma nth_rows {A} (f : Z -> A) d r pre post : 0 <= r < L -> nth (length pre + Z.to_nat r) (pre ++ map f (zrange L) ++ post) d = f r.
Proof.
  intros Hr. rewrite app_nth2 by lia. replace (length pre + Z.to_nat r - length pre)%nat with (Z.to_nat r) by lia.
  rewrite app_nth1 by (rewrite map_length, zrange_length; lia). rewrite (nth_indep _ d (f 0)) by (rewrite map_length, zrange_length; lia).
  rewrite map_nth. f_equal. pose proof (at_zrange 0 L r Hr) as E. unfold at_ in E. now destruct (Z.leb_spec 0 r); [|lia].
Qed.

Lemma gids_spec : exists text, view_site_gids lat = Ok text /\
  length (lines text) = (13 + Z.to_nat L)%nat /\
  forall r, 0 <= r < L -> ints (line text (10 + Z.to_nat r)) = r :: map (fun c => sg lat (r * L + c)) (zrange L).
Proof.
  set (cell := fun r c => (pad_left 3 (str_int (sg lat (r * L + c))) ++ "|")%string).
  set (rowl := fun r => (pad_left 3 (str_int r) ++ " |" ++ concat_s (map (cell r) (zrange L)))%string).
  set (hdr := (pad_left 5 "|" ++ concat_s (map (fun cc => pad_right 3 (str_int cc) ++ pad_left 1 "|") (zrange L)))%string).
  set (pre := ["Upper Left corner is <0,0>"; "<x,y> means relative index"; "90 degree Clockwise rotated Coordinate system";
     "y value increases as we go rightward. Like columns"; "x value increases as we go downward . Like rows";
     "Format 'gid<x,y>'"; "<--Relative index - VIEW BEGIN-->"; sep 5; hdr; sep 5]%string).
  set (post := [sep 5; "<--Relative index - VIEW END-->"]%string).
  assert (E : view_site_gids lat = Ok (text_of (pre ++ map rowl (zrange L) ++ post))).
  { unfold view_site_gids. rewrite (st_len _ _ St). rewrite (mapM_total _ (fun r => text_of [rowl r])).
    - cbn [rbind]. f_equal. rewrite !sep_line, (text_flat (fun r => [rowl r])).
      rewrite flat_single.
      rewrite !text_app. unfold pre, post. rewrite !text_cons. unfold view_header, hdr. rewrite !app_assoc_s. reflexivity.
    - intros r Hr. apply In_zrange in Hr. rewrite (mapM_total _ (cell r)).
      + cbn [rbind]. unfold rowl. rewrite text_cons. rewrite !app_assoc_s. change (text_of []) with EmptyString. now rewrite app_nil_s.
      + intros c Hc. apply In_zrange in Hc. rewrite (get_site L) by (auto; now apply rc_is_site). reflexivity. }
  assert (N : Forall nonl (pre ++ map rowl (zrange L) ++ post)).
  { apply Forall_forall. intros x Hx. apply in_app_iff in Hx as [Hx|Hx]; [|apply in_app_iff in Hx as [Hx|Hx]].
    - assert (Hh : nonl hdr).
      { apply nonl_app; [reflexivity|]. apply concat_nonl. intros y Hy. apply in_map_iff in Hy as (c & <- & _).
        apply nonl_app; [apply padr_nonl, nonl_int|reflexivity]. }
      unfold pre in Hx. repeat (destruct Hx as [<-|Hx]; [first [apply sep_nonl | exact Hh | reflexivity]|]). destruct Hx.
    - apply in_map_iff in Hx as (r & <- & _). apply nonl_app; [apply pad_nonl, nonl_int|]. apply nonl_app; [reflexivity|].
      apply concat_nonl. intros y Hy. apply in_map_iff in Hy as (c & <- & _). apply nonl_app; [apply pad_nonl, nonl_int|reflexivity].
    - unfold post in Hx. destruct Hx as [<-|[<-|[]]]; [apply sep_nonl|reflexivity]. }
  eexists. split; [exact E|]. split.
  - rewrite lines_text by exact N. rewrite !app_length, map_length, zrange_length. cbn. lia.
  - intros r Hr. rewrite line_text by exact N. change (10 + Z.to_nat r)%nat with (length pre + Z.to_nat r)%nat. rewrite nth_rows by auto.
    unfold rowl. rewrite ints_pad_left by reflexivity. cbn [append]. rewrite !ints_char by reflexivity. f_equal.
    rewrite <- (app_nil_s (concat_s _)). rewrite (ints_concat (cell r) (fun c => [sg lat (r * L + c)])).
    + change (ints EmptyString) with (@nil Z). now rewrite app_nil_r, flat_single.
    + intros c t _. unfold cell. rewrite app_assoc_s. rewrite ints_pad_left by reflexivity. cbn [append]. now rewrite ints_char.
Qed.

Lemma rel_spec : exists text, view_relative_index lat = Ok text /\
  length (lines text) = (13 + Z.to_nat L)%nat /\
  forall r, 0 <= r < L -> ints (line text (10 + Z.to_nat r)) =
    r :: flat_map (fun c => let i := r * L + c in [sg lat i; fst (rl lat i); snd (rl lat i)]) (zrange L).
Proof.
  set (cell := fun r c => (pad_left 2 (str_int (sg lat (r * L + c))) ++ " " ++ str_rel (rl lat (r * L + c)) ++ "|")%string).
  set (rowl := fun r => (pad_left 3 (str_int r) ++ " |" ++ concat_s (map (cell r) (zrange L)))%string).
  set (hdr := (pad_left 5 "|" ++ concat_s (map (fun cc => pad_right 6 (str_int cc) ++ pad_left 7 "|") (zrange L)))%string).
  set (pre := ["Upper Left corner is <0,0>"; "<x,y> means relative index"; "90 degree Clockwise rotated Coordinate system";
     "y value increases as we go rightward. Like columns"; "x value increases as we go downward . Like rows";
     "Format 'gid<x,y>'"; "<--Relative index - VIEW BEGIN-->"; sep 14; hdr; sep 14]%string).
  set (post := [sep 14; "<--Relative index - VIEW END-->"]%string).
  assert (E : view_relative_index lat = Ok (text_of (pre ++ map rowl (zrange L) ++ post))).
  { unfold view_relative_index. rewrite (st_len _ _ St). rewrite (mapM_total _ (fun r => text_of [rowl r])).
    - cbn [rbind]. f_equal. rewrite !sep_line, (text_flat (fun r => [rowl r])).
      rewrite flat_single.
      rewrite !text_app. unfold pre, post. rewrite !text_cons. unfold view_header, hdr. rewrite !app_assoc_s. reflexivity.
    - intros r Hr. apply In_zrange in Hr. rewrite (mapM_total _ (cell r)).
      + cbn [rbind]. unfold rowl. rewrite text_cons. rewrite !app_assoc_s. change (text_of []) with EmptyString. now rewrite app_nil_s.
      + intros c Hc. apply In_zrange in Hc. rewrite (get_site L) by (auto; now apply rc_is_site). reflexivity. }
  assert (N : Forall nonl (pre ++ map rowl (zrange L) ++ post)).
  { apply Forall_forall. intros x Hx. apply in_app_iff in Hx as [Hx|Hx]; [|apply in_app_iff in Hx as [Hx|Hx]].
    - assert (Hh : nonl hdr).
      { apply nonl_app; [reflexivity|]. apply concat_nonl. intros y Hy. apply in_map_iff in Hy as (c & <- & _).
        apply nonl_app; [apply padr_nonl, nonl_int|reflexivity]. }
      unfold pre in Hx. repeat (destruct Hx as [<-|Hx]; [first [apply sep_nonl | exact Hh | reflexivity]|]). destruct Hx.
    - apply in_map_iff in Hx as (r & <- & _). apply nonl_app; [apply pad_nonl, nonl_int|]. apply nonl_app; [reflexivity|].
      apply concat_nonl. intros y Hy. apply in_map_iff in Hy as (c & <- & _). apply nonl_app; [apply pad_nonl, nonl_int|].
      apply nonl_app; [reflexivity|]. apply nonl_app; [apply rel_nonl|reflexivity].
    - unfold post in Hx. destruct Hx as [<-|[<-|[]]]; [apply sep_nonl|reflexivity]. }
  eexists. split; [exact E|]. split.
  - rewrite lines_text by exact N. rewrite !app_length, map_length, zrange_length. cbn. lia.
  - intros r Hr. rewrite line_text by exact N. change (10 + Z.to_nat r)%nat with (length pre + Z.to_nat r)%nat. rewrite nth_rows by auto.
    unfold rowl. rewrite ints_pad_left by reflexivity. cbn [append]. rewrite !ints_char by reflexivity. f_equal.
    rewrite <- (app_nil_s (concat_s _)). rewrite (ints_concat (cell r) (fun c => let i := r * L + c in [sg lat i; fst (rl lat i); snd (rl lat i)])).
    + change (ints EmptyString) with (@nil Z). now rewrite app_nil_r.
    + intros c t _. unfold cell, str_rel. rewrite !app_assoc_s. cbn [append]. repeat ints_step. reflexivity.
Qed.

Lemma site_nonl t f : nonl (site_str t f).
Proof.
  unfold site_str. destruct (f =? 1); [|destruct (f =? 2)];
    repeat (apply nonl_app; [first [apply center_nonl, nonl_int|reflexivity]|]); reflexivity.
Qed.
Lemma bond_nonl b f : nonl (bond_str b f).
Proof.
  unfold bond_str. destruct (f =? 1); [|destruct (f =? 2)];
    repeat (apply nonl_app; [first [apply center_nonl, nonl_int|destruct (b_type b =? 0); reflexivity|reflexivity]|]); reflexivity.
Qed.
Lemma strings_nonl {A} (f : A -> string) l : (forall x, nonl (f x)) -> nonl (str_strings (map f l)).
Proof.
  intros H. unfold str_strings. apply nonl_app; [reflexivity|]. apply nonl_app; [|reflexivity]. apply join_nonl; [reflexivity|].
  intros x Hx. apply in_map_iff in Hx as (y & <- & Hy). apply in_map_iff in Hy as (z & <- & _).
  apply nonl_app; [reflexivity|]. apply nonl_app; [apply H|reflexivity].
Qed.
Lemma nth_blocks3 {A} (f g h : Z -> A) d : forall l k j, (k < length l)%nat -> (j < 3)%nat ->
  nth (3 * k + j) (flat_map (fun x => [f x; g x; h x]) l) d = match j with O => f (nth k l 0) | 1%nat => g (nth k l 0) | _ => h (nth k l 0) end.
Proof.
  induction l as [|x l IH]; intros k j Hk Hj; cbn [length] in Hk; [lia|]. destruct k as [|k].
  - cbn [Nat.mul Nat.add flat_map app nth]. destruct j as [|[|[|j]]]; [reflexivity..|lia].
  - cbn [flat_map]. rewrite app_nth2 by (cbn; lia). cbn [length]. replace (3 * S k + j - 3)%nat with (3 * k + j)%nat by lia.
    rewrite IH by lia. reflexivity.
Qed.
Lemma nth_zrange r : 0 <= r < L -> nth (Z.to_nat r) (zrange L) 0 = r.
Proof. intros Hr. pose proof (at_zrange 0 L r Hr) as E. unfold at_ in E. now destruct (Z.leb_spec 0 r); [|lia]. Qed.
Lemma row_rc r c : 0 <= r < L -> 0 <= c < L -> row L (r * L + c) = r.
Proof. intros Hr Hc. unfold row. symmetry. apply (Z.div_unique _ _ _ c); lia. Qed.
Lemma col_rc r c : 0 <= r < L -> 0 <= c < L -> col L (r * L + c) = c.
Proof. intros Hr Hc. unfold col. symmetry. apply (Z.mod_unique _ _ r); lia. Qed.

Lemma view_spec f : exists text, lat_view lat f = Ok text /\
  length (lines text) = (8 + 3 * Z.to_nat L)%nat /\
  forall r, 0 <= r < L ->
    ints (line text (6 + 3 * Z.to_nat r)) = flat_map (fun c => site_nums (site_at lat (r * L + c)) f ++ bond_nums (bond_at lat (r * L + c)) f) (zrange L) /\
    ints (line text (7 + 3 * Z.to_nat r)) = flat_map (fun c => bond_nums (bond_at lat (L * L + (r * L + c))) f) (zrange L).
Proof.
  set (cell := fun r c => let str1 := site_str (site_at lat (r * L + c)) f in let str2 := bond_str (bond_at lat (r * L + c)) f in
    (str1 ++ spaces (String.length str2 - String.length str1) ++ "  " ++ str2)%string).
  set (vcell := fun r c => let str3 := bond_str (bond_at lat (L * L + (r * L + c))) f in (str3 ++ "  " ++ spaces (String.length str3))%string).
  set (row1 := fun r => str_strings (map (cell r) (zrange L))).
  set (row2 := fun r => str_strings (map (vcell r) (zrange L))).
  set (pre := ["format : "; "{site}           {horizontal bond}"; "{vertical bond}  {               }"; "The lattice : ";
     "<--VIEW BEGIN-->"; sep 34]%string).
  set (body := flat_map (fun r => [row1 r; row2 r; sep 34]) (zrange L)).
  set (post := ["<--VIEW END-->"]%string).
  assert (E : lat_view lat f = Ok (text_of (pre ++ body ++ post))).
  { unfold lat_view. rewrite (st_len _ _ St). rewrite (mapM_total _ (fun r => text_of [row1 r; row2 r; sep 34])).
    - cbn [rbind]. f_equal. rewrite !sep_line, (text_flat (fun r => [row1 r; row2 r; sep 34])). fold body.
      rewrite !text_app. unfold pre, post. rewrite !text_cons. rewrite !app_assoc_s. reflexivity.
    - intros r Hr. apply In_zrange in Hr. unfold get_row_str, get_row_v_str. rewrite (st_len _ _ St).
      rewrite (mapM_total _ (cell r)).
      + cbn [rbind]. rewrite (mapM_total _ (vcell r)).
        * cbn [rbind]. fold (row1 r) (row2 r). rewrite !text_cons, sep_line. reflexivity.
        * intros c Hc. apply In_zrange in Hc. rewrite (Z.add_comm (r * L + c)). rewrite (get_bond L) by (auto; unfold is_bond; nia). reflexivity.
      + intros c Hc. apply In_zrange in Hc. rewrite (get_site L) by (auto; now apply rc_is_site). cbn [rbind].
        rewrite (get_bond L) by (auto; unfold is_bond; nia). reflexivity. }
  assert (N : Forall nonl (pre ++ body ++ post)).
  { apply Forall_forall. intros x Hx. apply in_app_iff in Hx as [Hx|Hx]; [|apply in_app_iff in Hx as [Hx|Hx]].
    - unfold pre in Hx. repeat (destruct Hx as [<-|Hx]; [first [apply sep_nonl | reflexivity]|]). destruct Hx.
    - apply in_flat_map in Hx as (r & _ & Hx). destruct Hx as [<-|[<-|[<-|[]]]]; [| |apply sep_nonl].
      + apply strings_nonl. intros c. apply nonl_app; [apply site_nonl|]. apply nonl_app; [now apply nonl_chars|]. apply nonl_app; [reflexivity|apply bond_nonl].
      + apply strings_nonl. intros c. apply nonl_app; [apply bond_nonl|]. apply nonl_app; [reflexivity|now apply nonl_chars].
    - unfold post in Hx. destruct Hx as [<-|[]]. reflexivity. }
  assert (Lb : length body = (3 * Z.to_nat L)%nat).
  { unfold body. rewrite <- (zrange_length L). generalize (zrange L) as l. induction l as [|x l IH]; [reflexivity|]. cbn [flat_map app length] in *. lia. }
  eexists. split; [exact E|]. split.
  - rewrite lines_text by exact N. rewrite !app_length, Lb. cbn. lia.
  - intros r Hr. rewrite !line_text by exact N.
    assert (G : forall j, (j < 3)%nat -> nth (6 + j + 3 * Z.to_nat r) (pre ++ body ++ post) EmptyString =
       match j with O => row1 r | 1%nat => row2 r | _ => sep 34 end).
    { intros j Hj. rewrite app_nth2 by (cbn [pre length]; lia). rewrite app_nth1 by (rewrite Lb; cbn [pre length]; lia).
      replace (6 + j + 3 * Z.to_nat r - length pre)%nat with (3 * Z.to_nat r + j)%nat by (cbn [pre length]; lia).
      unfold body. rewrite nth_blocks3 by (rewrite ?zrange_length; lia). now rewrite nth_zrange. }
    split.
    + pose proof (G 0%nat ltac:(lia)) as G'. cbn [Nat.add] in G'. cbn [Nat.add]. rewrite G'. unfold row1. rewrite <- (app_nil_s (str_strings _)).
      rewrite (ints_strings (cell r) (fun c => site_nums (site_at lat (r * L + c)) f ++ bond_nums (bond_at lat (r * L + c)) f)); [apply app_nil_r| |exact I].
      intros c t _ _. unfold cell. cbv zeta. rewrite !app_assoc_s, ints_site, ints_spaces. cbn [append]. rewrite !ints_char by reflexivity.
      rewrite ints_bond. now rewrite app_assoc.
    + pose proof (G 1%nat ltac:(lia)) as G'. cbn [Nat.add] in G'. cbn [Nat.add]. rewrite G'. unfold row2. rewrite <- (app_nil_s (str_strings _)).
      rewrite (ints_strings (vcell r) (fun c => bond_nums (bond_at lat (L * L + (r * L + c))) f)); [apply app_nil_r| |exact I].
      intros c t _ _. unfold vcell. cbv zeta. rewrite !app_assoc_s, ints_bond. cbn [append]. rewrite !ints_char by reflexivity.
      now rewrite ints_spaces.
Qed.
End Views.

Lemma flat_map_ext_in {A B} (f g : A -> list B) l : (forall x, In x l -> f x = g x) -> flat_map f l = flat_map g l.
Proof. induction l as [|x l IH]; intros H; [reflexivity|]. cbn [flat_map]. rewrite H by now left. f_equal. apply IH. intros; apply H; now right. Qed.

(** C70 *)
Lemma p_C70 E L s format : env_ok E -> reachable E L s ->
  exists text, viewLattice s format = Ok text /\
  (format < 0 -> lines text = ["undefined format"; ""]%string) /\
  (format = 3 -> length (lines text) = (13 + Z.to_nat L)%nat /\
    forall r, 0 <= r < L -> ints (line text (10 + Z.to_nat r)) =
      r :: flat_map (fun c => let i := r * L + c in [site_label s i; fst (rel_index s i); snd (rel_index s i)]) (zrange L)) /\
  (format = 4 -> length (lines text) = (13 + Z.to_nat L)%nat /\
    forall r, 0 <= r < L -> ints (line text (10 + Z.to_nat r)) = r :: map (fun c => site_label s (r * L + c)) (zrange L)) /\
  (0 <= format -> format <> 3 -> format <> 4 -> length (lines text) = (8 + 3 * Z.to_nat L)%nat /\
    forall r, 0 <= r < L ->
      ints (line text (6 + 3 * Z.to_nat r)) =
        flat_map (fun c => shown_site L s format r c ++ shown_bond s format (r * L + c) r c) (zrange L) /\
      ints (line text (7 + 3 * Z.to_nat r)) =
        flat_map (fun c => shown_bond s format (L * L + (r * L + c)) r c) (zrange L)).
Proof.
  intros HE HR. pose proof (reachable_inv _ _ _ HE HR) as H. pose proof (i_static _ _ H) as St. pose proof (st_pos _ _ St) as HL.
  unfold viewLattice. destruct (Z.ltb_spec format 0) as [H0|H0].
  { eexists. split; [reflexivity|]. repeat split; try lia. }
  destruct (Z.eqb_spec format 3) as [->|N3]; [|destruct (Z.eqb_spec format 4) as [->|N4]].
  - destruct (rel_spec L (lat s) St) as (t & Et & Ln & Hr). exists t. repeat (split; [first [exact Et|lia]|]). repeat split; try lia.
    intros r Hr'. rewrite Hr by auto. f_equal. apply flat_map_ext_in. intros c Hc. apply In_zrange in Hc. cbv zeta.
    rewrite (site_label_sg L), (rel_index_rl L) by (auto; now apply (rc_is_site L (lat s) St)). reflexivity.
  - destruct (gids_spec L (lat s) St) as (t & Et & Ln & Hr). exists t. split; [exact Et|]. repeat split; try lia.
    intros r Hr'. rewrite Hr by auto. f_equal. apply map_ext_in. intros c Hc. apply In_zrange in Hc.
    now rewrite (site_label_sg L) by (auto; now apply (rc_is_site L (lat s) St)).
  - destruct (view_spec L (lat s) St format) as (t & Et & Ln & Hr). exists t. split; [exact Et|].
    split; [intros; lia|]. split; [intros; lia|]. split; [intros; lia|]. intros _ _ _. split; [exact Ln|]. intros r Hr'. destruct (Hr r Hr') as (R1 & R2).
    assert (Sn : forall c, 0 <= c < L -> site_nums (site_at (lat s) (r * L + c)) format = shown_site L s format r c).
    { intros c Hc. pose proof (rc_is_site L (lat s) St r c Hr' Hc) as Hi. destruct (st_site _ _ St _ Hi) as (E1 & E2 & _).
      unfold site_nums, shown_site. rewrite (site_label_sg L) by auto. rewrite E1, E2, row_rc, col_rc by auto. reflexivity. }
    assert (Bn : forall b c, 0 <= c < L -> is_bond L b -> row L (end1 L b) = r -> col L (end1 L b) = c ->
      bond_nums (bond_at (lat s) b) format = shown_bond s format b r c).
    { intros b c Hc Hb Er Ec. destruct (st_bond _ _ St _ Hb) as (E1 & _ & E3 & E4 & _).
      unfold bond_nums, shown_bond. rewrite (bond_label_bg L) by auto. rewrite E1, E3, E4, Er, Ec. reflexivity. }
    split.
    + rewrite R1. apply flat_map_ext_in. intros c Hc. apply In_zrange in Hc. rewrite Sn by auto. f_equal.
      assert (e : end1 L (r * L + c) = r * L + c) by (unfold end1; destruct (Z.ltb_spec (r * L + c) (L * L)); nia).
      apply Bn; auto; [unfold is_bond; nia|rewrite e; now apply row_rc|rewrite e; now apply col_rc].
    + rewrite R2. apply flat_map_ext_in. intros c Hc. apply In_zrange in Hc.
      assert (e : end1 L (L * L + (r * L + c)) = r * L + c) by (unfold end1; destruct (Z.ltb_spec (L * L + (r * L + c)) (L * L)); nia).
      apply Bn; auto; [unfold is_bond; nia|rewrite e; now apply row_rc|rewrite e; now apply col_rc].
Qed.

(** ** The clusters *)
Lemma nth_blocks4 {A} (f g h k : Z -> A) d : forall l n j, (n < length l)%nat -> (j < 4)%nat ->
  nth (4 * n + j) (flat_map (fun x => [f x; g x; h x; k x]) l) d =
    match j with O => f (nth n l 0) | 1%nat => g (nth n l 0) | 2%nat => h (nth n l 0) | _ => k (nth n l 0) end.
Proof.
  induction l as [|x l IH]; intros n j Hk Hj; cbn [length] in Hk; [lia|]. destruct n as [|n].
  - cbn [Nat.mul Nat.add flat_map app nth]. destruct j as [|[|[|[|j]]]]; [reflexivity..|lia].
  - cbn [flat_map]. rewrite app_nth2 by (cbn; lia). cbn [length]. replace (4 * S n + j - 4)%nat with (4 * n + j)%nat by lia.
    rewrite IH by lia. reflexivity.
Qed.
Lemma map_seq_ext {A} (d : A) l : l = map (at_ d l) (zrange (zlen l)).
Proof.
  pose proof (zlen_nonneg l). apply (at_ext d); [now rewrite zlen_map, zlen_zrange|]. intros j Hj.
  rewrite (at_map _ 0) by (rewrite zlen_zrange; lia). now rewrite at_zrange.
Qed.
Lemma zseq_sorted n : forall a, StronglySorted Z.lt (map (fun k => a + Z.of_nat k) (seq 0 n)).
Proof.
  induction n as [|n IH]; intros a; [constructor|]. cbn [seq map]. rewrite <- seq_shift, map_map. constructor.
  - rewrite (map_ext _ (fun k => (a + 1) + Z.of_nat k)) by (intros; lia). apply IH.
  - apply Forall_forall. intros x Hx. apply in_map_iff in Hx as (k & <- & _). lia.
Qed.
Lemma filter_sorted {A} (R : A -> A -> Prop) f l : StronglySorted R l -> StronglySorted R (filter f l).
Proof.
  induction 1 as [|x l HS IH Hx]; [constructor|]. cbn [filter]. destruct (f x); [|exact IH]. constructor; [exact IH|].
  apply Forall_forall. intros y Hy. apply filter_In in Hy as (Hy & _). rewrite Forall_forall in Hx. now apply Hx.
Qed.
Lemma zrange_sorted n : StronglySorted Z.lt (zrange n).
Proof. unfold zrange. rewrite (map_ext _ (fun k => 0 + Z.of_nat k)) by (intros; lia). apply zseq_sorted. Qed.

Definition blk (c : cluster) : list string :=
  ["cluster [ " ++ str_int (c_id c) ++ " ] (gid  " ++ str_int (c_gid c) ++ " ) :{";
   "  sites (" ++ str_int (zlen (c_sites c)) ++ ")  " ++ str_list (c_sites c);
   "  bonds (" ++ str_int (zlen (c_bonds c)) ++ ")  " ++ str_list (c_bonds c); "}"]%string.
Lemma cluster_view_blk c : cluster_view c = if cluster_is_empty c then (EmptyString, 0) else (text_of (blk c), 1).
Proof.
  unfold cluster_view. destruct (cluster_is_empty c); [reflexivity|]. f_equal. unfold blk. rewrite !text_cons.
  change (text_of []) with EmptyString. rewrite !app_assoc_s, !app_nil_s. reflexivity.
Qed.
Lemma view_sum l : forall a, fold_left Z.add (map snd (map cluster_view l)) a = a + zlen (filter (fun c => negb (cluster_is_empty c)) l).
Proof.
  induction l as [|c l IH]; intros a; [cbn; lia|]. cbn [map fold_left filter]. rewrite IH, cluster_view_blk.
  destruct (cluster_is_empty c); cbn [snd negb]; rewrite ?zlen_cons; lia.
Qed.
Lemma view_text l : concat_s (map fst (map cluster_view l)) = text_of (flat_map blk (filter (fun c => negb (cluster_is_empty c)) l)).
Proof.
  induction l as [|c l IH]; [reflexivity|]. cbn [map filter]. rewrite concat_cons, IH, cluster_view_blk.
  destruct (cluster_is_empty c); cbn [fst negb flat_map append]; [reflexivity|]. now rewrite text_app.
Qed.
Lemma filter_map {A B} (f : A -> B) p l : filter p (map f l) = map f (filter (fun x => p (f x)) l).
Proof. induction l as [|x l IH]; [reflexivity|]. cbn [map filter]. destruct (p (f x)); cbn [map]; now rewrite IH. Qed.
Lemma flat_map_map {A B C} (f : A -> B) (g : B -> list C) l : flat_map g (map f l) = flat_map (fun x => g (f x)) l.
Proof. induction l as [|x l IH]; [reflexivity|]. cbn. now rewrite IH. Qed.

(** C71 *)
Lemma p_C71 E L s : env_ok E -> reachable E L s ->
  exists cs, StronglySorted Z.lt cs /\ (forall c, In c cs <-> exists b, is_bond L b /\ bond_label s b = c) /\
  length (lines (viewCluster s)) = (5 + 4 * length cs)%nat /\
  line (viewCluster s) 0 = "View cluster < BEGIN"%string /\
  line (viewCluster s) (2 + 4 * length cs) = " View cluster END >"%string /\
  ints (line (viewCluster s) (3 + 4 * length cs)) = [zlen cs] /\
  forall n, (n < length cs)%nat -> let c := nth n cs 0 in
    ints (line (viewCluster s) (1 + 4 * n)) = [c; c] /\
    (exists ss, ints (line (viewCluster s) (2 + 4 * n)) = zlen ss :: ss /\ NoDup ss /\
       forall i, In i ss <-> is_site L i /\ site_label s i = c) /\
    (exists bs, ints (line (viewCluster s) (3 + 4 * n)) = zlen bs :: bs /\ NoDup bs /\
       forall b, In b bs <-> is_bond L b /\ bond_label s b = c) /\
    line (viewCluster s) (4 + 4 * n) = "}"%string.
Proof.
  intros HE HR. pose proof (reachable_inv _ _ _ HE HR) as H. pose proof (i_static _ _ H) as St. pose proof (st_pos _ _ St) as HL.
  pose proof (i_cl _ _ H) as CK. pose proof (ck_pool _ _ _ CK) as PK.
  set (P := pool s) in *. set (cs := filter (fun c => negb (cluster_is_empty (cl P c))) (zrange (2 * (L * L)))).
  assert (El : filter (fun c => negb (cluster_is_empty c)) (p_list P) = map (cl P) cs).
  { rewrite (map_seq_ext dcluster (p_list P)) at 1. rewrite (pk_len _ _ _ _ PK). apply (filter_map (cl P) (fun c => negb (cluster_is_empty c))). }
  assert (Hcs : forall c, In c cs -> is_label L c /\ c_bonds (cl P c) <> []).
  { intros c Hc. apply filter_In in Hc as (Hc & He). apply In_zrange in Hc. assert (Lc : is_label L c) by exact Hc. split; [exact Lc|]. intros Eb.
    unfold cluster_is_empty in He. rewrite Eb in He. change (zlen (@nil Z) =? 0) with true in He. rewrite andb_true_r in He.
    destruct (c_sites (cl P c)) as [|i l] eqn:Es; [discriminate|].
    destruct (pk_sites _ _ _ _ PK c Lc (fun x => x)) as (_ & Qs). rewrite Es in Qs. destruct (proj1 (Qs i) (or_introl eq_refl)) as (Hi & Gi).
    assert (Bb : In (bond_dir L i DRight) (c_bonds (cl P c))).
    { apply (proj2 (pk_bonds _ _ _ _ PK c Lc (fun x => x))). split; [unfold bond_dir, is_bond; unfold is_site in Hi; nia|].
      rewrite (ck_own _ _ _ CK) by (auto; unfold occ; rewrite Gi; apply Lc). exact Gi. }
    rewrite Eb in Bb. destruct Bb. }
  assert (Hin : forall c, In c cs <-> exists b, is_bond L b /\ bond_label s b = c).
  { intros c. split.
    - intros Hc. destruct (Hcs c Hc) as (Lc & Hb). destruct (c_bonds (cl P c)) as [|b l] eqn:Eb; [congruence|]. exists b.
      destruct (proj1 (proj2 (pk_bonds _ _ _ _ PK c Lc (fun x => x)) b)) as (Bb & Gb); [rewrite Eb; now left|].
      split; [exact Bb|]. now rewrite (bond_label_bg L).
    - intros (b & Bb & Gb). rewrite (bond_label_bg L) in Gb by auto. pose proof (ck_blab _ _ _ CK b Bb) as Lc. rewrite Gb in Lc.
      apply filter_In. split; [apply In_zrange; exact Lc|]. assert (Ib : In b (c_bonds (cl P c))) by (apply (proj2 (pk_bonds _ _ _ _ PK c Lc (fun x => x))); auto).
      unfold cluster_is_empty. destruct (c_bonds (cl P c)) as [|b' l]; [destruct Ib|]. pose proof (zlen_nonneg l).
      destruct (Z.eqb_spec (zlen (b' :: l)) 0) as [Z0|]; [rewrite zlen_cons in Z0; lia|]. now rewrite andb_false_r. }
  set (f1 := fun c => ("cluster [ " ++ str_int (c_id (cl P c)) ++ " ] (gid  " ++ str_int (c_gid (cl P c)) ++ " ) :{")%string).
  set (f2 := fun c => ("  sites (" ++ str_int (zlen (c_sites (cl P c))) ++ ")  " ++ str_list (c_sites (cl P c)))%string).
  set (f3 := fun c => ("  bonds (" ++ str_int (zlen (c_bonds (cl P c))) ++ ")  " ++ str_list (c_bonds (cl P c)))%string).
  set (f4 := fun _ : Z => "}"%string).
  set (body := flat_map (fun c => [f1 c; f2 c; f3 c; f4 c]) cs).
  set (tail := [""; " View cluster END >"; "Number of clusters  " ++ str_int (zlen cs)]%string).
  assert (Et : viewCluster s = text_of (["View cluster < BEGIN"%string] ++ body ++ tail)).
  { unfold viewCluster. cbv zeta. fold P. rewrite view_text, view_sum, El, flat_map_map. rewrite !text_app. unfold tail. rewrite !text_cons.
    change (text_of []) with EmptyString. rewrite zlen_map, Z.add_0_l, !app_assoc_s, !app_nil_s. reflexivity. }
  assert (N : Forall nonl (["View cluster < BEGIN"%string] ++ body ++ tail)).
  { apply Forall_forall. intros x Hx. apply in_app_iff in Hx as [Hx|Hx]; [|apply in_app_iff in Hx as [Hx|Hx]].
    - destruct Hx as [<-|[]]. reflexivity.
    - apply in_flat_map in Hx as (c & _ & Hx). destruct Hx as [<-|[<-|[<-|[<-|[]]]]]; [| | |reflexivity]; unfold f1, f2, f3;
        repeat (apply nonl_app; [first [apply nonl_int|reflexivity]|]); first [apply list_nonl|reflexivity].
    - destruct Hx as [<-|[<-|[<-|[]]]]; [reflexivity..|]. apply nonl_app; [reflexivity|apply nonl_int]. }
  assert (Lb : length body = (4 * length cs)%nat).
  { unfold body. generalize cs as l. induction l as [|x l IH]; [reflexivity|]. cbn [flat_map app length] in *. lia. }
  assert (Gt : forall j, line (viewCluster s) (1 + j + 4 * length cs) = nth j tail EmptyString).
  { intros j. rewrite Et, line_text by exact N. change (1 + j + 4 * length cs)%nat with (S (j + 4 * length cs)). cbn [app nth].
    rewrite app_nth2 by lia. f_equal. lia. }
  assert (Gb : forall n j, (n < length cs)%nat -> (j < 4)%nat -> line (viewCluster s) (1 + j + 4 * n) =
    match j with O => f1 (nth n cs 0) | 1%nat => f2 (nth n cs 0) | 2%nat => f3 (nth n cs 0) | _ => f4 (nth n cs 0) end).
  { intros n j Hn Hj. rewrite Et, line_text by exact N. change (1 + j + 4 * n)%nat with (S (j + 4 * n)). cbn [app nth].
    rewrite app_nth1 by lia. rewrite Nat.add_comm. unfold body. now apply nth_blocks4. }
  exists cs. split; [apply filter_sorted, zrange_sorted|]. split; [exact Hin|].
  split; [rewrite Et, lines_text by exact N; rewrite !app_length, Lb; cbn [length tail]; lia|].
  split; [rewrite Et, line_text by exact N; reflexivity|]. split; [exact (Gt 1%nat)|].
  split.
  { rewrite (Gt 2%nat : line _ (3 + 4 * length cs) = _). unfold tail. cbn [nth append].
    do 20 rewrite ints_char by reflexivity. rewrite <- (app_nil_s (str_int _)). now rewrite ints_num. }
  intros n Hn. cbv zeta. set (c := nth n cs 0). assert (Hc : In c cs) by now apply nth_In. destruct (Hcs c Hc) as (Lc & Hb).
  destruct (pk_gid _ _ _ _ PK c Lc (fun x => x) Hb) as (Eg & Ei).
  destruct (pk_sites _ _ _ _ PK c Lc (fun x => x)) as (Ns & Qs). destruct (pk_bonds _ _ _ _ PK c Lc (fun x => x)) as (Nb & Qb).
  split.
  { rewrite (Gb n 0%nat Hn ltac:(lia) : line _ (1 + 4 * n) = _). unfold f1. fold c. rewrite Eg, Ei. cbn [append].
    repeat ints_step. reflexivity. }
  split.
  { exists (c_sites (cl P c)). split; [|split; [exact Ns|intros i; rewrite Qs; split; intros (Hi & G); split; auto; [now rewrite (site_label_sg L)|now rewrite (site_label_sg L) in G by auto]]].
    rewrite (Gb n 1%nat Hn ltac:(lia) : line _ (2 + 4 * n) = _). unfold f2. fold c. cbn [append].
    repeat ints_step. rewrite <- (app_nil_s (str_list _)), ints_list by exact I. now rewrite app_nil_r. }
  split.
  { exists (c_bonds (cl P c)). split; [|split; [exact Nb|intros i; rewrite Qb; split; intros (Hi & G); split; auto; [now rewrite (bond_label_bg L)|now rewrite (bond_label_bg L) in G by auto]]].
    rewrite (Gb n 2%nat Hn ltac:(lia) : line _ (3 + 4 * n) = _). unfold f3. fold c. cbn [append].
    repeat ints_step. rewrite <- (app_nil_s (str_list _)), ints_list by exact I. now rewrite app_nil_r. }
  exact (Gb n 3%nat Hn ltac:(lia)).
Qed.

(** ** The listings *)
Lemma l_sites_map L lat : Static L lat -> l_sites lat = map (site_at lat) (zrange (L * L)).
Proof. intros St. rewrite (map_seq_ext dsite (l_sites lat)) at 1. now rewrite (st_ns _ _ St). Qed.
Lemma l_bonds_map L lat : Static L lat -> l_bonds lat = map (bond_at lat) (zrange (2 * (L * L))).
Proof. intros St. rewrite (map_seq_ext dbond (l_bonds lat)) at 1. now rewrite (st_nb _ _ St). Qed.
Lemma listing (hd : string) (f : Z -> string) n text :
  nonl hd -> (forall i, nonl (f i)) -> 0 <= n -> text = text_of (hd :: map f (zrange n)) ->
  length (lines text) = (2 + Z.to_nat n)%nat /\ line text 0 = hd /\ forall i, 0 <= i < n -> line text (1 + Z.to_nat i) = f i.
Proof.
  intros H1 H2 Hn ->.
  assert (N : Forall nonl (hd :: map f (zrange n))).
  { constructor; [exact H1|]. apply Forall_forall. intros x Hx. apply in_map_iff in Hx as (i & <- & _). apply H2. }
  split; [rewrite lines_text by exact N; rewrite app_length; cbn [length]; rewrite map_length, zrange_length; lia|].
  split; [now rewrite line_text by exact N|]. intros i Hi. rewrite line_text by exact N. cbn [Nat.add nth].
  rewrite (nth_indep _ EmptyString (f 0)) by (rewrite map_length, zrange_length; lia). rewrite map_nth. f_equal.
  pose proof (at_zrange 0 n i Hi) as E. unfold at_ in E. now destruct (Z.leb_spec 0 i); [|lia].
Qed.
Lemma text_map {A} (f : A -> string) (l : list A) : concat_s (map (fun x => (f x ++ nl)%string) l) = text_of (map f l).
Proof. unfold text_of. now rewrite map_map. Qed.

(** C72 *)
Lemma p_C72 L lat : 0 < L -> edited L lat ->
  (length (lines (list_all_sites lat)) = (2 + Z.to_nat (L * L))%nat /\
   forall i, is_site L i -> exists bs,
     ints (line (list_all_sites lat) (1 + Z.to_nat i)) =
       [i; site_gid lat i; i / L; i mod L; fst (site_rel lat i); snd (site_rel lat i)] ++ bs /\
     length bs = 4%nat /\ forall b, In b bs <-> is_bond L b /\ touches L b i) /\
  (length (lines (list_all_bonds lat)) = (2 + Z.to_nat (2 * (L * L)))%nat /\
   forall b, is_bond L b ->
     ints (line (list_all_bonds lat) (1 + Z.to_nat b)) =
       [b; bond_gid lat b; if b <? L * L then 0 else 1; end1 L b / L; end1 L b mod L;
        Z.min (end1 L b) (end2 L b); Z.max (end1 L b) (end2 L b)]) /\
  (exists text, print_bonds lat = Ok text /\ length (lines text) = (2 + Z.to_nat (2 * (L * L)))%nat /\
   forall b, is_bond L b -> ints (line text (1 + Z.to_nat b)) =
     [b; bond_gid lat b; b; Z.min (end1 L b) (end2 L b); Z.max (end1 L b) (end2 L b)]) /\
  (exists text, print_sites lat = Ok text /\ length (lines text) = (2 + Z.to_nat (L * L))%nat /\
   forall i, is_site L i -> exists bs, ints (line text (1 + Z.to_nat i)) = [i; site_gid lat i; i] ++ bs /\
     length bs = 4%nat /\ forall b, In b bs <-> is_bond L b /\ touches L b i).
Proof.
  intros HL He. pose proof (edited_static _ _ HL He) as St.
  assert (HB : forall i, is_site L i -> forall b, In b (bonds_of L i) <-> is_bond L b /\ touches L b i).
  { intros i Hi b. split.
    - intros Hb. assert (Bb : is_bond L b) by (apply In_bonds_of in Hb as (d & ->); now apply bond_dir_bond). split; [exact Bb|]. now apply bonds_of_touches.
    - intros (Bb & Tb). now apply bonds_of_touches. }
  split; [|split; [|split]].
  - destruct (listing "id, gid, index, relative_index, connecting_bond_ids"
      (fun i => let ss := site_at lat i in str_int (s_id ss) ++ "   " ++ str_int (s_gid ss) ++ "   " ++ str_index (s_index ss) ++ "   " ++
        str_rel (s_rel ss) ++ "   " ++ str_list (s_bonds ss))%string (L * L) (list_all_sites lat)) as (Q1 & _ & Q2).
    + reflexivity.
    + intros i. cbv zeta. repeat (apply nonl_app; [first [apply nonl_int|apply index_nonl|apply rel_nonl|reflexivity]|]). apply list_nonl.
    + nia.
    + unfold list_all_sites. rewrite text_cons. rewrite (l_sites_map L) by auto. rewrite map_map, <- text_map. do 2 f_equal. f_equal.
      apply map_ext. intros i. now rewrite !app_assoc_s.
    + split; [exact Q1|]. intros i Hi. rewrite Q2 by exact Hi. cbv zeta. exists (bonds_of L i).
      destruct (st_site _ _ St i Hi) as (E1 & E2 & E3). rewrite E1, E2, E3, (site_gid_sg L), (site_rel_rl L) by auto. fold (sg lat i) (rl lat i).
      split; [|split; [reflexivity|now apply HB]]. unfold str_index, str_rel. rewrite !app_assoc_s. cbn [append fst snd]. repeat ints_step.
      rewrite <- (app_nil_s (str_list _)), ints_list by exact I. now rewrite app_nil_r.
  - destruct (listing "id, gid, index, connecting_site_ids"
      (fun i => let bb := bond_at lat i in str_int (b_id bb) ++ "   " ++ str_int (b_gid bb) ++ "   (" ++ str_int (b_type bb) ++ ", " ++
     str_int (b_row bb) ++ ", " ++ str_int (b_col bb) ++ ")   " ++ str_list (b_sites bb))%string (2 * (L * L)) (list_all_bonds lat)) as (Q1 & _ & Q2).
    + reflexivity.
    + intros i. cbv zeta. repeat (apply nonl_app; [first [apply nonl_int|apply index_nonl|apply rel_nonl|reflexivity]|]). apply list_nonl.
    + nia.
    + unfold list_all_bonds. rewrite text_cons. rewrite (l_bonds_map L) by auto. rewrite map_map, <- text_map. do 2 f_equal. f_equal.
      apply map_ext. intros i. now rewrite !app_assoc_s.
    + split; [exact Q1|]. intros b Hb. rewrite Q2 by exact Hb. cbv zeta.
      destruct (st_bond _ _ St b Hb) as (E1 & E2 & E3 & E4 & E5). rewrite E1, E2, E3, E4, E5, (bond_gid_bg L) by auto. fold (bg lat b).
      rewrite ?app_assoc_s. cbn [append]. repeat ints_step.
      rewrite <- (app_nil_s (str_list _)), ints_list by exact I. now rewrite app_nil_r.
  - set (f := fun i => let b := bond_at lat i in ("[ " ++ str_int i ++ " ] gid= " ++ str_int (b_gid b) ++ "  id= " ++ str_int (b_id b) ++ "  sites= " ++
        str_list (b_sites b))%string).
    assert (Et : print_bonds lat = Ok ("print_bonds" ++ nl ++ concat_s (map (fun i => (f i ++ nl)%string) (zrange (2 * (L * L)))))%string).
    { unfold print_bonds. rewrite (st_bc _ _ St), (mapM_total _ (fun i => (f i ++ nl)%string)); [reflexivity|].
      intros i Hi. apply In_zrange in Hi. rewrite (get_bond L) by auto. cbn [rbind]. destruct (st_bond _ _ St i Hi) as (_ & _ & _ & _ & E5).
      rewrite E5 at 1. change (zlen (bond_sites L i) =? 2) with true. unfold f. cbv zeta iota. rewrite !app_assoc_s. reflexivity. }
    eexists. split; [exact Et|]. destruct (listing "print_bonds" f (2 * (L * L))) with (text := ("print_bonds" ++ nl ++ concat_s (map (fun i => (f i ++ nl)%string) (zrange (2 * (L * L)))))%string) as (Q1 & _ & Q2).
    + reflexivity.
    + intros i. unfold f. cbv zeta. repeat (apply nonl_app; [first [apply nonl_int|reflexivity]|]). apply list_nonl.
    + nia.
    + now rewrite text_cons, text_map.
    + split; [exact Q1|]. intros b Hb. rewrite Q2 by exact Hb. unfold f. cbv zeta.
      destruct (st_bond _ _ St b Hb) as (E1 & E2 & E3 & E4 & E5). rewrite E1, E5, (bond_gid_bg L) by auto. fold (bg lat b).
      rewrite ?app_assoc_s. cbn [append]. repeat ints_step.
      rewrite <- (app_nil_s (str_list _)), ints_list by exact I. now rewrite app_nil_r.
  - set (f := fun i => let b := site_at lat i in ("[ " ++ str_int i ++ " ] gid= " ++ str_int (s_gid b) ++ "  id= " ++ str_int (s_id b) ++ "  sites= " ++
        str_list (s_bonds b))%string).
    assert (Et : print_sites lat = Ok ("print_sites" ++ nl ++ concat_s (map (fun i => (f i ++ nl)%string) (zrange (L * L))))%string).
    { unfold print_sites. rewrite (st_sc _ _ St), (mapM_total _ (fun i => (f i ++ nl)%string)); [reflexivity|].
      intros i Hi. apply In_zrange in Hi. rewrite (get_site L) by auto. cbn [rbind]. destruct (st_site _ _ St i Hi) as (_ & _ & E5).
      rewrite E5 at 1. change (zlen (bonds_of L i) =? 4) with true. unfold f. cbv zeta iota. rewrite !app_assoc_s. reflexivity. }
    eexists. split; [exact Et|]. destruct (listing "print_sites" f (L * L)) with (text := ("print_sites" ++ nl ++ concat_s (map (fun i => (f i ++ nl)%string) (zrange (L * L))))%string) as (Q1 & _ & Q2).
    + reflexivity.
    + intros i. unfold f. cbv zeta. repeat (apply nonl_app; [first [apply nonl_int|reflexivity]|]). apply list_nonl.
    + nia.
    + now rewrite text_cons, text_map.
    + split; [exact Q1|]. intros i Hi. rewrite Q2 by exact Hi. exists (bonds_of L i). split; [|split; [reflexivity|now apply HB]]. unfold f. cbv zeta.
      destruct (st_site _ _ St i Hi) as (E1 & E2 & E3). rewrite E1, E3, (site_gid_sg L) by auto. fold (sg lat i).
      rewrite ?app_assoc_s. cbn [append]. repeat ints_step.
      rewrite <- (app_nil_s (str_list _)), ints_list by exact I. now rewrite app_nil_r.
Qed.
