(** * PropFaithful: property C67: the listings determine what they list. *)
From Coq Require Import QArith.
From Verif Require Import Base Notations Parser Seitz F64 Jones Rotations Tables Generate Positions Order
  Spec SpecHall SpecXyz SpecCanon SpecOrbit Algebra PropSeitz PropSymbols GenFacts PropGenerate GroupCheck PropFullSets PropJones
  PropCanon PropListing PropOrder PropOrbit.
Open Scope Z_scope.
Local Notation length := List.length.

(** ** Listed operations are determined by their texts *)
Lemma listed_normal fuel h g m : general_positions fuel h = Done g -> In m (all_operations g) ->
  is_affine m /\ unit_matrix (rot m) /\ vbetween 0 12 (tra m).
Proof.
  intros H L. apply listed_all in L. split; [exact (proj1 (listed_group _ _ _ _ H L)) |].
  destruct L as (s & Hs & Hm). unfold derive_full_sets in Hs. apply in_map_iff in Hs. destruct Hs as (v & <- & Hv).
  apply in_map_iff in Hm. destruct Hm as (c & <- & Hc). split; [exact (proj1 (C61_listed_positions _ _ _ H c Hc)) |].
  destruct (C28_normalised _ _ _ H c Hc) as [_ B].
  destruct (general_positions_spec _ _ _ H) as (E & _). rewrite E in Hv. pose proof (translations_range _ _ Hv) as B'.
  assert (Q : forall a b, 0 <= a -> 0 <= b -> 0 <= rem12 (a + b) < 12).
  { intros a b X Y. apply (Z.rem_bound_pos (a + b) 12); lia. }
  destruct c as [R t bo co], v as [v1 v2 v3]. unfold vbetween in *. cbn [sz_addv tra vmap vadd vx vy vz] in *.
  destruct B as (B1 & B2 & B3), B' as (C1 & C2 & C3).
  split; [apply Q; [apply B1 | apply C1] |]. split; apply Q; [apply B2 | apply C2 | apply B3 | apply C3].
Qed.
Lemma normal_text a b s : is_affine a -> is_affine b -> unit_matrix (rot a) -> unit_matrix (rot b) ->
  vbetween 0 12 (tra a) -> vbetween 0 12 (tra b) -> jones a = Done s -> jones b = Done s -> a = b.
Proof.
  intros Aa Ab Ua Ub Ba Bb Ja Jb. destruct (C22_same_text_same_operation a b s Ua Ub Ja Jb) as [_ (R & (i & X) & (j & Y) & (k & Z))].
  rewrite (affine_aff a Aa), (affine_aff b Ab). rewrite R. f_equal. apply vec3_ext; unfold vbetween in *; lia.
Qed.
Lemma omap_flat {A B} (f : A -> outcome B) (ll : list (list A)) :
  forall r, omap (fun s => omap f s) ll = Done r -> omap f (List.concat ll) = Done (List.concat r).
Proof.
  assert (App : forall a b x y, omap f a = Done x -> omap f b = Done y -> omap f (a ++ b) = Done (x ++ y)).
  { induction a as [| u a IH]; intros b x y Ha Hb.
    - cbn [omap] in Ha. apply Done_eq in Ha. subst x. exact Hb.
    - cbn [omap] in Ha. destruct (f u) as [w | |] eqn:Fu; cbn [obind] in Ha; try discriminate.
      destruct (omap f a) as [x' | |] eqn:Fa; cbn [obind] in Ha; try discriminate. apply Done_eq in Ha. subst x.
      cbn [app omap]. rewrite Fu. cbn [obind]. rewrite (IH b x' y eq_refl Hb). reflexivity. }
  induction ll as [| s ll IH]; intros r H; cbn [omap] in H.
  - apply Done_eq in H. subst r. reflexivity.
  - destruct (omap f s) as [x | |] eqn:Fs; cbn [obind] in H; try discriminate.
    destruct (omap (fun s => omap f s) ll) as [y | |] eqn:Fl; cbn [obind] in H; try discriminate.
    apply Done_eq in H. subst r. cbn [List.concat]. apply App; auto.
Qed.
Lemma pure_txt_all g l : pure_txt g = Done l -> omap jones (all_operations g) = Done l.
Proof.
  unfold pure_txt, all_operations. destruct (omap (fun s => omap jones s) (derive_full_sets g)) as [r | |] eqn:E; cbn [obind]; try discriminate.
  intros H. apply Done_eq in H. subst l. apply omap_flat, E.
Qed.

(** ** C67 *)
(** every symbol that returns has both listings *)
Theorem C67_listings_exist :
  forall fuel h g, general_positions fuel h = Done g ->
    (exists txt, text_format g = Done txt) /\ (exists l, pure_txt g = Done l).
Proof.
  intros fuel h g H. apply C35_unit_rotations_have_a_listing. intros m Hm. apply (C61_listed_positions _ _ _ H m Hm).
Qed.
(** the plain listing determines the operations, in order *)
Theorem C67_pure_txt_determines_operations :
  forall f h g f' h' g', general_positions f h = Done g -> general_positions f' h' = Done g' ->
    (pure_txt g = pure_txt g' <-> all_operations g = all_operations g').
Proof.
  intros f h g f' h' g' H H'. destruct (C67_listings_exist _ _ _ H) as [_ (l & L)], (C67_listings_exist _ _ _ H') as [_ (l' & L')].
  pose proof (pure_txt_all _ _ L) as A. pose proof (pure_txt_all _ _ L') as A'. split.
  - intros E. assert (l' = l) by congruence. subst l'.
    pose proof (fun m => listed_normal _ _ _ m H) as N. pose proof (fun m => listed_normal _ _ _ m H') as N'.
    revert A A' N N'. generalize (all_operations g) as a, (all_operations g') as a'. clear.
    intros a a'. revert a' l. induction a as [| x a IH]; intros [| y a'] l A A' N N'; cbn [omap] in A, A'.
    + reflexivity.
    + apply Done_eq in A. subst l. destruct (jones y); cbn [obind] in A'; try discriminate. destruct (omap jones a'); discriminate.
    + apply Done_eq in A'. subst l. destruct (jones x); cbn [obind] in A; try discriminate. destruct (omap jones a); discriminate.
    + destruct (jones x) as [s | |] eqn:Jx; cbn [obind] in A; try discriminate.
      destruct (omap jones a) as [r | |] eqn:Ra; cbn [obind] in A; try discriminate. apply Done_eq in A. subst l.
      destruct (jones y) as [s' | |] eqn:Jy; cbn [obind] in A'; try discriminate.
      destruct (omap jones a') as [r' | |] eqn:Ra'; cbn [obind] in A'; try discriminate. apply Done_eq in A'.
      assert (s' = s) by congruence. assert (r' = r) by congruence. subst s' r'. f_equal.
      * destruct (N x (or_introl eq_refl)) as (Ax & Ux & Bx), (N' y (or_introl eq_refl)) as (Ay & Uy & By).
        exact (normal_text x y s Ax Ay Ux Uy Bx By Jx Jy).
      * apply (IH a' r); auto; intros m Hm; [apply N | apply N']; right; exact Hm.
  - intros E. rewrite L, L'. congruence.
Qed.
(** the formatted listing determines the positions *)
Definition first_char (s : string) : option ascii := match s with EmptyString => None | String c _ => Some c end.
Lemma number_first num s : number_value num <> None -> first_char (num ++ s) <> Some "["%char /\ first_char (num ++ s) <> None.
Proof.
  destruct num as [| c r]; [intros C; exfalso; apply C; reflexivity |]. cbn [number_value digits_value append first_char]. intros H. split; [| discriminate].
  intros E. injection E as ->. apply H. reflexivity.
Qed.
Lemma generated_nonempty fuel h g : general_positions fuel h = Done g ->
  gp_core g <> [] /\ gp_lattice g <> [] /\ (forall v, In v (gp_lattice g) -> vbetween 0 12 v).
Proof.
  intros H. destruct (general_positions_spec _ _ _ H) as (E & l & Hl & _ & P).
  split; [| split].
  - destruct (generate_unsorted_spec _ _ _ Hl) as (mp & _ & _ & (r & Er) & _). intros C. rewrite C in P.
    apply Permutation.Permutation_sym, Permutation.Permutation_nil in P. subst l. discriminate.
  - rewrite E. destruct (ls_char (h_lat h)); discriminate.
  - rewrite E. intros v. apply translations_range.
Qed.
Lemma entry_exists g i j : (i < length (gp_lattice g))%nat -> (j < num_of_general_pos g)%nat -> exists m, entry g i j m.
Proof.
  intros Li Lj. apply nth_error_Some in Li, Lj. destruct (nth_error (gp_lattice g) i) as [v |] eqn:V; [| congruence].
  destruct (nth_error (gp_core g) j) as [c |] eqn:C; [| congruence].
  exists (Sz (rot c) (vadd (tra c) v) (bot c) (cor c)), c, v. auto.
Qed.
Lemma sets_no_shorter f h g f' h' g' txt : general_positions f h = Done g -> general_positions f' h' = Done g' ->
  text_format g = Done txt -> text_format g' = Done txt -> (num_of_general_pos g' <= num_of_general_pos g)%nat.
Proof.
  intros H H' T T'. destruct (generated_nonempty _ _ _ H) as (NC & NL & B), (generated_nonempty _ _ _ H') as (NC' & NL' & B').
  destruct (C35_text_format_lines g txt NC NL B T) as (Len & Hd & En).
  destruct (C35_text_format_lines g' txt NC' NL' B' T') as (Len' & _ & En').
  set (n := num_of_general_pos g) in *. set (n' := num_of_general_pos g') in *.
  destruct (Nat.le_gt_cases n' n) as [L | L]; [exact L | exfalso].
  assert (P' : (0 < length (gp_lattice g'))%nat) by (destruct (gp_lattice g'); [congruence | simpl; lia]).
  destruct (entry_exists g' 0 n P' L) as (m & Em). destruct (En' O n m Em) as (num & s & E1 & E2 & _). cbn [Nat.mul Nat.add] in E1.
  destruct (nth_error (gp_lattice g) 1) as [v |] eqn:V.
  - destruct (Hd 1%nat v V) as (a & b & c & E3 & _). rewrite Nat.mul_1_l, Nat.add_1_r in E3. rewrite E3 in E1.
    apply some_inj in E1. destruct (number_first num (", " ++ s)) as [Q _]; [congruence |]. apply Q. rewrite <- E1. reflexivity.
  - apply nth_error_None in V. assert (X : (S n < length (split_on newline_char txt))%nat) by (apply nth_error_Some; congruence).
    rewrite Len in X. assert (Y : length (gp_lattice g) = 1%nat) by (destruct (gp_lattice g); [congruence | simpl in *; lia]).
    rewrite Y in X. lia.
Qed.
Lemma digits_no_comma : forall num a v, digits_value a num = Some v -> lacks ","%char num = true.
Proof.
  induction num as [| c r IH]; intros a v H; [reflexivity |]. cbn [digits_value] in H. cbn [lacks].
  destruct (Ascii.eqb c ",") eqn:E; [| destruct ((48 <=? _) && _)%bool; [eapply IH; eauto | discriminate]].
  apply Ascii.eqb_eq in E. subst c. discriminate.
Qed.
Lemma comma_split : forall a b s t, lacks ","%char a = true -> lacks ","%char b = true ->
  (a ++ ", " ++ s = b ++ ", " ++ t)%string -> s = t.
Proof.
  induction a as [| c a IH]; intros [| d b] s t La Lb E; cbn [append] in E.
  - injection E as ->. reflexivity.
  - injection E as <- _. discriminate.
  - injection E as -> _. discriminate.
  - injection E as -> E. cbn [lacks] in La, Lb. destruct (Ascii.eqb d ","); [discriminate |]. exact (IH b s t La Lb E).
Qed.
Lemma vadd_0_r v : vadd v v0 = v.
Proof. destruct v as [x y z]. unfold vadd, v0. cbn [vx vy vz]. rewrite !Z.add_0_r. reflexivity. Qed.
Theorem C67_text_format_determines_positions :
  forall f h g f' h' g', general_positions f h = Done g -> general_positions f' h' = Done g' ->
    (text_format g = text_format g' <-> g = g').
Proof.
  intros f h g f' h' g' H H'. split; [| intros ->; reflexivity]. intros E.
  destruct (C67_listings_exist _ _ _ H) as [(txt & T) _]. assert (T' : text_format g' = Done txt) by congruence.
  pose proof (sets_no_shorter _ _ _ _ _ _ _ H H' T T') as S1. pose proof (sets_no_shorter _ _ _ _ _ _ _ H' H T' T) as S2.
  assert (N : num_of_general_pos g' = num_of_general_pos g) by lia.
  destruct (generated_nonempty _ _ _ H) as (NC & NL & B), (generated_nonempty _ _ _ H') as (NC' & NL' & B').
  destruct (C35_text_format_lines g txt NC NL B T) as (Len & _ & En).
  destruct (C35_text_format_lines g' txt NC' NL' B' T') as (Len' & _ & En').
  rewrite N in Len', En'. set (n := num_of_general_pos g) in *.
  assert (LL : length (gp_lattice g') = length (gp_lattice g)) by nia.
  assert (K : forall i j m m', entry g i j m -> entry g' i j m' -> same_op m m').
  { intros i j m m' Hm Hm'. destruct (En i j m Hm) as (a & s & E1 & E2 & J). destruct (En' i j m' Hm') as (b & t & E3 & E4 & J').
    rewrite E1 in E3. apply some_inj in E3.
    assert (Q : forall num v, number_value num = Some v -> lacks ","%char num = true).
    { intros num v Q. unfold number_value in Q. destruct num; [discriminate | eapply digits_no_comma; eauto]. }
    apply comma_split in E3; [| eapply Q; eauto | eapply Q; eauto]. subst t.
    assert (U : unit_matrix (rot m)).
    { destruct Hm as (c & v & C & _ & R & _). rewrite R. apply (C61_listed_positions _ _ _ H c (nth_error_In _ _ C)). }
    assert (U' : unit_matrix (rot m')).
    { destruct Hm' as (c & v & C & _ & R & _). rewrite R. apply (C61_listed_positions _ _ _ H' c (nth_error_In _ _ C)). }
    exact (proj2 (C22_same_text_same_operation m m' s U U' J J')). }
  (* the first centring vector is zero in both *)
  assert (Z0 : nth_error (gp_lattice g) 0 = Some v0 /\ nth_error (gp_lattice g') 0 = Some v0).
  { destruct (general_positions_spec _ _ _ H) as (-> & _), (general_positions_spec _ _ _ H') as (-> & _).
    split; [destruct (ls_char (h_lat h)) | destruct (ls_char (h_lat h'))]; reflexivity. }
  destruct Z0 as [Z1 Z2].
  assert (Cj : forall j c c', nth_error (gp_core g) j = Some c -> nth_error (gp_core g') j = Some c' -> same_op c c').
  { intros j c c' Hc Hc'.
    assert (X : same_op (Sz (rot c) (vadd (tra c) v0) (bot c) (cor c)) (Sz (rot c') (vadd (tra c') v0) (bot c') (cor c'))).
    { apply (K O j); [exists c, v0 | exists c', v0]; auto. }
    destruct X as [X Y]. split; [exact X |]. cbn [tra] in Y.
    rewrite !vadd_0_r in Y. exact Y. }
  assert (Ec : gp_core g = gp_core g').
  { assert (Lc : length (gp_core g') = length (gp_core g)) by exact N.
    pose proof (C28_normalised _ _ _ H) as NA. pose proof (C28_normalised _ _ _ H') as NB.
    revert Cj Lc NA NB. generalize (gp_core g) as l, (gp_core g') as l'. clear.
    induction l as [| x l IH]; intros [| y l'] Cj Lc NA NB; try discriminate; [reflexivity |]. f_equal.
    - destruct (NA x (or_introl eq_refl)) as [Ax Bx], (NB y (or_introl eq_refl)) as [Ay By].
      destruct (Cj O x y eq_refl eq_refl) as (R & (i & X) & (j & Y) & (k & Z)).
      rewrite (affine_aff x Ax), (affine_aff y Ay), R. f_equal. apply vec3_ext; unfold vbetween in *; lia.
    - apply IH; [intros j; exact (Cj (S j)) | simpl in Lc; lia | intros; apply NA; right; auto | intros; apply NB; right; auto]. }
  assert (El : gp_lattice g = gp_lattice g').
  { destruct (gp_core g) as [| c l] eqn:C; [congruence |].
    assert (V : forall i v v', nth_error (gp_lattice g) i = Some v -> nth_error (gp_lattice g') i = Some v' -> v = v').
    { intros i v v' Hv Hv'.
      assert (X : same_op (Sz (rot c) (vadd (tra c) v) (bot c) (cor c)) (Sz (rot c) (vadd (tra c) v') (bot c) (cor c))).
      { apply (K i O); [exists c, v; rewrite C | exists c, v'; rewrite <- Ec]; auto. }
      destruct X as [_ ((a & X) & (b & Y) & (d & Z))]. cbn [tra vadd vx vy vz] in X, Y, Z.
      pose proof (B v (nth_error_In _ _ Hv)) as R1. pose proof (B' v' (nth_error_In _ _ Hv')) as R2.
      apply vec3_ext; unfold vbetween in *; lia. }
    revert V LL. generalize (gp_lattice g) as l1, (gp_lattice g') as l2. clear.
    induction l1 as [| x l1 IH]; intros [| y l2] V L; try discriminate; [reflexivity |]. f_equal.
    - exact (V O x y eq_refl eq_refl).
    - apply IH; [intros i; exact (V (S i)) | simpl in L; lia]. }
  clear - Ec El. destruct g as [l1 c1], g' as [l2 c2]. cbn [gp_core gp_lattice] in Ec, El. congruence.
Qed.
(** the plain listing does not show the sets: I 1 and P 1 1n have the same one *)
Theorem C67_pure_txt_determines_positions_refuted :
  exists h g h' g', try_from_str "I 1" = Done (Some h) /\ general_positions 10 h = Done g /\
    try_from_str "P 1 1n" = Done (Some h') /\ general_positions 10 h' = Done g' /\
    pure_txt g = pure_txt g' /\ g <> g'.
Proof.
  do 4 eexists. split; [vm_compute; reflexivity |]. split; [vm_compute; reflexivity |]. split; [vm_compute; reflexivity |].
  split; [vm_compute; reflexivity |]. split; [vm_compute; reflexivity | discriminate].
Qed.
