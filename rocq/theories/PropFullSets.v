(** * PropFullSets: properties C33, C34, C36, C46 and concrete cases for C25-C29. *)
From Coq Require Import Permutation.
From Verif Require Import Base Notations Parser Seitz F64 Jones Rotations Tables Generate Positions
  Spec SpecHall Algebra PropSeitz PropSymbols GenFacts PropGenerate GroupCheck.
Open Scope Z_scope.
Local Notation length := List.length.

(** ** C33  Full sets *)
Theorem C33_one_set_per_centring_vector :
  forall fuel h g, general_positions fuel h = Done g ->
    length (derive_full_sets g) = length (translations (ls_char (h_lat h))) /\
    forall i set, nth_error (derive_full_sets g) i = Some set ->
      length set = num_of_general_pos g /\
      exists v, nth_error (translations (ls_char (h_lat h))) i = Some v /\
        forall k m, nth_error set k = Some m ->
          exists c, nth_error (gp_core g) k = Some c /\
            is_affine m /\ op_same (op_of m) (op_comp (I3, v) (op_of c)).
Proof.
  intros fuel h g H. destruct (general_positions_spec _ _ _ H) as (E & _).
  unfold derive_full_sets. rewrite E, map_length. split; auto.
  intros i set Hi. rewrite nth_error_map in Hi.
  destruct (nth_error (translations (ls_char (h_lat h))) i) as [v|] eqn:Ev; [| discriminate].
  injection Hi as <-. unfold num_of_general_pos. rewrite map_length. split; auto.
  exists v. split; auto. intros k m Hk. rewrite nth_error_map in Hk.
  destruct (nth_error (gp_core g) k) as [c|] eqn:Ec; [| discriminate]. injection Hk as <-.
  exists c. split; auto.
  destruct (C28_normalised _ _ _ H c (nth_error_In _ _ Ec)) as [A _].
  split; [rewrite (affine_aff c A); apply aff_affine |].
  split; cbn [sz_addv op_of op_comp fst snd rot tra]; [rewrite mmul_I_l; auto |].
  rewrite mvmul_I. apply vcong12_rem.
Qed.
(** operations at different places (set number, number within the set) are different *)
Theorem C33_all_distinct :
  forall fuel h g, general_positions fuel h = Done g ->
    forall i j k l s s' a b,
      nth_error (derive_full_sets g) i = Some s -> nth_error s k = Some a ->
      nth_error (derive_full_sets g) j = Some s' -> nth_error s' l = Some b ->
      same_op a b -> i = j /\ k = l.
Proof.
  intros fuel h g H i j k l s s' a b Hs Ha Hs' Hb [ER ET].
  destruct (C33_one_set_per_centring_vector _ _ _ H) as [_ F].
  destruct (F i s Hs) as (_ & v & Hv & Fa). destruct (F j s' Hs') as (_ & w & Hw & Fb).
  destruct (Fa k a Ha) as (c & Hc & _ & Ca). destruct (Fb l b Hb) as (d & Hd & _ & Cb).
  destruct Ca as [Ra Ta], Cb as [Rb Tb]. cbn [op_of op_comp fst snd] in *.
  rewrite mmul_I_l in Ra, Rb. rewrite mvmul_I in Ta, Tb.
  assert (K : k = l).
  { destruct (Nat.eq_dec k l) as [| N]; auto. exfalso.
    apply (C27_no_duplicates _ _ _ H k l c d Hc Hd N). split; [congruence |].
    assert (Lv := in_lat_in _ _ (nth_error_In _ _ Hv)). assert (Lw := in_lat_in _ _ (nth_error_In _ _ Hw)).
    apply in_lat_cong with (vadd w (vopp v)); [| apply in_lat_add; auto using in_lat_opp].
    assert (Q : vcong12 (vadd (tra c) v) (vadd (tra d) w)).
    { eapply vcong12_trans; [apply vcong12_sym; exact Ta |].
      eapply vcong12_trans; [exact ET | exact Tb]. }
    replace (vadd w (vopp v)) with (vsub (vadd (tra d) w) (vadd (tra d) v)) by mat_ring.
    replace (vsub (tra c) (tra d)) with (vsub (vadd (tra c) v) (vadd (tra d) v)) by mat_ring.
    apply vcong12_vsub; [apply vcong12_sym; exact Q | apply vcong12_refl]. }
  subst l. split; auto. assert (c = d) by congruence. subst d.
  assert (Q : vcong12 v w).
  { assert (Q : vcong12 (vadd (tra c) v) (vadd (tra c) w)).
    { eapply vcong12_trans; [apply vcong12_sym; exact Ta |].
      eapply vcong12_trans; [exact ET | exact Tb]. }
    replace v with (vsub (vadd (tra c) v) (tra c)) by mat_ring.
    replace w with (vsub (vadd (tra c) w) (tra c)) by mat_ring.
    apply vcong12_vsub; auto using vcong12_refl. }
  assert (v = w).
  { apply vcong12_small; auto; eapply translations_range, nth_error_In; eauto. }
  subst w. destruct (C24_centring_group (ls_char (h_lat h))) as (_ & ND & _).
  eapply (proj1 (NoDup_nth_error _)); eauto; [| congruence].
  apply nth_error_Some. congruence.
Qed.

(** ** C34  Full sets form a group *)
Definition listed (g : gpos) (m : seitz) : Prop := exists set, In set (derive_full_sets g) /\ In m set.
Lemma listed_group fuel h g m : general_positions fuel h = Done g -> listed g m ->
  is_affine m /\ hall_group h (op_of m).
Proof. intros H (s & Hs & Hm). exact (C25_full_sets_sound _ _ _ H s m Hs Hm). Qed.
Lemma group_listed fuel h g o : general_positions fuel h = Done g -> no_extra_translations h ->
  hall_group h o -> exists m, listed g m /\ op_same (op_of m) o.
Proof.
  intros H T G. apply (C26_full_sets_complete _ _ _ H T) in G. destruct G as (s & m & ? & ? & ?).
  exists m. split; auto. exists s; auto.
Qed.
Theorem C34_full_sets_group :
  forall fuel h g, general_positions fuel h = Done g -> no_extra_translations h ->
    (exists e, listed g e /\ sz_eqb e sz_identity = true) /\
    (forall a b, listed g a -> listed g b -> exists c, listed g c /\ sz_eqb (sz_mul a b) c = true) /\
    (forall a, listed g a -> exists b, listed g b /\ sz_eqb (sz_mul a b) sz_identity = true
                                        /\ sz_eqb (sz_mul b a) sz_identity = true).
Proof.
  intros fuel h g H T. split; [| split].
  - destruct (group_listed _ _ _ op_id H T (gen_one _)) as (m & L & [E1 E2]).
    exists m. split; auto. apply sz_eqb_same. split; auto.
  - intros a b La Lb. destruct (listed_group _ _ _ _ H La) as [Aa Ga], (listed_group _ _ _ _ H Lb) as [Ab Gb].
    destruct (group_listed _ _ _ _ H T (gen_comp _ _ _ Ga Gb)) as (c & Lc & [E1 E2]).
    exists c. split; auto. apply sz_eqb_same, same_op_sym.
    rewrite (affine_aff a Aa), (affine_aff b Ab), sz_mul_aff. split; auto.
    cbn [op_of op_comp fst snd] in E2.
    eapply vcong12_trans; [exact E2 | apply vcong12_sym, vcong12_rem].
  - intros a La. destruct (listed_group _ _ _ _ H La) as [Aa Ga].
    assert (U := hall_group_unimodular _ _ Ga).
    assert (Gi : hall_group h (op_inv (op_of a))) by (apply (gen_inv _ (op_of a)); auto; apply op_inv_r; auto).
    destruct (group_listed _ _ _ _ H T Gi) as (b & Lb & E).
    exists b. split; auto. destruct (listed_group _ _ _ _ H Lb) as [Ab _].
    assert (Q : forall x y, is_affine x -> is_affine y -> op_same (op_comp (op_of x) (op_of y)) op_id ->
                sz_eqb (sz_mul x y) sz_identity = true).
    { intros x y Ax Ay [Q1 Q2]. apply sz_eqb_same. rewrite (affine_aff x Ax), (affine_aff y Ay), sz_mul_aff.
      split; [exact Q1 |]. cbn [tra aff]. eapply vcong12_trans; [apply vcong12_rem | exact Q2]. }
    split; apply Q; auto.
    + rewrite <- (op_inv_r (op_of a) U). apply op_same_comp; auto using op_same_refl.
    + rewrite <- (op_inv_l (op_of a) U). apply op_same_comp; auto using op_same_refl.
Qed.

(** ** C36  Leading minus *)
Theorem C36_rotations_centrosymmetric :
  forall fuel h g, general_positions fuel h = Done g -> ls_minus (h_lat h) = true ->
    forall m, In m (gp_core g) -> exists m', In m' (gp_core g) /\ rot m' = mopp (rot m).
Proof.
  intros fuel h g H Mi m Hm. destruct (C25_positions_sound _ _ _ H m Hm) as [_ G].
  assert (Gi : hall_group h (mopp I3, V3 0 0 0)) by (apply gen_base; right; left; auto).
  apply (C26_point_group_complete _ _ _ H). exists (snd (op_comp (mopp I3, V3 0 0 0) (op_of m))).
  assert (K := gen_comp _ _ _ Gi G). unfold op_comp in K at 1. cbn [fst snd] in K.
  unfold op_of in K at 1. cbn [fst] in K. rewrite mmul_mopp_l, mmul_I_l in K. exact K.
Qed.
(** x |-> -(R x + t) is listed with every listed x |-> R x + t *)
Theorem C36_full_sets_centrosymmetric :
  forall fuel h g, general_positions fuel h = Done g -> ls_minus (h_lat h) = true ->
    no_extra_translations h ->
    forall m, listed g m -> exists m', listed g m' /\
      rot m' = mopp (rot m) /\ vcong12 (tra m') (vopp (tra m)).
Proof.
  intros fuel h g H Mi T m Lm. destruct (listed_group _ _ _ _ H Lm) as [_ G].
  assert (Gi : hall_group h (mopp I3, V3 0 0 0)) by (apply gen_base; right; left; auto).
  destruct (group_listed _ _ _ _ H T (gen_comp _ _ _ Gi G)) as (m' & L & [E1 E2]).
  exists m'. split; auto. cbn [op_of op_comp fst snd] in *.
  rewrite mmul_mopp_l, mmul_I_l in E1. split; auto.
  replace (vopp (tra m)) with (vadd (mvmul (mopp I3) (tra m)) (V3 0 0 0)) by mat_ring. exact E2.
Qed.

(** ** C46  The representative chosen for a translation *)
Definition norm_squared (v : vec3) : Z := vx v * vx v + vy v * vy v + vz v * vz v.
Theorem C46_same_coset :
  forall l t, centring l (vsub (minimal_repr (translations l) t) t).
Proof.
  intros l t. destruct (minimal_repr_spec l t) as (u & Hu & ->). exists u. split; auto.
  replace u with (vsub (vadd t u) t) at 2 by mat_ring.
  apply vcong12_vsub; auto using vcong12_refl, vcong12_pm.
Qed.
Theorem C46_never_longer :
  forall l t, norm_squared (minimal_repr (translations l) t) <= norm_squared (vmap positive_mod t).
Proof.
  intros l t. unfold minimal_repr.
  assert (Q : forall cs c, norm2 (fold_left minimal_step cs c) <= norm2 c).
  { induction cs as [| x cs IH]; intros c; cbn [fold_left]; [lia |].
    specialize (IH (minimal_step c x)). unfold minimal_step in *.
    destruct (Z.ltb_spec (norm2 x) (norm2 c)); cbn [andb] in *; [| lia].
    destruct (Nat.leb _ _); lia. }
  apply Q.
Qed.
(** and in the half-open cell, for translations above -12 (all the program passes it) *)
Theorem C46_in_cell :
  forall l t, -12 < vx t -> -12 < vy t -> -12 < vz t -> vbetween 0 12 (minimal_repr (translations l) t).
Proof.
  intros l t Hx Hy Hz. destruct (minimal_repr_spec l t) as (u & Hu & ->). apply vpm_range, vlow_add.
  - repeat split; auto. - eapply translations_range; eauto.
Qed.
(** it is the shortest among the candidates with as few zero components as itself: every candidate
    is at least as long or has more zero components; and it has no more of them than the reduced input *)
Definition zero_components (v : vec3) : nat := length (filter (fun x => x =? 0) [vx v; vy v; vz v]).
Lemma count_zero v : vbetween 0 12 v -> count_le0 v = zero_components v.
Proof.
  destruct v as [x y z]. unfold vbetween, count_le0, zero_components, vlist. cbn [vx vy vz]. intros H. f_equal.
  assert (K : forall a, 0 <= a -> (a <=? 0) = (a =? 0)).
  { intros a A. destruct (Z.leb_spec a 0), (Z.eqb_spec a 0); auto; lia. }
  cbn [filter]. rewrite !K by lia. reflexivity.
Qed.
Theorem C46_choice :
  forall l t, -12 < vx t -> -12 < vy t -> -12 < vz t ->
    let r := minimal_repr (translations l) t in
    (zero_components r <= zero_components (vmap positive_mod t))%nat /\
    forall u, In u (translations l) ->
      norm_squared r <= norm_squared (vmap positive_mod (vadd t u)) \/
      (zero_components r < zero_components (vmap positive_mod (vadd t u)))%nat.
Proof.
  intros l t X Y Z r. subst r. unfold minimal_repr.
  assert (B0 : vbetween 0 12 (vmap positive_mod t)) by (apply vpm_range; unfold vlow; auto).
  assert (Bs : forall c, In c (map (fun tr => vmap positive_mod (vadd t tr)) (translations l)) -> vbetween 0 12 c).
  { intros c I. apply in_map_iff in I. destruct I as (u & <- & I). apply vpm_range, vlow_add; [repeat split; auto |]. eapply translations_range; eauto. }
  assert (Q : forall cs c, vbetween 0 12 c -> (forall x, In x cs -> vbetween 0 12 x) ->
    let r := fold_left minimal_step cs c in
    (zero_components r <= zero_components c)%nat /\ norm_squared r <= norm_squared c /\
    forall x, In x cs -> norm_squared r <= norm_squared x \/ (zero_components r < zero_components x)%nat).
  { induction cs as [| x cs IH]; intros c Bc Bx; cbn [fold_left]; cbv zeta.
    - split; [lia |]. split; [lia |]. intros ? [].
    - assert (Bx0 : vbetween 0 12 x) by (apply Bx; now left).
      assert (S : vbetween 0 12 (minimal_step c x)) by (unfold minimal_step; destruct (_ && _); assumption).
      destruct (IH (minimal_step c x) S (fun y I => Bx y (or_intror I))) as (I1 & I2 & I3).
      assert (T : (zero_components (minimal_step c x) <= zero_components c)%nat /\ norm_squared (minimal_step c x) <= norm_squared c /\
        (norm_squared (minimal_step c x) <= norm_squared x \/ (zero_components (minimal_step c x) < zero_components x)%nat)).
      { unfold minimal_step. rewrite (count_zero x Bx0), (count_zero c Bc). change norm2 with norm_squared.
        destruct (Z.ltb_spec (norm_squared x) (norm_squared c)), (Nat.leb_spec (zero_components x) (zero_components c)); cbn [andb]; lia. }
      destruct T as (T1 & T2 & T3). split; [lia |]. split; [lia |].
      intros y [<- | I]; [| auto]. destruct T3 as [T3 | T3]; [left; lia | right; lia]. }
  destruct (Q _ _ B0 Bs) as (Q1 & _ & Q3). split; [exact Q1 |]. intros u I. apply Q3. apply in_map_iff. eauto.
Qed.
Example C46_choice_case : minimal_repr (translations LA) (V3 0 6 8) = V3 0 6 8 /\ minimal_repr (translations LA) (V3 0 7 8) = V3 0 1 2 /\
  zero_components (V3 0 6 8) = 1%nat /\ zero_components (vmap positive_mod (vadd (V3 0 6 8) (V3 0 6 6))) = 2%nat.
Proof. repeat split. Qed.
(** it is not the shortest of the coset, and depends on which member it is given *)
Theorem C46_minimal_refuted :
  exists l t u, In u (translations l) /\
    norm_squared (vmap positive_mod (vadd t u)) < norm_squared (minimal_repr (translations l) t).
Proof. exists LA, (V3 0 6 6), (V3 0 6 6). split; [simpl; auto | vm_compute; reflexivity]. Qed.
Theorem C46_unique_refuted :
  exists l t t', centring l (vsub t t') /\
    minimal_repr (translations l) t <> minimal_repr (translations l) t'.
Proof.
  exists LA, (V3 0 6 6), (V3 0 0 0). split; [| vm_compute; discriminate].
  exists (V3 0 6 6). split; [simpl; auto | apply vcong12_refl].
Qed.

(** ** Concrete cases *)
Definition case (s : string) (n : nat) : bool :=
  match try_from_str s with
  | Done (Some h) =>
      match general_positions 10 h with
      | Done g => group_check h (gp_core g) && Nat.eqb (length (gp_core g)) n
      | _ => false
      end
  | _ => false
  end.
Lemma case_spec s n : case s n = true -> exists h g,
  try_from_str s = Done (Some h) /\ general_positions 10 h = Done g /\
  no_extra_translations h /\ num_of_general_pos g = n.
Proof.
  unfold case. destruct (try_from_str s) as [[h|] | |]; try discriminate.
  destruct (general_positions 10 h) as [g | |] eqn:G; try discriminate.
  intros H. apply andb_true_iff in H. destruct H as [H1 H2]. exists h, g.
  apply Nat.eqb_eq in H2. repeat split; auto. eapply ck_no_extra; eauto.
Qed.
(** Ia-3d, P61 2 (0 0 -1), F-43c and C2/c meet the hypotheses of C25-C28, C33, C34, C36 *)
Example C26_cases :
  (exists h g, try_from_str "-I 4bd 2c 3" = Done (Some h) /\ general_positions 10 h = Done g /\
    no_extra_translations h /\ num_of_general_pos g = 48%nat) /\
  (exists h g, try_from_str "P 61 2 (0 0 -1)" = Done (Some h) /\ general_positions 10 h = Done g /\
    no_extra_translations h /\ num_of_general_pos g = 12%nat) /\
  (exists h g, try_from_str "F -4a 2 3" = Done (Some h) /\ general_positions 10 h = Done g /\
    no_extra_translations h /\ num_of_general_pos g = 24%nat) /\
  (exists h g, try_from_str "-C 2yc" = Done (Some h) /\ general_positions 10 h = Done g /\
    no_extra_translations h /\ num_of_general_pos g = 4%nat).
Proof. repeat split; apply case_spec; vm_compute; reflexivity. Qed.

(** the completeness condition of C26 cannot be dropped: for P 4a 4b an operation of the
    group, in fact one of the generators, is not returned *)
Theorem C26_unconditional_refuted :
  exists h g o, try_from_str "P 4a 4b" = Done (Some h) /\ general_positions 10 h = Done g /\
    hall_gens h o /\
    ~ exists set m, In set (derive_full_sets g) /\ In m set /\ op_same (op_of m) o.
Proof.
  set (S1 := MS false F4 SubNone DiagNone AxZ (Some [TA])).
  set (S2 := MS false F4 SubNone DiagNone AxZ (Some [TB])).
  assert (E1 : exists h, try_from_str "P 4a 4b" = Done (Some h) /\ h_syms h = [S1; S2] /\ h_shift h = v0).
  { eexists. split; [vm_compute; reflexivity | split; reflexivity]. }
  destruct E1 as (h & E1 & E2 & E3). exists h.
  assert (E4 : exists g, general_positions 10 h = Done g /\
     forallb (fun s => forallb (fun m => negb (meqb (rot m) (M3 0 (-1) 0 1 0 0 0 0 1) && vforall (fun z => z mod 12 =? 0) (vsub (tra m) (V3 0 6 0)))) s) (derive_full_sets g) = true).
  { vm_compute in E1. injection E1 as <-. eexists. split; [vm_compute; reflexivity | vm_compute; reflexivity]. }
  destruct E4 as (g & Hg & E4). exists g, (op_conj (h_shift h) (M3 0 (-1) 0 1 0 0 0 0 1, V3 0 6 0)).
  split; auto. split; auto. split.
  - right; right. exists S2, (aff (M3 0 (-1) 0 1 0 0 0 0 1) (V3 0 6 0)).
    split; [rewrite E2; simpl; auto | split; reflexivity].
  - rewrite E3. intros (s & m & Hs & Hm & [K1 K2]).
    rewrite forallb_forall in E4. specialize (E4 s Hs). rewrite forallb_forall in E4. specialize (E4 m Hm).
    apply negb_true_iff, andb_false_iff in E4.
    assert (C1 : rot m = M3 0 (-1) 0 1 0 0 0 0 1) by exact K1.
    assert (C2 : vcong12 (tra m) (V3 0 6 0)) by exact K2.
    destruct E4 as [E4 | E4].
    + apply meqb_neq in E4. contradiction.
    + apply Bool.not_true_iff_false in E4. apply E4. apply vforall_true.
      destruct C2 as (X & Y & Z). unfold vsub; cbn [vx vy vz].
      repeat split; apply Z.eqb_eq; apply cong12_mod in X, Y, Z; cbn [vx vy vz] in *;
      rewrite Zminus_mod; rewrite ?X, ?Y, ?Z; reflexivity.
Qed.
