(** * PropRefine: additions to C11, C51 and C77. *)
From Coq Require Import QArith Permutation.
From Verif Require Import Base Notations Parser Seitz F64 Jones Rotations Tables Generate Positions Order
  Spec SpecHall SpecXyz SpecCompat SpecOutcome SpecTables SpecRotation SpecCanon SpecOrbit SpecSite Algebra PropSeitz PropSymbols PropRotation GenFacts
  PropGenerate GroupCheck PropFullSets PropShift PropTables PropTableGroups PropJones Restriction PropTermination PropCanon PropOutcome Subgroups PropClass PropOrbit
  PropSubgroup PropPeriod PropSite PropTable PropOrder PropRepeat.
Open Scope Z_scope.
Local Notation length := List.length.

(** ** C77: the site symmetries of equivalent points are conjugate *)
Theorem C77_conjugate_sites :
  forall fuel h g p a, general_positions fuel h = Done g -> no_extra_translations h -> In a (all_operations g) ->
    (forall b, In b (site_symmetry g p) -> exists c, In c (site_symmetry g (act a p)) /\ sz_eqb (sz_mul c a) (sz_mul a b) = true) /\
    (forall c, In c (site_symmetry g (act a p)) -> exists b, In b (site_symmetry g p) /\ sz_eqb (sz_mul c a) (sz_mul a b) = true).
Proof.
  intros fuel h g p a H T Ia. apply listed_all in Ia. destruct (listed_group _ _ _ _ H Ia) as [Aa Ga].
  pose proof (hall_group_unimodular _ _ Ga) as U. pose proof (hall_inv _ _ Ga) as Gi.
  assert (Aff : forall q m, In m (site_symmetry g q) -> is_affine m).
  { intros q m I. apply site_in in I. destruct I as [I _]. apply listed_all in I. exact (proj1 (listed_group _ _ _ _ H I)). }
  assert (Mul : forall x y, is_affine x -> is_affine y -> op_same (op_comp (op_of x) (op_of a)) (op_comp (op_of a) (op_of y)) ->
    sz_eqb (sz_mul x a) (sz_mul a y) = true).
  { intros x y Ax Ay S. apply (mul_same x a (sz_mul a y) Ax Aa). apply op_same_trans with (1 := S).
    apply (proj1 (mul_same a y (sz_mul a y) Aa Ay)). apply sz_eqb_op, op_same_refl. }
  split.
  - intros b Ib. destruct (site_group fuel h g H p b Ib) as [Gb Cb].
    set (o := op_comp (op_comp (op_of a) (op_of b)) (op_inv (op_of a))).
    assert (Go : hall_group h o) by exact (gen_comp _ _ _ (gen_comp _ _ _ Ga Gb) Gi).
    assert (Eo : op_comp o (op_of a) = op_comp (op_of a) (op_of b)).
    { unfold o. rewrite <- op_comp_assoc, (op_inv_l _ U), op_comp_id_r. reflexivity. }
    assert (Co : cells_apart (act_op o (act a p)) (act a p)).
    { rewrite act_op_of. eapply cells_apart_trans; [apply cells_apart_sym, act_op_comp |]. rewrite Eo.
      eapply cells_apart_trans; [apply act_op_comp | apply act_op_apart, Cb]. }
    destruct (group_site fuel h g H T (act a p) o Go Co) as (c & Ic & Ec). exists c. split; [exact Ic |].
    apply (Mul c b (Aff _ _ Ic) (Aff _ _ Ib)). rewrite <- Eo. apply op_same_comp; [exact Ec | apply op_same_refl].
  - intros c Ic. destruct (site_group fuel h g H (act a p) c Ic) as [Gc Cc].
    set (o := op_comp (op_inv (op_of a)) (op_comp (op_of c) (op_of a))).
    assert (Go : hall_group h o) by exact (gen_comp _ _ _ Gi (gen_comp _ _ _ Gc Ga)).
    assert (Eo : op_comp (op_of a) o = op_comp (op_of c) (op_of a)).
    { unfold o. rewrite op_comp_assoc, (op_inv_r _ U), op_comp_id_l. reflexivity. }
    assert (Co : cells_apart (act_op o p) p).
    { unfold o. eapply cells_apart_trans; [apply act_op_comp |].
      eapply cells_apart_trans; [apply act_op_apart; eapply cells_apart_trans; [apply act_op_comp | exact Cc] |].
      rewrite act_op_of. eapply cells_apart_trans; [apply cells_apart_sym, act_op_comp |]. rewrite (op_inv_l _ U). apply act_op_id. }
    destruct (group_site fuel h g H T p o Go Co) as (b & Ib & Eb). exists b. split; [exact Ib |].
    apply (Mul c b (Aff _ _ Ic) (Aff _ _ Ib)). rewrite <- Eo. apply op_same_comp; [apply op_same_refl | apply op_same_sym, Eb].
Qed.
(** ** C11: the positions move along also when there are extra translations, then modulo the translations of the group *)
Theorem C11_positions_move_with_extra_translations :
  forall fuel h v g, ls_minus (h_lat h) = false -> general_positions fuel (with_shift v h) = Done g ->
    exists fuel0 g0, general_positions fuel0 (with_shift v0 h) = Done g0 /\
      (forall a, In a (gp_core g0) -> exists b, In b (gp_core g) /\ rot b = rot a /\
         hall_group (with_shift v h) (I3, vsub (tra b) (snd (op_conj v (op_of a))))) /\
      (forall b, In b (gp_core g) -> exists a, In a (gp_core g0) /\ rot b = rot a /\
         hall_group (with_shift v h) (I3, vsub (tra b) (snd (op_conj v (op_of a))))).
Proof.
  intros fuel h v g Mi H.
  assert (R0 : returns (with_shift v0 h)).
  { apply C62_outcome. exact (proj1 (proj1 (C62_outcome (with_shift v h))) (ex_intro _ fuel (ex_intro _ g H))). }
  destruct R0 as (fuel0 & g0 & H0). exists fuel0, g0. split; [exact H0 |].
  assert (D : forall a b, In a (gp_core g0) -> In b (gp_core g) -> rot b = rot a ->
    hall_group (with_shift v h) (I3, vsub (tra b) (snd (op_conj v (op_of a))))).
  { intros a b Ia Ib E. destruct (C25_positions_sound _ _ _ H0 a Ia) as [_ Ga]. destruct (C25_positions_sound _ _ _ H b Ib) as [_ Gb].
    apply (C11_group_moves h v _ Mi) in Ga. pose proof (hall_group_unimodular _ _ Ga) as U.
    pose proof (gen_comp _ _ _ Gb (hall_inv _ _ Ga)) as G. rewrite op_conj_formula in *. cbn [fst snd op_of] in *.
    unfold op_comp, op_inv in G. cbn [fst snd op_of] in G. rewrite E in G. rewrite (minv_r _ U) in G.
    rewrite mvmul_vopp, <- mvmul_mmul, (minv_r _ U), mvmul_I in G.
    match type of G with generated _ (I3, ?x) => match goal with |- hall_group _ (I3, ?y) => replace y with x; [exact G |] end end.
    generalize (mvmul (rot a) v). generalize (tra a), (tra b). intros [] [] []. destruct v. mat_ring. }
  split.
  - intros a Ia. destruct (proj1 (C26_point_group_complete _ _ _ H (rot a))) as (b & Ib & E).
    + exists (snd (op_conj v (op_of a))). destruct (C25_positions_sound _ _ _ H0 a Ia) as [_ Ga].
      apply (C11_group_moves h v _ Mi) in Ga. rewrite op_conj_formula in *. exact Ga.
    + exists b. auto.
  - intros b Ib. destruct (proj1 (C26_point_group_complete _ _ _ H0 (rot b))) as (a & Ia & E).
    + destruct (C25_positions_sound _ _ _ H b Ib) as [_ Gb].
      exists (snd (op_conj (vopp v) (op_of b))). apply (C11_group_moves h v _ Mi).
      match goal with |- hall_group _ ?x => replace x with (op_of b); [exact Gb |] end.
      rewrite !op_conj_formula. destruct b as [R [t1 t2 t3] bb cc], v as [x y z], R. unfold op_of. cbn. f_equal. mat_ring.
    + exists a. split; [exact Ia |]. split; [congruence |]. apply D; auto.
Qed.
(** P 1 1d seen from (1/12, 1/6, 1/4) *)
Example C11_extra_case : exists h g, try_from_str "P 1 1d (1 2 3)" = Done (Some h) /\ h_shift h = V3 1 2 3 /\ ls_minus (h_lat h) = false /\
  general_positions 10 (with_shift (h_shift h) h) = Done g /\ ~ no_extra_translations (with_shift (h_shift h) h).
Proof.
  assert (Q : match try_from_str "P 1 1d (1 2 3)" with Done (Some h) => match general_positions 10 (with_shift (h_shift h) h) with Done _ => true | _ => false end | _ => false end = true)
    by (vm_compute; reflexivity).
  destruct (try_from_str "P 1 1d (1 2 3)") as [[h |] | |] eqn:E; try discriminate Q.
  destruct (general_positions 10 (with_shift (h_shift h) h)) as [g | |] eqn:G; try discriminate Q. exists h, g.
  vm_compute in E. injection E as <-. repeat split; auto. intros T.
  assert (X : hall_group (with_shift (V3 1 2 3) (Hall (LS false LP) [MS false F1 SubNone DiagNone AxZ None; MS false F1 SubNone DiagNone AxZ (Some [TD])] (V3 1 2 3))) (I3, V3 3 3 3)).
  { apply gen_base. right; right. eexists _, _. split; [right; left; reflexivity |]. split; vm_compute; reflexivity. }
  apply T in X. destruct X as (u & [Eu | []] & C). cbn in C. subst u. destruct C as (Cx & _). destruct Cx as (k & Ck). cbn [vx] in Ck. lia.
Qed.
(** ** C51: equal positions do not imply equal groups when a symbol adds a translation: P 1 and P 1 1a *)
Theorem C51_equal_positions_same_group_refuted :
  exists h h' a b, try_from_str "P 1" = Done (Some h) /\ try_from_str "P 1 1a" = Done (Some h') /\
    general_positions 10 h = Done a /\ general_positions 10 h' = Done b /\ gpos_eqb a b = true /\
    hall_group h' (I3, V3 6 0 0) /\ ~ hall_group h (I3, V3 6 0 0).
Proof.
  destruct C60_cases as (_ & _ & h' & b & E' & H' & _ & G').
  destruct (case_spec "P 1" 1) as (h & a & E & H & T & _); [vm_compute; reflexivity |].
  exists h, h', a, b. split; [exact E |]. split; [exact E' |]. split; [exact H |]. split; [exact H' |]. split; [| split; [exact G' |]].
  - vm_compute in E, E'. injection E as <-. injection E' as <-. vm_compute in H, H'. injection H as <-. injection H' as <-. vm_compute. reflexivity.
  - intros G. apply T in G. vm_compute in E. injection E as <-. destruct G as (u & [Eu | []] & C). cbn in C. subst u. destruct C as (Cx & _). destruct Cx as (k & Ck). cbn [vx] in Ck. lia.
Qed.
