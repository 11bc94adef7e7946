(** * PropShift: property C11, the origin shift moves the whole group. *)
From Coq Require Import Permutation.
From Verif Require Import Base Notations Parser Seitz F64 Jones Rotations Tables Generate Positions
  Spec SpecHall Algebra PropSeitz PropSymbols GenFacts PropGenerate GroupCheck PropFullSets.
Open Scope Z_scope.
Local Notation length := List.length.

(** the same symbol with another origin shift *)
Definition with_shift (v : vec3) (h : hall) : hall := Hall (h_lat h) (h_syms h) v.

Lemma op_conj_comp v a b : op_conj v (op_comp a b) = op_comp (op_conj v a) (op_conj v b).
Proof. rewrite !op_conj_formula. destruct a as [R t], b as [S u]. unfold op_comp; cbn [fst snd]. f_equal. mat_ring. Qed.
Lemma op_conj_id v : op_conj v op_id = op_id.
Proof. rewrite op_conj_formula. unfold op_id; cbn [fst snd]. f_equal. mat_ring. Qed.
Lemma op_conj_conj v w o : op_conj v (op_conj w o) = op_conj (vadd v w) o.
Proof. rewrite !op_conj_formula. destruct o as [R t]. cbn [fst snd]. f_equal. mat_ring. Qed.
Lemma op_conj_0 o : op_conj v0 o = o.
Proof. rewrite op_conj_formula. destruct o as [R t]. cbn [fst snd]. f_equal. mat_ring. Qed.
Lemma op_conj_I v t : op_conj v (I3, t) = (I3, t).
Proof. rewrite op_conj_formula. cbn [fst snd]. f_equal. mat_ring. Qed.
Lemma op_conj_same v a b : op_same a b -> op_same (op_conj v a) (op_conj v b).
Proof.
  intros [E1 E2]. rewrite !op_conj_formula. split; cbn [fst snd]; auto. rewrite E1.
  apply vcong12_vadd; auto using vcong12_refl.
Qed.
Lemma op_conj_fst v o : fst (op_conj v o) = fst o.
Proof. rewrite op_conj_formula. reflexivity. Qed.

Lemma shift_forward h v w o : ls_minus (h_lat h) = false ->
  hall_group (with_shift v h) o -> hall_group (with_shift (vadd w v) h) (op_conj w o).
Proof.
  intros Mi G. induction G as [| g Hg | a b Ha IHa Hb IHb | a b Ha IHa E | a b Ha IHa E].
  - rewrite op_conj_id. apply gen_one.
  - destruct Hg as [(u & Hu & ->) | [(Hm & _) | (ms & m & Hms & Hm & ->)]].
    + rewrite op_conj_I. apply gen_base. left. exists u. auto.
    + cbn [with_shift h_lat] in Hm. congruence.
    + rewrite op_conj_conj. apply gen_base. right; right. exists ms, m. auto.
  - rewrite op_conj_comp. apply gen_comp; auto.
  - apply gen_inv with (op_conj w a); auto. rewrite <- op_conj_comp, E. apply op_conj_id.
  - apply gen_cell with (op_conj w a); auto. apply op_conj_same, E.
Qed.
(** without a leading minus, the group of the symbol with shift [v] is the group of the
    symbol without shift, seen from the shifted origin *)
Theorem C11_group_moves :
  forall h v o, ls_minus (h_lat h) = false ->
    (hall_group (with_shift v h) (op_conj v o) <-> hall_group (with_shift v0 h) o).
Proof.
  intros h v o Mi. split; intros H.
  - apply (shift_forward _ _ (vopp v)) in H; auto. rewrite op_conj_conj in H.
    replace (vadd (vopp v) v) with v0 in H by mat_ring. rewrite op_conj_0 in H. exact H.
  - apply (shift_forward _ _ v) in H; auto. rewrite vadd_0_r in H. exact H.
Qed.
(** the group moves along with the origin *)
Definition moves (h : hall) (v : vec3) : Prop :=
  forall o, hall_group (with_shift v h) (op_conj v o) <-> hall_group (with_shift v0 h) o.
Lemma no_extra_moves h v : moves h v ->
  no_extra_translations (with_shift v h) <-> no_extra_translations (with_shift v0 h).
Proof.
  intros Mv. split; intros T t G; apply T.
  - rewrite <- (op_conj_I v). apply Mv, G.
  - apply Mv. rewrite op_conj_I. exact G.
Qed.
Lemma no_extra_shift h v : ls_minus (h_lat h) = false ->
  no_extra_translations (with_shift v h) <-> no_extra_translations (with_shift v0 h).
Proof. intros Mi. apply no_extra_moves. intros o. apply C11_group_moves, Mi. Qed.
Lemma rank_rot order m m' i : rot m = rot m' -> rank order m i -> rank order m' i.
Proof. intros E (s & H). exists s. unfold jones_rot in *. rewrite <- E. exact H. Qed.

Lemma positions_move_gen :
  forall fuel h v g, moves h v -> no_extra_translations (with_shift v h) ->
    general_positions fuel (with_shift v h) = Done g ->
    exists fuel0 g0, general_positions fuel0 (with_shift v0 h) = Done g0 /\
      num_of_general_pos g0 = num_of_general_pos g /\
      (forall a, listed g0 a -> exists b, listed g b /\ op_same (op_of b) (op_conj v (op_of a))) /\
      (forall b, listed g b -> exists a, listed g0 a /\ op_same (op_of b) (op_conj v (op_of a))).
Proof.
  intros fuel h v g Mv T H.
  assert (T0 : no_extra_translations (with_shift v0 h)) by (apply (no_extra_moves h v); auto).
  assert (D := C28_normalised _ _ _ H).
  destruct (general_positions_spec _ _ _ H) as (_ & l & Hl & Hs & P).
  destruct (generate_unsorted_spec _ _ _ Hl) as (mp1 & I1 & _ & _ & _ & _ & V).
  assert (B : buffer_fits (with_shift v h)).
  { destruct (Z_le_gt_dec (64 * (Z.of_nat (length (translations (ls_char (h_lat h)))) * (if ls_minus (h_lat h) then 2 else 1)
        * prod_folds (h_syms h))) (2 ^ 63 - 1)) as [B | B]; [exact B |]. exfalso.
    destruct (C29_oversized_panics (with_shift v h) fuel V) as (w & W); [| congruence].
    unfold buffer_fits. cbn [with_shift h_lat h_syms]. lia. }
  assert (F : finite_point_group (with_shift v0 h)).
  { assert (F : finite_point_group (with_shift v h)).
    { apply (C29_terminates_iff_finite _ V B). exists fuel. congruence. }
    destruct F as (S & HS). exists S. intros R t G.
    apply Mv in G; auto. rewrite op_conj_formula in G. exact (HS _ _ G). }
  assert (R0 : exists fuel0, general_positions fuel0 (with_shift v0 h) <> OutOfFuel).
  { apply (C29_terminates_iff_finite (with_shift v0 h)); auto. }
  destruct R0 as (fuel0 & R0). exists fuel0.
  assert (G0 : exists g0, general_positions fuel0 (with_shift v0 h) = Done g0).
  { destruct (general_positions fuel0 (with_shift v0 h)) as [g0 | w |] eqn:E; [eauto | | congruence].
    exfalso. unfold general_positions, generate_positions in E.
    destruct (generate_unsorted fuel0 (with_shift v0 h)) as [l0 | w' |] eqn:U; cbn [obind] in E; try discriminate.
    - destruct (sort_positions (with_shift v0 h) l0) as [x | w' |] eqn:So; cbn [obind] in E; try discriminate.
      destruct (h_syms h) as [| ms rest] eqn:Sy.
      { destruct (C30_no_symbols_panics (with_shift v h) l) as (w2 & W); auto. congruence. }
      destruct (proj1 (C30_sort_panics_iff (with_shift v0 h) ms rest l0 Sy)) as (L & m & Hm & NR).
      { eauto. }
      destruct (generate_unsorted_spec _ _ _ U) as (mp0 & I0 & S0 & _).
      assert (Gm := S0 m Hm). apply Mv in Gm; auto.
      assert (K : exists m', In m' (gp_core g) /\ rot m' = rot m).
      { destruct (rotations_complete _ _ _ H _ Gm) as (m' & Hm' & Em'). exists m'. split; auto.
        rewrite Em', op_conj_fst. reflexivity. }
      destruct K as (m' & Hm' & Em').
      apply (Permutation_in _ (Permutation_sym P)) in Hm'.
      assert (W : exists w, sort_positions (with_shift v h) l = Panic w).
      { apply (C30_sort_panics_iff (with_shift v h) ms rest l Sy). split.
        - (* two different rotations in l: the identity's rank exists *)
          destruct (generate_unsorted_spec _ _ _ Hl) as (mp2 & I2 & _ & (r & Er) & _).
          destruct r as [| b r]; [| rewrite Er; simpl; lia]. exfalso.
          rewrite Er in Hm'. destruct Hm' as [<- | []].
          apply (NR O). apply rank_rot with sz_identity; [auto |].
          apply order_index_rank. unfold table_for.
          destruct (ms_fold ms), (ms_diag ms); vm_compute; reflexivity.
        - exists m'. split; auto. intros i Hi. apply (NR i). eapply rank_rot; eauto. }
      destruct W as (w2 & W). congruence.
    - unfold generate_unsorted in U.
      unfold buffer_fits in B. cbn [with_shift h_lat h_syms] in B.
      rewrite (proj1 (max_equiv_pos_spec (with_shift v0 h)) V) in U. cbn [obind] in U.
      destruct (generators_valid (with_shift v0 h) V) as (gs & Hgs).
      destruct (Z.ltb_spec capacity_limit (lattice_equiv_num (h_lat (with_shift v0 h)) * prod_folds (h_syms (with_shift v0 h)))) as [C | C].
      + cbn [with_shift h_lat h_syms] in C. unfold lattice_equiv_num, capacity_limit in C.
        destruct (C24_centring_group (ls_char (h_lat h))) as (_&_&_&_&_&LT). rewrite LT in C.
        destruct (ls_minus (h_lat h)); lia.
      + rewrite Hgs in U. cbn [obind] in U. eapply gen_loop_no_panic; eauto. }
  destruct G0 as (g0 & G0). exists g0. split; auto.
  assert (X : forall a, listed g0 a -> exists b, listed g b /\ op_same (op_of b) (op_conj v (op_of a))).
  { intros a La. destruct (listed_group _ _ _ _ G0 La) as [_ Ga].
    apply Mv in Ga; auto. exact (group_listed _ _ _ _ H T Ga). }
  assert (Y : forall b, listed g b -> exists a, listed g0 a /\ op_same (op_of b) (op_conj v (op_of a))).
  { intros b Lb. destruct (listed_group _ _ _ _ H Lb) as [_ Gb].
    assert (Gb' : hall_group (with_shift v0 h) (op_conj (vopp v) (op_of b))).
    { apply Mv; auto. rewrite op_conj_conj.
      replace (vadd v (vopp v)) with v0 by mat_ring. rewrite op_conj_0. exact Gb. }
    destruct (group_listed _ _ _ _ G0 T0 Gb') as (a & La & Ea). exists a. split; auto.
    apply (op_conj_same v) in Ea. rewrite op_conj_conj in Ea.
    replace (vadd v (vopp v)) with v0 in Ea by mat_ring. rewrite op_conj_0 in Ea.
    apply op_same_sym, Ea. }
  split; [| split; auto].
  destruct (C27_one_position_per_rotation _ _ _ H T) as [N1 M1].
  destruct (C27_one_position_per_rotation _ _ _ G0 T0) as [N2 M2].
  unfold num_of_general_pos. rewrite <- (map_length rot (gp_core g0)), <- (map_length rot (gp_core g)).
  apply Permutation_length, NoDup_Permutation; auto.
  intros R. rewrite M1, M2. split; intros (t & G).
  - apply Mv in G; auto. rewrite op_conj_formula in G. cbn [fst snd] in G. eauto.
  - assert (G' : hall_group (with_shift v0 h) (op_conj (vopp v) (R, t))).
    { apply Mv; auto. rewrite op_conj_conj.
      replace (vadd v (vopp v)) with v0 by mat_ring. rewrite op_conj_0. exact G. }
    rewrite op_conj_formula in G'. cbn [fst snd] in G'. eauto.
Qed.
(** the positions with shift are those without, moved: both are returned together, and the
    full sets correspond under conjugation by the shift, modulo whole cells *)
Theorem C11_positions_move :
  forall fuel h v g, ls_minus (h_lat h) = false -> no_extra_translations (with_shift v h) ->
    general_positions fuel (with_shift v h) = Done g ->
    exists fuel0 g0, general_positions fuel0 (with_shift v0 h) = Done g0 /\
      num_of_general_pos g0 = num_of_general_pos g /\
      (forall a, listed g0 a -> exists b, listed g b /\ op_same (op_of b) (op_conj v (op_of a))) /\
      (forall b, listed g b -> exists a, listed g0 a /\ op_same (op_of b) (op_conj v (op_of a))).
Proof.
  intros fuel h v g Mi T H. apply positions_move_gen with (fuel := fuel); auto. intros o. apply C11_group_moves, Mi.
Qed.
(** *** With a leading minus: exactly when twice the shift is a translation of both groups *)
Lemma conj_inversion v : op_conj v (mopp I3, v0) = op_comp (I3, vadd v v) (mopp I3, v0).
Proof. rewrite op_conj_formula. destruct v as [x y z]. unfold op_comp; cbn [fst snd]. f_equal; mat_ring. Qed.
Lemma conj_inversion_back v : op_conj (vopp v) (mopp I3, v0) = op_comp (mopp I3, v0) (I3, vadd v v).
Proof. rewrite op_conj_formula. destruct v as [x y z]. unfold op_comp; cbn [fst snd]. f_equal; mat_ring. Qed.
Lemma minus_forward h v o : hall_group (with_shift v h) (I3, vadd v v) ->
  hall_group (with_shift v0 h) o -> hall_group (with_shift v h) (op_conj v o).
Proof.
  intros D G. induction G as [| g Hg | a b Ha IHa Hb IHb | a b Ha IHa E | a b Ha IHa E].
  - rewrite op_conj_id. apply gen_one.
  - destruct Hg as [(u & Hu & ->) | [(Hm & ->) | (ms & m & Hms & Hm & ->)]].
    + rewrite op_conj_I. apply gen_base. left. exists u. auto.
    + rewrite conj_inversion. apply gen_comp; [exact D |]. apply gen_base. right; left. auto.
    + rewrite op_conj_conj. cbn [with_shift h_shift]. rewrite vadd_0_r. apply gen_base. right; right. exists ms, m. auto.
  - rewrite op_conj_comp. apply gen_comp; auto.
  - apply gen_inv with (op_conj v a); auto. rewrite <- op_conj_comp, E. apply op_conj_id.
  - apply gen_cell with (op_conj v a); auto. apply op_conj_same, E.
Qed.
Lemma minus_back h v o : hall_group (with_shift v0 h) (I3, vadd v v) ->
  hall_group (with_shift v h) o -> hall_group (with_shift v0 h) (op_conj (vopp v) o).
Proof.
  intros D G. induction G as [| g Hg | a b Ha IHa Hb IHb | a b Ha IHa E | a b Ha IHa E].
  - rewrite op_conj_id. apply gen_one.
  - destruct Hg as [(u & Hu & ->) | [(Hm & ->) | (ms & m & Hms & Hm & ->)]].
    + rewrite op_conj_I. apply gen_base. left. exists u. auto.
    + change (V3 0 0 0) with v0. rewrite conj_inversion_back. apply gen_comp; [| exact D]. apply gen_base. right; left. auto.
    + rewrite op_conj_conj. cbn [with_shift h_shift]. replace (vadd (vopp v) v) with v0 by mat_ring. apply gen_base. right; right. exists ms, m. auto.
  - rewrite op_conj_comp. apply gen_comp; auto.
  - apply gen_inv with (op_conj (vopp v) a); auto. rewrite <- op_conj_comp, E. apply op_conj_id.
  - apply gen_cell with (op_conj (vopp v) a); auto. apply op_conj_same, E.
Qed.
Theorem C11_with_minus_iff :
  forall h v, ls_minus (h_lat h) = true ->
    ((forall o, hall_group (with_shift v h) (op_conj v o) <-> hall_group (with_shift v0 h) o) <->
     hall_group (with_shift v h) (I3, vadd v v) /\ hall_group (with_shift v0 h) (I3, vadd v v)).
Proof.
  intros h v Mi. split.
  - intros Mv.
    assert (D : hall_group (with_shift v h) (I3, vadd v v)).
    { assert (G : hall_group (with_shift v0 h) (mopp I3, v0)) by (apply gen_base; right; left; auto).
      apply Mv in G. rewrite conj_inversion in G.
      assert (J : hall_group (with_shift v h) (mopp I3, v0)) by (apply gen_base; right; left; auto).
      pose proof (gen_comp _ _ _ G J) as K. 
      replace (op_comp (op_comp (I3, vadd v v) (mopp I3, v0)) (mopp I3, v0)) with (I3, vadd v v) in K; [exact K |].
      destruct v as [x y z]. unfold op_comp; cbn [fst snd]. f_equal; mat_ring. }
    split; [exact D |]. apply Mv. rewrite op_conj_I. exact D.
  - intros [D D0] o. split; intros G; [| apply minus_forward; auto].
    apply (minus_back h v _ D0) in G. rewrite op_conj_conj in G.
    replace (vadd (vopp v) v) with v0 in G by mat_ring. rewrite op_conj_0 in G. exact G.
Qed.
(** without further translations: exactly when twice the shift is a centring translation *)
Theorem C11_with_minus_half_lattice :
  forall h v, ls_minus (h_lat h) = true -> no_extra_translations (with_shift v h) ->
    ((forall o, hall_group (with_shift v h) (op_conj v o) <-> hall_group (with_shift v0 h) o) <->
     centring (ls_char (h_lat h)) (vadd v v)).
Proof.
  intros h v Mi T. rewrite (C11_with_minus_iff h v Mi). split.
  - intros [D _]. exact (T _ D).
  - intros C. split; apply hall_group_lat; exact C.
Qed.
Theorem C11_positions_move_with_minus :
  forall fuel h v g, centring (ls_char (h_lat h)) (vadd v v) -> no_extra_translations (with_shift v h) ->
    general_positions fuel (with_shift v h) = Done g ->
    exists fuel0 g0, general_positions fuel0 (with_shift v0 h) = Done g0 /\
      num_of_general_pos g0 = num_of_general_pos g /\
      (forall a, listed g0 a -> exists b, listed g b /\ op_same (op_of b) (op_conj v (op_of a))) /\
      (forall b, listed g b -> exists a, listed g0 a /\ op_same (op_of b) (op_conj v (op_of a))).
Proof.
  intros fuel h v g C T H. apply positions_move_gen with (fuel := fuel); auto. intros o. split.
  - intros G. apply (minus_back h v _ (hall_group_lat (with_shift v0 h) _ C)) in G. rewrite op_conj_conj in G.
    replace (vadd (vopp v) v) with v0 in G by mat_ring. rewrite op_conj_0 in G. exact G.
  - apply minus_forward, hall_group_lat. exact C.
Qed.
(** -I 4bd 2c 3 seen from (1/4, 1/4, 1/4): twice the shift is the body centring *)
Example C11_minus_case : exists h g, try_from_str "-I 4bd 2c 3 (3 3 3)" = Done (Some h) /\ h_shift h = V3 3 3 3 /\ ls_minus (h_lat h) = true /\
  centring (ls_char (h_lat h)) (vadd (h_shift h) (h_shift h)) /\ no_extra_translations (with_shift (h_shift h) h) /\
  general_positions 10 (with_shift (h_shift h) h) = Done g.
Proof.
  destruct (case_spec "-I 4bd 2c 3 (3 3 3)" 48) as (h & g & E & G & T & _); [vm_compute; reflexivity |].
  assert (W : with_shift (h_shift h) h = h) by (destruct h; reflexivity).
  assert (K : h_shift h = V3 3 3 3 /\ h_lat h = LS true LI) by (vm_compute in E; injection E as <-; split; reflexivity).
  destruct K as [K1 K2]. exists h, g. rewrite W. rewrite K1, K2. repeat split; auto.
  exists (V3 6 6 6). split; [right; left; reflexivity | apply vcong12_refl].
Qed.
(** P 61 2 (0 0 -1) meets the hypotheses *)
Example C11_case : exists h v g, v <> v0 /\ ls_minus (h_lat h) = false /\
  try_from_str "P 61 2 (0 0 -1)" = Done (Some (with_shift v h)) /\
  no_extra_translations (with_shift v h) /\ general_positions 10 (with_shift v h) = Done g.
Proof.
  destruct (case_spec "P 61 2 (0 0 -1)" 12) as (h & g & E & G & T & _); [vm_compute; reflexivity |].
  assert (W : with_shift (h_shift h) h = h) by (destruct h; reflexivity).
  exists h, (h_shift h), g. rewrite W. vm_compute in E.
  repeat split; auto.
  - injection E as <-. discriminate.
  - injection E as <-. reflexivity.
Qed.

(** with a leading minus the inversion stays at the old origin, so the claim is false:
    for -P 2 (0 0 1) the moved inversion is not in the group *)
Lemma minus_shift_moves_no_inversion :
  exists h o, try_from_str "-P 2 (0 0 1)" = Done (Some h) /\ ls_minus (h_lat h) = true /\
    hall_group (with_shift v0 h) o /\ ~ hall_group h (op_conj (h_shift h) o).
Proof.
  assert (E : exists h, try_from_str "-P 2 (0 0 1)" = Done (Some h)) by (eexists; vm_compute; reflexivity).
  destruct E as (h & E). exists h, (mopp I3, V3 0 0 0). split; auto.
  assert (K : exists core, group_check h core = true /\ in_coreb LP core (mopp I3) (V3 0 0 2) = false
     /\ forallb (fun a => forallb (fun b => negb (meqb (rot a) (rot b)) || veqb (tra a) (tra b)) core) core = true
     /\ In (aff (mopp I3) v0) core /\ ls_char (h_lat h) = LP /\ ls_minus (h_lat h) = true /\ h_shift h = V3 0 0 1).
  { assert (G : exists g, general_positions 10 h = Done g) by (vm_compute in E; injection E as <-; eexists; vm_compute; reflexivity).
    destruct G as (g & G). exists (gp_core g). vm_compute in E. injection E as <-. vm_compute in G.
    injection G as <-. repeat split; try (vm_compute; reflexivity). simpl. auto 10. }
  destruct K as (core & C1 & C2 & C3 & C4 & C5 & C6 & C7).
  split; auto. split; [apply gen_base; right; left; auto |].
  intros G. apply (ck_group h core C1) in G. destruct G as (m & Hm & Rm & Lm).
  rewrite op_conj_formula in *. rewrite C7 in *. cbn [fst snd] in *. rewrite C5 in *.
  assert (Em : tra m = v0).
  { rewrite forallb_forall in C3. specialize (C3 m Hm). rewrite forallb_forall in C3.
    specialize (C3 _ C4). cbn [rot tra aff] in C3. rewrite Rm, meqb_refl in C3. apply veqb_eq in C3. exact C3. }
  rewrite Em in Lm. destruct Lm as (u & Hu & (_ & _ & Q)). simpl in Hu. destruct Hu as [<- | []].
  destruct Q as (k & Q). vm_compute in Q. change (2 = 12 * k) in Q. lia.
Qed.

Theorem C11_with_minus_refuted :
  exists h g g0 a, try_from_str "-P 2 (0 0 1)" = Done (Some h) /\
    general_positions 10 h = Done g /\ general_positions 10 (with_shift v0 h) = Done g0 /\
    listed g0 a /\ ~ exists b, listed g b /\ op_same (op_of b) (op_conj (h_shift h) (op_of a)).
Proof.
  destruct minus_shift_moves_no_inversion as (h & o & E & _ & G0 & G).
  assert (K : exists g g0, general_positions 10 h = Done g /\ general_positions 10 (with_shift v0 h) = Done g0
     /\ group_check (with_shift v0 h) (gp_core g0) = true).
  { clear G G0. vm_compute in E. injection E as <-.
    eexists. eexists. split; [vm_compute; reflexivity |]. split; [vm_compute; reflexivity | vm_compute; reflexivity]. }
  destruct K as (g & g0 & Hg & Hg0 & C).
  destruct (group_listed _ _ _ _ Hg0 (ck_no_extra _ _ C) G0) as (a & La & Ea).
  exists h, g, g0, a. repeat split; auto. intros (b & Lb & Eb). apply G.
  apply gen_cell with (op_of b); [apply (listed_group _ _ _ _ Hg Lb) |].
  eapply op_same_trans; [exact Eb |]. apply op_conj_same, Ea.
Qed.
