(** * PropScrew: property C71: screw and glide parts, and which operations have fixed points. *)
From Coq Require Import QArith Qfield.
From Verif Require Import Base Notations Parser Seitz F64 Jones Rotations Tables Generate Positions
  Spec SpecHall SpecXyz SpecRotation SpecOrbit Algebra PropSeitz PropSymbols PropRotation GenFacts PropGenerate GroupCheck
  SpecCompat SpecOutcome PropJones Restriction PropTermination PropOutcome PropFullSets PropOrbit PropPeriod PropTableGroups Subgroups PropClass.
Open Scope Z_scope.
Local Notation length := List.length.

(** the operation leaves the point exactly where it is *)
Definition fixes (m : seitz) (p : qvec) : Prop :=
  (qx (act m p) == qx p /\ qy (act m p) == qy p /\ qz (act m p) == qz p)%Q.

(** ** Support *)
(** the sum of the images of the origin under the first powers *)
Fixpoint orbit_sum (o : op) (k : nat) : vec3 :=
  match k with O => v0 | S j => vadd (orbit_sum o j) (snd (op_pow o j)) end.
Lemma orbit_sum_step o k :
  vadd (mvmul (fst o) (orbit_sum o k)) (vscale (Z.of_nat k) (snd o)) = vadd (orbit_sum o k) (snd (op_pow o k)).
Proof.
  induction k as [| k IH].
  - cbn [orbit_sum op_pow op_id snd]. generalize (fst o), (snd o). mat_ring.
  - cbn [orbit_sum op_pow op_comp snd]. rewrite Nat2Z.inj_succ. revert IH. generalize (fst o), (snd o), (orbit_sum o k), (snd (op_pow o k)), (Z.of_nat k).
    intros R t W U z E.
    replace (vadd (mvmul R (vadd W U)) (vscale (Z.succ z) t)) with (vadd (vadd (mvmul R W) (vscale z t)) (vadd (mvmul R U) t)).
    + rewrite E. reflexivity.
    + destruct R as [r1 r2 r3 r4 r5 r6 r7 r8 r9], t as [t1 t2 t3], W as [w1 w2 w3], U as [u1 u2 u3]. unfold vadd, mvmul, vscale. cbn [vx vy vz m11 m12 m13 m21 m22 m23 m31 m32 m33]. f_equal; ring.
Qed.
Definition qeq (p q : qvec) : Prop := (qx p == qx q /\ qy p == qy q /\ qz p == qz q)%Q.
Lemma qeq_trans p q r : qeq p q -> qeq q r -> qeq p r.
Proof. intros (A & B & C) (D & E & F). split; [now rewrite A | split; [now rewrite B | now rewrite C]]. Qed.
Lemma act_qeq m p q : qeq p q -> qeq (act m p) (act m q).
Proof.
  intros (A & B & C). unfold qeq, act, qdot. cbn [qx qy qz]. split; [| split]; now rewrite A, B, C.
Qed.
Lemma act_op_comp_exact a b p : qeq (act_op (op_comp a b) p) (act_op a (act_op b p)).
Proof.
  destruct a as [R t], b as [S u]. destruct R as [r1 r2 r3 r4 r5 r6 r7 r8 r9], S as [s1 s2 s3 s4 s5 s6 s7 s8 s9], t as [t1 t2 t3], u as [u1 u2 u3], p as [x y z].
  unfold qeq, act_op, op_comp, act, qdot, mmul, mvmul, vadd. cbn.
  repeat rewrite inject_Z_plus. repeat rewrite inject_Z_mult. split; [| split]; field.
Qed.
Lemma fixes_pow o p : qeq (act_op o p) p -> forall k, qeq (act_op (op_pow o k) p) p.
Proof.
  intros F. induction k as [| k IH].
  - unfold qeq, act_op, act, qdot. cbn. split; [| split]; field.
  - cbn [op_pow]. eapply qeq_trans; [apply act_op_comp_exact |]. eapply qeq_trans; [apply act_qeq, IH | exact F].
Qed.
Lemma inject_zero z : (inject_Z z / 12 == 0)%Q -> z = 0.
Proof. unfold Qdiv, Qeq, Qmult, inject_Z, Qinv. cbn. lia. Qed.
(** ** C71 *)
(** An operation whose [n]-th power is a pure translation: it leaves some point of the crystal
    fixed exactly when that translation, the screw or glide part taken [n] times, is zero.
    ([powi] does not reduce translations, so no whole cells are lost.) *)
Theorem C71_fixed_point_iff :
  forall m n, is_affine m -> mpow (rot m) (S n) = I3 ->
    exists r, powi m (Z.of_nat (S n)) = Done r /\ is_affine r /\ rot r = I3 /\
      ((exists p, fixes m p) <-> tra r = V3 0 0 0).
Proof.
  intros m n A E. destruct (C15_powi_is_repeated_composition m (S n) A) as (r & P & Ar & O).
  exists r. split; [exact P |]. split; [exact Ar |].
  assert (Rr : rot r = I3). { change (rot r) with (fst (op_of r)). rewrite O, op_pow_rot. exact E. }
  split; [exact Rr |]. assert (Tr : snd (op_pow (op_of m) (S n)) = tra r) by (rewrite <- O; reflexivity). split.
  - intros (p & F). pose proof (fixes_pow (op_of m) p F (S n)) as (X & Y & W). rewrite <- O in X, Y, W.
    unfold op_of, act_op, act, qdot in X, Y, W. cbn [fst snd aff rot tra qx qy qz] in X, Y, W. rewrite Rr in X, Y, W. cbn [I3 m11 m12 m13 m21 m22 m23 m31 m32 m33] in X, Y, W.
    destruct (tra r) as [a b c]. cbn [vx vy vz] in *. destruct p as [x y z]. cbn [qx qy qz] in *.
    assert (K : forall u (t : Z), (u + inject_Z t / 12 == u)%Q -> t = 0).
    { intros u t Q. apply inject_zero. rewrite <- (Qplus_0_r u) in Q at 2. apply Qplus_inj_l in Q. exact Q. }
    f_equal; eapply K; [etransitivity; [| exact X] | etransitivity; [| exact Y] | etransitivity; [| exact W]]; change (inject_Z 1) with 1%Q; change (inject_Z 0) with 0%Q; ring.
  - intros T0. rewrite T0 in Tr. pose proof (orbit_sum_step (op_of m) (S n)) as Q. rewrite Tr in Q. cbn [op_of fst snd] in Q.
    set (N := Z.of_nat (S n)) in *. assert (N0 : ~ (inject_Z N == 0)%Q). { intros C. unfold Qeq, inject_Z in C. cbn in C. subst N. lia. }
    destruct (orbit_sum (op_of m) (S n)) as [a b c].
    exists (QV (inject_Z a / inject_Z N / 12) (inject_Z b / inject_Z N / 12) (inject_Z c / inject_Z N / 12)).
    unfold fixes, act, qdot. cbn [qx qy qz]. unfold vadd, mvmul, vscale in Q. cbn [vx vy vz v0] in Q.
    injection Q. intros Q3 Q2 Q1.
    assert (L : forall r1 r2 r3 t w, r1 * a + r2 * b + r3 * c + N * t = w + 0 ->
       (inject_Z r1 * (inject_Z a / inject_Z N / 12) + inject_Z r2 * (inject_Z b / inject_Z N / 12) + inject_Z r3 * (inject_Z c / inject_Z N / 12) + inject_Z t / 12 == inject_Z w / inject_Z N / 12)%Q).
    { intros r1 r2 r3 t w H. rewrite Z.add_0_r in H. rewrite <- H. repeat rewrite inject_Z_plus. repeat rewrite inject_Z_mult. field. exact N0. }
    split; [| split]; apply L; assumption.
Qed.
(** the order of an operation's rotation part, by what [rotation_type] reports *)
Definition rotation_order (t : rot_type) : nat :=
  match t with RE => 1 | RN2 => 2 | RN3 => 3 | RN4 => 4 | RN6 => 6 | RI => 2 | RM => 2 | RM3 => 6 | RM4 => 4 | RM6 => 6 end%nat.
Lemma listed_order fuel h g m : general_positions fuel h = Done g -> listed g m ->
  exists t, rotation_type m = Some t /\ has_order (rot m) (rotation_order t).
Proof.
  intros H L. destruct (listed_group _ _ _ _ H L) as [A _]. apply listed_all in L. pose proof (listed_class _ _ _ _ H L) as C.
  assert (U : unit_matrix (rot m)) by (destruct C as [C | C]; [apply cubic_unit, C | apply hexagonal_unit, C]).
  assert (F : finite_order (rot m)) by (exists 12%nat; split; [lia | apply class_order12, C]).
  assert (W : entries_within 65536 (rot m)).
  { unfold unit_matrix, entries_within in *. destruct U as (u1 & u2 & u3 & u4 & u5 & u6 & u7 & u8 & u9). repeat split; lia. }
  destruct (C17_finite_order_classified m A W F) as (t & T & O & D & _). exists t. split; [exact T |].
  destruct (C17_only_orders_1_2_3_4_6 _ F) as (n & _ & O' & Q).
  assert (n = fst (type_meaning t)).
  { destruct O as (o1 & o2 & o3), O' as (p1 & p2 & p3).
    destruct (Nat.lt_trichotomy n (fst (type_meaning t))) as [L1 | [L1 | L1]]; auto; exfalso; [exact (o3 n (conj p1 L1) p2) | exact (p3 _ (conj o1 L1) o2)]. }
  subst n. rewrite D in Q. destruct t; exact Q.
Qed.
(** For every listed operation: the power given by the order of its rotation part (1, 2, 3, 4, 6
    for proper rotations; 2, 2, 6, 4, 6 for -1, m, -3, -4, -6) is a pure translation which, up to
    whole cells, is a centring vector *)
Theorem C71_screw_part_is_fraction_of_lattice_vector :
  forall fuel h g m, general_positions fuel h = Done g -> no_extra_translations h -> listed g m ->
    exists t r, rotation_type m = Some t /\ has_order (rot m) (rotation_order t) /\
      powi m (Z.of_nat (rotation_order t)) = Done r /\ rot r = I3 /\ centring (ls_char (h_lat h)) (tra r).
Proof.
  intros fuel h g m H T L. destruct (listed_order _ _ _ _ H L) as (t & E & O). destruct (listed_group _ _ _ _ H L) as [A G].
  destruct (C15_powi_is_repeated_composition m (rotation_order t) A) as (r & P & _ & Q).
  exists t, r. split; [exact E |]. split; [exact O |]. split; [exact P |].
  assert (Rr : rot r = I3). { change (rot r) with (fst (op_of r)). rewrite Q, op_pow_rot. apply O. }
  split; [exact Rr |]. apply T. rewrite <- Rr. change (rot r, tra r) with (op_of r). rewrite Q. apply op_pow_group, G.
Qed.
(** the screw or glide part does not depend on the origin *)
Theorem C71_screw_part_independent_of_origin :
  forall v m n, is_affine m -> mpow (rot m) n = I3 ->
    exists x y, powi m (Z.of_nat n) = Done x /\ powi (shifted_matrix v m) (Z.of_nat n) = Done y /\ sz_eqb x y = true.
Proof.
  intros v m n A E. destruct (C09_shift_formula v m A) as (A' & R & T).
  destruct (C15_powi_is_repeated_composition m n A) as (x & X1 & _ & X2).
  destruct (C15_powi_is_repeated_composition _ n A') as (y & Y1 & _ & Y2).
  exists x, y. split; [exact X1 |]. split; [exact Y1 |]. apply sz_eqb_op. rewrite X2, Y2.
  apply op_same_sym. eapply op_same_trans; [apply (op_same_pow _ (op_conj v (op_of m))) |].
  - rewrite op_conj_formula. split; [exact R |]. cbn [op_of fst snd].
    eapply vcong12_trans; [exact T |]. match goal with |- vcong12 ?a ?b => replace a with b; [apply vcong12_refl |] end.
    generalize (tra m), (rot m). intros t M. mat_ring.
  - assert (C : forall k, op_pow (op_conj v (op_of m)) k = op_conj v (op_pow (op_of m) k)).
    { induction k as [| k IH]; [cbn [op_pow]; rewrite op_conj_formula; unfold op_id; cbn [fst snd]; f_equal; mat_ring |].
      cbn [op_pow]. rewrite IH, !op_conj_formula. unfold op_comp. cbn [fst snd]. f_equal.
      generalize (tra m), (rot m), (fst (op_pow (op_of m) k)), (snd (op_pow (op_of m) k)). intros t M N u. cbn [op_of fst snd]. mat_ring. }
    rewrite C, op_conj_formula. rewrite op_pow_rot. cbn [op_of fst]. rewrite E. split; [rewrite op_pow_rot; cbn; auto |].
    cbn [snd]. match goal with |- vcong12 ?a ?b => replace a with b; [apply vcong12_refl |] end.
    generalize (snd (op_pow (rot m, tra m) n)). intros u. mat_ring.
Qed.
(** P 41: the fourth power of the four-fold screw is a whole cell upwards, so it fixes nothing;
    in P 4 the rotation about the axis has fixed points *)
Example C71_case : exists h g m r, try_from_str "P 41" = Done (Some h) /\ general_positions 10 h = Done g /\
  no_extra_translations h /\ listed g m /\ rotation_type m = Some RN4 /\ powi m 4 = Done r /\ tra r = V3 0 0 12 /\
  ~ (exists p, fixes m p) /\ (exists p, fixes (set_translation_part v0 m) p).
Proof.
  destruct (case_spec "P 41" 4) as (h & g & E & G & T & _); [vm_compute; reflexivity |].
  set (m := aff (M3 0 (-1) 0 1 0 0 0 0 1) (V3 0 0 3)).
  exists h, g, m, (aff I3 (V3 0 0 12)). split; [exact E |]. split; [exact G |]. split; [exact T |].
  assert (P : powi m 4 = Done (aff I3 (V3 0 0 12))) by (vm_compute; reflexivity).
  split.
  - apply listed_all.
    assert (K : match try_from_str "P 41" with Done (Some h) => match general_positions 10 h with Done g =>
      existsb (fun x => meqb (rot x) (rot m) && veqb (tra x) (tra m) && veqb (bot x) (bot m) && (cor x =? cor m)) (all_operations g) | _ => false end | _ => false end = true) by (vm_compute; reflexivity).
    rewrite E, G in K. apply existsb_exists in K. destruct K as (x & I & K). rewrite !andb_true_iff in K. destruct K as (((K1 & K2) & K3) & K4).
    apply meqb_eq in K1. apply Algebra.veqb_eq in K2, K3. apply Z.eqb_eq in K4.
    replace m with x; [exact I |]. destruct x; cbn in *; subst; reflexivity.
  - split; [vm_compute; reflexivity |]. split; [exact P |]. split; [reflexivity |]. split.
    + intros F. destruct (C71_fixed_point_iff m 3) as (r & P' & _ & _ & Q); [split; reflexivity | vm_compute; reflexivity |].
      change (Z.of_nat 4) with 4 in P'. rewrite P in P'. assert (R : r = aff I3 (V3 0 0 12)) by congruence. subst r.
      apply Q in F. discriminate F.
    + exists (QV 0 0 0). unfold fixes. vm_compute. split; [| split]; reflexivity.
Qed.
