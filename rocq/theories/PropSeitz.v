(** * PropSeitz: properties C09, C10, C12, C13, C14, C15, C21 — algebra of operations. *)
From Coq Require Import QArith Qfield Field.
From Verif Require Import Base Notations Parser Seitz F64 Spec Algebra.
Open Scope Z_scope.

(** a point moved by an integer translation given in twelfths *)
Definition translate (v : vec3) (p : qvec) : qvec :=
  QV (qx p + inject_Z (vx v) / 12) (qy p + inject_Z (vy v) / 12) (qz p + inject_Z (vz v) / 12).

(** ** Support *)
Lemma cong12_Q a b : cong12 a b <-> exists i, (inject_Z a / 12 - inject_Z b / 12 == inject_Z i)%Q.
Proof.
  split.
  - intros [k H]. exists k. assert (E : a = b + 12 * k) by lia. subst a.
    rewrite inject_Z_plus, inject_Z_mult. change (inject_Z 12) with 12%Q. field.
  - intros [i H]. exists i.
    assert (E : (inject_Z (a - b) == inject_Z (12 * i))%Q).
    { unfold Z.sub. rewrite inject_Z_plus, inject_Z_opp, inject_Z_mult, <- H.
      change (inject_Z 12) with 12%Q. field. }
    unfold Qeq, inject_Z in E; cbn [Qnum Qden] in E. lia.
Qed.

Lemma cells_apart_same_rot R a b p :
  cells_apart (act (aff R a) p) (act (aff R b) p) <-> vcong12 a b.
Proof.
  unfold cells_apart, vcong12. rewrite !cong12_Q. unfold act; simpl. split.
  - intros (i & j & k & H1 & H2 & H3). split; [exists i | split; [exists j | exists k]].
    + rewrite <- H1. ring. + rewrite <- H2; ring. + rewrite <- H3; ring.
  - intros ([i H1] & [j H2] & [k H3]). exists i, j, k. split; [| split].
    + rewrite <- H1. ring. + rewrite <- H2; ring. + rewrite <- H3; ring.
Qed.

Definition qveq (p q : qvec) : Prop := (qx p == qx q /\ qy p == qy q /\ qz p == qz q)%Q.
Lemma cells_apart_compat p p' q q' :
  qveq p p' -> qveq q q' -> cells_apart p q -> cells_apart p' q'.
Proof.
  intros (A1&A2&A3) (B1&B2&B3) (i&j&k&H1&H2&H3). exists i, j, k.
  rewrite <- A1, <- A2, <- A3, <- B1, <- B2, <- B3. auto.
Qed.
Lemma qveq_refl p : qveq p p. Proof. repeat split; reflexivity. Qed.
Lemma qveq_sym p q : qveq p q -> qveq q p.
Proof. intros (?&?&?). repeat split; symmetry; auto. Qed.

Ltac q_ring :=
  unfold qveq, act, translate, qdot, aff, mmul, mvmul, vadd, vopp, vsub;
  cbn [qx qy qz rot tra m11 m12 m13 m21 m22 m23 m31 m32 m33 vx vy vz];
  unfold Z.sub;
  repeat first [rewrite inject_Z_plus | rewrite inject_Z_mult | rewrite inject_Z_opp];
  repeat split; field.

Lemma act_comp R t S u p :
  qveq (act (aff (mmul R S) (vadd (mvmul R u) t)) p) (act (aff R t) (act (aff S u) p)).
Proof. q_ring. Qed.

Lemma cells_apart_trans p q r : cells_apart p q -> cells_apart q r -> cells_apart p r.
Proof.
  intros (i&j&k&H1&H2&H3) (i'&j'&k'&K1&K2&K3). exists (i+i'), (j+j'), (k+k').
  rewrite !inject_Z_plus, <- H1, <- H2, <- H3, <- K1, <- K2, <- K3. repeat split; ring.
Qed.
Lemma cells_apart_act R t p q :
  cells_apart p q -> cells_apart (act (aff R t) p) (act (aff R t) q).
Proof.
  intros (i&j&k&H1&H2&H3).
  exists (m11 R * i + m12 R * j + m13 R * k), (m21 R * i + m22 R * j + m23 R * k),
         (m31 R * i + m32 R * j + m33 R * k).
  rewrite !inject_Z_plus, !inject_Z_mult, <- H1, <- H2, <- H3.
  unfold act, qdot, aff; cbn [rot tra qx qy qz]. repeat split; ring.
Qed.

Lemma vbetween_rem v : vbetween (-11) 12 (vmap rem12 v).
Proof.
  destruct v as [x y z]. unfold vbetween, vmap. mat_cbn.
  pose proof (rem12_bound x). pose proof (rem12_bound y). pose proof (rem12_bound z). lia.
Qed.

(** ** C12  Product is composition *)
Theorem C12_product_acts_as_composition :
  forall a b p, is_affine a -> is_affine b ->
    cells_apart (act (sz_mul a b) p) (act a (act b p)).
Proof.
  intros a b p Ha Hb. rewrite (affine_aff a Ha), (affine_aff b Hb), sz_mul_aff.
  apply (cells_apart_compat (act (aff (mmul (rot a) (rot b)) (vmap rem12 (vadd (mvmul (rot a) (tra b)) (tra a)))) p)
           _ (act (aff (mmul (rot a) (rot b)) (vadd (mvmul (rot a) (tra b)) (tra a))) p) _).
  - apply qveq_refl.
  - apply act_comp.
  - apply cells_apart_same_rot. apply vcong12_rem.
Qed.
Theorem C12_product_is_affine :
  forall a b, is_affine a -> is_affine b -> is_affine (sz_mul a b).
Proof.
  intros a b Ha Hb. rewrite (affine_aff a Ha), (affine_aff b Hb), sz_mul_aff. apply aff_affine.
Qed.
Theorem C12_product_associative :
  forall a b c, is_affine a -> is_affine b -> is_affine c ->
    sz_eqb (sz_mul a (sz_mul b c)) (sz_mul (sz_mul a b) c) = true.
Proof.
  intros a b c Ha Hb Hc. apply sz_eqb_same.
  rewrite (affine_aff a Ha), (affine_aff b Hb), (affine_aff c Hc), !sz_mul_aff. split; simpl.
  - apply mmul_assoc.
  - eapply vcong12_trans; [apply vcong12_rem |]. apply vcong12_sym.
    eapply vcong12_trans; [apply vcong12_rem |].
    rewrite mvmul_mmul.
    eapply vcong12_trans; [apply vcong12_vadd; [apply vcong12_refl | apply vcong12_rem] |].
    rewrite vadd_assoc. apply vcong12_vadd; [| apply vcong12_refl].
    rewrite <- mvmul_vadd. apply vcong12_mvmul, vcong12_sym, vcong12_rem.
Qed.
Theorem C12_identity_neutral :
  forall a, is_affine a ->
    sz_eqb (sz_mul sz_identity a) a = true /\ sz_eqb (sz_mul a sz_identity) a = true.
Proof.
  intros a Ha. rewrite (affine_aff a Ha). unfold sz_identity. rewrite !sz_mul_aff, !sz_eqb_same.
  split; split; simpl.
  - apply mmul_I_l.
  - rewrite mvmul_I, vadd_0_r. apply vcong12_rem.
  - apply mmul_I_r.
  - rewrite mvmul_v0, vadd_0_l. apply vcong12_rem.
Qed.
Theorem C12_product_translation_range :
  forall a b, vbetween (-11) 12 (tra (sz_mul a b)).
Proof.
  intros a b. unfold sz_mul. mat_cbn. apply vbetween_rem.
Qed.
(** non-vacuity: 4_1 along c times a diagonal glide *)
Example C12_example :
  let a := aff (M3 0 (-1) 0 1 0 0 0 0 1) (V3 0 0 3) in
  let b := aff (M3 0 1 0 1 0 0 0 0 1) (V3 6 6 9) in
  is_affine a /\ is_affine b /\ sz_mul a b = aff (M3 (-1) 0 0 0 1 0 0 0 1) (V3 (-6) 6 0).
Proof. repeat split. Qed.

(** ** C13  Equality means same action *)
Lemma unit_frac_int d n : 0 < n -> Z.abs d < n -> (exists i, (inject_Z d * (1 / inject_Z n) == inject_Z i)%Q) -> d = 0.
Proof.
  intros Hn Hd [i H].
  assert (E : (inject_Z d == inject_Z (i * n))%Q).
  { rewrite inject_Z_mult, <- H. field. intros C. unfold Qeq in C; simpl in C. lia. }
  unfold Qeq, inject_Z in E; cbn [Qnum Qden] in E. rewrite !Z.mul_1_r in E. rename E into D. subst d. rewrite Z.abs_mul in Hd. destruct (Z.eq_dec i 0); [subst; lia |]. nia.
Qed.

Lemma act_determines_rot a b :
  (forall p, cells_apart (act a p) (act b p)) -> rot a = rot b.
Proof.
  intros H.
  assert (H0 := H (QV 0 0 0)). destruct H0 as (i0&j0&k0&Z1&Z2&Z3).
  assert (Hn : exists n, 0 < n /\
      Z.abs (m11 (rot a) - m11 (rot b)) < n /\ Z.abs (m12 (rot a) - m12 (rot b)) < n
    /\ Z.abs (m13 (rot a) - m13 (rot b)) < n /\ Z.abs (m21 (rot a) - m21 (rot b)) < n
    /\ Z.abs (m22 (rot a) - m22 (rot b)) < n /\ Z.abs (m23 (rot a) - m23 (rot b)) < n
    /\ Z.abs (m31 (rot a) - m31 (rot b)) < n /\ Z.abs (m32 (rot a) - m32 (rot b)) < n
    /\ Z.abs (m33 (rot a) - m33 (rot b)) < n).
  { exists (1 + Z.abs (m11 (rot a) - m11 (rot b)) + Z.abs (m12 (rot a) - m12 (rot b))
    + Z.abs (m13 (rot a) - m13 (rot b)) + Z.abs (m21 (rot a) - m21 (rot b))
    + Z.abs (m22 (rot a) - m22 (rot b)) + Z.abs (m23 (rot a) - m23 (rot b))
    + Z.abs (m31 (rot a) - m31 (rot b)) + Z.abs (m32 (rot a) - m32 (rot b))
    + Z.abs (m33 (rot a) - m33 (rot b))). lia. }
  destruct Hn as (n & Hn & B1 & B2 & B3 & B4 & B5 & B6 & B7 & B8 & B9).
  assert (Hx := H (QV (1 / inject_Z n) 0 0)). destruct Hx as (i1&j1&k1&X1&X2&X3).
  assert (Hy := H (QV 0 (1 / inject_Z n) 0)). destruct Hy as (i2&j2&k2&Y1&Y2&Y3).
  assert (Hz := H (QV 0 0 (1 / inject_Z n))). destruct Hz as (i3&j3&k3&W1&W2&W3).
  unfold act, qdot in *. cbn [qx qy qz] in *.
  Local Ltac fin n K0 K i i0 :=
    match goal with |- ?x = ?y =>
      let E := fresh in assert (E : x - y = 0);
      [ apply (unit_frac_int (x - y) n); [assumption | assumption |];
        exists (i - i0); unfold Z.sub; rewrite !inject_Z_plus, !inject_Z_opp, <- K, <- K0; ring
      | lia ]
    end.
  apply mat3_ext.
  - fin n Z1 X1 i1 i0. - fin n Z1 Y1 i2 i0. - fin n Z1 W1 i3 i0.
  - fin n Z2 X2 j1 j0. - fin n Z2 Y2 j2 j0. - fin n Z2 W2 j3 j0.
  - fin n Z3 X3 k1 k0. - fin n Z3 Y3 k2 k0. - fin n Z3 W3 k3 k0.
Qed.

Theorem C13_eq_iff_same_action :
  forall a b, is_affine a -> is_affine b ->
    (sz_eqb a b = true <-> forall p, cells_apart (act a p) (act b p)).
Proof.
  intros a b Ha Hb. rewrite sz_eqb_same. rewrite (affine_aff a Ha), (affine_aff b Hb). split.
  - intros [H1 H2] p. simpl in *. rewrite H1. apply cells_apart_same_rot. assumption.
  - intros H. assert (E := act_determines_rot _ _ H). split; auto. simpl in *.
    rewrite E in H. apply (cells_apart_same_rot (rot b) (tra a) (tra b) (QV 0 0 0)), H.
Qed.
Theorem C13_eq_equivalence :
  (forall a, sz_eqb a a = true) /\
  (forall a b, sz_eqb a b = true -> sz_eqb b a = true) /\
  (forall a b c, sz_eqb a b = true -> sz_eqb b c = true -> sz_eqb a c = true).
Proof.
  repeat split; intros *; rewrite ?sz_eqb_same.
  - apply same_op_refl. - apply same_op_sym. - apply same_op_trans.
Qed.
Theorem C13_eq_congruence :
  forall a a' b b' v, is_affine a -> is_affine a' -> is_affine b -> is_affine b' ->
    sz_eqb a a' = true -> sz_eqb b b' = true ->
    sz_eqb (sz_mul a b) (sz_mul a' b') = true /\ sz_eqb (sz_addv a v) (sz_addv a' v) = true.
Proof.
  intros a a' b b' v Ha Ha' Hb Hb'. rewrite !sz_eqb_same. intros [H1 H2] [H3 H4].
  rewrite (affine_aff a Ha), (affine_aff a' Ha'), (affine_aff b Hb), (affine_aff b' Hb'), !sz_mul_aff.
  split; split; simpl.
  - congruence.
  - eapply vcong12_trans; [apply vcong12_rem |]. apply vcong12_sym.
    eapply vcong12_trans; [apply vcong12_rem |]. apply vcong12_sym.
    rewrite <- H1. apply vcong12_vadd; auto. apply vcong12_mvmul; auto.
  - auto.
  - eapply vcong12_trans; [apply vcong12_rem |]. apply vcong12_sym.
    eapply vcong12_trans; [apply vcong12_rem |]. apply vcong12_sym.
    apply vcong12_vadd; auto using vcong12_refl.
Qed.
(** [==] looks at the rotation and translation parts only *)
Theorem C13_eq_ignores_last_row :
  forall R t b c b' c', sz_eqb (Sz R t b c) (Sz R t b' c') = true.
Proof. intros. apply sz_eqb_same. split; simpl; auto using vcong12_refl. Qed.
Example C13_example :
  let a := aff (M3 0 (-1) 0 1 0 0 0 0 1) (V3 0 0 3) in
  let b := aff (M3 0 (-1) 0 1 0 0 0 0 1) (V3 12 0 (-9)) in
  is_affine a /\ is_affine b /\ sz_eqb a b = true /\ a <> b.
Proof. repeat split; discriminate. Qed.

(** ** C14  Hash and ordering against equality *)
Theorem C14_hash_agrees_iff :
  forall a b, is_affine a -> is_affine b -> sz_eqb a b = true ->
    (sz_hash_input a = sz_hash_input b <-> tra a = tra b).
Proof.
  intros a b Ha Hb H. apply sz_eqb_same in H. destruct H as [H _].
  rewrite (affine_aff a Ha), (affine_aff b Hb) in *. simpl in *. split; intros E.
  - unfold sz_hash_input in E; simpl in E. injection E; intros. apply vec3_ext; assumption.
  - rewrite H, E. reflexivity.
Qed.
Lemma partial_cmp_from_Eq o l :
  partial_cmp_from o l = Some Eq <-> o = Eq /\ Forall (fun p => fst p = snd p) l.
Proof.
  revert o. induction l as [| [x y] l IH]; intros o; simpl.
  - split; [intros H; inversion H; auto | intros [-> _]; auto].
  - destruct (x ?= y) eqn:E.
    + apply Z.compare_eq in E. rewrite IH. split; intros [? F]; split; auto.
      inversion F; auto.
    + assert (x <> y) by (intros ->; rewrite Z.compare_refl in E; discriminate).
      split.
      * destruct o; intros K; try discriminate; apply IH in K; destruct K; discriminate.
      * intros [_ F]. inversion F; simpl in *; congruence.
    + assert (x <> y) by (intros ->; rewrite Z.compare_refl in E; discriminate).
      split.
      * destruct o; intros K; try discriminate; apply IH in K; destruct K; discriminate.
      * intros [_ F]. inversion F; simpl in *; congruence.
Qed.
Theorem C14_partial_cmp_equal_iff :
  forall a b, sz_partial_cmp a b = Some Eq <-> a = b.
Proof.
  intros [R t u c] [R' t' u' c']. unfold sz_partial_cmp, sz_entries, sz_hash_input; cbn [skipn combine rot tra bot cor].
  rewrite partial_cmp_from_Eq, Z.compare_eq_iff. split.
  - intros [E F]. repeat match goal with H : Forall _ (_ :: _) |- _ => inversion H; clear H; subst end.
    simpl in *. apply seitz_ext; simpl; [apply mat3_ext | apply vec3_ext | apply vec3_ext |]; auto.
  - intros E. inversion E. subst. split; auto. repeat constructor.
Qed.
(** every operation has an equal one that hashes differently and does not compare Equal *)
Theorem C14_contract_refuted :
  forall a, is_affine a -> exists b, is_affine b /\ sz_eqb a b = true /\
    sz_hash_input a <> sz_hash_input b /\ sz_partial_cmp a b <> Some Eq.
Proof.
  intros a Ha. exists (aff (rot a) (vadd (tra a) (V3 12 0 0))).
  assert (Hne : tra a <> vadd (tra a) (V3 12 0 0)).
  { intros E. apply (f_equal vx) in E. simpl in E. lia. }
  assert (Heq : sz_eqb a (aff (rot a) (vadd (tra a) (V3 12 0 0))) = true).
  { apply sz_eqb_same. split; auto. repeat split; simpl; [exists (-1) | exists 0 | exists 0]; lia. }
  split; [apply aff_affine | split; [exact Heq | split]].
  - rewrite (C14_hash_agrees_iff _ _ Ha (aff_affine _ _) Heq). exact Hne.
  - rewrite C14_partial_cmp_equal_iff. intros E. apply Hne. rewrite E at 1. reflexivity.
Qed.

(** ** C15  Non-negative powers *)
Lemma op_of_mat4_mul a b : is_affine a -> is_affine b ->
  is_affine (mat4_mul a b) /\ op_of (mat4_mul a b) = op_comp (op_of a) (op_of b).
Proof.
  intros Ha Hb. rewrite (affine_aff a Ha), (affine_aff b Hb), mat4_mul_aff.
  split; [apply aff_affine | reflexivity].
Qed.
Lemma op_pow_comm a n : op_comp a (op_pow a n) = op_comp (op_pow a n) a.
Proof.
  induction n; simpl.
  - rewrite op_comp_id_l, op_comp_id_r; auto.
  - rewrite IHn at 1. rewrite op_comp_assoc. reflexivity.
Qed.
Lemma op_pow_add a m n : op_pow a (m + n) = op_comp (op_pow a m) (op_pow a n).
Proof.
  induction m; simpl; [rewrite op_comp_id_l; auto |]. rewrite IHm, op_comp_assoc; auto.
Qed.
Lemma op_pow_mul a m n : op_pow a (m * n) = op_pow (op_pow a n) m.
Proof. induction m; simpl; auto. rewrite op_pow_add, IHm; auto. Qed.
Lemma pow_acc_spec m n : is_affine m -> forall acc, is_affine acc ->
  is_affine (mat4_pow_acc m acc n) /\
  op_of (mat4_pow_acc m acc n) = op_comp (op_of acc) (op_pow (op_of m) n).
Proof.
  intros Hm. induction n; intros acc Ha; simpl.
  - rewrite op_comp_id_r; auto.
  - destruct (op_of_mat4_mul acc m Ha Hm) as [H1 H2].
    destruct (IHn _ H1) as [H3 H4]. split; auto. rewrite H4, H2, op_comp_assoc. reflexivity.
Qed.
Theorem C15_powi_is_repeated_composition :
  forall m n, is_affine m -> exists r, powi m (Z.of_nat n) = Done r /\ is_affine r /\
    op_of r = op_pow (op_of m) n.
Proof.
  intros m n Hm. destruct n as [| n].
  - exists sz_identity. repeat split; reflexivity.
  - unfold powi. destruct (Z.compare_spec (Z.of_nat (S n)) 0); try lia.
    rewrite Nat2Z.id. simpl mat4_pow_pos.
    destruct (pow_acc_spec m n Hm m Hm) as [H1 H2]. eexists; split; [reflexivity | split; auto].
Qed.
(** the [n]-fold [*]-product started from the identity *)
Fixpoint product_pow (m : seitz) (n : nat) : seitz :=
  match n with O => sz_identity | S k => sz_mul m (product_pow m k) end.
Lemma product_pow_spec m n : is_affine m ->
  is_affine (product_pow m n) /\ op_same (op_of (product_pow m n)) (op_pow (op_of m) n).
Proof.
  intros Hm. induction n; simpl; [split; [split; reflexivity | apply op_same_refl] |].
  destruct IHn as [H1 H2]. split; [apply C12_product_is_affine; auto |].
  apply op_same_trans with (op_comp (op_of m) (op_of (product_pow m n))).
  - set (q := product_pow m n) in *. rewrite (affine_aff m Hm), (affine_aff q H1), sz_mul_aff.
    split; simpl; auto. apply vcong12_rem.
  - apply op_same_comp; auto using op_same_refl.
Qed.
Theorem C15_powi_equals_product :
  forall m n, is_affine m -> exists r, powi m (Z.of_nat n) = Done r /\
    sz_eqb r (product_pow m n) = true.
Proof.
  intros m n Hm. destruct (C15_powi_is_repeated_composition m n Hm) as (r & H1 & H2 & H3).
  exists r. split; auto. apply sz_eqb_same. destruct (product_pow_spec m n Hm) as [_ [H4 H5]].
  rewrite <- H3 in *. split; [symmetry; exact H4 | apply vcong12_sym; exact H5].
Qed.
Theorem C15_powi_add :
  forall m i j, is_affine m -> exists x y z,
    powi m (Z.of_nat i) = Done x /\ powi m (Z.of_nat j) = Done y /\
    powi m (Z.of_nat i + Z.of_nat j) = Done z /\ sz_eqb z (sz_mul x y) = true.
Proof.
  intros m i j Hm.
  destruct (C15_powi_is_repeated_composition m i Hm) as (x & X1 & X2 & X3).
  destruct (C15_powi_is_repeated_composition m j Hm) as (y & Y1 & Y2 & Y3).
  destruct (C15_powi_is_repeated_composition m (i + j) Hm) as (z & Z1 & Z2 & Z3).
  exists x, y, z. rewrite Nat2Z.inj_add in Z1. repeat split; auto.
  apply sz_eqb_same. rewrite (affine_aff x X2), (affine_aff y Y2), sz_mul_aff.
  rewrite op_pow_add, <- X3, <- Y3 in Z3. unfold op_of, op_comp in Z3; simpl in Z3.
  injection Z3; intros K1 K2. split; simpl; auto. rewrite K1. apply vcong12_sym, vcong12_rem.
Qed.
Theorem C15_powi_mul :
  forall m i j, is_affine m -> exists x y,
    powi m (Z.of_nat i) = Done x /\ powi x (Z.of_nat j) = Done y /\
    powi m (Z.of_nat i * Z.of_nat j) = Done y.
Proof.
  intros m i j Hm.
  destruct (C15_powi_is_repeated_composition m i Hm) as (x & X1 & X2 & X3).
  destruct (C15_powi_is_repeated_composition x j X2) as (y & Y1 & Y2 & Y3).
  destruct (C15_powi_is_repeated_composition m (j * i) Hm) as (z & Z1 & Z2 & Z3).
  exists x, y. repeat split; auto. rewrite <- Nat2Z.inj_mul, (Nat.mul_comm i j), Z1. f_equal.
  rewrite (affine_aff z Z2), (affine_aff y Y2).
  rewrite op_pow_mul, <- X3, <- Y3 in Z3. unfold op_of in Z3. injection Z3; intros K1 K2.
  rewrite K1, K2. reflexivity.
Qed.
Example C15_example :
  powi (aff (M3 1 (-1) 0 1 0 0 0 0 1) (V3 0 0 2)) 6 = Done (aff I3 (V3 0 0 12)).
Proof. reflexivity. Qed.

(** ** C09  Origin shift conjugates an operation *)
Theorem C09_shift_formula :
  forall v m, is_affine m ->
    is_affine (shifted_matrix v m) /\ rot (shifted_matrix v m) = rot m /\
    vcong12 (tra (shifted_matrix v m)) (vsub (vadd (tra m) v) (mvmul (rot m) v)).
Proof.
  intros v m Hm. rewrite (affine_aff m Hm), shifted_matrix_aff. simpl. repeat split; simpl;
  (eapply cong12_trans; [apply positive_mod_cong |]); apply cong12_mod; f_equal; ring.
Qed.
Theorem C09_shift_is_conjugation :
  forall v m p, is_affine m ->
    cells_apart (act (shifted_matrix v m) (translate v p)) (translate v (act m p)).
Proof.
  intros v m p Hm. rewrite (affine_aff m Hm), shifted_matrix_aff.
  set (t := vadd (tra m) (vsub v (mvmul (rot m) v))).
  apply (cells_apart_compat (act (aff (rot m) (vmap positive_mod t)) (translate v p))
           _ (act (aff (rot m) t) (translate v p)) _).
  - apply qveq_refl.
  - subst t. q_ring.
  - apply cells_apart_same_rot, vcong12_pm.
Qed.
Theorem C09_shift_of_product :
  forall v a b, is_affine a -> is_affine b ->
    sz_eqb (shifted_matrix v (sz_mul a b)) (sz_mul (shifted_matrix v a) (shifted_matrix v b)) = true.
Proof.
  intros v a b Ha Hb. rewrite (affine_aff a Ha), (affine_aff b Hb), sz_mul_aff, !shifted_matrix_aff, sz_mul_aff.
  apply sz_eqb_same. split; simpl; auto.
  eapply vcong12_trans; [apply vcong12_pm |].
  eapply vcong12_trans; [apply vcong12_vadd; [apply vcong12_rem | apply vcong12_refl] |].
  apply vcong12_sym. eapply vcong12_trans; [apply vcong12_rem |].
  eapply vcong12_trans; [apply vcong12_vadd; [apply vcong12_mvmul, vcong12_pm | apply vcong12_pm] |].
  match goal with |- vcong12 ?x ?y => replace x with y; [apply vcong12_refl |] end.
  rewrite mvmul_mmul, mvmul_vadd, mvmul_vsub.
  generalize (mvmul (rot a) (mvmul (rot b) v)), (mvmul (rot a) v), (mvmul (rot a) (tra b)), (tra a).
  mat_ring.
Qed.
Theorem C09_shifts_compose :
  forall v w m, is_affine m ->
    sz_eqb (shifted_matrix v (shifted_matrix w m)) (shifted_matrix (vadd v w) m) = true.
Proof.
  intros v w m Hm. rewrite (affine_aff m Hm), !shifted_matrix_aff. apply sz_eqb_same.
  split; simpl; auto.
  eapply vcong12_trans; [apply vcong12_pm |].
  eapply vcong12_trans; [apply vcong12_vadd; [apply vcong12_pm | apply vcong12_refl] |].
  apply vcong12_sym. eapply vcong12_trans; [apply vcong12_pm |].
  match goal with |- vcong12 ?x ?y => replace x with y; [apply vcong12_refl |] end.
  rewrite mvmul_vadd. generalize (mvmul (rot m) v), (mvmul (rot m) w), (tra m). mat_ring.
Qed.
Theorem C09_zero_shift :
  forall m, is_affine m -> sz_eqb (shifted_matrix v0 m) m = true.
Proof.
  intros m Hm. rewrite (affine_aff m Hm), shifted_matrix_aff. apply sz_eqb_same.
  split; simpl; auto. eapply vcong12_trans; [apply vcong12_pm |].
  rewrite mvmul_v0. match goal with |- vcong12 ?x ?y => replace x with y; [apply vcong12_refl |] end.
  generalize (tra m). mat_ring.
Qed.
Theorem C09_shift_congruent :
  forall v w m, is_affine m -> vcong12 v w ->
    sz_eqb (shifted_matrix v m) (shifted_matrix w m) = true.
Proof.
  intros v w m Hm H. rewrite (affine_aff m Hm), !shifted_matrix_aff. apply sz_eqb_same.
  split; simpl; auto. eapply vcong12_trans; [apply vcong12_pm |]. apply vcong12_sym.
  eapply vcong12_trans; [apply vcong12_pm |]. apply vcong12_vadd; [apply vcong12_refl |].
  unfold vsub. change (vcong12 (vadd w (vopp (mvmul (rot m) w))) (vadd v (vopp (mvmul (rot m) v)))).
  apply vcong12_sym, vcong12_vadd; auto. apply vcong12_vopp, vcong12_mvmul; auto.
Qed.
Theorem C09_shift_undone :
  forall v m, is_affine m -> sz_eqb (shifted_matrix (vopp v) (shifted_matrix v m)) m = true.
Proof.
  intros v m Hm. assert (H := C09_shifts_compose (vopp v) v m Hm).
  replace (vadd (vopp v) v) with v0 in H by mat_ring.
  rewrite sz_eqb_same in *. eapply same_op_trans; [exact H |].
  apply sz_eqb_same, C09_zero_shift; auto.
Qed.
Example C09_example :   (* 2-fold about c shifted by (1/4,1/4,0) *)
  shifted_matrix (V3 3 3 0) (aff (M3 (-1) 0 0 0 (-1) 0 0 0 1) v0)
  = aff (M3 (-1) 0 0 0 (-1) 0 0 0 1) (V3 6 6 0).
Proof. reflexivity. Qed.

(** ** C10  OriginShift::new *)
Lemma shift_component_cong v : cong12 (shift_component v) v.
Proof.
  unfold shift_component. destruct (negb _); [| apply cong12_refl].
  fold (rem12 v). destruct (cong12_rem v) as [k H]. exists (k + 1). unfold STBN. lia.
Qed.
Lemma shift_component_cases v :
  shift_component v = (if (-12 <? v) && (v <? 12) then v else Z.rem v 12 + 12).
Proof.
  unfold shift_component, STBN.
  destruct (Z.ltb_spec (-12) v), (Z.ltb_spec v 12), (Z.leb_spec (- (12 - 1)) v); simpl; lia || reflexivity.
Qed.
Lemma shift_component_range v : -11 <= shift_component v <= 23.
Proof.
  rewrite shift_component_cases. pose proof (rem12_bound v). unfold rem12, STBN in *.
  destruct (Z.ltb_spec (-12) v), (Z.ltb_spec v 12); simpl; lia.
Qed.
Lemma shift_component_idem v : shift_component (shift_component v) = shift_component v.
Proof.
  pose proof (shift_component_range v) as R. pose proof (shift_component_cong v) as C.
  rewrite (shift_component_cases (shift_component v)).
  set (w := shift_component v) in *.
  destruct (Z.ltb_spec (-12) w), (Z.ltb_spec w 12); simpl; try lia.
  assert (Z.rem w 12 = w - 12); [| lia].
  rewrite Z.rem_mod_nonneg by lia. symmetry. apply (Z.mod_unique _ _ 1); lia.
Qed.
Theorem C10_shift_congruent : forall a b c, vcong12 (origin_shift_new a b c) (V3 a b c).
Proof. intros. repeat split; apply shift_component_cong. Qed.
Theorem C10_shift_range : forall a b c, vbetween (-11) 24 (origin_shift_new a b c).
Proof.
  intros. unfold vbetween, origin_shift_new, vmap. mat_cbn.
  pose proof (shift_component_range a). pose proof (shift_component_range b).
  pose proof (shift_component_range c). lia.
Qed.
Theorem C10_shift_idempotent :
  forall a b c, let r := origin_shift_new a b c in origin_shift_new (vx r) (vy r) (vz r) = r.
Proof. intros. unfold r, origin_shift_new; simpl. unfold vmap; simpl. rewrite !shift_component_idem. reflexivity. Qed.
(** the documented open interval (-12, 12) holds exactly for components that are below 12
    and not negative multiples of 12 *)
Definition shift_ok (v : Z) : Prop := v < 12 /\ ~ (v < 0 /\ cong12 v 0).
Lemma shift_component_small v : -12 < shift_component v < 12 <-> shift_ok v.
Proof.
  unfold shift_ok. rewrite <- rem12_0, shift_component_cases. unfold rem12, STBN.
  pose proof (Z.rem_bound_abs v 12 ltac:(lia)) as B.
  destruct (Z.ltb_spec (-12) v), (Z.ltb_spec v 12); simpl.
  - split; [| lia]. intros _. split; auto. intros [? E]. apply Z.rem_divide in E; [| lia].
    destruct E as [k E]. lia.
  - pose proof (Z.rem_nonneg v 12 ltac:(lia) ltac:(lia)). lia.
  - pose proof (Z.rem_nonpos v 12 ltac:(lia) ltac:(lia)). lia.
  - lia.
Qed.
Theorem C10_documented_interval_iff :
  forall a b c, vbetween (-11) 12 (origin_shift_new a b c) <-> shift_ok a /\ shift_ok b /\ shift_ok c.
Proof.
  intros. rewrite <- !shift_component_small. unfold vbetween; simpl. lia.
Qed.
Theorem C10_documented_interval_refuted :
  origin_shift_new 12 (-12) 13 = V3 12 12 13.
Proof. reflexivity. Qed.

(** ** C21  Positive modulus *)
Theorem C21_positive_mod_spec :
  forall v, cong12 (positive_mod v) v /\
    ((0 <= positive_mod v < 12 /\ ~ (v < 0 /\ cong12 v 0)) \/
     (positive_mod v = 12 /\ v < 0 /\ cong12 v 0)).
Proof.
  intros v. split; [apply positive_mod_cong |].
  pose proof (positive_mod_range v). pose proof (positive_mod_12 v).
  destruct (Z.eq_dec (positive_mod v) 12) as [E | E]; [right | left]; [tauto |].
  split; [lia | tauto].
Qed.
Theorem C21_positive_mod_is_residue : forall v, -12 < v -> positive_mod v = v mod 12.
Proof. exact positive_mod_mod. Qed.
