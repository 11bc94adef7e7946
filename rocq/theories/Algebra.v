(** * Algebra: elementary facts on vectors, matrices, congruences (proof support). *)
From Verif Require Import Base Seitz Spec.

Lemma vec3_ext a b : vx a = vx b -> vy a = vy b -> vz a = vz b -> a = b.
Proof. destruct a, b; simpl; intros; subst; reflexivity. Qed.
Lemma mat3_ext a b :
  m11 a = m11 b -> m12 a = m12 b -> m13 a = m13 b -> m21 a = m21 b -> m22 a = m22 b ->
  m23 a = m23 b -> m31 a = m31 b -> m32 a = m32 b -> m33 a = m33 b -> a = b.
Proof. destruct a, b; simpl; intros; subst; reflexivity. Qed.
Lemma seitz_ext a b :
  rot a = rot b -> tra a = tra b -> bot a = bot b -> cor a = cor b -> a = b.
Proof. destruct a, b; simpl; intros; subst; reflexivity. Qed.

Lemma veqb_eq a b : veqb a b = true <-> a = b.
Proof.
  destruct a, b; unfold veqb; simpl. rewrite !andb_true_iff, !Z.eqb_eq.
  split; [intros [[? ?] ?]; subst; reflexivity | intros H; inversion H; auto].
Qed.
Lemma veqb_refl a : veqb a a = true.
Proof. apply veqb_eq; reflexivity. Qed.
Lemma meqb_eq a b : meqb a b = true <-> a = b.
Proof.
  destruct a, b; unfold meqb; simpl. rewrite !andb_true_iff, !Z.eqb_eq.
  split; [intros; repeat match goal with H : _ /\ _ |- _ => destruct H end; subst; reflexivity
         | intros H; inversion H; repeat split; auto].
Qed.
Lemma meqb_refl a : meqb a a = true.
Proof. apply meqb_eq; reflexivity. Qed.
Lemma meqb_neq a b : meqb a b = false <-> a <> b.
Proof. rewrite <- meqb_eq. destruct (meqb a b); split; congruence. Qed.
Lemma veqb_neq a b : veqb a b = false <-> a <> b.
Proof. rewrite <- veqb_eq. destruct (veqb a b); split; congruence. Qed.
Lemma mat3_eq_dec (a b : mat3) : {a = b} + {a <> b}.
Proof. destruct (meqb a b) eqn:E; [left; apply meqb_eq | right; apply meqb_neq]; auto. Qed.
Lemma vec3_eq_dec (a b : vec3) : {a = b} + {a <> b}.
Proof. destruct (veqb a b) eqn:E; [left; apply veqb_eq | right; apply veqb_neq]; auto. Qed.

Ltac mat_cbn := cbn [m11 m12 m13 m21 m22 m23 m31 m32 m33 vx vy vz rot tra bot cor fst snd].
Ltac mat_ring :=
  intros;
  repeat match goal with m : mat3 |- _ => destruct m | v : vec3 |- _ => destruct v end;
  unfold mmul, mvmul, vmmul, madd, msub, mopp, mscale, mmap, vadd, vsub, vopp, vscale, vdot,
    vouter, vmap, mdet, mtrace, I3, v0; mat_cbn;
  first [ ring | apply mat3_ext; mat_cbn; ring | apply vec3_ext; mat_cbn; ring ].

Lemma mmul_assoc a b c : mmul a (mmul b c) = mmul (mmul a b) c. Proof. mat_ring. Qed.
Lemma mmul_I_l a : mmul I3 a = a. Proof. mat_ring. Qed.
Lemma mmul_I_r a : mmul a I3 = a. Proof. mat_ring. Qed.
Lemma mvmul_mmul a b v : mvmul (mmul a b) v = mvmul a (mvmul b v). Proof. mat_ring. Qed.
Lemma mvmul_I v : mvmul I3 v = v. Proof. mat_ring. Qed.
Lemma mvmul_vadd a u v : mvmul a (vadd u v) = vadd (mvmul a u) (mvmul a v). Proof. mat_ring. Qed.
Lemma mvmul_vsub a u v : mvmul a (vsub u v) = vsub (mvmul a u) (mvmul a v). Proof. mat_ring. Qed.
Lemma mvmul_vopp a u : mvmul a (vopp u) = vopp (mvmul a u). Proof. mat_ring. Qed.
Lemma mvmul_vscale a k u : mvmul a (vscale k u) = vscale k (mvmul a u). Proof. mat_ring. Qed.
Lemma mvmul_v0 a : mvmul a v0 = v0. Proof. mat_ring. Qed.
Lemma mvmul_mopp a u : mvmul (mopp a) u = vopp (mvmul a u). Proof. mat_ring. Qed.
Lemma vadd_comm a b : vadd a b = vadd b a. Proof. mat_ring. Qed.
Lemma vadd_assoc a b c : vadd a (vadd b c) = vadd (vadd a b) c. Proof. mat_ring. Qed.
Lemma vadd_0_l a : vadd v0 a = a. Proof. mat_ring. Qed.
Lemma vadd_0_r a : vadd a v0 = a. Proof. mat_ring. Qed.
Lemma mdet_mmul a b : mdet (mmul a b) = mdet a * mdet b. Proof. mat_ring. Qed.
Lemma mdet_I : mdet I3 = 1. Proof. reflexivity. Qed.
Lemma mdet_mopp a : mdet (mopp a) = - mdet a. Proof. mat_ring. Qed.
Lemma mopp_mopp a : mopp (mopp a) = a. Proof. mat_ring. Qed.
Lemma mmul_mopp_l a b : mmul (mopp a) b = mopp (mmul a b). Proof. mat_ring. Qed.
Lemma mmul_mopp_r a b : mmul a (mopp b) = mopp (mmul a b). Proof. mat_ring. Qed.

(** adjugate *)
Definition madj (a : mat3) : mat3 :=
  M3 (m22 a * m33 a - m23 a * m32 a) (m13 a * m32 a - m12 a * m33 a) (m12 a * m23 a - m13 a * m22 a)
     (m23 a * m31 a - m21 a * m33 a) (m11 a * m33 a - m13 a * m31 a) (m13 a * m21 a - m11 a * m23 a)
     (m21 a * m32 a - m22 a * m31 a) (m12 a * m31 a - m11 a * m32 a) (m11 a * m22 a - m12 a * m21 a).
Lemma madj_r a : mmul a (madj a) = mscale (mdet a) I3. Proof. unfold madj. mat_ring. Qed.
Lemma madj_l a : mmul (madj a) a = mscale (mdet a) I3. Proof. unfold madj. mat_ring. Qed.
Lemma mscale_1 a : mscale 1 a = a. Proof. mat_ring. Qed.

(** *** unimodular matrices have integer inverses *)
Definition unimodular (a : mat3) : Prop := mdet a = 1 \/ mdet a = -1.
Definition minv (a : mat3) : mat3 := mscale (mdet a) (madj a).
Lemma mmul_mscale_r k a b : mmul a (mscale k b) = mscale k (mmul a b). Proof. mat_ring. Qed.
Lemma mmul_mscale_l k a b : mmul (mscale k a) b = mscale k (mmul a b). Proof. mat_ring. Qed.
Lemma mscale_mscale j k a : mscale j (mscale k a) = mscale (j * k) a. Proof. mat_ring. Qed.
Lemma minv_r a : unimodular a -> mmul a (minv a) = I3.
Proof.
  intros H. unfold minv. rewrite mmul_mscale_r, madj_r, mscale_mscale.
  destruct H as [-> | ->]; apply mscale_1.
Qed.
Lemma minv_l a : unimodular a -> mmul (minv a) a = I3.
Proof.
  intros H. unfold minv. rewrite mmul_mscale_l, madj_l, mscale_mscale.
  destruct H as [-> | ->]; apply mscale_1.
Qed.
Lemma mmul_cancel_l a b c : unimodular a -> mmul a b = mmul a c -> b = c.
Proof.
  intros U H. rewrite <- (mmul_I_l b), <- (mmul_I_l c), <- (minv_l a U), <- !mmul_assoc, H.
  reflexivity.
Qed.
Lemma mmul_right_inverse_unique a b : unimodular a -> mmul a b = I3 -> b = minv a.
Proof. intros U H. apply (mmul_cancel_l a); auto. rewrite H, minv_r; auto. Qed.
Lemma unit_product x y : x * y = 1 -> x = 1 \/ x = -1.
Proof.
  intros H. assert (Hx : (x | 1)) by (exists y; lia).
  apply Z.divide_1_r in Hx. lia.
Qed.
Lemma mmul_I_unimodular a b : mmul a b = I3 -> unimodular a.
Proof.
  intros H. apply (f_equal mdet) in H. rewrite mdet_mmul, mdet_I in H.
  apply unit_product in H. exact H.
Qed.
Lemma unimodular_mmul a b : unimodular a -> unimodular b -> unimodular (mmul a b).
Proof. unfold unimodular. rewrite mdet_mmul. intros [-> | ->] [-> | ->]; auto. Qed.
Lemma unimodular_I : unimodular I3. Proof. left; reflexivity. Qed.
Lemma unimodular_minv a : unimodular a -> unimodular (minv a).
Proof. intros U. apply (mmul_I_unimodular _ a), minv_l, U. Qed.

(** *** congruence modulo 12 *)
Lemma cong12_refl a : cong12 a a. Proof. exists 0; lia. Qed.
Lemma cong12_sym a b : cong12 a b -> cong12 b a. Proof. intros [k H]; exists (- k); lia. Qed.
Lemma cong12_trans a b c : cong12 a b -> cong12 b c -> cong12 a c.
Proof. intros [j H] [k K]; exists (j + k); lia. Qed.
Lemma cong12_add a b c d : cong12 a b -> cong12 c d -> cong12 (a + c) (b + d).
Proof. intros [j H] [k K]; exists (j + k); lia. Qed.
Lemma cong12_opp a b : cong12 a b -> cong12 (- a) (- b).
Proof. intros [j H]; exists (- j); lia. Qed.
Lemma cong12_mul k a b : cong12 a b -> cong12 (k * a) (k * b).
Proof. intros [j H]; exists (k * j). rewrite <- Z.mul_sub_distr_l, H. ring. Qed.
Lemma cong12_mod a b : cong12 a b <-> a mod 12 = b mod 12.
Proof.
  split.
  - intros [k H]. replace a with (b + k * 12) by lia. apply Z_mod_plus_full.
  - intros H. exists (a / 12 - b / 12).
    pose proof (Z.div_mod a 12 ltac:(lia)). pose proof (Z.div_mod b 12 ltac:(lia)). lia.
Qed.
Lemma cong12_small a b : cong12 a b -> 0 <= a < 12 -> 0 <= b < 12 -> a = b.
Proof. intros [k H] ? ?; lia. Qed.
Lemma cong12_rem a : cong12 (rem12 a) a.
Proof.
  exists (- Z.quot a 12). unfold rem12, STBN.
  pose proof (Z.quot_rem a 12 ltac:(lia)). lia.
Qed.
Lemma rem12_bound a : -12 < rem12 a < 12.
Proof.
  unfold rem12, STBN. pose proof (Z.rem_bound_abs a 12 ltac:(lia)). lia.
Qed.
Lemma rem12_0 a : rem12 a = 0 <-> cong12 a 0.
Proof.
  split.
  - intros H. pose proof (cong12_rem a) as [k K]. rewrite H in K. exists (-k). lia.
  - intros [k H]. unfold rem12, STBN. replace a with (k * 12) by lia. apply Z.rem_mul; lia.
Qed.
Lemma positive_mod_cong a : cong12 (positive_mod a) a.
Proof.
  unfold positive_mod. fold (rem12 a). destruct (a <? 0).
  - destruct (cong12_rem a) as [k H]. exists (k + 1). unfold STBN. lia.
  - apply cong12_rem.
Qed.
Lemma positive_mod_range a : 0 <= positive_mod a <= 12.
Proof.
  unfold positive_mod. fold (rem12 a). pose proof (rem12_bound a). unfold STBN.
  unfold rem12, STBN in *. destruct (Z.ltb_spec a 0) as [E | E].
  - pose proof (Z.rem_nonpos a 12 ltac:(lia) ltac:(lia)). lia.
  - pose proof (Z.rem_nonneg a 12 ltac:(lia) E). lia.
Qed.
Lemma positive_mod_12 a : positive_mod a = 12 <-> a < 0 /\ cong12 a 0.
Proof.
  rewrite <- rem12_0. unfold positive_mod. fold (rem12 a). pose proof (rem12_bound a). unfold STBN.
  destruct (a <? 0) eqn:E; [apply Z.ltb_lt in E | apply Z.ltb_ge in E]; [lia |].
  split; [lia | tauto || lia].
Qed.
Lemma positive_mod_mod a : -12 < a -> positive_mod a = a mod 12.
Proof.
  intros H. apply cong12_small.
  - apply cong12_trans with a; [apply positive_mod_cong |].
    apply cong12_mod. rewrite Z.mod_mod; lia.
  - pose proof (positive_mod_range a). destruct (Z.eq_dec (positive_mod a) 12) as [E | E]; [| lia].
    apply positive_mod_12 in E. destruct E as [? [k ?]]. lia.
  - apply Z.mod_pos_bound; lia.
Qed.

Lemma vcong12_refl a : vcong12 a a. Proof. repeat split; apply cong12_refl. Qed.
Lemma vcong12_sym a b : vcong12 a b -> vcong12 b a.
Proof. intros (?&?&?); repeat split; apply cong12_sym; auto. Qed.
Lemma vcong12_trans a b c : vcong12 a b -> vcong12 b c -> vcong12 a c.
Proof. intros (?&?&?) (?&?&?); repeat split; eapply cong12_trans; eauto. Qed.
Lemma vcong12_vadd a b c d : vcong12 a b -> vcong12 c d -> vcong12 (vadd a c) (vadd b d).
Proof. intros (?&?&?) (?&?&?); repeat split; apply cong12_add; auto. Qed.
Lemma vcong12_vopp a b : vcong12 a b -> vcong12 (vopp a) (vopp b).
Proof. intros (?&?&?); repeat split; apply cong12_opp; auto. Qed.
Lemma vcong12_mvmul R a b : vcong12 a b -> vcong12 (mvmul R a) (mvmul R b).
Proof. intros (?&?&?); repeat split; simpl; repeat apply cong12_add; apply cong12_mul; auto. Qed.
Lemma vcong12_rem a : vcong12 (vmap rem12 a) a.
Proof. repeat split; apply cong12_rem. Qed.
Lemma vcong12_pm a : vcong12 (vmap positive_mod a) a.
Proof. repeat split; apply positive_mod_cong. Qed.
Lemma vcong12_vsub0 a b : vcong12 a b <-> vcong12 (vsub a b) v0.
Proof.
  unfold vcong12, cong12; simpl. split; intros ([i ?]&[j ?]&[k ?]);
  (split; [exists i; lia | split; [exists j; lia | exists k; lia]]).
Qed.
Lemma vcong12_small a b : vcong12 a b -> vbetween 0 12 a -> vbetween 0 12 b -> a = b.
Proof. intros (?&?&?) (?&?&?) (?&?&?); apply vec3_ext; apply cong12_small; auto. Qed.

Lemma vforall_true f v : vforall f v = true <-> f (vx v) = true /\ f (vy v) = true /\ f (vz v) = true.
Proof. unfold vforall. rewrite !andb_true_iff. tauto. Qed.

Lemma sz_eqb_same a b : sz_eqb a b = true <-> same_op a b.
Proof.
  unfold sz_eqb, same_op. destruct (meqb (rot a) (rot b)) eqn:E.
  - apply meqb_eq in E. rewrite vforall_true, !Z.eqb_eq, !rem12_0.
    rewrite vcong12_vsub0. unfold vcong12. simpl. tauto.
  - apply meqb_neq in E. split; [discriminate | tauto].
Qed.
Lemma same_op_refl a : same_op a a. Proof. split; auto using vcong12_refl. Qed.
Lemma same_op_sym a b : same_op a b -> same_op b a.
Proof. intros [? ?]; split; auto using vcong12_sym. Qed.
Lemma same_op_trans a b c : same_op a b -> same_op b c -> same_op a c.
Proof. intros [? ?] [? ?]; split; [congruence | eapply vcong12_trans; eauto]. Qed.

Lemma aff_affine R t : is_affine (aff R t). Proof. split; reflexivity. Qed.
Lemma affine_aff m : is_affine m -> m = aff (rot m) (tra m).
Proof. intros [? ?]; destruct m; simpl in *; subst; reflexivity. Qed.

(** products of proper Seitz matrices *)
Lemma mat4_mul_aff R t S u :
  mat4_mul (aff R t) (aff S u) = aff (mmul R S) (vadd (mvmul R u) t).
Proof.
  unfold mat4_mul, aff; simpl. apply seitz_ext; simpl.
  - destruct t. mat_ring.
  - mat_ring.
  - mat_ring.
  - unfold vdot, v0; simpl; ring.
Qed.
Lemma sz_mul_aff R t S u :
  sz_mul (aff R t) (aff S u) = aff (mmul R S) (vmap rem12 (vadd (mvmul R u) t)).
Proof. unfold sz_mul. rewrite mat4_mul_aff. reflexivity. Qed.
Lemma shifted_matrix_aff v R t :
  shifted_matrix v (aff R t) = aff R (vmap positive_mod (vadd t (vsub v (mvmul R v)))).
Proof.
  unfold shifted_matrix. rewrite !mat4_mul_aff. simpl. unfold aff. f_equal.
  - rewrite mmul_I_l, mmul_I_r. reflexivity.
  - f_equal. rewrite mmul_I_l, mvmul_I, mvmul_vopp. mat_ring.
Qed.

Lemma op_comp_assoc a b c : op_comp a (op_comp b c) = op_comp (op_comp a b) c.
Proof.
  destruct a as [R t], b as [S u], c as [T w]. unfold op_comp; simpl. f_equal.
  - apply mmul_assoc.
  - rewrite mvmul_vadd, mvmul_mmul, vadd_assoc. reflexivity.
Qed.
Lemma op_comp_id_l a : op_comp op_id a = a.
Proof. destruct a. unfold op_comp, op_id; simpl. f_equal; [apply mmul_I_l | rewrite mvmul_I; apply vadd_0_r]. Qed.
Lemma op_comp_id_r a : op_comp a op_id = a.
Proof. destruct a. unfold op_comp, op_id; simpl. f_equal; [apply mmul_I_r |]. change (V3 0 0 0) with v0. rewrite mvmul_v0. apply vadd_0_l. Qed.
Lemma op_same_refl a : op_same a a. Proof. split; auto using vcong12_refl. Qed.
Lemma op_same_sym a b : op_same a b -> op_same b a.
Proof. intros [? ?]; split; auto using vcong12_sym. Qed.
Lemma op_same_trans a b c : op_same a b -> op_same b c -> op_same a c.
Proof. intros [? ?] [? ?]; split; [congruence | eapply vcong12_trans; eauto]. Qed.
Lemma op_same_comp a b c d : op_same a b -> op_same c d -> op_same (op_comp a c) (op_comp b d).
Proof.
  intros [H1 H2] [H3 H4]. split; simpl; [congruence |].
  rewrite <- H1. apply vcong12_vadd; auto. apply vcong12_mvmul; auto.
Qed.
(** inverse of an operation with unimodular rotation part *)
Definition op_inv (a : op) : op := (minv (fst a), vopp (mvmul (minv (fst a)) (snd a))).
Lemma op_inv_r a : unimodular (fst a) -> op_comp a (op_inv a) = op_id.
Proof.
  intros U. destruct a as [R t]; unfold op_comp, op_inv, op_id; simpl in *. f_equal.
  - apply minv_r; auto.
  - rewrite mvmul_vopp, <- mvmul_mmul, minv_r, mvmul_I; auto. mat_ring.
Qed.
Lemma op_inv_l a : unimodular (fst a) -> op_comp (op_inv a) a = op_id.
Proof.
  intros U. destruct a as [R t]; unfold op_comp, op_inv, op_id; simpl in *. f_equal.
  - apply minv_l; auto.
  - mat_ring.
Qed.
