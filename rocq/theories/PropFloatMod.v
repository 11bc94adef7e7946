(** * PropFloatMod: C21 for the floating-point modulus. *)
From Coq Require Import QArith SpecFloat.
From Verif Require Import Base Notations Seitz F64 F64Mod Spec SpecRotation SpecFloat64 F64Facts PropSeitz PropFloat.
Open Scope Z_scope.

Lemma frem_12 f n : rep f n -> rep (frem f (f64_of_Z 12)) (Z.rem n 12).
Proof.
  intros H. set (y := f64_of_Z 12). assert (Ey : y = S754_finite false 6755399441055744 (-49)) by (vm_compute; reflexivity).
  rewrite Ey. clear y Ey. destruct f as [s | s | | s m e]; unfold rep_s in H; try contradiction.
  - subst n. reflexivity.
  - destruct H as (E & B & M & S0). pose proof (log2_53 _ B) as L. unfold frem.
    set (c := Z.min e (-49)). assert (Hc : -52 <= c <= 0) by lia.
    assert (A : Z.pos m * 2 ^ (e - c) = Z.abs n * 2 ^ (- c)).
    { rewrite M, <- Z.mul_assoc, <- Z.pow_add_r by lia. f_equal. f_equal. lia. }
    assert (D : 6755399441055744 * 2 ^ (-49 - c) = 12 * 2 ^ (- c)).
    { change 6755399441055744 with (12 * 2 ^ 49). rewrite <- Z.mul_assoc, <- Z.pow_add_r by lia. f_equal. f_equal. lia. }
    rewrite A, D. assert (P : 0 < 2 ^ (- c)) by (apply Z.pow_pos_nonneg; lia).
    rewrite Z.mul_mod_distr_r by lia.
    assert (R : Z.rem n 12 = if s then - (Z.abs n mod 12) else Z.abs n mod 12).
    { subst s. destruct (Z.ltb_spec n 0) as [I | I].
      - rewrite Z.abs_neq by lia. rewrite <- (Z.rem_mod_nonneg (- n) 12) by lia. rewrite Z.rem_opp_l by lia. lia.
      - rewrite Z.abs_eq by lia. rewrite Z.rem_mod_nonneg by lia. reflexivity. }
    apply normalize_rep; [lia | | lia |].
    + rewrite R. pose proof (Z.mod_pos_bound (Z.abs n) 12 ltac:(lia)). destruct s; lia.
    + rewrite R. destruct s; ring_simplify; replace (- 0 - c) with (- c) by lia; ring.
Qed.
Lemma fltb_0 f n : rep f n -> fltb f (f64_of_Z 0) = (n <? 0).
Proof.
  intros H. change (f64_of_Z 0) with (S754_zero false). destruct f as [s | s | | s m e]; unfold rep_s in H; try contradiction.
  - subst n. reflexivity.
  - destruct H as (_ & _ & _ & ->). unfold fltb. cbn [SFcompare]. destruct (n <? 0); reflexivity.
Qed.
(** on whole numbers the floating-point modulus is the integer one, exactly *)
Theorem C21_float_modulus :
  forall n, Z.abs n < 2 ^ 53 -> exactly (positive_mod_stbn_f64 (f64_of_Z n)) (inject_Z (positive_mod n)).
Proof.
  intros n B. pose proof (f64_of_Z_rep n B) as R. unfold positive_mod_stbn_f64. rewrite (fltb_0 _ _ R).
  pose proof (frem_12 _ _ R) as Q. pose proof (f64_of_Z_rep 12 ltac:(lia)) as T.
  assert (X : forall f z, rep f z -> exactly f (inject_Z z)).
  { intros f z H. pose proof (rep_value 0 f z ltac:(lia) H) as (v & E & V). exists v. split; [exact E |]. rewrite V. change (inject_Z (2 ^ 0)) with 1%Q. field. }
  apply X. unfold positive_mod. change STBN with 12. destruct (n <? 0) eqn:I; [| exact Q].
  apply fadd_rep; auto. pose proof (Z.rem_bound_abs n 12 ltac:(lia)). lia.
Qed.
Example C21_float_case : Z.abs (-24) < 2 ^ 53 /\ positive_mod (-24) = 12 /\ positive_mod_stbn_f64 (f64_of_Z (-24)) = f64_of_Z 12.
Proof. repeat split; vm_compute; reflexivity. Qed.
(** NaN and the infinities have no remainder *)
Theorem C21_float_modulus_not_finite :
  forall s, positive_mod_stbn_f64 S754_nan = S754_nan /\ positive_mod_stbn_f64 (S754_infinity s) = S754_nan.
Proof. intros [|]; split; vm_compute; reflexivity. Qed.
