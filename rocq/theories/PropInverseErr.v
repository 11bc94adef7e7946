(** * PropInverseErr: property C16, continued: whatever the translation, the inverse is right up
    to one twelfth in each component. *)
From Coq Require Import SpecFloat.
From Verif Require Import Base Notations Parser Seitz F64 Jones Rotations Tables Generate Positions Lookup
  Spec SpecHall SpecTables SpecRotation SpecXyz SpecInverse Algebra PropSeitz PropSymbols GenFacts PropGenerate GroupCheck
  PropFullSets PropShift PropTables PropTableGroups Restriction F64Facts F64Div F64Err PropRotation PropJones PropInverse PropInverse2.
Open Scope Z_scope.
Local Notation length := List.length.

(** ** Approximations *)
(** [f] is a float whose value, in units of [2^-500], is within [E] of [x] *)
Definition apx (lo : Z) (f : f64) (x E : Z) : Prop := exists u, hv lo f u /\ Z.abs (u - x) <= E.
Lemma apx_lower lo lo' f x E : lo' <= lo -> apx lo f x E -> apx lo' f x E.
Proof. intros H (u & Hu & B). exists u. split; [eapply hv_lower; eauto | assumption]. Qed.
Lemma apx_weaken lo f x E F : E <= F -> apx lo f x E -> apx lo f x F.
Proof. intros H (u & Hu & B). exists u. split; [assumption | lia]. Qed.
Lemma apx_eq lo f x y E : x = y -> apx lo f x E -> apx lo f y E.
Proof. now intros ->. Qed.
Lemma round_step x u S H : rounds_to x u -> Z.abs x <= S -> S <= 2 ^ 53 * H -> Z.abs (u - x) <= H.
Proof. unfold rounds_to. lia. Qed.
Lemma tri a b c : Z.abs (a - c) <= Z.abs (a - b) + Z.abs (b - c).
Proof. lia. Qed.
Lemma add_apx (X E F G : Z) u1 u2 x y u : Z.abs (u1 - x) <= E -> Z.abs (u2 - y) <= F -> Z.abs (u - (u1 + u2)) <= G ->
  Z.abs (u - (x + y)) <= E + F + G.
Proof. clear. lia. Qed.
Lemma fadd_apx lo f g x y E F X Y H : -400 <= lo -> apx lo f x E -> apx lo g y F ->
  Z.abs x <= X -> Z.abs y <= Y -> X + E < 2 ^ 560 -> Y + F < 2 ^ 560 -> X + E + (Y + F) <= 2 ^ 53 * H ->
  apx (lo - 53) (fadd f g) (x + y) (E + F + H).
Proof.
  intros Hlo (u1 & H1 & B1) (u2 & H2 & B2) BX BY LX LY HH.
  assert (A1 : Z.abs u1 <= X + E) by (clear - B1 BX; lia). assert (A2 : Z.abs u2 <= Y + F) by (clear - B2 BY; lia).
  destruct (fadd_hv lo f g u1 u2 Hlo H1 H2 ltac:(clear - A1 LX; lia) ltac:(clear - A2 LY; lia)) as (u & Hu & R).
  exists u. split; [assumption |]. apply (add_apx 0 E F H u1 u2); auto.
  apply (round_step _ _ (X + E + (Y + F))); auto. clear - A1 A2. lia.
Qed.
Lemma apx_opp lo f x E : apx lo f x E -> apx lo (fneg f) (- x) E.
Proof. intros (u & Hu & B). exists (- u). split; [now apply hv_opp | lia]. Qed.
Lemma fsub_apx lo f g x y E F X Y H : -400 <= lo -> apx lo f x E -> apx lo g y F ->
  Z.abs x <= X -> Z.abs y <= Y -> X + E < 2 ^ 560 -> Y + F < 2 ^ 560 -> X + E + (Y + F) <= 2 ^ 53 * H ->
  apx (lo - 53) (fsub f g) (x - y) (E + F + H).
Proof.
  intros. rewrite fsub_neg. apply (fadd_apx lo f (fneg g) x (- y) E F X Y); auto; [now apply apx_opp |]. now rewrite Z.abs_opp.
Qed.
Lemma fmul_apx lo f g x a E X A H : -400 <= lo -> apx lo f x E -> rep g a ->
  Z.abs x <= X -> Z.abs a <= A -> 0 <= A -> X + E < 2 ^ 560 -> (X + E) * A <= 2 ^ 53 * H ->
  apx lo (fmul f g) (x * a) (E * A + H).
Proof.
  intros Hlo (u1 & H1 & B1) Hg BX BA HA LX HH.
  assert (A1 : Z.abs u1 <= X + E) by (clear - B1 BX; lia).
  destruct (fmul_hv lo f g u1 a Hlo H1 Hg ltac:(clear - A1 LX; lia)) as (u & Hu & R).
  exists u. split; [assumption |].
  assert (0 <= E) by lia. assert (0 <= X) by lia.
  assert (P1 : Z.abs (u1 * a) <= (X + E) * A) by (rewrite Z.abs_mul; apply Z.mul_le_mono_nonneg; lia).
  pose proof (round_step _ _ _ _ R P1 HH) as P2.
  assert (P3 : Z.abs (u1 * a - x * a) <= E * A).
  { replace (u1 * a - x * a) with ((u1 - x) * a) by ring. rewrite Z.abs_mul. apply Z.mul_le_mono_nonneg; lia. }
  pose proof (tri u (u1 * a) (x * a)). lia.
Qed.

(** ** The unit of the errors, and the terms of the cofactors *)
Definition q : Z := 2 ^ 485.
Definition W : Z := 2 ^ 538.
(** a product of two matrix entries up to 32 and a translation *)
Lemma term_last x y z a b v : rep x a -> rep y b -> hv (-60) z v -> Z.abs a <= 32 -> Z.abs b <= 32 -> Z.abs v <= 2 ^ 528 ->
  apx (-60) (fm3 x y z) (a * b * v) (4 * q) /\ Z.abs (a * b * v) <= W.
Proof.
  intros Hx Hy Hz Ha Hb Hv.
  destruct (smul 0 0 32 32 a b x y ltac:(lia) ltac:(lia) ltac:(lia) Hx Hy Ha Hb ltac:(lia) ltac:(lia) eq_refl) as [R B].
  change (0 + 0) with 0 in R. change (32 * 32) with 1024 in B.
  assert (BW : Z.abs (a * b * v) <= W).
  { rewrite Z.abs_mul. change W with (1024 * 2 ^ 528). apply Z.mul_le_mono_nonneg; lia. }
  split; [| assumption].
  unfold fm3. rewrite fmul_comm. rewrite (Z.mul_comm (a * b)). apply (apx_weaken _ _ _ (0 * 1024 + q)); [unfold q; lia |].
  apply (fmul_apx (-60) z (fmul x y) v (a * b) 0 (2 ^ 528) 1024); auto; try lia; [exists v; split; [assumption | lia] |].
  unfold q. lia.
Qed.
Lemma term_first x y z a b v : hv (-60) x v -> rep y a -> rep z b -> Z.abs a <= 32 -> Z.abs b <= 32 -> Z.abs v <= 2 ^ 528 ->
  apx (-60) (fm3 x y z) (v * a * b) (4 * q) /\ Z.abs (v * a * b) <= W.
Proof.
  intros Hx Hy Hz Ha Hb Hv. unfold fm3.
  assert (B1 : Z.abs (v * a) <= 2 ^ 533).
  { rewrite Z.abs_mul. change (2 ^ 533) with (2 ^ 528 * 32). apply Z.mul_le_mono_nonneg; lia. }
  assert (A1 : apx (-60) (fmul x y) (v * a) (0 * 32 + 2 ^ 480)).
  { apply (fmul_apx (-60) x y v a 0 (2 ^ 528) 32); auto; try lia. exists v; split; [assumption | lia]. }
  split.
  - apply (apx_weaken _ _ _ ((0 * 32 + 2 ^ 480) * 32 + 2 * q)); [unfold q; lia |].
    apply (fmul_apx (-60) _ z (v * a) b (0 * 32 + 2 ^ 480) (2 ^ 533) 32); auto; unfold q; lia.
  - rewrite Z.abs_mul. change W with (2 ^ 533 * 32). apply Z.mul_le_mono_nonneg; lia.
Qed.
Lemma abs_sum2 a b A B : Z.abs a <= A -> Z.abs b <= B -> Z.abs (a + b) <= A + B.
Proof. lia. Qed.
Lemma abs_diff2 a b A B : Z.abs a <= A -> Z.abs b <= B -> Z.abs (a - b) <= A + B.
Proof. lia. Qed.
Definition term (f : f64) (x : Z) : Prop := apx (-60) f x (4 * q) /\ Z.abs x <= W.
Lemma f6pos_apx a b c d e f x1 x2 x3 x4 x5 x6 : term a x1 -> term b x2 -> term c x3 -> term d x4 -> term e x5 -> term f x6 ->
  apx (-325) (f6pos a b c d e f) (x1 - x2 - x3 + x4 + x5 - x6) (64 * q) /\ Z.abs (x1 - x2 - x3 + x4 + x5 - x6) <= 6 * W.
Proof.
  intros [R1 B1] [R2 B2] [R3 B3] [R4 B4] [R5 B5] [R6 B6]. unfold f6pos.
  pose proof (abs_diff2 _ _ _ _ B1 B2) as C2. pose proof (abs_diff2 _ _ _ _ C2 B3) as C3.
  pose proof (abs_sum2 _ _ _ _ C3 B4) as C4. pose proof (abs_sum2 _ _ _ _ C4 B5) as C5. pose proof (abs_diff2 _ _ _ _ C5 B6) as C6.
  assert (L : forall k g y, k <= -60 -> apx (-60) g y (4 * q) -> apx k g y (4 * q)) by (intros; eapply apx_lower; eauto).
  pose proof (fsub_apx (-60) _ _ _ _ (4 * q) (4 * q) W W (3 * q) ltac:(lia) R1 R2 B1 B2 eq_refl eq_refl ltac:(unfold W, q; lia)) as A2.
  pose proof (fsub_apx (-113) _ _ _ _ (4 * q + 4 * q + 3 * q) (4 * q) (W + W) W (4 * q) ltac:(lia) A2 (L (-113) _ _ ltac:(lia) R3) C2 B3 eq_refl eq_refl ltac:(unfold W, q; lia)) as A3.
  pose proof (fadd_apx (-166) _ _ _ _ (4 * q + 4 * q + 3 * q + 4 * q + 4 * q) (4 * q) (W + W + W) W (5 * q) ltac:(lia) A3 (L (-166) _ _ ltac:(lia) R4) C3 B4 eq_refl eq_refl ltac:(unfold W, q; lia)) as A4.
  pose proof (fadd_apx (-219) _ _ _ _ (4 * q + 4 * q + 3 * q + 4 * q + 4 * q + 4 * q + 5 * q) (4 * q) (W + W + W + W) W (6 * q) ltac:(lia) A4 (L (-219) _ _ ltac:(lia) R5) C4 B5 eq_refl eq_refl ltac:(unfold W, q; lia)) as A5.
  pose proof (fsub_apx (-272) _ _ _ _ (4 * q + 4 * q + 3 * q + 4 * q + 4 * q + 4 * q + 5 * q + 4 * q + 6 * q) (4 * q) (W + W + W + W + W) W (7 * q) ltac:(lia) A5 (L (-272) _ _ ltac:(lia) R6) C5 B6 eq_refl eq_refl ltac:(unfold W, q; lia)) as A6.
  split; [| clear - C6; lia]. apply (apx_weaken _ _ _ _ (64 * q)) in A6; [exact A6 | unfold q; lia].
Qed.
Lemma f6neg_apx a b c d e f x1 x2 x3 x4 x5 x6 : term a x1 -> term b x2 -> term c x3 -> term d x4 -> term e x5 -> term f x6 ->
  apx (-325) (f6neg a b c d e f) (x1 + x2 + x3 - x4 - x5 + x6) (64 * q) /\ Z.abs (x1 + x2 + x3 - x4 - x5 + x6) <= 6 * W.
Proof.
  intros [R1 B1] [R2 B2] [R3 B3] [R4 B4] [R5 B5] [R6 B6]. unfold f6neg.
  pose proof (abs_sum2 _ _ _ _ B1 B2) as C2. pose proof (abs_sum2 _ _ _ _ C2 B3) as C3.
  pose proof (abs_diff2 _ _ _ _ C3 B4) as C4. pose proof (abs_diff2 _ _ _ _ C4 B5) as C5. pose proof (abs_sum2 _ _ _ _ C5 B6) as C6.
  assert (L : forall k g y, k <= -60 -> apx (-60) g y (4 * q) -> apx k g y (4 * q)) by (intros; eapply apx_lower; eauto).
  pose proof (fadd_apx (-60) _ _ _ _ (4 * q) (4 * q) W W (3 * q) ltac:(lia) R1 R2 B1 B2 eq_refl eq_refl ltac:(unfold W, q; lia)) as A2.
  pose proof (fadd_apx (-113) _ _ _ _ (4 * q + 4 * q + 3 * q) (4 * q) (W + W) W (4 * q) ltac:(lia) A2 (L (-113) _ _ ltac:(lia) R3) C2 B3 eq_refl eq_refl ltac:(unfold W, q; lia)) as A3.
  pose proof (fsub_apx (-166) _ _ _ _ (4 * q + 4 * q + 3 * q + 4 * q + 4 * q) (4 * q) (W + W + W) W (5 * q) ltac:(lia) A3 (L (-166) _ _ ltac:(lia) R4) C3 B4 eq_refl eq_refl ltac:(unfold W, q; lia)) as A4.
  pose proof (fsub_apx (-219) _ _ _ _ (4 * q + 4 * q + 3 * q + 4 * q + 4 * q + 4 * q + 5 * q) (4 * q) (W + W + W + W) W (6 * q) ltac:(lia) A4 (L (-219) _ _ ltac:(lia) R5) C4 B5 eq_refl eq_refl ltac:(unfold W, q; lia)) as A5.
  pose proof (fadd_apx (-272) _ _ _ _ (4 * q + 4 * q + 3 * q + 4 * q + 4 * q + 4 * q + 5 * q + 4 * q + 6 * q) (4 * q) (W + W + W + W + W) W (7 * q) ltac:(lia) A5 (L (-272) _ _ ltac:(lia) R6) C5 B6 eq_refl eq_refl ltac:(unfold W, q; lia)) as A6.
  split; [| clear - C6; lia]. apply (apx_weaken _ _ _ _ (64 * q)) in A6; [exact A6 | unfold q; lia].
Qed.
(** the three translation cofactors *)
Lemma fcofactors_tra_apx m R v : fop 32 m R -> entries_within 32 R ->
  hv (-60) (f12 m) (vx v) -> hv (-60) (f13 m) (vy v) -> hv (-60) (f14 m) (vz v) ->
  Z.abs (vx v) <= 2 ^ 528 -> Z.abs (vy v) <= 2 ^ 528 -> Z.abs (vz v) <= 2 ^ 528 ->
  let o := fcofactors m in
  let w := vopp (mvmul (madj R) v) in
  (apx (-325) (f12 o) (vx w) (64 * q) /\ Z.abs (vx w) <= 6 * W) /\
  (apx (-325) (f13 o) (vy w) (64 * q) /\ Z.abs (vy w) <= 6 * W) /\
  (apx (-325) (f14 o) (vz w) (64 * q) /\ Z.abs (vz w) <= 6 * W).
Proof.
  destruct m as [x0 x1 x2 x3 x4 x5 x6 x7 x8 x9 x10 x11 x12 x13 x14 x15].
  destruct R as [a b c d e f g h i]. destruct v as [u1 u2 u3].
  intros [P0 P1 P2 P3 P4 P5 P6 P7 P8 P9 P10 P11 _ _ _ P15] S D1 D2 D3 Q1 Q2 Q3. unfold entries_within in S.
  cbn [f0 f1 f2 f3 f4 f5 f6 f7 f8 f9 f10 f11 f12 f13 f14 f15 m11 m12 m13 m21 m22 m23 m31 m32 m33 vx vy vz] in *.
  cbv zeta. unfold madj, fcofactors, vopp, mvmul.
  cbn [f0 f1 f2 f3 f4 f5 f6 f7 f8 f9 f10 f11 f12 f13 f14 f15 m11 m12 m13 m21 m22 m23 m31 m32 m33 vx vy vz].
  repeat match type of S with _ /\ _ => let H := fresh "S" in destruct S as [H S] end.
  pose proof (fneg_rep _ _ P0) as N0. pose proof (fneg_rep _ _ P4) as N4.
  assert (ON : forall z, Z.abs z <= 32 -> Z.abs (- z) <= 32) by (clear; lia).
  split; [| split].
  - replace (- _) with (- b * f * u3 + b * i * u2 + c * e * u3 - c * h * u2 - u1 * e * i + u1 * h * f) by ring.
    apply f6neg_apx; first [solve [apply term_last; auto] | solve [apply term_first; auto]].
  - replace (- _) with (a * f * u3 - a * i * u2 - c * d * u3 + c * g * u2 + u1 * d * i - u1 * g * f) by ring.
    apply f6pos_apx; first [solve [apply term_last; auto] | solve [apply term_first; auto]].
  - replace (- _) with (- a * e * u3 + a * h * u2 + b * d * u3 - b * g * u2 - u1 * d * h + u1 * g * e) by ring.
    apply f6neg_apx; first [solve [apply term_last; auto] | solve [apply term_first; auto]].
Qed.

(** ** Into and out of floats *)
Lemma rep_hv k f n : 0 <= k <= 400 -> rep_s k f n -> hv (Z.log2 (Z.abs n) - 52 - k) f (n * 2 ^ (500 - k)).
Proof.
  intros Hk. destruct f as [s | | | s m e]; unfold rep_s, hv; try tauto; [intros ->; ring |].
  intros (E & N & M & S). pose proof (log2_53 _ N) as L.
  pose proof (Z.log2_spec (Z.abs n) ltac:(lia)) as LS.
  split; [lia |]. split.
  - rewrite M. replace (- k - e) with (52 - Z.log2 (Z.abs n)) by lia.
    assert (P : 0 < 2 ^ (52 - Z.log2 (Z.abs n))) by (apply Z.pow_pos_nonneg; lia).
    replace (2 ^ 52) with (2 ^ Z.log2 (Z.abs n) * 2 ^ (52 - Z.log2 (Z.abs n))) by (rewrite <- Z.pow_add_r by lia; f_equal; lia).
    replace (2 ^ 53) with (2 ^ Z.succ (Z.log2 (Z.abs n)) * 2 ^ (52 - Z.log2 (Z.abs n))) by (rewrite <- Z.pow_add_r by lia; f_equal; lia).
    split; [apply Z.mul_le_mono_nonneg_r; lia | apply Z.mul_lt_mono_pos_r; lia].
  - rewrite M, <- Z.mul_assoc, <- Z.pow_add_r by lia. replace (- k - e + (e + 500)) with (500 - k) by lia.
    assert (n = sg s * Z.abs n) as EN by (rewrite S; unfold sg; destruct (Z.ltb_spec n 0); lia).
    rewrite EN at 1. ring.
Qed.
Lemma hv_fin lo f v : hv lo f v -> fin f.
Proof.
  destruct f as [s | | | s m e]; unfold hv; try tauto; [intros _; exists 0, 0; reflexivity |].
  intros (_ & M & _). exists (- e), (if s then - Z.pos m else Z.pos m).
  apply rep_finite; [| lia |].
  - assert (Z.log2 (Z.pos m) = 52) by (apply Z.log2_unique; [lia |]; change (Z.succ 52) with 53; lia). lia.
  - replace (- - e - e) with 0 by lia. lia.
Qed.
Lemma hv_finm lo f v : -400 <= lo -> hv lo f v -> Z.abs v < 2 ^ 560 -> finm 32 f.
Proof.
  intros Hlo H B. split; [exact (hv_fin _ _ _ H) |]. intros g n Hg _.
  destruct (fmul_hv lo f g v n Hlo H Hg B) as (u & Hu & _). exact (hv_fin _ _ _ Hu).
Qed.
Lemma twelfth_hv t : Z.abs t < 2 ^ 31 -> exists v, hv (-60) (fdiv (f64_of_Z t) (f64_of_Z 12)) v /\
  Z.abs (12 * v - t * 2 ^ 500) <= 6 * 2 ^ 475 /\ Z.abs v <= 2 ^ 528.
Proof.
  intros Ht. assert (R12 : rep (f64_of_Z 12) 12) by (apply f64_of_Z_rep; lia).
  assert (Rt : rep (f64_of_Z t) t) by (apply f64_of_Z_rep; lia).
  destruct (Z.eq_dec t 0) as [-> | N].
  - exists 0. split; [| lia]. pose proof (fdiv_zero _ _ 12 Rt R12 ltac:(lia) 0) as D. destruct (fdiv _ _); unfold rep_s in D; try contradiction; [reflexivity |]. lia.
  - destruct (fdiv_rep _ _ _ _ Rt R12 ltac:(lia) ltac:(lia)) as (k & n & Hk & R & Bn & RN & _).
    change (Z.abs 12) with 12 in RN.
    assert (P0 : 0 < 2 ^ k) by (apply Z.pow_pos_nonneg; lia).
    assert (Z.abs (t * 2 ^ k) = Z.abs t * 2 ^ k) as EA by (rewrite Z.abs_mul; f_equal; lia).
    assert (K1 : 25 <= k).
    { assert (2 ^ 24 < 2 ^ k); [| assert (24 < k) by (apply pow_lt_inv; [lia | assumption]); lia].
      assert (Z.abs t * 2 ^ k < 2 ^ 31 * 2 ^ k) by (apply Z.mul_lt_mono_pos_r; lia). lia. }
    assert (K2 : k <= 57).
    { assert (2 ^ k < 2 ^ 57); [| assert (k < 57) by (apply pow_lt_inv; [lia | assumption]); lia].
      assert (2 ^ k <= Z.abs t * 2 ^ k) by (apply mul_ge_1; lia). lia. }
    exists (n * 2 ^ (500 - k)). split.
    + apply rep_hv in R; [| lia]. eapply hv_lower; [| exact R].
      assert (52 <= Z.log2 (Z.abs n)) by (apply Z.log2_le_pow2; lia). lia.
    + assert (P1 : 0 < 2 ^ (500 - k)) by (apply Z.pow_pos_nonneg; lia).
      assert (P2 : 2 ^ (500 - k) <= 2 ^ 475) by (apply Z.pow_le_mono_r; lia).
      assert (E5 : 2 ^ 500 = 2 ^ k * 2 ^ (500 - k)) by (rewrite <- Z.pow_add_r by lia; f_equal; lia).
      assert (C1 : Z.abs (12 * (n * 2 ^ (500 - k)) - t * 2 ^ 500) <= 6 * 2 ^ 475).
      { rewrite E5. replace (12 * (n * 2 ^ (500 - k)) - t * (2 ^ k * 2 ^ (500 - k))) with (- (t * 2 ^ k - n * 12) * 2 ^ (500 - k)) by ring.
        rewrite Z.abs_mul, Z.abs_opp. apply Z.mul_le_mono_nonneg; lia. }
      split; [exact C1 |].
      assert (C2 : Z.abs (t * 2 ^ 500) <= 2 ^ 531).
      { rewrite Z.abs_mul. change (2 ^ 531) with (2 ^ 31 * 2 ^ 500). apply Z.mul_le_mono_nonneg; lia. }
      clear - C1 C2. assert (6 * 2 ^ 475 + 2 ^ 531 <= 12 * 2 ^ 528) by (apply Z.leb_le; vm_compute; reflexivity). lia.
Qed.
Lemma twelfth_finm32 t : Z.abs t < 2 ^ 31 -> finm 32 (fdiv (f64_of_Z t) (f64_of_Z 12)).
Proof.
  intros H. destruct (twelfth_hv t H) as (v & Hv & _ & B). apply (hv_finm (-60) _ v); [lia | assumption |]. clear - B. lia.
Qed.
Lemma trunc_near f lo u N : -500 <= lo -> hv lo f u -> Z.abs (u - N * 2 ^ 500) <= 2 ^ 499 -> Z.abs N < 2 ^ 31 ->
  Z.abs (Z_of_f64 f - N) <= 1.
Proof.
  intros Hlo. destruct f as [s | | | s m e]; unfold hv; try tauto.
  - intros -> B HN. unfold Z_of_f64. assert (N = 0) by lia. subst N. lia.
  - intros (L & M & ->) B HN. unfold Z_of_f64.
    set (a := if 0 <=? e then Z.pos m * 2 ^ e else Z.pos m / 2 ^ (- e)).
    assert (FL : a * 2 ^ 500 <= Z.pos m * 2 ^ (e + 500) < (a + 1) * 2 ^ 500).
    { unfold a. destruct (Z.leb_spec 0 e).
      - rewrite Z.pow_add_r by lia. rewrite Z.mul_assoc. lia.
      - assert (P : 0 < 2 ^ (- e)) by (apply Z.pow_pos_nonneg; lia).
        assert (P2 : 0 < 2 ^ (e + 500)) by (apply Z.pow_pos_nonneg; lia).
        assert (E5 : 2 ^ 500 = 2 ^ (- e) * 2 ^ (e + 500)) by (rewrite <- Z.pow_add_r by lia; f_equal; lia).
        pose proof (Z.div_mod (Z.pos m) (2 ^ (- e)) ltac:(lia)) as DM. pose proof (Z.mod_pos_bound (Z.pos m) (2 ^ (- e)) P) as MB.
        rewrite E5, !Z.mul_assoc. split; [apply Z.mul_le_mono_nonneg_r; lia | apply Z.mul_lt_mono_pos_r; lia]. }
    set (X := Z.pos m * 2 ^ (e + 500)) in *. clearbody a X. destruct s; unfold sg in B; lia.
Qed.

(** ** What [try_inverse] computes, whatever the translation *)
Lemma inverse_core_any B R t : 0 <= B <= 512 -> entries_within B R -> unimodular R ->
  finm B (fst (fst (twelfths t))) -> finm B (snd (fst (twelfths t))) -> finm B (snd (twelfths t)) ->
  let o := fcofactors (to_f64_mat (aff R t)) in
  fin (f12 o) ->
  exists inv, rep inv (mdet R) /\
    try_inverse (aff R t) = Some (aff (minv R)
      (V3 (Z_of_f64 (fmul (fmul (f12 o) inv) (f64_of_Z 12))) (Z_of_f64 (fmul (fmul (f13 o) inv) (f64_of_Z 12)))
          (Z_of_f64 (fmul (fmul (f14 o) inv) (f64_of_Z 12))))).
Proof.
  intros HB S U F1 F2 F3 o F12.
  pose proof (to_f64_mat_fop B R t HB S F1 F2 F3) as F.
  destruct (ftry_inverse_unimodular B _ R HB F S F12 U) as (inv & Ri & E).
  exists inv. split; [assumption |].
  unfold try_inverse. rewrite E. fold o.
  pose proof (fcofactors_rot B _ R ltac:(lia) F S) as C. cbv zeta in C. fold o in C.
  destruct C as (O0 & O1 & O2 & O3 & O4 & O5 & O6 & O7 & O8 & O9 & O10 & O11 & O15). clear E.
  pose proof (madj_bound R B HB S) as BA. unfold entries_within in BA.
  set (d := mdet R) in *. unfold unimodular in U. fold d in U.
  assert (X : forall f n, rep f n -> Z.abs n <= 2 ^ 19 -> Z_of_f64 (fmul f inv) = d * n).
  { clear - Ri U. intros f n Rf Hn. rewrite (Z_of_f64_rep _ (n * d)) by (apply fmul_sign; auto; lia).
    rewrite clamp_small; [ring |]. rewrite abs_mul_sign by assumption. lia. }
  assert (XZ : forall f, isz f -> Z_of_f64 (fmul f inv) = 0).
  { clear - X. intros f Zf. rewrite (X f 0); [ring | now apply isz_rep | lia]. }
  repeat match type of BA with _ /\ _ => let H := fresh "BA" in destruct BA as [H BA] end.
  cbv zeta. unfold fmat4_map. cbn [f0 f1 f2 f3 f4 f5 f6 f7 f8 f9 f10 f11 f12 f13 f14 f15].
  unfold STBN.
  rewrite (X _ _ O0), (X _ _ O1), (X _ _ O2), (X _ _ O4), (X _ _ O5), (X _ _ O6), (X _ _ O8), (X _ _ O9), (X _ _ O10) by assumption.
  rewrite (XZ _ O3), (XZ _ O7), (XZ _ O11). rewrite (X _ _ O15) by (clear - U; destruct U; lia).
  unfold aff. f_equal. f_equal. destruct U as [-> | ->]; reflexivity.
Qed.
(** one component *)
Lemma component_near f inv d w N : apx (-325) f w (64 * q) -> Z.abs w <= 6 * W -> rep inv d -> d = 1 \/ d = -1 ->
  Z.abs (12 * (w * d) - N * 2 ^ 500) <= 40 * q -> Z.abs N < 2 ^ 31 ->
  Z.abs (Z_of_f64 (fmul (fmul f inv) (f64_of_Z 12)) - N) <= 1.
Proof.
  intros A BW Ri Hd HN BN. assert (R12 : rep (f64_of_Z 12) 12) by (apply f64_of_Z_rep; lia).
  assert (Ad : Z.abs d <= 1) by (clear - Hd; lia).
  pose proof (fmul_apx (-325) f inv w d (64 * q) (6 * W) 1 (7 * q) ltac:(lia) A Ri BW Ad ltac:(lia) eq_refl ltac:(unfold W, q; lia)) as A1.
  assert (BW1 : Z.abs (w * d) <= 6 * W) by (rewrite abs_mul_sign by assumption; assumption).
  destruct (fmul_apx (-325) _ _ (w * d) 12 (64 * q * 1 + 7 * q) (6 * W) 12 (73 * q) ltac:(lia) A1 R12 BW1 ltac:(lia) ltac:(lia) eq_refl
    ltac:(unfold W, q; lia)) as (u & Hu & B).
  apply (trunc_near _ (-325) u); [lia | assumption | | assumption].
  pose proof (tri u (w * d * 12) (N * 2 ^ 500)) as T. rewrite (Z.mul_comm (w * d)) in T, B.
  assert ((64 * q * 1 + 7 * q) * 12 + 73 * q + 40 * q <= 2 ^ 499) by (apply Z.leb_le; vm_compute; reflexivity).
  clear - T B HN H. lia.
Qed.
(** the exact inverse translation, from the twelfths *)
Lemma entry_scaled a v t : Z.abs a <= 2048 -> Z.abs (12 * v - t * 2 ^ 500) <= 6 * 2 ^ 475 ->
  Z.abs (a * (12 * v - t * 2 ^ 500)) <= 12 * q.
Proof.
  intros Ha Hv. rewrite Z.abs_mul. change (12 * q) with (2048 * (6 * 2 ^ 475)). apply Z.mul_le_mono_nonneg; lia.
Qed.
Lemma scaled_near a b c v1 v2 v3 t1 t2 t3 d : d = 1 \/ d = -1 -> Z.abs a <= 2048 -> Z.abs b <= 2048 -> Z.abs c <= 2048 ->
  Z.abs (12 * v1 - t1 * 2 ^ 500) <= 6 * 2 ^ 475 -> Z.abs (12 * v2 - t2 * 2 ^ 500) <= 6 * 2 ^ 475 ->
  Z.abs (12 * v3 - t3 * 2 ^ 500) <= 6 * 2 ^ 475 ->
  Z.abs (12 * (- (a * v1 + b * v2 + c * v3) * d) - - (d * a * t1 + d * b * t2 + d * c * t3) * 2 ^ 500) <= 40 * q.
Proof.
  intros Hd Ha Hb Hc H1 H2 H3.
  pose proof (entry_scaled a v1 t1 Ha H1) as X1. pose proof (entry_scaled b v2 t2 Hb H2) as X2. pose proof (entry_scaled c v3 t3 Hc H3) as X3.
  set (x1 := a * (12 * v1 - t1 * 2 ^ 500)) in *. set (x2 := b * (12 * v2 - t2 * 2 ^ 500)) in *. set (x3 := c * (12 * v3 - t3 * 2 ^ 500)) in *.
  replace (12 * (- (a * v1 + b * v2 + c * v3) * d) - - (d * a * t1 + d * b * t2 + d * c * t3) * 2 ^ 500)
    with (- (x1 + x2 + x3) * d) by (unfold x1, x2, x3; ring).
  rewrite abs_mul_sign by assumption. clearbody x1 x2 x3. assert (0 <= q) by (unfold q; lia). clear - X1 X2 X3 H. lia.
Qed.
Lemma madj_bound_32 R : entries_within 32 R -> entries_within 2048 (madj R).
Proof.
  destruct R as [a b c d e f g h i]. unfold entries_within, madj. cbn [m11 m12 m13 m21 m22 m23 m31 m32 m33].
  intros S. assert (M : forall x y z w, Z.abs x <= 32 -> Z.abs y <= 32 -> Z.abs z <= 32 -> Z.abs w <= 32 -> Z.abs (x * y - z * w) <= 2048).
  { clear. intros x y z w Hx Hy Hz Hw. pose proof (prod_bound 32 32 x y ltac:(lia) ltac:(lia) Hx Hy).
    pose proof (prod_bound 32 32 z w ltac:(lia) ltac:(lia) Hz Hw). lia. }
  repeat match type of S with _ /\ _ => let H := fresh "S" in destruct S as [H S] end. repeat split; apply M; assumption.
Qed.
Lemma vadd_zero a b : vadd a b = v0 -> a = vopp b.
Proof. destruct a, b. intros H. apply V3_inj in H. unfold vopp. f_equal; cbn in *; lia. Qed.
(** C16: any integer rotation with entries up to 32 and determinant +1 or -1, any translation:
    the rotation and the last row of the inverse are exact, and each translation is within one
    of the exact one, provided the exact inverse fits an [i32] *)
Theorem C16_inverse_within_one :
  forall R t j, entries_within 32 R -> det_spec R = 1 \/ det_spec R = -1 ->
    Z.abs (vx t) < 2 ^ 31 -> Z.abs (vy t) < 2 ^ 31 -> Z.abs (vz t) < 2 ^ 31 ->
    is_affine j -> inverts (aff R t) j ->
    Z.abs (vx (tra j)) < 2 ^ 31 -> Z.abs (vy (tra j)) < 2 ^ 31 -> Z.abs (vz (tra j)) < 2 ^ 31 ->
    exists i, try_inverse (aff R t) = Some i /\ rot i = rot j /\ is_affine i /\ vnear 1 (tra i) (tra j).
Proof.
  intros R t j S U B1 B2 B3 Aj Ij J1 J2 J3. rewrite det_spec_mdet in U. change (unimodular R) in U.
  assert (Ej : j = aff (minv R) (vopp (mvmul (minv R) t))).
  { pose proof (aff_inverts R t U) as (_ & I2). destruct Ij as (I1 & _).
    rewrite (affine_aff j Aj) in *. cbn [aff rot tra] in *. unfold sz_identity in I1, I2. rewrite mat4_mul_aff in I1, I2.
    pose proof (f_equal rot I1) as X1. pose proof (f_equal tra I1) as X2. pose proof (f_equal rot I2) as Y1. cbn [aff rot tra] in X1, X2, Y1.
    set (R' := rot j) in *. set (t' := tra j) in *.
    assert (ER : R' = minv R) by (now apply mmul_right_inverse_unique).
    f_equal; [assumption |].
    rewrite <- (mvmul_I t'), <- Y1, mvmul_mmul.
    assert (Xt : mvmul R t' = vopp t) by exact (vadd_zero _ _ X2).
    rewrite Xt. clear. generalize (minv R). intros A. mat_ring. }
  subst j. cbn [aff rot tra] in *. clear Ij Aj.
  destruct (twelfth_hv _ B1) as (v1 & H1 & E1 & C1). destruct (twelfth_hv _ B2) as (v2 & H2 & E2 & C2).
  destruct (twelfth_hv _ B3) as (v3 & H3 & E3 & C3).
  assert (L : forall v, Z.abs v <= 2 ^ 528 -> Z.abs v < 2 ^ 560) by (clear; lia).
  pose proof (hv_finm (-60) _ _ ltac:(lia) H1 (L _ C1)) as F1. pose proof (hv_finm (-60) _ _ ltac:(lia) H2 (L _ C2)) as F2.
  pose proof (hv_finm (-60) _ _ ltac:(lia) H3 (L _ C3)) as F3.
  pose proof (to_f64_mat_fop 32 R t ltac:(lia) S F1 F2 F3) as F.
  destruct (fcofactors_tra_apx _ R (V3 v1 v2 v3) F S H1 H2 H3 C1 C2 C3) as ((O1 & W1) & (O2 & W2) & (O3 & W3)).
  assert (FI : fin (f12 (fcofactors (to_f64_mat (aff R t))))) by (destruct O1 as (u & Hu & _); exact (hv_fin _ _ _ Hu)).
  destruct (inverse_core_any 32 R t ltac:(lia) S U F1 F2 F3 FI) as (inv & Ri & ->).
  eexists. split; [reflexivity |]. split; [reflexivity |]. split; [apply aff_affine |].
  cbn [aff tra]. unfold vnear. cbn [vx vy vz].
  pose proof (madj_bound_32 R S) as (A11 & A12 & A13 & A21 & A22 & A23 & A31 & A32 & A33).
  unfold unimodular in U.
  split; [| split].
  - apply (component_near _ inv (mdet R) _ _ O1 W1 Ri U); [| exact J1].
    exact (scaled_near _ _ _ v1 v2 v3 (vx t) (vy t) (vz t) (mdet R) U A11 A12 A13 E1 E2 E3).
  - apply (component_near _ inv (mdet R) _ _ O2 W2 Ri U); [| exact J2].
    exact (scaled_near _ _ _ v1 v2 v3 (vx t) (vy t) (vz t) (mdet R) U A21 A22 A23 E1 E2 E3).
  - apply (component_near _ inv (mdet R) _ _ O3 W3 Ri U); [| exact J3].
    exact (scaled_near _ _ _ v1 v2 v3 (vx t) (vy t) (vz t) (mdet R) U A31 A32 A33 E1 E2 E3).
Qed.
