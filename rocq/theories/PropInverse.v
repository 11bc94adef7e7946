(** * PropInverse: property C16: [try_inverse] and negative powers. *)
From Coq Require Import SpecFloat.
From Verif Require Import Base Notations Parser Seitz F64 Jones Rotations Tables Generate Positions Lookup
  Spec SpecHall SpecTables SpecRotation SpecXyz SpecInverse Algebra PropSeitz PropSymbols GenFacts PropGenerate GroupCheck
  PropFullSets PropShift PropTables PropTableGroups Restriction F64Facts F64Div PropRotation PropJones.
Open Scope Z_scope.
Local Notation length := List.length.

(** ** Bounded exact arithmetic at a scale *)
Lemma smul k l a b x y f g : 0 <= k -> 0 <= l -> k + l <= 400 -> rep_s k f x -> rep_s l g y ->
  Z.abs x <= a -> Z.abs y <= b -> 0 <= a -> 0 <= b -> a * b < 2 ^ 53 ->
  rep_s (k + l) (fmul f g) (x * y) /\ Z.abs (x * y) <= a * b.
Proof. intros. pose proof (prod_bound a b x y). split; [apply fmul_rep_s; auto |]; eauto using Z.le_lt_trans. Qed.
Lemma ssub k a b x y f g : 0 <= k <= 400 -> rep_s k f x -> rep_s k g y -> Z.abs x <= a -> Z.abs y <= b -> a + b < 2 ^ 53 ->
  rep_s k (fsub f g) (x - y) /\ Z.abs (x - y) <= a + b.
Proof. intros. pose proof (sub_bound a b x y). split; [apply fsub_rep_s; auto |]; eauto using Z.le_lt_trans. Qed.
Lemma sadd k a b x y f g : 0 <= k <= 400 -> rep_s k f x -> rep_s k g y -> Z.abs x <= a -> Z.abs y <= b -> a + b < 2 ^ 53 ->
  rep_s k (fadd f g) (x + y) /\ Z.abs (x + y) <= a + b.
Proof. intros. pose proof (add_bound a b x y). split; [apply fadd_rep_s; auto |]; eauto using Z.le_lt_trans. Qed.

Definition isz (f : f64) : Prop := match f with S754_zero _ => True | _ => False end.
Definition fin (f : f64) : Prop := exists k n, rep_s k f n.
Lemma isz_rep k f : isz f <-> rep_s k f 0.
Proof.
  destruct f as [s | s | | s m e]; unfold isz, rep_s; split; auto; try contradiction.
  intros (_ & H & _). cbn in H. lia.
Qed.
Lemma isz_fin f : isz f -> fin f.
Proof. intros H. exists 0, 0. now apply isz_rep. Qed.
Lemma fin_rep k f n : rep_s k f n -> fin f.
Proof. intros H. now exists k, n. Qed.
Lemma fin_neg f : fin f -> fin (fneg f).
Proof. intros (k & n & H). exists k, (- n). now apply fneg_rep_s. Qed.
Lemma fmul_z_l f g : isz f -> fin g -> isz (fmul f g).
Proof.
  intros Hf (k & n & Hg). destruct f; try contradiction. destruct g; unfold rep_s in Hg; try contradiction; exact I.
Qed.
Lemma fmul_z_r f g : fin f -> isz g -> isz (fmul f g).
Proof.
  intros (k & n & Hf) Hg. destruct g; try contradiction. destruct f; unfold rep_s in Hf; try contradiction; exact I.
Qed.
Lemma fadd_z_r k f g n : rep_s k f n -> isz g -> rep_s k (fadd f g) n.
Proof.
  intros Hf Hg. destruct g; try contradiction. destruct f; unfold rep_s in Hf |- *; try contradiction; [| exact Hf].
  unfold fadd, SFadd. destruct (Bool.eqb s0 s); assumption.
Qed.
Lemma fadd_z_l k f g n : isz f -> rep_s k g n -> rep_s k (fadd f g) n.
Proof.
  intros Hf Hg. destruct f; try contradiction. destruct g; unfold rep_s in Hg |- *; try contradiction; [| exact Hg].
  unfold fadd, SFadd. destruct (Bool.eqb s s0); assumption.
Qed.
Lemma fsub_z_r k f g n : rep_s k f n -> isz g -> rep_s k (fsub f g) n.
Proof.
  intros Hf Hg. destruct g; try contradiction. destruct f; unfold rep_s in Hf |- *; try contradiction; [| exact Hf].
  unfold fsub, SFsub. destruct (Bool.eqb s0 (negb s)); assumption.
Qed.
Lemma fsub_z_l k f g n : isz f -> rep_s k g n -> rep_s k (fsub f g) (- n).
Proof.
  intros Hf Hg. destruct f; try contradiction.
  destruct g; try contradiction.
  - unfold rep_s in Hg. unfold fsub, SFsub. destruct (Bool.eqb s (negb s0)); unfold rep_s; lia.
  - exact (fneg_rep_s k _ n Hg).
Qed.

(** ** The float matrix of an operation *)
(** finite, and so are the products with integers up to [b] *)
Definition finm (b : Z) (f : f64) : Prop := fin f /\ forall g n, rep g n -> Z.abs n <= b -> fin (fmul f g).
Record fop (b : Z) (m : fmat4) (R : mat3) : Prop := {
  p0 : rep (f0 m) (m11 R); p1 : rep (f1 m) (m21 R); p2 : rep (f2 m) (m31 R); p3 : isz (f3 m);
  p4 : rep (f4 m) (m12 R); p5 : rep (f5 m) (m22 R); p6 : rep (f6 m) (m32 R); p7 : isz (f7 m);
  p8 : rep (f8 m) (m13 R); p9 : rep (f9 m) (m23 R); p10 : rep (f10 m) (m33 R); p11 : isz (f11 m);
  p12 : finm b (f12 m); p13 : finm b (f13 m); p14 : finm b (f14 m); p15 : rep (f15 m) 1 }.
Definition small (n : Z) : Prop := Z.abs n <= 512.
Lemma fm3_z1 x y z : isz x -> fin y -> fin z -> isz (fm3 x y z).
Proof. intros. apply fmul_z_l; [apply fmul_z_l |]; assumption. Qed.
Lemma fm3_z2 x y z : fin x -> isz y -> fin z -> isz (fm3 x y z).
Proof. intros. apply fmul_z_l; [apply fmul_z_r |]; assumption. Qed.
Lemma fm3_z3 x y z a b : rep x a -> rep y b -> small a -> small b -> isz z -> isz (fm3 x y z).
Proof.
  intros Hx Hy A B Hz. apply fmul_z_r; [| assumption].
  destruct (smul 0 0 512 512 a b x y) as [H _]; auto; try lia; try reflexivity. exact (fin_rep _ _ _ H).
Qed.
Lemma fm3_z3' B x y z b : finm B x -> rep y b -> Z.abs b <= B -> isz z -> isz (fm3 x y z).
Proof. intros (_ & H) ? ? ?. apply fmul_z_r; [eauto | assumption]. Qed.
Lemma fm3_one x y z a b : rep x a -> rep y b -> rep z 1 -> small a -> small b ->
  rep (fm3 x y z) (a * b) /\ Z.abs (a * b) <= 2 ^ 18.
Proof.
  intros Hx Hy Hz A B. unfold small in *. unfold fm3.
  destruct (smul 0 0 512 512 a b x y) as [H1 H2]; auto; try lia; try reflexivity.
  change (0 + 0) with 0 in H1. change (512 * 512) with (2 ^ 18) in H2. split; [| assumption].
  destruct (smul 0 0 (2 ^ 18) 1 (a * b) 1 (fmul x y) z) as [H3 _]; auto; try lia.
  rewrite Z.mul_1_r in H3. exact H3.
Qed.
Lemma fm3_int x y z a b c : rep x a -> rep y b -> rep z c -> small a -> small b -> small c ->
  rep (fm3 x y z) (a * b * c) /\ Z.abs (a * b * c) <= 2 ^ 27.
Proof.
  intros Hx Hy Hz A B C. unfold small in *. unfold fm3.
  destruct (smul 0 0 512 512 a b x y) as [H1 H2]; auto; try lia; try reflexivity.
  change (0 + 0) with 0 in H1. change (512 * 512) with (2 ^ 18) in H2.
  exact (smul 0 0 (2 ^ 18) 512 (a * b) c (fmul x y) z ltac:(lia) ltac:(lia) ltac:(lia) H1 Hz H2 C ltac:(lia) ltac:(lia) eq_refl).
Qed.
(** the two patterns of the cofactors of the rotation *)
Lemma f6pos_pattern a b c d e f x y : rep a x -> isz b -> rep c y -> isz d -> isz e -> isz f ->
  Z.abs x <= 2 ^ 18 -> Z.abs y <= 2 ^ 18 -> rep (f6pos a b c d e f) (x - y).
Proof.
  intros. unfold f6pos. apply fsub_z_r; [| assumption]. apply fadd_z_r; [| assumption]. apply fadd_z_r; [| assumption].
  apply (ssub 0 (2 ^ 18) (2 ^ 18)); auto; try lia. now apply fsub_z_r.
Qed.
Lemma f6neg_pattern a b c d e f x y : rep a x -> isz b -> rep c y -> isz d -> isz e -> isz f ->
  Z.abs x <= 2 ^ 18 -> Z.abs y <= 2 ^ 18 -> rep (f6neg a b c d e f) (x + y).
Proof.
  intros. unfold f6neg. apply fadd_z_r; [| assumption]. apply fsub_z_r; [| assumption]. apply fsub_z_r; [| assumption].
  apply (sadd 0 (2 ^ 18) (2 ^ 18)); auto; try lia. now apply fadd_z_r.
Qed.
Lemma f6pos_zero a b c d e f : isz a -> isz b -> isz c -> isz d -> isz e -> isz f -> isz (f6pos a b c d e f).
Proof.
  intros. apply (isz_rep 0). unfold f6pos. apply fsub_z_r; [| assumption]. do 2 (apply fadd_z_r; [| assumption]).
  do 2 (apply fsub_z_r; [| assumption]). now apply isz_rep.
Qed.
Lemma f6neg_zero a b c d e f : isz a -> isz b -> isz c -> isz d -> isz e -> isz f -> isz (f6neg a b c d e f).
Proof.
  intros. apply (isz_rep 0). unfold f6neg. apply fadd_z_r; [| assumption]. do 2 (apply fsub_z_r; [| assumption]).
  do 2 (apply fadd_z_r; [| assumption]). now apply isz_rep.
Qed.
Lemma small_opp a : small a -> small (- a).
Proof. unfold small. lia. Qed.
(** the float cofactors: exact for the rotation, zero in the last row, the determinant in the corner *)
Lemma fcofactors_rot B m R : B <= 512 -> fop B m R -> entries_within B R ->
  let o := fcofactors m in
  let A := madj R in
  rep (f0 o) (m11 A) /\ rep (f1 o) (m21 A) /\ rep (f2 o) (m31 A) /\ isz (f3 o) /\
  rep (f4 o) (m12 A) /\ rep (f5 o) (m22 A) /\ rep (f6 o) (m32 A) /\ isz (f7 o) /\
  rep (f8 o) (m13 A) /\ rep (f9 o) (m23 A) /\ rep (f10 o) (m33 A) /\ isz (f11 o) /\ rep (f15 o) (mdet R).
Proof.
  destruct m as [x0 x1 x2 x3 x4 x5 x6 x7 x8 x9 x10 x11 x12 x13 x14 x15].
  destruct R as [a b c d e f g h i].
  intros HB [P0 P1 P2 P3 P4 P5 P6 P7 P8 P9 P10 P11 P12 P13 P14 P15] S. unfold entries_within in S.
  cbn [f0 f1 f2 f3 f4 f5 f6 f7 f8 f9 f10 f11 f12 f13 f14 f15 m11 m12 m13 m21 m22 m23 m31 m32 m33] in *.
  cbv zeta. unfold madj, mdet, fcofactors.
  cbn [f0 f1 f2 f3 f4 f5 f6 f7 f8 f9 f10 f11 f12 f13 f14 f15 m11 m12 m13 m21 m22 m23 m31 m32 m33].
  repeat match type of S with _ /\ _ => let H := fresh "S" in destruct S as [H S] end.
  assert (SM : forall x, Z.abs x <= B -> small x) by (unfold small; lia).
  pose proof (proj1 P12). pose proof (proj1 P13). pose proof (proj1 P14).
  pose proof (fin_rep _ _ _ P0). pose proof (fin_rep _ _ _ P1). pose proof (fin_rep _ _ _ P2).
  pose proof (fin_rep _ _ _ P4). pose proof (fin_rep _ _ _ P5). pose proof (fin_rep _ _ _ P6).
  pose proof (fin_rep _ _ _ P8). pose proof (fin_rep _ _ _ P9). pose proof (fin_rep _ _ _ P10).
  pose proof (isz_fin _ P3). pose proof (isz_fin _ P7). pose proof (isz_fin _ P11).
  pose proof (fneg_rep _ _ P0). pose proof (fneg_rep _ _ P1). pose proof (fneg_rep _ _ P4).
  Ltac zt := first [ solve [eapply fm3_z3; eauto using small_opp]
                   | solve [eapply fm3_z3'; eassumption] | solve [apply fm3_z1; eauto using fin_neg] | solve [apply fm3_z2; eauto using fin_neg] ].
  Ltac minorp := eapply f6pos_pattern; [eapply fm3_one | zt | eapply fm3_one | zt | zt | zt | eapply fm3_one | eapply fm3_one];
    eauto using small_opp, fneg_rep.
  Ltac minorn := eapply f6neg_pattern; [eapply fm3_one | zt | eapply fm3_one | zt | zt | zt | eapply fm3_one | eapply fm3_one];
    eauto using small_opp, fneg_rep.
  repeat match goal with |- _ /\ _ => split end.
  - minorp.
  - replace (f * g - d * i) with (- d * i + f * g) by ring. minorn.
  - minorp.
  - apply f6neg_zero; zt.
  - replace (c * h - b * i) with (- b * i + c * h) by ring. minorn.
  - minorp.
  - replace (b * g - a * h) with (- a * h + b * g) by ring. minorn.
  - apply f6pos_zero; zt.
  - minorp.
  - replace (c * d - a * f) with (- a * f + c * d) by ring. minorn.
  - minorp.
  - apply f6neg_zero; zt.
  - destruct (fm3_int _ _ _ _ _ _ P0 P5 P10) as [T1 B1]; auto. destruct (fm3_int _ _ _ _ _ _ P0 P6 P9) as [T2 B2]; auto.
    destruct (fm3_int _ _ _ _ _ _ P4 P1 P10) as [T3 B3]; auto. destruct (fm3_int _ _ _ _ _ _ P4 P2 P9) as [T4 B4]; auto.
    destruct (fm3_int _ _ _ _ _ _ P8 P1 P6) as [T5 B5]; auto. destruct (fm3_int _ _ _ _ _ _ P8 P2 P5) as [T6 B6]; auto.
    destruct (ssub 0 _ _ _ _ _ _ ltac:(lia) T1 T2 B1 B2 eq_refl) as [U1 C1].
    destruct (ssub 0 _ _ _ _ _ _ ltac:(lia) U1 T3 C1 B3 eq_refl) as [U2 C2].
    destruct (sadd 0 _ _ _ _ _ _ ltac:(lia) U2 T4 C2 B4 eq_refl) as [U3 C3].
    destruct (sadd 0 _ _ _ _ _ _ ltac:(lia) U3 T5 C3 B5 eq_refl) as [U4 C4].
    destruct (ssub 0 _ _ _ _ _ _ ltac:(lia) U4 T6 C4 B6 eq_refl) as [U5 C5].
    unfold f6pos. replace (a * (e * i - h * f) - b * (d * i - g * f) + c * (d * h - g * e))
      with (a * e * i - a * h * f - b * d * i + b * g * f + c * d * h - c * g * e) by ring. exact U5.
Qed.
Lemma rep_one_float f : rep f 1 -> f = S754_finite false 4503599627370496 (-52).
Proof.
  destruct f as [s | s | | s m e]; unfold rep_s; try contradiction; [discriminate |].
  intros (He & _ & Hm & Hs). change (Z.log2 (Z.abs 1) - 52 - 0) with (-52) in He. subst e.
  change (Z.abs 1 * 2 ^ (- 0 - -52)) with 4503599627370496 in Hm. injection Hm as ->. subst s. reflexivity.
Qed.
Lemma rep_minus_one_float f : rep f (-1) -> f = S754_finite true 4503599627370496 (-52).
Proof.
  destruct f as [s | s | | s m e]; unfold rep_s; try contradiction; [discriminate |].
  intros (He & _ & Hm & Hs). change (Z.log2 (Z.abs (-1)) - 52 - 0) with (-52) in He. subst e.
  change (Z.abs (-1) * 2 ^ (- 0 - -52)) with 4503599627370496 in Hm. injection Hm as ->. subst s. reflexivity.
Qed.
Lemma inv_det_rep f d : rep f d -> d = 1 \/ d = -1 -> rep (fdiv (f64_of_Z 1) f) d.
Proof.
  intros H [-> | ->].
  - rewrite (rep_one_float f H). change (fdiv _ _) with (f64_of_Z 1). now apply f64_of_Z_rep.
  - rewrite (rep_minus_one_float f H). change (fdiv _ _) with (f64_of_Z (-1)). now apply f64_of_Z_rep.
Qed.
Lemma abs_mul_sign x d : d = 1 \/ d = -1 -> Z.abs (x * d) = Z.abs x.
Proof. intros [-> | ->]; lia. Qed.
Lemma fmul_sign k f g x d : 0 <= k <= 300 -> rep_s k f x -> rep g d -> d = 1 \/ d = -1 -> rep_s k (fmul f g) (x * d).
Proof.
  intros Hk Hf Hg Hd. replace k with (k + 0) at 1 by lia. apply fmul_rep_s; auto; try lia.
  rewrite abs_mul_sign by assumption. destruct f; unfold rep_s in Hf; try contradiction; [subst x; reflexivity | tauto].
Qed.
Definition fdet4 (m o : fmat4) : f64 :=
  fadd (fadd (fadd (fmul (f0 m) (f0 o)) (fmul (f1 m) (f4 o))) (fmul (f2 m) (f8 o))) (fmul (f3 m) (f12 o)).
Lemma minor_bound x y z w : small x -> small y -> small z -> small w -> Z.abs (x * y - z * w) <= 2 ^ 19.
Proof.
  unfold small. intros.
  pose proof (prod_bound 512 512 x y ltac:(lia) ltac:(lia) ltac:(lia) ltac:(lia)) as P.
  pose proof (prod_bound 512 512 z w ltac:(lia) ltac:(lia) ltac:(lia) ltac:(lia)) as Q. lia.
Qed.
Lemma madj_bound R B : 0 <= B <= 512 -> entries_within B R -> entries_within (2 ^ 19) (madj R).
Proof.
  intros HB. destruct R as [a b c d e f g h i]. unfold entries_within, madj.
  cbn [m11 m12 m13 m21 m22 m23 m31 m32 m33].
  assert (SM : forall x, Z.abs x <= B -> small x) by (unfold small; lia). intros S.
  repeat match type of S with _ /\ _ => let H := fresh "S" in destruct S as [H S]; apply SM in H end. apply SM in S.
  repeat split; apply minor_bound; assumption.
Qed.
Lemma fdet4_rep B m R : 0 <= B <= 512 -> fop B m R -> entries_within B R -> fin (f12 (fcofactors m)) ->
  rep (fdet4 m (fcofactors m)) (mdet R).
Proof.
  intros HB F S F12. destruct (fcofactors_rot B m R ltac:(lia) F S) as (O0 & _ & _ & _ & O4 & _ & _ & _ & O8 & _).
  pose proof (madj_bound R B HB S) as (A11 & A12 & A13 & _). destruct S as (R11 & _ & _ & R21 & _ & _ & R31 & _).
  unfold fdet4. apply fadd_z_r; [| apply fmul_z_l; [apply (p3 _ _ _ F) | assumption]].
  set (o := fcofactors m) in *. clearbody o. set (A := madj R) in *.
  assert (ED : mdet R = m11 R * m11 A + m21 R * m12 A + m31 R * m13 A) by (unfold A, madj; mat_ring).
  clearbody A. rewrite ED.
  assert (L : forall x, Z.abs x <= B -> Z.abs x <= 512) by (intros; lia).
  destruct (smul 0 0 512 (2 ^ 19) _ _ _ _ ltac:(lia) ltac:(lia) ltac:(lia) (p0 _ _ _ F) O0 (L _ R11) A11 ltac:(lia) ltac:(lia) eq_refl) as [X1 Y1].
  destruct (smul 0 0 512 (2 ^ 19) _ _ _ _ ltac:(lia) ltac:(lia) ltac:(lia) (p1 _ _ _ F) O4 (L _ R21) A12 ltac:(lia) ltac:(lia) eq_refl) as [X2 Y2].
  destruct (smul 0 0 512 (2 ^ 19) _ _ _ _ ltac:(lia) ltac:(lia) ltac:(lia) (p2 _ _ _ F) O8 (L _ R31) A13 ltac:(lia) ltac:(lia) eq_refl) as [X3 Y3].
  change (0 + 0) with 0 in *.
  destruct (sadd 0 _ _ _ _ _ _ ltac:(lia) X1 X2 Y1 Y2 eq_refl) as [X4 Y4].
  exact (proj1 (sadd 0 _ _ _ _ _ _ ltac:(lia) X4 X3 Y4 Y3 eq_refl)).
Qed.
Lemma ftry_inverse_eq m : ftry_inverse m =
  let o := fcofactors m in
  if fis_zero (fdet4 m o) then None
  else Some (fmat4_map (fun x => fmul x (fdiv (f64_of_Z 1) (fdet4 m o))) o).
Proof. reflexivity. Qed.
Lemma ftry_inverse_unimodular B m R : 0 <= B <= 512 -> fop B m R -> entries_within B R -> fin (f12 (fcofactors m)) ->
  unimodular R ->
  exists inv, rep inv (mdet R) /\ ftry_inverse m = Some (fmat4_map (fun x => fmul x inv) (fcofactors m)).
Proof.
  intros HB F S F12 U. pose proof (fdet4_rep B m R HB F S F12) as D. rewrite ftry_inverse_eq. cbv zeta.
  destruct (fis_zero (fdet4 m (fcofactors m))) eqn:E.
  - exfalso. assert (isz (fdet4 m (fcofactors m))) as Z by (destruct (fdet4 m (fcofactors m)); discriminate || exact I).
    destruct (fdet4 m (fcofactors m)); try contradiction. unfold rep_s in D. destruct U; lia.
  - eexists. split; [| reflexivity]. now apply inv_det_rep.
Qed.
Lemma ftry_inverse_singular B m R : 0 <= B <= 512 -> fop B m R -> entries_within B R -> fin (f12 (fcofactors m)) ->
  mdet R = 0 -> ftry_inverse m = None.
Proof.
  intros HB F S F12 U. pose proof (fdet4_rep B m R HB F S F12) as D. rewrite ftry_inverse_eq. cbv zeta.
  rewrite U in D. apply isz_rep in D. destruct (fdet4 m (fcofactors m)); try contradiction. reflexivity.
Qed.
Lemma clamp_small n : Z.abs n < 2 ^ 31 -> clamp32 n = n.
Proof. unfold clamp32. lia. Qed.

(** ** What [try_inverse] computes *)
Definition twelfths (v : vec3) : f64 * f64 * f64 :=
  (fdiv (f64_of_Z (vx v)) (f64_of_Z 12), fdiv (f64_of_Z (vy v)) (f64_of_Z 12), fdiv (f64_of_Z (vz v)) (f64_of_Z 12)).
Lemma to_f64_mat_fop B R t : 0 <= B <= 512 -> entries_within B R ->
  finm B (fst (fst (twelfths t))) -> finm B (snd (fst (twelfths t))) -> finm B (snd (twelfths t)) ->
  fop B (to_f64_mat (aff R t)) R.
Proof.
  intros HB S F1 F2 F3. destruct R as [a b c d e f g h i]. unfold entries_within in S.
  cbn [m11 m12 m13 m21 m22 m23 m31 m32 m33] in S.
  assert (SM : forall x, Z.abs x <= B -> Z.abs x < 2 ^ 53) by lia.
  repeat match type of S with _ /\ _ => let H := fresh "S" in destruct S as [H S] end.
  unfold to_f64_mat. constructor; cbn [aff rot tra bot cor f0 f1 f2 f3 f4 f5 f6 f7 f8 f9 f10 f11 f12 f13 f14 f15
     m11 m12 m13 m21 m22 m23 m31 m32 m33 v0 vx vy vz];
    try (apply f64_of_Z_rep; apply SM; assumption); try (apply f64_of_Z_rep; reflexivity); try exact I; assumption.
Qed.
Lemma inverse_core B R t v : 0 <= B <= 512 -> entries_within B R -> unimodular R ->
  finm B (fst (fst (twelfths t))) -> finm B (snd (fst (twelfths t))) -> finm B (snd (twelfths t)) ->
  let o := fcofactors (to_f64_mat (aff R t)) in
  fin (f12 o) ->
  (forall inv, rep inv (mdet R) ->
     rep (fmul (fmul (f12 o) inv) (f64_of_Z 12)) (vx v) /\ rep (fmul (fmul (f13 o) inv) (f64_of_Z 12)) (vy v) /\
     rep (fmul (fmul (f14 o) inv) (f64_of_Z 12)) (vz v)) ->
  Z.abs (vx v) < 2 ^ 31 -> Z.abs (vy v) < 2 ^ 31 -> Z.abs (vz v) < 2 ^ 31 ->
  try_inverse (aff R t) = Some (aff (minv R) v).
Proof.
  intros HB S U F1 F2 F3 o F12 HV Bx By Bz.
  pose proof (to_f64_mat_fop B R t HB S F1 F2 F3) as F.
  destruct (ftry_inverse_unimodular B _ R HB F S F12 U) as (inv & Ri & E).
  unfold try_inverse. rewrite E. fold o.
  pose proof (fcofactors_rot B _ R ltac:(lia) F S) as C. cbv zeta in C. fold o in C.
  destruct C as (O0 & O1 & O2 & O3 & O4 & O5 & O6 & O7 & O8 & O9 & O10 & O11 & O15).
  destruct (HV inv Ri) as (V1 & V2 & V3). clear HV E.
  pose proof (madj_bound R B HB S) as BA. unfold entries_within in BA.
  set (d := mdet R) in *. unfold unimodular in U. fold d in U.
  assert (X : forall f n, rep f n -> Z.abs n <= 2 ^ 19 -> Z_of_f64 (fmul f inv) = d * n).
  { clear - Ri U. intros f n Rf Hn. rewrite (Z_of_f64_rep _ (n * d)) by (apply fmul_sign; auto; lia).
    rewrite clamp_small; [ring |]. rewrite abs_mul_sign by assumption. lia. }
  assert (XZ : forall f, isz f -> Z_of_f64 (fmul f inv) = 0).
  { clear - X. intros f Zf. rewrite (X f 0); [ring | now apply isz_rep | lia]. }
  repeat match type of BA with _ /\ _ => let H := fresh "BA" in destruct BA as [H BA] end.
  cbv zeta. unfold fmat4_map. cbn [f0 f1 f2 f3 f4 f5 f6 f7 f8 f9 f10 f11 f12 f13 f14 f15].
  unfold STBN. rewrite (Z_of_f64_rep _ _ V1), (Z_of_f64_rep _ _ V2), (Z_of_f64_rep _ _ V3), !clamp_small by assumption.
  rewrite (X _ _ O0), (X _ _ O1), (X _ _ O2), (X _ _ O4), (X _ _ O5), (X _ _ O6), (X _ _ O8), (X _ _ O9), (X _ _ O10) by assumption.
  rewrite (XZ _ O3), (XZ _ O7), (XZ _ O11). rewrite (X _ _ O15) by (clear - U; destruct U; lia).
  unfold aff. f_equal. f_equal; [destruct v; reflexivity | destruct U as [-> | ->]; reflexivity].
Qed.
Lemma aff_inverts R t : unimodular R -> inverts (aff R t) (aff (minv R) (vopp (mvmul (minv R) t))).
Proof.
  intros U. unfold inverts, sz_identity. rewrite !mat4_mul_aff. split; f_equal.
  - now apply minv_r. - rewrite mvmul_vopp, <- mvmul_mmul, minv_r, mvmul_I by assumption. mat_ring.
  - now apply minv_l. - mat_ring.
Qed.

(** ** Translations that are multiples of three twelfths *)
Lemma fm3_last k x y z a b n A B C : 0 <= k <= 300 -> rep x a -> rep y b -> rep_s k z n ->
  Z.abs a <= A -> Z.abs b <= B -> Z.abs n <= C -> 0 <= A -> 0 <= B -> 0 <= C -> A * B < 2 ^ 53 -> A * B * C < 2 ^ 53 ->
  rep_s k (fm3 x y z) (a * b * n) /\ Z.abs (a * b * n) <= A * B * C.
Proof.
  intros Hk Hx Hy Hz Ha Hb Hn PA PB PC L1 L2. unfold fm3.
  destruct (smul 0 0 A B a b x y ltac:(lia) ltac:(lia) ltac:(lia) Hx Hy Ha Hb PA PB L1) as [H1 H2].
  change (0 + 0) with 0 in H1. replace k with (0 + k) at 1 by lia.
  apply smul; auto; try lia; now apply Z.mul_nonneg_nonneg.
Qed.
Lemma fm3_first k x y z a b n A B C : 0 <= k <= 300 -> rep_s k x n -> rep y a -> rep z b ->
  Z.abs a <= A -> Z.abs b <= B -> Z.abs n <= C -> 0 <= A -> 0 <= B -> 0 <= C -> C * A < 2 ^ 53 -> C * A * B < 2 ^ 53 ->
  rep_s k (fm3 x y z) (n * a * b) /\ Z.abs (n * a * b) <= C * A * B.
Proof.
  intros Hk Hx Hy Hz Ha Hb Hn PA PB PC L1 L2. unfold fm3.
  destruct (smul k 0 C A n a x y ltac:(lia) ltac:(lia) ltac:(lia) Hx Hy Hn Ha PC PA L1) as [H1 H2].
  rewrite Z.add_0_r in H1. replace k with (k + 0) at 1 by lia.
  apply smul; auto; try lia; now apply Z.mul_nonneg_nonneg.
Qed.
Lemma f6pos_s k C a b c d e f x1 x2 x3 x4 x5 x6 : 0 <= k <= 300 -> 0 <= C -> 6 * C < 2 ^ 53 ->
  (rep_s k a x1 /\ Z.abs x1 <= C) -> (rep_s k b x2 /\ Z.abs x2 <= C) -> (rep_s k c x3 /\ Z.abs x3 <= C) ->
  (rep_s k d x4 /\ Z.abs x4 <= C) -> (rep_s k e x5 /\ Z.abs x5 <= C) -> (rep_s k f x6 /\ Z.abs x6 <= C) ->
  rep_s k (f6pos a b c d e f) (x1 - x2 - x3 + x4 + x5 - x6).
Proof.
  intros Hk HC HB [R1 B1] [R2 B2] [R3 B3] [R4 B4] [R5 B5] [R6 B6]. unfold f6pos.
  destruct (ssub k _ _ _ _ _ _ ltac:(lia) R1 R2 B1 B2 ltac:(lia)) as [U1 C1].
  destruct (ssub k _ _ _ _ _ _ ltac:(lia) U1 R3 C1 B3 ltac:(lia)) as [U2 C2].
  destruct (sadd k _ _ _ _ _ _ ltac:(lia) U2 R4 C2 B4 ltac:(lia)) as [U3 C3].
  destruct (sadd k _ _ _ _ _ _ ltac:(lia) U3 R5 C3 B5 ltac:(lia)) as [U4 C4].
  exact (proj1 (ssub k _ _ _ _ _ _ ltac:(lia) U4 R6 C4 B6 ltac:(lia))).
Qed.
Lemma f6neg_s k C a b c d e f x1 x2 x3 x4 x5 x6 : 0 <= k <= 300 -> 0 <= C -> 6 * C < 2 ^ 53 ->
  (rep_s k a x1 /\ Z.abs x1 <= C) -> (rep_s k b x2 /\ Z.abs x2 <= C) -> (rep_s k c x3 /\ Z.abs x3 <= C) ->
  (rep_s k d x4 /\ Z.abs x4 <= C) -> (rep_s k e x5 /\ Z.abs x5 <= C) -> (rep_s k f x6 /\ Z.abs x6 <= C) ->
  rep_s k (f6neg a b c d e f) (x1 + x2 + x3 - x4 - x5 + x6).
Proof.
  intros Hk HC HB [R1 B1] [R2 B2] [R3 B3] [R4 B4] [R5 B5] [R6 B6]. unfold f6neg.
  destruct (sadd k _ _ _ _ _ _ ltac:(lia) R1 R2 B1 B2 ltac:(lia)) as [U1 C1].
  destruct (sadd k _ _ _ _ _ _ ltac:(lia) U1 R3 C1 B3 ltac:(lia)) as [U2 C2].
  destruct (ssub k _ _ _ _ _ _ ltac:(lia) U2 R4 C2 B4 ltac:(lia)) as [U3 C3].
  destruct (ssub k _ _ _ _ _ _ ltac:(lia) U3 R5 C3 B5 ltac:(lia)) as [U4 C4].
  exact (proj1 (sadd k _ _ _ _ _ _ ltac:(lia) U4 R6 C4 B6 ltac:(lia))).
Qed.
Definition quarter (n : Z) : Prop := Z.abs n <= 1000.
Definition hundred (n : Z) : Prop := Z.abs n <= 100.
Lemma q_last x y z a b n : rep x a -> rep y b -> rep_s 2 z n -> hundred a -> hundred b -> quarter n ->
  rep_s 2 (fm3 x y z) (a * b * n) /\ Z.abs (a * b * n) <= 100 * 100 * 1000.
Proof. intros. apply fm3_last; auto; lia. Qed.
Lemma q_first x y z a b n : rep_s 2 x n -> rep y a -> rep z b -> hundred a -> hundred b -> quarter n ->
  rep_s 2 (fm3 x y z) (n * a * b) /\ Z.abs (n * a * b) <= 100 * 100 * 1000.
Proof. intros. change (100 * 100 * 1000) with (1000 * 100 * 100). apply fm3_first; auto; lia. Qed.
(** the translation cofactors *)
Lemma fcofactors_tra m R u : fop 100 m R -> entries_within 100 R ->
  rep_s 2 (f12 m) (vx u) -> rep_s 2 (f13 m) (vy u) -> rep_s 2 (f14 m) (vz u) ->
  quarter (vx u) -> quarter (vy u) -> quarter (vz u) ->
  let o := fcofactors m in
  let w := vopp (mvmul (madj R) u) in
  rep_s 2 (f12 o) (vx w) /\ rep_s 2 (f13 o) (vy w) /\ rep_s 2 (f14 o) (vz w).
Proof.
  destruct m as [x0 x1 x2 x3 x4 x5 x6 x7 x8 x9 x10 x11 x12 x13 x14 x15].
  destruct R as [a b c d e f g h i]. destruct u as [u1 u2 u3].
  intros [P0 P1 P2 P3 P4 P5 P6 P7 P8 P9 P10 P11 _ _ _ P15] S D1 D2 D3 Q1 Q2 Q3. unfold entries_within in S.
  cbn [f0 f1 f2 f3 f4 f5 f6 f7 f8 f9 f10 f11 f12 f13 f14 f15 m11 m12 m13 m21 m22 m23 m31 m32 m33 vx vy vz] in *.
  cbv zeta. unfold madj, fcofactors, vopp, mvmul.
  cbn [f0 f1 f2 f3 f4 f5 f6 f7 f8 f9 f10 f11 f12 f13 f14 f15 m11 m12 m13 m21 m22 m23 m31 m32 m33 vx vy vz].
  assert (HM : forall z, Z.abs z <= 100 -> hundred z) by auto.
  repeat match type of S with _ /\ _ => let H := fresh "S" in destruct S as [H S]; apply HM in H end. apply HM in S.
  pose proof (fneg_rep _ _ P0) as N0. pose proof (fneg_rep _ _ P4) as N4.
  assert (ON : forall z, hundred z -> hundred (- z)) by (unfold hundred; lia).
  split; [| split].
  - replace (- _) with (- b * f * u3 + b * i * u2 + c * e * u3 - c * h * u2 - u1 * e * i + u1 * h * f) by ring.
    apply (f6neg_s 2 (100 * 100 * 1000)); try lia; first [solve [apply q_last; auto] | solve [apply q_first; auto]].
  - replace (- _) with (a * f * u3 - a * i * u2 - c * d * u3 + c * g * u2 + u1 * d * i - u1 * g * f) by ring.
    apply (f6pos_s 2 (100 * 100 * 1000)); try lia; first [solve [apply q_last; auto] | solve [apply q_first; auto]].
  - replace (- _) with (- a * e * u3 + a * h * u2 + b * d * u3 - b * g * u2 - u1 * d * h + u1 * g * e) by ring.
    apply (f6neg_s 2 (100 * 100 * 1000)); try lia; first [solve [apply q_last; auto] | solve [apply q_first; auto]].
Qed.

Lemma quarter_finm f n B : B <= 512 -> rep_s 2 f n -> quarter n -> finm B f.
Proof.
  intros HB H Q. split; [exact (fin_rep _ _ _ H) |]. intros g k Hg Hk. unfold quarter in Q.
  destruct (smul 2 0 1000 512 n k f g) as [X _]; auto; try lia. exact (fin_rep _ _ _ X).
Qed.
Lemma times12 f n d inv : rep_s 2 f n -> rep inv d -> d = 1 \/ d = -1 -> Z.abs n <= 2 ^ 30 ->
  rep (fmul (fmul f inv) (f64_of_Z 12)) (3 * (n * d)).
Proof.
  intros Hf Hi Hd Hn. assert (R12 : rep (f64_of_Z 12) 12) by (apply f64_of_Z_rep; lia).
  pose proof (fmul_sign 2 f inv n d ltac:(lia) Hf Hi Hd) as H1.
  assert (Bn : Z.abs (n * d) <= 2 ^ 30) by (rewrite abs_mul_sign by assumption; assumption).
  destruct (smul 2 0 (2 ^ 30) 12 (n * d) 12 _ _ ltac:(lia) ltac:(lia) ltac:(lia) H1 R12 Bn
    ltac:(lia) ltac:(lia) ltac:(lia) ltac:(lia)) as [H2 _].
  apply (rep_unscale 0 2); [lia |]. change (0 + 2) with (2 + 0).
  replace (3 * (n * d) * 2 ^ 2) with (n * d * 12) by ring. exact H2.
Qed.
Lemma adj_tra_bound R u : entries_within 100 R -> quarter (vx u) -> quarter (vy u) -> quarter (vz u) ->
  let w := vopp (mvmul (madj R) u) in
  Z.abs (vx w) <= 6 * 10 ^ 7 /\ Z.abs (vy w) <= 6 * 10 ^ 7 /\ Z.abs (vz w) <= 6 * 10 ^ 7.
Proof.
  destruct R as [a b c d e f g h i], u as [u1 u2 u3]. intros S Q1 Q2 Q3. unfold entries_within in S.
  cbn [m11 m12 m13 m21 m22 m23 m31 m32 m33 vx vy vz] in *. cbv zeta. unfold madj, vopp, mvmul.
  cbn [m11 m12 m13 m21 m22 m23 m31 m32 m33 vx vy vz].
  assert (HM : forall z, Z.abs z <= 100 -> hundred z) by auto.
  repeat match type of S with _ /\ _ => let H := fresh "S" in destruct S as [H S]; apply HM in H end. apply HM in S.
  assert (X : forall x y z w n, hundred x -> hundred y -> hundred z -> hundred w -> quarter n ->
    Z.abs ((x * y - z * w) * n) <= 2 * 10 ^ 7).
  { clear. unfold hundred, quarter. intros x y z w n Hx Hy Hz Hw Hn.
    pose proof (prod_bound 100 100 x y ltac:(lia) ltac:(lia) Hx Hy) as P.
    pose proof (prod_bound 100 100 z w ltac:(lia) ltac:(lia) Hz Hw) as Q.
    pose proof (sub_bound _ _ _ _ P Q) as T.
    exact (prod_bound (100 * 100 + 100 * 100) 1000 _ n ltac:(lia) ltac:(lia) T Hn). }
  assert (Y : forall p q r, Z.abs p <= 2 * 10 ^ 7 -> Z.abs q <= 2 * 10 ^ 7 -> Z.abs r <= 2 * 10 ^ 7 ->
    Z.abs (- (p + q + r)) <= 6 * 10 ^ 7) by (clear; intros; lia).
  split; [| split]; apply Y; apply X; assumption.
Qed.
(** C16: translations in quarters of the cell, any integer rotation *)
Theorem C16_inverse_quarter_translations :
  forall R u, entries_within 100 R -> det_spec R = 1 \/ det_spec R = -1 ->
    Z.abs (vx u) <= 1000 -> Z.abs (vy u) <= 1000 -> Z.abs (vz u) <= 1000 ->
    let m := aff R (V3 (3 * vx u) (3 * vy u) (3 * vz u)) in
    exists i, try_inverse m = Some i /\ inverts m i.
Proof.
  intros R u S U Q1 Q2 Q3 m. rewrite det_spec_mdet in U. change (unimodular R) in U.
  set (t := V3 (3 * vx u) (3 * vy u) (3 * vz u)) in *.
  exists (aff (minv R) (vopp (mvmul (minv R) t))). split; [| now apply aff_inverts].
  assert (D1 : rep_s 2 (fst (fst (twelfths t))) (vx u)) by (apply fdiv_quarter; lia).
  assert (D2 : rep_s 2 (snd (fst (twelfths t))) (vy u)) by (apply fdiv_quarter; lia).
  assert (D3 : rep_s 2 (snd (twelfths t)) (vz u)) by (apply fdiv_quarter; lia).
  assert (F1 : finm 100 (fst (fst (twelfths t)))) by (eapply quarter_finm; [lia | exact D1 | exact Q1]).
  assert (F2 : finm 100 (snd (fst (twelfths t)))) by (eapply quarter_finm; [lia | exact D2 | exact Q2]).
  assert (F3 : finm 100 (snd (twelfths t))) by (eapply quarter_finm; [lia | exact D3 | exact Q3]).
  pose proof (to_f64_mat_fop 100 R t ltac:(lia) S F1 F2 F3) as F.
  destruct (fcofactors_tra _ R u F S D1 D2 D3 Q1 Q2 Q3) as (O12 & O13 & O14).
  destruct (adj_tra_bound R u S Q1 Q2 Q3) as (B1 & B2 & B3).
  assert (EV : vopp (mvmul (minv R) t) =
    let w := vopp (mvmul (madj R) u) in V3 (3 * (vx w * mdet R)) (3 * (vy w * mdet R)) (3 * (vz w * mdet R))).
  { unfold minv. cbv zeta. generalize (mdet R) (madj R). clear. intros d A. unfold t. destruct u. mat_ring. }
  cbv zeta in EV. unfold m. rewrite EV. set (w := vopp (mvmul (madj R) u)) in *. clearbody w.
  set (o := fcofactors (to_f64_mat (aff R t))) in *.
  assert (LB : forall z, Z.abs z <= 6 * 10 ^ 7 -> Z.abs (3 * (z * mdet R)) < 2 ^ 31).
  { intros z Hz. rewrite Z.abs_mul, abs_mul_sign by exact U. clear - Hz. lia. }
  assert (LC : forall z, Z.abs z <= 6 * 10 ^ 7 -> Z.abs z <= 2 ^ 30) by (clear; intros; lia).
  apply (inverse_core 100); auto; cbn [vx vy vz]; auto; [lia | exact (fin_rep _ _ _ O12) |].
  intros inv Hi. repeat split; apply times12; auto.
Qed.
(** and no inverse is returned when there is none *)
Theorem C16_no_inverse_when_singular :
  forall R u, entries_within 100 R -> det_spec R = 0 ->
    Z.abs (vx u) <= 1000 -> Z.abs (vy u) <= 1000 -> Z.abs (vz u) <= 1000 ->
    try_inverse (aff R (V3 (3 * vx u) (3 * vy u) (3 * vz u))) = None.
Proof.
  intros R u S U Q1 Q2 Q3. rewrite det_spec_mdet in U.
  set (t := V3 (3 * vx u) (3 * vy u) (3 * vz u)) in *.
  assert (D1 : rep_s 2 (fst (fst (twelfths t))) (vx u)) by (apply fdiv_quarter; lia).
  assert (D2 : rep_s 2 (snd (fst (twelfths t))) (vy u)) by (apply fdiv_quarter; lia).
  assert (D3 : rep_s 2 (snd (twelfths t)) (vz u)) by (apply fdiv_quarter; lia).
  assert (F1 : finm 100 (fst (fst (twelfths t)))) by (eapply quarter_finm; [lia | exact D1 | exact Q1]).
  assert (F2 : finm 100 (snd (fst (twelfths t)))) by (eapply quarter_finm; [lia | exact D2 | exact Q2]).
  assert (F3 : finm 100 (snd (twelfths t))) by (eapply quarter_finm; [lia | exact D3 | exact Q3]).
  pose proof (to_f64_mat_fop 100 R t ltac:(lia) S F1 F2 F3) as F.
  destruct (fcofactors_tra _ R u F S D1 D2 D3 Q1 Q2 Q3) as (O12 & _).
  unfold try_inverse. rewrite (ftry_inverse_singular 100 _ R); auto; [lia | exact (fin_rep _ _ _ O12)].
Qed.
