(** * PropInverse2: property C16, continued: signed permutations with any translation, the
    tabulated groups, hexagonal rotations, negative powers. *)
From Coq Require Import SpecFloat.
From Verif Require Import Base Notations Parser Seitz F64 Jones Rotations Tables Generate Positions Lookup
  Spec SpecHall SpecTables SpecRotation SpecXyz SpecInverse Algebra PropSeitz PropSymbols GenFacts PropGenerate GroupCheck
  PropFullSets PropShift PropTables PropTableGroups Restriction F64Facts F64Div PropRotation PropJones PropInverse.
Open Scope Z_scope.
Local Notation length := List.length.

(** ** Signed permutations *)
(** [v as f64 / 12.0]: some [n / 2^k] from which multiplying by twelve gives [v] back, also
    after a change of sign *)
Definition twelfth_of (t k n : Z) (d : f64) : Prop :=
  0 <= k <= 120 /\ Z.abs n < 2 ^ 53 /\ rep_s k d n /\
  forall f s, s = 1 \/ s = -1 -> rep_s k f (s * n) -> rep (fmul f (f64_of_Z 12)) (s * t).
Lemma twelfth_exists t : Z.abs t < 2 ^ 31 -> exists k n, twelfth_of t k n (fdiv (f64_of_Z t) (f64_of_Z 12)).
Proof.
  intros Ht. assert (R12 : rep (f64_of_Z 12) 12) by (apply f64_of_Z_rep; lia).
  assert (Rt : rep (f64_of_Z t) t) by (apply f64_of_Z_rep; lia).
  destruct (Z.eq_dec t 0) as [-> | N].
  - exists 0, 0. split; [lia |]. split; [lia |]. split; [apply (fdiv_zero _ _ 12); auto; lia |].
    intros f s _ Hf. rewrite Z.mul_0_r in *. apply isz_rep. apply fmul_z_l; [now apply (isz_rep 0) |].
    exact (fin_rep _ _ _ R12).
  - destruct (fdiv_rep _ _ _ _ Rt R12 ltac:(lia) ltac:(lia)) as (k & n & Hk & R & Bn & RN & _).
    exists k, n. split; [assumption |]. split; [lia |]. split; [assumption |].
    intros f s Hs Hf. change (Z.abs 12) with 12 in RN. clear - Hk Hs Hf Bn RN Ht N.
    apply (twelfth_back k f (s * n) (s * t) Hk Hf).
    + destruct Hs as [-> | ->]; lia.
    + destruct Hs as [-> | ->]; lia.
    + replace (s * t * 2 ^ k - s * n * 12) with ((t * 2 ^ k - n * 12) * s) by ring. now rewrite abs_mul_sign.
Qed.
Lemma twelfth_finm t k n d : twelfth_of t k n d -> finm 1 d.
Proof.
  intros (Hk & Hn & R & _). split; [exact (fin_rep _ _ _ R) |].
  intros g j Hg Hj. exists (k + 0), (n * j). apply fmul_rep_s; auto; try lia.
  assert (j = 0 \/ j = 1 \/ j = -1) as [-> | [-> | ->]] by lia; lia.
Qed.
(** a product of two signs and a translation *)
Lemma sgn_last k x y z a b n : 0 <= k <= 120 -> Z.abs n < 2 ^ 53 -> rep x a -> rep y b -> rep_s k z n ->
  -1 <= a <= 1 -> -1 <= b <= 1 -> rep_s k (fm3 x y z) (a * b * n).
Proof.
  intros Hk Hn Hx Hy Hz Ha Hb. unfold fm3. replace k with (0 + k) by lia. apply fmul_rep_s; auto; try lia.
  - apply (fmul_rep_s 0 0); auto; try lia.
    assert (a = 0 \/ a = 1 \/ a = -1) as [-> | [-> | ->]] by lia; lia.
  - assert (a = 0 \/ a = 1 \/ a = -1) as [-> | [-> | ->]] by lia;
    assert (b = 0 \/ b = 1 \/ b = -1) as [-> | [-> | ->]] by lia; lia.
Qed.
Lemma sgn_first k x y z a b n : 0 <= k <= 120 -> Z.abs n < 2 ^ 53 -> rep_s k x n -> rep y a -> rep z b ->
  -1 <= a <= 1 -> -1 <= b <= 1 -> rep_s k (fm3 x y z) (n * a * b).
Proof.
  intros Hk Hn Hx Hy Hz Ha Hb. unfold fm3. replace k with (k + 0 + 0) by lia. apply fmul_rep_s; auto; try lia.
  - apply (fmul_rep_s k 0); auto; try lia.
    assert (a = 0 \/ a = 1 \/ a = -1) as [-> | [-> | ->]] by lia; lia.
  - assert (a = 0 \/ a = 1 \/ a = -1) as [-> | [-> | ->]] by lia;
    assert (b = 0 \/ b = 1 \/ b = -1) as [-> | [-> | ->]] by lia; lia.
Qed.
(** sums of six of which at most one is not zero *)
Lemma f6pos_k k a b c d e f x1 x2 x3 x4 x5 x6 : 0 <= k <= 120 ->
  rep_s k a x1 -> rep_s k b x2 -> rep_s k c x3 -> rep_s k d x4 -> rep_s k e x5 -> rep_s k f x6 ->
  Z.abs (x1 - x2) < 2 ^ 53 -> Z.abs (x1 - x2 - x3) < 2 ^ 53 -> Z.abs (x1 - x2 - x3 + x4) < 2 ^ 53 ->
  Z.abs (x1 - x2 - x3 + x4 + x5) < 2 ^ 53 -> Z.abs (x1 - x2 - x3 + x4 + x5 - x6) < 2 ^ 53 ->
  rep_s k (f6pos a b c d e f) (x1 - x2 - x3 + x4 + x5 - x6).
Proof.
  intros. assert (0 <= k <= 400) by lia. unfold f6pos.
  repeat first [assumption | apply fsub_rep_s | apply fadd_rep_s].
Qed.
Lemma f6neg_k k a b c d e f x1 x2 x3 x4 x5 x6 : 0 <= k <= 120 ->
  rep_s k a x1 -> rep_s k b x2 -> rep_s k c x3 -> rep_s k d x4 -> rep_s k e x5 -> rep_s k f x6 ->
  Z.abs (x1 + x2) < 2 ^ 53 -> Z.abs (x1 + x2 + x3) < 2 ^ 53 -> Z.abs (x1 + x2 + x3 - x4) < 2 ^ 53 ->
  Z.abs (x1 + x2 + x3 - x4 - x5) < 2 ^ 53 -> Z.abs (x1 + x2 + x3 - x4 - x5 + x6) < 2 ^ 53 ->
  rep_s k (f6neg a b c d e f) (x1 + x2 + x3 - x4 - x5 + x6).
Proof.
  intros. assert (0 <= k <= 400) by lia. unfold f6neg.
  repeat first [assumption | apply fsub_rep_s | apply fadd_rep_s].
Qed.
Lemma rot_unit (z : Z) : -1 <= z <= 1 -> rep (f64_of_Z z) z.
Proof. intros. apply f64_of_Z_rep. lia. Qed.
(** one component of the inverse translation: plus or minus one of the three translations *)
Definition comp_ok (f : f64) (d x : Z) : Prop :=
  fin f /\ forall inv, rep inv d -> rep (fmul (fmul f inv) (f64_of_Z 12)) x.
Lemma comp_ok_intro s f k n t dd d x : twelfth_of t k n dd -> s = 1 \/ s = -1 -> d = 1 \/ d = -1 ->
  x = s * d * t -> rep_s k f (s * n) -> comp_ok f d x.
Proof.
  intros (Hk & _ & _ & T) Hs Hd -> Hf. split; [exact (fin_rep _ _ _ Hf) |]. intros inv Hi.
  apply T; [destruct Hs as [-> | ->], Hd as [-> | ->]; auto |].
  replace (s * d * n) with (s * n * d) by ring. apply fmul_sign; auto. lia.
Qed.
Lemma rep_eq k f x y : rep_s k f x -> x = y -> rep_s k f y.
Proof. now intros ? <-. Qed.
Definition signs3 : list (Z * Z * Z) :=
  flat_map (fun x => flat_map (fun y => map (fun z => (x, y, z)) [1; -1]) [1; -1]) [1; -1].
Definition signed_perms : list mat3 :=
  flat_map (fun s => let '(x, y, z) := s in
    [M3 x 0 0 0 y 0 0 0 z; M3 x 0 0 0 0 y 0 z 0; M3 0 x 0 y 0 0 0 0 z;
     M3 0 x 0 0 0 y z 0 0; M3 0 0 x y 0 0 0 z 0; M3 0 0 x 0 y 0 z 0 0]) signs3.
Lemma signed_row_cases a b c : signed_row a b c ->
  (a = 1 \/ a = -1) /\ b = 0 /\ c = 0 \/ a = 0 /\ (b = 1 \/ b = -1) /\ c = 0 \/ a = 0 /\ b = 0 /\ (c = 1 \/ c = -1).
Proof. unfold signed_row. lia. Qed.
Lemma signed_perms_in R : signed_permutation R -> In R signed_perms.
Proof.
  destruct R as [a b c d e f g h i]. unfold signed_permutation. cbn [m11 m12 m13 m21 m22 m23 m31 m32 m33].
  intros (R1 & R2 & R3 & C1 & C2 & C3).
  assert (X : forall x, x = 1 \/ x = -1 -> In x [1; -1]) by (intros x [-> | ->]; cbn; auto).
  apply signed_row_cases in R1, R2, R3. unfold signed_row in *. apply in_flat_map.
  assert (S3 : forall x y z, (x = 1 \/ x = -1) -> (y = 1 \/ y = -1) -> (z = 1 \/ z = -1) -> In (x, y, z) signs3).
  { intros x y z Hx Hy Hz. apply in_flat_map. exists x. split; [auto |]. apply in_flat_map. exists y. split; [auto |].
    apply in_map. auto. }
  destruct R1 as [(A & -> & ->) | [(-> & A & ->) | (-> & -> & A)]];
  destruct R2 as [(B & -> & ->) | [(-> & B & ->) | (-> & -> & B)]];
  destruct R3 as [(C & -> & ->) | [(-> & C & ->) | (-> & -> & C)]]; try (exfalso; clear X S3; lia).
  - exists (a, e, i). split; [now apply S3 | cbn; tauto].
  - exists (a, f, h). split; [now apply S3 | cbn; tauto].
  - exists (b, d, i). split; [now apply S3 | cbn; tauto].
  - exists (b, f, g). split; [now apply S3 | cbn; tauto].
  - exists (c, d, h). split; [now apply S3 | cbn; tauto].
  - exists (c, e, g). split; [now apply S3 | cbn; tauto].
Qed.
Ltac t_int := first [eassumption | apply fneg_rep; eassumption].
Ltac t_isz := first [eassumption | match goal with H : rep ?x 0 |- isz ?x => exact (proj2 (isz_rep 0 x) H)
                | H : rep ?x 0 |- isz (fneg ?x) => exact (proj2 (isz_rep 0 (fneg x)) (fneg_rep x 0 H)) end].
Ltac t_fin := first [eassumption | eapply fin_rep; t_int].
Ltac t_term := first
  [ solve [apply isz_rep; first [ apply fm3_z1; [t_isz | t_fin | t_fin] | apply fm3_z2; [t_fin | t_isz | t_fin]
      | eapply fm3_z3'; [eassumption | eassumption | lia | t_isz] ]]
  | solve [eapply sgn_last; [eassumption | | t_int | t_int | eassumption | lia | lia]; eassumption]
  | solve [eapply sgn_first; [eassumption | | eassumption | t_int | t_int | lia | lia]; eassumption] ].
Ltac t_sum := eapply rep_eq; [first [apply f6neg_k | apply f6pos_k]; [assumption | t_term | t_term | t_term | t_term | t_term | t_term | lia | lia | lia | lia | lia] | lia].
Ltac t_comp T := first
  [ solve [eapply (comp_ok_intro 1); [exact T | lia | lia | lia | t_sum]]
  | solve [eapply (comp_ok_intro (-1)); [exact T | lia | lia | lia | t_sum]] ].
Lemma perm_cofactors R t1 t2 t3 k1 k2 k3 n1 n2 n3 d1 d2 d3 x0 x1 x2 x3 x4 x5 x6 x7 x8 x9 x10 x11 x15 :
  In R signed_perms ->
  twelfth_of t1 k1 n1 d1 -> twelfth_of t2 k2 n2 d2 -> twelfth_of t3 k3 n3 d3 ->
  rep x0 (m11 R) -> rep x1 (m21 R) -> rep x2 (m31 R) -> rep x4 (m12 R) -> rep x5 (m22 R) -> rep x6 (m32 R) ->
  rep x8 (m13 R) -> rep x9 (m23 R) -> rep x10 (m33 R) ->
  let o := fcofactors (FM4 x0 x1 x2 x3 x4 x5 x6 x7 x8 x9 x10 x11 d1 d2 d3 x15) in
  let v := vopp (mvmul (minv R) (V3 t1 t2 t3)) in
  comp_ok (f12 o) (mdet R) (vx v) /\ comp_ok (f13 o) (mdet R) (vy v) /\ comp_ok (f14 o) (mdet R) (vz v).
Proof.
  intros HR T1 T2 T3 P0 P1 P2 P4 P5 P6 P8 P9 P10. cbv zeta. unfold fcofactors. cbn [f12 f13 f14].
  pose proof (twelfth_finm _ _ _ _ T1) as F1. pose proof (twelfth_finm _ _ _ _ T2) as F2. pose proof (twelfth_finm _ _ _ _ T3) as F3.
  pose proof (proj1 F1) as G1. pose proof (proj1 F2) as G2. pose proof (proj1 F3) as G3.
  pose proof T1 as (K1 & N1 & D1 & _). pose proof T2 as (K2 & N2 & D2 & _). pose proof T3 as (K3 & N3 & D3 & _).
  unfold signed_perms, signs3 in HR. cbn [flat_map map app] in HR.
  repeat (destruct HR as [<- | HR];
   [ cbn [m11 m12 m13 m21 m22 m23 m31 m32 m33] in *;
     match goal with |- context [mdet ?M] => let x := eval vm_compute in (mdet M) in change (mdet M) with x end;
     match goal with |- context [minv ?M] => let x := eval vm_compute in (minv M) in change (minv M) with x end;
     unfold vopp, mvmul; cbn [m11 m12 m13 m21 m22 m23 m31 m32 m33 vx vy vz];
     split; [| split]; first [t_comp T1 | t_comp T2 | t_comp T3]
   | ]).
  destruct HR.
Qed.
Lemma signed_perms_unit R : In R signed_perms -> entries_within 1 R /\ unimodular R.
Proof.
  intros H. assert (K : forallb (fun R => (Z.abs (mdet R) =? 1) && (Z.abs (m11 R) <=? 1) && (Z.abs (m12 R) <=? 1) && (Z.abs (m13 R) <=? 1)
    && (Z.abs (m21 R) <=? 1) && (Z.abs (m22 R) <=? 1) && (Z.abs (m23 R) <=? 1)
    && (Z.abs (m31 R) <=? 1) && (Z.abs (m32 R) <=? 1) && (Z.abs (m33 R) <=? 1)) signed_perms = true)
    by (vm_compute; reflexivity).
  rewrite forallb_forall in K. specialize (K R H). rewrite !andb_true_iff, !Z.leb_le, Z.eqb_eq in K.
  unfold entries_within, unimodular. destruct K as ((((((((( K & ?) & ?) & ?) & ?) & ?) & ?) & ?) & ?) & ?).
  repeat split; try assumption. clear - K. lia.
Qed.
(** C16: one entry +1 or -1 in every row and column, any translation of an [i32] (but
    [i32::MIN], which has no opposite) *)
Theorem C16_inverse_signed_permutations :
  forall R t, signed_permutation R -> Z.abs (vx t) < 2 ^ 31 -> Z.abs (vy t) < 2 ^ 31 -> Z.abs (vz t) < 2 ^ 31 ->
    exists i, try_inverse (aff R t) = Some i /\ inverts (aff R t) i.
Proof.
  intros R [t1 t2 t3] S B1 B2 B3. cbn [vx vy vz] in *. apply signed_perms_in in S.
  destruct (signed_perms_unit R S) as [E U].
  destruct (twelfth_exists t1 B1) as (k1 & n1 & T1). destruct (twelfth_exists t2 B2) as (k2 & n2 & T2).
  destruct (twelfth_exists t3 B3) as (k3 & n3 & T3).
  exists (aff (minv R) (vopp (mvmul (minv R) (V3 t1 t2 t3)))). split; [| now apply aff_inverts].
  assert (SM : forall z, Z.abs z <= 1 -> rep (f64_of_Z z) z) by (intros z Hz; apply f64_of_Z_rep; lia).
  pose proof E as (A11 & A12 & A13 & A21 & A22 & A23 & A31 & A32 & A33).
  pose proof (perm_cofactors R t1 t2 t3 _ _ _ _ _ _ _ _ _ _ _ _ (f64_of_Z 0) _ _ _ (f64_of_Z 0) _ _ _ (f64_of_Z 0) (f64_of_Z 1) S T1 T2 T3
    (SM _ A11) (SM _ A21) (SM _ A31) (SM _ A12) (SM _ A22) (SM _ A32) (SM _ A13) (SM _ A23) (SM _ A33)) as C.
  cbv zeta in C. destruct C as ((G1 & C1) & (G2 & C2) & (G3 & C3)).
  assert (V : let v := vopp (mvmul (minv R) (V3 t1 t2 t3)) in
    Z.abs (vx v) < 2 ^ 31 /\ Z.abs (vy v) < 2 ^ 31 /\ Z.abs (vz v) < 2 ^ 31).
  { clear - S B1 B2 B3. unfold signed_perms, signs3 in S. cbn [flat_map map app] in S.
    repeat (destruct S as [<- | S]; [
      match goal with |- context [minv ?M] => let x := eval vm_compute in (minv M) in change (minv M) with x end;
      unfold vopp, mvmul; cbn [m11 m12 m13 m21 m22 m23 m31 m32 m33 vx vy vz]; lia |]). destruct S. }
  destruct V as (V1 & V2 & V3').
  apply (inverse_core 1); auto; [lia | exact (twelfth_finm _ _ _ _ T1) | exact (twelfth_finm _ _ _ _ T2) |
    exact (twelfth_finm _ _ _ _ T3)].
Qed.
