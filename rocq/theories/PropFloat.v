(** * PropFloat: property C53: the floating-point form of an operation. *)
From Coq Require Import QArith Qabs Qpower SpecFloat.
From Verif Require Import Base Notations Seitz F64 Spec SpecRotation SpecFloat64 F64Facts F64Div PropInverse2.
Open Scope Z_scope.

Lemma qpow2 k : 0 <= k -> (Qpower 2 k == inject_Z (2 ^ k))%Q.
Proof. intros H. change 2%Q with (inject_Z 2). rewrite (Zpower_Qpower 2 k H). reflexivity. Qed.
Lemma rep_value k f n : 0 <= k -> rep_s k f n -> exactly f (inject_Z n / inject_Z (2 ^ k)).
Proof.
  intros Hk H. assert (P : 0 < 2 ^ k) by (apply Z.pow_pos_nonneg; lia).
  assert (N0 : ~ (inject_Z (2 ^ k) == 0)%Q) by (unfold Qeq, inject_Z; cbn; lia).
  destruct f as [s | s | | s m e]; unfold rep_s in H; try contradiction.
  - subst n. exists 0%Q. split; [reflexivity |]. change (inject_Z 0) with 0%Q. field. exact N0.
  - destruct H as (E & B & M & S). eexists. split; [reflexivity |].
    assert (L : 0 <= - k - e).
    { assert (Z.log2 (Z.abs n) <= 52) by (pose proof (log2_53 _ B); lia). lia. }
    assert (X : (Qpower 2 e * inject_Z (2 ^ k) * inject_Z (2 ^ (- k - e)) == 1)%Q).
    { rewrite <- !qpow2 by lia. rewrite <- !Qpower_plus by discriminate. replace (e + k + (- k - e)) with 0 by lia. reflexivity. }
    rewrite M, inject_Z_mult. set (a := inject_Z (2 ^ (- k - e))) in *. set (b := inject_Z (2 ^ k)) in *. set (p := Qpower 2 e) in *.
    assert (SN : ((if s then -1 else 1) * inject_Z (Z.abs n) == inject_Z n)%Q).
    { subst s. destruct (Z.ltb_spec n 0); [rewrite Z.abs_neq, inject_Z_opp by lia | rewrite Z.abs_eq by lia]; ring. }
    transitivity (inject_Z n * (p * b * a) / b)%Q; [rewrite <- SN; field; exact N0 | rewrite X; field; exact N0].
Qed.
Lemma twelfth_float t : Z.abs t < 2 ^ 52 -> nearly (fdiv (f64_of_Z t) (f64_of_Z 12)) (inject_Z t / 12).
Proof.
  intros B. assert (R12 : rep (f64_of_Z 12) 12) by (apply f64_of_Z_rep; lia).
  assert (Rt : rep (f64_of_Z t) t) by (apply f64_of_Z_rep; lia).
  destruct (Z.eq_dec t 0) as [-> | NZ].
  - pose proof (fdiv_zero _ _ _ Rt R12 ltac:(lia) 0) as H. destruct (rep_value 0 _ _ ltac:(lia) H) as (v & V & E).
    exists v. split; [assumption |]. change (inject_Z 0 / inject_Z (2 ^ 0))%Q with 0%Q in E. rewrite E.
    assert (Z12 : (inject_Z 0 / 12 == 0)%Q) by reflexivity. rewrite Z12. discriminate.
  - destruct (fdiv_rep _ _ _ _ Rt R12) as (k & n & K & H & N & D & _); [lia | lia |].
    destruct (rep_value k _ _ ltac:(lia) H) as (v & V & E). exists v. split; [assumption |]. rewrite E.
    assert (P : 0 < 2 ^ k) by (apply Z.pow_pos_nonneg; lia). set (p := 2 ^ k) in *. clearbody p. clear - N D P.
    destruct p as [| p |]; try lia.
    assert (A : (inject_Z n / inject_Z (Z.pos p) == n # p)%Q) by (unfold Qeq, Qdiv, Qmult, Qinv, inject_Z; cbn; lia).
    rewrite !A. assert (C : ((n # p) - inject_Z t / 12 == (n * 12 - t * Z.pos p) # (12 * p))%Q) by (unfold Qeq, Qdiv, Qminus, Qopp, Qplus, Qmult, Qinv, inject_Z; cbn; lia).
    rewrite C. unfold Qabs, Qle, Qmult, inject_Z. cbn [Qnum Qden].
    assert (2 ^ 53 * Z.abs (n * 12 - t * Z.pos p) <= 12 * Z.abs n) by (change (2 ^ 53) with 9007199254740992; change (2 ^ 52) with 4503599627370496 in N; lia).
    change (Z.pos (1 * (12 * p))) with (12 * Z.pos p). nia.
Qed.
(** back from the float: times twelve, rounded *)
Definition twelve_times (f : f64) : f64 := fmul f (f64_of_Z 12).
Lemma twelfth_recovered t : -2147483648 <= t < 2147483648 -> exactly (twelve_times (fdiv (f64_of_Z t) (f64_of_Z 12))) (inject_Z t).
Proof.
  intros B. assert (K : rep (twelve_times (fdiv (f64_of_Z t) (f64_of_Z 12))) t).
  { destruct (Z.eq_dec t (-2147483648)) as [-> | NE]; [vm_compute; intuition congruence |].
    assert (R12 : rep (f64_of_Z 12) 12) by (apply f64_of_Z_rep; lia).
    assert (Rt : rep (f64_of_Z t) t) by (apply f64_of_Z_rep; lia). unfold twelve_times.
    destruct (Z.eq_dec t 0) as [-> | NZ]; [vm_compute; reflexivity |].
    destruct (fdiv_rep _ _ _ _ Rt R12) as (k & n & Kk & H & N & D & _); [lia | lia |].
    eapply twelfth_back; eauto; lia. }
  destruct (rep_value 0 _ _ ltac:(lia) K) as (v & V & E). exists v. split; [assumption |]. rewrite E. change (2 ^ 0) with 1. field.
Qed.
Definition all_fit (m : seitz) : Prop :=
  (forall x, In x [m11 (rot m); m12 (rot m); m13 (rot m); m21 (rot m); m22 (rot m); m23 (rot m); m31 (rot m); m32 (rot m); m33 (rot m);
                   vx (tra m); vy (tra m); vz (tra m); vx (bot m); vy (bot m); vz (bot m); cor m] -> fits_i32 x).
Lemma int_exact n : fits_i32 n -> exactly (f64_of_Z n) (inject_Z n).
Proof.
  intros H. unfold fits_i32 in H. assert (R : rep (f64_of_Z n) n) by (apply f64_of_Z_rep; lia).
  destruct (rep_value 0 _ _ ltac:(lia) R) as (v & V & E). exists v. split; [assumption |]. rewrite E. change (2 ^ 0) with 1. field.
Qed.
(** rotation part and last row exact; the translation in cells up to one part in 2^53, and
    twelve times it gives the integer back without error.  (f0 .. f15: column by column.) *)
Theorem C53_float_form_accurate :
  forall m, all_fit m -> let f := to_f64_mat m in
  exactly (f0 f) (inject_Z (m11 (rot m))) /\ exactly (f4 f) (inject_Z (m12 (rot m))) /\ exactly (f8 f) (inject_Z (m13 (rot m))) /\
  exactly (f1 f) (inject_Z (m21 (rot m))) /\ exactly (f5 f) (inject_Z (m22 (rot m))) /\ exactly (f9 f) (inject_Z (m23 (rot m))) /\
  exactly (f2 f) (inject_Z (m31 (rot m))) /\ exactly (f6 f) (inject_Z (m32 (rot m))) /\ exactly (f10 f) (inject_Z (m33 (rot m))) /\
  exactly (f3 f) (inject_Z (vx (bot m))) /\ exactly (f7 f) (inject_Z (vy (bot m))) /\ exactly (f11 f) (inject_Z (vz (bot m))) /\
  exactly (f15 f) (inject_Z (cor m)) /\
  nearly (f12 f) (inject_Z (vx (tra m)) / 12) /\ nearly (f13 f) (inject_Z (vy (tra m)) / 12) /\ nearly (f14 f) (inject_Z (vz (tra m)) / 12) /\
  exactly (twelve_times (f12 f)) (inject_Z (vx (tra m))) /\ exactly (twelve_times (f13 f)) (inject_Z (vy (tra m))) /\
  exactly (twelve_times (f14 f)) (inject_Z (vz (tra m))).
Proof.
  intros m F f. unfold all_fit in F. cbn [In] in F. unfold f, to_f64_mat. cbv zeta. cbn [f0 f1 f2 f3 f4 f5 f6 f7 f8 f9 f10 f11 f12 f13 f14 f15].
  assert (T : forall t, fits_i32 t -> nearly (fdiv (f64_of_Z t) (f64_of_Z STBN)) (inject_Z t / 12)) by (intros t H; apply twelfth_float; unfold fits_i32 in H; lia).
  assert (U : forall t, fits_i32 t -> exactly (twelve_times (fdiv (f64_of_Z t) (f64_of_Z STBN))) (inject_Z t)) by (intros t H; apply twelfth_recovered; unfold fits_i32 in H; lia).
  repeat split; (apply int_exact || apply T || apply U); apply F; tauto.
Qed.
Lemma exactly_inj f a b : exactly f (inject_Z a) -> exactly f (inject_Z b) -> a = b.
Proof. intros (v & V & E) (w & W & F). rewrite V in W. injection W as <-. rewrite E in F. unfold Qeq, inject_Z in F. cbn in F. lia. Qed.
(** different operations have different floating-point forms *)
Theorem C53_float_form_injective :
  forall m n, all_fit m -> all_fit n -> to_f64_mat m = to_f64_mat n -> m = n.
Proof.
  intros m n M N E. pose proof (C53_float_form_accurate m M) as A. pose proof (C53_float_form_accurate n N) as B. cbv zeta in A, B. rewrite E in A.
  decompose [and] A. decompose [and] B. clear A B.
  destruct m as [[a1 a2 a3 a4 a5 a6 a7 a8 a9] [t1 t2 t3] [b1 b2 b3] p], n as [[c1 c2 c3 c4 c5 c6 c7 c8 c9] [u1 u2 u3] [d1 d2 d3] p'].
  cbn [rot tra bot cor vx vy vz m11 m12 m13 m21 m22 m23 m31 m32 m33] in *.
  f_equal; [f_equal | f_equal | f_equal |]; eapply exactly_inj; eassumption.
Qed.
(** it is not exact: a third of a cell is not a binary fraction *)
Theorem C53_translation_exact_refuted :
  ~ exactly (f12 (to_f64_mat (aff I3 (V3 4 0 0)))) (inject_Z 4 / 12).
Proof. intros (v & V & E). vm_compute in V. injection V as <-. vm_compute in E. discriminate. Qed.
Example C53_case : all_fit (aff (M3 0 (-1) 0 1 (-1) 0 0 0 1) (V3 8 (-3) 2147483647)).
Proof. intros x H. cbn in H. unfold fits_i32. repeat (destruct H as [<- | H]; [cbn; lia |]). contradiction. Qed.
