(** * TypeFacts: changes of coordinates, and invariants of groups under them (proof support). *)
From Coq Require Import QArith Permutation.
From Verif Require Import Base Seitz Spec SpecType Algebra.
Open Scope Z_scope.
Local Notation length := List.length.

(** ** [carries] as integer equations *)
Definition carries_int (f : change) (o o' : op) : Prop :=
  mmul (ch_M f) (fst o) = mmul (fst o') (ch_M f) /\
  vadd (mvmul (ch_M f) (snd o)) (ch_q f) = vadd (mvmul (fst o') (ch_q f)) (vscale (ch_d f) (snd o')).
Lemma inject_Z_eq a b : (inject_Z a == inject_Z b)%Q -> a = b.
Proof. unfold Qeq, inject_Z; cbn [Qnum Qden]. lia. Qed.
Lemma inject_Z_nonzero d : 0 < d -> ~ (inject_Z d == 0)%Q.
Proof. intros H E. apply (inject_Z_eq d 0) in E. lia. Qed.
Ltac injQ := repeat first [rewrite inject_Z_plus | rewrite inject_Z_mult | rewrite inject_Z_opp].
(** one row: m is row i of M, s is row i of S *)
Lemma row_left (m1 m2 m3 r11 r12 r13 r21 r22 r23 r31 r32 r33 t1 t2 t3 q d : Z) (X Y W : Q) :
  ~ (inject_Z d == 0)%Q ->
  ((inject_Z m1 * (inject_Z r11 * X + inject_Z r12 * Y + inject_Z r13 * W + inject_Z t1 / 12)
   + inject_Z m2 * (inject_Z r21 * X + inject_Z r22 * Y + inject_Z r23 * W + inject_Z t2 / 12)
   + inject_Z m3 * (inject_Z r31 * X + inject_Z r32 * Y + inject_Z r33 * W + inject_Z t3 / 12)
   + inject_Z q / 12) / inject_Z d ==
  (inject_Z (m1 * r11 + m2 * r21 + m3 * r31) * X + inject_Z (m1 * r12 + m2 * r22 + m3 * r32) * Y
   + inject_Z (m1 * r13 + m2 * r23 + m3 * r33) * W
   + inject_Z (m1 * t1 + m2 * t2 + m3 * t3 + q) / 12) / inject_Z d)%Q.
Proof. intros D. injQ. field. exact D. Qed.
Lemma row_right (s1 s2 s3 m11 m12 m13 m21 m22 m23 m31 m32 m33 q1 q2 q3 u d : Z) (X Y W : Q) :
  ~ (inject_Z d == 0)%Q ->
  (inject_Z s1 * ((inject_Z m11 * X + inject_Z m12 * Y + inject_Z m13 * W + inject_Z q1 / 12) / inject_Z d)
   + inject_Z s2 * ((inject_Z m21 * X + inject_Z m22 * Y + inject_Z m23 * W + inject_Z q2 / 12) / inject_Z d)
   + inject_Z s3 * ((inject_Z m31 * X + inject_Z m32 * Y + inject_Z m33 * W + inject_Z q3 / 12) / inject_Z d)
   + inject_Z u / 12 ==
  (inject_Z (s1 * m11 + s2 * m21 + s3 * m31) * X + inject_Z (s1 * m12 + s2 * m22 + s3 * m32) * Y
   + inject_Z (s1 * m13 + s2 * m23 + s3 * m33) * W
   + inject_Z (s1 * q1 + s2 * q2 + s3 * q3 + d * u) / 12) / inject_Z d)%Q.
Proof. intros D. injQ. field. exact D. Qed.
Definition row_val (a b c e d : Z) (p : qvec) : Q :=
  ((inject_Z a * qx p + inject_Z b * qy p + inject_Z c * qz p + inject_Z e / 12) / inject_Z d)%Q.
Lemma row_val_eq a b c e a' b' c' e' d : 0 < d ->
  (forall p, (row_val a b c e d p == row_val a' b' c' e' d p)%Q) -> a = a' /\ b = b' /\ c = c' /\ e = e'.
Proof.
  intros Hd H. assert (D := inject_Z_nonzero d Hd).
  assert (T : ~ (12 == 0)%Q) by discriminate.
  assert (G : forall p, (inject_Z a * qx p + inject_Z b * qy p + inject_Z c * qz p + inject_Z e / 12 ==
      inject_Z a' * qx p + inject_Z b' * qy p + inject_Z c' * qz p + inject_Z e' / 12)%Q).
  { intros p. specialize (H p). unfold row_val in H.
    apply (Qmult_inj_r _ _ (/ inject_Z d)); [| exact H].
    intros K. apply D. rewrite <- (Qinv_involutive (inject_Z d)), K. reflexivity. }
  clear H. assert (G0 := G (QV 0 0 0)). cbn [qx qy qz] in G0.
  assert (Ee : (inject_Z e / 12 == inject_Z e' / 12)%Q).
  { transitivity (inject_Z a * 0 + inject_Z b * 0 + inject_Z c * 0 + inject_Z e / 12)%Q; [ring |].
    rewrite G0. ring. }
  assert (Ea := G (QV 1 0 0)). assert (Eb := G (QV 0 1 0)). assert (Ec := G (QV 0 0 1)).
  cbn [qx qy qz] in Ea, Eb, Ec. rewrite Ee in Ea, Eb, Ec.
  repeat split; apply inject_Z_eq.
  - apply (Qplus_inj_r _ _ (inject_Z e' / 12)).
    transitivity (inject_Z a * 1 + inject_Z b * 0 + inject_Z c * 0 + inject_Z e' / 12)%Q; [ring |].
    rewrite Ea. ring.
  - apply (Qplus_inj_r _ _ (inject_Z e' / 12)).
    transitivity (inject_Z a * 0 + inject_Z b * 1 + inject_Z c * 0 + inject_Z e' / 12)%Q; [ring |].
    rewrite Eb. ring.
  - apply (Qplus_inj_r _ _ (inject_Z e' / 12)).
    transitivity (inject_Z a * 0 + inject_Z b * 0 + inject_Z c * 1 + inject_Z e' / 12)%Q; [ring |].
    rewrite Ec. ring.
  - apply (Qmult_inj_r _ _ (/ 12)); [discriminate | exact Ee].
Qed.
Lemma carries_iff f o o' : 0 < ch_d f -> (carries f o o' <-> carries_int f o o').
Proof.
  destruct f as [[a b c a' b' c' a'' b'' c''] [q q' q''] d], o as [R [t t' t'']], o' as [S [u u' u'']].
  destruct R as [r11 r12 r13 r21 r22 r23 r31 r32 r33], S as [s11 s12 s13 s21 s22 s23 s31 s32 s33].
  unfold carries, carries_int, qsame, image, divide, move, qdot, mmul, mvmul, vadd, vscale;
  cbn [ch_M ch_q ch_d fst snd m11 m12 m13 m21 m22 m23 m31 m32 m33 vx vy vz qx qy qz].
  intros Hd. assert (D := inject_Z_nonzero d Hd). split.
  - intros H.
    match goal with |- M3 ?x11 ?x12 ?x13 ?x21 ?x22 ?x23 ?x31 ?x32 ?x33 = M3 ?y11 ?y12 ?y13 ?y21 ?y22 ?y23 ?y31 ?y32 ?y33 /\
       V3 ?w1 ?w2 ?w3 = V3 ?z1 ?z2 ?z3 =>
       assert (H1 : x11 = y11 /\ x12 = y12 /\ x13 = y13 /\ w1 = z1);
       [| assert (H2 : x21 = y21 /\ x22 = y22 /\ x23 = y23 /\ w2 = z2);
       [| assert (H3 : x31 = y31 /\ x32 = y32 /\ x33 = y33 /\ w3 = z3)]] end.
    + apply (row_val_eq _ _ _ _ _ _ _ _ d Hd). intros p. destruct (H p) as (E & _ & _).
      rewrite row_left, row_right in E by auto. exact E.
    + apply (row_val_eq _ _ _ _ _ _ _ _ d Hd). intros p. destruct (H p) as (_ & E & _).
      rewrite row_left, row_right in E by auto. exact E.
    + apply (row_val_eq _ _ _ _ _ _ _ _ d Hd). intros p. destruct (H p) as (_ & _ & E).
      rewrite row_left, row_right in E by auto. exact E.
    + destruct H1 as (? & ? & ? & ?), H2 as (? & ? & ? & ?), H3 as (? & ? & ? & ?). split; f_equal; assumption.
  - intros [H1 H2] p.
    pose proof (f_equal m11 H1) as A11. pose proof (f_equal m12 H1) as A12. pose proof (f_equal m13 H1) as A13.
    pose proof (f_equal m21 H1) as A21. pose proof (f_equal m22 H1) as A22. pose proof (f_equal m23 H1) as A23.
    pose proof (f_equal m31 H1) as A31. pose proof (f_equal m32 H1) as A32. pose proof (f_equal m33 H1) as A33.
    pose proof (f_equal vx H2) as B1. pose proof (f_equal vy H2) as B2. pose proof (f_equal vz H2) as B3.
    cbn [m11 m12 m13 m21 m22 m23 m31 m32 m33 vx vy vz] in *.
    rewrite !row_left, !row_right by auto.
    rewrite A11, A12, A13, A21, A22, A23, A31, A32, A33, B1, B2, B3. repeat split; reflexivity.
Qed.

(** ** Changes of coordinates: identity, composition, inverse *)
Definition ch_id : change := Ch I3 v0 1.
Definition ch_comp (g f : change) : change :=
  Ch (mmul (ch_M g) (ch_M f)) (vadd (mvmul (ch_M g) (ch_q f)) (vscale (ch_d f) (ch_q g))) (ch_d g * ch_d f).
Definition ch_inv (f : change) : change :=
  let s := Z.sgn (mdet (ch_M f)) in
  Ch (mscale (s * ch_d f) (madj (ch_M f))) (vscale (- s) (mvmul (madj (ch_M f)) (ch_q f)))
     (Z.abs (mdet (ch_M f))).
Lemma vscale_inj k a b : k <> 0 -> vscale k a = vscale k b -> a = b.
Proof.
  intros Hk H. destruct a as [a1 a2 a3], b as [b1 b2 b3]. unfold vscale in H; cbn [vx vy vz] in H.
  pose proof (f_equal vx H) as X. pose proof (f_equal vy H) as Y. pose proof (f_equal vz H) as Z.
  cbn [vx vy vz] in *. f_equal; eapply Z.mul_reg_l; eauto.
Qed.
Lemma mscale_inj k a b : k <> 0 -> mscale k a = mscale k b -> a = b.
Proof.
  intros Hk H. apply mat3_ext; eapply Z.mul_reg_l; eauto;
  [ exact (f_equal m11 H) | exact (f_equal m12 H) | exact (f_equal m13 H)
  | exact (f_equal m21 H) | exact (f_equal m22 H) | exact (f_equal m23 H)
  | exact (f_equal m31 H) | exact (f_equal m32 H) | exact (f_equal m33 H)].
Qed.
Lemma mvmul_mscale k a v : mvmul (mscale k a) v = vscale k (mvmul a v). Proof. mat_ring. Qed.
Lemma vscale_vscale j k v : vscale j (vscale k v) = vscale (j * k) v. Proof. mat_ring. Qed.
Lemma vscale_vadd k a b : vscale k (vadd a b) = vadd (vscale k a) (vscale k b). Proof. mat_ring. Qed.
Lemma vscale_1 v : vscale 1 v = v. Proof. mat_ring. Qed.
Lemma madj_mvmul_l a v : mvmul (madj a) (mvmul a v) = vscale (mdet a) v.
Proof. unfold madj. mat_ring. Qed.
Lemma madj_mvmul_r a v : mvmul a (mvmul (madj a) v) = vscale (mdet a) v.
Proof. unfold madj. mat_ring. Qed.
Lemma mvmul_inj a u v : mdet a <> 0 -> mvmul a u = mvmul a v -> u = v.
Proof.
  intros H E. apply (vscale_inj (mdet a)); auto. rewrite <- !madj_mvmul_l. congruence.
Qed.
Lemma mmul_inj_l a b c : mdet a <> 0 -> mmul a b = mmul a c -> b = c.
Proof.
  intros H E. apply (mscale_inj (mdet a)); auto.
  rewrite <- (mmul_I_l b), <- (mmul_I_l c), <- !mmul_mscale_l, <- !madj_l, <- !mmul_assoc. congruence.
Qed.
Lemma mmul_inj_r a b c : mdet a <> 0 -> mmul b a = mmul c a -> b = c.
Proof.
  intros H E. apply (mscale_inj (mdet a)); auto.
  rewrite <- (mmul_I_r b), <- (mmul_I_r c), <- !mmul_mscale_r, <- !madj_r, !mmul_assoc. congruence.
Qed.
Lemma carries_int_comp f g o o' o'' :
  carries_int f o o' -> carries_int g o' o'' -> carries_int (ch_comp g f) o o''.
Proof.
  intros [A1 A2] [B1 B2]. split; cbn [ch_comp ch_M ch_q ch_d].
  - rewrite <- mmul_assoc, A1, mmul_assoc, B1, <- mmul_assoc. reflexivity.
  - rewrite mvmul_mmul. set (w := mvmul (ch_M g) (mvmul (ch_M f) (snd o))).
    assert (E1 : vadd w (mvmul (ch_M g) (ch_q f)) =
      vadd (mvmul (fst o'') (mvmul (ch_M g) (ch_q f))) (vscale (ch_d f) (mvmul (ch_M g) (snd o')))).
    { unfold w. rewrite <- mvmul_vadd, A2, mvmul_vadd, <- mvmul_mmul, B1, mvmul_mmul, mvmul_vscale. reflexivity. }
    rewrite vadd_assoc, E1.
    assert (E2 := f_equal (vscale (ch_d f)) B2). rewrite !vscale_vadd, vscale_vscale in E2.
    rewrite <- vadd_assoc, E2, mvmul_vadd, mvmul_vscale, vadd_assoc, (Z.mul_comm (ch_d g)). reflexivity.
Qed.
Lemma sgn_abs d : Z.sgn d * d = Z.abs d. Proof. destruct d; reflexivity. Qed.
Lemma carries_int_inv f o o' : invertible f -> carries_int f o o' -> carries_int (ch_inv f) o' o.
Proof.
  intros [Hd Hm] [A1 A2]. unfold carries_int, ch_inv; cbn [ch_M ch_q ch_d].
  set (M := ch_M f) in *. set (q := ch_q f) in *. set (d := ch_d f) in *. set (s := Z.sgn (mdet M)).
  assert (E : mmul (madj M) (fst o') = mmul (fst o) (madj M)).
  { apply (mmul_inj_l M); auto. rewrite !mmul_assoc, A1, madj_r, <- (mmul_assoc (fst o')), madj_r. mat_ring. }
  split.
  - rewrite mmul_mscale_l, mmul_mscale_r, E. reflexivity.
  - assert (E2 := f_equal (fun v => vscale s (mvmul (madj M) v)) A2). cbv beta in E2.
    rewrite !mvmul_vadd, <- !mvmul_mmul, E, madj_l, !mvmul_mmul, mvmul_mscale, mvmul_I, mvmul_vscale in E2.
    rewrite !vscale_vadd, !vscale_vscale in E2.
    replace (s * mdet M) with (Z.abs (mdet M)) in E2 by (unfold s; rewrite sgn_abs; reflexivity).
    rewrite mvmul_mscale, mvmul_vscale.
    set (x := vscale (s * d) (mvmul (madj M) (snd o'))) in *.
    set (y := vscale (Z.abs (mdet M)) (snd o)) in *. set (z := mvmul (madj M) q) in *.
    set (z' := mvmul (fst o) z) in *. clearbody x y z z'. clear - E2.
    pose proof (f_equal vx E2). pose proof (f_equal vy E2). pose proof (f_equal vz E2).
    apply vec3_ext; cbn [vadd vscale vx vy vz] in *; lia.
Qed.
Lemma mdet_mscale k a : mdet (mscale k a) = k * k * k * mdet a. Proof. mat_ring. Qed.
Lemma mdet_madj a : mdet (madj a) = mdet a * mdet a. Proof. unfold madj. mat_ring. Qed.
Lemma invertible_inv f : invertible f -> invertible (ch_inv f).
Proof.
  intros [Hd Hm]. split; cbn [ch_inv ch_M ch_d]; [lia |].
  rewrite mdet_mscale, mdet_madj. set (m := mdet (ch_M f)) in *.
  assert (Z.sgn m <> 0) by lia. repeat (apply Z.neq_mul_0; split); auto; lia.
Qed.
Lemma invertible_comp g f : invertible g -> invertible f -> invertible (ch_comp g f).
Proof.
  intros [Hd Hm] [Hd' Hm']. split; cbn [ch_comp ch_M ch_d]; [lia |].
  rewrite mdet_mmul. apply Z.neq_mul_0. auto.
Qed.
Lemma keeps_inv f : invertible f -> keeps_handedness f -> keeps_handedness (ch_inv f).
Proof.
  unfold keeps_handedness. intros [Hd _] Hm. cbn [ch_inv ch_M ch_d].
  rewrite mdet_mscale, mdet_madj. rewrite Z.sgn_pos, Z.mul_1_l by auto.
  repeat apply Z.mul_pos_pos; auto.
Qed.
Lemma keeps_comp g f : keeps_handedness g -> keeps_handedness f -> keeps_handedness (ch_comp g f).
Proof. unfold keeps_handedness. cbn [ch_comp ch_M]. rewrite mdet_mmul. apply Z.mul_pos_pos. Qed.

Lemma carries_comp f g o o' o'' : invertible f -> invertible g ->
  carries f o o' -> carries g o' o'' -> carries (ch_comp g f) o o''.
Proof.
  intros If Ig A B. assert (I := invertible_comp g f Ig If).
  rewrite carries_iff in * by (first [apply If | apply Ig | apply I]).
  eapply carries_int_comp; eauto.
Qed.
Lemma carries_inv f o o' : invertible f -> carries f o o' -> carries (ch_inv f) o' o.
Proof.
  intros If A. assert (I := invertible_inv f If). rewrite carries_iff in * by (first [apply If | apply I]).
  apply carries_int_inv; auto.
Qed.
Lemma turns_comp f g G G' G'' : invertible f -> invertible g ->
  turns_into f G G' -> turns_into g G' G'' -> turns_into (ch_comp g f) G G''.
Proof.
  intros If Ig [A1 A2] [B1 B2]. split.
  - intros o H. destruct (A1 o H) as (o' & H' & C). destruct (B1 o' H') as (o'' & H'' & C').
    exists o''. split; auto. eapply carries_comp; eauto.
  - intros o'' H. destruct (B2 o'' H) as (o' & H' & C). destruct (A2 o' H') as (o & H'' & C').
    exists o. split; auto. eapply carries_comp; eauto.
Qed.
Lemma turns_inv f G G' : invertible f -> turns_into f G G' -> turns_into (ch_inv f) G' G.
Proof.
  intros If [A1 A2]. split.
  - intros o H. destruct (A2 o H) as (o' & H' & C). exists o'. split; auto. apply carries_inv; auto.
  - intros o H. destruct (A1 o H) as (o' & H' & C). exists o'. split; auto. apply carries_inv; auto.
Qed.
Lemma same_type_refl G : same_type G G.
Proof.
  exists ch_id. split; [split; [reflexivity | discriminate] |]. split; [reflexivity |].
  assert (C : forall o, carries ch_id o o).
  { intros o. apply carries_iff; [reflexivity |]. destruct o as [R t]. split; cbn; [mat_ring |]. mat_ring. }
  split; eauto.
Qed.
Lemma same_type_sym G G' : same_type G G' -> same_type G' G.
Proof. intros (f & I & K & T). exists (ch_inv f). auto using invertible_inv, keeps_inv, turns_inv. Qed.
Lemma same_type_trans G G' G'' : same_type G G' -> same_type G' G'' -> same_type G G''.
Proof.
  intros (f & I & K & T) (g & J & L & U). exists (ch_comp g f).
  split; [apply invertible_comp; auto |]. split; [apply keeps_comp; auto |]. eapply turns_comp; eauto.
Qed.
Lemma mirror_type_sym G G' : same_type_or_mirror G G' -> same_type_or_mirror G' G.
Proof. intros (f & I & T). exists (ch_inv f). auto using invertible_inv, turns_inv. Qed.
Lemma mirror_type_trans G G' G'' :
  same_type_or_mirror G G' -> same_type_or_mirror G' G'' -> same_type_or_mirror G G''.
Proof.
  intros (f & I & T) (g & J & U). exists (ch_comp g f).
  split; [apply invertible_comp; auto |]. eapply turns_comp; eauto.
Qed.
Lemma same_mirror G G' : same_type G G' -> same_type_or_mirror G G'.
Proof. intros (f & I & _ & T). exists f. auto. Qed.
