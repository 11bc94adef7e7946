(** * PropMetric: property C63: the operations keep all distances, in exactly the right cells. *)
From Coq Require Import QArith Qring.
From Verif Require Import Base Notations Parser Seitz F64 Jones Rotations Tables Generate Positions Lookup
  Spec SpecHall SpecXyz SpecTables SpecCompat SpecOutcome SpecMetric Algebra PropSeitz PropSymbols GenFacts PropGenerate
  GroupCheck PropFullSets PropTables PropTableGroups PropJones PropTermination PropCanon PropOutcome.
Open Scope Q_scope.
Local Notation length := List.length.
Local Notation "# z" := (inject_Z z) (at level 1, format "# z").

(** ** Metrics and matrices *)
Definition meqQ (g h : metric) : Prop :=
  gaa g == gaa h /\ gbb g == gbb h /\ gcc g == gcc h /\ gbc g == gbc h /\ gac g == gac h /\ gab g == gab h.
Definition bil (g : metric) (a b c d e f : Q) : Q :=
  gaa g * a * d + gbb g * b * e + gcc g * c * f + gbc g * (b * f + c * e) + gac g * (a * f + c * d) + gab g * (a * e + b * d).
(** the metric seen through [R] *)
Definition pull (R : mat3) (g : metric) : metric :=
  let B a b c d e f := bil g #a #b #c #d #e #f in
  Metric (B (m11 R) (m21 R) (m31 R) (m11 R) (m21 R) (m31 R))
         (B (m12 R) (m22 R) (m32 R) (m12 R) (m22 R) (m32 R))
         (B (m13 R) (m23 R) (m33 R) (m13 R) (m23 R) (m33 R))
         (B (m12 R) (m22 R) (m32 R) (m13 R) (m23 R) (m33 R))
         (B (m11 R) (m21 R) (m31 R) (m13 R) (m23 R) (m33 R))
         (B (m11 R) (m21 R) (m31 R) (m12 R) (m22 R) (m32 R)).
Lemma act_distance g m p q :
  distance2 g (act m p) (act m q) == length2 (pull (rot m) g) (QV (qx p - qx q) (qy p - qy q) (qz p - qz q)).
Proof.
  unfold distance2, length2, act, qdot, pull, bil, Qdiv. cbn [qx qy qz gaa gbb gcc gbc gac gab].
  generalize (#(vx (tra m)) * / 12) as a, (#(vy (tra m)) * / 12) as b, (#(vz (tra m)) * / 12) as c. intros. ring.
Qed.
Lemma length2_compat g h d : meqQ g h -> length2 g d == length2 h d.
Proof. intros (A & B & C & D & E & F). unfold length2. rewrite A, B, C, D, E, F. reflexivity. Qed.
Lemma half a b : 2 * a == 2 * b -> a == b.
Proof. intros H. apply Qmult_inj_l with 2; [discriminate | exact H]. Qed.
Lemma isometry_iff g m : isometry g m <-> meqQ (pull (rot m) g) g.
Proof.
  split.
  - intros I.
    assert (L : forall x y z, length2 (pull (rot m) g) (QV x y z) == length2 g (QV x y z)).
    { intros x y z. specialize (I (QV x y z) (QV 0 0 0)). rewrite act_distance in I. unfold distance2, length2 in I. cbn [qx qy qz] in I.
      unfold length2. cbn [qx qy qz]. generalize (pull (rot m) g) I. clear. intros h I.
      transitivity (gaa h * (x - 0) * (x - 0) + gbb h * (y - 0) * (y - 0) + gcc h * (z - 0) * (z - 0) +
        2 * gbc h * (y - 0) * (z - 0) + 2 * gac h * (x - 0) * (z - 0) + 2 * gab h * (x - 0) * (y - 0)); [ring |].
      rewrite I. ring. }
    generalize (pull (rot m) g) L. clear. intros h L.
    assert (A : gaa h == gaa g).
    { transitivity (length2 h (QV 1 0 0)); [unfold length2; cbn [qx qy qz]; ring |]. rewrite L. unfold length2; cbn [qx qy qz]; ring. }
    assert (B : gbb h == gbb g).
    { transitivity (length2 h (QV 0 1 0)); [unfold length2; cbn [qx qy qz]; ring |]. rewrite L. unfold length2; cbn [qx qy qz]; ring. }
    assert (C : gcc h == gcc g).
    { transitivity (length2 h (QV 0 0 1)); [unfold length2; cbn [qx qy qz]; ring |]. rewrite L. unfold length2; cbn [qx qy qz]; ring. }
    split; [exact A |]. split; [exact B |]. split; [exact C |]. split; [| split]; apply half.
    + transitivity (length2 h (QV 0 1 1) - gbb h - gcc h); [unfold length2; cbn [qx qy qz]; ring |]. rewrite L, B, C. unfold length2; cbn [qx qy qz]; ring.
    + transitivity (length2 h (QV 1 0 1) - gaa h - gcc h); [unfold length2; cbn [qx qy qz]; ring |]. rewrite L, A, C. unfold length2; cbn [qx qy qz]; ring.
    + transitivity (length2 h (QV 1 1 0) - gaa h - gbb h); [unfold length2; cbn [qx qy qz]; ring |]. rewrite L, A, B. unfold length2; cbn [qx qy qz]; ring.
  - intros E p q. rewrite act_distance. exact (length2_compat _ _ _ E).
Qed.

(** ** Integer metrics *)
Record z6 := Z6 { z1 : Z; z2 : Z; z3 : Z; z4 : Z; z5 : Z; z7 : Z }.
Definition toQ (c : z6) : metric := Metric #(z1 c) #(z2 c) #(z3 c) #(z4 c) #(z5 c) #(z7 c).
Definition z6_eqb (a b : z6) : bool :=
  ((z1 a =? z1 b) && (z2 a =? z2 b) && (z3 a =? z3 b) && (z4 a =? z4 b) && (z5 a =? z5 b) && (z7 a =? z7 b))%Z.
Lemma z6_eqb_eq a b : z6_eqb a b = true -> a = b.
Proof.
  destruct a, b. unfold z6_eqb. cbn [z1 z2 z3 z4 z5 z7]. rewrite !andb_true_iff, !Z.eqb_eq.
  intros (((((-> & ->) & ->) & ->) & ->) & ->). reflexivity.
Qed.
Definition zbil (g : z6) (a b c d e f : Z) : Z :=
  (z1 g * a * d + z2 g * b * e + z3 g * c * f + z4 g * (b * f + c * e) + z5 g * (a * f + c * d) + z7 g * (a * e + b * d))%Z.
Definition zpull (R : mat3) (g : z6) : z6 :=
  let B := zbil g in
  Z6 (B (m11 R) (m21 R) (m31 R) (m11 R) (m21 R) (m31 R))
     (B (m12 R) (m22 R) (m32 R) (m12 R) (m22 R) (m32 R))
     (B (m13 R) (m23 R) (m33 R) (m13 R) (m23 R) (m33 R))
     (B (m12 R) (m22 R) (m32 R) (m13 R) (m23 R) (m33 R))
     (B (m11 R) (m21 R) (m31 R) (m13 R) (m23 R) (m33 R))
     (B (m11 R) (m21 R) (m31 R) (m12 R) (m22 R) (m32 R)).
Lemma zbil_Q g a b c d e f : #(zbil g a b c d e f) == bil (toQ g) #a #b #c #d #e #f.
Proof. unfold zbil, bil, toQ. cbn [gaa gbb gcc gbc gac gab]. rewrite ?inject_Z_plus, ?inject_Z_mult, ?inject_Z_plus, ?inject_Z_mult. reflexivity. Qed.
Lemma zpull_Q R g : meqQ (toQ (zpull R g)) (pull R (toQ g)).
Proof. unfold meqQ, zpull, pull, toQ at 1. cbn [gaa gbb gcc gbc gac gab z1 z2 z3 z4 z5 z7]. split; [apply zbil_Q |]. split; [apply zbil_Q |]. split; [apply zbil_Q |]. split; [apply zbil_Q |]. split; apply zbil_Q. Qed.

(** linear combinations *)
Definition m0 : metric := Metric 0 0 0 0 0 0.
Definition maddQ (k : Q) (g h : metric) : metric :=
  Metric (k * gaa g + gaa h) (k * gbb g + gbb h) (k * gcc g + gcc h) (k * gbc g + gbc h) (k * gac g + gac h) (k * gab g + gab h).
Fixpoint comb (ks : list Q) (bs : list z6) : metric :=
  match ks, bs with k :: ks, b :: bs => maddQ k (toQ b) (comb ks bs) | _, _ => m0 end.
Lemma meqQ_refl g : meqQ g g. Proof. repeat split; reflexivity. Qed.
Lemma meqQ_sym g h : meqQ g h -> meqQ h g.
Proof. intros (A & B & C & D & E & F). repeat split; symmetry; assumption. Qed.
Lemma meqQ_trans g h k : meqQ g h -> meqQ h k -> meqQ g k.
Proof.
  intros (A & B & C & D & E & F) (A' & B' & C' & D' & E' & F').
  repeat split; [rewrite A | rewrite B | rewrite C | rewrite D | rewrite E | rewrite F]; assumption.
Qed.
Lemma pull_compat R g h : meqQ g h -> meqQ (pull R g) (pull R h).
Proof.
  intros (A & B & C & D & E & F). unfold meqQ, pull, bil. cbn [gaa gbb gcc gbc gac gab].
  rewrite A, B, C, D, E, F. repeat split; reflexivity.
Qed.
Lemma pull_maddQ R k g h : meqQ (pull R (maddQ k g h)) (maddQ k (pull R g) (pull R h)).
Proof. unfold meqQ, pull, maddQ, bil. cbn [gaa gbb gcc gbc gac gab]. repeat split; ring. Qed.
Lemma maddQ_compat k g g' h h' : meqQ g g' -> meqQ h h' -> meqQ (maddQ k g h) (maddQ k g' h').
Proof.
  intros (A & B & C & D & E & F) (A' & B' & C' & D' & E' & F'). unfold meqQ, maddQ. cbn [gaa gbb gcc gbc gac gab].
  rewrite A, B, C, D, E, F, A', B', C', D', E', F'. repeat split; reflexivity.
Qed.
Lemma pull_m0 R : meqQ (pull R m0) m0.
Proof. unfold meqQ, pull, m0, bil. cbn [gaa gbb gcc gbc gac gab]. repeat split; ring. Qed.
Lemma pull_comb R ks bs : (forall b, In b bs -> zpull R b = b) -> meqQ (pull R (comb ks bs)) (comb ks bs).
Proof.
  revert ks. induction bs as [| b bs IH]; intros [| k ks] H; [apply pull_m0 | apply pull_m0 | apply pull_m0 | cbn [comb]].
  eapply meqQ_trans; [apply pull_maddQ |]. apply maddQ_compat; [| apply IH; intros; apply H; simpl; auto].
  eapply meqQ_trans; [apply meqQ_sym, zpull_Q |]. rewrite (H b) by (simpl; auto). apply meqQ_refl.
Qed.

(** linear equations *)
Definition lin (c : z6) (g : metric) : Q :=
  #(z1 c) * gaa g + #(z2 c) * gbb g + #(z3 c) * gcc g + #(z4 c) * gbc g + #(z5 c) * gac g + #(z7 c) * gab g.
(** [lin c (pull R g) = lin (dual R c) g] *)
Definition dual (R : mat3) (c : z6) : z6 :=
  let e g := zpull R g in
  let p g := let h := e g in (z1 c * z1 h + z2 c * z2 h + z3 c * z3 h + z4 c * z4 h + z5 c * z5 h + z7 c * z7 h)%Z in
  Z6 (p (Z6 1 0 0 0 0 0)) (p (Z6 0 1 0 0 0 0)) (p (Z6 0 0 1 0 0 0)) (p (Z6 0 0 0 1 0 0)) (p (Z6 0 0 0 0 1 0)) (p (Z6 0 0 0 0 0 1)).
Lemma lin_dual R c g : lin c (pull R g) == lin (dual R c) g.
Proof.
  unfold lin, dual, pull, zpull, zbil, bil. cbn [gaa gbb gcc gbc gac gab z1 z2 z3 z4 z5 z7].
  repeat rewrite ?inject_Z_plus, ?inject_Z_mult. change (#0) with 0. change (#1) with 1. ring.
Qed.
Definition z6_add (a b : z6) : z6 :=
  Z6 (z1 a + z1 b) (z2 a + z2 b) (z3 a + z3 b) (z4 a + z4 b) (z5 a + z5 b) (z7 a + z7 b).
Definition z60 : z6 := Z6 0 0 0 0 0 0.
Lemma lin_add a b g : lin (z6_add a b) g == lin a g + lin b g.
Proof. unfold lin, z6_add. cbn [z1 z2 z3 z4 z5 z7]. rewrite !inject_Z_plus. ring. Qed.
Lemma lin_compat c g h : meqQ g h -> lin c g == lin c h.
Proof. intros (A & B & C & D & E & F). unfold lin. rewrite A, B, C, D, E, F. reflexivity. Qed.
Definition dual_sum (l : list mat3) (c : z6) : z6 := fold_right (fun R s => z6_add (dual R c) s) z60 l.
Lemma dual_sum_lin l c g : (forall R, In R l -> meqQ (pull R g) g) -> lin (dual_sum l c) g == #(Z.of_nat (length l)) * lin c g.
Proof.
  induction l as [| R l IH]; intros H.
  - unfold lin, dual_sum, z60. cbn [fold_right z1 z2 z3 z4 z5 z7 List.length Z.of_nat]. change (#0) with 0. ring.
  - cbn [dual_sum fold_right]. rewrite lin_add. change (fold_right (fun R s => z6_add (dual R c) s) z60 l) with (dual_sum l c).
    rewrite IH by (intros; apply H; simpl; auto). rewrite <- lin_dual, (lin_compat c _ _ (H R (or_introl eq_refl))).
    cbn [List.length]. rewrite Nat2Z.inj_succ, <- Z.add_1_r, inject_Z_plus. change (#1) with 1. ring.
Qed.
Lemma averaged l c g : (0 < length l)%nat -> dual_sum l c = z60 -> (forall R, In R l -> meqQ (pull R g) g) -> lin c g == 0.
Proof.
  intros L S H. pose proof (dual_sum_lin l c g H) as E. rewrite S in E.
  assert (Z0 : lin z60 g == 0) by (unfold lin, z60; cbn [z1 z2 z3 z4 z5 z7]; change (#0) with 0; ring).
  rewrite Z0 in E. apply Qmult_inj_l with (#(Z.of_nat (length l))).
  - intros C. change (#(Z.of_nat (length l)) == #0) in C. unfold Qeq in C. cbn in C. lia.
  - rewrite <- E. ring.
Qed.

(** ** Families of cells *)
Inductive family := FTri | FMonoA | FMonoB | FMonoC | FOrtho | FTetra | FHex | FRhomb | FCubic.
Definition cell (f : family) (g : metric) : Prop :=
  match f with
  | FTri => True
  | FMonoA => right_ac g /\ right_ab g
  | FMonoB => right_bc g /\ right_ab g
  | FMonoC => right_bc g /\ right_ac g
  | FOrtho => right_bc g /\ right_ac g /\ right_ab g
  | FTetra => right_bc g /\ right_ac g /\ right_ab g /\ gaa g == gbb g
  | FHex => hexagonal_cell g
  | FRhomb => rhombohedral_cell g
  | FCubic => cubic_cell g
  end.
Definition eaa := Z6 1 0 0 0 0 0. Definition ebb := Z6 0 1 0 0 0 0. Definition ecc := Z6 0 0 1 0 0 0.
Definition ebc := Z6 0 0 0 1 0 0. Definition eac := Z6 0 0 0 0 1 0. Definition eab := Z6 0 0 0 0 0 1.
Definition eqs (f : family) : list z6 :=
  match f with
  | FTri => []
  | FMonoA => [eac; eab]
  | FMonoB => [ebc; eab]
  | FMonoC => [ebc; eac]
  | FOrtho => [ebc; eac; eab]
  | FTetra => [ebc; eac; eab; Z6 1 (-1) 0 0 0 0]
  | FHex => [ebc; eac; Z6 1 (-1) 0 0 0 0; Z6 1 0 0 0 0 2]
  | FRhomb => [Z6 1 (-1) 0 0 0 0; Z6 0 1 (-1) 0 0 0; Z6 0 0 0 1 (-1) 0; Z6 0 0 0 0 1 (-1)]
  | FCubic => [ebc; eac; eab; Z6 1 (-1) 0 0 0 0; Z6 0 1 (-1) 0 0 0]
  end.
Definition basis (f : family) : list z6 :=
  match f with
  | FTri => [eaa; ebb; ecc; ebc; eac; eab]
  | FMonoA => [eaa; ebb; ecc; ebc]
  | FMonoB => [eaa; ebb; ecc; eac]
  | FMonoC => [eaa; ebb; ecc; eab]
  | FOrtho => [eaa; ebb; ecc]
  | FTetra => [Z6 1 1 0 0 0 0; ecc]
  | FHex => [Z6 2 2 0 0 0 (-1); ecc]
  | FRhomb => [Z6 1 1 1 0 0 0; Z6 0 0 0 1 1 1]
  | FCubic => [Z6 1 1 1 0 0 0]
  end.
Definition coefs (f : family) (g : metric) : list Q :=
  match f with
  | FTri => [gaa g; gbb g; gcc g; gbc g; gac g; gab g]
  | FMonoA => [gaa g; gbb g; gcc g; gbc g]
  | FMonoB => [gaa g; gbb g; gcc g; gac g]
  | FMonoC => [gaa g; gbb g; gcc g; gab g]
  | FOrtho => [gaa g; gbb g; gcc g]
  | FTetra => [gaa g; gcc g]
  | FHex => [- gab g; gcc g]
  | FRhomb => [gaa g; gab g]
  | FCubic => [gaa g]
  end.
Lemma q0 : #0 = 0. Proof. reflexivity. Qed.
Lemma q1 : #1 = 1. Proof. reflexivity. Qed.
Lemma q2 : #2 = 2. Proof. reflexivity. Qed.
Lemma qm1 : #(-1) = -(1). Proof. reflexivity. Qed.
Lemma sub0 a b : a - b == 0 -> a == b.
Proof. intros H. transitivity (a - b + b); [ring |]. rewrite H. ring. Qed.
Lemma cell_of_eqs f g : (forall c, In c (eqs f) -> lin c g == 0) -> cell f g.
Proof.
  intros H.
  assert (Bc : In ebc (eqs f) -> right_bc g).
  { intros I. specialize (H _ I). unfold right_bc. rewrite <- H. unfold lin, ebc. cbn [z1 z2 z3 z4 z5 z7]. rewrite ?q0, ?q1. ring. }
  assert (Ac : In eac (eqs f) -> right_ac g).
  { intros I. specialize (H _ I). unfold right_ac. rewrite <- H. unfold lin, eac. cbn [z1 z2 z3 z4 z5 z7]. rewrite ?q0, ?q1. ring. }
  assert (Ab : In eab (eqs f) -> right_ab g).
  { intros I. specialize (H _ I). unfold right_ab. rewrite <- H. unfold lin, eab. cbn [z1 z2 z3 z4 z5 z7]. rewrite ?q0, ?q1. ring. }
  assert (X : In (Z6 1 (-1) 0 0 0 0) (eqs f) -> gaa g == gbb g).
  { intros I. specialize (H _ I). apply sub0. rewrite <- H. unfold lin. cbn [z1 z2 z3 z4 z5 z7]. rewrite ?q0, ?q1, ?qm1. ring. }
  assert (Y : In (Z6 0 1 (-1) 0 0 0) (eqs f) -> gbb g == gcc g).
  { intros I. specialize (H _ I). apply sub0. rewrite <- H. unfold lin. cbn [z1 z2 z3 z4 z5 z7]. rewrite ?q0, ?q1, ?qm1. ring. }
  assert (U : In (Z6 0 0 0 1 (-1) 0) (eqs f) -> gbc g == gac g).
  { intros I. specialize (H _ I). apply sub0. rewrite <- H. unfold lin. cbn [z1 z2 z3 z4 z5 z7]. rewrite ?q0, ?q1, ?qm1. ring. }
  assert (W : In (Z6 0 0 0 0 1 (-1)) (eqs f) -> gac g == gab g).
  { intros I. specialize (H _ I). apply sub0. rewrite <- H. unfold lin. cbn [z1 z2 z3 z4 z5 z7]. rewrite ?q0, ?q1, ?qm1. ring. }
  assert (T : In (Z6 1 0 0 0 0 2) (eqs f) -> 2 * gab g == - gaa g).
  { intros I. specialize (H _ I). apply sub0. rewrite <- H. unfold lin. cbn [z1 z2 z3 z4 z5 z7]. rewrite ?q0, ?q1, ?q2. ring. }
  clear H. destruct f; cbn [cell eqs In] in *.
  - exact I.
  - split; [apply Ac | apply Ab]; tauto.
  - split; [apply Bc | apply Ab]; tauto.
  - split; [apply Bc | apply Ac]; tauto.
  - split; [apply Bc; tauto |]. split; [apply Ac | apply Ab]; tauto.
  - split; [apply Bc; tauto |]. split; [apply Ac; tauto |]. split; [apply Ab | apply X]; tauto.
  - split; [apply Bc; tauto |]. split; [apply Ac; tauto |]. split; [apply X | apply T]; tauto.
  - split; [apply X; tauto |]. split; [apply Y; tauto |]. split; [apply U | apply W]; tauto.
  - split; [apply Bc; tauto |]. split; [apply Ac; tauto |]. split; [apply Ab; tauto |]. split; [apply X | apply Y]; tauto.
Qed.
Fixpoint csum (p : z6 -> Z) (ks : list Q) (bs : list z6) : Q :=
  match ks, bs with k :: ks, b :: bs => k * #(p b) + csum p ks bs | _, _ => 0 end.
Lemma comb_csum ks bs : meqQ (comb ks bs) (Metric (csum z1 ks bs) (csum z2 ks bs) (csum z3 ks bs) (csum z4 ks bs) (csum z5 ks bs) (csum z7 ks bs)).
Proof.
  revert bs. induction ks as [| k ks IH]; intros [| b bs]; [apply meqQ_refl | apply meqQ_refl | apply meqQ_refl |].
  cbn [comb csum]. destruct (IH bs) as (A & B & C & D & E & F). cbn [gaa gbb gcc gbc gac gab] in A, B, C, D, E, F.
  unfold meqQ, maddQ, toQ. cbn [gaa gbb gcc gbc gac gab]. rewrite A, B, C, D, E, F. repeat split; reflexivity.
Qed.
Lemma coords_comb f g : cell f g -> meqQ g (comb (coefs f g) (basis f)).
Proof.
  intros H. eapply meqQ_trans; [| apply meqQ_sym, comb_csum]. revert H.
  unfold meqQ, cell, hexagonal_cell, rhombohedral_cell, cubic_cell, right_bc, right_ac, right_ab.
  destruct f; cbn [coefs basis csum gaa gbb gcc gbc gac gab]; unfold eaa, ebb, ecc, ebc, eac, eab;
    cbn [z1 z2 z3 z4 z5 z7]; rewrite ?q0, ?q1, ?q2, ?qm1.
  - intros _. repeat split; ring.
  - intros (A & B). rewrite A, B. repeat split; ring.
  - intros (A & B). rewrite A, B. repeat split; ring.
  - intros (A & B). rewrite A, B. repeat split; ring.
  - intros (A & B & C). rewrite A, B, C. repeat split; ring.
  - intros (A & B & C & D). rewrite A, B, C, <- D. repeat split; ring.
  - intros (A & B & D & T). assert (E : gaa g == - gab g * 2) by (rewrite <- (Qopp_involutive (gaa g)), <- T; ring).
    rewrite A, B, <- D, E. repeat split; ring.
  - intros (A & B & D & E). rewrite <- B, <- A, D, E. repeat split; ring.
  - intros (A & B & C & D & E). rewrite A, B, C, <- E, <- D. repeat split; ring.
Qed.
Definition keeps (f : family) (R : mat3) : bool := forallb (fun b => z6_eqb (zpull R b) b) (basis f).
Lemma keeps_isometry f m g : keeps f (rot m) = true -> cell f g -> isometry g m.
Proof.
  intros K C. apply isometry_iff. pose proof (coords_comb f g C) as E.
  eapply meqQ_trans; [apply pull_compat, E |]. eapply meqQ_trans; [| apply meqQ_sym, E].
  apply pull_comb. intros b Hb. unfold keeps in K. rewrite forallb_forall in K. apply z6_eqb_eq, K, Hb.
Qed.
(** ** One table row *)
Definition family_of (label : string) : family :=
  match system_of_number (leading_number label) with
  | Triclinic => FTri
  | Monoclinic => if has_letter "b" label then FMonoB else if has_letter "c" label then FMonoC else FMonoA
  | Orthorhombic => FOrtho
  | Tetragonal => FTetra
  | Trigonal => if has_letter "R" label then FRhomb else FHex
  | Hexagonal => FHex
  | Cubic => FCubic
  end.
Lemma cell_of_family label g : cell (family_of label) g <-> cell_of_setting label g.
Proof.
  unfold family_of, cell_of_setting. destruct (system_of_number (leading_number label)); cbn [cell]; try reflexivity.
  - destruct (has_letter "b" label); [reflexivity |]. destruct (has_letter "c" label); reflexivity.
  - destruct (has_letter "R" label); reflexivity.
Qed.
Definition cells_check (f : family) (l : list mat3) : bool :=
  Nat.ltb 0 (length l) && forallb (keeps f) l && forallb (fun c => z6_eqb (dual_sum l c) z60) (eqs f).
Definition row_cells (label s : string) : bool :=
  match row_group s with Some (_, core) => cells_check (family_of label) (map rot core) | None => false end.
Lemma cells_check_sound f core g : cells_check f (map rot core) = true ->
  ((forall m, In m core -> isometry g m) <-> cell f g).
Proof.
  unfold cells_check. rewrite !andb_true_iff, !forallb_forall. intros ((L & K) & D). apply Nat.ltb_lt in L. split.
  - intros H. apply cell_of_eqs. intros c Hc. apply (averaged (map rot core)); [exact L | apply z6_eqb_eq, D, Hc |].
    intros R HR. apply in_map_iff in HR. destruct HR as (m & <- & Hm). apply isometry_iff, H, Hm.
  - intros C m Hm. apply (keeps_isometry f); [apply K, in_map, Hm | exact C].
Qed.
(** the rotations of the full sets are those of the core positions *)
Lemma isometry_rot g m m' : rot m = rot m' -> isometry g m -> isometry g m'.
Proof. intros E H. apply isometry_iff. apply isometry_iff in H. now rewrite <- E. Qed.
Lemma listed_core g m : listed g m -> exists c, In c (gp_core g) /\ rot m = rot c.
Proof.
  intros (set & Hs & Hm). unfold derive_full_sets in Hs. apply in_map_iff in Hs. destruct Hs as (v & <- & _).
  apply in_map_iff in Hm. destruct Hm as (c & <- & Hc). exists c. split; [exact Hc | reflexivity].
Qed.
Lemma core_listed fuel h g c : general_positions fuel h = Done g -> In c (gp_core g) -> exists m, listed g m /\ rot m = rot c.
Proof.
  intros H Hc. destruct (general_positions_spec _ _ _ H) as (E & _).
  assert (N : exists v, In v (gp_lattice g)).
  { rewrite E. destruct (ls_char (h_lat h)); eexists; left; reflexivity. }
  destruct N as (v & Hv). exists (sz_addv c v). split; [| reflexivity].
  eexists. split; [unfold derive_full_sets; apply in_map, Hv |]. apply in_map_iff. eauto.
Qed.
Lemma listed_isometries fuel h g G : general_positions fuel h = Done g ->
  ((forall m, listed g m -> isometry G m) <-> (forall m, In m (gp_core g) -> isometry G m)).
Proof.
  intros H. split.
  - intros K c Hc. destruct (core_listed _ _ _ _ H Hc) as (m & L & E). exact (isometry_rot _ _ _ E (K m L)).
  - intros K m L. destruct (listed_core _ _ L) as (c & Hc & E). exact (isometry_rot _ _ _ (eq_sym E) (K c Hc)).
Qed.
Definition rows_cells (labels halls : list string) : bool :=
  forallb (fun p => row_cells (fst p) (snd p)) (combine labels halls).
Lemma rows_cells_sound labels halls : rows_cells labels halls = true ->
  forall i label s, nth_error labels i = Some label -> nth_error halls i = Some s -> row_cells label s = true.
Proof.
  intros H i label s Hl Hs. unfold rows_cells in H. rewrite forallb_forall in H.
  apply (H (label, s)). eapply nth_error_combine; eauto.
Qed.
Definition data_cells (label : string) (p : hall * list seitz) : bool := cells_check (family_of label) (map rot (snd p)).
Lemma data_cells_sound labels halls groups : map row_group halls = map Some groups ->
  forallb (fun p => data_cells (fst p) (snd p)) (combine labels groups) = true -> rows_cells labels halls = true.
Proof.
  intros E H. pose proof (rows_by_data data_cells halls groups E labels H) as K. unfold rows_cells. rewrite forallb_forall in K |- *.
  intros [l s] Hp. specialize (K _ Hp). unfold row_cells. cbn [fst snd] in K |- *. destruct (row_group s) as [[h core] |]; [exact K | discriminate].
Qed.
Lemma full_data_cells : forallb (fun p => data_cells (fst p) (snd p)) (combine full_number full_groups) = true.
Proof. vm_cast_no_check (@eq_refl bool true). Qed.
Lemma default_data_cells : forallb (fun p => data_cells (fst p) (snd p)) (combine default_number default_groups) = true.
Proof. vm_cast_no_check (@eq_refl bool true). Qed.
Lemma full_cells_ok : rows_cells full_number full_hall = true.
Proof. exact (data_cells_sound _ _ _ full_groups_ok full_data_cells). Qed.
Lemma default_cells_ok : rows_cells default_number default_hall = true.
Proof. exact (data_cells_sound _ _ _ default_groups_ok default_data_cells). Qed.

(** ** C63 *)
(** the cells on which a tabulated group acts by isometries are exactly those of its setting *)
Theorem C63_tabulated_cells :
  forall t i label s, t = full_table \/ t = default_table ->
    get_space_group_number t i = Some label -> get_hall_symbol t i = Some s ->
    exists h g, try_from_str s = Done (Some h) /\
      (forall fuel, (10 <= fuel)%nat -> general_positions fuel h = Done g) /\
      forall G, (forall m, listed g m -> isometry G m) <-> cell_of_setting label G.
Proof.
  intros t i label s Ht Hl Hs.
  assert (K : row_cells label s = true).
  { destruct Ht as [-> | ->]; [exact (rows_cells_sound _ _ full_cells_ok i label s Hl Hs) | exact (rows_cells_sound _ _ default_cells_ok i label s Hl Hs)]. }
  unfold row_cells in K. destruct (row_group s) as [[h core] |] eqn:R; [| discriminate].
  destruct (row_group_spec _ _ _ R) as (g & E & H & Ec). subst core. exists h, g. split; [exact E |]. split.
  { intros fuel L. rewrite (C29_fuel_irrelevant 10 fuel h); auto. congruence. }
  intros G. rewrite (listed_isometries _ _ _ G H), (cells_check_sound _ _ G K). apply cell_of_family.
Qed.
(** the same for every notation for which positions are returned: its first symbol fixes cells
    on which every listed operation is an isometry *)
Definition table_family (ms : msym) : family :=
  match ms_fold ms, ms_diag ms with
  | F6, _ => FHex | F3, Asterisk => FRhomb | F3, _ => FHex | _, _ => FCubic end.
Definition unit_keeps (R : mat3) : bool :=
  implb (hexb R) (keeps FHex R) && implb (rhob R) (keeps FRhomb R) && implb (cubicb R) (keeps FCubic R).
Lemma unit_keeps_ok : forallb unit_keeps (cubic48 ++ hexagonal24) = true.
Proof. vm_cast_no_check (@eq_refl bool true). Qed.
Lemma class_keeps ms R : table_class ms R -> keeps (table_family ms) R = true.
Proof.
  intros C.
  assert (U : In R (cubic48 ++ hexagonal24)).
  { apply in_or_app. unfold table_class in C. destruct (ms_fold ms), (ms_diag ms);
      first [left; exact (cubic48_in R C) | right; exact (hexagonal24_in R C) | left; exact (cubic48_in R (rhombohedral_cubic R C))]. }
  pose proof (proj1 (forallb_forall unit_keeps (cubic48 ++ hexagonal24)) unit_keeps_ok R U) as K.
  unfold unit_keeps in K. rewrite !andb_true_iff in K. destruct K as ((K1 & K2) & K3).
  pose proof (hexb_spec R) as S1. pose proof (rhob_spec R) as S2. pose proof (cubicb_spec R) as S3.
  unfold table_class in C. unfold table_family.
  destruct (ms_fold ms), (ms_diag ms);
    first [ apply S3 in C; rewrite C in K3; exact K3 | apply S1 in C; rewrite C in K1; exact K1
          | apply S2 in C; rewrite C in K2; exact K2 ].
Qed.
Theorem C63_every_operation_is_an_isometry :
  forall fuel h g G m, general_positions fuel h = Done g -> cell_of_symbols (h_syms h) G ->
    listed g m -> isometry G m.
Proof.
  intros fuel h g G m H C L. destruct (listed_core _ _ L) as (c & Hc & E).
  destruct (proj1 (proj1 (C62_outcome h))) as (V & B & F); [exists fuel, g; exact H |].
  destruct (h_syms h) as [| first rest] eqn:Es; [destruct C |].
  assert (T : table_class first (rot c)).
  { apply (class_group first h) with (o := op_of c); [| exact (proj2 (C25_positions_sound _ _ _ H c Hc))].
    intros ms P I EP. rewrite Es in I. unfold all_symbols_valid in V. rewrite Es in V.
    exact (proj1 (family_iff first rest V) F ms P I EP). }
  rewrite <- E in T. apply class_keeps in T. apply (keeps_isometry _ _ _ T).
  unfold cell_of_symbols in C. unfold table_family. destruct (ms_fold first), (ms_diag first); exact C.
Qed.
(** a tetragonal group keeps distances in a tetragonal cell and not in an orthorhombic one *)
Example C63_case : exists h g, try_from_str "P 4" = Done (Some h) /\ general_positions 10 h = Done g /\
  (forall m, listed g m -> isometry (Metric 2 2 5 0 0 0) m) /\ ~ (forall m, listed g m -> isometry (Metric 2 3 5 0 0 0) m).
Proof.
  destruct (C63_tabulated_cells full_table 348 "75" "P 4" (or_introl eq_refl) eq_refl eq_refl) as (h & g & E & H & K).
  exists h, g. split; [exact E |]. split; [apply H; lia |]. split.
  - apply K. vm_compute. auto.
  - intros C. apply K in C. destruct C as (_ & _ & _ & C). discriminate C.
Qed.
Example C63_case_any : exists h g, try_from_str "I 4a 2c (1 2 3)" = Done (Some h) /\ general_positions 10 h = Done g /\
  cell_of_symbols (h_syms h) (Metric 7 7 7 0 0 0) /\ exists m, listed g m /\ m <> sz_identity.
Proof.
  eexists. eexists. split; [vm_compute; reflexivity |]. split; [vm_compute; reflexivity |]. split; [vm_compute; auto 8 |].
  eexists. split; [eexists; split; [left; reflexivity | right; left; reflexivity] |]. vm_compute. discriminate.
Qed.
