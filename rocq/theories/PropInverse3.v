(** * PropInverse3: property C16, continued: hexagonal rotations, the tabulated groups, negative
    powers. *)
From Verif Require Import Base Notations Parser Seitz F64 Jones Rotations Tables Generate Positions Lookup
  Spec SpecHall SpecTables SpecRotation SpecXyz SpecInverse Algebra PropSeitz PropSymbols GenFacts PropGenerate GroupCheck
  PropFullSets PropShift PropTables PropTableGroups Restriction F64Facts F64Div PropRotation PropJones PropInverse PropInverse2 F64Err PropInverseErr.
Open Scope Z_scope.
Local Notation length := List.length.

(** ** Support: deciding [inverts] *)
Definition entries_eqb (a b : seitz) : bool :=
  meqb (rot a) (rot b) && veqb (tra a) (tra b) && veqb (bot a) (bot b) && (cor a =? cor b).
Lemma entries_eqb_eq a b : entries_eqb a b = true <-> a = b.
Proof.
  unfold entries_eqb. rewrite !andb_true_iff, meqb_eq, !veqb_eq, Z.eqb_eq.
  destruct a as [R t b0 c], b as [R' t' b0' c']; cbn [rot tra bot cor].
  split; [intros (((-> & ->) & ->) & ->); reflexivity | intros E; injection E as -> -> -> ->; auto].
Qed.
Definition invertsb (m i : seitz) : bool :=
  entries_eqb (mat4_mul m i) sz_identity && entries_eqb (mat4_mul i m) sz_identity.
Lemma invertsb_spec m i : invertsb m i = true -> inverts m i.
Proof. unfold invertsb. rewrite andb_true_iff, !entries_eqb_eq. auto. Qed.
Definition inverse_ok (m : seitz) : bool :=
  match try_inverse m with Some i => invertsb m i | None => false end.
Lemma inverse_ok_spec m : inverse_ok m = true -> exists i, try_inverse m = Some i /\ inverts m i.
Proof. unfold inverse_ok. destruct (try_inverse m) as [i |]; [| discriminate]. intros H. exists i. auto using invertsb_spec. Qed.

(** ** Negative powers *)
Lemma inverts_affine m i : is_affine m -> inverts m i -> is_affine i.
Proof.
  intros Hm (E & _). rewrite (affine_aff m Hm) in E.
  pose proof (f_equal bot E) as B. pose proof (f_equal cor E) as C. destruct i as [R t b c].
  assert (B' : b = v0). { change (bot sz_identity) with v0 in B. rewrite <- B. unfold mat4_mul, aff. cbn [rot tra bot cor]. destruct b. mat_ring. }
  assert (C' : c = 1). { change (cor sz_identity) with 1 in C. rewrite <- C. unfold mat4_mul, aff, vdot, v0. cbn [rot tra bot cor vx vy vz]. ring. }
  rewrite B', C'. split; reflexivity.
Qed.
Lemma inverts_ops m i : is_affine m -> is_affine i ->
  (inverts m i <-> op_comp (op_of m) (op_of i) = op_id /\ op_comp (op_of i) (op_of m) = op_id).
Proof.
  intros Hm Hi. unfold inverts. rewrite (affine_aff m Hm), (affine_aff i Hi), !mat4_mul_aff.
  unfold op_of, op_comp, op_id, sz_identity. change (V3 0 0 0) with v0. cbn [aff rot tra fst snd]. split.
  - intros (A & B). split; [pose proof (f_equal rot A); pose proof (f_equal tra A) | pose proof (f_equal rot B); pose proof (f_equal tra B)];
      cbn [aff rot tra] in *; congruence.
  - intros (A & B). split; [pose proof (f_equal fst A); pose proof (f_equal snd A) | pose proof (f_equal fst B); pose proof (f_equal snd B)];
      cbn [fst snd] in *; congruence.
Qed.
Lemma op_pow_inverse a b k : op_comp a b = op_id -> op_comp (op_pow a k) (op_pow b k) = op_id.
Proof.
  intros E. induction k as [| k IH]; cbn [op_pow]; [apply op_comp_id_l |].
  rewrite op_pow_comm.
  assert (A : forall x y z w, op_comp (op_comp x y) (op_comp z w) = op_comp x (op_comp (op_comp y z) w))
    by (intros; now rewrite !op_comp_assoc).
  rewrite A, E, op_comp_id_l. exact IH.
Qed.
(** a negative power undoes the positive one, exactly, whenever [try_inverse] is right *)
Theorem C16_negative_powers :
  forall m i k, is_affine m -> try_inverse m = Some i -> inverts m i ->
    exists p q, powi m (Z.of_nat k) = Done p /\ powi m (- Z.of_nat k) = Done q /\ inverts p q /\
      op_of q = op_pow (op_of i) k.
Proof.
  intros m i k Hm Ti I. pose proof (inverts_affine m i Hm I) as Hi.
  destruct (C15_powi_is_repeated_composition m k Hm) as (p & P1 & P2 & P3).
  destruct (C15_powi_is_repeated_composition i k Hi) as (q & Q1 & Q2 & Q3).
  exists p, q. split; [assumption |]. split; [| split; [| assumption]].
  - destruct k as [| k]; [exact Q1 |]. rewrite <- Q1. unfold powi.
    destruct (Z.compare_spec (- Z.of_nat (S k)) 0); try lia. destruct (Z.compare_spec (Z.of_nat (S k)) 0); try lia.
    rewrite Ti. replace (Z.abs (- Z.of_nat (S k))) with (Z.of_nat (S k)) by lia. reflexivity.
  - apply inverts_ops; auto. rewrite P3, Q3. apply inverts_ops in I; auto. destruct I as [I1 I2].
    split; now apply op_pow_inverse.
Qed.
Theorem C16_negative_power_panics_iff_no_inverse :
  forall m k, (0 < k)%nat -> ((exists why, powi m (- Z.of_nat k) = Panic why) <-> try_inverse m = None).
Proof.
  intros m k Hk. unfold powi. destruct (Z.compare_spec (- Z.of_nat k) 0); try lia.
  destruct (try_inverse m); split; try discriminate; eauto. intros (w & E). discriminate.
Qed.
Corollary C16_negative_powers_signed_permutations :
  forall R t k, signed_permutation R -> Z.abs (vx t) < 2 ^ 31 -> Z.abs (vy t) < 2 ^ 31 -> Z.abs (vz t) < 2 ^ 31 ->
    exists p q, powi (aff R t) (Z.of_nat k) = Done p /\ powi (aff R t) (- Z.of_nat k) = Done q /\ inverts p q.
Proof.
  intros R t k S B1 B2 B3. destruct (C16_inverse_signed_permutations R t S B1 B2 B3) as (i & E & I).
  destruct (C16_negative_powers _ i k (aff_affine R t) E I) as (p & q & ? & ? & ? & _). eauto.
Qed.

(** ** Hexagonal rotations *)
Lemma some_inj {A} (x y : A) : Some x = Some y -> x = y. Proof. congruence. Qed.
Definition hexagonals : list mat3 := hexagonal24.
Lemma hexagonals_in R : hexagonal_rotation R -> In R hexagonals.
Proof. exact (hexagonal24_in R). Qed.
Lemma hexagonals_hex : forallb hexb hexagonals = true.
Proof. vm_cast_no_check (@eq_refl bool true). Qed.
Lemma hex_third R t1 t2 t3 k1 k2 k3 n1 n2 n3 d1 d2 d3 x0 x1 x2 x3 x4 x5 x6 x7 x8 x9 x10 x11 x15 :
  In R hexagonals ->
  twelfth_of t1 k1 n1 d1 -> twelfth_of t2 k2 n2 d2 -> twelfth_of t3 k3 n3 d3 ->
  rep x0 (m11 R) -> rep x1 (m21 R) -> rep x2 (m31 R) -> rep x4 (m12 R) -> rep x5 (m22 R) -> rep x6 (m32 R) ->
  let o := fcofactors (FM4 x0 x1 x2 x3 x4 x5 x6 x7 x8 x9 x10 x11 d1 d2 d3 x15) in
  let v := vopp (mvmul (minv R) (V3 t1 t2 t3)) in
  comp_ok (f14 o) (mdet R) (vz v) /\ unimodular R /\ entries_within 32 R /\
  Z.abs (vx v) <= Z.abs t1 + Z.abs t2 /\ Z.abs (vy v) <= Z.abs t1 + Z.abs t2 /\ Z.abs (vz v) <= Z.abs t3.
Proof.
  intros HR T1 T2 T3 P0 P1 P2 P4 P5 P6. cbv zeta. unfold fcofactors. cbn [f14].
  pose proof (twelfth_finm _ _ _ _ T1) as F1. pose proof (twelfth_finm _ _ _ _ T2) as F2. pose proof (twelfth_finm _ _ _ _ T3) as F3.
  pose proof (proj1 F1) as G1. pose proof (proj1 F2) as G2. pose proof (proj1 F3) as G3.
  pose proof T1 as (K1 & N1 & D1 & _). pose proof T2 as (K2 & N2 & D2 & _). pose proof T3 as (K3 & N3 & D3 & _).
  unfold hexagonals, hexagonal24 in HR. cbn [In] in HR.
  repeat (destruct HR as [<- | HR];
   [ cbn [m11 m12 m13 m21 m22 m23 m31 m32 m33] in *; unfold unimodular, entries_within;
     repeat match goal with |- context [mdet ?M] => let x := eval vm_compute in (mdet M) in change (mdet M) with x end;
     match goal with |- context [minv ?M] => let x := eval vm_compute in (minv M) in change (minv M) with x end;
     unfold vopp, mvmul; cbn [m11 m12 m13 m21 m22 m23 m31 m32 m33 vx vy vz];
     split; [t_comp T3 | clear; repeat split; lia]
   | ]).
  destruct HR.
Qed.
(** C16: with hexagonal rotations, whatever the translation up to 2^29, the rotation, the last
    row and the third translation are right, and the other two translations are off by at most
    one *)
Theorem C16_hexagonal_inverse_within_one :
  forall R t, hexagonal_rotation R -> Z.abs (vx t) <= 2 ^ 29 -> Z.abs (vy t) <= 2 ^ 29 -> Z.abs (vz t) <= 2 ^ 29 ->
    exists i j, try_inverse (aff R t) = Some i /\ inverts (aff R t) j /\
      rot i = rot j /\ is_affine i /\ vnear 1 (tra i) (tra j) /\ vz (tra i) = vz (tra j).
Proof.
  intros R [t1 t2 t3] H B1 B2 B3. cbn [vx vy vz] in *. apply hexagonals_in in H.
  destruct (twelfth_exists t1 ltac:(clear - B1; lia)) as (k1 & n1 & T1). destruct (twelfth_exists t2 ltac:(clear - B2; lia)) as (k2 & n2 & T2).
  destruct (twelfth_exists t3 ltac:(clear - B3; lia)) as (k3 & n3 & T3).
  assert (UM : unit_matrix R).
  { pose proof H as H'. unfold hexagonals in H'. apply hexagonal_unit. apply hexb_spec. exact (proj1 (forallb_forall hexb hexagonals) hexagonals_hex R H'). }
  assert (SM : forall z, -1 <= z <= 1 -> rep (f64_of_Z z) z) by (intros z Hz; apply f64_of_Z_rep; lia).
  pose proof UM as UM'. unfold unit_matrix in UM'. destruct UM' as (A11 & A12 & A13 & A21 & A22 & A23 & A31 & A32 & A33).
  pose proof (hex_third R t1 t2 t3 _ _ _ _ _ _ _ _ _ _ _ _ (f64_of_Z 0) _ _ _ (f64_of_Z 0) (f64_of_Z (m13 R)) (f64_of_Z (m23 R)) (f64_of_Z (m33 R)) (f64_of_Z 0) (f64_of_Z 1) H T1 T2 T3
    (SM _ A11) (SM _ A21) (SM _ A31) (SM _ A12) (SM _ A22) (SM _ A32)) as C.
  cbv zeta in C. destruct C as ((G3 & C3) & U & S & V1 & V2 & V3').
  set (v := vopp (mvmul (minv R) (V3 t1 t2 t3))) in *.
  assert (W : Z.abs (vx v) < 2 ^ 31 /\ Z.abs (vy v) < 2 ^ 31 /\ Z.abs (vz v) < 2 ^ 31) by (clear - V1 V2 V3' B1 B2 B3; lia).
  destruct W as (W1 & W2 & W3). pose proof (aff_inverts R (V3 t1 t2 t3) U) as I. fold v in I.
  assert (DU : det_spec R = 1 \/ det_spec R = -1) by (rewrite det_spec_mdet; exact U).
  assert (L1 : Z.abs (vx (V3 t1 t2 t3)) < 2 ^ 31) by (clear - B1; cbn [vx]; lia).
  assert (L2 : Z.abs (vy (V3 t1 t2 t3)) < 2 ^ 31) by (clear - B2; cbn [vy]; lia).
  assert (L3 : Z.abs (vz (V3 t1 t2 t3)) < 2 ^ 31) by (clear - B3; cbn [vz]; lia).
  destruct (C16_inverse_within_one R (V3 t1 t2 t3) (aff (minv R) v) S DU L1 L2 L3 (aff_affine _ _) I W1 W2 W3) as (i & E & Ri & Ai & Ni).
  exists i, (aff (minv R) v). split; [assumption |]. split; [assumption |]. split; [assumption |]. split; [assumption |]. split; [assumption |].
  assert (F1 : finm 32 (fst (fst (twelfths (V3 t1 t2 t3))))) by exact (twelfth_finm32 t1 ltac:(clear - B1; lia)).
  assert (F2 : finm 32 (snd (fst (twelfths (V3 t1 t2 t3))))) by exact (twelfth_finm32 t2 ltac:(clear - B2; lia)).
  assert (F3 : finm 32 (snd (twelfths (V3 t1 t2 t3)))) by exact (twelfth_finm32 t3 ltac:(clear - B3; lia)).
  destruct (inverse_core_any 32 R (V3 t1 t2 t3) ltac:(lia) S U F1 F2 F3) as (inv & Hi & E').
  { destruct (twelfth_hv t1 ltac:(clear - B1; lia)) as (v1 & H1 & _ & D1). destruct (twelfth_hv t2 ltac:(clear - B2; lia)) as (v2 & H2 & _ & D2).
    destruct (twelfth_hv t3 ltac:(clear - B3; lia)) as (v3 & H3 & _ & D3).
    destruct (fcofactors_tra_apx _ R (V3 v1 v2 v3) (to_f64_mat_fop 32 R (V3 t1 t2 t3) ltac:(lia) S F1 F2 F3) S H1 H2 H3 D1 D2 D3) as (((u & Hu & _) & _) & _).
    exact (hv_fin _ _ _ Hu). }
  rewrite E in E'. apply some_inj in E'. rewrite E'. cbn [aff tra vz].
  assert (C3' : rep (fmul (fmul (f14 (fcofactors (to_f64_mat (aff R (V3 t1 t2 t3))))) inv) (f64_of_Z 12)) (vz v)) by exact (C3 inv Hi).
  rewrite (Z_of_f64_rep _ _ C3'). apply clamp_small. clear - W3. lia.
Qed.
(** and one is reached *)
Theorem C16_hexagonal_inverse_off_by_one :
  exists R t i j, hexagonal_rotation R /\ vbetween 0 12 t /\ try_inverse (aff R t) = Some i /\ inverts (aff R t) j /\
    Z.abs (vx (tra i) - vx (tra j)) = 1 /\ sz_eqb i j = false /\ sz_eqb (sz_mul (aff R t) i) sz_identity = false.
Proof.
  exists (M3 0 (-1) 0 1 (-1) 0 0 0 1), (V3 1 8 0), (aff (M3 (-1) 1 0 (-1) 0 0 0 0 1) (V3 (-6) 1 0)),
    (aff (M3 (-1) 1 0 (-1) 0 0 0 0 1) (V3 (-7) 1 0)).
  split; [apply hexb_spec; vm_compute; reflexivity |]. split; [unfold vbetween; cbn [vx vy vz]; lia |].
  split; [exact inverse_off_by_one |]. split; [apply invertsb_spec; vm_compute; reflexivity |].
  repeat split; vm_compute; reflexivity.
Qed.
(** hence a negative power may be wrong too *)
Theorem C16_negative_power_off_refuted :
  exists m p q, is_affine m /\ powi m 1 = Done p /\ powi m (-1) = Done q /\ sz_eqb (sz_mul p q) sz_identity = false.
Proof.
  exists (aff (M3 0 (-1) 0 1 (-1) 0 0 0 1) (V3 1 8 0)), (aff (M3 0 (-1) 0 1 (-1) 0 0 0 1) (V3 1 8 0)),
   (aff (M3 (-1) 1 0 (-1) 0 0 0 0 1) (V3 (-6) 1 0)).
  split; [apply aff_affine |]. split; [reflexivity |]. split; [| vm_compute; reflexivity].
  unfold powi. rewrite inverse_off_by_one. reflexivity.
Qed.

(** ** The tabulated groups *)
(** the operations of the tabulated groups whose rotation is not a signed permutation *)
Definition tabulated_hexagonal : list seitz :=
  [aff (M3 (-1) 0 0 (-1) 1 0 0 0 (-1)) (V3 0 0 0);
   aff (M3 (-1) 0 0 (-1) 1 0 0 0 (-1)) (V3 0 0 4);
   aff (M3 (-1) 0 0 (-1) 1 0 0 0 (-1)) (V3 0 0 6);
   aff (M3 (-1) 0 0 (-1) 1 0 0 0 (-1)) (V3 0 0 8);
   aff (M3 (-1) 0 0 (-1) 1 0 0 0 (-1)) (V3 4 8 2);
   aff (M3 (-1) 0 0 (-1) 1 0 0 0 (-1)) (V3 4 8 8);
   aff (M3 (-1) 0 0 (-1) 1 0 0 0 (-1)) (V3 8 4 10);
   aff (M3 (-1) 0 0 (-1) 1 0 0 0 (-1)) (V3 8 4 4);
   aff (M3 (-1) 0 0 (-1) 1 0 0 0 1) (V3 0 0 0);
   aff (M3 (-1) 0 0 (-1) 1 0 0 0 1) (V3 0 0 6);
   aff (M3 (-1) 1 0 (-1) 0 0 0 0 (-1)) (V3 0 0 0);
   aff (M3 (-1) 1 0 (-1) 0 0 0 0 (-1)) (V3 0 0 6);
   aff (M3 (-1) 1 0 (-1) 0 0 0 0 1) (V3 0 0 0);
   aff (M3 (-1) 1 0 (-1) 0 0 0 0 1) (V3 0 0 4);
   aff (M3 (-1) 1 0 (-1) 0 0 0 0 1) (V3 0 0 8);
   aff (M3 (-1) 1 0 (-1) 0 0 0 0 1) (V3 4 8 8);
   aff (M3 (-1) 1 0 (-1) 0 0 0 0 1) (V3 8 4 4);
   aff (M3 (-1) 1 0 0 1 0 0 0 (-1)) (V3 0 0 0);
   aff (M3 (-1) 1 0 0 1 0 0 0 (-1)) (V3 0 0 4);
   aff (M3 (-1) 1 0 0 1 0 0 0 (-1)) (V3 0 0 6);
   aff (M3 (-1) 1 0 0 1 0 0 0 (-1)) (V3 0 0 8);
   aff (M3 (-1) 1 0 0 1 0 0 0 1) (V3 0 0 0);
   aff (M3 (-1) 1 0 0 1 0 0 0 1) (V3 0 0 6);
   aff (M3 (-1) 1 0 0 1 0 0 0 1) (V3 4 8 2);
   aff (M3 (-1) 1 0 0 1 0 0 0 1) (V3 4 8 8);
   aff (M3 (-1) 1 0 0 1 0 0 0 1) (V3 8 4 10);
   aff (M3 (-1) 1 0 0 1 0 0 0 1) (V3 8 4 4);
   aff (M3 0 (-1) 0 1 (-1) 0 0 0 (-1)) (V3 0 0 0);
   aff (M3 0 (-1) 0 1 (-1) 0 0 0 (-1)) (V3 0 0 6);
   aff (M3 0 (-1) 0 1 (-1) 0 0 0 1) (V3 0 0 0);
   aff (M3 0 (-1) 0 1 (-1) 0 0 0 1) (V3 0 0 4);
   aff (M3 0 (-1) 0 1 (-1) 0 0 0 1) (V3 0 0 8);
   aff (M3 0 (-1) 0 1 (-1) 0 0 0 1) (V3 4 8 8);
   aff (M3 0 (-1) 0 1 (-1) 0 0 0 1) (V3 8 4 4);
   aff (M3 0 1 0 (-1) 1 0 0 0 (-1)) (V3 0 0 0);
   aff (M3 0 1 0 (-1) 1 0 0 0 (-1)) (V3 4 8 8);
   aff (M3 0 1 0 (-1) 1 0 0 0 (-1)) (V3 8 4 4);
   aff (M3 0 1 0 (-1) 1 0 0 0 1) (V3 0 0 0);
   aff (M3 0 1 0 (-1) 1 0 0 0 1) (V3 0 0 10);
   aff (M3 0 1 0 (-1) 1 0 0 0 1) (V3 0 0 2);
   aff (M3 0 1 0 (-1) 1 0 0 0 1) (V3 0 0 4);
   aff (M3 0 1 0 (-1) 1 0 0 0 1) (V3 0 0 6);
   aff (M3 0 1 0 (-1) 1 0 0 0 1) (V3 0 0 8);
   aff (M3 1 (-1) 0 0 (-1) 0 0 0 (-1)) (V3 0 0 0);
   aff (M3 1 (-1) 0 0 (-1) 0 0 0 (-1)) (V3 0 0 4);
   aff (M3 1 (-1) 0 0 (-1) 0 0 0 (-1)) (V3 0 0 6);
   aff (M3 1 (-1) 0 0 (-1) 0 0 0 (-1)) (V3 0 0 8);
   aff (M3 1 (-1) 0 0 (-1) 0 0 0 (-1)) (V3 4 8 2);
   aff (M3 1 (-1) 0 0 (-1) 0 0 0 (-1)) (V3 4 8 8);
   aff (M3 1 (-1) 0 0 (-1) 0 0 0 (-1)) (V3 8 4 10);
   aff (M3 1 (-1) 0 0 (-1) 0 0 0 (-1)) (V3 8 4 4);
   aff (M3 1 (-1) 0 0 (-1) 0 0 0 1) (V3 0 0 0);
   aff (M3 1 (-1) 0 0 (-1) 0 0 0 1) (V3 0 0 6);
   aff (M3 1 (-1) 0 1 0 0 0 0 (-1)) (V3 0 0 0);
   aff (M3 1 (-1) 0 1 0 0 0 0 (-1)) (V3 4 8 8);
   aff (M3 1 (-1) 0 1 0 0 0 0 (-1)) (V3 8 4 4);
   aff (M3 1 (-1) 0 1 0 0 0 0 1) (V3 0 0 0);
   aff (M3 1 (-1) 0 1 0 0 0 0 1) (V3 0 0 10);
   aff (M3 1 (-1) 0 1 0 0 0 0 1) (V3 0 0 2);
   aff (M3 1 (-1) 0 1 0 0 0 0 1) (V3 0 0 4);
   aff (M3 1 (-1) 0 1 0 0 0 0 1) (V3 0 0 6);
   aff (M3 1 (-1) 0 1 0 0 0 0 1) (V3 0 0 8);
   aff (M3 1 0 0 1 (-1) 0 0 0 (-1)) (V3 0 0 0);
   aff (M3 1 0 0 1 (-1) 0 0 0 (-1)) (V3 0 0 10);
   aff (M3 1 0 0 1 (-1) 0 0 0 (-1)) (V3 0 0 2);
   aff (M3 1 0 0 1 (-1) 0 0 0 (-1)) (V3 0 0 4);
   aff (M3 1 0 0 1 (-1) 0 0 0 (-1)) (V3 0 0 6);
   aff (M3 1 0 0 1 (-1) 0 0 0 (-1)) (V3 0 0 8);
   aff (M3 1 0 0 1 (-1) 0 0 0 1) (V3 0 0 0);
   aff (M3 1 0 0 1 (-1) 0 0 0 1) (V3 0 0 6);
   aff (M3 1 0 0 1 (-1) 0 0 0 1) (V3 4 8 2);
   aff (M3 1 0 0 1 (-1) 0 0 0 1) (V3 4 8 8);
   aff (M3 1 0 0 1 (-1) 0 0 0 1) (V3 8 4 10);
   aff (M3 1 0 0 1 (-1) 0 0 0 1) (V3 8 4 4)].
Lemma tabulated_hexagonal_ok : forallb inverse_ok tabulated_hexagonal = true.
Proof. vm_cast_no_check (@eq_refl bool true). Qed.
Definition signed_rowb (a b c : Z) : bool := Z.abs a + Z.abs b + Z.abs c =? 1.
Definition signed_permb (R : mat3) : bool :=
  signed_rowb (m11 R) (m12 R) (m13 R) && signed_rowb (m21 R) (m22 R) (m23 R) && signed_rowb (m31 R) (m32 R) (m33 R) &&
  signed_rowb (m11 R) (m21 R) (m31 R) && signed_rowb (m12 R) (m22 R) (m32 R) && signed_rowb (m13 R) (m23 R) (m33 R).
Lemma signed_rowb_spec a b c : signed_rowb a b c = true -> signed_row a b c.
Proof. unfold signed_rowb, signed_row. rewrite Z.eqb_eq. lia. Qed.
Lemma signed_permb_spec R : signed_permb R = true -> signed_permutation R.
Proof.
  unfold signed_permb, signed_permutation. rewrite !andb_true_iff. intros (((((A & B) & C) & D) & E) & F).
  exact (conj (signed_rowb_spec _ _ _ A) (conj (signed_rowb_spec _ _ _ B) (conj (signed_rowb_spec _ _ _ C)
    (conj (signed_rowb_spec _ _ _ D) (conj (signed_rowb_spec _ _ _ E) (signed_rowb_spec _ _ _ F)))))).
Qed.
Definition small_vecb (t : vec3) : bool := (Z.abs (vx t) <? 100) && (Z.abs (vy t) <? 100) && (Z.abs (vz t) <? 100).
Definition known_invertible (m : seitz) : bool :=
  if signed_permb (rot m) then small_vecb (tra m) && veqb (bot m) v0 && (cor m =? 1)
  else existsb (entries_eqb m) tabulated_hexagonal.
Lemma known_invertible_spec m : known_invertible m = true -> exists i, try_inverse m = Some i /\ inverts m i.
Proof.
  unfold known_invertible. destruct (signed_permb (rot m)) eqn:S.
  - rewrite !andb_true_iff, veqb_eq, Z.eqb_eq. intros ((B & A1) & A2). apply signed_permb_spec in S.
    unfold small_vecb in B. rewrite !andb_true_iff, !Z.ltb_lt in B. destruct B as ((B1 & B2) & B3).
    rewrite (affine_aff m (conj A1 A2)).
    apply C16_inverse_signed_permutations; [assumption | clear - B1; lia | clear - B2; lia | clear - B3; lia].
  - intros E. apply existsb_exists in E. destruct E as (m' & Hin & E). apply entries_eqb_eq in E. subst m'.
    apply inverse_ok_spec. exact (proj1 (forallb_forall inverse_ok tabulated_hexagonal) tabulated_hexagonal_ok m Hin).
Qed.
Definition row_inverses (s : string) : bool :=
  match row_group s with
  | Some (h, core) =>
      forallb (fun v => forallb (fun m => known_invertible (sz_addv m v)) core) (translations (ls_char (h_lat h)))
  | None => false
  end.
Lemma row_inverses_sound halls : forallb row_inverses halls = true -> forall s, In s halls ->
  exists h g, try_from_str s = Done (Some h) /\ general_positions 10 h = Done g /\
    forall m, listed g m -> exists i, try_inverse m = Some i /\ inverts m i.
Proof.
  intros H s Hs. rewrite forallb_forall in H. specialize (H s Hs). unfold row_inverses in H.
  destruct (row_group s) as [[h core] |] eqn:E; [| discriminate].
  destruct (row_group_spec _ _ _ E) as (g & P & G & <-). exists h, g. split; [assumption |]. split; [assumption |].
  intros m (set & Hset & Hm). apply known_invertible_spec. unfold derive_full_sets in Hset. apply in_map_iff in Hset.
  destruct Hset as (v & <- & Hv). apply in_map_iff in Hm. destruct Hm as (m0 & <- & Hm0).
  destruct (general_positions_spec _ _ _ G) as (EL & _). rewrite EL in Hv.
  rewrite forallb_forall in H. specialize (H v Hv). cbv beta in H. rewrite forallb_forall in H. exact (H m0 Hm0).
Qed.
Definition data_inverses (p : hall * list seitz) : bool :=
  let (h, core) := p in
  forallb (fun v => forallb (fun m => known_invertible (sz_addv m v)) core) (translations (ls_char (h_lat h))).
Lemma data_inverses_sound halls groups : map row_group halls = map Some groups -> forallb data_inverses groups = true ->
  forallb row_inverses halls = true.
Proof.
  intros E H. pose proof (halls_by_data data_inverses halls groups E H) as K. rewrite forallb_forall in K |- *.
  intros s Hs. specialize (K s Hs). cbv beta in K. unfold row_inverses. destruct (row_group s) as [[h core] |]; [exact K | discriminate].
Qed.
Lemma full_data_inverses : forallb data_inverses full_groups = true.
Proof. vm_cast_no_check (@eq_refl bool true). Qed.
Lemma only_data_inverses : forallb data_inverses only_groups = true.
Proof. vm_cast_no_check (@eq_refl bool true). Qed.
Lemma full_inverses_ok : forallb row_inverses full_hall = true.
Proof. exact (data_inverses_sound _ _ full_groups_ok full_data_inverses). Qed.
Lemma default_inverses_ok : forallb row_inverses default_hall = true.
Proof.
  apply default_from_full; [exact full_inverses_ok | exact (data_inverses_sound _ _ only_groups_ok only_data_inverses)].
Qed.
(** C16: every operation of every tabulated group is inverted exactly *)
Theorem C16_inverse_of_every_tabulated_operation :
  forall s, In s full_hall \/ In s default_hall -> exists h g, try_from_str s = Done (Some h) /\
    general_positions 10 h = Done g /\ forall m, listed g m -> exists i, try_inverse m = Some i /\ inverts m i.
Proof. intros s [H | H]; [exact (row_inverses_sound _ full_inverses_ok s H) | exact (row_inverses_sound _ default_inverses_ok s H)]. Qed.
(** a hexagonal screw and a cubic glide meet the hypotheses *)
Example C16_cases :
  signed_permutation (M3 0 0 1 (-1) 0 0 0 1 0) /\ hexagonal_rotation (M3 1 (-1) 0 1 0 0 0 0 1) /\ vbetween 0 12 (V3 0 0 2) /\
  try_inverse (aff (M3 1 (-1) 0 1 0 0 0 0 1) (V3 0 0 2)) = Some (aff (M3 0 1 0 (-1) 1 0 0 0 1) (V3 0 0 (-2))) /\
  powi (aff (M3 0 0 1 (-1) 0 0 0 1 0) (V3 1 5 7)) (-2) = Done (aff (M3 0 0 (-1) 1 0 0 0 (-1) 0) (V3 12 (-8) 4)).
Proof.
  split; [unfold signed_permutation, signed_row; cbn [m11 m12 m13 m21 m22 m23 m31 m32 m33]; lia |].
  split; [apply hexb_spec; vm_compute; reflexivity |]. split; [unfold vbetween; cbn [vx vy vz]; lia |].
  split; vm_compute; reflexivity.
Qed.
