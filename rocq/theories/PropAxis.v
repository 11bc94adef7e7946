(** * PropAxis: property C72: the rotation type and the axis of products, conjugates, inverses and
    opposites. *)
From Verif Require Import Base Notations Parser Seitz F64 Jones Rotations Generate Positions
  Spec SpecHall SpecRotation Algebra PropSeitz PropRotation Restriction TypeCount.
Open Scope Z_scope.

(** ** Support *)
Lemma saturated_unique n k k' : saturated_i32 n k -> saturated_i32 n k' -> k = k'.
Proof. unfold saturated_i32, fits_i32. lia. Qed.
Lemma row_bound b a1 a2 a3 x1 x2 x3 c : 0 <= b -> 0 <= c -> Z.abs a1 <= b -> Z.abs a2 <= b -> Z.abs a3 <= b ->
  Z.abs x1 <= c -> Z.abs x2 <= c -> Z.abs x3 <= c -> Z.abs (a1 * x1 + a2 * x2 + a3 * x3) <= 3 * (b * c).
Proof.
  intros B C A1 A2 A3 X1 X2 X3.
  assert (K : forall a x, Z.abs a <= b -> Z.abs x <= c -> Z.abs (a * x) <= b * c).
  { intros a x H1 H2. rewrite Z.abs_mul. apply Z.mul_le_mono_nonneg; lia. }
  pose proof (K _ _ A1 X1). pose proof (K _ _ A2 X2). pose proof (K _ _ A3 X3). clear - H H0 H1. lia.
Qed.
Lemma product_bound b c A B : 0 <= b -> 0 <= c -> entries_within b A -> entries_within c B -> entries_within (3 * (b * c)) (mmul A B).
Proof.
  intros b0 c0 (A1 & A2 & A3 & A4 & A5 & A6 & A7 & A8 & A9) (B1 & B2 & B3 & B4 & B5 & B6 & B7 & B8 & B9).
  unfold entries_within, mmul. cbn [m11 m12 m13 m21 m22 m23 m31 m32 m33].
  repeat split; apply row_bound; assumption.
Qed.
Lemma within_le b c A : b <= c -> entries_within b A -> entries_within c A.
Proof. unfold entries_within. intros L (A1 & A2 & A3 & A4 & A5 & A6 & A7 & A8 & A9). repeat split; (eapply Z.le_trans; [eassumption | exact L]). Qed.
Lemma same_invariants a b : is_affine a -> is_affine b -> entries_within 65536 (rot a) -> entries_within 65536 (rot b) ->
  mdet (rot a) = mdet (rot b) -> mtrace (rot a) = mtrace (rot b) -> rotation_type a = rotation_type b.
Proof.
  intros [_ A] [_ B] Wa Wb D T. unfold rotation_type. f_equal.
  - eapply saturated_unique; [apply C18_determinant_saturates, Wa |]. rewrite det_spec_mdet, D, <- det_spec_mdet. apply C18_determinant_saturates, Wb.
  - unfold sz_trace. congruence.
Qed.
Lemma mul_rot a b : is_affine a -> is_affine b -> is_affine (sz_mul a b) /\ rot (sz_mul a b) = mmul (rot a) (rot b).
Proof. intros A B. rewrite (affine_aff a A), (affine_aff b B), sz_mul_aff. split; [split; reflexivity | reflexivity]. Qed.

Lemma mmul_I_comm a b : mmul a b = I3 -> mmul b a = I3.
Proof.
  intros E. pose proof (mmul_I_unimodular _ _ E) as U.
  assert (b = minv a) as ->; [| apply minv_l, U].
  rewrite <- (mmul_I_l b), <- (minv_l a U), <- mmul_assoc, E, mmul_I_r. reflexivity.
Qed.
(** ** C72 *)
(** the two products of two operations are of the same type *)
Theorem C72_type_of_product_symmetric :
  forall a b, is_affine a -> is_affine b -> entries_within 100 (rot a) -> entries_within 100 (rot b) ->
    rotation_type (sz_mul a b) = rotation_type (sz_mul b a).
Proof.
  intros a b A B Wa Wb. destruct (mul_rot a b A B) as [P P']. destruct (mul_rot b a B A) as [Q Q'].
  apply same_invariants; auto.
  - rewrite P'. apply (within_le (3 * (100 * 100))); [lia |]. apply product_bound; auto; lia.
  - rewrite Q'. apply (within_le (3 * (100 * 100))); [lia |]. apply product_bound; auto; lia.
  - rewrite P', Q', !mdet_mmul. ring.
  - rewrite P', Q'. apply mtrace_comm.
Qed.
(** conjugated operations are of the same type, and the axis moves along *)
Theorem C72_conjugate :
  forall c c' m, is_affine c -> is_affine c' -> is_affine m ->
    entries_within 10 (rot c) -> entries_within 10 (rot c') -> entries_within 10 (rot m) ->
    sz_eqb (sz_mul c c') sz_identity = true ->
    rotation_type (sz_mul (sz_mul c m) c') = rotation_type m /\
    forall v, eigenvector m = Some v -> axis_of (rot (sz_mul (sz_mul c m) c')) (mvmul (rot c) v).
Proof.
  intros c c' m C C' M Wc Wc' Wm E. apply sz_eqb_same in E. destruct E as [E _].
  destruct (mul_rot c c' C C') as [_ Q]. rewrite Q in E. change (rot sz_identity) with I3 in E. pose proof (mmul_I_comm _ _ E) as E'.
  destruct (mul_rot c m C M) as [P1 P2]. destruct (mul_rot _ c' P1 C') as [P3 P4]. rewrite P2 in P4.
  assert (W : entries_within 65536 (mmul (mmul (rot c) (rot m)) (rot c'))).
  { apply (within_le (3 * (3 * (10 * 10) * 10))); [lia |]. apply product_bound; [lia | lia | apply product_bound; auto; lia | auto]. }
  assert (D : mdet (rot c) * mdet (rot c') = 1). { rewrite <- mdet_mmul, E. reflexivity. }
  assert (Dm : mdet (mmul (mmul (rot c) (rot m)) (rot c')) = mdet (rot m)).
  { rewrite !mdet_mmul. transitivity (mdet (rot c) * mdet (rot c') * mdet (rot m)); [ring | rewrite D; ring]. }
  split.
  - apply same_invariants; auto; rewrite ?P4; auto.
    + apply (within_le 10); [lia | exact Wm].
    + rewrite mtrace_comm, mmul_assoc, E', mmul_I_l. reflexivity.
  - intros v V.
    assert (Wm' : entries_within 700 (rot m)) by (apply (within_le 10); [lia | exact Wm]).
    assert (Sm : sz_det m = det_spec (rot m)) by (apply C18_small_entries_exact, Wm').
    assert (Iv : In v (eigen_trials m)).
    { unfold eigenvector in V. cbv zeta in V. unfold eigen_trials. destruct (filter _ (filter _ _)); [discriminate |]. injection V as ->. left. reflexivity. }
    apply (eigen_trials_in _ _ Sm) in Iv. destruct Iv as (_ & (N & Ax) & _). rewrite P4. split.
    + intros Z. apply N. rewrite <- (mvmul_I v), <- E', mvmul_mmul, Z. mat_ring.
    + rewrite det_spec_mdet, Dm, <- det_spec_mdet.
      rewrite <- mvmul_mmul, <- mmul_assoc, E', mmul_I_r, mvmul_mmul, Ax. destruct (rot c) as [a1 a2 a3 a4 a5 a6 a7 a8 a9], v as [x y z].
      unfold mvmul. cbn [vx vy vz m11 m12 m13 m21 m22 m23 m31 m32 m33]. f_equal; ring.
Qed.
(** the eigenvector search only depends on which vectors are axes *)
Lemma eigenvector_ext a b : sz_det a = det_spec (rot a) -> sz_det b = det_spec (rot b) ->
  (forall v, axis_of (rot a) v <-> axis_of (rot b) v) -> eigenvector a = eigenvector b.
Proof.
  intros A B K. unfold eigenvector. cbv zeta.
  rewrite (filter_ext (fun t => veqb (mvmul (msub (rot a) (mmap (fun v => v * sz_det a) I3)) t) v0 && negb (veqb t v0))
     (fun t => veqb (mvmul (msub (rot b) (mmap (fun v => v * sz_det b) I3)) t) v0 && negb (veqb t v0))); [reflexivity |].
  intros v. apply eq_true_iff_eq. rewrite !andb_true_iff, !negb_true_iff, !axis_m_i, A, B.
  assert (Q : veqb v v0 = false <-> v <> V3 0 0 0) by (rewrite <- not_true_iff_false, veqb_eq; reflexivity).
  rewrite Q. specialize (K v). unfold axis_of in K. tauto.
Qed.
Lemma inverse_powers A B k : mmul A B = I3 -> mmul (mpow A k) (mpow B k) = I3.
Proof.
  intros E. induction k as [| k IH]; [reflexivity |]. cbn [mpow].
  assert (C : mmul B (mpow B k) = mmul (mpow B k) B).
  { clear. induction k as [| k IH]; [cbn [mpow]; now rewrite mmul_I_l, mmul_I_r |]. cbn [mpow]. rewrite IH at 1. now rewrite mmul_assoc. }
  rewrite C, <- mmul_assoc, (mmul_assoc (mpow A k)), IH, mmul_I_l. exact E.
Qed.
Lemma inverse_order A B n : mmul A B = I3 -> has_order A n -> has_order B n.
Proof.
  intros E (N & P & M). split; [exact N |]. split.
  - pose proof (inverse_powers A B n E) as Q. rewrite P, mmul_I_l in Q. exact Q.
  - intros k K Q. apply (M k K). pose proof (inverse_powers A B k E) as R. rewrite Q, mmul_I_r in R. exact R.
Qed.
(** an operation of finite order and its inverse: same type, same axis *)
Theorem C72_inverse :
  forall m m', is_affine m -> is_affine m' -> entries_within 65536 (rot m) -> entries_within 65536 (rot m') ->
    finite_order (rot m) -> sz_eqb (sz_mul m m') sz_identity = true ->
    rotation_type m' = rotation_type m /\ eigenvector m' = eigenvector m.
Proof.
  intros m m' A A' W W' F E. apply sz_eqb_same in E. destruct E as [E _].
  destruct (mul_rot m m' A A') as [_ Q]. rewrite Q in E. change (rot sz_identity) with I3 in E. pose proof (mmul_I_comm _ _ E) as E'.
  assert (F' : finite_order (rot m')).
  { destruct F as (n & N & P). exists n. split; [exact N |]. pose proof (inverse_powers _ _ n E) as R. rewrite P, mmul_I_l in R. exact R. }
  assert (D : det_spec (rot m') = det_spec (rot m)).
  { rewrite !det_spec_mdet. pose proof (f_equal mdet E) as X. rewrite mdet_mmul, mdet_I in X.
    destruct (finite_order_det _ F) as [Y | Y], (finite_order_det _ F') as [Z | Z]; rewrite Y, Z in *; lia. }
  split.
  - destruct (C17_finite_order_classified m A W F) as (t & T & O & Dt & _). destruct (C17_finite_order_classified m' A' W' F') as (t' & T' & O' & Dt' & _).
    rewrite T, T'. f_equal.
    assert (P : mmul (proper_of (rot m)) (proper_of (rot m')) = I3).
    { unfold proper_of. rewrite D. destruct (det_spec (rot m) =? -1); [| exact E]. rewrite <- E. generalize (rot m), (rot m'). mat_ring. }
    pose proof (inverse_order _ _ _ P O) as O2.
    assert (N : fst (type_meaning t') = fst (type_meaning t)).
    { destruct O' as (o1 & o2 & o3), O2 as (p1 & p2 & p3).
      destruct (Nat.lt_trichotomy (fst (type_meaning t')) (fst (type_meaning t))) as [L | [L | L]]; auto; exfalso; [exact (p3 _ (conj o1 L) o2) | exact (o3 _ (conj p1 L) p2)]. }
    rewrite D, Dt in Dt'. destruct t, t'; cbn in N, Dt'; congruence.
  - apply eigenvector_ext.
    + apply C18_determinant_exact; [exact W' | apply C19_hypothesis_met, F'].
    + apply C18_determinant_exact; [exact W | apply C19_hypothesis_met, F].
    + intros v. unfold axis_of. rewrite D.
      assert (S : forall X Y, mmul X Y = I3 -> det_spec (rot m) * det_spec (rot m) = 1 ->
         mvmul X v = V3 (det_spec (rot m) * vx v) (det_spec (rot m) * vy v) (det_spec (rot m) * vz v) ->
         mvmul Y v = V3 (det_spec (rot m) * vx v) (det_spec (rot m) * vy v) (det_spec (rot m) * vz v)).
      { intros X Y XY D1 V. set (d := det_spec (rot m)) in *.
        assert (V' : v = vscale d (mvmul Y v)).
        { rewrite <- mvmul_vscale. transitivity (mvmul Y (mvmul X v)); [rewrite <- mvmul_mmul, (mmul_I_comm _ _ XY), mvmul_I; reflexivity |].
          rewrite V. reflexivity. }
        destruct (mvmul Y v) as [y1 y2 y3]. rewrite V'. unfold vscale. cbn [vx vy vz].
        f_equal; rewrite Z.mul_assoc, D1; ring. }
      assert (D1 : det_spec (rot m) * det_spec (rot m) = 1) by (rewrite det_spec_mdet; destruct (finite_order_det _ F) as [-> | ->]; reflexivity).
      split; intros (N & V); (split; [exact N |]); [apply (S (rot m') (rot m)) | apply (S (rot m) (rot m'))]; auto.
Qed.
(** an operation and its composition with the inversion: same axis, and the types correspond *)
Definition opposite_type (t : rot_type) : rot_type :=
  match t with RE => RI | RN2 => RM | RN3 => RM3 | RN4 => RM4 | RN6 => RM6
             | RI => RE | RM => RN2 | RM3 => RN3 | RM4 => RN4 | RM6 => RN6 end.
Theorem C72_opposite :
  forall m m', is_affine m -> is_affine m' -> entries_within 65536 (rot m) ->
    finite_order (rot m) -> rot m' = mopp (rot m) ->
    rotation_type m' = option_map opposite_type (rotation_type m) /\ eigenvector m' = eigenvector m.
Proof.
  intros m m' [_ A] [_ A'] W F E.
  assert (W' : entries_within 65536 (rot m')).
  { rewrite E. unfold entries_within in *. destruct (rot m) as [a1 a2 a3 a4 a5 a6 a7 a8 a9]. unfold mopp, mmap. cbn [m11 m12 m13 m21 m22 m23 m31 m32 m33] in *. rewrite !Z.abs_opp. exact W. }
  assert (D : det_spec (rot m') = - det_spec (rot m)) by (rewrite E, !det_spec_mdet; apply mdet_mopp).
  assert (S : sz_det m = det_spec (rot m)) by (apply C18_determinant_exact; [exact W | apply C19_hypothesis_met, F]).
  assert (S' : sz_det m' = det_spec (rot m')).
  { apply C18_determinant_exact; [exact W' |]. rewrite D, det_spec_mdet. unfold fits_i32. destruct (finite_order_det _ F); lia. }
  split.
  - unfold rotation_type. rewrite S, S', D. unfold sz_trace. rewrite A, A', E.
    assert (Tr : mtrace (mopp (rot m)) = - mtrace (rot m)) by (destruct (rot m); unfold mtrace, mopp, mmap; cbn; lia). rewrite Tr.
    rewrite det_spec_mdet. destruct (finite_order_det _ F) as [-> | ->]; generalize (mtrace (rot m)); intros t; unfold rotation_type_of; cbn [Z.eqb Z.opp Pos.eqb];
    repeat match goal with |- context [?x =? ?y] => destruct (Z.eqb_spec x y) end; try lia; reflexivity.
  - apply eigenvector_ext; auto. intros v. unfold axis_of. rewrite D, E. destruct (rot m) as [a1 a2 a3 a4 a5 a6 a7 a8 a9], v as [x y z].
    unfold mopp, mmap, mvmul. cbn [vx vy vz m11 m12 m13 m21 m22 m23 m31 m32 m33]. generalize (det_spec (M3 a1 a2 a3 a4 a5 a6 a7 a8 a9)). intros d.
    split; intros (N & V); (split; [exact N |]); apply V3_inj in V; destruct V as (V1 & V2 & V3'); f_equal; lia.
Qed.
(** a six-fold rotation and its inverse, and a conjugation of a three-fold screw *)
Example C72_case :
  let m := aff (M3 1 (-1) 0 1 0 0 0 0 1) (V3 0 0 2) in let m' := aff (M3 0 1 0 (-1) 1 0 0 0 1) (V3 0 0 10) in
  let c := aff (M3 0 1 0 1 0 0 0 0 (-1)) v0 in
  sz_eqb (sz_mul m m') sz_identity = true /\ rotation_type m' = Some RN6 /\ eigenvector m' = Some (V3 0 0 1) /\ sz_eqb (sz_mul c c) sz_identity = true /\ rotation_type (sz_mul (sz_mul c m) c) = Some RN6.
Proof. vm_compute. repeat split; reflexivity. Qed.
