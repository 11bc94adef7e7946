(** * PropRotation: properties C17, C18, C19: determinant, rotation type and eigenvector. *)
From Coq Require Import SpecFloat.
From Verif Require Import Base Notations Parser Seitz F64 Jones Rotations Tables Generate Positions Lookup
  Spec SpecHall SpecTables SpecRotation Algebra PropSeitz PropSymbols GenFacts PropGenerate GroupCheck
  PropFullSets PropShift PropTables PropTableGroups Restriction F64Facts.
Open Scope Z_scope.
Local Notation length := List.length.

(** ** C18 *)
Lemma det_spec_mdet M : det_spec M = mdet M.
Proof. destruct M. unfold det_spec, mdet. mat_cbn. ring. Qed.
Lemma prod_bound a b x y : 0 <= a -> 0 <= b -> Z.abs x <= a -> Z.abs y <= b -> Z.abs (x * y) <= a * b.
Proof. intros. rewrite Z.abs_mul. apply Z.mul_le_mono_nonneg; lia. Qed.
Lemma sub_bound a b x y : Z.abs x <= a -> Z.abs y <= b -> Z.abs (x - y) <= a + b.
Proof. lia. Qed.
Lemma add_bound a b x y : Z.abs x <= a -> Z.abs y <= b -> Z.abs (x + y) <= a + b.
Proof. lia. Qed.
Lemma mul_f a b x y f g : rep f x -> rep g y -> Z.abs x <= a -> Z.abs y <= b -> 0 <= a -> 0 <= b -> a * b < 2 ^ 53 ->
  rep (fmul f g) (x * y) /\ Z.abs (x * y) <= a * b.
Proof. intros. pose proof (prod_bound a b x y). split; [apply fmul_rep; auto |]; eauto using Z.le_lt_trans. Qed.
Lemma sub_f a b x y f g : rep f x -> rep g y -> Z.abs x <= a -> Z.abs y <= b -> a + b < 2 ^ 53 ->
  rep (fsub f g) (x - y) /\ Z.abs (x - y) <= a + b.
Proof. intros. pose proof (sub_bound a b x y). split; [apply fsub_rep; auto |]; eauto using Z.le_lt_trans. Qed.
Lemma add_f a b x y f g : rep f x -> rep g y -> Z.abs x <= a -> Z.abs y <= b -> a + b < 2 ^ 53 ->
  rep (fadd f g) (x + y) /\ Z.abs (x + y) <= a + b.
Proof. intros. pose proof (add_bound a b x y). split; [apply fadd_rep; auto |]; eauto using Z.le_lt_trans. Qed.
Lemma fdet3_rep M : entries_within 65536 M ->
  rep (fdet3 (f64_of_Z (m11 M)) (f64_of_Z (m12 M)) (f64_of_Z (m13 M))
             (f64_of_Z (m21 M)) (f64_of_Z (m22 M)) (f64_of_Z (m23 M))
             (f64_of_Z (m31 M)) (f64_of_Z (m32 M)) (f64_of_Z (m33 M))) (mdet M).
Proof.
  destruct M as [a b c d e f g h i]. unfold entries_within. cbn [m11 m12 m13 m21 m22 m23 m31 m32 m33].
  intros (A & B & C & D & E & F & G & H & I).
  assert (X : forall x, Z.abs x <= 65536 -> rep (f64_of_Z x) x).
  { intros. apply f64_of_Z_rep. eapply Z.le_lt_trans; [eassumption | reflexivity]. }
  assert (MR : forall x y z w, Z.abs x <= 65536 -> Z.abs y <= 65536 -> Z.abs z <= 65536 -> Z.abs w <= 65536 ->
     rep (fsub (fmul (f64_of_Z x) (f64_of_Z y)) (fmul (f64_of_Z z) (f64_of_Z w))) (x * y - z * w) /\
     Z.abs (x * y - z * w) <= 65536 * 65536 + 65536 * 65536).
  { intros x y z w Hx Hy Hz Hw.
    destruct (mul_f 65536 65536 x y (f64_of_Z x) (f64_of_Z y)); auto; try discriminate; try reflexivity.
    destruct (mul_f 65536 65536 z w (f64_of_Z z) (f64_of_Z w)); auto; try discriminate; try reflexivity.
    apply sub_f; auto. reflexivity. }
  unfold fdet3. cbv zeta.
  destruct (MR e i h f) as [R1 B1]; auto. destruct (MR d i g f) as [R2 B2]; auto.
  destruct (MR d h g e) as [R3 B3]; auto.
  replace (mdet _) with (a * (e * i - h * f) - b * (d * i - g * f) + c * (d * h - g * e))
    by (unfold mdet; cbn [m11 m12 m13 m21 m22 m23 m31 m32 m33]; ring).
  revert R1 B1 R2 B2 R3 B3.
  generalize (e * i - h * f) (d * i - g * f) (d * h - g * e).
  intros p q r R1 B1 R2 B2 R3 B3.
  destruct (mul_f _ _ a p _ _ (X a A) R1 A B1) as [S1 C1]; try discriminate; try reflexivity.
  destruct (mul_f _ _ b q _ _ (X b B) R2 B B2) as [S2 C2]; try discriminate; try reflexivity.
  destruct (mul_f _ _ c r _ _ (X c C) R3 C B3) as [S3 C3]; try discriminate; try reflexivity.
  destruct (sub_f _ _ _ _ _ _ S1 S2 C1 C2) as [T1 D1]; try reflexivity.
  exact (proj1 (add_f _ _ _ _ _ _ T1 S3 D1 C3 eq_refl)).
Qed.
Theorem C18_determinant_saturates :
  forall m, entries_within 65536 (rot m) -> saturated_i32 (det_spec (rot m)) (sz_det m).
Proof.
  intros m H. unfold sz_det. cbv zeta. rewrite (Z_of_f64_rep _ _ (fdet3_rep _ H)), det_spec_mdet.
  unfold saturated_i32, fits_i32, clamp32. change (2 ^ 31) with 2147483648. lia.
Qed.
Theorem C18_determinant_exact :
  forall m, entries_within 65536 (rot m) -> fits_i32 (det_spec (rot m)) -> sz_det m = det_spec (rot m).
Proof. intros m H F. apply (C18_determinant_saturates m H). assumption. Qed.
(** with entries up to 700 the determinant always fits *)
Theorem C18_small_entries_exact :
  forall m, entries_within 700 (rot m) -> sz_det m = det_spec (rot m).
Proof.
  intros m S. apply C18_determinant_exact.
  - unfold entries_within in *. destruct S as (A & B & C & D & E & F & G & H & I).
    assert (L : forall x, x <= 700 -> x <= 65536) by lia. repeat split; apply L; assumption.
  - destruct (rot m) as [a b c d e f g h i]. unfold entries_within in S. cbn [m11 m12 m13 m21 m22 m23 m31 m32 m33] in S.
    destruct S as (A & B & C & D & E & F & G & H & I).
    assert (P : forall x y z w t, Z.abs x <= 700 -> Z.abs y <= 700 -> Z.abs z <= 700 -> Z.abs w <= 700 -> Z.abs t <= 700 ->
      Z.abs (t * (x * y - z * w)) <= 686000000).
    { intros x y z w t Hx Hy Hz Hw Ht. change 686000000 with (700 * (700 * 700 + 700 * 700)).
      apply prod_bound; try discriminate; auto. apply sub_bound; apply prod_bound; try discriminate; auto. }
    unfold det_spec, fits_i32. cbn [m11 m12 m13 m21 m22 m23 m31 m32 m33]. change (2 ^ 31) with 2147483648.
    pose proof (P e i f h a E I F H A) as P1. pose proof (P b i c h d B I C H D) as P2.
    pose proof (P b f c e g B F C E G) as P3. revert P1 P2 P3. clear.
    generalize (a * (e * i - f * h)) (d * (b * i - c * h)) (g * (b * f - c * e)). lia.
Qed.
(** without a bound on the entries the result can be wrong although the determinant is -1 *)
Theorem C18_large_entries_refuted :
  exists m, is_affine m /\ det_spec (rot m) = -1 /\ fits_i32 (m11 (rot m)) /\ sz_det m <> -1.
Proof.
  exists (aff (M3 94906267 94906266 0 94906266 94906265 0 0 0 1) v0).
  split; [split; reflexivity |]. split; [vm_compute; reflexivity |]. split; [split; [discriminate | reflexivity] |].
  vm_compute. discriminate.
Qed.
Example C18_case : let M := M3 65536 1 0 0 (-3) 7 3 0 65536 in
  entries_within 65536 M /\ sz_det (aff M v0) = -2147483648 /\
  entries_within 65536 (M3 40000 1 0 39999 1 0 7 7 40000) /\
  sz_det (aff (M3 40000 1 0 39999 1 0 7 7 40000) v0) = 40000.
Proof.
  cbv zeta. unfold entries_within. cbn [m11 m12 m13 m21 m22 m23 m31 m32 m33].
  split; [lia | split; [vm_compute; reflexivity | split; [lia | vm_compute; reflexivity]]].
Qed.

(** ** C17 *)
Lemma finite_order_det M : finite_order M -> mdet M = 1 \/ mdet M = -1.
Proof.
  intros (n & Hn & H). apply (f_equal mdet) in H. rewrite mdet_mpow, mdet_I in H.
  assert (mdet M * mdet M ^ (Z.of_nat n - 1) = 1) as E.
  { rewrite <- Z.pow_succ_r by lia. replace (Z.succ (Z.of_nat n - 1)) with (Z.of_nat n) by lia. assumption. }
  apply Z.mul_eq_1 in E. tauto.
Qed.
Lemma proper_of_det M : finite_order M -> mdet (proper_of M) = 1.
Proof.
  intros H. unfold proper_of. rewrite det_spec_mdet.
  destruct (finite_order_det M H) as [E | E]; rewrite E; cbn [Z.eqb Pos.eqb]; [assumption |].
  rewrite mdet_mopp, E. reflexivity.
Qed.
Lemma proper_of_finite M : finite_order M -> finite_order (proper_of M).
Proof.
  intros (n & Hn & H). unfold proper_of. destruct (det_spec M =? -1); [| exists n; auto].
  exists (n * 2)%nat. split; [lia |]. rewrite mpow_mopp, Nat.even_mul, orb_true_r, mpow_times, H. reflexivity.
Qed.
Lemma proper_of_trace M : mtrace (proper_of M) = if det_spec M =? -1 then - mtrace M else mtrace M.
Proof.
  unfold proper_of. destruct (det_spec M =? -1); [| reflexivity].
  destruct M. unfold mtrace, mopp, mmap. mat_cbn. lia.
Qed.
Theorem C17_finite_order_classified :
  forall m, is_affine m -> entries_within 65536 (rot m) -> finite_order (rot m) ->
  exists t, rotation_type m = Some t /\
    has_order (proper_of (rot m)) (fst (type_meaning t)) /\ det_spec (rot m) = snd (type_meaning t) /\
    sz_equiv_num m = Some (Z.of_nat (fst (type_meaning t))).
Proof.
  intros m [_ A] S F. pose proof (proper_of_det _ F) as D. pose proof (proper_of_finite _ F) as P.
  destruct (order_classified _ P D) as [R O]. rewrite proper_of_trace in R, O.
  assert (E : sz_det m = det_spec (rot m)).
  { apply C18_determinant_exact; [assumption |]. rewrite det_spec_mdet. unfold fits_i32.
    destruct (finite_order_det _ F); lia. }
  unfold sz_equiv_num, rotation_type. rewrite E. unfold sz_trace. rewrite A.
  replace (mtrace (rot m) + 1 - 1) with (mtrace (rot m)) by lia.
  rewrite <- det_spec_mdet in D. destruct (finite_order_det _ F) as [G | G]; rewrite <- det_spec_mdet in G; rewrite G in *;
    cbn [Z.eqb Pos.eqb] in R, O; unfold rotation_type_of; cbn [Z.eqb Pos.eqb].
  - assert (mtrace (rot m) = 3 \/ mtrace (rot m) = -1 \/ mtrace (rot m) = 0 \/ mtrace (rot m) = 1 \/ mtrace (rot m) = 2)
      as [T | [T | [T | [T | T]]]] by lia; rewrite T in *; cbn [Z.eqb Pos.eqb]; eexists;
      (split; [reflexivity | split; [exact O | split; reflexivity]]).
  - assert (mtrace (rot m) = -3 \/ mtrace (rot m) = 1 \/ mtrace (rot m) = 0 \/ mtrace (rot m) = -1 \/ mtrace (rot m) = -2)
      as [T | [T | [T | [T | T]]]] by lia; rewrite T in *; cbn [Z.eqb Pos.eqb]; eexists;
      (split; [reflexivity | split; [exact O | split; reflexivity]]).
Qed.
Lemma order_values t : In (order_of_trace t) [1; 2; 3; 4; 6]%nat.
Proof. unfold order_of_trace. repeat (destruct (_ =? _); [simpl; tauto |]). simpl; tauto. Qed.
(** the restriction itself, for entries of any size *)
Theorem C17_only_orders_1_2_3_4_6 :
  forall M, finite_order M -> exists n, In n [1; 2; 3; 4; 6]%nat /\ has_order (proper_of M) n /\
    has_order M (if det_spec M =? 1 then n else Nat.lcm 2 n).
Proof.
  intros M F. pose proof (proper_of_det _ F) as D. pose proof (proper_of_finite _ F) as P.
  destruct (order_classified _ P D) as [R O]. exists (order_of_trace (mtrace (proper_of M))).
  pose proof (order_values (mtrace (proper_of M))) as V. set (n := order_of_trace _) in *.
  split; [assumption | split; [assumption |]].
  destruct (finite_order_det _ F) as [G | G]; rewrite <- det_spec_mdet in G; rewrite G; cbn [Z.eqb Pos.eqb].
  - unfold proper_of in O. rewrite G in O. exact O.
  - destruct O as (O0 & O1 & O2). set (Q := proper_of M) in *.
    assert (EM : M = mopp Q) by (unfold Q, proper_of; rewrite G; cbn [Z.eqb Pos.eqb]; now rewrite mopp_mopp). clearbody Q. clear F G. subst M.
    assert (K : forall k, mpow (mopp Q) k = I3 -> Nat.even k = true /\ mpow Q k = I3).
    { intros k Hk. rewrite mpow_mopp in Hk. destruct (Nat.even k); [auto |].
      exfalso. apply (f_equal mdet) in Hk. rewrite mdet_mopp, mdet_mpow, D, Z.pow_1_l, mdet_I in Hk; lia. }
    assert (Dv : forall k, mpow Q k = I3 -> exists q, k = (n * q)%nat).
    { intros k Hk. exists (k / n)%nat. pose proof (Nat.div_mod k n ltac:(lia)) as E.
      destruct (Nat.eq_dec (k mod n) 0) as [Z0 | Z0]; [lia |]. exfalso.
      pose proof (Nat.mod_upper_bound k n ltac:(lia)). apply (O2 (k mod n)%nat); [lia |].
      rewrite E, mpow_plus, mpow_times, O1, mpow_I, mmul_I_l in Hk. assumption. }
    assert (Y : forall j, Nat.even (n * j) = true -> mpow (mopp Q) (n * j) = I3).
    { intros j Hj. rewrite mpow_mopp, Hj, mpow_times, O1. apply mpow_I. }
    assert (L : exists j, Nat.lcm 2 n = (n * j)%nat /\ Nat.even (n * j) = true /\ (0 < j)%nat /\
                 forall q, (0 < q)%nat -> Nat.even (n * q) = true -> (j <= q)%nat).
    { clearbody n. clear -V. cbn in V.
      destruct V as [<- | [<- | [<- | [<- | [<- | []]]]]]; [exists 2%nat | exists 1%nat | exists 2%nat | exists 1%nat | exists 1%nat];
        (split; [reflexivity | split; [reflexivity | split; [lia |]]]); intros q Hq He; try lia;
        destruct q as [| [| q]]; try lia; discriminate He. }
    destruct L as (j & -> & Le & Lj & Lm). split; [nia | split; [now apply Y |]].
    intros k Hk E. destruct (K k E) as [E1 E2]. destruct (Dv k E2) as (q & ->).
    assert (j <= q)%nat by (apply Lm; [nia | assumption]). nia.
Qed.
(** an accepted type does not conversely make the matrix a rotation: this shear is reported as identity *)
Theorem C17_type_implies_finite_order_refuted :
  exists m, is_affine m /\ rotation_type m = Some RE /\ ~ finite_order (rot m).
Proof.
  exists (aff (M3 1 1 0 0 1 0 0 0 1) v0). split; [split; reflexivity |]. split; [vm_compute; reflexivity |].
  intros (n & Hn & H). cbn [rot aff] in H.
  assert (E : mpow (M3 1 1 0 0 1 0 0 0 1) n = M3 1 (Z.of_nat n) 0 0 1 0 0 0 1).
  { clear. induction n as [| n IH]; [reflexivity |]. cbn [mpow]. rewrite IH.
    unfold mmul. apply mat3_ext; mat_cbn; lia. }
  rewrite E in H. injection H. lia.
Qed.
Example C17_case : finite_order (M3 0 (-1) 2 1 (-1) 5 0 0 1) /\
  rotation_type (aff (M3 0 (-1) 2 1 (-1) 5 0 0 1) (V3 1 2 3)) = Some RN3.
Proof. split; [exists 3%nat; split; [lia | reflexivity] | vm_compute; reflexivity]. Qed.

(** ** C19 *)
Lemma V3_inj a b c d e f : V3 a b c = V3 d e f -> a = d /\ b = e /\ c = f.
Proof. intros H. injection H. auto. Qed.
Lemma axis_m_i M d v : veqb (mvmul (msub M (mmap (fun x => x * d) I3)) v) v0 = true <->
  mvmul M v = V3 (d * vx v) (d * vy v) (d * vz v).
Proof.
  rewrite veqb_eq. destruct M as [a b c p q r g h i], v as [x y z]. unfold mvmul, msub, mmap, I3, v0. mat_cbn. cbn [vx vy vz]. split; intros H.
  - apply V3_inj in H. apply vec3_ext; mat_cbn; lia.
  - apply V3_inj in H. apply vec3_ext; mat_cbn; lia.
Qed.
Lemma trial_vectors_in v : In v trial_vectors <-> unit_entries v.
Proof.
  unfold trial_vectors, unit_entries, vbetween. rewrite in_flat_map. split.
  - intros (i & Hi & H). apply in_flat_map in H. destruct H as (j & Hj & H). apply in_map_iff in H.
    destruct H as (k & <- & Hk). cbn [vx vy vz]. cbn in Hi, Hj, Hk. lia.
  - destruct v as [x y z]. cbn [vx vy vz]. intros (X & Y & Z). exists x. split; [cbn; lia |].
    apply in_flat_map. exists y. split; [cbn; lia |]. apply in_map_iff. exists z. split; [reflexivity | cbn; lia].
Qed.
Lemma positive_direction_spec v : positive_direction v = true <-> points_up v.
Proof.
  unfold positive_direction, points_up.
  destruct (Z.ltb_spec 0 (vz v)); [split; auto |].
  destruct (Z.eqb_spec (vz v) 0); [| split; [discriminate | lia]].
  destruct (Z.ltb_spec 0 (vy v)); [split; auto |].
  destruct (Z.eqb_spec (vy v) 0); [| split; [discriminate | lia]].
  rewrite Z.ltb_lt. lia.
Qed.
Definition eigen_trials (m : seitz) : list vec3 :=
  filter positive_direction
    (filter (fun t => veqb (mvmul (msub (rot m) (mmap (fun v => v * sz_det m) I3)) t) v0 && negb (veqb t v0)) trial_vectors).
Lemma eigen_trials_in m v : sz_det m = det_spec (rot m) ->
  In v (eigen_trials m) <-> unit_entries v /\ axis_of (rot m) v /\ points_up v.
Proof.
  intros E. unfold eigen_trials, axis_of. rewrite !filter_In, andb_true_iff, negb_true_iff, axis_m_i, positive_direction_spec,
    trial_vectors_in, E.
  assert (veqb v v0 = false <-> v <> V3 0 0 0).
  { rewrite <- not_true_iff_false, veqb_eq. reflexivity. }
  tauto.
Qed.
(** what is returned is an axis, in its canonical direction *)
Theorem C19_eigenvector_is_canonical_axis :
  forall m v, entries_within 65536 (rot m) -> fits_i32 (det_spec (rot m)) -> eigenvector m = Some v ->
  axis_of (rot m) v /\ unit_entries v /\ points_up v.
Proof.
  intros m v W J H. pose proof (C18_determinant_exact m W J) as E. assert (In v (eigen_trials m)) as I.
  { unfold eigenvector in H. cbv zeta in H. unfold eigen_trials. destruct (filter _ (filter _ _)); [discriminate |].
    injection H as ->. left. reflexivity. }
  apply eigen_trials_in in I; tauto.
Qed.
(** the panic: exactly when no axis has entries -1, 0, 1 *)
Theorem C19_panics_iff_no_unit_axis :
  forall m, entries_within 65536 (rot m) -> fits_i32 (det_spec (rot m)) ->
  eigenvector m = None <-> ~ exists v, axis_of (rot m) v /\ unit_entries v.
Proof.
  intros m W J. pose proof (C18_determinant_exact m W J) as E. transitivity (eigen_trials m = []).
  { unfold eigenvector. cbv zeta. unfold eigen_trials. destruct (filter _ (filter _ _)); split; auto; discriminate. }
  split.
  - intros H (v & [N A] & U).
    assert (exists w, unit_entries w /\ axis_of (rot m) w /\ points_up w) as (w & Ww).
    { destruct v as [x y z]. unfold unit_entries, vbetween in U. cbn [vx vy vz] in U.
      destruct (positive_direction (V3 x y z)) eqn:P.
      - exists (V3 x y z). split; [exact U | split; [split; auto |]]. now apply positive_direction_spec.
      - exists (V3 (-x) (-y) (-z)). split; [unfold unit_entries, vbetween; cbn [vx vy vz]; lia |]. split; [split |].
        + intros H1. apply N. apply V3_inj in H1. apply vec3_ext; mat_cbn; lia.
        + destruct (rot m) as [a b c d e f g h i]. unfold mvmul in *. mat_cbn. cbn [vx vy vz] in *. mc_in A.
          apply V3_inj in A. apply vec3_ext; mat_cbn; lia.
        + rewrite <- not_true_iff_false, positive_direction_spec in P. unfold points_up in *. cbn [vx vy vz] in *.
          assert (~ (x = 0 /\ y = 0 /\ z = 0)) by (intros (-> & -> & ->); now apply N). lia. }
    assert (In w (eigen_trials m)) as I by (apply eigen_trials_in; tauto). rewrite H in I. destruct I.
  - intros H. destruct (eigen_trials m) as [| v r] eqn:T; [reflexivity |]. exfalso. apply H. exists v.
    assert (In v (eigen_trials m)) as I by (rewrite T; left; reflexivity). apply eigen_trials_in in I; tauto.
Qed.
(** the second hypothesis of both holds for every rotation *)
Theorem C19_hypothesis_met : forall m, finite_order (rot m) -> fits_i32 (det_spec (rot m)).
Proof.
  intros m F. rewrite det_spec_mdet. unfold fits_i32. destruct (finite_order_det _ F); lia.
Qed.
Example C19_case : eigenvector (aff (M3 0 1 0 1 0 0 0 0 (-1)) (V3 1 2 3)) = Some (V3 1 1 0) /\
  eigenvector (aff (M3 (-1) 0 0 0 (-1) 0 0 0 1) v0) = Some (V3 0 0 1).
Proof. split; vm_compute; reflexivity. Qed.

(** such an operation: x,x-y,-z *)
Theorem C19_operation_without_unit_axis :
  let m := aff (M3 1 0 0 1 (-1) 0 0 0 (-1)) v0 in
  finite_order (rot m) /\ eigenvector m = None /\ axis_of (rot m) (V3 2 1 0).
Proof.
  cbv zeta. split; [exists 2%nat; split; [lia | reflexivity] |]. split; [vm_compute; reflexivity |].
  split; [discriminate | vm_compute; reflexivity].
Qed.
