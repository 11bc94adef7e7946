(** * PropMachine2: property C45, continued: the remaining operations of [SeitzMatrix] with
    machine integers. *)
From Verif Require Import Base Notations Seitz F64 Machine Machine2
  Spec SpecMachine SpecRotation Algebra MachineFacts PropRotation.
Open Scope Z_scope.
Local Notation length := List.length.

(** ** A debug build panics or computes the exact result *)
Lemma exact_imat2 f g a b : (forall x y, exact (f x y) (Done (g x y))) ->
  exact (imat2 f a b) (Done (M3 (g (m11 a) (m11 b)) (g (m12 a) (m12 b)) (g (m13 a) (m13 b))
    (g (m21 a) (m21 b)) (g (m22 a) (m22 b)) (g (m23 a) (m23 b)) (g (m31 a) (m31 b)) (g (m32 a) (m32 b)) (g (m33 a) (m33 b)))).
Proof. intros H. unfold imat2. do 9 (eapply exact_let; [apply H |]). now right. Qed.
Lemma exact_ivec2 f g a b : (forall x y, exact (f x y) (Done (g x y))) ->
  exact (ivec2 f a b) (Done (V3 (g (vx a) (vx b)) (g (vy a) (vy b)) (g (vz a) (vz b)))).
Proof. intros H. unfold ivec2. do 3 (eapply exact_let; [apply H |]). now right. Qed.
Lemma exact_imap3 f g a : (forall x, exact (f x) (Done (g x))) -> exact (imap3 f a) (Done (mmap g a)).
Proof. intros H. unfold imap3. apply (exact_imat2 (fun x _ => f x) (fun x _ => g x)). intros; apply H. Qed.
Lemma exact_isz_add a b : exact (isz_add DebugBuild a b) (Done (sz_add a b)).
Proof.
  unfold isz_add. eapply exact_let; [apply (exact_imat2 _ Z.add); intros; apply exact_i32 |].
  eapply exact_let; [apply (exact_ivec2 _ Z.add); intros; apply exact_i32 |].
  eapply exact_let; [apply (exact_ivec2 _ Z.add); intros; apply exact_i32 |].
  eapply exact_let; [apply exact_i32 |]. right. reflexivity.
Qed.
Lemma exact_isz_sub a b : exact (isz_sub DebugBuild a b) (Done (sz_sub a b)).
Proof.
  unfold isz_sub. eapply exact_let; [apply (exact_imat2 _ Z.sub); intros; apply exact_i32 |].
  eapply exact_let; [apply (exact_ivec2 _ Z.sub); intros; apply exact_i32 |].
  eapply exact_let; [apply (exact_ivec2 _ Z.sub); intros; apply exact_i32 |].
  eapply exact_let; [apply exact_i32 |]. right. reflexivity.
Qed.
Lemma exact_iunique a b : exact (iis_unique_rotation DebugBuild a b) (Done (is_unique_rotation a b)).
Proof.
  unfold iis_unique_rotation, is_unique_rotation. destruct (meqb (rot a) (rot b)); [now right |].
  eapply exact_let; [apply (exact_imap3 _ Z.opp); intros; apply exact_i32 |]. right. reflexivity.
Qed.
Lemma exact_itype m : exact (irotation_type DebugBuild m) (Done (rotation_type m)).
Proof. unfold irotation_type. eapply exact_let; [apply exact_itrace |]. right. reflexivity. Qed.
Lemma exact_iproper m : exact (iproper_rotation DebugBuild m) (Done (proper_rotation m)).
Proof.
  unfold iproper_rotation, proper_rotation. eapply exact_let; [apply exact_itype |].
  assert (F : exact (imap3 (fun v => imul DebugBuild v (sz_det m)) (rot m)) (Done (mmap (fun v => v * sz_det m) (rot m))))
    by (apply exact_imap3; intros; apply exact_i32).
  destruct (rotation_type m) as [k |]; [| now right].
  destruct k; try (now right); (eapply exact_let; [exact F | right; reflexivity]).
Qed.
Lemma exact_idot3 a1 a2 a3 b1 b2 b3 :
  exact (idot3 DebugBuild a1 a2 a3 b1 b2 b3) (Done (a1 * b1 + a2 * b2 + a3 * b3)).
Proof.
  unfold idot3, imul, iadd. ex. replace (a1 * b1 + a2 * b2 + a3 * b3) with (a3 * b3 + (a2 * b2 + a1 * b1)) by ring. apply exact_i32.
Qed.
Lemma exact_imvmul m v : exact (imvmul DebugBuild m v) (Done (mvmul m v)).
Proof. unfold imvmul. do 3 (eapply exact_let; [apply exact_idot3 |]). right. reflexivity. Qed.
Lemma exact_itrials m l : exact (itrials DebugBuild m l) (Done (filter (fun t => veqb (mvmul m t) v0 && negb (veqb t v0)) l)).
Proof.
  induction l as [| t l IH]; cbn [itrials filter]; [now right |].
  eapply exact_let; [apply exact_imvmul |]. eapply exact_let; [exact IH |]. now right.
Qed.
Lemma exact_ieigenvector m : exact (ieigenvector DebugBuild m) (Done (eigenvector m)).
Proof.
  unfold ieigenvector, eigenvector. eapply exact_let; [apply (exact_imap3 _ (fun v => v * sz_det m)); intros; apply exact_i32 |].
  eapply exact_let; [apply (exact_imat2 _ Z.sub); intros; apply exact_i32 |].
  eapply exact_let; [apply exact_itrials |]. right. reflexivity.
Qed.
(** C45: in a debug build the sum, the difference, the comparison of rotations, the rotation type,
    the proper rotation and the eigenvector of any operations are exact unless the call panics *)
Theorem C45_debug_more_operations_exact_or_panic :
  (forall a b, isz_add DebugBuild a b = overflow \/ isz_add DebugBuild a b = Done (sz_add a b)) /\
  (forall a b, isz_sub DebugBuild a b = overflow \/ isz_sub DebugBuild a b = Done (sz_sub a b)) /\
  (forall a b, iis_unique_rotation DebugBuild a b = overflow \/ iis_unique_rotation DebugBuild a b = Done (is_unique_rotation a b)) /\
  (forall m, irotation_type DebugBuild m = overflow \/ irotation_type DebugBuild m = Done (rotation_type m)) /\
  (forall m, iproper_rotation DebugBuild m = overflow \/ iproper_rotation DebugBuild m = Done (proper_rotation m)) /\
  (forall m, ieigenvector DebugBuild m = overflow \/ ieigenvector DebugBuild m = Done (eigenvector m)).
Proof.
  split; [exact exact_isz_add |]. split; [exact exact_isz_sub |]. split; [exact exact_iunique |].
  split; [exact exact_itype |]. split; [exact exact_iproper | exact exact_ieigenvector].
Qed.

(** ** Below the bounds both builds compute the exact result *)
Lemma imat2_fits f g (P Q : Z -> Prop) a b : (forall x y, P x -> Q y -> f x y = Done (g x y)) ->
  (P (m11 a) /\ P (m12 a) /\ P (m13 a) /\ P (m21 a) /\ P (m22 a) /\ P (m23 a) /\ P (m31 a) /\ P (m32 a) /\ P (m33 a)) ->
  (Q (m11 b) /\ Q (m12 b) /\ Q (m13 b) /\ Q (m21 b) /\ Q (m22 b) /\ Q (m23 b) /\ Q (m31 b) /\ Q (m32 b) /\ Q (m33 b)) ->
  imat2 f a b = Done (M3 (g (m11 a) (m11 b)) (g (m12 a) (m12 b)) (g (m13 a) (m13 b))
    (g (m21 a) (m21 b)) (g (m22 a) (m22 b)) (g (m23 a) (m23 b)) (g (m31 a) (m31 b)) (g (m32 a) (m32 b)) (g (m33 a) (m33 b))).
Proof.
  intros H (A1&A2&A3&A4&A5&A6&A7&A8&A9) (B1&B2&B3&B4&B5&B6&B7&B8&B9). unfold imat2.
  rewrite (H _ _ A1 B1). cbn [obind]. rewrite (H _ _ A2 B2). cbn [obind]. rewrite (H _ _ A3 B3). cbn [obind].
  rewrite (H _ _ A4 B4). cbn [obind]. rewrite (H _ _ A5 B5). cbn [obind]. rewrite (H _ _ A6 B6). cbn [obind].
  rewrite (H _ _ A7 B7). cbn [obind]. rewrite (H _ _ A8 B8). cbn [obind]. rewrite (H _ _ A9 B9). reflexivity.
Qed.
Lemma ivec2_fits f g (P Q : Z -> Prop) a b : (forall x y, P x -> Q y -> f x y = Done (g x y)) ->
  P (vx a) /\ P (vy a) /\ P (vz a) -> Q (vx b) /\ Q (vy b) /\ Q (vz b) ->
  ivec2 f a b = Done (V3 (g (vx a) (vx b)) (g (vy a) (vy b)) (g (vz a) (vz b))).
Proof.
  intros H (A1&A2&A3) (B1&B2&B3). unfold ivec2.
  rewrite (H _ _ A1 B1). cbn [obind]. rewrite (H _ _ A2 B2). cbn [obind]. rewrite (H _ _ A3 B3). reflexivity.
Qed.
(** C45: with all entries up to 2^30 - 1 in absolute value, sums and differences are exact *)
Theorem C45_sum_difference_fit :
  forall p a b, ssm 1073741823 a -> ssm 1073741823 b ->
    isz_add p a b = Done (sz_add a b) /\ isz_sub p a b = Done (sz_sub a b).
Proof.
  intros p a b (Ra & Ta & Ba & Ca) (Rb & Tb & Bb & Cb).
  assert (HA : forall x y, sm 1073741823 x -> sm 1073741823 y -> iadd p x y = Done (x + y)) by (unfold sm; intros; apply i32_fits; lia).
  assert (HS : forall x y, sm 1073741823 x -> sm 1073741823 y -> isub p x y = Done (x - y)) by (unfold sm; intros; apply i32_fits; lia).
  split.
  - unfold isz_add. rewrite (imat2_fits _ _ _ _ _ _ HA Ra Rb). cbn [obind]. rewrite (ivec2_fits _ _ _ _ _ _ HA Ta Tb). cbn [obind].
    rewrite (ivec2_fits _ _ _ _ _ _ HA Ba Bb). cbn [obind]. rewrite (HA _ _ Ca Cb). reflexivity.
  - unfold isz_sub. rewrite (imat2_fits _ _ _ _ _ _ HS Ra Rb). cbn [obind]. rewrite (ivec2_fits _ _ _ _ _ _ HS Ta Tb). cbn [obind].
    rewrite (ivec2_fits _ _ _ _ _ _ HS Ba Bb). cbn [obind]. rewrite (HS _ _ Ca Cb). reflexivity.
Qed.
(** comparing rotations is exact except that [-v] of the smallest [i32] does not exist *)
Theorem C45_unique_rotation_fits :
  forall p a b, msm 2147483647 (rot a) -> iis_unique_rotation p a b = Done (is_unique_rotation a b).
Proof.
  intros p a b H. unfold iis_unique_rotation, is_unique_rotation. destruct (meqb (rot a) (rot b)); [reflexivity |].
  unfold imap3. rewrite (imat2_fits (fun x _ => ineg p x) (fun x _ => - x) (sm 2147483647) (sm 2147483647) (rot a) (rot a)); [reflexivity | | exact H | exact H].
  unfold sm. intros x _ X _. apply i32_fits. lia.
Qed.
Lemma itrace_fits p m : is_affine m -> sm 715827882 (m11 (rot m)) -> sm 715827882 (m22 (rot m)) -> sm 715827882 (m33 (rot m)) ->
  itrace p m = Done (sz_trace m).
Proof.
  intros (_ & C) A B D. unfold sm in *. unfold itrace, iadd, isub, sz_trace. rewrite C.
  rewrite (i32_fits p (m11 (rot m) + m22 (rot m))) by lia. cbn [obind].
  rewrite (i32_fits p (m11 (rot m) + m22 (rot m) + m33 (rot m))) by lia. cbn [obind].
  rewrite (i32_fits p (m11 (rot m) + m22 (rot m) + m33 (rot m) + 1)) by lia. cbn [obind].
  rewrite i32_fits by lia. f_equal.
Qed.
(** the rotation type and the proper rotation are exact if the diagonal is at most a third of the range *)
Theorem C45_rotation_type_fits :
  forall p m, is_affine m -> sm 715827882 (m11 (rot m)) -> sm 715827882 (m22 (rot m)) -> sm 715827882 (m33 (rot m)) ->
    irotation_type p m = Done (rotation_type m) /\
    (msm 2147483647 (rot m) -> iproper_rotation p m = Done (proper_rotation m)).
Proof.
  intros p m A T1 T2 T3. assert (E : irotation_type p m = Done (rotation_type m)).
  { unfold irotation_type. rewrite itrace_fits by assumption. reflexivity. }
  split; [exact E |]. intros S. unfold iproper_rotation, proper_rotation. rewrite E. cbn [obind].
  assert (D : forall k, rotation_type m = Some k -> sz_det m = 1 \/ sz_det m = -1).
  { intros k. unfold rotation_type, rotation_type_of.
    destruct (Z.eq_dec (sz_det m) 1) as [-> | N1]; [auto |]. destruct (Z.eq_dec (sz_det m) (-1)) as [-> | N2]; [auto |].
    revert N1 N2. generalize (sz_det m). clear. intros d N1 N2.
    rewrite (proj2 (Z.eqb_neq d 1)) by assumption. rewrite (proj2 (Z.eqb_neq d (-1))) by assumption. cbn. discriminate. }
  destruct (rotation_type m) as [k |] eqn:K; [| reflexivity]. specialize (D k eq_refl).
  assert (F : imap3 (fun v => imul p v (sz_det m)) (rot m) = Done (mmap (fun v => v * sz_det m) (rot m))).
  { unfold imap3. rewrite (imat2_fits (fun v _ => imul p v (sz_det m)) (fun v _ => v * sz_det m) (sm 2147483647) (sm 2147483647) _ _); [reflexivity | | exact S | exact S].
    unfold sm. intros x _ X _. apply i32_fits. destruct D as [-> | ->]; lia. }
  rewrite F. destruct k; reflexivity.
Qed.
Lemma idot3_fits p N a1 a2 a3 b1 b2 b3 : sm N a1 -> sm N a2 -> sm N a3 -> sm 1 b1 -> sm 1 b2 -> sm 1 b3 -> 3 * N <= 2147483647 ->
  idot3 p a1 a2 a3 b1 b2 b3 = Done (a1 * b1 + a2 * b2 + a3 * b3).
Proof.
  intros A1 A2 A3 B1 B2 B3 H.
  assert (M : forall a b, sm N a -> sm 1 b -> sm N (a * b)) by (clear; unfold sm; intros; nia).
  pose proof (M _ _ A1 B1) as P1. pose proof (M _ _ A2 B2) as P2. pose proof (M _ _ A3 B3) as P3. clear M A1 A2 A3 B1 B2 B3.
  unfold idot3, imul, iadd. set (q1 := a1 * b1) in *. set (q2 := a2 * b2) in *. set (q3 := a3 * b3) in *. unfold sm in *.
  rewrite (i32_fits p q1) by lia. cbn [obind]. rewrite (i32_fits p q2) by lia. cbn [obind]. rewrite (i32_fits p (q2 + q1)) by lia. cbn [obind].
  rewrite (i32_fits p q3) by lia. cbn [obind]. rewrite i32_fits by lia. f_equal. lia.
Qed.
Lemma imvmul_fits p N m v : msm N m -> vsm 1 v -> 3 * N <= 2147483647 -> imvmul p m v = Done (mvmul m v).
Proof.
  intros (A1&A2&A3&A4&A5&A6&A7&A8&A9) (B1&B2&B3) H. unfold imvmul.
  rewrite (idot3_fits p N (m11 m)) by assumption. cbn [obind]. rewrite (idot3_fits p N (m21 m)) by assumption. cbn [obind].
  rewrite (idot3_fits p N (m31 m)) by assumption. reflexivity.
Qed.
Lemma itrials_fits p N m l : msm N m -> 3 * N <= 2147483647 -> (forall v, In v l -> vsm 1 v) ->
  itrials p m l = Done (filter (fun t => veqb (mvmul m t) v0 && negb (veqb t v0)) l).
Proof.
  intros M H. induction l as [| t l IH]; intros L; cbn [itrials filter]; [reflexivity |].
  rewrite (imvmul_fits p N) by (auto using in_eq). cbn [obind]. rewrite IH by (intros; apply L; now right). reflexivity.
Qed.
Lemma trial_sm v : In v trial_vectors -> vsm 1 v.
Proof.
  unfold trial_vectors. rewrite in_flat_map. intros (i & Hi & H). apply in_flat_map in H. destruct H as (j & Hj & H).
  apply in_map_iff in H. destruct H as (k & <- & Hk). cbn [In] in *. unfold vsm, sm. cbn [vx vy vz]. lia.
Qed.
(** the eigenvector is exact if the entries are at most 65536 and the determinant at most 700 million *)
Theorem C45_eigenvector_fits :
  forall p m, entries_within 65536 (rot m) -> Z.abs (det_spec (rot m)) <= 700000000 ->
    ieigenvector p m = Done (eigenvector m).
Proof.
  intros p m W D. assert (E : sz_det m = det_spec (rot m)). { apply C18_determinant_exact; [exact W | unfold fits_i32; lia]. }
  unfold ieigenvector, eigenvector. rewrite E. set (d := det_spec (rot m)) in *. clearbody d.
  assert (F : imap3 (fun v => imul p v d) I3 = Done (mmap (fun v => v * d) I3)).
  { unfold imap3. rewrite (imat2_fits (fun v _ => imul p v d) (fun v _ => v * d) (fun v => 0 <= v <= 1) (fun v => 0 <= v <= 1) I3 I3); [reflexivity | | cbn; lia | cbn; lia].
    intros x _ X _. apply i32_fits. nia. }
  rewrite F. cbn [obind].
  assert (R : msm 65536 (rot m)). { unfold entries_within in W. unfold msm, sm. lia. }
  assert (X : msm 700000000 (mmap (fun v => v * d) I3)). { unfold msm, sm, mmap, I3. cbn [m11 m12 m13 m21 m22 m23 m31 m32 m33]. lia. }
  rewrite (imat2_fits (isub p) Z.sub (sm 65536) (sm 700000000) _ _); [| | exact R | exact X].
  2: { unfold sm. intros. apply i32_fits. lia. }
  cbn [obind].
  match goal with |- context [itrials p ?M _] => change M with (msub (rot m) (mmap (fun v => v * d) I3)) end.
  assert (Y : msm 700065536 (msub (rot m) (mmap (fun v => v * d) I3))).
  { destruct R as (?&?&?&?&?&?&?&?&?). destruct X as (?&?&?&?&?&?&?&?&?). unfold sm in *. unfold msm, msub, sm.
    cbn [m11 m12 m13 m21 m22 m23 m31 m32 m33] in *. lia. }
  rewrite (itrials_fits p _ _ _ Y ltac:(lia) trial_sm). reflexivity.
Qed.
(** both hypotheses hold for every rotation that occurs in practice; without them a release build
    can return a vector that is not on the axis (and a debug build panics) *)
Lemma C45_eigenvector_case : entries_within 65536 (M3 0 (-1) 0 1 (-1) 0 0 0 1) /\ Z.abs (det_spec (M3 0 (-1) 0 1 (-1) 0 0 0 1)) <= 700000000.
Proof. split; vm_compute; intuition discriminate. Qed.
Theorem C45_release_eigenvector_refuted :
  let m := aff (M3 2147483647 2147483647 2 0 0 0 0 0 0) v0 in
  eigenvector m = Some (V3 (-1) 1 0) /\ ieigenvector ReleaseBuild m = Done (Some (V3 1 1 1)) /\ ieigenvector DebugBuild m = overflow.
Proof. cbv zeta. split; [| split]; vm_compute; reflexivity. Qed.
