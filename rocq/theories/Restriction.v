(** * Restriction: the crystallographic restriction for integer 3x3 matrices.

    An integer matrix of finite order and determinant 1 has trace -1, 0, 1, 2 or 3 and
    order 2, 3, 4, 6 or 1 accordingly.  Proof: the sum of the squares of the powers is an
    invariant positive form, so trace M = trace M^-1; the traces of the powers then follow
    b(k+2) = c b(k+1) - b(k), c = trace - 1, which is unbounded for |c| > 2. *)
From Verif Require Import Base Seitz Spec Algebra.
Open Scope Z_scope.

Ltac mc_in H := cbn [m11 m12 m13 m21 m22 m23 m31 m32 m33 vx vy vz rot tra bot cor fst snd] in H.
Ltac mc_all := cbn [m11 m12 m13 m21 m22 m23 m31 m32 m33 vx vy vz rot tra bot cor fst snd] in *.
Ltac mat_lin := intros; apply mat3_ext;
  cbn [m11 m12 m13 m21 m22 m23 m31 m32 m33 madd msub mscale mmap mopp mmul I3]; ring.
Definition mtr (a : mat3) : mat3 :=
  M3 (m11 a) (m21 a) (m31 a) (m12 a) (m22 a) (m32 a) (m13 a) (m23 a) (m33 a).
Definition m0 : mat3 := M3 0 0 0 0 0 0 0 0 0.
Definition quad (B : mat3) (v : vec3) : Z := vdot v (mvmul B v).
Lemma mtr_mmul a b : mtr (mmul a b) = mmul (mtr b) (mtr a). Proof. unfold mtr. mat_ring. Qed.
Lemma mmul_madd_r a b c : mmul a (madd b c) = madd (mmul a b) (mmul a c). Proof. mat_ring. Qed.
Lemma mmul_madd_l a b c : mmul (madd b c) a = madd (mmul b a) (mmul c a). Proof. mat_ring. Qed.
Lemma mmul_msub_r a b c : mmul a (msub b c) = msub (mmul a b) (mmul a c). Proof. mat_ring. Qed.
Lemma mmul_msub_l a b c : mmul (msub b c) a = msub (mmul b a) (mmul c a). Proof. mat_ring. Qed.

(** ** powers *)
Lemma mpow_S_r M n : mpow M (S n) = mmul (mpow M n) M.
Proof.
  induction n as [| n IH]; cbn [mpow] in *; [now rewrite mmul_I_l, mmul_I_r |].
  rewrite IH at 1. now rewrite mmul_assoc.
Qed.
Lemma mpow_plus M i j : mpow M (i + j) = mmul (mpow M i) (mpow M j).
Proof.
  induction i as [| i IH]; cbn [Nat.add mpow]; [now rewrite mmul_I_l | now rewrite IH, mmul_assoc].
Qed.
Lemma mpow_times M i j : mpow M (i * j) = mpow (mpow M i) j.
Proof.
  induction j as [| j IH].
  - rewrite Nat.mul_0_r. reflexivity.
  - rewrite Nat.mul_succ_r, Nat.add_comm, mpow_plus, IH. reflexivity.
Qed.
Lemma mpow_I n : mpow I3 n = I3.
Proof. induction n as [| n IH]; cbn [mpow]; [reflexivity |]. now rewrite IH, mmul_I_l. Qed.
Lemma mpow_mopp M n : mpow (mopp M) n = if Nat.even n then mpow M n else mopp (mpow M n).
Proof.
  induction n as [| n IH]; [reflexivity |]. rewrite Nat.even_succ, <- Nat.negb_even. cbn [mpow]. rewrite IH.
  destruct (Nat.even n); cbn [negb]; [now rewrite mmul_mopp_l |].
  now rewrite mmul_mopp_l, mmul_mopp_r, mopp_mopp.
Qed.
Lemma mdet_mpow M n : mdet (mpow M n) = mdet M ^ Z.of_nat n.
Proof.
  induction n as [| n IH]; [reflexivity |]. cbn [mpow].
  rewrite mdet_mmul, IH, Nat2Z.inj_succ, Z.pow_succ_r by lia. reflexivity.
Qed.

(** ** the invariant form *)
Definition sq (A : mat3) : mat3 := mmul (mtr A) A.
Fixpoint form (M : mat3) (n : nat) : mat3 :=
  match n with O => m0 | S k => madd (form M k) (sq (mpow M k)) end.
Lemma quad_madd a b v : quad (madd a b) v = quad a v + quad b v.
Proof. unfold quad, vdot, mvmul, madd. mat_cbn. ring. Qed.
Lemma quad_sq A v : quad (sq A) v = vdot (mvmul A v) (mvmul A v).
Proof. unfold quad, sq, mtr, vdot, mvmul, mmul. mat_cbn. ring. Qed.
Lemma vdot_pos v : 0 <= vdot v v. Proof. unfold vdot. nia. Qed.
Lemma vdot_zero v : vdot v v <= 0 -> v = V3 0 0 0.
Proof.
  destruct v as [x y z]. unfold vdot. mat_cbn. intros H.
  assert (x = 0 /\ y = 0 /\ z = 0) as (-> & -> & ->) by nia. reflexivity.
Qed.
Lemma quad_form M n v : (0 < n)%nat -> vdot v v <= quad (form M n) v.
Proof.
  induction n as [| n IH]; intros H; [lia |]. cbn [form]. rewrite quad_madd, quad_sq.
  destruct n as [| n].
  - cbn [form mpow]. rewrite mvmul_I. unfold quad, m0, vdot, mvmul. mat_cbn. lia.
  - specialize (IH ltac:(lia)). pose proof (vdot_pos (mvmul (mpow M (S n)) v)). lia.
Qed.
(** M^T B M = B *)
Lemma form_shift M n : madd (mmul (mmul (mtr M) (form M n)) M) I3 = madd (form M n) (sq (mpow M n)).
Proof.
  induction n as [| n IH]; [unfold form, sq, mtr, m0; cbn [mpow]; apply mat3_ext; unfold madd, mmul, I3; mat_cbn; ring |].
  cbn [form]. rewrite mmul_madd_r, mmul_madd_l.
  assert (mmul (mmul (mtr M) (sq (mpow M n))) M = sq (mpow M (S n))) as ->.
  { unfold sq. rewrite (mpow_S_r M n), mtr_mmul. now rewrite !mmul_assoc. }
  rewrite <- IH. generalize (sq (mpow M (S n))) (mmul (mmul (mtr M) (form M n)) M) (form M n) (sq (mpow M n)). clear. mat_lin.
Qed.
Lemma madd_cancel a b c : madd a c = madd b c -> a = b.
Proof.
  intros H. destruct a, b, c. unfold madd in H. mc_in H. injection H; intros.
  apply mat3_ext; mat_cbn; lia.
Qed.
Lemma form_invariant M n : mpow M n = I3 -> mmul (mmul (mtr M) (form M n)) M = form M n.
Proof.
  intros H. apply (madd_cancel _ _ I3). rewrite form_shift, H. f_equal.
Qed.
(** a positive form has a non-zero determinant *)
Lemma positive_det B : (forall v, vdot v v <= quad B v) -> mdet B <> 0.
Proof.
  intros P D.
  assert (K : forall v, mvmul B v = V3 0 0 0 -> v = V3 0 0 0).
  { intros v H. apply vdot_zero. specialize (P v). unfold quad in P. rewrite H in P.
    unfold vdot at 2 in P. mc_in P. lia. }
  assert (Z : forall v, mvmul B (mvmul (madj B) v) = V3 0 0 0).
  { intros v. rewrite <- mvmul_mmul, madj_r, D. mat_ring. }
  pose proof (K _ (Z (V3 1 0 0))) as K1. pose proof (K _ (Z (V3 0 1 0))) as K2.
  pose proof (K _ (Z (V3 0 0 1))) as K3.
  assert (V3 (m12 B) (- m11 B) 0 = V3 0 0 0) as E.
  { apply K. clear - K1 K2 K3. unfold madj, mvmul in *. mc_all.
    injection K1; injection K2; injection K3; intros. apply vec3_ext; mat_cbn; lia. }
  injection E as _ E. specialize (P (V3 1 0 0)).
  unfold quad, vdot, mvmul in P. mc_in P. lia.
Qed.
(** the trace of the inverse *)
Lemma trace_comm a b : mtrace (mmul a b) = mtrace (mmul b a).
Proof. unfold mtrace, mmul. mat_cbn. ring. Qed.
Lemma trace_inverse M n : (0 < n)%nat -> mpow M n = I3 -> mdet M = 1 -> mtrace (madj M) = mtrace M.
Proof.
  intros Hn H D. set (B := form M n).
  assert (mdet B <> 0) as NB by (apply positive_det; intros v; apply quad_form; assumption).
  assert (mmul (mmul (mtr M) B) M = B) as I by now apply form_invariant.
  (* tr(adj B M^T B) = det B tr M^T ;  M^T B M = B gives M^T B = B M^-1 *)
  assert (mmul (mtr M) B = mmul B (madj M)) as E.
  { rewrite <- I at 2. rewrite <- mmul_assoc, madj_r, D, mscale_1, mmul_I_r. reflexivity. }
  assert (mtrace (mmul (madj B) (mmul (mtr M) B)) = mdet B * mtrace M) as E1.
  { rewrite trace_comm, <- mmul_assoc, madj_r. unfold mtr, mtrace. mat_ring. }
  assert (mtrace (mmul (madj B) (mmul B (madj M))) = mdet B * mtrace (madj M)) as E2.
  { rewrite mmul_assoc, madj_l. generalize (madj M) (mdet B). intros. unfold mtrace. mat_ring. }
  rewrite E, E2 in E1. nia.
Qed.

(** ** Cayley-Hamilton and the trace recurrence *)
Lemma cayley_hamilton M :
  mmul M (mmul M M) = madd (msub (mscale (mtrace M) (mmul M M)) (mscale (mtrace (madj M)) M)) (mscale (mdet M) I3).
Proof. unfold madj, mtrace. mat_ring. Qed.
Definition special (M : mat3) : Prop := mdet M = 1 /\ mtrace (madj M) = mtrace M.
Lemma ch_special M k : special M ->
  mpow M (S (S (S k))) =
    madd (msub (mscale (mtrace M) (mpow M (S (S k)))) (mscale (mtrace M) (mpow M (S k)))) (mpow M k).
Proof.
  intros [D T]. cbn [mpow]. set (P := mpow M k).
  assert (mmul M (mmul M (mmul M P)) = mmul (mmul M (mmul M M)) P) as -> by now rewrite !mmul_assoc.
  rewrite cayley_hamilton, D, T, mscale_1.
  rewrite mmul_madd_l, mmul_msub_l, !mmul_mscale_l, mmul_I_l, <- mmul_assoc. reflexivity.
Qed.
Definition btr (M : mat3) (k : nat) : Z := mtrace (mpow M k) - 1.
Lemma btr_0 M : btr M 0 = 2. Proof. reflexivity. Qed.
Lemma btr_1 M : btr M 1 = mtrace M - 1.
Proof. unfold btr. cbn [mpow]. now rewrite mmul_I_r. Qed.
Lemma trace_square M : mtrace (mmul M M) = mtrace M * mtrace M - 2 * mtrace (madj M).
Proof. unfold madj, mtrace, mmul. mat_cbn. ring. Qed.
Lemma mtrace_lin a b c k l : mtrace (madd (msub (mscale k a) (mscale l b)) c) = k * mtrace a - l * mtrace b + mtrace c.
Proof. unfold mtrace, madd, msub, mscale, mmap. mat_cbn. ring. Qed.
Lemma btr_rec M k : special M -> btr M (S (S k)) = (mtrace M - 1) * btr M (S k) - btr M k.
Proof.
  intros S. induction k as [| k IH].
  - rewrite btr_0, btr_1. unfold btr. cbn [mpow]. rewrite mmul_I_r, trace_square.
    destruct S as [_ ->]. ring.
  - unfold btr at 1. rewrite (ch_special M k S), mtrace_lin. unfold btr in *. lia.
Qed.
(** unbounded growth *)
Lemma btr_grows M : special M -> 3 <= Z.abs (mtrace M - 1) ->
  forall k, 2 <= Z.abs (btr M k) /\ Z.abs (btr M k) < Z.abs (btr M (S k)).
Proof.
  intros S C. induction k as [| k [IH1 IH2]].
  - rewrite btr_0, btr_1. lia.
  - split; [lia |]. rewrite (btr_rec M k S). nia.
Qed.
Lemma trace_range M n : special M -> (0 < n)%nat -> mpow M n = I3 -> -1 <= mtrace M <= 3.
Proof.
  intros S Hn H. destruct (Z_lt_le_dec (Z.abs (mtrace M - 1)) 3) as [L | L]; [lia |]. exfalso.
  assert (btr M n = 2) as E by (unfold btr; rewrite H; reflexivity).
  destruct n as [| n]; [lia |]. destruct (btr_grows M S L n) as [H1 H2]. rewrite E in H2. lia.
Qed.

(** ** trace 3: the identity *)
Definition nil_part (M : mat3) : mat3 := msub M I3.
Lemma unipotent_pow M k : special M -> mtrace M = 3 ->
  let N := nil_part M in
  mscale 2 (mpow M k) =
    madd (madd (mscale 2 I3) (mscale (2 * Z.of_nat k) N)) (mscale (Z.of_nat k * (Z.of_nat k - 1)) (mmul N N)).
Proof.
  intros S T N.
  assert (mmul N (mmul N N) = m0) as N3.
  { destruct S as [D T']. pose proof (cayley_hamilton M) as CH. rewrite D, T', T in CH.
    unfold N, nil_part. 
    rewrite !mmul_msub_l, !mmul_msub_r, !mmul_I_l, !mmul_I_r, CH.
    generalize (mmul M M). clear. unfold m0. mat_lin. }
  assert (M = madd I3 N) as EM by (unfold N, nil_part; mat_ring).
  induction k as [| k IH].
  - cbn [mpow]. generalize (mmul N N). clearbody N. clear. change (Z.of_nat 0) with 0. mat_lin.
  - cbn [mpow]. rewrite <- mmul_mscale_r, IH. rewrite EM at 1. rewrite mmul_madd_l, mmul_I_l.
    rewrite !mmul_madd_r, !mmul_mscale_r, N3, mmul_I_r.
    replace (Z.of_nat (Datatypes.S k)) with (Z.of_nat k + 1) by lia.
    clearbody N. generalize (mmul N N) (Z.of_nat k). clear. unfold m0. mat_lin.
Qed.
Lemma mscale_zero k a : k <> 0 -> mscale k a = m0 -> a = m0.
Proof.
  intros K H. destruct a. unfold mscale, mmap, m0 in *. mc_in H. injection H; intros.
  apply mat3_ext; mat_cbn; nia.
Qed.
Lemma trace_3_identity M n : special M -> (0 < n)%nat -> mpow M n = I3 -> mtrace M = 3 -> M = I3.
Proof.
  intros S Hn H T. pose proof (unipotent_pow M n S T) as U. cbv zeta in U. rewrite H in U.
  set (N := nil_part M) in *. set (z := Z.of_nat n) in *. assert (0 < z) by (unfold z; lia).
  assert (mmul N (mmul N N) = m0) as N3.
  { destruct S as [D T']. pose proof (cayley_hamilton M) as CH. rewrite D, T', T in CH.
    unfold N, nil_part.
    rewrite !mmul_msub_l, !mmul_msub_r, !mmul_I_l, !mmul_I_r, CH.
    generalize (mmul M M). clear. unfold m0. mat_lin. }
  assert (madd (mscale (2 * z) N) (mscale (z * (z - 1)) (mmul N N)) = m0) as U1.
  { apply (madd_cancel _ _ (mscale 2 I3)). transitivity (mscale 2 I3); [rewrite U at 2 |]; unfold m0.
    - generalize (mscale (2 * z) N) (mscale (z * (z - 1)) (mmul N N)). clear. mat_lin.
    - clear. mat_lin. }
  assert (mmul N N = m0) as N2.
  { apply (mscale_zero (2 * z)); [lia |].
    assert (mmul N (madd (mscale (2 * z) N) (mscale (z * (z - 1)) (mmul N N))) = mscale (2 * z) (mmul N N)) as E.
    { rewrite mmul_madd_r, !mmul_mscale_r, N3. generalize (mmul N N). clear. unfold m0. mat_lin. }
    rewrite <- E, U1. clearbody N. clear. unfold m0. mat_lin. }
  rewrite N2 in U1.
  assert (N = m0) as N1.
  { apply (mscale_zero (2 * z)); [lia |]. rewrite <- U1. clearbody N. clear. unfold m0. mat_lin. }
  unfold N, nil_part, m0 in N1. destruct M. unfold msub, I3 in *. mc_in N1.
  injection N1; intros. apply mat3_ext; mat_cbn; lia.
Qed.
Lemma finite_special M n : (0 < n)%nat -> mpow M n = I3 -> mdet M = 1 -> special M.
Proof. intros Hn H D. split; [assumption | eapply trace_inverse; eauto]. Qed.

(** ** the order by the trace *)
Definition order_of_trace (t : Z) : nat :=
  if t =? 3 then 1 else if t =? -1 then 2 else if t =? 0 then 3 else if t =? 1 then 4 else 6.
Lemma trace_pow M k : mtrace (mpow M k) = btr M k + 1. Proof. unfold btr. lia. Qed.
Lemma not_I M : mtrace M <> 3 -> M <> I3. Proof. intros H ->. apply H. reflexivity. Qed.
Theorem order_classified M : finite_order M -> mdet M = 1 ->
  -1 <= mtrace M <= 3 /\ has_order M (order_of_trace (mtrace M)).
Proof.
  intros (n & Hn & H) D. pose proof (finite_special M n Hn H D) as S.
  pose proof (trace_range M n S Hn H) as R. split; [assumption |].
  assert (B1 : btr M 1 = mtrace M - 1) by apply btr_1.
  assert (B2 : btr M 2 = (mtrace M - 1) * (mtrace M - 1) - 2)
    by (rewrite (btr_rec M 0 S), btr_0, btr_1; ring).
  assert (B3 : btr M 3 = (mtrace M - 1) * btr M 2 - btr M 1) by apply (btr_rec M 1 S).
  assert (B4 : btr M 4 = (mtrace M - 1) * btr M 3 - btr M 2) by apply (btr_rec M 2 S).
  assert (B5 : btr M 5 = (mtrace M - 1) * btr M 4 - btr M 3) by apply (btr_rec M 3 S).
  assert (NI : forall k, btr M k <> 2 -> mpow M k <> I3) by (intros k Hk E; apply Hk; unfold btr; now rewrite E).
  assert (F : forall k, (0 < k)%nat -> mdet (mpow M k) = 1 /\ mpow (mpow M k) n = I3).
  { intros k Hk. split; [rewrite mdet_mpow, D; apply Z.pow_1_l; lia |].
    rewrite <- mpow_times, Nat.mul_comm, mpow_times, H. apply mpow_I. }
  assert (YI : forall k, (0 < k)%nat -> btr M k = 2 -> mpow M k = I3).
  { intros k Hk E. destruct (F k Hk) as [D' H']. apply (trace_3_identity _ n); [apply (finite_special _ n); assumption | assumption | assumption |].
    clear - E. unfold btr in E. lia. }
  unfold order_of_trace.
  assert (mtrace M = 3 \/ mtrace M = -1 \/ mtrace M = 0 \/ mtrace M = 1 \/ mtrace M = 2) as C by lia.
  assert (B6 : btr M 6 = (mtrace M - 1) * btr M 5 - btr M 4) by apply (btr_rec M 4 S).
  destruct C as [T | [T | [T | [T | T]]]]; rewrite T in *; cbn [Z.eqb Pos.eqb];
    (split; [lia | split; [apply YI; lia |]]);
    intros k Hk; apply NI; 
    (assert (k = 1 \/ k = 2 \/ k = 3 \/ k = 4 \/ k = 5)%nat as [-> | [-> | [-> | [-> | ->]]]] by lia); try lia.
Qed.
