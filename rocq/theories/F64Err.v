(** * F64Err: rounded sums and products of f64, with their relative error. *)
From Coq Require Import SpecFloat.
From Verif Require Import Base Notations Seitz F64 F64Facts F64Div.
Open Scope Z_scope.

Definition sg (s : bool) : Z := if s then -1 else 1.
(** [f] is a normalised float with exponent at least [lo], of value exactly [v / 2^500] *)
Definition hv (lo : Z) (f : f64) (v : Z) : Prop :=
  match f with
  | S754_zero _ => v = 0
  | S754_finite s m e => lo <= e /\ 2 ^ 52 <= Z.pos m < 2 ^ 53 /\ v = sg s * (Z.pos m * 2 ^ (e + 500))
  | _ => False
  end.
(** one rounding: [u] is [x] up to one part in 2^53 *)
Definition rounds_to (x u : Z) : Prop := 2 ^ 53 * Z.abs (u - x) <= Z.abs x.

Lemma sg_abs s x : Z.abs (sg s * x) = Z.abs x.
Proof. destruct s; unfold sg; lia. Qed.
Lemma hv_lower lo lo' f v : lo' <= lo -> hv lo f v -> hv lo' f v.
Proof. intros H. destruct f; unfold hv; try tauto. intros (A & B). split; [lia | exact B]. Qed.
Lemma pow2_pos a : 0 <= a -> 0 < 2 ^ a.
Proof. intros. apply Z.pow_pos_nonneg; lia. Qed.
(** the exponent of a float of bounded value *)
Lemma hv_exponent lo B s m e v : 0 <= B -> hv lo (S754_finite s m e) v -> - 500 <= lo -> Z.abs v < 2 ^ (552 + B) -> e < B.
Proof.
  intros HB (L & M & ->) HL H. rewrite sg_abs in H.
  destruct (Z.lt_ge_cases e B) as [|G]; [assumption | exfalso].
  assert (P : 2 ^ (500 + B) <= 2 ^ (e + 500)) by (apply Z.pow_le_mono_r; lia).
  assert (Q : 2 ^ (552 + B) = 2 ^ 52 * 2 ^ (500 + B)) by (rewrite <- Z.pow_add_r by lia; f_equal; lia).
  pose proof (pow2_pos (500 + B) ltac:(lia)).
  assert (2 ^ 52 * 2 ^ (500 + B) <= Z.pos m * 2 ^ (e + 500)) by (apply Z.mul_le_mono_nonneg; lia).
  rewrite Z.abs_eq in H by (apply Z.mul_nonneg_nonneg; lia). lia.
Qed.
(** rounding a mantissa with at least 53 digits *)
Lemma round_aux_hv s p e : 2 ^ 52 <= Z.pos p -> -470 <= e <= 200 -> Z.log2 (Z.pos p) <= 480 ->
  exists u, hv (Z.log2 (Z.pos p) - 52 + e) (binary_round_aux prec64 emax64 s (Z.pos p) e loc_Exact) u /\
    rounds_to (sg s * (Z.pos p * 2 ^ (e + 500))) u.
Proof.
  intros Hp He HL.
  assert (S : sem (shr_record_of_loc (Z.pos p) loc_Exact) (Z.pos p) 1).
  { unfold sem. cbn [shr_record_of_loc shr_m shr_r shr_s]. lia. }
  destruct (round_aux_sem s (Z.pos p) e loc_Exact (Z.pos p) 1 Hp ltac:(lia) ltac:(lia) ltac:(lia) S)
    as (M & m' & e' & E & RN & _ & BM & Cs).
  set (j := Z.log2 (Z.pos p) - 52) in *. rewrite Z.mul_1_l in RN.
  assert (L52 : 52 <= Z.log2 (Z.pos p)) by (apply Z.log2_le_pow2; lia).
  assert (Pj : 0 < 2 ^ j) by (apply pow2_pos; lia).
  assert (Pe : 0 < 2 ^ (e + 500)) by (apply pow2_pos; lia).
  exists (sg s * (M * 2 ^ (e + j + 500))). rewrite E. split.
  - unfold hv. destruct Cs as [(-> & -> & HM) | (-> & Hm & ->)].
    + split; [lia |]. split; [lia |]. reflexivity.
    + split; [lia |]. rewrite Hm. split; [lia |]. f_equal.
      replace (e + j + 1 + 500) with (1 + (e + j + 500)) by lia. rewrite (Z.pow_add_r 2 1) by lia.
      change (2 ^ 53) with (2 ^ 52 * 2). change (2 ^ 1) with 2. ring.
  - unfold rounds_to. replace (e + j + 500) with (j + (e + 500)) by lia. rewrite Z.pow_add_r by lia.
    set (w := 2 ^ (e + 500)) in *. set (q := 2 ^ j) in *. clearbody w.
    replace (sg s * (M * (q * w)) - sg s * (Z.pos p * w)) with (sg s * ((M * q - Z.pos p) * w)) by ring.
    rewrite !sg_abs, !Z.abs_mul, (Z.abs_eq w) by lia. rewrite Z.mul_assoc. apply Z.mul_le_mono_nonneg_r; [lia |].
    rewrite (Z.abs_eq (Z.pos p)) by lia.
    assert (LP : q * 2 ^ 52 <= Z.pos p).
    { pose proof (Z.log2_spec (Z.pos p) ltac:(lia)) as [LL _]. replace (Z.log2 (Z.pos p)) with (j + 52) in LL by lia.
      rewrite Z.pow_add_r in LL by lia. exact LL. }
    lia.
Qed.
Lemma round_hv lo s p e : -470 <= e <= 200 -> Z.log2 (Z.pos p) <= 480 -> -470 <= lo <= e - 52 ->
  exists u, hv lo (binary_round prec64 emax64 s p e) u /\ rounds_to (sg s * (Z.pos p * 2 ^ (e + 500))) u.
Proof.
  intros He HL Hlo. unfold binary_round, shl_align. rewrite digits2_log2.
  unfold fexp, emin. change (Z.max (Z.log2 (Z.pos p) + 1 + e - prec64) (3 - emax64 - prec64))
    with (Z.max (Z.log2 (Z.pos p) + 1 + e - 53) (-1074)).
  pose proof (Z.log2_nonneg (Z.pos p)) as L0.
  replace (Z.max (Z.log2 (Z.pos p) + 1 + e - 53) (-1074)) with (Z.log2 (Z.pos p) + e - 52) by lia.
  replace (Z.log2 (Z.pos p) + e - 52 - e) with (Z.log2 (Z.pos p) - 52) by lia.
  assert (BIG : 52 <= Z.log2 (Z.pos p) -> 2 ^ 52 <= Z.pos p).
  { intros H. apply Z.log2_le_pow2; lia. }
  destruct (Z.log2 (Z.pos p) - 52) as [| d | d] eqn:D.
  1-2: destruct (round_aux_hv s p e (BIG ltac:(lia)) He HL) as (u & H & R); exists u; split; [| exact R];
       eapply hv_lower; [| exact H]; lia.
  assert (ES : Z.pos (shift_pos d p) = Z.pos p * 2 ^ Z.pos d) by apply shift_pos_pow.
  assert (LS : Z.log2 (Z.pos (shift_pos d p)) = 52) by (rewrite ES, log2_scaled; lia).
  destruct (round_aux_hv s (shift_pos d p) (Z.log2 (Z.pos p) + e - 52)) as (u & H & R).
  - apply Z.log2_le_pow2; lia.
  - lia.
  - lia.
  - exists u. split; [eapply hv_lower; [| exact H]; lia |].
    replace (Z.pos p * 2 ^ (e + 500)) with (Z.pos (shift_pos d p) * 2 ^ (Z.log2 (Z.pos p) + e - 52 + 500)); [exact R |].
    rewrite ES, <- Z.mul_assoc, <- Z.pow_add_r by lia. f_equal. f_equal. lia.
Qed.
Lemma normalize_hv lo m e z : -470 <= e <= 200 -> Z.log2 (Z.abs m) <= 480 -> -470 <= lo <= e - 52 ->
  exists u, hv lo (binary_normalize prec64 emax64 m e z) u /\ rounds_to (m * 2 ^ (e + 500)) u.
Proof.
  intros He HL Hlo. unfold binary_normalize. destruct m as [| p | p].
  - exists 0. split; [reflexivity |]. unfold rounds_to. lia.
  - destruct (round_hv lo false p e He HL Hlo) as (u & H & R). exists u. split; [exact H |].
    unfold sg in R. rewrite Z.mul_1_l in R. exact R.
  - destruct (round_hv lo true p e He HL Hlo) as (u & H & R). exists u. split; [exact H |].
    unfold sg in R. change (Z.neg p) with (- Z.pos p). replace (- Z.pos p * 2 ^ (e + 500)) with (-1 * (Z.pos p * 2 ^ (e + 500))) by ring.
    exact R.
Qed.
Lemma align_value m e e' : e' <= e -> -500 <= e' -> Z.pos (fst (shl_align m e e')) * 2 ^ (e' + 500) = Z.pos m * 2 ^ (e + 500).
Proof.
  intros H L. unfold shl_align. destruct (e' - e) as [| d | d] eqn:E; cbn [fst]; [| lia |].
  - f_equal. f_equal. lia.
  - rewrite shift_pos_pow, <- Z.mul_assoc, <- Z.pow_add_r by lia. f_equal. f_equal. lia.
Qed.
Lemma cond_opp_sg s x : cond_Zopp s x = sg s * x.
Proof. destruct s; unfold cond_Zopp, sg; lia. Qed.
Lemma rounds_to_refl x : rounds_to x x.
Proof. unfold rounds_to. rewrite Z.sub_diag. lia. Qed.
Lemma hv_opp lo f v : hv lo f v -> hv lo (fneg f) (- v).
Proof.
  destruct f as [s | | | s m e]; unfold hv, fneg, SFopp; try tauto; [lia |].
  intros (A & B & ->). split; [assumption |]. split; [assumption |]. destruct s; unfold sg, negb; lia.
Qed.
(** sum of two floats below 2^60 *)
Lemma fadd_hv lo f g v w : -400 <= lo -> hv lo f v -> hv lo g w -> Z.abs v < 2 ^ 560 -> Z.abs w < 2 ^ 560 ->
  exists u, hv (lo - 53) (fadd f g) u /\ rounds_to (v + w) u.
Proof.
  intros Hlo Hf Hg Bv Bw. unfold fadd, SFadd.
  destruct f as [sf | | | sf mf ef], g as [sgn | | | sgn mg eg]; try contradiction.
  - exists 0. unfold hv in *. subst. split; [destruct (Bool.eqb sf sgn); reflexivity | apply rounds_to_refl].
  - exists w. split; [eapply hv_lower; [| exact Hg]; lia |]. unfold hv in Hf. subst v. apply rounds_to_refl.
  - exists v. split; [eapply hv_lower; [| exact Hf]; lia |]. unfold hv in Hg. subst w. rewrite Z.add_0_r. apply rounds_to_refl.
  - pose proof (hv_exponent lo 8 sf mf ef v ltac:(lia) Hf ltac:(lia) Bv) as E1.
    pose proof (hv_exponent lo 8 sgn mg eg w ltac:(lia) Hg ltac:(lia) Bw) as E2.
    destruct Hf as (L1 & M1 & V1), Hg as (L2 & M2 & V2).
    set (e := Z.min ef eg). assert (He : lo <= e <= 8 /\ e <= ef /\ e <= eg) by lia.
    pose proof (align_value mf ef e ltac:(lia) ltac:(lia)) as A1. pose proof (align_value mg eg e ltac:(lia) ltac:(lia)) as A2.
    set (a1 := fst (shl_align mf ef e)) in *. set (a2 := fst (shl_align mg eg e)) in *.
    rewrite !cond_opp_sg. set (N := sg sf * Z.pos a1 + sg sgn * Z.pos a2).
    assert (EN : v + w = N * 2 ^ (e + 500)).
    { unfold N. rewrite V1, V2, <- A1, <- A2. ring. }
    assert (BN : Z.abs N < 2 ^ 480).
    { assert (Pe : 2 ^ 100 <= 2 ^ (e + 500)) by (apply Z.pow_le_mono_r; lia).
      assert (X : Z.abs N * 2 ^ (e + 500) < 2 ^ 561).
      { rewrite <- (Z.abs_eq (2 ^ (e + 500))) by lia. rewrite <- Z.abs_mul, <- EN. change (2 ^ 561) with (2 ^ 560 + 2 ^ 560). lia. }
      clear - Pe X. destruct (Z.lt_ge_cases (Z.abs N) (2 ^ 480)) as [|G]; [assumption | exfalso].
      assert (2 ^ 480 * 2 ^ 100 <= Z.abs N * 2 ^ (e + 500)) by (apply Z.mul_le_mono_nonneg; lia).
      assert (2 ^ 561 < 2 ^ 480 * 2 ^ 100) by reflexivity. lia. }
    rewrite EN. apply normalize_hv; [lia | | lia].
    destruct (Z.eq_dec (Z.abs N) 0) as [-> | NZ]; [cbn; lia |].
    assert (Z.log2 (Z.abs N) < 480) by (apply Z.log2_lt_pow2; lia). lia.
Qed.
Lemma fsub_neg f g : fsub f g = fadd f (fneg g).
Proof. destruct f as [| | | ? ? ?], g as [| | | ? ? ?]; try reflexivity.
  unfold fsub, fadd, fneg, SFsub, SFadd, SFopp. f_equal. rewrite !cond_opp_sg.
  destruct s, s0; unfold negb, sg; lia.
Qed.
Lemma fsub_hv lo f g v w : -400 <= lo -> hv lo f v -> hv lo g w -> Z.abs v < 2 ^ 560 -> Z.abs w < 2 ^ 560 ->
  exists u, hv (lo - 53) (fsub f g) u /\ rounds_to (v - w) u.
Proof.
  intros Hlo Hf Hg Bv Bw. rewrite fsub_neg. apply fadd_hv; auto; [now apply hv_opp |]. now rewrite Z.abs_opp.
Qed.
(** product with an integer *)
Lemma fmul_hv lo f g v a : -400 <= lo -> hv lo f v -> rep g a -> Z.abs v < 2 ^ 560 ->
  exists u, hv lo (fmul f g) u /\ rounds_to (v * a) u.
Proof.
  intros Hlo Hf Hg Bv. unfold fmul, SFmul.
  destruct f as [sf | | | sf mf ef], g as [sgn | | | sgn mg eg]; try contradiction.
  1-2: exists 0; unfold hv in Hf; subst v; split; [reflexivity | apply rounds_to_refl].
  - exists 0. unfold rep_s in Hg. subst a. rewrite Z.mul_0_r. split; [reflexivity | apply rounds_to_refl].
  - pose proof (hv_exponent lo 8 sf mf ef v ltac:(lia) Hf ltac:(lia) Bv) as E1.
    destruct Hf as (L1 & M1 & V1), Hg as (E2 & N2 & M2 & S2).
    pose proof (log2_53 _ N2) as L2. replace (- 0 - eg) with (- eg) in M2 by lia.
    assert (B2 : 2 ^ 52 <= Z.pos mg < 2 ^ 53).
    { rewrite M2. pose proof (Z.log2_spec (Z.abs a) ltac:(lia)) as LS. replace (Z.log2 (Z.abs a)) with (52 + eg) in LS by lia.
      replace (Z.succ (52 + eg)) with (53 + eg) in LS by lia.
      assert (P : 0 < 2 ^ (- eg)) by (apply pow2_pos; lia).
      assert (X1 : 2 ^ (52 + eg) * 2 ^ (- eg) = 2 ^ 52) by (rewrite <- Z.pow_add_r by lia; f_equal; lia).
      assert (X2 : 2 ^ (53 + eg) * 2 ^ (- eg) = 2 ^ 53) by (rewrite <- Z.pow_add_r by lia; f_equal; lia).
      rewrite <- X1, <- X2. split; [apply Z.mul_le_mono_nonneg_r; lia | apply Z.mul_lt_mono_pos_r; lia]. }
    assert (BP : 2 ^ 104 <= Z.pos (mf * mg) < 2 ^ 106).
    { rewrite Pos2Z.inj_mul. split.
      - change (2 ^ 104) with (2 ^ 52 * 2 ^ 52). apply Z.mul_le_mono_nonneg; lia.
      - change (2 ^ 106) with (2 ^ 53 * 2 ^ 53). apply Z.mul_lt_mono_nonneg; lia. }
    assert (LP : 104 <= Z.log2 (Z.pos (mf * mg)) < 106).
    { split; [apply Z.log2_le_pow2; lia | apply Z.log2_lt_pow2; lia]. }
    destruct (round_aux_hv (xorb sf sgn) (mf * mg) (ef + eg)) as (u & H & R); [lia | lia | lia |].
    exists u. split; [eapply hv_lower; [| exact H]; lia |].
    replace (v * a) with (sg (xorb sf sgn) * (Z.pos (mf * mg) * 2 ^ (ef + eg + 500))); [exact R |].
    rewrite V1, Pos2Z.inj_mul, M2.
    assert (Ea : a = sg sgn * Z.abs a) by (rewrite S2; unfold sg; destruct (Z.ltb_spec a 0); lia).
    rewrite Ea at 2. replace (sg (xorb sf sgn)) with (sg sf * sg sgn) by (destruct sf, sgn; reflexivity).
    replace (2 ^ (ef + 500)) with (2 ^ (- eg) * 2 ^ (ef + eg + 500)); [ring |].
    rewrite <- Z.pow_add_r by lia. f_equal. lia.
Qed.
Lemma fmul_comm f g : fmul f g = fmul g f.
Proof.
  unfold fmul, SFmul. destruct f as [sf | sf | | sf mf ef], g as [s2 | s2 | | s2 m2 e2]; try reflexivity;
    try (destruct sf, s2; reflexivity).
  rewrite (Pos.mul_comm mf m2), (Z.add_comm ef e2). destruct sf, s2; reflexivity.
Qed.
