(** * F64Facts: f64 arithmetic is exact on integers below 2^53, and on such integers divided by
    a power of two. *)
From Coq Require Import SpecFloat.
From Verif Require Import Base Notations Seitz F64.
Open Scope Z_scope.

(** [f] is a normalised float of value exactly [n / 2^k] *)
Definition rep_s (k : Z) (f : f64) (n : Z) : Prop :=
  match f with
  | S754_zero _ => n = 0
  | S754_finite s m e =>
      e = Z.log2 (Z.abs n) - 52 - k /\ 0 < Z.abs n < 2 ^ 53 /\ Z.pos m = Z.abs n * 2 ^ (- k - e) /\ s = (n <? 0)
  | _ => False
  end.
(** [f] is a float of value exactly [n] *)
Notation rep := (rep_s 0).

Lemma digits2_log2 m : Z.pos (digits2_pos m) = Z.log2 (Z.pos m) + 1.
Proof.
  induction m as [m IH | m IH |]; cbn [digits2_pos].
  - rewrite Pos2Z.inj_succ, IH. change (Z.pos m~1) with (2 * Z.pos m + 1).
    rewrite Z.log2_succ_double by lia. lia.
  - rewrite Pos2Z.inj_succ, IH. change (Z.pos m~0) with (2 * Z.pos m).
    rewrite Z.log2_double by lia. lia.
  - reflexivity.
Qed.
Lemma iter_shr p : forall m, 0 < m ->
  SpecFloat.iter_pos shr_1 p (Build_shr_record (m * 2 ^ Z.pos p) false false) = Build_shr_record m false false.
Proof.
  assert (S1 : forall m, 0 < m -> shr_1 (Build_shr_record (2 * m) false false) = Build_shr_record m false false).
  { intros m H. destruct m; try lia. reflexivity. }
  induction p as [p IH | p IH |]; intros m H; cbn [SpecFloat.iter_pos].
  - assert (0 < 2 ^ Z.pos p) by (apply Z.pow_pos_nonneg; lia).
    replace (m * 2 ^ Z.pos p~1) with (2 * (m * 2 ^ Z.pos p * 2 ^ Z.pos p)).
    + rewrite S1 by (repeat apply Z.mul_pos_pos; assumption). rewrite IH by (apply Z.mul_pos_pos; assumption).
      now apply IH.
    + change (Z.pos p~1) with (2 * Z.pos p + 1). replace (2 * Z.pos p + 1) with (Z.succ (Z.pos p + Z.pos p)) by lia.
      rewrite Z.pow_succ_r, Z.pow_add_r by lia. ring.
  - assert (0 < 2 ^ Z.pos p) by (apply Z.pow_pos_nonneg; lia).
    replace (m * 2 ^ Z.pos p~0) with (m * 2 ^ Z.pos p * 2 ^ Z.pos p).
    + rewrite IH by (apply Z.mul_pos_pos; assumption). now apply IH.
    + change (Z.pos p~0) with (2 * Z.pos p). replace (2 * Z.pos p) with (Z.pos p + Z.pos p) by lia.
      rewrite Z.pow_add_r by lia. ring.
  - change (2 ^ 1) with 2. rewrite Z.mul_comm. now apply S1.
Qed.
Lemma log2_scaled n k : 0 < n -> 0 <= k -> Z.log2 (n * 2 ^ k) = Z.log2 n + k.
Proof. intros. rewrite Z.log2_mul_pow2 by lia. lia. Qed.
Lemma log2_53 n : 0 < n < 2 ^ 53 -> 0 <= Z.log2 n <= 52.
Proof.
  intros H. split; [apply Z.log2_nonneg |]. assert (Z.log2 n < 53); [| lia].
  apply Z.log2_lt_pow2; lia.
Qed.
Lemma shr_fexp_exact k m e n : 0 <= k <= 400 -> 0 < n < 2 ^ 53 -> -200 - k <= e <= Z.log2 n - 52 - k -> m = n * 2 ^ (- k - e) ->
  exists m' e', shr_fexp prec64 emax64 m e loc_Exact = (Build_shr_record m' false false, e') /\
    e' = Z.log2 n - 52 - k /\ m' = n * 2 ^ (- k - e').
Proof.
  intros Hk Hn He Hm. pose proof (log2_53 n Hn) as HL. unfold shr_fexp, shr_record_of_loc.
  assert (0 < 2 ^ (- k - e)) by (apply Z.pow_pos_nonneg; lia).
  assert (0 < m) by (rewrite Hm; apply Z.mul_pos_pos; lia).
  assert (Zdigits2 m = Z.log2 n + 1 - k - e) as ->.
  { destruct m; try lia. unfold Zdigits2. rewrite digits2_log2, Hm, log2_scaled; lia. }
  unfold fexp, emin, prec64, emax64.
  replace (Z.max (Z.log2 n + 1 - k - e + e - 53) (3 - 1024 - 53) - e) with (Z.log2 n - 52 - k - e) by lia.
  destruct (Z.log2 n - 52 - k - e) as [| p | p] eqn:E; unfold shr.
  - exists m, e. repeat split; auto; lia.
  - exists (n * 2 ^ (- k - (e + Z.pos p))), (e + Z.pos p). split; [| split; [lia | reflexivity]].
    f_equal. rewrite Hm. replace (- k - e) with (- k - (e + Z.pos p) + Z.pos p) by lia.
    rewrite Z.pow_add_r by lia. rewrite Z.mul_assoc. apply iter_shr.
    apply Z.mul_pos_pos; [lia |]. apply Z.pow_pos_nonneg; lia.
  - lia.
Qed.
Lemma round_aux_exact k s m e n : 0 <= k <= 400 -> 0 < n < 2 ^ 53 -> -200 - k <= e <= Z.log2 n - 52 - k -> m = n * 2 ^ (- k - e) ->
  exists m' e', binary_round_aux prec64 emax64 s m e loc_Exact = S754_finite s m' e' /\
    e' = Z.log2 n - 52 - k /\ Z.pos m' = n * 2 ^ (- k - e').
Proof.
  intros Hk Hn He Hm. pose proof (log2_53 n Hn) as HL.
  destruct (shr_fexp_exact k m e n Hk Hn He Hm) as (m1 & e1 & E1 & B1 & M1).
  unfold binary_round_aux. rewrite E1. cbn [shr_m loc_of_shr_record round_nearest_even].
  destruct (shr_fexp_exact k m1 e1 n Hk Hn ltac:(lia) M1) as (m2 & e2 & E2 & B2 & M2).
  rewrite E2. cbn [shr_m].
  assert (0 < 2 ^ (- k - e2)) by (apply Z.pow_pos_nonneg; lia). assert (0 < m2) by (rewrite M2; apply Z.mul_pos_pos; lia).
  destruct m2 as [| m2 | m2]; try lia. exists m2, e2.
  destruct (Z.leb_spec e2 (emax64 - prec64)); [auto |]. unfold emax64, prec64 in *. lia.
Qed.
Lemma rep_finite k s m e n : e = Z.log2 n - 52 - k -> 0 < n < 2 ^ 53 -> Z.pos m = n * 2 ^ (- k - e) ->
  rep_s k (S754_finite s m e) (if s then - n else n).
Proof.
  intros He Hn Hm. unfold rep_s.
  assert (Z.abs (if s then - n else n) = n) as -> by (destruct s; lia).
  split; [assumption |]. split; [assumption | split; [assumption |]]. destruct s; symmetry; [apply Z.ltb_lt | apply Z.ltb_ge]; lia.
Qed.
Lemma shift_pos_pow d m : Z.pos (shift_pos d m) = Z.pos m * 2 ^ Z.pos d.
Proof. rewrite shift_pos_correct. change (Z.pow_pos 2 d) with (2 ^ Z.pos d). ring. Qed.
(** rounding an integer multiple of [2^-k] given with a small exponent *)
Lemma normalize_rep k m e n z : 0 <= k <= 400 -> Z.abs n < 2 ^ 53 -> -52 - k <= e <= - k -> m = n * 2 ^ (- k - e) ->
  rep_s k (binary_normalize prec64 emax64 m e z) n.
Proof.
  intros Hk0 Hn He Hm. assert (0 < 2 ^ (- k - e)) as Hp by (apply Z.pow_pos_nonneg; lia).
  assert (R : forall s p q, Z.pos p = q * 2 ^ (- k - e) -> 0 < q < 2 ^ 53 ->
            rep_s k (binary_round prec64 emax64 s p e) (if s : bool then - q else q)).
  { intros s p q Hpk Hk. pose proof (log2_53 q Hk) as HL. unfold binary_round, shl_align.
    assert (Z.pos (digits2_pos p) = Z.log2 q + 1 - k - e) as ED by (rewrite digits2_log2, Hpk, log2_scaled; lia).
    rewrite ED. unfold fexp, emin, prec64, emax64.
    replace (Z.max (Z.log2 q + 1 - k - e + e - 53) (3 - 1024 - 53)) with (Z.log2 q - 52 - k) by lia.
    destruct (Z.log2 q - 52 - k - e) as [| d | d] eqn:E.
    1-2: destruct (round_aux_exact k s (Z.pos p) e q Hk0 Hk ltac:(lia) Hpk) as (m' & e' & E' & B' & M');
         unfold prec64, emax64 in E'; rewrite E'; now apply rep_finite.
    assert (Z.pos (shift_pos d p) = q * 2 ^ (- k - (Z.log2 q - 52 - k))) as Es.
    { rewrite shift_pos_pow, Hpk. replace (- k - (Z.log2 q - 52 - k)) with (- k - e + Z.pos d) by lia.
      rewrite Z.pow_add_r by lia. ring. }
    destruct (round_aux_exact k s (Z.pos (shift_pos d p)) (Z.log2 q - 52 - k) q Hk0 Hk ltac:(lia) Es) as (m' & e' & E' & B' & M').
    unfold prec64, emax64 in E'. rewrite E'. now apply rep_finite. }
  unfold binary_normalize. destruct m as [| p | p].
  - unfold rep_s. nia.
  - assert (0 < n) by nia. apply (R false p n); [assumption | lia].
  - assert (n < 0) by nia. replace n with (- - n) by lia. apply (R true p (- n)); [| lia].
    change (Z.neg p) with (- Z.pos p) in Hm. lia.
Qed.
Lemma f64_of_Z_rep n : Z.abs n < 2 ^ 53 -> rep (f64_of_Z n) n.
Proof. intros H. apply normalize_rep; [lia | assumption | lia |]. change (2 ^ (- 0 - 0)) with 1. lia. Qed.

Lemma signed_mantissa s m d n : Z.pos m = Z.abs n * d -> s = (n <? 0) ->
  cond_Zopp s (Z.pos m) = n * d.
Proof.
  intros Hm ->. unfold cond_Zopp. destruct (Z.ltb_spec n 0); rewrite Hm; [|].
  - rewrite Z.abs_neq by lia. ring.
  - rewrite Z.abs_eq by lia. ring.
Qed.
Lemma fmul_rep_s k l a b x y : 0 <= k -> 0 <= l -> k + l <= 400 -> rep_s k a x -> rep_s l b y ->
  Z.abs (x * y) < 2 ^ 53 -> rep_s (k + l) (fmul a b) (x * y).
Proof.
  unfold fmul, SFmul. intros Hk Hl Hkl Ha Hb H.
  destruct a as [sa | | | sa ma ea], b as [sb | | | sb mb eb]; unfold rep_s in Ha, Hb; try contradiction;
    try (unfold rep_s; nia).
  destruct Ha as (Ea & Na & Ma & Sa), Hb as (Eb & Nb & Mb & Sb).
  destruct (round_aux_exact (k + l) (xorb sa sb) (Z.pos (ma * mb)) (ea + eb) (Z.abs (x * y))) as (m' & e' & E' & B' & M').
  - lia.
  - split; [| assumption]. rewrite Z.abs_mul. nia.
  - pose proof (log2_53 _ Na) as Lx. pose proof (log2_53 _ Nb) as Ly. rewrite Z.abs_mul.
    pose proof (Z.log2_mul_below (Z.abs x) (Z.abs y) ltac:(lia) ltac:(lia)). lia.
  - pose proof (log2_53 _ Na) as Lx. pose proof (log2_53 _ Nb) as Ly.
    rewrite Pos2Z.inj_mul, Ma, Mb, Z.abs_mul. replace (- (k + l) - (ea + eb)) with ((- k - ea) + (- l - eb)) by lia.
    rewrite Z.pow_add_r by lia. ring.
  - rewrite E'. pose proof (rep_finite (k + l) (xorb sa sb) m' e' (Z.abs (x * y)) B') as R.
    rewrite Z.abs_mul in *.
    assert ((if xorb sa sb then - (Z.abs x * Z.abs y) else Z.abs x * Z.abs y) = x * y) as Es.
    { subst sa sb. destruct (Z.ltb_spec x 0), (Z.ltb_spec y 0); cbn [xorb]; nia. }
    rewrite Es in R. apply R; [nia | assumption].
Qed.
Lemma fmul_rep a b x y : rep a x -> rep b y -> Z.abs (x * y) < 2 ^ 53 -> rep (fmul a b) (x * y).
Proof. intros. apply (fmul_rep_s 0 0); auto; lia. Qed.
Lemma align_mantissa k m e e' n : e' <= e -> e <= - k -> Z.pos m = n * 2 ^ (- k - e) ->
  Z.pos (fst (shl_align m e e')) = n * 2 ^ (- k - e').
Proof.
  intros H1 H2 Hm. unfold shl_align. destruct (e' - e) as [| d | d] eqn:E; cbn [fst].
  - replace e' with e by lia. assumption.
  - lia.
  - rewrite shift_pos_pow, Hm. replace (- k - e') with (- k - e + Z.pos d) by lia. rewrite Z.pow_add_r by lia. ring.
Qed.
Lemma fadd_rep_s k a b x y : 0 <= k <= 400 -> rep_s k a x -> rep_s k b y -> Z.abs (x + y) < 2 ^ 53 ->
  rep_s k (fadd a b) (x + y).
Proof.
  unfold fadd, SFadd. intros Hk Ha Hb H.
  destruct a as [sa | | | sa ma ea], b as [sb | | | sb mb eb]; try contradiction.
  - unfold rep_s in *. subst. destruct (Bool.eqb sa sb); reflexivity.
  - unfold rep_s in Ha. subst x. rewrite Z.add_0_l. assumption.
  - unfold rep_s in Hb. subst y. rewrite Z.add_0_r. assumption.
  - destruct Ha as (Ea & Na & Ma & Sa), Hb as (Eb & Nb & Mb & Sb).
    apply normalize_rep; [assumption | assumption | pose proof (log2_53 _ Na); pose proof (log2_53 _ Nb); lia |].
    pose proof (log2_53 _ Na); pose proof (log2_53 _ Nb).
    pose proof (align_mantissa k ma ea (Z.min ea eb) (Z.abs x) ltac:(lia) ltac:(lia) Ma) as A.
    pose proof (align_mantissa k mb eb (Z.min ea eb) (Z.abs y) ltac:(lia) ltac:(lia) Mb) as B.
    rewrite (signed_mantissa sa _ _ x A Sa), (signed_mantissa sb _ _ y B Sb). ring.
Qed.
Lemma fadd_rep a b x y : rep a x -> rep b y -> Z.abs (x + y) < 2 ^ 53 -> rep (fadd a b) (x + y).
Proof. apply fadd_rep_s. lia. Qed.
Lemma fsub_rep_s k a b x y : 0 <= k <= 400 -> rep_s k a x -> rep_s k b y -> Z.abs (x - y) < 2 ^ 53 ->
  rep_s k (fsub a b) (x - y).
Proof.
  unfold fsub, SFsub. intros Hk Ha Hb H.
  destruct a as [sa | | | sa ma ea], b as [sb | | | sb mb eb]; try contradiction.
  - unfold rep_s in *. subst. destruct (Bool.eqb sa (negb sb)); reflexivity.
  - unfold rep_s in *. subst x. destruct Hb as (Eb & Nb & Mb & ->).
    replace (Z.abs (0 - y)) with (Z.abs y) by lia. repeat split; try tauto.
    destruct (Z.ltb_spec y 0), (Z.ltb_spec (0 - y) 0); cbn [negb]; lia || reflexivity.
  - unfold rep_s in Hb. subst y. rewrite Z.sub_0_r. assumption.
  - destruct Ha as (Ea & Na & Ma & Sa), Hb as (Eb & Nb & Mb & Sb).
    apply normalize_rep; [assumption | assumption | pose proof (log2_53 _ Na); pose proof (log2_53 _ Nb); lia |].
    pose proof (log2_53 _ Na); pose proof (log2_53 _ Nb).
    pose proof (align_mantissa k ma ea (Z.min ea eb) (Z.abs x) ltac:(lia) ltac:(lia) Ma) as A.
    pose proof (align_mantissa k mb eb (Z.min ea eb) (Z.abs y) ltac:(lia) ltac:(lia) Mb) as B.
    rewrite (signed_mantissa sa _ _ x A Sa), (signed_mantissa sb _ _ y B Sb). ring.
Qed.
Lemma fsub_rep a b x y : rep a x -> rep b y -> Z.abs (x - y) < 2 ^ 53 -> rep (fsub a b) (x - y).
Proof. apply fsub_rep_s. lia. Qed.
Lemma fneg_rep_s k a x : rep_s k a x -> rep_s k (fneg a) (- x).
Proof.
  intros Ha. destruct a as [sa | | | sa ma ea]; try contradiction; unfold fneg, SFopp, rep_s in *; [lia |].
  destruct Ha as (Ea & Na & Ma & ->). rewrite Z.abs_opp. repeat split; try tauto.
  destruct (Z.ltb_spec x 0), (Z.ltb_spec (- x) 0); cbn [negb]; lia || reflexivity.
Qed.
Lemma fneg_rep a x : rep a x -> rep (fneg a) (- x).
Proof. apply fneg_rep_s. Qed.
(** the cast back to i32 saturates *)
Definition clamp32 (n : Z) : Z := Z.max (-2147483648) (Z.min 2147483647 n).
Lemma Z_of_f64_rep f n : rep f n -> Z_of_f64 f = clamp32 n.
Proof.
  destruct f as [s | | | s m e]; unfold rep_s; try contradiction.
  - intros ->. reflexivity.
  - intros (He' & Hn & Hm & Hs). pose proof (log2_53 _ Hn) as HL. assert (He : -52 <= e <= 0) by lia. unfold Z_of_f64, clamp32. replace (- 0 - e) with (- e) in Hm by lia.
    assert (0 < 2 ^ (- e)) by (apply Z.pow_pos_nonneg; lia).
    assert ((if 0 <=? e then Z.pos m * 2 ^ e else Z.pos m / 2 ^ (- e)) = Z.abs n) as ->.
    { destruct (Z.leb_spec 0 e).
      - assert (E0 : e = 0) by lia. clear He'. subst e. rewrite Hm. change (2 ^ (- 0)) with 1. change (2 ^ 0) with 1. ring.
      - rewrite Hm. apply Z.div_mul. lia. }
    subst s. destruct (Z.ltb_spec n 0); lia.
Qed.

(** the same value at another scale *)
Lemma rep_scale k c f n : 0 <= c -> rep_s k f n -> Z.abs n * 2 ^ c < 2 ^ 53 -> rep_s (k + c) f (n * 2 ^ c).
Proof.
  intros Hc H B. assert (P : 0 < 2 ^ c) by (apply Z.pow_pos_nonneg; lia).
  destruct f as [s | | | s m e]; unfold rep_s in *; try contradiction; [subst; lia |].
  destruct H as (He & Hn & Hm & Hs). rewrite Z.abs_mul, (Z.abs_eq (2 ^ c)) by lia.
  rewrite log2_scaled by lia. split; [lia |]. split; [split; [apply Z.mul_pos_pos |]; lia |]. split.
  - rewrite Hm, <- Z.mul_assoc. f_equal. rewrite <- Z.pow_add_r; [f_equal; lia | lia |]. pose proof (log2_53 _ Hn).
    assert (Z.log2 (Z.abs n * 2 ^ c) < 53) as L by (apply Z.log2_lt_pow2; [apply Z.mul_pos_pos; lia | lia]).
    rewrite log2_scaled in L by lia. lia.
  - rewrite Hs. destruct (Z.ltb_spec n 0), (Z.ltb_spec (n * 2 ^ c) 0); reflexivity || nia.
Qed.
Lemma rep_unscale k c f n : 0 <= c -> rep_s (k + c) f (n * 2 ^ c) -> rep_s k f n.
Proof.
  intros Hc H. assert (P : 0 < 2 ^ c) by (apply Z.pow_pos_nonneg; lia).
  destruct f as [s | | | s m e]; unfold rep_s in *; try contradiction; [nia |].
  rewrite Z.abs_mul, (Z.abs_eq (2 ^ c)) in H by lia. destruct H as (He & Hn & Hm & Hs).
  assert (0 < Z.abs n) by nia. rewrite log2_scaled in He by lia.
  split; [lia |]. split; [nia |]. split.
  - rewrite Hm, <- Z.mul_assoc. f_equal. rewrite <- Z.pow_add_r; [f_equal; lia | lia |].
    assert (Z.log2 (Z.abs n * 2 ^ c) < 53) as L by (apply Z.log2_lt_pow2; [apply Z.mul_pos_pos; lia | lia]).
    rewrite log2_scaled in L by lia. lia.
  - rewrite Hs. destruct (Z.ltb_spec n 0), (Z.ltb_spec (n * 2 ^ c) 0); reflexivity || nia.
Qed.
