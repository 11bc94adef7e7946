(** * F64Div: rounded f64 results.  Division of integers is correctly rounded, and dividing a
    32-bit integer by twelve and multiplying back gives the integer again. *)
From Coq Require Import SpecFloat.
From Verif Require Import Base Notations Seitz F64 F64Facts.
Open Scope Z_scope.

(** the record stands for [N / D] rounded down, with a round and a sticky bit *)
Definition sem (r : shr_record) (N D : Z) : Prop :=
  let rem := N - shr_m r * D in
  0 <= rem < D /\
  match shr_r r, shr_s r with
  | false, false => rem = 0
  | false, true => 0 < 2 * rem < D
  | true, false => 2 * rem = D
  | true, true => D < 2 * rem
  end.
Lemma shr_1_sem r N D : 0 <= shr_m r -> sem r N D -> sem (shr_1 r) N (2 * D) /\ 0 <= shr_m (shr_1 r).
Proof.
  destruct r as [m b s]. unfold sem. cbn [shr_m shr_r shr_s]. intros H [H1 H2].
  destruct m as [| [p | p |] | p]; try lia; cbn [shr_1 shr_m shr_r shr_s].
  - destruct b, s; cbn [orb]; lia.
  - change (Z.pos p~1) with (2 * Z.pos p + 1) in *. destruct b, s; cbn [orb]; nia.
  - change (Z.pos p~0) with (2 * Z.pos p) in *. destruct b, s; cbn [orb]; nia.
  - destruct b, s; cbn [orb]; lia.
Qed.
Lemma iter_sem p : forall r N D, 0 <= shr_m r -> sem r N D ->
  sem (SpecFloat.iter_pos shr_1 p r) N (D * 2 ^ Z.pos p) /\ 0 <= shr_m (SpecFloat.iter_pos shr_1 p r).
Proof.
  induction p as [p IH | p IH |]; intros r N D H S; cbn [SpecFloat.iter_pos].
  - destruct (shr_1_sem r N D H S) as [S1 H1]. destruct (IH _ _ _ H1 S1) as [S2 H2].
    destruct (IH _ _ _ H2 S2) as [S3 H3]. split; [| assumption].
    replace (D * 2 ^ Z.pos p~1) with (2 * D * 2 ^ Z.pos p * 2 ^ Z.pos p); [assumption |].
    change (Z.pos p~1) with (2 * Z.pos p + 1). replace (2 * Z.pos p + 1) with (Z.succ (Z.pos p + Z.pos p)) by lia.
    rewrite Z.pow_succ_r, Z.pow_add_r by lia. ring.
  - destruct (IH _ _ _ H S) as [S2 H2]. destruct (IH _ _ _ H2 S2) as [S3 H3]. split; [| assumption].
    replace (D * 2 ^ Z.pos p~0) with (D * 2 ^ Z.pos p * 2 ^ Z.pos p); [assumption |].
    change (Z.pos p~0) with (2 * Z.pos p). replace (2 * Z.pos p) with (Z.pos p + Z.pos p) by lia.
    rewrite Z.pow_add_r by lia. ring.
  - destruct (shr_1_sem r N D H S) as [S1 H1]. split; [| assumption].
    replace (D * 2 ^ 1) with (2 * D) by lia. assumption.
Qed.
Lemma shr_sem r N D e j : 0 <= j -> 0 <= shr_m r -> sem r N D ->
  exists r', shr r e j = (r', e + j) /\ sem r' N (D * 2 ^ j) /\ 0 <= shr_m r'.
Proof.
  intros Hj H S. destruct j as [| p | p]; [| | lia].
  - exists r. cbn [shr]. rewrite Z.add_0_r. replace (D * 2 ^ 0) with D by lia. auto.
  - exists (SpecFloat.iter_pos shr_1 p r). split; [reflexivity |]. now apply iter_sem.
Qed.
Lemma rne_sem r N D : 0 <= shr_m r -> sem r N D ->
  let M := round_nearest_even (shr_m r) (loc_of_shr_record r) in
  (M = shr_m r \/ M = shr_m r + 1) /\ 2 * Z.abs (N - M * D) <= D /\
  (2 * Z.abs (N - M * D) = D -> Z.even M = true).
Proof.
  destruct r as [m b s]. unfold sem. cbn [shr_m shr_r shr_s]. intros H [H1 H2].
  destruct b, s; cbn [loc_of_shr_record round_nearest_even].
  - split; [auto |]. split; lia.
  - destruct (Z.even m) eqn:E; (split; [auto |]); split; try lia; intros _; [exact E |].
    rewrite Z.add_1_r, Z.even_succ, <- Z.negb_even, E. reflexivity.
  - split; [auto |]. split; lia.
  - split; [auto |]. split; lia.
Qed.
Lemma digits_log2 m : 0 < m -> Zdigits2 m = Z.log2 m + 1.
Proof. destruct m; try lia. intros _. apply digits2_log2. Qed.
Lemma round_aux_sem s m e l N D : 2 ^ 52 <= m -> 0 < D -> -900 <= e <= 400 -> Z.log2 m <= 500 ->
  sem (shr_record_of_loc m l) N D ->
  let j := Z.log2 m - 52 in
  exists M m' e', binary_round_aux prec64 emax64 s m e l = S754_finite s m' e' /\
    2 * Z.abs (N - M * (D * 2 ^ j)) <= D * 2 ^ j /\
    (2 * Z.abs (N - M * (D * 2 ^ j)) = D * 2 ^ j -> Z.even M = true) /\
    2 ^ 52 <= M <= 2 ^ 53 /\
    ((e' = e + j /\ Z.pos m' = M /\ M < 2 ^ 53) \/ (e' = e + j + 1 /\ Z.pos m' = 2 ^ 52 /\ M = 2 ^ 53)).
Proof.
  intros Hm HD He HL S j.
  assert (L : 52 <= Z.log2 m) by (apply Z.log2_le_pow2; lia).
  assert (Em : shr_m (shr_record_of_loc m l) = m) by (destruct l as [| []]; reflexivity).
  destruct (shr_sem (shr_record_of_loc m l) N D e j) as (r & Er & Sr & Hr); [lia | lia | assumption |].
  assert (B : 2 ^ 52 <= shr_m r < 2 ^ 53).
  { pose proof (Z.log2_spec m ltac:(lia)) as Lm. replace (Z.log2 m) with (52 + j) in Lm by lia.
    replace (Z.succ (52 + j)) with (53 + j) in Lm by lia. rewrite !Z.pow_add_r in Lm by lia.
    assert (0 < 2 ^ j) by (apply Z.pow_pos_nonneg; lia).
    destruct S as [S _]. destruct Sr as [Sr _]. rewrite Em in S.
    generalize dependent (2 ^ j). intros p Sr Lm Hp. clear - HD S Sr Lm Hp.
    set (q := shr_m r) in *. clearbody q. set (A := 2 ^ 52) in *. set (A2 := 2 ^ 53) in *.
    assert (m * D <= N < (m + 1) * D) by lia. assert (q * (D * p) <= N < (q + 1) * (D * p)) by lia.
    clear S Sr. clearbody A A2.
    assert (A * p * D <= m * D) by nia. assert ((m + 1) * D <= A2 * p * D) by nia.
    assert (0 < D * p) by nia.
    assert (A * (D * p) < (q + 1) * (D * p)) by lia. assert (q * (D * p) < A2 * (D * p)) by lia.
    split; nia. }
  destruct (rne_sem r N (D * 2 ^ j) ltac:(lia) Sr) as (HM & RN & EV).
  set (M := round_nearest_even (shr_m r) (loc_of_shr_record r)) in *.
  assert (BM : 2 ^ 52 <= M <= 2 ^ 53) by lia.
  exists M. unfold binary_round_aux. unfold shr_fexp at 1. rewrite (digits_log2 m) by lia.
  unfold fexp at 1, emin, prec64, emax64.
  replace (Z.max (Z.log2 m + 1 + e - 53) (3 - 1024 - 53) - e) with j by lia.
  rewrite Er. fold M. unfold shr_fexp. cbn [shr_record_of_loc].
  destruct (Z.eq_dec M (2 ^ 53)) as [E53 | N53].
  - rewrite E53. change (Zdigits2 (2 ^ 53)) with 54. unfold fexp, emin.
    replace (Z.max (54 + (e + j) - 53) (3 - 1024 - 53) - (e + j)) with 1 by lia.
    unfold shr. cbn [SpecFloat.iter_pos]. change (shr_1 _) with (Build_shr_record (2 ^ 52) false false).
    cbn [shr_m]. destruct (2 ^ 52) as [| p |] eqn:E52; try discriminate E52.
    exists p, (e + j + 1). destruct (Z.leb_spec (e + j + 1) (1024 - 53)); [| lia].
    rewrite <- E53. repeat split; auto; lia.
  - assert (ED : Zdigits2 M = 53).
    { rewrite digits_log2 by lia. assert (Z.log2 M = 52); [| lia]. apply Z.log2_unique; [lia |].
      change (Z.succ 52) with 53. lia. }
    rewrite ED. unfold fexp, emin. replace (Z.max (53 + (e + j) - 53) (3 - 1024 - 53) - (e + j)) with 0 by lia.
    unfold shr. cbn [shr_m]. destruct M as [| p | p] eqn:E; try lia.
    exists p, (e + j). destruct (Z.leb_spec (e + j) (1024 - 53)); [| lia].
    repeat split; auto; lia.
Qed.

(** ** Division of integers *)
Lemma new_location_sem q r m2 N : 0 < m2 -> N = q * m2 + r -> 0 <= r < m2 ->
  sem (shr_record_of_loc q (new_location m2 r)) N m2.
Proof.
  intros H E Hr. unfold new_location, new_location_even, new_location_odd, sem.
  assert (EZ : Zeq_bool r 0 = (r =? 0)).
  { pose proof (Zeq_bool_if r 0). destruct (Zeq_bool r 0); destruct (Z.eqb_spec r 0); congruence || lia. }
  destruct (Z.even m2) eqn:Ev; cbv beta; rewrite EZ; destruct (Z.eqb_spec r 0) as [R0 | R0];
    try (cbn [shr_record_of_loc shr_m shr_r shr_s]; lia).
  - destruct (Z.compare_spec (2 * r) m2); cbn [shr_record_of_loc shr_m shr_r shr_s]; lia.
  - assert (2 * r <> m2). { intros <-. rewrite Z.even_mul in Ev. discriminate. }
    destruct (Z.compare_spec (2 * r + 1) m2); cbn [shr_record_of_loc shr_m shr_r shr_s]; lia.
Qed.
Lemma pow_lt_inv a b : 0 <= b -> 2 ^ a < 2 ^ b -> a < b.
Proof. intros H. apply Z.pow_lt_mono_r_iff; lia. Qed.
Lemma quot_lower a m N q r : N = m * q + r -> 0 <= r < m -> a * m <= N -> a <= q.
Proof. intros -> H H1. nia. Qed.
Lemma mul_ge_1 a b : 1 <= a -> 0 <= b -> b <= a * b.
Proof. nia. Qed.
Lemma fdiv_rep a b x y : rep a x -> rep b y -> 0 < Z.abs x < 2 ^ 52 -> 0 < Z.abs y < 2 ^ 52 ->
  exists k n, 0 <= k <= 120 /\ rep_s k (fdiv a b) n /\ 2 ^ 52 <= Z.abs n < 2 ^ 53 /\
    2 * Z.abs (x * 2 ^ k - n * y) <= Z.abs y /\
    (2 * Z.abs (x * 2 ^ k - n * y) = Z.abs y -> Z.even n = true).
Proof.
  intros Ha Hb Hx Hy. destruct a as [sa | | | sa m1 e1], b as [sb | | | sb m2 e2]; unfold rep_s in Ha, Hb; try lia.
  destruct Ha as (Ea' & Na & Ma & Sa), Hb as (Eb' & Nb & Mb & Sb).
  assert (Ea : -52 <= e1 <= 0) by (pose proof (log2_53 _ Na); lia). assert (Eb : -52 <= e2 <= 0) by (pose proof (log2_53 _ Nb); lia).
  clear Ea' Eb' Na Nb.
  replace (- 0 - e1) with (- e1) in Ma by lia. replace (- 0 - e2) with (- e2) in Mb by lia.
  assert (P1 : 0 < 2 ^ (- e1)) by (apply Z.pow_pos_nonneg; lia).
  assert (P2 : 0 < 2 ^ (- e2)) by (apply Z.pow_pos_nonneg; lia).
  unfold fdiv, SFdiv, SFdiv_core_binary. rewrite !digits_log2 by lia.
  set (e0 := Z.min (fexp prec64 emax64 (Z.log2 (Z.pos m1) + 1 + e1 - (Z.log2 (Z.pos m2) + 1 + e2))) (e1 - e2)).
  set (s := e1 - e2 - e0).
  assert (L1 : 0 <= Z.log2 (Z.pos m1) <= 104 /\ 0 <= Z.log2 (Z.pos m1) + e1).
  { split; [split; [apply Z.log2_nonneg |] |]; rewrite Ma, log2_scaled by lia; pose proof (Z.log2_nonneg (Z.abs x));
    assert (Z.log2 (Z.abs x) < 52) by (apply Z.log2_lt_pow2; lia); lia. }
  assert (L2 : 0 <= Z.log2 (Z.pos m2) <= 104 /\ Z.log2 (Z.pos m2) + e2 <= 51).
  { split; [split; [apply Z.log2_nonneg |] |]; rewrite Mb, log2_scaled by lia;
    assert (Z.log2 (Z.abs y) < 52) by (apply Z.log2_lt_pow2; lia); lia. }
  assert (He0 : e0 <= Z.log2 (Z.pos m1) + e1 - (Z.log2 (Z.pos m2) + e2) - 53 /\ e0 <= e1 - e2 /\ -104 <= e0).
  { unfold e0, fexp, emin, prec64, emax64. lia. }
  assert (Hs0 : 0 <= s <= 300) by (unfold s; lia).
  assert (Em : match s with Z.pos _ => Z.shiftl (Z.pos m1) s | 0 => Z.pos m1 | Z.neg _ => 0 end = Z.pos m1 * 2 ^ s).
  { destruct s eqn:Es; [lia | apply Z.shiftl_mul_pow2; lia | lia]. }
  rewrite Em. pose proof (Z.div_eucl_eq (Z.pos m1 * 2 ^ s) (Z.pos m2) ltac:(lia)) as DE.
  pose proof (Z.mod_pos_bound (Z.pos m1 * 2 ^ s) (Z.pos m2) ltac:(lia)) as RB. unfold Z.modulo in RB.
  destruct (Z.div_eucl (Z.pos m1 * 2 ^ s) (Z.pos m2)) as [q r].
  assert (Ps : 0 < 2 ^ s) by (apply Z.pow_pos_nonneg; lia).
  pose proof (Z.log2_spec (Z.pos m1) ltac:(lia)) as B1. pose proof (Z.log2_spec (Z.pos m2) ltac:(lia)) as B2.
  assert (Hq : 2 ^ 52 <= q).
  { assert (2 ^ 52 * Z.pos m2 <= Z.pos m1 * 2 ^ s).
    { apply Z.le_trans with (2 ^ 52 * 2 ^ (Z.succ (Z.log2 (Z.pos m2)))); [apply Z.mul_le_mono_nonneg_l; lia |].
      apply Z.le_trans with (2 ^ (Z.log2 (Z.pos m1)) * 2 ^ s); [| apply Z.mul_le_mono_nonneg_r; lia].
      rewrite <- !Z.pow_add_r by lia. apply Z.pow_le_mono_r; lia. }
    apply (quot_lower _ (Z.pos m2) (Z.pos m1 * 2 ^ s) q r); lia. }
  assert (Lq : Z.log2 q + e0 < 52 /\ Z.log2 q <= 300 /\ 52 <= Z.log2 q).
  { pose proof (Z.log2_spec q ltac:(lia)) as Bq.
    assert (Q1 : 2 ^ Z.log2 q * Z.pos m2 <= Z.pos m1 * 2 ^ s).
    { apply Z.le_trans with (q * Z.pos m2); [apply Z.mul_le_mono_nonneg_r |]; lia. }
    rewrite Ma, Mb in Q1.
    assert (Q2 : 2 ^ (Z.log2 q + - e2) < 2 ^ (52 + (- e1 + s))).
    { rewrite !Z.pow_add_r by (try apply Z.log2_nonneg; lia).
      assert (0 < 2 ^ Z.log2 q) by (apply Z.pow_pos_nonneg; [lia | apply Z.log2_nonneg]).
      apply Z.le_lt_trans with (2 ^ Z.log2 q * (Z.abs y * 2 ^ (- e2))).
      { apply Z.mul_le_mono_nonneg_l; [lia |]. apply mul_ge_1; lia. }
      apply Z.le_lt_trans with (Z.abs x * 2 ^ (- e1) * 2 ^ s); [lia |]. rewrite <- Z.mul_assoc.
      apply Z.mul_lt_mono_pos_r; [apply Z.mul_pos_pos; lia | lia]. }
    apply pow_lt_inv in Q2; [| lia]. split; [lia |]. split; [lia |]. apply Z.log2_le_pow2; lia. }
  destruct (round_aux_sem (xorb sa sb) q e0 (new_location (Z.pos m2) r) (Z.pos m1 * 2 ^ s) (Z.pos m2))
    as (M & m' & e' & ER & RN & EV & BM & Cs); [lia | lia | lia | lia | apply new_location_sem; lia |].
  rewrite ER. set (g := e0 + (Z.log2 q - 52)) in *.
  assert (Hg : g <= -1) by lia.
  (* in terms of x and y *)
  set (j := Z.log2 q - 52) in *.
  assert (Pj : 0 < 2 ^ j) by (apply Z.pow_pos_nonneg; lia).
  assert (Pg : 0 < 2 ^ (- g)) by (apply Z.pow_pos_nonneg; lia).
  set (U := 2 ^ (- e2) * 2 ^ j). assert (PU : 0 < U) by (unfold U; apply Z.mul_pos_pos; lia).
  assert (X1 : Z.pos m1 * 2 ^ s = Z.abs x * 2 ^ (- g) * U).
  { unfold U. rewrite Ma, <- !Z.mul_assoc. f_equal. rewrite <- !Z.pow_add_r by lia. f_equal. unfold g, s. lia. }
  assert (X2 : Z.pos m2 * 2 ^ j = Z.abs y * U) by (unfold U; rewrite Mb; ring).
  rewrite X1, X2 in RN, EV.
  assert (AB : Z.abs (Z.abs x * 2 ^ (- g) * U - M * (Z.abs y * U)) = Z.abs (Z.abs x * 2 ^ (- g) - M * Z.abs y) * U).
  { replace (Z.abs x * 2 ^ (- g) * U - M * (Z.abs y * U)) with ((Z.abs x * 2 ^ (- g) - M * Z.abs y) * U) by ring.
    rewrite Z.abs_mul. f_equal. lia. }
  rewrite AB in RN, EV. clear AB.
  assert (RN' : 2 * Z.abs (Z.abs x * 2 ^ (- g) - M * Z.abs y) <= Z.abs y) by (apply Z.mul_le_mono_pos_r with U; lia).
  assert (EV' : 2 * Z.abs (Z.abs x * 2 ^ (- g) - M * Z.abs y) = Z.abs y -> Z.even M = true).
  { intros H. apply EV. rewrite Z.mul_assoc, H. reflexivity. }
  assert (Kg : - g <= 120).
  { assert (2 ^ (- g) < 2 ^ 120); [| apply Z.lt_le_incl, pow_lt_inv; lia].
    assert (2 ^ (- g) <= Z.abs x * 2 ^ (- g)) by (apply mul_ge_1; lia).
    assert (M * Z.abs y <= 2 ^ 53 * 2 ^ 52) by (apply Z.mul_le_mono_nonneg; lia). assert (2 ^ 53 * 2 ^ 52 + 2 ^ 52 < 2 ^ 120) by reflexivity. lia. }
  (* signs *)
  assert (SG : forall k N, 2 * Z.abs (Z.abs x * 2 ^ k - N * Z.abs y) <= Z.abs y ->
     (2 * Z.abs (Z.abs x * 2 ^ k - N * Z.abs y) = Z.abs y -> Z.even N = true) ->
     let n := if xorb sa sb then - N else N in
     2 * Z.abs (x * 2 ^ k - n * y) <= Z.abs y /\ (2 * Z.abs (x * 2 ^ k - n * y) = Z.abs y -> Z.even n = true)).
  { intros k N R1 R2 n.
    assert (Z.abs (x * 2 ^ k - n * y) = Z.abs (Z.abs x * 2 ^ k - N * Z.abs y)) as EA.
    { unfold n. rewrite Sa, Sb. destruct (Z.ltb_spec x 0), (Z.ltb_spec y 0); cbn [xorb].
      - rewrite (Z.abs_neq x), (Z.abs_neq y) by lia. rewrite <- Z.abs_opp. f_equal. ring.
      - rewrite (Z.abs_neq x), (Z.abs_eq y) by lia. rewrite <- Z.abs_opp. f_equal. ring.
      - rewrite (Z.abs_eq x), (Z.abs_neq y) by lia. f_equal. ring.
      - rewrite (Z.abs_eq x), (Z.abs_eq y) by lia. f_equal. }
    rewrite EA. split; [assumption |]. intros H. unfold n. destruct (xorb sa sb); [rewrite Z.even_opp |]; auto. }
  assert (AN : forall N, 0 <= N -> Z.abs (if xorb sa sb then - N else N) = N) by (intros; destruct (xorb sa sb); lia).
  destruct Cs as [(Ee & Em' & BM2) | (Ee & Em' & EM)].
  - exists (- g), (if xorb sa sb then - M else M). rewrite AN by lia.
    split; [lia |]. split; [| split; [lia | now apply SG]].
    assert (LM : Z.log2 M = 52) by (apply Z.log2_unique; [lia |]; change (Z.succ 52) with 53; lia).
    apply rep_finite; [fold g in Ee; lia | lia |]. fold g in Ee. rewrite Ee.
    replace (- - g - g) with 0 by lia. rewrite Em'. lia.
  - exists (- g - 1), (if xorb sa sb then - 2 ^ 52 else 2 ^ 52). rewrite AN by lia.
    split; [lia |]. fold g in Ee. split; [| split; [lia |]].
    + apply rep_finite; [rewrite Z.log2_pow2; lia | lia |]. rewrite Ee. replace (- (- g - 1) - (g + 1)) with 0 by lia. rewrite Em'. lia.
    + apply SG.
      * rewrite EM in RN'. replace (- g) with (Z.succ (- g - 1)) in RN' by lia. rewrite Z.pow_succ_r in RN' by lia.
        change (2 ^ 53) with (2 * 2 ^ 52) in RN'.
        replace (Z.abs x * (2 * 2 ^ (- g - 1)) - 2 * 2 ^ 52 * Z.abs y) with (2 * (Z.abs x * 2 ^ (- g - 1) - 2 ^ 52 * Z.abs y)) in RN' by ring.
        rewrite Z.abs_mul in RN'. lia.
      * reflexivity.
Qed.

(** ** Division by twelve *)
Lemma fdiv_zero a b y : rep a 0 -> rep b y -> y <> 0 -> forall k, rep_s k (fdiv a b) 0.
Proof.
  intros Ha Hb Hy k. destruct a as [sa | | | sa m1 e1]; unfold rep_s in Ha; try lia.
  destruct b as [sb | | | sb m2 e2]; unfold rep_s in Hb; try contradiction. reflexivity.
Qed.
(** [v as f64 / 12.0] and back: the result of the division is some [n / 2^k], and
    multiplying it by twelve rounds back to [v] *)
Lemma twelfth_back k d n t : 0 <= k <= 120 -> rep_s k d n -> 2 ^ 52 <= Z.abs n < 2 ^ 53 ->
  0 < Z.abs t < 2 ^ 31 -> 2 * Z.abs (t * 2 ^ k - n * 12) <= 12 -> rep (fmul d (f64_of_Z 12)) t.
Proof.
  intros Hk Hd Hn Ht HR.
  assert (k25 : 25 <= k).
  { assert (2 ^ 24 < 2 ^ k); [| assert (24 < k) by (apply pow_lt_inv; [lia | assumption]); lia].
    assert (0 < 2 ^ k) by (apply Z.pow_pos_nonneg; lia).
    assert (Z.abs t * 2 ^ k >= 2 ^ 52 * 12 - 6).
    { replace (Z.abs t * 2 ^ k) with (Z.abs (t * 2 ^ k)) by (rewrite Z.abs_mul; f_equal; lia). lia. }
    assert (Z.abs t * 2 ^ k < 2 ^ 31 * 2 ^ k) by (apply Z.mul_lt_mono_pos_r; lia). lia. }
  assert (EX : exists w, t * 2 ^ k = 32 * w).
  { exists (t * 2 ^ (k - 5)). replace k with (5 + (k - 5)) at 1 by lia. rewrite Z.pow_add_r by lia.
    change (2 ^ 5) with 32. ring. }
  destruct EX as (w & EW).
  (* absolute values *)
  assert (SG : (n <? 0) = (t <? 0) /\ Z.abs t * 2 ^ k = 32 * Z.abs w /\ 2 * Z.abs (32 * Z.abs w - Z.abs n * 12) <= 12).
  { assert (0 < 2 ^ k) by (apply Z.pow_pos_nonneg; lia).
    assert (ES : forall a b, 0 < b -> (a * b <? 0) = (a <? 0)).
    { intros a b Hb. destruct (Z.ltb_spec (a * b) 0), (Z.ltb_spec a 0); reflexivity || nia. }
    pose proof (ES t (2 ^ k) ltac:(lia)) as E1. rewrite EW in E1.
    split; [destruct (Z.ltb_spec n 0); destruct (Z.ltb_spec t 0); try reflexivity; destruct (Z.ltb_spec (32 * w) 0); try discriminate; lia |].
    split; [rewrite <- (Z.abs_eq (2 ^ k)), <- Z.abs_mul, EW by lia; lia |]. lia. }
  destruct SG as (SG & EW' & HR').
  set (T := Z.abs w) in *. set (P := Z.abs n * 12) in *.
  assert (BP : 2 ^ 55 <= P < 2 ^ 57) by (unfold P; lia).
  destruct d as [s | | | s m1 e1]; unfold rep_s in Hd; try contradiction; [subst n; cbn in Hn; lia |].
  destruct Hd as (E1 & _ & M1 & S1). assert (L1 : Z.log2 (Z.abs n) = 52).
  { apply Z.log2_unique; [lia |]. change (Z.succ 52) with 53. lia. }
  rewrite L1 in E1. replace (52 - 52 - k) with (- k) in E1 by lia.
  replace (- k - e1) with 0 in M1 by lia. rewrite Z.pow_0_r, Z.mul_1_r in M1.
  change (f64_of_Z 12) with (S754_finite false 6755399441055744 (-49)).
  unfold fmul, SFmul. rewrite xorb_false_r.
  assert (EN : Z.pos (m1 * 6755399441055744) = P * 2 ^ 49).
  { rewrite Pos2Z.inj_mul, M1. unfold P. change (Z.pos 6755399441055744) with (12 * 2 ^ 49). ring. }
  assert (LN : Z.log2 (P * 2 ^ 49) = Z.log2 P + 49) by (apply log2_scaled; lia).
  assert (LP : 55 <= Z.log2 P <= 56).
  { split; [apply Z.log2_le_pow2; lia |]. assert (Z.log2 P < 57) by (apply Z.log2_lt_pow2; lia). lia. }
  destruct (round_aux_sem s (Z.pos (m1 * 6755399441055744)) (e1 + -49) loc_Exact (P * 2 ^ 49) 1)
    as (M & m' & e' & ER & RN & EV & BM & Cs).
  { rewrite EN. lia. } { lia. } { lia. } { rewrite EN, LN. lia. }
  { unfold sem. cbn [shr_record_of_loc shr_m shr_r shr_s]. rewrite EN. lia. }
  rewrite ER. rewrite EN, LN in RN, EV, Cs. rewrite Z.mul_1_l in RN, EV.
  assert (EJ : 2 ^ (Z.log2 P + 49 - 52) = 2 ^ (Z.log2 P - 52) * 2 ^ 49) by (rewrite <- Z.pow_add_r by lia; f_equal; lia).
  rewrite EJ in RN, EV. set (u := 2 ^ (Z.log2 P - 52)) in *.
  assert (U : (Z.log2 P = 55 /\ u = 8) \/ (Z.log2 P = 56 /\ u = 16)).
  { assert (Z.log2 P = 55 \/ Z.log2 P = 56) as [EL | EL] by lia; [left | right]; split; auto; unfold u; rewrite EL; reflexivity. }
  assert (RN' : 2 * Z.abs (P - M * u) <= u).
  { replace (P * 2 ^ 49 - M * (u * 2 ^ 49)) with ((P - M * u) * 2 ^ 49) in RN by ring.
    rewrite Z.abs_mul, (Z.abs_eq (2 ^ 49)) in RN by lia. lia. }
  assert (EV' : 2 * Z.abs (P - M * u) = u -> Z.even M = true).
  { intros H. apply EV. replace (P * 2 ^ 49 - M * (u * 2 ^ 49)) with ((P - M * u) * 2 ^ 49) by ring.
    rewrite Z.abs_mul, (Z.abs_eq (2 ^ 49)) by lia. lia. }
  assert (MU : M * u = 32 * T).
  { unfold P in *. destruct U as [[_ Hu] | [_ Hu]]; rewrite Hu in *; [| lia].
    destruct (Z.eq_dec (M * 8) (32 * T)) as [| NE]; [assumption | exfalso].
    assert (2 * Z.abs (Z.abs n * 12 - M * 8) = 8) as TIE by lia. specialize (EV' TIE).
    apply Z.even_spec in EV'. destruct EV' as (h & ->). lia. }
  (* back to the representation *)
  assert (VAL : Z.pos m' * 2 ^ (e' + k) = Z.abs t * 2 ^ k /\ 2 ^ 52 <= Z.pos m' < 2 ^ 53 /\ 0 <= e' + k).
  { rewrite EW', <- MU. unfold u. destruct Cs as [(Ee & Em & B) | (Ee & Em & B)].
    - split; [rewrite Em; f_equal; f_equal; lia | lia].
    - split; [| lia]. rewrite Em, B. change (2 ^ 53) with (2 ^ 52 * 2). rewrite <- Z.mul_assoc. f_equal.
      rewrite <- Z.pow_succ_r by lia. f_equal. lia. }
  destruct VAL as (VAL & Bm & Bk).
  assert (Pk : 0 < 2 ^ k) by (apply Z.pow_pos_nonneg; lia).
  assert (Pe : 0 < 2 ^ (e' + k)) by (apply Z.pow_pos_nonneg; lia).
  assert (EL : Z.log2 (Z.abs t) + k = 52 + (e' + k)).
  { rewrite <- log2_scaled, <- VAL, log2_scaled by lia. f_equal. apply Z.log2_unique; [lia |]. change (Z.succ 52) with 53. lia. }
  assert (LT : 0 <= Z.log2 (Z.abs t) < 31) by (split; [apply Z.log2_nonneg | apply Z.log2_lt_pow2; lia]).
  unfold rep_s. split; [lia |]. split; [lia |]. split; [| congruence].
  replace (- 0 - e') with (- e') by lia. apply (Z.mul_cancel_r _ _ (2 ^ (e' + k))); [lia |].
  rewrite VAL, <- Z.mul_assoc. f_equal. rewrite <- Z.pow_add_r by lia. f_equal. lia.
Qed.
(** multiples of three: the quotient is exact *)
Lemma fdiv_quarter u : Z.abs u < 2 ^ 29 -> rep_s 2 (fdiv (f64_of_Z (3 * u)) (f64_of_Z 12)) u.
Proof.
  intros Hu. assert (R12 : rep (f64_of_Z 12) 12) by (apply f64_of_Z_rep; lia).
  assert (Ru : rep (f64_of_Z (3 * u)) (3 * u)) by (apply f64_of_Z_rep; lia).
  destruct (Z.eq_dec u 0) as [-> | N]; [apply (fdiv_zero _ _ 12); auto; lia |].
  destruct (fdiv_rep _ _ _ _ Ru R12 ltac:(lia) ltac:(lia)) as (k & n & Hk & R & Bn & RN & _).
  assert (k24 : 20 <= k).
  { assert (2 ^ 20 < 2 ^ k); [| assert (20 < k) by (apply pow_lt_inv; [lia | assumption]); lia].
    assert (0 < 2 ^ k) by (apply Z.pow_pos_nonneg; lia).
    assert (3 * Z.abs u * 2 ^ k >= 2 ^ 52 * 12 - 6).
    { replace (3 * Z.abs u * 2 ^ k) with (Z.abs (3 * u * 2 ^ k)) by (rewrite !Z.abs_mul; f_equal; lia). lia. }
    assert (3 * Z.abs u * 2 ^ k < 2 ^ 31 * 2 ^ k) by (apply Z.mul_lt_mono_pos_r; lia). lia. }
  assert (EP : 2 ^ k = 4 * 2 ^ (k - 2)) by (change 4 with (2 ^ 2); rewrite <- Z.pow_add_r by lia; f_equal; lia).
  assert (En : n = u * 2 ^ (k - 2)).
  { rewrite EP in RN. replace (3 * u * (4 * 2 ^ (k - 2)) - n * 12) with (12 * (u * 2 ^ (k - 2) - n)) in RN by ring. lia. }
  apply (rep_unscale 2 (k - 2)); [lia |]. rewrite <- En. replace (2 + (k - 2)) with k by lia. assumption.
Qed.
