(** * PropReflection: property C84: reflection conditions. *)
From Coq Require Import QArith Qfield Permutation.
From Verif Require Import Base Notations Parser Seitz F64 Jones Rotations Tables Generate Positions
  Spec SpecHall SpecXyz SpecCanon SpecOrbit SpecReflection Algebra PropSeitz PropSymbols GenFacts PropGenerate PropFullSets PropCanon PropOrbit.
Open Scope Z_scope.
Local Notation length := List.length.

(** ** Numbers that differ by a whole number *)
Lemma whole_Qeq x y : (x == y)%Q -> whole x = whole y.
Proof.
  intros E. apply Bool.eq_iff_eq_true. rewrite !whole_spec. split; intros (i & H); exists i; [rewrite <- E | rewrite E]; exact H.
Qed.
Lemma whole_add x y : whole x = true -> whole y = true -> whole (x + y) = true.
Proof. rewrite !whole_spec. intros (i & A) (j & B). exists (i + j). rewrite inject_Z_plus, A, B. reflexivity. Qed.
Lemma whole_opp x : whole x = true -> whole (- x) = true.
Proof. rewrite !whole_spec. intros (i & A). exists (- i). rewrite inject_Z_opp, A. reflexivity. Qed.
Lemma whole_Z k : whole (inject_Z k) = true.
Proof. apply whole_spec. now exists k. Qed.
Lemma whole_twelfth k : whole (inject_Z k / 12) = true <-> (12 | k).
Proof.
  rewrite whole_spec. split.
  - intros (i & E). exists i. assert (F : (inject_Z k == inject_Z (i * 12))%Q).
    { rewrite inject_Z_mult. rewrite <- E. change (inject_Z 12) with 12%Q. field. }
    unfold inject_Z, Qeq in F. cbn [Qnum Qden] in F. lia.
  - intros (i & ->). exists i. rewrite inject_Z_mult. change (inject_Z 12) with 12%Q. field.
Qed.

(** ** Phases *)
Lemma phase_apart h p q : cells_apart p q -> whole (phase h p - phase h q) = true.
Proof.
  intros (i & j & k & A & B & C). apply whole_spec. exists (vx h * i + vy h * j + vz h * k).
  rewrite !inject_Z_plus, !inject_Z_mult, <- A, <- B, <- C. unfold phase, qdot. ring.
Qed.
Lemma phase_act h m p :
  (phase h (act m p) ==
   qdot (vx h * m11 (rot m) + vy h * m21 (rot m) + vz h * m31 (rot m))
        (vx h * m12 (rot m) + vy h * m22 (rot m) + vz h * m32 (rot m))
        (vx h * m13 (rot m) + vy h * m23 (rot m) + vz h * m33 (rot m)) p + inject_Z (along h (tra m)) / 12)%Q.
Proof.
  unfold phase, act, qdot, along. cbn [qx qy qz]. rewrite !inject_Z_plus, !inject_Z_mult. field.
Qed.
Lemma phase_kept h m p : keeps_reflection h m -> (phase h (act m p) == phase h p + inject_Z (along h (tra m)) / 12)%Q.
Proof. intros (A & B & C). rewrite phase_act, A, B, C. reflexivity. Qed.
Lemma scattered_mod g h p x y : whole (x - y) = true -> scattered g h p x = scattered g h p y.
Proof.
  intros W. unfold scattered. f_equal. apply filter_ext. intros m. apply Bool.eq_iff_eq_true. split; intros A.
  - pose proof (whole_add _ _ A W) as B. rewrite <- B. apply whole_Qeq. ring.
  - pose proof (whole_add _ _ A (whole_opp _ W)) as B. rewrite <- B. apply whole_Qeq. ring.
Qed.
Lemma scattered_le fuel hs g h p x a : general_positions fuel hs = Done g -> no_extra_translations hs ->
  In a (all_operations g) -> keeps_reflection h a ->
  (scattered g h p x <= scattered g h p (x + inject_Z (along h (tra a)) / 12))%nat.
Proof.
  intros H T Ha K. pose proof Ha as La. apply listed_all in La. destruct (listed_group _ _ _ _ H La) as [_ Ga].
  unfold scattered. apply (inj_le (fun m y => op_same (op_of y) (op_comp (op_of a) (op_of m)))).
  - apply NoDup_filter, (all_NoDup _ _ _ H).
  - intros m Hm. apply filter_In in Hm. destruct Hm as [Hm S]. apply listed_all in Hm.
    destruct (listed_group _ _ _ _ H Hm) as [_ Gm].
    destruct (group_listed _ _ _ _ H T (gen_comp _ _ _ Ga Gm)) as (c & Lc & E).
    exists c. split; [| exact E]. apply filter_In. split; [apply listed_all, Lc |].
    assert (A : cells_apart (act c p) (act a (act m p))).
    { rewrite !act_op_of. eapply cells_apart_trans; [apply act_op_same, E | apply act_op_comp]. }
    pose proof (whole_add _ _ (phase_apart h _ _ A) S) as W. rewrite <- W. apply whole_Qeq.
    rewrite (phase_kept h a (act m p) K). ring.
  - intros m m' y Hm Hm' E E'. apply filter_In in Hm, Hm'. apply (all_unique _ _ _ _ _ H (proj1 Hm) (proj1 Hm')).
    assert (U := hall_group_unimodular _ _ Ga).
    assert (Q : op_same (op_comp (op_of a) (op_of m)) (op_comp (op_of a) (op_of m')))
      by (eapply op_same_trans; [apply op_same_sym, E | exact E']).
    pose proof (op_same_comp _ _ _ _ (op_same_refl (op_inv (op_of a))) Q) as Q'.
    rewrite !op_comp_assoc, !(op_inv_l (op_of a) U), !op_comp_id_l in Q'. exact Q'.
Qed.
(** C84: an operation that keeps the reflection but moves its phase balances the phases: as many
    images scatter with the phase x as with the phase x moved by h.t *)
Theorem C84_phases_balanced :
  forall fuel hs g, general_positions fuel hs = Done g -> no_extra_translations hs ->
    forall h p m, In m (all_operations g) -> keeps_reflection h m ->
      forall x, scattered g h p x = scattered g h p (x + inject_Z (along h (tra m)) / 12).
Proof.
  intros fuel hs g H T h p m Hm K x. set (s := (inject_Z (along h (tra m)) / 12)%Q).
  assert (L : forall y, (scattered g h p y <= scattered g h p (y + s))%nat) by (intros y; exact (scattered_le _ _ _ h p y m H T Hm K)).
  apply Nat.le_antisymm; [apply L |].
  assert (N : forall n y, (scattered g h p y <= scattered g h p (y + inject_Z (Z.of_nat n) * s))%nat).
  { induction n as [| n IH]; intros y.
    - apply Nat.eq_le_incl, scattered_mod. change (inject_Z (Z.of_nat 0)) with 0%Q. rewrite <- (whole_Z 0). apply whole_Qeq. change (inject_Z 0) with 0%Q. ring.
    - eapply Nat.le_trans; [apply L |]. eapply Nat.le_trans; [apply (IH (y + s)%Q) |].
      apply Nat.eq_le_incl, scattered_mod. rewrite <- (whole_Z 0). apply whole_Qeq. rewrite Nat2Z.inj_succ. unfold Z.succ. rewrite inject_Z_plus.
      change (inject_Z 1) with 1%Q. change (inject_Z 0) with 0%Q. ring. }
  eapply Nat.le_trans; [apply (N 11%nat) |]. apply Nat.eq_le_incl, scattered_mod.
  rewrite <- (whole_Z (along h (tra m))). apply whole_Qeq. unfold s. change (inject_Z (Z.of_nat 11)) with 11%Q. field.
Qed.

(** ** A point whose images can be told apart by the reflection *)
Definition far_point (M : Z) : qvec := QV (1 / inject_Z M) (1 / inject_Z (M * M)) (1 / inject_Z (M * M * M)).
Lemma far_point_tells B M d1 d2 d3 k : 0 < B -> M = 36 * B + 36 -> Z.abs d1 <= B -> Z.abs d2 <= B -> Z.abs d3 <= B ->
  whole (qdot d1 d2 d3 (far_point M) + inject_Z k / 12) = true -> d1 = 0 /\ d2 = 0 /\ d3 = 0.
Proof.
  intros HB HM A1 A2 A3 W. apply whole_spec in W. destruct W as (i & W).
  assert (MP : 0 < M) by lia.
  assert (E : 12 * (d1 * (M * M) + d2 * M + d3) = (12 * i - k) * (M * M * M)).
  { assert (Q : (inject_Z (12 * (d1 * (M * M) + d2 * M + d3)) == inject_Z ((12 * i - k) * (M * M * M)))%Q).
    { unfold qdot, far_point in W. cbn [qx qy qz] in W. unfold Zminus. repeat rewrite ?inject_Z_plus, ?inject_Z_mult, ?inject_Z_opp in *. rewrite <- W.
      assert (NZ : ~ (inject_Z M == 0)%Q). { unfold Qeq, inject_Z. cbn [Qnum Qden]. lia. }
      change (inject_Z 12) with 12%Q. field. exact NZ. }
    unfold Qeq, inject_Z in Q. cbn [Qnum Qden] in Q. lia. }
  assert (Bd : Z.abs (12 * (d1 * (M * M) + d2 * M + d3)) < M * M * M).
  { assert (X1 : Z.abs (d1 * (M * M)) <= B * (M * M)) by (rewrite Z.abs_mul, (Z.abs_eq (M * M)) by nia; apply Z.mul_le_mono_nonneg_r; nia).
    assert (X2 : Z.abs (d2 * M) <= B * M) by (rewrite Z.abs_mul, (Z.abs_eq M) by lia; apply Z.mul_le_mono_nonneg_r; lia).
    assert (X3 : B * M <= B * (M * M)) by (apply Z.mul_le_mono_nonneg_l; nia).
    assert (X4 : 36 * (B * (M * M)) < M * M * M) by (rewrite HM at 3; nia). lia. }
  assert (Z0 : 12 * i - k = 0).
  { destruct (Z.eq_dec (12 * i - k) 0) as [| N]; [assumption |]. exfalso. rewrite E in Bd. rewrite Z.abs_mul in Bd.
    rewrite (Z.abs_eq (M * M * M)) in Bd by nia. assert (1 <= Z.abs (12 * i - k)) by lia. nia. }
  rewrite Z0 in E. assert (F : d1 * (M * M) + d2 * M + d3 = 0) by lia.
  assert (D1 : d1 = 0).
  { destruct (Z.eq_dec d1 0) as [| N]; [assumption |]. exfalso. assert (Z.abs (d1 * (M * M)) >= M * M) by nia. assert (Z.abs (d2 * M + d3) <= B * M + B) by nia. nia. }
  subst d1. assert (D2 : d2 = 0).
  { destruct (Z.eq_dec d2 0) as [| N]; [assumption |]. exfalso. assert (Z.abs (d2 * M) >= M) by nia. nia. }
  subst d2. repeat split; lia.
Qed.
Lemma listed_unit fuel hs g m : general_positions fuel hs = Done g -> In m (all_operations g) -> unit_matrix (rot m).
Proof.
  intros H Hm. apply listed_all in Hm. destruct Hm as (s & Hs & Hm). unfold derive_full_sets in Hs. apply in_map_iff in Hs.
  destruct Hs as (v & <- & _). apply in_map_iff in Hm. destruct Hm as (c & <- & Hc).
  exact (proj1 (C61_listed_positions _ _ _ H c Hc)).
Qed.
(** C84: a reflection is forbidden exactly when, wherever the atoms are, the images scatter it with
    phases that are evenly spread: shifting all phases by some s/12 of a turn changes nothing (so
    that the amplitudes cancel) *)
Theorem C84_forbidden_iff_balanced :
  forall fuel hs g, general_positions fuel hs = Done g -> no_extra_translations hs ->
    forall h, forbidden g h <->
      forall p, exists s, 0 < s < 12 /\ forall x, scattered g h p x = scattered g h p (x + inject_Z s / 12).
Proof.
  intros fuel hs g H T h. split.
  - intros (m & Hm & K & N) p. exists (along h (tra m) mod 12).
    assert (R : 0 < along h (tra m) mod 12 < 12).
    { pose proof (Z.mod_pos_bound (along h (tra m)) 12 eq_refl). split; [| lia].
      destruct (Z.eq_dec (along h (tra m) mod 12) 0) as [E | E]; [| lia]. exfalso. apply N. now apply Z.mod_divide in E. }
    split; [exact R |]. intros x. rewrite (C84_phases_balanced _ _ _ H T h p m Hm K x). apply scattered_mod.
    rewrite <- (whole_Z (along h (tra m) / 12)). apply whole_Qeq.
    rewrite (Z.div_mod (along h (tra m)) 12) at 1 by lia. rewrite inject_Z_plus, inject_Z_mult. change (inject_Z 12) with 12%Q. field.
  - intros F. set (B := 4 * (Z.abs (vx h) + Z.abs (vy h) + Z.abs (vz h)) + 1). set (M := 36 * B + 36).
    destruct (F (far_point M)) as (s & Rs & E). set (p := far_point M) in *.
    destruct (group_listed _ _ _ op_id H T (gen_one _)) as (e & Le & Ee). apply listed_all in Le.
    set (x := phase h (act e p)).
    assert (P : (0 < scattered g h p (x + inject_Z s / 12))%nat).
    { rewrite <- E. unfold scattered. assert (I : In e (filter (fun m => whole (phase h (act m p) - x)) (all_operations g))).
      { apply filter_In. split; [exact Le |]. rewrite <- (whole_Z 0). apply whole_Qeq. unfold x. change (inject_Z 0) with 0%Q. ring. }
      destruct (filter _ _); [destruct I | simpl; lia]. }
    unfold scattered in P. destruct (filter (fun m => whole (phase h (act m p) - (x + inject_Z s / 12))) (all_operations g)) as [| m l] eqn:Fl; [simpl in P; lia |].
    assert (I : In m (filter (fun m => whole (phase h (act m p) - (x + inject_Z s / 12))) (all_operations g))) by (rewrite Fl; now left).
    apply filter_In in I. destruct I as [Hm W]. clear P Fl E F.
    destruct Ee as [Re Te]. cbn [op_of op_id fst snd] in Re, Te.
    assert (We : whole (inject_Z (along h (tra e)) / 12) = true).
    { apply whole_twelfth. destruct Te as ((a & A) & (b & Bb) & (c & C)). cbn [vx vy vz] in *. unfold along.
      exists (vx h * a + vy h * b + vz h * c). nia. }
    set (d1 := vx h * m11 (rot m) + vy h * m21 (rot m) + vz h * m31 (rot m) - vx h).
    set (d2 := vx h * m12 (rot m) + vy h * m22 (rot m) + vz h * m32 (rot m) - vy h).
    set (d3 := vx h * m13 (rot m) + vy h * m23 (rot m) + vz h * m33 (rot m) - vz h).
    assert (W' : whole (qdot d1 d2 d3 p + inject_Z (along h (tra m) - s) / 12) = true).
    { pose proof (whole_add _ _ W We) as V. rewrite <- V. apply whole_Qeq. unfold x. rewrite !phase_act. rewrite Re.
      unfold I3. cbn [m11 m12 m13 m21 m22 m23 m31 m32 m33]. unfold d1, d2, d3, qdot, Zminus.
      repeat rewrite ?inject_Z_plus, ?inject_Z_mult, ?inject_Z_opp. change (inject_Z 0) with 0%Q. change (inject_Z 1) with 1%Q. field. }
    pose proof (listed_unit _ _ _ _ H Hm) as U.
    assert (D : d1 = 0 /\ d2 = 0 /\ d3 = 0).
    { apply (far_point_tells B M d1 d2 d3 (along h (tra m) - s)); [unfold B; lia | reflexivity | | | | exact W'].
      all: unfold unit_matrix in U; unfold d1, d2, d3, B; clear - U.
      all: assert (X : forall a u, -1 <= u <= 1 -> Z.abs (a * u) <= Z.abs a) by (intros a u R; nia).
      - pose proof (X (vx h) (m11 (rot m))). pose proof (X (vy h) (m21 (rot m))). pose proof (X (vz h) (m31 (rot m))). clear X. lia.
      - pose proof (X (vx h) (m12 (rot m))). pose proof (X (vy h) (m22 (rot m))). pose proof (X (vz h) (m32 (rot m))). clear X. lia.
      - pose proof (X (vx h) (m13 (rot m))). pose proof (X (vy h) (m23 (rot m))). pose proof (X (vz h) (m33 (rot m))). clear X. lia. }
    destruct D as (D1 & D2 & D3). exists m. split; [exact Hm |]. split; [unfold keeps_reflection; unfold d1, d2, d3 in *; lia |].
    intros Dv. rewrite D1, D2, D3 in W'.
    assert (V : whole (inject_Z (along h (tra m) - s) / 12) = true).
    { rewrite <- W'. apply whole_Qeq. unfold qdot. change (inject_Z 0) with 0%Q. field. }
    apply whole_twelfth in V. destruct V as (i & V). destruct Dv as (j & Dv). lia.
Qed.

(** ** The conditions of the lattice *)
Lemma lattice_forbids_iff l h : lattice_forbids l h <-> exists v, In v (translations l) /\ ~ (12 | along h v).
Proof.
  assert (E6 : forall a, ~ (12 | 6 * a) <-> a mod 2 = 1).
  { intros a. pose proof (Z.mod_pos_bound a 2 eq_refl). pose proof (Z.div_mod a 2 ltac:(lia)). split.
    - intros N. destruct (Z.eq_dec (a mod 2) 1) as [| Ne]; [assumption |]. exfalso. apply N. exists (a / 2). lia.
    - intros O (b & E). lia. }
  assert (E4 : forall a, ~ (12 | 4 * a) <-> a mod 3 <> 0).
  { intros a. pose proof (Z.mod_pos_bound a 3 eq_refl). pose proof (Z.div_mod a 3 ltac:(lia)). split.
    - intros N Z0. apply N. exists (a / 3). lia.
    - intros N (b & E). lia. }
  assert (S6 : forall v a, along h v = 6 * a -> (~ (12 | along h v) <-> a mod 2 = 1)) by (intros v a ->; apply E6).
  assert (S4 : forall v a, along h v = 4 * a -> (~ (12 | along h v) <-> a mod 3 <> 0)) by (intros v a ->; apply E4).
  assert (N0 : (12 | along h (V3 0 0 0))) by (exists 0; unfold along; cbn [vx vy vz]; lia).
  assert (QA : ~ (12 | along h (V3 0 6 6)) <-> (vy h + vz h) mod 2 = 1) by (apply S6; unfold along; cbn [vx vy vz]; lia).
  assert (QB : ~ (12 | along h (V3 6 0 6)) <-> (vx h + vz h) mod 2 = 1) by (apply S6; unfold along; cbn [vx vy vz]; lia).
  assert (QC : ~ (12 | along h (V3 6 6 0)) <-> (vx h + vy h) mod 2 = 1) by (apply S6; unfold along; cbn [vx vy vz]; lia).
  assert (QI : ~ (12 | along h (V3 6 6 6)) <-> (vx h + vy h + vz h) mod 2 = 1) by (apply S6; unfold along; cbn [vx vy vz]; lia).
  assert (R1 : ~ (12 | along h (V3 8 4 4)) <-> (- vx h + vy h + vz h) mod 3 <> 0).
  { rewrite (S4 (V3 8 4 4) (- vx h + vy h + vz h + vx h * 3)) by (unfold along; cbn [vx vy vz]; lia). now rewrite Z.mod_add by lia. }
  assert (R2 : ~ (12 | along h (V3 4 8 8)) <-> (- vx h + vy h + vz h) mod 3 <> 0).
  { rewrite (S4 (V3 4 8 8) (2 * (- vx h + vy h + vz h) + vx h * 3)) by (unfold along; cbn [vx vy vz]; lia). rewrite Z.mod_add by lia.
    clear. set (a := - vx h + vy h + vz h). pose proof (Z.div_mod a 3 ltac:(lia)). pose proof (Z.mod_pos_bound a 3 eq_refl).
    pose proof (Z.div_mod (2 * a) 3 ltac:(lia)). pose proof (Z.mod_pos_bound (2 * a) 3 eq_refl). lia. }
  clear E6 E4 S6 S4. unfold lattice_forbids, translations. cbv zeta.
  destruct l.
  - split; [intros [] |]. intros (v & [<- | []] & N). exact (N N0).
  - rewrite <- QA. split; [intros N; exists (V3 0 6 6); cbn; auto |]. intros (v & [<- | [<- | []]] & N); [destruct (N N0) | exact N].
  - rewrite <- QB. split; [intros N; exists (V3 6 0 6); cbn; auto |]. intros (v & [<- | [<- | []]] & N); [destruct (N N0) | exact N].
  - rewrite <- QC. split; [intros N; exists (V3 6 6 0); cbn; auto |]. intros (v & [<- | [<- | []]] & N); [destruct (N N0) | exact N].
  - rewrite <- QI. split; [intros N; exists (V3 6 6 6); cbn; auto |]. intros (v & [<- | [<- | []]] & N); [destruct (N N0) | exact N].
  - split; [intros N; exists (V3 8 4 4); split; [cbn; auto | apply R1, N] |].
    intros (v & [<- | [<- | [<- | []]]] & N); [destruct (N N0) | apply R1, N | apply R2, N].
  - rewrite <- QA, <- QB, <- QC. split.
    + intros [N | [N | N]]; [exists (V3 6 6 0) | exists (V3 6 0 6) | exists (V3 0 6 6)]; (split; [cbn; auto 6 | exact N]).
    + intros (v & [<- | [<- | [<- | [<- | []]]]] & N); [destruct (N N0) | auto | auto | auto].
Qed.
Lemma along_cong h t u : vcong12 t u -> (12 | along h t) -> (12 | along h u).
Proof.
  intros ((a & A) & (b & B) & (c & C)) (k & E). unfold along in *. exists (k - (vx h * a + vy h * b + vz h * c)). nia.
Qed.
(** C84: every centred lattice forbids the reflections that the textbooks say *)
Theorem C84_lattice_conditions :
  forall fuel hs g, general_positions fuel hs = Done g -> no_extra_translations hs ->
    forall h, lattice_forbids (ls_char (h_lat hs)) h -> forbidden g h.
Proof.
  intros fuel hs g H T h L. apply lattice_forbids_iff in L. destruct L as (v & Hv & N).
  destruct (group_listed _ _ _ (I3, v) H T) as (m & Lm & [R V]).
  { apply gen_base. left. exists v. auto. }
  cbn [op_of fst snd] in R, V. exists m. split; [apply listed_all, Lm |]. split.
  - unfold keeps_reflection. rewrite R. unfold I3. cbn [m11 m12 m13 m21 m22 m23 m31 m32 m33]. lia.
  - intros D. exact (N (along_cong h _ _ V D)).
Qed.
(** C84: and no others, among the reflections that are not kept by a rotation *)
Theorem C84_general_reflections :
  forall fuel hs g, general_positions fuel hs = Done g -> no_extra_translations hs ->
    forall h, (forall m, In m (all_operations g) -> keeps_reflection h m -> rot m = I3) ->
      (forbidden g h <-> lattice_forbids (ls_char (h_lat hs)) h).
Proof.
  intros fuel hs g H T h G. split; [| exact (C84_lattice_conditions fuel hs g H T h)].
  intros (m & Hm & K & N). apply lattice_forbids_iff. pose proof (G m Hm K) as R.
  apply listed_all in Hm. destruct (listed_group _ _ _ _ H Hm) as [_ Gm]. unfold op_of in Gm. rewrite R in Gm.
  destruct (T _ Gm) as (v & Hv & V). exists v. split; [exact Hv |]. intros D. apply N. exact (along_cong h _ _ (vcong12_sym _ _ V) D).
Qed.
(** the hypotheses are met by P2_1/c (c unique axis, -P 2c): 0 0 1 is forbidden, 0 0 2 and 1 2 3 are not;
    1 2 3 is kept by no rotation *)
Example C84_case :
  exists hs g, try_from_str "-P 2c" = Done (Some hs) /\ general_positions 10 hs = Done g /\ no_extra_translations hs /\
    forbidden g (V3 0 0 1) /\ ~ forbidden g (V3 0 0 2) /\ ~ forbidden g (V3 1 2 3) /\
    (forall m, In m (all_operations g) -> keeps_reflection (V3 1 2 3) m -> rot m = I3).
Proof.
  destruct (case_spec "-P 2c" 4) as (hs & g & E & G & T & N); [vm_compute; reflexivity |].
  exists hs, g. split; [exact E |]. split; [exact G |]. split; [exact T |].
  assert (Q : match try_from_str "-P 2c" with Done (Some h) => match general_positions 10 h with Done g => all_operations g | _ => [] end | _ => [] end =
    [aff (M3 1 0 0 0 1 0 0 0 1) (V3 0 0 0); aff (M3 (-1) 0 0 0 (-1) 0 0 0 1) (V3 0 0 6);
     aff (M3 (-1) 0 0 0 (-1) 0 0 0 (-1)) (V3 0 0 0); aff (M3 1 0 0 0 1 0 0 0 (-1)) (V3 0 0 6)]) by (vm_compute; reflexivity).
  rewrite E, G in Q. unfold forbidden. rewrite Q. split; [| split; [| split]].
  - exists (aff (M3 (-1) 0 0 0 (-1) 0 0 0 1) (V3 0 0 6)). split; [cbn; auto |]. split; [unfold keeps_reflection; cbn; lia |]. unfold along. cbn. intros (k & K). lia.
  - intros (m & [<- | [<- | [<- | [<- | []]]]] & K & D); unfold keeps_reflection, along in *; cbn in *; try lia; apply D; [exists 0 | exists 1]; lia.
  - intros (m & [<- | [<- | [<- | [<- | []]]]] & K & D); unfold keeps_reflection, along in *; cbn in *; try lia; apply D; exists 0; lia.
  - intros m [<- | [<- | [<- | [<- | []]]]] K; unfold keeps_reflection in K; cbn in *; try lia. reflexivity.
Qed.
