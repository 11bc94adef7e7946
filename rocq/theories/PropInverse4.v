(** * PropInverse4: property C16, continued: exactly which hexagonal operations with normalised
    translation are inverted exactly. *)
From Coq Require Import SpecFloat.
From Verif Require Import Base Notations Seitz F64 Spec SpecRotation SpecXyz SpecInverse Algebra PropSeitz F64Facts
  PropRotation PropJones F64Div PropInverse PropInverse2 F64Err PropInverseErr PropInverse3.
Open Scope Z_scope.
Local Notation length := List.length.

(** ** Support *)
Lemma invertsb_iff m i : invertsb m i = true <-> inverts m i.
Proof. unfold invertsb, inverts. now rewrite andb_true_iff, !entries_eqb_eq. Qed.
Definition signed_rowb (a b c : Z) : bool :=
  (-1 <=? a) && (a <=? 1) && (-1 <=? b) && (b <=? 1) && (-1 <=? c) && (c <=? 1) && (Z.abs a + Z.abs b + Z.abs c =? 1).
Lemma signed_rowb_iff a b c : signed_rowb a b c = true <-> signed_row a b c.
Proof. unfold signed_rowb, signed_row. rewrite !andb_true_iff, !Z.leb_le, Z.eqb_eq. tauto. Qed.
Definition signedb (R : mat3) : bool :=
  signed_rowb (m11 R) (m12 R) (m13 R) && signed_rowb (m21 R) (m22 R) (m23 R) && signed_rowb (m31 R) (m32 R) (m33 R) &&
  signed_rowb (m11 R) (m21 R) (m31 R) && signed_rowb (m12 R) (m22 R) (m32 R) && signed_rowb (m13 R) (m23 R) (m33 R).
Lemma signedb_iff R : signedb R = true <-> signed_permutation R.
Proof. unfold signedb, signed_permutation. rewrite !andb_true_iff, !signed_rowb_iff. tauto. Qed.
Definition pair_in (a b : Z) : bool := existsb (fun p => (fst p =? a) && (snd p =? b)) rounding_pairs.
Lemma pair_in_iff a b : pair_in a b = true <-> In (a, b) rounding_pairs.
Proof.
  unfold pair_in. rewrite existsb_exists. split.
  - intros ([x y] & H & E). cbn [fst snd] in E. apply andb_true_iff in E. destruct E as (E & F).
    apply Z.eqb_eq in E. apply Z.eqb_eq in F. now subst.
  - intros H. exists (a, b). split; [exact H | cbn [fst snd]]. now rewrite !Z.eqb_refl.
Qed.
(** floats that differ at most in the sign of a zero *)
Definition zeq (f g : f64) : Prop := f = g \/ isz f /\ isz g.
Lemma zeq_refl f : zeq f f. Proof. now left. Qed.
Ltac zeq_cases := intros [-> | (A & B)] [-> | (A' & B')]; try (now left);
  repeat match goal with H : isz ?x |- _ => destruct x; try contradiction; clear H end.
Lemma zeq_add f f' g g' : zeq f f' -> zeq g g' -> zeq (fadd f g) (fadd f' g').
Proof.
  zeq_cases.
  - destruct f'; unfold fadd, SFadd; try (now left). right. split; match goal with |- context [Bool.eqb ?x ?y] => destruct (Bool.eqb x y) end; exact I.
  - destruct g'; unfold fadd, SFadd; try (now left). right. split; match goal with |- context [Bool.eqb ?x ?y] => destruct (Bool.eqb x y) end; exact I.
  - right. unfold fadd, SFadd. split; match goal with |- context [Bool.eqb ?x ?y] => destruct (Bool.eqb x y) end; exact I.
Qed.
Lemma zeq_sub f f' g g' : zeq f f' -> zeq g g' -> zeq (fsub f g) (fsub f' g').
Proof.
  zeq_cases.
  - destruct f'; unfold fsub, SFsub; try (now left). right. split; match goal with |- context [Bool.eqb ?x ?y] => destruct (Bool.eqb x y) end; exact I.
  - destruct g'; unfold fsub, SFsub; try (now left). right. split; match goal with |- context [Bool.eqb ?x ?y] => destruct (Bool.eqb x y) end; exact I.
  - right. unfold fsub, SFsub. split; match goal with |- context [Bool.eqb ?x ?y] => destruct (Bool.eqb x y) end; exact I.
Qed.
Lemma zeq_mul f f' g : zeq f f' -> zeq (fmul f g) (fmul f' g).
Proof.
  intros [-> | (A & B)]; [now left |]. destruct f, f'; try contradiction. destruct g; unfold fmul, SFmul; try (now left); right; split; exact I.
Qed.
Lemma zeq_Z f g : zeq f g -> Z_of_f64 f = Z_of_f64 g.
Proof. intros [-> | (A & B)]; [reflexivity |]. destruct f, g; try contradiction. reflexivity. Qed.
(** the first two components, written with the terms that can be different from zero *)
Definition unit_float (d : Z) : f64 := f64_of_Z d.
Definition tw (a : Z) : f64 := fdiv (f64_of_Z a) (f64_of_Z 12).
Definition sg (s : Z) (f : f64) : f64 := if s =? 0 then S754_zero false else if s =? 1 then f else fneg f.
Definition two_of (s u d : Z) (fa fb : f64) : Z :=
  Z_of_f64 (fmul (fmul (fsub (sg s fb) (sg u fa)) (unit_float d)) (f64_of_Z 12)).
Definition two (s u d a b : Z) : Z := two_of s u d (tw a) (tw b).
Definition first_two (R : mat3) (a b : Z) : Z * Z :=
  (two (m12 R * m33 R) (m22 R * m33 R) (mdet R) a b, two (- (m11 R * m33 R)) (- (m21 R * m33 R)) (mdet R) a b).
Lemma zeq_trans f g h : zeq f g -> zeq g h -> zeq f h.
Proof. intros [-> | (A & B)] [-> | (C & D)]; [now left | right; auto | right; auto | right; auto]. Qed.
Lemma zeq_sym f g : zeq f g -> zeq g f.
Proof. intros [-> | (A & B)]; [now left | right; auto]. Qed.
Lemma zeq_add_z f z : isz z -> zeq (fadd f z) f.
Proof.
  intros Hz. destruct z; try contradiction. destruct f; unfold fadd, SFadd; try (now left).
  right. split; [destruct (Bool.eqb _ _) |]; exact I.
Qed.
Lemma zeq_z_add f z : isz z -> zeq (fadd z f) f.
Proof.
  intros Hz. destruct z; try contradiction. destruct f; unfold fadd, SFadd; try (now left).
  right. split; [destruct (Bool.eqb _ _) |]; exact I.
Qed.
Lemma zeq_sub_z f z : isz z -> zeq (fsub f z) f.
Proof.
  intros Hz. destruct z; try contradiction. destruct f; unfold fsub, SFsub; try (now left).
  right. split; [destruct (Bool.eqb _ _) |]; exact I.
Qed.
Lemma zeq_z_sub f z : isz z -> zeq (fsub z f) (fneg f).
Proof.
  intros Hz. destruct z; try contradiction. destruct f; unfold fsub, SFsub, fneg, SFopp; try (now left).
  right. split; [destruct (Bool.eqb _ _) |]; exact I.
Qed.
Lemma fadd_neg f g : zeq (fadd f g) (fsub f (fneg g)).
Proof. left. rewrite fsub_neg. destruct g; unfold fneg, SFopp; rewrite ?negb_involutive; reflexivity. Qed.
Lemma zeq_neg f g : zeq f g -> zeq (fneg f) (fneg g).
Proof. intros [-> | (A & B)]; [now left | right]. destruct f, g; try contradiction. split; exact I. Qed.
Lemma cof12 t1 t2 t3 t4 t5 t6 : isz t1 -> isz t3 -> isz t4 -> isz t6 -> zeq (f6neg t1 t2 t3 t4 t5 t6) (fsub t2 t5).
Proof.
  intros Z1 Z3 Z4 Z6. unfold f6neg. eapply zeq_trans; [apply zeq_add_z, Z6 |]. apply zeq_sub; [| apply zeq_refl].
  eapply zeq_trans; [apply zeq_sub_z, Z4 |]. eapply zeq_trans; [apply zeq_add_z, Z3 |]. apply zeq_z_add, Z1.
Qed.
Lemma cof13 t1 t2 t3 t4 t5 t6 : isz t1 -> isz t3 -> isz t4 -> isz t6 -> zeq (f6pos t1 t2 t3 t4 t5 t6) (fsub (fneg t2) (fneg t5)).
Proof.
  intros Z1 Z3 Z4 Z6. unfold f6pos. eapply zeq_trans; [apply zeq_sub_z, Z6 |]. eapply zeq_trans; [| apply fadd_neg].
  apply zeq_add; [| apply zeq_refl]. eapply zeq_trans; [apply zeq_add_z, Z4 |]. eapply zeq_trans; [apply zeq_sub_z, Z3 |]. apply zeq_z_sub, Z1.
Qed.
(** signs times a translation *)
Definition zeqb (f g : f64) : bool :=
  match f, g with
  | S754_zero _, S754_zero _ => true
  | S754_finite s m e, S754_finite s' m' e' => Bool.eqb s s' && Pos.eqb m m' && Z.eqb e e'
  | _, _ => false
  end.
Lemma zeqb_zeq f g : zeqb f g = true -> zeq f g.
Proof.
  destruct f, g; cbn [zeqb]; try discriminate; intros H; [right; split; exact I |].
  rewrite !andb_true_iff in H. destruct H as ((H1 & H2) & H3). apply Bool.eqb_prop in H1. apply Pos.eqb_eq in H2. apply Z.eqb_eq in H3.
  left. congruence.
Qed.
Definition sign_ok (x y a : Z) : bool :=
  zeqb (fm3 (f64_of_Z x) (f64_of_Z y) (tw a)) (sg (x * y) (tw a)) && zeqb (fm3 (tw a) (f64_of_Z x) (f64_of_Z y)) (sg (x * y) (tw a)).
Definition upto12 : list Z := [0; 1; 2; 3; 4; 5; 6; 7; 8; 9; 10; 11].
Definition signs : list Z := [-1; 0; 1].
Lemma signs_ok : forallb (fun x => forallb (fun y => forallb (sign_ok x y) upto12) signs) signs = true.
Proof. vm_cast_no_check (@eq_refl bool true). Qed.
Lemma signs_in z : -1 <= z <= 1 -> In z signs.
Proof. intros H. assert (z = -1 \/ z = 0 \/ z = 1) as [-> | [-> | ->]] by lia; cbn; auto. Qed.
Lemma upto12_in z : 0 <= z < 12 -> In z upto12.
Proof. intros H. unfold upto12. cbn [In]. lia. Qed.
Lemma sweep3_sound (f : Z -> Z -> Z -> bool) (ss zs : list Z) :
  forallb (fun x => forallb (fun y => forallb (f x y) zs) ss) ss = true ->
  forall x y a, In x ss -> In y ss -> In a zs -> f x y a = true.
Proof.
  intros H x y a Ix Iy Ia. rewrite forallb_forall in H. specialize (H x Ix). cbv beta in H.
  rewrite forallb_forall in H. specialize (H y Iy). cbv beta in H. rewrite forallb_forall in H. exact (H a Ia).
Qed.
Lemma sign_at x y a : -1 <= x <= 1 -> -1 <= y <= 1 -> 0 <= a < 12 ->
  zeq (fm3 (f64_of_Z x) (f64_of_Z y) (tw a)) (sg (x * y) (tw a)) /\ zeq (fm3 (tw a) (f64_of_Z x) (f64_of_Z y)) (sg (x * y) (tw a)).
Proof.
  intros Hx Hy Ha. pose proof (sweep3_sound sign_ok signs upto12 signs_ok x y a (signs_in x Hx) (signs_in y Hy) (upto12_in a Ha)) as H.
  unfold sign_ok in H. apply andb_true_iff in H. destruct H. split; now apply zeqb_zeq.
Qed.
Lemma sg_neg s f : -1 <= s <= 1 -> zeq (fneg (sg s f)) (sg (- s) f).
Proof.
  intros H. assert (s = -1 \/ s = 0 \/ s = 1) as [-> | [-> | ->]] by lia; unfold sg; cbn [Z.eqb Z.opp Pos.eqb].
  - left. destruct f; unfold fneg, SFopp; rewrite ?negb_involutive; reflexivity.
  - right; split; exact I.
  - apply zeq_refl.
Qed.
(** the sweep: differences of two twelfths *)
Definition two_exact (s u d : Z) (p q : Z * f64) : bool :=
  Bool.eqb (two_of s u d (snd p) (snd q) =? d * (s * fst q - u * fst p)) (negb (s * u =? 1) || negb (pair_in (fst p) (fst q) || pair_in (fst q) (fst p))).
Definition with_tw : list (Z * f64) := map (fun a => (a, tw a)) upto12.
Lemma with_tw_in a : 0 <= a < 12 -> In (a, tw a) with_tw.
Proof. intros H. apply (in_map (fun a => (a, tw a))), upto12_in, H. Qed.
Definition sweep5 {A} (f : Z -> Z -> Z -> A -> A -> bool) (ss ds : list Z) (zs : list A) : bool :=
  forallb (fun s => forallb (fun u => if s * u =? -1 then true else
    forallb (fun d => forallb (fun a => forallb (f s u d a) zs) zs) ds) ss) ss.
Lemma sweep5_sound {A} (f : Z -> Z -> Z -> A -> A -> bool) ss ds zs : sweep5 f ss ds zs = true ->
  forall s u d a b, In s ss -> In u ss -> (s * u =? -1) = false -> In d ds -> In a zs -> In b zs -> f s u d a b = true.
Proof.
  intros H s u d a b Is Iu Su Id Ia Ib. unfold sweep5 in H.
  rewrite forallb_forall in H. specialize (H s Is). cbv beta in H.
  rewrite forallb_forall in H. specialize (H u Iu). cbv beta in H. rewrite Su in H.
  rewrite forallb_forall in H. specialize (H d Id). cbv beta in H.
  rewrite forallb_forall in H. specialize (H a Ia). cbv beta in H.
  rewrite forallb_forall in H. exact (H b Ib).
Qed.
Lemma two_sweep_ok : sweep5 two_exact signs [1; -1] with_tw = true.
Proof. vm_cast_no_check (@eq_refl bool true). Qed.
Lemma two_spec s u d a b : -1 <= s <= 1 -> -1 <= u <= 1 -> s * u <> -1 -> d = 1 \/ d = -1 -> 0 <= a < 12 -> 0 <= b < 12 ->
  (two s u d a b = d * (s * b - u * a) <-> ~ (s * u = 1 /\ rounding_pair a b)).
Proof.
  intros Hs Hu Su Hd Ha Hb. apply Z.eqb_neq in Su.
  assert (Id : In d [1; -1]) by (destruct Hd as [-> | ->]; cbn; auto).
  pose proof (sweep5_sound two_exact signs [1; -1] with_tw two_sweep_ok s u d _ _ (signs_in s Hs) (signs_in u Hu) Su Id (with_tw_in a Ha) (with_tw_in b Hb)) as H.
  unfold two_exact in H. cbn [fst snd] in H. fold (two s u d a b) in H. apply Bool.eqb_prop in H.
  rewrite <- Z.eqb_eq, H. unfold rounding_pair. rewrite <- !pair_in_iff.
  destruct (Z.eqb_spec (s * u) 1), (pair_in a b), (pair_in b a); cbn [negb orb]; intuition (try discriminate; try congruence).
Qed.
(** which pairs of signs occur in a hexagonal rotation *)
Definition hex_signs (R : mat3) : bool :=
  let s := m12 R * m33 R in let u := m22 R * m33 R in let s' := m11 R * m33 R in let u' := m21 R * m33 R in
  negb (s * u =? -1) && negb (s' * u' =? -1) && Bool.eqb ((s * u =? 1) || (s' * u' =? 1)) (negb (signedb R)).
Lemma hex_signs_ok : forallb hex_signs hexagonals = true.
Proof. vm_cast_no_check (@eq_refl bool true). Qed.
Lemma rep_unit inv d : rep inv d -> d = 1 \/ d = -1 -> inv = unit_float d.
Proof. intros H [-> | ->]; [rewrite (rep_one_float _ H) | rewrite (rep_minus_one_float _ H)]; reflexivity. Qed.
Lemma inverts_unique m i j : is_affine m -> is_affine i -> inverts m i -> is_affine j -> inverts m j -> i = j.
Proof.
  intros Hm Hi A Hj B. pose proof (proj1 (inverts_ops m i Hm Hi) A) as (_ & A2). pose proof (proj1 (inverts_ops m j Hm Hj) B) as (B1 & _).
  assert (op_of i = op_of j). { rewrite <- (op_comp_id_r (op_of i)), <- B1, op_comp_assoc, A2. apply op_comp_id_l. }
  rewrite (affine_aff i Hi), (affine_aff j Hj). unfold op_of in H. congruence.
Qed.

Definition block (R : mat3) : bool :=
  (m13 R =? 0) && (m23 R =? 0) && (m31 R =? 0) && (m32 R =? 0) && ((mdet R =? 1) || (mdet R =? -1)).
Lemma blocks : forallb block hexagonals = true.
Proof. vm_cast_no_check (@eq_refl bool true). Qed.
Lemma hexagonal_facts R : hexagonal_rotation R ->
  unit_matrix R /\ unimodular R /\ m13 R = 0 /\ m23 R = 0 /\ m31 R = 0 /\ m32 R = 0.
Proof.
  intros H. split; [exact (hexagonal_unit R H) |].
  pose proof (proj1 (forallb_forall block hexagonals) blocks R (hexagonals_in R H)) as B. unfold block in B.
  rewrite !andb_true_iff, orb_true_iff, !Z.eqb_eq in B. unfold unimodular. tauto.
Qed.
Lemma minv_block R : m13 R = 0 -> m23 R = 0 -> m31 R = 0 -> m32 R = 0 -> m13 (minv R) = 0 /\ m23 (minv R) = 0.
Proof. intros A B C D. unfold minv, mscale, madj, mmap. cbn [m13 m23]. rewrite A, B. split; ring. Qed.
Lemma first_two_spec R a b c i : hexagonal_rotation R -> 0 <= a < 12 -> 0 <= b < 12 -> 0 <= c < 12 ->
  try_inverse (aff R (V3 a b c)) = Some i -> vx (tra i) = fst (first_two R a b) /\ vy (tra i) = snd (first_two R a b).
Proof.
  intros HR Ha Hb Hc E. destruct (hexagonal_facts R HR) as (UM & U & Z13 & Z23 & Z31 & Z32).
  assert (SM : forall z, -1 <= z <= 1 -> rep (f64_of_Z z) z) by (intros z Hz; apply f64_of_Z_rep; lia).
  pose proof UM as UM'. unfold unit_matrix in UM'. destruct UM' as (A11 & A12 & A13 & A21 & A22 & A23 & A31 & A32 & A33).
  assert (S : entries_within 32 R) by (unfold entries_within; clear - A11 A12 A13 A21 A22 A23 A31 A32 A33; repeat split; lia).
  assert (F1 : finm 32 (fst (fst (twelfths (V3 a b c))))) by exact (twelfth_finm32 a ltac:(lia)).
  assert (F2 : finm 32 (snd (fst (twelfths (V3 a b c))))) by exact (twelfth_finm32 b ltac:(lia)).
  assert (F3 : finm 32 (snd (twelfths (V3 a b c)))) by exact (twelfth_finm32 c ltac:(lia)).
  destruct (inverse_core_any 32 R (V3 a b c) ltac:(lia) S U F1 F2 F3) as (inv & Hi & E').
  { destruct (twelfth_hv a ltac:(lia)) as (v1 & H1 & _ & D1). destruct (twelfth_hv b ltac:(lia)) as (v2 & H2 & _ & D2).
    destruct (twelfth_hv c ltac:(lia)) as (v3 & H3 & _ & D3).
    destruct (fcofactors_tra_apx _ R (V3 v1 v2 v3) (to_f64_mat_fop 32 R (V3 a b c) ltac:(lia) S F1 F2 F3) S H1 H2 H3 D1 D2 D3) as (((u & Hu & _) & _) & _).
    exact (hv_fin _ _ _ Hu). }
  rewrite E in E'. apply some_inj in E'. rewrite E'. cbn [aff tra vx vy]. rewrite (rep_unit _ _ Hi U).
  assert (FZ : forall z, -1 <= z <= 1 -> fin (f64_of_Z z)) by (intros z Hz; exact (fin_rep _ _ _ (SM z Hz))).
  assert (Z8 : isz (f64_of_Z (m13 R))) by (rewrite Z13; exact I).
  assert (Z9 : isz (f64_of_Z (m23 R))) by (rewrite Z23; exact I).
  assert (Z2 : isz (f64_of_Z (m31 R))) by (rewrite Z31; exact I).
  assert (Z6 : isz (f64_of_Z (m32 R))) by (rewrite Z32; exact I).
  assert (D1 : fin (tw a)) by exact (proj1 F1). assert (D2 : fin (tw b)) by exact (proj1 F2). assert (D3 : fin (tw c)) by exact (proj1 F3).
  pose proof (FZ _ A11) as G11. pose proof (FZ _ A12) as G12. pose proof (FZ _ A13) as G13.
  pose proof (FZ _ A21) as G21. pose proof (FZ _ A22) as G22. pose proof (FZ _ A23) as G23. pose proof (FZ _ A31) as G31. pose proof (FZ _ A32) as G32. pose proof (FZ _ A33) as G33.
  pose proof (fin_neg _ G12) as N12.
  assert (U2 : forall x y, -1 <= x <= 1 -> -1 <= y <= 1 -> -1 <= x * y <= 1) by (clear; intros; nia).
  unfold first_two, two, two_of. cbn [fst snd].
  split; apply zeq_Z, zeq_mul, zeq_mul; unfold to_f64_mat, fcofactors; cbn [aff rot tra bot cor f12 f13 vx vy vz];
    fold (tw a); fold (tw b); fold (tw c).
  - eapply zeq_trans; [apply cof12 |].
    + apply fm3_z2; assumption. + apply fm3_z1; assumption. + apply fm3_z1; assumption. + apply fm3_z2; assumption.
    + apply zeq_sub; [exact (proj1 (sign_at _ _ _ A12 A33 Hb)) | exact (proj2 (sign_at _ _ _ A22 A33 Ha))].
  - eapply zeq_trans; [apply cof13 |].
    + apply fm3_z2; assumption. + apply fm3_z1; assumption. + apply fm3_z1; assumption. + apply fm3_z2; assumption.
    + apply zeq_sub; (eapply zeq_trans; [apply zeq_neg | apply sg_neg; apply U2; assumption]).
      * exact (proj1 (sign_at _ _ _ A11 A33 Hb)). * exact (proj2 (sign_at _ _ _ A21 A33 Ha)).
Qed.

(** C16: with a hexagonal rotation and a normalised translation [try_inverse] returns an
    operation; it is the inverse exactly when the rotation is a signed permutation or the first two
    translations are not one of twelve pairs; in the other cases the product with the original is
    not the identity, not even up to whole cells *)
Theorem C16_hexagonal_inverse_exact_iff :
  forall R t, hexagonal_rotation R -> vbetween 0 12 t ->
    exists i, try_inverse (aff R t) = Some i /\
      (inverts (aff R t) i <-> signed_permutation R \/ ~ rounding_pair (vx t) (vy t)) /\
      (sz_eqb (sz_mul (aff R t) i) sz_identity = true <-> inverts (aff R t) i).
Proof.
  intros R [a b c] HR (Ha & Hb & Hc). cbn [vx vy vz] in *.
  assert (EX : forall i, is_affine i -> inverts (aff R (V3 a b c)) i -> sz_eqb (sz_mul (aff R (V3 a b c)) i) sz_identity = true).
  { intros i Ai (E & _). unfold sz_mul. rewrite E. reflexivity. }
  destruct (signedb R) eqn:SB.
  { apply signedb_iff in SB.
    destruct (C16_inverse_signed_permutations R (V3 a b c) SB ltac:(cbn [vx]; lia) ltac:(cbn [vy]; lia) ltac:(cbn [vz]; lia)) as (i & E & I).
    exists i. split; [exact E |]. pose proof (inverts_affine _ _ (aff_affine R (V3 a b c)) I) as Ai. pose proof (EX i Ai I). tauto. }
  assert (NS : ~ signed_permutation R) by (rewrite <- signedb_iff, SB; discriminate).
  pose proof (proj1 (forallb_forall hex_signs hexagonals) hex_signs_ok R (hexagonals_in R HR)) as H.
  destruct (C16_hexagonal_inverse_within_one R (V3 a b c) HR ltac:(cbn [vx]; lia) ltac:(cbn [vy]; lia) ltac:(cbn [vz]; lia))
    as (i & j & E & I & RJ & Ai & Near & Zz).
  exists i. split; [exact E |].
  pose proof (inverts_affine _ _ (aff_affine R (V3 a b c)) I) as Aj.
  destruct (hexagonal_facts R HR) as (UM & U & Z13 & Z23 & Z31 & Z32).
  assert (Ej : j = aff (minv R) (vopp (mvmul (minv R) (V3 a b c))))
    by (apply (inverts_unique (aff R (V3 a b c))); [apply aff_affine | exact Aj | exact I | apply aff_affine | apply aff_inverts, U]).
  assert (Ei : vx (tra i) = fst (first_two R a b) /\ vy (tra i) = snd (first_two R a b)) by (apply first_two_spec with (c := c); auto).
  assert (XY : inverts (aff R (V3 a b c)) i <-> vx (tra i) = vx (tra j) /\ vy (tra i) = vy (tra j)).
  { split.
    - intros Ii. rewrite (inverts_unique _ i j (aff_affine _ _) Ai Ii Aj I). auto.
    - intros (X & Y). replace i with j; [exact I |]. rewrite (affine_aff i Ai), (affine_aff j Aj). f_equal; [now symmetry |].
      destruct (tra i) as [p1 p2 p3], (tra j) as [q1 q2 q3]. cbn [vx vy vz] in *. congruence. }
  assert (JJ : vx (tra j) = vx (vopp (mvmul (minv R) (V3 a b 0))) /\ vy (tra j) = vy (vopp (mvmul (minv R) (V3 a b 0)))).
  { rewrite Ej. cbn [aff tra]. destruct (minv_block R Z13 Z23 Z31 Z32) as (Y13 & Y23).
    unfold vopp, mvmul. cbn [vx vy vz]. rewrite Y13, Y23. split; ring. }
  split.
  - rewrite XY. destruct JJ as (-> & ->), Ei as (-> & ->). unfold hex_signs in H. cbv zeta in H. rewrite SB in H. cbn [negb] in H.
    rewrite !andb_true_iff, !negb_true_iff, !Z.eqb_neq in H. destruct H as ((H1 & H2) & H3). apply Bool.eqb_prop in H3.
    rewrite orb_true_iff, !Z.eqb_eq in H3.
    pose proof UM as UM'. unfold unit_matrix in UM'. destruct UM' as (A11 & A12 & A13 & A21 & A22 & A23 & A31 & A32 & A33).
    assert (U2 : forall x y, -1 <= x <= 1 -> -1 <= y <= 1 -> -1 <= x * y <= 1) by (clear; intros; nia).
    assert (U3 : forall z, -1 <= z <= 1 -> -1 <= - z <= 1) by (clear; intros; lia).
    pose proof (two_spec _ _ (mdet R) a b (U2 _ _ A12 A33) (U2 _ _ A22 A33) H1 U Ha Hb) as T1.
    assert (H2' : - (m11 R * m33 R) * - (m21 R * m33 R) <> -1) by (rewrite Z.mul_opp_opp; exact H2).
    pose proof (two_spec _ _ (mdet R) a b (U3 _ (U2 _ _ A11 A33)) (U3 _ (U2 _ _ A21 A33)) H2' U Ha Hb) as T2.
    rewrite Z.mul_opp_opp in T2. unfold first_two. cbn [fst snd].
    assert (X1 : vx (vopp (mvmul (minv R) (V3 a b 0))) = mdet R * (m12 R * m33 R * b - m22 R * m33 R * a)).
    { unfold vopp, mvmul, minv, mscale, madj, mmap. cbn [vx vy vz m11 m12 m13]. rewrite ?Z13, ?Z23, ?Z31, ?Z32. ring. }
    assert (X2 : vy (vopp (mvmul (minv R) (V3 a b 0))) = mdet R * (- (m11 R * m33 R) * b - - (m21 R * m33 R) * a)).
    { unfold vopp, mvmul, minv, mscale, madj, mmap. cbn [vx vy vz m21 m22 m23]. rewrite ?Z13, ?Z23, ?Z31, ?Z32. ring. }
    rewrite X1, X2, T1, T2. tauto.
  - split; [| apply EX, Ai]. rewrite XY. intros Q.
    assert (W : mvmul R (vsub (tra i) (tra j)) = vadd (mvmul R (tra i)) (V3 a b c)).
    { destruct I as (I1 & _). rewrite (affine_aff j Aj), mat4_mul_aff in I1. pose proof (f_equal tra I1) as I2. cbn [aff tra sz_identity] in I2.
      change (V3 0 0 0) with v0 in I2.
      replace (mvmul R (tra i)) with (vadd (mvmul R (vsub (tra i) (tra j))) (mvmul R (tra j))) by (destruct (tra i) as [p1 p2 p3], (tra j) as [q1 q2 q3]; mat_ring).
      rewrite <- vadd_assoc, I2. apply eq_sym, vadd_0_r. }
    assert (Q' : vcong12 (mvmul R (vsub (tra i) (tra j))) v0).
    { rewrite W. rewrite (affine_aff i Ai) in Q. unfold sz_eqb, sz_mul in Q. rewrite mat4_mul_aff in Q.
      destruct (meqb _ _); [| discriminate]. cbn [aff rot tra sz_identity] in Q. unfold vforall, vsub, vmap in Q. cbn [vx vy vz] in Q.
      rewrite !andb_true_iff, !Z.eqb_eq, !Z.sub_0_r, !rem12_0 in Q.
      destruct Q as ((Q1 & Q2) & Q3). split; [| split]; cbn [vx vy vz v0].
      - eapply cong12_trans; [apply cong12_sym, cong12_rem | exact Q1].
      - eapply cong12_trans; [apply cong12_sym, cong12_rem | exact Q2].
      - eapply cong12_trans; [apply cong12_sym, cong12_rem | exact Q3]. }
    unfold vnear in Near. destruct Near as (N1 & N2 & N3). destruct Q' as (Q1 & Q2 & _).
    unfold vsub, mvmul in Q1, Q2. cbn [vx vy vz v0] in Q1, Q2. rewrite Z13 in Q1. rewrite Z23 in Q2.
    unfold unit_matrix in UM. destruct UM as (A11 & A12 & _ & A21 & A22 & _).
    assert (DD : m11 R * m22 R - m12 R * m21 R = 1 \/ m11 R * m22 R - m12 R * m21 R = -1).
    { unfold unimodular, mdet in U. rewrite Z13, Z23, Z31, Z32 in U.
      assert (m33 R * (m11 R * m22 R - m12 R * m21 R) = 1 \/ m33 R * (m11 R * m22 R - m12 R * m21 R) = -1) as [K | K] by (destruct U; [left | right]; lia).
      - apply Z.mul_eq_1 in K as K'. destruct K' as [K' | K']; rewrite K' in K; lia.
      - assert (K2 : (- m33 R) * (m11 R * m22 R - m12 R * m21 R) = 1) by lia. apply Z.mul_eq_1 in K2 as K'. destruct K' as [K' | K']; rewrite K' in K2; lia. }
    destruct Q1 as [k1 Q1], Q2 as [k2 Q2].
    set (x := vx (tra i) - vx (tra j)) in *. set (y := vy (tra i) - vy (tra j)) in *.
    assert (Y1 : m11 R * x + m12 R * y = 0) by (clear - Q1 N1 N2 A11 A12; nia).
    assert (Y2 : m21 R * x + m22 R * y = 0) by (clear - Q2 N1 N2 A21 A22; nia).
    assert (x * (m11 R * m22 R - m12 R * m21 R) = 0).
    { replace (x * (m11 R * m22 R - m12 R * m21 R)) with (m22 R * (m11 R * x + m12 R * y) - m12 R * (m21 R * x + m22 R * y)) by ring. rewrite Y1, Y2. ring. }
    assert (y * (m11 R * m22 R - m12 R * m21 R) = 0).
    { replace (y * (m11 R * m22 R - m12 R * m21 R)) with (m11 R * (m21 R * x + m22 R * y) - m21 R * (m11 R * x + m12 R * y)) by ring. rewrite Y1, Y2. ring. }
    assert (X0 : x = 0 /\ y = 0) by (clearbody x y; destruct DD as [DD | DD]; rewrite DD in *; lia).
    unfold x, y in X0. clear - X0. lia.
Qed.
(** both cases occur: the threefold rotation with translations 1/12, 8/12 is not inverted, with
    2/12, 8/12 it is *)
Lemma C16_hexagonal_both_cases :
  hexagonal_rotation (M3 0 (-1) 0 1 (-1) 0 0 0 1) /\ ~ signed_permutation (M3 0 (-1) 0 1 (-1) 0 0 0 1) /\
  rounding_pair 1 8 /\ rounding_pair 8 1 /\ ~ rounding_pair 2 8.
Proof.
  split; [apply hexb_spec; vm_compute; reflexivity |].
  split; [rewrite <- signedb_iff; vm_compute; discriminate |].
  unfold rounding_pair. rewrite <- !pair_in_iff.
  split; [left; reflexivity |]. split; [right; reflexivity |]. vm_compute. intuition discriminate.
Qed.
