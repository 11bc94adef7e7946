(** * PropNorm: property C46, continued: the [f64] comparison of norms is exact. *)
From Coq Require Import Floats.SpecFloat.
From Verif Require Import Base Notations Parser Seitz F64 Jones Rotations Tables Generate NormF64 Spec Algebra PropSeitz F64Facts.
Open Scope Z_scope.

(** the [f64] comparison of numbers that stand for non-negative integers is the integer comparison *)
Lemma SFltb_rep a b x y : 0 <= x -> 0 <= y -> rep a x -> rep b y -> SFltb a b = (x <? y).
Proof.
  intros X Y A B. unfold rep_s in A, B.
  destruct a as [s | s | | s m e]; try contradiction; destruct b as [t | t | | t n f]; try contradiction.
  - subst. reflexivity.
  - destruct B as (_ & B & _ & ->). subst x. unfold SFltb. cbn [SFcompare]. symmetry.
    rewrite (proj2 (Z.ltb_ge y 0) Y). cbn [SFcompare]. apply Z.ltb_lt. lia.
  - destruct A as (_ & A & _ & ->). subst y. unfold SFltb. destruct (x <? 0); reflexivity.
  - destruct A as (Ee & Ax & Em & ->), B as (Ef & By & En & ->). rewrite Z.abs_eq in * by assumption.
    rewrite (proj2 (Z.ltb_ge x 0) X), (proj2 (Z.ltb_ge y 0) Y). unfold SFltb. cbn [SFcompare].
    destruct (Z.compare_spec e f) as [C | C | C].
    + change (Pos.compare_cont Eq m n) with (Pos.compare m n). change (Pos.compare m n) with (Z.compare (Z.pos m) (Z.pos n)).
      rewrite Em, En, <- C.
      assert (P : 0 < 2 ^ (- 0 - e)).
      { apply Z.pow_pos_nonneg; [lia |]. pose proof (log2_53 x Ax). lia. }
      rewrite <- (Zmult_compare_compat_r x y (2 ^ (- 0 - e))) by lia. unfold Z.ltb. reflexivity.
    + symmetry. apply Z.ltb_lt. apply Z.log2_lt_cancel. lia.
    + symmetry. apply Z.ltb_ge. apply Z.lt_le_incl, Z.log2_lt_cancel. lia.
Qed.
(** the floating-point norm of a vector of small entries stands for its norm *)
Lemma vec_norm v : vbetween 0 13 v -> rep (vec_fnorm2 v) (norm2 v) /\ 0 <= norm2 v.
Proof.
  destruct v as [x y z]. intros (X & Y & Z'). cbn [vx vy vz] in X, Y, Z'. unfold vec_fnorm2, fnorm2, norm2. cbn [vx vy vz].
  assert (S : forall u, 0 <= u < 13 -> rep (f64_of_Z u) u).
  { intros u U. apply f64_of_Z_rep. change (2 ^ 53) with 9007199254740992. lia. }
  assert (P : forall u, 0 <= u < 13 -> 0 <= u * u <= 144) by (intros; nia).
  pose proof (P x X) as Px. pose proof (P y Y) as Py. pose proof (P z Z') as Pz. clear P.
  split; [| lia].
  replace (x * x + y * y + z * z) with (0 + (x * x + y * y + z * z)) by ring.
  assert (M : forall u, 0 <= u < 13 -> 0 <= u * u <= 144 -> rep (fmul (f64_of_Z u) (f64_of_Z u)) (u * u)).
  { intros u U L. apply fmul_rep; [now apply S | now apply S |]. change (2 ^ 53) with 9007199254740992. lia. }
  repeat (apply fadd_rep; [| | change (2 ^ 53) with 9007199254740992; lia]); [reflexivity | | |]; apply M; assumption.
Qed.
Lemma step_exact a b : vbetween 0 13 a -> vbetween 0 13 b -> minimal_step_f a b = minimal_step a b.
Proof.
  intros A B. destruct (vec_norm a A) as [Ea Ra], (vec_norm b B) as [Eb Rb].
  unfold minimal_step_f, minimal_step. rewrite (SFltb_rep _ _ _ _ Rb Ra Eb Ea). reflexivity.
Qed.
Lemma pm_between t : vbetween 0 13 (vmap positive_mod t).
Proof.
  unfold vbetween, vmap. cbn [vx vy vz].
  pose proof (positive_mod_range (vx t)). pose proof (positive_mod_range (vy t)). pose proof (positive_mod_range (vz t)). lia.
Qed.
(** with the floating-point norms of the source the same representative is chosen, for every translation *)
Theorem C46_float_comparison_is_exact : forall lt t, minimal_repr_f lt t = minimal_repr lt t.
Proof.
  intros lt t. unfold minimal_repr_f, minimal_repr. pose proof (pm_between t) as B. revert B. generalize (vmap positive_mod t) as c.
  induction lt as [| u lt IH]; intros c B; cbn [map fold_left]; [reflexivity |].
  pose proof (pm_between (vadd t u)) as U. rewrite (step_exact c _ B U). apply IH.
  unfold minimal_step. destruct (_ && _); assumption.
Qed.
Example C46_float_case : minimal_repr_f (translations LF) (V3 9 9 15) = V3 3 3 3 /\ vec_fnorm2 (V3 12 11 7) = f64_of_Z 314.
Proof. vm_compute. auto. Qed.
