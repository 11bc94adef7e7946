(** * PropBravais: property C95: the fourteen Bravais lattices. *)
From Coq Require Import QArith Qring Qfield.
From Verif Require Import Base Notations Parser Seitz F64 Jones Rotations Tables Generate Positions Lookup
  Spec SpecHall SpecXyz SpecTables SpecCompat SpecOutcome SpecType SpecMetric SpecKind SpecFamily SpecLatticeClass SpecCell SpecBravais
  Algebra PropSeitz PropSymbols GenFacts PropGenerate
  GroupCheck RowData PropFullSets PropTables PropTableGroups PropJones PropTermination PropCanon PropOutcome PropMetric TypeFacts TypeCount PropTypes
  LatticeBasis PropFamily PropRelabel PropKind PropLatticeClass PropCell.
Open Scope Z_scope.
Local Notation length := List.length.
Local Notation "# z" := (inject_Z z) (at level 1, format "# z").

(** ** Changes of coordinates and symmetries of lattices *)
Lemma mscale_l k A B : mmul (mscale k A) B = mscale k (mmul A B). Proof. mring. Qed.
Lemma mscale_r k A B : mmul A (mscale k B) = mscale k (mmul A B). Proof. mring. Qed.
Lemma mscale_mscale j k A : mscale j (mscale k A) = mscale (j * k) A. Proof. mring. Qed.
Lemma mscale_comm j k A : mscale j (mscale k A) = mscale k (mscale j A). Proof. mring. Qed.
Lemma mvmul_vscale A k v : mvmul A (vscale k v) = vscale k (mvmul A v). Proof. mring. Qed.
Lemma vscale_comm j k v : vscale j (vscale k v) = vscale k (vscale j v). Proof. mring. Qed.
Lemma mscale_one A : mscale 1 A = A. Proof. mring. Qed.
Lemma sgn_nonzero A : mdet A <> 0 -> Z.sgn (mdet A) <> 0.
Proof. rewrite Z.sgn_null_iff. auto. Qed.
(** M1/d1 is M/d in the coordinates after A *)
Definition partner (A : mat3) (M : mat3) (d : Z) (M1 : mat3) (d1 : Z) : Prop :=
  0 < d /\ 0 < d1 /\ mscale d1 (mmul A M) = mscale d (mmul M1 A).
Lemma partner_after A M d : mdet A <> 0 -> 0 < d -> exists M1 d1, partner A M d M1 d1.
Proof.
  intros N D. exists (mscale (Z.sgn (mdet A)) (mmul (mmul A M) (madj A))), (d * Z.abs (mdet A)).
  split; [exact D |]. split; [nia |]. rewrite mscale_l, <- mmul_assoc, madj_l, mscale_r, mmul_I_r, !mscale_mscale, <- sgn_abs. f_equal. ring.
Qed.
Lemma partner_before A M1 d1 : mdet A <> 0 -> 0 < d1 -> exists M d, partner A M d M1 d1.
Proof.
  intros N D. exists (mscale (Z.sgn (mdet A)) (mmul (madj A) (mmul M1 A))), (d1 * Z.abs (mdet A)).
  split; [nia |]. split; [exact D |]. rewrite mscale_r, mmul_assoc, madj_r, mscale_l, mmul_I_l, !mscale_mscale, <- sgn_abs. f_equal. ring.
Qed.
Lemma partner_vector A M d M1 d1 v : partner A M d M1 d1 -> vscale d1 (mvmul A (mvmul M v)) = vscale d (mvmul M1 (mvmul A v)).
Proof.
  intros (_ & _ & E). rewrite <- !mvmul_mmul, <- !mvmul_mscale, E. reflexivity.
Qed.
Lemma partner_metric A M d M1 d1 g : partner A M d M1 d1 ->
  meqQ (mscaleQ (#d1 * #d1) (pull M (pull A g))) (mscaleQ (#d * #d) (pull A (pull M1 g))).
Proof.
  intros (_ & _ & E). eapply meqQ_trans; [apply mscaleQ_compat, pull_mul |]. eapply meqQ_trans; [apply meqQ_sym, pull_mscale |].
  rewrite E. eapply meqQ_trans; [apply pull_mscale |]. apply mscaleQ_compat, meqQ_sym, pull_mul.
Qed.
Lemma pos_square d : 0 < d -> ~ (#d * #d == 0)%Q.
Proof. intros D E. rewrite <- inject_Z_mult in E. unfold Qeq in E. cbn in E. nia. Qed.
Lemma scale_swap j k g : meqQ (mscaleQ j (mscaleQ k g)) (mscaleQ k (mscaleQ j g)).
Proof. unfold meqQ, mscaleQ. cbn [gaa gbb gcc gbc gac gab]. repeat split; ring. Qed.
Section Class.
Variables (G G1 : op -> Prop) (A : mat3) (e : Z).
Hypothesis De : 0 < e.
Hypothesis Na : mdet A <> 0.
Hypothesis L1 : forall v, G (I3, v) -> exists v', G1 (I3, v') /\ mvmul A v = vscale e v'.
Hypothesis L2 : forall v', G1 (I3, v') -> exists v, G (I3, v) /\ mvmul A v = vscale e v'.
Hypothesis P1 : forall R t, G (R, t) -> exists R' t', G1 (R', t') /\ mmul A R = mmul R' A.
Hypothesis P2 : forall R' t', G1 (R', t') -> exists R t, G (R, t) /\ mmul A R = mmul R' A.
Lemma symmetry_after M d M1 d1 : partner A M d M1 d1 -> lattice_symmetry G M d -> lattice_symmetry G1 M1 d1.
Proof.
  intros Pa (D & F & B & K). pose proof Pa as (_ & D1 & _).
  assert (V : forall v w v1 w1, mvmul A v = vscale e v1 -> mvmul A w = vscale e w1 -> mvmul M v = vscale d w -> mvmul M1 v1 = vscale d1 w1).
  { intros v w v1 w1 Ev Ew E. apply (vscale_inj e); [lia |]. apply (vscale_inj d); [lia |].
    rewrite <- (mvmul_vscale M1 e v1), <- Ev, <- (partner_vector _ _ _ _ _ v Pa), E, mvmul_vscale, Ew, !vscale_vscale. f_equal. ring. }
  split; [exact D1 |]. split; [| split].
  - intros v1 H1. destruct (L2 v1 H1) as (v & Hv & Ev). destruct (F v Hv) as (w & Hw & Ew). destruct (L1 w Hw) as (w1 & Hw1 & Ew1).
    exists w1. split; [exact Hw1 |]. exact (V v w v1 w1 Ev Ew1 Ew).
  - intros w1 H1. destruct (L2 w1 H1) as (w & Hw & Ew1). destruct (B w Hw) as (v & Hv & Ew). destruct (L1 v Hv) as (v1 & Hv1 & Ev).
    exists v1. split; [exact Hv1 |]. exact (V v w v1 w1 Ev Ew1 Ew).
  - intros g Hg. apply (image_keeps g M1 d1 D1).
    pose proof (proj1 (metric_transport G G1 A g Na P1 P2) Hg) as Hp. pose proof (proj1 (image_keeps _ M d D) (K _ Hp)) as E.
    apply (pull_inj A _ _ Na). apply (mscaleQ_cancel (#d * #d)); [exact (pos_square d D) |].
    eapply meqQ_trans; [apply meqQ_sym, (partner_metric A M d M1 d1 g Pa) |]. eapply meqQ_trans; [apply mscaleQ_compat, E |].
    eapply meqQ_trans; [apply scale_swap |]. apply mscaleQ_compat, meqQ_sym, pull_mscaleQ.
Qed.
Lemma symmetry_before M d M1 d1 : partner A M d M1 d1 -> lattice_symmetry G1 M1 d1 -> lattice_symmetry G M d.
Proof.
  intros Pa (D1 & F & B & K). pose proof Pa as (D & _ & _).
  assert (V : forall v w v1 w1, mvmul A v = vscale e v1 -> mvmul A w = vscale e w1 -> mvmul M1 v1 = vscale d1 w1 -> mvmul M v = vscale d w).
  { intros v w v1 w1 Ev Ew E. apply (mvmul_inj A _ _ Na). apply (vscale_inj d1); [lia |].
    rewrite (partner_vector _ _ _ _ _ v Pa), Ev, mvmul_vscale, E, mvmul_vscale, Ew, !vscale_vscale. f_equal. ring. }
  split; [exact D |]. split; [| split].
  - intros v Hv. destruct (L1 v Hv) as (v1 & Hv1 & Ev). destruct (F v1 Hv1) as (w1 & Hw1 & Ew). destruct (L2 w1 Hw1) as (w & Hw & Ew1).
    exists w. split; [exact Hw |]. exact (V v w v1 w1 Ev Ew1 Ew).
  - intros w Hw. destruct (L1 w Hw) as (w1 & Hw1 & Ew1). destruct (B w1 Hw1) as (v1 & Hv1 & Ew). destruct (L2 v1 Hv1) as (v & Hv & Ev).
    exists v. split; [exact Hv |]. exact (V v w v1 w1 Ev Ew1 Ew).
  - intros g Hg. apply (image_keeps g M d D).
    pose proof (metric_of_compat _ _ _ (meqQ_sym _ _ (pull_push A g Na)) Hg) as Hp. apply (metric_transport G G1 A _ Na P1 P2) in Hp.
    pose proof (proj1 (image_keeps _ M1 d1 D1) (K _ Hp)) as E.
    apply (mscaleQ_cancel (#d1 * #d1)); [exact (pos_square d1 D1) |].
    eapply meqQ_trans; [apply mscaleQ_compat, pull_compat, meqQ_sym, (pull_push A g Na) |].
    eapply meqQ_trans; [apply (partner_metric A M d M1 d1 _ Pa) |]. eapply meqQ_trans; [apply mscaleQ_compat, pull_compat, E |].
    eapply meqQ_trans; [apply mscaleQ_compat, pull_mscaleQ |]. eapply meqQ_trans; [apply scale_swap |].
    apply mscaleQ_compat, mscaleQ_compat, pull_push, Na.
Qed.
End Class.
Lemma chain_vectors A e B e' v v' v'' : mvmul A v = vscale e v' -> mvmul B v' = vscale e' v'' -> mvmul (mmul B A) v = vscale (e' * e) v''.
Proof. intros E E'. rewrite mvmul_mmul, E, mvmul_vscale, E', vscale_vscale. f_equal. ring. Qed.
Lemma lattice_before G G1 G' : same_arithmetic_class G G1 -> has_lattice_of G1 G' -> has_lattice_of G G'.
Proof.
  intros (A & e & De & Na & L1 & L2 & P1 & P2) (B & e' & De' & Nb & K1 & K2 & S1 & S2).
  exists (mmul B A), (e' * e). split; [nia |]. split; [rewrite mdet_mmul; nia |].
  assert (Q : forall M d M1 d1 R', partner A M d M1 d1 -> mmul B M1 = mscale d1 (mmul R' B) -> mmul (mmul B A) M = mscale d (mmul R' (mmul B A))).
  { intros M d M1 d1 R' (D & D1 & E) E'. apply (mscale_inj d1); [lia |].
    rewrite <- mmul_assoc, <- mscale_r, E, mscale_r, mmul_assoc, E', mscale_l, mscale_comm, mmul_assoc. reflexivity. }
  split; [intros v Gv; destruct (L1 v Gv) as (v' & Gv' & E); destruct (K1 v' Gv') as (v'' & Gv'' & E'); exists v''; split; [exact Gv'' | exact (chain_vectors _ _ _ _ _ _ _ E E')] |].
  split; [intros v'' Gv''; destruct (K2 v'' Gv'') as (v' & Gv' & E'); destruct (L2 v' Gv') as (v & Gv & E); exists v; split; [exact Gv | exact (chain_vectors _ _ _ _ _ _ _ E E')] |].
  split.
  - intros M d S. destruct (partner_after A M d Na (proj1 S)) as (M1 & d1 & Pa).
    destruct (S1 M1 d1 (symmetry_after G G1 A e De Na L1 L2 P1 P2 M d M1 d1 Pa S)) as (R' & t' & HR & E).
    exists R', t'. split; [exact HR |]. exact (Q M d M1 d1 R' Pa E).
  - intros R' t' HR. destruct (S2 R' t' HR) as (M1 & d1 & S & E). destruct (partner_before A M1 d1 Na (proj1 S)) as (M & d & Pa).
    exists M, d. split; [exact (symmetry_before G G1 A e Na L1 L2 P1 P2 M d M1 d1 Pa S) |]. exact (Q M d M1 d1 R' Pa E).
Qed.
Lemma lattice_after G G' G'' : has_lattice_of G G' -> same_arithmetic_class G' G'' -> has_lattice_of G G''.
Proof.
  intros (A & e & De & Na & L1 & L2 & S1 & S2) (B & e' & De' & Nb & K1 & K2 & P1 & P2).
  exists (mmul B A), (e' * e). split; [nia |]. split; [rewrite mdet_mmul; nia |].
  assert (Q : forall M d R' R'', mmul A M = mscale d (mmul R' A) -> mmul B R' = mmul R'' B -> mmul (mmul B A) M = mscale d (mmul R'' (mmul B A))).
  { intros M d R' R'' E E'. rewrite <- mmul_assoc, E, mscale_r, mmul_assoc, E', <- mmul_assoc. reflexivity. }
  split; [intros v Gv; destruct (L1 v Gv) as (v' & Gv' & E); destruct (K1 v' Gv') as (v'' & Gv'' & E'); exists v''; split; [exact Gv'' | exact (chain_vectors _ _ _ _ _ _ _ E E')] |].
  split; [intros v'' Gv''; destruct (K2 v'' Gv'') as (v' & Gv' & E'); destruct (L2 v' Gv') as (v & Gv & E); exists v; split; [exact Gv | exact (chain_vectors _ _ _ _ _ _ _ E E')] |].
  split.
  - intros M d S. destruct (S1 M d S) as (R' & t' & HR & E). destruct (P1 R' t' HR) as (R'' & t'' & HR' & E').
    exists R'', t''. split; [exact HR' |]. exact (Q M d R' R'' E E').
  - intros R'' t'' HR'. destruct (P2 R'' t'' HR') as (R' & t' & HR & E'). destruct (S2 R' t' HR) as (M & d & S & E).
    exists M, d. split; [exact S |]. exact (Q M d R' R'' E E').
Qed.
Lemma lattice_unique G G' G'' : has_lattice_of G G' -> has_lattice_of G G'' -> same_arithmetic_class G' G''.
Proof.
  intros (A & e & De & Na & L1 & L2 & S1 & S2) (B & e' & De' & Nb & K1 & K2 & T1 & T2).
  pose proof (sgn_nonzero A Na) as Ns. set (k := Z.sgn (mdet A) * e). assert (Nk : k <> 0) by (unfold k; nia).
  exists (mscale k (mmul B (madj A))), (Z.abs (mdet A) * e'). split; [nia |]. split.
  { rewrite mdet_mscale, mdet_mmul, mdet_madj. assert (mdet A * mdet A <> 0) by nia. assert (k * k * k <> 0) by nia. nia. }
  assert (V : forall v v' v'', mvmul A v = vscale e v' -> mvmul B v = vscale e' v'' -> mvmul (mscale k (mmul B (madj A))) v' = vscale (Z.abs (mdet A) * e') v'').
  { intros v v' v'' E E'. rewrite mvmul_mscale, mvmul_mmul. unfold k.
    rewrite <- vscale_vscale, <- (mvmul_vscale B e), <- (mvmul_vscale (madj A) e), <- E, madj_mvmul_l, mvmul_vscale, E', !vscale_vscale, <- sgn_abs. f_equal. }
  assert (Q : forall M d R' R'', 0 < d -> mmul A M = mscale d (mmul R' A) -> mmul B M = mscale d (mmul R'' B) ->
    mmul (mscale k (mmul B (madj A))) R' = mmul R'' (mscale k (mmul B (madj A)))).
  { intros M d R' R'' D E E'. rewrite mscale_l, mscale_r. f_equal. apply (mscale_inj d); [lia |].
    assert (X : mmul M (madj A) = mscale d (mmul (madj A) R')).
    { apply (mmul_inj_l A _ _ Na). rewrite mmul_assoc, E, mscale_l, mscale_r. f_equal. rewrite <- mmul_assoc, (mmul_assoc A), !madj_r, mscale_r, mscale_l, mmul_I_l, mmul_I_r. reflexivity. }
    rewrite <- mmul_assoc, <- mscale_r, <- X, mmul_assoc, E', mscale_l, <- mmul_assoc. reflexivity. }
  split; [intros v' Gv'; destruct (L2 v' Gv') as (v & Gv & E); destruct (K1 v Gv) as (v'' & Gv'' & E'); exists v''; split; [exact Gv'' | exact (V v v' v'' E E')] |].
  split; [intros v'' Gv''; destruct (K2 v'' Gv'') as (v & Gv & E'); destruct (L1 v Gv) as (v' & Gv' & E); exists v'; split; [exact Gv' | exact (V v v' v'' E E')] |].
  split.
  - intros R' t' HR. destruct (S2 R' t' HR) as (M & d & S & E). destruct (T1 M d S) as (R'' & t'' & HR' & E'). exists R'', t''.
    split; [exact HR' |]. exact (Q M d R' R'' (proj1 S) E E').
  - intros R'' t'' HR'. destruct (T2 R'' t'' HR') as (M & d & S & E'). destruct (S1 M d S) as (R' & t' & HR & E). exists R', t'.
    split; [exact HR |]. exact (Q M d R' R'' (proj1 S) E E').
Qed.
Lemma bravais_before G G1 G' : same_bravais_type G G1 -> has_lattice_of G1 G' -> has_lattice_of G G'.
Proof.
  intros (A & e & De & Na & L1 & L2 & P1 & P2) (B & e' & De' & Nb & K1 & K2 & S1 & S2).
  exists (mmul B A), (e' * e). split; [nia |]. split; [rewrite mdet_mmul; nia |].
  assert (Q : forall M d M1 d1 R', 0 < d1 -> mscale d1 (mmul A M) = mscale d (mmul M1 A) -> mmul B M1 = mscale d1 (mmul R' B) -> mmul (mmul B A) M = mscale d (mmul R' (mmul B A))).
  { intros M d M1 d1 R' D1 E E'. apply (mscale_inj d1); [lia |].
    rewrite <- mmul_assoc, <- mscale_r, E, mscale_r, mmul_assoc, E', mscale_l, mscale_comm, mmul_assoc. reflexivity. }
  split; [intros v Gv; destruct (L1 v Gv) as (v' & Gv' & E); destruct (K1 v' Gv') as (v'' & Gv'' & E'); exists v''; split; [exact Gv'' | exact (chain_vectors _ _ _ _ _ _ _ E E')] |].
  split; [intros v'' Gv''; destruct (K2 v'' Gv'') as (v' & Gv' & E'); destruct (L2 v' Gv') as (v & Gv & E); exists v; split; [exact Gv | exact (chain_vectors _ _ _ _ _ _ _ E E')] |].
  split.
  - intros M d S. destruct (P1 M d S) as (M1 & d1 & S' & E). destruct (S1 M1 d1 S') as (R' & t' & HR & E').
    exists R', t'. split; [exact HR |]. exact (Q M d M1 d1 R' (proj1 S') E E').
  - intros R' t' HR. destruct (S2 R' t' HR) as (M1 & d1 & S' & E'). destruct (P2 M1 d1 S') as (M & d & S & E).
    exists M, d. split; [exact S |]. exact (Q M d M1 d1 R' (proj1 S') E E').
Qed.
Lemma common_lattice G G' H : has_lattice_of G H -> has_lattice_of G' H -> same_bravais_type G G'.
Proof.
  intros (A & e & De & Na & L1 & L2 & S1 & S2) (B & f & Df & Nb & K1 & K2 & T1 & T2).
  pose proof (sgn_nonzero B Nb) as Ns. set (k := Z.sgn (mdet B) * f). assert (Nk : k <> 0) by (unfold k; nia).
  exists (mscale k (mmul (madj B) A)), (Z.abs (mdet B) * e). split; [nia |]. split.
  { rewrite mdet_mscale, mdet_mmul, mdet_madj. assert (mdet B * mdet B <> 0) by nia. assert (k * k * k <> 0) by nia. nia. }
  assert (V : forall v v' w, mvmul A v = vscale e w -> mvmul B v' = vscale f w -> mvmul (mscale k (mmul (madj B) A)) v = vscale (Z.abs (mdet B) * e) v').
  { intros v v' w E E'. rewrite mvmul_mscale, mvmul_mmul, E, mvmul_vscale. unfold k.
    rewrite <- (vscale_vscale _ f), (vscale_comm f e), <- (mvmul_vscale (madj B) f), <- E', madj_mvmul_l, !vscale_vscale, <- sgn_abs. f_equal. ring. }
  assert (Q : forall M d M' d' R, mmul A M = mscale d (mmul R A) -> mmul B M' = mscale d' (mmul R B) ->
    mscale d' (mmul (mscale k (mmul (madj B) A)) M) = mscale d (mmul M' (mscale k (mmul (madj B) A)))).
  { intros M d M' d' R E E'.
    assert (X : mmul M' (madj B) = mscale d' (mmul (madj B) R)).
    { apply (mmul_inj_l B _ _ Nb). rewrite mmul_assoc, E', mscale_l, mscale_r. f_equal. rewrite <- mmul_assoc, (mmul_assoc B), !madj_r, mscale_r, mscale_l, mmul_I_l, mmul_I_r. reflexivity. }
    rewrite mscale_l, mscale_r, <- mmul_assoc, E, (mmul_assoc M'), X, mscale_l, mscale_r, <- mmul_assoc, !mscale_mscale. f_equal. ring. }
  split; [intros v Gv; destruct (L1 v Gv) as (w & Hw & E); destruct (K2 w Hw) as (v' & Gv' & E'); exists v'; split; [exact Gv' | exact (V v v' w E E')] |].
  split; [intros v' Gv'; destruct (K1 v' Gv') as (w & Hw & E'); destruct (L2 w Hw) as (v & Gv & E); exists v; split; [exact Gv | exact (V v v' w E E')] |].
  split.
  - intros M d S. destruct (S1 M d S) as (R & t & HR & E). destruct (T2 R t HR) as (M' & d' & S' & E'). exists M', d'.
    split; [exact S' |]. exact (Q M d M' d' R E E').
  - intros M' d' S'. destruct (T1 M' d' S') as (R & t & HR & E'). destruct (S2 R t HR) as (M & d & S & E). exists M, d.
    split; [exact S |]. exact (Q M d M' d' R E E').
Qed.

(** ** The symmetries of the lattice of a row *)
Definition fam_eqb (a b : family) : bool :=
  match a, b with
  | FTri, FTri | FMonoA, FMonoA | FMonoB, FMonoB | FMonoC, FMonoC | FOrtho, FOrtho | FTetra, FTetra | FHex, FHex
  | FRhomb, FRhomb | FCubic, FCubic => true
  | _, _ => false
  end.
Lemma fam_eqb_eq a b : fam_eqb a b = true -> a = b.
Proof. destruct a, b; intros H; try discriminate H; reflexivity. Qed.
Lemma letter_eqb_eq a b : letter_eqb a b = true -> a = b.
Proof. destruct a, b; intros H; try discriminate H; reflexivity. Qed.
Definition zscale (k : Z) (c : z6) : z6 := Z6 (k * z1 c) (k * z2 c) (k * z3 c) (k * z4 c) (k * z5 c) (k * z7 c).
Definition col1 (U : mat3) : vec3 := V3 (m11 U) (m21 U) (m31 U).
Definition col2 (U : mat3) : vec3 := V3 (m12 U) (m22 U) (m32 U).
Definition col3 (U : mat3) : vec3 := V3 (m13 U) (m23 U) (m33 U).
Definition of_cols (a b c : vec3) : mat3 := M3 (vx a) (vx b) (vx c) (vy a) (vy b) (vy c) (vz a) (vz b) (vz c).
Definition znorm (b : z6) (u : vec3) : Z := zbil b (vx u) (vy u) (vz u) (vx u) (vy u) (vz u).
Definition steps : list Z := [-2; -1; 0; 1].
Definition around (w : vec3) : list vec3 :=
  flat_map (fun i => flat_map (fun j => map (fun k => V3 (vx w + 12 * i) (vy w + 12 * j) (vz w + 12 * k)) steps) steps) steps.
(** vectors of the lattice that can be the image of an axis: [p] picks the squared length of the axis *)
Definition images (f : family) (l : lattice) (p : z6 -> Z) : list vec3 :=
  filter (fun u => forallb (fun b => znorm b u =? 144 * p b) (basis f)) (flat_map around (translations l)).
(** twelve times a vector of the lattice *)
Definition twelve_in (l : lattice) (x : vec3) : bool :=
  existsb (fun w => ((vx x - 12 * vx w) mod 144 =? 0) && ((vy x - 12 * vy w) mod 144 =? 0) && ((vz x - 12 * vz w) mod 144 =? 0)) (translations l).
Definition lattice_data (f : family) (l : lattice) (rots : list mat3) : bool :=
  forallb (keeps f) rots &&
  forallb (fun a => forallb (fun b => forallb (fun c =>
    let U := of_cols a b c in
    if forallb (fun x => z6_eqb (zpull U x) (zscale 144 x)) (basis f) && forallb (fun w => twelve_in l (mvmul U w)) (translations l)
    then existsb (fun R => meqb U (mscale 12 R)) rots else true)
    (images f l z3)) (images f l z2)) (images f l z1).
Definition zround (f : family) : z6 := match f with FHex => Z6 2 2 2 0 0 (-1) | _ => Z6 1 1 1 0 0 0 end.
Lemma zround_cell f : cell f (toQ (zround f)).
Proof. destruct f; exact (round_cell _). Qed.
Lemma basis_cell f b : In b (basis f) -> cell f (toQ b).
Proof.
  unfold cell, hexagonal_cell, rhombohedral_cell, cubic_cell, right_bc, right_ac, right_ab.
  destruct f; cbn [basis In]; intros H; repeat (destruct H as [<- | H]; [repeat split; reflexivity |]); destruct H.
Qed.
Lemma toQ_inj a b : meqQ (toQ a) (toQ b) -> a = b.
Proof.
  destruct a as [a1 a2 a3 a4 a5 a6], b as [b1 b2 b3 b4 b5 b6]. unfold meqQ, toQ. cbn [gaa gbb gcc gbc gac gab z1 z2 z3 z4 z5 z7]. intros (A & B & C & D & E & F).
  apply inject_Z_eq in A, B, C, D, E, F. congruence.
Qed.
Lemma toQ_zscale k c : meqQ (toQ (zscale k c)) (mscaleQ #k (toQ c)).
Proof. unfold meqQ, toQ, zscale, mscaleQ. cbn [gaa gbb gcc gbc gac gab z1 z2 z3 z4 z5 z7]. rewrite !inject_Z_mult. repeat split; reflexivity. Qed.
Lemma square_bound a : a * a <= 400 -> -24 <= a < 24.
Proof. nia. Qed.
Lemma image_bound f u x : znorm (zround f) u = 144 * x -> x = z1 (zround f) \/ x = z2 (zround f) \/ x = z3 (zround f) ->
  -24 <= vx u < 24 /\ -24 <= vy u < 24 /\ -24 <= vz u < 24.
Proof.
  destruct u as [a b c]. intros E X.
  assert (K : a * a + b * b + c * c = 144 \/ a * a + b * b + c * c - a * b = 144).
  { unfold znorm, zbil in E. destruct f; cbn [zround z1 z2 z3 z4 z5 z7 vx vy vz] in E, X; (assert (x = 1 \/ x = 2) by tauto); lia. }
  cbn [vx vy vz]. clear E X. destruct K as [K | K].
  - pose proof (Z.square_nonneg a). pose proof (Z.square_nonneg b). pose proof (Z.square_nonneg c).
    split; [apply square_bound; lia |]. split; apply square_bound; lia.
  - assert (4 * 144 = 3 * (a * a) + (2 * b - a) * (2 * b - a) + 4 * (c * c)) by lia.
    assert (4 * 144 = 3 * (b * b) + (2 * a - b) * (2 * a - b) + 4 * (c * c)) by lia.
    pose proof (Z.square_nonneg (2 * b - a)). pose proof (Z.square_nonneg (2 * a - b)). pose proof (Z.square_nonneg a). pose proof (Z.square_nonneg b). pose proof (Z.square_nonneg c).
    split; [apply square_bound; lia |]. split; apply square_bound; lia.
Qed.
Lemma step_in x w : 0 <= w < 12 -> -24 <= x < 24 -> cong12 x w -> exists i, In i steps /\ x = w + 12 * i.
Proof. intros W X (k & E). exists k. split; [| lia]. assert (-2 <= k <= 1) by lia. unfold steps. cbn [In]. lia. Qed.
Lemma around_in l u : centring l u -> -24 <= vx u < 24 /\ -24 <= vy u < 24 /\ -24 <= vz u < 24 -> In u (flat_map around (translations l)).
Proof.
  intros (w & Iw & (Cx & Cy & Cz)) (Bx & By & Bz). apply in_flat_map. exists w. split; [exact Iw |].
  assert (W : 0 <= vx w < 12 /\ 0 <= vy w < 12 /\ 0 <= vz w < 12).
  { destruct l; cbn [translations In] in Iw; repeat (destruct Iw as [<- | Iw]; [cbn [vx vy vz]; lia |]); destruct Iw. }
  destruct W as (Wx & Wy & Wz).
  destruct (step_in _ _ Wx Bx Cx) as (i & Ii & Ei). destruct (step_in _ _ Wy By Cy) as (j & Ij & Ej). destruct (step_in _ _ Wz Bz Cz) as (k & Ik & Ek).
  unfold around. apply in_flat_map. exists i. split; [exact Ii |]. apply in_flat_map. exists j. split; [exact Ij |]. apply in_map_iff. exists k.
  split; [| exact Ik]. rewrite <- Ei, <- Ej, <- Ek. destruct u; reflexivity.
Qed.
(** the symmetries of the lattice with letter [l] for the cells of family [f] *)
Lemma lattice_exact (G : op -> Prop) f l rots : (forall v, G (I3, v) <-> centring l v) -> (forall g, metric_of G g <-> cell f g) ->
  lattice_data f l rots = true -> forall M d, lattice_symmetry G M d -> exists R, In R rots /\ M = mscale d R.
Proof.
  intros Lat Met K M d (D & F & B & S). unfold lattice_data in K. apply andb_true_iff in K. destruct K as [_ K].
  assert (C : forall e, centring l (vscale 12 e)).
  { intros [x y z]. exists (V3 0 0 0). split; [destruct l; left; reflexivity |]. repeat split; cbn [vscale vmap vx vy vz]; eexists; rewrite Z.sub_0_r; reflexivity. }
  destruct (F (vscale 12 (V3 1 0 0))) as (u1 & H1 & E1); [apply Lat, C |].
  destruct (F (vscale 12 (V3 0 1 0))) as (u2 & H2 & E2); [apply Lat, C |].
  destruct (F (vscale 12 (V3 0 0 1))) as (u3 & H3 & E3); [apply Lat, C |].
  apply Lat in H1, H2, H3. set (U := of_cols u1 u2 u3).
  assert (EU : mscale 12 M = mscale d U).
  { unfold U, of_cols. destruct M as [a b c a1 b1 c1 a2 b2 c2], u1 as [xa ya za], u2 as [xb yb zb], u3 as [xc yc zc].
    unfold mvmul, vscale, vmap in E1, E2, E3. cbn [m11 m12 m13 m21 m22 m23 m31 m32 m33 vx vy vz] in E1, E2, E3.
    injection E1 as E11 E12 E13. injection E2 as E21 E22 E23. injection E3 as E31 E32 E33.
    unfold mscale, mmap. cbn [m11 m12 m13 m21 m22 m23 m31 m32 m33 vx vy vz]. f_equal; lia. }
  assert (Z : forall c, cell f (toQ c) -> zpull U c = zscale 144 c).
  { intros c Cc. apply toQ_inj. eapply meqQ_trans; [apply zpull_Q |]. eapply meqQ_trans; [| apply meqQ_sym, toQ_zscale].
    pose proof (proj1 (image_keeps _ M d D) (S _ (proj2 (Met _) Cc))) as E.
    apply (mscaleQ_cancel (#d * #d)); [exact (pos_square d D) |].
    eapply meqQ_trans; [apply meqQ_sym, pull_mscale |]. rewrite <- EU. eapply meqQ_trans; [apply pull_mscale |].
    eapply meqQ_trans; [apply mscaleQ_compat, E |]. eapply meqQ_trans; [apply scale_swap |]. apply meqQ_refl. }
  pose proof (Z _ (zround_cell f)) as Zr.
  assert (B1 : In u1 (images f l z1)).
  { apply filter_In. split.
    - apply around_in; [exact H1 |]. exact (image_bound f u1 _ (f_equal z1 Zr) (or_introl eq_refl)).
    - apply forallb_forall. intros b Ib. apply Z.eqb_eq. exact (f_equal z1 (Z _ (basis_cell f b Ib))). }
  assert (B2 : In u2 (images f l z2)).
  { apply filter_In. split.
    - apply around_in; [exact H2 |]. exact (image_bound f u2 _ (f_equal z2 Zr) (or_intror (or_introl eq_refl))).
    - apply forallb_forall. intros b Ib. apply Z.eqb_eq. exact (f_equal z2 (Z _ (basis_cell f b Ib))). }
  assert (B3 : In u3 (images f l z3)).
  { apply filter_In. split.
    - apply around_in; [exact H3 |]. exact (image_bound f u3 _ (f_equal z3 Zr) (or_intror (or_intror eq_refl))).
    - apply forallb_forall. intros b Ib. apply Z.eqb_eq. exact (f_equal z3 (Z _ (basis_cell f b Ib))). }
  rewrite forallb_forall in K. specialize (K u1 B1). rewrite forallb_forall in K. specialize (K u2 B2). rewrite forallb_forall in K. specialize (K u3 B3).
  cbv zeta in K. fold U in K.
  assert (T : forallb (fun x => z6_eqb (zpull U x) (zscale 144 x)) (basis f) = true).
  { apply forallb_forall. intros b Ib. rewrite (Z _ (basis_cell f b Ib)). unfold z6_eqb. rewrite !Z.eqb_refl. reflexivity. }
  assert (T' : forallb (fun w => twelve_in l (mvmul U w)) (translations l) = true).
  { apply forallb_forall. intros w Iw. destruct (F w) as (u & Hu & Eu); [apply Lat; exists w; split; [exact Iw | apply vcong12_refl] |].
    assert (E : mvmul U w = vscale 12 u).
    { apply (vscale_inj d); [lia |]. rewrite <- mvmul_mscale, <- EU, mvmul_mscale, Eu. apply vscale_comm. }
    apply Lat in Hu. destruct Hu as (w' & Iw' & (a & Ea) & (b & Eb) & (c & Ec)). apply existsb_exists. exists w'. split; [exact Iw' |].
    rewrite E. unfold vscale, vmap. cbn [vx vy vz]. rewrite !andb_true_iff, !Z.eqb_eq.
    split; [split |]; (rewrite <- Z.mul_sub_distr_l, ?Ea, ?Eb, ?Ec, Z.mul_assoc, Z.mul_comm; apply Z_mod_mult). }
  rewrite T, T' in K. cbn [andb] in K. apply existsb_exists in K. destruct K as (R & IR & E). apply meqb_eq in E. exists R. split; [exact IR |].
  apply (mscale_inj 12); [lia |]. rewrite EU, E. apply mscale_comm.
Qed.
Lemma lattice_head h0 f fuel h1 g1 : no_extra_translations h0 -> (forall g, metric_of (hall_group h0) g <-> cell f g) ->
  general_positions fuel h1 = Done g1 -> no_extra_translations h1 -> ls_char (h_lat h1) = ls_char (h_lat h0) ->
  lattice_data f (ls_char (h_lat h0)) (map rot (gp_core g1)) = true -> has_lattice_of (hall_group h0) (hall_group h1).
Proof.
  intros T0 Met H1 T1 EL K. exists I3, 1. split; [lia |]. split; [vm_compute; discriminate |].
  assert (A : forall v, mvmul I3 v = vscale 1 v) by (intros v; rewrite mvmul_I, vscale_1; reflexivity).
  assert (L : forall v, hall_group h0 (I3, v) <-> hall_group h1 (I3, v)).
  { intros v. rewrite (pure_centring h0 T0), (pure_centring h1 T1), EL. reflexivity. }
  split; [intros v H; exists v; split; [apply L, H | apply A] |]. split; [intros v H; exists v; split; [apply L, H | apply A] |]. split.
  - intros M d S. destruct (lattice_exact _ f _ _ (pure_centring h0 T0) Met K M d S) as (R & IR & E).
    apply in_map_iff in IR. destruct IR as (m & <- & Im). destruct (C25_positions_sound _ _ _ H1 m Im) as [_ Gm]. unfold op_of in Gm.
    exists (rot m), (tra m). split; [exact Gm |]. rewrite E, mmul_I_l, mmul_I_r. reflexivity.
  - intros R t HR. exists R, 1. split; [| rewrite mmul_I_l, mmul_I_r, mscale_1; reflexivity].
    split; [lia |]. split; [| split].
    + intros v Hv. exists (mvmul R v). split; [| rewrite vscale_1; reflexivity]. apply L. apply (pure_centring h1 T1).
      apply (rot_centring h1 R t v T1 HR). apply (pure_centring h1 T1). apply L, Hv.
    + intros v Hv. exists (mvmul (minv R) v). split.
      * apply L. apply (pure_centring h1 T1). apply (rot_centring h1 (minv R) (snd (op_inv (R, t))) v T1); [exact (group_inverse h1 (R, t) HR) |].
        apply (pure_centring h1 T1). apply L, Hv.
      * rewrite <- mvmul_mmul, (minv_r R (hall_group_unimodular _ _ HR)), mvmul_I, vscale_1. reflexivity.
    + intros g Hg. apply (image_keeps g R 1 eq_refl). destruct (proj1 (C26_point_group_complete _ _ _ H1 R)) as (m & Im & Em); [eauto |].
      unfold lattice_data in K. apply andb_true_iff in K. destruct K as [K _]. rewrite forallb_forall in K.
      assert (Kr : keeps f (rot m) = true) by (apply K, in_map, Im).
      pose proof (proj1 (isometry_iff _ _) (keeps_isometry f m g Kr (proj1 (Met g) Hg))) as E. rewrite Em in E.
      eapply meqQ_trans; [exact E |]. unfold meqQ, mscaleQ. cbn [gaa gbb gcc gbc gac gab]. change (#1) with 1%Q. repeat split; ring.
Qed.
(** rows of the full table that have all the symmetries of a lattice *)
Definition bravais_rows : list (family * lattice * nat) :=
  [(FTri, LP, 1); (FMonoB, LP, 56); (FMonoB, LC, 62); (FOrtho, LP, 226); (FOrtho, LC, 309); (FOrtho, LA, 310); (FOrtho, LF, 333);
   (FOrtho, LI, 336); (FTetra, LP, 399); (FTetra, LI, 423); (FHex, LR, 457); (FHex, LP, 484); (FCubic, LP, 516); (FCubic, LF, 522); (FCubic, LI, 528)]%nat.
Definition head_rows_check : bool :=
  forallb (fun e => match e with (f, l, i) => match nth_error full_groups i with
    | Some p => letter_eqb (data_letter p) l && lattice_data f l (map rot (snd p)) | None => false end end) bravais_rows.
Definition row_head_check (label : string) (d : hall * list seitz) : bool :=
  existsb (fun e => match e with (f, l, i) => if fam_eqb (family_of label) f && letter_eqb (data_letter d) l then
    match nth_error full_number i with
    | Some label' => negb (Nat.eqb (leading_number label') 24) &&
        existsb (fun x => Nat.eqb (fst (snd x)) (leading_number label') && inb (leading_number label) (snd (snd x))) bravais_lattices
    | None => false end else false end) bravais_rows.
Lemma head_rows_ok : head_rows_check = true. Proof. vm_cast_no_check (@eq_refl bool true). Qed.
Lemma row_heads_ok : forallb (fun p => row_head_check (fst p) (snd p)) (combine default_number default_groups) = true.
Proof. vm_cast_no_check (@eq_refl bool true). Qed.

Lemma row_lattice n label s h0 g0 : (1 <= n <= 230)%nat -> get_space_group_number default_table (pred n) = Some label ->
  get_hall_symbol default_table (pred n) = Some s -> leading_number label = n -> try_from_str s = Done (Some h0) -> general_positions 10 h0 = Done g0 ->
  no_extra_translations h0 -> nth_error default_groups (pred n) = Some (h0, gp_core g0) ->
  exists name k ns, In (name, (k, ns)) bravais_lattices /\ In n ns /\
    exists labelk sk, get_space_group_number default_table (pred k) = Some labelk /\ get_hall_symbol default_table (pred k) = Some sk /\ leading_number labelk = k /\
      has_lattice_of (hall_group h0) (text_group sk).
Proof.
  intros W El E En P G T D. pose proof row_heads_ok as K. rewrite forallb_forall in K.
  specialize (K (label, (h0, gp_core g0)) (nth_error_combine _ _ _ _ _ El D)). cbn [fst snd] in K. unfold row_head_check in K.
  apply existsb_exists in K. destruct K as (((f & l) & i) & Ir & K). destruct (fam_eqb (family_of label) f) eqn:Ef; cbn [andb] in K; [| discriminate K].
  apply fam_eqb_eq in Ef. destruct (letter_eqb (data_letter (h0, gp_core g0)) l) eqn:Ell; [| discriminate K]. apply letter_eqb_eq in Ell. unfold data_letter in Ell. cbn [fst] in Ell.
  destruct (nth_error full_number i) as [label' |] eqn:Elf; [| discriminate K]. apply andb_true_iff in K. destruct K as [K24 K].
  apply existsb_exists in K. destruct K as ((name & k & ns) & Ib & K). cbn [fst snd] in K. apply andb_true_iff in K. destruct K as [K1 K2].
  apply Nat.eqb_eq in K1. apply inb_spec in K2. rewrite En in K2. apply negb_true_iff in K24.
  pose proof head_rows_ok as HR. unfold head_rows_check in HR. rewrite forallb_forall in HR. specialize (HR _ Ir). cbv beta iota in HR.
  destruct (nth_error full_groups i) as [p |] eqn:Ep; [| discriminate HR]. apply andb_true_iff in HR. destruct HR as [HL HD]. apply letter_eqb_eq in HL.
  assert (Ls : exists s1, nth_error full_hall i = Some s1).
  { destruct (nth_error full_hall i) as [s1 |] eqn:E1; [eauto |]. exfalso. apply nth_error_None in E1.
    assert (Q : length full_number = length full_hall) by reflexivity. rewrite <- Q in E1. apply nth_error_None in E1. congruence. }
  destruct Ls as (s1 & E1).
  destruct (row_facts true i label' s1 Elf E1) as (h1 & g1 & P1 & G1 & T1). specialize (G1 10%nat (le_n _)).
  assert (Dp : p = (h1, gp_core g1)).
  { destruct (row_data _ _ full_groups_ok i s1 E1) as (q & Eq & R). unfold row_group in R. rewrite P1, G1 in R. congruence. }
  subst p. unfold data_letter in HL. cbn [fst snd] in HL, HD.
  assert (Hh : has_lattice_of (hall_group h0) (hall_group h1)).
  { apply (lattice_head h0 f 10 h1 g1 T); [| exact G1 | exact T1 | congruence | rewrite Ell; exact HD].
    intros g. rewrite <- Ef. exact (row_metric false (pred n) label s h0 El E P g). }
  exists name, k, ns. split; [exact Ib |]. split; [exact K2 |].
  destruct (full_row_type i label' s1 Elf E1) as (j & sj & Ej & Hj & Ty).
  change (type_number (leading_number label')) with (if Nat.eqb (leading_number label') 24 then 23%nat else leading_number label') in Ej. rewrite K24, <- K1 in Ej.
  destruct (row_number j sj Hj) as (lj & Elj & Enj & _). assert (j = pred k) by lia. subst j.
  exists lj, sj. split; [exact Elj |]. split; [exact Hj |]. split; [lia |].
  apply (lattice_after _ (hall_group h1)); [exact Hh |]. apply (class_ext _ (text_group sj)); [reflexivity |].
  destruct Ty as (F & If & _ & Tf). pose proof (turns_class F _ _ If Tf) as C. apply class_sym in C. apply class_sym.
  exact (class_ext _ _ _ (row_text s1 h1 P1) C).
Qed.
(** the fourteen lists *)
Definition lists_check : bool :=
  forallb (fun n => match filter (fun x => inb n (snd (snd x))) bravais_lattices with [_] => true | _ => false end) (seq 1 230) &&
  forallb (fun x => inb (fst (snd x)) (snd (snd x)) && inb (fst (snd x)) symmorphic_types && forallb (fun n => Nat.leb 1 n && Nat.leb n 230) (snd (snd x))) bravais_lattices.
Lemma lists_ok : lists_check = true. Proof. vm_cast_no_check (@eq_refl bool true). Qed.
Lemma entry_unique n x y : (1 <= n <= 230)%nat -> In x bravais_lattices -> In y bravais_lattices -> In n (snd (snd x)) -> In n (snd (snd y)) -> x = y.
Proof.
  intros W Ix Iy Jx Jy. pose proof lists_ok as K. unfold lists_check in K. apply andb_true_iff in K. destruct K as [K _].
  rewrite forallb_forall in K. assert (S : In n (seq 1 230)) by (apply in_seq; lia). specialize (K n S).
  assert (Fx : In x (filter (fun x => inb n (snd (snd x))) bravais_lattices)) by (apply filter_In; split; [exact Ix | apply inb_spec, Jx]).
  assert (Fy : In y (filter (fun x => inb n (snd (snd x))) bravais_lattices)) by (apply filter_In; split; [exact Iy | apply inb_spec, Jy]).
  destruct (filter (fun x => inb n (snd (snd x))) bravais_lattices) as [| z [| z' r]]; [discriminate K | | discriminate K].
  destruct Fx as [<- | []]. destruct Fy as [<- | []]. reflexivity.
Qed.
Lemma entry_exists n : (1 <= n <= 230)%nat -> exists x, In x bravais_lattices /\ In n (snd (snd x)).
Proof.
  intros W. pose proof lists_ok as K. unfold lists_check in K. apply andb_true_iff in K. destruct K as [K _].
  rewrite forallb_forall in K. assert (S : In n (seq 1 230)) by (apply in_seq; lia). specialize (K n S).
  destruct (filter (fun x => inb n (snd (snd x))) bravais_lattices) as [| z r] eqn:F; [discriminate K |].
  exists z. assert (I : In z (z :: r)) by (left; reflexivity). rewrite <- F in I. apply filter_In in I. destruct I as [I J]. split; [exact I | apply inb_spec, J].
Qed.
Lemma entry_head x : In x bravais_lattices -> In (fst (snd x)) (snd (snd x)) /\ In (fst (snd x)) symmorphic_types /\ forall n, In n (snd (snd x)) -> (1 <= n <= 230)%nat.
Proof.
  intros I. pose proof lists_ok as K. unfold lists_check in K. apply andb_true_iff in K. destruct K as [_ K]. rewrite forallb_forall in K. specialize (K x I).
  rewrite !andb_true_iff in K. destruct K as [[K1 K2] K3]. apply inb_spec in K1, K2. split; [exact K1 |]. split; [exact K2 |].
  intros n J. rewrite forallb_forall in K3. specialize (K3 n J). apply andb_true_iff in K3. destruct K3 as [A B]. apply Nat.leb_le in A, B. lia.
Qed.

(** ** C95 *)
(** the 14 lists are disjoint, make up 1..230, and each holds its own symmorphic number *)
Theorem C95_partition :
  length bravais_lattices = 14%nat /\
  (forall n, (1 <= n <= 230)%nat -> exists! x, In x bravais_lattices /\ In n (snd (snd x))) /\
  (forall name k ns, In (name, (k, ns)) bravais_lattices -> In k ns /\ In k symmorphic_types /\ forall n, In n ns -> (1 <= n <= 230)%nat).
Proof.
  split; [reflexivity |]. split.
  - intros n W. destruct (entry_exists n W) as (x & I & J). exists x. split; [auto |]. intros y [Iy Jy]. exact (entry_unique n x y W I Iy J Jy).
  - intros name k ns I. exact (entry_head _ I).
Qed.
(** the lattice of a notation is that of the list of its own number, and of no other *)
Theorem C95_lattice_of_the_number :
  forall h n, of_type h n -> forall k,
    of_lattice h k <-> exists name head ns, In (name, (head, ns)) bravais_lattices /\ In n ns /\ classmates head k.
Proof.
  intros h n Ty. pose proof (C87_number_range _ _ Ty) as W. destruct (type_class h n Ty) as (s & h0 & g0 & _ & E & P & G & T & A).
  destruct (row_of n W) as (label & s' & h' & g' & El & E' & En & P' & G' & T' & D).
  assert (s' = s) by congruence. subst s'. assert (h' = h0) by congruence. subst h'. assert (g' = g0) by congruence. subst g'.
  destruct (row_lattice n label s h0 g0 W El E En P G T D) as (name & head & ns & Ib & Jn & lk & sk & Elk & Ek & Enk & Hh).
  pose proof (lattice_before _ _ _ A Hh) as Hl. clear Hh.
  assert (Wh : (1 <= head <= 230)%nat) by (destruct (entry_head _ Ib) as (X & _ & Y); exact (Y _ X)).
  destruct (row_of head Wh) as (lk' & sk' & hk & gk & Elk' & Ek' & _ & Pk & Gk & Tk & _). assert (sk' = sk) by congruence. subst sk'.
  assert (Hlk : has_lattice_of (hall_group h) (hall_group hk)).
  { apply (lattice_after _ (text_group sk)); [exact Hl |]. exact (class_ext _ _ _ (row_text sk hk Pk) (class_refl _)). }
  intros k. split.
  - intros (j & labelj & sj & Elj & Esj & Enj & Hj). exists name, head, ns. split; [exact Ib |]. split; [exact Jn |].
    destruct (default_number_of j labelj Elj) as [X Lj]. assert (Wk : (1 <= k <= 230)%nat) by lia. pose proof (row_at j labelj Elj) as Y. rewrite Enj in Y. subst j.
    destruct (row_of k Wk) as (l1 & s1 & h1 & g1 & El1 & E1 & _ & P1 & G1 & T1 & _). assert (s1 = sj) by congruence. subst s1.
    apply (rows_class head k sk sj hk h1 gk g1 Wh Wk Ek Pk Gk Tk Esj P1 G1 T1).
    apply (class_ext _ (text_group sj)); [exact (row_text sj h1 P1) |]. exact (lattice_unique _ _ _ Hlk Hj).
  - intros (name' & head' & ns' & Ib' & Jn' & C). pose proof (entry_unique n _ _ W Ib Ib' Jn Jn') as Eq. injection Eq as -> -> ->.
    assert (Wk : (1 <= k <= 230)%nat) by (destruct C as (c & Ic & _ & Jc); exact (class_range c k Ic Jc)).
    destruct (row_of k Wk) as (l1 & s1 & h1 & g1 & El1 & E1 & En1 & P1 & G1 & T1 & _).
    exists (pred k), l1, s1. split; [exact El1 |]. split; [exact E1 |]. split; [exact En1 |].
    apply (lattice_after _ (hall_group hk)); [exact Hlk |].
    apply (class_ext _ (hall_group h1)); [intros o; symmetry; apply (row_text s1 h1 P1) |].
    exact (proj2 (rows_class head' k sk s1 hk h1 gk g1 Wh Wk Ek Pk Gk Tk E1 P1 G1 T1) C).
Qed.
(** every result has exactly one of the 14 lattices *)
Theorem C95_exactly_one_lattice :
  forall fuel h g, general_positions fuel h = Done g ->
    exists! x, In x bravais_lattices /\ of_lattice h (fst (snd x)).
Proof.
  intros fuel h g H. destruct (C87_exactly_one_number _ _ _ H) as (n & Ty & _). pose proof (C87_number_range _ _ Ty) as W.
  destruct (entry_exists n W) as ((name & k & ns) & I & J). cbn [fst snd] in J.
  destruct (entry_head _ I) as (Jk & Sk & Rk). cbn [fst snd] in Jk, Sk, Rk.
  assert (Ck : forall m, (1 <= m <= 230)%nat -> classmates m m).
  { intros m Wm. destruct (class_exists m Wm) as (c & Ic & Jc). exists c. auto. }
  exists (name, (k, ns)). split.
  - split; [exact I |]. cbn [fst snd]. apply (C95_lattice_of_the_number h n Ty). exists name, k, ns. auto.
  - intros (name' & k' & ns') [I' L']. cbn [fst snd] in L'. apply (C95_lattice_of_the_number h n Ty) in L'.
    destruct L' as (name2 & k2 & ns2 & I2 & J2 & C). pose proof (entry_unique n _ _ W I I2 J J2) as Eq. injection Eq as <- <- <-.
    destruct (entry_head _ I') as (Jk' & Sk' & Rk'). cbn [fst snd] in Jk', Sk', Rk'.
    assert (k = k').
    { destruct C as (c & Ic & Jc & Jc'). destruct (class_head c Ic) as (x & F). pose proof (proj1 (head_in c x F k) (conj Jc Sk)). pose proof (proj1 (head_in c x F k') (conj Jc' Sk')). congruence. }
    subst k'. exact (entry_unique k _ _ (Rk k Jk) I I' Jk Jk').
Qed.
(** two notations have lattices of the same Bravais type exactly when their numbers are in one list *)
Theorem C95_same_lattice_iff :
  forall h h' n n', of_type h n -> of_type h' n' ->
    (same_bravais_type (hall_group h) (hall_group h') <-> exists name k ns, In (name, (k, ns)) bravais_lattices /\ In n ns /\ In n' ns).
Proof.
  assert (Ck : forall m, (1 <= m <= 230)%nat -> classmates m m).
  { intros m Wm. destruct (class_exists m Wm) as (c & Ic & Jc). exists c. auto. }
  intros h h' n n' Ty Ty'. pose proof (C87_number_range _ _ Ty) as W. pose proof (C87_number_range _ _ Ty') as W'.
  destruct (entry_exists n' W') as ((name' & k' & ns') & I' & J'). cbn [fst snd] in J'.
  destruct (entry_head _ I') as (Jk' & Sk' & Rk'). cbn [fst snd] in Jk', Sk', Rk'.
  assert (O' : of_lattice h' k') by (apply (C95_lattice_of_the_number h' n' Ty'); exists name', k', ns'; auto).
  split.
  - intros B. exists name', k', ns'. split; [exact I' |]. split; [| exact J'].
    assert (O : of_lattice h k').
    { destruct O' as (j & label & s & El & E & En & Hl). exists j, label, s. split; [exact El |]. split; [exact E |]. split; [exact En |].
      exact (bravais_before _ _ _ B Hl). }
    apply (C95_lattice_of_the_number h n Ty) in O. destruct O as (name & k & ns & I & J & C).
    destruct (entry_head _ I) as (Jk & Sk & Rk). cbn [fst snd] in Jk, Sk, Rk.
    assert (k = k').
    { destruct C as (c & Ic & Jc & Jc'). destruct (class_head c Ic) as (x & F). pose proof (proj1 (head_in c x F k) (conj Jc Sk)). pose proof (proj1 (head_in c x F k') (conj Jc' Sk')). congruence. }
    subst k'. pose proof (entry_unique k _ _ (Rk k Jk) I I' Jk Jk') as Eq. injection Eq as <- <-. exact J.
  - intros (name & k & ns & I & J & J2). pose proof (entry_unique n' _ _ W' I I' J2 J') as Eq. injection Eq as -> -> ->.
    assert (O : of_lattice h k') by (apply (C95_lattice_of_the_number h n Ty); exists name', k', ns'; auto).
    destruct O as (j & label & s & El & E & En & Hl). destruct O' as (j2 & label2 & s2 & El2 & E2 & En2 & Hl2).
    assert (j = j2) by (rewrite (row_at j label El), (row_at j2 label2 El2), En, En2; reflexivity). subst j2.
    assert (s2 = s) by congruence. subst s2. exact (common_lattice _ _ _ Hl Hl2).
Qed.
(** "P 41" has the tetragonal primitive lattice, whose symmetries number 16, and not the body-centred one *)
Example C95_case : (exists g, general_positions 10 (parsed "P 41") = Done g) /\ of_type (parsed "P 41") 76 /\
  of_lattice (parsed "P 41") 123 /\ ~ of_lattice (parsed "P 41") 139 /\ ~ of_lattice (parsed "P 41") 75.
Proof.
  destruct C87_cases as (H & Ty & _). split; [exact H |]. split; [exact Ty |].
  assert (X : forall k, of_lattice (parsed "P 41") k <-> classmates 123 k).
  { intros k. rewrite (C95_lattice_of_the_number _ _ Ty k). split.
    - intros (name & head & ns & I & J & C). assert (W : (1 <= 76 <= 230)%nat) by lia.
      assert (It : In (nth 7 bravais_lattices ("aP"%string, (2%nat, []))) bravais_lattices) by (apply nth_In; vm_compute; lia).
      assert (Jt : In 76%nat (snd (snd (nth 7 bravais_lattices ("aP"%string, (2%nat, [])))))) by (apply inb_spec; vm_compute; reflexivity).
      pose proof (f_equal (fun x => fst (snd x)) (entry_unique 76 _ _ W I It J Jt)) as Eq. cbn [fst snd] in Eq.
      assert (Ev : fst (snd (nth 7 bravais_lattices ("aP"%string, (2%nat, [])))) = 123%nat) by (vm_compute; reflexivity). rewrite Ev in Eq. subst head. exact C.
    - intros C. destruct (nth 7 bravais_lattices ("aP"%string, (2%nat, []))) as (name & head & ns) eqn:E. exists name, head, ns.
      assert (It : In (nth 7 bravais_lattices ("aP"%string, (2%nat, []))) bravais_lattices) by (apply nth_In; vm_compute; lia).
      assert (Jt : In 76%nat (snd (snd (nth 7 bravais_lattices ("aP"%string, (2%nat, [])))))) by (apply inb_spec; vm_compute; reflexivity).
      rewrite E in It, Jt. cbn [fst snd] in Jt. split; [exact It |]. split; [exact Jt |].
      assert (Ev : fst (snd (nth 7 bravais_lattices ("aP"%string, (2%nat, [])))) = 123%nat) by (vm_compute; reflexivity). rewrite E in Ev. cbn [fst snd] in Ev. subst head. exact C. }
  assert (U : forall n k c, In c arithmetic_classes -> In n c -> ~ In k c -> ~ classmates n k).
  { intros n k c I J N (c' & I' & J' & K). rewrite (class_unique n c c' I I' J J') in N. contradiction. }
  assert (Ic : In (seq 123 16) arithmetic_classes) by (exact (nth_error_In arithmetic_classes 35%nat eq_refl)).
  assert (J0 : In 123%nat (seq 123 16)) by (apply in_seq; lia).
  split; [apply X; exists (seq 123 16); auto |].
  split; rewrite X; (apply (U _ _ (seq 123 16) Ic J0); rewrite in_seq; lia).
Qed.
