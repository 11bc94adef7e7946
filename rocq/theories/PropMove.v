(** * PropMove: property C82: site symmetries move with the origin, the axes and the mirror image. *)
From Coq Require Import Permutation QArith.
From Verif Require Import Base Notations Parser Seitz F64 Jones Rotations Tables Generate Positions
  Spec SpecHall Algebra PropSeitz PropSymbols GenFacts PropGenerate GroupCheck PropFullSets PropShift PropOrder
  PropCanon SpecOrbit PropOrbit SpecSite PropSite SpecRelabel PropRelabel.
Open Scope Z_scope.
Local Notation length := List.length.

(** ** A change of description: points move by [F], operations by [phi], rotations by [rho] *)
Section Move.
Variables (F : qvec -> qvec) (phi psi : op -> op) (rho : mat3 -> mat3).
Hypothesis Fact : forall o p, cells_apart (act_op (phi o) (F p)) (F (act_op o p)).
Hypothesis Fapart : forall p q, cells_apart p q <-> cells_apart (F p) (F q).
Hypothesis phi_psi : forall o, phi (psi o) = o.
Hypothesis phi_rho : forall o, fst (phi o) = rho (fst o).
Hypothesis rho_inj : forall R R', rho R = rho R' -> R = R'.
Variables (h h' : hall).
Hypothesis Gr : forall o, hall_group h' (phi o) <-> hall_group h o.
Lemma fixed_moves o p : cells_apart (act_op (phi o) (F p)) (F p) <-> cells_apart (act_op o p) p.
Proof.
  rewrite (Fapart (act_op o p) p). split; intros C; eapply cells_apart_trans; try exact C; [apply cells_apart_sym |]; apply Fact.
Qed.
Lemma site_moves f g f' g' p : general_positions f h = Done g -> no_extra_translations h ->
  general_positions f' h' = Done g' -> no_extra_translations h' ->
  Permutation (map rho (map rot (site_symmetry g p))) (map rot (site_symmetry g' (F p))).
Proof.
  intros H T H' T'. apply NoDup_Permutation.
  - apply FinFun.Injective_map_NoDup; [exact rho_inj | apply (site_NoDup f h g H)].
  - apply (site_NoDup f' h' g' H').
  - intros R. rewrite (site_rot f' h' g' H' T'), in_map_iff. split.
    + intros (R0 & <- & I0). apply (site_rot f h g H T) in I0. destruct I0 as (t & G & C).
      exists (snd (phi (R0, t))). rewrite <- (phi_rho (R0, t) : fst (phi (R0, t)) = rho R0), <- surjective_pairing.
      split; [exact (proj2 (Gr _) G) | exact (proj2 (fixed_moves _ _) C)].
    + intros (t & G & C). exists (fst (psi (R, t))). split.
      * rewrite <- phi_rho, phi_psi. reflexivity.
      * apply (site_rot f h g H T). exists (snd (psi (R, t))). rewrite <- surjective_pairing.
        rewrite <- (phi_psi (R, t)) in G, C. split; [exact (proj1 (Gr _) G) | exact (proj1 (fixed_moves _ _) C)].
Qed.
End Move.

(** ** The three changes *)
Definition shift_point (v : vec3) (p : qvec) : qvec :=
  QV (qx p + inject_Z (vx v) / 12) (qy p + inject_Z (vy v) / 12) (qz p + inject_Z (vz v) / 12).
Definition next_point (p : qvec) : qvec := QV (qz p) (qx p) (qy p).
Definition mirror_point (p : qvec) : qvec := QV (- qx p) (- qy p) (- qz p).

Lemma apart_of_eq p q : (qx p == qx q)%Q -> (qy p == qy q)%Q -> (qz p == qz q)%Q -> cells_apart p q.
Proof.
  intros A B C. exists 0, 0, 0. change (inject_Z 0) with 0%Q. rewrite A, B, C. split; [ring | split; ring].
Qed.
Ltac act_unfold := unfold act_op, act, aff, qdot, op_comp, op_shift, mmul, mvmul, vadd, vopp, I3, v0;
  cbn [fst snd rot tra qx qy qz vx vy vz m11 m12 m13 m21 m22 m23 m31 m32 m33].
Ltac inj_push := repeat rewrite ?inject_Z_plus, ?inject_Z_mult, ?inject_Z_opp; try change (inject_Z 0) with 0%Q; try change (inject_Z 1) with 1%Q.

Lemma shift_act v o p : cells_apart (act_op (op_conj v o) (shift_point v p)) (shift_point v (act_op o p)).
Proof.
  rewrite op_conj_formula. destruct o as [[a1 a2 a3 a4 a5 a6 a7 a8 a9] [x y z]], v as [u1 u2 u3], p as [p1 p2 p3].
  apply apart_of_eq; unfold shift_point, vsub; act_unfold; unfold Z.sub; inj_push; field.
Qed.
Lemma shift_apart v p q : cells_apart p q <-> cells_apart (shift_point v p) (shift_point v q).
Proof.
  unfold shift_point, cells_apart. cbn [qx qy qz].
  assert (E : forall a b c i, ((a + c) - (b + c) == i <-> a - b == i)%Q).
  { intros a b c i. split; intros <-; ring. }
  split; intros (i & j & k & A & B & C); exists i, j, k; rewrite ?E in *; auto.
Qed.
Lemma next_act o p : cells_apart (act_op (next_op o) (next_point p)) (next_point (act_op o p)).
Proof.
  destruct o as [[a1 a2 a3 a4 a5 a6 a7 a8 a9] [x y z]], p as [p1 p2 p3].
  apply apart_of_eq; unfold next_point, next_op, next_vec; act_unfold; ring.
Qed.
Lemma next_apart p q : cells_apart p q <-> cells_apart (next_point p) (next_point q).
Proof. unfold cells_apart, next_point. cbn [qx qy qz]. split; intros (i & j & k & A & B & C); [exists k, i, j | exists j, k, i]; auto. Qed.
Lemma mirror_act o p : cells_apart (act_op (mirror_op o) (mirror_point p)) (mirror_point (act_op o p)).
Proof.
  destruct o as [[a1 a2 a3 a4 a5 a6 a7 a8 a9] [x y z]], p as [p1 p2 p3].
  apply apart_of_eq; unfold mirror_point, mirror_op; act_unfold; inj_push; field.
Qed.
Lemma mirror_apart p q : cells_apart p q <-> cells_apart (mirror_point p) (mirror_point q).
Proof.
  unfold cells_apart, mirror_point. cbn [qx qy qz].
  assert (E : forall a b i, ((- a) - (- b) == inject_Z i <-> a - b == inject_Z (- i))%Q).
  { intros a b i. rewrite inject_Z_opp. split; intros A; [rewrite <- A; ring | transitivity (- (a - b))%Q; [ring |]; rewrite A; ring]. }
  split; intros (i & j & k & A & B & C); exists (-i), (-j), (-k); rewrite ?E in *; rewrite ?Z.opp_involutive; auto.
Qed.

(** ** C82 *)
(** the site symmetry of the shifted point is that of the point without origin shift *)
Theorem C82_origin_shift :
  forall f h v g f0 g0 p, ls_minus (h_lat h) = false -> no_extra_translations (with_shift v h) ->
    general_positions f (with_shift v h) = Done g -> general_positions f0 (with_shift v0 h) = Done g0 ->
    Permutation (map rot (site_symmetry g0 p)) (map rot (site_symmetry g (shift_point v p))).
Proof.
  intros f h v g f0 g0 p Mi T H H0. rewrite <- (map_id (map rot (site_symmetry g0 p))).
  apply (site_moves (shift_point v) (op_conj v) (op_conj (vopp v)) (fun R => R)) with (h := with_shift v0 h) (h' := with_shift v h) (f := f0) (f' := f).
  - exact (shift_act v).
  - exact (shift_apart v).
  - intros o. rewrite op_conj_conj. replace (vadd v (vopp v)) with v0 by mat_ring. apply op_conj_0.
  - exact (op_conj_fst v).
  - auto.
  - intros o. exact (C11_group_moves h v o Mi).
  - exact H0.
  - apply (no_extra_shift h v Mi), T.
  - exact H.
  - exact T.
Qed.
(** with relabelled axes: the relabelled rotations *)
Theorem C82_relabelled_axes :
  forall f h g f' g' p, ls_char (h_lat h) <> LR -> no_extra_translations h ->
    general_positions f h = Done g -> general_positions f' (next_hall h) = Done g' ->
    Permutation (map (fun m => fst (next_op (op_of m))) (site_symmetry g p)) (map rot (site_symmetry g' (next_point p))).
Proof.
  intros f h g f' g' p N T H H'. rewrite <- (map_map rot next_mat).
  apply (site_moves next_point next_op (fun o => next_op (next_op o)) next_mat) with (h := h) (h' := next_hall h) (f := f) (f' := f').
  - exact next_act.
  - exact next_apart.
  - exact next3_op.
  - reflexivity.
  - exact next_mat_inj.
  - intros o. exact (C79_group_relabelled h o N).
  - exact H.
  - exact T.
  - exact H'.
  - exact (next_no_extra_fwd h N T).
Qed.
(** in the mirror image: the same rotations at the mirrored point *)
Theorem C82_mirror_image :
  forall f h g f' g' p, no_extra_translations h ->
    general_positions f h = Done g -> general_positions f' (mirror_hall h) = Done g' ->
    Permutation (map rot (site_symmetry g p)) (map rot (site_symmetry g' (mirror_point p))).
Proof.
  intros f h g f' g' p T H H'. rewrite <- (map_id (map rot (site_symmetry g p))).
  apply (site_moves mirror_point mirror_op mirror_op (fun R => R)) with (h := h) (h' := mirror_hall h) (f := f) (f' := f').
  - exact mirror_act.
  - exact mirror_apart.
  - exact mirror2_op.
  - reflexivity.
  - auto.
  - intros o. exact (C80_group_mirrored h o).
  - exact H.
  - exact T.
  - exact H'.
  - exact (mirror_no_extra h T).
Qed.
(** a point with a site symmetry of order 4 before and after a shift *)
Example C82_case :
  exists h g g0, with_shift (V3 3 0 1) (Hall (h_lat h) (h_syms h) (V3 0 0 0)) = h /\ try_from_str "P 4 2 (3 0 1)" = Done (Some h) /\
    general_positions 10 h = Done g /\ no_extra_translations h /\ general_positions 10 (with_shift v0 h) = Done g0 /\
    length (site_symmetry g0 (QV 0 0 (1 # 5))) = 4%nat /\
    length (site_symmetry g (shift_point (V3 3 0 1) (QV 0 0 (1 # 5)))) = 4%nat /\ length (site_symmetry g (QV 0 0 (1 # 5))) = 1%nat.
Proof.
  destruct (case_spec "P 4 2 (3 0 1)" 8) as (h & g & E & G & T & _); [vm_compute; reflexivity |].
  assert (Eh : h = parsed "P 4 2 (3 0 1)") by (unfold parsed; rewrite E; reflexivity). subst h.
  exists (parsed "P 4 2 (3 0 1)"), g. eexists.
  split; [vm_compute; reflexivity |]. split; [exact E |]. split; [exact G |]. split; [exact T |].
  split; [vm_compute; reflexivity |]. 
  assert (Eg : general_positions 10 (parsed "P 4 2 (3 0 1)") = Done g) by exact G.
  revert Eg. clear. intros Eg. vm_compute in Eg. apply done_inj in Eg. subst g. vm_compute. auto.
Qed.
