(** * PropArith: properties C54 (ordering of operations), C55 (sum, difference and translation
      of operations), C56 (comparison of rotations up to sign and the proper part). *)
From Coq Require Import QArith.
From Verif Require Import Base Notations Seitz F64 Spec SpecRotation Algebra PropSeitz PropRotation.
Open Scope Z_scope.

(** ** Vocabulary *)
(** the entry in row [i], column [j] of the 4x4 matrix (both from 0) *)
Definition entry (m : seitz) (i j : nat) : Z :=
  match i, j with
  | 0%nat, 0%nat => m11 (rot m) | 0%nat, 1%nat => m12 (rot m) | 0%nat, 2%nat => m13 (rot m) | 0%nat, 3%nat => vx (tra m)
  | 1%nat, 0%nat => m21 (rot m) | 1%nat, 1%nat => m22 (rot m) | 1%nat, 2%nat => m23 (rot m) | 1%nat, 3%nat => vy (tra m)
  | 2%nat, 0%nat => m31 (rot m) | 2%nat, 1%nat => m32 (rot m) | 2%nat, 2%nat => m33 (rot m) | 2%nat, 3%nat => vz (tra m)
  | 3%nat, 0%nat => vx (bot m)  | 3%nat, 1%nat => vy (bot m)  | 3%nat, 2%nat => vz (bot m)  | 3%nat, 3%nat => cor m
  | _, _ => 0
  end.
(** no entry of [a] is larger than the same entry of [b] *)
Definition below (a b : seitz) : Prop := forall i j, (i < 4)%nat -> (j < 4)%nat -> entry a i j <= entry b i j.

(** ** C54 *)
Lemma partial_cmp_from_le o l : forall c, partial_cmp_from o l = Some c ->
  (c <> Gt <-> o <> Gt /\ Forall (fun p => fst p <= snd p) l) /\ (c <> Lt <-> o <> Lt /\ Forall (fun p => snd p <= fst p) l).
Proof.
  revert o. induction l as [| [x y] l IH]; intros o c; cbn [partial_cmp_from].
  - intros E. assert (o = c) by congruence. subst. split; (split; [intros H; split; [assumption | constructor] | tauto]).
  - assert (F : forall P : Z * Z -> Prop, Forall P ((x, y) :: l) <-> P (x, y) /\ Forall P l).
    { intros P. split; [intros H; inversion H; auto | intros []; constructor; auto]. }
    rewrite !F. cbn [fst snd].
    destruct (Z.compare_spec x y) as [E | E | E]; intros H.
    + apply IH in H. destruct H as [A B]. rewrite A, B. subst. split; split; intros; repeat split; try tauto; lia.
    + destruct o; try discriminate; apply IH in H; destruct H as [A B]; rewrite A, B; split; split; intros G; repeat split; try tauto; try discriminate; try lia; destruct G as (G & G' & G''); try congruence; lia.
    + destruct o; try discriminate; apply IH in H; destruct H as [A B]; rewrite A, B; split; split; intros G; repeat split; try tauto; try discriminate; try lia; destruct G as (G & G' & G''); try congruence; lia.
Qed.
Lemma partial_cmp_from_None o l : partial_cmp_from o l = None ->
  ~ (o <> Gt /\ Forall (fun p => fst p <= snd p) l) /\ ~ (o <> Lt /\ Forall (fun p => snd p <= fst p) l).
Proof.
  revert o. induction l as [| [x y] l IH]; intros o; cbn [partial_cmp_from]; [discriminate |].
  assert (F : forall P : Z * Z -> Prop, Forall P ((x, y) :: l) <-> P (x, y) /\ Forall P l).
  { intros P. split; [intros H; inversion H; auto | intros []; constructor; auto]. }
  rewrite !F. cbn [fst snd].
  destruct (Z.compare_spec x y) as [E | E | E]; intros H.
  - apply IH in H. tauto.
  - destruct o; try (apply IH in H; destruct H as [A B]; split; [intros (G & G' & G''); apply A; split; [discriminate | assumption] | intros (G & G' & G''); lia]).
    split; [intros (G & _); congruence | intros (_ & G & _); lia].
  - destruct o; try (apply IH in H; destruct H as [A B]; split; [intros (G & G' & G''); lia | intros (G & G' & G''); apply B; split; [discriminate | assumption]]).
    split; [intros (_ & G & _); lia | intros (G & _); congruence].
Qed.
Lemma below_entries a b : below a b <-> Forall (fun p => fst p <= snd p) (combine (sz_entries a) (sz_entries b)).
Proof.
  unfold sz_entries, sz_hash_input. cbn [skipn combine]. split.
  - intros H. pose (G := fun i j p q => H i j p q). 
    repeat (apply Forall_cons; [cbn [fst snd] | ]); [apply (H 0 0)%nat | apply (H 1 0)%nat | apply (H 2 0)%nat | apply (H 3 0)%nat | apply (H 0 1)%nat | apply (H 1 1)%nat | apply (H 2 1)%nat | apply (H 3 1)%nat
      | apply (H 0 2)%nat | apply (H 1 2)%nat | apply (H 2 2)%nat | apply (H 3 2)%nat | apply (H 0 3)%nat | apply (H 1 3)%nat | apply (H 2 3)%nat | apply (H 3 3)%nat | constructor]; lia.
  - intros H. repeat match goal with K : Forall _ (_ :: _) |- _ => apply Forall_cons_iff in K; destruct K as [? K] end. cbn [fst snd] in *.
    intros i j Hi Hj. destruct i as [| [| [| [| i]]]], j as [| [| [| [| j]]]]; cbn [entry]; try assumption; lia.
Qed.
Lemma below_entries' a b : below b a <-> Forall (fun p => snd p <= fst p) (combine (sz_entries a) (sz_entries b)).
Proof.
  rewrite below_entries. unfold sz_entries, sz_hash_input. cbn [skipn combine].
  rewrite !Forall_cons_iff. cbn [fst snd]. assert (N : forall Q : Z * Z -> Prop, Forall Q [] <-> True) by (intros Q; split; constructor). rewrite !N. tauto.
Qed.
Lemma below_antisym a b : below a b -> below b a -> a = b.
Proof.
  intros H K. destruct a as [[a1 a2 a3 a4 a5 a6 a7 a8 a9] [t1 t2 t3] [b1 b2 b3] p], b as [[c1 c2 c3 c4 c5 c6 c7 c8 c9] [u1 u2 u3] [d1 d2 d3] p'].
  assert (E : forall i j, (i < 4)%nat -> (j < 4)%nat -> entry (Sz (M3 a1 a2 a3 a4 a5 a6 a7 a8 a9) (V3 t1 t2 t3) (V3 b1 b2 b3) p) i j =
    entry (Sz (M3 c1 c2 c3 c4 c5 c6 c7 c8 c9) (V3 u1 u2 u3) (V3 d1 d2 d3) p') i j).
  { intros i j Hi Hj. specialize (H i j Hi Hj). specialize (K i j Hi Hj). lia. }
  clear H K. assert (L : (0 < 4 /\ 1 < 4 /\ 2 < 4 /\ 3 < 4)%nat) by lia. destruct L as (L0 & L1 & L2 & L3).
  f_equal; [f_equal | f_equal | f_equal |];
  [apply (E 0 0)%nat | apply (E 0 1)%nat | apply (E 0 2)%nat | apply (E 1 0)%nat | apply (E 1 1)%nat | apply (E 1 2)%nat | apply (E 2 0)%nat | apply (E 2 1)%nat | apply (E 2 2)%nat
  | apply (E 0 3)%nat | apply (E 1 3)%nat | apply (E 2 3)%nat | apply (E 3 0)%nat | apply (E 3 1)%nat | apply (E 3 2)%nat | apply (E 3 3)%nat]; assumption.
Qed.
Lemma sz_partial_cmp_some a b c : sz_partial_cmp a b = Some c -> (c <> Gt <-> below a b) /\ (c <> Lt <-> below b a).
Proof.
  rewrite below_entries, below_entries'. unfold sz_partial_cmp.
  destruct (combine (sz_entries a) (sz_entries b)) as [| [x y] l] eqn:E; [discriminate E |].
  intros H. apply partial_cmp_from_le in H. destruct H as [A B]. rewrite A, B, !Forall_cons_iff. cbn [fst snd].
  rewrite Z.compare_ngt_iff, Z.compare_nlt_iff, !Z.nlt_ge. split; reflexivity.
Qed.
Lemma sz_partial_cmp_none a b : sz_partial_cmp a b = None -> ~ below a b /\ ~ below b a.
Proof.
  rewrite below_entries, below_entries'. unfold sz_partial_cmp.
  destruct (combine (sz_entries a) (sz_entries b)) as [| [x y] l] eqn:E; [discriminate E |].
  intros H. apply partial_cmp_from_None in H. rewrite !Forall_cons_iff. cbn [fst snd].
  rewrite Z.compare_ngt_iff, Z.compare_nlt_iff, !Z.nlt_ge in H. exact H.
Qed.
(** [<], [==-by-order], [>] and "not comparable" of two operations, entry by entry *)
Theorem C54_order_is_entrywise :
  forall a b,
    (sz_partial_cmp a b = Some Lt <-> below a b /\ a <> b) /\
    (sz_partial_cmp a b = Some Eq <-> a = b) /\
    (sz_partial_cmp a b = Some Gt <-> below b a /\ a <> b) /\
    (sz_partial_cmp a b = None <-> ~ below a b /\ ~ below b a).
Proof.
  intros a b. assert (N : below a b -> below b a -> a = b) by apply below_antisym.
  assert (R : a = b -> below a b /\ below b a) by (intros ->; split; intros i j _ _; lia).
  destruct (sz_partial_cmp a b) as [[] |] eqn:E.
  - apply sz_partial_cmp_some in E. destruct E as [A B]. assert (below a b) by (apply A; discriminate). assert (below b a) by (apply B; discriminate).
    repeat split; try discriminate; try tauto; intuition.
  - apply sz_partial_cmp_some in E. destruct E as [A B]. assert (below a b) by (apply A; discriminate). assert (~ below b a) by (rewrite <- B; congruence).
    repeat split; try discriminate; try tauto; intuition.
  - apply sz_partial_cmp_some in E. destruct E as [A B]. assert (below b a) by (apply B; discriminate). assert (~ below a b) by (rewrite <- A; congruence).
    repeat split; try discriminate; try tauto; intuition.
  - apply sz_partial_cmp_none in E. repeat split; try discriminate; try tauto; intuition.
Qed.
(** so it is a partial order; it ignores whole cells nowhere *)
Theorem C54_partial_order :
  (forall a b, sz_partial_cmp b a = option_map CompOpp (sz_partial_cmp a b)) /\
  (forall a b c, sz_partial_cmp a b = Some Lt -> sz_partial_cmp b c = Some Lt -> sz_partial_cmp a c = Some Lt).
Proof.
  split.
  - intros a b. destruct (C54_order_is_entrywise a b) as (A & B & C & D). destruct (C54_order_is_entrywise b a) as (A' & B' & C' & D').
    destruct (sz_partial_cmp a b) as [[] |] eqn:E; cbn [option_map CompOpp].
    + apply B'. symmetry. now apply B.
    + apply C'. pose proof (proj1 A eq_refl). intuition.
    + apply A'. pose proof (proj1 C eq_refl). intuition.
    + apply D'. pose proof (proj1 D eq_refl). tauto.
  - intros a b c. rewrite !(proj1 (C54_order_is_entrywise _ _)). intros [A N] [B M]. split.
    + intros i j Hi Hj. specialize (A i j Hi Hj). specialize (B i j Hi Hj). lia.
    + intros ->. apply N. now apply below_antisym.
Qed.
(** two operations of one group are usually not comparable, and operations that are == may be ordered *)
Theorem C54_total_refuted :
  sz_partial_cmp sz_inversion (aff I3 (V3 (-1) 0 0)) = None /\
  forall a, is_affine a -> exists b, is_affine b /\ sz_eqb a b = true /\ sz_partial_cmp a b = Some Lt.
Proof.
  split; [reflexivity |]. intros a A. exists (aff (rot a) (vadd (tra a) (V3 12 0 0))). split; [apply aff_affine |]. split.
  - apply sz_eqb_same. split; auto. repeat split; cbn; [exists (-1) | exists 0 | exists 0]; lia.
  - apply (proj1 (C54_order_is_entrywise _ _)). rewrite (affine_aff a A). split.
    + intros i j Hi Hj. destruct i as [| [| [| [| i]]]], j as [| [| [| [| j]]]]; cbn; lia.
    + intros E. apply (f_equal (fun m => vx (tra m))) in E. cbn in E. lia.
Qed.

(** ** C55 *)
Theorem C55_sum_and_difference_entrywise :
  forall a b i j, entry (sz_add a b) i j = entry a i j + entry b i j /\ entry (sz_sub a b) i j = entry a i j - entry b i j.
Proof.
  intros a b i j. destruct i as [| [| [| [| i]]]], j as [| [| [| [| j]]]]; split; cbn; try reflexivity; lia.
Qed.
(** hence the sum or difference of two proper operations is never a proper operation *)
Theorem C55_never_an_operation :
  forall a b, is_affine a -> is_affine b -> ~ is_affine (sz_add a b) /\ ~ is_affine (sz_sub a b).
Proof.
  intros a b [_ A] [_ B]. split; intros [_ C]; cbn [cor sz_add sz_sub] in C; lia.
Qed.
Lemma seitz_entry a b : (forall i j, (i < 4)%nat -> (j < 4)%nat -> entry a i j = entry b i j) -> a = b.
Proof. intros H. apply below_antisym; intros i j Hi Hj; rewrite (H i j Hi Hj); lia. Qed.
Theorem C55_add_undoes_sub :
  forall a b, sz_add (sz_sub a b) b = a /\ sz_sub (sz_add a b) b = a /\ sz_add a b = sz_add b a.
Proof.
  intros a b. repeat split; apply seitz_entry; intros i j _ _; rewrite ?(proj1 (C55_sum_and_difference_entrywise _ _ _ _)), ?(proj2 (C55_sum_and_difference_entrywise _ _ _ _)),
    ?(proj1 (C55_sum_and_difference_entrywise _ _ _ _)); lia.
Qed.
(** two operations are == exactly when their difference has no rotation part and whole-cell translation *)
Theorem C55_equal_iff_difference_vanishes :
  forall a b, sz_eqb a b = true <->
    (forall i j, (i < 3)%nat -> (j < 3)%nat -> entry (sz_sub a b) i j = 0) /\
    (forall i, (i < 3)%nat -> exists k, entry (sz_sub a b) i 3 = 12 * k).
Proof.
  intros a b. rewrite sz_eqb_same. unfold same_op, vcong12, cong12.
  assert (S : forall i j, entry (sz_sub a b) i j = entry a i j - entry b i j) by (intros; apply C55_sum_and_difference_entrywise).
  split.
  - intros (E & X & Y & Z). split.
    + intros i j Hi Hj. rewrite S. destruct i as [| [| [| i]]], j as [| [| [| j]]]; cbn [entry]; rewrite ?E; lia.
    + intros i Hi. rewrite S. destruct i as [| [| [| i]]]; cbn [entry]; auto; lia.
  - intros [H K]. assert (H' : forall i j, (i < 3)%nat -> (j < 3)%nat -> entry a i j = entry b i j) by (intros i j Hi Hj; specialize (H i j Hi Hj); rewrite S in H; lia).
    assert (L : (0 < 3 /\ 1 < 3 /\ 2 < 3)%nat) by lia. destruct L as (L0 & L1 & L2). split.
    + apply mat3_ext; [apply (H' 0 0)%nat | apply (H' 0 1)%nat | apply (H' 0 2)%nat | apply (H' 1 0)%nat | apply (H' 1 1)%nat | apply (H' 1 2)%nat | apply (H' 2 0)%nat | apply (H' 2 1)%nat | apply (H' 2 2)%nat]; assumption.
    + repeat split; [destruct (K 0%nat L0) as [k E] | destruct (K 1%nat L1) as [k E] | destruct (K 2%nat L2) as [k E]]; rewrite S in E; exists k; exact E.
Qed.
(** adding a vector translates: every point goes where the operation sends it, moved by the
    vector, up to whole cells; the last row is kept, the translation is reduced to -11 .. 11 *)
Definition moved (v : vec3) (p : qvec) : qvec :=
  QV (qx p + inject_Z (vx v) / 12)%Q (qy p + inject_Z (vy v) / 12)%Q (qz p + inject_Z (vz v) / 12)%Q.
Lemma cong_cells a b (x : Q) : cong12 a b -> exists i, (x + inject_Z a / 12 - (x + inject_Z b / 12) == inject_Z i)%Q.
Proof.
  intros H. apply cong12_Q in H. destruct H as [i H]. exists i. rewrite <- H. ring.
Qed.
Theorem C55_adding_a_vector_translates :
  forall m v, rot (sz_addv m v) = rot m /\ bot (sz_addv m v) = bot m /\ cor (sz_addv m v) = cor m /\
    vbetween (-11) 12 (tra (sz_addv m v)) /\
    forall p, cells_apart (act (sz_addv m v) p) (moved v (act m p)).
Proof.
  intros m v. split; [reflexivity |]. split; [reflexivity |]. split; [reflexivity |].
  assert (R : forall x, -11 <= rem12 x < 12 /\ cong12 (rem12 x) x).
  { intros x. unfold rem12, STBN. pose proof (Z.rem_bound_abs x 12 ltac:(lia)). pose proof (Z.quot_rem' x 12). split; [lia |]. exists (- Z.quot x 12). lia. }
  split.
  - unfold sz_addv, vbetween. cbn [tra vmap vadd vx vy vz]. repeat split; apply R.
  - intros p. unfold cells_apart, act, moved, sz_addv. cbn [rot tra vmap vadd vx vy vz qx qy qz].
    assert (C : forall x t u, exists i, (x + inject_Z (rem12 (t + u)) / 12 - (x + inject_Z t / 12 + inject_Z u / 12) == inject_Z i)%Q).
    { intros x t u. destruct (cong_cells _ _ x (proj2 (R (t + u)))) as [i E]. exists i. rewrite <- E. rewrite inject_Z_plus. field. }
    destruct (C (qdot (m11 (rot m)) (m12 (rot m)) (m13 (rot m)) p) (vx (tra m)) (vx v)) as [i Ei].
    destruct (C (qdot (m21 (rot m)) (m22 (rot m)) (m23 (rot m)) p) (vy (tra m)) (vy v)) as [j Ej].
    destruct (C (qdot (m31 (rot m)) (m32 (rot m)) (m33 (rot m)) p) (vz (tra m)) (vz v)) as [k Ek].
    exists i, j, k. auto.
Qed.
(** translations add up *)
Theorem C55_vectors_add_up :
  forall m v w, sz_eqb (sz_addv (sz_addv m v) w) (sz_addv m (vadd v w)) = true /\ sz_eqb (sz_addv m v0) m = true.
Proof.
  assert (C : forall x, cong12 (rem12 x) x).
  { intros x. unfold rem12, STBN. pose proof (Z.quot_rem' x 12). exists (- Z.quot x 12). lia. }
  intros m v w. split; apply sz_eqb_same; (split; [reflexivity |]); unfold sz_addv, vcong12; cbn [tra vmap vadd vx vy vz v0];
    repeat split; unfold cong12 in *;
    match goal with
    | |- exists k, rem12 (rem12 ?a + ?b) - rem12 ?c = _ => destruct (C a) as [p P]; destruct (C (rem12 a + b)) as [q Q]; destruct (C c) as [r R]; exists (p + q - r); lia
    | |- exists k, rem12 ?a - _ = _ => destruct (C a) as [p P]; exists p; lia
    end.
Qed.
Example C55_case : sz_addv (aff (mopp I3) (V3 6 6 6)) (V3 6 0 7) = aff (mopp I3) (V3 0 6 1) /\
  is_affine (aff (mopp I3) (V3 6 6 6)).
Proof. split; [reflexivity | split; reflexivity]. Qed.

(** ** C56 *)
Theorem C56_unique_iff :
  forall a b, is_unique_rotation a b = true <->
    ~ (forall i j, (i < 3)%nat -> (j < 3)%nat -> entry a i j = entry b i j) /\
    ~ (forall i j, (i < 3)%nat -> (j < 3)%nat -> entry a i j = - entry b i j).
Proof.
  intros a b. assert (P : (forall i j, (i < 3)%nat -> (j < 3)%nat -> entry a i j = entry b i j) <-> meqb (rot a) (rot b) = true).
  { rewrite meqb_eq. split; [intros H | intros E i j Hi Hj; destruct i as [| [| [| i]]], j as [| [| [| j]]]; cbn [entry]; rewrite ?E; lia].
    assert (L : (0 < 3 /\ 1 < 3 /\ 2 < 3)%nat) by lia. destruct L as (L0 & L1 & L2).
    apply mat3_ext; [apply (H 0 0)%nat | apply (H 0 1)%nat | apply (H 0 2)%nat | apply (H 1 0)%nat | apply (H 1 1)%nat | apply (H 1 2)%nat | apply (H 2 0)%nat | apply (H 2 1)%nat | apply (H 2 2)%nat]; assumption. }
  assert (N : (forall i j, (i < 3)%nat -> (j < 3)%nat -> entry a i j = - entry b i j) <-> meqb (mopp (rot a)) (rot b) = true).
  { rewrite meqb_eq. split.
    - intros H. assert (L : (0 < 3 /\ 1 < 3 /\ 2 < 3)%nat) by lia. destruct L as (L0 & L1 & L2). assert (H' : forall i j, (i < 3)%nat -> (j < 3)%nat -> - entry a i j = entry b i j) by (intros i j Hi Hj; rewrite (H i j Hi Hj); lia).
      apply mat3_ext; cbn [mopp mmap m11 m12 m13 m21 m22 m23 m31 m32 m33];
      [apply (H' 0 0)%nat | apply (H' 0 1)%nat | apply (H' 0 2)%nat | apply (H' 1 0)%nat | apply (H' 1 1)%nat | apply (H' 1 2)%nat | apply (H' 2 0)%nat | apply (H' 2 1)%nat | apply (H' 2 2)%nat]; assumption.
    - intros E i j Hi Hj; destruct i as [| [| [| i]]], j as [| [| [| j]]]; cbn [entry]; rewrite <- ?E; cbn [mopp mmap m11 m12 m13 m21 m22 m23 m31 m32 m33]; lia. }
  rewrite P, N. unfold is_unique_rotation. rewrite andb_true_iff, !negb_true_iff, !not_true_iff_false. reflexivity.
Qed.
(** symmetric, never true of an operation and itself, blind to translations *)
Theorem C56_unique_symmetric :
  (forall a b, is_unique_rotation a b = is_unique_rotation b a) /\
  (forall a, is_unique_rotation a a = false) /\
  (forall R S t u t' u', is_unique_rotation (aff R t) (aff S u) = is_unique_rotation (aff R t') (aff S u')).
Proof.
  split; [| split].
  - intros a b. apply eq_true_iff_eq. rewrite !C56_unique_iff.
    assert (A : forall a b, (forall i j, (i < 3)%nat -> (j < 3)%nat -> entry a i j = entry b i j) -> forall i j, (i < 3)%nat -> (j < 3)%nat -> entry b i j = entry a i j) by (intros x y H i j Hi Hj; now rewrite H).
    assert (B : forall a b, (forall i j, (i < 3)%nat -> (j < 3)%nat -> entry a i j = - entry b i j) -> forall i j, (i < 3)%nat -> (j < 3)%nat -> entry b i j = - entry a i j) by (intros x y H i j Hi Hj; rewrite H by assumption; lia).
    split; intros [X Y]; split; intros H; [apply X | apply Y | apply X | apply Y]; auto.
  - intros a. apply not_true_iff_false. rewrite C56_unique_iff. intros [H _]. apply H. reflexivity.
  - reflexivity.
Qed.
(** [proper_rotation]: nothing for a rotation part that is the identity or the inversion, and
    otherwise the proper part, which has determinant 1 and order 2, 3, 4 or 6 *)
Theorem C56_proper_rotation :
  forall m, is_affine m -> entries_within 65536 (rot m) -> finite_order (rot m) ->
    (proper_rotation m = None <-> rot m = I3 \/ rot m = mopp I3) /\
    (forall P, proper_rotation m = Some P ->
       P = proper_of (rot m) /\ det_spec P = 1 /\ exists n, In n [2; 3; 4; 6]%nat /\ has_order P n).
Proof.
  intros m A S F. destruct (C17_finite_order_classified m A S F) as (t & T & O & D & _).
  assert (DE : sz_det m = det_spec (rot m)).
  { apply C18_determinant_exact; [assumption |]. unfold fits_i32. rewrite D. destruct t; cbn; lia. }
  assert (PO : mmap (fun v => v * sz_det m) (rot m) = proper_of (rot m)).
  { rewrite DE. unfold proper_of. rewrite D. destruct t; cbn [type_meaning snd Z.eqb Pos.eqb]; apply mat3_ext; unfold mopp; cbn [mmap m11 m12 m13 m21 m22 m23 m31 m32 m33]; lia. }
  assert (D1 : det_spec (proper_of (rot m)) = 1) by (rewrite det_spec_mdet; now apply proper_of_det).
  assert (ID : has_order (proper_of (rot m)) 1 <-> rot m = I3 \/ rot m = mopp I3).
  { unfold has_order. split.
    - intros (_ & E & _). cbn [mpow] in E. rewrite mmul_I_r in E. unfold proper_of in E. destruct (det_spec (rot m) =? -1); [right | left; assumption].
      rewrite <- E. now rewrite mopp_mopp.
    - intros E. split; [lia |]. split; [| intros; lia]. cbn [mpow]. rewrite mmul_I_r. unfold proper_of. destruct E as [-> | ->]; reflexivity. }
  assert (U : forall n k, has_order (proper_of (rot m)) n -> has_order (proper_of (rot m)) k -> n = k).
  { intros n k (N0 & N1 & N2) (K0 & K1 & K2). destruct (Nat.lt_trichotomy n k) as [L | [L | L]]; [exfalso; apply (K2 n); auto; lia | assumption | exfalso; apply (N2 k); auto; lia]. }
  unfold proper_rotation. rewrite T. split.
  - rewrite <- ID. destruct t; cbn [type_meaning fst] in O; (split; [intros E; first [exact O | discriminate E] | intros E; first [reflexivity | specialize (U _ _ O E); discriminate U]]).
  - intros P E. assert (Q : P = proper_of (rot m)) by (rewrite <- PO; destruct t; try discriminate E; injection E as E; now symmetry).
    subst P. split; [reflexivity |]. split; [assumption |]. exists (fst (type_meaning t)). split; [| assumption]. destruct t; try discriminate E; cbn; tauto.
Qed.
Example C56_case : finite_order (M3 0 (-1) 0 1 0 0 0 0 (-1)) /\
  proper_rotation (aff (M3 0 1 0 (-1) 0 0 0 0 (-1)) v0) = Some (M3 0 (-1) 0 1 0 0 0 0 1) /\
  is_unique_rotation (aff (M3 0 1 0 (-1) 0 0 0 0 (-1)) v0) (aff (M3 0 (-1) 0 1 0 0 0 0 (-1)) v0) = true.
Proof. split; [exists 4%nat; split; [lia | reflexivity] | split; vm_compute; reflexivity]. Qed.
