(** * PropNormal: property C73: the operations carry the lattice into itself. *)
From Verif Require Import Base Notations Parser Seitz F64 Jones Rotations Tables Generate Positions
  Spec SpecHall SpecXyz SpecOrbit Algebra PropSeitz PropSymbols GenFacts PropGenerate GroupCheck
  PropFullSets PropOrbit PropSubgroup.
Open Scope Z_scope.

(** ** Support *)
Lemma conj_translation h R t v : hall_group h (R, t) -> hall_group h (I3, v) -> hall_group h (I3, mvmul R v).
Proof.
  intros G V. pose proof (hall_inv h _ G) as Gi.
  pose proof (gen_comp _ _ _ (gen_comp _ _ _ G V) Gi) as K.
  eapply gen_cell; [exact K |]. pose proof (hall_group_unimodular h (R, t) G) as U. cbn [fst] in U.
  unfold op_inv, op_comp. cbn [fst snd]. split; cbn [fst snd].
  - rewrite mmul_I_r, minv_r; auto.
  - rewrite mmul_I_r, mvmul_vopp, <- mvmul_mmul, minv_r, mvmul_I; auto.
    match goal with |- vcong12 ?a ?b => replace a with b; [apply vcong12_refl |] end. generalize (mvmul R v). clear. intros w. mat_ring.
Qed.
(** ** C73 *)
(** the translations of the group denoted by a symbol are carried into each other by its rotations *)
Theorem C73_translations_invariant :
  forall h R t v, hall_group h (R, t) -> hall_group h (I3, v) -> hall_group h (I3, mvmul R v).
Proof. exact conj_translation. Qed.
(** without extra translations, the rotation part of every listed operation carries centring
    vectors to centring vectors (up to whole cells), and is a permutation of them *)
Theorem C73_rotations_permute_centring :
  forall fuel h g m, general_positions fuel h = Done g -> no_extra_translations h -> listed g m ->
    (forall v, In v (gp_lattice g) -> exists w, In w (gp_lattice g) /\ vcong12 (mvmul (rot m) v) w) /\
    (forall w, In w (gp_lattice g) -> exists v, In v (gp_lattice g) /\ vcong12 (mvmul (rot m) v) w).
Proof.
  intros fuel h g m H T L. destruct (listed_group _ _ _ _ H L) as [A G]. destruct (general_positions_spec _ _ _ H) as (E & _). rewrite E.
  assert (B : forall v, In v (translations (ls_char (h_lat h))) -> hall_group h (I3, v)) by (intros v I; apply gen_base; left; eauto).
  assert (K : forall o v, hall_group h o -> In v (translations (ls_char (h_lat h))) -> exists w, In w (translations (ls_char (h_lat h))) /\ vcong12 (mvmul (fst o) v) w).
  { intros [R t] v O I. exact (T _ (conj_translation h R t v O (B v I))). }
  split; [intros v I; exact (K _ v G I) |].
  intros w I. pose proof (hall_inv h _ G) as Gi. destruct (K _ w Gi I) as (v & Iv & C). exists v. split; [exact Iv |].
  pose proof (hall_group_unimodular h _ G) as U. cbn [op_of fst op_inv] in *.
  eapply vcong12_trans; [apply vcong12_mvmul, vcong12_sym, C |].
  rewrite <- mvmul_mmul, minv_r, mvmul_I by exact U. apply vcong12_refl.
Qed.
(** so a symbol whose matrix symbols do not carry the centring vectors into each other has extra
    translations: A 4 *)
Theorem C73_unfit_lattice_has_extra_translations :
  forall fuel h g ms m v, general_positions fuel h = Done g -> In ms (h_syms h) -> seitz_matrix ms = Some m ->
    In v (gp_lattice g) -> (forall w, In w (gp_lattice g) -> ~ vcong12 (mvmul (rot m) v) w) ->
    ~ no_extra_translations h.
Proof.
  intros fuel h g ms m v H I E V N T. destruct (general_positions_spec _ _ _ H) as (L & _). rewrite L in *.
  assert (G : hall_group h (op_conj (h_shift h) (op_of m))) by (apply gen_base; right; right; eauto).
  rewrite op_conj_formula in G. cbn [op_of fst snd] in G.
  destruct (T _ (conj_translation h _ _ v G (gen_base _ _ (or_introl (ex_intro _ v (conj V eq_refl)))))) as (w & W & C).
  exact (N w W C).
Qed.
Example C73_case : exists h g ms m v, try_from_str "A 4" = Done (Some h) /\ general_positions 10 h = Done g /\
  In ms (h_syms h) /\ seitz_matrix ms = Some m /\ In v (gp_lattice g) /\ (forall w, In w (gp_lattice g) -> ~ vcong12 (mvmul (rot m) v) w).
Proof.
  assert (K : match try_from_str "A 4" with Done (Some h) => match general_positions 10 h with Done g =>
    match h_syms h with ms :: _ => match seitz_matrix ms with Some m => existsb (fun v => forallb (fun w => negb (vforall (fun z => z mod 12 =? 0) (vsub (mvmul (rot m) v) w))) (gp_lattice g)) (gp_lattice g)
    | None => false end | [] => false end | _ => false end | _ => false end = true) by (vm_compute; reflexivity).
  destruct (try_from_str "A 4") as [[h |] | |]; try discriminate K. destruct (general_positions 10 h) as [g | |] eqn:G; try discriminate K.
  destruct (h_syms h) as [| ms r] eqn:Es; try discriminate K. destruct (seitz_matrix ms) as [m |] eqn:Em; try discriminate K.
  apply existsb_exists in K. destruct K as (v & V & K). exists h, g, ms, m, v. rewrite Es.
  split; [reflexivity |]. split; [exact G |]. split; [left; reflexivity |]. split; [exact Em |]. split; [exact V |].
  intros w W (C1 & C2 & C3). rewrite forallb_forall in K. specialize (K w W). apply negb_true_iff in K.
  assert (Z : forall a b, cong12 a b -> (a - b) mod 12 =? 0 = true).
  { intros a b (k & E). apply Z.eqb_eq. rewrite E, Z.mul_comm. apply Z.mod_mul. lia. }
  assert (X : vforall (fun z => z mod 12 =? 0) (vsub (mvmul (rot m) v) w) = true).
  { apply vforall_true. unfold vsub. cbn [vx vy vz]. split; [apply Z, C1 | split; [apply Z, C2 | apply Z, C3]]. }
  congruence.
Qed.
