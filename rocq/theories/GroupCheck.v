(** * GroupCheck: a decidable certificate that a list of operations is a whole space group
    modulo centring translations, and its soundness (proof support). *)
From Verif Require Import Base Notations Parser Seitz F64 Jones Rotations Tables Generate Positions
  Spec SpecHall Algebra PropSeitz PropSymbols GenFacts PropGenerate.
Open Scope Z_scope.
Local Notation length := List.length.

Definition in_latb (l : lattice) (v : vec3) : bool :=
  existsb (fun u => vforall (fun z => z mod 12 =? 0) (vsub v u)) (translations l).
Definition in_coreb (l : lattice) (core : list seitz) (R : mat3) (t : vec3) : bool :=
  existsb (fun m => meqb (rot m) R && in_latb l (vsub t (tra m))) core.
Definition closed_check (l : lattice) (core : list seitz) : bool :=
  forallb (fun a => forallb (fun b =>
    in_coreb l core (mmul (rot a) (rot b)) (vadd (mvmul (rot a) (tra b)) (tra a))) core) core.
Definition inverse_check (l : lattice) (core : list seitz) : bool :=
  forallb (fun a => existsb (fun b =>
    meqb (mmul (rot a) (rot b)) I3 && in_latb l (vadd (mvmul (rot a) (tra b)) (tra a))) core) core.
Definition lattice_check (l : lattice) (core : list seitz) : bool :=
  forallb (fun a => forallb (fun u => in_latb l (mvmul (rot a) u)) (translations l)) core.
Definition pure_check (l : lattice) (core : list seitz) : bool :=
  forallb (fun a => negb (meqb (rot a) I3) || in_latb l (tra a)) core.
Definition gens_check (h : hall) (core : list seitz) : bool :=
  let l := ls_char (h_lat h) in
  in_coreb l core I3 v0 &&
  (negb (ls_minus (h_lat h)) || in_coreb l core (mopp I3) v0) &&
  forallb (fun ms => match seitz_matrix ms with
                     | Some m => let o := op_conj (h_shift h) (op_of m) in in_coreb l core (fst o) (snd o)
                     | None => true end) (h_syms h).
Definition group_check (h : hall) (core : list seitz) : bool :=
  let l := ls_char (h_lat h) in
  closed_check l core && inverse_check l core && lattice_check l core && pure_check l core
  && gens_check h core.

Lemma in_latb_spec l v : in_latb l v = true -> in_lat l v.
Proof.
  unfold in_latb. intros H. apply existsb_exists in H. destruct H as (u & Hu & E).
  exists u. split; auto. unfold vforall in E. rewrite !andb_true_iff, !Z.eqb_eq in E.
  destruct E as ((E1 & E2) & E3). unfold vsub in *; cbn [vx vy vz] in *.
  repeat split; unfold cong12; apply Z.div_exact in E1, E2, E3; try lia; eexists; eassumption.
Qed.
Lemma vcong12_vsub a b c d : vcong12 a b -> vcong12 c d -> vcong12 (vsub a c) (vsub b d).
Proof.
  intros H K. replace (vsub a c) with (vadd a (vopp c)) by mat_ring.
  replace (vsub b d) with (vadd b (vopp d)) by mat_ring. apply vcong12_vadd; auto using vcong12_vopp.
Qed.
Definition in_core (l : lattice) (core : list seitz) (o : op) : Prop :=
  exists m, In m core /\ rot m = fst o /\ in_lat l (vsub (snd o) (tra m)).
Lemma in_coreb_spec l core R t : in_coreb l core R t = true -> in_core l core (R, t).
Proof.
  unfold in_coreb. intros H. apply existsb_exists in H. destruct H as (m & Hm & E).
  apply andb_true_iff in E. destruct E as [E1 E2]. exists m. split; auto.
  apply meqb_eq in E1. auto using in_latb_spec.
Qed.

Section Sound.
Variable h : hall.
Variable core : list seitz.
Let l := ls_char (h_lat h).
Hypothesis Ck : group_check h core = true.

Lemma ck_parts : closed_check l core = true /\ inverse_check l core = true /\ lattice_check l core = true
  /\ pure_check l core = true /\ gens_check h core = true.
Proof. unfold group_check in Ck. fold l in Ck. rewrite !andb_true_iff in Ck. tauto. Qed.
Lemma ck_lat m v : In m core -> in_lat l v -> in_lat l (mvmul (rot m) v).
Proof.
  intros Hm (u & Hu & E). destruct ck_parts as (_&_&L&_&_). unfold lattice_check in L.
  rewrite forallb_forall in L. specialize (L m Hm). rewrite forallb_forall in L. specialize (L u Hu).
  apply in_latb_spec in L. eapply in_lat_cong; [| exact L]. apply vcong12_mvmul, vcong12_sym, E.
Qed.
Lemma ck_group o : hall_group h o -> in_core l core o.
Proof.
  destruct ck_parts as (C & V & _ & _ & G). unfold gens_check in G. fold l in G.
  rewrite !andb_true_iff in G. destruct G as ((G1 & G2) & G3).
  intros H. induction H as [| g Hg | a b Ha IHa Hb IHb | a b Ha IHa E | a b Ha IHa E].
  - apply in_coreb_spec, G1.
  - destruct Hg as [(v & Hv & ->) | [(Hm & ->) | (ms & m & Hms & Hm & ->)]].
    + apply in_coreb_spec in G1. destruct G1 as (m & Hm & Rm & Lm). exists m. split; auto. split; auto.
      cbn [snd] in *. replace (vsub v (tra m)) with (vadd v (vsub v0 (tra m))) by mat_ring.
      apply in_lat_add; auto. apply in_lat_in, Hv.
    + rewrite Hm in G2. simpl in G2. apply in_coreb_spec, G2.
    + rewrite forallb_forall in G3. specialize (G3 ms Hms). rewrite Hm in G3.
      apply in_coreb_spec in G3. destruct (op_conj _ _); exact G3.
  - destruct IHa as (ma & Hma & Ra & La), IHb as (mb & Hmb & Rb & Lb).
    unfold closed_check in C. rewrite forallb_forall in C. specialize (C ma Hma).
    rewrite forallb_forall in C. specialize (C mb Hmb). apply in_coreb_spec in C.
    destruct C as (m & Hm & Rm & Lm). exists m. split; auto. cbn [fst snd op_comp] in *.
    split; [congruence |]. rewrite <- Ra.
    replace (vsub (vadd (mvmul (rot ma) (snd b)) (snd a)) (tra m)) with
      (vadd (vadd (mvmul (rot ma) (vsub (snd b) (tra mb))) (vsub (snd a) (tra ma)))
            (vsub (vadd (mvmul (rot ma) (tra mb)) (tra ma)) (tra m))) by mat_ring.
    apply in_lat_add; [apply in_lat_add |]; auto. apply ck_lat; auto.
  - destruct IHa as (ma & Hma & Ra & La).
    unfold inverse_check in V. rewrite forallb_forall in V. specialize (V ma Hma).
    apply existsb_exists in V. destruct V as (mb & Hmb & V). apply andb_true_iff in V.
    destruct V as [V1 V2]. apply meqb_eq in V1. apply in_latb_spec in V2.
    assert (E1 : mmul (fst a) (fst b) = I3) by exact (f_equal fst E).
    assert (E2 : vadd (mvmul (fst a) (snd b)) (snd a) = v0) by exact (f_equal snd E).
    assert (U : unimodular (rot ma)) by (eapply mmul_I_unimodular; eauto).
    exists mb. split; auto. split.
    { apply (mmul_cancel_l (rot ma)); auto. rewrite V1, Ra, E1. reflexivity. }
    assert (K : in_lat l (mvmul (rot ma) (vsub (snd b) (tra mb)))).
    { replace (mvmul (rot ma) (vsub (snd b) (tra mb))) with
        (vsub (vsub (vadd (mvmul (rot ma) (snd b)) (snd a)) (vadd (mvmul (rot ma) (tra mb)) (tra ma)))
              (vsub (snd a) (tra ma))) by mat_ring.
      rewrite Ra, E2. rewrite Ra in V2.
      replace (vsub (vsub v0 (vadd (mvmul (fst a) (tra mb)) (tra ma))) (vsub (snd a) (tra ma)))
        with (vadd (vopp (vadd (mvmul (fst a) (tra mb)) (tra ma))) (vopp (vsub (snd a) (tra ma)))) by mat_ring.
      apply in_lat_add; apply in_lat_opp; auto. }
    apply (ck_lat mb) in K; auto.
    assert (V3 : mmul (rot mb) (rot ma) = I3).
    { assert (Eb : rot mb = minv (rot ma)) by (apply mmul_right_inverse_unique; auto).
      rewrite Eb. apply minv_l; auto. }
    rewrite <- mvmul_mmul, V3, mvmul_I in K. exact K.
  - destruct E as [E1 E2]. destruct IHa as (m & Hm & Rm & Lm). exists m. split; auto.
    split; [congruence |]. eapply in_lat_cong; [| exact Lm].
    apply vcong12_vsub; [exact E2 | apply vcong12_refl].
Qed.
Lemma ck_no_extra : no_extra_translations h.
Proof.
  intros t H. destruct (ck_group _ H) as (m & Hm & Rm & Lm). cbn [fst snd] in *.
  destruct ck_parts as (_&_&_&P&_). unfold pure_check in P. rewrite forallb_forall in P.
  specialize (P m Hm). rewrite Rm in P. replace (meqb I3 I3) with true in P by reflexivity. simpl in P.
  apply in_latb_spec in P. replace t with (vadd (vsub t (tra m)) (tra m)) by mat_ring.
  apply in_lat_add; auto.
Qed.
End Sound.
