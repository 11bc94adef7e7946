(** * PropOrigin: property C99: which origin shifts give the same group. *)
From Coq Require Import QArith Permutation.
From Verif Require Import Base Notations Parser Seitz F64 Jones Rotations Tables Lookup Generate Positions
  Spec SpecHall SpecXyz SpecCompat SpecOutcome SpecTables SpecRelabel SpecEdit SpecOrigin Algebra PropSeitz PropSymbols GenFacts
  PropGenerate GroupCheck PropFullSets PropTables PropTableGroups PropShift PropTermination PropOutcome Subgroups PropOrder PropSubgroup PropRelabel PropLatticeClass.
Open Scope Z_scope.
Local Notation length := List.length.

Lemma conj_difference v w o : op_conj w o = op_comp (I3, vsub (vsub w v) (mvmul (fst o) (vsub w v))) (op_conj v o).
Proof.
  rewrite !op_conj_formula. unfold op_comp. cbn [fst snd]. rewrite mmul_I_l, mvmul_I. f_equal. destruct o as [R t]. cbn [fst snd]. mat_ring.
Qed.
Lemma equivalent_neg h d : equivalent_origin h d -> equivalent_origin h (vopp d).
Proof.
  intros E ms m I S. specialize (E ms m I S). apply in_lat_opp in E.
  replace (vsub (vopp d) (mvmul (rot m) (vopp d))) with (vopp (vsub d (mvmul (rot m) d))); [exact E | mat_ring].
Qed.
Lemma equivalent_add h d e : equivalent_origin h d -> equivalent_origin h e -> equivalent_origin h (vadd d e).
Proof.
  intros E F ms m I S. pose proof (in_lat_add _ _ _ (E ms m I S) (F ms m I S)) as X.
  replace (vsub (vadd d e) (mvmul (rot m) (vadd d e))) with (vadd (vsub d (mvmul (rot m) d)) (vsub e (mvmul (rot m) e))); [exact X | mat_ring].
Qed.
Lemma same_group_half h v w o : equivalent_origin h (vsub w v) -> hall_group (at_origin w h) o -> hall_group (at_origin v h) o.
Proof.
  intros E. apply generated_mono. clear o. intros o [A | [A | (ms & m & I & S & ->)]].
  - apply gen_base. left. exact A.
  - apply gen_base. right. left. exact A.
  - cbn [at_origin h_syms h_shift] in *. rewrite (conj_difference v w). apply gen_comp.
    + apply (hall_group_lat (at_origin v h)). exact (E ms m I S).
    + apply gen_base. right. right. exists ms, m. auto.
Qed.
(** the shifts [v] and [w] give the same group exactly when their difference is an equivalent origin *)
Theorem C99_same_group_iff :
  forall h v w, no_extra_translations (at_origin v h) ->
    ((forall o, hall_group (at_origin w h) o <-> hall_group (at_origin v h) o) <-> equivalent_origin h (vsub w v)).
Proof.
  intros h v w T. split.
  - intros Q ms m I S. change (centring (ls_char (h_lat (at_origin v h))) (vsub (vsub w v) (mvmul (rot m) (vsub w v)))). apply T.
    assert (Gw : hall_group (at_origin v h) (op_conj w (op_of m))).
    { apply Q, gen_base. right. right. exists ms, m. auto. }
    assert (Gv : hall_group (at_origin v h) (op_conj v (op_of m))).
    { apply gen_base. right. right. exists ms, m. auto. }
    pose proof (gen_comp _ _ _ Gw (hall_inv _ _ Gv)) as G. rewrite (conj_difference v w), <- op_comp_assoc in G.
    rewrite (op_inv_r _ (hall_group_unimodular _ _ Gv)), op_comp_id_r in G. exact G.
  - intros E o. split; apply same_group_half; [exact E |]. apply equivalent_neg in E.
    replace (vsub v w) with (vopp (vsub w v)) by mat_ring. exact E.
Qed.
(** the answer does not depend on which rotations of the group are written *)
Theorem C99_every_operation :
  forall h d, no_extra_translations h -> ls_minus (h_lat h) = false ->
    (equivalent_origin h d <-> forall R t, hall_group h (R, t) -> centring (ls_char (h_lat h)) (vsub d (mvmul R d))).
Proof.
  intros h d T Mi. split.
  - intros E.
    assert (K : forall o, hall_group h o -> centring (ls_char (h_lat h)) (vsub d (mvmul (fst o) d))).
    { intros o G. induction G as [| g [(u & _ & ->) | [[A _] | (ms & m & I & S & ->)]] | a b Ga IHa Gb IHb | a b Ga IHa Eab | a b Ga IHa [Es _]].
      - cbn [op_id fst]. rewrite mvmul_I. replace (vsub d d) with v0 by mat_ring. apply in_lat_0.
      - cbn [fst]. rewrite mvmul_I. replace (vsub d d) with v0 by mat_ring. apply in_lat_0.
      - congruence.
      - rewrite op_conj_fst. exact (E ms m I S).
      - cbn [op_comp fst]. rewrite mvmul_mmul.
        pose proof (rot_centring h (fst a) (snd a) _ T ltac:(rewrite <- surjective_pairing; exact Ga) IHb) as X.
        pose proof (in_lat_add _ _ _ IHa X) as Y.
        replace (vsub d (mvmul (fst a) (mvmul (fst b) d))) with (vadd (vsub d (mvmul (fst a) d)) (mvmul (fst a) (vsub d (mvmul (fst b) d)))); [exact Y |].
        rewrite mvmul_vsub. generalize (mvmul (fst a) d), (mvmul (fst a) (mvmul (fst b) d)). intros p q. mat_ring.
      - assert (Gb : hall_group h b) by (eapply gen_inv; eauto).
        pose proof (rot_centring h (fst b) (snd b) _ T ltac:(rewrite <- surjective_pairing; exact Gb) IHa) as X. apply in_lat_opp in X.
        pose proof (f_equal fst Eab) as Ie. cbn [op_comp fst op_id] in Ie.
        assert (Ic : mmul (fst b) (fst a) = I3) by (rewrite (mmul_right_inverse_unique _ _ (hall_group_unimodular _ _ Ga) Ie); apply minv_l, (hall_group_unimodular _ _ Ga)).
        rewrite mvmul_vsub, <- mvmul_mmul, Ic, mvmul_I in X.
        replace (vsub d (mvmul (fst b) d)) with (vopp (vsub (mvmul (fst b) d) d)); [exact X |]. generalize (mvmul (fst b) d). intros p. mat_ring.
      - rewrite <- Es. exact IHa. }
    intros R t G. exact (K (R, t) G).
  - intros K ms m I S. apply (K (rot m) (snd (op_conj (h_shift h) (op_of m)))).
    pose proof (gen_base (hall_gens h) (op_conj (h_shift h) (op_of m))) as G. rewrite op_conj_formula in G |- *. cbn [fst snd op_of] in *. apply G.
    right. right. exists ms, m. rewrite op_conj_formula. auto.
Qed.
(** the equivalent origins form a group that contains the translations of the lattice and all fixed directions *)
Theorem C99_displacements_form_a_group :
  forall h, no_extra_translations h ->
    (forall v, centring (ls_char (h_lat h)) v -> equivalent_origin h v) /\
    (forall d, equivalent_origin h d -> equivalent_origin h (vopp d)) /\
    (forall d e, equivalent_origin h d -> equivalent_origin h e -> equivalent_origin h (vadd d e)) /\
    (forall d, (forall ms m, In ms (h_syms h) -> seitz_matrix ms = Some m -> mvmul (rot m) d = d) -> equivalent_origin h d).
Proof.
  intros h T. split; [| split; [intros d; apply equivalent_neg | split; [intros d e; apply equivalent_add |]]].
  - intros v C ms m I S.
    assert (G : hall_group h (rot m, snd (op_conj (h_shift h) (op_of m)))).
    { pose proof (gen_base (hall_gens h) (op_conj (h_shift h) (op_of m))) as G. rewrite op_conj_formula in G |- *. cbn [fst snd op_of] in *. apply G.
      right. right. exists ms, m. rewrite op_conj_formula. auto. }
    pose proof (rot_centring h _ _ v T G C) as X. apply in_lat_opp in X.
    replace (vsub v (mvmul (rot m) v)) with (vadd v (vopp (mvmul (rot m) v))); [exact (in_lat_add _ _ _ C X) |].
    generalize (mvmul (rot m) v). intros p. mat_ring.
  - intros d F ms m I S. rewrite (F ms m I S). replace (vsub d d) with v0 by mat_ring. apply in_lat_0.
Qed.
(** whether positions are returned does not depend on the shift *)
Theorem C99_returns_alike : forall h v w, returns (at_origin v h) <-> returns (at_origin w h).
Proof.
  intros h v w. destruct (C62_outcome (at_origin v h)) as (O1 & _). destruct (C62_outcome (at_origin w h)) as (O2 & _).
  rewrite O1, O2. reflexivity.
Qed.
(** equivalent origins list the same operations *)
Theorem C99_same_operations :
  forall fuel h v w a, no_extra_translations (at_origin v h) -> general_positions fuel (at_origin v h) = Done a -> equivalent_origin h (vsub w v) ->
    exists fuel' b, general_positions fuel' (at_origin w h) = Done b /\ num_of_general_pos a = num_of_general_pos b /\
      (forall m, lists a m -> exists n, lists b n /\ same_op m n) /\ (forall n, lists b n -> exists m, lists a m /\ same_op n m).
Proof.
  intros fuel h v w a T H E. pose proof (proj2 (C99_same_group_iff h v w T) E) as Q.
  destruct (proj1 (C99_returns_alike h v w) (ex_intro _ fuel (ex_intro _ a H))) as (fuel' & b & Hb). exists fuel', b. split; [exact Hb |].
  apply (C52_same_group_same_operations _ _ _ _ _ _ H Hb T); [| intros o; symmetry; apply Q].
  intros t G. apply T, Q, G.
Qed.
(** number 3, "P 2y": the origin may be anywhere along the axis b, and on any of the axes half-way *)
Example C99_case :
  exists h, try_from_str "P 2y" = Done (Some h) /\ no_extra_translations h /\ at_origin v0 h = h /\
    (exists g, general_positions 10 h = Done g) /\
    forall a b c, equivalent_origin h (V3 a b c) <-> (6 | a) /\ (6 | c).
Proof.
  destruct (row_of 3) as (label & s & h & g & El & E & En & P & G & T & _); [lia |].
  assert (Es : get_hall_symbol default_table (pred 3) = Some "P 2y"%string) by reflexivity. assert (s = "P 2y"%string) by congruence. subst s.
  exists h. split; [exact P |]. split; [exact T |].
  assert (Ep : try_from_str "P 2y" = Done (Some (Hall (LS false LP) [MS false F2 SubNone DiagNone AxY None] v0))) by (vm_compute; reflexivity).
  assert (h = Hall (LS false LP) [MS false F2 SubNone DiagNone AxY None] v0) by congruence. subst h.
  split; [reflexivity |]. split; [eexists; vm_compute; reflexivity |].
  assert (Em : seitz_matrix (MS false F2 SubNone DiagNone AxY None) = Some (aff (M3 (-1) 0 0 0 1 0 0 0 (-1)) v0)) by (vm_compute; reflexivity).
  intros a b c. unfold equivalent_origin, centring. cbn [h_syms h_lat ls_char translations]. split.
  - intros K. destruct (K _ _ (or_introl eq_refl) Em) as (u & [<- | []] & (A & _ & C)).
    destruct A as (i & A), C as (k & C). cbn [rot aff mvmul vsub vx vy vz m11 m12 m13 m21 m22 m23 m31 m32 m33] in A, C. split; [exists i | exists k]; lia.
  - intros [(i & ->) (k & ->)] ms m [<- | []] S. rewrite Em in S. injection S as <-. eexists. split; [left; reflexivity |].
    unfold vcong12, cong12. cbn [rot aff mvmul vsub vx vy vz m11 m12 m13 m21 m22 m23 m31 m32 m33].
    repeat split; [exists i | exists 0 | exists k]; lia.
Qed.
