(** * PropTermination: property C29: which symbols generate a finite point group. *)
From Verif Require Import Base Notations Parser Seitz F64 Jones Rotations Generate Positions
  Spec SpecHall SpecXyz SpecCompat Algebra PropSeitz PropSymbols GenFacts PropGenerate Restriction PropJones.
Open Scope Z_scope.
Local Notation length := List.length.

(** ** The rotation part of a symbol *)
Definition proper_rot (ms : msym) : option mat3 := option_map rot (get_rotation_matrix ms).
Lemma seitz_matrix_rot ms m : seitz_matrix ms = Some m ->
  exists P, proper_rot ms = Some P /\ rot m = if ms_minus ms then mopp P else P.
Proof.
  unfold seitz_matrix, proper_rot. destruct (get_rotation_matrix ms) as [r |] eqn:G; [| discriminate].
  destruct (set_transform ms r) as [v |] eqn:T; [| discriminate]. intros H. injection H as <-.
  exists (rot r). split; [reflexivity |].
  assert (rot v = rot r) as Ev.
  { unfold set_transform in T. destruct (ms_fold ms), (ms_sub ms); try discriminate; try (injection T as <-; reflexivity);
      unfold axis_column in T; destruct (ms_axis ms); try discriminate; cbn in T; injection T as <-; reflexivity. }
  assert (rot (set_translation_from_symbols ms v) = rot r) as Ew.
  { unfold set_translation_from_symbols. destruct (ms_trs ms); exact Ev. }
  destruct (ms_minus ms); [| assumption]. unfold set_inversion. cbn [rot]. rewrite Ew.
  rewrite mmul_mopp_l, mmul_I_l. reflexivity.
Qed.

(** ** Metrics *)
Definition axis_metric (a : rot_axis) (c : Z) : mat3 :=
  match a with
  | AxX => M3 c 0 0 0 2 (-1) 0 (-1) 2
  | AxY => M3 2 0 (-1) 0 c 0 (-1) 0 2
  | _ => M3 2 (-1) 0 (-1) 2 0 0 0 c
  end.
Definition axis_rotation (a : rot_axis) (R : mat3) : Prop := forall c, preserves (axis_metric a c) R.
Lemma axis_unit a R : axis_rotation a R -> unit_matrix R.
Proof.
  intros H. pose proof (H 0) as H0. pose proof (H 1) as H1. clear H. unfold preserves in *.
  destruct R as [p q r d e f g h i]. unfold mmul, transposed, unit_matrix in *.
  destruct a; unfold axis_metric in *; cbn [m11 m12 m13 m21 m22 m23 m31 m32 m33] in *;
  pose proof (f_equal m11 H0) as A0; pose proof (f_equal m22 H0) as B0; pose proof (f_equal m33 H0) as C0;
  pose proof (f_equal m11 H1) as A1; pose proof (f_equal m22 H1) as B1; pose proof (f_equal m33 H1) as C1;
  cbn [m11 m12 m13 m21 m22 m23 m31 m32 m33] in *; clear H0 H1;
  assert (Q : forall x, x * x = 0 \/ x * x = 1 -> -1 <= x <= 1) by (intros; nia).
  - pose proof (hex_norm p d 2 ltac:(lia) ltac:(lia)). pose proof (hex_norm q e 2 ltac:(lia) ltac:(lia)).
    pose proof (hex_norm r f 0 ltac:(lia) ltac:(lia)).
    pose proof (Q g ltac:(lia)). pose proof (Q h ltac:(lia)). pose proof (Q i ltac:(lia)). tauto.
  - pose proof (hex_norm d g 0 ltac:(lia) ltac:(lia)). pose proof (hex_norm e h 2 ltac:(lia) ltac:(lia)).
    pose proof (hex_norm f i 2 ltac:(lia) ltac:(lia)).
    pose proof (Q p ltac:(lia)). pose proof (Q q ltac:(lia)). pose proof (Q r ltac:(lia)). tauto.
  - pose proof (hex_norm p g 2 ltac:(lia) ltac:(lia)). pose proof (hex_norm q h 0 ltac:(lia) ltac:(lia)).
    pose proof (hex_norm r i 2 ltac:(lia) ltac:(lia)).
    pose proof (Q d ltac:(lia)). pose proof (Q e ltac:(lia)). pose proof (Q f ltac:(lia)). tauto.
  - pose proof (hex_norm p d 2 ltac:(lia) ltac:(lia)). pose proof (hex_norm q e 2 ltac:(lia) ltac:(lia)).
    pose proof (hex_norm r f 0 ltac:(lia) ltac:(lia)).
    pose proof (Q g ltac:(lia)). pose proof (Q h ltac:(lia)). pose proof (Q i ltac:(lia)). tauto.
Qed.
Lemma preserves_mopp G R : preserves G R -> preserves G (mopp R).
Proof.
  unfold preserves. intros H.
  assert (transposed (mopp R) = mopp (transposed R)) as -> by (destruct R; reflexivity).
  now rewrite !mmul_mopp_l, mmul_mopp_r, mopp_mopp.
Qed.
Lemma preserves_I G : preserves G I3.
Proof. unfold preserves. change (transposed I3) with I3. now rewrite mmul_I_l, mmul_I_r. Qed.
Lemma preserves_inverse G A B : preserves G A -> mmul A B = I3 -> preserves G B.
Proof.
  unfold preserves. intros H E.
  assert (ET : mmul (transposed B) (transposed A) = I3).
  { transitivity (transposed (mmul A B)); [unfold transposed; mat_ring | now rewrite E]. }
  rewrite <- H at 1. rewrite !mmul_assoc, ET, mmul_I_l. now rewrite <- mmul_assoc, E, mmul_I_r.
Qed.
Lemma cubic_kind_preserves ms P : cubic_kind ms -> proper_rot ms = Some P -> cubic_rotation P.
Proof.
  unfold cubic_kind, proper_rot, get_rotation_matrix, cubic_rotation.
  destruct (ms_fold ms), (ms_diag ms), (ms_axis ms); intros K E; try contradiction K; try discriminate E;
    cbn in E; injection E as <-; reflexivity.
Qed.
Lemma axis_metric_comb a c : axis_metric a c = madd (mscale (1 - c) (axis_metric a 0)) (mscale c (axis_metric a 1)).
Proof. destruct a; unfold axis_metric; mat_ring. Qed.
Lemma hexagonal_kind_preserves a ms P : hexagonal_kind a ms -> proper_rot ms = Some P -> axis_rotation a P.
Proof.
  unfold hexagonal_kind, proper_rot, get_rotation_matrix, axis_rotation.
  destruct (ms_fold ms), (ms_diag ms); intros K E c; try contradiction K; try discriminate E;
    try (injection E as <-; apply preserves_I);
    rewrite axis_metric_comb; apply preserves_comb;
    subst a; destruct (ms_axis ms); try discriminate E; cbn in E; injection E as <-; reflexivity.
Qed.
(** all operations of the group preserve what the generators preserve *)
Lemma group_preserves h G : (forall ms P, In ms (h_syms h) -> proper_rot ms = Some P -> preserves G P) ->
  forall o, hall_group h o -> preserves G (fst o).
Proof.
  intros H o Ho. induction Ho as [| g Hg | a b Ga IHa Gb IHb | a b Ga IHa E | a b Ga IHa E].
  - apply preserves_I.
  - destruct Hg as [(v & _ & ->) | [(_ & ->) | (ms & m & I & S & ->)]].
    + apply preserves_I. + cbn [fst]. apply preserves_mopp, preserves_I.
    + cbn [op_conj op_comp op_shift op_of fst snd]. rewrite mmul_I_l, mmul_I_r.
      destruct (seitz_matrix_rot ms m S) as (P & EP & ->). pose proof (H ms P I EP) as HP.
      destruct (ms_minus ms); [now apply preserves_mopp | assumption].
  - cbn [op_comp fst]. now apply preserves_mul.
  - apply (preserves_inverse G (fst a)); [assumption |]. exact (f_equal fst E).
  - destruct E as [<- _]. assumption.
Qed.
Lemma compatible_finite h : compatible (h_syms h) -> finite_point_group h.
Proof.
  intros [H | (a & H)]; exists unit_matrices; intros R t G; apply unit_matrices_in.
  - apply cubic_unit. apply (group_preserves h I3) in G; [exact G |].
    intros ms P I E. apply (cubic_kind_preserves ms); auto.
  - apply (axis_unit a). intros c. apply (group_preserves h (axis_metric a c)) in G; [exact G |].
    intros ms P I E. apply (hexagonal_kind_preserves a ms); auto.
Qed.

(** ** Incompatible pairs generate an element of infinite order *)
Definition infinite_cert (M : mat3) : bool :=
  let D := mmul M M in
  ((mdet M =? 1) || (mdet M =? -1)) &&
  ((mtrace D <? -1) || (3 <? mtrace D) || ((mtrace D =? 3) && negb (meqb D I3))).
Lemma infinite_cert_sound M : infinite_cert M = true -> unimodular M /\ ~ finite_order M.
Proof.
  unfold infinite_cert. cbv zeta. rewrite andb_true_iff, !orb_true_iff, andb_true_iff, negb_true_iff, !Z.eqb_eq, !Z.ltb_lt.
  intros [U T]. split; [exact U |]. intros (n & Hn & E).
  assert (F : finite_order (mmul M M)).
  { exists n. split; [assumption |].
    assert (mmul M M = mpow M 2) as -> by (cbn [mpow]; now rewrite mmul_I_r).
    rewrite <- mpow_times, Nat.mul_comm, mpow_times, E. apply mpow_I. }
  assert (D : mdet (mmul M M) = 1) by (rewrite mdet_mmul; destruct U as [-> | ->]; reflexivity).
  destruct (order_classified _ F D) as [R (_ & O & _)].
  destruct T as [[T | T] | [T N]]; [lia | lia |]. rewrite T in O. cbn in O. rewrite mmul_I_r in O.
  rewrite O, meqb_refl in N. discriminate.
Qed.
(** words in two letters, up to length [n] *)
Fixpoint words (n : nat) (A B : mat3) : list mat3 :=
  match n with
  | O => [I3]
  | S k => let w := words k A B in w ++ map (mmul A) w ++ map (mmul B) w
  end.
Definition pair_infinite (A B : mat3) : bool := if existsb infinite_cert (words 4 A B) then true else existsb infinite_cert (words 7 A B).
Definition signed (b : bool) (P : mat3) : mat3 := if b then mopp P else P.
Definition axes := [AxOmitted; AxX; AxY; AxZ].
Definition folds := [FInvalid; F1; F2; F3; F4; F6].
Definition diags := [DiagNone; SingleQuote; DoubleQuote; Asterisk].
Definition shapes : list (nfold * nfold_diag * rot_axis) :=
  flat_map (fun f => flat_map (fun d => map (fun a => (f, d, a)) axes) diags) folds.
Definition shape (ms : msym) := (ms_fold ms, ms_diag ms, ms_axis ms).
Lemma shapes_in ms : In (shape ms) shapes.
Proof.
  destruct ms as [mi f su d a tr]. unfold shape, shapes. cbn [ms_fold ms_diag ms_axis].
  apply in_flat_map. exists f. split; [destruct f; cbn; tauto |].
  apply in_flat_map. exists d. split; [destruct d; cbn; tauto |].
  apply in_map. destruct a; cbn; tauto.
Qed.
Definition shape_sym (s : nfold * nfold_diag * rot_axis) : msym :=
  MS false (fst (fst s)) SubNone (snd (fst s)) (snd s) None.
Definition cubicb_kind (ms : msym) : bool :=
  match ms_fold ms, ms_diag ms with F1, _ | F2, _ | F4, _ | F3, Asterisk => true | _, _ => false end.
Definition axis_eqb (a b : rot_axis) : bool :=
  match a, b with AxOmitted, AxOmitted | AxX, AxX | AxY, AxY | AxZ, AxZ => true | _, _ => false end.
Definition hexb_kind (a : rot_axis) (ms : msym) : bool :=
  match ms_fold ms, ms_diag ms with
  | F1, _ => true | F2, _ | F6, _ | F3, DiagNone => axis_eqb (ms_axis ms) a | _, _ => false end.
Lemma axis_eqb_eq a b : axis_eqb a b = true <-> a = b.
Proof. destruct a, b; split; intros; congruence || reflexivity || discriminate. Qed.
Lemma cubicb_kind_spec ms : cubicb_kind ms = true <-> cubic_kind ms.
Proof. unfold cubicb_kind, cubic_kind. destruct (ms_fold ms), (ms_diag ms); split; auto; discriminate || contradiction. Qed.
Lemma hexb_kind_spec a ms : hexb_kind a ms = true <-> hexagonal_kind a ms.
Proof.
  unfold hexb_kind, hexagonal_kind. destruct (ms_fold ms), (ms_diag ms); rewrite ?axis_eqb_eq; split; auto; discriminate || contradiction.
Qed.
(** a non-cubic symbol and one that is not hexagonal about its axis *)
Definition bad_pair (s1 s2 : nfold * nfold_diag * rot_axis) : bool :=
  match proper_rot (shape_sym s1), proper_rot (shape_sym s2) with
  | Some A, Some B =>
      if negb (cubicb_kind (shape_sym s1)) && negb (hexb_kind (snd s1) (shape_sym s2)) then
        forallb (fun p => forallb (fun q => pair_infinite (signed p A) (signed q B)) [false; true]) [false; true]
      else true
  | _, _ => true
  end.
Lemma bad_pairs_ok : forallb (fun s1 => forallb (bad_pair s1) shapes) shapes = true.
Proof. vm_compute. reflexivity. Qed.
Lemma proper_rot_shape ms : proper_rot (shape_sym (shape ms)) = proper_rot ms.
Proof. destruct ms as [mi f su d a tr]. destruct f, d; reflexivity. Qed.
Lemma words_group h A B : (exists t, hall_group h (A, t)) -> (exists t, hall_group h (B, t)) ->
  forall n M, In M (words n A B) -> exists t, hall_group h (M, t).
Proof.
  intros (ta & HA) (tb & HB) n. induction n as [| n IH]; cbn [words]; cbv zeta; intros M H.
  - destruct H as [<- | []]. exists (V3 0 0 0). apply gen_one.
  - rewrite !in_app_iff, !in_map_iff in H. destruct H as [H | [(W & <- & H) | (W & <- & H)]]; [auto | |];
      destruct (IH W H) as (t & Ht); eexists.
    + exact (gen_comp _ _ _ HA Ht). + exact (gen_comp _ _ _ HB Ht).
Qed.
Lemma finite_group_order h M t : finite_point_group h -> unimodular M -> hall_group h (M, t) -> finite_order M.
Proof.
  intros (S & HS) U H. apply (finite_powers_order M S U).
  assert (K : forall n, exists u, hall_group h (mpow M n, u)).
  { induction n as [| n (u & Hu)]; [exists (V3 0 0 0); apply gen_one |]. eexists. exact (gen_comp _ _ _ H Hu). }
  intros n. destruct (K n) as (u & Hu). eauto.
Qed.
Lemma symbol_in_group h ms m : In ms (h_syms h) -> seitz_matrix ms = Some m -> exists t, hall_group h (rot m, t).
Proof.
  intros I S. eexists. pose proof (gen_base (hall_gens h) (op_conj (h_shift h) (op_of m))) as H.
  unfold op_conj, op_comp, op_shift, op_of in H. cbn [fst snd] in H. rewrite mmul_I_l, mmul_I_r in H.
  apply H. right; right. exists ms, m. split; [assumption | split; [assumption |]].
  unfold op_conj, op_comp, op_shift, op_of. cbn [fst snd]. now rewrite mmul_I_l, mmul_I_r.
Qed.
Lemma existsb_words_infinite h A B : finite_point_group h ->
  (exists t, hall_group h (A, t)) -> (exists t, hall_group h (B, t)) -> pair_infinite A B = false.
Proof.
  intros F HA HB. destruct (pair_infinite A B) eqn:E; [| reflexivity]. exfalso. unfold pair_infinite in E.
  assert (K : exists n, existsb infinite_cert (words n A B) = true).
  { destruct (existsb infinite_cert (words 4 A B)) eqn:E4; eauto. }
  destruct K as (n & K). apply existsb_exists in K. destruct K as (M & I & C). destruct (infinite_cert_sound M C) as [U N].
  destruct (words_group h A B HA HB n M I) as (t & Ht). apply N. exact (finite_group_order h M t F U Ht).
Qed.
Theorem C29_finite_iff_compatible :
  forall h, all_symbols_valid h -> (finite_point_group h <-> compatible (h_syms h)).
Proof.
  intros h V. split; [| apply compatible_finite].
  intros F. destruct (forallb cubicb_kind (h_syms h)) eqn:C.
  { left. intros ms I. apply cubicb_kind_spec. exact (proj1 (forallb_forall _ _) C ms I). }
  assert (exists s1, In s1 (h_syms h) /\ cubicb_kind s1 = false) as (s1 & I1 & C1).
  { destruct (existsb (fun s => negb (cubicb_kind s)) (h_syms h)) eqn:X.
    - apply existsb_exists in X. destruct X as (s & I & N). exists s. split; [assumption | now apply negb_true_iff].
    - exfalso. apply not_true_iff_false in C. apply C. apply forallb_forall. intros s I.
      destruct (cubicb_kind s) eqn:K; [reflexivity |]. exfalso. apply not_true_iff_false in X. apply X.
      apply existsb_exists. exists s. rewrite K. auto. }
  right. exists (ms_axis s1). intros s2 I2. apply hexb_kind_spec.
  destruct (hexb_kind (ms_axis s1) s2) eqn:K; [reflexivity |]. exfalso.
  destruct (seitz_matrix s1) as [m1 |] eqn:S1; [| exact (V s1 I1 S1)].
  destruct (seitz_matrix s2) as [m2 |] eqn:S2; [| exact (V s2 I2 S2)].
  destruct (seitz_matrix_rot s1 m1 S1) as (P1 & E1 & R1), (seitz_matrix_rot s2 m2 S2) as (P2 & E2 & R2).
  pose proof bad_pairs_ok as BP. rewrite forallb_forall in BP. specialize (BP (shape s1) (shapes_in s1)).
  rewrite forallb_forall in BP. specialize (BP (shape s2) (shapes_in s2)).
  unfold bad_pair in BP. rewrite !proper_rot_shape, E1, E2 in BP.
  assert (cubicb_kind (shape_sym (shape s1)) = false) as Q1 by (destruct s1; exact C1).
  assert (hexb_kind (snd (shape s1)) (shape_sym (shape s2)) = false) as Q2 by (destruct s1, s2; exact K).
  rewrite Q1, Q2 in BP. cbn [negb andb] in BP.
  rewrite forallb_forall in BP. specialize (BP (ms_minus s1) ltac:(destruct (ms_minus s1); cbn; auto)).
  rewrite forallb_forall in BP. specialize (BP (ms_minus s2) ltac:(destruct (ms_minus s2); cbn; auto)).
  unfold signed in BP. rewrite <- R1, <- R2 in BP.
  rewrite (existsb_words_infinite h (rot m1) (rot m2)) in BP;
    [discriminate | assumption | exact (symbol_in_group h s1 m1 I1 S1) | exact (symbol_in_group h s2 m2 I2 S2)].
Qed.
(** so termination can be read off the symbols *)
Theorem C29_terminates_iff_compatible :
  forall h, all_symbols_valid h -> buffer_fits h ->
    ((exists fuel, general_positions fuel h <> OutOfFuel) <-> compatible (h_syms h)).
Proof. intros h V B. rewrite (C29_terminates_iff_finite h V B). now apply C29_finite_iff_compatible. Qed.
(** P 4 3 is accepted by the parser and never terminates *)
Definition hall_p43 : hall :=
  Hall (LS false LP) [MS false F4 SubNone DiagNone AxZ None; MS false F3 SubNone DiagNone AxZ None] (V3 0 0 0).
Theorem C29_a_symbol_that_never_terminates :
  exists h, try_from_str "P 4 3" = Done (Some h) /\ all_symbols_valid h /\ buffer_fits h /\
    forall fuel, general_positions fuel h = OutOfFuel.
Proof.
  exists hall_p43. split; [vm_compute; reflexivity |].
  assert (V : all_symbols_valid hall_p43).
  { intros ms H. unfold hall_p43 in H. cbn [h_syms] in H. destruct H as [<- | [<- | []]]; vm_compute; discriminate. }
  assert (B : buffer_fits hall_p43) by (unfold buffer_fits; vm_compute; discriminate).
  split; [assumption | split; [assumption |]].
  assert (N : ~ compatible (h_syms hall_p43)).
  { unfold hall_p43. cbn [h_syms]. intros [C | (a & C)];
    [exact (C _ (or_intror (or_introl eq_refl))) | exact (C _ (or_introl eq_refl))]. }
  intros fuel. destruct (general_positions fuel hall_p43) eqn:G; [exfalso | exfalso | reflexivity];
    apply N, (C29_terminates_iff_compatible hall_p43 V B); exists fuel; rewrite G; discriminate.
Qed.
Example C29_compatible_case :
  (exists h, try_from_str "-P 4n 2a 3*" = Done (Some h) /\ compatible (h_syms h)) /\
  (exists k, try_from_str "P 61 2 (0 0 5)" = Done (Some k) /\ compatible (h_syms k)).
Proof.
  split.
  - exists (Hall (LS true LP) [MS false F4 SubNone DiagNone AxZ (Some [TN]);
      MS false F2 SubNone DiagNone AxX (Some [TA]); MS false F3 SubNone Asterisk AxOmitted None] (V3 0 0 0)).
    split; [vm_compute; reflexivity |]. left. cbn [h_syms].
    intros ms [<- | [<- | [<- | []]]]; exact I.
  - exists (Hall (LS false LP) [MS false F6 Sub1 DiagNone AxZ None; MS false F2 SubNone SingleQuote AxZ None] (V3 0 0 5)).
    split; [vm_compute; reflexivity |]. right. exists AxZ. cbn [h_syms].
    intros ms [<- | [<- | []]]; reflexivity.
Qed.
