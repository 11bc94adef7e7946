(** * PropComplete: property C70: how to tell from the result whether it is the whole group. *)
From Verif Require Import Base Notations Parser Seitz F64 Jones Rotations Tables Generate Positions
  Spec SpecHall SpecXyz SpecOrbit Algebra PropSeitz PropSymbols GenFacts PropGenerate GroupCheck
  PropFullSets PropOrder PropOrbit PropPeriod.
Open Scope Z_scope.
Local Notation length := List.length.

(** [m] is listed up to whole cells *)
Definition covers (g : gpos) (o : op) : Prop := exists m, listed g m /\ op_same (op_of m) o.
(** the listed operations are the whole group exactly when they are closed under multiplication
    and every operation written in the symbol is among them *)
Theorem C70_complete_iff_closed :
  forall fuel h g, general_positions fuel h = Done g ->
    ((forall o, hall_group h o -> covers g o) <->
     (forall a b, listed g a -> listed g b -> exists c, listed g c /\ sz_eqb (sz_mul a b) c = true) /\
     (forall o, hall_gens h o -> covers g o)).
Proof.
  intros fuel h g H.
  assert (Mul : forall a b, is_affine a -> is_affine b -> op_same (op_of (sz_mul a b)) (op_comp (op_of a) (op_of b))).
  { intros a b A B. rewrite (affine_aff a A), (affine_aff b B), sz_mul_aff. split; [reflexivity |]. cbn [op_of tra aff snd op_comp fst rot]. apply vcong12_rem. }
  split.
  - intros K. split; [| intros o G; apply K, gen_base, G].
    intros a b La Lb. destruct (listed_group _ _ _ _ H La) as [A Ga]. destruct (listed_group _ _ _ _ H Lb) as [B Gb].
    destruct (K _ (gen_comp _ _ _ Ga Gb)) as (c & Lc & E). exists c. split; [exact Lc |]. apply sz_eqb_op.
    eapply op_same_trans; [apply Mul; assumption |]. apply op_same_sym, E.
  - intros (C & Gen).
    assert (CC : forall a b, covers g a -> covers g b -> covers g (op_comp a b)).
    { intros a b (x & Lx & Ex) (y & Ly & Ey). destruct (C x y Lx Ly) as (z & Lz & Ez). exists z. split; [exact Lz |].
      destruct (listed_group _ _ _ _ H Lx) as [Ax _]. destruct (listed_group _ _ _ _ H Ly) as [Ay _].
      apply sz_eqb_op in Ez. eapply op_same_trans; [apply op_same_sym, Ez |].
      eapply op_same_trans; [apply Mul; assumption |]. apply op_same_comp; assumption. }
    assert (Cid : covers g op_id).
    { apply Gen. left. exists v0. split; [| reflexivity]. destruct (ls_char (h_lat h)); left; reflexivity. }
    assert (CP : forall a n, covers g a -> covers g (op_pow a n)).
    { intros a n K. induction n as [| n IH]; [exact Cid |]. cbn [op_pow]. apply CC; assumption. }
    intros o G. induction G as [| o Go | a b Ga IHa Gb IHb | a b Ga IHa E | a b Ga IHa E].
    + exact Cid.
    + apply Gen, Go.
    + apply CC; assumption.
    + destruct (CP a 143%nat IHa) as (m & Lm & Em). exists m. split; [exact Lm |].
      eapply op_same_trans; [exact Em |].
      destruct IHa as (x & Lx & Ex). apply listed_all in Lx. destruct (listed_144 _ _ _ _ H Lx) as [_ P].
      assert (Pa : op_same (op_pow a 144) op_id).
      { eapply op_same_trans; [apply op_same_pow, op_same_sym, Ex | exact P]. }
      (* a^143 = a^143 (a b) = a^144 b = b *)
      rewrite <- (op_comp_id_r (op_pow a 143)), <- E, op_comp_assoc.
      replace (op_comp (op_pow a 143) a) with (op_pow a 144) by apply op_pow_comm.
      rewrite <- (op_comp_id_l b) at 2. apply op_same_comp; [exact Pa | apply op_same_refl].
    + destruct IHa as (m & Lm & Em). exists m. split; [exact Lm | eapply op_same_trans; eauto].
Qed.
(** being closed is not enough: for P 4a 4b four operations are listed; they are closed under
    multiplication and inverses, but the second symbol's operation is missing *)
Definition closed_listing (g : gpos) : bool :=
  forallb (fun a => forallb (fun b => existsb (sz_eqb (sz_mul a b)) (all_operations g)) (all_operations g)) (all_operations g).
Lemma closed_listing_spec g : closed_listing g = true ->
  forall a b, listed g a -> listed g b -> exists c, listed g c /\ sz_eqb (sz_mul a b) c = true.
Proof.
  intros H a b A B. apply listed_all in A, B. unfold closed_listing in H. rewrite forallb_forall in H. specialize (H a A).
  rewrite forallb_forall in H. specialize (H b B). apply existsb_exists in H. destruct H as (c & C & E). exists c. split; [now apply listed_all | exact E].
Qed.
Definition sym_4a : msym := MS false F4 SubNone DiagNone AxZ (Some [TA]).
Definition sym_4b : msym := MS false F4 SubNone DiagNone AxZ (Some [TB]).
Definition hall_4a4b : hall := Hall (LS false LP) [sym_4a; sym_4b] v0.
Definition op_4b : seitz := aff (M3 0 (-1) 0 1 0 0 0 0 1) (V3 0 6 0).
Theorem C70_closed_not_enough :
  exists h g ms m, try_from_str "P 4a 4b" = Done (Some h) /\ (forall fuel, (10 <= fuel)%nat -> general_positions fuel h = Done g) /\
    (forall a b, listed g a -> listed g b -> exists c, listed g c /\ sz_eqb (sz_mul a b) c = true) /\
    In ms (h_syms h) /\ seitz_matrix ms = Some m /\ hall_group h (op_of m) /\ ~ covers g (op_of m).
Proof.
  assert (Q : try_from_str "P 4a 4b" = Done (Some hall_4a4b)) by (vm_compute; reflexivity).
  assert (M : seitz_matrix sym_4b = Some op_4b) by (vm_compute; reflexivity).
  assert (C : match general_positions 10 hall_4a4b with
              | Done g => closed_listing g && negb (existsb (sz_eqb op_4b) (all_operations g))
              | _ => false end = true) by (vm_cast_no_check (@eq_refl bool true)).
  destruct (general_positions 10 hall_4a4b) as [g | w |] eqn:E; try discriminate C.
  apply andb_true_iff in C. destruct C as [C N]. exists hall_4a4b, g, sym_4b, op_4b.
  split; [exact Q |]. split; [intros fuel L; rewrite (C29_fuel_irrelevant 10 fuel hall_4a4b); [exact E | rewrite E; discriminate | exact L] |].
  split; [apply closed_listing_spec, C |]. split; [right; left; reflexivity |]. split; [exact M |].
  split.
  - apply gen_base. right. right. exists sym_4b, op_4b. split; [right; left; reflexivity |]. split; [exact M | vm_compute; reflexivity].
  - intros (m & Lm & Em). apply listed_all in Lm. apply negb_true_iff in N.
    assert (T : existsb (sz_eqb op_4b) (all_operations g) = true).
    { apply existsb_exists. exists m. split; [exact Lm |]. apply sz_eqb_op, op_same_sym, Em. }
    rewrite T in N. discriminate N.
Qed.
(** both sides of the criterion hold of I 4bd 2c 3 (I4(1)32), where nothing is missing *)
Example C70_case : exists h g, try_from_str "I 4bd 2c 3" = Done (Some h) /\ general_positions 10 h = Done g /\
  (forall o, hall_group h o -> covers g o) /\
  (forall a b, listed g a -> listed g b -> exists c, listed g c /\ sz_eqb (sz_mul a b) c = true) /\
  (forall o, hall_gens h o -> covers g o).
Proof.
  destruct (case_spec "I 4bd 2c 3" 24) as (h & g & E & G & T & _); [vm_compute; reflexivity |].
  exists h, g. split; [exact E |]. split; [exact G |].
  assert (K : forall o, hall_group h o -> covers g o).
  { intros o O. destruct (proj1 (C26_full_sets_complete _ _ _ G T o) O) as (s & m & Hs & Hm & Em). exists m. split; [exists s; auto | exact Em]. }
  split; [exact K |]. apply (C70_complete_iff_closed _ _ _ G). exact K.
Qed.
(** neither side holds of A 4: its listing is not closed *)
Theorem C70_not_closed_occurs :
  exists h g, try_from_str "A 4" = Done (Some h) /\ (forall fuel, (10 <= fuel)%nat -> general_positions fuel h = Done g) /\
    exists a b, listed g a /\ listed g b /\ forall c, listed g c -> sz_eqb (sz_mul a b) c = false.
Proof.
  assert (K : match try_from_str "A 4" with Done (Some h) => match general_positions 10 h with
    | Done g => existsb (fun a => existsb (fun b => forallb (fun c => negb (sz_eqb (sz_mul a b) c)) (all_operations g)) (all_operations g)) (all_operations g)
    | _ => false end | _ => false end = true) by (vm_cast_no_check (@eq_refl bool true)).
  destruct (try_from_str "A 4") as [[h |] | |]; try discriminate K.
  destruct (general_positions 10 h) as [g | w |] eqn:E; try discriminate K.
  exists h, g. split; [reflexivity |]. split; [intros fuel L; rewrite (C29_fuel_irrelevant 10 fuel h); [exact E | rewrite E; discriminate | exact L] |].
  apply existsb_exists in K. destruct K as (a & Ia & K). apply existsb_exists in K. destruct K as (b & Ib & K).
  rewrite forallb_forall in K. exists a, b. split; [now apply listed_all |]. split; [now apply listed_all |].
  intros c Lc. apply listed_all in Lc. apply negb_true_iff, K, Lc.
Qed.
(** the condition under which the other theorems promise a complete result can be read off the
    result: no extra translations exactly when the list is closed, covers the written operations
    and has each rotation part once *)
Theorem C70_no_extra_translations_iff :
  forall fuel h g, general_positions fuel h = Done g ->
    (no_extra_translations h <->
     NoDup (map rot (gp_core g)) /\
     (forall a b, listed g a -> listed g b -> exists c, listed g c /\ sz_eqb (sz_mul a b) c = true) /\
     (forall o, hall_gens h o -> covers g o)).
Proof.
  intros fuel h g H. split.
  - intros T. split; [apply (C27_one_position_per_rotation _ _ _ H T) |]. apply (C70_complete_iff_closed _ _ _ H).
    intros o O. destruct (group_listed _ _ _ o H T O) as (m & L & E). exists m. auto.
  - intros (N & K0). pose proof (proj2 (C70_complete_iff_closed _ _ _ H) K0) as K. intros t G.
    destruct (K _ G) as (m & (s & Hs & Hm) & [E1 E2]). cbn [op_of fst snd] in E1, E2.
    apply In_nth_error in Hs. destruct Hs as (i & Hs). apply In_nth_error in Hm. destruct Hm as (k & Hm).
    destruct (proj2 (C33_one_set_per_centring_vector _ _ _ H) i s Hs) as (_ & v & Hv & Q).
    destruct (Q k m Hm) as (c & Hc & _ & [R1 R2]). cbn [op_of op_comp fst snd] in R1, R2.
    assert (Rc : rot c = I3). { rewrite <- E1, R1. symmetry. apply mmul_I_l. }
    pose proof (C28_identity_first _ _ _ H) as I0.
    assert (k = 0%nat).
    { apply (proj1 (NoDup_nth_error _) N).
      - rewrite map_length. apply nth_error_Some. congruence.
      - rewrite !nth_error_map, Hc, I0. cbn [option_map]. now rewrite Rc. }
    subst k. assert (c = sz_identity) by congruence. subst c.
    exists v. split; [exact (nth_error_In _ _ Hv) |].
    eapply vcong12_trans; [apply vcong12_sym, E2 |]. eapply vcong12_trans; [exact R2 |].
    replace (vadd (mvmul I3 (tra sz_identity)) v) with v; [apply vcong12_refl |].
    destruct v as [v1 v2 v3]. unfold mvmul, vadd, I3. cbn. f_equal; lia.
Qed.
