(** * PropKind: properties C87 and C88: what the type of a result says about it, and which
    rewritings of a symbol keep the type. *)
From Coq Require Import QArith Permutation.
From Verif Require Import Base Notations Parser Seitz F64 Jones Rotations Tables Lookup Generate Positions
  Spec SpecHall SpecXyz SpecCompat SpecOutcome SpecTables SpecRotation SpecCanon SpecOrbit SpecSite SpecFamily SpecType SpecKind SpecRelabel
  Algebra PropSeitz PropSymbols PropRotation GenFacts
  PropGenerate GroupCheck PropFullSets PropTables PropTableGroups PropJones TypeFacts TypeCount PropTypes PropShift
  Restriction PropTermination PropCanon PropOutcome Subgroups PropClass PropOrbit PropSubgroup PropSite PropPeriod PropFamily PropRelabel PropOneType.
Open Scope Z_scope.
Local Notation length := List.length.

(** ** Support *)
Lemma conjugate_trace M R S' : mdet M <> 0 -> mmul M R = mmul S' M -> mdet R = mdet S' /\ mtrace R = mtrace S'.
Proof.
  intros N E. split.
  - assert (D := f_equal mdet E). rewrite !mdet_mmul in D. nia.
  - assert (T := f_equal (fun X => mtrace (mmul X (madj M))) E). cbv beta in T.
    rewrite <- (mmul_assoc S' M), (madj_r M) in T.
    assert (A : mtrace (mmul (mmul M R) (madj M)) = mdet M * mtrace R).
    { rewrite <- mmul_assoc, mtrace_comm, <- mmul_assoc, (madj_l M).
      destruct R as [a b c d e f g i j]. unfold mmul, mscale, mtrace, mmap, I3. cbn [m11 m12 m13 m21 m22 m23 m31 m32 m33]. ring. }
    rewrite A in T.
    assert (B : mtrace (mmul S' (mscale (mdet M) I3)) = mdet M * mtrace S').
    { destruct S' as [a b c d e f g i j]. unfold mmul, mscale, mtrace, mmap, I3. cbn [m11 m12 m13 m21 m22 m23 m31 m32 m33]. ring. }
    rewrite B in T. nia.
Qed.
Lemma matched_length {A B} (rel : A -> B -> Prop) X Y : matched rel X Y -> length X = length Y.
Proof.
  intros (L & P & F). rewrite <- (Permutation_length P). clear P. induction F; cbn [List.length]; congruence.
Qed.
Lemma image_qsame f p p' : qsame p p' -> qsame (image f p) (image f p').
Proof.
  destruct f as [M q d], p as [x y z], p' as [x' y' z']. unfold qsame, image, divide, move, qdot. cbn [qx qy qz ch_M ch_q ch_d].
  intros (-> & -> & ->). repeat split; reflexivity.
Qed.
Section Related.
Variables (f1 f2 : nat) (h1 h2 : hall) (g1 g2 : gpos) (f : change).
Hypothesis H1 : general_positions f1 h1 = Done g1.
Hypothesis H2 : general_positions f2 h2 = Done g2.
Hypothesis If : invertible f.
Hypothesis Tf : turns_into f (hall_group h1) (hall_group h2).
Definition linked (R S' : mat3) : Prop := mmul (ch_M f) R = mmul S' (ch_M f).
Lemma linked_fwd m : In m (gp_core g1) -> exists n, In n (gp_core g2) /\ linked (rot m) (rot n).
Proof.
  intros I. destruct (C25_positions_sound _ _ _ H1 m I) as [_ G]. destruct Tf as [T _]. destruct (T _ G) as (o' & G' & C).
  destruct If as [P _]. apply (carries_iff f _ _ P) in C. destruct C as [C _].
  destruct (rotations_complete _ _ _ H2 _ G') as (n & In2 & E). exists n. split; [exact In2 |]. unfold linked. rewrite E. exact C.
Qed.
Lemma linked_bwd n : In n (gp_core g2) -> exists m, In m (gp_core g1) /\ linked (rot m) (rot n).
Proof.
  intros I. destruct (C25_positions_sound _ _ _ H2 n I) as [_ G]. destruct Tf as [_ T]. destruct (T _ G) as (o & G' & C).
  destruct If as [P _]. apply (carries_iff f _ _ P) in C. destruct C as [C _].
  destruct (rotations_complete _ _ _ H1 _ G') as (m & Im & E). exists m. split; [exact Im |]. unfold linked. rewrite E. exact C.
Qed.
Lemma linked_same R S' : linked R S' -> mdet R = mdet S' /\ mtrace R = mtrace S'.
Proof. apply conjugate_trace, If. Qed.
Lemma linked_census rs1 rs2 : NoDup rs1 -> NoDup rs2 ->
  (forall R, In R rs1 <-> exists m, In m (gp_core g1) /\ rot m = R) ->
  (forall R, In R rs2 <-> exists m, In m (gp_core g2) /\ rot m = R) -> census_of rs1 = census_of rs2.
Proof.
  intros N1 N2 K1 K2.
  assert (M : matched linked rs1 rs2).
  { apply matched_intro; [exact N1 | exact N2 | | | |].
    - intros R I. apply K1 in I. destruct I as (m & Im & <-). destruct (linked_fwd m Im) as (n & In2 & L). exists (rot n). split; [apply K2; eauto | exact L].
    - intros R I. apply K2 in I. destruct I as (n & In2 & <-). destruct (linked_bwd n In2) as (m & Im & L). exists (rot m). split; [apply K1; eauto | exact L].
    - intros x x' y _ _ _ A B. unfold linked in A, B. apply (mmul_inj_l (ch_M f)); [apply If | congruence].
    - intros x y y' _ _ _ A B. unfold linked in A, B. apply (mmul_inj_r (ch_M f)); [apply If | congruence]. }
  unfold census_of. apply map_ext. intros k. unfold count_kind.
  apply (matched_length linked). apply matched_filter; [exact M |]. intros x y _ _ L. destruct (linked_same _ _ L) as [-> ->]. reflexivity.
Qed.
Lemma linked_type m n : In m (gp_core g1) -> In n (gp_core g2) -> linked (rot m) (rot n) -> rotation_type m = rotation_type n.
Proof.
  intros I J L. destruct (core_unit _ _ _ _ H1 I) as [A U], (core_unit _ _ _ _ H2 J) as [A' U'].
  rewrite (type_unit m A U), (type_unit n A' U'). unfold type_z. destruct (linked_same _ _ L) as [-> ->]. reflexivity.
Qed.
Lemma linked_polar : (exists v, v <> V3 0 0 0 /\ forall m, In m (gp_core g1) -> mvmul (rot m) v = v) ->
  exists v, v <> V3 0 0 0 /\ forall n, In n (gp_core g2) -> mvmul (rot n) v = v.
Proof.
  intros (v & N & K). exists (mvmul (ch_M f) v). split.
  - intros E. apply N. apply (mvmul_inj (ch_M f)); [apply If |]. rewrite E. destruct (ch_M f). unfold mvmul. cbn. f_equal; ring.
  - intros n J. destruct (linked_bwd n J) as (m & I & L). unfold linked in L.
    rewrite <- mvmul_mmul, <- L, mvmul_mmul, (K m I). reflexivity.
Qed.
Lemma image_fixed o o' p : carries f o o' -> qsame (move o p) p -> qsame (move o' (image f p)) (image f p).
Proof.
  intros C F. destruct (C p) as (X' & Y' & W').
  destruct (image_qsame f _ _ F) as (X2 & Y2 & W2).
  split; [rewrite <- X', X2; reflexivity |]. split; [rewrite <- Y', Y2; reflexivity | rewrite <- W', W2; reflexivity].
Qed.
Lemma linked_full : has_full_site h1 -> has_full_site h2.
Proof.
  intros (p & K). exists (image f p). intros S' u G. destruct Tf as [T1 T2]. destruct (T2 _ G) as ([R t] & G1 & C).
  destruct (K R t G1) as (t' & G' & F). destruct (T1 _ G') as ([S2 u'] & G2 & C').
  assert (E : S2 = S').
  { destruct If as [P D]. apply (carries_iff f _ _ P) in C, C'. destruct C as [C _], C' as [C' _]. cbn [fst] in C, C'.
    apply (mmul_inj_r (ch_M f)); [exact D | congruence]. }
  subst S2. exists u'. split; [exact G2 |]. exact (image_fixed _ _ _ C' F).
Qed.
Lemma linked_free : fixes_no_point h2 -> fixes_no_point h1.
Proof.
  intros K p R t G F. destruct Tf as [T1 _]. destruct (T1 _ G) as ([S' u] & G2 & C).
  assert (E : S' = I3) by exact (K _ _ _ G2 (image_fixed _ _ _ C F)). subst S'.
  destruct If as [P D]. apply (carries_iff f _ _ P) in C. destruct C as [C _]. cbn [fst] in C. rewrite mmul_I_l in C.
  apply (mmul_inj_l (ch_M f)); [exact D |]. rewrite C, mmul_I_r. reflexivity.
Qed.
End Related.

(** ** Site symmetry in terms of the group *)
Lemma exact_fix R t p : cells_apart (act_op (R, t) p) p -> exists t', vcong12 t t' /\ qsame (move (R, t') p) p.
Proof.
  intros (i & j & k & X & Y & W). exists (V3 (vx t - 12 * i) (vy t - 12 * j) (vz t - 12 * k)). split.
  - unfold vcong12, cong12. cbn [vx vy vz]. split; [exists i; ring | split; [exists j; ring | exists k; ring]].
  - unfold act_op, act, aff in X, Y, W. cbn [fst snd rot tra qx qy qz] in X, Y, W.
    unfold move, qsame. cbn [qx qy qz vx vy vz].
    assert (Q : forall q a x n, ((q + inject_Z a / 12) - x == inject_Z n)%Q -> (q + inject_Z (a - 12 * n) / 12 == x)%Q).
    { intros q a x n E. unfold Z.sub. rewrite inject_Z_plus, inject_Z_opp, inject_Z_mult, <- E. change (inject_Z 12) with 12%Q. field. }
    split; [exact (Q _ _ _ _ X) | split; [exact (Q _ _ _ _ Y) | exact (Q _ _ _ _ W)]].
Qed.
Lemma fix_apart o p : qsame (move o p) p -> cells_apart (act_op o p) p.
Proof.
  destruct o as [R t]. intros (X & Y & W). exists 0, 0, 0. unfold move in X, Y, W. cbn [qx qy qz] in X, Y, W.
  unfold act_op, act, aff. cbn [fst snd rot tra qx qy qz]. rewrite X, Y, W.
  split; [unfold Qminus; rewrite Qplus_opp_r; reflexivity |]. split; unfold Qminus; rewrite Qplus_opp_r; reflexivity.
Qed.
Section Sites.
Variables (fuel : nat) (h : hall) (g : gpos).
Hypothesis H : general_positions fuel h = Done g.
Hypothesis T : no_extra_translations h.
Lemma site_rot_exact p R : In R (map rot (site_symmetry g p)) <-> exists t, hall_group h (R, t) /\ qsame (move (R, t) p) p.
Proof.
  rewrite (site_rot fuel h g H T p R). split.
  - intros (t & G & C). destruct (exact_fix _ _ _ C) as (t' & E & F). exists t'. split; [| exact F].
    exact (gen_cell _ (R, t) (R, t') G (conj eq_refl E)).
  - intros (t & G & F). exists t. split; [exact G | apply fix_apart, F].
Qed.
Lemma full_site_iff : (exists p, length (site_symmetry g p) = num_of_general_pos g) <-> has_full_site h.
Proof.
  destruct (C27_one_position_per_rotation _ _ _ H T) as [Nr _]. split.
  - intros (p & L). exists p. intros R t G. apply site_rot_exact.
    assert (I : incl (map rot (gp_core g)) (map rot (site_symmetry g p))).
    { apply NoDup_length_incl; [exact (site_NoDup fuel h g H p) | rewrite !map_length, L; reflexivity |].
      intros S' IS. apply site_rot_exact in IS. destruct IS as (u & Gu & _). destruct (rotations_complete _ _ _ H _ Gu) as (m & Im & E).
      cbn [fst] in E. rewrite <- E. apply in_map, Im. }
    apply I. destruct (rotations_complete _ _ _ H _ G) as (m & Im & E). cbn [fst] in E. rewrite <- E. apply in_map, Im.
  - intros (p & K). exists p. unfold num_of_general_pos.
    rewrite <- (map_length rot (gp_core g)), <- (map_length rot (site_symmetry g p)).
    apply Nat.le_antisymm; apply NoDup_incl_length; [exact (site_NoDup fuel h g H p) | | exact Nr |].
    + intros S' IS. apply site_rot_exact in IS. destruct IS as (u & Gu & _). destruct (rotations_complete _ _ _ H _ Gu) as (m & Im & E).
      cbn [fst] in E. rewrite <- E. apply in_map, Im.
    + intros S' IS. apply in_map_iff in IS. destruct IS as (m & <- & Im). apply site_rot_exact.
      destruct (C25_positions_sound _ _ _ H m Im) as [_ G]. exact (K _ _ G).
Qed.
Lemma free_iff : (forall p, length (site_symmetry g p) = 1%nat) <-> fixes_no_point h.
Proof.
  assert (Ie : forall p, In I3 (map rot (site_symmetry g p))).
  { intros p. apply site_rot_exact. exists (V3 0 0 0). split; [apply gen_one |]. unfold move, qsame, qdot, I3.
    cbn [m11 m12 m13 m21 m22 m23 m31 m32 m33 vx vy vz qx qy qz]. change (inject_Z 0) with 0%Q. change (inject_Z 1) with 1%Q.
    repeat split; field. }
  split.
  - intros L p R t G F. assert (I : In R (map rot (site_symmetry g p))) by (apply site_rot_exact; eauto).
    specialize (L p). specialize (Ie p). destruct (site_symmetry g p) as [| x [| y l]]; try discriminate L.
    destruct I as [<- | []], Ie as [<- | []]. reflexivity.
  - intros K p. pose proof (site_NoDup fuel h g H p) as N. specialize (Ie p).
    assert (A : forall R, In R (map rot (site_symmetry g p)) -> R = I3).
    { intros R I. apply site_rot_exact in I. destruct I as (t & G & F). exact (K p R t G F). }
    rewrite <- (map_length rot). destruct (map rot (site_symmetry g p)) as [| x [| y l]]; [destruct Ie | reflexivity |].
    exfalso. inversion N as [| z l0 Nx N']; subst. apply Nx. left. rewrite (A x), (A y); [reflexivity | right; left; reflexivity | left; reflexivity].
Qed.
End Sites.

(** ** C87 *)
Lemma row_text s h0 : try_from_str s = Done (Some h0) -> forall o, text_group s o <-> hall_group h0 o.
Proof.
  intros E o. unfold text_group. split; [intros (h' & E' & G); assert (h' = h0) by congruence; subst; exact G |]. intros G. exists h0. auto.
Qed.
Lemma turns_same f G A B : (forall o, A o <-> B o) -> turns_into f G A -> turns_into f G B.
Proof.
  intros E (T1 & T2). split.
  - intros o Go. destruct (T1 o Go) as (o' & X & Y). exists o'. split; [apply E, X | exact Y].
  - intros o' X. apply T2, E, X.
Qed.
Lemma row_number j s : get_hall_symbol default_table j = Some s ->
  exists label, get_space_group_number default_table j = Some label /\ leading_number label = S j /\ (j < 230)%nat.
Proof.
  intros E. assert (Q : length default_number = length default_hall) by reflexivity. change (nth_error default_hall j = Some s) in E.
  destruct (nth_error default_number j) as [l |] eqn:N.
  - exists l. split; [exact N |]. exact (default_number_of j l N).
  - exfalso. apply nth_error_None in N. rewrite Q in N. apply nth_error_None in N. congruence.
Qed.
(** every notation that returns positions has exactly one number, between 1 and 230 *)
Theorem C87_exactly_one_number :
  forall fuel h g, general_positions fuel h = Done g ->
    exists! n, of_type h n.
Proof.
  intros fuel h g H. destruct (one_type _ _ _ H) as (j & s & E & T). destruct (row_number j s E) as (label & El & En & _).
  exists (S j). split; [exists j, label, s; auto |].
  intros n (j' & label' & s' & El' & E' & En' & T').
  assert (j = j').
  { apply (proj1 (C58_default_rows_are_different_types j j' s s' E E')). apply (same_type_trans _ (hall_group h)); [apply same_type_sym, T | exact T']. }
  subst j'. congruence.
Qed.
Theorem C87_number_range : forall h n, of_type h n -> (1 <= n <= 230)%nat.
Proof.
  intros h n (j & label & s & El & E & <- & _). destruct (default_number_of j label El) as [-> L]. lia.
Qed.
(** the row of the type, with its positions *)
Lemma type_row h n : of_type h n ->
  exists i label s h0 g0 f, get_space_group_number (table false) i = Some label /\ get_hall_symbol (table false) i = Some s /\
    row_type false label = n /\
    try_from_str s = Done (Some h0) /\ (forall fuel, (10 <= fuel)%nat -> general_positions fuel h0 = Done g0) /\
    no_extra_translations h0 /\ row_correct label s /\
    invertible f /\ turns_into f (hall_group h) (hall_group h0).
Proof.
  intros (j & label & s & El & E & En & f & If & _ & Tf).
  destruct (row_facts false j label s El E) as (h0 & g0 & P & G & T).
  exists j, label, s, h0, g0, f. split; [exact El |]. split; [exact E |]. split; [exact En |]. split; [exact P |]. split; [exact G |].
  split; [exact T |]. split; [exact (C32_every_default_row_gives_its_crystal_class j label s El E) |]. split; [exact If |].
  exact (turns_same _ _ _ _ (row_text s h0 P) Tf).
Qed.
(** the rotations of the result are those of the crystal class of its number *)
Theorem C87_class_of_the_number :
  forall fuel h g n rs, general_positions fuel h = Done g -> of_type h n -> NoDup rs ->
    (forall R, In R rs <-> exists m, In m (gp_core g) /\ rot m = R) -> class_of_number n = Some (census_of rs).
Proof.
  intros fuel h g n rs H Ty N K.
  destruct (type_row h n Ty) as (i & label & s & h0 & g0 & f & El & E & En & P & G & T & Rc & If & Tf).
  destruct Rc as (h' & g' & c & P' & Cn & G' & T' & Ce & _). assert (h' = h0) by congruence. subst h'.
  pose proof (G 10%nat (le_n _)) as G10. assert (g' = g0) by (specialize (G' 10%nat (le_n _)); congruence). subst g'.
  unfold row_type in En. cbn [andb] in En. rewrite <- En, Cn. f_equal. rewrite <- Ce.
  symmetry. destruct (C27_one_position_per_rotation _ _ _ G10 T) as [Nr _].
  apply (linked_census _ _ h h0 g g0 f H G10 If Tf rs (map rot (gp_core g0)) N Nr K).
  intros R. rewrite in_map_iff. split; intros (m & A & B); exists m; auto.
Qed.
Theorem C87_positions_of_the_number :
  forall fuel h g n, general_positions fuel h = Done g -> of_type h n -> no_extra_translations h ->
    class_of_number n = Some (reported_census (gp_core g)) /\ num_of_general_pos g = census_order (reported_census (gp_core g)).
Proof.
  intros fuel h g n H Ty T. destruct (C27_one_position_per_rotation _ _ _ H T) as [N _].
  assert (K : forall R, In R (map rot (gp_core g)) <-> exists m, In m (gp_core g) /\ rot m = R).
  { intros R. rewrite in_map_iff. split; intros (m & A & B); exists m; auto. }
  assert (R : reported_census (gp_core g) = census_of (map rot (gp_core g))).
  { apply reported_census_of. intros m Im. exact (core_unit _ _ _ _ H Im). }
  rewrite R. split; [exact (C87_class_of_the_number _ _ _ _ _ H Ty N K) |].
  destruct (rotations_classified _ _ _ _ H N K) as ((c & _ & <- & O) & _). rewrite O, map_length. reflexivity.
Qed.
(** the textbook families (C78), for every result *)
Theorem C87_kinds_of_results :
  forall fuel h g n, general_positions fuel h = Done g -> of_type h n ->
    ((exists m, In m (gp_core g) /\ rotation_type m = Some RI) <-> In n centrosymmetric_types) /\
    ((forall m, In m (gp_core g) -> exists t, rotation_type m = Some t /\ In t [RE; RN2; RN3; RN4; RN6]) <-> In n sohncke_types) /\
    ((exists v, v <> V3 0 0 0 /\ forall m, In m (gp_core g) -> mvmul (rot m) v = v) <-> In n polar_types).
Proof.
  intros fuel h g n H Ty.
  destruct (type_row h n Ty) as (i & label & s & h0 & g0 & f & El & E & <- & P & G & T & _ & If & Tf).
  pose proof (G 10%nat (le_n _)) as G10.
  destruct (C78_kinds_of_rows false i label s El E) as (h' & g' & P' & G' & K1 & K2 & K3). assert (h' = h0) by congruence. subst h'.
  assert (g' = g0) by (specialize (G' 10%nat (le_n _)); congruence). subst g'.
  pose proof (linked_fwd _ _ h h0 g g0 f H G10 If Tf) as Fw. pose proof (linked_bwd _ _ h h0 g g0 f H G10 If Tf) as Bw.
  pose proof (linked_type _ _ h h0 g g0 f H G10 If) as Lt.
  rewrite <- K1, <- K2, <- K3. split; [| split].
  - split.
    + intros (m & I & X). destruct (Fw m I) as (q & J & L). exists q. rewrite <- (Lt m q I J L). auto.
    + intros (q & J & X). destruct (Bw q J) as (m & I & L). exists m. rewrite (Lt m q I J L). auto.
  - split.
    + intros X q J. destruct (Bw q J) as (m & I & L). rewrite <- (Lt m q I J L). exact (X m I).
    + intros X m I. destruct (Fw m I) as (q & J & L). rewrite (Lt m q I J L). exact (X q J).
  - split; [exact (linked_polar _ _ h h0 g g0 f H G10 If Tf) |].
    exact (linked_polar _ _ h0 h g0 g (ch_inv f) G10 H (invertible_inv _ If) (turns_inv _ _ _ If Tf)).
Qed.
Theorem C87_sites_of_groups :
  forall h n, of_type h n ->
    (has_full_site h <-> In n symmorphic_types) /\ (fixes_no_point h <-> In n fixed_point_free_types).
Proof.
  intros h n Ty.
  destruct (type_row h n Ty) as (i & label & s & h0 & g0 & f & El & E & <- & P & G & T & _ & If & Tf).
  pose proof (G 10%nat (le_n _)) as G10.
  destruct (C78_symmorphic_rows false i label s El E) as (h' & g' & P' & G' & K1). assert (h' = h0) by congruence. subst h'.
  assert (g' = g0) by (specialize (G' 10%nat (le_n _)); congruence). subst g'.
  destruct (C78_fixed_point_free_rows false i label s El E) as (h' & g' & P2 & G2 & K2). assert (h' = h0) by congruence. subst h'.
  assert (g' = g0) by (specialize (G2 10%nat (le_n _)); congruence). subst g'.
  rewrite <- K1, <- K2, (full_site_iff _ _ _ G10 T), (free_iff _ _ _ G10 T).
  pose proof (invertible_inv _ If) as Ii. pose proof (turns_inv _ _ _ If Tf) as Ti. split; split.
  - exact (linked_full h h0 f If Tf).
  - exact (linked_full h0 h _ Ii Ti).
  - exact (linked_free h0 h _ Ii Ti).
  - exact (linked_free h h0 f If Tf).
Qed.
Theorem C87_sites_of_results :
  forall fuel h g n, general_positions fuel h = Done g -> of_type h n -> no_extra_translations h ->
    ((exists p, length (site_symmetry g p) = num_of_general_pos g) <-> In n symmorphic_types) /\
    ((forall p, length (site_symmetry g p) = 1%nat) <-> In n fixed_point_free_types).
Proof.
  intros fuel h g n H Ty T. rewrite (full_site_iff _ _ _ H T), (free_iff _ _ _ H T). exact (C87_sites_of_groups h n Ty).
Qed.
Lemma position_type fuel h g : general_positions fuel h = Done g -> forall m, In m (gp_core g) -> exists t, rotation_type m = Some t.
Proof.
  intros H m I. destruct (core_unit _ _ _ _ H I) as [A U]. destruct (C25_positions_sound _ _ _ H m I) as [_ G].
  assert (F : finite_order (rot m)).
  { exists 12%nat. split; [lia |]. apply class_order12. destruct (group_class _ _ _ H) as [C | C]; specialize (C _ G); auto. }
  assert (W : entries_within 65536 (rot m)).
  { unfold unit_matrix, entries_within in *. destruct U as (u1 & u2 & u3 & u4 & u5 & u6 & u7 & u8 & u9). repeat split; lia. }
  destruct (C17_finite_order_classified m A W F) as (t & T & _). exists t. exact T.
Qed.
(** the minus signs of the notation already tell a part of this *)
Theorem C87_minus_signs :
  forall fuel h g n, general_positions fuel h = Done g -> of_type h n ->
    (written_without_minus h <-> In n sohncke_types) /\ (ls_minus (h_lat h) = true -> In n centrosymmetric_types).
Proof.
  intros fuel h g n H Ty. destruct (C87_kinds_of_results _ _ _ _ H Ty) as (K1 & K2 & _).
  destruct (C68_handedness _ _ _ H) as [K3 _]. split.
  - rewrite <- K2, <- K3.
    assert (D : forall m, In m (gp_core g) -> rotation_type m = type_z m).
    { intros m I. destruct (core_unit _ _ _ _ H I) as [A U]. now apply type_unit. }
    split.
    + intros X m I. rewrite (D m I). unfold type_z. rewrite (X m I).
      destruct (position_type _ _ _ H m I) as (t & Et). 
      rewrite (D m I) in Et. unfold type_z in Et. rewrite (X m I) in Et. exists t. split; [exact Et |].
      unfold rotation_type_of in Et. change (1 =? -1) with false in Et. change (1 =? 1) with true in Et. cbv iota in Et. revert Et. repeat match goal with |- context [?x =? ?y] => destruct (x =? y) end; cbn [andb]; intros Et; try discriminate Et;
        injection Et as <-; cbn; tauto.
    + intros X m I. destruct (X m I) as (t & Et & It). rewrite (D m I) in Et. unfold type_z, rotation_type_of in Et.
      destruct (Z.eqb_spec (mdet (rot m)) 1) as [Q | Q]; [exact Q |]. exfalso. clear - Et It Q.
      revert Et. repeat match goal with |- context [?x =? ?y] => destruct (x =? y) end; cbn [andb]; intros Et; try discriminate Et;
        injection Et as <-; cbn in It; intuition discriminate.
  - intros Mi. apply K1.
    assert (Iv : hall_group h (mopp I3, V3 0 0 0)) by (apply gen_base; right; left; auto).
    destruct (rotations_complete _ _ _ H _ Iv) as (m & I & E). exists m. split; [exact I |].
    destruct (core_unit _ _ _ _ H I) as [A U]. rewrite (type_unit m A U). unfold type_z. cbn [fst] in E. rewrite E. reflexivity.
Qed.

(** ** C88 *)
Lemma of_type_same h h' n : same_type (hall_group h) (hall_group h') -> of_type h n -> of_type h' n.
Proof.
  intros S0 (j & label & s & El & E & En & T). exists j, label, s. split; [exact El |]. split; [exact E |]. split; [exact En |].
  apply (same_type_trans _ (hall_group h)); [apply same_type_sym, S0 | exact T].
Qed.
Lemma shift_type h v : ls_minus (h_lat h) = false -> same_type (hall_group (with_shift v0 h)) (hall_group (with_shift v h)).
Proof.
  intros Mi.
  assert (C : forall o, carries (Ch I3 v 1) o (op_conj v o)).
  { intros o. apply carries_iff; [reflexivity |]. destruct o as [R t]. unfold carries_int. rewrite op_conj_formula. cbn [ch_M ch_q ch_d fst snd]. split; mat_ring. }
  exists (Ch I3 v 1). split; [split; [reflexivity | discriminate] |]. split; [reflexivity |]. split.
  - intros o G. exists (op_conj v o). split; [apply (C11_group_moves h v o Mi), G | apply C].
  - intros o' G. exists (op_conj (vopp v) o').
    assert (E : op_conj v (op_conj (vopp v) o') = o').
    { rewrite op_conj_conj. replace (vadd v (vopp v)) with v0 by mat_ring. apply op_conj_0. }
    split; [apply (C11_group_moves h v _ Mi); rewrite E; exact G |]. rewrite <- E at 2. apply C.
Qed.
(** an origin shift and the relabelling of the axes keep the type *)
Theorem C88_shift_keeps_the_number :
  forall h v w n, ls_minus (h_lat h) = false -> (of_type (with_shift v h) n <-> of_type (with_shift w h) n).
Proof.
  intros h v w n Mi.
  assert (K : forall v, of_type (with_shift v h) n <-> of_type (with_shift v0 h) n).
  { clear v w. intros v. split; apply of_type_same; [apply same_type_sym |]; apply shift_type, Mi. }
  rewrite (K v), (K w). reflexivity.
Qed.
Theorem C88_relabelling_keeps_the_number :
  forall h n, ls_char (h_lat h) <> LR -> (of_type (next_hall h) n <-> of_type h n).
Proof.
  intros h n N. split; apply of_type_same; [apply same_type_sym |]; apply C79_same_type, N.
Qed.
(** with a leading minus the inversion stays where it is and the shift may change the type *)
Theorem C88_shift_with_minus_refuted :
  exists h v fuel g, ls_minus (h_lat h) = true /\ try_from_str "-P 2" = Done (Some h) /\
    try_from_str "-P 2 (3 0 0)" = Done (Some (with_shift v h)) /\ general_positions fuel (with_shift v h) = Done g /\
    of_type h 10 /\ of_type (with_shift v h) 13 /\ ~ of_type (with_shift v h) 10.
Proof.
  assert (P : exists h h2 g, try_from_str "-P 2" = Done (Some h) /\ try_from_str "-P 2a" = Done (Some h2) /\
    try_from_str "-P 2 (3 0 0)" = Done (Some (with_shift (V3 3 0 0) h)) /\ general_positions 10 (with_shift (V3 3 0 0) h) = Done g /\
    ls_minus (h_lat h) = true /\ h_lat h = h_lat h2 /\
    exists a b ma mb, h_syms h = [a] /\ h_syms h2 = [b] /\ h_shift h2 = v0 /\ seitz_matrix a = Some ma /\ seitz_matrix b = Some mb /\
      op_conj (V3 3 0 0) (op_of ma) = op_conj v0 (op_of mb)).
  { eexists _, _, _. split; [vm_compute; reflexivity |]. split; [vm_compute; reflexivity |]. split; [vm_compute; reflexivity |].
    split; [vm_compute; reflexivity |]. split; [reflexivity |]. split; [reflexivity |]. eexists _, _, _, _.
    split; [reflexivity |]. split; [reflexivity |]. split; [reflexivity |]. split; [vm_compute; reflexivity |]. split; [vm_compute; reflexivity |].
    vm_compute. reflexivity. }
  destruct P as (h & h2 & g & P1 & P2 & P3 & G & Mi & El & a & b & ma & mb & Sa & Sb & Sh & Ma & Mb & E).
  exists h, (V3 3 0 0), 10%nat, g. split; [exact Mi |]. split; [exact P1 |]. split; [exact P3 |]. split; [exact G |].
  assert (V : forall v label s h' j label' s' n, variant_number v = Some label -> variant_hall v = Some s -> try_from_str s = Done (Some h') ->
    get_space_group_number default_table j = Some label' -> get_hall_symbol default_table j = Some s' ->
    leading_number label' = n -> leading_number label = n -> n <> 24%nat -> of_type h' n).
  { intros v label s h' j label' s' n V1 V2 Ps D1 D2 L1 L2 N. exists j, label', s'. split; [exact D1 |]. split; [exact D2 |]. split; [exact L1 |].
    assert (T : same_type (text_group s) (text_group s')).
    { apply (C57_variant_has_the_type_of_its_number v label s j label' s' V1 V2 D1 D2). rewrite L2. destruct (Nat.eqb_spec n 24); congruence. }
    destruct T as (f & If & Kf & Tf). exists f. split; [exact If |]. split; [exact Kf |]. destruct Tf as [T1 T2]. split.
    - intros o Go. apply T1, (row_text s h' Ps), Go.
    - intros o' Go. destruct (T2 o' Go) as (o & A & B). exists o. split; [apply (row_text s h' Ps), A | exact B]. }
  assert (T10 : of_type h 10).
  { apply (V 57%nat "10:c"%string "-P 2"%string h 9%nat "10:b"%string "-P 2y"%string 10%nat); try reflexivity; [exact P1 | discriminate]. }
  assert (T13 : of_type h2 13).
  { apply (V 74%nat "13:c1"%string "-P 2a"%string h2 12%nat "13:b1"%string "-P 2yc"%string 13%nat); try reflexivity; [exact P2 | discriminate]. }
  assert (Gens : forall o, hall_gens (with_shift (V3 3 0 0) h) o <-> hall_gens h2 o).
  { intros o. unfold hall_gens. cbn [with_shift h_lat h_syms h_shift]. rewrite <- El, Sa, Sb, Sh.
    split; (intros [A | [A | (ms & m & I & Em & Eo)]]; [left; exact A | right; left; exact A | right; right]); destruct I as [<- | []].
    - exists b, mb. split; [left; reflexivity |]. split; [exact Mb |]. congruence.
    - exists a, ma. split; [left; reflexivity |]. split; [exact Ma |]. congruence. }
  assert (Gr : forall A B : op -> Prop, (forall o, A o <-> B o) -> forall o, generated A o -> generated B o).
  { intros A B Q o Go. induction Go as [| x Hx | x y _ IHx _ IHy | x y _ IHx Ex | x y _ IHx Ex].
    - apply gen_one.
    - apply gen_base, Q, Hx.
    - apply gen_comp; assumption.
    - exact (gen_inv _ _ _ IHx Ex).
    - exact (gen_cell _ _ _ IHx Ex). }
  assert (St : same_type (hall_group h2) (hall_group (with_shift (V3 3 0 0) h))).
  { destruct (same_type_refl (hall_group h2)) as (f & If & Kf & Tf). exists f. split; [exact If |]. split; [exact Kf |].
    apply (turns_same f _ (hall_group h2)); [| exact Tf]. intros o. split; apply Gr; [intros o'; symmetry |]; apply Gens. }
  assert (T13' : of_type (with_shift (V3 3 0 0) h) 13) by exact (of_type_same _ _ _ St T13).
  split; [exact T10 |]. split; [exact T13' |]. intros Bad. destruct (C87_exactly_one_number _ _ _ G) as (n & _ & U).
  pose proof (U _ T13') as A1. pose proof (U _ Bad) as A2. congruence.
Qed.

(** ** The mirror image *)
Lemma ch_mirror_handed f : keeps_handedness (ch_comp f mirror_change) <-> mdet (ch_M f) < 0.
Proof.
  unfold keeps_handedness, ch_comp, mirror_change. cbn [ch_M ch_q ch_d].
  assert (E : forall M, mdet (mmul M (mopp I3)) = - mdet M) by (intros []; unfold mdet, mmul, mopp, mmap, I3; cbn; ring).
  rewrite E. lia.
Qed.
Lemma mirror_inv : invertible mirror_change. Proof. split; [reflexivity | discriminate]. Qed.
Lemma mirror_turns h : turns_into mirror_change (hall_group (mirror_hall h)) (hall_group h).
Proof.
  split.
  - intros o G. exists (mirror_op o). split; [exact (mirror_backward h o G) | apply mirror_carries].
  - intros o G. exists (mirror_op o). split; [exact (mirror_forward h o G) |]. rewrite <- (mirror2_op o) at 2. apply mirror_carries.
Qed.
Lemma mirror_or h G' : same_type_or_mirror (hall_group h) G' -> same_type (hall_group h) G' \/ same_type (hall_group (mirror_hall h)) G'.
Proof.
  intros (f & If & Tf). destruct (Z.lt_trichotomy (mdet (ch_M f)) 0) as [L | [L | L]].
  - right. exists (ch_comp f mirror_change). split; [exact (invertible_comp _ _ If mirror_inv) |]. split; [apply ch_mirror_handed, L |].
    exact (turns_comp _ _ _ _ _ mirror_inv If (mirror_turns h) Tf).
  - destruct If as [_ D]. congruence.
  - left. exists f. auto.
Qed.
Lemma pair_in n : mirror_number n <> n -> In (n, mirror_number n) mirror_pairs \/ In (mirror_number n, n) mirror_pairs.
Proof.
  unfold mirror_number. intros N.
  assert (K : forall l, partner_in l n <> n -> In (n, partner_in l n) l \/ In (partner_in l n, n) l).
  { induction l as [| (a, b) r IH]; cbn [partner_in]; intros M; [congruence |].
    destruct (Nat.eqb_spec n a) as [-> | Na]; [left; left; reflexivity |].
    destruct (Nat.eqb_spec n b) as [-> | Nb]; [right; left; reflexivity |]. destruct (IH M); [left | right]; right; assumption. }
  exact (K _ N).
Qed.
Lemma pair_partner a b : In (a, b) mirror_pairs \/ In (b, a) mirror_pairs -> mirror_number a = b /\ a <> b.
Proof.
  intros [I | I]; cbn in I; repeat (destruct I as [E | I]; [injection E as <- <-; split; [reflexivity | discriminate] |]); destruct I.
Qed.
(** the mirror image of a symbol has the number of the mirror-image type: its own, except within
    the eleven enantiomorphic pairs *)
Theorem C88_mirror_image_has_the_mirror_number :
  forall h n, of_type (mirror_hall h) (mirror_number n) <-> of_type h n.
Proof.
  assert (F : forall h n, of_type h n -> of_type (mirror_hall h) (mirror_number n)).
  { intros h n Ty. pose proof Ty as Ty'. destruct Ty' as (j & label & s & El & E & En & T).
    destruct (row_facts false j label s El E) as (h0 & g0 & P & G & T0). pose proof (G 10%nat (le_n _)) as G10.
    assert (Sm : same_type (hall_group (mirror_hall h)) (hall_group (mirror_hall h0))).
    { destruct T as (f & If & Kf & Tf). apply (turns_same _ _ _ _ (row_text s h0 P)) in Tf.
      pose proof (turns_inv _ _ _ mirror_inv (mirror_turns h0)) as Mb. pose proof (invertible_inv _ mirror_inv) as Mi.
      pose proof (turns_comp _ _ _ _ _ mirror_inv If (mirror_turns h) Tf) as A1. pose proof (invertible_comp _ _ If mirror_inv) as I1.
      exists (ch_comp (ch_inv mirror_change) (ch_comp f mirror_change)). split; [exact (invertible_comp _ _ Mi I1) |]. split.
      - unfold keeps_handedness in *. unfold ch_inv, ch_comp, mirror_change. cbn [ch_M ch_q ch_d]. rewrite !mdet_mmul.
        match goal with |- 0 < ?a * (_ * ?b) => change a with (-1); change b with (-1) end. lia.
      - exact (turns_comp _ _ _ _ _ I1 Mi A1 Mb). }
    destruct (default_number_of j label El) as [Ej Lj].
    assert (Rt : of_type (mirror_hall h0) (mirror_number n)); [| exact (of_type_same _ _ _ (same_type_sym _ _ Sm) Rt)].
    destruct (Nat.eq_dec (mirror_number n) n) as [Q | Q].
    - destruct (proj2 (C80_returns_alike h0) (ex_intro _ 10%nat (ex_intro _ g0 G10))) as (fm & gm & Gm).
      destruct (one_type _ _ _ Gm) as (k & sk & Ek & Tk).
      assert (M : same_type_or_mirror (text_group s) (text_group sk)).
      { apply (mirror_type_trans _ (hall_group (mirror_hall h0))); [| apply same_mirror, Tk].
        destruct (C80_same_type_up_to_mirror h0) as (f & If & Tf1 & Tf2). exists f. split; [exact If |]. split.
        - intros o Go. apply Tf1, (row_text s h0 P), Go.
        - intros o' Go. destruct (Tf2 o' Go) as (o & A & B). exists o. split; [apply (row_text s h0 P), A | exact B]. }
      apply (C59_mirror_images j k s sk E Ek) in M.
      assert (k = j).
      { destruct M as [-> | M]; [reflexivity |]. exfalso. apply pair_partner in M. destruct M as [M N]. rewrite <- Ej, En, Q in M.
        apply N. congruence. }
      subst k. assert (sk = s) by congruence. subst sk. rewrite Q. exists j, label, s. auto.
    - pose proof (pair_in n Q) as I. set (n' := mirror_number n) in *.
      assert (J : exists j' s' label', n' = S j' /\ get_hall_symbol default_table j' = Some s' /\ get_space_group_number default_table j' = Some label').
      { assert (B : (1 <= n' <= 230)%nat).
        { assert (L : forallb (fun p => Nat.leb 1 (fst p) && Nat.leb (fst p) 230 && (Nat.leb 1 (snd p) && Nat.leb (snd p) 230)) mirror_pairs = true)
            by (vm_compute; reflexivity).
          rewrite forallb_forall in L. destruct I as [I | I]; specialize (L _ I); cbn [fst snd] in L;
            rewrite !andb_true_iff, !Nat.leb_le in L; destruct L as [[L1 L2] [L3 L4]]; split; assumption. }
        destruct (nth_error default_hall (n' - 1)) as [s' |] eqn:E'.
        - destruct (row_number (n' - 1) s' E') as (label' & El' & _). exists (n' - 1)%nat, s', label'. split; [lia |]. auto.
        - exfalso. apply nth_error_None in E'. change (length default_hall) with 230%nat in E'. lia. }
      destruct J as (j' & s' & label' & Ej' & E' & El').
      assert (M : same_type_or_mirror (hall_group h0) (text_group s')).
      { assert (X : same_type_or_mirror (text_group s) (text_group s')).
        { apply (C59_mirror_images j j' s s' E E'). right. rewrite <- Ej, En, <- Ej'. exact I. }
        destruct X as (f & If & Tf1 & Tf2). exists f. split; [exact If |]. split.
        - intros o Go. apply Tf1, (row_text s h0 P), Go.
        - intros o' Go. destruct (Tf2 o' Go) as (o & A & B). exists o. split; [apply (row_text s h0 P), A | exact B]. }
      destruct (mirror_or h0 _ M) as [M' | M'].
      + exfalso. assert (j = j').
        { apply (proj1 (C58_default_rows_are_different_types j j' s s' E E')). destruct M' as (f & If & Kf & Tf1 & Tf2).
          exists f. split; [exact If |]. split; [exact Kf |]. split.
          - intros o Go. apply Tf1, (row_text s h0 P), Go.
          - intros o' Go. destruct (Tf2 o' Go) as (o & A & B). exists o. split; [apply (row_text s h0 P), A | exact B]. }
        subst j'. apply Q. congruence.
      + exists j', label', s'. split; [exact El' |]. split; [exact E' |]. split; [| exact M']. rewrite Ej'. exact (proj1 (default_number_of j' label' El')). }
  assert (Inv : forall n, mirror_number (mirror_number n) = n).
  { intros n. destruct (Nat.eq_dec (mirror_number n) n) as [Q | Q]; [congruence |]. destruct (pair_partner (mirror_number n) n) as [A _]; [| exact A].
    destruct (pair_in n Q); auto. }
  intros h n. split; [| apply F]. intros Ty. apply F in Ty. rewrite Inv in Ty.
  apply (of_type_same (mirror_hall (mirror_hall h))); [| exact Ty].
  destruct (same_type_refl (hall_group (mirror_hall (mirror_hall h)))) as (f & If & Kf & Tf). exists f. split; [exact If |]. split; [exact Kf |].
  refine (turns_same _ _ _ _ _ Tf). intros o. rewrite <- (mirror2_op o) at 1.
  rewrite C80_group_mirrored. split; [intros A; apply C80_group_mirrored; rewrite ?mirror2_op; exact A | intros A; apply C80_group_mirrored in A; exact A].
Qed.
(** so a symbol is of the type of its own mirror image unless its number is in one of the pairs *)
Theorem C88_chiral_numbers :
  forall fuel h g n, general_positions fuel h = Done g -> of_type h n ->
    (of_type (mirror_hall h) n <-> forall k, ~ In (n, k) mirror_pairs /\ ~ In (k, n) mirror_pairs).
Proof.
  intros fuel h g n H Ty. destruct (C87_exactly_one_number _ _ _ H) as (n0 & _ & U). split.
  - intros M k.
    assert (Q : mirror_number n = n).
    { destruct (proj2 (C80_returns_alike h) (ex_intro _ fuel (ex_intro _ g H))) as (fm & gm & Gm).
      destruct (C87_exactly_one_number _ _ _ Gm) as (n1 & _ & U1).
      pose proof (U1 _ (proj2 (C88_mirror_image_has_the_mirror_number h n) Ty)). pose proof (U1 _ M). congruence. }
    split; intros I; destruct (pair_partner n k) as [A B]; auto; congruence.
  - intros K. assert (Q : mirror_number n = n).
    { destruct (Nat.eq_dec (mirror_number n) n) as [Q | Q]; [exact Q |]. exfalso. destruct (pair_in n Q) as [I | I]; apply (K (mirror_number n)) in I; exact I. }
    rewrite <- Q. apply C88_mirror_image_has_the_mirror_number, Ty.
Qed.

(** cases ([C86_cases] has notations that are no rows of a table): the number of "P 41" is
    76 and that of its mirror image 78 *)
Open Scope string_scope.
Example C87_cases :
  (exists g, general_positions 10 (parsed "P 41") = Done g) /\
  of_type (parsed "P 41") 76 /\ mirror_hall (parsed "P 41") = parsed "P 43" /\ mirror_number 76 = 78%nat /\ mirror_number 77 = 77%nat /\
  ls_minus (h_lat (parsed "P 41")) = false /\ ls_char (h_lat (parsed "P 41")) <> LR.
Proof.
  split; [eexists; vm_compute; reflexivity |].
  split; [| repeat split; try (vm_compute; reflexivity); discriminate].
  - exists 75%nat, "76", "P 41". split; [reflexivity |]. split; [reflexivity |]. split; [reflexivity |].
    destruct (same_type_refl (hall_group (parsed "P 41"))) as (f & If & Kf & Tf). exists f. split; [exact If |]. split; [exact Kf |].
    refine (turns_same _ _ _ _ _ Tf). intros o.
    rewrite (row_text "P 41" (parsed "P 41")) by (vm_compute; reflexivity). reflexivity.
Qed.
