(** * PropCell: property C94: how many parameters of the cell are free. *)
From Coq Require Import QArith Qring Qfield Lqa.
From Verif Require Import Base Notations Parser Seitz F64 Jones Rotations Tables Generate Positions Lookup
  Spec SpecHall SpecXyz SpecTables SpecCompat SpecOutcome SpecType SpecMetric SpecKind SpecFamily SpecLatticeClass SpecCell
  Algebra PropSeitz PropSymbols GenFacts PropGenerate
  GroupCheck RowData PropFullSets PropTables PropTableGroups PropJones PropTermination PropCanon PropOutcome PropMetric TypeFacts PropTypes PropFamily PropRelabel PropKind PropLatticeClass.
Open Scope Q_scope.
Local Notation length := List.length.
Local Notation "# z" := (inject_Z z) (at level 1, format "# z").

(** ** Metrics through linear maps *)
Lemma lengths_metric g h : (forall p, length2 g p == length2 h p) -> meqQ g h.
Proof.
  intros L.
  assert (A : gaa g == gaa h).
  { transitivity (length2 g (QV 1 0 0)); [unfold length2; cbn [qx qy qz]; ring |]. rewrite L. unfold length2; cbn [qx qy qz]; ring. }
  assert (B : gbb g == gbb h).
  { transitivity (length2 g (QV 0 1 0)); [unfold length2; cbn [qx qy qz]; ring |]. rewrite L. unfold length2; cbn [qx qy qz]; ring. }
  assert (C : gcc g == gcc h).
  { transitivity (length2 g (QV 0 0 1)); [unfold length2; cbn [qx qy qz]; ring |]. rewrite L. unfold length2; cbn [qx qy qz]; ring. }
  split; [exact A |]. split; [exact B |]. split; [exact C |]. split; [| split]; apply half.
  + transitivity (length2 g (QV 0 1 1) - gbb g - gcc g); [unfold length2; cbn [qx qy qz]; ring |]. rewrite L, B, C. unfold length2; cbn [qx qy qz]; ring.
  + transitivity (length2 g (QV 1 0 1) - gaa g - gcc g); [unfold length2; cbn [qx qy qz]; ring |]. rewrite L, A, C. unfold length2; cbn [qx qy qz]; ring.
  + transitivity (length2 g (QV 1 1 0) - gaa g - gbb g); [unfold length2; cbn [qx qy qz]; ring |]. rewrite L, A, B. unfold length2; cbn [qx qy qz]; ring.
Qed.
Definition mscaleQ (k : Q) (g : metric) : metric := Metric (k * gaa g) (k * gbb g) (k * gcc g) (k * gbc g) (k * gac g) (k * gab g).
Lemma mscaleQ_compat k g h : meqQ g h -> meqQ (mscaleQ k g) (mscaleQ k h).
Proof. intros (A & B & C & D & E & F). unfold meqQ, mscaleQ. cbn [gaa gbb gcc gbc gac gab]. rewrite A, B, C, D, E, F. repeat split; reflexivity. Qed.
Lemma length2_mscaleQ k g p : length2 (mscaleQ k g) p == k * length2 g p.
Proof. unfold length2, mscaleQ. cbn [gaa gbb gcc gbc gac gab]. ring. Qed.
Lemma mscaleQ_cancel k g h : ~ k == 0 -> meqQ (mscaleQ k g) (mscaleQ k h) -> meqQ g h.
Proof.
  intros N (A & B & C & D & E & F). unfold mscaleQ in *. cbn [gaa gbb gcc gbc gac gab] in *.
  repeat split; (apply Qmult_inj_l with k; [exact N | assumption]).
Qed.
Lemma mscaleQ_twice k l g : meqQ (mscaleQ k (mscaleQ l g)) (mscaleQ (k * l) g).
Proof. unfold meqQ, mscaleQ. cbn [gaa gbb gcc gbc gac gab]. repeat split; ring. Qed.
Lemma pull_mscaleQ R k g : meqQ (pull R (mscaleQ k g)) (mscaleQ k (pull R g)).
Proof. unfold meqQ, pull, mscaleQ, bil. cbn [gaa gbb gcc gbc gac gab]. repeat split; ring. Qed.
Lemma pull_mscale R k g : meqQ (pull (mscale k R) g) (mscaleQ (#k * #k) (pull R g)).
Proof.
  unfold meqQ, pull, mscaleQ, bil, mscale, mmap. cbn [gaa gbb gcc gbc gac gab m11 m12 m13 m21 m22 m23 m31 m32 m33].
  rewrite !inject_Z_mult. repeat split; ring.
Qed.
Lemma pull_I g : meqQ (pull I3 g) g.
Proof. unfold meqQ, pull, bil, I3. cbn [gaa gbb gcc gbc gac gab m11 m12 m13 m21 m22 m23 m31 m32 m33]. rewrite ?q0, ?q1. repeat split; ring. Qed.
Lemma pull_length M g p : length2 (pull M g) p == length2 g (QV (qdot (m11 M) (m12 M) (m13 M) p) (qdot (m21 M) (m22 M) (m23 M) p) (qdot (m31 M) (m32 M) (m33 M) p)).
Proof. unfold length2, pull, bil, qdot. cbn [gaa gbb gcc gbc gac gab qx qy qz]. ring. Qed.
Lemma length2_qcompat g p q : qsame p q -> length2 g p == length2 g q.
Proof. intros (A & B & C). unfold length2. rewrite A, B, C. reflexivity. Qed.
Lemma pull_mul M N g : meqQ (pull N (pull M g)) (pull (mmul M N) g).
Proof.
  apply lengths_metric. intros p. rewrite !pull_length. apply length2_qcompat. unfold qsame, qdot, mmul.
  cbn [qx qy qz m11 m12 m13 m21 m22 m23 m31 m32 m33]. rewrite !inject_Z_plus, !inject_Z_mult. repeat split; ring.
Qed.
Lemma image_length g M d p : (0 < d)%Z -> length2 g (linear_image M d p) == / (#d * #d) * length2 (pull M g) p.
Proof.
  intros D. assert (N : ~ #d == 0) by (intros E; unfold Qeq in E; cbn in E; lia).
  rewrite pull_length. unfold linear_image, divide, move, length2. cbn [qx qy qz vx vy vz].
  set (x := qdot _ _ _ p). set (y := qdot _ _ _ p). set (z := qdot _ _ _ p). change (#0 / 12) with (0 / 12). field. exact N.
Qed.
Lemma image_keeps g M d : (0 < d)%Z ->
  ((forall p, length2 g (linear_image M d p) == length2 g p) <-> meqQ (pull M g) (mscaleQ (#d * #d) g)).
Proof.
  intros D. assert (N : ~ #d == 0) by (intros E; unfold Qeq in E; cbn in E; lia). split.
  - intros H. apply lengths_metric. intros p. rewrite length2_mscaleQ, <- (H p), (image_length _ _ _ _ D). field. exact N.
  - intros E p. rewrite (image_length _ _ _ _ D), (length2_compat _ _ _ E), length2_mscaleQ. field. exact N.
Qed.
Lemma metric_of_iff G g : metric_of G g <-> forall R t, G (R, t) -> meqQ (pull R g) g.
Proof.
  assert (K : forall R, (forall p, length2 g (linear_image R 1 p) == length2 g p) <-> meqQ (pull R g) g).
  { intros R. rewrite (image_keeps g R 1 eq_refl). assert (E : meqQ (mscaleQ (#1 * #1) g) g) by (unfold meqQ, mscaleQ; rewrite q1; cbn [gaa gbb gcc gbc gac gab]; repeat split; ring).
    split; intros H; (eapply meqQ_trans; [exact H |]); [exact E | apply meqQ_sym, E]. }
  unfold metric_of. split; intros H R t HG; [apply K | apply K]; exact (H R t HG).
Qed.
Lemma metric_of_compat G g h : meqQ g h -> metric_of G g -> metric_of G h.
Proof.
  intros E H. rewrite metric_of_iff in *. intros R t HG. eapply meqQ_trans; [apply pull_compat, meqQ_sym, E |].
  eapply meqQ_trans; [exact (H R t HG) | exact E].
Qed.
Lemma det_nonzero A : mdet A <> 0%Z -> ~ #(mdet A) * #(mdet A) == 0.
Proof. intros N E. rewrite <- inject_Z_mult in E. unfold Qeq in E. cbn in E. nia. Qed.
(** the inverse change, up to a factor *)
Lemma pull_back A g : meqQ (pull A (pull (madj A) g)) (mscaleQ (#(mdet A) * #(mdet A)) g).
Proof.
  eapply meqQ_trans; [apply pull_mul |]. rewrite madj_l. eapply meqQ_trans; [apply pull_mscale |]. apply mscaleQ_compat, pull_I.
Qed.
Lemma pull_forth A g : meqQ (pull (madj A) (pull A g)) (mscaleQ (#(mdet A) * #(mdet A)) g).
Proof.
  eapply meqQ_trans; [apply pull_mul |]. rewrite madj_r. eapply meqQ_trans; [apply pull_mscale |]. apply mscaleQ_compat, pull_I.
Qed.
Lemma pull_inj A g h : mdet A <> 0%Z -> meqQ (pull A g) (pull A h) -> meqQ g h.
Proof.
  intros N E. apply (mscaleQ_cancel (#(mdet A) * #(mdet A))); [exact (det_nonzero A N) |].
  eapply meqQ_trans; [apply meqQ_sym, pull_forth |]. eapply meqQ_trans; [| apply pull_forth]. apply pull_compat, E.
Qed.
Definition push (A : mat3) (g : metric) : metric := mscaleQ (/ (#(mdet A) * #(mdet A))) (pull (madj A) g).
Lemma pull_push A g : mdet A <> 0%Z -> meqQ (pull A (push A g)) g.
Proof.
  intros N. unfold push. eapply meqQ_trans; [apply pull_mscaleQ |]. eapply meqQ_trans; [apply mscaleQ_compat, pull_back |].
  eapply meqQ_trans; [apply mscaleQ_twice |]. unfold meqQ, mscaleQ. cbn [gaa gbb gcc gbc gac gab]. pose proof (det_nonzero A N) as D.
  assert (D' : ~ #(mdet A) == 0) by (intros X; apply D; rewrite X; reflexivity).
  repeat split; field; exact D'.
Qed.
Lemma metric_transport (G G' : op -> Prop) A g' : mdet A <> 0%Z ->
  (forall R t, G (R, t) -> exists R' t', G' (R', t') /\ mmul A R = mmul R' A) ->
  (forall R' t', G' (R', t') -> exists R t, G (R, t) /\ mmul A R = mmul R' A) ->
  (metric_of G' g' <-> metric_of G (pull A g')).
Proof.
  intros N P1 P2. rewrite !metric_of_iff.
  assert (K : forall R R', mmul A R = mmul R' A -> meqQ (pull R (pull A g')) (pull A (pull R' g'))).
  { intros R R' E. eapply meqQ_trans; [apply pull_mul |]. rewrite E. apply meqQ_sym, pull_mul. }
  split.
  - intros H R t HG. destruct (P1 R t HG) as (R' & t' & HG' & E). eapply meqQ_trans; [exact (K R R' E) |]. apply pull_compat. exact (H R' t' HG').
  - intros H R' t' HG'. destruct (P2 R' t' HG') as (R & t & HG & E). apply (pull_inj A _ _ N). eapply meqQ_trans; [apply meqQ_sym, (K R R' E) |]. exact (H R t HG).
Qed.

(** ** Rows and families *)
Lemma comb_combination ks bs : comb ks bs = combination ks (map toQ bs).
Proof. revert bs. induction ks as [| k ks IH]; intros [| b bs]; try reflexivity. cbn [comb combination map]. rewrite IH. reflexivity. Qed.
Lemma pull_combination A ks bs : meqQ (pull A (combination ks bs)) (combination ks (map (pull A) bs)).
Proof.
  revert bs. induction ks as [| k ks IH]; intros [| b bs]; [exact (pull_m0 A) | exact (pull_m0 A) | exact (pull_m0 A) |]. cbn [combination map].
  eapply meqQ_trans; [apply (pull_maddQ A k b (combination ks bs)) |]. apply (maddQ_compat k); [apply meqQ_refl | apply IH].
Qed.
Lemma cell_iff f g : cell f g <-> exists ks, length ks = length (basis f) /\ meqQ g (comb ks (basis f)).
Proof.
  split.
  - intros C. exists (coefs f g). split; [destruct f; reflexivity | exact (coords_comb f g C)].
  - intros (ks & L & E). pose proof (meqQ_trans _ _ _ E (comb_csum ks (basis f))) as X. clear E. revert L X.
    unfold meqQ, cell, hexagonal_cell, rhombohedral_cell, cubic_cell, right_bc, right_ac, right_ab.
    destruct f; cbn [basis List.length]; intros L;
      repeat (destruct ks as [| ? ks]; [discriminate L |]); (destruct ks; [| discriminate L]); clear L;
      cbn [csum gaa gbb gcc gbc gac gab]; unfold eaa, ebb, ecc, ebc, eac, eab; cbn [z1 z2 z3 z4 z5 z7]; rewrite ?q0, ?q1, ?q2, ?qm1;
      intros (A & B & C & D & E & F); rewrite ?A, ?B, ?C, ?D, ?E, ?F; repeat split; ring.
Qed.
Lemma basis_independent f ks : length ks = length (basis f) -> meqQ (comb ks (basis f)) m0 -> Forall (fun k => k == 0) ks.
Proof.
  intros L E. pose proof (meqQ_trans _ _ _ (meqQ_sym _ _ (comb_csum ks (basis f))) E) as X. clear E. revert L X. unfold meqQ, m0.
  destruct f; cbn [basis List.length]; intros L;
    repeat (destruct ks as [| ? ks]; [discriminate L |]); (destruct ks; [| discriminate L]); clear L;
    cbn [csum gaa gbb gcc gbc gac gab]; unfold eaa, ebb, ecc, ebc, eac, eab; cbn [z1 z2 z3 z4 z5 z7]; change (#0) with 0; change (#1) with 1; change (#2) with 2; change (#(-1)) with (-(1));
    intros (A & B & C & D & E & F);
    repeat match goal with |- Forall _ (_ :: _) => apply Forall_cons; [lra |] | |- Forall _ [] => apply Forall_nil end.
Qed.
Lemma basis_size label : length (basis (family_of label)) = free_parameters (system_of_number (leading_number label)).
Proof.
  unfold family_of. destruct (system_of_number (leading_number label)); try reflexivity.
  - destruct (has_letter "b" label); [reflexivity |]. destruct (has_letter "c" label); reflexivity.
  - destruct (has_letter "R" label); reflexivity.
Qed.
Lemma core_metric fuel h g G : general_positions fuel h = Done g ->
  (metric_of (hall_group h) G <-> forall m, In m (gp_core g) -> isometry G m).
Proof.
  intros H. rewrite metric_of_iff. split.
  - intros K m Im. apply isometry_iff. destruct (C25_positions_sound _ _ _ H m Im) as [_ HG]. exact (K _ _ HG).
  - intros K R t HG. destruct (rotations_complete _ _ _ H _ HG) as (m & Im & Er). cbn [fst] in Er. subst R. apply isometry_iff. exact (K m Im).
Qed.
Lemma listed_metric fuel h g G : general_positions fuel h = Done g ->
  (metric_of (hall_group h) G <-> forall m, listed g m -> isometry G m).
Proof. intros H. rewrite (core_metric _ _ _ G H), (listed_isometries _ _ _ G H). reflexivity. Qed.
(** the default row of the type *)
Lemma row_metric full i label s h : get_space_group_number (table full) i = Some label -> get_hall_symbol (table full) i = Some s ->
  try_from_str s = Done (Some h) -> forall G, metric_of (hall_group h) G <-> cell (family_of label) G.
Proof.
  intros Hl Hs P G. destruct (C63_tabulated_cells (table full) i label s) as (h' & g' & P' & H & K); auto.
  { destruct full; auto. }
  assert (h' = h) by congruence. subst h'. specialize (H 10%nat (le_n _)). rewrite (listed_metric _ _ _ G H), K. symmetry. apply cell_of_family.
Qed.

Lemma type_default_row h n : of_type h n -> exists label s h0 g0 f, get_space_group_number default_table (pred n) = Some label /\
  get_hall_symbol default_table (pred n) = Some s /\ leading_number label = n /\ try_from_str s = Done (Some h0) /\
  (forall fuel, (10 <= fuel)%nat -> general_positions fuel h0 = Done g0) /\ no_extra_translations h0 /\
  invertible f /\ turns_into f (hall_group h) (hall_group h0).
Proof.
  intros Ty. destruct (type_row h n Ty) as (i & label & s & h0 & g0 & f & El & E & En & P & G & T & _ & If & Tf).
  unfold row_type in En. cbn [andb] in En. assert (i = pred n) by (rewrite <- En; exact (row_at i label El)). subst i.
  exists label, s, h0, g0, f. split; [exact El |]. split; [exact E |]. split; [exact En |]. split; [exact P |]. split; [exact G |]. split; [exact T |]. split; [exact If |]. exact Tf.
Qed.
(** the metrics of a group of a given type *)
Lemma type_metric h n : of_type h n -> exists A f, mdet A <> 0%Z /\ length (basis f) = free_parameters (system_of_number n) /\
  forall g', metric_of (hall_group h) (pull A g') <-> cell f g'.
Proof.
  intros Ty. destruct (type_default_row h n Ty) as (label & s & h0 & g0 & f & El & E & En & P & G & T & If & Tf).
  destruct (turns_class f _ _ If Tf) as (A & e & De & Na & L1 & L2 & P1 & P2).
  exists A, (family_of label). split; [exact Na |]. split; [rewrite <- En; exact (basis_size label) |].
  intros g'. rewrite <- (row_metric false (pred n) label s h0 El E P g'). symmetry. exact (metric_transport _ _ A g' Na P1 P2).
Qed.

(** ** C94 *)
(** the metrics on which the listed operations are isometries form a space of as many dimensions
    as the crystal system of the number leaves parameters free *)
Theorem C94_free_parameters :
  forall fuel h g n, general_positions fuel h = Done g -> of_type h n ->
    exists bs, length bs = free_parameters (system_of_number n) /\
      (forall G, (forall m, listed g m -> isometry G m) <-> exists ks, length ks = length bs /\ same_metric G (combination ks bs)) /\
      (forall ks, length ks = length bs -> same_metric (combination ks bs) zero_metric -> Forall (fun k => k == 0) ks).
Proof.
  intros fuel h g n H Ty. destruct (type_metric h n Ty) as (A & f & Na & Lb & K).
  exists (map (fun b => pull A (toQ b)) (basis f)). split; [rewrite map_length; exact Lb |].
  assert (C : forall ks, meqQ (combination ks (map (fun b => pull A (toQ b)) (basis f))) (pull A (comb ks (basis f)))).
  { intros ks. rewrite comb_combination, <- (map_map toQ (pull A)). apply meqQ_sym, pull_combination. }
  rewrite map_length. split.
  - intros G. rewrite <- (listed_metric _ _ _ G H). split.
    + intros X. pose proof (metric_of_compat _ _ _ (meqQ_sym _ _ (pull_push A G Na)) X) as Y.
      apply K in Y. apply cell_iff in Y. destruct Y as (ks & L & E). exists ks. split; [exact L |].
      change (meqQ G (combination ks (map (fun b => pull A (toQ b)) (basis f)))).
      eapply meqQ_trans; [apply meqQ_sym, (pull_push A G Na) |]. eapply meqQ_trans; [apply pull_compat, E |]. apply meqQ_sym, C.
    + intros (ks & L & E). change (meqQ G (combination ks (map (fun b => pull A (toQ b)) (basis f)))) in E.
      apply (metric_of_compat _ (pull A (comb ks (basis f)))).
      { apply meqQ_sym. eapply meqQ_trans; [exact E | apply C]. }
      apply K. apply cell_iff. exists ks. split; [exact L | apply meqQ_refl].
  - intros ks L E. change (meqQ (combination ks (map (fun b => pull A (toQ b)) (basis f))) m0) in E.
    apply (basis_independent f ks L). apply (pull_inj A _ _ Na). eapply meqQ_trans; [apply meqQ_sym, C |].
    eapply meqQ_trans; [exact E |]. apply meqQ_sym, pull_m0.
Qed.
(** the metric of a real cell is among them *)
Lemma square_pos a : ~ a == 0 -> 0 < a * a.
Proof. intros N. destruct (Q_dec a 0) as [[L | L] | E]; [nra | nra | contradiction]. Qed.
Lemma square_nonneg a : 0 <= a * a.
Proof. nra. Qed.
Definition round_metric (f : family) : metric := match f with FHex => Metric 2 2 2 0 0 (-(1)) | _ => Metric 1 1 1 0 0 0 end.
Lemma round_cell f : cell f (round_metric f).
Proof. destruct f; cbn [cell round_metric]; unfold hexagonal_cell, rhombohedral_cell, cubic_cell, right_bc, right_ac, right_ab; cbn [gaa gbb gcc gbc gac gab]; repeat split; reflexivity. Qed.
Lemma round_positive f : positive_metric (round_metric f).
Proof.
  intros [x y z] N. unfold qsame in N. cbn [qx qy qz] in N.
  assert (P : 0 < x * x + y * y + z * z).
  { destruct (Qeq_dec x 0) as [X | X].
    - destruct (Qeq_dec y 0) as [Y | Y].
      + assert (Z1 : ~ z == 0) by (intros Z1; apply N; repeat split; assumption). pose proof (square_pos z Z1). pose proof (square_nonneg x). pose proof (square_nonneg y). lra.
      + pose proof (square_pos y Y). pose proof (square_nonneg x). pose proof (square_nonneg z). lra.
    - pose proof (square_pos x X). pose proof (square_nonneg y). pose proof (square_nonneg z). lra. }
  pose proof (square_nonneg (x - y)) as S1. pose proof (square_nonneg z) as S2. pose proof (square_nonneg x) as S3. pose proof (square_nonneg y) as S4.
  unfold length2. destruct f; cbn [round_metric gaa gbb gcc gbc gac gab qx qy qz]; nra.
Qed.
Lemma matrix_nonzero A p : mdet A <> 0%Z -> ~ qsame p (QV 0 0 0) ->
  ~ qsame (QV (qdot (m11 A) (m12 A) (m13 A) p) (qdot (m21 A) (m22 A) (m23 A) p) (qdot (m31 A) (m32 A) (m33 A) p)) (QV 0 0 0).
Proof.
  intros N Np (X & Y & W). apply Np. cbn [qx qy qz] in X, Y, W. destruct p as [x y z]. unfold qdot in X, Y, W. cbn [qx qy qz] in X, Y, W.
  assert (Nd : ~ #(mdet A) == 0) by (intros E; unfold Qeq in E; cbn in E; lia).
  assert (E1 : forall a b c, a * (#(m11 A) * x + #(m12 A) * y + #(m13 A) * z) + b * (#(m21 A) * x + #(m22 A) * y + #(m23 A) * z) + c * (#(m31 A) * x + #(m32 A) * y + #(m33 A) * z) == 0)
    by (intros a b c; rewrite X, Y, W; ring).
  assert (D : #(mdet A) == #(m11 A) * (#(m22 A) * #(m33 A) - #(m23 A) * #(m32 A)) - #(m12 A) * (#(m21 A) * #(m33 A) - #(m23 A) * #(m31 A)) + #(m13 A) * (#(m21 A) * #(m32 A) - #(m22 A) * #(m31 A))).
  { unfold mdet. unfold Z.sub. repeat rewrite ?inject_Z_plus, ?inject_Z_mult, ?inject_Z_opp. ring. }
  clear X Y W Np N.
  repeat split; cbn [qx qy qz]; (apply Qmult_inj_l with (#(mdet A)); [exact Nd |]); rewrite D.
  - transitivity 0; [| ring]. etransitivity; [| exact (E1 (#(m22 A) * #(m33 A) - #(m23 A) * #(m32 A)) (#(m13 A) * #(m32 A) - #(m12 A) * #(m33 A)) (#(m12 A) * #(m23 A) - #(m13 A) * #(m22 A)))]. ring.
  - transitivity 0; [| ring]. etransitivity; [| exact (E1 (#(m23 A) * #(m31 A) - #(m21 A) * #(m33 A)) (#(m11 A) * #(m33 A) - #(m13 A) * #(m31 A)) (#(m13 A) * #(m21 A) - #(m11 A) * #(m23 A)))]. ring.
  - transitivity 0; [| ring]. etransitivity; [| exact (E1 (#(m21 A) * #(m32 A) - #(m22 A) * #(m31 A)) (#(m12 A) * #(m31 A) - #(m11 A) * #(m32 A)) (#(m11 A) * #(m22 A) - #(m12 A) * #(m21 A)))]. ring.
Qed.
Lemma pull_positive A g : mdet A <> 0%Z -> positive_metric g -> positive_metric (pull A g).
Proof. intros N P p Np. rewrite pull_length. apply P. exact (matrix_nonzero A p N Np). Qed.

Theorem C94_some_real_cell :
  forall fuel h g, general_positions fuel h = Done g -> exists G, positive_metric G /\ forall m, listed g m -> isometry G m.
Proof.
  intros fuel h g H. destruct (C87_exactly_one_number _ _ _ H) as (n & Ty & _). destruct (type_metric h n Ty) as (A & f & Na & _ & K).
  exists (pull A (round_metric f)). split; [exact (pull_positive A _ Na (round_positive f)) |].
  apply (listed_metric _ _ _ _ H). apply K. exact (round_cell f).
Qed.
(** number 76 leaves two parameters free *)
Example C94_case : exists g, general_positions 10 (parsed "P 41") = Done g /\ of_type (parsed "P 41") 76 /\
  free_parameters (system_of_number 76) = 2%nat /\ free_parameters (system_of_number 5) = 4%nat.
Proof. destruct C87_cases as ((g & H) & Ty & _). exists g. auto. Qed.
