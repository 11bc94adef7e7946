(** * PropLatticeClass: properties C89 and C90: the 73 arithmetic crystal classes, and notations
    without screw subscripts and translation letters. *)
From Coq Require Import QArith Permutation.
From Verif Require Import Base Notations Parser Seitz F64 Jones Rotations Tables Lookup Generate Positions
  Spec SpecHall SpecXyz SpecCompat SpecOutcome SpecTables SpecRotation SpecCanon SpecOrbit SpecSite SpecFamily SpecType SpecKind SpecRelabel SpecLatticeClass
  Algebra PropSeitz PropSymbols PropRotation GenFacts
  PropGenerate GroupCheck PropFullSets PropTables PropTableGroups PropJones RowData TypeFacts TypeCount PropTypes PropShift
  Restriction PropTermination PropCanon PropOutcome Subgroups PropClass PropOrbit PropSubgroup PropSite PropPeriod PropFamily PropRelabel PropOneType PropKind LatticeBasis.
Open Scope Z_scope.
Local Notation length := List.length.

(** ** The relation *)
Lemma class_refl G : same_arithmetic_class G G.
Proof.
  exists I3, 1. split; [lia |]. split; [vm_compute; discriminate |].
  assert (A : forall v, mvmul I3 v = vscale 1 v) by (intros [x y z]; unfold mvmul, vscale, I3; cbn; f_equal; ring).
  assert (B : forall R, mmul I3 R = mmul R I3) by (intros R; rewrite mmul_I_l, mmul_I_r; reflexivity).
  split; [eauto |]. split; [eauto |]. split; eauto.
Qed.
Lemma class_sym G G' : same_arithmetic_class G G' -> same_arithmetic_class G' G.
Proof.
  intros (M & d & D & N & L1 & L2 & P1 & P2).
  set (k := Z.sgn (mdet M) * d).
  assert (S0 : Z.sgn (mdet M) * mdet M = Z.abs (mdet M)) by apply sgn_abs.
  assert (Sk : Z.sgn (mdet M) <> 0) by (rewrite Z.sgn_null_iff; exact N).
  assert (V : forall v v', mvmul M v = vscale d v' -> mvmul (mscale k (madj M)) v' = vscale (Z.abs (mdet M)) v).
  { intros v v' E. rewrite mvmul_mscale. assert (E' := f_equal (fun x => vscale (Z.sgn (mdet M)) (mvmul (madj M) x)) E). cbv beta in E'.
    rewrite madj_mvmul_l, vscale_vscale, S0 in E'. rewrite E'. unfold k. destruct (madj M) as [a b c e f g h i j], v' as [x y z]. unfold mvmul, vscale. cbn [m11 m12 m13 m21 m22 m23 m31 m32 m33 vx vy vz]. f_equal; ring. }
  assert (Q : forall R R', mmul M R = mmul R' M -> mmul (mscale k (madj M)) R' = mmul R (mscale k (madj M))).
  { intros R R' E. assert (E2 : mmul (madj M) R' = mmul R (madj M)).
    { apply (mmul_inj_l M _ _ N). apply (mmul_inj_r M _ _ N). rewrite !mmul_assoc, (madj_r M), E, <- !mmul_assoc, (madj_l M).
      destruct R' as [a b c e f g h i j]. destruct M as [a1 a2 a3 a4 a5 a6 a7 a8 a9]. unfold mmul, mscale, mmap, I3. cbn [m11 m12 m13 m21 m22 m23 m31 m32 m33]. f_equal; ring. }
    destruct (madj M) as [a b c e f g h i j]. destruct R as [r1 r2 r3 r4 r5 r6 r7 r8 r9], R' as [s1 s2 s3 s4 s5 s6 s7 s8 s9].
    unfold mmul, mscale, mmap in *. cbn [m11 m12 m13 m21 m22 m23 m31 m32 m33] in *.
    pose proof (f_equal m11 E2) as Q1. pose proof (f_equal m12 E2) as Q2. pose proof (f_equal m13 E2) as Q3. pose proof (f_equal m21 E2) as Q4.
    pose proof (f_equal m22 E2) as Q5. pose proof (f_equal m23 E2) as Q6. pose proof (f_equal m31 E2) as Q7. pose proof (f_equal m32 E2) as Q8.
    pose proof (f_equal m33 E2) as Q9. cbn [m11 m12 m13 m21 m22 m23 m31 m32 m33] in *. clear E2.
    apply (f_equal (Z.mul k)) in Q1, Q2, Q3, Q4, Q5, Q6, Q7, Q8, Q9. f_equal; lia. }
  exists (mscale k (madj M)), (Z.abs (mdet M)). split; [lia |]. split.
  { rewrite mdet_mscale, mdet_madj. unfold k. intros E. assert (k <> 0) by (unfold k; nia). fold k in E.
    destruct (Z.mul_eq_0 (k * k * k) (mdet M * mdet M)) as [X _]. destruct (X E) as [X' | X']; nia. }
  split; [intros v' G'v; destruct (L2 v' G'v) as (v & Gv & E); eauto |].
  split; [intros v Gv; destruct (L1 v Gv) as (v' & Gv' & E); eauto |].
  split; [intros R' t' X; destruct (P2 R' t' X) as (R & t & Gt & E); eauto |].
  intros R t Gt. destruct (P1 R t Gt) as (R' & t' & X & E); eauto.
Qed.
Lemma class_trans G G' G'' : same_arithmetic_class G G' -> same_arithmetic_class G' G'' -> same_arithmetic_class G G''.
Proof.
  intros (M & d & D & N & L1 & L2 & P1 & P2) (M' & d' & D' & N' & L1' & L2' & P1' & P2').
  assert (V : forall v v' v'', mvmul M v = vscale d v' -> mvmul M' v' = vscale d' v'' -> mvmul (mmul M' M) v = vscale (d' * d) v'').
  { intros v v' v'' E E'. rewrite mvmul_mmul, E. transitivity (vscale d (mvmul M' v')).
    - destruct M' as [a b c e f g h i j], v' as [x y z]. unfold mvmul, vscale. cbn [m11 m12 m13 m21 m22 m23 m31 m32 m33 vx vy vz]. f_equal; ring.
    - rewrite E', vscale_vscale. f_equal. ring. }
  assert (Q : forall R R' R'', mmul M R = mmul R' M -> mmul M' R' = mmul R'' M' -> mmul (mmul M' M) R = mmul R'' (mmul M' M)).
  { intros R R' R'' E E'. rewrite <- mmul_assoc, E, mmul_assoc, E', <- mmul_assoc. reflexivity. }
  exists (mmul M' M), (d' * d). split; [nia |]. split; [rewrite mdet_mmul; nia |].
  split; [intros v Gv; destruct (L1 v Gv) as (v' & Gv' & E); destruct (L1' v' Gv') as (v'' & Gv'' & E'); eauto |].
  split; [intros v'' Gv''; destruct (L2' v'' Gv'') as (v' & Gv' & E'); destruct (L2 v' Gv') as (v & Gv & E); eauto |].
  split; [intros R t Gt; destruct (P1 R t Gt) as (R' & t' & Gt' & E); destruct (P1' R' t' Gt') as (R'' & t'' & Gt'' & E'); eauto |].
  intros R'' t'' Gt''. destruct (P2' R'' t'' Gt'') as (R' & t' & Gt' & E'). destruct (P2 R' t' Gt') as (R & t & Gt & E). eauto.
Qed.
Lemma class_ext G A B : (forall o, A o <-> B o) -> same_arithmetic_class G A -> same_arithmetic_class G B.
Proof.
  intros E (M & d & D & N & L1 & L2 & P1 & P2). exists M, d. split; [exact D |]. split; [exact N |].
  split; [intros v Gv; destruct (L1 v Gv) as (v' & X & Y); exists v'; split; [apply E, X | exact Y] |].
  split; [intros v' Gv'; exact (L2 v' (proj2 (E _) Gv')) |].
  split; [intros R t Gt; destruct (P1 R t Gt) as (R' & t' & X & Y); exists R', t'; split; [apply E, X | exact Y] |].
  intros R' t' Gt'. exact (P2 R' t' (proj2 (E _) Gt')).
Qed.
(** the same rotation parts and the same translations *)
Lemma class_same (G G' : op -> Prop) : (forall v, G (I3, v) <-> G' (I3, v)) ->
  (forall R, (exists t, G (R, t)) <-> exists t, G' (R, t)) -> same_arithmetic_class G G'.
Proof.
  intros L P. exists I3, 1. split; [lia |]. split; [vm_compute; discriminate |].
  assert (A : forall v, mvmul I3 v = vscale 1 v) by (intros [x y z]; unfold mvmul, vscale, I3; cbn; f_equal; ring).
  assert (B : forall R, mmul I3 R = mmul R I3) by (intros R; rewrite mmul_I_l, mmul_I_r; reflexivity).
  split; [intros v X; exists v; split; [apply L, X | apply A] |].
  split; [intros v X; exists v; split; [apply L, X | apply A] |].
  split; intros R t X.
  - destruct (proj1 (P R)) as (u & U); [eauto |]. exists R, u. auto.
  - destruct (proj2 (P R)) as (u & U); [eauto |]. exists R, u. auto.
Qed.
(** a change of coordinates keeps the class *)
Lemma turns_class f G G' : invertible f -> turns_into f G G' -> same_arithmetic_class G G'.
Proof.
  intros [D N] [T1 T2]. exists (ch_M f), (ch_d f). split; [exact D |]. split; [exact N |].
  assert (K : forall v w, vadd v (ch_q f) = vadd (ch_q f) w -> v = w).
  { intros [x y z] [x1 y1 z1] E. destruct (ch_q f) as [x2 y2 z2]. unfold vadd in E. cbn in E. injection E as E1 E2 E3. f_equal; lia. }
  split; [| split; [| split]].
  - intros v Gv. destruct (T1 _ Gv) as ([R' v'] & X & C). apply (carries_iff f _ _ D) in C. destruct C as [C1 C2]. cbn [fst snd] in C1, C2.
    assert (E : R' = I3). { apply (mmul_inj_r (ch_M f) _ _ N). rewrite <- C1, mmul_I_l, mmul_I_r. reflexivity. }
    subst R'. exists v'. split; [exact X |]. rewrite mvmul_I in C2. apply K in C2. exact C2.
  - intros v' X. destruct (T2 _ X) as ([R v] & Gv & C). apply (carries_iff f _ _ D) in C. destruct C as [C1 C2]. cbn [fst snd] in C1, C2.
    assert (E : R = I3). { apply (mmul_inj_l (ch_M f) _ _ N). rewrite C1, mmul_I_l, mmul_I_r. reflexivity. }
    subst R. exists v. split; [exact Gv |]. rewrite mvmul_I in C2. apply K in C2. exact C2.
  - intros R t Gt. destruct (T1 _ Gt) as ([R' t'] & X & C). apply (carries_iff f _ _ D) in C. destruct C as [C1 _]. eauto.
  - intros R' t' X. destruct (T2 _ X) as ([R t] & Gt & C). apply (carries_iff f _ _ D) in C. destruct C as [C1 _]. eauto.
Qed.
(** ** Groups that are their point group times their lattice *)
Definition split_group (G : op -> Prop) : Prop := forall R t, G (R, t) <-> (exists u, G (R, u)) /\ G (I3, t).
Lemma split_type G G' : split_group G -> split_group G' -> (forall v, G' (I3, v) -> G' (I3, vopp v)) ->
  same_arithmetic_class G G' -> same_type G G'.
Proof.
  intros S1 S2 O (M & d & D & N & L1 & L2 & P1 & P2).
  assert (C : forall k, k = 1 \/ k = -1 -> turns_into (Ch (mscale k M) v0 d) G G').
  { intros k Hk.
    assert (V : forall v v', mvmul M v = vscale d v' -> mvmul (mscale k M) v = vscale d (vscale k v')).
    { intros v v' E. rewrite mvmul_mscale, E, !vscale_vscale. f_equal. ring. }
    assert (Q : forall R R', mmul M R = mmul R' M -> mmul (mscale k M) R = mmul R' (mscale k M)).
    { intros R R' E. destruct Hk as [-> | ->].
      - assert (X : mscale 1 M = M) by (destruct M as [a b c e f g h i j]; unfold mscale, mmap; cbn [m11 m12 m13 m21 m22 m23 m31 m32 m33]; f_equal; ring). rewrite X. exact E.
      - assert (X : forall A B, mmul (mscale (-1) A) B = mscale (-1) (mmul A B)) by (intros [a b c e f g h i j] [a1 b1 c1 e1 f1 g1 h1 i1 j1]; unfold mmul, mscale, mmap; cbn [m11 m12 m13 m21 m22 m23 m31 m32 m33]; f_equal; ring).
        assert (Y : forall A B, mmul B (mscale (-1) A) = mscale (-1) (mmul B A)) by (intros [a b c e f g h i j] [a1 b1 c1 e1 f1 g1 h1 i1 j1]; unfold mmul, mscale, mmap; cbn [m11 m12 m13 m21 m22 m23 m31 m32 m33]; f_equal; ring).
        rewrite X, Y, E. reflexivity. }
    assert (W : forall v, G' (I3, v) -> G' (I3, vscale k v)).
    { intros v X. destruct Hk as [-> | ->]; [rewrite vscale_1; exact X |].
      assert (E : vscale (-1) v = vopp v) by (destruct v as [x y z]; unfold vscale, vopp; cbn [vx vy vz]; f_equal; ring). rewrite E. apply O, X. }
    assert (Z0 : forall R, mvmul R v0 = v0) by (intros [a b c e f g h i j]; unfold mvmul, v0; cbn [m11 m12 m13 m21 m22 m23 m31 m32 m33 vx vy vz]; f_equal; ring).
    assert (Z1 : forall v, vadd v v0 = v) by (intros [x y z]; unfold vadd, v0; cbn [vx vy vz]; f_equal; ring).
    assert (Z2 : forall v, vadd v0 v = v) by (intros [x y z]; unfold vadd, v0; cbn [vx vy vz]; f_equal; ring).
    split.
    - intros [R t] Gt. apply S1 in Gt. destruct Gt as ((u & Gu) & Gt). destruct (P1 R u Gu) as (R' & u' & Gu' & E). destruct (L1 t Gt) as (t' & Gt' & E').
      exists (R', vscale k t'). split; [apply S2; split; [eauto | apply W, Gt'] |]. apply carries_iff; [exact D |]. split; cbn [fst snd ch_M ch_q ch_d]; [apply Q, E |].
      rewrite Z0, Z1, Z2. apply V, E'.
    - intros [R' t'] Gt'. apply S2 in Gt'. destruct Gt' as ((u' & Gu') & Gt'). destruct (P2 R' u' Gu') as (R & u & Gu & E).
      destruct (L2 (vscale k t') (W _ Gt')) as (t & Gt & E').
      exists (R, t). split; [apply S1; eauto |]. apply carries_iff; [exact D |]. split; cbn [fst snd ch_M ch_q ch_d]; [apply Q, E |].
      rewrite Z0, Z1, Z2. rewrite (V _ _ E'), !vscale_vscale. assert (E1 : k * k = 1) by nia. replace (d * k * k) with d by nia. reflexivity. }
  destruct (Z.lt_trichotomy (mdet M) 0) as [X | [X | X]]; [| contradiction |].
  - exists (Ch (mscale (-1) M) v0 d). unfold invertible, keeps_handedness. cbn [ch_M ch_d]. rewrite mdet_mscale.
    split; [split; [exact D | lia] |]. split; [lia |]. apply C. auto.
  - exists (Ch (mscale 1 M) v0 d). unfold invertible, keeps_handedness. cbn [ch_M ch_d]. rewrite mdet_mscale.
    split; [split; [exact D | lia] |]. split; [lia |]. apply C. auto.
Qed.
Lemma group_opp h v : hall_group h (I3, v) -> hall_group h (I3, vopp v).
Proof.
  intros G. apply (gen_inv _ (I3, v)); [exact G |]. unfold op_comp, op_id. cbn [fst snd]. rewrite mmul_I_l, mvmul_I. f_equal.
  destruct v as [x y z]. unfold vadd, vopp. cbn [vx vy vz]. f_equal; ring.
Qed.
Lemma group_translate h R t v : hall_group h (I3, v) -> hall_group h (R, t) -> hall_group h (R, vadd t v).
Proof.
  intros A B. pose proof (gen_comp _ _ _ A B) as C. unfold op_comp in C. cbn [fst snd] in C. rewrite mmul_I_l, mvmul_I in C. exact C.
Qed.
Lemma split_origin h : (forall R u, hall_group h (R, u) -> hall_group h (R, v0)) -> split_group (hall_group h).
Proof.
  intros K R t. split.
  - intros G. split; [eauto |]. pose proof (K R t G) as G0. pose proof (hall_group_unimodular _ _ G0) as U.
    pose proof (group_inverse h (R, v0) G0) as Gi. pose proof (gen_comp _ _ _ G Gi) as C. unfold op_comp, op_inv in C. cbn [fst snd] in C.
    match type of C with generated _ (?a, ?b) => assert (Ea : a = I3); [| assert (Eb : b = t)] end.
    + pose proof (op_inv_r (R, v0) U) as X. unfold op_comp, op_inv, op_id in X. cbn [fst snd] in X. congruence.
    + destruct t as [x y z]. generalize (minv R). intros [a b c d e f g i j]. destruct R as [r1 r2 r3 r4 r5 r6 r7 r8 r9].
      unfold mvmul, vopp, vadd, v0. cbn [m11 m12 m13 m21 m22 m23 m31 m32 m33 vx vy vz]. f_equal; ring.
    + rewrite Ea, Eb in C. exact C.
  - intros ((u & Gu) & Gt). pose proof (group_translate h R v0 t Gt (K R u Gu)) as C.
    assert (E : vadd v0 t = t) by (destruct t as [x y z]; unfold vadd, v0; cbn [vx vy vz]; f_equal; ring). rewrite E in C. exact C.
Qed.

(** ** The rows *)
Lemma pure_centring h : no_extra_translations h -> forall v, hall_group h (I3, v) <-> centring (ls_char (h_lat h)) v.
Proof.
  intros T v. split; [apply T |]. exact (hall_group_lat h v).
Qed.
Definition pinb (R : mat3) (l : list seitz) : bool := existsb (fun m => meqb R (rot m)) l.
Lemma pinb_spec R l : pinb R l = true <-> exists m, In m l /\ rot m = R.
Proof.
  unfold pinb. rewrite existsb_exists. split; intros (m & I & E); exists m; split; auto.
  - apply meqb_eq in E. auto.
  - apply meqb_eq. auto.
Qed.
Definition letter_eqb (a b : lattice) : bool :=
  match a, b with LP, LP | LA, LA | LB, LB | LC, LC | LI, LI | LR, LR | LF, LF => true | _, _ => false end.
Definition data_letter (p : hall * list seitz) : lattice := ls_char (h_lat (fst p)).
Definition class_pair (a b : hall * list seitz) : bool :=
  letter_eqb (data_letter a) (data_letter b) && forallb (fun m => pinb (rot m) (snd b)) (snd a) && forallb (fun m => pinb (rot m) (snd a)) (snd b).
Definition split_data (d : hall * list seitz) : bool := forallb (fun m => existsb (veqb (tra m)) (data_lattice d)) (snd d).
Lemma pair_class fuel h g fuel' h' g' : general_positions fuel h = Done g -> general_positions fuel' h' = Done g' ->
  no_extra_translations h -> no_extra_translations h' -> class_pair (h, gp_core g) (h', gp_core g') = true ->
  same_arithmetic_class (hall_group h) (hall_group h').
Proof.
  intros H H' T T' K. unfold class_pair in K. rewrite !andb_true_iff, !forallb_forall in K. destruct K as ((L & A) & B). cbn [snd] in A, B.
  unfold data_letter in L. cbn [fst] in L.
  assert (E : ls_char (h_lat h) = ls_char (h_lat h')) by (destruct (ls_char (h_lat h)), (ls_char (h_lat h')); try discriminate L; reflexivity).
  apply class_same.
  - intros v. rewrite (pure_centring h T), (pure_centring h' T'), E. reflexivity.
  - intros R. rewrite (C26_point_group_complete _ _ _ H R), (C26_point_group_complete _ _ _ H' R). split; intros (m & Im & <-); apply pinb_spec; auto.
Qed.
Lemma split_row fuel h g : general_positions fuel h = Done g -> no_extra_translations h -> split_data (h, gp_core g) = true -> split_group (hall_group h).
Proof.
  intros H T K. unfold split_data in K. rewrite forallb_forall in K. cbn [snd] in K. apply split_origin. intros R u G.
  destruct (proj1 (C26_point_group_complete _ _ _ H R)) as (m & Im & <-); [eauto |].
  specialize (K m Im). apply existsb_exists in K. destruct K as (w & Iw & E). apply veqb_eq in E. 
  destruct (C25_positions_sound _ _ _ H m Im) as [_ Gm]. unfold op_of in Gm. unfold data_lattice in Iw. cbn [fst] in Iw.
  assert (Gw : hall_group h (I3, vopp (tra m))).
  { apply group_opp. apply (pure_centring h T). exists w. split; [exact Iw | rewrite E; apply vcong12_refl]. }
  pose proof (group_translate h _ _ _ Gw Gm) as C.
  assert (Q : vadd (tra m) (vopp (tra m)) = v0) by (destruct (tra m) as [x y z]; unfold vadd, vopp, v0; cbn [vx vy vz]; f_equal; ring).
  rewrite Q in C. exact C.
Qed.
(** ** The partition *)
Section Partition.
Variable top : nat.
Variable L : list (list nat).
Variable special : list nat.
Definition partition_check : bool :=
  forallb (fun n => match filter (inb n) L with [_] => true | _ => false end) (seq 1 top) &&
  forallb (forallb (fun n => (Nat.leb 1 n && Nat.leb n top)%bool)) L &&
  forallb (fun c => match filter (fun n => inb n special) c with [_] => true | _ => false end) L.
Hypothesis Ok : partition_check = true.
Lemma part_range c n : In c L -> In n c -> (1 <= n <= top)%nat.
Proof.
  intros Ic In'. pose proof Ok as K. unfold partition_check in K. rewrite !andb_true_iff in K. destruct K as [[_ K] _].
  rewrite forallb_forall in K. specialize (K c Ic). rewrite forallb_forall in K. specialize (K n In').
  apply andb_true_iff in K. destruct K as [K1 K2]. apply Nat.leb_le in K1, K2. lia.
Qed.
Lemma part_unique n c c' : In c L -> In c' L -> In n c -> In n c' -> c = c'.
Proof.
  intros I I' J J'. pose proof Ok as K. unfold partition_check in K. rewrite !andb_true_iff in K. destruct K as [[K _] _].
  rewrite forallb_forall in K. pose proof (part_range c n I J) as W. specialize (K n (proj2 (in_seq top 1 n) ltac:(lia))).
  assert (A : In c (filter (inb n) L)) by (apply filter_In; split; [exact I | apply inb_spec, J]).
  assert (A' : In c' (filter (inb n) L)) by (apply filter_In; split; [exact I' | apply inb_spec, J']).
  destruct (filter (inb n) L) as [| x [| y l]]; try discriminate. destruct A as [<- | []], A' as [<- | []]. reflexivity.
Qed.
Lemma part_exists n : (1 <= n <= top)%nat -> exists c, In c L /\ In n c.
Proof.
  intros W. pose proof Ok as K. unfold partition_check in K. rewrite !andb_true_iff in K. destruct K as [[K _] _].
  rewrite forallb_forall in K. specialize (K n (proj2 (in_seq top 1 n) ltac:(lia))).
  destruct (filter (inb n) L) as [| x l] eqn:F; [discriminate |].
  assert (A : In x (filter (inb n) L)) by (rewrite F; left; reflexivity).
  apply filter_In in A. destruct A as [A B]. exists x. split; [exact A | apply inb_spec, B].
Qed.
Lemma part_head c : In c L -> exists k, filter (fun n => inb n special) c = [k].
Proof.
  intros Ic. pose proof Ok as K. unfold partition_check in K. rewrite !andb_true_iff in K. destruct K as [_ K].
  rewrite forallb_forall in K. specialize (K c Ic).
  destruct (filter (fun n => inb n special) c) as [| k [| k' l]]; try discriminate. eauto.
Qed.
Lemma part_head_in c k : filter (fun n => inb n special) c = [k] -> forall n, In n c /\ In n special <-> n = k.
Proof.
  intros F n. assert (X : In n (filter (fun n => inb n special) c) <-> In n [k]) by (rewrite F; reflexivity).
  rewrite filter_In, inb_spec in X. rewrite X. cbn [In]. split; [intros [E | []]; auto | auto].
Qed.
Variable groups : list (hall * list seitz).
Definition class_list (c : list nat) : bool :=
  match filter (fun n => inb n special) c with
  | [k] => match nth_error groups (pred k) with
           | Some dk => split_data dk && forallb (fun n => match nth_error groups (pred n) with Some dn => class_pair dn dk | None => false end) c
           | None => false
           end
  | _ => false
  end.
Hypothesis Lists : forallb class_list L = true.
Lemma part_fact c k n d d' : In c L -> filter (fun n => inb n special) c = [k] -> In n c ->
  nth_error groups (pred n) = Some d -> nth_error groups (pred k) = Some d' -> class_pair d d' = true /\ split_data d' = true.
Proof.
  intros Ic F Jn D D'. pose proof Lists as K. rewrite forallb_forall in K. specialize (K c Ic). unfold class_list in K. rewrite F in K.
  rewrite D' in K. apply andb_true_iff in K. destruct K as [K1 K2]. rewrite forallb_forall in K2. specialize (K2 n Jn). rewrite D in K2. auto.
Qed.
End Partition.
Lemma partition_ok : partition_check 230 arithmetic_classes symmorphic_types = true. Proof. vm_cast_no_check (@eq_refl bool true). Qed.
Lemma class_lists : forallb (class_list symmorphic_types default_groups) arithmetic_classes = true.
Proof. vm_cast_no_check (@eq_refl bool true). Qed.
Definition class_range := part_range 230 arithmetic_classes symmorphic_types partition_ok.
Definition class_unique := part_unique 230 arithmetic_classes symmorphic_types partition_ok.
Definition class_exists := part_exists 230 arithmetic_classes symmorphic_types partition_ok.
Definition class_head := part_head 230 arithmetic_classes symmorphic_types partition_ok.
Definition head_in := part_head_in symmorphic_types.
(** the default row numbered [n] *)
Lemma row_of n : (1 <= n <= 230)%nat -> exists label s h0 g0,
  get_space_group_number default_table (pred n) = Some label /\ get_hall_symbol default_table (pred n) = Some s /\ leading_number label = n /\
  try_from_str s = Done (Some h0) /\ general_positions 10 h0 = Done g0 /\ no_extra_translations h0 /\
  nth_error default_groups (pred n) = Some (h0, gp_core g0).
Proof.
  intros W. assert (L : length default_hall = 230%nat) by reflexivity.
  destruct (nth_error default_hall (pred n)) as [s |] eqn:E; [| apply nth_error_None in E; lia].
  destruct (row_number (pred n) s E) as (label & El & En & _).
  destruct (row_facts false (pred n) label s El E) as (h0 & g0 & P & G & T).
  exists label, s, h0, g0. specialize (G 10%nat (le_n _)). split; [exact El |]. split; [exact E |]. split; [rewrite En; lia |]. split; [exact P |].
  split; [exact G |]. split; [exact T |].
  destruct (row_data _ _ default_groups_ok (pred n) s E) as (d & Ed & R). unfold row_group in R. rewrite P, G in R. rewrite Ed. congruence.
Qed.
Lemma row_at j label : get_space_group_number default_table j = Some label -> j = pred (leading_number label).
Proof. intros E. destruct (default_number_of j label E) as [-> _]. reflexivity. Qed.
(** members of one list: the same class; heads: split groups *)
Lemma class_fact c k n s s' h h' g g' : In c arithmetic_classes -> filter (fun n => inb n symmorphic_types) c = [k] -> In n c ->
  get_hall_symbol default_table (pred n) = Some s -> try_from_str s = Done (Some h) -> general_positions 10 h = Done g -> no_extra_translations h ->
  get_hall_symbol default_table (pred k) = Some s' -> try_from_str s' = Done (Some h') -> general_positions 10 h' = Done g' -> no_extra_translations h' ->
  same_arithmetic_class (hall_group h) (hall_group h') /\ split_group (hall_group h').
Proof.
  intros Ic F Jn E P G T E' P' G' T'.
  assert (D : nth_error default_groups (pred n) = Some (h, gp_core g)).
  { destruct (row_data _ _ default_groups_ok (pred n) s E) as (d & Ed & R). unfold row_group in R. rewrite P, G in R. rewrite Ed. congruence. }
  assert (D' : nth_error default_groups (pred k) = Some (h', gp_core g')).
  { destruct (row_data _ _ default_groups_ok (pred k) s' E') as (d & Ed & R). unfold row_group in R. rewrite P', G' in R. rewrite Ed. congruence. }
  destruct (part_fact _ _ _ class_lists c k n _ _ Ic F Jn D D') as [K2 K1].
  split; [exact (pair_class _ _ _ _ _ _ G G' T T' K2) | exact (split_row _ _ _ G' T' K1)].
Qed.
(** ** C89 *)
(** the 73 lists are disjoint, make up 1..230, and hold one symmorphic number each *)
Theorem C89_partition :
  length arithmetic_classes = 73%nat /\
  (forall n, (1 <= n <= 230)%nat -> exists! c, In c arithmetic_classes /\ In n c) /\
  (forall c n, In c arithmetic_classes -> In n c -> (1 <= n <= 230)%nat) /\
  (forall c, In c arithmetic_classes -> exists! k, In k c /\ In k symmorphic_types).
Proof.
  split; [reflexivity |]. split; [| split; [exact class_range |]].
  - intros n W. destruct (class_exists n W) as (c & I & J). exists c. split; [auto |]. intros c' [I' J']. exact (class_unique n c c' I I' J J').
  - intros c Ic. destruct (class_head c Ic) as (k & F). exists k. split; [apply (head_in c k F), eq_refl |].
    intros k' K'. symmetry. apply (head_in c k F), K'.
Qed.
(** two default rows are of one class exactly when their numbers are in one list *)
Lemma rows_class n n' s s' h h' g g' : (1 <= n <= 230)%nat -> (1 <= n' <= 230)%nat ->
  get_hall_symbol default_table (pred n) = Some s -> try_from_str s = Done (Some h) -> general_positions 10 h = Done g -> no_extra_translations h ->
  get_hall_symbol default_table (pred n') = Some s' -> try_from_str s' = Done (Some h') -> general_positions 10 h' = Done g' -> no_extra_translations h' ->
  (same_arithmetic_class (hall_group h) (hall_group h') <-> classmates n n').
Proof.
  intros W W' E P G T E' P' G' T'.
  destruct (class_exists n W) as (c & Ic & Jc). destruct (class_exists n' W') as (c' & Ic' & Jc').
  destruct (class_head c Ic) as (k & F). destruct (class_head c' Ic') as (k' & F').
  pose proof (proj2 (head_in c k F k) eq_refl) as [Jk _]. pose proof (proj2 (head_in c' k' F' k') eq_refl) as [Jk' _].
  destruct (row_of k (class_range c k Ic Jk)) as (lk & sk & hk & gk & Elk & Ek & Enk & Pk & Gk & Tk & _).
  destruct (row_of k' (class_range c' k' Ic' Jk')) as (lk' & sk' & hk' & gk' & Elk' & Ek' & Enk' & Pk' & Gk' & Tk' & _). clear Enk Enk'.
  destruct (class_fact c k n s sk h hk g gk Ic F Jc E P G T Ek Pk Gk Tk) as [A S1].
  destruct (class_fact c' k' n' s' sk' h' hk' g' gk' Ic' F' Jc' E' P' G' T' Ek' Pk' Gk' Tk') as [A' S2].
  split.
  - intros Q. assert (B : same_arithmetic_class (hall_group hk) (hall_group hk')).
    { apply (class_trans _ (hall_group h)); [apply class_sym, A |]. apply (class_trans _ (hall_group h')); [exact Q | exact A']. }
    assert (Ty : same_type (hall_group hk) (hall_group hk')) by (apply split_type; auto using group_opp).
    assert (K : pred k = pred k').
    { apply (proj1 (C58_default_rows_are_different_types _ _ sk sk' Ek Ek')).
      destruct Ty as (f & If & Kf & Tf). exists f. split; [exact If |]. split; [exact Kf |].
      destruct Tf as [T1 T2]. split.
      - intros o Go. destruct (T1 o (proj1 (row_text sk hk Pk o) Go)) as (o' & X & Y). exists o'. split; [exact (proj2 (row_text sk' hk' Pk' o') X) | exact Y].
      - intros o' Go'. destruct (T2 o' (proj1 (row_text sk' hk' Pk' o') Go')) as (o & X & Y). exists o. split; [exact (proj2 (row_text sk hk Pk o) X) | exact Y]. }
    pose proof (class_range c k Ic Jk). pose proof (class_range c' k' Ic' Jk'). assert (k = k') by lia. subst k'.
    rewrite <- (class_unique k c c' Ic Ic' Jk Jk') in Jc'. exists c. auto.
  - intros (x & Ix & Jx & Jx'). assert (x = c) by exact (class_unique n x c Ix Ic Jx Jc). subst x.
    assert (c = c') by exact (class_unique n' c c' Ic Ic' Jx' Jc'). subst c'. assert (k = k') by congruence. subst k'.
    assert (sk = sk') by congruence. subst sk'. assert (hk = hk') by congruence. subst hk'.
    apply (class_trans _ (hall_group hk)); [exact A | apply class_sym, A'].
Qed.
Lemma type_class h n : of_type h n -> exists s h0 g0, (1 <= n <= 230)%nat /\ get_hall_symbol default_table (pred n) = Some s /\
  try_from_str s = Done (Some h0) /\ general_positions 10 h0 = Done g0 /\ no_extra_translations h0 /\
  same_arithmetic_class (hall_group h) (hall_group h0).
Proof.
  intros Ty. pose proof (C87_number_range _ _ Ty) as W.
  destruct (type_row h n Ty) as (i & label & s & h0 & g0 & f & El & E & En & P & G & T & _ & If & Tf).
  unfold row_type in En. cbn [andb] in En. pose proof (row_at i label El) as X. rewrite En in X. subst i.
  exists s, h0, g0. split; [exact W |]. split; [exact E |]. split; [exact P |]. split; [exact (G 10%nat (le_n _)) |]. split; [exact T |].
  exact (turns_class f _ _ If Tf).
Qed.
(** the classes of a notation are the numbers in the list of its own number *)
Theorem C89_class_of_the_number :
  forall h n, of_type h n -> forall k, of_class h k <-> classmates n k.
Proof.
  intros h n Ty k. destruct (type_class h n Ty) as (s & h0 & g0 & W & E & P & G & T & A). split.
  - intros (j & label & s' & El & E' & En & Q). destruct (default_number_of j label El) as [Enj Lj]. assert (Wk : (1 <= k <= 230)%nat) by lia.
    pose proof (row_at j label El) as X. rewrite En in X. subst j.
    destruct (row_facts false _ label s' El E') as (h' & g' & P' & G' & T').
    apply (rows_class n k s s' h0 h' g0 g' W Wk E P G T E' P' (G' 10%nat (le_n _)) T').
    apply (class_trans _ (hall_group h)); [apply class_sym, A |]. exact (class_ext _ _ _ (row_text s' h' P') Q).
  - intros C. assert (Wk : (1 <= k <= 230)%nat) by (destruct C as (c & Ic & _ & Jc); exact (class_range c k Ic Jc)).
    destruct (row_of k Wk) as (label & s' & h' & g' & El & E' & En & P' & G' & T' & _).
    exists (pred k), label, s'. split; [exact El |]. split; [exact E' |]. split; [exact En |].
    apply (class_ext _ (hall_group h')); [intros o; symmetry; apply (row_text s' h' P') |].
    apply (class_trans _ (hall_group h0)); [exact A |]. exact (proj2 (rows_class n k s s' h0 h' g0 g' W Wk E P G T E' P' G' T') C).
Qed.
(** every result belongs to exactly one of the 73 classes *)
Theorem C89_exactly_one_class :
  forall fuel h g, general_positions fuel h = Done g -> exists! k, In k symmorphic_types /\ of_class h k.
Proof.
  intros fuel h g H. destruct (C87_exactly_one_number _ _ _ H) as (n & Ty & _).
  pose proof (C87_number_range _ _ Ty) as W. destruct (class_exists n W) as (c & Ic & Jc). destruct (class_head c Ic) as (k & F).
  pose proof (proj2 (head_in c k F k) eq_refl) as [Jk Sk].
  exists k. split; [split; [exact Sk | apply (C89_class_of_the_number h n Ty); exists c; auto] |].
  intros k' [Sk' Ck']. apply (C89_class_of_the_number h n Ty) in Ck'. destruct Ck' as (c' & Ic' & Jn & Jk').
  assert (c' = c) by exact (class_unique n c' c Ic' Ic Jn Jc). subst c'. symmetry. apply (head_in c k F). auto.
Qed.
(** two results are of one class exactly when their numbers are in one list *)
Theorem C89_same_class_iff :
  forall h h' n n', of_type h n -> of_type h' n' ->
    (same_arithmetic_class (hall_group h) (hall_group h') <-> classmates n n').
Proof.
  intros h h' n n' Ty Ty'. destruct (type_class h n Ty) as (s & h0 & g0 & W & E & P & G & T & A).
  destruct (type_class h' n' Ty') as (s' & h0' & g0' & W' & E' & P' & G' & T' & A').
  rewrite <- (rows_class n n' s s' h0 h0' g0 g0' W W' E P G T E' P' G' T'). split; intros Q.
  - apply (class_trans _ (hall_group h)); [apply class_sym, A |]. apply (class_trans _ (hall_group h')); [exact Q | exact A'].
  - apply (class_trans _ (hall_group h0)); [exact A |]. apply (class_trans _ (hall_group h0')); [exact Q | apply class_sym, A'].
Qed.
(** "P 21 21 21" (19) and "P 2 2 2" (16) are of one class, "C 2 2 2" (21) is of another; "P 4a 4b",
    which is of no row, still has exactly one class *)
Example C89_case : classmates 19 16 /\ ~ classmates 19 21 /\ ~ classmates 111 115 /\
  returns (Hall (LS false LP) [MS false F4 SubNone DiagNone AxZ (Some [TA]); MS false F4 SubNone DiagNone AxZ (Some [TB])] v0).
Proof.
  assert (U : forall n k c, In c arithmetic_classes -> In n c -> ~ In k c -> ~ classmates n k).
  { intros n k c I J N (c' & I' & J' & K). rewrite (class_unique n c c' I I' J J') in N. contradiction. }
  split; [exists [16; 17; 18; 19]%nat; split; [exact (nth_error_In arithmetic_classes 8%nat eq_refl) | split; cbn [In]; tauto] |].
  split; [apply (U 19%nat 21%nat [16; 17; 18; 19]%nat); [exact (nth_error_In arithmetic_classes 8%nat eq_refl) | cbn [In]; tauto | cbn [In]; lia] |].
  split; [apply (U 111%nat 115%nat [111; 112; 113; 114]%nat); [exact (nth_error_In arithmetic_classes 31%nat eq_refl) | cbn [In]; tauto | cbn [In]; lia] |].
  exists 10%nat. eexists. vm_compute. reflexivity.
Qed.

(** ** C90 *)
Lemma bare_matrix ms m : seitz_matrix ms = Some m -> seitz_matrix (bare_symbol ms) = Some (aff (rot m) v0).
Proof.
  destruct ms as [mi f s d a trs]. unfold bare_symbol. cbn [ms_minus ms_fold ms_diag ms_axis]. intros H.
  assert (H0 : exists m0, seitz_matrix (MS mi f s d a None) = Some m0 /\ rot m = rot m0).
  { destruct trs as [l |]; [| eauto]. destruct (C08_letters_add_up _ m l H eq_refl) as (m0 & w & E & R & _). eauto. }
  destruct H0 as (m0 & E & ->). clear H. 
  assert (K : match seitz_matrix (MS mi f s d a None) with Some m0 => match seitz_matrix (MS mi f SubNone d a None) with Some m1 => m1 = aff (rot m0) v0 | None => False end | None => True end).
  { clear. destruct mi, f, s, d, a; first [reflexivity | exact I]. }
  rewrite E in K. destruct (seitz_matrix (MS mi f SubNone d a None)) as [m1 |]; [| contradiction]. f_equal. exact K.
Qed.
Lemma bare_valid h : all_symbols_valid h -> all_symbols_valid (bare h).
Proof.
  intros V ms I. cbn [bare h_syms] in I. apply in_map_iff in I. destruct I as (ms0 & <- & I). specialize (V ms0 I).
  destruct (seitz_matrix ms0) as [m |] eqn:E; [| contradiction]. rewrite (bare_matrix ms0 m E). discriminate.
Qed.
Lemma bare_folds l : prod_folds (map bare_symbol l) = prod_folds l.
Proof. induction l as [| s l IH]; [reflexivity |]. cbn [map]. unfold prod_folds in *. cbn [fold_right]. rewrite IH. reflexivity. Qed.
Lemma bare_family l : one_family l -> one_family (map bare_symbol l).
Proof.
  destruct l as [| s l]; [auto |]. unfold one_family. cbn [map].
  assert (H : forall P : msym -> Prop, (forall x, P x -> P (bare_symbol x)) -> (forall ms, In ms (s :: l) -> P ms) -> forall ms, In ms (bare_symbol s :: map bare_symbol l) -> P ms).
  { intros P B K ms I. change (In ms (map bare_symbol (s :: l))) in I. apply in_map_iff in I. destruct I as (x & <- & I). apply B, K, I. }
  cbn [bare_symbol ms_fold ms_diag]. destruct (ms_fold s), (ms_diag s); apply H; intros x; unfold cubic_kind, hexagonal_kind, rhombohedral_kind; cbn [bare_symbol ms_fold ms_diag ms_axis]; auto.
Qed.
(** leaving out subscripts, letters and shift keeps a result *)
Theorem C90_bare_returns : forall h, returns h -> returns (bare h).
Proof.
  intros h R. apply (C62_outcome h) in R. destruct R as (V & B & F). apply (C62_outcome (bare h)).
  split; [exact (bare_valid h V) |]. split; [| exact (bare_family _ F)].
  unfold buffer_fits in *. cbn [bare h_lat h_syms]. rewrite bare_folds. exact B.
Qed.
(** its operations: the rotation parts of the given group with the centring translations *)
Lemma rot_centring h R u v : no_extra_translations h -> hall_group h (R, u) -> centring (ls_char (h_lat h)) v -> centring (ls_char (h_lat h)) (mvmul R v).
Proof.
  intros T G C. apply T. apply (pure_centring h T) in C. pose proof (gen_comp _ _ _ G C) as A. unfold op_comp in A. cbn [fst snd] in A.
  rewrite mmul_I_r in A. pose proof (group_inverse h (R, u) G) as Gi. pose proof (gen_comp _ _ _ A Gi) as B.
  pose proof (op_inv_r (R, u) (hall_group_unimodular _ _ G)) as X. unfold op_inv in X, B. unfold op_comp, op_id in X, B. cbn [fst snd] in X, B.
  pose proof (f_equal fst X) as X1. pose proof (f_equal snd X) as X2. cbn [fst snd] in X1, X2. rewrite X1 in B. clear X X1.
  assert (Q : vadd (mvmul R (vopp (mvmul (minv R) u))) (vadd (mvmul R v) u) = mvmul R v).
  { generalize dependent (mvmul R (vopp (mvmul (minv R) u))). intros [x y z] _ E. destruct u as [x1 y1 z1], (mvmul R v) as [x2 y2 z2].
    unfold vadd, v0 in *. cbn [vx vy vz] in *. injection E as E1 E2 E3. f_equal; lia. }
  rewrite Q in B. exact B.
Qed.
Lemma op_comp_id_swap a b : op_comp a b = op_id -> mmul (fst b) (fst a) = I3 /\ snd b = vopp (mvmul (fst b) (snd a)).
Proof.
  destruct a as [A u], b as [B v]. unfold op_comp, op_id. cbn [fst snd]. intros E. pose proof (f_equal fst E) as E1. pose proof (f_equal snd E) as E2. cbn [fst snd] in E1, E2. clear E.
  assert (D : mdet A <> 0). { intros D. pose proof (mdet_mmul A B) as X. rewrite E1, D in X. vm_compute in X. discriminate. }
  assert (K : mmul B A = I3). { apply (mmul_inj_l A _ _ D). rewrite mmul_assoc, E1, mmul_I_l, mmul_I_r. reflexivity. }
  split; [exact K |]. pose proof (f_equal (mvmul B) E2) as X. 
  assert (Y : mvmul B (vadd (mvmul A v) u) = vadd (mvmul (mmul B A) v) (mvmul B u)) by (destruct A as [a1 a2 a3 a4 a5 a6 a7 a8 a9], B as [b1 b2 b3 b4 b5 b6 b7 b8 b9], v as [x y z], u as [x1 y1 z1];
    unfold mvmul, mmul, vadd; cbn [m11 m12 m13 m21 m22 m23 m31 m32 m33 vx vy vz]; f_equal; ring).
  rewrite Y, K, mvmul_I in X. 
  assert (W : mvmul B v0 = v0) by (destruct B as [b1 b2 b3 b4 b5 b6 b7 b8 b9]; unfold mvmul, v0; cbn [m11 m12 m13 m21 m22 m23 m31 m32 m33 vx vy vz]; f_equal; ring).
  pose proof (eq_trans X W) as X'. clear X W Y E2. rename X' into X. destruct v as [x y z], (mvmul B u) as [x1 y1 z1]. unfold vadd, vopp, v0 in *. cbn [vx vy vz] in *. injection X as X1 X2 X3. f_equal; lia.
Qed.
Theorem C90_bare_group :
  forall h, all_symbols_valid h -> no_extra_translations h ->
    forall R t, hall_group (bare h) (R, t) <-> (exists u, hall_group h (R, u)) /\ centring (ls_char (h_lat h)) t.
Proof.
  intros h V T.
  assert (B0 : forall o, hall_gens (bare h) o -> (exists u, hall_group h (fst o, u)) /\ centring (ls_char (h_lat h)) (snd o)).
  { intros o [(v & Iv & ->) | [(Mi & ->) | (ms & m & I & E & ->)]]; cbn [bare h_lat h_syms h_shift] in *.
    - split; [exists v0; apply gen_one | exists v; split; [exact Iv | apply vcong12_refl]].
    - split; [exists (V3 0 0 0); apply gen_base; right; left; auto | apply in_lat_0].
    - apply in_map_iff in I. destruct I as (ms0 & <- & I). specialize (V ms0 I). destruct (seitz_matrix ms0) as [m0 |] eqn:E0; [| contradiction].
      rewrite (bare_matrix ms0 m0 E0) in E. assert (m = aff (rot m0) v0) by congruence. subst m. rewrite op_conj_formula. split.
      + cbn [fst op_of rot aff]. pose proof (gen_base (hall_gens h) (op_conj (h_shift h) (op_of m0))) as Gb.
        rewrite op_conj_formula in Gb. eexists. apply Gb. right; right. exists ms0, m0. rewrite op_conj_formula. auto.
      + cbn [snd op_of tra aff]. match goal with |- centring _ ?x => assert (Q : x = v0) end; [| rewrite Q; apply in_lat_0].
        cbn [fst]. destruct (rot m0) as [a b c e f g i j k]. unfold mvmul, vsub, vadd, vopp, v0. cbn [m11 m12 m13 m21 m22 m23 m31 m32 m33 vx vy vz]. f_equal; ring. }
  intros R t. split.
  - intros G. remember (R, t) as o eqn:Eo. assert (K : (exists u, hall_group h (fst o, u)) /\ centring (ls_char (h_lat h)) (snd o)); [| subst o; exact K]. clear R t Eo.
    induction G as [| o Go | a b Ga [(u & IHa) Ca] Gb [(w & IHb) Cb] | a b Ga [(u & IHa) Ca] E | a b Ga [(u & IHa) Ca] E].
    + split; [exists v0; apply gen_one | apply in_lat_0].
    + exact (B0 o Go).
    + split.
      * eexists. exact (gen_comp _ _ _ IHa IHb).
      * unfold op_comp. cbn [snd]. apply in_lat_add; [exact (rot_centring h _ u _ T IHa Cb) | exact Ca].
    + assert (Gb : exists w, hall_group h (fst b, w)).
      { pose proof (group_inverse h (fst a, u) IHa) as Gi. exists (snd (op_inv (fst a, u))).
        assert (X : fst b = fst (op_inv (fst a, u))); [| rewrite X; exact Gi].
        pose proof (op_inv_r (fst a, u) (hall_group_unimodular _ _ IHa)) as Y. unfold op_comp, op_id in E, Y.
        apply (f_equal fst) in E. apply (f_equal fst) in Y. cbn [fst] in E, Y. rewrite <- E in Y.
        apply (mmul_cancel_l (fst a)); [exact (hall_group_unimodular _ _ IHa) | symmetry; exact Y]. }
      split; [exact Gb |]. destruct Gb as (w & Gb). destruct (op_comp_id_swap a b E) as [E1 E2].
      rewrite E2. apply in_lat_opp. exact (rot_centring h _ w _ T Gb Ca).
    + destruct E as [E1 E2]. rewrite <- E1. split; [eauto |]. exact (in_lat_cong _ _ _ E2 Ca).
  - intros ((u & G) & C). apply (hall_group_coset (bare h) R v0 t).
    + clear C t. remember (R, u) as o eqn:Eo. assert (K : hall_group (bare h) (fst o, v0)); [| subst o; exact K]. clear R u Eo.
      assert (Z0 : forall M, mvmul M v0 = v0) by (intros [a b c e f g i j k]; unfold mvmul, v0; cbn [m11 m12 m13 m21 m22 m23 m31 m32 m33 vx vy vz]; f_equal; ring).
      induction G as [| o Go | a b Ga IHa Gb IHb | a b Ga IHa E | a b Ga IHa E].
      * apply gen_one.
      * destruct Go as [(v & Iv & ->) | [(Mi & ->) | (ms & m & I & E & ->)]]; [apply gen_one | apply gen_base; right; left; auto |].
        apply gen_base. right; right. exists (bare_symbol ms), (aff (rot m) v0). split; [apply in_map, I |]. split; [exact (bare_matrix ms m E) |].
        rewrite !op_conj_formula. cbn [fst snd op_of rot tra aff bare h_shift]. fold v0. rewrite Z0. reflexivity.
      * pose proof (gen_comp _ _ _ IHa IHb) as X. unfold op_comp in X |- *. cbn [fst snd] in X |- *. rewrite Z0 in X. exact X.
      * apply (gen_inv _ _ _ IHa). unfold op_comp, op_id in E |- *. cbn [fst snd]. apply (f_equal fst) in E. cbn [fst] in E. rewrite E, Z0. reflexivity.
      * destruct E as [E1 _]. rewrite <- E1. exact IHa.
    + replace (vsub t v0) with t; [exact C |]. destruct t as [x y z]. unfold vsub, v0. cbn [vx vy vz]. f_equal; ring.
Qed.
Lemma bare_no_extra h : all_symbols_valid h -> no_extra_translations h -> no_extra_translations (bare h).
Proof. intros V T t G. apply (C90_bare_group h V T) in G. exact (proj2 G). Qed.
Lemma result_valid fuel h g : general_positions fuel h = Done g -> all_symbols_valid h.
Proof. intros H. assert (R : returns h) by (exists fuel, g; exact H). apply (C62_outcome h) in R. apply R. Qed.
(** the positions without subscripts, letters and shift: the same rotation parts, one position each, and only centring translations *)
Theorem C90_bare_positions :
  forall fuel h g, general_positions fuel h = Done g -> no_extra_translations h ->
    exists fuel' g', general_positions fuel' (bare h) = Done g' /\ no_extra_translations (bare h) /\
      gp_lattice g' = gp_lattice g /\ num_of_general_pos g' = num_of_general_pos g /\
      (forall R, (exists m, In m (gp_core g') /\ rot m = R) <-> exists m, In m (gp_core g) /\ rot m = R) /\
      (forall m, In m (gp_core g') -> centring (ls_char (h_lat h)) (tra m)).
Proof.
  intros fuel h g H T. pose proof (result_valid _ _ _ H) as V.
  destruct (C90_bare_returns h) as (fuel' & g' & H'); [exists fuel, g; exact H |].
  pose proof (bare_no_extra h V T) as T'. pose proof (C90_bare_group h V T) as B.
  assert (Rt : forall R, (exists m, In m (gp_core g') /\ rot m = R) <-> exists m, In m (gp_core g) /\ rot m = R).
  { intros R. rewrite <- (C26_point_group_complete _ _ _ H R), <- (C26_point_group_complete _ _ _ H' R). split.
    - intros (t & G). apply B in G. exact (proj1 G).
    - intros X. exists v0. apply B. split; [exact X | apply in_lat_0]. }
  assert (La : gp_lattice g' = gp_lattice g).
  { destruct (general_positions_spec _ _ _ H) as [-> _]. destruct (general_positions_spec _ _ _ H') as [-> _]. reflexivity. }
  exists fuel', g'. split; [exact H' |]. split; [exact T' |]. split; [exact La |]. split; [| split; [exact Rt |]].
  - assert (L : length (gp_core g') = length (gp_core g)).
    { destruct (C27_one_position_per_rotation _ _ _ H T) as [N _]. destruct (C27_one_position_per_rotation _ _ _ H' T') as [N' _].
      rewrite <- (map_length rot (gp_core g)), <- (map_length rot (gp_core g')). apply Permutation_length. apply NoDup_Permutation; [exact N' | exact N |].
      intros R. rewrite !in_map_iff. specialize (Rt R).
      split; intros (m & X & Y); [destruct (proj1 Rt) as (m' & X' & Y') | destruct (proj2 Rt) as (m' & X' & Y')]; eauto. }
    exact L.
  - intros m I. destruct (C25_positions_sound _ _ _ H' m I) as [_ G]. apply (B (rot m) (tra m)), G.
Qed.
(** the number of the bare notation is the symmorphic number of the class *)
Theorem C90_bare_is_the_symmorphic_type :
  forall fuel h g, general_positions fuel h = Done g -> no_extra_translations h ->
    forall k, of_type (bare h) k <-> In k symmorphic_types /\ of_class h k.
Proof.
  intros fuel h g H T. pose proof (result_valid _ _ _ H) as V. pose proof (C90_bare_group h V T) as B.
  destruct (C90_bare_returns h) as (fuel' & g' & H'); [exists fuel, g; exact H |].
  destruct (C87_exactly_one_number _ _ _ H') as (k0 & Ty0 & U0). destruct (C89_exactly_one_class _ _ _ H) as (k1 & [S1 C1] & U1).
  assert (S0 : In k0 symmorphic_types).
  { apply (C87_sites_of_groups (bare h) k0 Ty0). exists (QV 0 0 0). intros R t G. apply B in G. exists v0. split; [apply B; split; [exact (proj1 G) | apply in_lat_0] |].
    unfold qsame, move, v0. cbn [fst snd qx qy qz vx vy vz]. repeat split; unfold qdot, inject_Z; cbn [qx qy qz vx vy vz]; field. }
  assert (C0 : of_class h k0).
  { destruct Ty0 as (j & label & s & El & E & En & f & If & _ & Tf). exists j, label, s. split; [exact El |]. split; [exact E |]. split; [exact En |].
    apply (class_trans _ (hall_group (bare h))); [| exact (turns_class f _ _ If Tf)]. apply class_same.
    - intros v. rewrite (pure_centring h T). split; [intros C; apply B; split; [exists v0; apply gen_one | exact C] | intros G; exact (proj2 (proj1 (B _ _) G))].
    - intros R. split; [intros X; exists v0; apply B; split; [exact X | apply in_lat_0] | intros (t & G); exact (proj1 (proj1 (B _ _) G))]. }
  intros k. split.
  - intros Ty. rewrite <- (U0 k Ty). auto.
  - intros SC. assert (k1 = k) by exact (U1 k SC). assert (k1 = k0) by (apply U1; auto). subst. exact Ty0.
Qed.
(** *** The translations of bare positions are zero, not only centring ones *)
Definition still (m : seitz) : Prop := exists R, m = aff R v0.
Lemma still_add l st R : (forall m, In m (g_list st) -> still m) ->
  forall m, In m (g_list (snd (add_to_list (translations l) st (aff R v0)))) -> still m.
Proof.
  intros K m. unfold add_to_list. cbn [rot tra aff].
  replace (minimal_repr (translations l) v0) with v0 by (destruct l; reflexivity).
  assert (P : In m (g_list (GS (g_list st ++ [set_translation_part v0 (aff R v0)]) (map_add (g_map st) R v0))) -> still m).
  { cbn [g_list]. intros I. apply in_app_iff in I. destruct I as [I | [<- | []]]; [auto | exists R; reflexivity]. }
  destruct (map_get (g_map st) R) as [s |]; [destruct (forallb _ _); [destruct (set_mem _ _) |] |]; cbn [snd]; auto.
Qed.
Lemma still_mul a b : still a -> still b -> exists R, sz_mul a b = aff R v0.
Proof.
  intros (R & ->) (U & ->). rewrite sz_mul_aff. exists (mmul R U). f_equal. destruct R as [a b c d e f x y z].
  assert (E : vadd (mvmul (M3 a b c d e f x y z) v0) v0 = v0) by (unfold vadd, mvmul, v0; cbn [m11 m12 m13 m21 m22 m23 m31 m32 m33 vx vy vz]; f_equal; ring).
  rewrite E. reflexivity.
Qed.
Lemma still_inner l i js : still i -> (forall j, In j js -> still j) -> forall st, (forall m, In m (g_list st) -> still m) ->
  forall m, In m (g_list (inner_loop (translations l) i js st)) -> still m.
Proof.
  intros Hi. induction js as [| j js IH]; intros Hj st K m; cbn [inner_loop]; [apply K |].
  destruct (still_mul i j Hi (Hj j (or_introl eq_refl))) as (R & ->).
  pose proof (still_add l st R K) as A. destruct (add_to_list (translations l) st (aff R v0)) as [[] st']; cbn [snd] in A; [apply A |].
  apply IH; [intros k I; apply Hj; right; exact I | exact A].
Qed.
Lemma still_pass l st : (forall m, In m (g_list st) -> still m) -> forall m, In m (g_list (one_pass (translations l) st)) -> still m.
Proof.
  intros K. unfold one_pass. assert (J : forall m, In m (skipn 1 (g_list st)) -> still m) by (intros m I; apply K; destruct (g_list st); [exact I | right; exact I]).
  assert (Q : forall is, (forall i, In i is -> still i) -> forall s, (forall m, In m (g_list s) -> still m) ->
    forall m, In m (g_list (fold_left (fun s i => inner_loop (translations l) i (skipn 1 (g_list st)) s) is s)) -> still m).
  { induction is as [| i is IH]; intros Hi s Ks; [exact Ks |]. cbn [fold_left]. apply IH; [intros k I; apply Hi; right; exact I |].
    apply still_inner; [apply Hi; left; reflexivity | exact J | exact Ks]. }
  exact (Q _ J st K).
Qed.
Lemma still_loop l fuel : forall st res, (forall m, In m (g_list st) -> still m) -> gen_loop fuel (translations l) st = Done res -> forall m, In m res -> still m.
Proof.
  induction fuel as [| f IH]; intros st res K E; [discriminate E |]. cbn [gen_loop] in E. pose proof (still_pass l st K) as K'.
  destruct (Nat.ltb _ _); [exact (IH _ _ K' E) |]. apply done_inj in E. subst res. exact K.
Qed.
(** every position of a bare notation has translation zero: it is its rotation part, and is written without fractions *)
Theorem C90_bare_translations_zero :
  forall fuel h g, all_symbols_valid h -> general_positions fuel (bare h) = Done g ->
    forall m, In m (gp_core g) -> tra m = V3 0 0 0 /\ jones m = jones_rot m.
Proof.
  intros fuel h g V H m I.
  assert (S0 : still m).
  { destruct (general_positions_spec _ _ _ H) as (_ & l & Hl & _ & P). apply (Permutation_in _ (Permutation_sym P)) in I.
    unfold generate_unsorted in Hl. apply obind_Done in Hl. destruct Hl as (n & _ & Hl). destruct (capacity_limit <? n); [discriminate |].
    apply obind_Done in Hl. destruct Hl as (gs & Hg & Hl). unfold generators in Hg. apply obind_Done in Hg. destruct Hg as (ss & Hs & Hg).
    apply done_inj in Hg. subst gs. cbn [bare h_lat] in Hl. revert Hl I.
    assert (Ks : forall x, In x ss -> still x).
    { cbn [bare h_syms] in Hs. assert (V' : forall ms, In ms (h_syms h) -> seitz_matrix ms <> None) by exact V. clear - Hs V'. revert ss Hs.
      induction (h_syms h) as [| ms l IH]; intros ss Hs; cbn [map omap] in Hs; [apply done_inj in Hs; subst ss; intros x [] |].
      apply obind_Done in Hs. destruct Hs as (y & Hy & Hs). apply obind_Done in Hs. destruct Hs as (ys & Hys & Hs). apply done_inj in Hs. subst ss.
      intros x [<- | J]; [| exact (IH (fun z Jz => V' z (or_intror Jz)) ys Hys x J)].
      unfold symbol_generator in Hy. destruct (seitz_matrix ms) as [m0 |] eqn:E; [| exfalso; exact (V' ms (or_introl eq_refl) E)].
      rewrite (bare_matrix ms m0 E) in Hy. apply done_inj in Hy. subst y. cbn [bare h_shift]. rewrite shifted_matrix_aff.
      exists (rot m0). f_equal. destruct (rot m0) as [a b c d e f p q r]. change (V3 0 0 0) with v0.
      assert (E0 : vadd v0 (vsub v0 (mvmul (M3 a b c d e f p q r) v0)) = v0) by (unfold vadd, vsub, mvmul, v0; cbn [m11 m12 m13 m21 m22 m23 m31 m32 m33 vx vy vz]; f_equal; ring).
      rewrite E0. reflexivity. }
    intros Hl I. refine (still_loop _ _ _ _ _ Hl m I). unfold add_all. rewrite fold_left_app.
    assert (Q : forall l xs, (forall x, In x xs -> still x) -> forall s, (forall m, In m (g_list s) -> still m) ->
      forall m, In m (g_list (fold_left (fun s m => snd (add_to_list (translations l) s m)) xs s)) -> still m).
    { clear. intros l. induction xs as [| x xs IH]; intros Hx s Ks; [exact Ks |]. cbn [fold_left]. apply IH; [intros k J; apply Hx; right; exact J |].
      destruct (Hx x (or_introl eq_refl)) as (R & ->). apply still_add. exact Ks. }
    apply Q; [exact Ks |]. clear. destruct (h_lat h) as [[] []]; cbn -[In]; intros m J; cbn [In] in J;
      repeat (destruct J as [<- | J]; [eexists; reflexivity |]); contradiction. }
  destruct S0 as (R & ->). split; [reflexivity |].
  destruct (core_unit _ _ _ _ H I) as [_ U]. rewrite (C61_operation_text _ U), (C61_rotation_text _ U). reflexivity.
Qed.
(** P6122 with shifted origin: without subscript and shift it is P622, whose twelve positions are pure rotations *)
Example C90_case : exists h g, try_from_str "P 61 2 (0 0 -1)"%string = Done (Some h) /\ general_positions 10 h = Done g /\
  no_extra_translations h /\ num_of_general_pos g = 12%nat /\ Done (Some (bare h)) = try_from_str "P 6 2"%string.
Proof.
  assert (C : case "P 61 2 (0 0 -1)" 12 = true) by (vm_compute; reflexivity).
  destruct (case_spec _ _ C) as (h & g & E & H & T & N). exists h, g. split; [exact E |]. split; [exact H |]. split; [exact T |]. split; [exact N |].
  assert (K : match try_from_str "P 61 2 (0 0 -1)"%string with Done (Some h) => Done (Some (bare h)) = try_from_str "P 6 2"%string | _ => False end) by (vm_compute; reflexivity).
  rewrite E in K. exact K.
Qed.
