(** * PropOneType: property C86: every notation that returns describes a group of one of the 230
    space-group types. *)
From Coq Require Import QArith.
From Verif Require Import Base Notations Parser Seitz F64 Jones Rotations Tables Lookup Generate Positions
  Spec SpecHall SpecXyz SpecCompat SpecTables SpecType Algebra PropSeitz PropSymbols SpecRotation PropRotation GenFacts PropGenerate GroupCheck
  PropFullSets PropTables PropTableGroups PropJones TypeFacts TypeCount PropTypes Restriction PropTermination PropOutcome Subgroups PropClass
  PropNormal Cocycle LatticeBasis LatticeData ClassData.
Open Scope Z_scope.
Local Notation length := List.length.

(** ** Two lists side by side *)
Fixpoint all2 {A B} (f : A -> B -> bool) (l : list A) (m : list B) : bool :=
  match l, m with
  | [], [] => true
  | a :: l, b :: m => if f a b then all2 f l m else false
  | _, _ => false
  end.
Lemma all2_in {A B} (f : A -> B -> bool) : forall l m, all2 f l m = true -> forall a, In a l -> exists b, In b m /\ f a b = true.
Proof.
  induction l as [| x l IH]; intros [| y m] H a I; cbn [all2] in H; try discriminate; [destruct I |]. destruct I as [<- | I].
  - destruct (f x y) eqn:E; [| discriminate]. exists y. split; [left; reflexivity | exact E].
  - destruct (f x y) eqn:E; [| discriminate]. destruct (IH m H a I) as (b & Ib & Eb). exists b. split; [right; exact Ib | exact Eb].
Qed.

(** ** Writing a group in a basis of its translations *)
Record closed_group (K : op -> Prop) : Prop := {
  cg_one : K op_id;
  cg_comp : forall a b, K a -> K b -> K (op_comp a b);
  cg_inv : forall a, K a -> K (op_inv a);
  cg_uni : forall a, K a -> unimodular (fst a)
}.
Lemma primitive_closed K : primitive K -> closed_group K.
Proof. intros P. split; [apply (pr_one K P) | apply (pr_comp K P) | apply (pr_inv K P) | apply (pr_uni K P)]. Qed.
Lemma hall_closed h : closed_group (hall_group h).
Proof.
  split; [apply gen_one | intros a b; apply gen_comp | intros a; apply group_inverse | intros a; apply hall_group_unimodular].
Qed.
Definition rewritten (D : mat3) (K : op -> Prop) (o : op) : Prop :=
  exists R t, K (R, t) /\ mmul D R = mmul (fst o) D /\ snd o = mvmul D t.
Lemma twelfth_matrix M : (forall z, exists w, mvmul M z = vscale 12 w) -> mscale 12 (mdiv12 M) = M.
Proof.
  intros H. destruct (H (V3 1 0 0)) as ([x1 y1 z1] & E1), (H (V3 0 1 0)) as ([x2 y2 z2] & E2), (H (V3 0 0 1)) as ([x3 y3 z3] & E3).
  destruct M as [a b c d e f g i j]. unfold mvmul, vscale, vmap in *. cbn [m11 m12 m13 m21 m22 m23 m31 m32 m33 vx vy vz] in *.
  assert (A := f_equal vx E1). assert (B := f_equal vy E1). assert (C := f_equal vz E1).
  assert (A2 := f_equal vx E2). assert (B2 := f_equal vy E2). assert (C2 := f_equal vz E2).
  assert (A3 := f_equal vx E3). assert (B3 := f_equal vy E3). assert (C3 := f_equal vz E3).
  cbn [vx vy vz] in *. clear E1 E2 E3 H.
  assert (Q : forall u w, u = 12 * w -> 12 * (u / 12) = u).
  { intros u w ->. rewrite (Z.mul_comm 12 w), Z.div_mul by lia. ring. }
  unfold mscale, mdiv12, mmap. cbn [m11 m12 m13 m21 m22 m23 m31 m32 m33].
  rewrite (Q a x1), (Q b x2), (Q c x3), (Q d y1), (Q e y2), (Q f y3), (Q g z1), (Q i z2), (Q j z3) by lia. reflexivity.
Qed.
Section Rewrite.
Variables (K : op -> Prop) (D P : mat3).
Hypothesis HK : closed_group K.
Hypothesis DP : mmul D P = mscale 12 I3.
Hypothesis PD : mmul P D = mscale 12 I3.
Hypothesis Hdet : mdet D <> 0.
Hypothesis HT : forall v, K (I3, v) <-> exists z, v = mvmul P z.
Lemma carry_translation R t v : K (R, t) -> K (I3, v) -> K (I3, mvmul R v).
Proof.
  intros A B. assert (U := cg_uni K HK _ A). cbn [fst] in U.
  assert (C := cg_comp K HK _ _ (cg_comp K HK _ _ A B) (cg_inv K HK _ A)).
  unfold op_comp, op_inv in C. cbn [fst snd] in C. rewrite mmul_I_r, minv_r, mvmul_vopp, <- mvmul_mmul, minv_r, mvmul_I in C by exact U.
  replace (mvmul R v) with (vadd (vopp t) (vadd (mvmul R v) t)); [exact C |]. generalize (mvmul R v). intros. mring.
Qed.
(** the rotation part in the new basis is an integer matrix *)
Definition new_rot (R : mat3) : mat3 := mdiv12 (mmul (mmul D R) P).
Lemma exact_rot R t : K (R, t) -> mscale 12 (new_rot R) = mmul (mmul D R) P.
Proof.
  intros A. unfold new_rot. apply twelfth_matrix. intros z.
  destruct (proj1 (HT (mvmul R (mvmul P z)))) as (w & W).
  { apply (carry_translation R t); [exact A | apply HT; eauto]. }
  exists w. rewrite !mvmul_mmul, W, <- mvmul_mmul, DP, mvmul_mscale, mvmul_I. reflexivity.
Qed.
Lemma new_rot_spec R t : K (R, t) -> mmul D R = mmul (new_rot R) D.
Proof.
  intros A. apply (mscale_inj 12); [lia |].
  rewrite <- (mmul_mscale_l 12 (new_rot R)), (exact_rot R t A), <- mmul_assoc, PD, mmul_mscale_r, mmul_I_r. reflexivity.
Qed.
Lemma new_rot_unique X R t : K (R, t) -> mmul D R = mmul X D -> X = new_rot R.
Proof.
  intros A E. rewrite (new_rot_spec R t A) in E. apply (mmul_inj_r D) in E; [congruence | exact Hdet].
Qed.
Lemma rewritten_primitive : primitive (rewritten D K).
Proof.
  assert (Ui : forall X R t, K (R, t) -> mmul D R = mmul X D -> unimodular X).
  { intros X R t A E. assert (U := cg_uni K HK _ A). cbn [fst] in U. unfold unimodular in *.
    apply (f_equal mdet) in E. rewrite !mdet_mmul in E. assert (mdet R = mdet X); [| lia].
    apply (Z.mul_reg_l _ _ (mdet D)); [exact Hdet |]. lia. }
  split.
  - exists I3, v0. split; [apply (cg_one K HK) |]. cbn [op_id fst snd]. rewrite mmul_I_l, mmul_I_r, mvmul_v0. auto.
  - intros [X x] [Y y] (R & t & A & E & F) (R' & t' & A' & E' & F'). cbn [fst snd] in *.
    exists (mmul R R'), (snd (op_comp (R, t) (R', t'))). split; [exact (cg_comp K HK _ _ A A') |].
    unfold op_comp. cbn [fst snd]. split.
    + rewrite mmul_assoc, E, <- mmul_assoc, E', mmul_assoc. reflexivity.
    + rewrite F, F', mvmul_vadd, <- !mvmul_mmul, E. reflexivity.
  - intros [X x] (R & t & A & E & F). cbn [fst snd] in *. assert (UX := Ui X R t A E). assert (UR := cg_uni K HK _ A). cbn [fst] in UR.
    assert (Q : mmul D (minv R) = mmul (minv X) D).
    { apply (mmul_cancel_l X); [exact UX |]. rewrite !mmul_assoc, minv_r, mmul_I_l, <- E by exact UX.
      rewrite <- mmul_assoc, minv_r, mmul_I_r by exact UR. reflexivity. }
    exists (minv R), (snd (op_inv (R, t))). split; [exact (cg_inv K HK _ A) |]. unfold op_inv. cbn [fst snd]. split; [exact Q |].
    rewrite F, mvmul_vopp, <- !mvmul_mmul, Q. reflexivity.
  - intros [X x] [Y y] (R & t & A & E & F) [S C]. cbn [fst snd] in *. subst Y. apply vcong12_sym, vcong12_scale in C. destruct C as (z & C).
    exists R, (vadd t (mvmul P z)). split.
    + assert (B : K (I3, mvmul P z)) by (apply HT; eauto). assert (G := cg_comp K HK _ _ B A). unfold op_comp in G. cbn [fst snd] in G.
      rewrite mmul_I_l, mvmul_I in G. exact G.
    + cbn [fst snd]. split; [exact E |]. rewrite mvmul_vadd, <- mvmul_mmul, DP, mvmul_mscale, mvmul_I, <- F, <- C. mring.
  - intros [X x] (R & t & A & E & F). exact (Ui X R t A E).
  - intros t' (R & t & A & E & F). cbn [fst snd] in *. rewrite mmul_I_l in E. replace D with (mmul D I3) in E at 2 by apply mmul_I_r.
    apply (mmul_inj_l D) in E; [| exact Hdet]. subst R. apply HT in A. destruct A as (z & ->).
    rewrite F, <- mvmul_mmul, DP, mvmul_mscale, mvmul_I. apply vcong12_12.
Qed.
Lemma rewritten_turns : turns_into (Ch D v0 1) K (rewritten D K).
Proof.
  split.
  - intros [R t] A. exists (new_rot R, mvmul D t). split.
    + exists R, t. split; [exact A |]. split; [exact (new_rot_spec R t A) | reflexivity].
    + apply carries_iff; [reflexivity |]. split; cbn [ch_M ch_q ch_d fst snd]; [exact (new_rot_spec R t A) |].
      rewrite mvmul_v0. generalize (mvmul D t). intros. mring.
  - intros [X x] (R & t & A & E & F). cbn [fst snd] in *. exists (R, t). split; [exact A |].
    apply carries_iff; [reflexivity |]. split; cbn [ch_M ch_q ch_d fst snd]; [exact E |].
    rewrite mvmul_v0, F. generalize (mvmul D t). intros. mring.
Qed.
Lemma rewritten_type : 0 < mdet D -> same_type K (rewritten D K).
Proof.
  intros Pd. exists (Ch D v0 1). split; [split; cbn; lia |]. split; [exact Pd | apply rewritten_turns].
Qed.
Lemma rewritten_rotations rs : (forall R, In R rs <-> exists t, K (R, t)) ->
  forall X, In X (map new_rot rs) <-> exists t, rewritten D K (X, t).
Proof.
  intros H X. rewrite in_map_iff. split.
  - intros (R & <- & I). apply H in I. destruct I as (t & A). exists (mvmul D t), R, t. cbn [fst snd].
    split; [exact A |]. split; [exact (new_rot_spec R t A) | reflexivity].
  - intros (x & R & t & A & E & _). cbn [fst] in E. exists R. split; [symmetry; exact (new_rot_unique X R t A E) | apply H; eauto].
Qed.
End Rewrite.

(** ** The checks *)
Definition classes : list (list mat3) := Eval vm_compute in map (fun i => map fst (nth i default_cores [])) class_rows.
Definition frames : list (list mat3) := Eval vm_compute in map (fun k => nth k classes []) frame_classes.
Definition mdivk (d : Z) (M : mat3) : mat3 :=
  M3 (m11 M / d) (m12 M / d) (m13 M / d) (m21 M / d) (m22 M / d) (m23 M / d) (m31 M / d) (m32 M / d) (m33 M / d).
Definition dual (P : mat3) : mat3 := mdivk (mdet P) (mscale 12 (madj P)).
Definition mats_in (R : mat3) (G : list mat3) : bool := existsb (meqb R) G.
Lemma mats_in_spec R G : mats_in R G = true -> In R G.
Proof. intros H. apply existsb_exists in H. destruct H as (X & I & E). apply meqb_eq in E. congruence. Qed.
Definition frame_ok (big : list mat3) (B : mat3) (r : nat * mat3) : bool :=
  let (k, P) := r in
  let D := dual P in
  let W := mmul D B in
  let F := nth k frames [] in
  (0 <? mdet D) && meqb (mmul D P) (mscale 12 I3) && meqb (mmul P D) (mscale 12 I3)
  && meqb (mscale 12 (mdiv12 W)) W && (Z.abs (mdet (mdiv12 W)) =? 1) && Nat.ltb k (length frames)
  && forallb (fun R =>
       let X := mmul (mmul D R) P in let Y := mdiv12 X in
       if meqb (mscale 12 Y) X then mats_in Y F else true) big.
Lemma cubic_frames_ok : all2 (frame_ok cubic48) bases cubic_frames = true.
Proof. vm_cast_no_check (@eq_refl bool true). Qed.
Lemma hexagonal_frames_ok : all2 (frame_ok hexagonal24) bases hexagonal_frames = true.
Proof. vm_cast_no_check (@eq_refl bool true). Qed.
Definition subgroup_ok (F : list mat3) (p : list nat * mset) (r : nat * mat3) : bool :=
  let (j, U) := r in
  let C := nth j classes [] in
  let V := minv U in
  let S := select (snd p) F in
  (mdet U =? 1) && Nat.ltb j (length classes)
  && forallb (fun R => mats_in (mmul (mmul U R) V) C) S
  && forallb (fun R => mats_in (mmul (mmul V R) U) S) C.
(** every frame with the list of its subgroups *)
Definition frame_lists : list (list mat3 * list (list nat * mset)) := Eval vm_compute in map (fun F => (F, all_subgroups F)) frames.
Lemma frame_lists_ok : frames = map fst frame_lists.
Proof. vm_cast_no_check (@eq_refl (list (list mat3)) frames). Qed.
Definition frame_subgroups_ok (FL : list mat3 * list (list nat * mset)) (rows : list (nat * mat3)) : bool :=
  let (F, L) := FL in
  mats_in I3 F && enough (table_of F) (index_of I3 F) L && all2 (subgroup_ok F) L rows.
Lemma frames_subgroups_ok : all2 frame_subgroups_ok frame_lists subgroup_classes = true.
Proof. vm_cast_no_check (@eq_refl bool true). Qed.
Definition type_change_ok (c : certificate) (r : list Z) (w : nat * (mat3 * vec3 * Z)) : bool :=
  match nth_error default_cores (Nat.pred (fst w)) with
  | Some c' => (0 <? mdet (fst (fst (snd w))))
      && change_check (snd w) (map (ev (ce_gens c) (rep (ce_cols c) r)) (ce_words c)) c'
  | None => false
  end.
Definition certificate_ok (G : list mat3) (c : certificate) : bool :=
  words_ok (ce_gens c) (ce_words c) G && rels_words_ok (ce_gens c) (ce_rels c)
  && cert_ok (ce_gens c) (ce_rels c) (ce_e c) (ce_cols c)
  && all2 (type_change_ok c) (choices (ce_cols c)) (ce_changes c).
Lemma certificates_ok : all2 certificate_ok classes certificates = true.
Proof. vm_cast_no_check (@eq_refl bool true). Qed.

(** ** From the rotation parts to a row *)
Lemma class_type K G : primitive K -> In G classes -> (forall R, In R G <-> exists t, K (R, t)) ->
  exists i c, nth_error default_cores i = Some c /\ same_type K (pgroup c).
Proof.
  intros P I H. destruct (all2_in _ _ _ certificates_ok G I) as (c & _ & Ok).
  unfold certificate_ok in Ok. rewrite !andb_true_iff in Ok. destruct Ok as (((W & R) & C) & T).
  destruct (primitive_shifted K G _ _ _ _ _ P H W R C) as (r & Ir & S).
  destruct (all2_in _ _ _ T r Ir) as ((i, w) & _ & Ok). unfold type_change_ok in Ok. cbn [fst snd] in Ok.
  destruct (nth_error default_cores (Nat.pred i)) as [c' |] eqn:E; [| discriminate].
  apply andb_true_iff in Ok. destruct Ok as [D Ok]. apply Z.ltb_lt in D. destruct (change_check_spec _ _ _ Ok) as [Iv Tn].
  exists (Nat.pred i), c'. split; [exact E |]. apply (same_type_trans _ _ _ S).
  exists (change_of w). split; [exact Iv |]. split; [| exact Tn]. destruct Iv as [Pe _]. clear - D Pe.
  destruct w as [[U q] e]. unfold keeps_handedness. cbn [change_of ch_M ch_d fst] in *. rewrite mdet_mscale.
  repeat apply Z.mul_pos_pos; auto.
Qed.
Lemma frame_type K F rs : primitive K -> In F frames -> (forall R, In R rs <-> exists t, K (R, t)) -> (forall R, In R rs -> In R F) ->
  exists i c, nth_error default_cores i = Some c /\ same_type K (pgroup c).
Proof.
  intros P I H Sub. rewrite frame_lists_ok in I. apply in_map_iff in I. destruct I as ([F' L] & EF & I). cbn [fst] in EF. subst F'.
  destruct (all2_in _ _ _ frames_subgroups_ok (F, L) I) as (rows & _ & Ok).
  unfold frame_subgroups_ok in Ok. rewrite !andb_true_iff in Ok. destruct Ok as ((I1 & En) & Al).
  destruct (closed_sets_listed F _ En (mats_in_spec _ _ I1) rs Sub) as (p & Ip & Sel).
  { apply H. exists v0. apply (pr_one K P). }
  { intros A B IA IB. apply H in IA, IB. destruct IA as (t & KA), IB as (u & KB). apply H.
    exists (snd (op_comp (A, t) (B, u))). exact (pr_comp K P _ _ KA KB). }
  destruct (all2_in _ _ _ Al p Ip) as ((j, U) & _ & Ok). unfold subgroup_ok in Ok. cbv zeta in Ok.
  rewrite !andb_true_iff, Z.eqb_eq, Nat.ltb_lt in Ok. destruct Ok as (((Dt & Lj) & F1) & F2). rewrite forallb_forall in F1, F2.
  assert (Un : unimodular U) by (left; exact Dt).
  set (Q := mscale 12 (minv U)).
  assert (HK := primitive_closed K P).
  assert (DP : mmul U Q = mscale 12 I3) by (unfold Q; rewrite mmul_mscale_r, minv_r by exact Un; reflexivity).
  assert (PD : mmul Q U = mscale 12 I3) by (unfold Q; rewrite mmul_mscale_l, minv_l by exact Un; reflexivity).
  assert (HT : forall v, K (I3, v) <-> exists z, v = mvmul Q z).
  { intros v. split.
    - intros Kv. apply (pr_tr K P), vcong12_scale in Kv. destruct Kv as (z & E). exists (mvmul U z). unfold Q.
      rewrite mvmul_mscale, <- mvmul_mmul, minv_l, mvmul_I, <- E by exact Un. mring.
    - intros (z & ->). apply (pr_cell K P op_id); [apply (pr_one K P) |]. split; [reflexivity |]. cbn [snd op_id]. unfold Q.
      rewrite mvmul_mscale. apply vcong12_sym, vcong12_12. }
  assert (Nd : mdet U <> 0) by lia.
  destruct (class_type (rewritten U K) (nth j classes [])) as (i & c & E & T).
  - exact (rewritten_primitive K U Q HK DP Nd HT).
  - apply nth_In, Lj.
  - intros S. rewrite <- (rewritten_rotations K U Q HK DP PD Nd HT rs H S), in_map_iff.
    assert (X : forall R, In R rs -> new_rot U Q R = mmul (mmul U R) (minv U)).
    { intros R IR. apply H in IR. destruct IR as (t & KR). symmetry. apply (new_rot_unique K U Q HK DP PD Nd HT _ R t KR).
      rewrite <- mmul_assoc, minv_l, mmul_I_r by exact Un. reflexivity. }
    split.
    + intros IS. specialize (F2 S IS). apply mats_in_spec in F2. apply Sel in F2. exists (mmul (mmul (minv U) S) U).
      split; [| exact F2]. rewrite X by exact F2. rewrite !mmul_assoc, minv_r, mmul_I_l, <- mmul_assoc, minv_r, mmul_I_r by exact Un. reflexivity.
    + intros (R & <- & IR). rewrite X by exact IR. apply Sel in IR. exact (mats_in_spec _ _ (F1 R IR)).
  - exists i, c. split; [exact E |]. apply (same_type_trans _ (rewritten U K)); [| exact T].
    apply (rewritten_type K U Q HK DP PD Nd HT). lia.
Qed.
Lemma lattice_type h big table rs : (forall o, hall_group h o -> In (fst o) big) -> all2 (frame_ok big) bases table = true ->
  (forall R, In R rs <-> exists t, hall_group h (R, t)) ->
  exists i c, nth_error default_cores i = Some c /\ same_type (hall_group h) (pgroup c).
Proof.
  intros HB Al H. assert (HK := hall_closed h).
  destruct (lattice_basis (fun v => hall_group h (I3, v))) as (B & IB & TB).
  - intros u v A B. assert (C := gen_comp _ _ _ A B). unfold op_comp in C. cbn [fst snd] in C. rewrite mmul_I_l, mvmul_I in C.
    rewrite vadd_comm. exact C.
  - intros v A. assert (C := group_inverse h _ A). unfold op_inv in C. cbn [fst snd] in C.
    replace (minv I3) with I3 in C by reflexivity. rewrite mvmul_I in C. exact C.
  - intros v. apply (gen_cell _ op_id); [apply gen_one |]. split; [reflexivity | apply vcong12_sym, vcong12_12].
  - intros v. exact (group_decidable h big HB (I3, v)).
  - destruct (all2_in _ _ _ Al B IB) as ((k, P) & _ & Ok). unfold frame_ok in Ok. cbv zeta in Ok.
    rewrite !andb_true_iff, Z.ltb_lt, Z.eqb_eq, Nat.ltb_lt, !meqb_eq, forallb_forall in Ok.
    destruct Ok as ((((((Dp & DP) & PD) & EW) & DW) & Lk) & Fb).
    set (D := dual P) in *. set (W := mdiv12 (mmul D B)) in *.
    assert (UW : unimodular W) by (unfold unimodular; lia).
    assert (BW : B = mmul P W).
    { apply (mscale_inj 12); [lia |]. rewrite <- mmul_mscale_r, EW, mmul_assoc, PD, mmul_mscale_l, mmul_I_l. reflexivity. }
    assert (HT : forall v, hall_group h (I3, v) <-> exists z, v = mvmul P z).
    { intros v. rewrite (TB v). split.
      - intros (z & ->). exists (mvmul W z). rewrite BW, mvmul_mmul. reflexivity.
      - intros (z & ->). exists (mvmul (minv W) z). rewrite BW, <- mvmul_mmul, <- mmul_assoc, minv_r, mmul_I_r by exact UW. reflexivity. }
    assert (Nd : mdet D <> 0) by lia.
    destruct (frame_type (rewritten D (hall_group h)) (nth k frames []) (map (new_rot D P) rs)) as (i & c & E & T).
    + exact (rewritten_primitive _ D P HK DP Nd HT).
    + apply nth_In, Lk.
    + exact (rewritten_rotations _ D P HK DP PD Nd HT rs H).
    + intros X IX. apply in_map_iff in IX. destruct IX as (R & <- & IR). apply H in IR. destruct IR as (t & G).
      specialize (Fb R (HB _ G)). assert (Ex := exact_rot _ D P HK DP HT R t G). unfold new_rot in *. rewrite Ex, meqb_refl in Fb. exact (mats_in_spec _ _ Fb).
    + exists i, c. split; [exact E |]. apply (same_type_trans _ (rewritten D (hall_group h))); [| exact T].
      exact (rewritten_type _ D P HK DP PD Nd HT Dp).
Qed.

(** ** C86 *)
Lemma one_type fuel h g : general_positions fuel h = Done g ->
  exists i s, get_hall_symbol default_table i = Some s /\ same_type (hall_group h) (text_group s).
Proof.
  intros H.
  assert (L : exists i c, nth_error default_cores i = Some c /\ same_type (hall_group h) (pgroup c)).
  { assert (J : forall R, In R (map rot (gp_core g)) <-> exists t, hall_group h (R, t)).
    { intros R. rewrite in_map_iff. rewrite (C26_point_group_complete _ _ _ H R). split; intros (m & A & B); exists m; auto. }
    destruct (group_class _ _ _ H) as [C | C].
    - apply (lattice_type h cubic48 cubic_frames (map rot (gp_core g))); [| exact cubic_frames_ok | exact J].
      intros o G. exact (cubic48_in _ (C _ G)).
    - apply (lattice_type h hexagonal24 hexagonal_frames (map rot (gp_core g))); [| exact hexagonal_frames_ok | exact J].
      intros o G. exact (hexagonal24_in _ (C _ G)). }
  destruct L as (i & c & E & T).
  assert (X : exists s, nth_error default_hall i = Some s).
  { assert (Q : length default_cores = length default_hall) by reflexivity.
    destruct (nth_error default_hall i) as [s |] eqn:N; [eauto |]. exfalso. apply nth_error_None in N. rewrite <- Q in N.
    apply nth_error_None in N. congruence. }
  destruct X as (s & Es). exists i, s. split; [exact Es |].
  destruct (default_row i s Es) as (c' & Ec & _ & f & If & Kf & Tf). assert (c' = c) by congruence. subst c'.
  apply (same_type_trans _ _ _ T). apply same_type_sym. exists f. auto.
Qed.
(** whatever the notation: when its positions are produced at all, the group it describes is of
    the type of exactly one row of the default table *)
Theorem C86_exactly_one_of_the_230_types :
  forall fuel h g, general_positions fuel h = Done g ->
    exists! i, exists s, get_hall_symbol default_table i = Some s /\ same_type (hall_group h) (text_group s).
Proof.
  intros fuel h g H. destruct (one_type _ _ _ H) as (i & s & E & T). exists i. split; [eauto |].
  intros j (s' & E' & T'). apply (proj1 (C58_default_rows_are_different_types i j s s' E E')).
  apply (same_type_trans _ (hall_group h)); [apply same_type_sym, T | exact T'].
Qed.
(** ... so two notations describe groups of the same type exactly when they belong to the same
    row, and it can be decided whether they do *)
Theorem C86_same_type_iff_same_row :
  forall fuel h g fuel' h' g', general_positions fuel h = Done g -> general_positions fuel' h' = Done g' ->
    (same_type (hall_group h) (hall_group h') <->
     exists i s, get_hall_symbol default_table i = Some s /\
       same_type (hall_group h) (text_group s) /\ same_type (hall_group h') (text_group s)) /\
    (same_type (hall_group h) (hall_group h') \/ ~ same_type (hall_group h) (hall_group h')).
Proof.
  intros fuel h g fuel' h' g' H H'. destruct (one_type _ _ _ H) as (i & s & E & T), (one_type _ _ _ H') as (j & s' & E' & T').
  assert (X : same_type (hall_group h) (hall_group h') -> i = j).
  { intros Q. apply (proj1 (C58_default_rows_are_different_types i j s s' E E')).
    apply (same_type_trans _ (hall_group h)); [apply same_type_sym, T |]. apply (same_type_trans _ (hall_group h')); auto. }
  split; [split |].
  - intros Q. exists i, s. split; [exact E |]. split; [exact T |]. apply (same_type_trans _ (hall_group h)); [apply same_type_sym, Q | exact T].
  - intros (k & sk & _ & A & B). apply (same_type_trans _ (text_group sk)); [exact A | apply same_type_sym, B].
  - destruct (Nat.eq_dec i j) as [-> | N]; [left | right; auto].
    assert (s' = s) by congruence. subst s'. apply (same_type_trans _ (text_group s)); [exact T | apply same_type_sym, T'].
Qed.
(** for texts: the space-group number *)
Theorem C86_texts :
  forall s h fuel g, try_from_str s = Done (Some h) -> general_positions fuel h = Done g ->
    exists j label s', get_space_group_number default_table j = Some label /\ get_hall_symbol default_table j = Some s' /\
      (1 <= leading_number label <= 230)%nat /\ same_type (text_group s) (text_group s') /\
      forall j' label' s'', get_space_group_number default_table j' = Some label' -> get_hall_symbol default_table j' = Some s'' ->
        same_type (text_group s) (text_group s'') -> leading_number label' = leading_number label.
Proof.
  intros s h fuel g Ps H. destruct (one_type _ _ _ H) as (j & s' & E & T).
  assert (Tx : same_type (text_group s) (text_group s')).
  { destruct T as (f & If & Kf & T1 & T2). exists f. split; [exact If |]. split; [exact Kf |]. split.
    - intros o (h' & Ph & G). assert (h' = h) by congruence. subst h'. apply T1, G.
    - intros o' G. destruct (T2 o' G) as (o & A & B). exists o. split; [exists h; auto | exact B]. }
  assert (L : exists label, get_space_group_number default_table j = Some label).
  { assert (Q : length default_number = length default_hall) by reflexivity. change (nth_error default_hall j = Some s') in E.
    change (exists label, nth_error default_number j = Some label).
    destruct (nth_error default_number j) as [l |] eqn:N; [eauto |]. exfalso. apply nth_error_None in N. rewrite Q in N.
    apply nth_error_None in N. congruence. }
  destruct L as (label & El). exists j, label, s'. split; [exact El |]. split; [exact E |].
  destruct (default_number_of j label El) as [Ej Bj]. split; [| split; [exact Tx |]].
  - rewrite Ej. change (nth_error default_hall j = Some s') in E. assert (Q : (j < length default_hall)%nat) by (apply nth_error_Some; congruence).
    change (length default_hall) with 230%nat in Q. lia.
  - intros j' label' s'' El' E' T'. assert (j' = j).
    { symmetry. apply (proj1 (C58_default_rows_are_different_types j j' s' s'' E E')).
      apply (same_type_trans _ (text_group s)); [apply same_type_sym, Tx | exact T']. }
    subst j'. congruence.
Qed.
(** cases: notations that are no rows of either table, two of them with extra translations *)
Open Scope string_scope.
Example C86_cases : forall s, In s ["A 4"; "P 1 1d"; "P 4 -3*"; "P 3 -1"; "F 2 (1 2 7)"] ->
  ~ In s full_hall /\ ~ In s default_hall /\ exists h g, try_from_str s = Done (Some h) /\ general_positions 10 h = Done g.
Proof.
  assert (Q : forallb (fun s => negb (existsb (String.eqb s) full_hall) && negb (existsb (String.eqb s) default_hall) &&
    match try_from_str s with Done (Some h) => match general_positions 10 h with Done _ => true | _ => false end | _ => false end)
    ["A 4"; "P 1 1d"; "P 4 -3*"; "P 3 -1"; "F 2 (1 2 7)"] = true) by (vm_compute; reflexivity).
  intros s I. rewrite forallb_forall in Q. specialize (Q s I). rewrite !andb_true_iff, !negb_true_iff in Q. destruct Q as ((A & B) & C).
  assert (X : forall l, existsb (String.eqb s) l = false -> ~ In s l).
  { intros l E J. assert (existsb (String.eqb s) l = true); [| congruence]. apply existsb_exists. exists s. split; [exact J | apply String.eqb_refl]. }
  split; [apply X, A |]. split; [apply X, B |].
  destruct (try_from_str s) as [[h |] | |]; try discriminate. destruct (general_positions 10 h) as [g | |] eqn:G; try discriminate.
  exists h, g. auto.
Qed.
