(** * PropOrbit: property C64: orbits and multiplicities of points. *)
From Coq Require Import QArith Qfield Permutation.
From Verif Require Import Base Notations Parser Seitz F64 Jones Rotations Tables Generate Positions
  Spec SpecHall SpecXyz SpecCanon SpecOrbit Algebra PropSeitz PropSymbols GenFacts PropGenerate PropFullSets PropJones PropCanon.
Open Scope Z_scope.
Local Notation length := List.length.

(** ** Sites *)
Lemma whole_spec x : whole x = true <-> exists i, (x == inject_Z i)%Q.
Proof.
  unfold whole. rewrite Z.eqb_eq. destruct x as [n d]. cbn [Qnum Qden]. split.
  - intros H. apply Z.mod_divide in H; [| discriminate]. destruct H as (k & ->). exists k. unfold Qeq, inject_Z. cbn [Qnum Qden]. lia.
  - intros (i & E). unfold Qeq, inject_Z in E. cbn [Qnum Qden] in E. rewrite Z.mul_1_r in E. subst n. apply Z.mod_mul. discriminate.
Qed.
Lemma same_site_spec p q : same_site p q = true <-> cells_apart p q.
Proof.
  unfold same_site, cells_apart. rewrite !andb_true_iff, !whole_spec. split.
  - intros (((i & A) & (j & B)) & (k & C)). exists i, j, k. auto.
  - intros (i & j & k & A & B & C). split; [split |]; eauto.
Qed.
Lemma cells_apart_refl p : cells_apart p p.
Proof. exists 0, 0, 0. change (inject_Z 0) with 0%Q. split; [ring | split; ring]. Qed.
Lemma cells_apart_sym p q : cells_apart p q -> cells_apart q p.
Proof.
  intros (i & j & k & A & B & C). exists (-i), (-j), (-k). rewrite !inject_Z_opp, <- A, <- B, <- C.
  split; [ring | split; ring].
Qed.
(** the action of an exact operation *)
Definition act_op (o : op) (p : qvec) : qvec := act (aff (fst o) (snd o)) p.
Lemma act_op_of m p : act m p = act_op (op_of m) p. Proof. reflexivity. Qed.
Lemma act_op_comp a b p : cells_apart (act_op (op_comp a b) p) (act_op a (act_op b p)).
Proof.
  eapply cells_apart_compat; [apply qveq_refl | apply act_comp |]. apply cells_apart_refl.
Qed.
Lemma act_op_same a b p : op_same a b -> cells_apart (act_op a p) (act_op b p).
Proof. intros [E T]. unfold act_op. rewrite E. apply cells_apart_same_rot, T. Qed.
Lemma act_op_apart a p q : cells_apart p q -> cells_apart (act_op a p) (act_op a q).
Proof. apply cells_apart_act. Qed.
Lemma act_op_id p : cells_apart (act_op op_id p) p.
Proof.
  eapply cells_apart_compat; [| apply qveq_refl | apply cells_apart_refl].
  unfold qveq, act_op, op_id, act, qdot, aff, I3. cbn [fst snd rot tra qx qy qz m11 m12 m13 m21 m22 m23 m31 m32 m33 vx vy vz].
  change (inject_Z 0) with 0%Q. change (inject_Z 1) with 1%Q. split; [field | split; field].
Qed.

(** ** Counting *)
Lemma inj_le {A B} (R : A -> B -> Prop) l1 : forall l2, NoDup l1 ->
  (forall x, In x l1 -> exists y, In y l2 /\ R x y) ->
  (forall x x' y, In x l1 -> In x' l1 -> R x y -> R x' y -> x = x') -> (length l1 <= length l2)%nat.
Proof.
  induction l1 as [| x l1 IH]; intros l2 ND H I; [simpl; lia |].
  inversion ND as [| x0 l0 N ND']; subst.
  destruct (H x (or_introl eq_refl)) as (y & Hy & Rxy). apply in_split in Hy. destruct Hy as (u & w & ->).
  assert (L : (length l1 <= length (u ++ w))%nat).
  { apply IH; [exact ND' | | intros a a' b Ha Ha'; apply I; simpl; auto].
    intros a Ha. destruct (H a (or_intror Ha)) as (b & Hb & Rab). exists b. split; [| exact Rab].
    apply in_app_iff in Hb. apply in_app_iff. destruct Hb as [Hb | [<- | Hb]]; auto.
    exfalso. apply N. rewrite (I x a y); simpl; auto. }
  rewrite app_length in *. simpl. lia.
Qed.
Lemma listed_all g m : listed g m <-> In m (all_operations g).
Proof.
  unfold listed, all_operations. rewrite in_concat. split; intros (s & A & B); exists s; auto.
Qed.
Lemma NoDup_concat {A} (ll : list (list A)) :
  (forall i j k l s s' a, nth_error ll i = Some s -> nth_error s k = Some a -> nth_error ll j = Some s' ->
    nth_error s' l = Some a -> i = j /\ k = l) -> NoDup (List.concat ll).
Proof.
  induction ll as [| s ll IH]; intros H; [constructor |]. cbn [List.concat].
  assert (D : forall l1 l2 : list A, NoDup l1 -> NoDup l2 -> (forall a, In a l1 -> In a l2 -> False) -> NoDup (l1 ++ l2)).
  { clear. induction l1 as [| x l1 IH]; intros l2 N1 N2 H; [exact N2 |]. inversion N1; subst. cbn [app]. constructor.
    - rewrite in_app_iff. intros [C | C]; [contradiction |]. exact (H x (or_introl eq_refl) C).
    - apply IH; auto. intros a Ha. apply H. simpl; auto. }
  apply D.
  - apply NoDup_nth_error. intros i j L E. destruct (nth_error s i) as [a |] eqn:Ea; [| apply nth_error_Some in L; congruence].
    exact (proj2 (H O O i j s s a eq_refl Ea eq_refl (eq_sym E))).
  - apply IH. intros i j k l t t' a Hi Hk Hj Hl. destruct (H (S i) (S j) k l t t' a Hi Hk Hj Hl) as [E F]. split; congruence.
  - intros a Ha Hb. apply In_nth_error in Ha. destruct Ha as (k & Hk). apply in_concat in Hb. destruct Hb as (t & Ht & Hb).
    apply In_nth_error in Ht. destruct Ht as (j & Hj). apply In_nth_error in Hb. destruct Hb as (l & Hl).
    destruct (H O (S j) k l s t a eq_refl Hk Hj Hl). discriminate.
Qed.
Lemma all_NoDup fuel h g : general_positions fuel h = Done g -> NoDup (all_operations g).
Proof.
  intros H. apply NoDup_concat. intros i j k l s s' a Hi Hk Hj Hl.
  apply (C33_all_distinct _ _ _ H i j k l s s' a a Hi Hk Hj Hl). split; [reflexivity | apply vcong12_refl].
Qed.
Lemma all_unique fuel h g a b : general_positions fuel h = Done g -> In a (all_operations g) -> In b (all_operations g) ->
  op_same (op_of a) (op_of b) -> a = b.
Proof.
  intros H Ha Hb S. apply listed_all in Ha, Hb. destruct Ha as (s & Hs & Ha). destruct Hb as (s' & Hs' & Hb).
  apply In_nth_error in Hs, Hs', Ha, Hb. destruct Hs as (i & Hi), Hs' as (j & Hj), Ha as (k & Hk), Hb as (l & Hl).
  destruct (C33_all_distinct _ _ _ H i j k l s s' a b Hi Hk Hj Hl S) as [<- <-]. congruence.
Qed.

(** ** C64 *)
(** the images of a point are mapped to images of the point *)
Theorem C64_orbit_closed :
  forall fuel h g, general_positions fuel h = Done g -> no_extra_translations h ->
    forall p a b, In a (all_operations g) -> In b (all_operations g) ->
      exists c, In c (all_operations g) /\ cells_apart (act a (act b p)) (act c p).
Proof.
  intros fuel h g H T p a b Ha Hb. apply listed_all in Ha, Hb.
  destruct (listed_group _ _ _ _ H Ha) as [_ Ga], (listed_group _ _ _ _ H Hb) as [_ Gb].
  destruct (group_listed _ _ _ _ H T (gen_comp _ _ _ Ga Gb)) as (c & Lc & E).
  exists c. split; [apply listed_all, Lc |]. rewrite !act_op_of. apply cells_apart_sym.
  eapply cells_apart_trans; [apply act_op_same, E | apply act_op_comp].
Qed.
Lemma copies_le fuel h g p q a : general_positions fuel h = Done g -> no_extra_translations h -> In a (all_operations g) ->
  (copies g p q <= copies g p (act a q))%nat.
Proof.
  intros H T Ha. apply listed_all in Ha. destruct (listed_group _ _ _ _ H Ha) as [_ Ga].
  unfold copies. apply (inj_le (fun m y => op_same (op_of y) (op_comp (op_of a) (op_of m)))).
  - apply NoDup_filter, (all_NoDup _ _ _ H).
  - intros m Hm. apply filter_In in Hm. destruct Hm as [Hm S]. apply listed_all in Hm.
    destruct (listed_group _ _ _ _ H Hm) as [_ Gm].
    destruct (group_listed _ _ _ _ H T (gen_comp _ _ _ Ga Gm)) as (c & Lc & E).
    exists c. split; [| exact E]. apply filter_In. split; [apply listed_all, Lc |].
    apply same_site_spec in S. apply same_site_spec. rewrite !act_op_of in *.
    eapply cells_apart_trans; [apply act_op_same, E |]. eapply cells_apart_trans; [apply act_op_comp |].
    apply act_op_apart, S.
  - intros m m' y Hm Hm' E E'. apply filter_In in Hm, Hm'. apply (all_unique _ _ _ _ _ H (proj1 Hm) (proj1 Hm')).
    assert (U := hall_group_unimodular _ _ Ga).
    assert (Q : op_same (op_comp (op_of a) (op_of m)) (op_comp (op_of a) (op_of m')))
      by (eapply op_same_trans; [apply op_same_sym, E | exact E']).
    pose proof (op_same_comp _ _ _ _ (op_same_refl (op_inv (op_of a))) Q) as Q'.
    rewrite !op_comp_assoc, !(op_inv_l (op_of a) U), !op_comp_id_l in Q'. exact Q'.
Qed.
Lemma copies_apart g p q q' : cells_apart q q' -> copies g p q = copies g p q'.
Proof.
  intros A. unfold copies. f_equal. apply filter_ext. intros m. apply Bool.eq_iff_eq_true.
  rewrite !same_site_spec. split; intros B; eapply cells_apart_trans; eauto using cells_apart_sym.
Qed.
(** every image of a point is hit by the same number of operations, at least one *)
Theorem C64_every_image_equally_often :
  forall fuel h g, general_positions fuel h = Done g -> no_extra_translations h ->
    forall p a, In a (all_operations g) -> copies g p (act a p) = copies g p p /\ (0 < copies g p p)%nat.
Proof.
  intros fuel h g H T p a Ha.
  assert (P : (0 < copies g p (act a p))%nat).
  { unfold copies. assert (I : In a (filter (fun m => same_site (act m p) (act a p)) (all_operations g))).
    { apply filter_In. split; [exact Ha |]. apply same_site_spec, cells_apart_refl. }
    destruct (filter _ _); [destruct I | simpl; lia]. }
  assert (E : copies g p (act a p) = copies g p p); [| split; [exact E | rewrite <- E; exact P]].
  apply Nat.le_antisymm; [| exact (copies_le _ _ _ p p a H T Ha)].
  apply listed_all in Ha. destruct (listed_group _ _ _ _ H Ha) as [_ Ga].
  assert (U := hall_group_unimodular _ _ Ga).
  assert (Gi : hall_group h (op_inv (op_of a))) by (apply (gen_inv _ (op_of a)); [exact Ga | apply op_inv_r, U]).
  destruct (group_listed _ _ _ _ H T Gi) as (b & Lb & Eb). apply listed_all in Lb.
  eapply Nat.le_trans; [apply (copies_le _ _ _ p (act a p) b H T Lb) |].
  rewrite (copies_apart g p (act b (act a p)) p); [reflexivity |]. rewrite !act_op_of.
  eapply cells_apart_trans; [apply act_op_same, Eb |].
  eapply cells_apart_trans; [apply cells_apart_sym, act_op_comp |]. rewrite (op_inv_l (op_of a) U). apply act_op_id.
Qed.
(** the different sites times the multiplicity of each is the number of operations *)
Fixpoint sites_of (ps : list qvec) : list qvec :=
  match ps with
  | [] => []
  | p :: r => p :: filter (fun q => negb (same_site p q)) (sites_of r)
  end.
Lemma same_site_sym p q : same_site p q = same_site q p.
Proof. apply Bool.eq_iff_eq_true. rewrite !same_site_spec. split; apply cells_apart_sym. Qed.
Lemma sites_of_in ps q : In q (sites_of ps) -> In q ps.
Proof.
  revert q. induction ps as [| p r IH]; intros q H; [destruct H |]. destruct H as [<- | H]; [left; reflexivity |]. right. apply filter_In in H. apply IH, H.
Qed.
Lemma sites_of_cover ps p : In p ps -> exists q, In q (sites_of ps) /\ same_site p q = true.
Proof.
  induction ps as [| x r IH]; [intros [] |]. intros [<- | H].
  - exists x. split; [left; reflexivity | apply same_site_spec, cells_apart_refl].
  - destruct (IH H) as (q & Hq & S). destruct (same_site x q) eqn:E.
    + exists x. split; [left; reflexivity |]. apply same_site_spec. apply same_site_spec in S, E.
      eapply cells_apart_trans; eauto using cells_apart_sym.
    + exists q. split; [| exact S]. right. apply filter_In. now rewrite E.
Qed.
Definition apart_list (l : list qvec) : Prop := ForallOrdPairs (fun a b => same_site a b = false) l.
Lemma FOP_filter {A} (R : A -> A -> Prop) f l : ForallOrdPairs R l -> ForallOrdPairs R (filter f l).
Proof.
  induction 1 as [| a l F H IH]; [constructor |]. cbn [filter]. destruct (f a); [| exact IH]. constructor; [| exact IH].
  rewrite Forall_forall in *. intros x Hx. apply filter_In in Hx. apply F, Hx.
Qed.
Lemma sites_of_apart ps : apart_list (sites_of ps).
Proof.
  induction ps as [| p r IH]; [constructor |]. cbn [sites_of]. constructor; [| apply FOP_filter, IH].
  rewrite Forall_forall. intros x Hx. apply filter_In in Hx. destruct (same_site p x); [destruct Hx as [_ C]; discriminate C | reflexivity].
Qed.
Lemma apart_nth l : apart_list l -> forall i j a b, nth_error l i = Some a -> nth_error l j = Some b -> same_site a b = true -> i = j.
Proof.
  induction 1 as [| x l F H IH]; intros i j a b Hi Hj S; [destruct i; discriminate |].
  rewrite Forall_forall in F. destruct i as [| i], j as [| j]; cbn [nth_error] in *.
  - reflexivity.
  - exfalso. injection Hi as <-. rewrite (F b (nth_error_In _ _ Hj)) in S. discriminate.
  - exfalso. injection Hj as <-. rewrite same_site_sym, (F a (nth_error_In _ _ Hi)) in S. discriminate.
  - f_equal. eapply IH; eauto.
Qed.
Lemma count_split (f : seitz -> qvec) ops l k : apart_list l ->
  (forall m, In m ops -> exists q, In q l /\ same_site (f m) q = true) ->
  (forall q, In q l -> length (filter (fun m => same_site (f m) q) ops) = k) ->
  (length l * k)%nat = length ops.
Proof.
  intros A. revert ops. induction A as [| x l F H IH]; intros ops C K.
  - destruct ops as [| m ops]; [reflexivity |]. destruct (C m (or_introl eq_refl)) as (q & [] & _).
  - assert (Sp : forall o : list seitz, length o = (length (filter (fun m => same_site (f m) x) o) + length (filter (fun m => negb (same_site (f m) x)) o))%nat).
    { clear. induction o as [| m o IH]; [reflexivity |]. cbn [filter]. destruct (same_site (f m) x); cbn [negb List.length]; lia. }
    rewrite (Sp ops), (K x (or_introl eq_refl)). cbn [List.length Nat.mul]. f_equal.
    rewrite Forall_forall in F. apply IH.
    + intros m Hm. apply filter_In in Hm. destruct Hm as [Hm N]. destruct (C m Hm) as (q & [<- | Hq] & S); [rewrite S in N; discriminate |]. eauto.
    + intros q Hq. rewrite <- (K q (or_intror Hq)). specialize (F q Hq).
      assert (E : forall o, filter (fun m => same_site (f m) q) (filter (fun m => negb (same_site (f m) x)) o) = filter (fun m => same_site (f m) q) o).
      { induction o as [| m o IHo]; [reflexivity |]. cbn [filter]. destruct (same_site (f m) x) eqn:E1; cbn [negb].
        - destruct (same_site (f m) q) eqn:E2; [| exact IHo]. exfalso. apply same_site_spec in E1, E2.
          rewrite (proj2 (same_site_spec x q)) in F; [discriminate |]. eapply cells_apart_trans; [apply cells_apart_sym, E1 | exact E2].
        - cbn [filter]. destruct (same_site (f m) q); rewrite IHo; reflexivity. }
      now rewrite E.
Qed.
Theorem C64_sites_times_multiplicity :
  forall fuel h g, general_positions fuel h = Done g -> no_extra_translations h ->
    forall p, (exists sites, orbit g p sites) /\
      forall sites, orbit g p sites ->
        (length sites * copies g p p = length (gp_lattice g) * num_of_general_pos g)%nat.
Proof.
  intros fuel h g H T p. split.
  - exists (sites_of (map (fun m => act m p) (all_operations g))). split; [apply apart_nth, sites_of_apart |]. split.
    + intros m Hm. apply sites_of_cover. apply (in_map (fun m => act m p)), Hm.
    + intros q Hq. apply sites_of_in in Hq. apply in_map_iff in Hq. destruct Hq as (m & E & Hm). eauto.
  - intros sites (A & C & D).
    assert (Len : length (all_operations g) = (length (gp_lattice g) * num_of_general_pos g)%nat).
    { unfold all_operations, derive_full_sets, num_of_general_pos. induction (gp_lattice g) as [| v l IH]; [reflexivity |].
      cbn [map List.concat List.length Nat.mul]. rewrite app_length, map_length, IH. reflexivity. }
    rewrite <- Len. apply (count_split (fun m => act m p)).
    + clear C D. induction sites as [| x l IH]; constructor.
      * rewrite Forall_forall. intros y Hy. apply In_nth_error in Hy. destruct Hy as (j & Hj).
        destruct (same_site x y) eqn:E; [| reflexivity]. pose proof (A O (S j) x y eq_refl Hj E). discriminate.
      * apply IH. intros i j a b Hi Hj Q. pose proof (A (S i) (S j) a b Hi Hj Q). congruence.
    + exact C.
    + intros q Hq. destruct (D q Hq) as (m & Hm & <-). apply (C64_every_image_equally_often _ _ _ H T p m Hm).
Qed.
(** some point is in general position: no two listed operations take it to the same site.
    This holds for every symbol, also with extra translations. *)
Definition general_point : qvec := QV (1 # 17) (1 # 289) (1 # 4913).
Lemma row_general a b c t i : -2 <= a <= 2 -> -2 <= b <= 2 -> -2 <= c <= 2 ->
  289 * 12 * a + 17 * 12 * b + 12 * c + 4913 * t = 12 * 4913 * i -> a = 0 /\ b = 0 /\ c = 0 /\ cong12 t 0.
Proof.
  intros A B C E.
  assert (W : 12 * i - t = 0) by lia. assert (X : 289 * a + 17 * b + c = 0) by lia.
  assert (c = 0) by lia. assert (b = 0) by lia. assert (a = 0) by lia. repeat split; auto. exists i. lia.
Qed.
Lemma row_point R1 R2 R3 S1 S2 S3 t u i :
  (-1 <= R1 <= 1 /\ -1 <= R2 <= 1 /\ -1 <= R3 <= 1) -> (-1 <= S1 <= 1 /\ -1 <= S2 <= 1 /\ -1 <= S3 <= 1) ->
  ((qdot R1 R2 R3 general_point + inject_Z t / 12) - (qdot S1 S2 S3 general_point + inject_Z u / 12) == inject_Z i)%Q ->
  R1 = S1 /\ R2 = S2 /\ R3 = S3 /\ cong12 t u.
Proof.
  intros (A1 & A2 & A3) (B1 & B2 & B3) E.
  assert (K : 289 * 12 * (R1 - S1) + 17 * 12 * (R2 - S2) + 12 * (R3 - S3) + 4913 * (t - u) = 12 * 4913 * i).
  { assert (Q : (inject_Z (289 * 12 * (R1 - S1) + 17 * 12 * (R2 - S2) + 12 * (R3 - S3) + 4913 * (t - u)) == inject_Z (12 * 4913 * i))%Q).
    { rewrite (inject_Z_mult (12 * 4913) i), <- E. unfold qdot, general_point. cbn [qx qy qz]. unfold Z.sub.
      rewrite !inject_Z_plus, !inject_Z_mult, !inject_Z_plus, !inject_Z_opp.
      change (1 # 17)%Q with (/ inject_Z 17)%Q. change (1 # 289)%Q with (/ (inject_Z 17 * inject_Z 17))%Q.
      change (1 # 4913)%Q with (/ (inject_Z 17 * inject_Z 17 * inject_Z 17))%Q.
      change (inject_Z 289) with (inject_Z 17 * inject_Z 17)%Q. change (inject_Z 4913) with (inject_Z 17 * inject_Z 17 * inject_Z 17)%Q.
      change (inject_Z 12) with 12%Q. change (inject_Z 17) with 17%Q. field. }
    unfold Qeq, inject_Z in Q. cbn [Qnum Qden] in Q. lia. }
  destruct (row_general (R1 - S1) (R2 - S2) (R3 - S3) (t - u) i) as (X & Y & Z & (k & W)); try lia.
  split; [lia |]. split; [lia |]. split; [lia |]. exists k. lia.
Qed.
Theorem C64_general_point :
  forall fuel h g, general_positions fuel h = Done g ->
    forall a b, In a (all_operations g) -> In b (all_operations g) ->
      cells_apart (act a general_point) (act b general_point) -> a = b.
Proof.
  intros fuel h g H a b Ha Hb (i & j & k & X & Y & Z). apply (all_unique _ _ _ _ _ H Ha Hb).
  assert (U : forall m, In m (all_operations g) -> unit_matrix (rot m)).
  { intros m Hm. apply listed_all in Hm. destruct Hm as (s & Hs & Hm). unfold derive_full_sets in Hs. apply in_map_iff in Hs.
    destruct Hs as (v & <- & _). apply in_map_iff in Hm. destruct Hm as (c & <- & Hc).
    exact (proj1 (C61_listed_positions _ _ _ H c Hc)). }
  pose proof (U a Ha) as Ua. pose proof (U b Hb) as Ub. unfold unit_matrix in Ua, Ub.
  unfold act in X, Y, Z. cbn [qx qy qz] in X, Y, Z.
  apply row_point in X; [| tauto | tauto]. apply row_point in Y; [| tauto | tauto]. apply row_point in Z; [| tauto | tauto].
  unfold op_same, op_of. cbn [fst snd]. split.
  - destruct (rot a) as [a1 a2 a3 a4 a5 a6 a7 a8 a9], (rot b) as [b1 b2 b3 b4 b5 b6 b7 b8 b9]. cbn [m11 m12 m13 m21 m22 m23 m31 m32 m33] in X, Y, Z.
    destruct X as (-> & -> & -> & _), Y as (-> & -> & -> & _), Z as (-> & -> & -> & _). reflexivity.
  - unfold vcong12. tauto.
Qed.
(** I 4: of the eight operations four keep each of the two sites of a point on the axis *)
Example C64_case : exists h g, try_from_str "I 4" = Done (Some h) /\ general_positions 10 h = Done g /\
  no_extra_translations h /\ copies g (QV 0 0 (1 # 5)) (QV 0 0 (1 # 5)) = 4%nat /\
  orbit g (QV 0 0 (1 # 5)) (map (fun m => act m (QV 0 0 (1 # 5))) (map (fun s => nth 0 s sz_identity) (derive_full_sets g))) /\
  copies g general_point general_point = 1%nat.
Proof.
  destruct (case_spec "I 4" 4) as (h & g & E & G & T & _); [vm_compute; reflexivity |].
  exists h, g. split; [exact E |]. split; [exact G |]. split; [exact T |].
  assert (K : match try_from_str "I 4" with Done (Some h) => match general_positions 10 h with Done g =>
    Nat.eqb (copies g (QV 0 0 (1 # 5)) (QV 0 0 (1 # 5))) 4 && Nat.eqb (copies g general_point general_point) 1
    && forallb (fun m => existsb (fun q => same_site (act m (QV 0 0 (1 # 5))) q)
         (map (fun m => act m (QV 0 0 (1 # 5))) (map (fun s => nth 0 s sz_identity) (derive_full_sets g)))) (all_operations g)
    && (match map (fun m => act m (QV 0 0 (1 # 5))) (map (fun s => nth 0 s sz_identity) (derive_full_sets g)) with
        | [a; b] => negb (same_site a b) | _ => false end)
    && forallb (fun s => match s with [] => false | _ => true end) (derive_full_sets g)
    | _ => false end | _ => false end = true) by (vm_compute; reflexivity).
  rewrite E, G in K. rewrite !andb_true_iff, !Nat.eqb_eq in K. destruct K as ((((K1 & K2) & K3) & K4) & K5).
  split; [exact K1 |]. split; [| exact K2]. rewrite forallb_forall in K3, K5. split; [| split].
  - set (l := map (fun m => act m _) _) in *. clearbody l. destruct l as [| a [| b [| c l]]]; try discriminate K4.
    apply negb_true_iff in K4. intros [| [| i]] [| [| j]] x y Hx Hy S; cbn [nth_error] in Hx, Hy;
      try reflexivity; try (destruct i; discriminate); try (destruct j; discriminate); exfalso.
    + assert (x = a /\ y = b) as [-> ->] by (split; congruence). congruence.
    + assert (x = b /\ y = a) as [-> ->] by (split; congruence). rewrite same_site_sym in S. congruence.
  - intros m Hm. apply existsb_exists. apply K3, Hm.
  - intros q Hq. apply in_map_iff in Hq. destruct Hq as (m & <- & Hm). exists m. split; [| reflexivity].
    apply in_map_iff in Hm. destruct Hm as (s & <- & Hs). apply listed_all. exists s. split; [exact Hs |].
    specialize (K5 s Hs). destruct s; [discriminate | left; reflexivity].
Qed.
