(** * PropRepeat: which operations beyond one per rotation are listed (C60). *)
From Coq Require Import Permutation.
From Verif Require Import Base Notations Parser Seitz F64 Jones Rotations Generate Positions Spec SpecHall SpecRepeat
  Algebra PropSymbols PropSeitz GenFacts PropGenerate PropFullSets.
Open Scope Z_scope.
Local Notation length := List.length.

Lemma rem12_zero x : (rem12 x =? 0) = true <-> cong12 x 0.
Proof. rewrite Z.eqb_eq. apply rem12_0. Qed.
Lemma vcong12_sub a b c d : vcong12 a b -> vcong12 c d -> vcong12 (vsub a c) (vsub b d).
Proof.
  intros H K. replace (vsub a c) with (vadd a (vopp c)) by mat_ring.
  replace (vsub b d) with (vadd b (vopp d)) by mat_ring. apply vcong12_vadd; auto. apply vcong12_vopp; auto.
Qed.
Lemma nontouch t : vforall (fun v => negb (rem12 v =? 0)) t = true <-> ~ touches_axis t.
Proof.
  unfold vforall, touches_axis. rewrite <- !rem12_zero, !andb_true_iff, !negb_true_iff.
  destruct (rem12 (vx t) =? 0), (rem12 (vy t) =? 0), (rem12 (vz t) =? 0); intuition congruence.
Qed.
Lemma cong12_0_iff a b : cong12 a b -> (cong12 a 0 <-> cong12 b 0).
Proof. unfold cong12. intros (k & H). split; intros (j & E); [exists (j - k) | exists (j + k)]; lia. Qed.
Lemma touches_cong a b : vcong12 a b -> touches_axis a -> touches_axis b.
Proof.
  intros (X & Y & Z0). unfold touches_axis.
  rewrite (cong12_0_iff _ _ X), (cong12_0_iff _ _ Y), (cong12_0_iff _ _ Z0). auto.
Qed.
Lemma fully_fractional_coset l t t' : in_lat l (vsub t' t) -> fully_fractional l t -> fully_fractional l t'.
Proof.
  intros L F u Hu T.
  destruct (in_lat_add l _ _ L (in_lat_in l u Hu)) as (w & Hw & E).
  apply (F w Hw). refine (touches_cong _ _ _ T).
  apply vcong12_sym.
  eapply vcong12_trans; [apply vcong12_vadd; [apply vcong12_refl | apply vcong12_sym; exact E] |].
  replace (vadd t (vadd (vsub t' t) u)) with (vadd t' u) by mat_ring. apply vcong12_refl.
Qed.
Lemma forallb_false {A} (f : A -> bool) l : forallb f l = false -> exists x, In x l /\ f x = false.
Proof.
  induction l as [| a l IH]; simpl; [discriminate |]. destruct (f a) eqn:E; simpl.
  - intros H. destruct (IH H) as (x & ? & ?). eauto.
  - eauto.
Qed.

(** an operation that need not be added: listed, or with a whole coordinate in some copy *)
Definition settled (l : lattice) (ops : list seitz) (o : op) : Prop :=
  listed_up_to_centring l ops o \/ exists u, In u (translations l) /\ touches_axis (vadd (snd o) u).
Lemma settled_incl l ops ops' o : incl ops ops' -> settled l ops o -> settled l ops' o.
Proof. intros H [(m & Hm & E & C) | K]; [left; exists m; auto | right; auto]. Qed.
Lemma settled_same l ops o o' : op_same o o' -> settled l ops o -> settled l ops o'.
Proof.
  intros [E V] [(m & Hm & Er & C) | (u & Hu & T)].
  - left. exists m. split; auto. split; [congruence |].
    apply (in_lat_cong l (vsub (tra m) (snd o))); auto.
    apply vcong12_sub; [apply vcong12_refl | auto].
  - right. exists u. split; auto. refine (touches_cong _ _ _ T). apply vcong12_vadd; auto. apply vcong12_refl.
Qed.

Definition same_rot (R : mat3) (m : seitz) : bool := meqb R (rot m).
(** of the operations with one rotation part, all but the first are fully fractional *)
Definition repeats_ok (l : lattice) (ops : list seitz) : Prop :=
  forall R, Forall (fun m => fully_fractional l (tra m)) (tl (filter (same_rot R) ops)).

Lemma filter_app' {A} (p : A -> bool) a b : filter p (a ++ b) = filter p a ++ filter p b.
Proof. induction a; simpl; auto. destruct (p a); simpl; congruence. Qed.

Lemma add_rule l st m b st' :
  Inv l st -> is_affine m -> vlow (tra m) -> repeats_ok l (g_list st) ->
  add_to_list (translations l) st m = (b, st') ->
  repeats_ok l (g_list st') /\ settled l (g_list st') (op_of m).
Proof.
  intros I Ha Hl RO H.
  assert (Hp : forall t, in_lat l (vsub t (tra m)) ->
     (forall y, In y (g_list st) -> rot y = rot m -> fully_fractional l t) ->
     repeats_ok l (g_list st ++ [aff (rot m) t]) /\ settled l (g_list st ++ [aff (rot m) t]) (op_of m)).
  { intros t Ht Hf. split.
    - intros R. rewrite filter_app'. cbn [filter]. specialize (RO R).
      destruct (same_rot R (aff (rot m) t)) eqn:E; [| rewrite app_nil_r; exact RO].
      apply meqb_eq in E. cbn [rot aff] in E.
      destruct (filter (same_rot R) (g_list st)) as [| y ys] eqn:Fy; [constructor |].
      cbn [app tl] in *. apply Forall_app. split; auto. constructor; [| constructor]. cbn [tra aff].
      assert (Hy : In y (filter (same_rot R) (g_list st))) by (rewrite Fy; simpl; auto).
      apply filter_In in Hy. destruct Hy as [Hy Ey]. apply meqb_eq in Ey.
      apply (Hf y Hy). congruence.
    - left. exists (aff (rot m) t). split; [apply in_app_iff; simpl; auto |]. auto. }
  unfold add_to_list in H.
  set (t := minimal_repr (translations l) (tra m)) in *.
  assert (Ht : in_lat l (vsub t (tra m))) by apply minimal_repr_coset.
  assert (Hset : set_translation_part t m = aff (rot m) t).
  { destruct Ha as [Hb _]. unfold set_translation_part, aff. rewrite Hb. reflexivity. }
  rewrite Hset in H.
  destruct (map_get (g_map st) (rot m)) as [s|] eqn:G.
  - destruct (inv_some l st I _ _ G) as [Hs Hin].
    destruct (forallb _ _) eqn:F.
    + assert (FF : fully_fractional l (tra m)).
      { intros u Hu. rewrite forallb_forall in F. specialize (F u Hu). apply andb_true_iff in F.
        apply nontouch, F. }
      destruct (set_mem t s) eqn:M; injection H as <- <-.
      * split; auto. left. exists (aff (rot m) t). split; [apply Hin, set_mem_In, M |]. auto.
      * cbn [g_list]. apply Hp; auto. intros. apply (fully_fractional_coset l (tra m)); auto.
    + injection H as <- <-. split; auto.
      apply forallb_false in F. destruct F as (u & Hu & F). apply andb_false_iff in F. destruct F as [F | F].
      * apply negb_false_iff in F. apply set_mem_In, Hin in F. left.
        eexists; split; [exact F |]. split; [reflexivity |]. cbn [tra aff op_of snd].
        apply (in_lat_cong l u); [| apply in_lat_in, Hu].
        apply vcong12_sym.
        eapply vcong12_trans; [apply vcong12_sub; [apply vcong12_pm | apply vcong12_refl] |].
        replace (vsub (vadd (tra m) u) (tra m)) with u by mat_ring. apply vcong12_refl.
      * right. exists u. split; auto. cbn [op_of snd].
        destruct (vforall (fun v => negb (rem12 v =? 0)) (vadd (tra m) u)) eqn:V; [discriminate |].
        unfold touches_axis. rewrite <- !rem12_zero. unfold vforall in V.
        destruct (rem12 (vx (vadd (tra m) u)) =? 0); auto. destruct (rem12 (vy (vadd (tra m) u)) =? 0); auto.
        destruct (rem12 (vz (vadd (tra m) u)) =? 0); auto.
  - injection H as <- <-. cbn [g_list]. apply Hp; auto.
    intros y Hy E. exfalso. destruct (inv_affine l st I y Hy) as [Ya _].
    apply (inv_none l st I _ G (tra y)). rewrite <- E, <- affine_aff; auto.
Qed.

Lemma extends_incl P a b : extends P a b -> incl (g_list a) (g_list b).
Proof. intros (e & -> & _) x Hx. apply in_app_iff. auto. Qed.

Lemma inner_rule l i js : forall st,
  Inv l st -> is_affine i -> (forall j, In j js -> is_affine j) -> repeats_ok l (g_list st) ->
  let st' := inner_loop (translations l) i js st in
  repeats_ok l (g_list st') /\
  (st' = st -> forall j, In j js -> settled l (g_list st) (op_of (sz_mul i j))).
Proof.
  induction js as [| j js IH]; intros st I Hi Hj RO; cbn [inner_loop].
  - split; auto. intros _ ? [].
  - destruct (mul_input i j Hi (Hj j (or_introl eq_refl))) as [M1 M2].
    destruct (add_to_list (translations l) st (sz_mul i j)) as [b st'] eqn:A.
    destruct (add_rule l st _ b st' I M1 M2 RO A) as [R1 R2].
    destruct (add_to_list_spec l st _ b st' I M1 M2 A) as [(-> & -> & _) | (-> & I' & m' & E & _)].
    + destruct (IH st I Hi (fun k Hk => Hj k (or_intror Hk)) RO) as [Q1 Q2]. split; auto.
      intros E k [<- | Hk]; auto.
    + split; auto. intros ->. exfalso. apply (f_equal (@List.length _)) in E. rewrite app_length in E. simpl in E. lia.
Qed.
Lemma pass_rule l il js : forall st,
  Inv l st -> (forall i, In i il -> is_affine i) -> (forall j, In j js -> is_affine j) -> repeats_ok l (g_list st) ->
  let st' := fold_left (fun s i => inner_loop (translations l) i js s) il st in
  repeats_ok l (g_list st') /\
  (length (g_list st') = length (g_list st) ->
    forall i j, In i il -> In j js -> settled l (g_list st) (op_of (sz_mul i j))).
Proof.
  induction il as [| i il IH]; intros st I Hi Hj RO; cbn [fold_left].
  - split; auto. intros _ ? ? [].
  - destruct (inner_loop_spec l i js st I (Hi i (or_introl eq_refl)) Hj) as (I1 & X1 & C1).
    destruct (inner_rule l i js st I (Hi i (or_introl eq_refl)) Hj RO) as (R1 & R2).
    set (s1 := inner_loop (translations l) i js st) in *.
    destruct (pass_spec l il js s1 I1 (fun k Hk => Hi k (or_intror Hk)) Hj) as (I2 & X2 & C2).
    destruct (IH s1 I1 (fun k Hk => Hi k (or_intror Hk)) Hj R1) as (R3 & R4).
    set (s2 := fold_left _ il s1) in *. split; auto.
    intros L. pose proof (extends_length _ _ _ X1). pose proof (extends_length _ _ _ X2).
    destruct (C1 ltac:(lia)) as [E1 _]. intros a b [<- | Ha] Hb; [apply R2; auto |].
    rewrite <- E1. apply R4; auto. lia.
Qed.
Lemma gen_loop_rule l fuel : forall st res,
  Inv l st -> repeats_ok l (g_list st) ->
  gen_loop fuel (translations l) st = Done res ->
  repeats_ok l res /\ incl (g_list st) res /\
  (forall i j, In i (skipn 1 res) -> In j (skipn 1 res) -> settled l res (op_of (sz_mul i j))).
Proof.
  induction fuel as [| f IH]; intros st res I RO H; [discriminate |]. cbn [gen_loop] in H.
  destruct (one_pass_spec l st I) as (I' & X & C).
  assert (A : forall m, In m (skipn 1 (g_list st)) -> is_affine m).
  { intros m Hm. apply (inv_affine l st I). destruct (g_list st); simpl; auto. }
  destruct (pass_rule l _ _ st I A A RO) as (R1 & R2).
  unfold one_pass in *. set (st' := fold_left _ _ st) in *.
  destruct (Nat.ltb_spec (length (g_list st)) (length (g_list st'))) as [L | L].
  - destruct (IH st' res I' R1 H) as (Q1 & Q2 & Q3). split; auto. split; auto.
    intros x Hx. apply Q2. exact (extends_incl _ _ _ X x Hx).
  - injection H as <-. split; auto. split; [intros x; auto |].
    pose proof (extends_length _ _ _ X). apply R2. lia.
Qed.
Lemma add_all_rule l gs : forall st,
  Inv l st -> (forall g, In g gs -> is_affine g /\ vlow (tra g)) -> repeats_ok l (g_list st) ->
  let st' := add_all (translations l) st gs in
  repeats_ok l (g_list st') /\ incl (g_list st) (g_list st') /\ forall g, In g gs -> settled l (g_list st') (op_of g).
Proof.
  induction gs as [| g gs IH]; intros st I Hg RO; cbn [add_all fold_left].
  - split; auto. split; [intros x; auto |]. intros ? [].
  - destruct (Hg g (or_introl eq_refl)) as [G1 G2].
    destruct (add_to_list (translations l) st g) as [b s1] eqn:A. cbn [snd].
    destruct (add_rule l st g b s1 I G1 G2 RO A) as [R1 R2].
    assert (K : Inv l s1 /\ incl (g_list st) (g_list s1)).
    { destruct (add_to_list_spec l st g b s1 I G1 G2 A) as [(-> & -> & _) | (-> & I' & m' & E & _)].
      - split; auto. intros x; auto.
      - split; auto. rewrite E. intros x Hx. apply in_app_iff; auto. }
    destruct K as [K1 K2].
    destruct (IH s1 K1 (fun k Hk => Hg k (or_intror Hk)) R1) as (Q1 & Q2 & Q3).
    unfold add_all in *. split; auto. split; [intros x Hx; auto |].
    intros k [<- | Hk]; auto. apply (settled_incl l (g_list s1)); auto.
Qed.

Lemma generators_settle h gs l ops : generators h = Done gs -> l = ls_char (h_lat h) ->
  (forall g, In g gs -> settled l ops (op_of g)) -> forall o, hall_gens h o -> settled l ops o.
Proof.
  intros H -> S o. unfold generators in H. apply obind_Done in H. destruct H as (ss & Hss & H). injection H as <-.
  apply omap_Done in Hss.
  intros [(v & Hv & ->) | [(Hmi & ->) | (ms & m & Hms & Hm & ->)]].
  - apply (S (aff I3 v)). apply in_app_iff; left. apply C24_lattice_generators. eauto.
  - apply (S (aff (mopp I3) v0)). apply in_app_iff; left. apply C24_lattice_generators.
    exists v0. split; auto. apply C24_centring_group.
  - assert (Hin : In (shifted_matrix (h_shift h) m) ss).
    { clear -Hss Hms Hm. induction Hss as [| ms0 g l r E F IH]; [destruct Hms |].
      destruct Hms as [-> | Hms]; [| simpl; auto].
      unfold symbol_generator in E. rewrite Hm in E. injection E as <-. simpl; auto. }
    apply (settled_same _ _ (op_of (shifted_matrix (h_shift h) m))); [| apply S, in_app_iff; auto].
    destruct (seitz_matrix_affine ms m Hm) as [A _]. rewrite op_conj_formula.
    rewrite (affine_aff m A), shifted_matrix_aff. split; auto. apply vcong12_pm.
Qed.

Lemma unsorted_rule fuel h l :
  generate_unsorted fuel h = Done l ->
  repeats_ok (ls_char (h_lat h)) l /\
  (forall o, hall_gens h o -> settled (ls_char (h_lat h)) l o) /\
  (forall a b, In a l -> In b l -> settled (ls_char (h_lat h)) l (op_comp (op_of a) (op_of b))).
Proof.
  intros H0. destruct (generate_unsorted_spec fuel h l H0) as (mp & IL & _ & (r & Er) & _).
  unfold generate_unsorted in H0. rename H0 into H. apply obind_Done in H. destruct H as (n & _ & H).
  destruct (capacity_limit <? n); [discriminate |].
  apply obind_Done in H. destruct H as (gs & Hgs & H).
  destruct (generators_spec h gs Hgs) as (G1 & _).
  set (lat := ls_char (h_lat h)) in *.
  assert (Hg : forall g, In g gs -> is_affine g /\ vlow (tra g)).
  { intros g Hg. destruct (G1 g Hg) as (? & ? & _). auto. }
  destruct (add_all_spec lat gs (GS [] []) (Inv_empty lat) Hg) as (I & _).
  destruct (add_all_rule lat gs (GS [] []) (Inv_empty lat) Hg) as (R1 & _ & R3).
  { intros R. constructor. }
  set (st := add_all (translations lat) (GS [] []) gs) in *.
  destruct (gen_loop_rule lat fuel st l I R1 H) as (Q1 & Q2 & Q3).
  split; auto. split.
  - apply (generators_settle h gs); auto. intros g K. apply (settled_incl lat (g_list st)); auto.
  - assert (Af : forall x, In x l -> is_affine x) by (intros x Hx; apply (inv_affine _ _ IL x Hx)).
    assert (Self : forall x, In x l -> settled lat l (op_of x)).
    { intros x Hx. left. exists x. split; auto. split; auto. cbn [op_of snd].
      replace (vsub (tra x) (tra x)) with v0 by mat_ring. apply in_lat_0. }
    assert (Q4 : forall a b, In a (skipn 1 l) -> In b (skipn 1 l) -> settled lat l (op_comp (op_of a) (op_of b))).
    { intros a b Ha Hb. apply (settled_same lat l (op_of (sz_mul a b))); [| apply Q3; auto].
      assert (In a l /\ In b l) as [Ia Ib].
      { rewrite Er in *. cbn [skipn] in *. simpl; auto. }
      rewrite (affine_aff a (Af a Ia)), (affine_aff b (Af b Ib)), sz_mul_aff. split; auto. apply vcong12_rem. }
    intros a b Ha Hb. rewrite Er in Ha, Hb, Q4. cbn [skipn] in Q4.
    destruct Ha as [<- | Ha].
    + apply (settled_same lat l (op_of b)); [| apply Self; rewrite Er; exact Hb].
      unfold op_comp, op_same, sz_identity; cbn. rewrite mmul_I_l, mvmul_I. split; auto.
      replace (vadd (tra b) v0) with (tra b) by (symmetry; apply vadd_0_r). apply vcong12_refl.
    + destruct Hb as [<- | Hb]; [| rewrite Er; apply Q4; auto].
      apply (settled_same lat l (op_of a)); [| apply Self; rewrite Er; simpl; auto].
      unfold op_comp, op_same, sz_identity; cbn. rewrite mmul_I_r. split; auto.
      replace (vadd (mvmul (rot a) v0) (tra a)) with (tra a) by mat_ring. apply vcong12_refl.
Qed.

Lemma filter_later {A} (p : A -> bool) : forall l i j a b,
  nth_error l i = Some a -> nth_error l j = Some b -> (i < j)%nat -> p a = true -> p b = true ->
  In b (tl (filter p l)).
Proof.
  induction l as [| x l IH]; intros i j a b Ha Hb L Pa Pb; [destruct i; discriminate |].
  destruct j as [| j]; [lia |]. cbn [nth_error] in Hb. destruct i as [| i].
  - injection Ha as ->. cbn [filter]. rewrite Pa. cbn [tl]. apply filter_In. split; auto.
    eapply nth_error_In; eauto.
  - cbn [nth_error] in Ha. assert (K := IH i j a b Ha Hb ltac:(lia) Pa Pb). cbn [filter].
    destruct (p x); auto. cbn [tl]. destruct (filter p l); simpl in *; auto.
Qed.
Lemma filter_filter {A} (p q : A -> bool) l : (forall x, In x l -> p x = true -> q x = true) ->
  filter p (filter q l) = filter p l.
Proof.
  induction l as [| x l IH]; intros H; [reflexivity |]. cbn [filter].
  assert (E := IH (fun y Hy => H y (or_intror Hy))).
  destruct (q x) eqn:Q; cbn [filter]; rewrite E; auto.
  destruct (p x) eqn:P; auto. rewrite (H x (or_introl eq_refl) P) in Q. discriminate.
Qed.

(** ** C60  What is listed beyond one operation per rotation *)
(** an operation whose rotation part occurs earlier in the list has a fully fractional
    translation *)
Theorem C60_repeated_rotation_fully_fractional :
  forall fuel h g, general_positions fuel h = Done g ->
    forall i j a b, nth_error (gp_core g) i = Some a -> nth_error (gp_core g) j = Some b -> (i < j)%nat ->
      rot a = rot b -> fully_fractional (ls_char (h_lat h)) (tra b).
Proof.
  intros fuel h g H i j a b Ha Hb L E.
  destruct (general_positions_spec _ _ _ H) as (_ & l & Hl & Hs & P).
  destruct (unsorted_rule _ _ _ Hl) as (RO & _).
  destruct (h_syms h) as [| ms rest] eqn:Es.
  { destruct (C30_no_symbols_panics h l Es) as (w & W). congruence. }
  destruct (C30_sort_stable_reordering h ms rest l _ Es Hs) as (_ & F & _).
  destruct (order_index (table_for ms) a) as [k | w |] eqn:K.
  - assert (S : forall x, rot x = rot a -> rank_is (table_for ms) k x = true).
    { intros x Hx. unfold rank_is, order_index, jones_rot. unfold order_index, jones_rot in K. rewrite Hx, K.
      apply Nat.eqb_refl. }
    specialize (RO (rot a)). rewrite <- (filter_filter (same_rot (rot a)) (rank_is (table_for ms) k) l) in RO.
    2: { intros x _ Hx. apply S. symmetry. apply meqb_eq, Hx. }
    rewrite <- F, filter_filter in RO.
    2: { intros x _ Hx. apply S. symmetry. apply meqb_eq, Hx. }
    rewrite Forall_forall in RO. apply RO.
    apply (filter_later _ _ i j a b); auto; apply meqb_eq; auto.
  - exfalso. assert (W : exists w, sort_positions h l = Panic w).
    { apply (C30_sort_panics_iff h ms rest l Es). split.
      - rewrite (Permutation_length P). assert (j < length (gp_core g))%nat by (apply nth_error_Some; congruence). lia.
      - exists a. split; [apply (Permutation_in _ (Permutation_sym P)); eapply nth_error_In; eauto |].
        intros q Q. apply order_index_rank in Q. congruence. }
    destruct W as (w' & W). congruence.
  - exfalso. revert K. unfold order_index, jones_rot, rotation_jf, jf_row, jf_entry.
    repeat (match goal with |- context [match char_utf8 ?x with _ => _ end] => destruct (char_utf8 x) end; cbn [obind]; try discriminate).
    destruct (position _ _); discriminate.
Qed.
(** conversely, every generator and every product of two listed operations is either listed
    (up to the centring) or has a whole coordinate in one of its centred copies *)
Theorem C60_unlisted_has_whole_coordinate :
  forall fuel h g, general_positions fuel h = Done g ->
    (forall o, hall_gens h o ->
       listed_up_to_centring (ls_char (h_lat h)) (gp_core g) o \/ ~ fully_fractional (ls_char (h_lat h)) (snd o)) /\
    (forall a b, In a (gp_core g) -> In b (gp_core g) ->
       listed_up_to_centring (ls_char (h_lat h)) (gp_core g) (op_comp (op_of a) (op_of b)) \/
       ~ fully_fractional (ls_char (h_lat h)) (snd (op_comp (op_of a) (op_of b)))).
Proof.
  intros fuel h g H. destruct (general_positions_spec _ _ _ H) as (_ & l & Hl & _ & P).
  destruct (unsorted_rule _ _ _ Hl) as (_ & G & C).
  assert (Q : forall o, settled (ls_char (h_lat h)) l o ->
    listed_up_to_centring (ls_char (h_lat h)) (gp_core g) o \/ ~ fully_fractional (ls_char (h_lat h)) (snd o)).
  { intros o [(m & Hm & K) | (u & Hu & T)].
    - left. exists m. split; auto. eapply Permutation_in; eauto.
    - right. intros F. exact (F u Hu T). }
  split.
  - intros o Ho. apply Q, G, Ho.
  - intros a b Ha Hb. apply Permutation_sym in P. apply Q, C; eapply Permutation_in; eauto.
Qed.
(** both theorems apply to P 1 1d (the translation of [d] and its multiples are kept: four
    pure translations are listed) and to P 1 1a and P 1 1n, where the extra translation has a
    whole coordinate in P 1 1a (not kept) and none in P 1 1n (kept) *)
Example C60_cases :
  (exists h g, try_from_str "P 1 1d" = Done (Some h) /\ general_positions 10 h = Done g /\
     map op_of (gp_core g) = [(I3, V3 0 0 0); (I3, V3 3 3 3); (I3, V3 6 6 6); (I3, V3 9 9 9)]) /\
  (exists h g, try_from_str "P 1 1n" = Done (Some h) /\ general_positions 10 h = Done g /\
     map op_of (gp_core g) = [(I3, V3 0 0 0); (I3, V3 6 6 6)]) /\
  (exists h g, try_from_str "P 1 1a" = Done (Some h) /\ general_positions 10 h = Done g /\
     map op_of (gp_core g) = [(I3, V3 0 0 0)] /\ hall_group h (I3, V3 6 0 0)).
Proof.
  assert (Q : forall s ops, match try_from_str s with
      | Done (Some h) => match general_positions 10 h with Done g => map op_of (gp_core g) = ops | _ => False end
      | _ => False end ->
      exists h g, try_from_str s = Done (Some h) /\ general_positions 10 h = Done g /\ map op_of (gp_core g) = ops).
  { intros s ops. destruct (try_from_str s) as [[h|]| |]; try tauto.
    destruct (general_positions 10 h) as [g| |] eqn:E; try tauto. intros H. exists h, g. auto. }
  split; [apply Q; vm_compute; reflexivity |]. split; [apply Q; vm_compute; reflexivity |].
  assert (E1 : exists h g, try_from_str "P 1 1a" = Done (Some h) /\ general_positions 10 h = Done g /\
     map op_of (gp_core g) = [(I3, V3 0 0 0)] /\ h_shift h = v0 /\ exists ms m, In ms (h_syms h) /\ seitz_matrix ms = Some m /\
       op_of m = (I3, V3 6 0 0)).
  { destruct (Q "P 1 1a"%string [(I3, V3 0 0 0)] ltac:(vm_compute; reflexivity)) as (h & g & A & B & C).
    exists h, g. split; auto. split; auto. split; auto. vm_compute in A. injection A as <-. split; [reflexivity |].
    eexists _, _. split; [right; left; reflexivity |]. split; vm_compute; reflexivity. }
  destruct E1 as (h & g & A & B & C & D & ms & m & M1 & M2 & M3). exists h, g. split; auto. split; auto. split; auto.
  apply gen_base. right; right. exists ms, m. split; auto. split; auto.
  rewrite op_conj_formula, D, M3. cbn. reflexivity.
Qed.
