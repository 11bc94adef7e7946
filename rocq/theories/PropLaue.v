(** * PropLaue: property C97: the symmetry of the diffraction pattern. *)
From Coq Require Import QArith Permutation.
From Verif Require Import Base Notations Parser Seitz F64 Jones Rotations Tables Lookup Generate Positions
  Spec SpecHall SpecXyz SpecCompat SpecOutcome SpecTables SpecRotation SpecOrbit SpecReflection SpecLaue SpecType SpecKind Algebra PropSeitz PropSymbols PropRotation GenFacts
  PropGenerate GroupCheck PropFullSets PropTables PropTableGroups PropJones Restriction PropTermination PropOutcome Subgroups PropClass PropOrbit PropSubgroup PropReflection PropRelabel PropKind PropPatterson.
Open Scope Z_scope.
Local Notation length := List.length.

Lemma phase_carried h m p : (phase h (act m p) == phase (carried h (rot m)) p + inject_Z (along h (tra m)) / 12)%Q.
Proof. exact (phase_act h m p). Qed.
Lemma carried_mul h A B : carried (carried h A) B = carried h (mmul A B).
Proof. destruct h, A, B. unfold carried, mmul. cbn. f_equal; ring. Qed.
Lemma carried_I h : carried h I3 = h.
Proof. destruct h. unfold carried, I3. cbn. f_equal; ring. Qed.
Lemma carried_opp h A : carried h (mopp A) = vopp (carried h A).
Proof. destruct h, A. unfold carried, mopp, mmap, vopp, vmap. cbn. f_equal; ring. Qed.

Lemma carried_le fuel hs g h p x a : general_positions fuel hs = Done g -> no_extra_translations hs -> In a (all_operations g) ->
  (scattered g (carried h (rot a)) p x <= scattered g h p (x + inject_Z (along h (tra a)) / 12))%nat.
Proof.
  intros H T Ha. pose proof Ha as La. apply listed_all in La. destruct (listed_group _ _ _ _ H La) as [_ Ga].
  unfold scattered. apply (inj_le (fun m y => op_same (op_of y) (op_comp (op_of a) (op_of m)))).
  - apply NoDup_filter, (all_NoDup _ _ _ H).
  - intros m Hm. apply filter_In in Hm. destruct Hm as [Hm S]. apply listed_all in Hm.
    destruct (listed_group _ _ _ _ H Hm) as [_ Gm].
    destruct (group_listed _ _ _ _ H T (gen_comp _ _ _ Ga Gm)) as (c & Lc & E).
    exists c. split; [| exact E]. apply filter_In. split; [apply listed_all, Lc |].
    assert (A : cells_apart (act c p) (act a (act m p))).
    { rewrite !act_op_of. eapply cells_apart_trans; [apply act_op_same, E | apply act_op_comp]. }
    pose proof (whole_add _ _ (phase_apart h _ _ A) S) as W. rewrite <- W. apply whole_Qeq.
    rewrite (phase_carried h a (act m p)). ring.
  - intros m m' y Hm Hm' E E'. apply filter_In in Hm, Hm'. apply (all_unique _ _ _ _ _ H (proj1 Hm) (proj1 Hm')).
    assert (U := hall_group_unimodular _ _ Ga).
    assert (Q : op_same (op_comp (op_of a) (op_of m)) (op_comp (op_of a) (op_of m')))
      by (eapply op_same_trans; [apply op_same_sym, E | exact E']).
    pose proof (op_same_comp _ _ _ _ (op_same_refl (op_inv (op_of a))) Q) as Q'.
    rewrite !op_comp_assoc, !(op_inv_l (op_of a) U), !op_comp_id_l in Q'. exact Q'.
Qed.
(** the reflection carried along by a listed operation scatters with the same phases, all moved by h.t *)
Theorem C97_equivalent_reflections :
  forall fuel hs g, general_positions fuel hs = Done g -> no_extra_translations hs ->
    forall h p m, In m (all_operations g) ->
      forall x, scattered g (carried h (rot m)) p x = scattered g h p (x + inject_Z (along h (tra m)) / 12).
Proof.
  intros fuel hs g H T h p m Hm x. apply Nat.le_antisymm; [exact (carried_le _ _ _ h p x m H T Hm) |].
  pose proof Hm as La. apply listed_all in La. destruct (listed_group _ _ _ _ H La) as [_ Ga]. pose proof (hall_group_unimodular _ _ Ga) as U0. assert (U : unimodular (rot m)) by exact U0.
  destruct (group_listed _ _ _ _ H T (hall_inv _ _ Ga)) as (c & Lc & Ec). apply listed_all in Lc.
  set (h' := carried h (rot m)).
  assert (Eh : carried h' (rot c) = h).
  { unfold h'. rewrite carried_mul. destruct Ec as [Er _]. cbn [op_of fst op_inv] in Er. rewrite Er, (minv_r _ U). apply carried_I. }
  pose proof (carried_le _ _ _ h' p (x + inject_Z (along h (tra m)) / 12)%Q c H T Lc) as L. rewrite Eh in L.
  eapply Nat.le_trans; [exact L |]. apply Nat.eq_le_incl, scattered_mod.
  assert (W : (12 | along h (tra m) + along h' (tra c))).
  { destruct Ec as [_ (X & Y & Zz)]. cbn [op_of snd op_inv] in X, Y, Zz.
    assert (V : mvmul (rot m) (vopp (mvmul (minv (rot m)) (tra m))) = vopp (tra m)).
    { rewrite mvmul_vopp, <- mvmul_mmul. rewrite (minv_r _ U), mvmul_I. reflexivity. }
    assert (D : forall R t, along (carried h R) t = along h (mvmul R t)).
    { intros R t. destruct h, R, t. unfold along, carried, mvmul. cbn. ring. }
    assert (K : along h' (vopp (mvmul (minv (rot m)) (tra m))) = - along h (tra m)).
    { unfold h'. rewrite D, V. destruct h, (tra m). unfold along, vopp, vmap. cbn. ring. }
    destruct X as (i & X), Y as (j & Y), Zz as (k & Zz). cbn [fst snd op_of] in *.
    exists (vx h' * i + vy h' * j + vz h' * k). unfold along in K |- *.
    set (w := vopp (mvmul (minv (rot m)) (tra m))) in *.
    transitivity (vx h' * (vx (tra c) - vx w) + vy h' * (vy (tra c) - vy w) + vz h' * (vz (tra c) - vz w)); [| rewrite X, Y, Zz; ring].
    lia. }
  destruct W as (q & W). rewrite <- (whole_Z q). apply whole_Qeq.
  assert (F : (inject_Z (along h (tra m)) + inject_Z (along h' (tra c)) == inject_Z q * 12)%Q).
  { rewrite <- inject_Z_plus, W, inject_Z_mult. reflexivity. }
  setoid_replace (x + inject_Z (along h (tra m)) / 12 + inject_Z (along h' (tra c)) / 12 - x)%Q
    with ((inject_Z (along h (tra m)) + inject_Z (along h' (tra c))) / 12)%Q by field. rewrite F. field.
Qed.
(** Friedel: the opposite reflection scatters with the opposite phases *)
Theorem C97_friedel : forall g h p x, scattered g (vopp h) p x = scattered g h p (- x).
Proof.
  intros g h p x. unfold scattered. f_equal. apply filter_ext. intros m.
  assert (E : (phase (vopp h) (act m p) == - phase h (act m p))%Q).
  { unfold phase, vopp, vmap, qdot. destruct h as [h1 h2 h3]. cbv beta iota delta [vx vy vz]. rewrite !inject_Z_opp. ring. }
  apply Bool.eq_iff_eq_true. split; intros W; apply whole_opp in W; rewrite <- W; apply whole_Qeq; rewrite E; ring.
Qed.
(** so equivalent reflections are forbidden together *)
Theorem C97_forbidden_together :
  forall fuel hs g, general_positions fuel hs = Done g -> no_extra_translations hs ->
    forall h m, In m (all_operations g) ->
      (forbidden g (carried h (rot m)) <-> forbidden g h) /\ (forbidden g (vopp h) <-> forbidden g h).
Proof.
  intros fuel hs g H T h m Hm. split.
  - rewrite !(C84_forbidden_iff_balanced _ _ _ H T). split; intros F p; destruct (F p) as (s & Rs & E); exists s; (split; [exact Rs |]); intros x.
    + set (k := (inject_Z (along h (tra m)) / 12)%Q).
      pose proof (E (x - k)%Q) as X. rewrite !(C97_equivalent_reflections _ _ _ H T h p m Hm) in X. fold k in X.
      rewrite (scattered_mod g h p x (x - k + k)), X; [| rewrite <- (whole_Z 0); apply whole_Qeq; change (inject_Z 0) with 0%Q; ring].
      apply scattered_mod. rewrite <- (whole_Z 0). apply whole_Qeq. change (inject_Z 0) with 0%Q. ring.
    + rewrite !(C97_equivalent_reflections _ _ _ H T h p m Hm). rewrite E. apply scattered_mod.
      rewrite <- (whole_Z 0). apply whole_Qeq. change (inject_Z 0) with 0%Q. ring.
  - assert (K : forall h, forbidden g h -> forbidden g (vopp h)).
    { intros h' F. apply (C84_forbidden_iff_balanced _ _ _ H T). intros p.
      destruct (proj1 (C84_forbidden_iff_balanced _ _ _ H T h') F p) as (s & Rs & E). exists s. split; [exact Rs |]. intros x.
      rewrite !C97_friedel. rewrite (E (- (x + inject_Z s / 12))%Q). apply scattered_mod.
      rewrite <- (whole_Z 0). apply whole_Qeq. change (inject_Z 0) with 0%Q. ring. }
    split; [| apply K]. intros F. apply K in F. replace (vopp (vopp h)) with h in F; [exact F |]. destruct h. unfold vopp, vmap. cbn. f_equal; ring.
Qed.

(** ** Laue classes *)
Lemma count_app k l l' : count_kind k (l ++ l') = (count_kind k l + count_kind k l')%nat.
Proof. unfold count_kind. rewrite filter_app, app_length. reflexivity. Qed.
Lemma count_opp d t l : count_kind (d, t) (map mopp l) = count_kind (- d, - t) l.
Proof.
  unfold count_kind. cbn [fst snd]. induction l as [| R l IH]; [reflexivity |]. cbn [map filter].
  assert (E : (mdet (mopp R) =? d) && (mtrace (mopp R) =? t) = (mdet R =? - d) && (mtrace R =? - t)).
  { rewrite mdet_mopp. replace (mtrace (mopp R)) with (- mtrace R) by (destruct R; unfold mtrace, mopp, mmap; cbn; ring).
    destruct (Z.eqb_spec (- mdet R) d), (Z.eqb_spec (- mtrace R) t), (Z.eqb_spec (mdet R) (- d)), (Z.eqb_spec (mtrace R) (- t)); try reflexivity; lia. }
  rewrite E. destruct ((mdet R =? - d) && (mtrace R =? - t)); cbn [List.length]; [f_equal |]; exact IH.
Qed.
(** the census of a set of rotations without inversion together with their opposites *)
Definition doubled (c : census) : census :=
  match c with
  | [a; b; c; d; e; f; g; h; i; j] => [a + j; b + i; c + h; d + g; e + f; f + e; g + d; h + c; i + b; j + a]%nat
  | _ => []
  end.
Lemma census_doubled l : census_of (l ++ map mopp l) = doubled (census_of l).
Proof. unfold census_of, kinds. cbn [map]. rewrite !count_app, !count_opp. reflexivity. Qed.
Lemma listed_finite fuel h g R t : general_positions fuel h = Done g -> hall_group h (R, t) -> finite_order R.
Proof.
  intros H G. destruct (proj1 (proj1 (C62_outcome h)) (ex_intro _ fuel (ex_intro _ g H))) as (V & B & F).
  apply (finite_group_order h R t); [| exact (hall_group_unimodular _ _ G) | exact G].
  apply (C29_terminates_iff_finite h V B). exists fuel. congruence.
Qed.
Lemma inversion_kind R : finite_order R -> mdet R = -1 -> mtrace R = -3 -> R = mopp I3.
Proof.
  intros F D Tr. pose proof (proper_of_finite R F) as (n & Hn & P). pose proof (proper_of_det R F) as D'.
  unfold proper_of in *. rewrite det_spec_mdet, D in *. cbn [Z.eqb Pos.eqb] in *.
  assert (E : mopp R = I3).
  { apply (trace_3_identity _ n); auto; [exact (finite_special _ n Hn P D') |].
    replace (mtrace (mopp R)) with (- mtrace R) by (destruct R; unfold mtrace, mopp, mmap; cbn; ring). lia. }
  rewrite <- E, mopp_mopp. reflexivity.
Qed.
Definition laue_ok (n : nat) : bool :=
  match class_of_number n, laue_of_number n with
  | Some c, Some l => nats_eqb l (if Nat.eqb (nth 4 c 0%nat) 0 then doubled c else c)
  | _, _ => false
  end.
Lemma all_laue_ok : forallb laue_ok (seq 1 230) = true.
Proof. vm_compute. reflexivity. Qed.
Lemma class_in_some l n c : class_of_number_in l n = Some c -> exists k, In (k, c) l.
Proof.
  induction l as [| (k & c') l IH]; [discriminate |]. cbn [class_of_number_in].
  destruct (Nat.leb n k); [intros Q; injection Q as <-; exists k; now left | intros Q; destruct (IH Q) as (k' & I); exists k'; now right].
Qed.
Lemma NoDup_both (ps l : list mat3) : NoDup ps -> NoDup l -> (forall R, In R ps -> ~ In R l) -> NoDup (ps ++ l).
Proof.
  induction ps as [| R ps IH]; intros Np Nl Dj; [exact Nl |].
  inversion Np as [| R0 l0 NR Np']; subst. cbn [app]. constructor.
  - rewrite in_app_iff. intros [A | A]; [exact (NR A) | exact (Dj R (or_introl eq_refl) A)].
  - apply IH; auto. intros R' A. apply Dj. now right.
Qed.
(** rotations closed under product and inverse, with their opposites *)
Lemma opposites_census ps rs : NoDup ps -> NoDup rs -> (forall R, In R rs <-> In R ps \/ In (mopp R) ps) ->
  (forall A B, In A ps -> In B ps -> In (mmul A B) ps) -> (forall A, In A ps -> exists B, In B ps /\ mmul B A = I3) ->
  (forall R, In R ps -> finite_order R) ->
  census_of rs = if Nat.eqb (nth 4 (census_of ps) 0%nat) 0 then doubled (census_of ps) else census_of ps.
Proof.
  intros Np N Jr M Iv Fin.
  assert (Dec : forall A B : mat3, {A = B} + {A <> B}) by (decide equality; apply Z.eq_dec).
  assert (N4 : nth 4 (census_of ps) 0%nat = count_kind (-1, -3) ps) by reflexivity. rewrite N4.
  destruct (in_dec Dec (mopp I3) ps) as [I | I].
  - assert (Q : Nat.eqb (count_kind (-1, -3) ps) 0 = false).
    { apply Nat.eqb_neq. unfold count_kind.
      assert (X : In (mopp I3) (filter (fun R => (mdet R =? fst (-1, -3)) && (mtrace R =? snd (-1, -3))) ps)) by (apply filter_In; split; [exact I | reflexivity]).
      destruct (filter _ ps); [destruct X | discriminate]. }
    rewrite Q. apply census_perm, NoDup_Permutation; auto. intros R. rewrite Jr. split; [| tauto]. intros [A | A]; [exact A |].
    pose proof (M _ _ I A) as X. rewrite mmul_mopp_l, mmul_I_l, mopp_mopp in X. exact X.
  - assert (Q : Nat.eqb (count_kind (-1, -3) ps) 0 = true).
    { apply Nat.eqb_eq. unfold count_kind. destruct (filter _ ps) as [| R l] eqn:E; [reflexivity |]. exfalso.
      assert (X : In R (filter (fun R => (mdet R =? fst (-1, -3)) && (mtrace R =? snd (-1, -3))) ps)) by (rewrite E; now left).
      apply filter_In in X. destruct X as [X K]. cbn [fst snd] in K. apply andb_true_iff in K. destruct K as [K1 K2]. apply Z.eqb_eq in K1, K2.
      apply I. rewrite <- (inversion_kind R (Fin R X) K1 K2). exact X. }
    rewrite Q, <- census_doubled. apply census_perm, NoDup_Permutation; auto.
    + apply NoDup_both; [exact Np | |].
      * apply FinFun.Injective_map_NoDup; [| exact Np]. intros A B E. rewrite <- (mopp_mopp A), <- (mopp_mopp B), E. reflexivity.
      * intros R A B. apply in_map_iff in B. destruct B as (R' & <- & B). destruct (Iv R' B) as (R2 & I2 & E2).
        apply I. pose proof (M _ _ I2 A) as X. rewrite mmul_mopp_r, E2 in X. exact X.
    + intros R. rewrite Jr, in_app_iff, in_map_iff. split.
      * intros [A | A]; [now left | right; exists (mopp R); split; [apply mopp_mopp | exact A]].
      * intros [A | (R' & <- & A)]; [now left | right; rewrite mopp_mopp; exact A].
Qed.
Lemma laue_table n c : (1 <= n <= 230)%nat -> class_of_number n = Some c ->
  laue_of_number n = Some (if Nat.eqb (nth 4 c 0%nat) 0 then doubled c else c).
Proof.
  intros W C. assert (Ok : laue_ok n = true). { pose proof all_laue_ok as A. rewrite forallb_forall in A. apply A, in_seq. lia. }
  unfold laue_ok in Ok. rewrite C in Ok. destruct (laue_of_number n) as [l |]; [| discriminate]. apply nats_eqb_eq in Ok. f_equal. exact Ok.
Qed.
Lemma laue_listed n c : laue_of_number n = Some c -> exists k, In (k, c) laue_classes.
Proof. exact (class_in_some laue_classes n c). Qed.
Lemma eleven : length laue_classes = 11%nat.
Proof. vm_compute. reflexivity. Qed.
Lemma first_inverse h A t : hall_group h (A, t) -> mmul (fst (op_inv (A, t))) A = I3.
Proof. intros G. exact (minv_l A (hall_group_unimodular _ _ G)). Qed.
Theorem C97_laue_class :
  length laue_classes = 11%nat /\
  forall fuel h g n rs, general_positions fuel h = Done g -> of_type h n -> laue_rotations g rs ->
    laue_of_number n = Some (census_of rs) /\ exists k, In (k, census_of rs) laue_classes.
Proof.
  split; [exact eleven |]. intros fuel h g n rs H Ty [N J].
  assert (L : laue_of_number n = Some (census_of rs)).
  2:{ split; [exact L |]. exact (laue_listed n _ L). }
  assert (Dec : forall A B : mat3, {A = B} + {A <> B}) by (decide equality; apply Z.eq_dec).
  assert (Ex : exists ps, NoDup ps /\ forall R, In R ps <-> exists m, In m (gp_core g) /\ rot m = R).
  { exists (nodup Dec (map rot (gp_core g))). split; [apply NoDup_nodup |].
    intros R. rewrite nodup_In, in_map_iff. split; intros (m & A & B); exists m; auto. }
  destruct Ex as (ps & Np & Jp).
  assert (Gp : forall R, In R ps <-> exists t, hall_group h (R, t)).
  { intros R. rewrite Jp, (C26_point_group_complete _ _ _ H R). reflexivity. }
  pose proof (C87_class_of_the_number _ _ _ _ _ H Ty Np Jp) as C. pose proof (C87_number_range _ _ Ty) as W.
  rewrite (laue_table _ _ W C). f_equal. symmetry. apply opposites_census; auto.
  - intros R. rewrite J, !Jp. split; [intros (m & I & [E | E]); eauto | intros [(m & I & E) | (m & I & E)]; eauto].
  - intros A B IA IB. apply Gp in IA, IB. destruct IA as (t & GA), IB as (u & GB). apply Gp. eexists. exact (gen_comp _ _ _ GA GB).
  - intros A IA. apply Gp in IA. destruct IA as (t & G). exists (fst (op_inv (A, t))). split.
    + apply Gp. exists (snd (op_inv (A, t))). rewrite <- surjective_pairing. exact (hall_inv _ _ G).
    + exact (first_inverse _ _ _ G).
  - intros R IR. apply Gp in IR. destruct IR as (t & G). exact (listed_finite _ _ _ _ _ H G).
Qed.
(** ** How many equivalent reflections there are *)
Lemma count_es (f : mat3 -> vec3) k es : forall rs, NoDup es -> (forall R, In R rs -> In (f R) es) ->
  (forall e, In e es -> length (filter (fun R => veqb (f R) e) rs) = k) -> (length es * k)%nat = length rs.
Proof.
  induction es as [| e es IH]; intros rs N C K.
  - destruct rs as [| R rs]; [reflexivity |]. destruct (C R (or_introl eq_refl)).
  - inversion N as [| e0 l0 Ne N']; subst.
    assert (Sp : forall o : list mat3, length o = (length (filter (fun R => veqb (f R) e) o) + length (filter (fun R => negb (veqb (f R) e)) o))%nat).
    { clear. induction o as [| m o IH]; [reflexivity |]. cbn [filter]. destruct (veqb (f m) e); cbn [negb List.length]; lia. }
    rewrite (Sp rs), (K e (or_introl eq_refl)). cbn [List.length Nat.mul]. f_equal. apply IH; auto.
    + intros R I. apply filter_In in I. destruct I as [I Q]. destruct (C R I) as [E | E]; [| exact E].
      rewrite <- E in Q. assert (V : veqb e e = true) by (apply veqb_eq; reflexivity). rewrite E in V, Q. rewrite V in Q. discriminate Q.
    + intros e' I. rewrite <- (K e' (or_intror I)). f_equal. clear - Ne I.
      induction rs as [| R rs IHr]; [reflexivity |]. cbn [filter]. destruct (veqb (f R) e) eqn:E1; cbn [negb].
      * destruct (veqb (f R) e') eqn:E2; [| exact IHr]. exfalso. apply veqb_eq in E1, E2. apply Ne. congruence.
      * cbn [filter]. destruct (veqb (f R) e'); rewrite IHr; reflexivity.
Qed.
Theorem C97_multiplicity_of_reflections :
  forall fuel h g rs i es, general_positions fuel h = Done g -> laue_rotations g rs -> equivalents rs i es ->
    (length es * length (keepers rs i))%nat = length rs.
Proof.
  intros fuel h g rs i es H [N J] [Ne Je].
  assert (Gr : forall R, In R rs <-> exists t, hall_group h (R, t) \/ hall_group h (mopp R, t)).
  { intros R. rewrite J. split.
    - intros (m & I & E). destruct (C25_positions_sound _ _ _ H m I) as [_ G]. exists (tra m). destruct E as [E | E]; unfold op_of in G; rewrite E in G; auto.
    - intros (t & [G | G]).
      + destruct (proj1 (C26_point_group_complete _ _ _ H R) (ex_intro _ t G)) as (m & I & E). exists m. auto.
      + destruct (proj1 (C26_point_group_complete _ _ _ H (mopp R)) (ex_intro _ t G)) as (m & I & E). exists m. auto. }
  assert (M : forall A B, In A rs -> In B rs -> In (mmul A B) rs).
  { intros A B IA IB. apply Gr in IA, IB. apply Gr. destruct IA as (t & [GA | GA]), IB as (u & [GB | GB]);
      pose proof (gen_comp _ _ _ GA GB) as G; unfold op_comp in G; cbn [fst snd] in G; rewrite ?mmul_mopp_l, ?mmul_mopp_r, ?mopp_mopp in G; eauto. }
  assert (Inv : forall A, In A rs -> exists B, In B rs /\ mmul A B = I3 /\ mmul B A = I3).
  { intros A IA. apply Gr in IA. destruct IA as (t & [G | G]); pose proof (hall_group_unimodular _ _ G) as U; pose proof (hall_inv _ _ G) as Gi;
      pose proof (f_equal fst (op_inv_l _ U)) as L; pose proof (f_equal fst (op_inv_r _ U)) as R; unfold op_comp, op_id in L, R; cbn [fst] in L, R.
    - exists (fst (op_inv (A, t))). split; [| auto]. apply Gr. exists (snd (op_inv (A, t))). left. rewrite <- surjective_pairing. exact Gi.
    - exists (mopp (fst (op_inv (mopp A, t)))). split; [| split].
      + apply Gr. exists (snd (op_inv (mopp A, t))). right. rewrite mopp_mopp, <- surjective_pairing. exact Gi.
      + rewrite mmul_mopp_r, <- mmul_mopp_l. exact R.
      + rewrite mmul_mopp_l, <- mmul_mopp_r. exact L. }
  apply (count_es (carried i)); [exact Ne | intros R I; apply Je; eauto |].
  intros e Ie. apply Je in Ie. destruct Ie as (Q & IQ & ->). destruct (Inv Q IQ) as (B & IB & QB & BQ).
  unfold keepers. apply Nat.le_antisymm.
  - apply (inj_le (fun R S => S = mmul R B)); [apply NoDup_filter, N | |].
    + intros R I. apply filter_In in I. destruct I as [I E]. apply veqb_eq in E. exists (mmul R B). split; [| reflexivity].
      apply filter_In. split; [apply M; assumption |]. apply veqb_eq. rewrite <- carried_mul, E, carried_mul, QB. apply carried_I.
    + intros R R' y _ _ -> E. apply (f_equal (fun X => mmul X Q)) in E. rewrite <- !mmul_assoc, BQ, !mmul_I_r in E. exact E.
  - apply (inj_le (fun R S => S = mmul R Q)); [apply NoDup_filter, N | |].
    + intros R I. apply filter_In in I. destruct I as [I E]. apply veqb_eq in E. exists (mmul R Q). split; [| reflexivity].
      apply filter_In. split; [apply M; assumption |]. apply veqb_eq. rewrite <- carried_mul, E. reflexivity.
    + intros R R' y _ _ -> E. apply (f_equal (fun X => mmul X B)) in E. rewrite <- !mmul_assoc, QB, !mmul_I_r in E. exact E.
Qed.
Lemma laue_rotations_exist g : exists rs, laue_rotations g rs.
Proof.
  assert (Dec : forall A B : mat3, {A = B} + {A <> B}) by (decide equality; apply Z.eq_dec).
  exists (nodup Dec (map rot (gp_core g) ++ map mopp (map rot (gp_core g)))). split; [apply NoDup_nodup |].
  intros R. rewrite nodup_In, in_app_iff, !in_map_iff. split.
  - intros [(m & E & I) | (R' & <- & I)]; [eauto |]. apply in_map_iff in I. destruct I as (m & <- & I). exists m. rewrite mopp_mopp. auto.
  - intros (m & I & [E | E]); [left; eauto |]. right. exists (mopp R). split; [apply mopp_mopp |]. apply in_map_iff. eauto.
Qed.
Lemma equivalents_exist rs h : exists es, equivalents rs h es.
Proof.
  assert (Dec : forall A B : vec3, {A = B} + {A <> B}) by (decide equality; apply Z.eq_dec).
  exists (nodup Dec (map (carried h) rs)). split; [apply NoDup_nodup |].
  intros e. rewrite nodup_In, in_map_iff. split; intros (R & A & B); exists R; auto.
Qed.
(** number 76, "P 41": Laue class 4/m (8 rotations); (1 2 3) has 8 equivalents; (0 0 1) goes to itself under the 4-fold turn, which moves its phases by a quarter *)
Example C97_case : exists g rs, general_positions 10 (parsed "P 41") = Done g /\ no_extra_translations (parsed "P 41") /\ of_type (parsed "P 41") 76 /\
  laue_rotations g rs /\ length rs = 8%nat /\ census_of rs = [0; 2; 0; 1; 1; 1; 1; 0; 2; 0]%nat /\
  laue_of_number 76 = Some (census_of rs) /\
  (forall es, equivalents rs (V3 1 2 3) es -> length es = 8%nat) /\
  (exists m, In m (all_operations g) /\ carried (V3 0 0 1) (rot m) = V3 0 0 1 /\ along (V3 0 0 1) (tra m) = 3).
Proof.
  destruct C96_case as (_ & Ty & T & _).
  destruct (general_positions 10 (parsed "P 41")) as [g | |] eqn:Er; try (vm_compute in Er; discriminate Er).
  pose proof Er as Ev. vm_compute in Ev. injection Ev as Ev. exists g, (map rot (gp_core g) ++ map mopp (map rot (gp_core g)))%list.
  split; [reflexivity |]. split; [exact T |]. split; [exact Ty |].
  match goal with |- laue_rotations ?g ?rs /\ _ => assert (La : laue_rotations g rs) end.
  { split.
    - rewrite <- Ev. cbn. repeat (constructor; [cbn; intros K; repeat (destruct K as [K | K]; [discriminate K |]); exact K |]). constructor.
    - intros R. rewrite in_app_iff, !in_map_iff. split.
      + intros [(m & E & I) | (R' & <- & I)]; [eauto |]. apply in_map_iff in I. destruct I as (m & <- & I). exists m. rewrite mopp_mopp. auto.
      + intros (m & I & [E | E]); [left; eauto |]. right. exists (mopp R). split; [apply mopp_mopp |]. apply in_map_iff. eauto. }
  split; [exact La |]. split; [rewrite <- Ev; reflexivity |]. split; [rewrite <- Ev; vm_compute; reflexivity |]. split; [rewrite <- Ev; vm_compute; reflexivity |]. split.
  - intros es E. pose proof (C97_multiplicity_of_reflections _ _ _ _ _ _ Er La E) as M.
    match type of M with (_ * length ?k)%nat = _ => replace (length k) with 1%nat in M by (rewrite <- Ev; vm_compute; reflexivity) end.
    rewrite Nat.mul_1_r in M. rewrite M, <- Ev. reflexivity.
  - rewrite <- Ev. eexists. split; [match goal with |- In _ ?l => let v := eval vm_compute in l in change l with v end; right; right; left; reflexivity |]. split; vm_compute; reflexivity.
Qed.
