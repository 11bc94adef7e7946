(** * PropPeriod: property C66: powers of an operation repeat. *)
From Verif Require Import Base Notations Parser Seitz F64 Jones Rotations Tables Generate Positions
  Spec SpecHall SpecXyz SpecCompat SpecOutcome SpecOrbit Algebra PropSeitz PropSymbols GenFacts PropGenerate GroupCheck
  PropFullSets PropJones Restriction PropTermination PropCanon PropOutcome PropOrbit.
Open Scope Z_scope.
Local Notation length := List.length.

(** ** Support *)
Lemma op_pow_rot a n : fst (op_pow a n) = mpow (fst a) n.
Proof. induction n as [| n IH]; [reflexivity |]. cbn [op_pow mpow op_comp fst]. now rewrite IH. Qed.
Definition vtimes (n : Z) (v : vec3) : vec3 := V3 (n * vx v) (n * vy v) (n * vz v).
Lemma op_pow_shift t n : op_pow (I3, t) n = (I3, vtimes (Z.of_nat n) t).
Proof.
  induction n as [| n IH]; [reflexivity |]. cbn [op_pow]. rewrite IH. unfold op_comp. cbn [fst snd].
  rewrite mmul_I_l, mvmul_I. f_equal. unfold vtimes, vadd. cbn [vx vy vz]. rewrite Nat2Z.inj_succ. f_equal; ring.
Qed.
Lemma op_same_pow a b n : op_same a b -> op_same (op_pow a n) (op_pow b n).
Proof. intros E. induction n as [| n IH]; [apply op_same_refl |]. cbn [op_pow]. apply op_same_comp; assumption. Qed.
Lemma op_pow_id n : op_pow op_id n = op_id.
Proof. induction n as [| n IH]; [reflexivity |]. cbn [op_pow]. rewrite IH. apply op_comp_id_l. Qed.
Lemma op_pow_group h o n : hall_group h o -> hall_group h (op_pow o n).
Proof. intros G. induction n as [| n IH]; [constructor 1 |]. cbn [op_pow]. constructor 3; assumption. Qed.
Lemma twelve_shift t : op_same (op_pow (I3, t) 12) op_id.
Proof.
  rewrite op_pow_shift. split; [reflexivity |]. unfold vcong12, vtimes, op_id. cbn [snd vx vy vz].
  split; [exists (vx t); lia | split; [exists (vy t); lia | exists (vz t); lia]].
Qed.
Lemma pow_period a N i : op_same (op_pow a N) op_id -> op_same (op_pow a (i * N)) op_id.
Proof.
  intros E. rewrite op_pow_mul. eapply op_same_trans; [apply op_same_pow, E |]. rewrite op_pow_id. apply op_same_refl.
Qed.
Lemma sz_eqb_op m n : sz_eqb m n = true <-> op_same (op_of m) (op_of n).
Proof. rewrite sz_eqb_same. reflexivity. Qed.
Lemma listed_class fuel h g m : general_positions fuel h = Done g -> In m (all_operations g) ->
  cubic_rotation (rot m) \/ hexagonal_rotation (rot m).
Proof.
  intros H L. apply listed_all in L. destruct (listed_group _ _ _ _ H L) as [_ G].
  destruct (proj1 (proj1 (C62_outcome h))) as (V & B & F); [exists fuel, g; exact H |].
  destruct (h_syms h) as [| first rest] eqn:Es; [destruct F |].
  assert (T : table_class first (rot m)).
  { apply (class_group first h) with (o := op_of m); [| exact G].
    intros ms P I EP. rewrite Es in I. unfold all_symbols_valid in V. rewrite Es in V.
    exact (proj1 (family_iff first rest V) F ms P I EP). }
  unfold table_class in T. destruct (ms_fold first), (ms_diag first); auto using rhombohedral_cubic.
Qed.
Lemma order12_ok : forallb (fun R => meqb (mpow R 12) I3) (cubic48 ++ hexagonal24) = true.
Proof. vm_cast_no_check (@eq_refl bool true). Qed.
Lemma class_order12 R : cubic_rotation R \/ hexagonal_rotation R -> mpow R 12 = I3.
Proof.
  intros C. assert (I : In R (cubic48 ++ hexagonal24)).
  { apply in_or_app. destruct C as [C | C]; [left; exact (cubic48_in R C) | right; exact (hexagonal24_in R C)]. }
  apply meqb_eq. exact (proj1 (forallb_forall _ (cubic48 ++ hexagonal24)) order12_ok R I).
Qed.

(** ** C66 *)
(** an operation whose rotation part has an [N]th power equal to the identity has a [12 N]th
    power equal to the identity *)
Theorem C66_finite_order_powers :
  forall m N, is_affine m -> mpow (rot m) N = I3 ->
    exists r, powi m (12 * Z.of_nat N) = Done r /\ sz_eqb r sz_identity = true.
Proof.
  intros m N A E. destruct (C15_powi_is_repeated_composition m (12 * N) A) as (r & P & _ & O).
  exists r. split; [replace (12 * Z.of_nat N) with (Z.of_nat (12 * N)) by lia; exact P |].
  apply sz_eqb_op. rewrite O, op_pow_mul.
  assert (X : exists t, op_pow (op_of m) N = (I3, t)).
  { exists (snd (op_pow (op_of m) N)). rewrite (surjective_pairing (op_pow (op_of m) N)) at 1. f_equal. rewrite op_pow_rot. exact E. }
  destruct X as (t & ->). exact (twelve_shift t).
Qed.
(** for every listed operation, of any symbol: the 144th power is the identity, powers depend on
    the exponent modulo 144 only, and the 143rd power is the inverse *)
Lemma listed_144 fuel h g m : general_positions fuel h = Done g -> In m (all_operations g) ->
  is_affine m /\ op_same (op_pow (op_of m) 144) op_id.
Proof.
  intros H L. pose proof (class_order12 _ (listed_class _ _ _ _ H L)) as E. apply listed_all in L.
  destruct (listed_group _ _ _ _ H L) as [A _]. split; [exact A |].
  replace 144%nat with (12 * 12)%nat by reflexivity. rewrite op_pow_mul.
  assert (X : exists t, op_pow (op_of m) 12 = (I3, t)).
  { exists (snd (op_pow (op_of m) 12)). rewrite (surjective_pairing (op_pow (op_of m) 12)) at 1. f_equal. rewrite op_pow_rot. exact E. }
  destruct X as (t & ->). exact (twelve_shift t).
Qed.
Theorem C66_powers_repeat :
  forall fuel h g m, general_positions fuel h = Done g -> In m (all_operations g) ->
    forall i j, (Nat.modulo i 144 = Nat.modulo j 144) -> exists x y,
      powi m (Z.of_nat i) = Done x /\ powi m (Z.of_nat j) = Done y /\ sz_eqb x y = true.
Proof.
  intros fuel h g m H L i j E. destruct (listed_144 _ _ _ _ H L) as [A P].
  destruct (C15_powi_is_repeated_composition m i A) as (x & X1 & _ & X2).
  destruct (C15_powi_is_repeated_composition m j A) as (y & Y1 & _ & Y2).
  exists x, y. split; [exact X1 |]. split; [exact Y1 |]. apply sz_eqb_op. rewrite X2, Y2.
  assert (K : forall n, op_same (op_pow (op_of m) n) (op_pow (op_of m) (Nat.modulo n 144))).
  { intros n. rewrite (Nat.div_mod n 144) at 1 by discriminate. rewrite op_pow_add, Nat.mul_comm.
    eapply op_same_trans; [apply op_same_comp; [apply pow_period, P | apply op_same_refl] |]. rewrite op_comp_id_l. apply op_same_refl. }
  eapply op_same_trans; [apply K |]. rewrite E. apply op_same_sym, K.
Qed.
Theorem C66_inverse_is_a_power :
  forall fuel h g m, general_positions fuel h = Done g -> In m (all_operations g) ->
    exists r, powi m 143 = Done r /\ sz_eqb (sz_mul m r) sz_identity = true /\ sz_eqb (sz_mul r m) sz_identity = true.
Proof.
  intros fuel h g m H L. destruct (listed_144 _ _ _ _ H L) as [A P].
  destruct (C15_powi_is_repeated_composition m 143 A) as (r & X1 & Ar & X2). exists r. split; [exact X1 |].
  assert (Q : forall x y, is_affine x -> is_affine y -> op_same (op_comp (op_of x) (op_of y)) op_id ->
              sz_eqb (sz_mul x y) sz_identity = true).
  { intros x y Ax Ay [Q1 Q2]. apply sz_eqb_same. rewrite (affine_aff x Ax), (affine_aff y Ay), sz_mul_aff.
    split; [exact Q1 |]. cbn [tra aff]. eapply vcong12_trans; [apply vcong12_rem | exact Q2]. }
  split; apply Q; auto; rewrite X2; [| rewrite <- op_pow_comm]; exact P.
Qed.
(** without extra translations the period is 12 times the number of centring vectors *)
Lemma centring_order l t : centring l t -> op_same (op_pow (I3, t) (length (translations l))) op_id.
Proof.
  intros (u & Hu & C). eapply op_same_trans; [apply (op_same_pow _ (I3, u)); split; [reflexivity | exact C] |].
  rewrite op_pow_shift. split; [reflexivity |]. cbn [snd op_id]. unfold vcong12, vtimes. cbn [vx vy vz].
  assert (K : forallb (fun l => forallb (fun u => vforall (fun z => Z.of_nat (length (translations l)) * z mod 12 =? 0) u) (translations l))
    [LP; LA; LB; LC; LI; LR; LF] = true) by (vm_compute; reflexivity).
  rewrite forallb_forall in K. specialize (K l ltac:(destruct l; simpl; tauto)). rewrite forallb_forall in K. specialize (K u Hu).
  apply vforall_true in K. rewrite !Z.eqb_eq in K. destruct K as (A & B & D).
  assert (Q : forall x, x mod 12 = 0 -> cong12 x 0).
  { intros x E. apply Z.mod_divide in E; [| lia]. destruct E as (k & E). exists k. lia. }
  split; [apply Q, A | split; [apply Q, B | apply Q, D]].
Qed.
Theorem C66_period_without_extra_translations :
  forall fuel h g m, general_positions fuel h = Done g -> no_extra_translations h -> In m (all_operations g) ->
    exists r, powi m (12 * Z.of_nat (length (gp_lattice g))) = Done r /\ sz_eqb r sz_identity = true.
Proof.
  intros fuel h g m H T L. pose proof (class_order12 _ (listed_class _ _ _ _ H L)) as E. apply listed_all in L.
  destruct (listed_group _ _ _ _ H L) as [A G]. set (n := length (gp_lattice g)).
  destruct (C15_powi_is_repeated_composition m (n * 12) A) as (r & P & _ & O).
  exists r. split; [replace (12 * Z.of_nat n) with (Z.of_nat (n * 12)) by lia; exact P |].
  apply sz_eqb_op. rewrite O, op_pow_mul.
  assert (X : exists t, op_pow (op_of m) 12 = (I3, t)).
  { exists (snd (op_pow (op_of m) 12)). rewrite (surjective_pairing (op_pow (op_of m) 12)) at 1. f_equal. rewrite op_pow_rot. exact E. }
  destruct X as (t & Et). rewrite Et. subst n. destruct (general_positions_spec _ _ _ H) as (-> & _).
  apply centring_order. apply T. rewrite <- Et. apply op_pow_group, G.
Qed.
(** the period 144 is for symbols with extra translations as well: P 1 1d lists the
    translation (1/4,1/4,1/4); a concrete case for the hypotheses is number 155 *)
Example C66_case : exists h g, try_from_str "R 3 2""" = Done (Some h) /\ general_positions 10 h = Done g /\
  no_extra_translations h /\ exists m r, In m (all_operations g) /\ powi m 12 = Done r /\ sz_eqb r sz_identity = true /\ rot m <> I3.
Proof.
  destruct (case_spec "R 3 2""" 6) as (h & g & E & G & T & _); [vm_compute; reflexivity |].
  exists h, g. split; [exact E |]. split; [exact G |]. split; [exact T |].
  assert (K : match try_from_str "R 3 2""" with Done (Some h) => match general_positions 10 h with Done g =>
    existsb (fun m => match powi m 12 with Done r => sz_eqb r sz_identity && negb (meqb (rot m) I3) | _ => false end) (all_operations g)
    | _ => false end | _ => false end = true) by (vm_compute; reflexivity).
  rewrite E, G in K. apply existsb_exists in K. destruct K as (m & Hm & K). destruct (powi m 12) as [r | |] eqn:P; try discriminate.
  apply andb_true_iff in K. destruct K as [K1 K2]. exists m, r. split; [exact Hm |]. split; [exact P |]. split; [exact K1 |].
  intros C. rewrite C, meqb_refl in K2. discriminate.
Qed.
