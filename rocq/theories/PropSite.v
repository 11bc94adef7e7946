(** * PropSite: property C77: the site symmetry of a point. *)
From Coq Require Import QArith Qfield Permutation.
From Verif Require Import Base Notations Parser Seitz F64 Jones Rotations Tables Generate Positions
  Spec SpecHall SpecXyz SpecCompat SpecOutcome SpecTables SpecRotation SpecCanon SpecOrbit SpecSite Algebra PropSeitz PropSymbols PropRotation GenFacts
  PropGenerate GroupCheck PropFullSets PropTables PropTableGroups PropJones Restriction PropTermination PropCanon PropOutcome Subgroups PropClass PropOrbit PropSubgroup.
Open Scope Z_scope.
Local Notation length := List.length.

(** ** Support *)
Lemma closed_rotations fuel h g rs : general_positions fuel h = Done g -> NoDup rs ->
  (forall R, In R rs -> exists t, hall_group h (R, t)) -> In I3 rs ->
  (forall A B, In A rs -> In B rs -> In (mmul A B) rs) ->
  exists c, In c crystal_classes /\ snd c = census_of rs /\ census_order (snd c) = length rs.
Proof.
  intros H N J Ie M. destruct (group_class _ _ _ H) as [C | C].
  - apply (closed_classified cubic48 cubic_subgroups cubic_enough cubic_classified eq_refl eq_refl rs N); [| exact Ie | exact M].
    intros R I. apply J in I. destruct I as (t & G). specialize (C _ G). exact (cubic48_in _ C).
  - apply (closed_classified hexagonal24 hexagonal_subgroups hexagonal_enough hexagonal_classified eq_refl eq_refl rs N); [| exact Ie | exact M].
    intros R I. apply J in I. destruct I as (t & G). specialize (C _ G). exact (hexagonal24_in _ C).
Qed.
Lemma all_core g m : In m (all_operations g) -> exists c v, In c (gp_core g) /\ In v (gp_lattice g) /\ m = sz_addv c v.
Proof.
  intros Hm. apply listed_all in Hm. destruct Hm as (s & Hs & Hm). unfold derive_full_sets in Hs. apply in_map_iff in Hs.
  destruct Hs as (v & <- & Iv). apply in_map_iff in Hm. destruct Hm as (c & <- & Hc). eauto.
Qed.
Lemma all_unit fuel h g m : general_positions fuel h = Done g -> In m (all_operations g) -> is_affine m /\ unit_matrix (rot m).
Proof.
  intros H Hm. destruct (all_core _ _ Hm) as (c & v & Hc & _ & ->). exact (core_unit _ _ _ _ H Hc).
Qed.
(** cancellation of the rotated point *)
Lemma same_rot_site R t u p : cells_apart (act_op (R, t) p) (act_op (R, u) p) -> vcong12 t u.
Proof.
  intros (i & j & k & X & Y & W). unfold act_op, act, aff in X, Y, W. cbn [fst snd rot tra qx qy qz] in X, Y, W.
  assert (Q : forall q a b n, ((q + inject_Z a / 12) - (q + inject_Z b / 12) == inject_Z n)%Q -> cong12 a b).
  { intros q a b n E. exists n.
    assert (F : (inject_Z (a - b) == inject_Z (12 * n))%Q).
    { rewrite inject_Z_mult, <- E. unfold Z.sub. rewrite inject_Z_plus, inject_Z_opp. change (inject_Z 12) with 12%Q. field. }
    unfold Qeq, inject_Z in F. cbn [Qnum Qden] in F. lia. }
  unfold vcong12. split; [exact (Q _ _ _ _ X) | split; [exact (Q _ _ _ _ Y) | exact (Q _ _ _ _ W)]].
Qed.
Lemma site_in g p m : In m (site_symmetry g p) <-> In m (all_operations g) /\ cells_apart (act m p) p.
Proof. unfold site_symmetry. rewrite filter_In, same_site_spec. tauto. Qed.
Section Site.
Variables (fuel : nat) (h : hall) (g : gpos).
Hypothesis H : general_positions fuel h = Done g.
Hypothesis T : no_extra_translations h.
Lemma site_group p m : In m (site_symmetry g p) -> hall_group h (op_of m) /\ cells_apart (act_op (op_of m) p) p.
Proof.
  intros I. apply site_in in I. destruct I as [I C]. apply listed_all in I. destruct (listed_group _ _ _ _ H I) as [_ G]. auto.
Qed.
Lemma group_site p o : hall_group h o -> cells_apart (act_op o p) p -> exists m, In m (site_symmetry g p) /\ op_same (op_of m) o.
Proof.
  intros G C. destruct (group_listed _ _ _ _ H T G) as (m & L & E). exists m. split; [| exact E].
  apply site_in. split; [apply listed_all, L |]. rewrite act_op_of. eapply cells_apart_trans; [apply act_op_same, E | exact C].
Qed.
Lemma site_rot_inj p a b : In a (site_symmetry g p) -> In b (site_symmetry g p) -> rot a = rot b -> a = b.
Proof.
  intros Ia Ib E. destruct (site_group _ _ Ia) as [_ Ca], (site_group _ _ Ib) as [_ Cb]. apply site_in in Ia, Ib.
  apply (all_unique _ _ _ _ _ H (proj1 Ia) (proj1 Ib)). split; [exact E |].
  unfold op_of in *. cbn [fst snd] in *. rewrite E in Ca. apply (same_rot_site (rot b) _ _ p).
  eapply cells_apart_trans; [exact Ca | apply cells_apart_sym, Cb].
Qed.
Lemma site_NoDup p : NoDup (map rot (site_symmetry g p)).
Proof.
  assert (N : NoDup (site_symmetry g p)) by (apply NoDup_filter, (all_NoDup _ _ _ H)).
  assert (I : forall a b, In a (site_symmetry g p) -> In b (site_symmetry g p) -> rot a = rot b -> a = b) by apply site_rot_inj.
  induction (site_symmetry g p) as [| x l IH]; [constructor |]. inversion N as [| y l0 Nx N']; subst. cbn [map]. constructor.
  - intros C. apply in_map_iff in C. destruct C as (y & E & Iy). apply Nx. rewrite <- (I y x); simpl; auto.
  - apply IH; [exact N' |]. intros a b Ia Ib. apply I; right; assumption.
Qed.
Lemma site_rot p R : In R (map rot (site_symmetry g p)) <-> exists t, hall_group h (R, t) /\ cells_apart (act_op (R, t) p) p.
Proof.
  rewrite in_map_iff. split.
  - intros (m & <- & I). destruct (site_group _ _ I) as [G C]. exists (tra m). auto.
  - intros (t & G & C). destruct (group_site _ _ G C) as (m & I & [E _]). exists m. auto.
Qed.
Lemma fix_comp p a b : cells_apart (act_op a p) p -> cells_apart (act_op b p) p -> cells_apart (act_op (op_comp a b) p) p.
Proof.
  intros A B. eapply cells_apart_trans; [apply act_op_comp |]. eapply cells_apart_trans; [apply act_op_apart, B | exact A].
Qed.
Lemma fix_inv p a : unimodular (fst a) -> cells_apart (act_op a p) p -> cells_apart (act_op (op_inv a) p) p.
Proof.
  intros U A. eapply cells_apart_trans; [apply act_op_apart, cells_apart_sym, A |].
  eapply cells_apart_trans; [apply cells_apart_sym, act_op_comp |]. rewrite (op_inv_l a U). apply act_op_id.
Qed.
End Site.

(** ** Lagrange for lists of matrices *)
Section Lagrange.
Variables rs K : list mat3.
Hypothesis Nr : NoDup rs.
Hypothesis Nk : NoDup K.
Hypothesis Sub : incl K rs.
Hypothesis Ik : In I3 K.
Hypothesis Mr : forall A B, In A rs -> In B rs -> In (mmul A B) rs.
Hypothesis Mk : forall A B, In A K -> In B K -> In (mmul A B) K.
Hypothesis Vr : forall A, In A rs -> exists B, mmul B A = I3.
Hypothesis Vk : forall A, In A K -> exists B, In B K /\ mmul A B = I3.
Definition coset (a b : mat3) : bool := existsb (fun s => meqb b (mmul a s)) K.
Lemma coset_spec a b : coset a b = true <-> exists s, In s K /\ b = mmul a s.
Proof.
  unfold coset. rewrite existsb_exists. split; intros (s & I & E); exists s; (split; [exact I |]); now apply meqb_eq.
Qed.
Lemma cancel x s s' : In x rs -> mmul x s = mmul x s' -> s = s'.
Proof.
  intros Ix E. destruct (Vr x Ix) as (B & EB). apply (f_equal (mmul B)) in E. rewrite !mmul_assoc, EB, !mmul_I_l in E. exact E.
Qed.
Lemma lagrange : Nat.divide (length K) (length rs).
Proof.
  destruct (classes_divide coset (length K) _ rs (le_n _)) as (c & Hc).
  - intros x _. apply coset_spec. exists I3. split; [exact Ik | now rewrite mmul_I_r].
  - intros x y _ _ E. apply coset_spec in E. destruct E as (s & Is & ->). apply coset_spec. destruct (Vk s Is) as (b & Ib & Eb).
    exists b. split; [exact Ib |]. now rewrite <- mmul_assoc, Eb, mmul_I_r.
  - intros x y z _ _ _ E F. apply coset_spec in E, F. destruct E as (s & Is & ->). destruct F as (u & Iu & ->).
    apply coset_spec. exists (mmul s u). split; [auto | now rewrite <- mmul_assoc].
  - intros x Ix. transitivity (length (map (mmul x) K)); [| apply map_length]. apply Permutation_length, NoDup_Permutation.
    + apply NoDup_filter, Nr.
    + clear - Nk Ix Vr. induction Nk as [| s l Ns Nl IH]; [constructor |]. cbn [map]. constructor; [| exact (IH Nl)].
      intros C. apply in_map_iff in C. destruct C as (s' & E & I). apply Ns. rewrite <- (cancel x s' s Ix E). exact I.
    + intros y. rewrite filter_In, in_map_iff, coset_spec. split.
      * intros (_ & s & Is & ->). eauto.
      * intros (s & <- & Is). split; [apply Mr; auto | eauto].
  - exists c. exact Hc.
Qed.
End Lagrange.

Lemma mul_op a b : is_affine a -> is_affine b -> op_same (op_of (sz_mul a b)) (op_comp (op_of a) (op_of b)).
Proof.
  intros A B. rewrite (affine_aff a A), (affine_aff b B), sz_mul_aff. split; [reflexivity |].
  cbn [op_of tra aff snd op_comp fst rot]. apply vcong12_rem.
Qed.

(** ** C77 *)
(** the site symmetry is a group: it has the identity, products and inverses; and no two of its
    operations have the same rotation part *)
Theorem C77_site_symmetry_is_a_group :
  forall fuel h g p, general_positions fuel h = Done g -> no_extra_translations h ->
    (exists e, In e (site_symmetry g p) /\ sz_eqb e sz_identity = true) /\
    (forall a b, In a (site_symmetry g p) -> In b (site_symmetry g p) ->
       exists c, In c (site_symmetry g p) /\ sz_eqb (sz_mul a b) c = true) /\
    (forall a, In a (site_symmetry g p) -> exists b, In b (site_symmetry g p) /\ sz_eqb (sz_mul a b) sz_identity = true) /\
    (forall a b, In a (site_symmetry g p) -> In b (site_symmetry g p) -> rot a = rot b -> a = b).
Proof.
  intros fuel h g p H T.
  assert (Af : forall m, In m (site_symmetry g p) -> is_affine m).
  { intros m I. apply site_in in I. exact (proj1 (all_unit _ _ _ _ H (proj1 I))). }
  split; [| split; [| split]].
  - destruct (group_site fuel h g H T p op_id) as (e & I & E); [constructor 1 | apply act_op_id |].
    exists e. split; [exact I |]. apply sz_eqb_same. exact E.
  - intros a b Ia Ib. destruct (site_group fuel h g H p a Ia) as [Ga Ca], (site_group fuel h g H p b Ib) as [Gb Cb].
    destruct (group_site fuel h g H T p (op_comp (op_of a) (op_of b)) (gen_comp _ _ _ Ga Gb) (fix_comp p _ _ Ca Cb)) as (c & Ic & E).
    exists c. split; [exact Ic |]. apply sz_eqb_same.
    pose proof (mul_op a b (Af a Ia) (Af b Ib)) as M.
    apply op_same_sym in E. exact (op_same_trans _ _ _ M E).
  - intros a Ia. destruct (site_group fuel h g H p a Ia) as [Ga Ca]. pose proof (hall_group_unimodular _ _ Ga) as U.
    destruct (group_site fuel h g H T p (op_inv (op_of a)) (hall_inv _ _ Ga) (fix_inv p _ U Ca)) as (b & Ib & E).
    exists b. split; [exact Ib |]. apply sz_eqb_same.
    pose proof (mul_op a b (Af a Ia) (Af b Ib)) as M.
    change (op_same (op_of (sz_mul a b)) op_id). apply (op_same_trans _ _ _ M). eapply op_same_trans; [apply op_same_comp; [apply op_same_refl | exact E] |].
    rewrite (op_inv_r (op_of a) U). apply op_same_refl.
  - intros a b. exact (site_rot_inj fuel h g H p a b).
Qed.
(** its operations, counted by what [rotation_type] says, are those of one of the 32 crystal
    classes, and their number divides the number of general positions *)
Theorem C77_site_symmetry_is_a_crystal_class :
  forall fuel h g p, general_positions fuel h = Done g -> no_extra_translations h ->
    (exists number, In (number, reported_census (site_symmetry g p)) crystal_classes) /\
    Nat.divide (length (site_symmetry g p)) (num_of_general_pos g).
Proof.
  intros fuel h g p H T.
  pose proof (site_NoDup fuel h g H p) as N.
  pose proof (site_rot fuel h g H T p) as J.
  assert (Ie : In I3 (map rot (site_symmetry g p))) by (apply J; exists v0; split; [constructor 1 | apply act_op_id]).
  assert (M : forall A B, In A (map rot (site_symmetry g p)) -> In B (map rot (site_symmetry g p)) -> In (mmul A B) (map rot (site_symmetry g p))).
  { intros A B IA IB. apply J in IA, IB. destruct IA as (t & GA & CA), IB as (u & GB & CB). apply J.
    exists (snd (op_comp (A, t) (B, u))). split; [exact (gen_comp _ _ _ GA GB) | exact (fix_comp p _ _ CA CB)]. }
  split.
  - destruct (closed_rotations _ _ _ (map rot (site_symmetry g p)) H N) as ((n & c) & I & E & _); [| exact Ie | exact M |].
    + intros R IR. apply J in IR. destruct IR as (t & G & _). eauto.
    + exists n. rewrite (reported_census_of (site_symmetry g p)).
      * cbn [snd] in E. rewrite <- E. exact I.
      * intros m Im. apply site_in in Im. exact (all_unit _ _ _ _ H (proj1 Im)).
  - unfold num_of_general_pos. rewrite <- (map_length rot (site_symmetry g p)), <- (map_length rot (gp_core g)).
    destruct (C27_one_position_per_rotation _ _ _ H T) as [Nr _].
    assert (Jr : forall R, In R (map rot (gp_core g)) <-> exists t, hall_group h (R, t)).
    { intros R. rewrite (C26_point_group_complete _ _ _ H R), in_map_iff. split; intros (m & X & Y); exists m; auto. }
    apply lagrange.
    + exact Nr.
    + exact N.
    + intros R I. apply J in I. destruct I as (t & G & _). apply Jr. eauto.
    + exact Ie.
    + intros A B IA IB. apply Jr in IA, IB. destruct IA as (t & GA), IB as (u & GB). apply Jr.
      exists (snd (op_comp (A, t) (B, u))). exact (gen_comp _ _ _ GA GB).
    + exact M.
    + intros A IA. apply Jr in IA. destruct IA as (t & G). pose proof (hall_group_unimodular _ _ G) as U.
      exists (fst (op_inv (A, t))). exact (f_equal fst (op_inv_l (A, t) U)).
    + intros A IA. apply J in IA. destruct IA as (t & G & C). pose proof (hall_group_unimodular _ _ G) as U.
      exists (fst (op_inv (A, t))). split; [| exact (f_equal fst (op_inv_r (A, t) U))].
      apply J. exists (snd (op_inv (A, t))). split; [exact (hall_inv _ _ G) | exact (fix_inv p _ U C)].
Qed.
(** the number of equivalent sites: centring translations times the index of the site symmetry *)
Theorem C77_multiplicity :
  forall fuel h g p sites, general_positions fuel h = Done g -> no_extra_translations h -> orbit g p sites ->
    exists index, num_of_general_pos g = (index * length (site_symmetry g p))%nat /\
      length sites = (length (gp_lattice g) * index)%nat.
Proof.
  intros fuel h g p sites H T O. destruct (C77_site_symmetry_is_a_crystal_class _ _ _ p H T) as (_ & c & E).
  exists c. split; [exact E |]. destruct (C64_sites_times_multiplicity _ _ _ H T p) as (_ & K). specialize (K sites O).
  change (copies g p p) with (length (site_symmetry g p)) in K.
  assert (P : (0 < length (site_symmetry g p))%nat).
  { destruct (C77_site_symmetry_is_a_group _ _ _ p H T) as ((e & I & _) & _). destruct (site_symmetry g p); [destruct I | simpl; lia]. }
  rewrite E in K. nia.
Qed.
Lemma conj_kind A B R : mmul B A = I3 -> mdet (mmul (mmul A R) B) = mdet R /\ mtrace (mmul (mmul A R) B) = mtrace R.
Proof.
  intros E. split.
  - apply (f_equal mdet) in E. rewrite mdet_mmul, mdet_I in E. rewrite !mdet_mmul. transitivity (mdet B * mdet A * mdet R); [ring | rewrite E; ring].
  - rewrite trace_comm, mmul_assoc, E, mmul_I_l. reflexivity.
Qed.
(** equivalent sites have site symmetries of the same class *)
Theorem C77_equivalent_sites :
  forall fuel h g p a, general_positions fuel h = Done g -> no_extra_translations h -> In a (all_operations g) ->
    reported_census (site_symmetry g (act a p)) = reported_census (site_symmetry g p).
Proof.
  intros fuel h g p a H T Ia. apply listed_all in Ia. destruct (listed_group _ _ _ _ H Ia) as [_ Ga].
  pose proof (hall_group_unimodular _ _ Ga) as U.
  assert (R : forall q, reported_census (site_symmetry g q) = census_of (map rot (site_symmetry g q))).
  { intros q. apply reported_census_of. intros m Im. apply site_in in Im. exact (all_unit _ _ _ _ H (proj1 Im)). }
  rewrite !R. set (A := rot a). set (B := fst (op_inv (op_of a))).
  assert (EBA : mmul B A = I3) by exact (f_equal fst (op_inv_l (op_of a) U)).
  assert (EAB : mmul A B = I3) by exact (f_equal fst (op_inv_r (op_of a) U)).
  assert (P : Permutation (map rot (site_symmetry g (act a p))) (map (fun R => mmul (mmul A R) B) (map rot (site_symmetry g p)))).
  { apply NoDup_Permutation.
    - apply (site_NoDup fuel h g H).
    - pose proof (site_NoDup fuel h g H p) as N. induction N as [| x l Nx N IH]; [constructor |]. cbn [map]. constructor; [| exact IH].
      intros C. apply in_map_iff in C. destruct C as (y & E & Iy). apply Nx. replace x with y; [exact Iy |].
      apply (f_equal (fun M => mmul (mmul B M) A)) in E. rewrite <- !mmul_assoc, EBA, !mmul_I_r in E.
      rewrite !mmul_assoc, EBA, !mmul_I_l in E. exact E.
    - intros Q. rewrite (site_rot fuel h g H T (act a p) Q), in_map_iff. rewrite !act_op_of. split.
      + intros (t & G & C). exists (mmul (mmul B Q) A). split.
        * rewrite <- !mmul_assoc, EAB, mmul_I_r, mmul_assoc, EAB, mmul_I_l. reflexivity.
        * apply (site_rot fuel h g H T p). exists (snd (op_comp (op_comp (op_inv (op_of a)) (Q, t)) (op_of a))).
          split; [exact (gen_comp _ _ _ (gen_comp _ _ _ (hall_inv _ _ Ga) G) Ga) |].
          change (cells_apart (act_op (op_comp (op_comp (op_inv (op_of a)) (Q, t)) (op_of a)) p) p).
          eapply cells_apart_trans; [apply act_op_comp |]. eapply cells_apart_trans; [apply act_op_comp |].
          eapply cells_apart_trans; [apply act_op_apart, C |].
          eapply cells_apart_trans; [apply cells_apart_sym, act_op_comp |]. rewrite (op_inv_l (op_of a) U). apply act_op_id.
      + intros (S & <- & I). apply (site_rot fuel h g H T p) in I. destruct I as (t & G & C).
        exists (snd (op_comp (op_comp (op_of a) (S, t)) (op_inv (op_of a)))).
        split; [exact (gen_comp _ _ _ (gen_comp _ _ _ Ga G) (hall_inv _ _ Ga)) |].
        change (cells_apart (act_op (op_comp (op_comp (op_of a) (S, t)) (op_inv (op_of a))) (act_op (op_of a) p)) (act_op (op_of a) p)).
        eapply cells_apart_trans; [apply act_op_comp |].
        eapply cells_apart_trans; [apply act_op_apart, cells_apart_sym, act_op_comp |].
        rewrite (op_inv_l (op_of a) U). eapply cells_apart_trans; [apply act_op_apart, act_op_id |].
        eapply cells_apart_trans; [apply act_op_comp |]. apply act_op_apart, C. }
  rewrite (census_perm _ _ P). unfold census_of. apply map_ext. intros k. unfold count_kind.
  clear - EBA. induction (map rot (site_symmetry g p)) as [| x l IH]; [reflexivity |]. cbn [map filter].
  destruct (conj_kind A B x EBA) as [-> ->]. destruct (_ && _); cbn [List.length]; congruence.
Qed.
(** I 4: a point on the axis has site symmetry 4, and there are two such sites *)
Example C77_case : exists h g, try_from_str "I 4" = Done (Some h) /\ general_positions 10 h = Done g /\ no_extra_translations h /\
  reported_census (site_symmetry g (QV 0 0 (1 # 5))) = [0; 0; 0; 0; 0; 1; 1; 0; 2; 0]%nat /\
  num_of_general_pos g = 4%nat /\ exists sites, orbit g (QV 0 0 (1 # 5)) sites /\ length sites = 2%nat.
Proof.
  destruct (case_spec "I 4" 4) as (h & g & E & G & T & N); [vm_compute; reflexivity |].
  exists h, g. split; [exact E |]. split; [exact G |]. split; [exact T |].
  assert (K : match try_from_str "I 4" with Done (Some h) => match general_positions 10 h with Done g =>
    nats_eqb (reported_census (site_symmetry g (QV 0 0 (1 # 5)))) [0; 0; 0; 0; 0; 1; 1; 0; 2; 0]%nat &&
    Nat.eqb (length (site_symmetry g (QV 0 0 (1 # 5)))) 4 && Nat.eqb (length (gp_lattice g)) 2
    | _ => false end | _ => false end = true) by (vm_compute; reflexivity).
  rewrite E, G in K. rewrite !andb_true_iff, !Nat.eqb_eq in K. destruct K as ((K1 & K2) & K3).
  split; [apply nats_eqb_eq, K1 |]. split; [exact N |].
  destruct (C64_sites_times_multiplicity _ _ _ G T (QV 0 0 (1 # 5))) as ((sites & O) & _). exists sites. split; [exact O |].
  destruct (C77_multiplicity _ _ _ _ _ G T O) as (c & E1 & E2). rewrite N, K2 in E1. rewrite K3 in E2. lia.
Qed.
