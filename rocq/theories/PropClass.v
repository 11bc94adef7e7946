(** * PropClass: property C68: the point group of every symbol that returns is one of the 32
    crystal classes. *)
From Coq Require Import Permutation.
From Verif Require Import Base Notations Parser Seitz F64 Jones Rotations Tables Lookup Generate Positions
  Spec SpecHall SpecXyz SpecCompat SpecOutcome SpecTables SpecRotation Algebra PropSeitz PropSymbols PropRotation GenFacts PropGenerate GroupCheck
  PropFullSets PropTables PropTableGroups PropJones Restriction PropTermination PropCanon PropOutcome Subgroups.
Open Scope Z_scope.
Local Notation length := List.length.

(** ** Support *)
Lemma group_class fuel h g : general_positions fuel h = Done g ->
  (forall o, hall_group h o -> cubic_rotation (fst o)) \/ (forall o, hall_group h o -> hexagonal_rotation (fst o)).
Proof.
  intros H. destruct (proj1 (proj1 (C62_outcome h))) as (V & B & F); [exists fuel, g; exact H |].
  destruct (h_syms h) as [| first rest] eqn:Es; [destruct F |].
  assert (T : forall o, hall_group h o -> table_class first (fst o)).
  { apply class_group. intros ms P I EP. rewrite Es in I. unfold all_symbols_valid in V. rewrite Es in V.
    exact (proj1 (family_iff first rest V) F ms P I EP). }
  unfold table_class in T. destruct (ms_fold first), (ms_diag first); auto.
  left. intros o G. apply rhombohedral_cubic. auto.
Qed.
Lemma census_perm l l' : Permutation l l' -> census_of l = census_of l'.
Proof.
  intros P. unfold census_of. apply map_ext. intros k. unfold count_kind.
  induction P as [| x l l' _ IH | x y l | l1 l2 l3 _ IH1 _ IH2]; cbn [filter]; auto.
  - destruct (_ && _); cbn; congruence.
  - destruct (_ && _), (_ && _); reflexivity.
  - congruence.
Qed.
Fixpoint nats_eqb (a b : list nat) : bool :=
  match a, b with [], [] => true | x :: a, y :: b => Nat.eqb x y && nats_eqb a b | _, _ => false end.
Lemma nats_eqb_eq : forall a b, nats_eqb a b = true -> a = b.
Proof.
  induction a as [| x a IH]; intros [| y b] H; cbn in H; try discriminate; auto.
  apply andb_true_iff in H. destruct H as [A B]. apply Nat.eqb_eq in A. subst. f_equal. auto.
Qed.
Definition count_det (d : Z) (l : list mat3) : nat := length (filter (fun R => mdet R =? d) l).
Definition classified (G : list mat3) (L : list (list nat * mset)) : bool :=
  forallb (fun p => let rs := select (snd p) G in
    existsb (fun c => nats_eqb (snd c) (census_of rs) && Nat.eqb (census_order (snd c)) (length rs)) crystal_classes &&
    (Nat.eqb (count_det (-1) rs) 0 || Nat.eqb (count_det (-1) rs) (count_det 1 rs))) L.
Lemma cubic_classified : classified cubic48 cubic_subgroups = true.
Proof. vm_cast_no_check (@eq_refl bool true). Qed.
Lemma hexagonal_classified : classified hexagonal24 hexagonal_subgroups = true.
Proof. vm_cast_no_check (@eq_refl bool true). Qed.
Fixpoint mats_nodup (l : list mat3) : bool := match l with [] => true | x :: r => negb (meqb_in x r) && mats_nodup r end.
Lemma mats_nodup_spec l : mats_nodup l = true -> NoDup l.
Proof.
  induction l as [| x r IH]; intros H; [constructor |]. cbn in H. apply andb_true_iff in H. destruct H as [A B].
  constructor; auto. intros I. apply meqb_in_spec in I. rewrite I in A. discriminate.
Qed.
Lemma perm_dets d l l' : Permutation l l' -> count_det d l = count_det d l'.
Proof.
  intros P. unfold count_det. induction P as [| x l l' _ IH | x y l | l1 l2 l3 _ IH1 _ IH2]; cbn [filter]; auto.
  - destruct (_ =? _); cbn; congruence.
  - destruct (mdet x =? d), (mdet y =? d); reflexivity.
  - congruence.
Qed.
Lemma closed_classified G L : enough (table_of G) (index_of I3 G) L = true -> classified G L = true ->
  mats_nodup G = true -> meqb_in I3 G = true ->
  forall rs, NoDup rs -> (forall R, In R rs -> In R G) -> In I3 rs ->
    (forall A B, In A rs -> In B rs -> In (mmul A B) rs) ->
  (exists c, In c crystal_classes /\ snd c = census_of rs /\ census_order (snd c) = length rs) /\
  (count_det (-1) rs = 0%nat \/ count_det (-1) rs = count_det 1 rs).
Proof.
  intros E C N I rs Nr S Ie M. apply meqb_in_spec in I. apply mats_nodup_spec in N.
  destruct (closed_sets_listed G L E I rs S Ie M) as (p & Hp & K).
  assert (P : Permutation rs (select (snd p) G)).
  { apply NoDup_Permutation; auto. apply select_NoDup, N. }
  unfold classified in C. rewrite forallb_forall in C. specialize (C p Hp). cbv zeta in C.
  apply andb_true_iff in C. destruct C as [C1 C2]. split.
  - apply existsb_exists in C1. destruct C1 as (c & Hc & C1). apply andb_true_iff in C1. destruct C1 as [C1 C3].
    exists c. split; [exact Hc |]. rewrite (census_perm _ _ P), (Permutation_length P). split; [apply nats_eqb_eq, C1 | apply Nat.eqb_eq, C3].
  - rewrite !(perm_dets _ _ _ P). apply orb_true_iff in C2. destruct C2 as [C2 | C2]; apply Nat.eqb_eq in C2; auto.
Qed.
Lemma rotations_classified fuel h g rs : general_positions fuel h = Done g -> NoDup rs ->
  (forall R, In R rs <-> exists m, In m (gp_core g) /\ rot m = R) ->
  (exists c, In c crystal_classes /\ snd c = census_of rs /\ census_order (snd c) = length rs) /\
  (count_det (-1) rs = 0%nat \/ count_det (-1) rs = count_det 1 rs).
Proof.
  intros H N K.
  assert (J : forall R, In R rs <-> exists t, hall_group h (R, t)).
  { intros R. rewrite K. symmetry. apply (C26_point_group_complete _ _ _ H). }
  assert (Ie : In I3 rs) by (apply J; exists v0; constructor 1).
  assert (M : forall A B, In A rs -> In B rs -> In (mmul A B) rs).
  { intros A B IA IB. apply J in IA, IB. destruct IA as (t & GA), IB as (u & GB). apply J.
    exists (snd (op_comp (A, t) (B, u))). exact (gen_comp _ _ _ GA GB). }
  destruct (group_class _ _ _ H) as [C | C].
  - apply (closed_classified cubic48 cubic_subgroups cubic_enough cubic_classified eq_refl eq_refl rs N); [| exact Ie | exact M].
    intros R I. apply J in I. destruct I as (t & G). specialize (C _ G). exact (cubic48_in _ C).
  - apply (closed_classified hexagonal24 hexagonal_subgroups hexagonal_enough hexagonal_classified eq_refl eq_refl rs N); [| exact Ie | exact M].
    intros R I. apply J in I. destruct I as (t & G). specialize (C _ G). exact (hexagonal24_in _ C).
Qed.

(** ** C68 *)
(** the different rotation parts of the positions of any symbol: the numbers of rotations of each
    kind are those of one of the 32 crystal classes *)
Theorem C68_one_of_the_32_classes :
  forall fuel h g rs, general_positions fuel h = Done g ->
    NoDup rs -> (forall R, In R rs <-> exists m, In m (gp_core g) /\ rot m = R) ->
    exists number, In (number, census_of rs) crystal_classes.
Proof.
  intros fuel h g rs H N K. destruct (rotations_classified _ _ _ _ H N K) as (((n & c) & I & E & _) & _).
  exists n. cbn [snd] in E. rewrite <- E. exact I.
Qed.
(** ... and different classes have different numbers, so the class is determined *)
Theorem C68_classes_told_apart :
  length crystal_classes = 32%nat /\ NoDup (map snd crystal_classes).
Proof.
  split; [reflexivity |].
  assert (K : forall l, (fix nd l := match l with [] => true | x :: r => negb (existsb (nats_eqb x) r) && nd r end) l = true -> NoDup l).
  { induction l as [| x r IH]; intros E; [constructor |]. apply andb_true_iff in E. destruct E as [A B]. constructor; auto.
    intros I. apply negb_true_iff in A. assert (Q : existsb (nats_eqb x) r = true); [| congruence].
    apply existsb_exists. exists x. split; auto. clear. induction x as [| n x IH]; cbn; auto. now rewrite Nat.eqb_refl, IH. }
  apply K. vm_compute. reflexivity.
Qed.
(** the kind of an operation as the program reports it, in the order of a census *)
Definition reported_kinds : list rot_type := [RM6; RM4; RM3; RM; RI; RE; RN2; RN3; RN4; RN6].
Definition reported_census (l : list seitz) : census :=
  map (fun k => length (filter (fun m => match rotation_type m with Some t => rtype_eqb t k | None => false end) l)) reported_kinds.
Lemma core_unit fuel h g m : general_positions fuel h = Done g -> In m (gp_core g) -> is_affine m /\ unit_matrix (rot m).
Proof.
  intros H I. destruct (C25_positions_sound _ _ _ H m I) as [A G]. split; [exact A |].
  destruct (group_class _ _ _ H) as [C | C]; specialize (C _ G); [now apply cubic_unit | now apply hexagonal_unit].
Qed.
Lemma unit_small R : unit_matrix R -> entries_within 700 R.
Proof. unfold unit_matrix, entries_within. intros (A & B & C & D & E & F & G & H & I). repeat split; lia. Qed.
Lemma reported_census_of l : (forall m, In m l -> is_affine m /\ unit_matrix (rot m)) -> reported_census l = census_of (map rot l).
Proof.
  intros H. unfold reported_census, census_of, reported_kinds, kinds.
  assert (K : forall t k, (forall d tr, (match rotation_type_of d tr with Some t' => rtype_eqb t' t | None => false end) = ((d =? fst k) && (tr =? snd k))) ->
    length (filter (fun m => match rotation_type m with Some t' => rtype_eqb t' t | None => false end) l) = count_kind k (map rot l)).
  { intros t k Q. unfold count_kind. induction l as [| m l IH]; [reflexivity |]. cbn [map filter].
    destruct (H m (or_introl eq_refl)) as [[_ A] U]. unfold rotation_type at 1. rewrite (C18_small_entries_exact m (unit_small _ U)).
    unfold sz_trace. rewrite A, Q. replace (mtrace (rot m) + 1 - 1) with (mtrace (rot m)) by lia.
    replace (det_spec (rot m)) with (mdet (rot m)) by (unfold det_spec, mdet; ring).
    assert (IH' := IH (fun m' I => H m' (or_intror I))). destruct (_ && _); cbn [List.length]; congruence. }
  cbn [map].
  repeat (apply (f_equal2 cons); [apply K; intros d tr; unfold rotation_type_of; cbn [fst snd];
    repeat match goal with |- context [?x =? ?y] => destruct (Z.eqb_spec x y) end; subst; cbn; try reflexivity; lia |]).
  reflexivity.
Qed.
(** for symbols without extra translations the operations themselves can be counted, by what
    [rotation_type] says; there are 1, 2, 3, 4, 6, 8, 12, 16, 24 or 48 of them *)
Theorem C68_positions_counted :
  forall fuel h g, general_positions fuel h = Done g -> no_extra_translations h ->
    (exists number, In (number, reported_census (gp_core g)) crystal_classes) /\
    In (num_of_general_pos g) [1; 2; 3; 4; 6; 8; 12; 16; 24; 48]%nat.
Proof.
  intros fuel h g H T. destruct (C27_one_position_per_rotation _ _ _ H T) as [N _].
  destruct (rotations_classified _ _ _ (map rot (gp_core g)) H N) as (((n & c) & I & E & O) & _).
  { intros R. rewrite in_map_iff. split; intros (m & X & Y); exists m; auto. }
  cbn [snd] in *. split.
  - exists n. rewrite (reported_census_of (gp_core g)) by (intros m Im; exact (core_unit _ _ _ _ H Im)). rewrite <- E. exact I.
  - unfold num_of_general_pos. rewrite map_length in O. rewrite <- O.
    assert (Q : forallb (fun p => existsb (Nat.eqb (census_order (snd p))) [1; 2; 3; 4; 6; 8; 12; 16; 24; 48]%nat) crystal_classes = true) by (vm_compute; reflexivity).
    rewrite forallb_forall in Q. specialize (Q _ I). cbn [snd] in Q. apply existsb_exists in Q. destruct Q as (x & Ix & Ex).
    apply Nat.eqb_eq in Ex. congruence.
Qed.
(** every class occurs *)
Theorem C68_every_class_occurs :
  forall number c, In (number, c) crystal_classes ->
    exists i s h g, get_hall_symbol default_table i = Some s /\ try_from_str s = Done (Some h) /\
      general_positions 10 h = Done g /\ no_extra_translations h /\ census_of (map rot (gp_core g)) = c.
Proof.
  intros n c I.
  assert (Q : forallb (fun p => match get_space_group_number default_table (fst p - 1), get_hall_symbol default_table (fst p - 1) with
      | Some label, Some s => match class_of_number (leading_number label) with Some c => nats_eqb c (snd p) | None => false end
      | _, _ => false end) crystal_classes = true) by (vm_compute; reflexivity).
  rewrite forallb_forall in Q. specialize (Q _ I). cbn [fst snd] in Q.
  destruct (get_space_group_number default_table (n - 1)) as [label |] eqn:El; [| discriminate].
  destruct (get_hall_symbol default_table (n - 1)) as [s |] eqn:Es; [| discriminate].
  destruct (C32_every_default_row_gives_its_crystal_class _ _ _ El Es) as (h & g & c' & A & B & C & D & E & _).
  rewrite B in Q. apply nats_eqb_eq in Q. subst c'. exists (n - 1)%nat, s, h, g. split; [exact Es |]. split; [exact A |]. split; [apply C; lia | split; [exact D | congruence]].
Qed.
(** ** Handedness *)
(** all operations are proper exactly when no minus sign is written; otherwise there are as many
    improper rotation parts as proper ones *)
Definition written_without_minus (h : hall) : Prop :=
  ls_minus (h_lat h) = false /\ forall ms, In ms (h_syms h) -> ms_minus ms = false.
Theorem C68_handedness :
  forall fuel h g, general_positions fuel h = Done g ->
    ((forall m, In m (gp_core g) -> mdet (rot m) = 1) <-> written_without_minus h) /\
    (~ written_without_minus h -> forall rs, NoDup rs ->
       (forall R, In R rs <-> exists m, In m (gp_core g) /\ rot m = R) ->
       count_det (-1) rs = count_det 1 rs).
Proof.
  intros fuel h g H.
  assert (W : (forall m, In m (gp_core g) -> mdet (rot m) = 1) <-> written_without_minus h).
  { split.
    - intros K.
      assert (D : forall o, hall_group h o -> mdet (fst o) = 1).
      { intros o G. destruct (rotations_complete _ _ _ H _ G) as (m & I & E). rewrite <- E. auto. }
      split.
      + destruct (ls_minus (h_lat h)) eqn:E; [| reflexivity]. exfalso.
        specialize (D (mopp I3, V3 0 0 0)). cbn [fst] in D. rewrite mdet_mopp, mdet_I in D.
        assert (-1 = 1); [| discriminate]. apply D. apply gen_base. right; left. auto.
      + intros ms I. destruct (proj1 (proj1 (C62_outcome h))) as (V & _ & _); [exists fuel, g; exact H |].
        destruct (seitz_matrix ms) as [m |] eqn:S; [| exfalso; exact (V ms I S)].
        destruct (symbol_in_group h ms m I S) as (t & G). specialize (D _ G). cbn [fst] in D.
        destruct (C06_matrix_of_symbol ms m S) as (_ & E & _). rewrite E in D. destruct (ms_minus ms); [discriminate | reflexivity].
    - intros (L & M) m I. destruct (C25_positions_sound _ _ _ H m I) as [_ G].
      change (mdet (fst (op_of m)) = 1). remember (op_of m) as o eqn:Eo. clear Eo.
      induction G as [| o Ho | a b Ga IHa Gb IHb | a b Ga IHa E | a b Ga IHa E].
      + apply mdet_I.
      + destruct Ho as [(v & _ & ->) | [(C & _) | (ms & n & Im & S & ->)]].
        * apply mdet_I.
        * congruence.
        * rewrite op_conj_formula. cbn [fst op_of]. destruct (C06_matrix_of_symbol ms n S) as (_ & E & _). rewrite E, (M ms Im). reflexivity.
      + cbn [op_comp fst]. rewrite mdet_mmul, IHa, IHb. reflexivity.
      + apply (f_equal fst) in E. apply (f_equal mdet) in E. cbn [op_comp fst op_id] in E. rewrite mdet_mmul, IHa, mdet_I in E. lia.
      + destruct E as [E _]. rewrite <- E. exact IHa. }
  split; [exact W |]. intros N rs Nr K. destruct (rotations_classified _ _ _ _ H Nr K) as (_ & [Z | Z]); [| exact Z].
  exfalso. apply N, W. intros m I.
  destruct (hall_group_unimodular h _ (proj2 (C25_positions_sound _ _ _ H m I))) as [D | D]; [exact D |]. exfalso.
  cbn [op_of fst] in D. assert (Q : In (rot m) (filter (fun R => mdet R =? -1) rs)).
  { apply filter_In. split; [apply K; eauto | apply Z.eqb_eq, D]. }
  unfold count_det in Z. destruct (filter _ rs); [destruct Q | discriminate].
Qed.
(** a case that is no row of the tables: P 4 -3*, of class m-3m *)
Example C68_case : exists h g, try_from_str "P 4 -3*" = Done (Some h) /\ general_positions 10 h = Done g /\
  ~ written_without_minus h /\ reported_census (gp_core g) = [0; 6; 8; 9; 1; 1; 9; 8; 6; 0]%nat.
Proof.
  assert (K : match try_from_str "P 4 -3*" with Done (Some h) => match general_positions 10 h with Done g =>
    nats_eqb (reported_census (gp_core g)) [0; 6; 8; 9; 1; 1; 9; 8; 6; 0]%nat && existsb ms_minus (h_syms h)
    | _ => false end | _ => false end = true) by (vm_compute; reflexivity).
  destruct (try_from_str _) as [[h |] | |]; try discriminate. destruct (general_positions 10 h) as [g | |] eqn:G; try discriminate.
  apply andb_true_iff in K. destruct K as [K1 K2]. exists h, g. split; [reflexivity |]. split; [exact G |]. split; [| apply nats_eqb_eq, K1].
  intros (_ & M). apply existsb_exists in K2. destruct K2 as (ms & I & E). rewrite (M ms I) in E. discriminate.
Qed.
