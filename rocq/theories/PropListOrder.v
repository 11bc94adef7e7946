(** * PropListOrder: property C69: the order of the positions, and when two symbols give
    identical positions. *)
From Coq Require Import Permutation Sorted.
From Verif Require Import Base Notations Parser Seitz F64 Jones Rotations Tables Generate Positions
  Spec SpecHall SpecXyz SpecCompat SpecOutcome Algebra PropSeitz PropSymbols GenFacts PropGenerate GroupCheck
  PropFullSets PropJones Restriction PropTermination PropCanon PropOrder PropOutcome Subgroups PropClass.
Open Scope Z_scope.
Local Notation length := List.length.

(** the rotations named by the texts of an order table *)
Definition table_rotations (table : list string) : list mat3 :=
  flat_map (fun s => match read_xyz s with Some (R, _) => [R] | None => [] end) table.
(** ** Support *)
Definition reads_back (table : list string) : bool :=
  forallb (fun i => match nth_error table i, nth_error (table_rotations table) i with
    | Some s, Some R => match jones_rot (aff R v0) with Done s' => String.eqb s s' | _ => false end && 
        match read_xyz s with Some (R', _) => meqb R R' | None => false end
    | _, _ => false end) (seq 0 (length table)) && nodupb table && mats_nodup (table_rotations table)
    && Nat.eqb (length (table_rotations table)) (length table) && forallb asciib table.
Lemma tables_read_back : reads_back order_12 = true /\ reads_back order_24 = true /\ reads_back order_48 = true.
Proof. split; [| split]; vm_compute; reflexivity. Qed.
Lemma for_reads_back ms : reads_back (table_for ms) = true.
Proof. destruct tables_read_back as (A & B & C). unfold table_for. destruct (ms_fold ms), (ms_diag ms); assumption. Qed.
Lemma rank_position table m i : reads_back table = true ->
  (rank table m i <-> nth_error (table_rotations table) i = Some (rot m)).
Proof.
  intros H. unfold reads_back in H. rewrite !andb_true_iff in H. destruct H as ((((A & B) & C) & D) & E).
  apply nodupb_sound in B. rewrite forallb_forall in A, E. apply Nat.eqb_eq in D.
  assert (K : forall s, nth_error table i = Some s -> exists R, nth_error (table_rotations table) i = Some R /\
            jones_rot (aff R v0) = Done s /\ exists q, read_xyz s = Some (R, q)).
  { intros s N. specialize (A i ltac:(apply in_seq; assert (i < length table)%nat by (apply nth_error_Some; congruence); lia)).
    rewrite N in A. destruct (nth_error (table_rotations table) i) as [R |]; [| discriminate]. exists R. split; [reflexivity |].
    apply andb_true_iff in A. destruct A as [A1 A2]. destruct (jones_rot (aff R v0)) as [s' | |]; try discriminate.
    apply String.eqb_eq in A1. subst s'. split; [reflexivity |]. destruct (read_xyz s) as [[R' q] |]; [| discriminate].
    apply meqb_eq in A2. subst. eauto. }
  split.
  - intros (s & J & N & _). destruct (K s N) as (R & NR & _ & q & Q). rewrite NR. f_equal.
    pose proof (text_ascii m s J (E s (nth_error_In _ _ N))) as U.
    destruct (C23_rotation_text_reads_back m U) as (s' & q' & J' & Q' & _). rewrite J in J'. apply done_inj in J'. subst s'. congruence.
  - intros NR. assert (L : (i < length table)%nat) by (rewrite <- D; apply nth_error_Some; congruence).
    destruct (nth_error table i) as [s |] eqn:N; [| apply nth_error_None in N; lia].
    destruct (K s eq_refl) as (R & NR' & J & _). assert (R = rot m) by congruence. subst R.
    exists s. split; [| split; [exact N |]].
    + rewrite jones_rot_is_jones in *. exact J.
    + intros j Lj C'. assert (j = i); [| lia]. eapply (proj1 (NoDup_nth_error table) B); [| congruence].
      apply nth_error_Some. congruence.
Qed.
Lemma sorted_is_filter : forall (T l : list mat3), NoDup T -> NoDup l -> (forall R, In R l -> In R T) ->
  StronglySorted (fun a b => forall i j, nth_error T i = Some a -> nth_error T j = Some b -> (i <= j)%nat) l ->
  l = filter (fun R => meqb_in R l) T.
Proof.
  induction T as [| x T IH]; intros l NT Nl In_T Srt.
  { destruct l as [| y l]; [reflexivity | exfalso; exact (In_T y (or_introl eq_refl))]. }
  apply NoDup_cons_iff in NT. destruct NT as [Nx NT]. cbn [filter].
  assert (Shift : forall l', (forall R, In R l' -> In R T) ->
    StronglySorted (fun a b => forall i j, nth_error (x :: T) i = Some a -> nth_error (x :: T) j = Some b -> (i <= j)%nat) l' ->
    StronglySorted (fun a b => forall i j, nth_error T i = Some a -> nth_error T j = Some b -> (i <= j)%nat) l').
  { intros l' Sub K. induction K as [| a l' K IHK F]; [constructor |]. constructor; [apply IHK; intros R I; apply Sub; now right |].
    rewrite Forall_forall in *. intros b I i j X Y. specialize (F b I (S i) (S j) X Y). lia. }
  destruct (meqb_in x l) eqn:E.
  - apply meqb_in_spec in E. destruct l as [| y l]; [destruct E |].
    assert (y = x).
    { destruct E as [E | E]; [exact E |]. apply StronglySorted_inv in Srt. destruct Srt as [_ F]. rewrite Forall_forall in F.
      destruct (In_T y (or_introl eq_refl)) as [Y | Y]; [now symmetry |]. exfalso. apply In_nth_error in Y. destruct Y as (i & Y).
      specialize (F x E (S i) 0%nat Y eq_refl). lia. }
    subst y. apply NoDup_cons_iff in Nl. destruct Nl as [Nl1 Nl2].
    assert (Sub : forall R, In R l -> In R T).
    { intros R I. destruct (In_T R (or_intror I)) as [C | C]; [congruence | exact C]. }
    f_equal. apply StronglySorted_inv in Srt. destruct Srt as [Srt _].
    rewrite (IH l NT Nl2 Sub (Shift l Sub Srt)) at 1. apply filter_ext_in. intros R I. cbn [meqb_in].
    assert (meqb x R = false) as ->; [| reflexivity]. apply not_true_iff_false. intros C. apply meqb_eq in C. subst R. contradiction.
  - assert (Sub : forall R, In R l -> In R T).
    { intros R I. destruct (In_T R I) as [C | C]; [| exact C]. subst R. apply meqb_in_spec in I. congruence. }
    exact (IH l NT Nl Sub (Shift l Sub Srt)).
Qed.
Lemma core_order fuel h g first rest : general_positions fuel h = Done g -> no_extra_translations h -> h_syms h = first :: rest ->
  map rot (gp_core g) = filter (fun R => meqb_in R (map rot (gp_core g))) (table_rotations (table_for first)).
Proof.
  intros H T Es. pose proof (for_reads_back first) as RB.
  destruct (C27_one_position_per_rotation _ _ _ H T) as [N X].
  destruct (general_positions_spec _ _ _ H) as (_ & l & _ & Hs & _).
  destruct (C30_sort_stable_reordering h first rest l _ Es Hs) as (_ & _ & Srt).
  destruct (proj1 (proj1 (C62_outcome h))) as (V & B & F); [exists fuel, g; exact H |].
  assert (TC : forall m, In m (gp_core g) -> exists i, rank (table_for first) m i).
  { intros m I. apply rank_iff_class. change (rot m) with (fst (op_of m)). apply (class_group first h).
    - intros s P Is EP. unfold all_symbols_valid in V. rewrite Es in V, F, Is. exact (proj1 (family_iff first rest V) F s P Is EP).
    - exact (proj2 (C25_positions_sound _ _ _ H m I)). }
  apply sorted_is_filter.
  - unfold reads_back in RB. rewrite !andb_true_iff in RB. apply mats_nodup_spec. tauto.
  - exact N.
  - intros R I. apply in_map_iff in I. destruct I as (m & <- & I). destruct (TC m I) as (i & Ri).
    apply (rank_position _ _ _ RB) in Ri. eapply nth_error_In; eauto.
  - clear - Srt RB. induction Srt as [| m l Srt IH Fm]; [constructor |]. cbn [map]. constructor; [exact IH |].
    rewrite Forall_forall in *. intros R I i j X Y. apply in_map_iff in I. destruct I as (m' & <- & I).
    apply (rank_position _ _ _ RB) in X, Y. exact (Fm m' I i j X Y).
Qed.

(** ** C69 *)
(** the rotation parts of the positions are those rotations of the order table of the first
    symbol that occur in the group, in the order of the table *)
Theorem C69_rotations_in_table_order :
  forall fuel h g first rest, general_positions fuel h = Done g -> no_extra_translations h -> h_syms h = first :: rest ->
    exists occurs, (forall R, occurs R = true <-> exists t, hall_group h (R, t)) /\
      map rot (gp_core g) = filter occurs (table_rotations (table_for first)).
Proof.
  intros fuel h g first rest H T Es. exists (fun R => meqb_in R (map rot (gp_core g))). split; [| now apply (core_order fuel h g first rest)].
  intros R. rewrite meqb_in_spec. apply (C27_one_position_per_rotation _ _ _ H T).
Qed.
(** so the order of the rotations depends on the group and the table alone *)
Theorem C69_same_group_same_order :
  forall f h a f' h' b s r s' r', general_positions f h = Done a -> general_positions f' h' = Done b ->
    no_extra_translations h -> no_extra_translations h' -> (forall o, hall_group h o <-> hall_group h' o) ->
    h_syms h = s :: r -> h_syms h' = s' :: r' -> table_for s = table_for s' ->
    map rot (gp_core a) = map rot (gp_core b).
Proof.
  intros f h a f' h' b s r s' r' A B T T' E Es Es' Et.
  destruct (C69_rotations_in_table_order _ _ _ _ _ A T Es) as (oc & O & ->).
  destruct (C69_rotations_in_table_order _ _ _ _ _ B T' Es') as (oc' & O' & ->). rewrite Et. apply filter_ext. intros R.
  apply eq_true_iff_eq. rewrite O, O'. split; intros (t & G); exists t; now apply E.
Qed.
Lemma in_range_cong a b : vbetween 0 12 a -> vbetween 0 12 b -> vcong12 a b -> a = b.
Proof.
  intros (A1 & A2 & A3) (B1 & B2 & B3) ((k1 & E1) & (k2 & E2) & (k3 & E3)). destruct a as [a1 a2 a3], b as [b1 b2 b3]; cbn [vx vy vz] in *. f_equal; lia.
Qed.
(** a primitive lattice: the whole list of positions is determined *)
Theorem C69_primitive_positions_identical :
  forall f h a f' h' b s r s' r', general_positions f h = Done a -> general_positions f' h' = Done b ->
    no_extra_translations h -> no_extra_translations h' -> (forall o, hall_group h o <-> hall_group h' o) ->
    h_syms h = s :: r -> h_syms h' = s' :: r' -> table_for s = table_for s' ->
    ls_char (h_lat h) = LP -> a = b.
Proof.
  intros f h a f' h' b s r s' r' A B T T' E Es Es' Et LPh.
  assert (LPh' : ls_char (h_lat h') = LP).
  { assert (K : forall v, In v (translations (ls_char (h_lat h'))) -> vcong12 v v0).
    { intros v I. assert (G : hall_group h (I3, v)) by (apply E, gen_base; left; eauto). apply T in G.
      rewrite LPh in G. destruct G as (u & [<- | []] & C). exact C. }
    destruct (ls_char (h_lat h')); [reflexivity | exfalso ..].
    all: destruct (K _ (or_intror (or_introl eq_refl))) as ((k1 & K1) & (k2 & K2) & (k3 & K3)); cbn [vx vy vz v0] in *; lia. }
  destruct (general_positions_spec _ _ _ A) as (La & _). destruct (general_positions_spec _ _ _ B) as (Lb & _).
  pose proof (C69_same_group_same_order _ _ _ _ _ _ _ _ _ _ A B T T' E Es Es' Et) as O.
  destruct a as [la ca], b as [lb cb]. cbn [gp_lattice gp_core] in *. f_equal; [congruence |].
  assert (Sa := fun m => C28_normalised _ _ _ A m). assert (Sb := fun m => C28_normalised _ _ _ B m). cbn [gp_core] in Sa, Sb.
  assert (Ga := fun m I => proj2 (C25_positions_sound _ _ _ A m I)). assert (Gb := fun m I => proj2 (C25_positions_sound _ _ _ B m I)).
  cbn [gp_core] in Ga, Gb. clear A B La Lb.
  revert cb O Sb Gb. induction ca as [| m ca IH]; intros [| n cb] O Sb Gb; try discriminate; [reflexivity |].
  cbn [map] in O. assert (O1 : rot m = rot n) by congruence. assert (O2 : map rot ca = map rot cb) by congruence.
  f_equal.
  - destruct (Sa m (or_introl eq_refl)) as (Am & Rm). destruct (Sb n (or_introl eq_refl)) as (An & Rn).
    rewrite (affine_aff m Am), (affine_aff n An), O1. f_equal. apply in_range_cong; auto.
    assert (G1 := Ga m (or_introl eq_refl)). assert (G2 := Gb n (or_introl eq_refl)). apply E in G2. unfold op_of in G1, G2. rewrite O1 in G1.
    destruct (same_rotation_coset h _ _ _ T G2 G1) as (u & I & C). rewrite LPh in I. destruct I as [<- | []].
    clear - C. destruct C as ((k1 & K1) & (k2 & K2) & (k3 & K3)). unfold vsub in *. cbn [vx vy vz v0] in *.
    split; [exists k1; lia | split; [exists k2; lia | exists k3; lia]].
  - apply IH; auto.
    + intros x I. apply Sa. now right.
    + intros x I. apply Ga. now right.
    + intros x I. apply Sb. now right.
    + intros x I. apply Gb. now right.
Qed.
(** with a different table the order may be different: P 3* 2' and P 2' 3* are the same group *)
Definition sym_3star (a : rot_axis) : msym := MS false F3 SubNone Asterisk a None.
Definition sym_2quote : msym := MS false F2 SubNone SingleQuote AxZ None.
Theorem C69_order_depends_on_first_symbol :
  exists h h' a b, try_from_str "P 3* 2'" = Done (Some h) /\ try_from_str "P 2' 3*" = Done (Some h') /\
    general_positions 10 h = Done a /\ general_positions 10 h' = Done b /\
    no_extra_translations h /\ no_extra_translations h' /\
    (forall o, hall_group h o <-> hall_group h' o) /\ map rot (gp_core a) <> map rot (gp_core b).
Proof.
  destruct (case_spec "P 3* 2'" 6) as (h & a & E & A & T & _); [vm_compute; reflexivity |].
  destruct (case_spec "P 2' 3*" 6) as (h' & b & E' & B & T' & _); [vm_compute; reflexivity |].
  exists h, h', a, b. split; [exact E |]. split; [exact E' |]. split; [exact A |]. split; [exact B |]. split; [exact T |]. split; [exact T' |].
  assert (Q : try_from_str "P 3* 2'" = Done (Some (Hall (LS false LP) [sym_3star AxZ; sym_2quote] v0))) by (vm_compute; reflexivity).
  assert (Q' : try_from_str "P 2' 3*" = Done (Some (Hall (LS false LP) [sym_2quote; sym_3star AxOmitted] v0))) by (vm_compute; reflexivity).
  rewrite Q in E. rewrite Q' in E'. apply done_some_inj in E, E'. subst h h'. clear Q Q'. split.
  - assert (S3 : forall x y, seitz_matrix (sym_3star x) = seitz_matrix (sym_3star y)) by (intros [] []; reflexivity).
    intros o; split; apply generated_mono; intros g [G | [G | (ms & m & I & S & ->)]]; apply gen_base.
    + left; exact G. + right; left; exact G.
    + right; right. destruct I as [<- | [<- | []]]; [exists (sym_3star AxOmitted), m | exists sym_2quote, m];
        (split; [cbn; tauto |]); (split; [rewrite <- S; first [apply S3 | reflexivity] | reflexivity]).
    + left; exact G. + right; left; exact G.
    + right; right. destruct I as [<- | [<- | []]]; [exists sym_2quote, m | exists (sym_3star AxZ), m];
        (split; [cbn; tauto |]); (split; [rewrite <- S; first [apply S3 | reflexivity] | reflexivity]).
  - assert (K : match general_positions 10 (Hall (LS false LP) [sym_3star AxZ; sym_2quote] v0), general_positions 10 (Hall (LS false LP) [sym_2quote; sym_3star AxOmitted] v0) with
      | Done a, Done b => meqb (nth 3 (map rot (gp_core a)) I3) (nth 3 (map rot (gp_core b)) I3) | _, _ => true end = false) by (vm_compute; reflexivity).
    rewrite A, B in K. intros C. rewrite C, meqb_refl in K. discriminate.
Qed.
(** ** Centrosymmetric trigonal and hexagonal groups: the second half of the list is the first
    half followed by the inversion, in the same order *)
Definition by_halves (l : list mat3) : Prop :=
  exists first second, l = first ++ second /\ second = map mopp first.
Definition halves_check (l : list mat3) : bool :=
  let k := Nat.div2 (length l) in
  (fix same (a b : list mat3) := match a, b with [], [] => true | x :: a, y :: b => meqb x y && same a b | _, _ => false end)
    (skipn k l) (map mopp (firstn k l)).
Lemma halves_check_spec l : halves_check l = true -> by_halves l.
Proof.
  intros H. exists (firstn (Nat.div2 (length l)) l), (skipn (Nat.div2 (length l)) l). split; [now rewrite firstn_skipn |].
  unfold halves_check in H. revert H. generalize (skipn (Nat.div2 (length l)) l) (map mopp (firstn (Nat.div2 (length l)) l)).
  induction l0 as [| x a IH]; intros [| y b] H; try discriminate; [reflexivity |].
  apply andb_true_iff in H. destruct H as [A B]. apply meqb_eq in A. subst. f_equal. auto.
Qed.
Lemma filter_select (f : mat3 -> bool) : forall G s, (forall i R, nth_error G i = Some R -> mem s i = f R) -> filter f G = select s G.
Proof.
  unfold mem. induction G as [| x G IH]; intros s H; [destruct s; reflexivity |]. cbn [filter].
  pose proof (H 0%nat x eq_refl) as H0. destruct s as [| b s]; cbn in H0.
  - rewrite <- H0. rewrite (IH []); [reflexivity |]. intros i R E. specialize (H (S i) R E). destruct i; exact H.
  - rewrite <- H0. cbn [select]. rewrite (IH s); [reflexivity |]. intros i R E. exact (H (S i) R E).
Qed.
Definition subgroups_24 : list (list nat * mset) := Eval vm_compute in all_subgroups (table_rotations order_24).
Definition subgroups_12 : list (list nat * mset) := Eval vm_compute in all_subgroups (table_rotations order_12).
Lemma enough_24 : enough (table_of (table_rotations order_24)) (index_of I3 (table_rotations order_24)) subgroups_24 = true.
Proof. vm_cast_no_check (@eq_refl bool true). Qed.
Lemma enough_12 : enough (table_of (table_rotations order_12)) (index_of I3 (table_rotations order_12)) subgroups_12 = true.
Proof. vm_cast_no_check (@eq_refl bool true). Qed.
Definition halved (T : list mat3) (L : list (list nat * mset)) : bool :=
  forallb (fun p => implb (meqb_in (mopp I3) (select (snd p) T)) (halves_check (select (snd p) T))) L.
Lemma halved_24 : halved (table_rotations order_24) subgroups_24 = true.
Proof. vm_cast_no_check (@eq_refl bool true). Qed.
Lemma halved_12 : halved (table_rotations order_12) subgroups_12 = true.
Proof. vm_cast_no_check (@eq_refl bool true). Qed.
Lemma halves_generic T L : enough (table_of T) (index_of I3 T) L = true -> halved T L = true -> mats_nodup T = true -> meqb_in I3 T = true ->
  forall rs, rs = filter (fun R => meqb_in R rs) T -> In I3 rs -> (forall A B, In A rs -> In B rs -> In (mmul A B) rs) ->
  In (mopp I3) rs -> by_halves rs.
Proof.
  intros E H N I rs Ef Ie M J. apply meqb_in_spec in I. apply mats_nodup_spec in N.
  assert (Sub : forall R, In R rs -> In R T).
  { intros R K. rewrite Ef in K. apply filter_In in K. tauto. }
  destruct (closed_sets_listed T L E I rs Sub Ie M) as (p & Hp & K).
  unfold halved in H. rewrite forallb_forall in H. specialize (H p Hp).
  assert (Es : rs = select (snd p) T).
  { rewrite Ef. apply filter_select. intros i R Ei. apply eq_true_iff_eq. rewrite meqb_in_spec, K, select_in. split.
    - intros Mi. eauto.
    - intros (j & Mj & Ej). assert (j = i); [| congruence]. apply (proj1 (NoDup_nth_error T) N); [apply nth_error_Some |]; congruence. }
  rewrite <- Es in H. apply meqb_in_spec in J. rewrite J in H. apply halves_check_spec, H.
Qed.
Theorem C69_centrosymmetric_by_halves :
  forall fuel h g first rest, general_positions fuel h = Done g -> no_extra_translations h -> h_syms h = first :: rest ->
    (ms_fold first = F3 \/ ms_fold first = F6) ->
    (exists m, In m (gp_core g) /\ rot m = mopp I3) ->
    by_halves (map rot (gp_core g)).
Proof.
  intros fuel h g first rest H T Es F (mi & Imi & Emi).
  pose proof (core_order _ _ _ _ _ H T Es) as O. set (rs := map rot (gp_core g)) in *.
  destruct (C27_one_position_per_rotation _ _ _ H T) as [_ J]. fold rs in J.
  assert (Ie : In I3 rs) by (apply J; exists v0; constructor 1).
  assert (M : forall A B, In A rs -> In B rs -> In (mmul A B) rs).
  { intros A B IA IB. apply J in IA, IB. destruct IA as (t & GA), IB as (u & GB). apply J.
    exists (snd (op_comp (A, t) (B, u))). exact (gen_comp _ _ _ GA GB). }
  assert (Im : In (mopp I3) rs) by (subst rs; rewrite <- Emi; apply in_map, Imi).
  assert (Et : table_for first = order_24 \/ table_for first = order_12).
  { unfold table_for. destruct F as [-> | ->]; cbn; auto. destruct (ms_diag first); auto. }
  destruct Et as [Et | Et]; rewrite Et in O.
  - exact (halves_generic _ _ enough_24 halved_24 eq_refl eq_refl rs O Ie M Im).
  - exact (halves_generic _ _ enough_12 halved_12 eq_refl eq_refl rs O Ie M Im).
Qed.
(** not so for the other systems: -P 4 *)
Theorem C69_by_halves_refuted :
  exists h g, try_from_str "-P 4" = Done (Some h) /\ general_positions 10 h = Done g /\ no_extra_translations h /\
    (exists m, In m (gp_core g) /\ rot m = mopp I3) /\ ~ by_halves (map rot (gp_core g)).
Proof.
  destruct (case_spec "-P 4" 8) as (h & g & E & G & T & _); [vm_compute; reflexivity |].
  exists h, g. split; [exact E |]. split; [exact G |]. split; [exact T |].
  assert (K : match try_from_str "-P 4" with Done (Some h) => match general_positions 10 h with Done g =>
    Nat.eqb (length (map rot (gp_core g))) 8 && meqb_in (mopp I3) (map rot (gp_core g)) &&
    negb (meqb (nth 4 (map rot (gp_core g)) I3) (mopp (nth 0 (map rot (gp_core g)) I3))) | _ => false end | _ => false end = true) by (vm_compute; reflexivity).
  rewrite E, G in K. rewrite !andb_true_iff in K. destruct K as ((K1 & K2) & K3). split.
  - apply meqb_in_spec, in_map_iff in K2. destruct K2 as (m & A & B). eauto.
  - intros (u & v & S & ->). rewrite S in K1, K3. apply Nat.eqb_eq in K1. rewrite app_length, map_length in K1.
    destruct u as [| u0 [| u1 [| u2 [| u3 [| u4 u]]]]]; cbn [List.length] in K1; try lia.
    cbn [app map nth] in K3. rewrite meqb_refl in K3. discriminate.
Qed.
(** cases that meet the hypotheses: number 166 (by halves) and two primitive symbols of one group *)
Example C69_case : exists h g, try_from_str "-R 3 2""" = Done (Some h) /\ general_positions 10 h = Done g /\ no_extra_translations h /\
  by_halves (map rot (gp_core g)) /\ num_of_general_pos g = 12%nat.
Proof.
  destruct (case_spec "-R 3 2""" 12) as (h & g & E & G & T & N); [vm_compute; reflexivity |].
  exists h, g. split; [exact E |]. split; [exact G |]. split; [exact T |]. split; [| exact N].
  assert (K : match try_from_str "-R 3 2""" with Done (Some h) => match general_positions 10 h with Done g =>
     halves_check (map rot (gp_core g)) | _ => false end | _ => false end = true) by (vm_compute; reflexivity).
  rewrite E, G in K. apply halves_check_spec, K.
Qed.
Definition ac_ab (l : list msym) : hall := Hall (LS false LP) l v0.
Definition sym_2ac : msym := MS false F2 SubNone DiagNone AxZ (Some [TA; TC]).
Definition sym_2ab : msym := MS false F2 SubNone DiagNone AxX (Some [TA; TB]).
Example C69_identical_case : exists h h' a b, try_from_str "P 2ac 2ab" = Done (Some h) /\ try_from_str "P 2ac 2ab 2zac" = Done (Some h') /\
  general_positions 10 h = Done a /\ general_positions 10 h' = Done b /\ no_extra_translations h /\ no_extra_translations h' /\
  (forall o, hall_group h o <-> hall_group h' o) /\ num_of_general_pos a = 4%nat.
Proof.
  destruct (case_spec "P 2ac 2ab" 4) as (h & a & E & A & T & N); [vm_compute; reflexivity |].
  destruct (case_spec "P 2ac 2ab 2zac" 4) as (h' & b & E' & B & T' & _); [vm_compute; reflexivity |].
  exists h, h', a, b. split; [exact E |]. split; [exact E' |]. split; [exact A |]. split; [exact B |]. split; [exact T |]. split; [exact T' |].
  split; [| exact N].
  assert (Q : try_from_str "P 2ac 2ab" = Done (Some (ac_ab [sym_2ac; sym_2ab]))) by (vm_compute; reflexivity).
  assert (Q' : try_from_str "P 2ac 2ab 2zac" = Done (Some (ac_ab [sym_2ac; sym_2ab; sym_2ac]))) by (vm_compute; reflexivity).
  rewrite Q in E. rewrite Q' in E'. apply done_some_inj in E, E'. subst h h'.
  apply C52_symbol_order_irrelevant; [reflexivity | reflexivity |]. intros ms. cbn. tauto.
Qed.

(** The rows of the tables in signed axis numbers: ±1, ±2, ±3 for ±x, ±y, ±z and ±4 for ±(x - y),
    written out again from /repo/src/database/sym_ops_order.rs:2-43. *)
Definition axis_row (n : Z) : vec3 :=
  let s := Z.sgn n in
  match Z.abs n with
  | 1 => V3 s 0 0 | 2 => V3 0 s 0 | 3 => V3 0 0 s | _ => V3 s (- s) 0
  end.
Definition axis_rotation (r : Z * Z * Z) : mat3 :=
  let '(a, b, c) := r in
  let ra := axis_row a in let rb := axis_row b in let rc := axis_row c in
  M3 (vx ra) (vy ra) (vz ra) (vx rb) (vy rb) (vz rb) (vx rc) (vy rc) (vz rc).
(** C69: the three orders, row by row *)
Theorem C69_order_tables :
  table_rotations order_48 = map axis_rotation [
     (1, 2, 3); (-1, -2, 3); (3, 1, 2); (3, -1, -2); (-3, -1, 2); (-3, 1, -2); (2, 3, 1); (-2, 3, -1); (2, -3,
     -1); (-2, -3, 1); (-2, 1, 3); (2, -1, 3); (1, 3, -2); (-1, 3, 2); (2, -1, -3); (-2, 1, -3); (-1, 2, -3);
     (1, -2, -3); (1, -2, 3); (-1, 2, 3); (2, 1, -3); (-2, -1, -3); (-1, -3, -2); (1, -3, 2); (3, 2, -1); (3,
     -2, 1); (-3, 2, 1); (-3, -2, -1); (-1, -2, -3); (1, 2, -3); (-3, -1, -2); (-3, 1, 2); (3, 1, -2); (3, -1,
     2); (-2, -3, -1); (2, -3, 1); (-2, 3, 1); (2, 3, -1); (-2, -1, 3); (2, 1, 3); (-1, -3, 2); (1, -3, -2);
     (1, 3, 2); (-1, 3, -2); (-3, -2, 1); (-3, 2, -1); (3, -2, -1); (3, 2, 1) ] /\
  table_rotations order_24 = map axis_rotation [
     (1, 2, 3); (-2, 4, 3); (-4, -1, 3); (-1, -2, 3); (2, -4, 3); (4, 1, 3); (2, 1, -3); (4, -2, -3); (-1, -4,
     -3); (-2, -1, -3); (-4, 2, -3); (1, 4, -3); (-1, -2, -3); (2, -4, -3); (4, 1, -3); (1, 2, -3); (-2, 4,
     -3); (-4, -1, -3); (-2, -1, 3); (-4, 2, 3); (1, 4, 3); (2, 1, 3); (4, -2, 3); (-1, -4, 3) ] /\
  table_rotations order_12 = map axis_rotation [
     (1, 2, 3); (3, 1, 2); (2, 3, 1); (-3, -2, -1); (-2, -1, -3); (-1, -3, -2); (-1, -2, -3); (-3, -1, -2);
     (-2, -3, -1); (3, 2, 1); (2, 1, 3); (1, 3, 2) ].
Proof. vm_compute. repeat split. Qed.

