(** * PropSubgroup: property C65: more symbols, larger group; orders divide. *)
From Coq Require Import Permutation.
From Verif Require Import Base Notations Parser Seitz F64 Jones Rotations Tables Generate Positions
  Spec SpecHall SpecOrbit Algebra PropSeitz PropSymbols GenFacts PropGenerate GroupCheck PropFullSets PropOrder PropOrbit.
Open Scope Z_scope.
Local Notation length := List.length.

(** ** Classes of equal size *)
Lemma filter_split {A} (f : A -> bool) l : length l = (length (filter f l) + length (filter (fun x => negb (f x)) l))%nat.
Proof. induction l as [| x l IH]; [reflexivity |]. cbn [filter]. destruct (f x); cbn [negb List.length]; lia. Qed.
Lemma classes_divide {A} (E : A -> A -> bool) (k : nat) : forall n l, (length l <= n)%nat ->
  (forall x, In x l -> E x x = true) ->
  (forall x y, In x l -> In y l -> E x y = true -> E y x = true) ->
  (forall x y z, In x l -> In y l -> In z l -> E x y = true -> E y z = true -> E x z = true) ->
  (forall x, In x l -> length (filter (E x) l) = k) -> exists c, length l = (c * k)%nat.
Proof.
  induction n as [| n IH]; intros l Ln Er Es Et K.
  { exists O. destruct l; [reflexivity | simpl in Ln; lia]. }
  destruct l as [| x l]; [exists O; reflexivity |]. set (L := x :: l) in *.
  assert (Ix : In x L) by (left; reflexivity).
  assert (Fx : (0 < length (filter (E x) L))%nat).
  { assert (I : In x (filter (E x) L)) by (apply filter_In; split; [exact Ix | apply Er, Ix]).
    destruct (filter (E x) L); [destruct I | simpl; lia]. }
  pose proof (filter_split (E x) L) as Sp.
  set (L' := filter (fun y => negb (E x y)) L) in *.
  assert (Sub : forall y, In y L' -> In y L /\ E x y = false).
  { intros y Hy. apply filter_In in Hy. destruct Hy as [A1 A2]. split; [exact A1 | now apply negb_true_iff]. }
  destruct (IH L') as (c & Hc).
  - lia.
  - intros y Hy. apply Er, Sub, Hy.
  - intros y z Hy Hz. apply Es; now apply Sub.
  - intros y z w Hy Hz Hw. apply Et; now apply Sub.
  - intros y Hy. destruct (Sub y Hy) as [Hy1 Hy2]. rewrite <- (K y Hy1).
    assert (Q : forall l0, (forall z, In z l0 -> In z L) ->
      filter (E y) (filter (fun z => negb (E x z)) l0) = filter (E y) l0).
    { induction l0 as [| z l0 IHl]; intros I0; [reflexivity |]. cbn [filter].
      assert (Hz : In z L) by (apply I0; left; reflexivity).
      assert (I1 : forall z, In z l0 -> In z L) by (intros; apply I0; right; assumption).
      destruct (E x z) eqn:E1; cbn [negb].
      - destruct (E y z) eqn:E2; [| apply IHl, I1]. exfalso.
        rewrite (Et x z y Ix Hz Hy1 E1 (Es y z Hy1 Hz E2)) in Hy2. discriminate.
      - cbn [filter]. destruct (E y z); rewrite (IHl I1); reflexivity. }
    unfold L'. rewrite (Q L (fun z Hz => Hz)). reflexivity.
  - exists (S c). rewrite Sp, (K x Ix), Hc. reflexivity.
Qed.

(** ** Cosets *)
Definition op_sameb (a b : op) : bool :=
  meqb (fst a) (fst b) && vforall (fun z => z mod 12 =? 0) (vsub (snd a) (snd b)).
Lemma op_sameb_spec a b : op_sameb a b = true <-> op_same a b.
Proof.
  unfold op_sameb, op_same. rewrite andb_true_iff, meqb_eq, vforall_true, !Z.eqb_eq. unfold vsub, vcong12. cbn [vx vy vz].
  assert (Q : forall x y, (x - y) mod 12 = 0 <-> cong12 x y).
  { intros x y. unfold cong12. rewrite Z.mod_divide by lia. split; intros (k & H); exists k; lia. }
  rewrite !Q. tauto.
Qed.
Definition same_coset (ops : list seitz) (a b : seitz) : bool :=
  existsb (fun s => op_sameb (op_of b) (op_comp (op_of a) (op_of s))) ops.
Lemma same_coset_spec fuel h g a b : general_positions fuel h = Done g -> no_extra_translations h ->
  unimodular (rot a) ->
  (same_coset (all_operations g) a b = true <-> hall_group h (op_comp (op_inv (op_of a)) (op_of b))).
Proof.
  intros H T U. unfold same_coset. rewrite existsb_exists. split.
  - intros (s & Hs & E). apply op_sameb_spec in E. apply listed_all in Hs. destruct (listed_group _ _ _ _ H Hs) as [_ G].
    apply (gen_cell _ (op_of s)); [exact G |]. apply op_same_sym.
    eapply op_same_trans; [apply op_same_comp; [apply op_same_refl | exact E] |].
    rewrite op_comp_assoc, (op_inv_l (op_of a) U), op_comp_id_l. apply op_same_refl.
  - intros G. destruct (group_listed _ _ _ _ H T G) as (s & Ls & E). exists s. split; [apply listed_all, Ls |].
    apply op_sameb_spec, op_same_sym. eapply op_same_trans; [apply op_same_comp; [apply op_same_refl | exact E] |].
    rewrite op_comp_assoc, (op_inv_r (op_of a) U), op_comp_id_l. apply op_same_refl.
Qed.
Lemma hall_inv h o : hall_group h o -> hall_group h (op_inv o).
Proof. intros G. apply (gen_inv _ o); [exact G |]. apply op_inv_r. exact (hall_group_unimodular _ _ G). Qed.
Lemma all_length g : length (all_operations g) = (length (gp_lattice g) * num_of_general_pos g)%nat.
Proof.
  unfold all_operations, derive_full_sets, num_of_general_pos. induction (gp_lattice g) as [| v l IH]; [reflexivity |].
  cbn [map List.concat List.length Nat.mul]. rewrite app_length, map_length, IH. reflexivity.
Qed.

(** ** C65 *)
(** [h'] says at least as much as [h]: same lattice letter and origin, the minus sign if [h]
    has it, and all matrix symbols of [h] in any places *)
Definition extends (h' h : hall) : Prop :=
  ls_char (h_lat h') = ls_char (h_lat h) /\ (ls_minus (h_lat h) = true -> ls_minus (h_lat h') = true) /\
  h_shift h' = h_shift h /\ incl (h_syms h) (h_syms h').
Theorem C65_more_symbols_larger_group :
  forall h h', extends h' h -> forall o, hall_group h o -> hall_group h' o.
Proof.
  intros h h' (L & M & Sh & I) o G. unfold hall_group in *. induction G.
  - constructor 1.
  - constructor 2. destruct H as [(v & Hv & ->) | [(Hm & ->) | (ms & m & Hms & Em & ->)]].
    + left. exists v. rewrite L. auto.
    + right; left. auto.
    + right; right. exists ms, m. rewrite Sh. auto.
  - constructor 3; assumption.
  - eapply gen_inv; eauto.
  - eapply gen_cell; eauto.
Qed.
(** the operations listed for the smaller symbol occur among those listed for the larger one *)
Theorem C65_subgroup_listed :
  forall f h g f' h' g', general_positions f h = Done g -> general_positions f' h' = Done g' ->
    no_extra_translations h' -> (forall o, hall_group h o -> hall_group h' o) ->
    forall m, In m (all_operations g) -> exists m', In m' (all_operations g') /\ sz_eqb m m' = true.
Proof.
  intros f h g f' h' g' H H' T' I m Hm. apply listed_all in Hm. destruct (listed_group _ _ _ _ H Hm) as [_ G].
  destruct (group_listed _ _ _ _ H' T' (I _ G)) as (m' & L & E). exists m'. split; [apply listed_all, L |].
  apply sz_eqb_same. destruct E as [E1 E2]. split; [symmetry; exact E1 | apply vcong12_sym; exact E2].
Qed.
(** Lagrange: the numbers of operations divide *)
Theorem C65_orders_divide :
  forall f h g f' h' g', general_positions f h = Done g -> general_positions f' h' = Done g' ->
    no_extra_translations h -> no_extra_translations h' -> (forall o, hall_group h o -> hall_group h' o) ->
    Nat.divide (length (gp_lattice g) * num_of_general_pos g) (length (gp_lattice g') * num_of_general_pos g').
Proof.
  intros f h g f' h' g' H H' T T' I. rewrite <- !all_length.
  destruct (classes_divide (same_coset (all_operations g)) (length (all_operations g)) _ (all_operations g') (le_n _)) as (c & Hc).
  - intros a Ha. apply listed_all in Ha. destruct (listed_group _ _ _ _ H' Ha) as [_ Ga].
    pose proof (hall_group_unimodular _ _ Ga) as U. apply (same_coset_spec _ _ _ _ _ H T U). rewrite (op_inv_l (op_of a) U). constructor 1.
  - intros a b Ha Hb E. apply listed_all in Ha, Hb. destruct (listed_group _ _ _ _ H' Ha) as [_ Ga], (listed_group _ _ _ _ H' Hb) as [_ Gb].
    pose proof (hall_group_unimodular _ _ Ga) as U. pose proof (hall_group_unimodular _ _ Gb) as V.
    apply (same_coset_spec _ _ _ _ _ H T U) in E. apply (same_coset_spec _ _ _ _ _ H T V).
    apply (gen_inv _ _ _ E). rewrite op_comp_assoc, <- (op_comp_assoc (op_inv (op_of a)) (op_of b)), (op_inv_r (op_of b) V), op_comp_id_r.
    apply (op_inv_l (op_of a) U).
  - intros a b d Ha Hb Hd E F. apply listed_all in Ha, Hb. destruct (listed_group _ _ _ _ H' Ha) as [_ Ga], (listed_group _ _ _ _ H' Hb) as [_ Gb].
    pose proof (hall_group_unimodular _ _ Ga) as U. pose proof (hall_group_unimodular _ _ Gb) as V.
    apply (same_coset_spec _ _ _ _ _ H T U) in E. apply (same_coset_spec _ _ _ _ _ H T V) in F. apply (same_coset_spec _ _ _ _ _ H T U).
    pose proof (gen_comp _ _ _ E F) as C. rewrite op_comp_assoc, <- (op_comp_assoc (op_inv (op_of a)) (op_of b)), (op_inv_r (op_of b) V), op_comp_id_r in C.
    exact C.
  - intros a Ha. pose proof Ha as Ia. apply listed_all in Ha. destruct (listed_group _ _ _ _ H' Ha) as [_ Ga].
    pose proof (hall_group_unimodular _ _ Ga) as U. apply Nat.le_antisymm.
    + apply (inj_le (fun b s => op_same (op_of b) (op_comp (op_of a) (op_of s)))).
      * apply NoDup_filter, (all_NoDup _ _ _ H').
      * intros b Hb. apply filter_In in Hb. destruct Hb as [_ Hb]. unfold same_coset in Hb. apply existsb_exists in Hb.
        destruct Hb as (s & Hs & E). apply op_sameb_spec in E. eauto.
      * intros b b' s Hb Hb' E E'. apply filter_In in Hb, Hb'. apply (all_unique _ _ _ _ _ H' (proj1 Hb) (proj1 Hb')).
        eapply op_same_trans; [exact E | apply op_same_sym, E'].
    + apply (inj_le (fun s b => op_same (op_of b) (op_comp (op_of a) (op_of s)))).
      * apply (all_NoDup _ _ _ H).
      * intros s Hs. pose proof Hs as Is. apply listed_all in Hs. destruct (listed_group _ _ _ _ H Hs) as [_ Gs].
        destruct (group_listed _ _ _ _ H' T' (gen_comp _ _ _ Ga (I _ Gs))) as (b & Lb & E). exists b. split; [| exact E].
        apply filter_In. split; [apply listed_all, Lb |]. unfold same_coset. apply existsb_exists. exists s. split; [exact Is |].
        apply op_sameb_spec, E.
      * intros s s' b Hs Hs' E E'. apply (all_unique _ _ _ _ _ H Hs Hs').
        assert (Q : op_same (op_comp (op_of a) (op_of s)) (op_comp (op_of a) (op_of s')))
          by (eapply op_same_trans; [apply op_same_sym, E | exact E']).
        pose proof (op_same_comp _ _ _ _ (op_same_refl (op_inv (op_of a))) Q) as Q'.
        rewrite !op_comp_assoc, !(op_inv_l (op_of a) U), !op_comp_id_l in Q'. exact Q'.
  - exists c. rewrite Hc. reflexivity.
Qed.
(** with the same centring the numbers of general positions divide *)
Theorem C65_positions_divide :
  forall f h g f' h' g', general_positions f h = Done g -> general_positions f' h' = Done g' ->
    no_extra_translations h' -> extends h' h -> Nat.divide (num_of_general_pos g) (num_of_general_pos g').
Proof.
  intros f h g f' h' g' H H' T' X. pose proof (C65_more_symbols_larger_group h h' X) as I.
  assert (T : no_extra_translations h).
  { intros t G. destruct X as (L & _). rewrite <- L. apply T', I, G. }
  destruct (C65_orders_divide _ _ _ _ _ _ H H' T T' I) as (c & E). exists c.
  destruct (general_positions_spec _ _ _ H) as (L & _). destruct (general_positions_spec _ _ _ H') as (L' & _).
  assert (LL : gp_lattice g' = gp_lattice g) by (destruct X as (X1 & _); rewrite L, L', X1; reflexivity).
  rewrite LL in E.
  assert (N : (0 < length (gp_lattice g))%nat) by (rewrite L; destruct (ls_char (h_lat h)); simpl; lia).
  nia.
Qed.
(** I 4bd inside -I 4bd 2c: 4 of 16 positions *)
Example C65_case : exists h g h' g', try_from_str "I 4bd" = Done (Some h) /\ general_positions 10 h = Done g /\
  try_from_str "-I 4bd 2c" = Done (Some h') /\ general_positions 10 h' = Done g' /\ no_extra_translations h' /\
  extends h' h /\ num_of_general_pos g = 4%nat /\ num_of_general_pos g' = 16%nat.
Proof.
  destruct (case_spec "I 4bd" 4) as (h & g & E & G & T & N); [vm_compute; reflexivity |].
  destruct (case_spec "-I 4bd 2c" 16) as (h' & g' & E' & G' & T' & N'); [vm_compute; reflexivity |].
  exists h, g, h', g'. split; [exact E |]. split; [exact G |]. split; [exact E' |]. split; [exact G' |]. split; [exact T' |].
  split; [| split; [exact N | exact N']].
  clear - E E'. vm_compute in E, E'. apply done_some_inj in E, E'. subst h h'. unfold extends. cbn.
  repeat split; auto. intros x [<- | []]. left. reflexivity.
Qed.
