(** * PropTable: property C83: the multiplication table of the listed operations. *)
From Coq Require Import QArith Permutation.
From Verif Require Import Base Notations Parser Seitz F64 Jones Rotations Tables Generate Positions
  Spec SpecHall SpecXyz SpecOrbit Algebra PropSeitz PropSymbols GenFacts PropGenerate PropFullSets PropOrbit.
Open Scope Z_scope.
Local Notation length := List.length.

Lemma index_unique fuel h g : general_positions fuel h = Done g ->
  forall i j a b, nth_error (all_operations g) i = Some a -> nth_error (all_operations g) j = Some b -> same_op a b -> i = j.
Proof.
  intros H i j a b Hi Hj S.
  assert (E : a = b) by (apply (all_unique _ _ _ _ _ H); [eapply nth_error_In; eauto | eapply nth_error_In; eauto | exact S]).
  subst b. apply (proj1 (NoDup_nth_error _) (all_NoDup _ _ _ H)); [| congruence]. apply nth_error_Some. congruence.
Qed.
Lemma listed_at g m : listed g m -> exists i, nth_error (all_operations g) i = Some m.
Proof. intros L. apply listed_all in L. apply In_nth_error, L. Qed.
Lemma at_listed g i m : nth_error (all_operations g) i = Some m -> listed g m.
Proof. intros E. apply listed_all. eapply nth_error_In; eauto. Qed.
Lemma mul_same a b c : is_affine a -> is_affine b ->
  (sz_eqb (sz_mul a b) c = true <-> op_same (op_comp (op_of a) (op_of b)) (op_of c)).
Proof.
  intros Aa Ab. rewrite sz_eqb_same. rewrite (affine_aff a Aa), (affine_aff b Ab), sz_mul_aff.
  unfold same_op, op_same, op_of, op_comp. cbn [rot tra aff fst snd]. split; intros (E & V); (split; [exact E |]).
  - eapply vcong12_trans; [| exact V]. apply vcong12_sym, vcong12_rem.
  - eapply vcong12_trans; [| exact V]. apply vcong12_rem.
Qed.
(** C83: the product of two listed operations is at exactly one place of the list *)
Theorem C83_product_has_one_place :
  forall fuel h g, general_positions fuel h = Done g -> no_extra_translations h ->
    forall i j a b, nth_error (all_operations g) i = Some a -> nth_error (all_operations g) j = Some b ->
      exists! k, exists c, nth_error (all_operations g) k = Some c /\ sz_eqb (sz_mul a b) c = true.
Proof.
  intros fuel h g H T i j a b Ha Hb. apply at_listed in Ha, Hb.
  destruct (C34_full_sets_group fuel h g H T) as (_ & M & _). destruct (M a b Ha Hb) as (c & Lc & E).
  destruct (listed_at g c Lc) as (k & Hk). exists k. split; [exists c; auto |].
  intros k' (c' & Hk' & E'). apply (index_unique _ _ _ H k k' c c' Hk Hk').
  apply sz_eqb_same in E, E'. destruct E as [R V], E' as [R' V']. split; [congruence |].
  eapply vcong12_trans; [apply vcong12_sym, V | exact V'].
Qed.
(** C83: in every row and every column of the table each listed operation stands exactly once: the
    equations a y = c and y a = c have exactly one solution in the list *)
Theorem C83_rows_and_columns :
  forall fuel h g, general_positions fuel h = Done g -> no_extra_translations h ->
    forall i k a c, nth_error (all_operations g) i = Some a -> nth_error (all_operations g) k = Some c ->
      (exists! j, exists b, nth_error (all_operations g) j = Some b /\ sz_eqb (sz_mul a b) c = true) /\
      (exists! j, exists b, nth_error (all_operations g) j = Some b /\ sz_eqb (sz_mul b a) c = true).
Proof.
  intros fuel h g H T i k a c Ha Hc. apply at_listed in Ha, Hc.
  destruct (listed_group _ _ _ _ H Ha) as [Aa Ga], (listed_group _ _ _ _ H Hc) as [Ac Gc].
  pose proof (hall_group_unimodular _ _ Ga) as U.
  assert (Gi : hall_group h (op_inv (op_of a))) by (apply (gen_inv _ (op_of a)); [exact Ga | apply op_inv_r, U]).
  split.
  - destruct (group_listed _ _ _ _ H T (gen_comp _ _ _ Gi Gc)) as (b & Lb & E).
    destruct (listed_at g b Lb) as (j & Hj). exists j. split.
    + exists b. split; [exact Hj |]. destruct (listed_group _ _ _ _ H Lb) as [Ab _]. apply mul_same; auto.
      pose proof (op_same_comp _ _ _ _ (op_same_refl (op_of a)) E) as Q.
      rewrite op_comp_assoc, (op_inv_r _ U), op_comp_id_l in Q. exact Q.
    + intros j' (b' & Hj' & E'). pose proof (at_listed _ _ _ Hj') as Lb'. destruct (listed_group _ _ _ _ H Lb') as [Ab' _].
      apply (index_unique _ _ _ H j j' b b' Hj Hj'). apply (mul_same a b' c Aa Ab') in E'.
      pose proof (op_same_comp _ _ _ _ (op_same_refl (op_inv (op_of a))) E') as Q.
      rewrite op_comp_assoc, (op_inv_l _ U), op_comp_id_l in Q. exact (op_same_trans _ _ _ E (op_same_sym _ _ Q)).
  - destruct (group_listed _ _ _ _ H T (gen_comp _ _ _ Gc Gi)) as (b & Lb & E).
    destruct (listed_at g b Lb) as (j & Hj). exists j. split.
    + exists b. split; [exact Hj |]. destruct (listed_group _ _ _ _ H Lb) as [Ab _]. apply mul_same; auto.
      pose proof (op_same_comp _ _ _ _ E (op_same_refl (op_of a))) as Q.
      rewrite <- op_comp_assoc, (op_inv_l _ U), op_comp_id_r in Q. exact Q.
    + intros j' (b' & Hj' & E'). pose proof (at_listed _ _ _ Hj') as Lb'. destruct (listed_group _ _ _ _ H Lb') as [Ab' _].
      apply (index_unique _ _ _ H j j' b b' Hj Hj'). apply (mul_same b' a c Ab' Aa) in E'.
      pose proof (op_same_comp _ _ _ _ E' (op_same_refl (op_inv (op_of a)))) as Q.
      rewrite <- op_comp_assoc, (op_inv_r _ U), op_comp_id_r in Q. exact (op_same_trans _ _ _ E (op_same_sym _ _ Q)).
Qed.
(** the hypotheses are met by I4_1/a: sixteen operations in two sets; and the table is not one for a
    result that is incomplete: for A 4 some products are not in the list *)
Example C83_cases :
  (exists h g, try_from_str "-I 4ad" = Done (Some h) /\ general_positions 10 h = Done g /\ no_extra_translations h /\ num_of_general_pos g = 8%nat) /\
  (exists h g a b, try_from_str "A 4" = Done (Some h) /\ general_positions 10 h = Done g /\
     In a (all_operations g) /\ In b (all_operations g) /\ forall c, In c (all_operations g) -> sz_eqb (sz_mul a b) c = false).
Proof.
  split; [apply case_spec; vm_compute; reflexivity |].
  set (t := fun (ops : list seitz) => existsb (fun a => existsb (fun b => forallb (fun c => negb (sz_eqb (sz_mul a b) c)) ops) ops) ops).
  assert (Q : match try_from_str "A 4" with Done (Some h) => match general_positions 10 h with Done g => t (all_operations g) | _ => false end | _ => false end = true)
    by (vm_compute; reflexivity).
  destruct (try_from_str "A 4") as [[h |] | |]; try discriminate. destruct (general_positions 10 h) as [g | |] eqn:G; try discriminate.
  apply existsb_exists in Q. destruct Q as (a & Ia & Q). apply existsb_exists in Q. destruct Q as (b & Ib & Q).
  exists h, g, a, b. split; [reflexivity |]. split; [exact G |]. split; [exact Ia |]. split; [exact Ib |].
  intros c Hc. rewrite forallb_forall in Q. apply negb_true_iff, (Q c Hc).
Qed.
