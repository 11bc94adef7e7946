(** * PropWork: property C75: how long general_positions runs, and how long its result can be. *)
From Coq Require Import Permutation.
From Verif Require Import Base Notations Parser Seitz F64 Jones Rotations Tables Generate Positions
  Spec SpecHall SpecXyz SpecCompat SpecRepeat Algebra PropSeitz PropSymbols GenFacts PropGenerate Restriction PropJones
  PropTermination PropListing PropFullSets PropRepeat PropClass.
Open Scope Z_scope.
Local Notation length := List.length.

(** ** Every round but the last adds at least one operation *)
Lemma gen_loop_rounds lt f : forall st r, gen_loop f lt st = Done r ->
  (length (g_list st) <= length r)%nat /\ gen_loop (S (length r - length (g_list st))) lt st = Done r.
Proof.
  induction f as [| f IH]; intros st r H; [discriminate |]. cbn [gen_loop] in H.
  destruct (Nat.ltb_spec (length (g_list st)) (length (g_list (one_pass lt st)))) as [L | L].
  - destruct (IH _ _ H) as [A B]. split; [lia |].
    replace (S (length r - length (g_list st))) with
      (S (S (length r - length (g_list (one_pass lt st))) + (length (g_list (one_pass lt st)) - length (g_list st) - 1)))%nat by lia.
    cbn [gen_loop]. destruct (Nat.ltb_spec (length (g_list st)) (length (g_list (one_pass lt st)))); [| lia].
    apply (gen_loop_fuel_more _ _ _ _ B). lia.
  - pose proof (Done_eq _ _ H) as <-. split; [lia |]. cbn [gen_loop].
    destruct (Nat.ltb_spec (length (g_list st)) (length (g_list (one_pass lt st)))); [lia | reflexivity].
Qed.
Lemma unsorted_rounds fuel h l : generate_unsorted fuel h = Done l -> generate_unsorted (length l) h = Done l.
Proof.
  intros H0. destruct (generate_unsorted_spec fuel h l H0) as (_ & _ & _ & (rest & El) & _).
  pose proof H0 as H. unfold generate_unsorted in H |- *.
  destruct (max_equiv_pos h) as [n | w |]; cbn [obind] in *; try discriminate H.
  destruct (capacity_limit <? n); [discriminate H |].
  destruct (generators h) as [gs | w |] eqn:Hgs; cbn [obind] in *; try discriminate H.
  destruct (generators_spec h gs Hgs) as (G1 & _ & (r & ->) & _).
  set (lt := translations (ls_char (h_lat h))) in *.
  destruct (gen_loop_rounds _ _ _ _ H) as [A B].
  apply (gen_loop_fuel_more _ _ _ _ B).
  assert (K : (1 <= length (g_list (add_all lt (GS [] []) (sz_identity :: r))))%nat).
  { destruct (add_all_spec (ls_char (h_lat h)) (sz_identity :: r) (GS [] []) (Inv_empty _)) as (_ & _ & C).
    { intros g Hg. destruct (G1 g Hg) as (? & ? & _). auto. }
    destruct (C sz_identity (or_introl eq_refl)) as (m & Hm & _).
    fold lt in Hm. destruct (g_list (add_all lt (GS [] []) (sz_identity :: r))); [destruct Hm | cbn; lia]. }
  change sz_identity with (aff I3 v0) in K. lia.
Qed.

(** ** At most 48 rotation parts *)
Definition preservesb (G R : mat3) : bool := meqb (mmul (mmul (transposed R) G) R) G.
Definition small_list (G1 G2 : mat3) : list mat3 := filter (fun R => preservesb G1 R) (preserving G2).
Lemma small_lengths : (length (small_list I3 I3) <= 48)%nat /\
  forall a, (length (small_list (axis_metric a 0) (axis_metric a 1)) <= 48)%nat.
Proof.
  split; [| intros a; destruct a]; apply Nat.leb_le; vm_cast_no_check (@eq_refl bool true).
Qed.
Lemma compatible_48 h : compatible (h_syms h) ->
  exists S, (length S <= 48)%nat /\ forall R t, hall_group h (R, t) -> In R S.
Proof.
  assert (Q : forall G R, preserves G R -> preservesb G R = true).
  { intros G R E. unfold preservesb. apply meqb_eq. exact E. }
  intros [H | (a & H)].
  - exists (small_list I3 I3). split; [exact (proj1 small_lengths) |]. intros R t G.
    assert (P : preserves I3 R).
    { apply (group_preserves h I3) in G; [exact G |]. intros ms P I E. apply (cubic_kind_preserves ms); auto. }
    apply filter_In. rewrite (Q _ _ P). split; [| reflexivity]. exact (preserving_in I3 R (cubic_unit R P) P).
  - exists (small_list (axis_metric a 0) (axis_metric a 1)). split; [exact (proj2 small_lengths a) |]. intros R t G.
    assert (P : axis_rotation a R).
    { intros c. apply (group_preserves h (axis_metric a c)) in G; [exact G |]. intros ms P I E. apply (hexagonal_kind_preserves a ms); auto. }
    apply filter_In. rewrite (Q _ _ (P 0)). split; [| reflexivity]. exact (preserving_in _ R (axis_unit a R P) (P 1)).
Qed.

(** ** At most 1 + 11 * 11 * 11 operations with the same rotation part *)
Definition zrange11 : list Z := map Z.of_nat (seq 1 11).
Definition cell11 : list vec3 :=
  flat_map (fun x => flat_map (fun y => map (fun z => V3 x y z) zrange11) zrange11) zrange11.
Lemma zrange11_in z : 0 < z < 12 -> In z zrange11.
Proof. intros H. apply in_map_iff. exists (Z.to_nat z). split; [lia | apply in_seq; lia]. Qed.
Lemma cell11_length : length cell11 = (11 * 11 * 11)%nat.
Proof. apply Nat.eqb_eq. vm_compute. reflexivity. Qed.
Lemma cell11_in l v : vbetween 0 12 v -> fully_fractional l v -> In v cell11.
Proof.
  intros (A & B & C) F.
  assert (T : ~ touches_axis (vadd v v0)).
  { apply F. destruct l; cbn; auto. }
  assert (E : vadd v v0 = v) by (destruct v as [x y z]; unfold vadd, v0; cbn [vx vy vz]; f_equal; lia).
  rewrite E in T. unfold touches_axis, cong12 in T.
  apply in_flat_map. exists (vx v). split.
  { apply zrange11_in. split; [| lia]. destruct (Z.eq_dec (vx v) 0) as [X | X]; [| lia]. exfalso. apply T. left. exists 0. lia. }
  apply in_flat_map. exists (vy v). split.
  { apply zrange11_in. split; [| lia]. destruct (Z.eq_dec (vy v) 0) as [X | X]; [| lia]. exfalso. apply T. right; left. exists 0. lia. }
  apply in_map_iff. exists (vz v). split; [destruct v as [x y z]; reflexivity |].
  apply zrange11_in. split; [| lia]. destruct (Z.eq_dec (vz v) 0) as [X | X]; [| lia]. exfalso. apply T. right; right. exists 0. lia.
Qed.
Lemma same_rot_length l ops R :
  (forall m, In m ops -> is_affine m /\ vbetween 0 12 (tra m)) -> NoDup ops -> repeats_ok l ops ->
  (length (filter (same_rot R) ops) <= 1 + 11 * 11 * 11)%nat.
Proof.
  intros A N O. specialize (O R).
  assert (NF : NoDup (filter (same_rot R) ops)) by (apply NoDup_filter; auto).
  assert (AF : forall m, In m (filter (same_rot R) ops) -> is_affine m /\ vbetween 0 12 (tra m) /\ rot m = R).
  { intros m Hm. apply filter_In in Hm. destruct Hm as [Hm E]. destruct (A m Hm) as [A1 A2]. split; [exact A1 |]. split; [exact A2 |].
    unfold same_rot in E. apply meqb_eq in E. auto. }
  destruct (filter (same_rot R) ops) as [| a t]; [cbn; lia |]. cbn [tl length] in *.
  apply le_n_S. rewrite <- cell11_length, <- (map_length tra t). apply NoDup_incl_length.
  - inversion NF as [| x y _ NT E]. subst x y. clear NF N O.
    assert (AT : forall m, In m t -> is_affine m /\ rot m = R) by (intros m Hm; destruct (AF m (or_intror Hm)) as (? & _ & ?); auto).
    clear AF. induction t as [| b t IH]; [constructor |]. inversion NT as [| x y NB NT' E]. subst x y.
    cbn [map]. constructor; [| apply IH; auto; intros m Hm; apply AT; right; auto].
    intros I. apply in_map_iff in I. destruct I as (c & E & Hc). apply NB.
    destruct (AT b (or_introl eq_refl)) as [Ab Rb], (AT c (or_intror Hc)) as [Ac Rc].
    rewrite (affine_aff b Ab), <- E, Rb, <- Rc, <- (affine_aff c Ac). exact Hc.
  - intros v Hv. apply in_map_iff in Hv. destruct Hv as (m & <- & Hm).
    destruct (AF m (or_intror Hm)) as (_ & B & _). apply (cell11_in l); auto.
    exact (proj1 (Forall_forall _ _) O m Hm).
Qed.
Lemma filter_filter_le {A} (p q : A -> bool) l : (length (filter p (filter q l)) <= length (filter p l))%nat.
Proof.
  induction l as [| m l IH]; [reflexivity |]. cbn [filter]. destruct (q m); cbn [filter]; destruct (p m); cbn [length]; lia.
Qed.
Lemma length_by_rot ops : forall S, (forall m, In m ops -> In (rot m) S) -> forall k,
  (forall R, (length (filter (same_rot R) ops) <= k)%nat) -> (length ops <= length S * k)%nat.
Proof.
  intros S. revert ops. induction S as [| R S IH]; intros ops H k K.
  - destruct ops as [| m ops]; [cbn; lia | destruct (H m (or_introl eq_refl))].
  - assert (E : (length ops = length (filter (same_rot R) ops) + length (filter (fun m => negb (same_rot R m)) ops))%nat).
    { clear. induction ops as [| m ops IHo]; [reflexivity |]. cbn [filter]. destruct (same_rot R m); cbn [negb length]; lia. }
    assert (L : (length (filter (fun m => negb (same_rot R m)) ops) <= length S * k)%nat).
    { apply IH.
      - intros m Hm. apply filter_In in Hm. destruct Hm as [Hm N]. apply negb_true_iff in N.
        destruct (H m Hm) as [E' | I]; auto. exfalso. unfold same_rot in N. rewrite E', meqb_refl in N. discriminate.
      - intros R'. etransitivity; [| apply (K R')].
        apply filter_filter_le. }
    specialize (K R). cbn [length]. lia.
Qed.

Lemma unsorted_compatible fuel h l : generate_unsorted fuel h = Done l -> compatible (h_syms h).
Proof.
  intros H. destruct (generate_unsorted_spec fuel h l H) as (_ & _ & _ & _ & _ & _ & V).
  apply (C29_terminates_iff_compatible h V).
  - pose proof H as H'. unfold generate_unsorted in H'.
    rewrite (proj1 (max_equiv_pos_spec h) V) in H'. cbn [obind] in H'.
    destruct (Z.ltb_spec capacity_limit (lattice_equiv_num (h_lat h) * prod_folds (h_syms h))) as [L | L]; [discriminate H' |].
    unfold buffer_fits. unfold lattice_equiv_num, capacity_limit in L.
    destruct (C24_centring_group (ls_char (h_lat h))) as (_&_&_&_&_&E). rewrite E in L.
    destruct (ls_minus (h_lat h)); lia.
  - exists fuel. unfold general_positions, generate_positions. rewrite H. cbn [obind].
    pose proof (sort_not_oof h l). destruct (sort_positions h l); cbn [obind]; congruence.
Qed.
Lemma group_unit h R t : compatible (h_syms h) -> hall_group h (R, t) -> unit_matrix R.
Proof.
  intros [H | (a & H)] G.
  - apply cubic_unit. apply (group_preserves h I3) in G; [exact G |].
    intros ms P I E. apply (cubic_kind_preserves ms); auto.
  - apply (axis_unit a). intros c. apply (group_preserves h (axis_metric a c)) in G; [exact G |].
    intros ms P I E. apply (hexagonal_kind_preserves a ms); auto.
Qed.
(** the most positions any symbol can have *)
Definition most_positions : nat := (48 * (1 + 11 * 11 * 11))%nat.
Lemma unsorted_bounded fuel h l : generate_unsorted fuel h = Done l -> (length l <= most_positions)%nat.
Proof.
  intros H. destruct (generate_unsorted_spec fuel h l H) as (mp & I & G & _ & C & Bs & V).
  destruct (unsorted_rule fuel h l H) as (RO & _).
  pose proof (unsorted_compatible fuel h l H) as CO.
  destruct (compatible_48 h CO) as (S & L & HS).
  transitivity (length S * (1 + 11 * 11 * 11))%nat.
  - apply length_by_rot.
    + intros m Hm. apply (HS (rot m) (tra m)), (G m Hm).
    + intros R. apply (same_rot_length (ls_char (h_lat h))).
      * exact (inv_affine _ _ I). * exact (distinctL_NoDup _ _ (inv_distinct _ _ I)). * exact RO.
  - unfold most_positions. apply Nat.mul_le_mono_r, L.
Qed.

(** ** C75 *)
(** the outer loop runs at most once per position returned: as many rounds as positions are enough *)
Theorem C75_rounds_at_most_positions :
  forall fuel h g, general_positions fuel h = Done g -> general_positions (num_of_general_pos g) h = Done g.
Proof.
  intros fuel h g H. destruct (general_positions_spec _ _ _ H) as (_ & l & Hl & _ & P).
  unfold num_of_general_pos. rewrite <- (Permutation_length P).
  pose proof (unsorted_rounds _ _ _ Hl) as K. unfold general_positions, generate_positions in *.
  rewrite K. rewrite Hl in H. exact H.
Qed.
(** no symbol has more positions than this *)
Theorem C75_positions_bounded :
  forall fuel h g, general_positions fuel h = Done g -> (num_of_general_pos g <= most_positions)%nat.
Proof.
  intros fuel h g H. destruct (general_positions_spec _ _ _ H) as (_ & l & Hl & _ & P).
  unfold num_of_general_pos. rewrite <- (Permutation_length P). exact (unsorted_bounded _ _ _ Hl).
Qed.
(** if that many rounds are not enough, the call never returns *)
Theorem C75_halting_decided :
  forall h, general_positions most_positions h = OutOfFuel -> forall fuel, general_positions fuel h = OutOfFuel.
Proof.
  intros h H fuel. destruct (generate_unsorted fuel h) as [l | w |] eqn:U.
  - pose proof (unsorted_bounded _ _ _ U) as L. pose proof (unsorted_rounds _ _ _ U) as R.
    assert (N : general_positions (length l) h <> OutOfFuel).
    { unfold general_positions, generate_positions. rewrite R. cbn [obind].
      pose proof (sort_not_oof h l). destruct (sort_positions h l); cbn [obind]; congruence. }
    rewrite (C29_fuel_irrelevant _ _ h N L) in H. contradiction.
  - exfalso. unfold general_positions, generate_positions, generate_unsorted in *.
    destruct (max_equiv_pos h) as [n | w' |]; cbn [obind] in *; try discriminate.
    destruct (capacity_limit <? n); [discriminate |].
    destruct (generators h) as [gs | w' |]; cbn [obind] in *; try discriminate.
    exact (gen_loop_no_panic _ _ _ _ U).
  - unfold general_positions, generate_positions. rewrite U. reflexivity.
Qed.
(** without extra translations 48 rounds are enough *)
Theorem C75_48_rounds :
  forall fuel h g, general_positions fuel h = Done g -> no_extra_translations h -> general_positions 48 h = Done g.
Proof.
  intros fuel h g H T. destruct (C68_positions_counted _ _ _ H T) as [_ I].
  pose proof (C75_rounds_at_most_positions _ _ _ H) as K. rewrite <- K. apply C29_fuel_irrelevant; [congruence |].
  cbn [In] in I. lia.
Qed.
(** 48 positions are reached; with extra translations there can be more (68 here, found within 10 rounds) *)
Definition counts (s : string) (n : nat) : bool :=
  match try_from_str s with
  | Done (Some h) => match general_positions 10 h with Done g => Nat.eqb (num_of_general_pos g) n | _ => false end
  | _ => false
  end.
Lemma counts_spec s n : counts s n = true -> exists h g,
  try_from_str s = Done (Some h) /\ general_positions 10 h = Done g /\ num_of_general_pos g = n.
Proof.
  unfold counts. destruct (try_from_str s) as [[h |] | |]; try discriminate.
  destruct (general_positions 10 h) as [g | |] eqn:G; try discriminate. intros E. apply Nat.eqb_eq in E. exists h, g. auto.
Qed.
Example C75_case :
  (exists h g, try_from_str "-P 4 2 3" = Done (Some h) /\ general_positions 10 h = Done g /\
     no_extra_translations h /\ num_of_general_pos g = 48%nat) /\
  (exists h g, try_from_str "P 41 21 1d" = Done (Some h) /\ general_positions 10 h = Done g /\
     ~ no_extra_translations h /\ num_of_general_pos g = 68%nat).
Proof.
  split; [apply case_spec; vm_compute; reflexivity |].
  destruct (counts_spec "P 41 21 1d" 68) as (h & g & E & G & N); [vm_compute; reflexivity |].
  exists h, g. repeat split; auto. intros T. destruct (C68_positions_counted _ _ _ G T) as [_ I]. rewrite N in I.
  cbn [In] in I. lia.
Qed.
(** a symbol that never returns is recognised by the bound *)
Example C75_endless_case : exists h, try_from_str "P 4 3" = Done (Some h) /\ general_positions most_positions h = OutOfFuel.
Proof. destruct C29_a_symbol_that_never_terminates as (h & E & _ & _ & K). exists h. auto. Qed.
