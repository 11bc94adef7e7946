(** * PropTableGroups: properties C31, C32, C42, C43, C48: the groups of the table rows. *)
From Verif Require Import Base Notations Parser Seitz F64 Jones Rotations Tables Generate Positions Lookup
  Spec SpecHall SpecTables Algebra PropSeitz PropSymbols GenFacts PropGenerate GroupCheck PropFullSets PropShift
  PropTables.
From Verif Require Export RowData.
Open Scope Z_scope.
Local Notation length := List.length.

(** ** Support *)
Fixpoint nat_list_eqb (a b : list nat) : bool :=
  match a, b with
  | [], [] => true
  | x :: a', y :: b' => Nat.eqb x y && nat_list_eqb a' b'
  | _, _ => false
  end.
Lemma nat_list_eqb_eq a b : nat_list_eqb a b = true -> a = b.
Proof.
  revert b. induction a as [| x a IH]; destruct b as [| y b]; simpl; try discriminate; auto.
  intros H. apply andb_true_iff in H. destruct H as [H1 H2]. apply Nat.eqb_eq in H1. f_equal; auto.
Qed.
Definition group_row_check (label : string) (p : hall * list seitz) : bool :=
  match class_of_number (leading_number label) with
  | Some c =>
      group_check (fst p) (snd p) && nat_list_eqb (census_of (map rot (snd p))) c
      && Nat.eqb (length (snd p)) (census_order c)
  | None => false
  end.
Definition row_check (label s : string) : bool :=
  match row_group s with Some p => group_row_check label p | None => false end.
(** what C31 and C32 say about one row *)
Definition row_correct (label s : string) : Prop :=
  exists h g c, try_from_str s = Done (Some h) /\
    class_of_number (leading_number label) = Some c /\
    (forall fuel, (10 <= fuel)%nat -> general_positions fuel h = Done g) /\
    no_extra_translations h /\
    census_of (map rot (gp_core g)) = c /\
    num_of_general_pos g = census_order c /\
    (forall a b, listed g a -> listed g b -> exists c, listed g c /\ sz_eqb (sz_mul a b) c = true) /\
    (forall a, listed g a -> exists b, listed g b /\ sz_eqb (sz_mul a b) sz_identity = true).
Lemma row_group_spec s h core : row_group s = Some (h, core) ->
  exists g, try_from_str s = Done (Some h) /\ general_positions 10 h = Done g /\ gp_core g = core.
Proof.
  unfold row_group. destruct (try_from_str s) as [[h'|] | |]; try discriminate.
  destruct (general_positions 10 h') as [g | |] eqn:G; try discriminate.
  intros H. injection H as <- <-. eauto.
Qed.
Lemma row_check_sound label s : row_check label s = true -> row_correct label s.
Proof.
  unfold row_check, group_row_check. destruct (row_group s) as [[h core]|] eqn:R; [| discriminate]. cbn [fst snd].
  destruct (class_of_number (leading_number label)) as [c|] eqn:C; [| discriminate].
  intros H. rewrite !andb_true_iff in H. destruct H as ((H1 & H2) & H3).
  destruct (row_group_spec _ _ _ R) as (g & E & G & Ec). subst core.
  assert (T := ck_no_extra _ _ H1). destruct (C34_full_sets_group _ _ _ G T) as (_ & P & I).
  exists h, g, c. split; auto. split; auto. split.
  { intros fuel L. rewrite (C29_fuel_irrelevant 10 fuel h); auto. congruence. }
  split; auto. split; [apply nat_list_eqb_eq; auto |]. split; [apply Nat.eqb_eq; auto |]. split; auto.
  intros a La. destruct (I a La) as (b & Lb & K & _). eauto.
Qed.
Definition rows_check (labels halls : list string) : bool :=
  forallb (fun p => row_check (fst p) (snd p)) (combine labels halls).
Lemma nth_error_combine {A B} (l : list A) (l' : list B) i a b :
  nth_error l i = Some a -> nth_error l' i = Some b -> In (a, b) (combine l l').
Proof.
  revert l' i. induction l; intros [| ] [| ] H1 H2; simpl in *; try discriminate; auto.
  - left. congruence. - right. eapply IHl; eauto.
Qed.
Lemma rows_check_sound labels halls : rows_check labels halls = true ->
  forall i label s, nth_error labels i = Some label -> nth_error halls i = Some s -> row_correct label s.
Proof.
  intros H i label s Hl Hs. unfold rows_check in H. rewrite forallb_forall in H.
  apply row_check_sound. apply (H (label, s)). eapply nth_error_combine; eauto.
Qed.
Lemma full_rows_ok : rows_check full_number full_hall = true.
Proof.
  refine (rows_by_data group_row_check full_hall full_groups full_groups_ok full_number _).
  vm_cast_no_check (@eq_refl bool true).
Qed.
Lemma default_rows_ok : rows_check default_number default_hall = true.
Proof.
  refine (rows_by_data group_row_check default_hall default_groups default_groups_ok default_number _).
  vm_cast_no_check (@eq_refl bool true).
Qed.

(** ** C31, C32 *)
Theorem C31_every_variant_gives_its_crystal_class :
  forall v, is_variant v -> exists label s h,
    variant_number v = Some label /\ variant_hall v = Some s /\ notation_of_variant v = Done h /\
    try_from_str s = Done (Some h) /\ row_correct label s.
Proof.
  intros v Hv. change (v < 530)%nat in Hv.
  destruct (C37_full_index_defined v) as (A & _ & B).
  destruct (proj2 A Hv) as (s & Hs). destruct (proj2 B Hv) as (label & Hl).
  assert (R := rows_check_sound _ _ full_rows_ok v label s Hl Hs).
  destruct R as (h & g & c & E & R). exists label, s, h.
  split; auto. split; auto. split; [unfold notation_of_variant, variant_hall; rewrite Hs, E; reflexivity |].
  split; auto. exists h, g, c. auto.
Qed.
Theorem C32_every_default_row_gives_its_crystal_class :
  forall i label s, get_space_group_number default_table i = Some label ->
    get_hall_symbol default_table i = Some s -> row_correct label s.
Proof. intros i label s. exact (rows_check_sound _ _ default_rows_ok i label s). Qed.

(** ** Comparing groups *)
Lemma in_latb_complete l v : in_lat l v -> in_latb l v = true.
Proof.
  intros (u & Hu & (X & Y & Z)). apply existsb_exists. exists u. split; auto.
  apply vforall_true. unfold vsub; cbn [vx vy vz].
  apply cong12_mod in X, Y, Z. rewrite !Z.eqb_eq.
  repeat split; rewrite Zminus_mod; [rewrite X | rewrite Y | rewrite Z]; rewrite Z.sub_diag; reflexivity.
Qed.
Lemma in_coreb_complete l core o : in_core l core o -> in_coreb l core (fst o) (snd o) = true.
Proof.
  intros (m & Hm & R & L). apply existsb_exists. exists m. split; auto.
  rewrite R, meqb_refl, in_latb_complete; auto.
Qed.
Fixpoint all_in (l : lattice) (big small : list seitz) : bool :=
  match small with
  | [] => true
  | m :: r => if in_coreb l big (rot m) (tra m) then all_in l big r else false
  end.
Definition lattice_eqb (a b : lattice) : bool :=
  match a, b with
  | LP, LP | LA, LA | LB, LB | LC, LC | LI, LI | LR, LR | LF, LF => true | _, _ => false end.
Definition groups_eqb (a b : hall * list seitz) : bool :=
  if lattice_eqb (ls_char (h_lat (fst a))) (ls_char (h_lat (fst b))) then
    if all_in (ls_char (h_lat (fst a))) (snd b) (snd a)
    then all_in (ls_char (h_lat (fst a))) (snd a) (snd b) else false
  else false.
Definition same_group (h h' : hall) : Prop := forall o, hall_group h o <-> hall_group h' o.
(** core list of positions together with what makes it the whole group *)
Definition certified (p : hall * list seitz) : Prop :=
  group_check (fst p) (snd p) = true /\ forall m, In m (snd p) -> hall_group (fst p) (op_of m).
Lemma all_in_true l big small : all_in l big small = true ->
  forall m, In m small -> in_coreb l big (rot m) (tra m) = true.
Proof.
  induction small as [| x s IH]; simpl; [tauto |].
  destruct (in_coreb l big (rot x) (tra x)) eqn:E; [| discriminate].
  intros H m [<- | Hm]; auto.
Qed.
Lemma all_in_false l big small : all_in l big small = false ->
  exists m, In m small /\ in_coreb l big (rot m) (tra m) = false.
Proof.
  induction small as [| x s IH]; simpl; [discriminate |].
  destruct (in_coreb l big (rot x) (tra x)) eqn:E; [| eauto].
  intros H. destruct (IH H) as (m & ? & ?). eauto.
Qed.
Lemma lattice_eqb_eq a b : lattice_eqb a b = true <-> a = b.
Proof. destruct a, b; simpl; split; congruence. Qed.
Lemma centring_determines a b :
  (forall v, centring a v <-> centring b v) -> a = b.
Proof.
  intros H.
  assert (K1 : forallb (in_latb b) (translations a) = true).
  { apply forallb_forall. intros v Hv. apply in_latb_complete. apply (H v). apply in_lat_in, Hv. }
  assert (K2 : forallb (in_latb a) (translations b) = true).
  { apply forallb_forall. intros v Hv. apply in_latb_complete. apply (H v). apply in_lat_in, Hv. }
  destruct a, b; try reflexivity; first [discriminate K1 | discriminate K2].
Qed.
Lemma in_core_group p l o : certified p -> ls_char (h_lat (fst p)) = l -> in_core l (snd p) o -> hall_group (fst p) o.
Proof.
  intros [_ C] <- (m & Hm & R & L). destruct o as [Q t]. cbn [fst snd] in *. subst Q.
  apply (hall_group_coset _ _ (tra m)); auto. apply (C m Hm).
Qed.
Lemma groups_eqb_spec a b : certified a -> certified b ->
  (groups_eqb a b = true <-> same_group (fst a) (fst b)).
Proof.
  intros Ca Cb. unfold groups_eqb.
  destruct (lattice_eqb _ _) eqn:L.
  - apply lattice_eqb_eq in L. set (l := ls_char (h_lat (fst a))) in *.
    assert (Sub : forall x y, certified x -> certified y -> ls_char (h_lat (fst x)) = l -> ls_char (h_lat (fst y)) = l ->
              all_in l (snd y) (snd x) = true -> forall o, hall_group (fst x) o -> hall_group (fst y) o).
    { intros x y Cx Cy Lx Ly A o G. destruct Cx as [Ck _]. apply (ck_group _ _ Ck) in G.
      destruct G as (m & Hm & R & La). rewrite Lx in La.
      assert (I := in_coreb_spec _ _ _ _ (all_in_true _ _ _ A m Hm)).
      assert (Gy := in_core_group y l (op_of m) Cy Ly I). destruct o as [Q t]; cbn [fst snd] in *; subst Q.
      apply (hall_group_coset _ _ (tra m)); [exact Gy | rewrite Ly; exact La]. }
    assert (Neg : forall x y, certified x -> certified y -> ls_char (h_lat (fst y)) = l ->
              all_in l (snd y) (snd x) = false -> exists o, hall_group (fst x) o /\ ~ hall_group (fst y) o).
    { intros x y [_ Cx] [Ck _] Ly A. destruct (all_in_false _ _ _ A) as (m & Hm & F).
      exists (op_of m). split; auto. intros G. apply (ck_group _ _ Ck) in G. rewrite Ly in G.
      apply in_coreb_complete in G. cbn [op_of fst snd] in G. congruence. }
    destruct (all_in l (snd b) (snd a)) eqn:A.
    + destruct (all_in l (snd a) (snd b)) eqn:B.
      * split; auto. intros _ o. split; [apply (Sub a b) | apply (Sub b a)]; auto.
      * split; [discriminate |]. intros S. exfalso.
        destruct (Neg b a Cb Ca eq_refl B) as (o & G & N). apply N, S, G.
    + split; [discriminate |]. intros S. exfalso.
      destruct (Neg a b Ca Cb (eq_sym L) A) as (o & G & N). apply N, S, G.
  - split; [discriminate |]. intros S. exfalso.
    assert (E : ls_char (h_lat (fst a)) = ls_char (h_lat (fst b))).
    { apply centring_determines. intros v.
      assert (Q : forall p, certified p -> (centring (ls_char (h_lat (fst p))) v <-> hall_group (fst p) (I3, v))).
      { intros p [Ck _]. split; [apply hall_group_lat |]. apply (ck_no_extra _ _ Ck). }
      rewrite (Q a Ca), (Q b Cb). apply S. }
    apply lattice_eqb_eq in E. congruence.
Qed.
Lemma row_certified s p : row_group s = Some p -> group_check (fst p) (snd p) = true -> certified p.
Proof.
  intros R C. destruct p as [h core]. cbn [fst snd] in *. split; auto.
  destruct (row_group_spec _ _ _ R) as (g & _ & G & <-).
  intros m Hm. apply (C25_positions_sound _ _ _ G m Hm).
Qed.
Lemma rows_certified labels halls : rows_check labels halls = true -> length labels = length halls ->
  forall s, In s halls -> exists p, row_group s = Some p /\ certified p.
Proof.
  intros H L s Hs. apply In_nth_error in Hs. destruct Hs as (i & Hi).
  destruct (nth_error labels i) as [label|] eqn:E.
  - unfold rows_check in H. rewrite forallb_forall in H.
    specialize (H (label, s) (nth_error_combine _ _ _ _ _ E Hi)). unfold row_check, group_row_check in H. cbn [fst snd] in H.
    destruct (row_group s) as [[h core]|] eqn:R; [| discriminate]. cbn [fst snd] in H.
    destruct (class_of_number _); [| discriminate]. rewrite !andb_true_iff in H. destruct H as ((H & _) & _).
    exists (h, core). split; auto. eapply row_certified; eauto.
  - apply nth_error_None in E. assert (i < length halls)%nat by (apply nth_error_Some; congruence). lia.
Qed.
Lemma full_certified s : In s full_hall -> exists p, row_group s = Some p /\ certified p.
Proof. apply (rows_certified _ _ full_rows_ok). reflexivity. Qed.
Lemma default_certified s : In s default_hall -> exists p, row_group s = Some p /\ certified p.
Proof. apply (rows_certified _ _ default_rows_ok). reflexivity. Qed.

(** the group denoted by a Hall text *)
Definition text_group (s : string) (o : op) : Prop :=
  exists h, try_from_str s = Done (Some h) /\ hall_group h o.
Definition same_text_group (s s' : string) : Prop := forall o, text_group s o <-> text_group s' o.
Lemma text_group_row s p : row_group s = Some p -> forall o, text_group s o <-> hall_group (fst p) o.
Proof.
  destruct p as [h core]. intros R o. destruct (row_group_spec _ _ _ R) as (g & E & _).
  unfold text_group. split.
  - intros (h' & E' & G). assert (h' = h) by congruence. subst h'. exact G.
  - intros G. exists h. auto.
Qed.
Lemma same_text_row s s' p p' : row_group s = Some p -> row_group s' = Some p' -> certified p -> certified p' ->
  (same_text_group s s' <-> groups_eqb p p' = true).
Proof.
  intros R R' C C'. rewrite groups_eqb_spec; auto. unfold same_text_group, same_group.
  split; intros H o; specialize (H o);
  rewrite (text_group_row _ _ R), (text_group_row _ _ R') in *; exact H.
Qed.

(** ** C42  Default against full table *)
Definition default_differs : list nat :=
  [23; 47; 49; 58; 67; 69; 84; 85; 87; 124; 125; 128; 129; 132; 133; 136; 137; 140; 141;
   200; 202; 221; 223; 226; 227]%nat.
Definition compare_row (i : nat) : bool :=
  match nth_error default_number i, nth_error default_groups i with
  | Some label, Some p =>
      match position (String.eqb label) full_number with
      | Some j =>
          match nth_error full_groups j with
          | Some p' => Bool.eqb (groups_eqb p p') (negb (nat_in i default_differs))
          | _ => false
          end
      | None => false
      end
  | _, _ => false
  end.
Lemma compare_ok : forallb compare_row (seq 0 230) = true.
Proof. vm_cast_no_check (@eq_refl bool true). Qed.
Lemma compare_row_ok i : (i < 230)%nat -> compare_row i = true.
Proof.
  intros Hi. apply (proj1 (forallb_forall compare_row (seq 0 230)) compare_ok). apply in_seq. lia.
Qed.
Theorem C42_default_agrees_iff :
  forall i, (i < 230)%nat -> exists label s j s',
    get_space_group_number default_table i = Some label /\ get_hall_symbol default_table i = Some s /\
    get_space_group_number full_table j = Some label /\ get_hall_symbol full_table j = Some s' /\
    (same_text_group s s' <-> ~ In i default_differs).
Proof.
  intros i Hi. assert (H := compare_row_ok i Hi). unfold compare_row in H.
  destruct (nth_error default_number i) as [label|] eqn:E1; [| discriminate].
  destruct (nth_error default_groups i) as [p|] eqn:E2'; [| discriminate].
  destruct (position (String.eqb label) full_number) as [j|] eqn:P; [| discriminate].
  destruct (nth_error full_groups j) as [p'|] eqn:E3'; [| discriminate].
  destruct (data_row _ _ default_groups_ok i p E2') as (s & E2 & R).
  destruct (data_row _ _ full_groups_ok j p' E3') as (s' & E3 & R').
  exists label, s, j, s'. split; auto. split; auto. split.
  { apply position_first in P. destruct P as (x & P1 & P2 & _). apply String.eqb_eq in P2. subst x. exact P1. }
  split; auto.
  destruct (default_certified s (nth_error_In _ _ E2)) as (x & Rx & C). replace x with p in C by congruence.
  destruct (full_certified s' (nth_error_In _ _ E3)) as (x' & Rx' & C'). replace x' with p' in C' by congruence.
  rewrite (same_text_row _ _ _ _ R R' C C').
  apply Bool.eqb_prop in H. rewrite H, <- nat_in_In. destruct (nat_in i default_differs); simpl; split; congruence.
Qed.

(** ** C43  Number 24 *)
Theorem C43_number_24_is_23_refuted :
  exists s23 s24 v,
    get_hall_symbol full_table 122 = Some s23 /\ get_space_group_number full_table 122 = Some "23"%string /\
    get_hall_symbol full_table 123 = Some s24 /\ get_space_group_number full_table 123 = Some "24"%string /\
    forall o, text_group s24 (op_conj v o) <-> text_group s23 o.
Proof.
  exists "I 2 2"%string, "I 2ac 2bc"%string, (V3 0 3 3). repeat split; try reflexivity; intros G.
  all: assert (X : exists h core h' core', row_group "I 2 2" = Some (h, core) /\ row_group "I 2ac 2bc" = Some (h', core')
      /\ h_shift h = v0 /\ ls_minus (h_lat h) = false /\ group_check h' core' = true /\
      exists g, general_positions 10 (with_shift (V3 0 3 3) h) = Done g /\
        group_check (with_shift (V3 0 3 3) h) (gp_core g) = true /\
        groups_eqb (with_shift (V3 0 3 3) h, gp_core g) (h', core') = true)
      by (do 4 eexists; split; [vm_compute; reflexivity |]; split; [vm_compute; reflexivity |];
          split; [reflexivity |]; split; [reflexivity |]; split; [vm_compute; reflexivity |];
          eexists; split; [vm_compute; reflexivity |]; split; vm_compute; reflexivity).
  all: destruct X as (h & core & h' & core' & R & R' & Sh & Mi & Ck' & g & Hg & Ck & Q).
  all: assert (C' : certified (h', core')) by (eapply row_certified; eauto).
  all: assert (C : certified (with_shift (V3 0 3 3) h, gp_core g))
        by (split; auto; intros m Hm; exact (proj2 (C25_positions_sound _ _ _ Hg m Hm))).
  all: apply groups_eqb_spec in Q; auto; cbn [fst] in Q.
  all: assert (W : with_shift v0 h = h) by (destruct h; cbn in Sh; subst; reflexivity).
  - apply (text_group_row _ _ R). apply (text_group_row _ _ R') in G. cbn [fst] in *.
    rewrite <- W. apply (C11_group_moves h (V3 0 3 3)); auto. apply Q, G.
  - apply (text_group_row _ _ R) in G. apply (text_group_row _ _ R'). cbn [fst] in *.
    rewrite <- W in G. apply Q. apply C11_group_moves; auto.
Qed.

(** ** C48  Different rows, different groups *)
Definition equal_pairs : list (nat * nat) := [(321, 323); (325, 327); (329, 331)]%nat.
Definition pair_in (i j : nat) : bool :=
  existsb (fun p => if Nat.eqb (fst p) i then Nat.eqb (snd p) j else false) equal_pairs.
(** what the two groups have at a few rotations, to tell most pairs apart quickly *)
Definition probes : list mat3 :=
  [M3 (-1) 0 0 0 (-1) 0 0 0 1; M3 1 0 0 0 (-1) 0 0 0 (-1); mopp I3; M3 (-1) 0 0 0 1 0 0 0 (-1); M3 1 0 0 0 1 0 0 0 (-1);
   M3 1 0 0 0 (-1) 0 0 0 1; M3 (-1) 0 0 0 1 0 0 0 1; M3 0 (-1) 0 1 0 0 0 0 1; M3 0 (-1) 0 1 (-1) 0 0 0 1; M3 0 0 1 1 0 0 0 1 0;
   M3 0 1 0 1 0 0 0 0 (-1); M3 0 (-1) 0 (-1) 0 0 0 0 (-1); M3 0 1 0 1 0 0 0 0 1].
Definition at_rotation (core : list seitz) (R : mat3) : option vec3 :=
  match find (fun m => meqb (rot m) R) core with Some m => Some (tra m) | None => None end.
Fixpoint differ (l : lattice) (ks ks' : list (option vec3)) : bool :=
  match ks, ks' with
  | Some t :: r, Some t' :: r' => if in_latb l (vsub t t') then differ l r r' else true
  | None :: r, None :: r' => differ l r r'
  | [], _ | _, [] => false
  | _, _ => true
  end.
Definition probed : Type := lattice * list (option vec3) * (hall * list seitz).
Definition probe (p : hall * list seitz) : probed := (ls_char (h_lat (fst p)), map (at_rotation (snd p)) probes, p).
Definition probed_eqb (a b : probed) : bool :=
  let '(l, ks, p) := a in let '(l', ks', p') := b in
  if lattice_eqb l l' then if differ l ks ks' then false else groups_eqb p p' else false.
Lemma at_rotation_some p R t : certified p -> at_rotation (snd p) R = Some t -> hall_group (fst p) (R, t).
Proof.
  unfold at_rotation. intros [_ C] H. destruct (find _ _) as [m |] eqn:F; [| discriminate]. apply find_some in F.
  destruct F as (I & E). apply meqb_eq in E. assert (t = tra m) by congruence. subst. exact (C m I).
Qed.
Lemma at_rotation_none p R t : certified p -> at_rotation (snd p) R = None -> ~ hall_group (fst p) (R, t).
Proof.
  unfold at_rotation. intros [Ck _] H G. destruct (find _ _) as [m |] eqn:F; [discriminate |].
  apply (ck_group _ _ Ck) in G. destruct G as (m & I & E & _). pose proof (find_none _ _ F m I) as K. cbv beta in K.
  cbn [fst] in E. rewrite E, meqb_refl in K. discriminate.
Qed.
Lemma differ_sound p p' : certified p -> certified p' -> ls_char (h_lat (fst p)) = ls_char (h_lat (fst p')) -> forall Rs,
  differ (ls_char (h_lat (fst p))) (map (at_rotation (snd p)) Rs) (map (at_rotation (snd p')) Rs) = true ->
  ~ same_group (fst p) (fst p').
Proof.
  intros C C' L Rs D S. induction Rs as [| R Rs IH]; cbn [map differ] in D; [discriminate |].
  destruct (at_rotation (snd p) R) as [t |] eqn:A, (at_rotation (snd p') R) as [t' |] eqn:A'.
  - destruct (in_latb _ (vsub t t')) eqn:I; [exact (IH D) |].
    pose proof (at_rotation_some _ _ _ C A) as G. pose proof (at_rotation_some _ _ _ C' A') as G'. apply S in G'.
    assert (T : hall_group (fst p) (I3, vsub t t')).
    { pose proof (hall_group_unimodular _ _ G') as U. cbn [fst] in U.
      pose proof (gen_inv _ _ (op_inv (R, t')) G' (op_inv_r (R, t') U)) as Gi. pose proof (gen_comp _ _ _ G Gi) as Gc.
      replace (op_comp (R, t) (op_inv (R, t'))) with (I3, vsub t t') in Gc; [exact Gc |].
      unfold op_comp, op_inv. cbn [fst snd]. rewrite minv_r by exact U. f_equal.
      replace (mvmul R (vopp (mvmul (minv R) t'))) with (vopp (mvmul (mmul R (minv R)) t')) by (rewrite mvmul_mmul; generalize (mvmul (minv R) t'); intros; mat_ring).
      rewrite minv_r, mvmul_I by exact U. mat_ring. }
    apply (ck_no_extra _ _ (proj1 C)) in T. apply in_latb_complete in T. congruence.
  - pose proof (at_rotation_some _ _ _ C A) as G. apply S in G. exact (at_rotation_none _ _ _ C' A' G).
  - pose proof (at_rotation_some _ _ _ C' A') as G. apply S in G. exact (at_rotation_none _ _ _ C A G).
  - exact (IH D).
Qed.
Lemma probed_eqb_groups p p' : certified p -> certified p' -> probed_eqb (probe p) (probe p') = groups_eqb p p'.
Proof.
  intros C C'. unfold probed_eqb, probe. destruct (lattice_eqb _ _) eqn:L.
  - destruct (differ _ _ _) eqn:D; [| reflexivity]. apply lattice_eqb_eq in L.
    pose proof (differ_sound p p' C C' L probes D) as N. destruct (groups_eqb p p') eqn:E; [| reflexivity].
    exfalso. apply N, groups_eqb_spec; assumption.
  - unfold groups_eqb. rewrite L. reflexivity.
Qed.
Fixpoint check_against (i : nat) (p : probed) (j : nat) (l : list probed) : bool :=
  match l with
  | [] => true
  | q :: r => if (if probed_eqb p q then pair_in i j else true) then check_against i p (S j) r else false
  end.
Fixpoint check_pairs (i : nat) (l : list probed) : bool :=
  match l with
  | [] => true
  | p :: r => if check_against i p (S i) r then check_pairs (S i) r else false
  end.
Lemma pairs_ok : check_pairs 0 (map probe full_groups) = true.
Proof. vm_cast_no_check (@eq_refl bool true). Qed.
Lemma check_against_sound i p : forall l j, check_against i p j l = true ->
  forall k q, nth_error l k = Some q -> probed_eqb p q = true -> pair_in i (j + k) = true.
Proof.
  induction l as [| q' l IH]; intros j H k q Hk Q; [destruct k; discriminate |].
  cbn [check_against] in H.
  destruct (if probed_eqb p q' then pair_in i j else true) eqn:E; [| discriminate].
  destruct k as [| k].
  - cbn in Hk. injection Hk as <-. rewrite Q in E. rewrite Nat.add_0_r. exact E.
  - cbn in Hk. replace (j + S k)%nat with (S j + k)%nat by lia. exact (IH (S j) H k q Hk Q).
Qed.
Lemma check_pairs_sound : forall l i, check_pairs i l = true ->
  forall a b p q, (a < b)%nat -> nth_error l a = Some p -> nth_error l b = Some q ->
    probed_eqb p q = true -> pair_in (i + a) (i + b) = true.
Proof.
  induction l as [| p' l IH]; intros i H a b p q L Ha Hb Q; [destruct a; discriminate |].
  cbn [check_pairs] in H.
  destruct (check_against i p' (S i) l) eqn:E; [| discriminate].
  destruct b as [| b]; [lia |]. cbn in Hb. destruct a as [| a].
  - cbn in Ha. injection Ha as <-. replace (i + 0)%nat with i by lia. replace (i + S b)%nat with (S i + b)%nat by lia.
    exact (check_against_sound _ _ _ _ E b q Hb Q).
  - cbn in Ha. replace (i + S a)%nat with (S i + a)%nat by lia. replace (i + S b)%nat with (S i + b)%nat by lia.
    exact (IH (S i) H a b p q ltac:(lia) Ha Hb Q).
Qed.
Lemma pairs_at groups : check_pairs 0 (map probe groups) = true ->
  forall a b p q, (a < b)%nat -> nth_error groups a = Some p -> nth_error groups b = Some q ->
    probed_eqb (probe p) (probe q) = true -> pair_in a b = true.
Proof.
  intros H a b p q L Ha Hb. apply (check_pairs_sound _ 0 H a b); auto; rewrite nth_error_map; [rewrite Ha | rewrite Hb]; reflexivity.
Qed.
(** two rows of the full table denote the same set of operations only when their texts are
    equal, which happens for three pairs *)
Theorem C48_rows_denote_different_groups :
  forall i j s s', (i < j)%nat -> get_hall_symbol full_table i = Some s -> get_hall_symbol full_table j = Some s' ->
    (same_text_group s s' <-> In (i, j) equal_pairs) /\ (In (i, j) equal_pairs -> s = s').
Proof.
  intros i j s s' L Hs Hs'. unfold get_hall_symbol in *. cbn [full_table t_hall] in *.
  destruct (full_certified s (nth_error_In _ _ Hs)) as (p & R & C).
  destruct (full_certified s' (nth_error_In _ _ Hs')) as (p' & R' & C').
  destruct (row_data _ _ full_groups_ok i s Hs) as (x & N & Rx). assert (x = p) by congruence. subst x.
  destruct (row_data _ _ full_groups_ok j s' Hs') as (x & N' & Rx'). assert (x = p') by congruence. subst x.
  assert (K := pairs_at _ pairs_ok i j p p' L N N'). rewrite (probed_eqb_groups _ _ C C') in K.
  assert (T : In (i, j) equal_pairs -> s = s').
  { intros [E | [E | [E | []]]]; injection E as <- <-; vm_compute in Hs, Hs'; congruence. }
  split; [| exact T].
  split; [| intros I; rewrite (T I); split; auto].
  rewrite (same_text_row _ _ _ _ R R' C C'). intros Q. specialize (K Q). unfold pair_in in K. apply existsb_exists in K.
  destruct K as ((x, y) & Hx & E). cbn [fst snd] in E.
  destruct (Nat.eqb_spec x i); [| discriminate]. apply Nat.eqb_eq in E. subst. exact Hx.
Qed.
