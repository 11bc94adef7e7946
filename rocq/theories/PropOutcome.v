(** * PropOutcome: property C62: the exact outcome of [general_positions]. *)
From Coq Require Import Permutation.
From Verif Require Import Base Notations Parser Seitz F64 Jones Tables Rotations Generate Positions
  Spec SpecHall SpecXyz SpecCompat SpecOutcome Algebra PropSeitz PropSymbols GenFacts PropGenerate Restriction PropJones
  PropTermination PropCanon.
Open Scope Z_scope.
Local Notation length := List.length.

(** ** Rotations and order tables *)
Definition table_class (ms : msym) (R : mat3) : Prop :=
  match ms_fold ms, ms_diag ms with
  | F6, _ => hexagonal_rotation R
  | F3, Asterisk => rhombohedral_rotation R
  | F3, _ => hexagonal_rotation R
  | _, _ => cubic_rotation R
  end.
Lemma table_lists ms : lists_exactly (table_for ms) (table_class ms).
Proof.
  unfold table_for, table_class. destruct (ms_fold ms), (ms_diag ms); cbn [nfold_eqb diag_eqb];
    first [apply C23_order_48_is_the_cubic_rotations | apply C23_order_24_is_the_hexagonal_rotations
          | apply C23_order_12_is_the_rhombohedral_rotations].
Qed.
Lemma in_first (l : list string) s : In s l -> exists i, nth_error l i = Some s /\ forall j, (j < i)%nat -> nth_error l j <> Some s.
Proof.
  induction l as [| a l IH]; intros H; [destruct H |].
  destruct (string_dec a s) as [-> | N].
  - exists O. split; [reflexivity |]. intros j L. lia.
  - destruct H as [<- | H]; [congruence |]. destruct (IH H) as (i & E & F). exists (S i). split; [assumption |].
    intros [| j] L; cbn [nth_error]; [congruence |]. apply F. lia.
Qed.
Lemma rank_iff_class ms m : (exists i, rank (table_for ms) m i) <-> table_class ms (rot m).
Proof.
  destruct (table_lists ms) as (_ & L1 & L2). split.
  - intros (i & s & J & N & _). apply nth_error_In in N.
    assert (T : forallb asciib (table_for ms) = true).
    { unfold table_for. destruct (ms_fold ms), (ms_diag ms); vm_compute; reflexivity. }
    rewrite forallb_forall in T. pose proof (text_ascii m s J (T s N)) as U.
    destruct (C23_rotation_text_reads_back m U) as (s' & q & E & R & _). rewrite J in E. apply done_inj in E. subst s'.
    destruct (L1 s N) as (R' & q' & E' & P & _). rewrite R in E'. injection E' as <- _. exact P.
  - intros C. destruct (L2 (rot m) C) as (s & I & J & _). destruct (in_first _ _ I) as (i & N & F).
    exists i, s. split; [| auto]. rewrite jones_rot_is_jones in *. exact J.
Qed.
Lemma class_group ms h : (forall s P, In s (h_syms h) -> proper_rot s = Some P -> table_class ms P) ->
  forall o, hall_group h o -> table_class ms (fst o).
Proof.
  intros H o Ho.
  assert (C : (forall s P, In s (h_syms h) -> proper_rot s = Some P -> cubic_rotation P) -> cubic_rotation (fst o)).
  { intros K. exact (group_preserves h _ K o Ho). }
  assert (X : (forall s P, In s (h_syms h) -> proper_rot s = Some P -> hexagonal_rotation P) -> hexagonal_rotation (fst o)).
  { intros K c. exact (group_preserves h _ (fun s P I E => K s P I E c) o Ho). }
  assert (R : (forall s P, In s (h_syms h) -> proper_rot s = Some P -> rhombohedral_rotation P) -> rhombohedral_rotation (fst o)).
  { intros K a b. exact (group_preserves h _ (fun s P I E => K s P I E a b) o Ho). }
  unfold table_class in *. destruct (ms_fold ms), (ms_diag ms); auto.
Qed.
(** ** Symbols and families *)
Definition rhob_kind (ms : msym) : bool :=
  match ms_fold ms, ms_diag ms with F1, _ | F3, Asterisk | F2, SingleQuote => true | _, _ => false end.
Lemma rhob_kind_spec ms : rhob_kind ms = true <-> rhombohedral_kind ms.
Proof. unfold rhob_kind, rhombohedral_kind. destruct (ms_fold ms), (ms_diag ms); split; auto; discriminate || contradiction. Qed.
Lemma kinds_agree ms P : proper_rot ms = Some P ->
  cubicb P = cubicb_kind ms /\ hexb P = hexb_kind AxZ ms /\ rhob P = rhob_kind ms.
Proof.
  unfold proper_rot, get_rotation_matrix, cubicb_kind, hexb_kind, rhob_kind.
  destruct (ms_fold ms), (ms_diag ms), (ms_axis ms); intros E; try discriminate E; cbn in E; injection E as <-;
    vm_compute; auto.
Qed.
Lemma class_signed ms s P : table_class ms (if ms_minus s then mopp P else P) <-> table_class ms P.
Proof.
  assert (Q : forall G R, preserves G (mopp R) <-> preserves G R).
  { intros G R. split; [| apply preserves_mopp]. intros K. apply preserves_mopp in K. now rewrite mopp_mopp in K. }
  unfold table_class, cubic_rotation, hexagonal_rotation, rhombohedral_rotation.
  destruct (ms_minus s); [| reflexivity].
  assert (K1 : forall G, (forall c : Z, preserves (G c) (mopp P)) <-> (forall c, preserves (G c) P)).
  { intros G. split; intros K c; apply Q, K. }
  assert (K2 : forall G, (forall a b : Z, preserves (G a b) (mopp P)) <-> (forall a b, preserves (G a b) P)).
  { intros G. split; intros K a b; apply Q, K. }
  destruct (ms_fold ms), (ms_diag ms); auto; try exact (K1 (fun c => M3 2 (-1) 0 (-1) 2 0 0 0 c)); exact (K2 (fun a b => M3 a b b b a b b b a)).
Qed.
Lemma family_iff first rest : (forall ms, In ms (first :: rest) -> seitz_matrix ms <> None) ->
  (one_family (first :: rest) <-> forall ms P, In ms (first :: rest) -> proper_rot ms = Some P -> table_class first P).
Proof.
  intros V. set (l := first :: rest) in *.
  assert (D : forall ms, In ms l -> exists P, proper_rot ms = Some P).
  { intros ms I. destruct (seitz_matrix ms) as [m |] eqn:E; [| exfalso; exact (V ms I E)].
    destruct (seitz_matrix_rot ms m E) as (P & EP & _). eauto. }
  assert (C : (forall ms, In ms l -> cubic_kind ms) <-> forall ms P, In ms l -> proper_rot ms = Some P -> cubic_rotation P).
  { split.
    - intros K ms P I E. apply cubicb_spec. rewrite (proj1 (kinds_agree ms P E)). apply cubicb_kind_spec, K, I.
    - intros K ms I. destruct (D ms I) as (P & E). apply cubicb_kind_spec. rewrite <- (proj1 (kinds_agree ms P E)).
      apply cubicb_spec. exact (K ms P I E). }
  assert (X : (forall ms, In ms l -> hexagonal_kind AxZ ms) <-> forall ms P, In ms l -> proper_rot ms = Some P -> hexagonal_rotation P).
  { split.
    - intros K ms P I E. apply hexb_spec. rewrite (proj1 (proj2 (kinds_agree ms P E))). apply hexb_kind_spec, K, I.
    - intros K ms I. destruct (D ms I) as (P & E). apply hexb_kind_spec. rewrite <- (proj1 (proj2 (kinds_agree ms P E))).
      apply hexb_spec. exact (K ms P I E). }
  assert (R : (forall ms, In ms l -> rhombohedral_kind ms) <-> forall ms P, In ms l -> proper_rot ms = Some P -> rhombohedral_rotation P).
  { split.
    - intros K ms P I E. apply rhob_spec. rewrite (proj2 (proj2 (kinds_agree ms P E))). apply rhob_kind_spec, K, I.
    - intros K ms I. destruct (D ms I) as (P & E). apply rhob_kind_spec. rewrite <- (proj2 (proj2 (kinds_agree ms P E))).
      apply rhob_spec. exact (K ms P I E). }
  subst l. unfold one_family, table_class. destruct (ms_fold first), (ms_diag first); assumption.
Qed.

(** ** C62 *)
(** when the symbols denote operations and the buffer fits, positions are returned exactly for
    symbols of one family *)
Theorem C62_returns_iff_one_family :
  forall h, all_symbols_valid h -> buffer_fits h ->
    ((exists fuel g, general_positions fuel h = Done g) <-> one_family (h_syms h)).
Proof.
  intros h V B. destruct (h_syms h) as [| first rest] eqn:Es.
  { split; [| intros []]. intros (fuel & g & H).
    destruct (general_positions_spec _ _ _ H) as (_ & l & _ & Hs & _).
    destruct (C30_no_symbols_panics h l Es) as (w & W). congruence. }
  assert (V' : forall ms, In ms (first :: rest) -> seitz_matrix ms <> None) by (rewrite <- Es; exact V).
  rewrite (family_iff first rest V'). split.
  - intros (fuel & g & H) ms P I EP.
    destruct (seitz_matrix ms) as [m |] eqn:E; [| exfalso; exact (V' ms I E)].
    destruct (seitz_matrix_rot ms m E) as (P' & EP' & Er). assert (P' = P) by congruence. subst P'.
    apply (class_signed first ms). rewrite <- Er.
    destruct (symbol_in_group h ms m ltac:(rewrite Es; exact I) E) as (t & G).
    destruct (rotations_complete _ _ _ H _ G) as (x & Hx & Ex). cbn [fst] in Ex. rewrite <- Ex.
    destruct (general_positions_spec _ _ _ H) as (_ & l & Hl & Hs & Pm).
    apply (Permutation_in _ (Permutation_sym Pm)) in Hx.
    destruct (generate_unsorted_spec _ _ _ Hl) as (mp & _ & _ & (r & Elr) & _).
    destruct r as [| y r].
    + subst l. destruct Hx as [<- | []]. apply rank_iff_class. exists O.
      apply order_index_rank. unfold table_for. destruct (ms_fold first), (ms_diag first); vm_compute; reflexivity.
    + apply rank_iff_class. destruct (order_index (table_for first) x) as [k | w |] eqn:K.
      * exists k. apply order_index_rank, K.
      * exfalso. assert (W : exists w, sort_positions h l = Panic w).
        { apply (C30_sort_panics_iff h first rest l Es). split; [subst l; simpl; lia |].
          exists x. split; auto. intros q Q. apply order_index_rank in Q. congruence. }
        destruct W as (w' & W). congruence.
      * exfalso. revert K. unfold order_index, jones_rot, rotation_jf, jf_row, jf_entry.
        repeat (match goal with |- context [match char_utf8 ?x with _ => _ end] => destruct (char_utf8 x) end; cbn [obind]; try discriminate).
        destruct (position _ _); discriminate.
  - intros K. assert (G : forall o, hall_group h o -> table_class first (fst o)).
    { apply class_group. rewrite Es. exact K. }
    assert (F : finite_point_group h).
    { exists unit_matrices. intros R t Ho. apply unit_matrices_in. specialize (G _ Ho). cbn [fst] in G.
      unfold table_class in G. destruct (ms_fold first), (ms_diag first);
        first [now apply cubic_unit | now apply hexagonal_unit | now apply cubic_unit, rhombohedral_cubic]. }
    apply (C29_terminates_iff_finite h V B) in F. destruct F as (fuel & F). exists fuel.
    destruct (general_positions fuel h) as [g | w |] eqn:E; [eauto | | congruence]. exfalso.
    unfold general_positions, generate_positions in E.
    destruct (generate_unsorted fuel h) as [l | w' |] eqn:U; cbn [obind] in E; try discriminate.
    + destruct (sort_positions h l) as [l' | w' |] eqn:S; cbn [obind] in E; try discriminate.
      destruct (proj1 (C30_sort_panics_iff h first rest l Es) (ex_intro _ _ S)) as (_ & m & Hm & N).
      destruct (generate_unsorted_spec _ _ _ U) as (_ & _ & Gm & _).
      destruct (proj2 (rank_iff_class first m) (G _ (Gm m Hm))) as (i & Hi). exact (N i Hi).
    + unfold generate_unsorted in U. rewrite (proj1 (max_equiv_pos_spec h) V) in U. cbn [obind] in U.
      destruct (capacity_limit <? _) eqn:Cap.
      { apply Z.ltb_lt in Cap. unfold buffer_fits in B. unfold lattice_equiv_num, capacity_limit in Cap.
        destruct (C24_centring_group (ls_char (h_lat h))) as (_&_&_&_&_&Q). rewrite Q in Cap.
        destruct (ls_minus (h_lat h)); lia. }
      destruct (generators h) as [gs | w0 |] eqn:Hg; cbn [obind] in U; try discriminate.
      * eapply gen_loop_no_panic; eauto.
      * unfold generators in Hg.
        assert (Q : forall ss, (forall ms, In ms ss -> seitz_matrix ms <> None) -> exists gs, omap (symbol_generator h) ss = Done gs).
        { clear. induction ss as [| ms ss IH]; intros N; [eexists; reflexivity |]. cbn [omap]. unfold symbol_generator at 1.
          destruct (seitz_matrix ms) eqn:E; [| exfalso; exact (N ms (or_introl eq_refl) E)]. cbn [obind].
          destruct (IH (fun x Hx => N x (or_intror Hx))) as (gs & ->). cbn. eauto. }
        destruct (Q (h_syms h) V) as (gs & Eg). rewrite Eg in Hg. discriminate.
Qed.
(** the three possible outcomes, for every notation *)
Definition returns (h : hall) : Prop := exists fuel g, general_positions fuel h = Done g.
Definition panics (h : hall) : Prop := exists fuel w, general_positions fuel h = Panic w.
Definition never_ends (h : hall) : Prop := forall fuel, general_positions fuel h = OutOfFuel.
Lemma family_compatible l : one_family l -> compatible l.
Proof.
  unfold one_family, compatible. destruct l as [| s r]; [intros [] |].
  intros H. destruct (ms_fold s), (ms_diag s); first [left; exact H | right; exists AxZ; exact H | idtac].
  left. intros ms I. specialize (H ms I). revert H. unfold rhombohedral_kind, cubic_kind.
  destruct (ms_fold ms), (ms_diag ms); auto.
Qed.
Theorem C62_outcome :
  forall h,
    (returns h <-> all_symbols_valid h /\ buffer_fits h /\ one_family (h_syms h)) /\
    (never_ends h <-> all_symbols_valid h /\ buffer_fits h /\ ~ compatible (h_syms h)) /\
    (panics h <-> ~ all_symbols_valid h \/ ~ buffer_fits h \/ compatible (h_syms h) /\ ~ one_family (h_syms h)).
Proof.
  intros h.
  assert (DV : all_symbols_valid h \/ ~ all_symbols_valid h).
  { unfold all_symbols_valid. induction (h_syms h) as [| s r [IH | IH]].
    - left. intros ms [].
    - destruct (seitz_matrix s) eqn:E.
      + left. intros ms [<- | I]; [congruence | auto].
      + right. intros K. apply (K s); simpl; auto.
    - right. intros K. apply IH. intros ms I. apply K; simpl; auto. }
  assert (DB : buffer_fits h \/ ~ buffer_fits h) by (unfold buffer_fits; lia).
  assert (once : forall f f' x y, general_positions f h = x -> general_positions f' h = y -> x <> OutOfFuel -> y <> OutOfFuel -> x = y).
  { intros f f' x y <- <- X Y. destruct (Nat.le_ge_cases f f') as [L | L].
    - symmetry. apply C29_fuel_irrelevant; auto.
    - apply C29_fuel_irrelevant; auto. }
  assert (RP : returns h -> panics h -> False).
  { intros (f & g & E) (f' & w & E'). assert (X : Done g = Panic w) by (apply (once f f'); auto; discriminate). discriminate. }
  assert (RN : returns h -> never_ends h -> False) by (intros (f & g & E) N; rewrite (N f) in E; discriminate).
  assert (PN : panics h -> never_ends h -> False) by (intros (f & g & E) N; rewrite (N f) in E; discriminate).
  destruct DV as [V | V].
  2: { assert (P : panics h) by (destruct (C29_invalid_symbol_panics h 0%nat V) as (w & W); exists 0%nat, w; exact W).
    split; [split; [intros R; exfalso; eauto | intros (K & _); contradiction] |].
    split; [split; [intros R; exfalso; eauto | intros (K & _); contradiction] |]. tauto. }
  destruct DB as [B | B].
  2: { assert (P : panics h) by (destruct (C29_oversized_panics h 0%nat V B) as (w & W); exists 0%nat, w; exact W).
    split; [split; [intros R; exfalso; eauto | intros (_ & K & _); contradiction] |].
    split; [split; [intros R; exfalso; eauto | intros (_ & K & _); contradiction] |]. tauto. }
  pose proof (C62_returns_iff_one_family h V B) as R. change (returns h <-> one_family (h_syms h)) in R.
  pose proof (C29_terminates_iff_compatible h V B) as T.
  pose proof (family_compatible (h_syms h)) as FC.
  assert (N : never_ends h <-> ~ compatible (h_syms h)).
  { rewrite <- T. unfold never_ends. split.
    - intros N (f & K). apply K, N.
    - intros N f. destruct (general_positions f h) eqn:E; auto; exfalso; apply N; exists f; congruence. }
  assert (P : panics h <-> compatible (h_syms h) /\ ~ one_family (h_syms h)).
  { split.
    - intros P. split; [apply T; destruct P as (f & w & E); exists f; congruence |]. intros F. apply R in F. eauto.
    - intros (C & F). apply T in C. destruct C as (f & C). destruct (general_positions f h) as [g | w |] eqn:E.
      + exfalso. apply F, R. exists f, g. exact E.
      + exists f, w. exact E.
      + congruence. }
  tauto.
Qed.
(** each outcome occurs for texts that look much alike *)
Example C62_cases :
  (exists h, try_from_str "P 6 2" = Done (Some h) /\ returns h) /\
  (exists h, try_from_str "P 2 3" = Done (Some h) /\ panics h) /\
  (exists h, try_from_str "P 3* 4" = Done (Some h) /\ panics h) /\
  (exists h, try_from_str "P 63" = Done (Some h) /\ panics h) /\
  (exists h, try_from_str "P" = Done (Some h) /\ panics h) /\
  (exists h, try_from_str "P 4 3" = Done (Some h) /\ never_ends h) /\
  (exists h, try_from_str "P 3* 2""" = Done (Some h) /\ panics h).
Proof.
  assert (Q : forall s, match try_from_str s with Done (Some h) => match general_positions 10 h with Done _ => true | _ => false end | _ => false end = true ->
     exists h, try_from_str s = Done (Some h) /\ returns h).
  { intros s. destruct (try_from_str s) as [[h |] | |]; try discriminate.
    destruct (general_positions 10 h) as [g | |] eqn:E; try discriminate. intros _. exists h. split; auto. exists 10%nat, g. exact E. }
  assert (P : forall s, match try_from_str s with Done (Some h) => match general_positions 10 h with Panic _ => true | _ => false end | _ => false end = true ->
     exists h, try_from_str s = Done (Some h) /\ panics h).
  { intros s. destruct (try_from_str s) as [[h |] | |]; try discriminate.
    destruct (general_positions 10 h) as [g | w |] eqn:E; try discriminate. intros _. exists h. split; auto. exists 10%nat, w. exact E. }
  split; [apply Q; vm_compute; reflexivity |]. split; [apply P; vm_compute; reflexivity |].
  split; [apply P; vm_compute; reflexivity |]. split; [apply P; vm_compute; reflexivity |].
  split; [apply P; vm_compute; reflexivity |]. split; [| apply P; vm_compute; reflexivity].
  destruct C29_a_symbol_that_never_terminates as (h & E & _ & _ & N). exists h. split; auto.
Qed.
