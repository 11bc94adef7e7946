(** * PropMachine: property C45: machine integers. *)
From Verif Require Import Base Notations Parser Seitz F64 Jones Rotations Tables Generate Positions Machine
  Spec SpecHall SpecXyz SpecCompat SpecText SpecMachine Algebra PropSeitz PropSymbols GenFacts PropGenerate Restriction PropJones
  PropTermination PropParser PropRoundTrip MachineFacts.
Open Scope Z_scope.
Open Scope list_scope.
Local Notation length := List.length.

Section Fits.
Variable p : profile.
Lemma translations_sm l tr : In tr (translations l) -> vsm 1000 tr.
Proof. intros H. apply translations_range in H. unfold vbetween, vsm, sm in *. lia. Qed.
Lemma iplus_mod_fits l t tr : vsm 1000 t -> In tr (translations l) -> iplus_mod p t tr = Done (vmap positive_mod (vadd t tr)).
Proof.
  intros T H. unfold iplus_mod. rewrite (ivadd_fits p 1000) by (assumption || lia || exact (translations_sm l tr H)).
  cbn [obind]. apply ivpm_fits.
Qed.
Lemma omap_fits {A B} (f : A -> outcome B) (g : A -> B) l : (forall a, In a l -> f a = Done (g a)) -> omap f l = Done (map g l).
Proof.
  induction l as [| a l IH]; intros H; cbn [omap map]; [reflexivity |].
  rewrite (H a (or_introl eq_refl)). cbn [obind]. rewrite IH by (intros; apply H; now right). reflexivity.
Qed.
Lemma omap_same {A B} (f g : A -> outcome B) l : (forall a, In a l -> f a = g a) -> omap f l = omap g l.
Proof.
  induction l as [| a l IH]; intros H; cbn [omap]; [reflexivity |].
  rewrite (H a (or_introl eq_refl)), IH by (intros; apply H; now right). reflexivity.
Qed.
Lemma iminimal_fits l t : vsm 1000 t -> iminimal_repr p (translations l) t = Done (minimal_repr (translations l) t).
Proof.
  intros T. unfold iminimal_repr. rewrite ivpm_fits. cbn [obind].
  rewrite (omap_fits _ (fun tr => vmap positive_mod (vadd t tr))) by (intros; now apply (iplus_mod_fits l)). reflexivity.
Qed.
Lemma inew_fits l t s : vsm 1000 t -> forall lt, incl lt (translations l) -> inew_everywhere p lt t s =
  Done (forallb (fun tr => negb (set_mem (vmap positive_mod (vadd t tr)) s)
           && vforall (fun v => negb (rem12 v =? 0)) (vadd t tr)) lt).
Proof.
  intros T lt. induction lt as [| tr lt IH]; intros I; cbn [inew_everywhere forallb]; [reflexivity |].
  assert (H : In tr (translations l)) by (apply I; now left).
  rewrite (iplus_mod_fits l) by assumption. cbn [obind]. destruct (set_mem _ s); [reflexivity |].
  rewrite (ivadd_fits p 1000) by (assumption || lia || exact (translations_sm l tr H)). cbn [obind negb].
  destruct (vforall _ _); [| reflexivity]. apply IH. intros x Hx; apply I; now right.
Qed.
Lemma iadd_to_list_fits l st m : vsm 1000 (tra m) -> iadd_to_list p (translations l) st m = Done (add_to_list (translations l) st m).
Proof.
  intros T. unfold iadd_to_list, add_to_list. destruct (map_get _ _) as [s |].
  - rewrite (inew_fits l) by (assumption || apply incl_refl). cbn [obind]. destruct (forallb _ _); [| reflexivity].
    rewrite iminimal_fits by assumption. reflexivity.
  - rewrite iminimal_fits by assumption. reflexivity.
Qed.
Lemma between_sm N v : vbetween (-N) (N + 1) v -> vsm N v.
Proof. unfold vbetween, vsm, sm. lia. Qed.
Lemma iinner_fits l i js : tame i -> (forall j, In j js -> tame j) ->
  forall st, iinner_loop p (translations l) i js st = Done (inner_loop (translations l) i js st).
Proof.
  intros Ti. induction js as [| j js IH]; intros Tj st; cbn [iinner_loop inner_loop]; [reflexivity |].
  rewrite (isz_mul_fits p 23 23) by (lia || apply tame_ssm; auto with datatypes). cbn [obind].
  rewrite iadd_to_list_fits.
  2:{ pose proof (C12_product_translation_range i j) as H. unfold vbetween, vsm, sm in *. lia. }
  cbn [obind]. destruct (add_to_list (translations l) st (sz_mul i j)) as [[|] st']; cbn [fst snd]; [reflexivity |].
  apply IH. auto with datatypes.
Qed.
Lemma iouter_fits l js is_ : (forall j, In j js -> tame j) -> (forall i, In i is_ -> tame i) ->
  forall st, iouter_loop p (translations l) js is_ st = Done (fold_left (fun s i => inner_loop (translations l) i js s) is_ st).
Proof.
  intros Tj. induction is_ as [| i is_ IH]; intros Ti st; cbn [iouter_loop fold_left]; [reflexivity |].
  rewrite iinner_fits by auto with datatypes. cbn [obind]. apply IH. auto with datatypes.
Qed.
Lemma igen_loop_fits l (P : seitz -> Prop) fuel : product_closed l P -> (forall m, is_affine m -> P m -> unit_matrix (rot m)) ->
  forall st, Inv l st -> (forall m, In m (g_list st) -> P m) ->
  igen_loop p fuel (translations l) st = gen_loop fuel (translations l) st.
Proof.
  intros PC U. induction fuel as [| f IH]; intros st I HP; cbn [igen_loop gen_loop]; [reflexivity |].
  assert (T : forall m, In m (skipn 1 (g_list st)) -> tame m).
  { intros m Hm. assert (In m (g_list st)) as H by (destruct (g_list st); [exact Hm | now right]).
    destruct (inv_affine l st I m H) as [A R]. split; [assumption |]. split.
    - pose proof (U m A (HP m H)) as K. exact K.
    - unfold vbetween, vsm, sm in *. lia. }
  unfold ione_pass. rewrite iouter_fits by assumption. fold (one_pass (translations l) st). cbn [obind]. cbv zeta.
  destruct (Nat.ltb _ _); [| reflexivity].
  destruct (one_pass_spec l st I) as (I' & X & _). apply IH; [assumption |].
  destruct X as (ext & E & He). rewrite E. intros m Hm. apply in_app_iff in Hm.
  destruct Hm as [Hm | Hm]; auto. destruct (He m Hm) as (i & j & Hi & Hj & Hp).
  apply (PC i j m); auto; apply (inv_affine l st I); auto.
Qed.
Lemma ilattice_fits l : ilattice_seitz p l = Done (lattice_seitz l).
Proof.
  assert (A : forall v R, In v (translations (ls_char l)) -> isz_addv p (aff R v0) v = Done (sz_addv (aff R v0) v)).
  { intros v R H. apply isz_addv_fits; [| now apply (translations_sm (ls_char l)) | reflexivity].
    unfold vsm, sm; cbn. lia. }
  unfold ilattice_seitz, lattice_seitz. destruct (ls_minus l).
  - rewrite (omap_fits _ (fun v => [sz_addv sz_identity v; sz_addv sz_inversion v])).
    + cbn [obind]. f_equal. apply concat_flat.
    + intros v H. unfold sz_identity, sz_inversion. rewrite !A by assumption. reflexivity.
  - apply omap_fits. intros v H. unfold sz_identity. now apply A.
Qed.
Definition shift_ok (h : hall) : Prop := vsm 23 (h_shift h).
Definition letters_ok (h : hall) : Prop := forall ms, In ms (h_syms h) -> few_letters ms.
Lemma isymbol_fits h ms : shift_ok h -> few_letters ms -> isymbol_generator p h ms = symbol_generator h ms.
Proof.
  intros S F. unfold isymbol_generator, symbol_generator. rewrite iseitz_fits by assumption. cbn [obind].
  destruct (seitz_matrix ms) as [m |] eqn:M; [| reflexivity]. apply ishifted_fits; [exact S |]. eapply seitz_matrix_tame; eauto.
Qed.
Lemma iequiv_fits ms m : seitz_matrix ms = Some m -> iequiv_num p m = Done (Z.of_nat (fold_number (ms_fold ms))).
Proof.
  intros M. unfold iequiv_num. rewrite itrace_fits.
  - cbn [obind]. pose proof (sz_equiv_num_fold ms m M) as E. unfold sz_equiv_num, rotation_type in E.
    destruct (rotation_type_of _ _); cbn [option_map] in E; [| discriminate]. now injection E as ->.
  - pose proof (tame_ssm m (seitz_matrix_tame ms m M)) as S. unfold ssm, msm, vsm, sm in *. lia.
Qed.
Lemma fold_pos ms m : seitz_matrix ms = Some m -> 1 <= Z.of_nat (fold_number (ms_fold ms)).
Proof. intros M. destruct ms as [mi f su d a tr]. destruct f; cbn; try lia. discriminate. Qed.
Lemma prod_folds_pos l : (forall ms, In ms l -> seitz_matrix ms <> None) -> 1 <= prod_folds l.
Proof.
  induction l as [| ms l IH]; intros V; cbn [prod_folds]; [lia |].
  destruct (seitz_matrix ms) as [m |] eqn:M; [| exfalso; exact (V ms (or_introl eq_refl) M)].
  pose proof (fold_pos ms m M). specialize (IH (fun x Hx => V x (or_intror Hx))). nia.
Qed.
Lemma imax_fits l : (forall ms, In ms l -> seitz_matrix ms <> None) -> (forall ms, In ms l -> few_letters ms) ->
  forall acc, 0 <= acc -> acc * prod_folds l <= 18446744073709551615 -> imax_equiv_pos p l acc = Done (acc * prod_folds l).
Proof.
  induction l as [| ms l IH]; intros V F acc A H; cbn [imax_equiv_pos prod_folds]; [f_equal; ring |].
  rewrite iseitz_fits by auto with datatypes. cbn [obind].
  destruct (seitz_matrix ms) as [m |] eqn:M; [| exfalso; exact (V ms (or_introl eq_refl) M)].
  rewrite (iequiv_fits ms m M). cbn [obind]. cbn [prod_folds] in H.
  pose proof (prod_folds_pos l (fun x Hx => V x (or_intror Hx))) as P. pose proof (fold_pos ms m M) as Q.
  set (n := Z.of_nat (fold_number (ms_fold ms))) in *. set (r := prod_folds l) in *. clearbody n.
  assert (0 <= acc * n <= 18446744073709551615) as K by nia.
  unfold usize. rewrite (proj2 (Z.leb_le _ _)) by lia. rewrite (proj2 (Z.leb_le _ _)) by lia. cbn [andb obind].
  rewrite IH; [f_equal; fold r; ring | | | lia | fold r; rewrite <- Z.mul_assoc; exact H]; auto with datatypes.
Qed.
Lemma generator_vlow_sm h gs : generators h = Done gs -> forall g, In g gs -> vsm 1000 (tra g).
Proof.
  unfold generators. intros H g Hg. apply obind_Done in H. destruct H as (ss & Hss & H). injection H as <-.
  apply in_app_iff in Hg. destruct Hg as [Hg | Hg].
  - apply C24_lattice_generators in Hg. destruct Hg as (v & Hv & [-> | [_ ->]]); exact (translations_sm _ _ Hv).
  - apply omap_Done in Hss. clear - Hss Hg. induction Hss as [| ms x l r E F IH]; [destruct Hg |]. destruct Hg as [<- | Hg]; [| auto].
    unfold symbol_generator in E. destruct (seitz_matrix ms) as [m |]; [| discriminate]. injection E as <-.
    unfold shifted_matrix. cbn [tra]. set (w := tra (mat4_mul _ _)). unfold vsm, sm, vmap; cbn [vx vy vz].
    pose proof (positive_mod_range (vx w)). pose proof (positive_mod_range (vy w)). pose proof (positive_mod_range (vz w)). lia.
Qed.
Lemma iadd_all_fits l gs : (forall g, In g gs -> vsm 1000 (tra g)) ->
  forall st, iadd_all p (translations l) st gs = Done (add_all (translations l) st gs).
Proof.
  induction gs as [| g gs IH]; intros H st; cbn [iadd_all]; [reflexivity |].
  rewrite iadd_to_list_fits by auto with datatypes. cbn [obind]. apply IH. auto with datatypes.
Qed.
Lemma ijf_entry_fits c v : 0 <= c <= 1000 -> sm 1 v -> ijf_entry p c v = jf_entry c v.
Proof. intros C V. unfold ijf_entry, jf_entry, imul. rewrite i32_fits by (unfold sm in V; nia). reflexivity. Qed.
Lemma irotation_jf_fits R : unit_matrix R -> irotation_jf p R = rotation_jf R.
Proof.
  intros (?&?&?&?&?&?&?&?&?). unfold irotation_jf, rotation_jf, ijf_row, jf_row.
  rewrite !ijf_entry_fits by (lia || assumption). reflexivity.
Qed.
Lemma ijones_rot_fits m : unit_matrix (rot m) -> ijones_rot p m = jones_rot m.
Proof. intros U. unfold ijones_rot, jones_rot. now rewrite irotation_jf_fits. Qed.
Lemma ijones_fits m : unit_matrix (rot m) -> ijones p m = jones m.
Proof. intros U. unfold ijones, jones. now rewrite irotation_jf_fits. Qed.
Lemma isort_fits h l : (forall m, In m l -> unit_matrix (rot m)) -> isort_positions p h l = sort_positions h l.
Proof.
  intros U. unfold isort_positions, sort_positions. destruct (get_matrice_order h) as [order | |]; cbn [obind]; try reflexivity.
  destruct l as [| a [| b l]]; try reflexivity.
  rewrite (omap_same _ (fun m => obind (order_index order m) (fun i => Done (i, m)))); [reflexivity |].
  intros m Hm. unfold iorder_index, order_index. now rewrite ijones_rot_fits by auto.
Qed.
Lemma compatible_unit h R t : compatible (h_syms h) -> hall_group h (R, t) -> unit_matrix R.
Proof.
  intros [H | (a & H)] G.
  - apply cubic_unit. apply (group_preserves h I3) in G; [exact G |].
    intros ms P I E. apply (cubic_kind_preserves ms); auto.
  - apply (axis_unit a). intros c. apply (group_preserves h (axis_metric a c)) in G; [exact G |].
    intros ms P I E. apply (hexagonal_kind_preserves a ms); auto.
Qed.
Lemma igenerate_fits fuel h : shift_ok h -> letters_ok h -> all_symbols_valid h -> buffer_fits h -> compatible (h_syms h) ->
  igenerate_unsorted p fuel h = generate_unsorted fuel h.
Proof.
  intros S L V B C. rewrite igenerate_batch. unfold igenerate_batched, generate_unsorted.
  rewrite (proj1 (max_equiv_pos_spec h) V).
  assert (Cap : 0 <= lattice_equiv_num (h_lat h) /\ lattice_equiv_num (h_lat h) * prod_folds (h_syms h) <= capacity_limit).
  { unfold buffer_fits in B. unfold lattice_equiv_num, capacity_limit.
    destruct (C24_centring_group (ls_char (h_lat h))) as (_&_&_&_&_&K). rewrite K in *.
    destruct (ls_minus (h_lat h)); lia. }
  rewrite imax_fits; [| exact V | exact L | apply Cap | unfold capacity_limit in Cap; lia].
  cbn [obind]. destruct (capacity_limit <? _); [reflexivity |]. rewrite ilattice_fits. cbn [obind].
  destruct (generators_valid h V) as (gs & Hgs). rewrite Hgs. pose proof Hgs as Hgs'. unfold generators in Hgs'.
  rewrite (omap_same _ (symbol_generator h)) by (intros ms Hms; apply isymbol_fits; [exact S | now apply L]).
  destruct (omap (symbol_generator h) (h_syms h)) as [ss | |]; try discriminate. cbn [obind] in *. injection Hgs' as Egs.
  rewrite Egs. rewrite iadd_all_fits by exact (generator_vlow_sm h gs Hgs). cbn [obind].
  destruct (generators_spec h gs Hgs) as (G1 & _ & _ & _).
  set (lat := ls_char (h_lat h)) in *.
  destruct (add_all_spec lat gs (GS [] []) (Inv_empty lat)) as (I & X & _).
  { intros g Hg. destruct (G1 g Hg) as (? & ? & _). auto. }
  apply (igen_loop_fits lat (fun m => hall_group h (op_of m))); [apply hall_product_closed | | exact I |].
  - intros m _ G. exact (compatible_unit h _ _ C G).
  - destruct X as (ext & E' & He). rewrite E'. simpl. intros m Hm.
    destruct (He m Hm) as (g & Hg & t & -> & L' & _). destruct (G1 g Hg) as (_ & _ & K).
    apply (hall_group_coset h _ (tra g)); auto.
Qed.
Lemma igeneral_fits fuel h : shift_ok h -> letters_ok h -> all_symbols_valid h -> buffer_fits h -> compatible (h_syms h) ->
  igeneral_positions p fuel h = general_positions fuel h.
Proof.
  intros S L V B C. unfold igeneral_positions, general_positions, generate_positions.
  rewrite igenerate_fits by assumption. rewrite obind_assoc.
  destruct (generate_unsorted fuel h) as [l | |] eqn:G; cbn [obind]; try reflexivity.
  rewrite isort_fits; [reflexivity |]. intros m Hm.
  destruct (generate_unsorted_spec fuel h l G) as (_ & _ & Hl & _). exact (compatible_unit h _ _ C (Hl m Hm)).
Qed.
End Fits.

(** ** What reading a text guarantees *)
Lemma chars_length {A} (f : A -> ascii) l r : String.length (chars f l r) = (length l + String.length r)%nat.
Proof. induction l as [| a l IH]; cbn [chars String.length length]; [reflexivity |]. now rewrite IH. Qed.
Lemma chunk_letters_length k : (length (k_letters k) <= String.length (chunk_text k))%nat.
Proof. unfold chunk_text. rewrite !app_length_s, chars_length. cbn [String.length]. lia. Qed.
Lemma chunks_text_length ks rest k : In k ks -> (String.length (chunk_text k) <= String.length (chunks_text ks rest))%nat.
Proof.
  induction ks as [| a ks IH]; intros H; [destruct H |]. cbn [chunks_text]. rewrite app_length_s.
  destruct H as [-> | H]; [lia |]. specialize (IH H). lia.
Qed.
Lemma stored_sm v w : stored v w -> sm 23 w.
Proof. unfold stored, sm. lia. Qed.
Lemma parsed_machine s h : try_from_str s = Done (Some h) ->
  shift_ok h /\ forall ms, In ms (h_syms h) -> (length (letters ms) <= String.length s)%nat.
Proof.
  intros H. destruct (proj1 (C02_accepted_iff s)) as (m & l & ks & rest & -> & C & N); [eauto |].
  destruct (C03_written_symbol_is_read m l ks rest C N) as (h' & E & _ & D & S).
  rewrite H in E. injection E as <-. split.
  - unfold shift_ok. destruct S as [(a & b & c & _ & Sa & Sb & Sc) | (_ & Es)].
    + unfold vsm. split; [| split]; eapply stored_sm; eassumption.
    + rewrite Es. unfold vsm, sm; cbn. lia.
  - intros ms Hms. apply In_nth_error in Hms. destruct Hms as (i & Hi). destruct D as (Len & D).
    assert (i < length (h_syms h))%nat as Li by (apply nth_error_Some; congruence).
    destruct (nth_error (map chunk_symbol ks) i) as [m0 |] eqn:Hi0.
    2:{ apply nth_error_None in Hi0. lia. }
    specialize (D i m0 Hi0). destruct (direction_default _ i m0) as [ax dg].
    rewrite Hi in D. injection D as ->. unfold letters. cbn [ms_trs].
    rewrite nth_error_map in Hi0. destruct (nth_error ks i) as [k |] eqn:Hk; [| discriminate]. injection Hi0 as <-.
    apply nth_error_In in Hk. unfold hall_written. rewrite app_length_s. cbn [String.length].
    pose proof (chunk_letters_length k). pose proof (chunks_text_length ks rest k Hk).
    cbn [chunk_symbol ms_trs]. destruct (k_letters k); cbn [length] in *; lia.
Qed.

(** ** C45  Both builds compute the exact result *)
(** for every text of at most 357913941 characters whose symbols can be combined *)
Theorem C45_generation_never_overflows :
  forall p s h fuel, try_from_str s = Done (Some h) -> Z.of_nat (String.length s) <= 357913941 ->
    all_symbols_valid h -> buffer_fits h -> compatible (h_syms h) ->
    igeneral_positions p fuel h = general_positions fuel h.
Proof.
  intros p s h fuel H Len V B C. destruct (parsed_machine s h H) as [S L].
  apply igeneral_fits; auto. intros ms Hms. specialize (L ms Hms). unfold few_letters. lia.
Qed.
(** the same with termination as the condition *)
Corollary C45_terminating_generation_never_overflows :
  forall p s h fuel, try_from_str s = Done (Some h) -> Z.of_nat (String.length s) <= 357913941 ->
    all_symbols_valid h -> buffer_fits h -> general_positions fuel h <> OutOfFuel ->
    igeneral_positions p fuel h = general_positions fuel h.
Proof.
  intros p s h fuel H Len V B T. eapply C45_generation_never_overflows; eauto.
  apply C29_terminates_iff_compatible; eauto.
Qed.
(** and what is derived from the result: the full sets and the listing *)
Theorem C45_listing_never_overflows :
  forall p fuel h g, general_positions fuel h = Done g ->
    (forall m, In m (gp_core g) -> unit_matrix (rot m)) ->
    iderive_full_sets p g = Done (derive_full_sets g) /\ ipure_txt p g = pure_txt g.
Proof.
  intros p fuel h g G U.
  assert (A : forall v m, In v (gp_lattice g) -> In m (gp_core g) -> isz_addv p m v = Done (sz_addv m v)).
  { intros v m Hv Hm. destruct (C28_normalised fuel h g G m Hm) as [A T]. apply isz_addv_fits.
    - unfold vbetween, vsm, sm in *. lia.
    - unfold general_positions in G. apply obind_Done in G. destruct G as (l & _ & G). injection G as <-.
      exact (translations_sm _ v Hv).
    - apply A. }
  assert (F : iderive_full_sets p g = Done (derive_full_sets g)).
  { unfold iderive_full_sets, derive_full_sets. apply omap_fits. intros v Hv. apply omap_fits. auto. }
  split; [exact F |]. unfold ipure_txt, pure_txt. rewrite F. cbn [obind].
  rewrite (omap_same _ (fun s => omap jones s)); [reflexivity |].
  intros s Hs. apply omap_same. intros m Hm. apply ijones_fits.
  unfold derive_full_sets in Hs. apply in_map_iff in Hs. destruct Hs as (v & <- & Hv).
  apply in_map_iff in Hm. destruct Hm as (m0 & <- & Hm0). exact (U m0 Hm0).
Qed.

(** the condition of the last theorem holds for every parsed symbol that can be generated *)
Corollary C45_parsed_listing_never_overflows :
  forall p s h fuel g, try_from_str s = Done (Some h) -> Z.of_nat (String.length s) <= 357913941 ->
    general_positions fuel h = Done g ->
    igeneral_positions p fuel h = Done g /\
    iderive_full_sets p g = Done (derive_full_sets g) /\ ipure_txt p g = pure_txt g.
Proof.
  intros p s h fuel g H Len G.
  assert (V : all_symbols_valid h).
  { destruct (general_positions_spec _ _ _ G) as (_ & l & Hl & _). destruct (generate_unsorted_spec _ _ _ Hl) as (mp & K). apply K. }
  assert (B : buffer_fits h).
  { destruct (Z_le_gt_dec (64 * (Z.of_nat (length (translations (ls_char (h_lat h)))) * (if ls_minus (h_lat h) then 2 else 1)
        * prod_folds (h_syms h))) (2 ^ 63 - 1)) as [B | B]; [exact B |].
    destruct (C29_oversized_panics h fuel V) as (w & W); [unfold buffer_fits; lia | congruence]. }
  assert (C : compatible (h_syms h)) by (apply C29_terminates_iff_compatible; [assumption | assumption | exists fuel; rewrite G; discriminate]).
  split.
  - rewrite (C45_generation_never_overflows p s h fuel); assumption.
  - apply (C45_listing_never_overflows p fuel h g G). intros m Hm.
    pose proof (C25_positions_sound fuel h g G m Hm) as S. exact (compatible_unit h _ _ C (proj2 S)).
Qed.

(** ** A debug build never returns a wrong result, whatever the symbol *)
Theorem C45_debug_build_exact_or_panics :
  forall fuel h, 
    igeneral_positions DebugBuild fuel h = overflow \/ igeneral_positions DebugBuild fuel h = general_positions fuel h.
Proof. exact exact_igeneral. Qed.
Theorem C45_debug_operations_exact_or_panic :
  (forall a b, isz_mul DebugBuild a b = overflow \/ isz_mul DebugBuild a b = Done (sz_mul a b)) /\
  (forall a v, isz_addv DebugBuild a v = overflow \/ isz_addv DebugBuild a v = Done (sz_addv a v)) /\
  (forall a b, isz_eq DebugBuild a b = overflow \/ isz_eq DebugBuild a b = Done (sz_eqb a b)) /\
  (forall m e, ipowi DebugBuild m e = overflow \/ ipowi DebugBuild m e = powi m e) /\
  (forall m, ijones DebugBuild m = overflow \/ ijones DebugBuild m = jones m) /\
  (forall g, iderive_full_sets DebugBuild g = overflow \/ iderive_full_sets DebugBuild g = Done (derive_full_sets g)) /\
  (forall ms, iseitz_matrix DebugBuild ms = overflow \/ iseitz_matrix DebugBuild ms = Done (seitz_matrix ms)).
Proof.
  repeat split; intros; [apply exact_isz_mul | apply exact_isz_addv | apply exact_isz_eq | apply exact_ipowi |
    apply exact_ijones | apply exact_iderive | apply exact_iseitz_matrix].
Qed.

(** so an oversized symbol stops a debug build, with one panic or the other *)
Theorem C45_debug_oversized_panics :
  forall fuel h, all_symbols_valid h -> ~ buffer_fits h -> exists w, igeneral_positions DebugBuild fuel h = Panic w.
Proof.
  intros fuel h V B. destruct (C45_debug_build_exact_or_panics fuel h) as [E | E]; [eexists; exact E |].
  destruct (C29_oversized_panics h fuel V B) as (w & W). exists w. congruence.
Qed.
(** but not a release build: 32 symbols 4 make the product of the folds 2^64, which wraps to 0 *)
Definition hall_4s : hall := Hall (LS false LP) (repeat (MS false F4 SubNone DiagNone AxZ None) 32) (V3 0 0 0).
Definition gpos_4 : gpos :=
  GP [V3 0 0 0] [aff I3 v0; aff (M3 (-1) 0 0 0 (-1) 0 0 0 1) v0; aff (M3 0 (-1) 0 1 0 0 0 0 1) v0; aff (M3 0 1 0 (-1) 0 0 0 0 1) v0].
Theorem C45_release_oversized_refuted :
  try_from_str ("P" ++ times 32 " 4") = Done (Some hall_4s) /\ all_symbols_valid hall_4s /\ ~ buffer_fits hall_4s /\
  igeneral_positions DebugBuild 10 hall_4s = overflow /\
  igeneral_positions ReleaseBuild 10 hall_4s = Done gpos_4.
Proof.
  split; [vm_compute; reflexivity |]. split.
  { intros ms H. unfold hall_4s in H. cbn [h_syms] in H. apply repeat_spec in H. subst ms. vm_compute. discriminate. }
  split; [unfold buffer_fits; vm_compute; intros H; exact (H eq_refl) |].
  split; vm_compute; reflexivity.
Qed.
(** an invalid symbol stops both builds *)
Theorem C45_invalid_symbol_panics_in_both_builds :
  forall p s h fuel, try_from_str s = Done (Some h) -> Z.of_nat (String.length s) <= 357913941 ->
    ~ all_symbols_valid h -> exists w, igeneral_positions p fuel h = Panic w.
Proof.
  intros p s h fuel H Len V. destruct (parsed_machine s h H) as [_ L].
  assert (F : forall ms, In ms (h_syms h) -> few_letters ms) by (intros ms Hms; specialize (L ms Hms); unfold few_letters; lia).
  assert (K : exists w, imax_equiv_pos p (h_syms h) (lattice_equiv_num (h_lat h)) = Panic w).
  2:{ destruct K as (w & K). exists w. unfold igeneral_positions, igenerate_unsorted. now rewrite K. }
  unfold all_symbols_valid in V. revert V F. generalize (lattice_equiv_num (h_lat h)). clear H L Len.
  induction (h_syms h) as [| ms l IH]; intros z V F; [exfalso; apply V; intros ? [] |].
  cbn [imax_equiv_pos]. rewrite iseitz_fits by auto with datatypes. cbn [obind].
  destruct (seitz_matrix ms) as [m |] eqn:M; [| eexists; reflexivity].
  rewrite (iequiv_fits p ms m M). cbn [obind].
  destruct (usize p (z * Z.of_nat (fold_number (ms_fold ms)))) as [a | w |] eqn:U; cbn [obind].
  - apply IH; [| auto with datatypes]. intros V'. apply V. intros x [<- | Hx]; [congruence | auto].
  - eexists; reflexivity.
  - unfold usize in U. destruct (_ && _); [discriminate |]. destruct p; discriminate.
Qed.

(** ** The bound on the letters is sharp *)
Definition letters_a (n : nat) : chunk := Chunk [Space] false F1 [] false SubNone (repeat TA n).
Definition sym_a (n : nat) : msym := MS false F1 SubNone DiagNone AxZ (Some (repeat TA n)).
Definition hall_a (n : nat) : hall := Hall (LS false LP) [sym_a n] (V3 0 0 0).
Lemma iletter_sum_app p l r : forall acc, iletter_sum p acc (l ++ r) = obind (iletter_sum p acc l) (fun a => iletter_sum p a r).
Proof.
  induction l as [| t l IH]; intros acc; cbn [iletter_sum app obind]; [reflexivity |].
  rewrite obind_assoc. destruct (ivadd p acc (translation_vector t)); cbn [obind]; auto.
Qed.
Lemma sum_a n : forall acc, fold_left vadd (map translation_vector (repeat TA n)) acc = V3 (vx acc + 6 * Z.of_nat n) (vy acc) (vz acc).
Proof.
  induction n as [| n IH]; intros acc; cbn [repeat map fold_left].
  - apply vec3_ext; cbn [vx vy vz]; lia.
  - rewrite IH, Nat2Z.inj_succ. cbn [translation_vector vx vy vz vadd]. f_equal; lia.
Qed.
Lemma parse_a n : (0 < n)%nat -> try_from_str ("P 1" ++ times n "a") = Done (Some (hall_a n)).
Proof.
  intros Hn.
  assert (T : forall k, times k "a" = chars letter_char (repeat TA k) ""%string).
  { induction k as [| k IH]; cbn [times repeat chars]; [reflexivity |]. rewrite IH. reflexivity. }
  assert (W : ("P 1" ++ times n "a")%string = hall_written false LP [letters_a n] "").
  { rewrite T. unfold hall_written, letters_a. cbn [chunks_text]. unfold chunk_text. cbn. now rewrite app_nil_s. }
  rewrite W. rewrite try_from_str_written.
  - vm_compute parse_origin_shift. cbn [obind map]. unfold letters_a, chunk_symbol. cbn.
    destruct n; [lia | reflexivity].
  - cbn [chunked]. split; [split; [discriminate |] |].
    + cbn [letters_a k_letters]. intros C. apply repeat_spec in C. discriminate.
    + split; [split; [intros C; exact C |] |].
      * intros _ _. split; intros C; exact C.
      * intros (bs & m & f & r & Hf & E). destruct bs as [| [] bs]; [| discriminate E | discriminate E].
        cbn in E. destruct m; [discriminate E |]. destruct f; discriminate E.
Qed.
Theorem C45_letter_bound_sharp :
  forall n, 357913942 <= Z.of_nat n ->
    try_from_str ("P 1" ++ times n "a") = Done (Some (hall_a n)) /\
    all_symbols_valid (hall_a n) /\ buffer_fits (hall_a n) /\ compatible (h_syms (hall_a n)) /\
    forall fuel, igeneral_positions DebugBuild fuel (hall_a n) = overflow.
Proof.
  intros n Hn. split; [apply parse_a; lia |].
  split; [intros ms [<- | []]; discriminate |]. split; [unfold buffer_fits; vm_compute; discriminate |].
  split; [left; intros ms [<- | []]; exact I |]. intros fuel.
  assert (S : iseitz_matrix DebugBuild (sym_a n) = overflow).
  { unfold iseitz_matrix. cbn [get_rotation_matrix sym_a ms_fold set_transform].
    unfold iset_letters. cbn [ms_trs sym_a].
    assert (exists a b, n = (a + S b)%nat /\ Z.of_nat a = 357913941) as (a & b & -> & Ea).
    { exists (Z.to_nat 357913941), (n - Z.to_nat 357913942)%nat. lia. }
    rewrite repeat_app, iletter_sum_app.
    rewrite iletter_sum_fits by (intros k ->; rewrite repeat_length; cbn [vx vy vz v0]; lia).
    rewrite sum_a, Ea. reflexivity. }
  unfold igeneral_positions, igenerate_unsorted. cbn [hall_a h_syms imax_equiv_pos]. rewrite S. reflexivity.
Qed.
(** beyond the bound a release build computes a wrong translation: 357913942 letters a add up
    to a whole number of cells, but the program finds 8/12 *)
Theorem C45_release_letters_refuted :
  forall n, Z.of_nat n = 357913942 ->
    seitz_matrix (sym_a n) = Some (aff I3 (V3 0 0 0)) /\
    iseitz_matrix ReleaseBuild (sym_a n) = Done (Some (aff I3 (V3 8 0 0))).
Proof.
  intros n Hn. split.
  - unfold seitz_matrix. cbn [get_rotation_matrix sym_a ms_fold set_transform ms_minus]. unfold set_translation_from_symbols.
    cbn [ms_trs sym_a]. unfold letter_sum. rewrite sum_a, Hn. reflexivity.
  - unfold iseitz_matrix. cbn [get_rotation_matrix sym_a ms_fold set_transform ms_minus]. unfold iset_letters. cbn [ms_trs sym_a].
    assert (exists a, n = (a + 1)%nat /\ Z.of_nat a = 357913941) as (a & -> & Ea).
    { exists (n - 1)%nat. lia. }
    rewrite repeat_app, iletter_sum_app.
    rewrite iletter_sum_fits by (intros k ->; rewrite repeat_length; cbn [vx vy vz v0]; lia).
    rewrite sum_a, Ea. reflexivity.
Qed.

(** ** With machine integers the generation always ends *)
Definition noof {A} (x : outcome A) : Prop := x <> OutOfFuel.
Lemma noof_bind {A B} (x : outcome A) (f : A -> outcome B) : noof x -> (forall a, noof (f a)) -> noof (obind x f).
Proof. unfold noof. destruct x; cbn; auto; discriminate. Qed.
Lemma noof_i32 p z : noof (i32 p z).
Proof. unfold i32, noof. destruct (in_i32 z); [discriminate |]. destruct p; discriminate. Qed.
Ltac noof := repeat first [apply noof_i32 | apply noof_bind; [| intros ?] | discriminate].
Lemma noof_mul p a b : noof (isz_mul p a b).
Proof. unfold isz_mul, imat4_mul, icolumn, idot, imul, iadd. noof. Qed.
Lemma noof_omap {A B} (f : A -> outcome B) l : (forall a, noof (f a)) -> noof (omap f l).
Proof. intros H. induction l as [| a l IH]; cbn [omap]; [discriminate |]. apply noof_bind; [apply H |]. intros. apply noof_bind; [exact IH |]. discriminate. Qed.
Lemma noof_plus p t tr : noof (iplus_mod p t tr).
Proof.
  unfold iplus_mod, ivadd, lift3, iadd. noof; unfold ipositive_mod, iadd; destruct (_ <? 0); noof.
Qed.
Lemma noof_minimal p lt t : noof (iminimal_repr p lt t).
Proof.
  unfold iminimal_repr. apply noof_bind; [| intros; apply noof_bind; [apply noof_omap, noof_plus | discriminate]].
  unfold lift3. noof; unfold ipositive_mod, iadd; destruct (_ <? 0); noof.
Qed.
Lemma noof_new p lt t s : noof (inew_everywhere p lt t s).
Proof.
  induction lt as [| tr lt IH]; cbn [inew_everywhere]; [discriminate |]. apply noof_bind; [apply noof_plus |]. intros u.
  destruct (set_mem u s); [discriminate |]. apply noof_bind; [unfold ivadd, iadd; noof |]. intros w.
  destruct (vforall _ w); [exact IH | discriminate].
Qed.
Lemma noof_add p lt st m : noof (iadd_to_list p lt st m).
Proof.
  unfold iadd_to_list. destruct (map_get _ _) as [s |].
  - apply noof_bind; [apply noof_new |]. intros []; [| discriminate]. apply noof_bind; [apply noof_minimal | discriminate].
  - apply noof_bind; [apply noof_minimal | discriminate].
Qed.
Lemma noof_inner p lt i js : forall st, noof (iinner_loop p lt i js st).
Proof.
  induction js as [| j js IH]; intros st; cbn [iinner_loop]; [discriminate |]. apply noof_bind; [apply noof_mul |]. intros x.
  apply noof_bind; [apply noof_add |]. intros [[|] st']; cbn [fst snd]; [discriminate | apply IH].
Qed.
Lemma noof_outer p lt l is_ : forall st, noof (iouter_loop p lt l is_ st).
Proof.
  induction is_ as [| i is_ IH]; intros st; cbn [iouter_loop]; [discriminate |]. apply noof_bind; [apply noof_inner |]. apply IH.
Qed.
Definition z32 (z : Z) : Prop := -2147483648 <= z <= 2147483647.
Definition mat32 (M : mat3) : Prop :=
  z32 (m11 M) /\ z32 (m12 M) /\ z32 (m13 M) /\ z32 (m21 M) /\ z32 (m22 M) /\ z32 (m23 M) /\ z32 (m31 M) /\ z32 (m32 M) /\ z32 (m33 M).
Lemma i32_range p z r : i32 p z = Done r -> z32 r.
Proof.
  unfold i32, in_i32, z32. destruct (_ && _) eqn:E.
  - intros [= <-]. apply andb_true_iff in E. rewrite !Z.leb_le in E. exact E.
  - destruct p; [discriminate |]. intros [= <-]. unfold wrap32.
    pose proof (Z.mod_pos_bound (z + 2147483648) 4294967296). lia.
Qed.
Lemma idot_range p a1 a2 a3 a4 b1 b2 b3 b4 r : idot p a1 a2 a3 a4 b1 b2 b3 b4 = Done r -> z32 r.
Proof.
  unfold idot. intros H. repeat (apply obind_Done in H; destruct H as (? & _ & H)). eapply i32_range. exact H.
Qed.
Lemma idot_bottom p b1 b2 b3 b4 : z32 b4 -> idot p 0 0 0 1 b1 b2 b3 b4 = Done b4.
Proof.
  intros H. unfold idot, imul, iadd. rewrite !Z.mul_0_l, Z.mul_1_l. rewrite (i32_fits p 0) by lia. cbn [obind].
  rewrite (i32_fits p (0 + 0)) by lia. cbn [obind]. rewrite (i32_fits p (0 + (0 + 0))) by lia. cbn [obind].
  rewrite (i32_fits p b4) by exact H. cbn [obind]. rewrite i32_fits; [f_equal; lia | unfold z32 in H; lia].
Qed.
Lemma mul_machine p i j x : is_affine i -> is_affine j -> isz_mul p i j = Done x ->
  is_affine x /\ mat32 (rot x) /\ vbetween (-11) 12 (tra x).
Proof.
  intros [Bi Ci] [Bj Cj] H. unfold isz_mul, imat4_mul in H.
  apply obind_Done in H. destruct H as (res & H & E). injection E as <-.
  apply obind_Done in H. destruct H as (c1 & H1 & H). apply obind_Done in H. destruct H as (c2 & H2 & H).
  apply obind_Done in H. destruct H as (c3 & H3 & H). apply obind_Done in H. destruct H as (c4 & H4 & H).
  injection H as <-. cbn [rot tra bot cor].
  assert (K : forall b1 b2 b3 b4 c, z32 b4 -> icolumn p i b1 b2 b3 b4 = Done c ->
    z32 (vx (fst c)) /\ z32 (vy (fst c)) /\ z32 (vz (fst c)) /\ snd c = b4).
  { intros b1 b2 b3 b4 c Zb Hc. unfold icolumn in Hc. rewrite Bi, Ci in Hc. cbn [vx vy vz] in Hc.
    apply obind_Done in Hc. destruct Hc as (r1 & R1 & Hc). apply obind_Done in Hc. destruct Hc as (r2 & R2 & Hc).
    apply obind_Done in Hc. destruct Hc as (r3 & R3 & Hc). rewrite idot_bottom in Hc by exact Zb. cbn [obind] in Hc.
    injection Hc as <-. cbn [fst snd vx vy vz]. repeat split; try reflexivity; eapply idot_range; eassumption. }
  rewrite Bj in H1, H2, H3. rewrite Cj in H4. cbn [vx vy vz] in H1, H2, H3.
  assert (Z0 : z32 0) by (unfold z32; lia). assert (Z1 : z32 1) by (unfold z32; lia).
  destruct (K _ _ _ _ _ Z0 H1) as (?&?&?&E1), (K _ _ _ _ _ Z0 H2) as (?&?&?&E2), (K _ _ _ _ _ Z0 H3) as (?&?&?&E3),
    (K _ _ _ _ _ Z1 H4) as (_&_&_&E4).
  split; [split; cbn [bot cor]; [now rewrite E1, E2, E3 | exact E4] |]. split.
  - unfold mat32. cbn [m11 m12 m13 m21 m22 m23 m31 m32 m33]. repeat match goal with |- _ /\ _ => split end; assumption.
  - apply vbetween_rem.
Qed.
Definition all32 (st : gstate) : Prop := forall m, In m (g_list st) -> mat32 (rot m).
Lemma iinner_machine p l i js : is_affine i -> (forall j, In j js -> is_affine j) -> forall st st',
  Inv l st -> all32 st -> iinner_loop p (translations l) i js st = Done st' ->
  Inv l st' /\ all32 st'.
Proof.
  intros Ai. induction js as [| j js IH]; intros Aj st st' I A H; cbn [iinner_loop] in H.
  - injection H as <-. split; assumption.
  - apply obind_Done in H. destruct H as (x & Hx & H).
    destruct (mul_machine p i j x Ai (Aj j (or_introl eq_refl)) Hx) as (X1 & X2 & X3).
    rewrite iadd_to_list_fits in H by (unfold vbetween, vsm, sm in *; lia). cbn [obind] in H.
    destruct (add_to_list (translations l) st x) as [b s1] eqn:E. cbn [fst snd] in H.
    destruct (add_to_list_spec l st x b s1 I X1 (vlow_between (-11) 12 _ ltac:(lia) X3) E)
      as [(-> & -> & _) | (-> & I' & m' & El & t & -> & _)].
    + apply (IH (fun k Hk => Aj k (or_intror Hk)) st st' I A H).
    + injection H as <-. split; [assumption |]. intros m Hm. rewrite El in Hm. apply in_app_iff in Hm.
      destruct Hm as [Hm | [<- | []]]; [now apply A | exact X2].
Qed.
Lemma iouter_machine p l js is_ : (forall j, In j js -> is_affine j) -> (forall i, In i is_ -> is_affine i) -> forall st st',
  Inv l st -> all32 st -> iouter_loop p (translations l) js is_ st = Done st' -> Inv l st' /\ all32 st'.
Proof.
  intros Aj. induction is_ as [| i is_ IH]; intros Ai st st' I A H; cbn [iouter_loop] in H.
  - injection H as <-. split; assumption.
  - apply obind_Done in H. destruct H as (s1 & H1 & H).
    destruct (iinner_machine p l i js (Ai i (or_introl eq_refl)) Aj st s1 I A H1) as [I1 A1].
    exact (IH (fun k Hk => Ai k (or_intror Hk)) s1 st' I1 A1 H).
Qed.
Lemma igen_loop_ends p l S fuel : (forall M, mat32 M -> In M S) -> forall st, Inv l st -> all32 st ->
  (length S * 1728 < fuel + length (g_list st))%nat -> igen_loop p fuel (translations l) st <> OutOfFuel.
Proof.
  intros HS. induction fuel as [| f IH]; intros st I A L.
  - exfalso. assert (K := inv_length l st S I (fun m Hm => HS _ (A m Hm))). cbn [Nat.add] in L. lia.
  - cbn [igen_loop]. destruct (ione_pass p (translations l) st) as [st' | w |] eqn:P; cbn [obind]; try discriminate.
    + assert (Af : forall m, In m (skipn 1 (g_list st)) -> is_affine m).
      { intros m Hm. apply (inv_affine l st I). destruct (g_list st); [exact Hm | now right]. }
      destruct (iouter_machine p l _ _ Af Af st st' I A P) as [I' A'].
      destruct (Nat.ltb_spec (length (g_list st)) (length (g_list st'))) as [L' | L']; [| discriminate].
      apply IH; auto. lia.
    + exfalso. exact (noof_outer p (translations l) _ _ st P).
Qed.
Lemma z32_list : exists l, forall z, z32 z -> In z l.
Proof.
  assert (G : forall n lo, exists l, forall z, lo <= z < lo + Z.of_nat n -> In z l).
  { induction n as [| n IH]; intros lo; [exists []; intros; lia |]. destruct (IH (lo + 1)) as (l & H).
    exists (lo :: l). intros z Hz. destruct (Z.eq_dec z lo); [now left |]. right. apply H. lia. }
  destruct (G (Z.to_nat 4294967296) (-2147483648)) as (l & H). exists l. intros z Hz. apply H. unfold z32 in Hz. lia.
Qed.
Lemma mat32_list : exists S, forall M, mat32 M -> In M S.
Proof.
  destruct z32_list as (l & H).
  exists (flat_map (fun a => flat_map (fun b => flat_map (fun c => flat_map (fun d => flat_map (fun e =>
     flat_map (fun f => flat_map (fun g => flat_map (fun h => map (fun i => M3 a b c d e f g h i) l) l) l) l) l) l) l) l) l).
  intros [a b c d e f g h i] (?&?&?&?&?&?&?&?&?). cbn [m11 m12 m13 m21 m22 m23 m31 m32 m33] in *.
  apply in_flat_map; exists a; split; [apply H; assumption |].
  apply in_flat_map; exists b; split; [apply H; assumption |].
  apply in_flat_map; exists c; split; [apply H; assumption |].
  apply in_flat_map; exists d; split; [apply H; assumption |].
  apply in_flat_map; exists e; split; [apply H; assumption |].
  apply in_flat_map; exists f; split; [apply H; assumption |].
  apply in_flat_map; exists g; split; [apply H; assumption |].
  apply in_flat_map; exists h; split; [apply H; assumption |].
  apply in_map_iff. exists i. split; [reflexivity | now apply H].
Qed.
Lemma isort_noof p h l : noof (isort_positions p h l).
Proof.
  unfold isort_positions. apply noof_bind.
  - unfold get_matrice_order. destruct (h_syms h); discriminate.
  - intros order. destruct l as [| a [| b l]]; try discriminate. apply noof_bind; [| discriminate].
    apply noof_omap. intros m. apply noof_bind; [| discriminate]. unfold iorder_index. apply noof_bind.
    + unfold ijones_rot, irotation_jf, ijf_row, ijf_entry, imul. noof; destruct (char_utf8 _); discriminate.
    + intros s. destruct (position _ _); discriminate.
Qed.
(** for every symbol, in either build: there are only finitely many matrices of machine integers *)
Theorem C45_machine_generation_ends :
  forall p s h, try_from_str s = Done (Some h) -> Z.of_nat (String.length s) <= 357913941 -> all_symbols_valid h ->
    exists fuel, igeneral_positions p fuel h <> OutOfFuel.
Proof.
  intros p s h H Len V. destruct (parsed_machine s h H) as [Sh L].
  assert (F : forall ms, In ms (h_syms h) -> few_letters ms) by (intros ms Hms; specialize (L ms Hms); unfold few_letters; lia).
  destruct mat32_list as (S & HS). exists (length S * 1728 + 1)%nat.
  apply noof_bind; [| intros; apply noof_bind; [apply isort_noof | discriminate]].
  rewrite igenerate_batch. unfold igenerate_batched. apply noof_bind.
  { generalize (lattice_equiv_num (h_lat h)). unfold all_symbols_valid in V. clear H L Len. 
    induction (h_syms h) as [| ms l IH]; intros z; cbn [imax_equiv_pos]; [discriminate |].
    rewrite iseitz_fits by auto with datatypes. cbn [obind].
    destruct (seitz_matrix ms) as [m |] eqn:M; [| discriminate]. rewrite (iequiv_fits p ms m M). cbn [obind].
    apply noof_bind; [| intros; apply IH; auto with datatypes]. unfold usize. destruct (_ && _); [discriminate |]. destruct p; discriminate. }
  intros n. destruct (capacity_limit <? n); [discriminate |]. rewrite ilattice_fits. cbn [obind].
  destruct (generators_valid h V) as (gs & Hgs). pose proof Hgs as Hgs'. unfold generators in Hgs'.
  rewrite (omap_same _ (symbol_generator h)) by (intros ms Hms; apply isymbol_fits; [exact Sh | now apply F]).
  destruct (omap (symbol_generator h) (h_syms h)) as [ss | |] eqn:Hss; try discriminate. cbn [obind] in *. injection Hgs' as Egs.
  rewrite Egs. rewrite iadd_all_fits by exact (generator_vlow_sm h gs Hgs). cbn [obind].
  destruct (generators_spec h gs Hgs) as (G1 & _ & _ & _).
  set (lat := ls_char (h_lat h)) in *.
  destruct (add_all_spec lat gs (GS [] []) (Inv_empty lat)) as (I & X & _).
  { intros g Hg. destruct (G1 g Hg) as (? & ? & _). auto. }
  apply (igen_loop_ends p lat S); auto; [| lia].
  destruct X as (ext & E' & He). intros m Hm. rewrite E' in Hm. cbn [g_list app] in Hm.
  destruct (He m Hm) as (g & Hg & t & -> & _). cbn [rot aff].
  assert (U : msm 1 (rot g)).
  { rewrite <- Egs in Hg. apply in_app_iff in Hg. destruct Hg as [Hg | Hg].
    - apply C24_lattice_generators in Hg. destruct Hg as (v & Hv & [-> | [_ ->]]); unfold msm, sm; cbn; lia.
    - apply omap_Done in Hss. clear - Hss Hg. induction Hss as [| ms x l r E Fa IH]; [destruct Hg |]. destruct Hg as [<- | Hg]; [| auto].
      unfold symbol_generator in E. destruct (seitz_matrix ms) as [m |] eqn:M; [| discriminate]. injection E as <-.
      destruct (seitz_matrix_tame ms m M) as (Am & Rm & _). rewrite (affine_aff m Am), shifted_matrix_aff. exact Rm. }
  unfold mat32, z32, msm, sm in *. lia.
Qed.
(** so for a symbol whose parts cannot be combined a debug build stops at an overflow *)
Corollary C45_debug_incompatible_overflows :
  forall s h, try_from_str s = Done (Some h) -> Z.of_nat (String.length s) <= 357913941 ->
    all_symbols_valid h -> buffer_fits h -> ~ compatible (h_syms h) ->
    exists fuel, igeneral_positions DebugBuild fuel h = overflow.
Proof.
  intros s h H Len V B N. destruct (C45_machine_generation_ends DebugBuild s h H Len V) as (fuel & F).
  exists fuel. destruct (C45_debug_build_exact_or_panics fuel h) as [E | E]; [exact E |].
  exfalso. apply N, C29_terminates_iff_compatible; [assumption | assumption |]. exists fuel. congruence.
Qed.

(** ** Single operations *)
(** products of matrices with entries up to 23170, equality of translations up to 2^30 *)
Theorem C45_product_fits :
  forall p a b, ssm 23170 a -> ssm 23170 b -> isz_mul p a b = Done (sz_mul a b).
Proof. intros p a b A B. apply (isz_mul_fits p 23170 23170); [assumption | assumption | lia]. Qed.
Theorem C45_equality_fits :
  forall p a b, vsm 1073741823 (tra a) -> vsm 1073741823 (tra b) -> isz_eq p a b = Done (sz_eqb a b).
Proof.
  intros p a b (?&?&?) (?&?&?). unfold sm in *. unfold isz_eq, sz_eqb, isub. destruct (meqb _ _); [| reflexivity].
  rewrite (i32_fits p (vx (tra a) - vx (tra b))) by lia. cbn [obind].
  rewrite (i32_fits p (vy (tra a) - vy (tra b))) by lia. cbn [obind].
  rewrite (i32_fits p (vz (tra a) - vz (tra b))) by lia. reflexivity.
Qed.
(** beyond that two machine translations a whole number of cells apart can be found different *)
Theorem C45_release_equality_refuted :
  let a := aff I3 (V3 2147483647 0 0) in let b := aff I3 (V3 (-5) 0 0) in
  sz_eqb a b = true /\ isz_eq ReleaseBuild a b = Done false /\ isz_eq DebugBuild a b = overflow.
Proof. cbv zeta. split; [| split]; vm_compute; reflexivity. Qed.
Lemma idot_fits3 p N K a1 a2 a3 a4 b1 b2 b3 b4 :
  sm N (a1 * b1) -> sm N (a2 * b2) -> sm N (a3 * b3) -> sm K (a4 * b4) -> 0 <= N -> 0 <= K -> 3 * N + K <= 2147483647 ->
  idot p a1 a2 a3 a4 b1 b2 b3 b4 = Done (a1 * b1 + a2 * b2 + a3 * b3 + a4 * b4).
Proof.
  intros P1 P2 P3 P4 HN HK H. unfold idot, imul, iadd.
  set (q1 := a1 * b1) in *. set (q2 := a2 * b2) in *. set (q3 := a3 * b3) in *. set (q4 := a4 * b4) in *.
  clearbody q1 q2 q3 q4. unfold sm in *.
  rewrite (i32_fits p q1) by lia. cbn [obind]. rewrite (i32_fits p q2) by lia. cbn [obind].
  rewrite (i32_fits p (q2 + q1)) by lia. cbn [obind]. rewrite (i32_fits p q3) by lia. cbn [obind].
  rewrite (i32_fits p (q3 + (q2 + q1))) by lia. cbn [obind]. rewrite (i32_fits p q4) by lia. cbn [obind].
  rewrite i32_fits by lia. f_equal; lia.
Qed.
Lemma sm1_mul N a b : 0 <= N -> sm 1 a -> sm N b -> sm N (a * b).
Proof. unfold sm. intros. nia. Qed.
Lemma icolumn_step p K a b1 b2 b3 b4 : is_affine a -> unit_matrix (rot a) -> vsm K (tra a) -> sm 23 b1 -> sm 23 b2 -> sm 23 b3 ->
  b4 = 0 \/ b4 = 1 -> 0 <= K -> K + 100 <= 2147483647 ->
  icolumn p a b1 b2 b3 b4 = Done (column a b1 b2 b3 b4).
Proof.
  intros [B C] (?&?&?&?&?&?&?&?&?) (T1&T2&T3) B1 B2 B3 B4 K0 K1. unfold icolumn, column. rewrite B, C. cbn [vx vy vz].
  assert (Q : forall t, sm K t -> sm K (t * b4)) by (unfold sm; intros t Ht; destruct B4 as [-> | ->]; lia).
  rewrite (idot_fits3 p 23 K) by (lia || (apply sm1_mul; (lia || assumption)) || (apply Q; assumption)). cbn [obind].
  rewrite (idot_fits3 p 23 K) by (lia || (apply sm1_mul; (lia || assumption)) || (apply Q; assumption)). cbn [obind].
  rewrite (idot_fits3 p 23 K) by (lia || (apply sm1_mul; (lia || assumption)) || (apply Q; assumption)). cbn [obind].
  rewrite (idot_fits3 p 23 1) by (lia || (unfold sm; lia)). reflexivity.
Qed.
Lemma imat4_step p K a b : is_affine a -> is_affine b -> unit_matrix (rot a) -> unit_matrix (rot b) ->
  vsm K (tra a) -> vsm 23 (tra b) -> 0 <= K -> K + 100 <= 2147483647 ->
  imat4_mul p a b = Done (mat4_mul a b) /\ vsm (K + 69) (tra (mat4_mul a b)).
Proof.
  intros A [Bb Cb] Ua (?&?&?&?&?&?&?&?&?) Ta (?&?&?) K0 K1.
  assert (W : forall z, -1 <= z <= 1 -> sm 23 z) by (unfold sm; lia).
  split.
  - rewrite <- mat4_mul_columns. unfold imat4_mul. rewrite Bb, Cb. cbn [vx vy vz].
    rewrite (icolumn_step p K) by (auto || lia). cbn [obind]. rewrite (icolumn_step p K) by (auto || lia). cbn [obind].
    rewrite (icolumn_step p K) by (auto || lia). cbn [obind]. rewrite (icolumn_step p K) by (auto || lia). reflexivity.
  - unfold mat4_mul. rewrite Cb. cbn [tra]. destruct Ua as (?&?&?&?&?&?&?&?&?), Ta as (?&?&?).
    assert (D : forall x y z t, sm 1 x -> sm 1 y -> sm 1 z -> sm K t -> sm (K + 69) (x * vx (tra b) + y * vy (tra b) + z * vz (tra b) + 1 * t)).
    { intros x y z t X Y Z T. pose proof (sm1_mul 23 x (vx (tra b)) ltac:(lia) X ltac:(assumption)) as P1.
      pose proof (sm1_mul 23 y (vy (tra b)) ltac:(lia) Y ltac:(assumption)) as P2.
      pose proof (sm1_mul 23 z (vz (tra b)) ltac:(lia) Z ltac:(assumption)) as P3. clear - P1 P2 P3 T. unfold sm in *. lia. }
    unfold vsm, vadd, mvmul, vscale. cbn [vx vy vz]. split; [| split]; apply D; assumption.
Qed.
Lemma ipow_step p m : is_affine m -> (forall k, unit_matrix (mpow (rot m) k)) -> vsm 23 (tra m) ->
  forall n acc k, is_affine acc -> rot acc = mpow (rot m) k -> vsm (69 * Z.of_nat k) (tra acc) ->
    69 * Z.of_nat (k + n) + 100 <= 2147483647 -> ipow_acc p m acc n = Done (mat4_pow_acc m acc n).
Proof.
  intros A U T. assert (U1 : unit_matrix (rot m)) by (specialize (U 1%nat); cbn [mpow] in U; now rewrite mmul_I_r in U).
  induction n as [| n IH]; intros acc k Aa R Ta L; cbn [ipow_acc mat4_pow_acc]; [reflexivity |].
  destruct (imat4_step p (69 * Z.of_nat k) acc m) as [E Te]; try assumption; try lia; [rewrite R; apply U |].
  rewrite E. cbn [obind]. apply (IH _ (S k)); [| | | lia].
  - rewrite (affine_aff acc Aa), (affine_aff m A), mat4_mul_aff. apply aff_affine.
  - rewrite (affine_aff acc Aa), (affine_aff m A), mat4_mul_aff. cbn [rot aff]. rewrite R.
    replace (S k) with (k + 1)%nat by lia. rewrite mpow_add. cbn [mpow]. now rewrite mmul_I_r.
  - unfold vsm, sm in Te |- *. rewrite Nat2Z.inj_succ. lia.
Qed.
(** powers are not reduced, so their translations grow: up to exponent 31122949 they fit *)
Theorem C45_positive_powers_fit :
  forall p m e, is_affine m -> (forall k, unit_matrix (mpow (rot m) k)) -> vsm 23 (tra m) ->
    0 <= e <= 31122949 -> ipowi p m e = powi m e.
Proof.
  intros p m e A U T H. unfold ipowi, powi. destruct (Z.compare_spec e 0) as [E | E | E]; [reflexivity | lia |].
  destruct (Z.to_nat e) as [| n] eqn:N; [lia |]. cbn [ipow_pos mat4_pow_pos].
  apply (ipow_step p m A U T n m 1%nat A).
  - cbn [mpow]. now rewrite mmul_I_r.
  - unfold vsm, sm in *. lia.
  - lia.
Qed.
Corollary C45_powers_of_generated_positions_fit :
  forall p fuel h g m e, general_positions fuel h = Done g -> compatible (h_syms h) -> In m (gp_core g) ->
    0 <= e <= 31122949 -> ipowi p m e = powi m e.
Proof.
  intros p fuel h g m e G C Hm H. destruct (C28_normalised fuel h g G m Hm) as [A T].
  destruct (C25_positions_sound fuel h g G m Hm) as [_ S].
  apply C45_positive_powers_fit; [assumption | | unfold vbetween, vsm, sm in *; lia | assumption].
  assert (K : forall k, exists t, hall_group h (mpow (rot m) k, t)).
  { induction k as [| k (t & Ht)]; [exists (V3 0 0 0); apply gen_one |]. eexists. exact (gen_comp _ _ _ S Ht). }
  intros k. destruct (K k) as (t & Ht). exact (compatible_unit h _ t C Ht).
Qed.
(** reading an origin shift: the numbers are any [i32]s, the arithmetic never overflows *)
Theorem C45_origin_shift_fits : forall p v, ishift_component p v = Done (shift_component v).
Proof. exact ishift_component_fits. Qed.

(** the hypotheses are met by ordinary symbols *)
Definition hall_p61 : hall :=
  Hall (LS true LF) [MS false F4 Sub1 DiagNone AxZ (Some [TD; TV; TW]); MS true F2 SubNone DiagNone AxX None; MS false F3 SubNone Asterisk AxZ None] (V3 0 (-7) 13).
Example C45_cases :
  try_from_str "-F 41dvw -2 3 (0 -7 25)" = Done (Some hall_p61) /\
  all_symbols_valid hall_p61 /\ buffer_fits hall_p61 /\ compatible (h_syms hall_p61) /\
  (exists h, try_from_str "P 4 3" = Done (Some h) /\ all_symbols_valid h /\ buffer_fits h /\
     exists fuel, igeneral_positions DebugBuild fuel h = overflow).
Proof.
  split; [vm_compute; reflexivity |].
  split; [intros ms [<- | [<- | [<- | []]]]; vm_compute; discriminate |].
  split; [unfold buffer_fits; vm_compute; discriminate |].
  split; [left; intros ms [<- | [<- | [<- | []]]]; exact I |].
  destruct C29_a_symbol_that_never_terminates as (h & H & V & B & N). exists h. split; [exact H | split; [exact V | split; [exact B |]]].
  apply (C45_debug_incompatible_overflows "P 4 3" h); [exact H | vm_compute; discriminate | exact V | exact B |].
  intros C. apply (C29_terminates_iff_compatible h V B) in C. destruct C as (f & C). apply C, N.
Qed.
