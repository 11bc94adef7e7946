(** * PropMessages: property C76: error texts and panic messages. *)
From Verif Require Import Base Notations Winnow Parser Seitz F64 Jones Rotations Tables Generate Positions Messages
  Spec SpecText SpecHall SpecXyz SpecCompat Algebra PropSeitz PropParser PropSymbols GenFacts PropGenerate
  PropJones PropTermination PropWork.
Open Scope Z_scope.
Open Scope string_scope.
Local Notation length := List.length.

(** ** The [Debug] text tells all fields *)
(** letters and digits *)
Definition wordc (c : ascii) : bool :=
  let n := Z.of_nat (nat_of_ascii c) in
  (((48 <=? n) && (n <=? 57)) || ((65 <=? n) && (n <=? 90)) || ((97 <=? n) && (n <=? 122)))%Z.
Fixpoint word (s : string) : bool := match s with EmptyString => true | String c r => wordc c && word r end.
Definition stops (s : string) : bool := match s with EmptyString => true | String c _ => negb (wordc c) end.
Lemma word_split a : forall b s t, word a = true -> word b = true -> stops s = true -> stops t = true ->
  a ++ s = b ++ t -> a = b /\ s = t.
Proof.
  induction a as [| c a IH]; intros [| d b] s t A B S T E; cbn [append] in E.
  - auto.
  - exfalso. subst s. cbn [stops word] in *. apply andb_true_iff in B. destruct B as [B _]. rewrite B in S. discriminate.
  - exfalso. subst t. cbn [stops word] in *. apply andb_true_iff in A. destruct A as [A _]. rewrite A in T. discriminate.
  - injection E as -> E. cbn [word] in A, B. apply andb_true_iff in A, B.
    destruct (IH b s t (proj2 A) (proj2 B) S T E) as [-> ->]. auto.
Qed.
Lemma prefix_cancel p : forall s t, p ++ s = p ++ t -> s = t.
Proof. induction p as [| c p IH]; intros s t E; cbn [append] in E; [exact E |]. injection E as E. auto. Qed.
Lemma bool_debug_inj a b : bool_debug a = bool_debug b -> a = b.
Proof. destruct a, b; cbn; congruence. Qed.
Lemma nfold_debug_inj a b : nfold_debug a = nfold_debug b -> a = b.
Proof. destruct a, b; cbn; congruence. Qed.
Lemma sub_debug_inj a b : sub_debug a = sub_debug b -> a = b.
Proof. destruct a, b; cbn; congruence. Qed.
Lemma diag_debug_inj a b : diag_debug a = diag_debug b -> a = b.
Proof. destruct a, b; cbn; congruence. Qed.
Lemma axis_debug_inj a b : axis_debug a = axis_debug b -> a = b.
Proof. destruct a, b; cbn; congruence. Qed.
Lemma tsym_debug_inj a b : tsym_debug a = tsym_debug b -> a = b.
Proof. destruct a, b; cbn; congruence. Qed.
Lemma append_assoc a b c : (a ++ b) ++ c = a ++ (b ++ c).
Proof. induction a as [| x a IH]; cbn [append]; [reflexivity | now rewrite IH]. Qed.
Lemma trs_list_inj l : forall k e, sjoin ", " (map tsym_debug l) ++ String "]" e = sjoin ", " (map tsym_debug k) ++ String "]" e -> l = k.
Proof.
  assert (W : forall t, word (tsym_debug t) = true) by (intros t; destruct t; reflexivity).
  assert (N : forall x r e, sjoin ", " (map tsym_debug (x :: r)) ++ String "]" e =
     tsym_debug x ++ (match r with [] => String "]" e | _ => ", " ++ (sjoin ", " (map tsym_debug r) ++ String "]" e) end)).
  { intros x r e. destruct r as [| y r]; [reflexivity |].
    change (sjoin ", " (map tsym_debug (x :: y :: r))) with (tsym_debug x ++ (", " ++ sjoin ", " (map tsym_debug (y :: r)))).
    now rewrite !append_assoc. }
  assert (S : forall (r : list tsym) e, stops (match r with [] => String "]" e | _ => ", " ++ (sjoin ", " (map tsym_debug r) ++ String "]" e) end) = true).
  { intros [| y r] e; reflexivity. }
  induction l as [| x l IH]; intros [| y k] e E.
  - reflexivity.
  - exfalso. rewrite N in E. destruct y; discriminate E.
  - exfalso. rewrite N in E. destruct x; discriminate E.
  - rewrite !N in E. destruct (word_split _ _ _ _ (W x) (W y) (S l e) (S k e) E) as [X R].
    apply tsym_debug_inj in X. subst y. f_equal.
    destruct l as [| a l], k as [| b k]; try discriminate R; [reflexivity |].
    apply (IH (b :: k) e). exact (prefix_cancel ", " _ _ R).
Qed.
Lemma trs_debug_inj a b : trs_debug a ++ " }" = trs_debug b ++ " }" -> a = b.
Proof.
  destruct a as [l |], b as [k |]; cbn [trs_debug]; intros E.
  - f_equal. apply (trs_list_inj l k ") }"). apply (prefix_cancel "Some([").
    rewrite !append_assoc in E. exact E.
  - discriminate E. - discriminate E. - reflexivity.
Qed.
Theorem C76_debug_text_identifies : forall a b, msym_debug a = msym_debug b -> a = b.
Proof.
  intros [m f s d a t] [m' f' s' d' a' t'] E. unfold msym_debug in E. cbn [ms_minus ms_fold ms_sub ms_diag ms_axis ms_trs] in E.
  apply (prefix_cancel "MatrixSymbol { minus_sign: ") in E.
  apply word_split in E; [| destruct m; reflexivity | destruct m'; reflexivity | reflexivity | reflexivity].
  destruct E as [Em E]. apply bool_debug_inj in Em. apply (prefix_cancel ", nfold_body: ") in E.
  apply word_split in E; [| destruct f; reflexivity | destruct f'; reflexivity | reflexivity | reflexivity].
  destruct E as [Ef E]. apply nfold_debug_inj in Ef. apply (prefix_cancel ", nfold_sub: ") in E.
  apply word_split in E; [| destruct s; reflexivity | destruct s'; reflexivity | reflexivity | reflexivity].
  destruct E as [Es E]. apply sub_debug_inj in Es. apply (prefix_cancel ", nfold_diag: ") in E.
  apply word_split in E; [| destruct d; reflexivity | destruct d'; reflexivity | reflexivity | reflexivity].
  destruct E as [Ed E]. apply diag_debug_inj in Ed. apply (prefix_cancel ", rotation_axis: ") in E.
  apply word_split in E; [| destruct a; reflexivity | destruct a'; reflexivity | reflexivity | reflexivity].
  destruct E as [Ea E]. apply axis_debug_inj in Ea. apply (prefix_cancel ", translation_symbols: ") in E.
  apply trs_debug_inj in E. congruence.
Qed.
(** hence so do both texts of the error *)
Theorem C76_error_text_identifies :
  forall a b, (error_text a = error_text b -> a = b) /\ (error_debug a = error_debug b -> a = b).
Proof.
  assert (Z : forall s t, s ++ ")" = t ++ ")" -> s = t).
  { induction s as [| c s IH]; intros [| d t] E; cbn [append] in E; try reflexivity.
    - injection E as _ E. destruct t; discriminate E.
    - injection E as _ E. destruct s; discriminate E.
    - injection E as -> E. f_equal. auto. }
  intros [x |] [y |]; split; cbn [error_text error_debug]; intros E; try discriminate E; try reflexivity.
  - f_equal. exact (C76_debug_text_identifies x y (prefix_cancel _ _ _ E)).
  - f_equal. apply C76_debug_text_identifies, Z, (prefix_cancel "Invalid("). exact E.
Qed.
(** (the [Display] text of a symbol does not: see also C08) *)
Example C76_display_text_ambiguous : exists a b, a <> b /\ msym_text a = msym_text b.
Proof. exists (MS false F2 SubNone DiagNone AxZ None), (MS false F2 SubNone DiagNone AxOmitted None). split; [discriminate | reflexivity]. Qed.

(** ** Panic messages *)
Lemma seitz_matrix_e_valid ms m : seitz_matrix ms = Some m -> seitz_matrix_e ms = inl m.
Proof. intros E. unfold seitz_matrix_e. now rewrite E. Qed.
Lemma fold_panic_m l : forall w, fold_left (fun acc ms =>
    obind acc (fun a =>
      match seitz_matrix_e ms with
      | inr e => Panic (expect_text "Invalid Seitz Matrix" (error_debug e))
      | inl m => match sz_equiv_num m with
                 | Some n => Done (a * n)%Z
                 | None => Panic (expect_text "Invalid Seitz Matrix" "NotRotationMatrix")
                 end
      end)) l (Panic w) = Panic w.
Proof. induction l as [| x l IH]; intros w; cbn [fold_left obind]; auto. Qed.
Lemma max_m_first pre : forall (ms : msym) post lat v, (forall s, In s pre -> seitz_matrix s <> None) -> seitz_matrix ms = None ->
  max_equiv_pos_m (Hall lat (pre ++ ms :: post)%list v) = Panic (expect_text "Invalid Seitz Matrix" (error_debug (EInvalid ms))).
Proof.
  intros ms post lat v. unfold max_equiv_pos_m. cbn [h_syms h_lat]. generalize (lattice_equiv_num lat) as z.
  induction pre as [| x pre IH]; intros z V E; cbn [app fold_left obind].
  - assert (Q : seitz_matrix_e ms = inr (EInvalid ms)) by (unfold seitz_matrix_e; now rewrite E). rewrite Q. apply fold_panic_m.
  - destruct (seitz_matrix x) as [m |] eqn:M; [| exfalso; apply (V x); simpl; auto].
    rewrite (seitz_matrix_e_valid x m M), (sz_equiv_num_fold x m M). apply IH; auto. intros s I. apply V; simpl; auto.
Qed.
Lemma max_m_valid h : all_symbols_valid h -> max_equiv_pos_m h = max_equiv_pos h.
Proof.
  unfold all_symbols_valid, max_equiv_pos_m, max_equiv_pos. generalize (lattice_equiv_num (h_lat h)) as z.
  induction (h_syms h) as [| x l IH]; intros z V; cbn [fold_left obind]; [reflexivity |].
  destruct (seitz_matrix x) as [m |] eqn:M; [| exfalso; apply (V x); simpl; auto].
  rewrite (seitz_matrix_e_valid x m M), (sz_equiv_num_fold x m M). apply IH. intros s I. apply V; simpl; auto.
Qed.
Lemma generators_m_valid h : all_symbols_valid h -> generators_m h = generators h.
Proof.
  intros V. unfold generators_m, generators. f_equal. unfold all_symbols_valid in V.
  induction (h_syms h) as [| x l IH]; [reflexivity |]. cbn [omap].
  destruct (seitz_matrix x) as [m |] eqn:M; [| exfalso; apply (V x); simpl; auto].
  unfold symbol_generator_m at 1, symbol_generator at 1. rewrite (seitz_matrix_e_valid x m M), M. cbn [obind].
  rewrite IH; [reflexivity |]. intros s I. apply V; simpl; auto.
Qed.
Lemma unsorted_m_valid fuel h : all_symbols_valid h -> generate_unsorted_m fuel h = generate_unsorted fuel h.
Proof. intros V. unfold generate_unsorted_m, generate_unsorted. now rewrite max_m_valid, generators_m_valid. Qed.
Lemma first_invalid l : (exists s, In s l /\ seitz_matrix s = None) ->
  exists pre ms post, l = (pre ++ ms :: post)%list /\ (forall s, In s pre -> seitz_matrix s <> None) /\ seitz_matrix ms = None.
Proof.
  induction l as [| x l IH]; intros (s & I & E); [destruct I |].
  destruct (seitz_matrix x) as [m |] eqn:M.
  - destruct I as [-> | I]; [congruence |]. destruct (IH (ex_intro _ s (conj I E))) as (pre & ms & post & -> & V & N).
    exists (x :: pre), ms, post. split; [reflexivity |]. split; auto. intros s' [<- | I']; [congruence | auto].
  - exists [], x, l. split; [reflexivity |]. split; [intros s2 [] | exact M].
Qed.
Lemma valid_dec h : all_symbols_valid h \/ exists s, In s (h_syms h) /\ seitz_matrix s = None.
Proof.
  unfold all_symbols_valid. induction (h_syms h) as [| x l [IH | (s & I & E)]].
  - left. intros s [].
  - destruct (seitz_matrix x) as [m |] eqn:M; [left | right; exists x; simpl; auto]. intros s [<- | I]; [congruence | auto].
  - right. exists s. simpl; auto.
Qed.
(** the message of a call with an invalid symbol shows the first such symbol *)
Theorem C76_first_invalid_symbol_named :
  forall h pre ms post fuel, h_syms h = (pre ++ ms :: post)%list ->
    (forall s, In s pre -> seitz_matrix s <> None) -> seitz_matrix ms = None ->
    forall w, panics_with fuel h w <-> w = "Invalid Seitz Matrix: Invalid(" ++ msym_debug ms ++ ")".
Proof.
  intros [lat syms v] pre ms post fuel E V N w. cbn [h_syms] in E. subst syms.
  unfold panics_with, generate_unsorted_m. rewrite (max_m_first pre ms post lat v V N). cbn [obind].
  split.
  - intros [H | (l & H & _)]; [| discriminate H]. injection H as <-. reflexivity.
  - intros ->. left. reflexivity.
Qed.
(** the order table of the first symbol *)
Lemma order_of h ms rest : h_syms h = ms :: rest -> get_matrice_order h = Done (table_for ms).
Proof. intros E. unfold get_matrice_order, table_for. rewrite E. destruct (ms_fold ms), (ms_diag ms); reflexivity. Qed.
Lemma unlisted_iff order m s : jones_rot m = Done s -> (position (String.eqb s) order = None <-> forall i, ~ rank order m i).
Proof.
  intros J. split.
  - intros P i R. apply order_index_rank in R. unfold order_index in R. rewrite J in R. cbn [obind] in R. rewrite P in R. discriminate R.
  - intros N. destruct (position (String.eqb s) order) as [i |] eqn:P; [| reflexivity]. exfalso. apply (N i), order_index_rank.
    unfold order_index. rewrite J. cbn [obind]. now rewrite P.
Qed.
Lemma sort_messages fuel h l : generate_unsorted fuel h = Done l ->
  ((exists w, sort_positions h l = Panic w) <-> (exists w, sort_panics_with h l w)).
Proof.
  intros U. destruct (h_syms h) as [| ms rest] eqn:Es.
  { split; intros _; [| apply C30_no_symbols_panics; exact Es].
    eexists. apply spw_no_symbol. unfold get_matrice_order. rewrite Es. reflexivity. }
  rewrite (C30_sort_panics_iff h ms rest l Es). split.
  - intros (L & m & I & N). pose proof (unsorted_compatible _ _ _ U) as CO.
    destruct (generate_unsorted_spec _ _ _ U) as (_ & _ & G & _).
    destruct (C23_rotation_text_reads_back m (group_unit h (rot m) (tra m) CO (G m I))) as (s & q & J & _).
    exists (s ++ " fails to match"). apply (spw_unlisted h l (table_for ms) m s); auto.
    + exact (order_of h ms rest Es). + apply (unlisted_iff _ m s J), N.
  - intros (w & H). inversion H as [w' E | order m s E L I J P]; subst.
    + rewrite (order_of h ms rest Es) in E. discriminate E.
    + rewrite (order_of h ms rest Es) in E. injection E as <-. split; [exact L |]. exists m. split; [exact I |].
      apply (unlisted_iff _ m s J), P.
Qed.
(** a call panics in the sense of the other theorems exactly when it may panic with some message *)
Theorem C76_messages_cover_panics :
  forall fuel h, (exists w, general_positions fuel h = Panic w) <-> (exists w, panics_with fuel h w).
Proof.
  intros fuel h. destruct (valid_dec h) as [V | X].
  - unfold panics_with, general_positions, generate_positions. rewrite (unsorted_m_valid fuel h V).
    destruct (generate_unsorted fuel h) as [l | w |] eqn:U; cbn [obind].
    + pose proof (sort_messages fuel h l U) as S. split.
      * intros (w & H). destruct (proj1 S) as (w' & W).
        { destruct (sort_positions h l) as [x | w' |]; cbn [obind] in H; [discriminate H | eauto | discriminate H]. }
        exists w'. right. exists l. auto.
      * intros (w & [H | (l' & E & H)]); [discriminate H |]. injection E as <-.
        destruct (proj2 S (ex_intro _ w H)) as (w' & ->). cbn [obind]. eauto.
    + split; intros _; [exists w; auto | exists w; auto].
    + split; [intros (w & H); discriminate H | intros (w & [H | (l & H & _)]); discriminate H].
  - split; intros _.
    + destruct (first_invalid _ X) as (pre & ms & post & E & V & N). eexists.
      apply (C76_first_invalid_symbol_named h pre ms post fuel E V N). reflexivity.
    + apply C29_invalid_symbol_panics. intros V. destruct X as (s & I & N). exact (V s I N).
Qed.
(** what a message can be *)
Theorem C76_messages :
  forall fuel h w, panics_with fuel h w ->
    (exists ms, In ms (h_syms h) /\ seitz_matrix ms = None /\ w = "Invalid Seitz Matrix: Invalid(" ++ msym_debug ms ++ ")") \/
    (~ buffer_fits h /\ w = "capacity overflow") \/
    (h_syms h = [] /\ w = "called `Option::unwrap()` on a `None` value") \/
    (exists R t s first rest, hall_group h (R, t) /\ jones_rot (aff R v0) = Done s /\
       h_syms h = first :: rest /\ ~ In s (table_for first) /\ w = s ++ " fails to match").
Proof.
  intros fuel h w H. destruct (valid_dec h) as [V | X].
  - right. unfold panics_with in H. rewrite (unsorted_m_valid fuel h V) in H. destruct H as [H | (l & U & H)].
    + left. unfold generate_unsorted in H. rewrite (proj1 (max_equiv_pos_spec h) V) in H. cbn [obind] in H.
      destruct (Z.ltb_spec capacity_limit (lattice_equiv_num (h_lat h) * prod_folds (h_syms h))) as [L | L].
      * injection H as <-. split; [| reflexivity]. unfold buffer_fits. unfold lattice_equiv_num, capacity_limit in L.
        destruct (C24_centring_group (ls_char (h_lat h))) as (_&_&_&_&_&E). rewrite E in L.
        destruct (ls_minus (h_lat h)); lia.
      * exfalso. destruct (generators_valid h V) as (gs & ->) in H. cbn [obind] in H. exact (gen_loop_no_panic _ _ _ _ H).
    + right. inversion H as [w' E | order m s E L I J P]; subst.
      * left. unfold get_matrice_order in E. destruct (h_syms h); [| discriminate E]. injection E as <-. auto.
      * right. destruct (h_syms h) as [| first rest] eqn:Es; [unfold get_matrice_order in E; rewrite Es in E; discriminate E |].
        rewrite (order_of h first rest Es) in E. injection E as <-.
        destruct (generate_unsorted_spec _ _ _ U) as (_ & _ & G & _).
        exists (rot m), (tra m), s, first, rest. split; [exact (G m I) |]. split; [exact J |]. split; [reflexivity |].
        split; [| reflexivity]. intros K.
        clear - P K. induction (table_for first) as [| y t IH]; [destruct K |]. cbn [position] in P.
        destruct (String.eqb_spec s y) as [-> | N]; [discriminate P |]. destruct K as [-> | K]; [congruence |].
        destruct (position (String.eqb s) t); [discriminate P | auto].
  - left. destruct (first_invalid _ X) as (pre & ms & post & E & V & N).
    pose proof (proj1 (C76_first_invalid_symbol_named h pre ms post fuel E V N w) H) as ->.
    exists ms. split; [| auto]. rewrite E. apply in_app_iff. simpl; auto.
Qed.

(** ** The error of [try_from_str] tells the two reasons apart *)
Lemma try_e_erases s : try_from_str s =
  match try_from_str_e s with Done (inl h) => Done (Some h) | Done (inr _) => Done None | Panic w => Panic w | OutOfFuel => OutOfFuel end.
Proof.
  unfold try_from_str, try_from_str_e. destruct (parse_lattice_symbol s) as [lat r | r]; [| reflexivity].
  destruct (parse_symbols _ r) as [[ms rest] | w |]; cbn [obind]; try reflexivity.
  destruct (parse_origin_shift rest) as [[sh |] | w |]; reflexivity.
Qed.
Theorem C76_parse_error :
  forall s,
    (forall h, try_from_str_e s = Done (inl h) <-> try_from_str s = Done (Some h)) /\
    (try_from_str_e s = Done (inr []) <-> forall minus lat r, s <> sign minus ++ String (lattice_char lat) r) /\
    (try_from_str_e s = Done (inr ["Incorrect input: not `i32`"]) <->
       exists minus lat ks rest, s = hall_written minus lat ks rest /\ chunked ks rest /\ short_list rest) /\
    (forall e, try_from_str_e s = Done (inr e) -> e = [] \/ e = ["Incorrect input: not `i32`"]).
Proof.
  intros s. pose proof (try_e_erases s) as Er. pose proof (C02_rejected_iff s) as Rj. pose proof (parse_lattice_inv s) as L.
  assert (Sh : forall e, try_from_str_e s = Done (inr e) ->
    (e = [] /\ exists r, parse_lattice_symbol s = PErr r) \/
    (e = ["Incorrect input: not `i32`"] /\ exists l r, parse_lattice_symbol s = POk l r)).
  { intros e H. unfold try_from_str_e in H. destruct (parse_lattice_symbol s) as [lat r | r].
    - right. destruct (parse_symbols _ r) as [[ms rest] | w |]; cbn [obind] in H; try discriminate H.
      destruct (parse_origin_shift rest) as [[sh |] | w |]; cbn [obind] in H; try discriminate H. injection H as <-. split; [reflexivity | eauto].
    - left. injection H as <-. split; [reflexivity | eauto]. }
  split.
  { intros h. rewrite Er. destruct (try_from_str_e s) as [[h' | e] | w |]; split; intros H; try discriminate H; congruence. }
  assert (NL : forall minus lat ks rest, s = hall_written minus lat ks rest -> exists r, s = sign minus ++ String (lattice_char lat) r).
  { intros m l ks rest E. rewrite E. unfold hall_written. eauto. }
  split; [| split].
  - split.
    + intros H. destruct (Sh _ H) as [(_ & r & E) | (X & _)]; [| discriminate X]. rewrite E in L. exact L.
    + intros N. destruct (parse_lattice_symbol s) as [l r | r] eqn:E; [exfalso; exact (N _ _ _ L) |].
      unfold try_from_str_e. now rewrite E.
  - split.
    + intros H. rewrite H in Er. destruct (proj1 Rj Er) as [N | K]; [exfalso | exact K].
      destruct (Sh _ H) as [(X & _) | (_ & l & r & E)]; [discriminate X |]. rewrite E in L. exact (N _ _ _ L).
    + intros K. pose proof (proj2 Rj (or_intror K)) as R. rewrite R in Er. clear R.
      destruct (try_from_str_e s) as [[h' | e] | w |] eqn:H; try discriminate Er.
      destruct (Sh _ eq_refl) as [(_ & r & E) | (-> & _)]; [exfalso | reflexivity].
      rewrite E in L. destruct K as (m & l & ks & rest & W & _). destruct (NL _ _ _ _ W) as (r' & E'). exact (L _ _ _ E').
  - intros e H. destruct (Sh _ H) as [(-> & _) | (-> & _)]; auto.
Qed.
Example C76_cases :
  (exists h, try_from_str "P 42" = Done (Some h) /\ forall fuel w, panics_with fuel h w <->
     w = "Invalid Seitz Matrix: Invalid(MatrixSymbol { minus_sign: false, nfold_body: N4, nfold_sub: N2, nfold_diag: None, rotation_axis: Z, translation_symbols: None })") /\
  (exists h, try_from_str "P 2 3" = Done (Some h) /\ exists w, panics_with 10 h w) /\
  (exists h, try_from_str "P" = Done (Some h) /\ panics_with 10 h "called `Option::unwrap()` on a `None` value") /\
  try_from_str_e "Q 1" = Done (inr []) /\ try_from_str_e "P 1 (1 2)" = Done (inr ["Incorrect input: not `i32`"]).
Proof.
  split; [| split; [| split; [| split]]]; [| | | vm_compute; reflexivity | vm_compute; reflexivity].
  - exists (Hall (LS false LP) [MS false F4 Sub2 DiagNone AxZ None] v0). split; [vm_compute; reflexivity |].
    intros fuel. refine (C76_first_invalid_symbol_named (Hall (LS false LP) [MS false F4 Sub2 DiagNone AxZ None] v0)
      [] (MS false F4 Sub2 DiagNone AxZ None) [] fuel eq_refl _ eq_refl). intros s [].
  - exists (Hall (LS false LP) [MS false F2 SubNone DiagNone AxZ None; MS false F3 SubNone DiagNone AxZ None] v0).
    split; [vm_compute; reflexivity |]. apply C76_messages_cover_panics.
    match goal with |- exists w, ?x = _ => let y := eval vm_compute in x in change x with y end. eauto.
  - exists (Hall (LS false LP) [] v0). split; [vm_compute; reflexivity |]. right. exists [sz_identity].
    split; [vm_compute; reflexivity |]. apply spw_no_symbol. reflexivity.
Qed.
