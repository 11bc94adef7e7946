(** * PropPrinted: property C85: printing tabulated notations and looking the text up again. *)
From Verif Require Import Base Notations Winnow Parser Seitz F64 Jones Rotations Tables Lookup Generate Positions Order SpecXyz SpecPrinted
  Algebra PropSymbols PropOrder PropRoundTrip.
Open Scope Z_scope.
Local Notation length := List.length.

(** ** What the positions of a notation depend on *)
Lemma rotation_kept ms a : seitz_matrix ms = Some a -> exists r, get_rotation_matrix ms = Some r /\
  rot a = if ms_minus ms then mmul (mopp I3) (rot r) else rot r.
Proof.
  unfold seitz_matrix. destruct (get_rotation_matrix ms) as [r |]; [| discriminate].
  destruct (set_transform ms r) as [v |] eqn:Tr; [| discriminate]. intros E. apply (f_equal (option_map rot)) in E. cbn [option_map] in E.
  exists r. split; [reflexivity |].
  assert (V : rot v = rot r).
  { clear E. unfold set_transform, axis_column in Tr. destruct (ms_fold ms), (ms_sub ms), (ms_axis ms); cbn [option_map] in Tr; try discriminate; injection Tr as <-; reflexivity. }
  assert (W : rot (set_translation_from_symbols ms v) = rot v) by (unfold set_translation_from_symbols; destruct (ms_trs ms); reflexivity).
  destruct (ms_minus ms); injection E as <-; cbn [set_inversion rot]; now rewrite W, V.
Qed.
Lemma star_by_matrix m m' a : ms_fold m = F3 -> ms_fold m' = F3 -> ms_minus m' = ms_minus m ->
  seitz_matrix m = Some a -> seitz_matrix m' = Some a -> ms_diag m = Asterisk -> ms_diag m' = Asterisk.
Proof.
  intros F F' Mi E E' D. apply rotation_kept in E, E'. destruct E as (r & G & R), E' as (r' & G' & R').
  unfold get_rotation_matrix in G, G'. rewrite F, D in G. rewrite F' in G'. cbn [option_map] in G. injection G as <-.
  rewrite Mi, R in R'. clear R. destruct (ms_diag m'); [| discriminate | discriminate | reflexivity]. exfalso.
  destruct (ms_axis m'); cbn [rot3 option_map] in G'; try discriminate; injection G' as <-; destruct (ms_minus m); vm_compute in R'; discriminate.
Qed.
Definition body_alike (m m' : msym) : Prop := ms_fold m' = ms_fold m /\ ms_minus m' = ms_minus m /\ seitz_matrix m' = seitz_matrix m.
Lemma max_alike l l' : Forall2 body_alike l l' -> forall acc,
  fold_left (fun acc ms => obind acc (fun a => match seitz_matrix ms with
      | None => Panic "Invalid Seitz Matrix"
      | Some m => match sz_equiv_num m with Some n => Done (a * n) | None => Panic "Invalid Seitz Matrix" end end)) l' acc =
  fold_left (fun acc ms => obind acc (fun a => match seitz_matrix ms with
      | None => Panic "Invalid Seitz Matrix"
      | Some m => match sz_equiv_num m with Some n => Done (a * n) | None => Panic "Invalid Seitz Matrix" end end)) l acc.
Proof.
  induction 1 as [| m m' l l' (_ & _ & E) F IH]; intros acc; [reflexivity |]. cbn [fold_left]. rewrite E. apply IH.
Qed.
Lemma positions_alike fuel h h' : h_lat h' = h_lat h -> h_shift h' = h_shift h -> Forall2 body_alike (h_syms h) (h_syms h') ->
  general_positions fuel h' = general_positions fuel h.
Proof.
  intros L S F. unfold general_positions, generate_positions, generate_unsorted, max_equiv_pos, generators. rewrite L.
  rewrite (max_alike _ _ F).
  assert (G : omap (symbol_generator h') (h_syms h') = omap (symbol_generator h) (h_syms h)).
  { clear - F S. induction F as [| m m' l l' (_ & _ & E) F IH]; [reflexivity |]. cbn [omap]. rewrite IH.
    replace (symbol_generator h' m') with (symbol_generator h m) by (unfold symbol_generator; now rewrite E, S). reflexivity. }
  rewrite G. clear G.
  destruct (fold_left _ (h_syms h) _) as [n | |] eqn:M; cbn [obind]; try reflexivity.
  destruct (capacity_limit <? n); [reflexivity |].
  destruct (omap (symbol_generator h) (h_syms h)) as [gs | |] eqn:Gs; cbn [obind]; try reflexivity.
  destruct (gen_loop _ _ _) as [l | |]; cbn [obind]; try reflexivity.
  assert (O : get_matrice_order h' = get_matrice_order h).
  { unfold get_matrice_order. destruct F as [| m m' r r' (Fo & Mi & E) F]; [reflexivity |]. rewrite Fo.
    destruct (ms_fold m) eqn:Fm; try reflexivity.
    assert (V : exists a, seitz_matrix m = Some a).
    { cbn [omap] in Gs. unfold symbol_generator in Gs at 1. destruct (seitz_matrix m) as [a |]; [eauto | discriminate]. }
    destruct V as (a & V). rewrite V in E.
    pose proof (star_by_matrix m m' a Fm Fo Mi V E) as A. pose proof (star_by_matrix m' m a Fo Fm (eq_sym Mi) E V) as B.
    destruct (ms_diag m), (ms_diag m'); try reflexivity; try (specialize (A eq_refl); discriminate); specialize (B eq_refl); discriminate. }
  unfold sort_positions. now rewrite O.
Qed.
(** C85: whenever every symbol whose direction the printed text loses is a plain body-diagonal
    threefold axis, the printed text gives the same positions, in the same order, and panics or loops
    alike *)
Theorem C85_printed_same_positions : forall s h, try_from_str s = Done (Some h) ->
  (forall i m, nth_error (h_syms h) i = Some m -> lossy i m -> plain_star m) ->
  exists h', try_from_str (hall_text h) = Done (Some h') /\ forall fuel, general_positions fuel h' = general_positions fuel h.
Proof.
  intros s h H L. destruct (C05_same_operations s h H L) as (h' & E & La & Sh & Ma).
  destruct (C05_always_kept s h H) as (h'' & E' & _ & _ & Len & B). rewrite E in E'. injection E' as <-.
  exists h'. split; [exact E |]. intros fuel. apply positions_alike; [exact La | exact Sh |].
  clear - Ma Len B. revert Ma Len B. generalize (h_syms h) (h_syms h'). intros l l'. revert l'.
  induction l as [| m l IH]; intros [| m' l'] Ma Len B; try discriminate; [constructor |].
  cbn [map] in Ma. constructor.
  - destruct (B 0%nat m m' eq_refl eq_refl) as (Mi & Fo & _). unfold body_alike. split; [exact Fo |]. split; [exact Mi |].
    exact (f_equal (fun l => hd None l) Ma).
  - apply IH; [exact (f_equal (@tl _) Ma) | now injection Len | intros i a a' Ha Ha'; exact (B (S i) a a' Ha Ha')].
Qed.

(** ** The tables *)
Definition lossyb (i : nat) (m : msym) : bool :=
  (match ms_axis m with AxX | AxY => match ms_diag m with DiagNone => false | _ => true end | _ => false end) ||
  (Nat.eqb i 2 && match ms_fold m, ms_axis m with F3, AxZ => true | _, _ => false end).
Definition plain_starb (m : msym) : bool :=
  match ms_fold m, ms_diag m, ms_sub m with F3, Asterisk, SubNone => true | _, _, _ => false end.
Lemma lossyb_spec i m : lossy i m -> lossyb i m = true.
Proof.
  unfold lossy, lossyb. intros [(A & D) | (-> & F & A)]; apply orb_true_iff; [left | right].
  - destruct A as [-> | ->]; destruct (ms_diag m); congruence.
  - now rewrite F, A.
Qed.
Lemma plain_starb_spec m : plain_starb m = true -> plain_star m.
Proof. unfold plain_starb, plain_star. destruct (ms_fold m), (ms_diag m), (ms_sub m); try discriminate. auto. Qed.
Fixpoint only_plain (i : nat) (l : list msym) : bool :=
  match l with [] => true | m :: r => (negb (lossyb i m) || plain_starb m) && only_plain (S i) r end.
Lemma only_plain_sound l : forall k, only_plain k l = true -> forall i m, nth_error l i = Some m -> lossy (k + i) m -> plain_star m.
Proof.
  induction l as [| a l IH]; intros k H i m Hi L; [destruct i; discriminate |]. cbn [only_plain] in H.
  apply andb_true_iff in H. destruct H as [H1 H2]. destruct i as [| i].
  - injection Hi as <-. rewrite Nat.add_0_r in L. apply lossyb_spec in L. rewrite L in H1. now apply plain_starb_spec.
  - apply (IH (S k) H2 i m Hi). now rewrite <- Nat.add_succ_comm in L.
Qed.
Definition printed_ok (t : sgtable) (s : string) : bool :=
  match try_from_str s with
  | Done (Some h) =>
      let d := hall_text h in
      only_plain 0 (h_syms h) &&
      Bool.eqb (String.eqb d s) (negb (second_omits_direction s || String.eqb s "F 2 -2yd")) &&
      match number_by_hall t d with Some _ => String.eqb d s | None => negb (String.eqb d s) end
  | _ => false
  end.
Lemma printed_sound t l : forallb (printed_ok t) l = true -> forall s, In s l ->
  exists h h', try_from_str s = Done (Some h) /\ try_from_str (hall_text h) = Done (Some h') /\
    (forall fuel, general_positions fuel h' = general_positions fuel h) /\
    (hall_text h = s <-> second_omits_direction s = false /\ s <> "F 2 -2yd"%string) /\
    (number_by_hall t (hall_text h) = None <-> hall_text h <> s).
Proof.
  intros F s Hs. rewrite forallb_forall in F. specialize (F s Hs). unfold printed_ok in F.
  destruct (try_from_str s) as [[h |] | |] eqn:E; try discriminate. cbv zeta in F.
  apply andb_true_iff in F. destruct F as [F F3]. apply andb_true_iff in F. destruct F as [F1 F2].
  destruct (C85_printed_same_positions s h E) as (h' & E' & P).
  { intros i m Hi Lo. exact (only_plain_sound _ 0 F1 i m Hi Lo). }
  exists h, h'. split; [reflexivity |]. split; [exact E' |]. split; [exact P |].
  apply Bool.eqb_prop in F2. split.
  - rewrite <- String.eqb_eq, F2, negb_true_iff, orb_false_iff, String.eqb_neq. tauto.
  - rewrite <- String.eqb_neq. destruct (number_by_hall t (hall_text h)); [rewrite F3; split; discriminate |].
    apply negb_true_iff in F3. rewrite F3. tauto.
Qed.
Lemma full_printed : forallb (printed_ok full_table) full_hall = true.
Proof. vm_cast_no_check (@eq_refl bool true). Qed.
Lemma default_printed : forallb (printed_ok default_table) default_hall = true.
Proof. vm_cast_no_check (@eq_refl bool true). Qed.

(** C85: the printed form of every tabulated notation gives the same positions; it is the tabulated
    text exactly when the second matrix symbol is no twofold axis or mirror without a direction (and
    not F 2 -2yd, whose y is overruled); otherwise looking the printed text up finds nothing *)
Theorem C85_full_rows_printed :
  forall i s, get_hall_symbol full_table i = Some s ->
    exists h h', try_from_str s = Done (Some h) /\ try_from_str (hall_text h) = Done (Some h') /\
      (forall fuel, general_positions fuel h' = general_positions fuel h) /\
      (hall_text h = s <-> second_omits_direction s = false /\ s <> "F 2 -2yd"%string) /\
      (number_by_hall full_table (hall_text h) = None <-> hall_text h <> s).
Proof. intros i s E. apply (printed_sound full_table full_hall full_printed). eapply nth_error_In, E. Qed.
Theorem C85_default_rows_printed :
  forall i s, get_hall_symbol default_table i = Some s ->
    exists h h', try_from_str s = Done (Some h) /\ try_from_str (hall_text h) = Done (Some h') /\
      (forall fuel, general_positions fuel h' = general_positions fuel h) /\
      (hall_text h = s <-> second_omits_direction s = false /\ s <> "F 2 -2yd"%string) /\
      (number_by_hall default_table (hall_text h) = None <-> hall_text h <> s).
Proof. intros i s E. apply (printed_sound default_table default_hall default_printed). eapply nth_error_In, E. Qed.
(** 376 of the 530 and 173 of the 230 texts leave out that direction *)
Theorem C85_how_many :
  length (filter second_omits_direction full_hall) = 376%nat /\ length full_hall = 530%nat /\
  length (filter second_omits_direction default_hall) = 173%nat /\ length default_hall = 230%nat.
Proof. split; [| split; [| split]]; vm_compute; reflexivity. Qed.
(** for instance P 2 2 is printed as P 2 2x, which is in no table *)
Example C85_case :
  exists h, try_from_str "P 2 2" = Done (Some h) /\ hall_text h = "P 2 2x"%string /\
    number_by_hall full_table (hall_text h) = None /\ number_by_hall full_table "P 2 2" = Some "16"%string.
Proof. eexists. split; [vm_compute; reflexivity |]. split; [| split]; vm_compute; reflexivity. Qed.
