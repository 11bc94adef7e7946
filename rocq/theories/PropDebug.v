(** * PropDebug: property C81: the [Debug] texts identify what they print. *)
From Coq Require Import QArith.
From Verif Require Import Base Notations Winnow Parser Seitz F64 Jones Rotations Tables Generate Positions Messages Lookup DebugText
  Spec SpecText SpecHall SpecDisplay SpecDebug Algebra PropListing PropDisplay.
Open Scope Z_scope.
Open Scope string_scope.
Local Notation length := List.length.

(** characters that end an item *)
Definition stopc (c : ascii) : bool := existsb (Ascii.eqb c) ([","; "]"; " "; ")"; "}"]%char)%list.
Fixpoint clean (s : string) : bool := match s with EmptyString => true | String c r => negb (stopc c) && clean r end.
Definition stop (s : string) : bool := match s with EmptyString => false | String c _ => stopc c end.
(** a text that can be split off what follows *)
Definition code {A} (f : A -> string) : Prop := forall a b s t, stop s = true -> stop t = true -> f a ++ s = f b ++ t -> a = b /\ s = t.
Lemma clean_split a : forall b s t, clean a = true -> clean b = true -> stop s = true -> stop t = true -> a ++ s = b ++ t -> a = b /\ s = t.
Proof.
  induction a as [| c a IH]; intros [| d b] s t A B S' T E; cbn [append] in E.
  - auto.
  - exfalso. subst s. cbn [stop clean] in *. rewrite S' in B. discriminate.
  - exfalso. subst t. cbn [stop clean] in *. rewrite T in A. discriminate.
  - assert (X : c = d /\ a ++ s = b ++ t) by (split; congruence). destruct X as [-> E']. cbn [clean] in A, B. apply andb_true_iff in A, B.
    destruct (IH b s t (proj2 A) (proj2 B) S' T E') as [-> ->]. auto.
Qed.
Lemma clean_code {A} (f : A -> string) : (forall a, clean (f a) = true) -> (forall a b, f a = f b -> a = b) -> code f.
Proof.
  intros C Inj a b s t S' T E. destruct (clean_split _ _ _ _ (C a) (C b) S' T E) as [X Y]. split; [apply Inj, X | exact Y].
Qed.
Lemma cancel p : forall s t, p ++ s = p ++ t -> s = t.
Proof. induction p as [| c p IH]; intros s t E; cbn [append] in E; [exact E |]. apply IH. congruence. Qed.
Lemma app_assoc_s (a b c : string) : (a ++ b) ++ c = a ++ (b ++ c).
Proof. induction a as [| x a IH]; cbn [append]; [reflexivity | now rewrite IH]. Qed.
Lemma bool_code : code bool_debug. Proof. apply clean_code; [intros []; reflexivity | intros [] []; cbn; congruence]. Qed.
Lemma nfold_code : code nfold_debug. Proof. apply clean_code; [intros []; reflexivity | intros [] []; cbn; congruence]. Qed.
Lemma sub_code : code sub_debug. Proof. apply clean_code; [intros []; reflexivity | intros [] []; cbn; congruence]. Qed.
Lemma diag_code : code diag_debug. Proof. apply clean_code; [intros []; reflexivity | intros [] []; cbn; congruence]. Qed.
Lemma axis_code : code axis_debug. Proof. apply clean_code; [intros []; reflexivity | intros [] []; cbn; congruence]. Qed.
Lemma tsym_code : code tsym_debug. Proof. apply clean_code; [intros []; reflexivity | intros [] []; cbn; congruence]. Qed.
Lemma lat_code : code lattice_text. Proof. apply clean_code; [intros []; reflexivity | intros [] []; cbn; congruence]. Qed.
Lemma digit_clean c : is_digit c = true -> stopc c = false.
Proof. destruct c as [[] [] [] [] [] [] [] []]; vm_compute; intros H; congruence. Qed.
Lemma digits_clean s : all_digits s = true -> clean s = true.
Proof.
  induction s as [| c r IH]; cbn [all_digits clean]; [reflexivity |]. destruct (is_digit c) eqn:D; [| discriminate].
  intros H. now rewrite (digit_clean c D), (IH H).
Qed.
Lemma Z_clean n : clean (Z_text n) = true.
Proof.
  destruct (Z.ltb_spec n 0) as [L | L].
  - destruct (neg_text n L) as (s & -> & E). destruct (number_nonempty _ _ E) as (_ & D). cbn [clean]. now rewrite (digits_clean s D).
  - apply digits_clean. exact (proj2 (number_nonempty _ _ (number_Z_text n L))).
Qed.
Lemma Z_inj a b : Z_text a = Z_text b -> a = b.
Proof.
  intros E. destruct (Z_text_shows a) as ((f & Rf & _ & _ & _ & Qf) & _). destruct (Z_text_shows b) as ((g & Rg & _ & _ & _ & Qg) & _).
  rewrite E in Rf. assert (f = g) by congruence. subst g. rewrite Qf in Qg. unfold Qeq in Qg. cbn in Qg. lia.
Qed.
Lemma Z_code : code Z_text. Proof. apply clean_code; [exact Z_clean | exact Z_inj]. Qed.
(** lists *)
Definition heads {A} (f : A -> string) : Prop := forall a s, match f a ++ s with EmptyString => False | String c _ => c <> "]"%char end.
Definition rest_text {A} (f : A -> string) (r : list A) (s : string) : string :=
  match r with [] => String "]" s | _ => ", " ++ (sjoin ", " (map f r) ++ String "]" s) end.
Lemma join_cons {A} (f : A -> string) x r s : sjoin ", " (map f (x :: r)) ++ String "]" s = f x ++ rest_text f r s.
Proof.
  destruct r as [| y r]; [reflexivity |].
  change (sjoin ", " (map f (x :: y :: r))) with (f x ++ (", " ++ sjoin ", " (map f (y :: r)))).
  rewrite !app_assoc_s. reflexivity.
Qed.
Lemma rest_stop {A} (f : A -> string) r s : stop (rest_text f r s) = true. Proof. destruct r; reflexivity. Qed.
Lemma items_split {A} (f : A -> string) : code f -> heads f -> forall l k s t,
  sjoin ", " (map f l) ++ String "]" s = sjoin ", " (map f k) ++ String "]" t -> l = k /\ s = t.
Proof.
  intros C Hd. induction l as [| x l IH]; intros [| y k] s t E.
  - cbn in E. split; congruence.
  - exfalso. rewrite join_cons in E. specialize (Hd y (rest_text f k t)). rewrite <- E in Hd. now apply Hd.
  - exfalso. rewrite join_cons in E. specialize (Hd x (rest_text f l s)). rewrite E in Hd. now apply Hd.
  - rewrite !join_cons in E. destruct (C _ _ _ _ (rest_stop f l s) (rest_stop f k t) E) as [-> R].
    destruct l as [| a l], k as [| b k]; cbn [rest_text] in R.
    + split; congruence.
    + discriminate R.
    + discriminate R.
    + apply (cancel ", ") in R. destruct (IH (b :: k) s t R) as [-> ->]. auto.
Qed.
Lemma list_code {A} (f : A -> string) : code f -> heads f -> code (list_debug f).
Proof.
  intros C Hd a b s t S' T E. unfold list_debug in E. rewrite !app_assoc_s in E. apply (cancel "[") in E.
  exact (items_split f C Hd a b s t E).
Qed.
Lemma list_heads {A} (f : A -> string) : heads (list_debug f).
Proof. intros a s. cbn. discriminate. Qed.
Lemma tsym_heads : heads tsym_debug. Proof. intros [] s; cbn; discriminate. Qed.
Lemma digits_heads r s : r <> EmptyString -> all_digits r = true -> match r ++ s with EmptyString => False | String c _ => c <> "]"%char end.
Proof.
  destruct r as [| c r]; [congruence |]. intros _ D. cbn [append all_digits] in *. destruct (is_digit c) eqn:E; [| discriminate].
  intros ->. discriminate E.
Qed.
Lemma Z_heads : heads Z_text.
Proof.
  intros n s. destruct (Z.ltb_spec n 0) as [L | L].
  - destruct (neg_text n L) as (r & -> & _). cbn. discriminate.
  - destruct (number_nonempty _ _ (number_Z_text n L)) as (N & D). exact (digits_heads _ s N D).
Qed.
Lemma trs_code : code trs_debug.
Proof.
  intros [l |] [k |] s t S' T E; unfold trs_debug in E.
  - rewrite !app_assoc_s in E. apply (cancel "Some([") in E.
    destruct (items_split tsym_debug tsym_code tsym_heads l k (String ")" s) (String ")" t) E) as [-> X]. split; congruence.
  - discriminate E. - discriminate E. - apply (cancel "None") in E. auto.
Qed.
Ltac take_field C lbl E :=
  let X := fresh "X" in
  apply C in E; [| reflexivity | reflexivity]; destruct E as [X E]; apply (cancel lbl) in E.
Lemma msym_code : code msym_debug.
Proof.
  intros [m f x d a t] [m' f' x' d' a' t'] s u S' T E. unfold msym_debug in E.
  cbn [ms_minus ms_fold ms_sub ms_diag ms_axis ms_trs] in E. rewrite !app_assoc_s in E.
  apply (cancel "MatrixSymbol { minus_sign: ") in E.
  take_field bool_code ", nfold_body: " E. take_field nfold_code ", nfold_sub: " E. take_field sub_code ", nfold_diag: " E.
  take_field diag_code ", rotation_axis: " E. take_field axis_code ", translation_symbols: " E. take_field trs_code " }" E.
  split; [congruence | exact E].
Qed.
Lemma msym_heads : heads msym_debug. Proof. intros m s. cbn. discriminate. Qed.
Lemma lattice_code : code lattice_symbol_debug.
Proof.
  intros [m c] [m' c'] s t S' T E. unfold lattice_symbol_debug in E. cbn [ls_minus ls_char] in E. rewrite !app_assoc_s in E.
  apply (cancel "LatticeSymbol { minus_sign: ") in E. take_field bool_code ", char: " E. take_field lat_code " }" E. split; [congruence | exact E].
Qed.
Lemma shift_code : code shift_debug.
Proof.
  intros [x y z] [x' y' z'] s t S' T E. unfold shift_debug in E. cbn [vx vy vz] in E. rewrite !app_assoc_s in E.
  apply (cancel "OriginShift { va: ") in E. take_field Z_code ", vb: " E. take_field Z_code ", vc: " E. take_field Z_code " }" E. split; [congruence | exact E].
Qed.
Lemma ints_code : code (list_debug Z_text). Proof. exact (list_code _ Z_code Z_heads). Qed.
Lemma rows_code : code (list_debug (list_debug Z_text)). Proof. exact (list_code _ ints_code (list_heads _)). Qed.
Lemma vector_code : code vector_debug.
Proof.
  intros [x y z] [x' y' z'] s t S' T E. unfold vector_debug in E. destruct (rows_code _ _ _ _ S' T E) as [X Y].
  unfold vlist in X. cbn [vx vy vz] in X. split; [congruence | exact Y].
Qed.
Lemma seitz_code : code seitz_debug.
Proof.
  intros [[a1 a2 a3 a4 a5 a6 a7 a8 a9] [x y z] [p q r] c] [[b1 b2 b3 b4 b5 b6 b7 b8 b9] [x' y' z'] [p' q' r'] c'] s t S' T E.
  unfold seitz_debug, matrix4_debug in E. cbn [rot tra bot cor vx vy vz m11 m12 m13 m21 m22 m23 m31 m32 m33] in E.
  rewrite !app_assoc_s in E. apply (cancel "SeitzMatrix(") in E.
  apply rows_code in E; [| reflexivity | reflexivity]. destruct E as [X Y]. apply (cancel ")") in Y. split; [congruence | exact Y].
Qed.

(** ** C81 *)
Lemma stop_eq {A} (f : A -> string) : code f -> forall a b, f a = f b -> a = b.
Proof. intros C a b E. apply (C a b " " " " eq_refl eq_refl). now rewrite E. Qed.
Theorem C81_notation_debug_identifies : forall a b, hall_debug a = hall_debug b -> a = b.
Proof.
  intros [l m v] [l' m' v'] E. unfold hall_debug in E. cbn [h_lat h_syms h_shift] in E.
  apply (cancel "HallSymbolNotation { lattice_symbol: ") in E. take_field lattice_code ", matrix_symbols: " E.
  take_field (list_code _ msym_code msym_heads) ", origin_shift: " E. take_field shift_code " }" E. congruence.
Qed.
Theorem C81_operation_debug_identifies : forall a b, seitz_debug a = seitz_debug b -> a = b.
Proof. exact (stop_eq _ seitz_code). Qed.
Theorem C81_positions_debug_identifies : forall a b, gpos_debug a = gpos_debug b -> a = b.
Proof.
  intros [l c] [l' c'] E. unfold gpos_debug in E. cbn [gp_lattice gp_core] in E.
  apply (cancel "GeneralPositions { lattice_translations: ") in E.
  assert (Hv : heads vector_debug) by (intros v s; cbn; discriminate).
  take_field (list_code _ vector_code Hv) ", core_position_set: " E.
  assert (Hs : heads seitz_debug) by (intros m s; cbn; discriminate).
  take_field (list_code _ seitz_code Hs) " }" E. congruence.
Qed.
(** unlike the [Display] text : these two notations print alike *)
Definition parsed_d (s : string) : hall := match try_from_str s with Done (Some h) => h | _ => Hall (LS false LP) [] v0 end.
Example C81_case :
  hall_text (parsed_d "P 2 2 3") = hall_text (parsed_d "P 2 2x 3*") /\
  hall_debug (parsed_d "P 2 2 3") <> hall_debug (parsed_d "P 2 2x 3*") /\
  hall_debug (parsed_d "-P 2xa (0 0 -1)") =
    "HallSymbolNotation { lattice_symbol: LatticeSymbol { minus_sign: true, char: P }, matrix_symbols: [MatrixSymbol { minus_sign: false, nfold_body: N2, nfold_sub: None, nfold_diag: None, rotation_axis: X, translation_symbols: Some([A]) }], origin_shift: OriginShift { va: 0, vb: 0, vc: -1 } }" /\
  seitz_debug (set_translation_part (V3 0 6 11) sz_identity) = "SeitzMatrix([[1, 0, 0, 0], [0, 1, 0, 0], [0, 0, 1, 0], [0, 6, 11, 1]])".
Proof. vm_compute. repeat split. discriminate. Qed.

(** ** The numbers in the texts *)
Fixpoint numeric (s : string) : bool := match s with EmptyString => true | String c r => numeral c && numeric r end.
Definition ends_number (s : string) : bool := match s with EmptyString => true | String c _ => negb (numeral c) end.
Lemma numerals_skip c r : numeral c = false -> numerals (String c r) = numerals r.
Proof. intros H. cbn [numerals]. now rewrite H. Qed.
Lemma numerals_run w : forall s, w <> EmptyString -> numeric w = true -> ends_number s = true -> numerals (w ++ s) = w :: numerals s.
Proof.
  induction w as [| c w IH]; intros s NE N E; [congruence |]. cbn [numeric] in N. apply andb_true_iff in N. destruct N as (Nc & Nw).
  change (String c w ++ s) with (String c (w ++ s)). destruct w as [| d w].
  - cbn [append]. destruct s as [| e s]; cbn [numerals]; rewrite Nc; [reflexivity |]. cbn [ends_number] in E.
    apply negb_true_iff in E. rewrite E. reflexivity.
  - specialize (IH s ltac:(discriminate) Nw E). change (String d w ++ s) with (String d (w ++ s)) in *.
    assert (Nd : numeral d = true) by (cbn [numeric] in Nw; apply andb_true_iff in Nw; apply Nw).
    transitivity (match numerals (String d (w ++ s)) with x :: xs => String c x :: xs | [] => [String c EmptyString] end).
    + change (numerals (String c (String d (w ++ s)))) with (if numeral c then if numeral d then
        match numerals (String d (w ++ s)) with x :: xs => String c x :: xs | [] => [String c EmptyString] end
        else String c EmptyString :: numerals (String d (w ++ s)) else numerals (String d (w ++ s))). now rewrite Nc, Nd.
    + now rewrite IH.
Qed.
Lemma digit_numeral c : is_digit c = true -> numeral c = true.
Proof. destruct c as [[] [] [] [] [] [] [] []]; vm_compute; intros H; congruence. Qed.
Lemma digits_numeric s : all_digits s = true -> numeric s = true.
Proof.
  induction s as [| c r IH]; cbn [all_digits numeric]; [reflexivity |]. destruct (is_digit c) eqn:D; [| discriminate].
  intros H. now rewrite (digit_numeral c D), (IH H).
Qed.
Lemma Z_numeric n : numeric (Z_text n) = true.
Proof.
  destruct (Z.ltb_spec n 0) as [L | L].
  - destruct (neg_text n L) as (s & -> & E). destruct (number_nonempty _ _ E) as (_ & D). cbn [numeric]. now rewrite (digits_numeric s D).
  - apply digits_numeric. exact (proj2 (number_nonempty _ _ (number_Z_text n L))).
Qed.
(** [f a] is followed by something that is not part of a number: its numerals are [g a] *)
Definition lists {A} (f : A -> string) (g : A -> list string) : Prop :=
  forall a s, ends_number s = true -> numerals (f a ++ s) = (g a ++ numerals s)%list.
Lemma Z_lists : lists Z_text (fun z => [Z_text z]).
Proof. intros z s E. apply numerals_run; [apply Z_text_shows | apply Z_numeric | exact E]. Qed.
Lemma list_lists {A} (f : A -> string) g : lists f g -> lists (list_debug f) (flat_map g).
Proof.
  intros H l s E. unfold list_debug. rewrite !app_assoc_s. cbn [append]. rewrite numerals_skip by reflexivity.
  induction l as [| a l IH]; [cbn [map sjoin append flat_map app]; now rewrite numerals_skip by reflexivity |].
  destruct l as [| b l].
  - cbn [map sjoin flat_map]. rewrite H by reflexivity. rewrite numerals_skip by reflexivity. now rewrite app_nil_r.
  - change (sjoin ", " (map f (a :: b :: l))) with (f a ++ ", " ++ sjoin ", " (map f (b :: l))). rewrite !app_assoc_s.
    rewrite H by reflexivity. change (flat_map g (a :: b :: l)) with (g a ++ flat_map g (b :: l))%list.
    change (", " ++ ?x) with (String "," (String " " x)). rewrite !numerals_skip by reflexivity. rewrite IH. now rewrite app_assoc.
Qed.
Lemma skip_prefix p : forall s, forallb (fun c => negb (numeral c)) (list_ascii_of_string p) = true -> numerals (p ++ s) = numerals s.
Proof.
  induction p as [| c p IH]; intros s H; [reflexivity |]. cbn [list_ascii_of_string forallb] in H. apply andb_true_iff in H. destruct H as (C & H).
  apply negb_true_iff in C. change (String c p ++ s) with (String c (p ++ s)). rewrite numerals_skip by exact C. now apply IH.
Qed.
Lemma vector_lists : lists vector_debug (fun v => map Z_text (coordinates v)).
Proof.
  intros v s E. unfold vector_debug. rewrite (list_lists _ _ (list_lists _ _ Z_lists) _ s E). reflexivity.
Qed.
Lemma matrix4_lists : lists matrix4_debug (fun m => map Z_text (columns m)).
Proof.
  intros m s E. unfold matrix4_debug. rewrite (list_lists _ _ (list_lists _ _ Z_lists) _ s E). reflexivity.
Qed.
Lemma seitz_lists : lists seitz_debug (fun m => map Z_text (columns m)).
Proof.
  intros m s E. unfold seitz_debug. rewrite !app_assoc_s. rewrite (skip_prefix "SeitzMatrix(") by reflexivity.
  rewrite matrix4_lists by reflexivity. cbn [append]. now rewrite numerals_skip by reflexivity.
Qed.
Lemma show_all l : Forall2 shows_int (map Z_text l) l.
Proof. induction l as [| z l IH]; cbn [map]; constructor; [apply Z_text_shows | exact IH]. Qed.
Lemma show_flat {A} (g : A -> list Z) l : Forall2 shows_int (flat_map (fun a => map Z_text (g a)) l) (flat_map g l).
Proof. induction l as [| a l IH]; cbn [flat_map]; [constructor |]. apply Forall2_app; [apply show_all | exact IH]. Qed.
(** C81: the numbers in the text of an operation are its sixteen entries, column by column *)
Theorem C81_operation_debug_numbers :
  forall m, Forall2 shows_int (numerals (seitz_debug m)) (columns m).
Proof.
  intros m. pose proof (seitz_lists m EmptyString eq_refl) as H. rewrite str_app_nil in H. rewrite H. cbn [numerals]. rewrite app_nil_r. apply show_all.
Qed.
(** C81: the numbers in the text of general positions are the lattice vectors, then the operations,
    in the order in which they are kept *)
Theorem C81_positions_debug_numbers :
  forall g, Forall2 shows_int (numerals (gpos_debug g)) (flat_map coordinates (gp_lattice g) ++ flat_map columns (gp_core g)).
Proof.
  intros g. assert (H : numerals (gpos_debug g) = (flat_map (fun v => map Z_text (coordinates v)) (gp_lattice g) ++ flat_map (fun m => map Z_text (columns m)) (gp_core g))%list).
  { unfold gpos_debug. rewrite (skip_prefix "GeneralPositions { lattice_translations: ") by reflexivity.
    rewrite (list_lists _ _ vector_lists) by reflexivity. f_equal. rewrite (skip_prefix ", core_position_set: ") by reflexivity.
    rewrite (list_lists _ _ seitz_lists) by reflexivity. change (numerals " }") with (@nil string). now rewrite app_nil_r. }
  rewrite H. apply Forall2_app; apply show_flat.
Qed.

(** C81: the crystal systems: printed by their names in lower case, ordered from low to high symmetry *)
Definition systems_in_order : list (crystal_system * string) :=
  [(Triclinic, "triclinic"); (Monoclinic, "monoclinic"); (Orthorhombic, "orthorhombic"); (Tetragonal, "tetragonal");
   (Trigonal, "trigonal"); (Hexagonal, "hexagonal"); (Cubic, "cubic")].
Theorem C81_crystal_system_text :
  forall c s, crystal_system_text c = s <-> In (c, s) systems_in_order.
Proof.
  intros c s. split.
  - intros <-. destruct c; vm_compute; tauto.
  - intros I. cbn in I. repeat (destruct I as [I | I]; [injection I as <- <-; reflexivity |]). destruct I.
Qed.
Theorem C81_crystal_systems_differ :
  forall a b, (crystal_system_text a = crystal_system_text b -> a = b) /\ (crystal_system_debug a = crystal_system_debug b -> a = b) /\
    (crystal_system_cmp a b = Eq <-> a = b).
Proof. intros [] []; repeat split; vm_compute; intros E; try discriminate E; reflexivity. Qed.
(** the default system is the first *)
Theorem C81_default_crystal_system :
  forall c : crystal_system, nth_error systems_in_order 0 = Some (crystal_system_default, crystal_system_text crystal_system_default) /\
    (c <> crystal_system_default -> crystal_system_cmp crystal_system_default c = Lt).
Proof. intros c. split; [reflexivity |]. destruct c; intros N; try reflexivity. destruct N. reflexivity. Qed.
Theorem C81_crystal_system_order :
  forall a b, crystal_system_cmp a b = Lt <->
    exists p q r, map fst systems_in_order = (p ++ [a] ++ q ++ [b] ++ r)%list.
Proof.
  intros a b. split.
  - intros L.
    assert (K : existsb (fun i => existsb (fun j =>
      match nth_error (map fst systems_in_order) i, nth_error (map fst systems_in_order) (i + S j) with
      | Some x, Some y => match crystal_system_cmp x a, crystal_system_cmp y b with Eq, Eq => true | _, _ => false end
      | _, _ => false end) (seq 0 7)) (seq 0 7) = true).
    { destruct a, b; try discriminate L; vm_compute; reflexivity. }
    apply existsb_exists in K. destruct K as (i & _ & K). apply existsb_exists in K. destruct K as (j & _ & K).
    destruct (nth_error _ i) as [x |] eqn:Ei; [| discriminate]. destruct (nth_error _ (i + S j)) as [y |] eqn:Ej; [| discriminate].
    destruct (crystal_system_cmp x a) eqn:Cx; try discriminate. destruct (crystal_system_cmp y b) eqn:Cy; try discriminate.
    apply C81_crystal_systems_differ in Cx, Cy. subst x y.
    apply nth_error_split in Ei. destruct Ei as (p & t & E & Lp). exists p. rewrite E in Ej |- *.
    rewrite nth_error_app2 in Ej by lia. replace (i + S j - length p)%nat with (S j) in Ej by lia. cbn [nth_error] in Ej.
    apply nth_error_split in Ej. destruct Ej as (q & r & -> & _). exists q, r. reflexivity.
  - intros (p & q & r & E).
    assert (N : forall i j x y, (i < j)%nat -> nth_error (map fst systems_in_order) i = Some x -> nth_error (map fst systems_in_order) j = Some y -> crystal_system_cmp x y = Lt).
    { intros i j x y H X Y. assert (j < 7)%nat by (change 7%nat with (length (map fst systems_in_order)); apply nth_error_Some; congruence).
      do 7 (destruct i as [| i]; [injection X as <-; do 7 (destruct j as [| j]; [try lia; injection Y as <-; reflexivity |]); lia |]). lia. }
    apply (N (length p) (length p + S (length q))%nat); [lia | |]; rewrite E.
    + rewrite nth_error_app2 by lia. now rewrite Nat.sub_diag.
    + rewrite nth_error_app2 by lia. replace (length p + S (length q) - length p)%nat with (S (length q)) by lia.
      cbn [nth_error app]. rewrite nth_error_app2 by lia. now rewrite Nat.sub_diag.
Qed.
