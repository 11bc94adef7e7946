(** * PropFound: property C101: a number found by looking up a Hall symbol, as written or as
    printed, is the space-group number. *)
From Coq Require Import QArith.
From Verif Require Import Base Notations Winnow Parser Seitz Tables Generate Positions Lookup
  Spec SpecHall SpecText SpecTables SpecType SpecKind Algebra PropSymbols GenFacts PropParser PropRoundTrip RowData TypeFacts PropTables PropTableGroups PropTypes PropRelabel.
Open Scope Z_scope.
Local Notation length := List.length.

(** ** What a printed text shows *)
(** an x or y directly followed by a diagonal mark *)
Definition is_xy (c : ascii) : bool := Ascii.eqb c "x" || Ascii.eqb c "y".
Definition is_mark (c : ascii) : bool := Ascii.eqb c "'" || Ascii.eqb c """" || Ascii.eqb c "*".
Fixpoint marked_axis (s : string) : bool :=
  match s with
  | String c r => if is_xy c then match r with String e _ => if is_mark e then true else marked_axis r | _ => marked_axis r end else marked_axis r
  | EmptyString => false
  end.
Fixpoint has_x (s : string) : bool :=
  match s with String c r => if Ascii.eqb c "x" then true else has_x r | EmptyString => false end.
Lemma marked_after a b : marked_axis b = true -> marked_axis (a ++ b)%string = true.
Proof.
  intros H. induction a as [| c a IH]; [exact H |]. cbn [String.append marked_axis]. rewrite IH.
  destruct (is_xy c); [| reflexivity]. destruct (a ++ b)%string as [| e r]; [reflexivity | destruct (is_mark e); reflexivity].
Qed.
Lemma marked_before a b : marked_axis a = true -> marked_axis (a ++ b)%string = true.
Proof.
  induction a as [| c a IH]; [discriminate |]. cbn [String.append marked_axis]. intros H.
  destruct (is_xy c); [| auto]. destruct a as [| e a]; [discriminate |]. cbn [String.append] in *. destruct (is_mark e); auto.
Qed.
Lemma has_x_after a b : has_x b = true -> has_x (a ++ b)%string = true.
Proof. intros H. induction a as [| c a IH]; [exact H |]. cbn [String.append has_x]. destruct (Ascii.eqb c "x"); auto. Qed.
Lemma has_x_before a b : has_x a = true -> has_x (a ++ b)%string = true.
Proof. induction a as [| c a IH]; [discriminate |]. cbn [String.append has_x]. destruct (Ascii.eqb c "x"); auto. Qed.
Lemma in_join (P : string -> bool) (after : forall a b, P b = true -> P (a ++ b)%string = true)
  (before : forall a b, P a = true -> P (a ++ b)%string = true) sep l x : In x l -> P x = true -> P (sjoin sep l) = true.
Proof.
  induction l as [| y l IH]; intros I H; [destruct I |]. destruct l as [| z l].
  - destruct I as [-> | []]. exact H.
  - cbn [sjoin]. destruct I as [-> | I]; [apply before, H |]. apply after, after. exact (IH I H).
Qed.
Lemma in_hall_text (P : string -> bool) (after : forall a b, P b = true -> P (a ++ b)%string = true)
  (before : forall a b, P a = true -> P (a ++ b)%string = true) h m : In m (h_syms h) -> P (msym_text m) = true -> P (hall_text h) = true.
Proof.
  intros I H. unfold hall_text. apply after, after, before. apply (in_join P after before) with (x := msym_text m); [| exact H].
  apply in_map, I.
Qed.
Lemma marked_text m : (ms_axis m = AxX \/ ms_axis m = AxY) -> ms_diag m <> DiagNone -> marked_axis (msym_text m) = true.
Proof.
  intros A D. unfold msym_text. do 2 apply marked_after. destruct A as [-> | ->]; destruct (ms_diag m); try congruence; reflexivity.
Qed.
Lemma x_text m : ms_axis m = AxX -> has_x (msym_text m) = true.
Proof. intros A. unfold msym_text. do 2 apply has_x_after. rewrite A. reflexivity. Qed.
(** the second symbol after a 2 or 4 is printed with an x *)
Lemma second_two_x s h m0 m1 : try_from_str s = Done (Some h) -> nth_error (h_syms h) 0 = Some m0 -> nth_error (h_syms h) 1 = Some m1 ->
  ms_fold m1 = F2 -> ms_fold m0 = F2 \/ ms_fold m0 = F4 -> ms_axis m1 = AxX.
Proof.
  intros H H0 H1 F1 F0. destruct (parsed_shape s h H) as (_ & ks & Es & _). set (raws := map chunk_symbol ks) in *.
  rewrite Es in H0, H1.
  assert (L : forall i m, nth_error (restore raws) i = Some m -> exists r, nth_error raws i = Some r /\ m = dirs raws i r).
  { intros i m E. destruct (nth_error raws i) as [r |] eqn:R.
    - exists r. split; [reflexivity |]. rewrite (restore_nth raws i r R) in E. unfold dirs. congruence.
    - exfalso. apply nth_error_None in R. destruct (restore_defaulted raws) as [N _].
      assert (X : (i < length (restore raws))%nat) by (apply nth_error_Some; congruence). lia. }
  destruct (L _ _ H0) as (r0 & R0 & E0). destruct (L _ _ H1) as (r1 & R1 & E1).
  assert (G0 : ms_fold r0 = ms_fold m0) by (rewrite E0; unfold dirs; destruct (direction_default raws 0 r0); reflexivity).
  assert (G1 : ms_fold r1 = ms_fold m1) by (rewrite E1; unfold dirs; destruct (direction_default raws 1 r1); reflexivity).
  rewrite E1. unfold dirs, direction_default. rewrite G1, F1, R0. cbn [option_map]. rewrite G0.
  destruct F0 as [-> | ->]; reflexivity.
Qed.

(** ** The tables *)
Definition row_text_ok (s : string) : bool :=
  if marked_axis s then false else
  match try_from_str s with
  | Done (Some h) =>
      match h_syms h with
      | a :: b :: c :: _ =>
          match ms_fold c with
          | F3 => match ms_fold b with F2 => match ms_fold a with F2 | F4 => negb (has_x s) | _ => false end | _ => false end
          | _ => true
          end
      | _ => true
      end
  | _ => false
  end.
Lemma row_texts_ok : forallb row_text_ok full_hall = true /\ forallb row_text_ok default_hall = true.
Proof. split; vm_cast_no_check (@eq_refl bool true). Qed.
Lemma listed_not_lossy s h : try_from_str s = Done (Some h) -> row_text_ok (hall_text h) = true ->
  forall i m, nth_error (h_syms h) i = Some m -> ~ lossy i m.
Proof.
  intros H K i m Hm L. unfold row_text_ok in K. destruct (marked_axis (hall_text h)) eqn:Mk; [discriminate |].
  destruct L as [[A D] | (-> & F & A)].
  - rewrite (in_hall_text marked_axis marked_after marked_before h m (nth_error_In _ _ Hm) (marked_text m A D)) in Mk. discriminate.
  - destruct (C05_always_kept s h H) as (h' & E & _ & _ & Len & B). rewrite E in K.
    assert (Ex : exists m0 m1, nth_error (h_syms h) 0 = Some m0 /\ nth_error (h_syms h) 1 = Some m1).
    { destruct (h_syms h) as [| a [| b l]]; try discriminate. exists a, b. split; reflexivity. }
    destruct Ex as (m0 & m1 & H0 & H1).
    destruct (h_syms h') as [| a [| b [| c l]]] eqn:S'.
    1-3: exfalso; cbn [List.length] in Len; assert (2 < length (h_syms h))%nat by (apply nth_error_Some; congruence); lia.
    destruct (B 0%nat m0 a H0 eq_refl) as (_ & Fa & _). destruct (B 1%nat m1 b H1 eq_refl) as (_ & Fb & _).
    destruct (B 2%nat m c Hm eq_refl) as (_ & Fc & _). rewrite Fc, F in K. rewrite Fb, Fa in K.
    destruct (ms_fold m1) eqn:F1; try discriminate.
    assert (X : ms_axis m1 = AxX).
    { apply (second_two_x s h m0 m1 H H0 H1 F1). destruct (ms_fold m0); try discriminate; auto. }
    assert (Hx : has_x (hall_text h) = true).
    { apply (in_hall_text has_x has_x_after has_x_before h m1 (nth_error_In _ _ H1)), x_text, X. }
    rewrite Hx in K. destruct (ms_fold m0); discriminate.
Qed.

(** ** C101 *)
(** a row found by Hall text carries that text *)
Lemma found_in t s label : well_formed t -> number_by_hall t s = Some label ->
  exists i, get_hall_symbol t i = Some s /\ get_space_group_number t i = Some label.
Proof.
  intros W H. destruct (C38_by_hall_first_row t s W) as [Q _]. apply Q in H. destruct H as (i & [F _] & N).
  exists i. split; [exact F | exact N].
Qed.
(** what is printed and found in a table is what was read *)
Theorem C101_listed_print_reads_back :
  forall s h label, try_from_str s = Done (Some h) ->
    number_by_hall full_table (hall_text h) = Some label \/ number_by_hall default_table (hall_text h) = Some label ->
    try_from_str (hall_text h) = Done (Some h).
Proof.
  intros s h label H N. apply (C05_round_trip_iff s h H). apply (listed_not_lossy s h H).
  destruct C38_tables_well_formed as [W1 W2]. destruct row_texts_ok as [K1 K2]. rewrite forallb_forall in K1, K2.
  destruct N as [N | N].
  - apply K1. destruct (found_in full_table _ _ W1 N) as (i & Hi & _). exact (nth_error_In _ _ Hi).
  - apply K2. destruct (found_in default_table _ _ W2 N) as (i & Hi & _). exact (nth_error_In _ _ Hi).
Qed.
Lemma typed_by_text h s n : try_from_str s = Done (Some h) ->
  (exists j s', S j = n /\ get_hall_symbol default_table j = Some s' /\ same_type (text_group s) (text_group s')) -> of_type h n.
Proof.
  intros P (j & s' & <- & D & T).
  assert (L : exists label, get_space_group_number default_table j = Some label).
  { change (nth_error default_hall j = Some s') in D. change (exists label, nth_error default_number j = Some label).
    destruct (nth_error default_number j) as [label |] eqn:E; [eauto |]. exfalso. apply nth_error_None in E.
    assert (j < length default_hall)%nat by (apply nth_error_Some; congruence).
    assert (length default_hall = length default_number) by (vm_compute; reflexivity). lia. }
  destruct L as (label & Lab). exists j, label, s'. split; [exact Lab |]. split; [exact D |].
  split; [exact (proj1 (default_number_of j label Lab)) |].
  destruct T as (f & If & Kf & T1 & T2). exists f. split; [exact If |]. split; [exact Kf |]. split.
  - intros o Go. apply T1. exists h. split; [exact P | exact Go].
  - intros o' Go. destruct (T2 o' Go) as (o & (h0 & P0 & G0) & C). exists o. split; [| exact C]. congruence.
Qed.
Lemma row_returns s h : known_row s -> try_from_str s = Done (Some h) -> exists g, general_positions 10 h = Done g.
Proof.
  intros K P. assert (R : exists p, row_group s = Some p /\ certified p)
    by (destruct K; [apply full_certified | apply default_certified]; auto).
  destruct R as (p & R & _). unfold row_group in R. rewrite P in R. destruct (general_positions 10 h) as [g | |]; try discriminate. eauto.
Qed.
(** a number found in the full table under the text that was read, or under the text that is
    printed, is the space-group number (number 24 of that table is 23), and positions are returned *)
Theorem C101_found_in_full_table :
  forall s h label, try_from_str s = Done (Some h) ->
    number_by_hall full_table s = Some label \/ number_by_hall full_table (hall_text h) = Some label ->
    of_type h (if Nat.eqb (leading_number label) 24 then 23%nat else leading_number label) /\
    exists g, general_positions 10 h = Done g.
Proof.
  intros s h label H N.
  assert (X : exists d, try_from_str d = Done (Some h) /\ number_by_hall full_table d = Some label).
  { destruct N as [N | N]; [exists s; auto |]. exists (hall_text h). split; [| exact N].
    apply (C101_listed_print_reads_back s h label H). left. exact N. }
  destruct X as (d & P & Nd). destruct (found_in full_table d label (proj1 C38_tables_well_formed) Nd) as (i & Hi & Hl).
  split.
  - apply (typed_by_text h d _ P). destruct (full_row_type i label d Hl Hi) as (j & s' & E & D & T).
    exists j, s'. split; [exact E |]. split; [exact D | exact T].
  - apply (row_returns d h); [left; eapply nth_error_In; exact Hi | exact P].
Qed.
(** the same for the default table, without exception *)
Theorem C101_found_in_default_table :
  forall s h label, try_from_str s = Done (Some h) ->
    number_by_hall default_table s = Some label \/ number_by_hall default_table (hall_text h) = Some label ->
    of_type h (leading_number label) /\ exists g, general_positions 10 h = Done g.
Proof.
  intros s h label H N.
  assert (X : exists d, try_from_str d = Done (Some h) /\ number_by_hall default_table d = Some label).
  { destruct N as [N | N]; [exists s; auto |]. exists (hall_text h). split; [| exact N].
    apply (C101_listed_print_reads_back s h label H). right. exact N. }
  destruct X as (d & P & Nd). destruct (found_in default_table d label (proj2 C38_tables_well_formed) Nd) as (i & Hi & Hl).
  split.
  - apply (typed_by_text h d _ P). exists i, d. split; [symmetry; exact (proj1 (default_number_of i label Hl)) |].
    split; [exact Hi | apply same_type_refl].
  - apply (row_returns d h); [right; eapply nth_error_In; exact Hi | exact P].
Qed.
(** a row's text is printed unchanged, or what is printed is in neither table: the text and its
    print never name two different numbers *)
Definition print_row_ok (s : string) : bool :=
  match try_from_str s with
  | Done (Some h) =>
      let p := hall_text h in
      if String.eqb p s then true
      else match number_by_hall full_table p with
           | Some _ => false
           | None => match number_by_hall default_table p with Some _ => false | None => true end
           end
  | _ => false
  end.
Lemma print_rows_ok : forallb print_row_ok full_hall = true /\ forallb print_row_ok default_hall = true.
Proof. split; vm_cast_no_check (@eq_refl bool true). Qed.
Theorem C101_row_print_never_another_row :
  forall s h, known_row s -> try_from_str s = Done (Some h) ->
    hall_text h = s \/
    (number_by_hall full_table (hall_text h) = None /\ number_by_hall default_table (hall_text h) = None).
Proof.
  intros s h K P. assert (X : print_row_ok s = true).
  { destruct print_rows_ok as [K1 K2]. rewrite forallb_forall in K1, K2. destruct K as [K | K]; auto. }
  unfold print_row_ok in X. rewrite P in X. cbv zeta in X. destruct (String.eqb (hall_text h) s) eqn:E.
  - left. apply String.eqb_eq, E.
  - right. destruct (number_by_hall full_table (hall_text h)); [discriminate |].
    destruct (number_by_hall default_table (hall_text h)); [discriminate |]. auto.
Qed.
(** a printed text that is found although it differs from the text that was read *)
Example C101_case : exists h, try_from_str "-A   2a (0 0 0) and so on" = Done (Some h) /\ hall_text h = "-A 2a"%string /\
  number_by_hall full_table "-A   2a (0 0 0) and so on" = None /\
  number_by_hall full_table (hall_text h) = Some "15:c1"%string /\ of_type h 15.
Proof.
  exists (parsed "-A 2a"). assert (P : try_from_str "-A   2a (0 0 0) and so on" = Done (Some (parsed "-A 2a"))) by (vm_compute; reflexivity).
  assert (N : number_by_hall full_table (hall_text (parsed "-A 2a")) = Some "15:c1"%string) by (vm_compute; reflexivity).
  split; [exact P |]. split; [vm_compute; reflexivity |]. split; [vm_compute; reflexivity |]. split; [exact N |].
  exact (proj1 (C101_found_in_full_table _ _ _ P (or_intror N))).
Qed.
