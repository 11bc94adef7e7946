(** * PropLabel: property C100: the labels behind the space-group numbers name settings. *)
From Coq Require Import QArith.
From Verif Require Import Base Notations Parser Seitz Tables Generate Positions Lookup
  Spec SpecHall SpecTables SpecType SpecLabel Algebra PropSeitz PropSymbols GroupCheck RowData
  GenFacts PropGenerate PropFullSets PropShift PropTables PropTableGroups TypeFacts TypeCount PropTypes.
Open Scope Z_scope.
Local Notation length := List.length.

(** ** The check of one row *)
(** origins of the second choice in the primitive cell of the row, in 24ths (found by search) *)
Definition second_origins : list (string * vec3) := [
  ("48:2", V3 6 6 6); ("50:2", V3 6 6 0); ("50:2cab", V3 0 6 6); ("50:2bca", V3 6 0 6);
  ("59:2", V3 6 6 0); ("59:2cab", V3 0 6 6); ("59:2bca", V3 6 0 6);
  ("68:2", V3 6 12 6); ("68:2ba-c", V3 6 0 6); ("68:2cab", V3 6 6 12); ("68:2-cba", V3 6 6 0);
  ("68:2bca", V3 6 6 0); ("68:2a-cb", V3 6 6 12); ("70:2", V3 9 9 9);
  ("85:2", V3 6 18 0); ("86:2", V3 6 6 6); ("88:2", V3 3 21 18); ("125:2", V3 6 6 0); ("126:2", V3 6 6 6);
  ("129:2", V3 6 18 0); ("130:2", V3 6 18 0); ("133:2", V3 6 18 6); ("134:2", V3 6 18 6); ("137:2", V3 6 18 6);
  ("138:2", V3 6 18 6); ("141:2", V3 3 9 18); ("142:2", V3 3 9 18); ("201:2", V3 6 6 6); ("203:2", V3 9 9 9);
  ("222:2", V3 6 6 6); ("224:2", V3 6 6 6); ("227:2", V3 9 9 9); ("228:2", V3 3 3 3) ]%string.
Definition second_origin (label : string) : vec3 :=
  match find (fun x => String.eqb (fst x) label) second_origins with Some x => snd x | None => v0 end.
Definition mdivk (k : Z) (M : mat3) : mat3 :=
  M3 (m11 M / k) (m12 M / k) (m13 M / k) (m21 M / k) (m22 M / k) (m23 M / k) (m31 M / k) (m32 M / k) (m33 M / k).
Definition axes_named (code : string) : option axes := option_map snd (find (fun x => String.eqb (fst x) code) settings).
(** the change of coordinates between the primitive cells *)
Definition primitive_change (l l' : lattice) (A : axes) (q : vec3) : mat3 * vec3 * Z :=
  let '(P, d) := A in (mdivk 12 (mmul (mmul (pdual l') (mdivk (mdet P) (mscale d (madj P)))) (pbasis l)), q, 2).
(** and between the given cells *)
Definition whole_change (l l' : lattice) (w : mat3 * vec3 * Z) : change :=
  ch_comp (ch_inv (prim_change l')) (ch_comp (change_of w) (prim_change l)).
Definition label_row_ok (label : string) (p0 p : hall * list seitz) (c0 c : option (list op)) : bool :=
  match axes_named (setting_code label), c0, c with
  | Some A, Some c0, Some c =>
      let l := ls_char (h_lat (fst p0)) in let l' := ls_char (h_lat (fst p)) in
      let w := primitive_change l l' A (second_origin label) in
      let f := whole_change l l' w in
      if change_check w c0 c then
        if (0 <? ch_d f) then if meqb (mmul (fst A) (ch_M f)) (mscale (snd A * ch_d f) I3) then
          if begins_with "2" (setting_code label) then true else veqb (ch_q f) v0
        else false else false
      else false
  | _, _, _ => false
  end.
Lemma axes_named_in code A : axes_named code = Some A -> In (code, A) settings.
Proof.
  unfold axes_named. destruct (find _ settings) as [x |] eqn:F; [| discriminate]. cbn [option_map]. intros E. injection E as <-.
  apply find_some in F. destruct F as [F1 F2]. apply String.eqb_eq in F2. subst code. destruct x; exact F1.
Qed.
Lemma label_row_sound label s0 s p0 p : row_group s0 = Some p0 -> row_group s = Some p -> certified p0 -> certified p ->
  label_row_ok label p0 p (group_prim p0) (group_prim p) = true ->
  exists A, In (setting_code label, A) settings /\
    in_setting A (begins_with "2" (setting_code label)) (text_group s0) (text_group s).
Proof.
  intros R0 R C0 C H. unfold label_row_ok in H. destruct (axes_named _) as [A |] eqn:EA; [| discriminate].
  unfold group_prim in H. cbv zeta in H.
  destruct (prim_check (ls_char (h_lat (fst p0))) (snd p0)) eqn:K0; [| discriminate].
  destruct (prim_check (ls_char (h_lat (fst p))) (snd p)) eqn:K; [| discriminate].
  set (l := ls_char (h_lat (fst p0))) in *. set (l' := ls_char (h_lat (fst p))) in *.
  set (w := primitive_change l l' A (second_origin label)) in *.
  destruct (change_check w _ _) eqn:W; [| discriminate].
  destruct (0 <? ch_d (whole_change l l' w)) eqn:D; [| discriminate]. apply Z.ltb_lt in D.
  destruct (meqb (mmul _ _) _) eqn:M; [| discriminate]. apply meqb_eq in M.
  exists A. split; [apply axes_named_in, EA |].
  exists (whole_change l l' w). split; [split; assumption |]. split.
  { intros B. rewrite B in H. apply veqb_eq in H. exact H. }
  destruct (change_check_spec _ _ _ W) as [Iw Tw].
  assert (T0 := prim_turns p0 C0 K0). assert (T := prim_turns p C K). fold l in T0. fold l' in T.
  assert (T' : turns_into (whole_change l l' w) (hall_group (fst p0)) (hall_group (fst p))).
  { unfold whole_change.
    eapply turns_comp; [apply invertible_comp; [exact Iw | apply prim_invertible] | apply invertible_inv, prim_invertible | |
      apply turns_inv; [apply prim_invertible | exact T]].
    eapply turns_comp; [apply prim_invertible | exact Iw | exact T0 | exact Tw]. }
  destruct T' as [X Y]. split.
  - intros o G. apply (text_group_row _ _ R0) in G. destruct (X o G) as (o' & G' & Ca). exists o'. split; [apply (text_group_row _ _ R), G' | exact Ca].
  - intros o' G'. apply (text_group_row _ _ R) in G'. destruct (Y o' G') as (o & G & Ca). exists o. split; [apply (text_group_row _ _ R0), G | exact Ca].
Qed.

(** ** All rows *)
(** walking along the table, with the first row of the current number *)
Definition keep := (nat * (hall * list seitz) * option (list op))%type.
Fixpoint label_rows_ok (old : option keep) (labels : list string) (groups : list (hall * list seitz)) : bool :=
  match labels, groups with
  | [], [] => true
  | label :: labels, p :: groups =>
      let n := leading_number label in
      let c := group_prim p in
      match old with
      | Some (n0, p0, c0) =>
          if Nat.eqb n0 n then
            if label_row_ok label p0 p c0 c then label_rows_ok old labels groups else false
          else if Nat.ltb n0 n then
            if label_row_ok label p p c c then label_rows_ok (Some (n, p, c)) labels groups else false
          else false
      | None => if label_row_ok label p p c c then label_rows_ok (Some (n, p, c)) labels groups else false
      end
  | _, _ => false
  end.
Definition first_among (labels : list string) (n w : nat) : Prop :=
  (exists l, nth_error labels w = Some l /\ leading_number l = n) /\
  forall w' l', (w' < w)%nat -> nth_error labels w' = Some l' -> leading_number l' <> n.
(** what holds for each row: its reference is the kept one or one of the list *)
Lemma label_rows_from labels : forall groups old, label_rows_ok old labels groups = true ->
  (forall v label, nth_error labels v = Some label -> match old with Some (n0, _, _) => (n0 <= leading_number label)%nat | None => True end) /\
  forall v label p, nth_error labels v = Some label -> nth_error groups v = Some p ->
    (exists p0, old = Some (leading_number label, p0, group_prim p0) /\ label_row_ok label p0 p (group_prim p0) (group_prim p) = true) \/
    (exists w p0, (w <= v)%nat /\ first_among labels (leading_number label) w /\ nth_error groups w = Some p0 /\
       (match old with Some (n0, _, _) => n0 <> leading_number label | None => True end) /\
       label_row_ok label p0 p (group_prim p0) (group_prim p) = true) \/
    (exists n0 p0 c0, old = Some (n0, p0, c0) /\ c0 <> group_prim p0).
Proof.
  induction labels as [| a labels IH]; intros [| g groups] old H; cbn [label_rows_ok] in H; try discriminate.
  { split; intros v; destruct v; discriminate. }
  cbv zeta in H.
  assert (New : label_row_ok a g g (group_prim g) (group_prim g) = true -> 
     label_rows_ok (Some (leading_number a, g, group_prim g)) labels groups = true ->
     (match old with Some (n0, _, _) => (n0 < leading_number a)%nat | None => True end) ->
     (forall v label, nth_error (a :: labels) v = Some label -> match old with Some (n0, _, _) => (n0 <= leading_number label)%nat | None => True end) /\
     forall v label p, nth_error (a :: labels) v = Some label -> nth_error (g :: groups) v = Some p ->
      (exists p0, old = Some (leading_number label, p0, group_prim p0) /\ label_row_ok label p0 p (group_prim p0) (group_prim p) = true) \/
      (exists w p0, (w <= v)%nat /\ first_among (a :: labels) (leading_number label) w /\ nth_error (g :: groups) w = Some p0 /\
         (match old with Some (n0, _, _) => n0 <> leading_number label | None => True end) /\
         label_row_ok label p0 p (group_prim p0) (group_prim p) = true) \/
      (exists n0 p0 c0, old = Some (n0, p0, c0) /\ c0 <> group_prim p0)).
  { intros O1 O2 Old. destruct (IH _ _ O2) as [Up Rows].
    assert (Older : forall v label, nth_error (a :: labels) v = Some label ->
              match old with Some (n0, _, _) => (n0 < leading_number label)%nat | None => True end).
    { intros [| v] label E; cbn [nth_error] in E; [injection E as <-; exact Old |]. specialize (Up v label E). cbv beta iota in Up.
      destruct old as [[[n0 p0] c0] |]; [lia | exact I]. }
    split. { intros v label E. specialize (Older v label E). destruct old as [[[n0 p0] c0] |]; [lia | exact I]. }
    intros v label p E1 E2. right. left.
    assert (N : match old with Some (n0, _, _) => n0 <> leading_number label | None => True end).
    { specialize (Older v label E1). destruct old as [[[n0 p0] c0] |]; [lia | exact I]. }
    assert (First : leading_number label = leading_number a -> first_among (a :: labels) (leading_number label) 0%nat).
    { intros Q. split; [exists a; split; [reflexivity | auto] |]. intros w' l' L. lia. }
    destruct v as [| v]; cbn [nth_error] in E1, E2.
    - injection E1 as <-. injection E2 as <-. exists 0%nat, g. split; [lia |]. split; [apply First; reflexivity |]. split; [reflexivity |]. split; [exact N | exact O1].
    - destruct (Rows v label p E1 E2) as [(p0 & Q & K) | [(w & p0 & L & F & G & Ne & K) | (n0 & p0 & c0 & Q & Bad)]].
      + injection Q as Q1 Q2. subst p0. exists 0%nat, g. split; [lia |]. split; [apply First; auto |]. split; [reflexivity |]. split; [exact N | exact K].
      + exists (S w), p0. split; [lia |]. split; [| split; [exact G | split; [exact N | exact K]]].
        destruct F as [F1 F2]. split; [exact F1 |]. intros [| w'] l' Lw E; cbn [nth_error] in E.
        * injection E as <-. exact Ne.
        * apply (F2 w' l'); [lia | exact E].
      + exfalso. injection Q as Q1 Q2 Q3. subst. apply Bad. reflexivity. }
  destruct old as [[[n0 p0] c0] |].
  2: { destruct (label_row_ok a g g _ _) eqn:O1; [| discriminate]. apply New; auto. }
  destruct (Nat.eqb_spec n0 (leading_number a)) as [Eq | Ne].
  2: { destruct (Nat.ltb_spec n0 (leading_number a)) as [Lt |]; [| discriminate].
       destruct (label_row_ok a g g _ _) eqn:O1; [| discriminate]. apply New; auto. }
  clear New. destruct (label_row_ok a p0 g c0 (group_prim g)) eqn:O1; [| discriminate].
  destruct (IH _ _ H) as [Up Rows]. split.
  { intros [| v] label E; cbn [nth_error] in E; [injection E as <-; lia | exact (Up v label E)]. }
  intros v label p E1 E2.
  assert (Dec : {c0 = group_prim p0} + {c0 <> group_prim p0}) by (repeat decide equality).
  destruct Dec as [Good | Bad]; [| right; right; eauto 6].
  subst c0. destruct v as [| v]; cbn [nth_error] in E1, E2.
  - injection E1 as <-. injection E2 as <-. left. exists p0. subst n0. split; [reflexivity | exact O1].
  - destruct (Rows v label p E1 E2) as [(q0 & Q & K) | [(w & q0 & L & F & G & Ne & K) | X]].
    + left. exists q0. split; [exact Q | exact K].
    + right. left. exists (S w), q0. split; [lia |]. split; [| split; [exact G | split; [exact Ne | exact K]]].
      destruct F as [F1 F2]. split; [exact F1 |]. intros [| w'] l' Lw E; cbn [nth_error] in E.
      * injection E as <-. lia.
      * apply (F2 w' l'); [lia | exact E].
    + right. right. exact X.
Qed.
Lemma full_labels_ok : label_rows_ok None full_number full_groups = true.
Proof. vm_cast_no_check (@eq_refl bool true). Qed.

(** ** C100 *)
(** the first row of the full table with the space-group number [n] *)
Definition first_row (n : nat) (w : variant) : Prop :=
  (exists l, variant_number w = Some l /\ leading_number l = n) /\
  forall w' l', (w' < w)%nat -> variant_number w' = Some l' -> leading_number l' <> n.
(** every row is the first row of its number, referred to the axes its label names; only labels
    with origin choice 2 move the origin *)
Theorem C100_labels_name_settings :
  forall v label s, variant_number v = Some label -> variant_hall v = Some s ->
    exists A w s0, In (setting_code label, A) settings /\
      first_row (leading_number label) w /\ variant_hall w = Some s0 /\
      in_setting A (begins_with "2" (setting_code label)) (text_group s0) (text_group s).
Proof.
  intros v label s Hl Hs. change (nth_error full_number v = Some label) in Hl. change (nth_error full_hall v = Some s) in Hs.
  destruct (row_data _ _ full_groups_ok v s Hs) as (p & Hp & R).
  destruct (label_rows_from _ _ _ full_labels_ok) as [_ Rows].
  destruct (Rows v label p Hl Hp) as [(p0 & Q & _) | [(w & p0 & L & F & G & _ & K) | (n0 & p0 & c0 & Q & _)]]; try discriminate.
  assert (W : exists s0, nth_error full_hall w = Some s0).
  { destruct (nth_error full_hall w) as [s0 |] eqn:E; [eauto |]. exfalso. apply nth_error_None in E.
    assert (v < length full_hall)%nat by (apply nth_error_Some; congruence). lia. }
  destruct W as (s0 & Hs0). destruct (row_data _ _ full_groups_ok w s0 Hs0) as (p0' & Hp0 & R0).
  assert (p0' = p0) by congruence. subst p0'.
  destruct (full_certified s (nth_error_In _ _ Hs)) as (p' & R' & C). assert (p' = p) by congruence. subst p'.
  destruct (full_certified s0 (nth_error_In _ _ Hs0)) as (p0' & R0' & C0). assert (p0' = p0) by congruence. subst p0'.
  destruct (label_row_sound label s0 s p0 p R0 R C0 C K) as (A & I1 & I2).
  exists A, w, s0. split; [exact I1 |]. split; [exact F |]. split; [exact Hs0 | exact I2].
Qed.
(** no label has two meanings *)
Theorem C100_codes_distinct : NoDup (map fst settings).
Proof.
  assert (H : (fix nd (l : list string) : bool := match l with [] => true | x :: r => if existsb (String.eqb x) r then false else nd r end)
            (map fst settings) = true) by (vm_compute; reflexivity).
  revert H. generalize (map fst settings). induction l as [| x r IH]; intros H; [constructor |].
  destruct (existsb (String.eqb x) r) eqn:E; [discriminate |]. constructor; [| apply IH, H].
  intros C. assert (X : existsb (String.eqb x) r = true) by (apply existsb_exists; exists x; split; [exact C | apply String.eqb_refl]). congruence.
Qed.

(** ** Origin choices *)
Definition origin_row_ok (label : string) (p : hall * list seitz) : bool :=
  let l := ls_char (h_lat (fst p)) in
  let centro := existsb (fun m => meqb (rot m) (mopp I3)) (snd p) in
  let at_0 := existsb (fun m => if meqb (rot m) (mopp I3) then in_latb l (vsub v0 (tra m)) else false) (snd p) in
  if centro then Bool.eqb at_0 (negb (begins_with "1" (setting_code label)))
  else negb (begins_with "1" (setting_code label)) && negb (begins_with "2" (setting_code label)).
Lemma origin_rows_ok : forallb (fun x => origin_row_ok (fst x) (snd x)) (combine full_number full_groups) = true.
Proof. vm_cast_no_check (@eq_refl bool true). Qed.
Lemma in_combine_nth {A B} : forall (l : list A) (r : list B) i a b,
  nth_error l i = Some a -> nth_error r i = Some b -> In (a, b) (combine l r).
Proof.
  induction l as [| x l IH]; intros [| y r] [| i] a b H K; cbn [nth_error combine] in *; try discriminate.
  - injection H as <-. injection K as <-. now left.
  - right. eapply IH; eauto.
Qed.
(** a row whose group has an inversion has one at the origin, unless its label says origin choice
    1; rows with an origin choice have an inversion *)
Theorem C100_origin_choices :
  forall v label s, variant_number v = Some label -> variant_hall v = Some s ->
    ((exists t, text_group s (inversion_at t)) ->
       (text_group s inversion_at_origin <-> begins_with "1" (setting_code label) = false)) /\
    (begins_with "1" (setting_code label) = true \/ begins_with "2" (setting_code label) = true ->
       exists t, text_group s (inversion_at t)).
Proof.
  intros v label s Hl Hs. change (nth_error full_number v = Some label) in Hl. change (nth_error full_hall v = Some s) in Hs.
  destruct (row_data _ _ full_groups_ok v s Hs) as (p & Hp & R).
  destruct (full_certified s (nth_error_In _ _ Hs)) as (p' & R' & C). assert (p' = p) by congruence. subst p'. clear R'.
  pose proof (proj1 (forallb_forall _ _) origin_rows_ok _ (in_combine_nth _ _ _ _ _ Hl Hp)) as K. cbn [fst snd] in K.
  unfold origin_row_ok in K. cbv zeta in K. set (l := ls_char (h_lat (fst p))) in *.
  assert (Mem : forall o, text_group s o <-> in_core l (snd p) o).
  { intros o. rewrite (text_group_row _ _ R). split.
    - intros G. exact (ck_group _ _ (proj1 C) o G).
    - intros G. exact (in_core_group p l o C eq_refl G). }
  assert (Inv : (exists t, text_group s (inversion_at t)) <-> existsb (fun m => meqb (rot m) (mopp I3)) (snd p) = true).
  { rewrite existsb_exists. split.
    - intros (t & G). apply Mem in G. destruct G as (m & Hm & E & _). exists m. split; [exact Hm |]. cbn [inversion_at fst] in E. rewrite E. apply meqb_refl.
    - intros (m & Hm & E). apply meqb_eq in E. exists (tra m). apply Mem. exists m. split; [exact Hm |]. split; [exact E |].
      cbn [inversion_at snd]. replace (vsub (tra m) (tra m)) with v0 by (generalize (tra m); mat_ring). apply in_lat_0. }
  assert (At0 : text_group s inversion_at_origin <-> existsb (fun m => if meqb (rot m) (mopp I3) then in_latb l (vsub v0 (tra m)) else false) (snd p) = true).
  { rewrite existsb_exists, Mem. split.
    - intros (m & Hm & E & L). exists m. split; [exact Hm |]. cbn [inversion_at_origin fst snd] in E, L. rewrite E, meqb_refl. exact (in_latb_complete _ _ L).
    - intros (m & Hm & E). destruct (meqb (rot m) (mopp I3)) eqn:X; [| discriminate]. apply meqb_eq in X. exists m. split; [exact Hm |].
      split; [exact X |]. exact (in_latb_spec _ _ E). }
  destruct (existsb (fun m => meqb (rot m) (mopp I3)) (snd p)) eqn:Ce.
  - apply Bool.eqb_prop in K. split; [intros _ | intros _; apply Inv; reflexivity].
    rewrite At0, K. destruct (begins_with "1" (setting_code label)); cbn [negb]; split; congruence.
  - apply andb_true_iff in K. destruct K as [K1 K2]. split.
    + intros G. apply Inv in G. discriminate.
    + intros [X | X]; rewrite X in *; discriminate.
Qed.

(** ** Concrete cases *)
Example C100_case_cell_choice :
  In ("b2"%string, (M3 (-1) 0 1 0 1 0 (-1) 0 0, 1)) settings /\
  setting_code "14:b2" = "b2"%string /\ setting_code "57" = ""%string.
Proof. split; [| split; reflexivity]. vm_compute. tauto. Qed.
Example C100_case_rows :
  variant_number 81%nat = Some "14:b2"%string /\ variant_hall 81%nat = Some "-P 2yn"%string /\ first_row 14 80%nat /\
  variant_hall 80%nat = Some "-P 2ybc"%string.
Proof.
  split; [reflexivity |]. split; [reflexivity |]. split; [| reflexivity]. split; [exists "14:b1"%string; split; reflexivity |].
  intros w' l' L H. assert (K : forallb (fun l => negb (Nat.eqb (leading_number l) 14)) (firstn 80%nat full_number) = true) by (vm_compute; reflexivity).
  rewrite forallb_forall in K. change (nth_error full_number w' = Some l') in H.
  assert (I : In l' (firstn 80%nat full_number)).
  { assert (X : nth_error (firstn 80%nat full_number) w' = Some l'); [| exact (nth_error_In _ _ X)].
    rewrite <- (firstn_skipn 80%nat full_number), nth_error_app1 in H; [exact H |]. rewrite firstn_length. cbn. lia. }
  specialize (K l' I). intros Q. rewrite Q in K. discriminate.
Qed.
