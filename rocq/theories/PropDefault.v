(** * PropDefault: property C102: which settings the default table's labels really stand for. *)
From Coq Require Import QArith.
From Verif Require Import Base Notations Parser Seitz Tables Generate Positions Lookup
  Spec SpecHall SpecTables SpecType SpecLabel Algebra PropSeitz PropSymbols GroupCheck RowData
  GenFacts PropGenerate PropFullSets PropShift PropTables PropTableGroups PropRelabel PropLabel.
Open Scope Z_scope.
Local Notation length := List.length.

(** the label with origin choice 1 replaced by origin choice 2 *)
Fixpoint second_choice (label : string) : string :=
  match label with
  | EmptyString => EmptyString
  | String c r => if Ascii.eqb c ":" then if String.eqb r "1" then ":2" else label else String c (second_choice r)
  end.

(** ** The settings *)
Definition default_row_ok (i : nat) : bool :=
  match nth_error default_number i, nth_error default_groups i with
  | Some label, Some p =>
      if Nat.eqb i 23 then forallb (fun p' => negb (groups_eqb p p')) full_groups else
      match position (String.eqb (second_choice label)) full_number with
      | Some j => match nth_error full_groups j with Some p' => groups_eqb p p' | None => false end
      | None => false
      end
  | _, _ => false
  end.
Lemma default_rows_set : forallb default_row_ok (seq 0 230) = true.
Proof. vm_cast_no_check (@eq_refl bool true). Qed.
Lemma default_row_at i label : get_space_group_number default_table i = Some label -> default_row_ok i = true /\ (i < 230)%nat.
Proof.
  intros H. change (nth_error default_number i = Some label) in H.
  assert (L : (i < 230)%nat).
  { change 230%nat with (length default_number). apply nth_error_Some. congruence. }
  split; [| exact L]. apply (proj1 (forallb_forall _ _) default_rows_set). apply in_seq. lia.
Qed.
(** every row of the default table but number 24 is the row of the full table that its label
    names, when 1 is read as 2: what it labels origin choice 1 is origin choice 2 *)
Theorem C102_default_origin_1_is_2 :
  forall i label s, get_space_group_number default_table i = Some label -> get_hall_symbol default_table i = Some s -> i <> 23%nat ->
    exists v s', variant_number v = Some (second_choice label) /\ variant_hall v = Some s' /\ same_text_group s s'.
Proof.
  intros i label s Hl Hs N. destruct (default_row_at i label Hl) as [H _]. unfold default_row_ok in H.
  change (nth_error default_number i = Some label) in Hl. change (nth_error default_hall i = Some s) in Hs. rewrite Hl in H.
  destruct (row_data _ _ default_groups_ok i s Hs) as (p & Hp & R). rewrite Hp in H.
  destruct (Nat.eqb_spec i 23) as [| _]; [contradiction |].
  destruct (position (String.eqb (second_choice label)) full_number) as [j |] eqn:P; [| discriminate].
  destruct (nth_error full_groups j) as [p' |] eqn:Hp'; [| discriminate].
  destruct (data_row _ _ full_groups_ok j p' Hp') as (s' & Hs' & R'). exists j, s'. split.
  { apply position_first in P. destruct P as (x & P1 & P2 & _). apply String.eqb_eq in P2. subst x. exact P1. }
  split; [exact Hs' |].
  destruct (default_certified s (nth_error_In _ _ Hs)) as (x & Rx & C). replace x with p in C by congruence.
  destruct (full_certified s' (nth_error_In _ _ Hs')) as (x' & Rx' & C'). replace x' with p' in C' by congruence.
  exact (proj2 (same_text_row _ _ _ _ R R' C C') H).
Qed.
(** number 24 of the default table is no row of the full table *)
Theorem C102_default_24_in_no_full_row :
  forall s v s', get_hall_symbol default_table 23%nat = Some s -> variant_hall v = Some s' -> ~ same_text_group s s'.
Proof.
  intros s v s' Hs Hs'. destruct (default_row_at 23%nat "24"%string ltac:(vm_compute; reflexivity)) as [H _]. unfold default_row_ok in H.
  change (nth_error default_hall 23%nat = Some s) in Hs. change (nth_error full_hall v = Some s') in Hs'.
  destruct (row_data _ _ default_groups_ok 23%nat s Hs) as (p & Hp & R). rewrite Hp in H.
  destruct (row_data _ _ full_groups_ok v s' Hs') as (p' & Hp' & R').
  destruct (default_certified s (nth_error_In _ _ Hs)) as (x & Rx & C). replace x with p in C by congruence.
  destruct (full_certified s' (nth_error_In _ _ Hs')) as (x' & Rx' & C'). replace x' with p' in C' by congruence.
  destruct (nth_error default_number 23%nat); [| discriminate]. change (Nat.eqb 23 23) with true in H. cbv iota in H.
  rewrite forallb_forall in H. specialize (H p' (nth_error_In _ _ Hp')). rewrite (same_text_row _ _ _ _ R R' C C').
  destruct (groups_eqb p p'); [discriminate | congruence].
Qed.
Lemma row_inversion s p t : row_group s = Some p -> certified p -> text_group s (inversion_at t) ->
  existsb (fun m => meqb (rot m) (mopp I3)) (snd p) = true.
Proof.
  intros R C G. apply (text_group_row _ _ R) in G. destruct (ck_group _ _ (proj1 C) _ G) as (m & Hm & E & _).
  apply existsb_exists. exists m. split; [exact Hm |]. cbn [inversion_at fst] in E. rewrite E. apply meqb_refl.
Qed.
Lemma no_inversion_24 : match nth_error default_groups 23%nat with
  | Some p => existsb (fun m => meqb (rot m) (mopp I3)) (snd p) = false | None => False end.
Proof. vm_compute. reflexivity. Qed.
Lemma second_choice_not_1 : forallb (fun l => negb (begins_with "1" (setting_code (second_choice l)))) default_number = true.
Proof. vm_compute. reflexivity. Qed.
(** a default row with an inversion has one at the origin, whatever its label says *)
Theorem C102_default_origin_at_inversion :
  forall i s, get_hall_symbol default_table i = Some s ->
    (exists t, text_group s (inversion_at t)) -> text_group s inversion_at_origin.
Proof.
  intros i s Hs (t & G). destruct (Nat.eq_dec i 23) as [-> | N].
  - exfalso. destruct (row_data _ _ default_groups_ok 23%nat s Hs) as (p & Hp & R).
    destruct (default_certified s (nth_error_In _ _ Hs)) as (x & Rx & C). replace x with p in C by congruence.
    pose proof no_inversion_24 as K. rewrite Hp, (row_inversion s p t R C G) in K. discriminate.
  - assert (L : exists label, get_space_group_number default_table i = Some label).
    { change (nth_error default_hall i = Some s) in Hs. change (exists label, nth_error default_number i = Some label).
      destruct (nth_error default_number i) as [label |] eqn:E; [eauto |]. exfalso. apply nth_error_None in E.
      assert (i < length default_hall)%nat by (apply nth_error_Some; congruence).
      assert (length default_hall = length default_number) by (vm_compute; reflexivity). lia. }
    destruct L as (label & Hl). destruct (C102_default_origin_1_is_2 i label s Hl Hs N) as (v & s' & V1 & V2 & Same).
    apply Same. destruct (C100_origin_choices v _ s' V1 V2) as [K _].
    apply (proj2 (K (ex_intro _ t (proj1 (Same _) G)))).
    pose proof (proj1 (forallb_forall _ _) second_choice_not_1 label (nth_error_In _ _ Hl)) as B. cbv beta in B.
    destruct (begins_with "1" (setting_code (second_choice label))); [discriminate | reflexivity].
Qed.

(** ** The same text under two numbers *)
(** default rows whose Hall text is not in the full table *)
Definition not_in_full : list nat := [23; 66; 67; 75; 77; 79; 90; 91; 94; 95; 97; 107; 108; 109; 227]%nat.
Definition conflict_row_ok (i : nat) : bool :=
  match nth_error default_number i, nth_error default_hall i with
  | Some label, Some s =>
      match number_by_hall default_table s with
      | Some b =>
          if String.eqb b label then
            match number_by_hall full_table s with
            | Some a => if String.eqb a (second_choice label) then negb (existsb (Nat.eqb i) not_in_full) else false
            | None => existsb (Nat.eqb i) not_in_full
            end
          else false
      | None => false
      end
  | _, _ => true
  end.
Lemma conflict_rows : forallb conflict_row_ok (seq 0 230) = true.
Proof. vm_cast_no_check (@eq_refl bool true). Qed.
(** a default row's Hall text, looked up in the full table, gives the label with choice 2, though
    the default table gives choice 1 for it; 15 texts are not in the full table at all *)
Theorem C102_tables_number_differently :
  forall i label s, get_space_group_number default_table i = Some label -> get_hall_symbol default_table i = Some s ->
    number_by_hall default_table s = Some label /\
    number_by_hall full_table s = if existsb (Nat.eqb i) not_in_full then None else Some (second_choice label).
Proof.
  intros i label s Hl Hs. destruct (default_row_at i label Hl) as [_ L].
  change (nth_error default_number i = Some label) in Hl. change (nth_error default_hall i = Some s) in Hs.
  assert (K : conflict_row_ok i = true) by (apply (proj1 (forallb_forall _ _) conflict_rows), in_seq; lia).
  unfold conflict_row_ok in K. rewrite Hl, Hs in K.
  destruct (number_by_hall default_table s) as [b0 |]; [| discriminate].
  destruct (String.eqb b0 label) eqn:E; [| discriminate]. apply String.eqb_eq in E. subst b0. split; [reflexivity |].
  destruct (number_by_hall full_table s) as [a0 |].
  - destruct (String.eqb a0 (second_choice label)) eqn:E; [| discriminate]. apply String.eqb_eq in E. subst a0.
    destruct (existsb (Nat.eqb i) not_in_full); [discriminate | reflexivity].
  - rewrite K. reflexivity.
Qed.
(** the very first such row: the text that the full table lists as 48:2 *)
Example C102_case :
  get_space_group_number default_table 47%nat = Some "48:1"%string /\ get_hall_symbol default_table 47%nat = Some "-P 2ab 2bc"%string /\
  second_choice "48:1" = "48:2"%string /\ second_choice "14:b1" = "14:b1"%string /\
  number_by_hall full_table "-P 2ab 2bc" = Some "48:2"%string /\ number_by_hall default_table "-P 2ab 2bc" = Some "48:1"%string /\
  text_group "-P 2ab 2bc" inversion_at_origin.
Proof.
  repeat (split; [vm_compute; reflexivity |]).
  exists (parsed "-P 2ab 2bc"). split; [vm_compute; reflexivity |]. apply gen_base.
  right. left. split; [vm_compute; reflexivity | reflexivity].
Qed.
