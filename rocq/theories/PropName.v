(** * PropName: property C104: Hermann-Mauguin names looked up in the two tables. *)
From Verif Require Import Base Tables Lookup SpecTables SpecHM SpecName PropTables.
Local Notation length := List.length.
Open Scope string_scope.

(** ** Taking blanks off *)
Lemma len_app s t : String.length (s ++ t) = (String.length s + String.length t)%nat.
Proof. induction s as [| c s IH]; [reflexivity | cbn; rewrite IH; reflexivity]. Qed.
Fixpoint trim (s : string) : string :=
  match s with
  | EmptyString => EmptyString
  | String c r => match trim r with
                  | EmptyString => if Ascii.eqb c " " then EmptyString else String c EmptyString
                  | t => String c t end
  end.
Lemma trim_app_blanks s k : trim (s ++ blanks k) = trim s.
Proof.
  induction s as [| c s IH]; [| cbn; rewrite IH; reflexivity].
  induction k as [| k IH]; [reflexivity |]. cbn in *. rewrite IH. reflexivity.
Qed.
Lemma trim_splits s : exists k, s = trim s ++ blanks k.
Proof.
  induction s as [| c s (k & E)]; [exists O; reflexivity |]. cbn [trim].
  destruct (trim s) as [| d t] eqn:T.
  - cbn in E. destruct (Ascii.eqb_spec c " ") as [-> | N].
    + exists (S k). cbn. congruence.
    + exists k. cbn. congruence.
  - exists k. cbn in *. congruence.
Qed.
Lemma trim_not_blank s : ~ ends_in_blank (trim s).
Proof.
  intros (r & E). pose proof (trim_app_blanks r 1) as H. cbn [blanks] in H.
  assert (I : trim (trim s) = trim s).
  { destruct (trim_splits s) as (k & K). rewrite K at 2. rewrite trim_app_blanks. reflexivity. }
  rewrite <- E, I in H. rewrite E in H. destruct (trim_splits r) as (k & K).
  apply (f_equal String.length) in H, K. rewrite len_app in H, K. cbn [String.length] in H. lia.
Qed.
Lemma trim_unblank s : ~ ends_in_blank s -> trim s = s.
Proof.
  intros N. destruct (trim_splits s) as (k & E). destruct k as [| k].
  - cbn [blanks] in E. rewrite E at 2. clear. induction (trim s) as [| c t IH]; [reflexivity | cbn; congruence].
  - exfalso. apply N. exists (trim s ++ blanks k). rewrite E at 1. clear.
    assert (B : forall j, blanks (S j) = blanks j ++ " ") by (induction j as [| j IH]; [reflexivity | cbn in *; congruence]).
    rewrite B. clear B. induction (trim s) as [| c t IH]; [reflexivity | cbn; rewrite IH; reflexivity].
Qed.
Lemma trimmed_to_iff s name : trimmed_to s name <-> name = trim s.
Proof.
  split.
  - intros [(k & ->) N]. rewrite trim_app_blanks. symmetry. exact (trim_unblank _ N).
  - intros ->. split; [exact (trim_splits s) | exact (trim_not_blank s)].
Qed.

(** ** The tables *)
Definition same_answer (a b : option string) : bool := opt_string_eqb a b.
Definition name_row_ok (i : nat) : bool :=
  match nth_error default_number i, nth_error default_hm i with
  | Some label, Some s =>
      let cut := existsb (Nat.eqb (leading_number label)) cut_names in
      let found := same_answer (number_by_hm full_table (trim s)) (Some label) in
      let full := Nat.eqb (String.length s) 10 in
      Bool.eqb found (negb cut) && Bool.eqb full (negb cut || Nat.eqb (leading_number label) 155)
  | _, _ => true
  end.
Lemma name_rows : forallb name_row_ok (seq 0 230) = true.
Proof. vm_cast_no_check (@eq_refl bool true). Qed.
Lemma name_row i label s : get_space_group_number default_table i = Some label -> get_hm_full_notation default_table i = Some s ->
  (number_by_hm full_table (trim s) = Some label <-> ~ In (leading_number label) cut_names) /\
  (String.length s = 10%nat <-> ~ In (leading_number label) cut_names \/ leading_number label = 155%nat).
Proof.
  intros Hl Hs. change (nth_error default_number i = Some label) in Hl. change (nth_error default_hm i = Some s) in Hs.
  assert (L : (i < 230)%nat).
  { change 230%nat with (length default_number). apply nth_error_Some. congruence. }
  assert (K : name_row_ok i = true) by (apply (proj1 (forallb_forall _ _) name_rows), in_seq; lia).
  unfold name_row_ok in K. rewrite Hl, Hs in K. cbv zeta in K. apply andb_true_iff in K. destruct K as [K1 K2].
  apply eqb_prop in K1, K2.
  assert (C : existsb (Nat.eqb (leading_number label)) cut_names = true <-> In (leading_number label) cut_names).
  { rewrite existsb_exists. split.
    - intros (n & H & E). apply Nat.eqb_eq in E. rewrite E. exact H.
    - intros H. exists (leading_number label). split; [exact H | apply Nat.eqb_refl]. }
  unfold same_answer in K1. rewrite <- opt_string_eqb_eq, <- Nat.eqb_eq, <- (Nat.eqb_eq (leading_number label)), <- C, K1, K2.
  destruct (existsb (Nat.eqb (leading_number label)) cut_names), (Nat.eqb (leading_number label) 155); cbn; intuition congruence.
Qed.
(** the names of the default table are padded to ten characters, so none can be looked up in the
    full table as it stands unless listed in [common_names]; with the blanks taken off, a name that
    is not cut leads to its own label in the full table *)
Theorem C104_default_names_padded :
  forall i label s, get_space_group_number default_table i = Some label -> get_hm_full_notation default_table i = Some s ->
    ((exists name, trimmed_to s name /\ number_by_hm full_table name = Some label) <-> ~ In (leading_number label) cut_names) /\
    (String.length s = 10%nat <-> ~ In (leading_number label) cut_names \/ leading_number label = 155%nat).
Proof.
  intros i label s Hl Hs. destruct (name_row i label s Hl Hs) as [A B]. split; [| exact B]. rewrite <- A. split.
  - intros (name & T & F). apply trimmed_to_iff in T. subst name. exact F.
  - intros F. exists (trim s). split; [apply trimmed_to_iff; reflexivity | exact F].
Qed.
Definition unpadded (s : string) : bool := String.eqb (trim s) s.
Lemma unpadded_iff s : unpadded s = true <-> ~ ends_in_blank s.
Proof.
  unfold unpadded. rewrite String.eqb_eq. split.
  - intros E. rewrite <- E. apply trim_not_blank.
  - apply trim_unblank.
Qed.
(** no name of the full table ends in a blank *)
Theorem C104_full_names_unpadded :
  forall i s, get_hm_full_notation full_table i = Some s -> ~ ends_in_blank s.
Proof.
  intros i s H. change (nth_error full_hm i = Some s) in H. apply unpadded_iff.
  assert (K : forallb unpadded full_hm = true) by (vm_compute; reflexivity).
  exact (proj1 (forallb_forall _ _) K s (nth_error_In _ _ H)).
Qed.

(** ** Every text *)
(** [l] lists exactly the texts accepted by [ok] that the table knows, with its answers *)
Definition answers_ok (t : sgtable) (ok : string -> bool) (l : list (string * string)) : bool :=
  forallb (fun s => negb (ok s) || existsb (fun p => String.eqb (fst p) s && same_answer (number_by_hm t s) (Some (snd p))) l) (t_hm t) &&
  forallb (fun p => ok (fst p) && same_answer (number_by_hm t (fst p)) (Some (snd p))) l.
Lemma answers_sound t ok l : answers_ok t ok l = true ->
  forall s r, ok s = true -> (number_by_hm t s = Some r <-> In (s, r) l).
Proof.
  intros K s r Hs. apply andb_true_iff in K. destruct K as [K1 K2]. rewrite forallb_forall in K1, K2. split.
  - intros F. assert (I : In s (t_hm t)).
    { unfold number_by_hm in F. destruct (position (fun x => String.eqb x s) (t_hm t)) as [i |] eqn:P; [| discriminate].
      apply position_first_row in P. exact (nth_error_In _ _ (proj1 P)). }
    specialize (K1 s I). rewrite Hs in K1. cbn [negb orb] in K1. apply existsb_exists in K1. destruct K1 as ([a b] & Hp & E).
    apply andb_true_iff in E. destruct E as [E1 E2]. cbn [fst snd] in *. apply String.eqb_eq in E1. subst a.
    apply opt_string_eqb_eq in E2. replace r with b by congruence. exact Hp.
  - intros I. specialize (K2 _ I). apply andb_true_iff in K2. apply opt_string_eqb_eq. exact (proj2 K2).
Qed.
Lemma default_answers : answers_ok default_table unpadded default_names_found = true.
Proof. vm_cast_no_check (@eq_refl bool true). Qed.
(** of all texts without a blank at the end the default table finds only fifteen *)
Theorem C104_names_found_in_default :
  forall s r, ~ ends_in_blank s -> (number_by_hm default_table s = Some r <-> In (s, r) default_names_found).
Proof. intros s r N. apply (answers_sound _ _ _ default_answers), unpadded_iff, N. Qed.
Lemma by_hm_in t s r : number_by_hm t s = Some r -> In s (t_hm t).
Proof.
  unfold number_by_hm. destruct (position (fun x => String.eqb x s) (t_hm t)) as [i |] eqn:P; [| discriminate].
  apply position_first_row in P. intros _. exact (nth_error_In _ _ (proj1 P)).
Qed.
Lemma common_from_found :
  forallb (fun p => same_answer (number_by_hm full_table (fst p)) None ||
    existsb (fun q => String.eqb (fst q) (fst p) && String.eqb (snd (snd q)) (snd p) &&
                      same_answer (number_by_hm full_table (fst p)) (Some (fst (snd q)))) common_names) default_names_found = true /\
  forallb (fun q => same_answer (number_by_hm full_table (fst q)) (Some (fst (snd q))) &&
                    same_answer (number_by_hm default_table (fst q)) (Some (snd (snd q)))) common_names = true.
Proof. split; vm_compute; reflexivity. Qed.
(** both tables know a name only in twelve cases, and in six of these they disagree on the
    space-group number *)
Theorem C104_names_in_both_tables :
  forall s a b, number_by_hm full_table s = Some a /\ number_by_hm default_table s = Some b <-> In (s, (a, b)) common_names.
Proof.
  intros s a b. destruct common_from_found as [C1 C2]. rewrite forallb_forall in C1, C2. split.
  - intros [A B]. assert (N : ~ ends_in_blank s).
    { destruct (In_nth_error _ _ (by_hm_in _ _ _ A)) as [i Hi].
      exact (C104_full_names_unpadded i s Hi). }
    apply (C104_names_found_in_default s b N) in B. specialize (C1 _ B). cbn [fst snd] in C1. rewrite A in C1.
    cbn [same_answer opt_string_eqb orb] in C1. apply existsb_exists in C1. destruct C1 as ([x [y z]] & Hq & E).
    cbn [fst snd] in E. apply andb_true_iff in E. destruct E as [E E3]. apply andb_true_iff in E. destruct E as [E1 E2].
    apply String.eqb_eq in E1, E2, E3. subst. exact Hq.
  - intros I. specialize (C2 _ I). cbn [fst snd] in C2. apply andb_true_iff in C2. destruct C2 as [C2 C3].
    apply opt_string_eqb_eq in C2, C3. split; assumption.
Qed.
(** the name of a row of the full table, looked up in the default table, gives the row's own label
    for six rows, the label of another space group for six rows, and nothing for all others *)
Theorem C104_full_names_in_default :
  forall i label s r, get_space_group_number full_table i = Some label -> get_hm_full_notation full_table i = Some s ->
    (number_by_hm default_table s = Some r <-> In (s, (label, r)) common_names).
Proof.
  intros i label s r Hl Hs. rewrite <- C104_names_in_both_tables.
  assert (L : (i < 530)%nat).
  { change 530%nat with (length full_number). apply nth_error_Some. change (nth_error full_number i = Some label) in Hl. congruence. }
  destruct (C39_full_hm_round_trip i L) as (s' & E & F). replace s' with s in F by congruence. rewrite Hl in F. tauto.
Qed.
(** the name of a row of the default table, looked up in the full table, is found only if it is one
    of the common names *)
Theorem C104_default_names_in_full :
  forall i s r, get_hm_full_notation default_table i = Some s ->
    (number_by_hm full_table s = Some r <-> exists b, In (s, (r, b)) common_names).
Proof.
  intros i s r Hs. split.
  - intros F. destruct (number_by_hm default_table s) as [b |] eqn:B.
    + exists b. apply C104_names_in_both_tables. auto.
    + exfalso. assert (W : well_formed default_table) by (repeat split; vm_compute; reflexivity).
      apply (proj2 (C38_by_hm_first_row default_table s W)) in B. apply B. exact (nth_error_In _ _ Hs).
  - intros (b & I). apply C104_names_in_both_tables in I. exact (proj1 I).
Qed.
(** P 4: number 75 in the full table, 83 (P 4/m, cut) in the default table; P 1: found in the
    default table only with the blanks *)
Example C104_case :
  number_by_hm full_table "P 4" = Some "75" /\ number_by_hm default_table "P 4" = Some "83" /\
  get_hm_full_notation default_table 74%nat = Some "P 4       " /\
  number_by_hm default_table "P 1" = None /\ number_by_hm default_table "P 1       " = Some "1" /\
  number_by_hm full_table "P 1" = Some "1" /\ ~ ends_in_blank "P 1" /\ trimmed_to "P 1       " "P 1" /\
  ~ In (leading_number "1") cut_names /\ In ("P 4", ("75", "83")) common_names.
Proof.
  repeat match goal with |- _ /\ _ => split | |- _ = _ => vm_compute; reflexivity end.
  - apply unpadded_iff. reflexivity.
  - apply trimmed_to_iff. reflexivity.
  - vm_compute. intuition discriminate.
  - cbn. tauto.
Qed.
