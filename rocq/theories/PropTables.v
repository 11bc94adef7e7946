(** * PropTables: properties C31, C32, C37-C44, C48: the tables, over all their rows. *)
From Verif Require Import Base Notations Parser Seitz F64 Jones Rotations Tables Generate Positions Lookup
  Spec SpecHall SpecTables Algebra PropSeitz PropSymbols GenFacts PropGenerate GroupCheck PropFullSets PropShift.
Open Scope Z_scope.
Local Notation length := List.length.

(** ** C37, C38  Lookups *)
Theorem C37_full_index_defined :
  forall i, ((exists s, get_hall_symbol full_table i = Some s) <-> (i < 530)%nat) /\
            ((exists s, get_hm_full_notation full_table i = Some s) <-> (i < 530)%nat) /\
            ((exists s, get_space_group_number full_table i = Some s) <-> (i < 530)%nat).
Proof.
  assert (Q : forall (l : list string) i, (exists s, nth_error l i = Some s) <-> (i < length l)%nat).
  { intros l i. rewrite <- nth_error_Some. destruct (nth_error l i).
    - split; [discriminate | eauto]. - split; [intros (? & ?); discriminate | congruence]. }
  intros i. split; [| split]; apply Q.
Qed.
Theorem C37_default_index_defined :
  forall i, ((exists s, get_hall_symbol default_table i = Some s) <-> (i < 230)%nat) /\
            ((exists s, get_hm_full_notation default_table i = Some s) <-> (i < 230)%nat) /\
            ((exists s, get_space_group_number default_table i = Some s) <-> (i < 230)%nat).
Proof.
  assert (Q : forall (l : list string) i, (exists s, nth_error l i = Some s) <-> (i < length l)%nat).
  { intros l i. rewrite <- nth_error_Some. destruct (nth_error l i).
    - split; [discriminate | eauto]. - split; [intros (? & ?); discriminate | congruence]. }
  intros i. split; [| split]; apply Q.
Qed.
(** there are 530 enum variants, one for each row of the full table and no more, so the three
    getters of a variant never panic and every row is reached by one *)
Theorem C37_variants_have_rows :
  List.length variant_names = 530%nat /\
  forall v, is_variant v <->
    exists n m s, get_space_group_number full_table v = Some n /\ get_hm_full_notation full_table v = Some m /\ get_hall_symbol full_table v = Some s.
Proof.
  split; [vm_compute; reflexivity |].
  assert (Q : forall (l : list string) i, (exists s, nth_error l i = Some s) <-> (i < length l)%nat).
  { intros l i. rewrite <- nth_error_Some. destruct (nth_error l i).
    - split; [discriminate | eauto]. - split; [intros (? & ?); discriminate | congruence]. }
  intros v. unfold is_variant. change (length variant_names) with 530%nat. split.
  - intros L. destruct (proj2 (Q full_number v) L) as (n & A). destruct (proj2 (Q full_hm v) L) as (m & B). destruct (proj2 (Q full_hall v) L) as (s & C).
    exists n, m, s. auto.
  - intros (n & m & s & A & _). exact (proj1 (Q full_number v) (ex_intro _ n A)).
Qed.

(** a table read row by row: number, Hermann-Mauguin and Hall text side by side *)
Fixpoint rows_of (numbers hms halls : list string) : list (string * string * string) :=
  match numbers, hms, halls with
  | n :: ns, m :: ms, s :: ss => (n, m, s) :: rows_of ns ms ss
  | _, _, _ => []
  end.
Definition well_formed (t : sgtable) : Prop :=
  length (t_hm t) = length (t_number t) /\ length (t_hall t) = length (t_number t).
Lemma rows_nth ns : forall ms ss i n m s, length ms = length ns -> length ss = length ns ->
  (nth_error (rows_of ns ms ss) i = Some (n, m, s) <->
   nth_error ns i = Some n /\ nth_error ms i = Some m /\ nth_error ss i = Some s).
Proof.
  induction ns as [| a ns IH]; intros [| b ms] [| c ss] i n m s L K; try discriminate.
  - cbn [rows_of]. destruct i; cbn [nth_error]; intuition discriminate.
  - cbn [rows_of]. destruct i; cbn [nth_error].
    + split; [intros E; injection E as -> -> ->; auto | intros (A & B & C); congruence].
    + apply IH; cbn [List.length] in *; lia.
Qed.
(** the three lookups by index return the three texts of the row with that index, for any table of three
    equally long columns, and the three getters of a variant those of the row of the full table with its discriminant *)
Theorem C37_lookup_is_the_row :
  forall t i n m s, well_formed t ->
    (nth_error (rows_of (t_number t) (t_hm t) (t_hall t)) i = Some (n, m, s) <->
     get_space_group_number t i = Some n /\ get_hm_full_notation t i = Some m /\ get_hall_symbol t i = Some s).
Proof. intros t i n m s [A B]. apply rows_nth; assumption. Qed.
Theorem C37_variant_is_the_row :
  forall v, is_variant v -> exists n m s,
    nth_error (rows_of full_number full_hm full_hall) v = Some (n, m, s) /\
    variant_number v = Some n /\ variant_hm v = Some m /\ variant_hall v = Some s.
Proof.
  intros v V. apply (proj2 C37_variants_have_rows v) in V. destruct V as (n & m & s & En & Em & Es).
  exists n, m, s. split; [| auto].
  apply (C37_lookup_is_the_row full_table v n m s); [split; reflexivity | auto].
Qed.
Example C37_case : nth_error (rows_of full_number full_hm full_hall) 3 = Some ("3:c", "P 1 1 2", "P 2")%string /\
  nth_error (rows_of default_number default_hm default_hall) 229 = Some ("230", "I a -3 d  ", "-I 4bd 2c 3")%string.
Proof. split; reflexivity. Qed.

(** row [i] is the first one with text [s] in a column *)
Definition first_row (col : list string) (s : string) (i : nat) : Prop :=
  nth_error col i = Some s /\ forall j, (j < i)%nat -> nth_error col j <> Some s.
Lemma position_first_row col s i : position (fun x => String.eqb x s) col = Some i <-> first_row col s i.
Proof.
  rewrite position_first. unfold first_row. split.
  - intros (x & E & P & F). apply String.eqb_eq in P. subst x. split; auto.
    intros j Hj C. specialize (F j s Hj C). rewrite String.eqb_refl in F. discriminate.
  - intros (E & F). exists s. split; auto. split; [apply String.eqb_refl |].
    intros j y Hj Hy. apply String.eqb_neq. intros ->. exact (F j Hj Hy).
Qed.
Lemma position_None {A} (p : A -> bool) l : position p l = None <-> forall x, In x l -> p x = false.
Proof.
  induction l as [| a l IH]; simpl.
  - split; [intros _ ? [] | auto].
  - destruct (p a) eqn:E.
    + split; [discriminate |]. intros H. rewrite (H a) in E; auto; discriminate.
    + destruct (position p l); simpl.
      * split; [discriminate |]. intros H. destruct IH as [_ IH]. discriminate IH. auto.
      * split; auto. intros _ x [<- | Hx]; auto. apply IH; auto.
Qed.
Lemma by_text_first (col num : list string) s r :
  length col = length num ->
  (match position (fun x => String.eqb x s) col with Some i => nth_error num i | None => None end = Some r
   <-> exists i, first_row col s i /\ nth_error num i = Some r) /\
  (match position (fun x => String.eqb x s) col with Some i => nth_error num i | None => None end = None
   <-> ~ In s col).
Proof.
  intros L. destruct (position (fun x => String.eqb x s) col) as [i|] eqn:E.
  - assert (F := proj1 (position_first_row _ _ _) E). split.
    + split; [eauto |]. intros (j & Fj & Hj). apply position_first_row in Fj. congruence.
    + split.
      * intros N. apply nth_error_None in N. destruct F as [F _]. exfalso.
        assert (i < length col)%nat by (apply nth_error_Some; congruence). lia.
      * intros N. exfalso. apply N. eapply nth_error_In, F.
  - split.
    + split; [discriminate |]. intros (j & Fj & _). apply position_first_row in Fj. congruence.
    + split; auto. intros _ N. destruct (position_None (fun x => String.eqb x s) col) as [Q _].
      specialize (Q E s N). simpl in Q. rewrite String.eqb_refl in Q. discriminate.
Qed.
Theorem C38_by_hm_first_row :
  forall t s, well_formed t ->
    (forall r, number_by_hm t s = Some r <->
       exists i, first_row (t_hm t) s i /\ get_space_group_number t i = Some r) /\
    (number_by_hm t s = None <-> ~ In s (t_hm t)).
Proof.
  intros t s [W _]. split.
  - intros r. exact (proj1 (by_text_first (t_hm t) (t_number t) s r W)).
  - exact (proj2 (by_text_first (t_hm t) (t_number t) s s W)).
Qed.
Theorem C38_by_hall_first_row :
  forall t s, well_formed t ->
    (forall r, number_by_hall t s = Some r <->
       exists i, first_row (t_hall t) s i /\ get_space_group_number t i = Some r) /\
    (number_by_hall t s = None <-> ~ In s (t_hall t)).
Proof.
  intros t s [_ W]. split.
  - intros r. exact (proj1 (by_text_first (t_hall t) (t_number t) s r W)).
  - exact (proj2 (by_text_first (t_hall t) (t_number t) s s W)).
Qed.
Example C38_tables_well_formed : well_formed full_table /\ well_formed default_table.
Proof. repeat split. Qed.

(** ** C39, C40  Round trips *)
Definition nat_in (i : nat) (l : list nat) : bool := existsb (Nat.eqb i) l.
Lemma nat_in_In i l : nat_in i l = true <-> In i l.
Proof.
  unfold nat_in. rewrite existsb_exists. split.
  - intros (x & H & E). apply Nat.eqb_eq in E. subst; auto.
  - intros H. exists i. split; auto. apply Nat.eqb_refl.
Qed.
Definition opt_string_eqb (a b : option string) : bool :=
  match a, b with Some x, Some y => String.eqb x y | None, None => true | _, _ => false end.
Lemma opt_string_eqb_eq a b : opt_string_eqb a b = true <-> a = b.
Proof.
  destruct a, b; simpl; split; try discriminate; auto.
  - intros H. apply String.eqb_eq in H. congruence.
  - intros H. injection H as <-. apply String.eqb_refl.
Qed.
(** [exceptions] are exactly the rows whose text does not lead back to their own number *)
Definition round_trip_check (col : list string) (t : sgtable) (look : sgtable -> string -> option string)
  (n : nat) (exceptions : list nat) : bool :=
  forallb (fun i =>
    match nth_error col i with
    | Some s => Bool.eqb (opt_string_eqb (look t s) (get_space_group_number t i)) (negb (nat_in i exceptions))
    | None => false
    end) (seq 0 n).
Lemma round_trip_sound col t look n ex : round_trip_check col t look n ex = true ->
  forall i, (i < n)%nat -> exists s, nth_error col i = Some s /\
    (look t s = get_space_group_number t i <-> ~ In i ex).
Proof.
  intros H i Hi. unfold round_trip_check in H. rewrite forallb_forall in H.
  specialize (H i). rewrite in_seq in H. specialize (H ltac:(lia)).
  destruct (nth_error col i) as [s|]; [| discriminate]. exists s. split; auto.
  apply Bool.eqb_prop in H. rewrite <- nat_in_In, <- opt_string_eqb_eq, H.
  destruct (nat_in i ex); simpl; split; congruence.
Qed.
Theorem C39_full_hm_round_trip :
  forall i, (i < 530)%nat -> exists s, get_hm_full_notation full_table i = Some s /\
    number_by_hm full_table s = get_space_group_number full_table i.
Proof.
  intros i Hi.
  assert (C : round_trip_check full_hm full_table number_by_hm 530 [] = true) by (vm_compute; reflexivity).
  destruct (round_trip_sound _ _ _ _ _ C i Hi) as (s & E & H).
  exists s. split; [exact E |]. apply H. intros [].
Qed.
(** the HM texts of the full table are all different *)
Theorem C39_full_hm_unique : NoDup full_hm.
Proof.
  assert (Q : forall l : list string, (fix nd l := match l with [] => true | x :: r => negb (existsb (String.eqb x) r) && nd r end) l = true -> NoDup l).
  { induction l as [| x l IH]; intros H; constructor; apply andb_true_iff in H; destruct H as [H1 H2]; auto.
    intros I. apply negb_true_iff in H1. assert (E : existsb (String.eqb x) l = true).
    { apply existsb_exists. exists x. split; auto. apply String.eqb_refl. } congruence. }
  apply Q. vm_compute. reflexivity.
Qed.
(** rows of the default table whose HM text was cut at the slash and is found earlier *)
Definition default_hm_exceptions : list nat :=
  [12; 13; 14; 84; 85]%nat ++ seq 122 20 ++ seq 190 4.
Theorem C39_default_hm_round_trip_iff :
  forall i, (i < 230)%nat -> exists s, get_hm_full_notation default_table i = Some s /\
    (number_by_hm default_table s = get_space_group_number default_table i
     <-> ~ In i default_hm_exceptions).
Proof.
  apply (round_trip_sound default_hm default_table number_by_hm 230 default_hm_exceptions).
  vm_compute. reflexivity.
Qed.
Theorem C40_full_hall_round_trip_iff :
  forall i, (i < 530)%nat -> exists s, get_hall_symbol full_table i = Some s /\
    (number_by_hall full_table s = get_space_group_number full_table i <-> ~ In i [323; 327; 331]%nat).
Proof.
  apply (round_trip_sound full_hall full_table number_by_hall 530 [323; 327; 331]%nat).
  vm_compute. reflexivity.
Qed.
Theorem C40_default_hall_round_trip :
  forall i, (i < 230)%nat -> exists s, get_hall_symbol default_table i = Some s /\
    number_by_hall default_table s = get_space_group_number default_table i.
Proof.
  intros i Hi.
  assert (C : round_trip_check default_hall default_table number_by_hall 230 [] = true) by (vm_compute; reflexivity).
  destruct (round_trip_sound _ _ _ _ _ C i Hi) as (s & E & H).
  exists s. split; [exact E |]. apply H. intros [].
Qed.

(** ** C41  Number column *)
Theorem C41_default_row_number :
  forall i s, get_space_group_number default_table i = Some s -> leading_number s = S i.
Proof.
  assert (Q : forallb (fun p => Nat.eqb (leading_number (snd p)) (S (fst p)))
            (combine (seq 0 230) default_number) = true) by (vm_compute; reflexivity).
  intros i s H. unfold get_space_group_number in H. cbn [default_table t_number] in H.
  rewrite forallb_forall in Q. specialize (Q (i, s)). apply Nat.eqb_eq, Q.
  assert (L : (i < 230)%nat) by (change 230%nat with (length default_number); apply nth_error_Some; congruence).
  apply (nth_error_In _ i).
  assert (C : forall (A B : Type) (l : list A) (l' : list B) i a b, nth_error l i = Some a -> nth_error l' i = Some b ->
            nth_error (combine l l') i = Some (a, b)).
  { clear. induction l; intros [| ] [| ] ? ? H1 H2; simpl in *; try discriminate; auto. congruence. }
  apply C; auto. rewrite nth_error_nth' with (d := O) by (rewrite seq_length; auto). rewrite seq_nth; auto.
Qed.
Fixpoint sortedb (l : list nat) : bool :=
  match l with x :: ((y :: _) as r) => Nat.leb x y && sortedb r | _ => true end.
Theorem C41_full_numbers_sorted :
  forall i j a b, (i <= j)%nat -> get_space_group_number full_table i = Some a ->
    get_space_group_number full_table j = Some b -> (leading_number a <= leading_number b)%nat.
Proof.
  assert (Q : sortedb (map leading_number full_number) = true) by (vm_compute; reflexivity).
  assert (S : forall l, sortedb l = true ->
     forall i j a b, (i <= j)%nat -> nth_error l i = Some a -> nth_error l j = Some b -> (a <= b)%nat).
  { clear Q. induction l as [| x l IH]; intros H i j a b L Ha Hb; [destruct i; discriminate |].
    destruct l as [| y l].
    - destruct i as [| i], j as [| j]; cbn in Ha, Hb; try lia; try (destruct i; discriminate);
        try (destruct j; discriminate); assert (a = b) by congruence; lia.
    - cbn [sortedb] in H. apply andb_true_iff in H. destruct H as [H1 H2]. apply Nat.leb_le in H1. specialize (IH H2).
      destruct i, j; simpl in Ha, Hb; try lia.
      + assert (a = b) by congruence; lia.
      + injection Ha as <-. specialize (IH O j y b ltac:(lia) eq_refl Hb). lia.
      + apply (IH i j a b); auto; lia. }
  intros i j a b L Ha Hb. apply (S _ Q i j); auto; rewrite nth_error_map.
  - unfold get_space_group_number in Ha. cbn [full_table t_number] in Ha. rewrite Ha. reflexivity.
  - unfold get_space_group_number in Hb. cbn [full_table t_number] in Hb. rewrite Hb. reflexivity.
Qed.
(** a list of numbers that goes from [a] to [b] in steps of at most one passes every number between *)
Fixpoint walkb (a : nat) (l : list nat) (b : nat) : bool :=
  match l with [] => Nat.eqb a b | x :: r => (Nat.eqb x a || Nat.eqb x (S a)) && walkb x r b end.
Lemma walkb_spec l : forall a b, walkb a l b = true -> forall n, (a < n <= b)%nat -> In n l.
Proof.
  induction l as [| x l IH]; intros a b H n L; cbn [walkb] in H.
  - apply Nat.eqb_eq in H. lia.
  - apply andb_true_iff in H. destruct H as [H1 H2]. apply orb_true_iff in H1. rewrite !Nat.eqb_eq in H1.
    destruct (Nat.eq_dec x n) as [-> | D]; [now left | right]. apply (IH x b H2). lia.
Qed.
Theorem C41_full_numbers_cover :
  forall n, (exists i s, get_space_group_number full_table i = Some s /\ leading_number s = n)
            <-> (1 <= n <= 230)%nat.
Proof.
  intros n. split.
  - intros (i & s & H & <-). apply nth_error_In in H.
    assert (Q : forallb (fun s => Nat.leb 1 (leading_number s) && Nat.leb (leading_number s) 230) full_number = true)
      by (vm_compute; reflexivity).
    rewrite forallb_forall in Q. specialize (Q s H). apply andb_true_iff in Q.
    rewrite !Nat.leb_le in Q. exact Q.
  - intros H.
    assert (Q : walkb 0 (map leading_number full_number) 230 = true) by (vm_compute; reflexivity).
    pose proof (walkb_spec _ _ _ Q n ltac:(lia)) as I. apply in_map_iff in I. destruct I as (s & E & Hs).
    apply In_nth_error in Hs. destruct Hs as (i & Hi). exists i, s. auto.
Qed.
Lemma nodup_string (l : list string) :
  (fix nd l := match l with [] => true | x :: r => negb (existsb (String.eqb x) r) && nd r end) l = true -> NoDup l.
Proof.
  induction l as [| x l IH]; intros H; constructor; apply andb_true_iff in H; destruct H as [H1 H2]; auto.
  intros I. apply negb_true_iff in H1. assert (E : existsb (String.eqb x) l = true).
  { apply existsb_exists. exists x. split; auto. apply String.eqb_refl. } congruence.
Qed.
Theorem C41_labels_unique : NoDup full_number /\ NoDup default_number.
Proof. split; apply nodup_string; vm_compute; reflexivity. Qed.

(** ** C44  Names of the variants *)
(** how a Hall symbol is spelt as an identifier *)
Fixpoint identifier_of (s : string) : string :=
  match s with
  | EmptyString => EmptyString
  | String c r =>
      let rest := identifier_of r in
      if Ascii.eqb c " " then String "_" rest
      else if Ascii.eqb c "-" then String "M" rest
      else if Ascii.eqb c """" then String "D" rest
      else if Ascii.eqb c "'" then String "S" rest
      else if Ascii.eqb c "*" then String "A" rest
      else if Ascii.eqb c "(" || Ascii.eqb c ")" then rest
      else String c rest
  end.
(** variants whose name is not the identifier of their own row: wrong symbols ... *)
Definition misnamed : list nat := [123; 190; 202; 211]%nat.
(** ... and the duplicated symbols of space group 68, told apart by a suffix *)
Definition suffixed : list nat := [321; 323; 325; 327; 329; 331]%nat.
Theorem C44_variant_names :
  forall v, is_variant v -> exists name s,
    nth_error variant_names v = Some name /\ variant_hall v = Some s /\
    (name = identifier_of s <-> ~ In v misnamed /\ ~ In v suffixed) /\
    (In v suffixed -> name = (identifier_of s ++ "_1")%string \/ name = (identifier_of s ++ "_2")%string) /\
    (In v misnamed -> forall w t, variant_hall w = Some t -> name = identifier_of t -> False).
Proof.
  assert (Q : forallb (fun v => match nth_error variant_names v, nth_error full_hall v with
     | Some name, Some s =>
         Bool.eqb (String.eqb name (identifier_of s)) (negb (nat_in v misnamed) && negb (nat_in v suffixed))
         && (negb (nat_in v suffixed) || String.eqb name (identifier_of s ++ "_1") || String.eqb name (identifier_of s ++ "_2"))
         && (negb (nat_in v misnamed) || negb (existsb (fun t => String.eqb name (identifier_of t)) full_hall))
     | _, _ => false end) (seq 0 530) = true) by (vm_compute; reflexivity).
  intros v Hv. rewrite forallb_forall in Q. specialize (Q v). rewrite in_seq in Q.
  change (v < 530)%nat in Hv. specialize (Q ltac:(lia)).
  unfold variant_hall, get_hall_symbol. cbn [full_table t_hall].
  destruct (nth_error variant_names v) as [name|]; [| discriminate].
  destruct (nth_error full_hall v) as [s|]; [| discriminate]. exists name, s.
  rewrite !andb_true_iff, !orb_true_iff, !negb_true_iff in Q. destruct Q as ((Q1 & Q2) & Q3).
  apply Bool.eqb_prop in Q1.
  assert (N : forall l, nat_in v l = false <-> ~ In v l).
  { intros l. rewrite <- nat_in_In. destruct (nat_in v l); split; congruence. }
  repeat split; auto.
  - apply N. intros. subst name. rewrite String.eqb_refl in Q1. symmetry in Q1. apply andb_true_iff in Q1.
    destruct Q1 as [Q1 _]. apply negb_true_iff in Q1. exact Q1.
  - apply N. subst name. rewrite String.eqb_refl in Q1. symmetry in Q1. apply andb_true_iff in Q1.
    destruct Q1 as [_ Q1]. apply negb_true_iff in Q1. exact Q1.
  - intros [A B]. apply String.eqb_eq. rewrite Q1. apply N in A, B. rewrite A, B. reflexivity.
  - intros H. apply nat_in_In in H. rewrite H in Q2. rewrite !String.eqb_eq in Q2. destruct Q2 as [[?|?]|?]; auto; discriminate.
  - intros H w t Hw E. apply nat_in_In in H. rewrite H in Q3. destruct Q3 as [?|Q3]; [discriminate |].
    assert (K : existsb (fun t => String.eqb name (identifier_of t)) full_hall = true); [| congruence].
    apply existsb_exists. exists t. split; [eapply nth_error_In; eauto | apply String.eqb_eq; auto].
Qed.
Theorem C44_names_unique : NoDup variant_names.
Proof. apply nodup_string; vm_compute; reflexivity. Qed.
