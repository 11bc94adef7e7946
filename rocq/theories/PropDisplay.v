(** * PropDisplay: property C49: the printed form of an operation. *)
From Coq Require Import QArith.
From Verif Require Import Base Notations Parser Seitz F64 Jones Rotations Tables Generate Positions Lookup Display
  Spec SpecTables SpecXyz SpecRotation SpecDisplay Algebra PropSeitz GenFacts PropGenerate PropTables PropTableGroups RowData PropRotation PropJones PropParser PropListing.
Open Scope Z_scope.
Local Notation length := List.length.
Open Scope string_scope.
Open Scope list_scope.
Open Scope Z_scope.

(** ** Words *)
Fixpoint word (s : string) : bool :=
  match s with EmptyString => true | String c r => if separator c then false else word r end.
Lemma word_app a b : word (a ++ b) = word a && word b.
Proof. induction a as [| c r IH]; cbn [append word]; [reflexivity |]. destruct (separator c); auto. Qed.
Lemma words_sep c r : separator c = true -> words (String c r) = words r.
Proof. intros H. cbn [words]. now rewrite H. Qed.
Lemma words_cons a d r : separator a = false -> separator d = false ->
  words (String a (String d r)) = match words (String d r) with w :: ws => String a w :: ws | [] => [String a EmptyString] end.
Proof.
  intros A D. transitivity (if separator a then words (String d r) else
    if separator d then String a EmptyString :: words (String d r)
    else match words (String d r) with w :: ws => String a w :: ws | [] => [String a EmptyString] end); [reflexivity |].
  now rewrite A, D.
Qed.
Lemma words_one w c r : w <> EmptyString -> word w = true -> separator c = true -> words (w ++ String c r) = w :: words (String c r).
Proof.
  intros NE W S. induction w as [| a w IH]; [congruence |]. cbn [word] in W.
  destruct (separator a) eqn:A; [discriminate |]. change (String a w ++ String c r)%string with (String a (w ++ String c r)).
  destruct w as [| b w].
  - change ("" ++ String c r)%string with (String c r). cbn [words]. now rewrite A, S.
  - assert (B : separator b = false) by (cbn [word] in W; destruct (separator b); congruence).
    specialize (IH ltac:(discriminate) W). change (String b w ++ String c r)%string with (String b (w ++ String c r)) in *.
    rewrite words_cons by assumption. now rewrite IH.
Qed.
Lemma words_spaces n r : words (spaces n ++ r) = words r.
Proof. induction n as [| n IH]; [reflexivity |]. exact IH. Qed.

(** ** Numbers *)
Definition is_digit (c : ascii) : bool := let d := Z.of_nat (nat_of_ascii c) in (48 <=? d) && (d <=? 57).
Fixpoint all_digits (s : string) : bool :=
  match s with EmptyString => true | String c r => if is_digit c then all_digits r else false end.
Lemma digits_value_all s : forall a v, digits_value a s = Some v -> all_digits s = true.
Proof.
  induction s as [| c r IH]; intros a v; cbn [digits_value all_digits]; [reflexivity |]. unfold is_digit.
  cbv zeta. destruct (_ && _); [apply IH | discriminate].
Qed.
Lemma digit_facts c : is_digit c = true ->
  Ascii.eqb c "+" = false /\ Ascii.eqb c "-" = false /\ Ascii.eqb c "/" = false /\ separator c = false /\
  Ascii.eqb c "x" = false /\ Ascii.eqb c "y" = false /\ Ascii.eqb c "z" = false.
Proof. destruct c as [[] [] [] [] [] [] [] []]; vm_compute; intros H; try discriminate H; repeat split. Qed.
Lemma digits_terms s : all_digits s = true -> signed_terms s = (s, []).
Proof.
  induction s as [| c r IH]; cbn [all_digits signed_terms]; [reflexivity |]. destruct (is_digit c) eqn:D; [| discriminate].
  intros H. rewrite (IH H). destruct (digit_facts c D) as (-> & -> & _). reflexivity.
Qed.
Lemma digits_split s : all_digits s = true -> split_on "/" s = [s].
Proof.
  induction s as [| c r IH]; cbn [all_digits split_on]; [reflexivity |]. destruct (is_digit c) eqn:D; [| discriminate].
  intros H. rewrite (IH H). destruct (digit_facts c D) as (_ & _ & -> & _). reflexivity.
Qed.
Lemma digits_word s : all_digits s = true -> word s = true.
Proof.
  induction s as [| c r IH]; cbn [all_digits word]; [reflexivity |]. destruct (is_digit c) eqn:D; [| discriminate].
  destruct (digit_facts c D) as (_ & _ & _ & -> & _). exact IH.
Qed.
Lemma digits_term s n : number_value s = Some n -> read_term s = Some (Lin 0 0 0 (inject_Z n)).
Proof.
  unfold number_value. destruct s as [| c r]; [discriminate |]. intros H. pose proof (digits_value_all _ _ _ H) as D.
  unfold read_term. cbn [all_digits] in D. destruct (is_digit c) eqn:C; [| discriminate].
  destruct (digit_facts c C) as (_ & _ & _ & _ & X & Y & Z0). cbn [String.eqb]. rewrite X, Y, Z0.
  rewrite digits_split by (cbn [all_digits]; rewrite C; exact D). unfold number_value. rewrite H. reflexivity.
Qed.
Lemma split_digits_app a b : all_digits a = true -> split_on "/" (a ++ String "/" b) = a :: split_on "/" b.
Proof.
  induction a as [| c r IH]; cbn [all_digits append split_on]; [reflexivity |]. destruct (is_digit c) eqn:D; [| discriminate].
  intros H. rewrite (IH H). destruct (digit_facts c D) as (_ & _ & -> & _). reflexivity.
Qed.
Lemma digits_fraction a b n d : number_value a = Some n -> number_value b = Some (Z.pos d) ->
  read_term (a ++ "/" ++ b) = Some (Lin 0 0 0 (n # d)).
Proof.
  intros A B. assert (DA : all_digits a = true) by (unfold number_value in A; destruct a; [discriminate |]; eapply digits_value_all; eauto).
  assert (DB : all_digits b = true) by (unfold number_value in B; destruct b; [discriminate |]; eapply digits_value_all; eauto).
  unfold read_term. change ("/" ++ b)%string with (String "/" b). rewrite split_digits_app, digits_split, A, B by assumption.
  destruct a as [| c r]; [discriminate |]. cbn [all_digits] in DA. destruct (is_digit c) eqn:C; [| discriminate].
  destruct (digit_facts c C) as (_ & _ & _ & _ & X & Y & Z0). cbn [append String.eqb]. now rewrite X, Y, Z0.
Qed.
Lemma fraction_terms a b n d : number_value a = Some n -> number_value b = Some d ->
  signed_terms (a ++ "/" ++ b) = (a ++ "/" ++ b, [])%string /\ word (a ++ "/" ++ b) = true.
Proof.
  intros A B. assert (DA : all_digits a = true) by (unfold number_value in A; destruct a; [discriminate |]; eapply digits_value_all; eauto).
  assert (DB : all_digits b = true) by (unfold number_value in B; destruct b; [discriminate |]; eapply digits_value_all; eauto).
  split.
  - clear A. induction a as [| c r IH].
    + cbn [append signed_terms]. rewrite (digits_terms b DB). reflexivity.
    + cbn [all_digits] in DA. destruct (is_digit c) eqn:C; [| discriminate]. cbn [append signed_terms] in *.
      rewrite (IH DA). destruct (digit_facts c C) as (-> & -> & _). reflexivity.
  - rewrite !word_app, (digits_word a DA), (digits_word b DB). reflexivity.
Qed.
Lemma neg_text n : n < 0 -> exists s, Z_text n = String "-" s /\ number_value s = Some (- n).
Proof.
  intros H. exists (Z_text (- n)). split; [| apply number_Z_text; lia]. unfold Z_text.
  rewrite (proj2 (Z.ltb_lt n 0) H). destruct (Z.ltb_spec (- n) 0); [lia | reflexivity].
Qed.
Lemma read_neg s f : s <> EmptyString -> signed_terms s = (s, []) -> read_term s = Some f -> read_coord (String "-" s) = Some (form_add (form_neg f) form_zero).
Proof. intros NE T R. unfold read_coord. cbn [signed_terms]. rewrite T. change (Ascii.eqb "-" "+") with false. change (Ascii.eqb "-" "-") with true. cbn [sum_terms]. rewrite R. reflexivity. Qed.
Lemma read_pos s f : s <> EmptyString -> signed_terms s = (s, []) -> read_term s = Some f -> read_coord s = Some (form_add f form_zero).
Proof. intros NE T R. unfold read_coord. rewrite T. destruct s; [congruence |]. cbn [sum_terms]. rewrite R. reflexivity. Qed.
Lemma number_nonempty s n : number_value s = Some n -> s <> EmptyString /\ all_digits s = true.
Proof. unfold number_value. destruct s; [discriminate |]. intros H. split; [discriminate | eapply digits_value_all; eauto]. Qed.
Lemma Z_text_shows n : shows_int (Z_text n) n /\ word (Z_text n) = true /\ Z_text n <> EmptyString.
Proof.
  unfold shows_int, shows. destruct (Z.ltb_spec n 0) as [L | L].
  - destruct (neg_text n L) as (s & -> & E). destruct (number_nonempty _ _ E) as (NE & D). split; [| split; [| discriminate]].
    + eexists. split; [apply read_neg; [assumption | now apply digits_terms | exact (digits_term _ _ E)] |]. repeat split.
      cbn. unfold Qeq. cbn. lia.
    + cbn [word]. now apply digits_word.
  - pose proof (number_Z_text n L) as E. destruct (number_nonempty _ _ E) as (NE & D). split; [| split; [| assumption]].
    + eexists. split; [apply read_pos; [assumption | now apply digits_terms | exact (digits_term _ _ E)] |]. repeat split.
      cbn. unfold Qeq. cbn. lia.
    + now apply digits_word.
Qed.
Lemma ratio_shows n d : 0 < d -> shows (Z_text n ++ "/" ++ Z_text d) (inject_Z n / inject_Z d) /\
  word (Z_text n ++ "/" ++ Z_text d) = true /\ (Z_text n ++ "/" ++ Z_text d)%string <> EmptyString.
Proof.
  intros Hd. pose proof (number_Z_text d ltac:(lia)) as B. destruct d as [| d |]; try lia. unfold shows.
  destruct (Z.ltb_spec n 0) as [L | L].
  - destruct (neg_text n L) as (s & -> & E). destruct (number_nonempty _ _ E) as (NE & D).
    destruct (fraction_terms _ _ _ _ E B) as (T & W). split; [| split; [| discriminate]].
    + change (String "-" s ++ "/" ++ Z_text (Z.pos d))%string with (String "-" (s ++ "/" ++ Z_text (Z.pos d))).
      eexists. split; [apply read_neg; [destruct s; [congruence | discriminate] | exact T | exact (digits_fraction _ _ _ _ E B)] |].
      repeat split. cbn [form_add form_neg form_zero lconst]. unfold Qeq, Qdiv, Qinv, inject_Z. cbn. nia.
    + change (String "-" s ++ "/" ++ Z_text (Z.pos d))%string with (String "-" (s ++ "/" ++ Z_text (Z.pos d))). cbn [word]. exact W.
  - pose proof (number_Z_text n L) as E. destruct (number_nonempty _ _ E) as (NE & D).
    destruct (fraction_terms _ _ _ _ E B) as (T & W). split; [| split; [assumption |]].
    + eexists. split; [apply read_pos; [| exact T | exact (digits_fraction _ _ _ _ E B)] |].
      * destruct (Z_text n); [congruence | discriminate].
      * repeat split. cbn [form_add form_zero lconst]. unfold Qeq, Qdiv, Qinv, inject_Z. cbn. nia.
    + destruct (Z_text n); [congruence | discriminate].
Qed.
Lemma gcd12 v : exists g k l, Z.gcd v 12 = g /\ 0 < g /\ v = g * k /\ 12 = g * l /\ 0 < l /\ Z.gcd k l = 1.
Proof.
  destruct (Z.gcd_divide_l v 12) as (k & K). destruct (Z.gcd_divide_r v 12) as (l & L).
  assert (G : 0 < Z.gcd v 12) by (pose proof (Z.gcd_nonneg v 12); destruct (Z.eq_dec (Z.gcd v 12) 0) as [E | E]; [rewrite E in L; lia | lia]).
  exists (Z.gcd v 12), k, l. split; [reflexivity |]. split; [assumption |]. split; [lia |]. split; [lia |]. split; [nia |].
  pose proof (Z.gcd_mul_mono_r_nonneg k l (Z.gcd v 12) ltac:(lia)) as M. rewrite <- K, <- L in M. nia.
Qed.
Lemma frac_div12_spec v : (inject_Z (num (frac_div12 v)) / inject_Z (den (frac_div12 v)) == inject_Z v / 12)%Q /\
  0 < den (frac_div12 v) /\ Z.gcd (num (frac_div12 v)) (den (frac_div12 v)) = 1.
Proof.
  unfold frac_div12, STBN. cbn [num den]. destruct (gcd12 v) as (g & k & l & -> & G & -> & E & L & C).
  replace (12 / g) with l by (rewrite E, Z.mul_comm, Z.div_mul; lia).
  rewrite (Z.mul_comm g k), Z.quot_mul by lia. split; [| auto].
  destruct l as [| l |]; try lia. change (12%Q) with (inject_Z 12). rewrite E. destruct g as [| g |]; try lia.
  unfold Qeq, Qdiv, Qinv, inject_Z. cbn. nia.
Qed.
Lemma frac_shows v : shows_twelfths (frac12_text v) v /\ word (frac12_text v) = true /\ frac12_text v <> EmptyString.
Proof.
  change (frac12_text v) with (frac_text (frac_div12 v)). destruct (frac_div12_spec v) as (E & P & _). unfold frac_text.
  destruct (Z.eqb_spec (den (frac_div12 v)) 1) as [D | D].
  - rewrite D in E. destruct (Z_text_shows (num (frac_div12 v))) as ((f & R & X & Y & Z0 & V) & W). split; [| assumption].
    exists f. split; [assumption |]. split; [assumption |]. split; [assumption |]. split; [assumption |]. rewrite V, <- E. field.
  - destruct (ratio_shows (num (frac_div12 v)) _ P) as ((f & R & X & Y & Z0 & V) & W). split; [| assumption].
    exists f. split; [assumption |]. split; [assumption |]. split; [assumption |]. split; [assumption |]. now rewrite V, <- E.
Qed.

(** ** Words of the printed text *)
Lemma byte_not_sep z : 33 <= z < 256 -> separator (byte z) = false.
Proof.
  intros H. unfold separator. apply orb_false_iff.
  split; apply Ascii.eqb_neq; intros E; apply (f_equal nat_of_ascii) in E; unfold byte in E;
    rewrite nat_ascii_embedding in E by lia; [change (nat_of_ascii " ") with 32%nat in E | change (nat_of_ascii "010") with 10%nat in E]; lia.
Qed.
Lemma char_word v c : 33 <= v -> char_utf8 v = Some c -> word c = true.
Proof.
  intros H. unfold char_utf8.
  assert (M : forall x, 128 <= 128 + x mod 64 < 256) by (intros x; pose proof (Z.mod_pos_bound x 64); lia).
  destruct (Z.ltb_spec v 128).
  { intros E. apply Some_eq in E; subst c. cbn [word]. now rewrite byte_not_sep by lia. }
  destruct (Z.ltb_spec v 2048).
  { intros E. apply Some_eq in E; subst c. cbn [word]. pose proof (M v).
    assert (0 <= v / 64 < 32) by (split; [apply Z.div_pos; lia | apply Z.div_lt_upper_bound; lia]).
    now rewrite !byte_not_sep by lia. }
  destruct (Z.ltb_spec v 65536).
  { destruct (_ && _); [discriminate |]. intros E. apply Some_eq in E; subst c. cbn [word]. pose proof (M v). pose proof (M (v / 64)).
    assert (0 <= v / 4096 < 16) by (split; [apply Z.div_pos; lia | apply Z.div_lt_upper_bound; lia]).
    now rewrite !byte_not_sep by lia. }
  destruct (Z.leb_spec v 1114111); [| discriminate].
  intros E. apply Some_eq in E; subst c. cbn [word]. pose proof (M v). pose proof (M (v / 64)). pose proof (M (v / 4096)).
  assert (0 <= v / 262144 < 5) by (split; [apply Z.div_pos; lia | apply Z.div_lt_upper_bound; lia]).
  now rewrite !byte_not_sep by lia.
Qed.
Lemma entry_word code val s : 120 <= code -> jf_entry code val = Done s -> word s = true.
Proof.
  intros C. assert (K : code * val <> 0 -> 33 <= Z.abs (code * val)).
  { intros N. rewrite Z.abs_mul. assert (1 <= Z.abs val) by (destruct (Z.eq_dec val 0); [subst; lia | lia]). nia. }
  unfold jf_entry. cbv zeta.
  destruct (char_utf8 (Z.abs (code * val))) as [c |] eqn:E; [| discriminate].
  destruct (Z.compare_spec (code * val) 0) as [Q | Q | Q]; intros H; apply Done_eq in H; subst s; [reflexivity | |].
  - rewrite word_app. apply char_word in E; [rewrite E; reflexivity | apply K; lia].
  - rewrite word_app. apply char_word in E; [rewrite E; reflexivity | apply K; lia].
Qed.
Lemma remove_zeros_word s : word s = true -> word (remove_zeros s) = true.
Proof.
  induction s as [| d r IH]; cbn [word remove_zeros]; [auto |]. destruct (separator d) eqn:E; [discriminate |].
  intros H. destruct (Ascii.eqb d "0"); [auto |]. cbn [word]. rewrite E. auto.
Qed.
Lemma trim_plus_word s : word s = true -> word (trim_plus s) = true.
Proof.
  induction s as [| d r IH]; cbn [word trim_plus]; [auto |]. destruct (separator d) eqn:E; [discriminate |].
  intros H. destruct (Ascii.eqb d "+"); [auto |]. cbn [word]. rewrite E. auto.
Qed.
Lemma row_word a b c s : jf_row a b c = Done s -> word s = true.
Proof.
  unfold jf_row. destruct (jf_entry 120 a) as [x | |] eqn:X; try discriminate.
  destruct (jf_entry 121 b) as [y | |] eqn:Y; try discriminate.
  destruct (jf_entry 122 c) as [z | |] eqn:Z; try discriminate. cbn [obind]. intros H. apply Done_eq in H; subst s.
  apply trim_plus_word, remove_zeros_word. cbn [sconcat]. rewrite !word_app.
  rewrite (entry_word 120 _ _ ltac:(lia) X), (entry_word 121 _ _ ltac:(lia) Y), (entry_word 122 _ _ ltac:(lia) Z). reflexivity.
Qed.
Lemma translation_word v : word (jf_translation v) = true.
Proof.
  unfold jf_translation. cbv zeta. destruct (Z.compare _ 0); [reflexivity | apply frac_shows |].
  rewrite word_app, (proj1 (proj2 (frac_shows _))). reflexivity.
Qed.
Lemma jones_word m s : jones m = Done s -> word s = true /\ s <> EmptyString.
Proof.
  unfold jones, rotation_jf. destruct (jf_row (m11 (rot m)) _ _) as [a | |] eqn:A; try discriminate.
  destruct (jf_row (m21 (rot m)) _ _) as [b | |] eqn:B; try discriminate.
  destruct (jf_row (m31 (rot m)) _ _) as [c | |] eqn:C; try discriminate. cbn [obind]. intros H. apply Done_eq in H; subst s.
  cbn [map combine vlist sjoin fst snd]. split.
  - rewrite !word_app, (row_word _ _ _ _ A), (row_word _ _ _ _ B), (row_word _ _ _ _ C), !translation_word. reflexivity.
  - destruct (a ++ jf_translation (vx (tra m)))%string; discriminate.
Qed.
Definition starts_sep (s : string) : bool := match s with EmptyString => true | String c _ => separator c end.
Lemma words_word w : w <> EmptyString -> word w = true -> words w = [w].
Proof.
  intros NE W. induction w as [| a w IH]; [congruence |]. cbn [word] in W. destruct (separator a) eqn:A; [discriminate |].
  destruct w as [| b w]; [cbn [words]; now rewrite A |].
  assert (B : separator b = false) by (cbn [word] in W; destruct (separator b); congruence).
  rewrite words_cons, IH by (assumption || discriminate). reflexivity.
Qed.
Lemma str_app_nil s : (s ++ "")%string = s.
Proof. induction s as [| c r IH]; [reflexivity |]. cbn [append]. now rewrite IH. Qed.
Lemma str_app_assoc a b c : ((a ++ b) ++ c = a ++ (b ++ c))%string.
Proof. induction a as [| d r IH]; [reflexivity |]. cbn [append]. now rewrite IH. Qed.
Lemma words_pre w s : w <> EmptyString -> word w = true -> starts_sep s = true -> words (w ++ s) = w :: words s.
Proof.
  intros NE W S. destruct s as [| c r]; [rewrite str_app_nil; now apply words_word |]. now apply words_one.
Qed.
Definition good (s : string) : Prop := s <> EmptyString /\ word s = true.
Lemma words_cells w r s : Forall good r -> starts_sep s = true -> words (sconcat (map (cell_text w) r) ++ s) = r ++ words s.
Proof.
  intros H S. induction H as [| c r (NE & W) H IH]; [reflexivity |]. cbn [map sconcat]. unfold cell_text at 1.
  rewrite !str_app_assoc. change (" " ++ ?x)%string with (String " " x). rewrite words_sep by reflexivity. rewrite words_spaces.
  rewrite words_pre; [now rewrite IH | assumption | assumption |]. destruct r; [exact S | reflexivity].
Qed.
Lemma words_row w r s : Forall good r -> words (row_line w r ++ newline ++ s) = "│"%string :: r ++ "│"%string :: words s.
Proof.
  intros H. unfold row_line. rewrite !str_app_assoc.
  change ("  │" ++ ?x)%string with (String " " (String " " ("│" ++ x))). rewrite !words_sep by reflexivity.
  rewrite words_pre; [| discriminate | reflexivity | destruct r; reflexivity].
  rewrite words_cells by (assumption || reflexivity). change (" │" ++ ?x)%string with (String " " ("│" ++ x)).
  rewrite words_sep by reflexivity. rewrite words_pre by (discriminate || reflexivity).
  unfold newline. cbn [append]. rewrite words_sep by reflexivity. reflexivity.
Qed.
Lemma words_rows w rows s : Forall (Forall good) rows ->
  words (sconcat (map (fun r => row_line w r ++ newline)%string rows) ++ s) =
  flat_map (fun r => "│"%string :: r ++ ["│"%string]) rows ++ words s.
Proof.
  intros H. induction H as [| r rows R H IH]; [reflexivity |]. cbn [map sconcat flat_map]. rewrite !str_app_assoc.
  rewrite words_row, IH by assumption. cbn [app]. rewrite <- !app_assoc. reflexivity.
Qed.
Lemma words_edge a b n s : good a -> good b -> words (String " " (String " " (a ++ String " " (spaces n ++ String " " (b ++ newline ++ s))))) = a :: b :: words s.
Proof.
  intros (NA & A) (NB & B). rewrite !words_sep by reflexivity. rewrite words_pre by (assumption || reflexivity).
  rewrite words_sep by reflexivity. rewrite words_spaces, words_sep by reflexivity. rewrite words_pre by (assumption || reflexivity).
  unfold newline. cbn [append]. rewrite words_sep by reflexivity. reflexivity.
Qed.
Lemma words_matrix cols rows s : Forall (Forall good) rows ->
  words (matrix_text cols rows ++ s) =
  ["┌"; "┐"]%string ++ flat_map (fun r => "│"%string :: r ++ ["│"%string]) rows ++ ["└"; "┘"]%string ++ words s.
Proof.
  intros H. unfold matrix_text. cbv zeta. unfold top_line, bottom_line. rewrite !str_app_assoc.
  change (newline ++ ?x)%string with (String "010" x) at 1. rewrite words_sep by reflexivity.
  change ("  ┌ " ++ ?x)%string with (String " " (String " " ("┌" ++ String " " x))). change (" ┐" ++ ?x)%string with (String " " ("┐" ++ x)).
  rewrite words_edge by (split; [discriminate | reflexivity]). cbn [app]. f_equal. f_equal.
  rewrite words_rows by assumption. f_equal.
  change ("  └ " ++ ?x)%string with (String " " (String " " ("└" ++ String " " x))). change (" ┘" ++ ?x)%string with (String " " ("┘" ++ x)).
  rewrite words_edge by (split; [discriminate | reflexivity]). f_equal.
Qed.

(** ** C49: one operation *)
Lemma good_frac f : 0 < den f -> good (frac_text f).
Proof.
  intros P. unfold good, frac_text. destruct (_ =? _); [split; apply Z_text_shows | split; now apply ratio_shows].
Qed.
Lemma frac_text_shows f q : 0 < den f -> (inject_Z (num f) / inject_Z (den f) == q)%Q -> shows (frac_text f) q.
Proof.
  intros P E. unfold frac_text. destruct (Z.eqb_spec (den f) 1) as [D | D].
  - rewrite D in E. destruct (Z_text_shows (num f)) as ((g & R & X & Y & Z0 & V) & _).
    exists g. split; [assumption |]. split; [assumption |]. split; [assumption |]. split; [assumption |]. rewrite V, <- E. field.
  - destruct (ratio_shows (num f) _ P) as ((g & R & X & Y & Z0 & V) & _).
    exists g. split; [assumption |]. split; [assumption |]. split; [assumption |]. split; [assumption |]. now rewrite V.
Qed.
(** [f] is the fraction [q] in lowest terms *)
Definition lowest_terms (f : frac) (q : Q) : Prop :=
  (inject_Z (num f) / inject_Z (den f) == q)%Q /\ 0 < den f /\ Z.gcd (num f) (den f) = 1.
Lemma lowest_int v : lowest_terms (frac_int v) (inject_Z v).
Proof. split; [cbn [frac_int num den]; field | split; [reflexivity | apply Z.gcd_1_r]]. Qed.
(** the conversion to fractions is exact and reduced *)
Theorem C49_fractions_exact :
  forall m, Forall2 (Forall2 lowest_terms) (to_fraction m) (entries_in_cells m).
Proof.
  intros m. unfold to_fraction, entries_in_cells. cbv zeta.
  repeat first [apply Forall2_nil | apply Forall2_cons]; first [apply lowest_int | apply frac_div12_spec].
Qed.
Lemma cells_show m : Forall2 (Forall2 shows) (map (map frac_text) (to_fraction m)) (entries_in_cells m) /\
  Forall (Forall good) (map (map frac_text) (to_fraction m)).
Proof.
  assert (I : forall v, shows (frac_text (frac_int v)) (inject_Z v) /\ good (frac_text (frac_int v))).
  { intros v. destruct (lowest_int v) as (E & P & _). split; [now apply frac_text_shows | now apply good_frac]. }
  assert (F : forall v, shows (frac_text (frac_div12 v)) (inject_Z v / 12) /\ good (frac_text (frac_div12 v))).
  { intros v. destruct (frac_div12_spec v) as (E & P & _). split; [now apply frac_text_shows | now apply good_frac]. }
  unfold to_fraction, entries_in_cells. cbv zeta. cbn [map]. split.
  - repeat first [apply Forall2_nil | apply Forall2_cons]; first [apply I | apply F].
  - repeat first [apply Forall_nil | apply Forall_cons]; first [apply I | apply F].
Qed.
Lemma words_good w s : good w -> starts_sep s = true -> words (w ++ s) = w :: words s.
Proof. intros (NE & W). now apply words_pre. Qed.
Lemma words_vec e s : words (vec_debug e ++ newline ++ s) =
  ["[[" ++ Z_text (vx e) ++ ","; Z_text (vy e) ++ ","; Z_text (vz e) ++ "]]"]%string ++ words s.
Proof.
  assert (G : forall a z b, word a = true -> word b = true -> good (a ++ Z_text z ++ b)).
  { intros a z b A B. destruct (Z_text_shows z) as (_ & W & NE). split; [destruct a, (Z_text z); discriminate || congruence |].
    now rewrite !word_app, A, W, B. }
  assert (G' : forall z b, word b = true -> good (Z_text z ++ b)) by (intros z b B; apply (G ""%string z b eq_refl B)).
  assert (E : (vec_debug e ++ newline ++ s = ("[[" ++ Z_text (vx e) ++ ",") ++ String " " ((Z_text (vy e) ++ ",") ++ String " " ((Z_text (vz e) ++ "]]") ++ newline ++ s)))%string)
    by (unfold vec_debug; rewrite !str_app_assoc; reflexivity).
  rewrite E. clear E.
  rewrite (words_good ("[[" ++ Z_text (vx e) ++ ",")%string) by (reflexivity || now apply (G "[["%string)). rewrite words_sep by reflexivity.
  rewrite (words_good (Z_text (vy e) ++ ",")%string) by (reflexivity || now apply G'). rewrite words_sep by reflexivity.
  rewrite (words_good (Z_text (vz e) ++ "]]")%string) by (reflexivity || now apply G'). unfold newline. cbn [append]. rewrite words_sep by reflexivity. reflexivity.
Qed.
(** the words of the printed operation: the coordinate text, the axis, the sixteen entries *)
Theorem C49_printed_words :
  forall m s, sz_display m = Done s -> exists j e a b c cells,
    jones m = Done j /\ eigenvector m = Some e /\
    shows_int a (vx e) /\ shows_int b (vy e) /\ shows_int c (vz e) /\
    Forall2 (Forall2 shows) cells (entries_in_cells m) /\
    words s = [j; "|"; "[[" ++ a ++ ","; b ++ ","; c ++ "]]"]%string ++ boxed cells.
Proof.
  intros m s H. unfold sz_display in H. destruct (jones m) as [j | |] eqn:J; try discriminate. cbn [obind] in H.
  destruct (eigenvector m) as [e |] eqn:E; [| discriminate]. apply Done_eq in H. subst s.
  destruct (cells_show m) as (C & G). destruct (jones_word _ _ J) as (W & NE).
  exists j, e, (Z_text (vx e)), (Z_text (vy e)), (Z_text (vz e)), (map (map frac_text) (to_fraction m)).
  split; [reflexivity |]. split; [reflexivity |]. split; [apply Z_text_shows |]. split; [apply Z_text_shows |]. split; [apply Z_text_shows |].
  split; [assumption |]. rewrite words_pre by (assumption || reflexivity).
  change (" | " ++ ?x)%string with (String " " ("|" ++ String " " x)). rewrite words_sep by reflexivity.
  rewrite words_pre by (discriminate || reflexivity). rewrite words_sep by reflexivity. rewrite words_vec.
  rewrite <- (str_app_nil (matrix_text 4 _)). rewrite words_matrix by assumption. unfold boxed. cbn [words]. rewrite app_nil_r. reflexivity.
Qed.
Lemma shows_fun w p q : shows w p -> shows w q -> (p == q)%Q.
Proof. intros (f & R & _ & _ & _ & V) (f' & R' & _ & _ & _ & V'). rewrite R in R'. apply Some_eq in R'. subst f'. now rewrite <- V, <- V'. Qed.
Lemma inj_q a b : (inject_Z a == inject_Z b)%Q -> a = b.
Proof. unfold Qeq, inject_Z. cbn. lia. Qed.
Lemma inj_q12 a b : (inject_Z a / 12 == inject_Z b / 12)%Q -> a = b.
Proof. unfold Qeq, Qdiv, Qinv, Qmult, inject_Z. cbn. lia. Qed.
Lemma boxed_inj a b A B : Forall2 (Forall2 shows) a A -> Forall2 (Forall2 shows) b B ->
  map (@length Q) A = [4; 4; 4; 4]%nat -> map (@length Q) B = [4; 4; 4; 4]%nat -> boxed a = boxed b -> a = b.
Proof.
  intros HA HB LA LB E.
  assert (K : forall a A, Forall2 (Forall2 shows) a A -> map (@length Q) A = [4; 4; 4; 4]%nat -> map (@length string) a = [4; 4; 4; 4]%nat).
  { clear. intros a A H <-. induction H as [| x y l l' X H IH]; [reflexivity |]. cbn [map]. f_equal; [| exact IH]. clear -X. induction X; cbn; congruence. }
  pose proof (K a A HA LA) as KA. pose proof (K b B HB LB) as KB. clear - KA KB E.
  do 5 (destruct a as [| ? a]; try discriminate KA). do 5 (destruct b as [| ? b]; try discriminate KB).
  repeat match goal with H : map _ _ = _ |- _ => cbn [map] in H; injection H; clear H; intros end.
  repeat match goal with l : list string, H : length ?l = 4%nat |- _ =>
    do 5 (destruct l as [| ? l]; try discriminate H); clear H end.
  unfold boxed in E. cbn [flat_map app] in E. injection E. intros. subst. reflexivity.
Qed.
(** nothing is lost: equal texts, equal operations (all sixteen entries) *)
Theorem C49_same_text_same_operation :
  forall m n s, sz_display m = Done s -> sz_display n = Done s -> m = n.
Proof.
  intros m n s Hm Hn.
  destruct (C49_printed_words m s Hm) as (j & e & a & b & c & cells & _ & _ & _ & _ & _ & F & W).
  destruct (C49_printed_words n s Hn) as (j' & e' & a' & b' & c' & cells' & _ & _ & _ & _ & _ & F' & W').
  rewrite W in W'. assert (E : boxed cells = boxed cells') by (apply (f_equal (skipn 5)) in W'; exact W').
  apply (boxed_inj _ _ _ _ F F') in E; [| reflexivity | reflexivity]. subst cells'. clear W W' Hm Hn.
  assert (K : Forall2 (Forall2 Qeq) (entries_in_cells m) (entries_in_cells n)).
  { revert F'. generalize (entries_in_cells n). induction F as [| x y l l' X F IH]; intros L H; inversion H; subst; constructor; auto.
    match goal with H : Forall2 shows x ?Y |- _ => revert H; generalize Y end. clear - X.
    induction X as [| x y l l' X F IH]; intros L H; inversion H; subst; constructor; auto. eapply shows_fun; eauto. }
  clear F F' cells. destruct m as [[a1 a2 a3 a4 a5 a6 a7 a8 a9] [t1 t2 t3] [b1 b2 b3] p], n as [[c1 c2 c3 c4 c5 c6 c7 c8 c9] [u1 u2 u3] [d1 d2 d3] p'].
  unfold entries_in_cells in K. cbv zeta in K. cbn [rot tra bot cor vx vy vz m11 m12 m13 m21 m22 m23 m31 m32 m33] in K.
  repeat match goal with H : Forall2 _ (_ :: _) (_ :: _) |- _ => inversion H; clear H; subst | H : Forall2 _ [] [] |- _ => clear H end.
  repeat match goal with H : (_ == _)%Q |- _ => first [apply inj_q in H | apply inj_q12 in H] end. subst. reflexivity.
Qed.
Lemma display_done_iff m : (exists s, sz_display m = Done s) <-> display_ok m = true.
Proof.
  unfold sz_display, display_ok. destruct (jones m), (eigenvector m); cbn [obind]; split; intros H; try discriminate; eauto; destruct H; discriminate.
Qed.
(** an operation with entries -1, 0, 1 can be printed exactly when its rotation has an axis with
    entries -1, 0, 1; otherwise the call panics *)
Theorem C49_printed_iff_unit_axis :
  forall m, unit_matrix (rot m) -> fits_i32 (det_spec (rot m)) ->
  ((exists s, sz_display m = Done s) <-> exists v, axis_of (rot m) v /\ unit_entries v) /\
  ((exists s, sz_display m = Done s) \/ exists r, sz_display m = Panic r).
Proof.
  intros m U D. destruct (C22_text_reads_back m U) as (j & q & J & _).
  assert (W : entries_within 65536 (rot m)).
  { unfold unit_matrix in U. unfold entries_within. clear - U. repeat split; lia. }
  pose proof (C19_panics_iff_no_unit_axis m W D) as P. unfold sz_display. rewrite J. cbn [obind].
  destruct (eigenvector m) as [e |] eqn:E.
  - split; [| left; eauto]. split; [intros _ | eauto].
    destruct (C19_eigenvector_is_canonical_axis m e W D E) as (A & B & _). eauto.
  - split; [| right; eauto]. split; [intros [s H]; discriminate |]. intros V. exfalso. now apply (proj1 P eq_refl).
Qed.
(** the lines: coordinates and axis, a blank line, the box of six lines of one width, a blank line *)
Lemma word_lacks s : word s = true -> lacks newline_char s = true.
Proof.
  induction s as [| c r IH]; cbn [word lacks]; [auto |]. unfold separator. change "010"%char with newline_char.
  destruct (Ascii.eqb c newline_char); [rewrite orb_true_r; discriminate |]. rewrite orb_false_r.
  destruct (Ascii.eqb c " "); [discriminate | exact IH].
Qed.
Lemma slen_app a b : String.length (a ++ b) = (String.length a + String.length b)%nat.
Proof. induction a as [| c r IH]; [reflexivity |]. cbn [append String.length]. rewrite IH. reflexivity. Qed.
Lemma slen_spaces n : String.length (spaces n) = n.
Proof. induction n as [| n IH]; cbn; congruence. Qed.
Lemma spaces_lacks n : lacks newline_char (spaces n) = true.
Proof. induction n as [| n IH]; cbn; auto. Qed.
Lemma max_width_row r a : (a <= fold_right (fun c b => Nat.max (String.length c) b) a r)%nat /\
  forall c, In c r -> (String.length c <= fold_right (fun c b => Nat.max (String.length c) b) a r)%nat.
Proof.
  induction r as [| d r [IH1 IH2]]; cbn [fold_right]; [split; [lia | contradiction] |].
  split; [lia |]. intros c [<- | H]; [lia |]. specialize (IH2 c H). lia.
Qed.
Lemma max_width_bound cells r c : In r cells -> In c r -> (String.length c <= max_width cells)%nat.
Proof.
  induction cells as [| x cells IH]; [contradiction |]. unfold max_width in *. cbn [fold_right].
  set (a := fold_right _ O cells) in *. destruct (max_width_row x a) as (A & B). intros [<- | H] Hc; [now apply B |].
  specialize (IH H Hc). lia.
Qed.
Lemma row_line_length w r : (forall c, In c r -> (String.length c <= w)%nat) ->
  String.length (row_line w r) = (9 + (w + 1) * length r)%nat.
Proof.
  intros H. unfold row_line. rewrite !slen_app. cbn [String.length].
  assert (E : String.length (sconcat (map (cell_text w) r)) = ((w + 1) * length r)%nat); [| lia].
  induction r as [| c r IH]; [cbn; lia |]. cbn [map sconcat]. rewrite slen_app, IH by (intros; apply H; now right).
  unfold cell_text. rewrite !slen_app, slen_spaces. cbn [String.length List.length]. pose proof (H c (or_introl eq_refl)). lia.
Qed.
Lemma row_line_lacks w r : Forall good r -> lacks newline_char (row_line w r) = true.
Proof.
  intros H. unfold row_line. rewrite !lacks_app.
  assert (E : lacks newline_char (sconcat (map (cell_text w) r)) = true); [| now rewrite E].
  induction H as [| c r (NE & W) H IH]; [reflexivity |]. cbn [map sconcat]. unfold cell_text at 1.
  rewrite !lacks_app, spaces_lacks, (word_lacks _ W), IH. reflexivity.
Qed.
Lemma split_line a s : lacks newline_char a = true -> split_on "010" (a ++ newline ++ s) = a :: split_on "010" s.
Proof. intros H. change (newline ++ s)%string with (String newline_char s). now apply split_app. Qed.
Lemma matrix_lines cells s : length cells = 4%nat -> Forall (fun r => length r = 4%nat) cells -> Forall (Forall good) cells ->
  exists t r1 r2 r3 r4 u, split_on "010" (matrix_text 4 cells ++ s) = [""%string; t; r1; r2; r3; r4; u; ""%string] ++ split_on "010" s /\
  forall l, In l [r1; r2; r3; r4; u] -> String.length l = String.length t.
Proof.
  intros L L4 G. do 5 (destruct cells as [| ? cells]; try discriminate L). clear L.
  unfold matrix_text. cbv zeta. set (w := max_width _). cbn [map sconcat].
  exists (top_line w 4), (row_line w l), (row_line w l0), (row_line w l1), (row_line w l2), (bottom_line w 4). split.
  - rewrite !str_app_assoc. change (newline ++ ?x)%string with (String "010" x) at 1.
    change (split_on "010" (String "010" ?x)) with (""%string :: split_on "010" x). cbn [app]. f_equal.
    inversion_clear G as [| ? ? G0 G']. inversion_clear G' as [| ? ? G1 G'']. inversion_clear G'' as [| ? ? G2 G3]. inversion_clear G3 as [| ? ? G3' _].
    rewrite split_line by (unfold top_line; rewrite !lacks_app, spaces_lacks; reflexivity).
    rewrite !split_line by (now apply row_line_lacks). change ("" ++ ?x)%string with x.
    rewrite split_line by (unfold bottom_line; rewrite !lacks_app, spaces_lacks; reflexivity). reflexivity.
  - assert (T : String.length (top_line w 4) = (9 + (w + 1) * 4)%nat)
      by (unfold top_line; rewrite !slen_app, slen_spaces; cbn [String.length]; lia).
    assert (U : String.length (bottom_line w 4) = (9 + (w + 1) * 4)%nat)
      by (unfold bottom_line; rewrite !slen_app, slen_spaces; cbn [String.length]; lia).
    assert (R : forall r, In r [l; l0; l1; l2] -> String.length (row_line w r) = (9 + (w + 1) * 4)%nat).
    { intros r Hr. rewrite row_line_length; [| intros c Hc; eapply max_width_bound; eauto].
      rewrite Forall_forall in L4. now rewrite (L4 r Hr). }
    intros x [<- | [<- | [<- | [<- | [<- | []]]]]]; rewrite T; [apply R .. | exact U]; cbn [In]; tauto.
Qed.
Lemma vec_debug_lacks v : lacks newline_char (vec_debug v) = true.
Proof. unfold vec_debug. rewrite !lacks_app, !Z_text_lacks. reflexivity. Qed.
Lemma fraction_shape m : length (map (map frac_text) (to_fraction m)) = 4%nat /\
  Forall (fun r => length r = 4%nat) (map (map frac_text) (to_fraction m)).
Proof. split; [reflexivity |]. unfold to_fraction. cbv zeta. cbn [map]. repeat constructor. Qed.
Theorem C49_printed_lines :
  forall m s, sz_display m = Done s -> exists h t r1 r2 r3 r4 u,
    lines s = [h; ""%string; t; r1; r2; r3; r4; u; ""%string; ""%string] /\
    forall l, In l [r1; r2; r3; r4; u] -> String.length l = String.length t.
Proof.
  intros m s H. unfold sz_display in H. destruct (jones m) as [j | |] eqn:J; try discriminate. cbn [obind] in H.
  destruct (eigenvector m) as [e |] eqn:E; [| discriminate]. apply Done_eq in H. subst s.
  destruct (fraction_shape m) as (L & L4). destruct (cells_show m) as (_ & G).
  destruct (matrix_lines _ ""%string L L4 G) as (t & r1 & r2 & r3 & r4 & u & S & W).
  exists (j ++ " | " ++ vec_debug e)%string, t, r1, r2, r3, r4, u. split; [| exact W].
  unfold lines. replace (j ++ " | " ++ vec_debug e ++ newline ++ matrix_text 4 (map (map frac_text) (to_fraction m)))%string
    with ((j ++ " | " ++ vec_debug e) ++ newline ++ matrix_text 4 (map (map frac_text) (to_fraction m)))%string by (rewrite !str_app_assoc; reflexivity).
  rewrite split_line by (rewrite !lacks_app, (jones_lacks _ _ J), vec_debug_lacks; reflexivity).
  rewrite str_app_nil in S. rewrite S. reflexivity.
Qed.

(** ** C49: the error value *)
Lemma rows_show m : Forall2 (Forall2 shows) (map (map Z_text) (to_rows m)) (entries_in_units m) /\
  Forall (Forall good) (map (map Z_text) (to_rows m)).
Proof.
  unfold to_rows, entries_in_units. cbv zeta. cbn [map]. split.
  - repeat first [apply Forall2_nil | apply Forall2_cons]; apply Z_text_shows.
  - repeat first [apply Forall_nil | apply Forall_cons]; split; apply Z_text_shows.
Qed.
Theorem C49_error_text :
  forall m, exists cells, Forall2 (Forall2 shows) cells (entries_in_units m) /\
    words (not_rotation_text m) = boxed cells ++ ["is"; "not"; "a"; "rotation"; "matrix!"]%string.
Proof.
  intros m. destruct (rows_show m) as (S & G). exists (map (map Z_text) (to_rows m)). split; [assumption |].
  unfold not_rotation_text. rewrite words_matrix by assumption. unfold boxed. rewrite <- !app_assoc. reflexivity.
Qed.

(** ** C49: all positions *)
Lemma words_split a s : words (a ++ newline ++ s) = words a ++ words s.
Proof.
  induction a as [| c r IH]; [reflexivity |]. change (String c r ++ newline ++ s)%string with (String c (r ++ newline ++ s)).
  destruct (separator c) eqn:C; [rewrite !words_sep by assumption; exact IH |].
  destruct r as [| d r].
  - change ("" ++ newline ++ s)%string with (String "010" s). cbn [words]. rewrite C. change (separator "010") with true. reflexivity.
  - destruct (separator d) eqn:D.
    + change (String d r ++ newline ++ s)%string with (String d (r ++ newline ++ s)) in *.
      transitivity (String c "" :: words (String d (r ++ newline ++ s)));
        [cbn [words]; rewrite C, D; reflexivity |]. rewrite IH.
      transitivity ((String c "" :: words (String d r)) ++ words s); [reflexivity |].
      f_equal. cbn [words]. rewrite C, D. reflexivity.
    + change (String d r ++ newline ++ s)%string with (String d (r ++ newline ++ s)) in *.
      rewrite !words_cons, IH by assumption.
      destruct (words (String d r)) as [| w ws] eqn:E; [| reflexivity]. exfalso. clear - D E.
      cbn [words] in E. rewrite D in E. destruct r as [| e r]; [discriminate |].
      destruct (separator e); [discriminate |]. destruct (words (String e r)); discriminate.
Qed.
Lemma words_join a l : words (sjoin newline (a :: l)) = flat_map words (a :: l).
Proof.
  revert a. induction l as [| b l IH]; intros a; [cbn [sjoin flat_map]; now rewrite app_nil_r |].
  change (sjoin newline (a :: b :: l)) with (a ++ newline ++ sjoin newline (b :: l))%string. rewrite words_split, IH. reflexivity.
Qed.
Lemma words_heading v : words (set_heading v) =
  ["[" ++ frac12_text (vx v) ++ ","; frac12_text (vy v) ++ ","; frac12_text (vz v) ++ "]"; "+"; "set"]%string.
Proof.
  assert (G : forall a z b, word a = true -> word b = true -> good (a ++ frac12_text z ++ b)).
  { intros a z b A B. destruct (frac_shows z) as (_ & W & NE). split; [destruct a, (frac12_text z); discriminate || congruence |].
    now rewrite !word_app, A, W, B. }
  assert (G' : forall z b, word b = true -> good (frac12_text z ++ b)) by (intros z b B; apply (G ""%string z b eq_refl B)).
  assert (E : (set_heading v = ("[" ++ frac12_text (vx v) ++ ",") ++ String " " ((frac12_text (vy v) ++ ",") ++ String " " ((frac12_text (vz v) ++ "]") ++ " + set")))%string)
    by (unfold set_heading; rewrite !str_app_assoc; reflexivity).
  rewrite E. clear E.
  rewrite (words_good ("[" ++ frac12_text (vx v) ++ ",")%string) by (reflexivity || now apply (G "["%string)). rewrite words_sep by reflexivity.
  rewrite (words_good (frac12_text (vy v) ++ ",")%string) by (reflexivity || now apply G'). rewrite words_sep by reflexivity.
  rewrite (words_good (frac12_text (vz v) ++ "]")%string) by (reflexivity || now apply G'). reflexivity.
Qed.
(** the whole listing is defined exactly when every operation of every set can be printed *)
Lemma omap_done_iff {A B} (f : A -> outcome B) l : (exists ys, omap f l = Done ys) <-> forall x, In x l -> exists y, f x = Done y.
Proof.
  split; [| apply omap_done]. intros [ys H] x Hx. destruct (omap_nth _ _ _ H) as [_ N]. apply In_nth_error in Hx. destruct Hx as [i Ei].
  destruct (N i x Ei) as (y & _ & E). eauto.
Qed.
Theorem C49_positions_printed_iff :
  forall g, (exists t, positions_display g = Done t) <->
    forall m v, In m (gp_core g) -> In v (gp_lattice g) -> exists s, sz_display (sz_addv m v) = Done s.
Proof.
  intros g. unfold positions_display. set (f := fun p : list seitz * vec3 => _).
  transitivity (exists ys, omap f (combine (derive_full_sets g) (gp_lattice g)) = Done ys).
  { destruct (omap f _); cbn [obind]; split; intros [? H]; try discriminate; eauto. }
  rewrite omap_done_iff. unfold derive_full_sets.
  assert (K : forall s v, (exists y, f (s, v) = Done y) <-> forall m, In m s -> exists t, sz_display m = Done t).
  { intros s v. rewrite <- omap_done_iff. unfold f. cbn [fst snd]. destruct (omap sz_display s); cbn [obind]; split; intros [? H]; try discriminate; eauto. }
  assert (C : forall (l : list vec3) p, In p (combine (map (fun v => map (fun m => sz_addv m v) (gp_core g)) l) l) <->
    exists v, In v l /\ p = (map (fun m => sz_addv m v) (gp_core g), v)).
  { induction l as [| v l IH]; intros p; cbn [map combine In]; [split; [contradiction | intros (? & [] & _)] |]. rewrite IH. split.
    - intros [<- | (w & I & E)]; eauto.
    - intros (w & [<- | I] & E); [left; congruence | right; eauto]. }
  split.
  - intros H m v Hm Hv. specialize (H (map (fun m => sz_addv m v) (gp_core g), v) (proj2 (C _ _) (ex_intro _ v (conj Hv eq_refl)))).
    apply (proj1 (K _ _)) with (m := sz_addv m v) in H; [exact H |]. apply in_map_iff. eauto.
  - intros H p Hp. apply C in Hp. destruct Hp as (v & Hv & ->). apply K. intros m Hm. apply in_map_iff in Hm.
    destruct Hm as (c & <- & Hc). auto.
Qed.
(** the listing, set by set: the heading, then every operation of the set in order *)
Theorem C49_positions_words :
  forall g t, gp_core g <> [] -> gp_lattice g <> [] -> positions_display g = Done t ->
  exists sets, List.concat sets = words t /\
    Forall2 (fun v ws => exists a b c ops, shows_twelfths a (vx v) /\ shows_twelfths b (vy v) /\ shows_twelfths c (vz v) /\
      ws = ["[" ++ a ++ ","; b ++ ","; c ++ "]"; "+"; "set"]%string ++ List.concat ops /\
      Forall2 (fun m os => exists s, sz_display (sz_addv m v) = Done s /\ os = words s) (gp_core g) ops) (gp_lattice g) sets.
Proof.
  intros g t NC NL H. unfold positions_display in H.
  destruct (omap _ (combine (derive_full_sets g) (gp_lattice g))) as [bs | |] eqn:O; try discriminate. cbn [obind] in H. apply Done_eq in H. subst t.
  exists (map words bs). split.
  { destruct bs as [| b bs]; [exfalso | rewrite words_join, flat_map_concat_map; reflexivity].
    unfold derive_full_sets in O. destruct (gp_lattice g); [congruence |]. apply omap_nth in O. destruct O as [L _]. discriminate L. }
  unfold derive_full_sets in O. clear NL. revert bs O. generalize (gp_lattice g) as l. induction l as [| v l IH]; intros bs O; cbn [map combine omap] in O.
  - apply Done_eq in O. subst bs. constructor.
  - cbn [fst snd] in O. destruct (omap sz_display _) as [os | |] eqn:S; try discriminate. cbn [obind] in O.
    destruct (omap _ (combine _ l)) as [r | |] eqn:R; try discriminate. cbn [obind] in O. apply Done_eq in O. subst bs.
    cbn [map]. constructor; [| now apply IH]. clear IH R.
    exists (frac12_text (vx v)), (frac12_text (vy v)), (frac12_text (vz v)), (map words os).
    split; [apply frac_shows |]. split; [apply frac_shows |]. split; [apply frac_shows |]. split.
    + rewrite words_join. cbn [flat_map]. rewrite words_heading, app_nil_r. f_equal.
      destruct os as [| o os]; [exfalso | now rewrite words_join, flat_map_concat_map].
      destruct (gp_core g); [congruence |]. apply omap_nth in S. destruct S as [L _]. discriminate L.
    + clear NC. revert os S. generalize (gp_core g) as ms. induction ms as [| m ms IH]; intros os S; cbn [map omap] in S.
      * apply Done_eq in S. subst os. constructor.
      * destruct (sz_display (sz_addv m v)) as [o | |] eqn:D; try discriminate. cbn [obind] in S.
        destruct (omap sz_display _) as [r' | |] eqn:R; try discriminate. cbn [obind] in S. apply Done_eq in S. subst os.
        cbn [map]. constructor; [eauto | now apply IH].
Qed.
(** ** C19: printing the tabulated groups *)
Definition half_directions : list vec3 :=
  [V3 0 0 1; V3 1 0 0; V3 0 1 0; V3 1 1 0; V3 1 (-1) 0; V3 1 1 1; V3 (-1) 1 1; V3 1 (-1) 1; V3 1 1 (-1);
   V3 1 0 1; V3 1 0 (-1); V3 0 1 1; V3 0 1 (-1)].
Definition unit_mb (R : mat3) : bool :=
  let u := fun x => (-1 <=? x) && (x <=? 1) in
  u (m11 R) && u (m12 R) && u (m13 R) && u (m21 R) && u (m22 R) && u (m23 R) && u (m31 R) && u (m32 R) && u (m33 R).
Definition has_axis (R : mat3) : bool :=
  let d := mdet R in existsb (fun v => veqb (mvmul R v) (vscale d v)) half_directions.
Lemma unit_mb_spec R : unit_mb R = true -> unit_matrix R.
Proof.
  unfold unit_mb, unit_matrix. rewrite !andb_true_iff, !Z.leb_le. tauto.
Qed.
Lemma directions_cover v : unit_entries v -> v <> V3 0 0 0 -> In v half_directions \/ In (vscale (-1) v) half_directions.
Proof.
  intros U N. destruct v as [x y z]. unfold unit_entries, vbetween in U. cbn [vx vy vz] in U.
  assert (x = -1 \/ x = 0 \/ x = 1) as X by lia. assert (y = -1 \/ y = 0 \/ y = 1) as Y by lia.
  assert (z = -1 \/ z = 0 \/ z = 1) as ZZ by lia. clear U.
  destruct X as [-> | [-> | ->]], Y as [-> | [-> | ->]], ZZ as [-> | [-> | ->]]; cbn; try (exfalso; now apply N); intuition congruence.
Qed.
Lemma directions_unit v : In v half_directions -> unit_entries v /\ v <> V3 0 0 0.
Proof.
  unfold half_directions. cbn [In]. intros H. repeat (destruct H as [<- | H]); try destruct H;
    (split; [unfold unit_entries, vbetween; cbn [vx vy vz]; lia | discriminate]).
Qed.
Lemma has_axis_spec R : has_axis R = true <-> exists v, axis_of R v /\ unit_entries v.
Proof.
  unfold has_axis, axis_of. cbv zeta. rewrite det_spec_mdet, existsb_exists. split.
  - intros (v & I & E). apply Algebra.veqb_eq in E. destruct (directions_unit v I) as [U N]. exists v. split; [split; [assumption |] | assumption].
    rewrite E. destruct v; reflexivity.
  - intros (v & (N & E) & U). destruct (directions_cover v U N) as [I | I].
    + exists v. split; [assumption |]. apply Algebra.veqb_eq. rewrite E. destruct v; reflexivity.
    + exists (vscale (-1) v). split; [assumption |]. apply Algebra.veqb_eq.
      transitivity (vscale (-1) (mvmul R v)); [mat_ring | rewrite E; mat_ring].
Qed.
Lemma unit_has_axis m : unit_matrix (rot m) -> (has_axis (rot m) = true <-> eigenvector m <> None).
Proof.
  intros U.
  assert (W : entries_within 65536 (rot m)).
  { unfold unit_matrix in U. unfold entries_within. decompose [and] U. clear U. repeat match goal with |- _ /\ _ => split end; lia. }
  assert (J : fits_i32 (det_spec (rot m))).
  { rewrite det_spec_mdet. unfold unit_matrix in U. destruct (rot m) as [a b c d e f g h i]. unfold mdet, fits_i32.
    cbn [m11 m12 m13 m21 m22 m23 m31 m32 m33] in *. decompose [and] U. clear U.
    assert (M : forall x y, -1 <= x <= 1 -> -1 <= y <= 1 -> -1 <= x * y <= 1) by (clear; intros; nia).
    pose proof (M e i ltac:(lia) ltac:(lia)). pose proof (M f h ltac:(lia) ltac:(lia)). pose proof (M d i ltac:(lia) ltac:(lia)).
    pose proof (M f g ltac:(lia) ltac:(lia)). pose proof (M d h ltac:(lia) ltac:(lia)). pose proof (M e g ltac:(lia) ltac:(lia)).
    assert (M2 : forall x y, -1 <= x <= 1 -> -2 <= y <= 2 -> -2 <= x * y <= 2) by (clear; intros; nia).
    pose proof (M2 a (e * i - f * h) ltac:(lia) ltac:(lia)). pose proof (M2 b (d * i - f * g) ltac:(lia) ltac:(lia)).
    pose proof (M2 c (d * h - e * g) ltac:(lia) ltac:(lia)). lia. }
  pose proof (C19_panics_iff_no_unit_axis m W J) as P. rewrite has_axis_spec, P.
  rewrite <- has_axis_spec. destruct (has_axis (rot m)); intuition congruence.
Qed.
(** an operation of this kind is printed exactly when it has such an axis *)
Lemma unit_display_ok m : unit_matrix (rot m) -> display_ok m = has_axis (rot m).
Proof.
  intros U. unfold display_ok. destruct (jones_reads m U) as (s & q & J & _). rewrite J.
  pose proof (unit_has_axis m U) as A. destruct (eigenvector m), (has_axis (rot m)); try reflexivity;
    [symmetry; apply A; discriminate | exfalso; now apply (proj1 A eq_refl)].
Qed.
Definition display_row (label : string) (p : hall * list seitz) : bool :=
  let n := leading_number label in
  let bad := existsb (Nat.eqb n) [149; 151; 153; 157; 159; 162; 163]%nat || (Nat.leb 177 n && Nat.leb n 194) in
  forallb (fun m => unit_mb (rot m)) (snd p) && Bool.eqb (forallb (fun m => has_axis (rot m)) (snd p)) (negb bad).
Definition display_rows (labels : list string) (groups : list (hall * list seitz)) : bool :=
  forallb (fun p => display_row (fst p) (snd p)) (combine labels groups).
Definition display_correct (label s : string) : Prop :=
  exists h g, try_from_str s = Done (Some h) /\ (forall fuel, (10 <= fuel)%nat -> general_positions fuel h = Done g) /\
    (positions_display_ok g = false <-> has_210_axis (leading_number label)).
Lemma lattice_pairs A (f : A -> bool) (c : list A) (add : A -> vec3 -> A) (l : list vec3) :
  (forall m v, In m c -> f (add m v) = f m) -> l <> [] ->
  forallb (fun p => forallb f (fst p)) (combine (map (fun v => map (fun m => add m v) c) l) l) = forallb f c.
Proof.
  intros E N.
  assert (X : forall v, forallb f (map (fun m => add m v) c) = forallb f c).
  { intros v. revert E. clear. induction c as [| m c IH]; intros E; [reflexivity |]. cbn [map forallb]. rewrite IH, E; [reflexivity | now left |].
    intros; apply E; now right. }
  destruct l as [| v l]; [contradiction |]. clear N. revert v. induction l as [| w l IH]; intros v; cbn [map combine forallb fst].
  - rewrite X, andb_true_r. reflexivity.
  - rewrite X. specialize (IH w). cbn [map combine forallb fst] in IH. rewrite IH. now destruct (forallb f c).
Qed.
Lemma positions_display_core g : gp_lattice g <> [] -> (forall m, In m (gp_core g) -> unit_matrix (rot m)) ->
  positions_display_ok g = forallb (fun m => has_axis (rot m)) (gp_core g).
Proof.
  intros N U. unfold positions_display_ok, derive_full_sets.
  rewrite (lattice_pairs seitz display_ok (gp_core g) sz_addv (gp_lattice g)); [| | exact N].
  - revert U. generalize (gp_core g) as c. induction c as [| m c IH]; intros U; [reflexivity |]. cbn [forallb].
    rewrite unit_display_ok by (apply U; now left). f_equal. apply IH. intros; apply U; now right.
  - intros m v I. assert (E : rot (sz_addv m v) = rot m) by reflexivity.
    rewrite !unit_display_ok; rewrite ?E; auto.
Qed.
Lemma display_row_sound label s p : row_group s = Some p -> display_row label p = true -> display_correct label s.
Proof.
  intros D R. unfold row_group in D. unfold display_correct.
  destruct (try_from_str s) as [[h |] | |] eqn:E; try discriminate.
  destruct (general_positions 10 h) as [g | |] eqn:G; try discriminate. injection D as <-.
  exists h, g. split; [reflexivity |]. split.
  { intros fuel L. rewrite (C29_fuel_irrelevant 10 fuel h); auto. congruence. }
  unfold display_row in R. cbv zeta in R. cbn [snd] in R. apply andb_true_iff in R. destruct R as [U R]. rewrite forallb_forall in U.
  rewrite positions_display_core; [| | intros m I; apply unit_mb_spec, U, I].
  2: { destruct (general_positions_spec _ _ _ G) as [-> _]. destruct (ls_char (h_lat h)); discriminate. }
  apply eqb_prop in R. rewrite R. clear R G E U.
  rewrite negb_false_iff, orb_true_iff, andb_true_iff, !Nat.leb_le. unfold has_210_axis.
  assert (forall l n, existsb (Nat.eqb n) l = true <-> In n l) as X.
  { intros l n. rewrite existsb_exists. split; [intros (x & I & Q); apply Nat.eqb_eq in Q; now subst | intros; exists n; split; auto; apply Nat.eqb_refl]. }
  rewrite X. tauto.
Qed.
Lemma display_rows_sound labels halls groups : map row_group halls = map Some groups -> display_rows labels groups = true ->
  forall i label s, nth_error labels i = Some label -> nth_error halls i = Some s -> display_correct label s.
Proof.
  intros E K i label s Hl Hs. destruct (row_data _ _ E i s Hs) as (p & Hp & D). apply (display_row_sound label s p D).
  unfold display_rows in K. rewrite forallb_forall in K.
  apply (K (label, p)). eapply nth_error_combine; eauto.
Qed.
Lemma display_rows_ok : display_rows full_number full_groups = true.
Proof. vm_cast_no_check (@eq_refl bool true). Qed.
Theorem C19_tabulated_groups_that_cannot_be_printed :
  forall v label s, variant_number v = Some label -> variant_hall v = Some s ->
  exists h g, try_from_str s = Done (Some h) /\ (forall fuel, (10 <= fuel)%nat -> general_positions fuel h = Done g) /\
    (positions_display_ok g = false <-> has_210_axis (leading_number label)).
Proof. intros v label s Hl Hs. exact (display_rows_sound _ _ _ full_groups_ok display_rows_ok v label s Hl Hs). Qed.

(** the tabulated groups whose positions cannot be printed *)
Theorem C49_tabulated_groups_printed :
  forall v label s, variant_number v = Some label -> variant_hall v = Some s ->
  exists h g, try_from_str s = Done (Some h) /\ (forall fuel, (10 <= fuel)%nat -> general_positions fuel h = Done g) /\
    ((exists t, positions_display g = Done t) <-> ~ has_210_axis (leading_number label)).
Proof.
  intros v label s Hl Hs. destruct (C19_tabulated_groups_that_cannot_be_printed v label s Hl Hs) as (h & g & T & G & P).
  exists h, g. split; [assumption |]. split; [assumption |]. clear T G. rewrite <- P, C49_positions_printed_iff. clear P.
  assert (E : positions_display_ok g = true <-> forall m v, In m (gp_core g) -> In v (gp_lattice g) -> display_ok (sz_addv m v) = true).
  { unfold positions_display_ok, derive_full_sets. generalize (gp_lattice g) as l. induction l as [| u l IH]; cbn [map combine forallb In fst snd].
    - split; [contradiction | reflexivity].
    - rewrite andb_true_iff, IH, forallb_forall. split.
      + intros (A & B) m w Hm [<- | Hw]; [apply A, in_map_iff; eauto | auto].
      + intros H. split; [| auto]. intros x Hx. apply in_map_iff in Hx. destruct Hx as (c & <- & Hc). auto. }
  split.
  - intros H. assert (positions_display_ok g = true) as ->; [| discriminate]. apply E. intros m u Hm Hu. apply display_done_iff. auto.
  - intros H m u Hm Hu. apply display_done_iff. apply E; [| assumption | assumption]. now destruct (positions_display_ok g).
Qed.
(** a printed operation, and one that cannot be printed *)
Example C49_case :
  let m := aff (M3 0 (-1) 0 1 (-1) 0 0 0 1) (V3 8 (-3) 6) in
  (exists s, sz_display m = Done s) /\ unit_matrix (rot m) /\ fits_i32 (det_spec (rot m)) /\
  (exists r, sz_display (aff (M3 1 0 0 1 (-1) 0 0 0 (-1)) v0) = Panic r).
Proof.
  cbv zeta. split; [eexists; exact display_ex |]. split; [unfold unit_matrix, aff; cbn; lia |].
  split; [unfold fits_i32, det_spec, aff; cbn; lia | eexists; vm_compute; reflexivity].
Qed.
