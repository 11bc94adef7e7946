(** * PropParser: properties C01 - C05, reading and printing Hall symbols. *)
From Verif Require Import Base Notations Winnow Parser SpecText.
Local Notation length := List.length.
Open Scope string_scope.

(** ** Strings *)
Lemma app_assoc_s (a b c : string) : (a ++ b) ++ c = a ++ (b ++ c).
Proof. induction a; simpl; [reflexivity | now rewrite IHa]. Qed.
Lemma app_nil_s (a : string) : a ++ "" = a.
Proof. induction a; simpl; [reflexivity | now rewrite IHa]. Qed.
Lemma app_length_s (a b : string) : String.length (a ++ b) = (String.length a + String.length b)%nat.
Proof. induction a; simpl; [reflexivity | now rewrite IHa]. Qed.
Lemma chars_app {A} (f : A -> ascii) l a b : chars f l a ++ b = chars f l (a ++ b).
Proof. induction l; simpl; [reflexivity | now rewrite IHl]. Qed.
Lemma pieces_app l a b : pieces l a ++ b = pieces l (a ++ b).
Proof. induction l as [| [m | e] l IH]; simpl; [reflexivity | now rewrite IH | now rewrite IH]. Qed.

Lemma char_in_iff cs c : char_in cs c = true <-> In c cs.
Proof.
  unfold char_in. rewrite existsb_exists. split.
  - intros (x & H & E). apply Ascii.eqb_eq in E. now subst.
  - intros H. exists c. split; [assumption | apply Ascii.eqb_refl].
Qed.
Lemma char_in_false cs c : char_in cs c = false <-> ~ In c cs.
Proof.
  rewrite <- char_in_iff. destruct (char_in cs c); split; congruence.
Qed.

(** blanks *)
Lemma is_space_blank b : is_space (blank_char b) = true.
Proof. destruct b; reflexivity. Qed.
Lemma is_space_inv c : is_space c = true -> exists b, c = blank_char b.
Proof.
  unfold is_space. rewrite char_in_iff. simpl. intros [H | [H | []]]; subst.
  - now exists Space.
  - now exists Tab.
Qed.
Definition no_blank (s : string) : Prop :=
  match s with EmptyString => True | String c _ => is_space c = false end.
Lemma space0_no_blank s : no_blank s -> space0 s = s.
Proof. destruct s; simpl; [reflexivity | intros ->; reflexivity]. Qed.
Lemma space0_chars bs r : space0 (chars blank_char bs r) = space0 r.
Proof. induction bs; simpl; [reflexivity | now rewrite is_space_blank]. Qed.
Lemma space0_split s : exists bs, s = chars blank_char bs (space0 s) /\ no_blank (space0 s).
Proof.
  induction s as [| c s (bs & E & N)]; simpl.
  - exists []. split; simpl; auto.
  - destruct (is_space c) eqn:Hc.
    + apply is_space_inv in Hc. destruct Hc as [b ->]. exists (b :: bs). simpl.
      split; [now rewrite <- E | assumption].
    + exists []. simpl. auto.
Qed.
Lemma space0_idem s : space0 (space0 s) = space0 s.
Proof. destruct (space0_split s) as (bs & _ & N). now apply space0_no_blank. Qed.

(** ** Reading one symbol *)
Lemma fold_digit_cases f : f <> FInvalid ->
  fold_text f = "1" \/ fold_text f = "2" \/ fold_text f = "3" \/ fold_text f = "4" \/ fold_text f = "6".
Proof. destruct f; simpl; intuition congruence. Qed.
Lemma parse_sign_fold_text bs m f r : f <> FInvalid ->
  parse_sign_fold (chars blank_char bs (sign m ++ fold_text f ++ r)) = POk (m, f) r.
Proof.
  intros Hf. unfold parse_sign_fold. rewrite space0_chars, space0_no_blank.
  - destruct m, f; try congruence; reflexivity.
  - destruct m, f; try congruence; reflexivity.
Qed.
Lemma alt_literals_inv ps s t r : alt_literals ps s = POk t r -> In t ps /\ strip_prefix t s = Some r.
Proof.
  induction ps as [| p ps IH]; simpl; [discriminate |].
  destruct (strip_prefix p s) eqn:E.
  - intros H. injection H as <- <-. auto.
  - intros H. apply IH in H. intuition.
Qed.
Lemma alt_literals_err ps s r : alt_literals ps s = PErr r -> r = s /\ forall p, In p ps -> strip_prefix p s = None.
Proof.
  induction ps as [| p ps IH]; simpl.
  - intros H. injection H as <-. split; [reflexivity | tauto].
  - destruct (strip_prefix p s) eqn:E; [discriminate |].
    intros H. apply IH in H. destruct H as [-> H]. split; [reflexivity |].
    intros q [<- | Hq]; auto.
Qed.
Lemma strip_prefix_iff p s r : strip_prefix p s = Some r <-> s = p ++ r.
Proof.
  revert s; induction p as [| a p IH]; intros s; simpl.
  - split; congruence.
  - destruct s as [| b s]; [split; discriminate |].
    destruct (Ascii.eqb_spec a b) as [-> | N].
    + rewrite IH. split; congruence.
    + split; [discriminate |]. intros H. injection H; congruence.
Qed.
Lemma parse_sign_fold_ok s m f r : parse_sign_fold s = POk (m, f) r ->
  f <> FInvalid /\ exists bs, s = chars blank_char bs (sign m ++ fold_text f ++ r).
Proof.
  unfold parse_sign_fold. destruct (alt_literals _ _) as [t r' | r'] eqn:E; [| discriminate].
  intros H. injection H as Ht <-. apply alt_literals_inv in E. destruct E as [Hin Hs].
  apply strip_prefix_iff in Hs. destruct (space0_split s) as (bs & Es & _). rewrite Hs in Es.
  simpl in Hin.
  repeat match goal with
  | H : _ \/ _ |- _ => destruct H as [<- | H]
  end; try contradiction; vm_compute in Ht; injection Ht as <- <-;
    (split; [discriminate |]); exists bs; exact Es.
Qed.
Lemma parse_sign_fold_err s r : parse_sign_fold s = PErr r -> r = space0 s /\ ~ starts_symbol s.
Proof.
  unfold parse_sign_fold. destruct (alt_literals _ _) as [t r' | r'] eqn:E; [discriminate |].
  intros H. injection H as <-. apply alt_literals_err in E. destruct E as [-> H].
  split; [reflexivity |]. intros (bs & m & f & q & Hf & ->).
  unfold blanks in H. rewrite chars_app in H. simpl (_ ++ _) in H at 1.
  assert (In (sign m ++ fold_text f) ["1"; "-1"; "2"; "-2"; "3"; "-3"; "4"; "-4"; "6"; "-6"]) as Hin.
  { destruct m, f; try congruence; simpl; tauto. }
  specialize (H _ Hin). rewrite space0_chars, space0_no_blank in H.
  - rewrite <- app_assoc_s in H.
    destruct (strip_prefix _ _) eqn:E in H; [discriminate |].
    assert (strip_prefix (sign m ++ fold_text f) ((sign m ++ fold_text f) ++ q) = Some q) as E'
      by now apply strip_prefix_iff.
    simpl in E, E'. congruence.
  - destruct m, f; try congruence; reflexivity.
Qed.

(** *** the marks *)
Lemma axis_mark m : char_in axis_chars (mark_char m) = true.
Proof. destruct m; reflexivity. Qed.
Lemma axis_mark_inv c : char_in axis_chars c = true -> exists m, c = mark_char m.
Proof.
  rewrite char_in_iff. simpl.
  intros [H | [H | [H | [H | [H | [H | []]]]]]]; subst;
    [exists MX | exists MY | exists MZ | exists MQuote | exists MDoubleQuote | exists MStar]; reflexivity.
Qed.
Lemma esc_char e : char_in escapable_chars (escaped_char e) = true.
Proof. destruct e; reflexivity. Qed.
Lemma esc_char_inv c : char_in escapable_chars c = true -> exists e, c = escaped_char e.
Proof.
  rewrite char_in_iff. simpl.
  intros [H | [H | [H | []]]]; subst; [exists EDoubleQuote | exists EBackslash | exists EQuote]; reflexivity.
Qed.
(** where the marks end *)
Definition ends_marks (s : string) : Prop := ~ starts_with ("\"%char :: marks6) s.
Lemma ends_marks_take s : ends_marks s -> take_escaped axis_chars escapable_chars s = POk "" s.
Proof.
  destruct s as [| c s]; cbn [take_escaped]; [reflexivity |]. intros H.
  destruct (char_in axis_chars c) eqn:E.
  - exfalso. apply H. right. apply char_in_iff in E. exact E.
  - destruct (Ascii.eqb_spec c "\"%char) as [-> | N].
    + exfalso. apply H. now left.
    + reflexivity.
Qed.
Lemma take_pieces ps r t q :
  take_escaped axis_chars escapable_chars r = POk t q ->
  take_escaped axis_chars escapable_chars (pieces ps r) = POk (pieces ps t) q.
Proof.
  intros H. induction ps as [| [m | e] ps IH]; [exact H | |]; cbn [pieces take_escaped].
  - rewrite axis_mark, IH. reflexivity.
  - replace (char_in axis_chars "\"%char) with false by reflexivity.
    rewrite Ascii.eqb_refl, esc_char, IH. reflexivity.
Qed.
Lemma take_pieces_err ps r q :
  take_escaped axis_chars escapable_chars r = PErr q ->
  take_escaped axis_chars escapable_chars (pieces ps r) = PErr q.
Proof.
  intros H. induction ps as [| [m | e] ps IH]; [exact H | |]; cbn [pieces take_escaped].
  - now rewrite axis_mark, IH.
  - replace (char_in axis_chars "\"%char) with false by reflexivity.
    now rewrite Ascii.eqb_refl, esc_char, IH.
Qed.
Lemma take_stray r : ~ starts_with escapes3 r ->
  take_escaped axis_chars escapable_chars (String "\"%char r) = PErr r.
Proof.
  intros H. cbn [take_escaped].
  replace (char_in axis_chars "\"%char) with false by reflexivity. rewrite Ascii.eqb_refl.
  destruct r as [| c r]; [reflexivity |].
  replace (char_in escapable_chars c) with false; [reflexivity |].
  symmetry. apply char_in_false. intros I. apply H. simpl in *. intuition.
Qed.
Lemma take_inv s :
  exists ps stray r,
    s = pieces ps (if stray : bool then String "\"%char r else r) /\
    take_escaped axis_chars escapable_chars s =
      (if stray then PErr r else POk (pieces ps "") r) /\
    (if stray then ~ starts_with escapes3 r else ends_marks r).
Proof.
  remember (String.length s) as n eqn:Hn. revert s Hn.
  induction n as [n IH] using lt_wf_ind. intros s ->.
  destruct s as [| c s].
  { exists [], false, "". repeat split. intros []. }
  destruct (char_in axis_chars c) eqn:Ec.
  { destruct (IH (String.length s)) with (s := s) as (ps & st & r & E & T & B); [simpl; lia | reflexivity |].
    destruct (axis_mark_inv c Ec) as [m ->].
    exists (Mark m :: ps), st, r. split; [| split]; [cbn [pieces]; now rewrite <- E | | assumption].
    cbn [take_escaped]. rewrite axis_mark, T. destruct st; reflexivity. }
  destruct (Ascii.eqb_spec c "\"%char) as [-> | N].
  - destruct s as [| e s].
    { exists [], true, "". repeat split. intros []. }
    destruct (char_in escapable_chars e) eqn:Ee.
    + destruct (IH (String.length s)) with (s := s) as (ps & st & r & E & T & B); [simpl; lia | reflexivity |].
      destruct (esc_char_inv e Ee) as [e' ->].
      exists (Escape e' :: ps), st, r. split; [| split]; [cbn [pieces]; now rewrite <- E | | assumption].
      cbn [take_escaped]. rewrite Ec, Ascii.eqb_refl, esc_char, T. destruct st; reflexivity.
    + exists [], true, (String e s). split; [reflexivity | split].
      * cbn [take_escaped]. now rewrite Ec, Ascii.eqb_refl, Ee.
      * apply char_in_false in Ee. simpl in *. intuition.
  - exists [], false, (String c s). split; [reflexivity |].
    assert (ends_marks (String c s)) as B.
    { intros [H | H]; [congruence |]. apply char_in_false in Ec. apply Ec. exact H. }
    split; [now apply ends_marks_take | assumption].
Qed.
(** the meaning of the marks *)
Lemma axis_of_pieces ps :
  axis_of (pieces ps "") =
    match ps with
    | [Mark m] => mark_axis [Mark m] false
    | _ => (AxOmitted, DiagNone)
    end.
Proof.
  destruct ps as [| [m | e] [| [m' | e'] ps]]; try reflexivity;
    try (destruct m; reflexivity);
    unfold axis_of; destruct m; reflexivity.
Qed.
Definition known_axis (ps : list piece) (stray : bool) : bool :=
  match ps, stray with [Mark _], false => true | _, _ => false end.
Lemma parse_axis_spec ps (stray : bool) r :
  (if stray then ~ starts_with escapes3 r else ends_marks r) ->
  parse_axis (pieces ps (if stray : bool then String "\"%char r else r)) =
    (if known_axis ps stray then POk (mark_axis ps stray) r else PErr r).
Proof.
  intros B. unfold parse_axis. destruct stray.
  - rewrite (take_pieces_err ps _ r (take_stray r B)).
    destruct ps as [| [m | e] [| q ps]]; reflexivity.
  - rewrite (take_pieces ps _ _ _ (ends_marks_take r B)), axis_of_pieces.
    destruct ps as [| [m | e] [| q ps]]; try reflexivity. destruct m; reflexivity.
Qed.

(** *** subscript and letters *)
Lemma letter_in t : t <> TInvalid -> char_in letter_chars (letter_char t) = true.
Proof. destruct t; try congruence; reflexivity. Qed.
Lemma letter_inv c : char_in letter_chars c = true ->
  tsym_of_char c <> TInvalid /\ c = letter_char (tsym_of_char c).
Proof.
  rewrite char_in_iff. simpl.
  intros [H | [H | [H | [H | [H | [H | [H | [H | []]]]]]]]]; subst; split; try reflexivity; discriminate.
Qed.
Lemma tsym_letter t : t <> TInvalid -> tsym_of_char (letter_char t) = t.
Proof. destruct t; try congruence; reflexivity. Qed.
Lemma repeat_letters ls r : ~ In TInvalid ls -> ~ starts_with letters8 r ->
  repeat0 letter_chars (chars letter_char ls r) = (map letter_char ls, r).
Proof.
  intros Hl Hr. induction ls as [| t ls IH]; cbn [chars map repeat0].
  - destruct r as [| c r]; [reflexivity |]. cbn [repeat0].
    replace (char_in letter_chars c) with false; [reflexivity |].
    symmetry. apply char_in_false. exact Hr.
  - rewrite letter_in by (intros ->; apply Hl; now left).
    rewrite IH; [reflexivity |]. intros H; apply Hl; now right.
Qed.
Lemma repeat_letters_inv s :
  exists ls r, s = chars letter_char ls r /\ ~ In TInvalid ls /\ ~ starts_with letters8 r /\
    repeat0 letter_chars s = (map letter_char ls, r).
Proof.
  induction s as [| c s (ls & r & E & Hl & Hr & T)].
  - exists [], "". repeat split; auto.
  - cbn [repeat0]. destruct (char_in letter_chars c) eqn:Ec.
    + destruct (letter_inv c Ec) as [Hc E'].
      exists (tsym_of_char c :: ls), r. rewrite T. simpl. rewrite <- E', <- E.
      repeat split; auto. intros [H | H]; auto.
    + exists [], (String c s). repeat split; auto. apply char_in_false in Ec. exact Ec.
Qed.
Lemma map_tsym_letters ls : ~ In TInvalid ls -> map tsym_of_char (map letter_char ls) = ls.
Proof.
  induction ls as [| t ls IH]; simpl; [reflexivity |]. intros H.
  rewrite tsym_letter, IH; auto.
Qed.
Definition letters_opt (ls : list tsym) : option (list tsym) :=
  match ls with [] => None | l => Some l end.
(** there is a subscript or a letter *)
Definition has_tail (sub : nfold_sub) (ls : list tsym) : bool :=
  match sub, ls with SubNone, [] => false | _, _ => true end.
Lemma parse_translations_spec sub ls r :
  ~ In TInvalid ls -> ~ starts_with letters8 r ->
  (ls = [] -> sub = SubNone -> ~ starts_with subs5 r) ->
  parse_translations (subscript sub ++ chars letter_char ls r) =
    (if has_tail sub ls then POk (sub, letters_opt ls) r else PErr r).
Proof.
  intros Hl Hr Hs. unfold parse_translations. destruct sub.
  2-6: simpl; rewrite repeat_letters by assumption; rewrite map_tsym_letters by assumption;
       destruct ls; reflexivity.
  destruct ls as [| t ls].
  - cbn [subscript chars append]. destruct r as [| c r]; [reflexivity |]. unfold one_of.
    replace (char_in (sub_chars ++ letter_chars) c) with false; [reflexivity |].
    symmetry. apply char_in_false. rewrite in_app_iff. intros [H | H].
    + exact (Hs eq_refl eq_refl H).
    + exact (Hr H).
  - assert (t <> TInvalid) as Ht by (intros ->; apply Hl; now left).
    cbn [subscript append].
    replace (one_of (sub_chars ++ letter_chars) (chars letter_char (t :: ls) r))
      with (POk (letter_char t) (chars letter_char ls r)) by (destruct t; try congruence; reflexivity).
    replace (char_in sub_chars (letter_char t)) with false by (destruct t; try congruence; reflexivity).
    rewrite letter_in by assumption.
    rewrite repeat_letters by assumption. rewrite map_tsym_letters by assumption. reflexivity.
Qed.
Lemma subs_inv c : char_in sub_chars c = true -> exists sub, sub <> SubNone /\ String c "" = subscript sub.
Proof.
  rewrite char_in_iff. simpl.
  intros [H | [H | [H | [H | [H | []]]]]]; subst;
    [exists Sub1 | exists Sub2 | exists Sub3 | exists Sub4 | exists Sub5];
    (split; [discriminate | reflexivity]).
Qed.
Lemma translations_inv s :
  exists sub ls r, s = subscript sub ++ chars letter_char ls r /\
    ~ In TInvalid ls /\ ~ starts_with letters8 r /\
    (ls = [] -> sub = SubNone -> ~ starts_with subs5 r).
Proof.
  destruct s as [| c s].
  { exists SubNone, [], "". repeat split; auto. }
  destruct (char_in sub_chars c) eqn:Ec.
  - destruct (subs_inv c Ec) as (sub & Hsub & E).
    destruct (repeat_letters_inv s) as (ls & r & -> & Hl & Hr & _).
    exists sub, ls, r. split; [| split; [assumption | split; [assumption |]]].
    + rewrite <- E. reflexivity.
    + intros _ H. contradiction.
  - destruct (repeat_letters_inv (String c s)) as (ls & r & E & Hl & Hr & _).
    exists SubNone, ls, r. repeat split; auto. intros -> _. simpl in E. subst r.
    apply char_in_false in Ec. exact Ec.
Qed.

(** *** one symbol *)
Lemma chunk_text_app k r :
  chunk_text k ++ r =
    chars blank_char (k_blanks k) (sign (k_minus k) ++ fold_text (k_fold k) ++
      pieces (k_pieces k) (if k_stray k
        then String "\"%char (subscript (k_sub k) ++ chars letter_char (k_letters k) r)
        else subscript (k_sub k) ++ chars letter_char (k_letters k) r)).
Proof.
  unfold chunk_text, blanks. rewrite !chars_app. f_equal.
  rewrite !app_assoc_s. simpl. f_equal. f_equal. rewrite !pieces_app.
  f_equal. rewrite chars_app. destruct (k_stray k); reflexivity.
Qed.
Lemma sub_letters_escapes sub ls r : ~ In TInvalid ls ->
  (ls = [] -> sub = SubNone -> ~ starts_with escapes3 r) ->
  ~ starts_with escapes3 (subscript sub ++ chars letter_char ls r).
Proof.
  intros Hl H. destruct sub; try (simpl; intuition discriminate).
  destruct ls as [| t ls]; [now apply H |].
  destruct t; simpl in *; intuition discriminate.
Qed.
Lemma sub_letters_marks sub ls r : ~ In TInvalid ls ->
  (ls = [] -> sub = SubNone -> ends_marks r) ->
  ends_marks (subscript sub ++ chars letter_char ls r).
Proof.
  unfold ends_marks. intros Hl H. destruct sub; try (simpl; intuition discriminate).
  destruct ls as [| t ls]; [now apply H |].
  destruct t; simpl in *; intuition discriminate.
Qed.
Lemma parse_chunk k r : chunk_ok k -> stops k r ->
  parse_hall_matrix_symbol (chunk_text k ++ r) = Done (POk (chunk_symbol k) r).
Proof.
  intros [Hf Hl] [Hs1 Hs2]. rewrite chunk_text_app. unfold parse_hall_matrix_symbol.
  rewrite parse_sign_fold_text by assumption.
  replace (k_minus k && nfold_eqb (k_fold k) FInvalid) with false
    by (destruct (k_minus k), (k_fold k); try congruence; reflexivity).
  rewrite parse_axis_spec.
  - unfold chunk_symbol. destruct k as [bs m f ps st sub ls]. cbn [k_blanks k_minus k_fold k_pieces k_stray k_sub k_letters] in *.
    destruct (known_axis ps st) eqn:Hk.
    + destruct (mark_axis ps st) as [a d] eqn:Ha.
      rewrite parse_translations_spec; [| assumption | assumption | intros E1 E2; apply Hs2; assumption].
      destruct sub, ls; reflexivity.
    + rewrite parse_translations_spec; [| assumption | assumption | intros E1 E2; apply Hs2; assumption].
      assert (mark_axis ps st = (AxZ, DiagNone)) as ->.
      { destruct ps as [| [mk | e] [| q ps]], st; try reflexivity; try discriminate; destruct mk; reflexivity. }
      destruct sub, ls; reflexivity.
  - destruct (k_stray k).
    + apply sub_letters_escapes; [assumption |]. intros E1 E2. apply Hs2; assumption.
    + apply sub_letters_marks; [assumption |]. intros E1 E2. apply Hs2; assumption.
Qed.
(** every reading of a symbol is the reading of a chunk *)
Lemma chunk_exists s : starts_symbol s -> exists k r, s = chunk_text k ++ r /\ chunk_ok k /\ stops k r.
Proof.
  intros (bs & m & f & q & Hf & ->).
  destruct (take_inv q) as (ps & st & q1 & -> & _ & B).
  destruct (translations_inv q1) as (sub & ls & r & -> & Hl & Hr & Hs).
  exists (Chunk bs m f ps st sub ls), r. repeat split; auto.
  - rewrite chunk_text_app. cbn [k_blanks k_minus k_fold k_pieces k_stray k_sub k_letters].
    unfold blanks. rewrite chars_app. reflexivity.
  - cbn [k_letters k_sub k_stray] in *. destruct st; subst; simpl in B; exact B.
Qed.
Lemma parse_no_symbol s : ~ starts_symbol s -> parse_hall_matrix_symbol s = Done (PErr (space0 s)).
Proof.
  intros H. unfold parse_hall_matrix_symbol. destruct (parse_sign_fold s) as [[m f] r | r] eqn:E.
  - apply parse_sign_fold_ok in E. destruct E as (Hf & bs & E). exfalso. apply H.
    exists bs, m, f, r. split; [assumption |]. unfold blanks. rewrite chars_app. exact E.
  - apply parse_sign_fold_err in E. now destruct E as [-> _].
Qed.
Lemma starts_symbol_dec s : starts_symbol s \/ ~ starts_symbol s.
Proof.
  destruct (parse_sign_fold s) as [[m f] r | r] eqn:E.
  - left. apply parse_sign_fold_ok in E. destruct E as (Hf & bs & E).
    exists bs, m, f, r. split; [assumption |]. unfold blanks. rewrite chars_app. exact E.
  - right. apply parse_sign_fold_err in E. apply E.
Qed.
Lemma chunk_text_length k : chunk_ok k -> (0 < String.length (chunk_text k))%nat.
Proof.
  intros [Hf _]. unfold chunk_text. rewrite !app_length_s.
  assert (String.length (fold_text (k_fold k)) = 1%nat) by (destruct (k_fold k); reflexivity). lia.
Qed.

(** *** the list of symbols *)
Lemma parse_chunks ks rest : chunked ks rest ->
  forall fuel, (String.length (chunks_text ks rest) < fuel)%nat ->
  parse_symbols fuel (chunks_text ks rest) = Done (map chunk_symbol ks, space0 rest).
Proof.
  induction ks as [| k ks IH]; intros C fuel Hf; (destruct fuel as [| fuel]; [lia |]); simpl in *.
  - now rewrite parse_no_symbol.
  - destruct C as (Hk & Hs & C). rewrite parse_chunk by assumption.
    rewrite IH; [reflexivity | assumption |].
    rewrite app_length_s in Hf. pose proof (chunk_text_length k Hk). lia.
Qed.
Lemma chunks_exist s : exists ks rest, s = chunks_text ks rest /\ chunked ks rest.
Proof.
  remember (String.length s) as n eqn:Hn. revert s Hn.
  induction n as [n IH] using lt_wf_ind. intros s ->.
  destruct (starts_symbol_dec s) as [H | H].
  - destruct (chunk_exists s H) as (k & r & -> & Hk & Hs).
    destruct (IH (String.length r)) with (s := r) as (ks & rest & -> & C); [| reflexivity |].
    + rewrite app_length_s. pose proof (chunk_text_length k Hk). lia.
    + exists (k :: ks), rest. simpl. auto.
  - exists [], s. split; [reflexivity | exact H].
Qed.

(** *** integers *)
Lemma digit_range d : (0 <= d <= 9)%Z ->
  d = 0%Z \/ d = 1%Z \/ d = 2%Z \/ d = 3%Z \/ d = 4%Z \/ d = 5%Z \/ d = 6%Z \/ d = 7%Z \/ d = 8%Z \/ d = 9%Z.
Proof. lia. Qed.
Lemma digits_digit d : (0 <= d <= 9)%Z -> char_in digits (digit d) = true /\ digit_val (digit d) = d.
Proof.
  intros H. apply digit_range in H.
  repeat (destruct H as [-> | H]; [split; reflexivity |]). subst; split; reflexivity.
Qed.
Lemma digits19_digit d : (1 <= d <= 9)%Z -> char_in digits19 (digit d) = true.
Proof.
  intros H. assert (0 <= d <= 9)%Z as H' by lia. apply digit_range in H'.
  destruct H' as [-> | H']; [lia |].
  repeat (destruct H' as [-> | H']; [reflexivity |]). subst; reflexivity.
Qed.
Lemma digits_inv c : char_in digits c = true -> exists d, (0 <= d <= 9)%Z /\ c = digit d.
Proof.
  rewrite char_in_iff. simpl. intros H.
  repeat (destruct H as [<- | H];
    [match goal with |- exists d, _ /\ ?c = _ => exists (digit_val c) end; split; [vm_compute; split; discriminate | reflexivity] |]).
  contradiction.
Qed.
Lemma digits19_inv c : char_in digits19 c = true -> exists d, (1 <= d <= 9)%Z /\ c = digit d.
Proof.
  rewrite char_in_iff. simpl. intros H.
  repeat (destruct H as [<- | H];
    [match goal with |- exists d, _ /\ ?c = _ => exists (digit_val c) end; split; [vm_compute; split; discriminate | reflexivity] |]).
  contradiction.
Qed.
Definition no_digit (s : string) : Prop :=
  match s with EmptyString => True | String c _ => char_in digits c = false end.
Lemma more_digits_ge s n v : more_digits s n v -> (0 <= n -> n <= v)%Z.
Proof. induction 1; lia. Qed.
Lemma repeat_digits s n v r : more_digits s n v -> no_digit r ->
  exists ds, repeat0 digits (s ++ r) = (ds, r) /\ digits_val n ds = v.
Proof.
  intros H Hr. induction H as [n | d s n v Hd H IH].
  - exists []. split; [| reflexivity]. cbn [append]. destruct r as [| c r]; [reflexivity |].
    cbn [repeat0]. unfold no_digit in Hr. now rewrite Hr.
  - destruct IH as (ds & E & V). exists (digit d :: ds). cbn [append repeat0].
    destruct (digits_digit d Hd) as [E1 E2]. rewrite E1, E. split; [reflexivity |].
    unfold digits_val. cbn [fold_left]. rewrite E2. exact V.
Qed.
Lemma repeat_digits_inv s n : exists t r ds, s = t ++ r /\ no_digit r /\
  repeat0 digits s = (ds, r) /\ more_digits t n (digits_val n ds).
Proof.
  revert n; induction s as [| c s IH]; intros n.
  - exists "", "", []. repeat split. constructor.
  - cbn [repeat0]. destruct (char_in digits c) eqn:Ec.
    + destruct (digits_inv c Ec) as (d & Hd & ->).
      destruct (IH (10 * n + d)%Z) as (t & r & ds & -> & Hr & E & M).
      exists (String (digit d) t), r, (digit d :: ds). rewrite E. repeat split; auto.
      constructor; [assumption |]. unfold digits_val in *. cbn [fold_left].
      now rewrite (proj2 (digits_digit d Hd)).
    + exists "", (String c s), []. repeat split; auto. constructor.
Qed.
(** [dec_int] with the character tests spelled out *)
Definition dec_body (neg : bool) (s : string) : option (Z * string) :=
  match s with
  | String c r =>
      if char_in digits19 c then
        let (ds, rest) := repeat0 digits r in
        let v := digits_val (digit_val c) ds in
        let z := if neg then (- v)%Z else v in
        if in_i32 z then Some (z, rest) else None
      else None
  | EmptyString => None
  end.
Lemma dec_int_eq s : dec_int s =
  match s with
  | EmptyString => None
  | String c r =>
      if Ascii.eqb c "-" then dec_body true r
      else if Ascii.eqb c "+" then dec_body false r
      else if Ascii.eqb c "0" then Some (0%Z, r)
      else dec_body false s
  end.
Proof.
  destruct s as [| c r]; [reflexivity |].
  destruct (Ascii.eqb_spec c "-") as [-> | N1].
  { unfold dec_int, dec_body. destruct r as [| c' r]; [reflexivity |]. destruct (char_in digits19 c'); reflexivity. }
  destruct (Ascii.eqb_spec c "+") as [-> | N2].
  { unfold dec_int, dec_body. destruct r as [| c' r]; [reflexivity |]. destruct (char_in digits19 c'); reflexivity. }
  assert (dec_int (String c r) =
    if char_in digits19 c then
        let (ds, rest) := repeat0 digits r in
        let v := digits_val (digit_val c) ds in
        if in_i32 v then Some (v, rest) else None
    else match c with "0"%char => Some (0%Z, r) | _ => None end) as ->.
  { destruct c as [[|] [|] [|] [|] [|] [|] [|] [|]]; try reflexivity; congruence. }
  destruct (Ascii.eqb_spec c "0") as [-> | N3]; [reflexivity |].
  unfold dec_body. destruct (char_in digits19 c); [reflexivity |].
  destruct c as [[|] [|] [|] [|] [|] [|] [|] [|]]; try reflexivity; congruence.
Qed.
Lemma dec_body_lit (neg : bool) d s v r : (1 <= d <= 9)%Z -> more_digits s d v -> no_digit r ->
  in_i32 (if neg then - v else v) = true ->
  dec_body neg (String (digit d) s ++ r) = Some ((if neg then - v else v)%Z, r).
Proof.
  intros Hd M Hr Hi. cbn [append dec_body]. rewrite digits19_digit by assumption.
  rewrite (proj2 (digits_digit d ltac:(lia))).
  destruct (repeat_digits s d v r M Hr) as (ds & -> & ->). cbv zeta. now rewrite Hi.
Qed.
Lemma digit_not c d : (1 <= d <= 9)%Z -> In c ["-"; "+"; "0"]%char -> Ascii.eqb (digit d) c = false.
Proof.
  intros H Hc. assert (0 <= d <= 9)%Z as H' by lia. apply digit_range in H'.
  destruct H' as [-> | H']; [lia |].
  destruct Hc as [<- | [<- | [<- | []]]];
  repeat (destruct H' as [-> | H']; [reflexivity |]); subst; reflexivity.
Qed.
Lemma dec_int_lit t z r : int_literal t z -> no_digit r -> dec_int (t ++ r) = Some (z, r).
Proof.
  intros H Hr. rewrite dec_int_eq. destruct H as [| d s v Hd M Hv | d s v Hd M Hv | d s v Hd M Hv].
  - reflexivity.
  - cbn [append]. rewrite !digit_not by (auto; simpl; tauto).
    apply (dec_body_lit false); auto. pose proof (more_digits_ge _ _ _ M).
    unfold in_i32, i32_min, i32_max. lia.
  - cbn [append]. change (Ascii.eqb "+" "-") with false. rewrite Ascii.eqb_refl. cbv iota.
    apply (dec_body_lit false); auto. pose proof (more_digits_ge _ _ _ M).
    unfold in_i32, i32_min, i32_max. lia.
  - cbn [append]. rewrite Ascii.eqb_refl.
    apply (dec_body_lit true); auto. pose proof (more_digits_ge _ _ _ M).
    unfold in_i32, i32_min, i32_max. lia.
Qed.
Lemma dec_body_inv neg s z r : dec_body neg s = Some (z, r) ->
  exists d t v, (1 <= d <= 9)%Z /\ more_digits t d v /\ s = String (digit d) (t ++ r) /\
    z = (if neg then - v else v)%Z /\ in_i32 z = true.
Proof.
  destruct s as [| c s]; [discriminate |]. cbn [dec_body].
  destruct (char_in digits19 c) eqn:Ec; [| discriminate].
  destruct (digits19_inv c Ec) as (d & Hd & ->).
  destruct (repeat_digits_inv s d) as (t & r' & ds & -> & Hr & -> & M). cbv zeta.
  rewrite (proj2 (digits_digit d ltac:(lia))).
  destruct (in_i32 _) eqn:Ei; [| discriminate]. intros H. injection H as <- <-.
  exists d, t, (digits_val d ds). auto 6.
Qed.
Lemma dec_int_inv s z r : dec_int s = Some (z, r) -> exists t, s = t ++ r /\ int_literal t z.
Proof.
  rewrite dec_int_eq. destruct s as [| c s]; [discriminate |].
  destruct (Ascii.eqb_spec c "-") as [-> | N1]; [| destruct (Ascii.eqb_spec c "+") as [-> | N2];
    [| destruct (Ascii.eqb_spec c "0") as [-> | N3]]].
  - intros H. apply dec_body_inv in H. destruct H as (d & t & v & Hd & M & -> & -> & Hi).
    exists (String "-" (String (digit d) t)). split; [reflexivity |]. constructor; auto.
    unfold in_i32, i32_min, i32_max in Hi. lia.
  - intros H. apply dec_body_inv in H. destruct H as (d & t & v & Hd & M & -> & -> & Hi).
    exists (String "+" (String (digit d) t)). split; [reflexivity |]. constructor; auto.
    unfold in_i32, i32_min, i32_max in Hi. lia.
  - intros H. injection H as <- <-. exists "0". split; [reflexivity | constructor].
  - intros H. apply dec_body_inv in H. destruct H as (d & t & v & Hd & M & -> & -> & Hi).
    exists (String (digit d) t). split; [reflexivity |]. constructor; auto.
    unfold in_i32, i32_min, i32_max in Hi. lia.
Qed.

(** *** lists of integers *)
Lemma literal_no_blank t z r : int_literal t z -> no_blank (t ++ r).
Proof.
  assert (forall d, (1 <= d <= 9)%Z -> is_space (digit d) = false) as D.
  { intros d H. assert (0 <= d <= 9)%Z as H' by lia. apply digit_range in H'.
    destruct H' as [-> | H']; [lia |].
    repeat (destruct H' as [-> | H']; [reflexivity |]); subst; reflexivity. }
  intros H. destruct H; try reflexivity. cbn [append no_blank]. auto.
Qed.
Lemma int_list_no_blank t l r : int_list t l -> no_blank (t ++ r).
Proof.
  intros H. destruct H; [now apply literal_no_blank with a |].
  rewrite app_assoc_s. now apply literal_no_blank with a.
Qed.
Lemma sep_next_blanks b bs s : no_blank s -> sep_next (blanks (b :: bs) ++ s) = dec_int s.
Proof.
  intros H. unfold sep_next, space1, blanks. cbn [chars append]. rewrite is_space_blank.
  rewrite chars_app, space0_chars. now rewrite space0_no_blank.
Qed.
Lemma no_digit_blank b s : no_digit (String (blank_char b) s).
Proof. destruct b; reflexivity. Qed.
Lemma int_list_inv t l : int_list t l ->
  exists u a, int_literal u a /\
    ((t = u /\ l = [a]) \/
     exists b bs s l', t = u ++ blanks (b :: bs) ++ s /\ l = a :: l' /\ int_list s l').
Proof.
  intros H. destruct H as [t a Ha | t a b bs s l Ha Hl].
  - exists t, a. split; auto.
  - exists t, a. split; [assumption |]. right. exists b, bs, s, l. auto.
Qed.
Lemma dec_int_list t a l tail : int_literal t a -> no_digit (l ++ ")" ++ tail) ->
  dec_int ((t ++ l) ++ ")" ++ tail) = Some (a, l ++ ")" ++ tail).
Proof. intros H D. rewrite app_assoc_s. now apply dec_int_lit. Qed.
Lemma separated_list t l tail : int_list t l -> (length l <= 3)%nat ->
  separated_1_3 (t ++ ")" ++ tail) = Some (l, ")" ++ tail).
Proof.
  intros H Hn. unfold separated_1_3.
  apply int_list_inv in H. destruct H as (u & a & Hu & H).
  destruct H as [[-> ->] | (b & bs & s & l' & -> & -> & H)].
  { rewrite (dec_int_lit u a) by (assumption || reflexivity). reflexivity. }
  rewrite (dec_int_list u a); [| assumption | apply no_digit_blank].
  rewrite app_assoc_s, sep_next_blanks by now apply int_list_no_blank with l'.
  apply int_list_inv in H. destruct H as (u2 & a2 & Hu2 & H).
  destruct H as [[-> ->] | (b2 & bs2 & s2 & l2 & -> & -> & H)].
  { rewrite (dec_int_lit u2 a2) by (assumption || reflexivity). reflexivity. }
  rewrite (dec_int_list u2 a2); [| assumption | apply no_digit_blank].
  rewrite app_assoc_s, sep_next_blanks by now apply int_list_no_blank with l2.
  apply int_list_inv in H. destruct H as (u3 & a3 & Hu3 & H).
  destruct H as [[-> ->] | (b3 & bs3 & s3 & l3 & -> & -> & H)].
  { rewrite (dec_int_lit u3 a3) by (assumption || reflexivity). reflexivity. }
  apply int_list_inv in H. destruct H as (u4 & a4 & Hu4 & [[-> ->] | (? & ? & ? & ? & -> & -> & ?)]); simpl in Hn; lia.
Qed.
Lemma sep_next_inv s z r : sep_next s = Some (z, r) ->
  exists b bs t, s = blanks (b :: bs) ++ t ++ r /\ int_literal t z.
Proof.
  unfold sep_next, space1. destruct s as [| c s]; [discriminate |].
  destruct (is_space c) eqn:Ec; [| discriminate]. intros H.
  apply dec_int_inv in H. destruct H as (t & E & L).
  destruct (is_space_inv c Ec) as [b ->]. destruct (space0_split s) as (bs & Es & _).
  exists b, bs, t. split; [| assumption]. unfold blanks. cbn [chars append].
  rewrite chars_app. cbn [append]. now rewrite <- E, <- Es.
Qed.
Lemma separated_inv s l r : separated_1_3 s = Some (l, r) ->
  (length l <= 3)%nat /\ exists t, s = t ++ r /\ int_list t l.
Proof.
  unfold separated_1_3. destruct (dec_int s) as [[a s1] |] eqn:E1; [| discriminate].
  apply dec_int_inv in E1. destruct E1 as (t1 & -> & L1).
  destruct (sep_next s1) as [[b s2] |] eqn:E2.
  2:{ intros H. injection H as <- <-. split; [simpl; lia |]. exists t1. split; [reflexivity |]. now constructor. }
  apply sep_next_inv in E2. destruct E2 as (b1 & bs1 & t2 & -> & L2).
  destruct (sep_next s2) as [[c s3] |] eqn:E3.
  2:{ intros H. injection H as <- <-. split; [simpl; lia |].
      exists (t1 ++ blanks (b1 :: bs1) ++ t2). split; [now rewrite !app_assoc_s |].
      constructor; [assumption |]. now constructor. }
  apply sep_next_inv in E3. destruct E3 as (b2 & bs2 & t3 & -> & L3).
  intros H. injection H as <- <-. split; [simpl; lia |].
  exists (t1 ++ blanks (b1 :: bs1) ++ t2 ++ blanks (b2 :: bs2) ++ t3).
  split; [now rewrite !app_assoc_s |].
  constructor; [assumption |]. constructor; [assumption |]. now constructor.
Qed.
Lemma parse_paren_iff s l : parse_paren s = Some l <-> paren_list s l /\ (length l <= 3)%nat.
Proof.
  unfold parse_paren, literal. split.
  - destruct (strip_prefix "(" (space0 s)) as [r |] eqn:E1; [| discriminate].
    apply strip_prefix_iff in E1.
    destruct (separated_1_3 r) as [[ns r'] |] eqn:E2; [| discriminate].
    apply separated_inv in E2. destruct E2 as (Hn & t & -> & L).
    destruct (strip_prefix ")" r') as [tail |] eqn:E3; [| discriminate].
    apply strip_prefix_iff in E3. subst r'. intros H. injection H as <-.
    split; [| assumption]. destruct (space0_split s) as (bs & Es & _).
    exists bs, t, tail. split; [| assumption]. unfold blanks. rewrite chars_app. cbn [append] in *.
    rewrite Es, E1. reflexivity.
  - intros ((bs & t & tail & -> & L) & Hn). unfold blanks. rewrite chars_app, space0_chars.
    rewrite space0_no_blank by reflexivity.
    replace (strip_prefix "(" ("" ++ "(" ++ t ++ ")" ++ tail)) with (Some (t ++ ")" ++ tail))
      by (symmetry; apply strip_prefix_iff; reflexivity).
    rewrite (separated_list t l tail L Hn).
    replace (strip_prefix ")" (")" ++ tail)) with (Some tail) by (symmetry; apply strip_prefix_iff; reflexivity).
    reflexivity.
Qed.
Lemma int_list_nonempty t l : int_list t l -> (1 <= length l)%nat.
Proof. intros H. destruct H; simpl; lia. Qed.
Lemma paren_unique s l l' : paren_list s l -> paren_list s l' ->
  (length l <= 3)%nat -> (length l' <= 3)%nat -> l = l'.
Proof.
  intros H H' Hn Hn'. pose proof (proj2 (parse_paren_iff s l) (conj H Hn)).
  pose proof (proj2 (parse_paren_iff s l') (conj H' Hn')). congruence.
Qed.
(** the three cases of the rest *)
Inductive shift_case (s : string) : outcome (option vec3) -> Prop :=
| sc_short : short_list s -> shift_case s (Done None)
| sc_three a b c : paren_list s [a; b; c] -> shift_case s (Done (Some (origin_shift_new a b c)))
| sc_none : ~ short_list s -> (forall a b c, ~ paren_list s [a; b; c]) -> shift_case s (Done (Some (V3 0 0 0))).
Lemma parse_origin_shift_case s : shift_case s (parse_origin_shift s).
Proof.
  unfold parse_origin_shift. destruct (parse_paren s) as [l |] eqn:E.
  - apply parse_paren_iff in E. destruct E as [P Hn].
    destruct P as (bs & t & tail & E & L). pose proof (int_list_nonempty t l L).
    assert (paren_list s l) as P by (exists bs, t, tail; auto).
    destruct l as [| a [| b [| c [| d l]]]]; simpl in *; try lia.
    + constructor. exists [a]. auto.
    + constructor. exists [a; b]. auto.
    + constructor. assumption.
  - apply sc_none.
    + intros (l & P & Hn). assert (parse_paren s = Some l) by (apply parse_paren_iff; split; [assumption | lia]).
      congruence.
    + intros a b c P. assert (parse_paren s = Some [a; b; c]) by (apply parse_paren_iff; split; [assumption | simpl; lia]).
      congruence.
Qed.
Lemma parse_paren_space0 s : parse_paren (space0 s) = parse_paren s.
Proof. unfold parse_paren. now rewrite space0_idem. Qed.
Lemma parse_origin_shift_space0 s : parse_origin_shift (space0 s) = parse_origin_shift s.
Proof. unfold parse_origin_shift. now rewrite parse_paren_space0. Qed.
Lemma stored_component v : stored v (shift_component v).
Proof.
  unfold stored, shift_component, STBN.
  destruct (Z.leb_spec (- (12 - 1)) v), (Z.ltb_spec v 12); cbn [andb negb]; [left; lia | | | lia];
    right; (split; [lia |]);
    pose proof (Z.quot_rem' v 12) as Q.
  - pose proof (Z.rem_bound_pos v 12 ltac:(lia) ltac:(lia)). split; [lia |].
    exists (1 - Z.quot v 12)%Z. lia.
  - pose proof (Z.rem_bound_pos_neg v 12 ltac:(lia) ltac:(lia)). split; [lia |].
    exists (1 - Z.quot v 12)%Z. lia.
Qed.
Lemma stored_unique v w w' : stored v w -> stored v w' -> w = w'.
Proof. unfold stored. intros [H | (H & ? & k & ?)] [H' | (H' & ? & k' & ?)]; lia. Qed.

(** *** the defaults *)
Lemma nth_error_mapi {A B} (f : nat -> A -> B) l : forall i j,
  nth_error (mapi_from f i l) j = option_map (f (i + j)%nat) (nth_error l j).
Proof.
  induction l as [| x l IH]; intros i j; destruct j; simpl; try reflexivity.
  - now rewrite Nat.add_0_r.
  - rewrite IH. now rewrite Nat.add_succ_r.
Qed.
Lemma mapi_length {A B} (f : nat -> A -> B) l : forall i, length (mapi_from f i l) = length l.
Proof. induction l; intros; simpl; auto. Qed.
Lemma restore_defaulted l : defaulted l (restore l).
Proof.
  split; [apply mapi_length |]. intros i m Hi. unfold restore.
  rewrite nth_error_mapi, Hi. cbn [option_map].
  destruct i as [| [| [| i]]].
  - unfold direction_default, restore_one. destruct m as [mi f sub d a tr]; destruct a; reflexivity.
  - destruct l as [| m0 l]; [discriminate |]. unfold direction_default, restore_one.
    cbn [nth_error option_map map nth Nat.sub Nat.add Nat.eqb andb].
    destruct m as [mi f sub d a tr]. destruct f; try reflexivity.
    destruct (ms_fold m0); try reflexivity; destruct d; reflexivity.
  - unfold direction_default, restore_one. destruct m as [mi f sub d a tr]; destruct f; reflexivity.
  - unfold direction_default, restore_one. destruct m; reflexivity.
Qed.
Lemma nth_error_ext {A} (l l' : list A) : (forall i, nth_error l i = nth_error l' i) -> l = l'.
Proof.
  revert l'; induction l as [| x l IH]; intros [| y l'] H; auto.
  - specialize (H 0%nat). discriminate.
  - specialize (H 0%nat). discriminate.
  - pose proof (H 0%nat) as H0. injection H0 as ->. f_equal. apply IH. intros i. exact (H (S i)).
Qed.
Lemma defaulted_unique l l1 l2 : defaulted l l1 -> defaulted l l2 -> l1 = l2.
Proof.
  intros [N1 H1] [N2 H2]. apply nth_error_ext. intros i.
  destruct (nth_error l i) as [m |] eqn:E.
  - specialize (H1 i m E). specialize (H2 i m E). destruct (direction_default l i m). congruence.
  - apply nth_error_None in E.
    rewrite (proj2 (nth_error_None l1 i)), (proj2 (nth_error_None l2 i)); lia || reflexivity.
Qed.

(** *** the whole text *)
Definition hall_written (minus : bool) (lat : lattice) (ks : list chunk) (rest : string) : string :=
  sign minus ++ String (lattice_char lat) (chunks_text ks rest).
Lemma parse_lattice_text minus lat r :
  parse_lattice_symbol (sign minus ++ String (lattice_char lat) r) = POk (LS minus lat) r.
Proof. destruct minus, lat; reflexivity. Qed.
Lemma parse_lattice_inv s : 
  match parse_lattice_symbol s with
  | POk l r => s = sign (ls_minus l) ++ String (lattice_char (ls_char l)) r
  | PErr _ => forall minus lat r, s <> sign minus ++ String (lattice_char lat) r
  end.
Proof.
  destruct (parse_lattice_symbol s) as [l r | r] eqn:E.
  - revert E. unfold parse_lattice_symbol, literal.
    destruct (strip_prefix "-" s) as [q |] eqn:Es.
    + apply strip_prefix_iff in Es. subst s. unfold parse_symbol_char, one_of.
      destruct q as [| c q]; [discriminate |].
      destruct (char_in lattice_chars c) eqn:Ec; [| discriminate].
      apply char_in_iff in Ec. simpl in Ec.
      repeat (destruct Ec as [<- | Ec]; [intros H; injection H as <- <-; reflexivity |]). contradiction.
    + unfold parse_symbol_char, one_of. destruct s as [| c q]; [discriminate |].
      destruct (char_in lattice_chars c) eqn:Ec; [| discriminate].
      apply char_in_iff in Ec. simpl in Ec.
      repeat (destruct Ec as [<- | Ec]; [intros H; injection H as <- <-; reflexivity |]). contradiction.
  - intros minus lat q ->. rewrite parse_lattice_text in E. discriminate.
Qed.
Lemma lattice_prefix_unique m l r m' l' r' :
  sign m ++ String (lattice_char l) r = sign m' ++ String (lattice_char l') r' -> m = m' /\ l = l' /\ r = r'.
Proof.
  intros H. pose proof (parse_lattice_text m l r) as A. rewrite H, parse_lattice_text in A.
  injection A as -> -> ->. auto.
Qed.
Lemma try_from_str_written minus lat ks rest : chunked ks rest ->
  try_from_str (hall_written minus lat ks rest) =
    match parse_origin_shift rest with
    | Done None => Done None
    | Done (Some sh) => Done (Some (Hall (LS minus lat) (restore (map chunk_symbol ks)) sh))
    | Panic w => Panic w
    | OutOfFuel => OutOfFuel
    end.
Proof.
  intros C. unfold try_from_str, hall_written. rewrite parse_lattice_text.
  rewrite (parse_chunks ks rest C) by lia. cbn [obind]. rewrite parse_origin_shift_space0.
  destruct (parse_origin_shift rest) as [[sh |] | |]; reflexivity.
Qed.
(** a chunked text is read in one way only *)
Lemma chunked_unique ks rest : forall ks' rest', chunked ks rest -> chunked ks' rest' ->
  chunks_text ks rest = chunks_text ks' rest' ->
  map chunk_symbol ks = map chunk_symbol ks' /\ space0 rest = space0 rest'.
Proof.
  intros ks' rest' C C' E.
  pose proof (parse_chunks ks rest C _ (Nat.lt_succ_diag_r _)) as P.
  rewrite E, (parse_chunks ks' rest' C' _ (Nat.lt_succ_diag_r _)) in P. injection P as -> ->. auto.
Qed.

(** ** C01  Parsing is total *)
Theorem C01_total : forall s, exists r, try_from_str s = Done r.
Proof.
  intros s. pose proof (parse_lattice_inv s) as L.
  destruct (parse_lattice_symbol s) as [[m l] r | r] eqn:E.
  - destruct (chunks_exist r) as (ks & rest & -> & C). subst s.
    cbn [ls_minus ls_char]. fold (hall_written m l ks rest). rewrite try_from_str_written by assumption.
    destruct (parse_origin_shift_case rest); eauto.
  - exists None. unfold try_from_str. now rewrite E.
Qed.
(** reading a single matrix symbol never panics, and uses up input whenever it succeeds *)
Theorem C01_matrix_symbol_total : forall s,
  exists r, parse_hall_matrix_symbol s = Done r /\
    match r with
    | POk _ rest => exists t, t <> "" /\ s = t ++ rest
    | PErr _ => True
    end.
Proof.
  intros s. destruct (starts_symbol_dec s) as [H | H].
  - destruct (chunk_exists s H) as (k & r & -> & Hk & Hs). exists (POk (chunk_symbol k) r).
    split; [now apply parse_chunk |]. exists (chunk_text k). split; [| reflexivity].
    intros E. pose proof (chunk_text_length k Hk). rewrite E in *. simpl in *. lia.
  - exists (PErr (space0 s)). split; [now apply parse_no_symbol | exact I].
Qed.
(** the reading loop ends by itself: no larger step budget changes its result *)
Theorem C01_budget_irrelevant : forall s fuel, (String.length s < fuel)%nat ->
  parse_symbols fuel s = parse_symbols (S (String.length s)) s
  /\ exists r, parse_symbols fuel s = Done r.
Proof.
  intros s fuel H. destruct (chunks_exist s) as (ks & rest & -> & C).
  rewrite !(parse_chunks ks rest C) by (assumption || lia). eauto.
Qed.

(** ** C02  Exact acceptance condition *)
Theorem C02_accepted_iff : forall s,
  (exists h, try_from_str s = Done (Some h)) <->
  (exists minus lat ks rest, s = hall_written minus lat ks rest /\ chunked ks rest /\ ~ short_list rest).
Proof.
  intros s. split.
  - intros [h H]. pose proof (parse_lattice_inv s) as L.
    destruct (parse_lattice_symbol s) as [[m l] r | r] eqn:E.
    + destruct (chunks_exist r) as (ks & rest & -> & C). subst s.
      exists m, l, ks, rest. split; [reflexivity | split; [assumption |]].
      change (try_from_str (hall_written m l ks rest) = Done (Some h)) in H.
      rewrite try_from_str_written in H by assumption.
      destruct (parse_origin_shift_case rest) as [| a b c P | N _]; [discriminate | | assumption].
      intros (l' & P' & Hn). assert (l' = [a; b; c]) as -> by (eapply paren_unique; eauto; simpl; lia).
      simpl in Hn. lia.
    + unfold try_from_str in H. rewrite E in H. discriminate.
  - intros (m & l & ks & rest & -> & C & N). rewrite try_from_str_written by assumption.
    destruct (parse_origin_shift_case rest) as [S | a b c P | _ _]; [contradiction | eauto | eauto].
Qed.
Theorem C02_rejected_iff : forall s,
  try_from_str s = Done None <->
  (forall minus lat r, s <> sign minus ++ String (lattice_char lat) r) \/
  (exists minus lat ks rest, s = hall_written minus lat ks rest /\ chunked ks rest /\ short_list rest).
Proof.
  intros s. split.
  - intros H. pose proof (parse_lattice_inv s) as L.
    destruct (parse_lattice_symbol s) as [[m l] r | r] eqn:E; [right | left; assumption].
    destruct (chunks_exist r) as (ks & rest & -> & C). subst s.
    exists m, l, ks, rest. split; [reflexivity | split; [assumption |]].
    change (try_from_str (hall_written m l ks rest) = Done None) in H.
    rewrite try_from_str_written in H by assumption.
    destruct (parse_origin_shift_case rest); [assumption | discriminate | discriminate].
  - intros [N | (m & l & ks & rest & -> & C & S)].
    + pose proof (parse_lattice_inv s) as L. unfold try_from_str.
      destruct (parse_lattice_symbol s) as [[m l] r | r]; [| reflexivity].
      exfalso. exact (N _ _ _ L).
    + rewrite try_from_str_written by assumption.
      destruct (parse_origin_shift_case rest) as [_ | a b c P | N _]; [reflexivity | | contradiction].
      exfalso. destruct S as (l' & P' & Hn).
      assert (l' = [a; b; c]) as -> by (eapply paren_unique; eauto; simpl; lia). simpl in Hn. lia.
Qed.
(** whatever follows the lattice symbol, a text without an opening parenthesis is accepted *)
Fixpoint no_char (c : ascii) (s : string) : Prop :=
  match s with EmptyString => True | String a r => a <> c /\ no_char c r end.
Lemma no_char_app c a b : no_char c (a ++ b) -> no_char c b.
Proof. induction a; simpl; tauto. Qed.
Lemma no_char_chunks c ks rest : no_char c (chunks_text ks rest) -> no_char c rest.
Proof. induction ks; simpl; [tauto |]. intros H. apply IHks. eapply no_char_app; eauto. Qed.
Theorem C02_no_parenthesis_accepted : forall minus lat r, no_char "(" r ->
  exists h, try_from_str (sign minus ++ String (lattice_char lat) r) = Done (Some h).
Proof.
  intros m l r N. apply C02_accepted_iff. destruct (chunks_exist r) as (ks & rest & -> & C).
  exists m, l, ks, rest. split; [reflexivity | split; [assumption |]].
  apply no_char_chunks in N. intros (l' & (bs & t & tail & -> & _) & _).
  apply no_char_app in N. simpl in N. tauto.
Qed.
Example C02_cases :
  (exists h, try_from_str "P 2 rubbish )" = Done (Some h)) /\
  (exists h, try_from_str "-F 4 (1 2 3 4)" = Done (Some h)) /\
  try_from_str "P 2 (0 1)" = Done None /\ try_from_str "P 2 (7)x" = Done None /\
  try_from_str "p 2" = Done None /\ try_from_str "" = Done None /\
  (exists h, try_from_str "P 2 (0 01)" = Done (Some h)) /\
  (exists h, try_from_str "P 2 (2147483648 0)" = Done (Some h)).
Proof. repeat split; try (eexists; vm_compute; reflexivity); vm_compute; reflexivity. Qed.

(** ** C03  The written components are read *)
(** every text after the lattice symbol is a list of chunks and a rest *)
Theorem C03_every_text_has_a_reading : forall s, exists ks rest, s = chunks_text ks rest /\ chunked ks rest.
Proof. exact chunks_exist. Qed.
(** the shift of the result: three numbers in parentheses, each as stored; otherwise zero *)
Definition shift_result (rest : string) (sh : vec3) : Prop :=
  (exists a b c, paren_list rest [a; b; c] /\ stored a (vx sh) /\ stored b (vy sh) /\ stored c (vz sh)) \/
  ((forall a b c, ~ paren_list rest [a; b; c]) /\ sh = V3 0 0 0).
Theorem C03_written_symbol_is_read : forall minus lat ks rest, chunked ks rest -> ~ short_list rest ->
  exists h, try_from_str (hall_written minus lat ks rest) = Done (Some h) /\
    h_lat h = LS minus lat /\
    defaulted (map chunk_symbol ks) (h_syms h) /\
    shift_result rest (h_shift h).
Proof.
  intros m l ks rest C N. rewrite try_from_str_written by assumption.
  destruct (parse_origin_shift_case rest) as [S | a b c P | _ NP]; [contradiction | |].
  - eexists. split; [reflexivity |]. cbn [h_lat h_syms h_shift].
    split; [reflexivity | split; [apply restore_defaulted |]].
    left. exists a, b, c. split; [assumption |]. repeat split; apply stored_component.
  - eexists. split; [reflexivity |]. cbn [h_lat h_syms h_shift].
    split; [reflexivity | split; [apply restore_defaulted |]]. right. auto.
Qed.

(** *** numbers as Rust prints them *)
Lemma more_digits_snoc s n v d : (0 <= d <= 9)%Z -> more_digits s n v ->
  more_digits (s ++ String (digit d) "") n (10 * v + d).
Proof.
  intros Hd H. induction H; cbn [append].
  - constructor; [assumption | constructor].
  - constructor; assumption.
Qed.
Lemma digit_char_digit d : digit_char d = digit d.
Proof. unfold digit_char, digit. now rewrite Z.add_comm. Qed.
Lemma dec_digits_text fuel : forall n acc, (0 < n)%Z -> (n < 2 ^ Z.of_nat fuel)%Z ->
  exists d s, (1 <= d <= 9)%Z /\ dec_digits fuel n acc = String (digit d) s ++ acc /\ more_digits s d n.
Proof.
  induction fuel as [| f IH]; intros n acc Hn Hf.
  - simpl in Hf. lia.
  - cbn [dec_digits]. rewrite digit_char_digit.
    pose proof (Z.mod_pos_bound n 10 ltac:(lia)) as B. pose proof (Z.div_mod n 10 ltac:(lia)) as D.
    destruct (Z.eqb_spec (n / 10) 0) as [E | N].
    + exists n, "". assert (n mod 10 = n)%Z as -> by lia. split; [lia | split; [reflexivity |]]. constructor.
    + assert (0 < n / 10)%Z by (pose proof (Z.div_pos n 10); lia).
      destruct (IH (n / 10)%Z (String (digit (n mod 10)) acc)) as (d & s & Hd & E & M); [assumption | |].
      { rewrite Nat2Z.inj_succ, Z.pow_succ_r in Hf by lia. lia. }
      exists d, (s ++ String (digit (n mod 10)) ""). split; [assumption | split].
      * rewrite E. cbn [append]. rewrite app_assoc_s. reflexivity.
      * pose proof (more_digits_snoc s d (n / 10)%Z (n mod 10)%Z ltac:(lia) M) as M'.
        rewrite <- D in M'. exact M'.
Qed.
Lemma Z_text_literal z : in_i32 z = true -> int_literal (Z_text z) z.
Proof.
  unfold in_i32, i32_min, i32_max. intros H. unfold Z_text.
  assert (forall n, (0 < n)%Z -> (n < 2 ^ Z.of_nat (Z.to_nat (Z.log2 n) + 1))%Z) as F.
  { intros n Hn. rewrite Nat2Z.inj_add, Z2Nat.id by apply Z.log2_nonneg.
    apply Z.log2_spec. assumption. }
  destruct (Z.ltb_spec z 0).
  - destruct (dec_digits_text (Z.to_nat (Z.log2 (- z)) + 1) (- z) "") as (d & s & Hd & -> & M);
      [lia | apply F; lia |].
    rewrite app_nil_s. pose proof (il_minus d s (- z)%Z Hd M ltac:(lia)) as L.
    rewrite Z.opp_involutive in L. exact L.
  - destruct (Z.eq_dec z 0) as [-> | N]; [constructor |].
    destruct (dec_digits_text (Z.to_nat (Z.log2 z) + 1) z "") as (d & s & Hd & -> & M);
      [lia | apply F; lia |].
    rewrite app_nil_s. constructor; auto. lia.
Qed.

(** *** texts in the usual form *)
(** a chunk set off by blanks, with at most one mark *)
Definition plain (k : chunk) : Prop :=
  chunk_ok k /\ k_blanks k <> [] /\ k_stray k = false /\
  match k_pieces k with [] => True | [Mark _] => True | _ => False end.
Definition shift_written (sh : option (Z * Z * Z)) : string :=
  match sh with
  | None => ""
  | Some (a, b, c) => " (" ++ Z_text a ++ " " ++ Z_text b ++ " " ++ Z_text c ++ ")"
  end.
Definition in_range (sh : option (Z * Z * Z)) : Prop :=
  match sh with
  | None => True
  | Some (a, b, c) => in_i32 a = true /\ in_i32 b = true /\ in_i32 c = true
  end.
Definition blank_or_end (s : string) : Prop :=
  match s with EmptyString => True | String c _ => is_space c = true end.
Lemma stops_blank k s : blank_or_end s -> stops k s.
Proof.
  unfold stops. destruct s as [| c s]; simpl.
  - intros _. split; [tauto |]. intros _ _. destruct (k_stray k); tauto.
  - intros H. apply is_space_inv in H. destruct H as [[|] ->].
    + split; [intuition discriminate |]. intros _ _. destruct (k_stray k); intuition discriminate.
    + split; [intuition discriminate |]. intros _ _. destruct (k_stray k); intuition discriminate.
Qed.
Lemma chunk_text_blank k s : k_blanks k <> [] -> blank_or_end (chunk_text k ++ s).
Proof.
  intros H. rewrite chunk_text_app. destruct (k_blanks k) as [| b bs]; [congruence |].
  simpl. apply is_space_blank.
Qed.
Lemma plain_chunked ks rest :
  (forall k, In k ks -> chunk_ok k /\ k_blanks k <> []) -> blank_or_end rest -> ~ starts_symbol rest ->
  chunked ks rest.
Proof.
  intros H B N. assert (forall l, (forall k, In k l -> chunk_ok k /\ k_blanks k <> []) ->
     blank_or_end (chunks_text l rest)) as BB.
  { intros [| k l] Hl; [exact B |]. apply chunk_text_blank. apply Hl. now left. }
  induction ks as [| k ks IH]; [exact N |]. simpl. split; [apply H; now left | split].
  - apply stops_blank, BB. intros; apply H; now right.
  - apply IH. intros; apply H; now right.
Qed.
Lemma no_symbol_empty : ~ starts_symbol "".
Proof.
  intros (bs & m & f & r & Hf & E). destruct bs; [| discriminate].
  destruct m, f; try discriminate; congruence.
Qed.
Lemma no_symbol_paren bs r : ~ starts_symbol (chars blank_char bs (String "(" r)).
Proof.
  intros H. assert (parse_sign_fold (chars blank_char bs (String "(" r)) = PErr (String "(" r)) as E.
  { unfold parse_sign_fold. rewrite space0_chars, space0_no_blank by reflexivity. reflexivity. }
  apply parse_sign_fold_err in E. tauto.
Qed.
Lemma no_symbol_blanks bs : ~ starts_symbol (chars blank_char bs "").
Proof.
  intros H. assert (parse_sign_fold (chars blank_char bs "") = PErr "") as E.
  { unfold parse_sign_fold. rewrite space0_chars. reflexivity. }
  apply parse_sign_fold_err in E. tauto.
Qed.
Lemma paren_text bs a b c : in_range (Some (a, b, c)) ->
  paren_list (chars blank_char bs ("(" ++ Z_text a ++ " " ++ Z_text b ++ " " ++ Z_text c ++ ")")) [a; b; c].
Proof.
  intros (Ha & Hb & Hc).
  exists bs, (Z_text a ++ " " ++ Z_text b ++ " " ++ Z_text c), "". split.
  - unfold blanks. rewrite chars_app. f_equal. rewrite !app_assoc_s. reflexivity.
  - apply (in_more (Z_text a) a Space [] (Z_text b ++ " " ++ Z_text c) [b; c]); [now apply Z_text_literal |].
    apply (in_more (Z_text b) b Space [] (Z_text c) [c]); [now apply Z_text_literal |].
    constructor. now apply Z_text_literal.
Qed.
Lemma paren_char s l : paren_list s l -> ~ no_char "(" s.
Proof. intros (bs & t & tail & -> & _) H. apply no_char_app in H. simpl in H. tauto. Qed.
Lemma blanks_no_char bs : no_char "(" (chars blank_char bs "").
Proof. induction bs as [| [|] bs IH]; simpl; auto; (split; [discriminate | assumption]). Qed.
Theorem C03_usual_form_is_read : forall minus lat ks sh, Forall plain ks -> in_range sh ->
  exists h, try_from_str (hall_written minus lat ks (shift_written sh)) = Done (Some h) /\
    h_lat h = LS minus lat /\
    defaulted (map chunk_symbol ks) (h_syms h) /\
    match sh with
    | None => h_shift h = V3 0 0 0
    | Some (a, b, c) => stored a (vx (h_shift h)) /\ stored b (vy (h_shift h)) /\ stored c (vz (h_shift h))
    end.
Proof.
  intros minus lat ks sh Hk Hr. rewrite Forall_forall in Hk.
  assert (chunked ks (shift_written sh)) as C.
  { apply plain_chunked.
    - intros k H. apply Hk in H. unfold plain in H. tauto.
    - destruct sh as [[[a b] c] |]; [reflexivity | exact I].
    - destruct sh as [[[a b] c] |]; [apply (no_symbol_paren [Space]) | apply no_symbol_empty]. }
  destruct sh as [[[a b] c] |].
  - pose proof (paren_text [Space] a b c Hr) as P. fold (shift_written (Some (a, b, c))) in P.
    destruct (C03_written_symbol_is_read minus lat ks (shift_written (Some (a, b, c))) C) as (h & E & El & Es & Eh).
    { intros (l & P' & Hn). assert (l = [a; b; c]) as -> by (eapply paren_unique; eauto; simpl; lia). simpl in Hn. lia. }
    exists h. split; [assumption | split; [assumption | split; [assumption |]]].
    destruct Eh as [(a' & b' & c' & P' & H) | [N _]]; [| exfalso; eapply N; eauto].
    assert ([a'; b'; c'] = [a; b; c]) as EE by (eapply paren_unique; eauto; simpl; lia).
    injection EE as -> -> ->. exact H.
  - destruct (C03_written_symbol_is_read minus lat ks "" C) as (h & E & El & Es & Eh).
    { intros (l & P & _). apply paren_char in P. apply P. exact I. }
    exists h. split; [assumption | split; [assumption | split; [assumption |]]].
    destruct Eh as [(a' & b' & c' & P' & H) | [_ E']]; [| assumption].
    apply paren_char in P'. exfalso. apply P'. exact I.
Qed.
Example C03_case :
  Forall plain [Chunk [Space] true F4 [Mark MX] false SubNone [TU; TD];
                Chunk [Space; Tab] false F6 [] false Sub5 []] /\
  hall_written true LR
    [Chunk [Space] true F4 [Mark MX] false SubNone [TU; TD]; Chunk [Space] false F6 [] false Sub5 []]
    (shift_written (Some (-3, 0, 25)%Z)) = "-R -4xud 65 (-3 0 25)" /\
  try_from_str "-R -4xud 65 (-3 0 25)" =
    Done (Some (Hall (LS true LR)
      [MS true F4 SubNone DiagNone AxX (Some [TU; TD]); MS false F6 Sub5 DiagNone AxZ None]
      (V3 (-3) 0 13))).
Proof.
  split; [| split; vm_compute; reflexivity].
  repeat constructor; simpl; try discriminate; intuition discriminate.
Qed.
