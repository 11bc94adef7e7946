(** * PropRoundTrip: properties C04 and C05, default directions and Display round trip. *)
From Verif Require Import Base Notations Winnow Parser Seitz Rotations SpecText PropParser PropSeitz.
Local Notation length := List.length.
Open Scope string_scope.

(** ** C04  Default axis rules *)
(** every accepted text: sign, fold, subscript and letters are kept as written, and the
    direction of the symbol at index [i] is the one of the rules (see [direction_default]) *)
Theorem C04_directions : forall s h, try_from_str s = Done (Some h) ->
  exists minus lat ks rest, s = hall_written minus lat ks rest /\ chunked ks rest /\
    defaulted (map chunk_symbol ks) (h_syms h).
Proof.
  intros s h H. destruct (proj1 (C02_accepted_iff s)) as (m & l & ks & rest & -> & C & N); [eauto |].
  exists m, l, ks, rest. split; [reflexivity | split; [assumption |]].
  destruct (C03_written_symbol_is_read m l ks rest C N) as (h' & E & _ & D & _).
  rewrite H in E. injection E as <-. exact D.
Qed.
(** the three rules of the source comment, for symbols written without a direction mark *)
Definition unmarked (k : chunk) : Prop := k_pieces k = [] /\ k_stray k = false.
Theorem C04_omitted_directions : forall minus lat ks rest h,
  chunked ks rest -> try_from_str (hall_written minus lat ks rest) = Done (Some h) ->
  forall i k m, nth_error ks i = Some k -> unmarked k -> nth_error (h_syms h) i = Some m ->
  (ms_axis m, ms_diag m) =
    match i, k_fold k, option_map k_fold (nth_error ks 0) with
    | 1%nat, F2, Some F2 | 1%nat, F2, Some F4 => (AxX, DiagNone)       (* along a *)
    | 1%nat, F2, Some F3 | 1%nat, F2, Some F6 => (AxZ, SingleQuote)    (* along a-b *)
    | 2%nat, F3, _ => (AxZ, Asterisk)                                  (* along a+b+c *)
    | _, _, _ => (AxZ, DiagNone)                                       (* along c *)
    end.
Proof.
  intros minus lat ks rest h C H i k m Hi [Hp Hst] Hm.
  rewrite try_from_str_written in H by assumption.
  assert (h_syms h = restore (map chunk_symbol ks)) as Es.
  { destruct (parse_origin_shift rest) as [[sh |] | |]; try discriminate. now injection H as <-. }
  rewrite Es in Hm. destruct (restore_defaulted (map chunk_symbol ks)) as [_ D].
  assert (nth_error (map chunk_symbol ks) i = Some (chunk_symbol k)) as Hi' by (rewrite nth_error_map, Hi; reflexivity).
  specialize (D i _ Hi'). set (L := restore _) in *. clearbody L.
  unfold direction_default in D. rewrite nth_error_map in D.
  assert (forall x : option chunk, option_map ms_fold (option_map chunk_symbol x) = option_map k_fold x) as Ef
    by (intros [x |]; reflexivity).
  rewrite Ef in D. unfold chunk_symbol in D. rewrite Hp, Hst in D.
  cbn [mark_axis fst snd ms_fold ms_axis ms_diag ms_minus ms_sub ms_trs] in D.
  destruct i as [| [| [| i]]].
  - rewrite D in Hm. injection Hm as <-. reflexivity.
  - destruct (k_fold k); try (rewrite D in Hm; injection Hm as <-; reflexivity).
    destruct (option_map k_fold (nth_error ks 0)) as [[] |]; rewrite D in Hm; injection Hm as <-; reflexivity.
  - destruct (k_fold k); rewrite D in Hm; injection Hm as <-; reflexivity.
  - rewrite D in Hm. injection Hm as <-. reflexivity.
Qed.
(** a single direction mark x, y or z is kept, except on a second two-fold that follows 2, 4,
    3 or 6, where it is overwritten *)
Theorem C04_explicit_axis_kept : forall minus lat ks rest h,
  chunked ks rest -> try_from_str (hall_written minus lat ks rest) = Done (Some h) ->
  forall i k m a mk, nth_error ks i = Some k -> k_pieces k = [Mark mk] -> k_stray k = false ->
    nth_error (h_syms h) i = Some m ->
    (mk = MX /\ a = AxX \/ mk = MY /\ a = AxY \/ mk = MZ /\ a = AxZ) ->
  ms_axis m = a \/
  (i = 1%nat /\ k_fold k = F2 /\
   exists k0, nth_error ks 0 = Some k0 /\
     ((k_fold k0 = F2 \/ k_fold k0 = F4) /\ ms_axis m = AxX \/
      (k_fold k0 = F3 \/ k_fold k0 = F6) /\ ms_axis m = AxZ)).
Proof.
  intros minus lat ks rest h C H i k m a mk Hi Hp Hst Hm Ha.
  rewrite try_from_str_written in H by assumption.
  assert (h_syms h = restore (map chunk_symbol ks)) as Es.
  { destruct (parse_origin_shift rest) as [[sh |] | |]; try discriminate. now injection H as <-. }
  rewrite Es in Hm. destruct (restore_defaulted (map chunk_symbol ks)) as [_ D].
  assert (nth_error (map chunk_symbol ks) i = Some (chunk_symbol k)) as Hi' by (rewrite nth_error_map, Hi; reflexivity).
  specialize (D i _ Hi').
  assert (ms_axis (chunk_symbol k) = a) as Ea.
  { unfold chunk_symbol. rewrite Hp, Hst. destruct Ha as [[-> ->] | [[-> ->] | [-> ->]]]; reflexivity. }
  assert (a <> AxOmitted) as Na by (destruct Ha as [[_ ->] | [[_ ->] | [_ ->]]]; discriminate).
  unfold direction_default in D. rewrite Ea in D.
  destruct i as [| [| [| i]]].
  - left. rewrite D in Hm. injection Hm as <-. destruct a; first [reflexivity | congruence].
  - destruct (ms_fold (chunk_symbol k)) eqn:F; try (left; rewrite D in Hm; injection Hm as <-; reflexivity).
    rewrite nth_error_map in D. destruct (nth_error ks 0) as [k0 |] eqn:K0;
      [| left; rewrite D in Hm; injection Hm as <-; reflexivity].
    cbn [option_map] in D. change (ms_fold (chunk_symbol k0)) with (k_fold k0) in D.
    destruct (k_fold k0) eqn:F0; try (left; rewrite D in Hm; injection Hm as <-; reflexivity);
      right; (split; [reflexivity | split; [exact F |]]); exists k0; (split; [reflexivity |]);
      rewrite D in Hm; injection Hm as <-; cbn [ms_axis]; tauto.
  - left. rewrite D in Hm. injection Hm as <-. reflexivity.
  - left. rewrite D in Hm. injection Hm as <-. reflexivity.
Qed.
(** the overwriting really happens: "P 2 2y" is read as "P 2 2x" *)
Theorem C04_explicit_axis_refuted :
  try_from_str "P 2 2y" = try_from_str "P 2 2x" /\
  exists h m, try_from_str "P 2 2y" = Done (Some h) /\ nth_error (h_syms h) 1 = Some m /\ ms_axis m = AxX.
Proof.
  split; [vm_compute; reflexivity |]. eexists. eexists. split; [vm_compute; reflexivity |]. split; reflexivity.
Qed.
Example C04_cases :
  (exists h, try_from_str "P 4 2 3" = Done (Some h) /\
     map (fun m => (ms_axis m, ms_diag m)) (h_syms h) = [(AxZ, DiagNone); (AxX, DiagNone); (AxZ, Asterisk)]) /\
  (exists h, try_from_str "P 6 2" = Done (Some h) /\
     map (fun m => (ms_axis m, ms_diag m)) (h_syms h) = [(AxZ, DiagNone); (AxZ, SingleQuote)]).
Proof. split; (eexists; split; [vm_compute; reflexivity | reflexivity]). Qed.

(** ** C05  Display and parse *)
(** *** the chunk a symbol is printed as *)
Definition print_pieces (a : rot_axis) (d : nfold_diag) : list piece :=
  (match a with AxX => [Mark MX] | AxY => [Mark MY] | _ => [] end) ++
  (match d with
   | DiagNone => [] | SingleQuote => [Mark MQuote] | DoubleQuote => [Mark MDoubleQuote]
   | Asterisk => [Mark MStar]
   end).
Definition printed (m : msym) : chunk :=
  Chunk [Space] (ms_minus m) (ms_fold m) (print_pieces (ms_axis m) (ms_diag m)) false (ms_sub m)
    (match ms_trs m with Some l => l | None => [] end).
Definition good (m : msym) : Prop :=
  ms_fold m <> FInvalid /\ ms_trs m <> Some [] /\
  match ms_trs m with Some l => ~ In TInvalid l | None => True end.
Lemma printed_text m : good m -> chunk_text (printed m) = " " ++ msym_text m.
Proof.
  destruct m as [mi f sub d a tr]. intros (Hf & _ & Ht). unfold chunk_text, printed, msym_text.
  cbn [k_blanks k_minus k_fold k_pieces k_stray k_sub k_letters ms_minus ms_fold ms_sub ms_diag ms_axis ms_trs] in *.
  assert (chars letter_char (match tr with Some l => l | None => [] end) "" =
          match tr with Some ts => sconcat (map tsym_text ts) | None => "" end) as ->.
  { destruct tr as [l |]; [| reflexivity]. clear - Ht. induction l as [| t l IH]; [reflexivity |].
    simpl. rewrite IH by (intros H; apply Ht; now right).
    destruct t; try reflexivity. exfalso. apply Ht. now left. }
  cbn [blanks chars append]. f_equal.
  destruct mi, f, a, d; try congruence; reflexivity.
Qed.
Lemma printed_ok m : good m -> chunk_ok (printed m) /\ k_blanks (printed m) <> [].
Proof.
  intros (Hf & _ & Ht). repeat split; try assumption; try discriminate.
  unfold printed. cbn [k_letters]. destruct (ms_trs m); auto.
Qed.
Lemma printed_list l rest : (forall m, In m l -> good m) -> l <> [] ->
  " " ++ sjoin " " (map msym_text l) ++ rest = chunks_text (map printed l) rest.
Proof.
  intros H N. induction l as [| m l IH]; [congruence |].
  cbn [map chunks_text]. rewrite printed_text by (apply H; now left).
  destruct l as [| m' l].
  - cbn [map sjoin chunks_text]. now rewrite app_assoc_s.
  - rewrite <- IH; [| intros; apply H; now right | discriminate].
    cbn [map sjoin]. rewrite !app_assoc_s. reflexivity.
Qed.
Lemma hall_text_written h : (forall m, In m (h_syms h) -> good m) ->
  exists ks bs, (ks = map printed (h_syms h)) /\
    hall_text h = hall_written (ls_minus (h_lat h)) (ls_char (h_lat h)) ks
      (chars blank_char bs (if veqb (h_shift h) (V3 0 0 0) then "" else " " ++ shift_text (h_shift h))).
Proof.
  intros H. destruct (h_syms h) as [| m l] eqn:E.
  - exists [], [Space]. split; [reflexivity |]. unfold hall_text, hall_written, lattice_symbol_text, shift_eqb.
    rewrite E. change origin_shift_default with (V3 0 0 0). cbn [map sjoin chunks_text chars append].
    rewrite app_assoc_s. destruct (ls_minus (h_lat h)), (ls_char (h_lat h)), (veqb (h_shift h) (V3 0 0 0)); reflexivity.
  - exists (map printed (m :: l)), []. split; [reflexivity |].
    unfold hall_text, hall_written, lattice_symbol_text, shift_eqb. rewrite E.
    cbn [chars]. rewrite <- printed_list; [| assumption | discriminate].
    change origin_shift_default with (V3 0 0 0).
    rewrite app_assoc_s. destruct (ls_minus (h_lat h)), (ls_char (h_lat h)), (veqb (h_shift h) (V3 0 0 0)); reflexivity.
Qed.
(** what reading a printed symbol gives, before the defaults *)
Definition reread (m : msym) : msym := chunk_symbol (printed m).
Lemma shift_small a b c : in_range (Some (vx (origin_shift_new a b c), vy (origin_shift_new a b c), vz (origin_shift_new a b c))).
Proof.
  pose proof (C10_shift_range a b c) as R. unfold Spec.vbetween in R.
  unfold in_range, in_i32, i32_min, i32_max. lia.
Qed.
Definition shift_stored (v : vec3) : Prop := exists a b c, v = origin_shift_new a b c.
Lemma veqb_refl v : veqb v v = true.
Proof. unfold veqb. now rewrite !Z.eqb_refl. Qed.
Lemma veqb_eq v w : veqb v w = true -> v = w.
Proof.
  unfold veqb. rewrite !andb_true_iff, !Z.eqb_eq. destruct v, w; simpl. intros [[-> ->] ->]. reflexivity.
Qed.
Lemma chars_space bs r : chars blank_char bs (" " ++ r) = chars blank_char (bs ++ [Space])%list r.
Proof. induction bs as [| b bs IH]; [reflexivity |]. cbn [chars List.app]. now rewrite IH. Qed.
Lemma reparse h : (forall m, In m (h_syms h) -> good m) -> shift_stored (h_shift h) ->
  try_from_str (hall_text h) = Done (Some (Hall (h_lat h) (restore (map reread (h_syms h))) (h_shift h))).
Proof.
  intros G (a & b & c & S). destruct (hall_text_written h G) as (ks & bs & Ek & ->).
  set (rest := chars blank_char bs _).
  assert (chunked ks rest) as C.
  { subst ks. apply plain_chunked.
    - intros k Hk. apply in_map_iff in Hk. destruct Hk as (m & <- & Hm). apply printed_ok. auto.
    - unfold rest. destruct bs as [| b0 bs]; [| simpl; apply is_space_blank].
      destruct (veqb _ _); [exact I | reflexivity].
    - unfold rest. destruct (veqb _ _); [apply no_symbol_blanks |].
      rewrite chars_space.
      apply no_symbol_paren. }
  rewrite try_from_str_written by assumption.
  assert (parse_origin_shift rest = Done (Some (h_shift h))) as ->.
  { destruct (parse_origin_shift_case rest) as [(l & P & Hn) | x y z P | N1 N2]; unfold rest in *;
      destruct (veqb (h_shift h) (V3 0 0 0)) eqn:V.
    - exfalso. apply paren_char in P. apply P, blanks_no_char.
    - exfalso.
      assert (paren_list (chars blank_char bs (" " ++ shift_text (h_shift h)))
                [vx (h_shift h); vy (h_shift h); vz (h_shift h)]) as P'.
      { rewrite chars_space.
        unfold shift_text. apply paren_text. rewrite S. apply shift_small. }
      pose proof (paren_unique _ _ _ P P' ltac:(lia) ltac:(simpl; lia)) as ->. simpl in Hn. lia.
    - exfalso. apply paren_char in P. apply P, blanks_no_char.
    - assert (paren_list (chars blank_char bs (" " ++ shift_text (h_shift h)))
                [vx (h_shift h); vy (h_shift h); vz (h_shift h)]) as P'.
      { rewrite chars_space.
        unfold shift_text. apply paren_text. rewrite S. apply shift_small. }
      pose proof (paren_unique _ _ _ P P' ltac:(simpl; lia) ltac:(simpl; lia)) as E.
      injection E as -> -> ->. rewrite S. do 2 f_equal. apply C10_shift_idempotent.
    - apply veqb_eq in V. now rewrite V.
    - exfalso. eapply N2.
      rewrite chars_space.
      unfold shift_text. apply paren_text. rewrite S. apply shift_small. }
  subst ks. rewrite map_map. destruct (h_lat h); reflexivity.
Qed.

(** *** what a parsed symbol looks like *)
Lemma parsed_shape s h : try_from_str s = Done (Some h) ->
  shift_stored (h_shift h) /\
  exists ks, h_syms h = restore (map chunk_symbol ks) /\ (forall k, In k ks -> chunk_ok k).
Proof.
  intros H. destruct (proj1 (C02_accepted_iff s)) as (m & l & ks & rest & -> & C & N); [eauto |].
  rewrite try_from_str_written in H by assumption.
  assert (forall k, In k ks -> chunk_ok k) as K.
  { clear - C. induction ks as [| k ks IH]; [contradiction |]. destruct C as (Hk & _ & C).
    intros k' [<- | H]; auto. }
  destruct (parse_origin_shift_case rest) as [S | a b c P | _ _]; [discriminate | |];
    injection H as <-; cbn [h_shift h_syms]; (split; [| exists ks; auto]).
  - exists a, b, c. reflexivity.
  - exists 0%Z, 0%Z, 0%Z. reflexivity.
Qed.
Lemma chunk_symbol_good k : chunk_ok k -> good (chunk_symbol k).
Proof.
  intros [Hf Hl]. unfold good, chunk_symbol; cbn [ms_fold ms_trs]. split; [assumption |].
  destruct (k_letters k); split; try discriminate; auto.
Qed.
(** same sign, fold, subscript and letters *)
Definition same_body (m m' : msym) : Prop :=
  ms_minus m' = ms_minus m /\ ms_fold m' = ms_fold m /\ ms_sub m' = ms_sub m /\ ms_trs m' = ms_trs m.
Lemma defaulted_body l l' : defaulted l l' -> forall i m', nth_error l' i = Some m' ->
  exists m, nth_error l i = Some m /\ same_body m m'.
Proof.
  intros [N D] i m' H. destruct (nth_error l i) as [m |] eqn:E.
  - exists m. split; [reflexivity |]. specialize (D i m E). destruct (direction_default l i m) as [a d].
    rewrite D in H. injection H as <-. repeat split.
  - exfalso. apply nth_error_None in E. assert (nth_error l' i <> None) as X by congruence.
    apply nth_error_Some in X. lia.
Qed.
Lemma good_body m m' : same_body m m' -> good m -> good m'.
Proof. intros (_ & Ef & _ & Et) (H1 & H2 & H3). unfold good. rewrite Ef, Et. auto. Qed.
Lemma parsed_good s h : try_from_str s = Done (Some h) -> forall m, In m (h_syms h) -> good m.
Proof.
  intros H m Hm. destruct (parsed_shape s h H) as (_ & ks & Es & K). rewrite Es in Hm.
  apply In_nth_error in Hm. destruct Hm as [i Hi].
  destruct (defaulted_body _ _ (restore_defaulted _) i m Hi) as (m0 & H0 & B).
  eapply good_body; [exact B |]. rewrite nth_error_map in H0.
  destruct (nth_error ks i) as [k |] eqn:Ek; [| discriminate]. injection H0 as <-.
  apply chunk_symbol_good, K. eapply nth_error_In; eauto.
Qed.
Lemma reread_body m : good m -> same_body m (reread m).
Proof.
  intros (_ & H & _). unfold same_body, reread, chunk_symbol, printed.
  cbn [ms_minus ms_fold ms_sub ms_trs k_minus k_fold k_sub k_letters]. repeat split.
  destruct (ms_trs m) as [[| t l] |]; congruence.
Qed.

(** *** round trip *)
(** symbols whose printed text loses part of their direction *)
Definition lossy (i : nat) (m : msym) : Prop :=
  ((ms_axis m = AxX \/ ms_axis m = AxY) /\ ms_diag m <> DiagNone) \/
  (i = 2%nat /\ ms_fold m = F3 /\ ms_axis m = AxZ).
Lemma reread_msym mi f sub d a tr : tr <> Some [] ->
  reread (MS mi f sub d a tr) =
    MS mi f sub (snd (mark_axis (print_pieces a d) false)) (fst (mark_axis (print_pieces a d) false)) tr.
Proof.
  intros H. unfold reread, chunk_symbol, printed.
  cbn [k_minus k_fold k_pieces k_stray k_sub k_letters ms_minus ms_fold ms_sub ms_diag ms_axis ms_trs].
  f_equal. destruct tr as [[| t l] |]; congruence.
Qed.
(** directions a chunk can spell *)
Definition raw_direction (m : msym) : Prop :=
  (ms_diag m = DiagNone /\ ms_axis m <> AxOmitted) \/ (ms_diag m <> DiagNone /\ ms_axis m = AxOmitted).
Lemma chunk_raw k : raw_direction (chunk_symbol k).
Proof.
  unfold raw_direction, chunk_symbol. cbn [ms_diag ms_axis].
  destruct (k_pieces k) as [| [[] | e] [| q ps]], (k_stray k); cbn [mark_axis fst snd];
    first [left; split; [reflexivity | discriminate] | right; split; [discriminate | reflexivity]].
Qed.
(** the symbol at one index, written, read, printed and read again *)
Lemma restore_nth l i m : nth_error l i = Some m ->
  nth_error (restore l) i =
    Some (let (a, d) := direction_default l i m in MS (ms_minus m) (ms_fold m) (ms_sub m) d a (ms_trs m)).
Proof.
  intros H. destruct (restore_defaulted l) as [_ D]. specialize (D i m H).
  destruct (direction_default l i m). exact D.
Qed.
Definition dirs (l : list msym) (i : nat) (m : msym) : msym :=
  let (a, d) := direction_default l i m in MS (ms_minus m) (ms_fold m) (ms_sub m) d a (ms_trs m).
Lemma direction_default_folds l l' i m m' : map ms_fold l = map ms_fold l' ->
  ms_fold m = ms_fold m' -> ms_axis m = ms_axis m' -> ms_diag m = ms_diag m' ->
  direction_default l i m = direction_default l' i m'.
Proof.
  intros E Ef Ea Ed. unfold direction_default. rewrite Ef, Ea, Ed.
  assert (option_map ms_fold (nth_error l 0) = option_map ms_fold (nth_error l' 0)) as ->.
  { rewrite <- !nth_error_map. now rewrite E. }
  reflexivity.
Qed.
Lemma dirs_reread_iff l l' i m : map ms_fold l' = map ms_fold l -> ms_trs m <> Some [] -> raw_direction m ->
  nth_error l i = Some m ->
  let m1 := dirs l i m in
  dirs l' i (reread m1) = m1 <-> ~ lossy i m1.
Proof.
  intros E Ht R Hi. cbv zeta.
  assert (dirs l' i (reread (dirs l i m)) = dirs l i (reread (dirs l i m))) as ->.
  { unfold dirs at 1. rewrite (direction_default_folds l' l i _ (reread (dirs l i m)) E eq_refl eq_refl eq_refl).
    reflexivity. }
  destruct m as [mi f sub d a tr]. cbn [ms_trs] in Ht. unfold raw_direction in R. cbn [ms_axis ms_diag] in R.
  unfold dirs, direction_default. cbn [ms_fold ms_axis ms_diag ms_minus ms_sub ms_trs].
  destruct i as [| [| [| i]]].
  - assert (forall x, match a with AxOmitted => AxZ | y => y end = x -> 
      (d = DiagNone \/ x = AxZ)) as Hx by (intros x <-; destruct a, d; intuition congruence).
    destruct a, d; rewrite reread_msym by assumption;
      cbn [print_pieces List.app mark_axis fst snd ms_minus ms_fold ms_sub ms_diag ms_axis ms_trs];
      unfold lossy; cbn [ms_axis ms_diag ms_fold]; intuition congruence.
  - destruct f; try (destruct a, d; rewrite reread_msym by assumption;
      cbn [print_pieces List.app mark_axis fst snd ms_minus ms_fold ms_sub ms_diag ms_axis ms_trs];
      unfold lossy; cbn [ms_axis ms_diag ms_fold]; intuition congruence).
    destruct (option_map ms_fold (nth_error l 0)) as [[] |];
      destruct a, d; rewrite reread_msym by assumption;
      cbn [print_pieces List.app mark_axis fst snd ms_minus ms_fold ms_sub ms_diag ms_axis ms_trs];
      unfold lossy; cbn [ms_axis ms_diag ms_fold]; intuition congruence.
  - destruct f, a, d; rewrite reread_msym by assumption;
      cbn [print_pieces List.app mark_axis fst snd ms_minus ms_fold ms_sub ms_diag ms_axis ms_trs];
      unfold lossy; cbn [ms_axis ms_diag ms_fold]; intuition congruence.
  - destruct a, d; rewrite reread_msym by assumption;
      cbn [print_pieces List.app mark_axis fst snd ms_minus ms_fold ms_sub ms_diag ms_axis ms_trs];
      unfold lossy; cbn [ms_axis ms_diag ms_fold]; intuition congruence.
Qed.
Lemma restore_folds l : map ms_fold (restore l) = map ms_fold l.
Proof.
  apply nth_error_ext. intros i. rewrite !nth_error_map.
  destruct (nth_error l i) as [m |] eqn:E.
  - rewrite (restore_nth l i m E). destruct (direction_default l i m). reflexivity.
  - apply nth_error_None in E. rewrite (proj2 (nth_error_None _ i)); [reflexivity |].
    destruct (restore_defaulted l) as [N _]. lia.
Qed.
Lemma reread_folds l : map ms_fold (map reread l) = map ms_fold l.
Proof. rewrite map_map. apply map_ext. intros; reflexivity. Qed.
(** printing and reading back gives the same symbol exactly when no symbol is lossy *)
Theorem C05_round_trip_iff : forall s h, try_from_str s = Done (Some h) ->
  (try_from_str (hall_text h) = Done (Some h) <->
   forall i m, nth_error (h_syms h) i = Some m -> ~ lossy i m).
Proof.
  intros s h H. rewrite reparse; [| eapply parsed_good; eauto | apply (parsed_shape s h H)].
  destruct (parsed_shape s h H) as (_ & ks & Es & K).
  set (raws := map chunk_symbol ks) in *.
  assert (forall i m, nth_error raws i = Some m -> ms_trs m <> Some [] /\ raw_direction m) as R.
  { intros i m Hi. unfold raws in Hi. rewrite nth_error_map in Hi.
    destruct (nth_error ks i) as [k |] eqn:Ek; [| discriminate]. injection Hi as <-.
    split; [apply (chunk_symbol_good k), K; eapply nth_error_In; eauto | apply chunk_raw]. }
  assert (map ms_fold (map reread (h_syms h)) = map ms_fold raws) as EF
    by (rewrite reread_folds, Es; apply restore_folds).
  assert (forall i m, nth_error raws i = Some m ->
     nth_error (restore (map reread (h_syms h))) i =
       Some (dirs (map reread (h_syms h)) i (reread (dirs raws i m)))) as Q.
  { intros i m Hi. apply restore_nth. rewrite nth_error_map, Es, (restore_nth raws i m Hi). reflexivity. }
  split.
  - intros E i m1 Hi. injection E as E.
    assert (restore (map reread (h_syms h)) = h_syms h) as E' by (now rewrite <- E at 2).
    destruct (nth_error raws i) as [m |] eqn:Em.
    + assert (m1 = dirs raws i m) as ->.
      { rewrite Es, (restore_nth raws i m Em) in Hi. now injection Hi as <-. }
      apply (proj1 (dirs_reread_iff raws (map reread (h_syms h)) i m EF (proj1 (R i m Em)) (proj2 (R i m Em)) Em)).
      specialize (Q i m Em). rewrite E', Hi in Q. now injection Q as <-.
    + exfalso. apply nth_error_None in Em. destruct (restore_defaulted raws) as [N _].
      assert (nth_error (h_syms h) i <> None) as X by congruence. apply nth_error_Some in X.
      rewrite Es in X. lia.
  - intros L. do 2 f_equal. destruct h as [lat syms sh]. cbn [h_lat h_syms h_shift] in *. f_equal.
    apply nth_error_ext. intros i. destruct (nth_error raws i) as [m |] eqn:Em.
    + rewrite (Q i m Em). rewrite Es at 2. rewrite (restore_nth raws i m Em). f_equal.
      apply (dirs_reread_iff raws (map reread syms) i m EF (proj1 (R i m Em)) (proj2 (R i m Em)) Em).
      apply L. rewrite Es. apply (restore_nth raws i m Em).
    + apply nth_error_None in Em. destruct (restore_defaulted raws) as [N _].
      destruct (restore_defaulted (map reread syms)) as [N' _]. rewrite map_length in N'.
      rewrite !(proj2 (nth_error_None _ i)); [reflexivity | |]; rewrite ?N', ?Es; lia.
Qed.
(** in every case the printed text is accepted and gives the same lattice symbol, the same
    shift, and symbol by symbol the same sign, fold, subscript and letters *)
Theorem C05_always_kept : forall s h, try_from_str s = Done (Some h) ->
  exists h', try_from_str (hall_text h) = Done (Some h') /\
    h_lat h' = h_lat h /\ h_shift h' = h_shift h /\
    length (h_syms h') = length (h_syms h) /\
    forall i m m', nth_error (h_syms h) i = Some m -> nth_error (h_syms h') i = Some m' -> same_body m m'.
Proof.
  intros s h H. eexists. split; [apply reparse; [eapply parsed_good; eauto | apply (parsed_shape s h H)] |].
  cbn [h_lat h_syms h_shift]. destruct (restore_defaulted (map reread (h_syms h))) as [N _].
  rewrite map_length in N. repeat split; auto;
  rename H0 into Hm; rename H1 into Hm';
    destruct (defaulted_body _ _ (restore_defaulted (map reread (h_syms h))) i m' Hm') as (m0 & H0 & B);
    rewrite nth_error_map, Hm in H0; injection H0 as <-;
    pose proof (reread_body m (parsed_good s h H m (nth_error_In _ _ Hm))) as B';
    unfold same_body in *; intuition congruence.
Qed.
(** the losses are real *)
Theorem C05_round_trip_refuted :
  (exists h h', try_from_str "P 4 2'" = Done (Some h) /\ hall_text h = "P 4 2x'" /\
     try_from_str "P 4 2x'" = Done (Some h') /\ map seitz_matrix (h_syms h') <> map seitz_matrix (h_syms h)) /\
  (exists h h', try_from_str "P 2 2 31" = Done (Some h) /\ hall_text h = "P 2 2x 3*1" /\
     (forall m, In m (h_syms h) -> seitz_matrix m <> None) /\
     try_from_str "P 2 2x 3*1" = Done (Some h') /\ exists m, In m (h_syms h') /\ seitz_matrix m = None).
Proof.
  split.
  - do 2 eexists. split; [vm_compute; reflexivity |]. split; [vm_compute; reflexivity |].
    split; [vm_compute; reflexivity |]. vm_compute. discriminate.
  - do 2 eexists. split; [vm_compute; reflexivity |]. split; [vm_compute; reflexivity |]. split.
    + intros m [<- | [<- | [<- | []]]]; vm_compute; discriminate.
    + split; [vm_compute; reflexivity |]. eexists. split; [right; right; left; reflexivity |]. reflexivity.
Qed.
Example C05_case : exists h, try_from_str "-I 41bd 2c 3" = Done (Some h) /\
  hall_text h = "-I 41bd 2xc 3*" /\ 
  exists h', try_from_str (hall_text h) = Done (Some h') /\ map seitz_matrix (h_syms h') = map seitz_matrix (h_syms h).
Proof.
  eexists. split; [vm_compute; reflexivity |]. split; [vm_compute; reflexivity |].
  eexists. split; vm_compute; reflexivity.
Qed.
Example C05_case_exact : exists h, try_from_str "-R 3 2""c (1 -2 30)" = Done (Some h) /\
  hall_text h = "-R 3 2""c (1 -2 18)" /\ try_from_str "-R 3 2""c (1 -2 18)" = Done (Some h).
Proof.
  eexists. split; [vm_compute; reflexivity |]. split; [vm_compute; reflexivity |].
  vm_compute; reflexivity.
Qed.
(** a symbol whose direction is the body diagonal, without a subscript *)
Definition plain_star (m : msym) : Prop := ms_fold m = F3 /\ ms_diag m = Asterisk /\ ms_sub m = SubNone.
Lemma dirs_reread_star l l' i m : map ms_fold l' = map ms_fold l -> ms_trs m <> Some [] -> raw_direction m ->
  lossy i (dirs l i m) -> plain_star (dirs l i m) ->
  seitz_matrix (dirs l' i (reread (dirs l i m))) = seitz_matrix (dirs l i m).
Proof.
  intros E Ht R L P.
  assert (dirs l' i (reread (dirs l i m)) = dirs l i (reread (dirs l i m))) as ->.
  { unfold dirs at 1. rewrite (direction_default_folds l' l i _ (reread (dirs l i m)) E eq_refl eq_refl eq_refl).
    reflexivity. }
  destruct m as [mi f sub d a tr]. cbn [ms_trs] in Ht. unfold raw_direction in R. cbn [ms_axis ms_diag] in R.
  unfold dirs, direction_default, plain_star, lossy in *. cbn [ms_fold ms_axis ms_diag ms_minus ms_sub ms_trs] in *.
  destruct i as [| [| [| i]]]; cbn [ms_fold ms_axis ms_diag ms_minus ms_sub ms_trs] in *.
  - exfalso. destruct P as (-> & -> & ->), a; intuition (try discriminate; try congruence).
  - exfalso. assert (f = F3) as ->.
    { destruct f; cbn [ms_fold] in P; try (destruct P; congruence).
      destruct (option_map ms_fold (nth_error l 0)) as [[] |]; destruct P; discriminate. }
    cbn [ms_fold ms_axis ms_diag ms_minus ms_sub ms_trs] in *.
    destruct P as (_ & -> & ->), a; intuition (try discriminate; try congruence).
  - destruct P as (-> & _ & ->). rewrite reread_msym by assumption.
    cbn [ms_fold ms_axis ms_diag ms_minus ms_sub ms_trs].
    unfold seitz_matrix, get_rotation_matrix, set_transform, set_translation_from_symbols.
    cbn [ms_fold ms_axis ms_diag ms_minus ms_sub ms_trs]. reflexivity.
  - exfalso. destruct P as (-> & -> & ->), a; intuition (try discriminate; try congruence).
Qed.
(** if only such symbols are lossy, the re-read symbol denotes the same operations *)
Theorem C05_same_operations : forall s h, try_from_str s = Done (Some h) ->
  (forall i m, nth_error (h_syms h) i = Some m -> lossy i m -> plain_star m) ->
  exists h', try_from_str (hall_text h) = Done (Some h') /\
    h_lat h' = h_lat h /\ h_shift h' = h_shift h /\
    map seitz_matrix (h_syms h') = map seitz_matrix (h_syms h).
Proof.
  intros s h H L. eexists. split; [apply reparse; [eapply parsed_good; eauto | apply (parsed_shape s h H)] |].
  cbn [h_lat h_syms h_shift]. split; [reflexivity | split; [reflexivity |]].
  destruct (parsed_shape s h H) as (_ & ks & Es & K).
  set (raws := map chunk_symbol ks) in *.
  assert (forall i m, nth_error raws i = Some m -> ms_trs m <> Some [] /\ raw_direction m) as R.
  { intros i m Hi. unfold raws in Hi. rewrite nth_error_map in Hi.
    destruct (nth_error ks i) as [k |] eqn:Ek; [| discriminate]. injection Hi as <-.
    split; [apply (chunk_symbol_good k), K; eapply nth_error_In; eauto | apply chunk_raw]. }
  assert (map ms_fold (map reread (h_syms h)) = map ms_fold raws) as EF
    by (rewrite reread_folds, Es; apply restore_folds).
  assert (forall i m, nth_error raws i = Some m ->
     nth_error (restore (map reread (h_syms h))) i =
       Some (dirs (map reread (h_syms h)) i (reread (dirs raws i m)))) as Q.
  { intros i m Hi. apply restore_nth. rewrite nth_error_map, Es, (restore_nth raws i m Hi). reflexivity. }
  apply nth_error_ext. intros i. rewrite !nth_error_map. destruct (nth_error raws i) as [m |] eqn:Em.
  - rewrite (Q i m Em). pose proof (restore_nth raws i m Em) as Hi. fold (dirs raws i m) in Hi.
    rewrite Es. rewrite Hi. cbn [option_map]. f_equal. rewrite <- Es.
    destruct (R i m Em) as [Ht Hr].
    assert (lossy i (dirs raws i m) \/ ~ lossy i (dirs raws i m)) as [Y | N].
    { unfold lossy. destruct (ms_axis (dirs raws i m)), (ms_diag (dirs raws i m)), (ms_fold (dirs raws i m)),
        (Nat.eq_dec i 2); first [left; intuition congruence | right; intuition congruence]. }
    + apply dirs_reread_star; auto. apply L with i; [| assumption]. now rewrite Es.
    + f_equal. apply (dirs_reread_iff raws _ i m EF Ht Hr Em). exact N.
  - apply nth_error_None in Em. destruct (restore_defaulted raws) as [N _].
    destruct (restore_defaulted (map reread (h_syms h))) as [N' _]. rewrite map_length in N'.
    rewrite !(proj2 (nth_error_None _ i)); [reflexivity | |]; rewrite ?N', ?Es; lia.
Qed.
