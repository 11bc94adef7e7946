(** * PropPretty: property C103: the multi-line [Debug] texts. *)
From Verif Require Import Base Notations Winnow Parser Seitz F64 Jones Rotations Tables Generate Positions Display Messages DebugText PrettyText
  Spec SpecText SpecHall SpecDebug SpecPretty Algebra PropListing PropDisplay PropMessages PropDebug.
Open Scope string_scope.
Local Notation length := List.length.

(** ** Removing the layout, piece by piece *)
Definition keep (c : ascii) (z : string) : string :=
  if blank c then z else if Ascii.eqb c "," && closing z then z else String c z.
(** the text [a], without layout, before [z] *)
Fixpoint before (a z : string) : string := match a with EmptyString => z | String c r => keep c (before r z) end.
Lemma without_before s : without_layout s = before s "".
Proof. induction s as [| c s IH]; [reflexivity |]. cbn [without_layout before]. rewrite IH. reflexivity. Qed.
Lemma before_app a b z : before (a ++ b) z = before a (before b z).
Proof. induction a as [| c a IH]; [reflexivity |]. cbn [append before]. now rewrite IH. Qed.
Lemma before_spaces n z : before (spaces n) z = z.
Proof. induction n as [| n IH]; [reflexivity |]. cbn [spaces before]. rewrite IH. reflexivity. Qed.
Lemma before_new_line n z : before (new_line n) z = z.
Proof. unfold new_line. rewrite before_app, before_spaces. reflexivity. Qed.

Section Induction.
  Variable P : dtree -> Prop.
  Hypothesis leaf : forall s, P (DLeaf s).
  Hypothesis node : forall k name items, (forall f v, In (f, v) items -> P v) -> P (DNode k name items).
  Fixpoint dtree_all (t : dtree) : P t :=
    match t with
    | DLeaf s => leaf s
    | DNode k name items => node k name items
        ((fix go (l : list (string * dtree)) : forall f v, In (f, v) l -> P v :=
           match l with
           | [] => fun f v H => match H with end
           | x :: r => fun f v H =>
               match H with
               | or_introl E => eq_ind (snd x) P (dtree_all (snd x)) v (f_equal snd E)
               | or_intror H' => go r f v H'
               end
           end) items)
    end.
End Induction.

(** the fields, in one line and in many *)
Definition line_field (k : dkind) (x : string * dtree) : string := match x with (f, v) => dlabel k f ++ plain v end.
Definition own_line (k : dkind) (level : nat) (x : string * dtree) : string :=
  match x with (f, v) => new_line (S level) ++ dlabel k f ++ pretty (S level) v ++ "," end.
Lemma plain_node k name x r : plain (DNode k name (x :: r)) =
  match k with
  | DStruct => name ++ " { " ++ sjoin ", " (map (line_field k) (x :: r)) ++ " }"
  | DTuple => name ++ "(" ++ sjoin ", " (map (line_field k) (x :: r)) ++ ")"
  | DList => "[" ++ sjoin ", " (map (line_field k) (x :: r)) ++ "]"
  end.
Proof. reflexivity. Qed.
Lemma pretty_node level k name x r : pretty level (DNode k name (x :: r)) =
  match k with
  | DStruct => name ++ " {" ++ (sconcat (map (own_line k level) (x :: r)) ++ new_line level) ++ "}"
  | DTuple => name ++ "(" ++ (sconcat (map (own_line k level) (x :: r)) ++ new_line level) ++ ")"
  | DList => "[" ++ (sconcat (map (own_line k level) (x :: r)) ++ new_line level) ++ "]"
  end.
Proof. reflexivity. Qed.
Lemma fields_alike k level items : (forall f v, In (f, v) items -> forall n z, before (pretty n v) z = before (plain v) z) ->
  forall z, closing z = true -> items <> [] ->
  before (sconcat (map (own_line k level) items)) z = before (sjoin ", " (map (line_field k) items)) z.
Proof.
  intros H z Cz. induction items as [| (f, v) items IH]; [congruence |]. intros _.
  assert (One : forall w, before (own_line k level (f, v)) w = before (line_field k (f, v)) (keep "," w)).
  { intros w. unfold own_line, line_field. rewrite !before_app, before_new_line. f_equal. rewrite (H f v (or_introl eq_refl)). reflexivity. }
  destruct items as [| y items].
  - cbn [map sconcat fold_right sjoin]. cbn [map]. unfold sconcat. cbn [fold_right]. rewrite before_app. cbn [before]. rewrite One.
    unfold keep. cbn [blank orb]. change (blank ",") with false. cbv iota. rewrite Cz. reflexivity.
  - change (sconcat (map (own_line k level) ((f, v) :: y :: items)))
      with (own_line k level (f, v) ++ sconcat (map (own_line k level) (y :: items))).
    change (sjoin ", " (map (line_field k) ((f, v) :: y :: items)))
      with (line_field k (f, v) ++ ", " ++ sjoin ", " (map (line_field k) (y :: items))).
    rewrite !before_app, One. f_equal. rewrite IH; [reflexivity | | discriminate]. intros f' v' I. apply (H f' v'). right. exact I.
Qed.
Lemma same_without_layout t : forall level z, before (pretty level t) z = before (plain t) z.
Proof.
  induction t as [s | k name items IH] using dtree_all; intros level z; [reflexivity |].
  destruct items as [| x items]; [reflexivity |]. rewrite plain_node, pretty_node.
  destruct k; rewrite !before_app, before_new_line.
  - f_equal. cbn [before]. change (keep " " ?a) with a. f_equal. apply fields_alike; [exact IH | reflexivity | discriminate].
  - do 2 f_equal. apply fields_alike; [exact IH | reflexivity | discriminate].
  - f_equal. apply fields_alike; [exact IH | reflexivity | discriminate].
Qed.

(** ** The one-line text is recovered *)
Fixpoint expand (s : string) : string :=
  match s with
  | EmptyString => EmptyString
  | String c r =>
      (if Ascii.eqb c "," then ", " else if Ascii.eqb c ":" then ": " else if Ascii.eqb c "{" then " { " else if Ascii.eqb c "}" then " }"
       else String c EmptyString) ++ expand r
  end.
(** characters of names and values *)
Definition solid (c : ascii) : bool := negb (existsb (Ascii.eqb c) [" "; "010"; ","; ":"; "{"; "}"; ")"; "]"; "("; "["]%char).
Fixpoint solids (s : string) : bool := match s with EmptyString => true | String c r => solid c && solids r end.
Definition name_ok (s : string) : bool := match s with EmptyString => false | _ => solids s end.
Fixpoint tree_ok (t : dtree) : bool :=
  match t with
  | DLeaf s => name_ok s
  | DNode k name items =>
      match k with DList => true | _ => name_ok name end &&
      forallb (fun x => match x with (f, v) => match k with DStruct => name_ok f | _ => true end && tree_ok v end) items
  end.
Lemma solid_keep c z : solid c = true -> keep c z = String c z /\ expand (String c z) = String c (expand z) /\ closing (String c z) = false.
Proof.
  intros H. unfold solid in H. apply negb_true_iff in H. cbn [existsb] in H. repeat (apply orb_false_iff in H; destruct H as [? H]).
  unfold keep, blank. cbn [closing existsb expand]. repeat match goal with E : Ascii.eqb c _ = false |- _ => rewrite E; clear E end.
  repeat split; reflexivity.
Qed.
Lemma solids_expand s z : solids s = true -> expand (before s z) = s ++ expand z.
Proof.
  induction s as [| c s IH]; intros H; [reflexivity |]. cbn [solids] in H. apply andb_true_iff in H. destruct H as [Hc Hs].
  cbn [before append]. destruct (solid_keep c (before s z) Hc) as (-> & -> & _). now rewrite IH.
Qed.
Lemma name_solids s : name_ok s = true -> solids s = true.
Proof. destruct s; [discriminate | auto]. Qed.
Lemma name_head s z : name_ok s = true -> closing (before s z) = false.
Proof.
  destruct s as [| c s]; [discriminate |]. intros H. cbn [name_ok solids] in H. apply andb_true_iff in H.
  cbn [before]. destruct (solid_keep c (before s z) (proj1 H)) as (-> & _ & E). exact E.
Qed.
Lemma tree_head t z : tree_ok t = true -> closing (before (plain t) z) = false.
Proof.
  destruct t as [s | k name items]; cbn [tree_ok]; intros H; [exact (name_head s z H) |].
  apply andb_true_iff in H. destruct H as [H _]. destruct items as [| x items].
  - cbn [plain]. destruct k; [exact (name_head _ z H) | exact (name_head _ z H) | reflexivity].
  - rewrite plain_node. destruct k; rewrite before_app; [exact (name_head _ _ H) | exact (name_head _ _ H) | reflexivity].
Qed.
Definition field_ok (k : dkind) (x : string * dtree) : bool :=
  match x with (f, v) => match k with DStruct => name_ok f | _ => true end && tree_ok v end.
Lemma field_head k x z : field_ok k x = true -> closing (before (line_field k x) z) = false.
Proof.
  destruct x as [f v]. unfold field_ok, line_field. intros H. apply andb_true_iff in H. destruct H as [H1 H2]. rewrite before_app.
  destruct k; cbn [dlabel]; [rewrite before_app; exact (name_head f _ H1) | exact (tree_head v z H2) | exact (tree_head v z H2)].
Qed.
Lemma fields_head k y items z : forallb (field_ok k) (y :: items) = true ->
  closing (before (sjoin ", " (map (line_field k) (y :: items))) z) = false.
Proof.
  intros K. cbn [forallb] in K. apply andb_true_iff in K. destruct items as [| u items].
  - exact (field_head k y z (proj1 K)).
  - change (sjoin ", " (map (line_field k) (y :: u :: items))) with (line_field k y ++ ", " ++ sjoin ", " (map (line_field k) (u :: items))).
    rewrite before_app. exact (field_head k y _ (proj1 K)).
Qed.
Lemma str_assoc (a b c : string) : (a ++ b) ++ c = a ++ (b ++ c).
Proof. induction a as [| x a IH]; [reflexivity |]. cbn [append]. now rewrite IH. Qed.
Lemma fields_expand k items : (forall f v, In (f, v) items -> tree_ok v = true -> forall z, expand (before (plain v) z) = plain v ++ expand z) ->
  forallb (field_ok k) items = true -> forall z,
  expand (before (sjoin ", " (map (line_field k) items)) z) = sjoin ", " (map (line_field k) items) ++ expand z.
Proof.
  intros H. induction items as [| (f, v) items IH]; intros K z; [reflexivity |]. cbn [forallb] in K. apply andb_true_iff in K. destruct K as [K1 K2].
  assert (One : forall w, expand (before (line_field k (f, v)) w) = line_field k (f, v) ++ expand w).
  { intros w. unfold field_ok in K1. apply andb_true_iff in K1. destruct K1 as [K0 K1]. unfold line_field. rewrite before_app.
    pose proof (H f v (or_introl eq_refl) K1 w) as X. destruct k; cbn [dlabel]; [| exact X | exact X].
    rewrite before_app, (solids_expand f _ (name_solids f K0)), !str_assoc. f_equal.
    change (before ": " (before (plain v) w)) with (String ":" (before (plain v) w)). cbn [expand].
    change (Ascii.eqb ":" ",") with false. change (Ascii.eqb ":" ":") with true. cbv iota. now rewrite X. }
  destruct items as [| y items]; [exact (One z) |].
  change (sjoin ", " (map (line_field k) ((f, v) :: y :: items)))
    with (line_field k (f, v) ++ ", " ++ sjoin ", " (map (line_field k) (y :: items))).
  rewrite before_app, One, !str_assoc. f_equal.
  assert (Hd : closing (before (sjoin ", " (map (line_field k) (y :: items))) z) = false) by exact (fields_head k y items z K2).
  assert (IH' : forall z, expand (before (sjoin ", " (map (line_field k) (y :: items))) z) = sjoin ", " (map (line_field k) (y :: items)) ++ expand z).
  { intros z'. apply IH; [| exact K2]. intros f' v' I. apply (H f' v'). right. exact I. }
  rewrite before_app. cbn [before]. change (keep " " ?a) with a. unfold keep. change (blank ",") with false. cbv iota. rewrite Hd, andb_false_r.
  cbn [expand]. change (Ascii.eqb "," ",") with true. cbv iota. rewrite IH'. reflexivity.
Qed.
Lemma plain_expand t : tree_ok t = true -> forall z, expand (before (plain t) z) = plain t ++ expand z.
Proof.
  induction t as [s | k name items IH] using dtree_all; intros H z; cbn [tree_ok] in H.
  { apply solids_expand, name_solids, H. }
  apply andb_true_iff in H. destruct H as [Hn Hi]. change (forallb (field_ok k) items = true) in Hi.
  destruct items as [| x items].
  { cbn [plain]. destruct k; cbn [dempty]; [apply solids_expand, name_solids, Hn | apply solids_expand, name_solids, Hn | reflexivity]. }
  pose proof (fields_expand k (x :: items) IH Hi) as X. rewrite plain_node. destruct k; rewrite !before_app.
  - rewrite (solids_expand name _ (name_solids name Hn)), !str_assoc. f_equal.
    change (before " { " ?a) with (String "{" a). change (before " }" z) with (String "}" z). cbn [expand].
    change (Ascii.eqb "{" ",") with false. change (Ascii.eqb "{" ":") with false. change (Ascii.eqb "{" "{") with true. cbv iota.
    rewrite X. reflexivity.
  - rewrite (solids_expand name _ (name_solids name Hn)), !str_assoc. f_equal.
    change (before "(" ?a) with (String "(" a). change (before ")" z) with (String ")" z).
    change (expand (String "(" ?a)) with (String "(" (expand a)). rewrite X. reflexivity.
  - change (before "[" ?a) with (String "[" a). change (before "]" z) with (String "]" z).
    change (expand (String "[" ?a)) with (String "[" (expand a)). rewrite X. rewrite !str_assoc. reflexivity.
Qed.
Lemma pretty_settles t t' : tree_ok t = true -> tree_ok t' = true -> pretty 0 t = pretty 0 t' -> plain t = plain t'.
Proof.
  intros H H' E. pose proof (plain_expand t H "") as X. pose proof (plain_expand t' H' "") as X'.
  rewrite <- (same_without_layout t 0) in X. rewrite <- (same_without_layout t' 0), <- E in X'.
  assert (N : forall s, s ++ "" = s) by (induction s as [| c s IHs]; [reflexivity | cbn [append]; now rewrite IHs]).
  cbn [expand] in X, X'. rewrite N in X, X'. congruence.
Qed.

(** ** The multi-line text is recovered *)
Lemma spread_solid d c z : solid c = true -> spread d (String c z) = String c (spread d z).
Proof.
  intros H. unfold solid in H. apply negb_true_iff in H. cbn [existsb] in H. repeat (apply orb_false_iff in H; destruct H as [? H]).
  cbn [spread]. unfold opening. cbn [closing existsb]. repeat match goal with E : Ascii.eqb c _ = false |- _ => rewrite E; clear E end. reflexivity.
Qed.
Lemma solids_spread d s z : solids s = true -> spread d (before s z) = s ++ spread d z.
Proof.
  induction s as [| c s IH]; intros H; [reflexivity |]. cbn [solids] in H. apply andb_true_iff in H. destruct H as [Hc Hs].
  cbn [before append]. destruct (solid_keep c (before s z) Hc) as (-> & _ & _). rewrite spread_solid, IH by assumption. reflexivity.
Qed.
Lemma blanks_spaces n : blanks n = spaces n.
Proof. induction n as [| n IH]; [reflexivity |]. cbn [blanks spaces]. now rewrite IH. Qed.
Lemma line_end_new_line d : line_end d = new_line d.
Proof. unfold line_end, new_line. rewrite blanks_spaces. reflexivity. Qed.
Lemma spread_open d c w : opening c = true -> w <> "" -> closing w = false ->
  spread d (String c w) = (if Ascii.eqb c "{" then " " else "") ++ String c (new_line (S d) ++ spread (S d) w).
Proof.
  intros O N C. destruct w as [| e r]; [congruence |]. rewrite <- line_end_new_line. cbn [spread]. rewrite O.
  cbn [spread] in *. rewrite C. reflexivity.
Qed.
Lemma spread_close d c z : opening c = false -> closing (String c z) = true ->
  spread (S d) (String c z) = "," ++ new_line d ++ String c (spread d z).
Proof. intros O C. rewrite <- line_end_new_line. cbn [spread]. rewrite O. change (closing (String c z)) with (existsb (Ascii.eqb c) ["}"; ")"; "]"]%char) in C. cbn [closing]. rewrite C. reflexivity. Qed.
Lemma spread_comma d z : spread d (String "," z) = "," ++ new_line d ++ spread d z.
Proof. rewrite <- line_end_new_line. reflexivity. Qed.
(** a field, on its own line *)
Definition field_text (k : dkind) (level : nat) (x : string * dtree) : string := match x with (f, v) => dlabel k f ++ pretty level v end.
Lemma own_lines k level items : items <> [] ->
  sconcat (map (own_line k level) items) = new_line (S level) ++ sjoin ("," ++ new_line (S level)) (map (field_text k (S level)) items) ++ ",".
Proof.
  intros N. induction items as [| x items IH]; [congruence |]. destruct items as [| y items].
  - destruct x as [f v]. cbn [map sjoin]. unfold sconcat. cbn [fold_right own_line field_text]. rewrite !str_assoc. reflexivity.
  - change (sconcat (map (own_line k level) (x :: y :: items))) with (own_line k level x ++ sconcat (map (own_line k level) (y :: items))).
    change (sjoin ("," ++ new_line (S level)) (map (field_text k (S level)) (x :: y :: items)))
      with (field_text k (S level) x ++ ("," ++ new_line (S level)) ++ sjoin ("," ++ new_line (S level)) (map (field_text k (S level)) (y :: items))).
    rewrite IH by discriminate. destruct x as [f v]. unfold own_line at 1. unfold field_text at 2. rewrite !str_assoc. reflexivity.
Qed.
Lemma fields_spread k items d : (forall f v, In (f, v) items -> tree_ok v = true -> forall n z, spread n (before (plain v) z) = pretty n v ++ spread n z) ->
  forallb (field_ok k) items = true -> forall z,
  spread d (before (sjoin ", " (map (line_field k) items)) z) = sjoin ("," ++ new_line d) (map (field_text k d) items) ++ spread d z.
Proof.
  intros H. induction items as [| (f, v) items IH]; intros K z; [reflexivity |]. cbn [forallb] in K. apply andb_true_iff in K. destruct K as [K1 K2].
  assert (One : forall w, spread d (before (line_field k (f, v)) w) = field_text k d (f, v) ++ spread d w).
  { intros w. unfold field_ok in K1. apply andb_true_iff in K1. destruct K1 as [K0 K1]. unfold line_field, field_text. rewrite before_app.
    pose proof (H f v (or_introl eq_refl) K1 d w) as X. destruct k; cbn [dlabel]; [| exact X | exact X].
    rewrite before_app, (solids_spread d f _ (name_solids f K0)), !str_assoc. f_equal.
    change (before ": " (before (plain v) w)) with (String ":" (before (plain v) w)).
    change (spread d (String ":" ?a)) with (": " ++ spread d a). now rewrite X. }
  destruct items as [| y items]; [exact (One z) |].
  change (sjoin ", " (map (line_field k) ((f, v) :: y :: items)))
    with (line_field k (f, v) ++ ", " ++ sjoin ", " (map (line_field k) (y :: items))).
  change (sjoin ("," ++ new_line d) (map (field_text k d) ((f, v) :: y :: items)))
    with (field_text k d (f, v) ++ ("," ++ new_line d) ++ sjoin ("," ++ new_line d) (map (field_text k d) (y :: items))).
  rewrite before_app, One, !str_assoc. f_equal.
  assert (Hd : closing (before (sjoin ", " (map (line_field k) (y :: items))) z) = false) by exact (fields_head k y items z K2).
  assert (IH' : forall z, spread d (before (sjoin ", " (map (line_field k) (y :: items))) z) = sjoin ("," ++ new_line d) (map (field_text k d) (y :: items)) ++ spread d z).
  { intros z'. apply IH; [| exact K2]. intros f' v' I. apply (H f' v'). right. exact I. }
  rewrite before_app. cbn [before]. change (keep " " ?a) with a. unfold keep. change (blank ",") with false. cbv iota. rewrite Hd, andb_false_r.
  rewrite spread_comma, IH'. reflexivity.
Qed.
Lemma before_not_empty k x items z : closing z = true -> before (sjoin ", " (map (line_field k) (x :: items))) z <> "".
Proof.
  intros C. generalize (sjoin ", " (map (line_field k) (x :: items))). intros s. assert (N : forall s, before s z <> "").
  { induction s0 as [| c s0 IH]; [cbn [before]; destruct z; [discriminate C | discriminate] |]. cbn [before]. unfold keep.
    destruct (blank c); [exact IH |]. destruct (Ascii.eqb c "," && closing (before s0 z)); [exact IH | discriminate]. }
  apply N.
Qed.
Lemma plain_spread t : tree_ok t = true -> forall d z, spread d (before (plain t) z) = pretty d t ++ spread d z.
Proof.
  induction t as [s | k name items IH] using dtree_all; intros H d z; cbn [tree_ok] in H.
  { apply solids_spread, name_solids, H. }
  apply andb_true_iff in H. destruct H as [Hn Hi]. change (forallb (field_ok k) items = true) in Hi.
  destruct items as [| x items].
  { cbn [plain pretty]. destruct k; cbn [dempty]; [apply solids_spread, name_solids, Hn | apply solids_spread, name_solids, Hn | reflexivity]. }
  pose proof (fields_spread k (x :: items) (S d) IH Hi) as X. rewrite plain_node, pretty_node, own_lines by discriminate.
  pose proof (fun w => fields_head k x items w Hi) as Hd. destruct k; rewrite !before_app.
  - rewrite (solids_spread d name _ (name_solids name Hn)), !str_assoc. f_equal.
    change (before " { " ?a) with (String "{" a). change (before " }" z) with (String "}" z).
    rewrite spread_open; [| reflexivity | apply before_not_empty; reflexivity | apply Hd].
    rewrite X, spread_close by reflexivity. change (Ascii.eqb "{" "{") with true. cbv iota. reflexivity.
  - rewrite (solids_spread d name _ (name_solids name Hn)), !str_assoc. f_equal.
    change (before "(" ?a) with (String "(" a). change (before ")" z) with (String ")" z).
    rewrite spread_open; [| reflexivity | apply before_not_empty; reflexivity | apply Hd].
    rewrite X, spread_close by reflexivity. change (Ascii.eqb "(" "{") with false. cbv iota. rewrite ?str_assoc. reflexivity.
  - change (before "[" ?a) with (String "[" a). change (before "]" z) with (String "]" z).
    rewrite spread_open; [| reflexivity | apply before_not_empty; reflexivity | apply Hd].
    rewrite X, spread_close by reflexivity. change (Ascii.eqb "[" "{") with false. cbv iota. rewrite ?str_assoc. reflexivity.
Qed.
Lemma pretty_spread t : tree_ok t = true -> pretty 0 t = spread 0 (without_layout (plain t)).
Proof.
  intros H. rewrite without_before, (plain_spread t H). cbn [spread].
  generalize (pretty 0 t). induction s as [| c s IH]; [reflexivity | cbn [append]; now rewrite <- IH].
Qed.

(** ** The public types *)
Lemma digit_solid c : is_digit c = true -> solid c = true.
Proof. destruct c as [[] [] [] [] [] [] [] []]; vm_compute; intros H; congruence. Qed.
Lemma digits_solids s : all_digits s = true -> solids s = true.
Proof.
  induction s as [| c r IH]; cbn [all_digits solids]; [reflexivity |]. destruct (is_digit c) eqn:D; [| discriminate].
  intros H. now rewrite (digit_solid c D), (IH H).
Qed.
Lemma Z_ok n : name_ok (Z_text n) = true.
Proof.
  destruct (Z.ltb_spec n 0) as [L | L].
  - destruct (neg_text n L) as (s & -> & E). destruct (number_nonempty _ _ E) as (_ & D). cbn [name_ok solids]. now rewrite (digits_solids s D).
  - destruct (number_nonempty _ _ (number_Z_text n L)) as (N & D). apply digits_solids in D. destruct (Z_text n); [congruence | exact D].
Qed.
Lemma list_ok {A} (f : A -> dtree) l : (forall a, tree_ok (f a) = true) -> tree_ok (tree_list f l) = true.
Proof. intros H. cbn [tree_list tree_ok andb]. apply forallb_forall. intros x I. apply in_map_iff in I. destruct I as (a & <- & _). exact (H a). Qed.
Lemma list_plain {A} (f : A -> dtree) (g : A -> string) l : (forall a, plain (f a) = g a) -> plain (tree_list f l) = list_debug g l.
Proof.
  intros H. unfold list_debug. destruct l as [| a l]; [reflexivity |]. unfold tree_list. cbn [map]. rewrite plain_node. do 3 f_equal.
  cbn [map]. f_equal; [exact (H a) |]. induction l as [| b l IH]; [reflexivity |]. cbn [map]. f_equal; [exact (H b) | exact IH].
Qed.
Lemma msym_tree m : tree_ok (tree_msym m) = true /\ plain (tree_msym m) = msym_debug m.
Proof.
  assert (L : tree_ok (tree_letters (ms_trs m)) = true /\ plain (tree_letters (ms_trs m)) = trs_debug (ms_trs m)).
  { destruct (ms_trs m) as [l |]; [| split; reflexivity]. cbn [tree_letters]. split.
    - cbn [tree_ok forallb andb]. rewrite list_ok; [reflexivity |]. intros []; reflexivity.
    - rewrite plain_node. cbn [map sjoin line_field dlabel append]. rewrite (list_plain _ tsym_debug) by (intros []; reflexivity).
      unfold list_debug, trs_debug. cbn [append]. rewrite !str_assoc. reflexivity. }
  destruct L as [L1 L2]. split.
  - unfold tree_msym. cbn [tree_ok forallb]. rewrite L1. 
    assert (N1 : name_ok (bool_debug (ms_minus m)) = true) by (destruct (ms_minus m); reflexivity).
    assert (N2 : name_ok (nfold_debug (ms_fold m)) = true) by (destruct (ms_fold m); reflexivity).
    assert (N3 : name_ok (sub_debug (ms_sub m)) = true) by (destruct (ms_sub m); reflexivity).
    assert (N4 : name_ok (diag_debug (ms_diag m)) = true) by (destruct (ms_diag m); reflexivity).
    assert (N5 : name_ok (axis_debug (ms_axis m)) = true) by (destruct (ms_axis m); reflexivity).
    rewrite N1, N2, N3, N4, N5. reflexivity.
  - unfold tree_msym. rewrite plain_node. unfold msym_debug. cbn [map sjoin line_field dlabel plain]. rewrite L2. rewrite !str_assoc. reflexivity.
Qed.
Lemma hall_tree h : tree_ok (tree_hall h) = true /\ plain (tree_hall h) = hall_debug h.
Proof.
  assert (M1 : tree_ok (tree_list tree_msym (h_syms h)) = true) by (apply list_ok; intros m; apply msym_tree).
  assert (M2 : plain (tree_list tree_msym (h_syms h)) = list_debug msym_debug (h_syms h)) by (apply list_plain; intros m; apply msym_tree).
  assert (S1 : tree_ok (tree_shift (h_shift h)) = true) by (cbn [tree_shift tree_Z tree_ok forallb]; rewrite !Z_ok; reflexivity).
  assert (S2 : plain (tree_shift (h_shift h)) = shift_debug (h_shift h)).
  { unfold tree_shift. rewrite plain_node. unfold shift_debug. cbn [map sjoin line_field dlabel plain tree_Z]. rewrite !str_assoc. reflexivity. }
  assert (L1 : tree_ok (tree_lattice (h_lat h)) = true) by (destruct (h_lat h) as [[] []]; reflexivity).
  assert (L2 : plain (tree_lattice (h_lat h)) = lattice_symbol_debug (h_lat h)) by (destruct (h_lat h) as [[] []]; reflexivity).
  split.
  - unfold tree_hall. cbn [tree_ok forallb]. rewrite M1, S1, L1. reflexivity.
  - unfold tree_hall. rewrite plain_node. unfold hall_debug. cbn [map sjoin line_field dlabel]. rewrite M2, S2, L2, !str_assoc. reflexivity.
Qed.
Lemma rows_tree l : tree_ok (tree_list (tree_list tree_Z) l) = true /\ plain (tree_list (tree_list tree_Z) l) = list_debug (list_debug Z_text) l.
Proof.
  split.
  - apply list_ok. intros r. apply list_ok. intros n. exact (Z_ok n).
  - apply list_plain. intros r. apply list_plain. reflexivity.
Qed.
Lemma seitz_tree m : tree_ok (tree_seitz m) = true /\ plain (tree_seitz m) = seitz_debug m.
Proof.
  unfold tree_seitz. split.
  - cbn [tree_ok]. cbn [forallb]. rewrite (proj1 (rows_tree _)). reflexivity.
  - rewrite plain_node. cbn [map sjoin line_field dlabel]. rewrite (proj2 (rows_tree _)). reflexivity.
Qed.
Lemma gpos_tree g : tree_ok (tree_gpos g) = true /\ plain (tree_gpos g) = gpos_debug g.
Proof.
  assert (V1 : tree_ok (tree_list tree_vector (gp_lattice g)) = true) by (apply list_ok; intros v; apply rows_tree).
  assert (V2 : plain (tree_list tree_vector (gp_lattice g)) = list_debug vector_debug (gp_lattice g)) by (apply list_plain; intros v; apply rows_tree).
  assert (C1 : tree_ok (tree_list tree_seitz (gp_core g)) = true) by (apply list_ok; intros m; apply seitz_tree).
  assert (C2 : plain (tree_list tree_seitz (gp_core g)) = list_debug seitz_debug (gp_core g)) by (apply list_plain; intros m; apply seitz_tree).
  unfold tree_gpos. split.
  - cbn [tree_ok forallb]. rewrite V1, C1. reflexivity.
  - rewrite plain_node. unfold gpos_debug. cbn [map sjoin line_field dlabel]. rewrite V2, C2, !str_assoc. reflexivity.
Qed.

Lemma error_tree e : tree_ok (tree_error e) = true /\ plain (tree_error e) = error_debug e.
Proof.
  destruct e as [m |]; [| split; reflexivity]. destruct (msym_tree m) as [H1 H2]. split.
  - unfold tree_error. cbn [tree_ok]. cbn [forallb]. rewrite H1. reflexivity.
  - unfold tree_error. rewrite plain_node. cbn [map sjoin line_field dlabel]. rewrite H2. reflexivity.
Qed.

(** ** C103 *)
(** the multi-line text is the one-line text, spread over lines: every field or entry on a line of
    its own, indented by four blanks per open bracket *)
Theorem C103_multi_line_text :
  (forall h, hall_pretty h = spread 0 (without_layout (hall_debug h))) /\
  (forall m, msym_pretty m = spread 0 (without_layout (msym_debug m))) /\
  (forall e, error_pretty e = spread 0 (without_layout (error_debug e))) /\
  (forall m, seitz_pretty m = spread 0 (without_layout (seitz_debug m))) /\
  (forall g, gpos_pretty g = spread 0 (without_layout (gpos_debug g))).
Proof.
  split; [intros h; rewrite <- (proj2 (hall_tree h)); apply pretty_spread, hall_tree |].
  split; [intros m; rewrite <- (proj2 (msym_tree m)); apply pretty_spread, msym_tree |].
  split; [intros e; rewrite <- (proj2 (error_tree e)); apply pretty_spread, error_tree |].
  split; [intros m; rewrite <- (proj2 (seitz_tree m)); apply pretty_spread, seitz_tree |].
  intros g. rewrite <- (proj2 (gpos_tree g)). apply pretty_spread, gpos_tree.
Qed.
(** without layout the two texts are the same *)
Theorem C103_same_text_without_layout :
  (forall h, without_layout (hall_pretty h) = without_layout (hall_debug h)) /\
  (forall m, without_layout (msym_pretty m) = without_layout (msym_debug m)) /\
  (forall e, without_layout (error_pretty e) = without_layout (error_debug e)) /\
  (forall m, without_layout (seitz_pretty m) = without_layout (seitz_debug m)) /\
  (forall g, without_layout (gpos_pretty g) = without_layout (gpos_debug g)).
Proof.
  assert (X : forall t, without_layout (pretty 0 t) = without_layout (plain t))
    by (intros t; rewrite !without_before; apply same_without_layout).
  split; [intros h; rewrite <- (proj2 (hall_tree h)); apply X |].
  split; [intros m; rewrite <- (proj2 (msym_tree m)); apply X |].
  split; [intros e; rewrite <- (proj2 (error_tree e)); apply X |].
  split; [intros m; rewrite <- (proj2 (seitz_tree m)); apply X |].
  intros g. rewrite <- (proj2 (gpos_tree g)). apply X.
Qed.
(** and it identifies what is printed *)
Theorem C103_notation_identified : forall a b, hall_pretty a = hall_pretty b -> a = b.
Proof.
  intros a b E. apply C81_notation_debug_identifies. rewrite <- (proj2 (hall_tree a)), <- (proj2 (hall_tree b)).
  apply pretty_settles; [apply hall_tree | apply hall_tree | exact E].
Qed.
Theorem C103_symbol_identified : forall a b, msym_pretty a = msym_pretty b -> a = b.
Proof.
  intros a b E. apply (stop_eq msym_debug msym_code). rewrite <- (proj2 (msym_tree a)), <- (proj2 (msym_tree b)).
  apply pretty_settles; [apply msym_tree | apply msym_tree | exact E].
Qed.
Theorem C103_operation_identified : forall a b, seitz_pretty a = seitz_pretty b -> a = b.
Proof.
  intros a b E. apply C81_operation_debug_identifies. rewrite <- (proj2 (seitz_tree a)), <- (proj2 (seitz_tree b)).
  apply pretty_settles; [apply seitz_tree | apply seitz_tree | exact E].
Qed.
Theorem C103_positions_identified : forall a b, gpos_pretty a = gpos_pretty b -> a = b.
Proof.
  intros a b E. apply C81_positions_debug_identifies. rewrite <- (proj2 (gpos_tree a)), <- (proj2 (gpos_tree b)).
  apply pretty_settles; [apply gpos_tree | apply gpos_tree | exact E].
Qed.
Example C103_case : hall_pretty (parsed_d "-P 2 (0 0 -1)") =
"HallSymbolNotation {
    lattice_symbol: LatticeSymbol {
        minus_sign: true,
        char: P,
    },
    matrix_symbols: [
        MatrixSymbol {
            minus_sign: false,
            nfold_body: N2,
            nfold_sub: None,
            nfold_diag: None,
            rotation_axis: Z,
            translation_symbols: None,
        },
    ],
    origin_shift: OriginShift {
        va: 0,
        vb: 0,
        vc: -1,
    },
}".
Proof. vm_compute. reflexivity. Qed.
Example C103_case_without_layout :
  without_layout (shift_debug (V3 0 0 (-1))) = "OriginShift{va:0,vb:0,vc:-1}" /\
  spread 0 "GeneralPositions{lattice_translations:[],core_position_set:[]}" =
"GeneralPositions {
    lattice_translations: [],
    core_position_set: [],
}".
Proof. split; vm_compute; reflexivity. Qed.
