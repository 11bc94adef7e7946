(** * PropListing: property C35: the numbered listing of the general positions. *)
From Coq Require Import QArith.
From Verif Require Import Base Notations Parser Seitz F64 Jones Rotations Generate Positions Spec SpecXyz Algebra PropSeitz PropJones PropParser.
Open Scope Z_scope.
Local Notation length := List.length.
Open Scope list_scope.
Open Scope nat_scope.

(** ** The statement's vocabulary *)
Definition newline_char : ascii := "010"%char.
(** operation number [j] of set number [i]: the core operation [j] moved by centring vector [i] *)
Definition entry (g : gpos) (i j : nat) (m : seitz) : Prop :=
  exists c v, nth_error (gp_core g) j = Some c /\ nth_error (gp_lattice g) i = Some v /\
    rot m = rot c /\ tra m = vadd (tra c) v.
(** the text [a] is a number or a fraction of value [v]/12 *)
Definition fraction_text (a : string) (v : Z) : Prop :=
  exists f, read_coord a = Some f /\ lx f = 0%Z /\ ly f = 0%Z /\ lz f = 0%Z /\ (lconst f == inject_Z v / 12)%Q.

(** ** Texts without newline *)
Lemma lacks_app c a b : lacks c (a ++ b) = lacks c a && lacks c b.
Proof. induction a as [| d r IH]; cbn [lacks append]; [reflexivity |]. destruct (Ascii.eqb d c); auto. Qed.
Lemma lacks_join c sep l : lacks c sep = true -> forallb (lacks c) l = true -> lacks c (sjoin sep l) = true.
Proof.
  intros S. induction l as [| a r IH]; cbn [sjoin forallb]; [reflexivity |].
  rewrite andb_true_iff. intros [A R]. destruct r; [assumption |]. rewrite !lacks_app, A, S. cbn [andb]. apply IH, R.
Qed.
Lemma digits_value_digit d a s : (0 <= d <= 9)%Z -> digits_value a (String (digit_char d) s) = digits_value (10 * a + d) s.
Proof.
  intros H. cbn [digits_value].
  assert (d = 0 \/ d = 1 \/ d = 2 \/ d = 3 \/ d = 4 \/ d = 5 \/ d = 6 \/ d = 7 \/ d = 8 \/ d = 9)%Z as C by lia.
  repeat destruct C as [-> | C]; try subst d; reflexivity.
Qed.
Lemma dec_digits_value fuel : forall n acc, (0 <= n < 2 ^ Z.of_nat fuel)%Z -> fuel <> O ->
  digits_value 0 (dec_digits fuel n acc) = digits_value n acc.
Proof.
  induction fuel as [| f IH]; intros n acc Hn Hf; [congruence |]. cbn [dec_digits].
  pose proof (Z.mod_pos_bound n 10 ltac:(lia)) as B. pose proof (Z.div_mod n 10 ltac:(lia)) as D.
  destruct (Z.eqb_spec (n / 10) 0) as [E | N].
  - rewrite digits_value_digit by lia. f_equal. lia.
  - pose proof (Z.div_pos n 10 ltac:(lia) ltac:(lia)).
    rewrite Nat2Z.inj_succ, Z.pow_succ_r in Hn by lia.
    rewrite IH; [| lia |]. 
    + rewrite digits_value_digit by lia. f_equal. lia.
    + intros ->. change (2 ^ Z.of_nat 0)%Z with 1%Z in Hn. lia.
Qed.
Lemma digits_lacks s : forall a v, digits_value a s = Some v -> lacks newline_char s = true.
Proof.
  induction s as [| c r IH]; intros a v; cbn [digits_value lacks]; [reflexivity |].
  destruct (Ascii.eqb_spec c newline_char) as [-> | N]; [discriminate |].
  destruct (_ && _); [apply IH | discriminate].
Qed.
Lemma dec_digits_nonempty fuel n acc : fuel <> O -> dec_digits fuel n acc <> EmptyString.
Proof.
  revert n acc. induction fuel as [| f IH]; intros n acc H; [congruence |]. cbn [dec_digits].
  destruct (_ =? _)%Z; [discriminate |]. destruct f; [discriminate |]. apply IH. discriminate.
Qed.
Lemma log2_fuel n : (0 <= n)%Z -> (0 <= n < 2 ^ Z.of_nat (Z.to_nat (Z.log2 n) + 1))%Z.
Proof.
  intros H. rewrite Nat2Z.inj_add, Z2Nat.id by apply Z.log2_nonneg.
  destruct (Z.eq_dec n 0) as [-> | N]; [split; [lia | reflexivity] |]. pose proof (Z.log2_spec n ltac:(lia)). lia.
Qed.
Lemma number_Z_text n : (0 <= n)%Z -> number_value (Z_text n) = Some n.
Proof.
  intros H. unfold Z_text. destruct (Z.ltb_spec n 0); [lia |]. unfold number_value.
  pose proof (dec_digits_nonempty (Z.to_nat (Z.log2 n) + 1) n "" ltac:(lia)) as NE.
  pose proof (dec_digits_value (Z.to_nat (Z.log2 n) + 1) n "" (log2_fuel n H) ltac:(lia)) as E.
  destruct (dec_digits _ _ _); [congruence | exact E].
Qed.
Lemma Z_text_lacks n : lacks newline_char (Z_text n) = true.
Proof.
  destruct (Z.ltb_spec n 0) as [L | L].
  - unfold Z_text. rewrite (proj2 (Z.ltb_lt n 0) L). cbn [lacks].
    apply (digits_lacks _ 0%Z (- n)%Z). rewrite dec_digits_value; [reflexivity | apply log2_fuel; lia | lia].
  - pose proof (number_Z_text n L) as H. unfold number_value in H. destruct (Z_text n); [discriminate |].
    eapply digits_lacks; eauto.
Qed.
Lemma frac_lacks v : lacks newline_char (frac12_text v) = true.
Proof.
  unfold frac12_text. cbv zeta. destruct (_ =? _)%Z; [apply Z_text_lacks |].
  rewrite !lacks_app, !Z_text_lacks. reflexivity.
Qed.
Lemma byte_not_newline z : (11 <= z < 256)%Z -> Ascii.eqb (byte z) newline_char = false.
Proof.
  intros H. apply Ascii.eqb_neq. intros E. apply (f_equal nat_of_ascii) in E. unfold byte in E.
  rewrite nat_ascii_embedding in E by lia. change (nat_of_ascii newline_char) with 10 in E. lia.
Qed.
Lemma Some_eq {A} (x y : A) : Some x = Some y -> x = y. Proof. congruence. Qed.
Lemma char_lacks v c : (11 <= v)%Z -> char_utf8 v = Some c -> lacks newline_char c = true.
Proof.
  intros H. unfold char_utf8.
  assert (M : forall x, (128 <= 128 + x mod 64 < 256)%Z) by (intros x; pose proof (Z.mod_pos_bound x 64); lia).
  destruct (Z.ltb_spec v 128).
  { intros E. apply Some_eq in E; subst c. cbn [lacks]. now rewrite byte_not_newline by lia. }
  destruct (Z.ltb_spec v 2048).
  { intros E. apply Some_eq in E; subst c. cbn [lacks]. pose proof (M v).
    assert (0 <= v / 64 < 32)%Z by (split; [apply Z.div_pos; lia | apply Z.div_lt_upper_bound; lia]).
    now rewrite !byte_not_newline by lia. }
  destruct (Z.ltb_spec v 65536).
  { destruct (_ && _); [discriminate |]. intros E. apply Some_eq in E; subst c. cbn [lacks]. pose proof (M v). pose proof (M (v / 64)%Z).
    assert (0 <= v / 4096 < 16)%Z by (split; [apply Z.div_pos; lia | apply Z.div_lt_upper_bound; lia]).
    now rewrite !byte_not_newline by lia. }
  destruct (Z.leb_spec v 1114111); [| discriminate].
  intros E. apply Some_eq in E; subst c. cbn [lacks]. pose proof (M v). pose proof (M (v / 64)%Z). pose proof (M (v / 4096)%Z).
  assert (0 <= v / 262144 < 5)%Z by (split; [apply Z.div_pos; lia | apply Z.div_lt_upper_bound; lia]).
  now rewrite !byte_not_newline by lia.
Qed.
Lemma Done_eq {A} (x y : A) : Done x = Done y -> x = y. Proof. congruence. Qed.
Lemma entry_lacks code val s : (120 <= code)%Z -> jf_entry code val = Done s -> lacks newline_char s = true.
Proof.
  intros C. assert (K : (code * val <> 0 -> 11 <= Z.abs (code * val))%Z).
  { intros N. rewrite Z.abs_mul. assert (1 <= Z.abs val)%Z by (destruct (Z.eq_dec val 0); [subst; lia | lia]). nia. }
  unfold jf_entry. cbv zeta.
  destruct (char_utf8 (Z.abs (code * val))) as [c |] eqn:E; [| discriminate].
  destruct (Z.compare_spec (code * val) 0) as [Q | Q | Q]; intros H; apply Done_eq in H; subst s; [reflexivity | |].
  - rewrite lacks_app. apply char_lacks in E; [rewrite E; reflexivity | apply K; lia].
  - rewrite lacks_app. apply char_lacks in E; [rewrite E; reflexivity | apply K; lia].
Qed.
Lemma remove_zeros_lacks c s : lacks c s = true -> lacks c (remove_zeros s) = true.
Proof.
  induction s as [| d r IH]; cbn [lacks remove_zeros]; [auto |]. destruct (Ascii.eqb d c) eqn:E; [discriminate |].
  intros H. destruct (Ascii.eqb d "0"); [auto |]. cbn [lacks]. rewrite E. auto.
Qed.
Lemma trim_plus_lacks c s : lacks c s = true -> lacks c (trim_plus s) = true.
Proof.
  induction s as [| d r IH]; cbn [lacks trim_plus]; [auto |]. destruct (Ascii.eqb d c) eqn:E; [discriminate |].
  intros H. destruct (Ascii.eqb d "+"); [auto |]. cbn [lacks]. rewrite E. auto.
Qed.
Lemma row_lacks a b c s : jf_row a b c = Done s -> lacks newline_char s = true.
Proof.
  unfold jf_row. destruct (jf_entry 120 a) as [x | |] eqn:X; try discriminate.
  destruct (jf_entry 121 b) as [y | |] eqn:Y; try discriminate.
  destruct (jf_entry 122 c) as [z | |] eqn:Z; try discriminate. cbn [obind]. intros H. apply Done_eq in H; subst s.
  apply trim_plus_lacks, remove_zeros_lacks. cbn [sconcat]. rewrite !lacks_app.
  rewrite (entry_lacks 120 _ _ ltac:(lia) X), (entry_lacks 121 _ _ ltac:(lia) Y), (entry_lacks 122 _ _ ltac:(lia) Z). reflexivity.
Qed.
Lemma translation_lacks v : lacks newline_char (jf_translation v) = true.
Proof.
  unfold jf_translation. cbv zeta. destruct (Z.compare _ 0); [reflexivity | apply frac_lacks |].
  rewrite lacks_app, frac_lacks. reflexivity.
Qed.
Lemma jones_lacks m s : jones m = Done s -> lacks newline_char s = true.
Proof.
  unfold jones, rotation_jf. destruct (jf_row (m11 (rot m)) _ _) as [a | |] eqn:A; try discriminate.
  destruct (jf_row (m21 (rot m)) _ _) as [b | |] eqn:B; try discriminate.
  destruct (jf_row (m31 (rot m)) _ _) as [c | |] eqn:C; try discriminate. cbn [obind]. intros H. apply Done_eq in H; subst s.
  apply lacks_join; [reflexivity |]. cbn [map combine vlist forallb fst snd].
  rewrite !lacks_app, (row_lacks _ _ _ _ A), (row_lacks _ _ _ _ B), (row_lacks _ _ _ _ C), !translation_lacks. reflexivity.
Qed.

(** ** Lists *)
Lemma omap_nth {A B} (f : A -> outcome B) l ys : omap f l = Done ys ->
  length ys = length l /\ forall i x, nth_error l i = Some x -> exists y, nth_error ys i = Some y /\ f x = Done y.
Proof.
  revert ys. induction l as [| a r IH]; cbn [omap]; intros ys H.
  - injection H as <-. split; [reflexivity |]. intros [| i] x E; discriminate.
  - destruct (f a) as [y | |] eqn:F; try discriminate. destruct (omap f r) as [rs | |]; try discriminate.
    cbn [obind] in H. injection H as <-. destruct (IH rs eq_refl) as [L N]. split; [cbn; lia |].
    intros [| i] x E; cbn in *; [injection E as <-; eauto | auto].
Qed.
Lemma omap_done {A B} (f : A -> outcome B) l : (forall x, In x l -> exists y, f x = Done y) -> exists ys, omap f l = Done ys.
Proof.
  induction l as [| a r IH]; cbn [omap]; intros H; [eauto |].
  destruct (H a (or_introl eq_refl)) as [y ->]. destruct IH as [ys ->]; [intros; apply H; now right |]. cbn [obind]. eauto.
Qed.
Lemma nth_blocks {A} k (bs : list (list A)) : (forall b, In b bs -> length b = k) ->
  length (List.concat bs) = length bs * k /\
  forall i b j, nth_error bs i = Some b -> j < k -> nth_error (List.concat bs) (i * k + j) = nth_error b j.
Proof.
  induction bs as [| a r IH]; intros H.
  - split; [reflexivity |]. intros [| i] b j E; discriminate.
  - destruct IH as [L N]; [intros; apply H; now right |].
    assert (length a = k) as La by (apply H; now left). cbn [List.concat]. rewrite app_length, L, La. split; [cbn; lia |].
    intros [| i] b j E Hj; cbn [nth_error] in E.
    + injection E as <-. rewrite Nat.mul_0_l, Nat.add_0_l. apply nth_error_app1. lia.
    + rewrite nth_error_app2 by lia. rewrite <- (N i b j E Hj). f_equal. lia.
Qed.
Lemma split_app_sep c a b : split_on c (a ++ String c b) = split_on c a ++ split_on c b.
Proof.
  induction a as [| d r IH]; cbn [append split_on].
  - now rewrite Ascii.eqb_refl.
  - rewrite IH. destruct (Ascii.eqb d c); [reflexivity |].
    destruct (split_on c r) as [| p ps] eqn:E; [| reflexivity].
    exfalso. destruct r as [| e r']; cbn [split_on] in E; [discriminate |].
    destruct (Ascii.eqb e c); [discriminate |]. destruct (split_on c r'); discriminate.
Qed.
Lemma split_join c a l : split_on c (sjoin (String c "") (a :: l)) = List.concat (map (split_on c) (a :: l)).
Proof.
  revert a. induction l as [| b r IH]; intros a.
  - cbn [sjoin map List.concat]. now rewrite app_nil_r.
  - change (sjoin (String c "") (a :: b :: r)) with (a ++ String c (sjoin (String c "") (b :: r)))%string.
    rewrite split_app_sep, IH. reflexivity.
Qed.
Lemma split_join_lines c a l : forallb (lacks c) (a :: l) = true -> split_on c (sjoin (String c "") (a :: l)) = a :: l.
Proof.
  rewrite split_join. intros H. assert (forall x, In x (a :: l) -> lacks c x = true) as K by (now apply forallb_forall).
  clear H. induction (a :: l) as [| x r IH]; [reflexivity |]. cbn [map List.concat].
  rewrite split_lacks by (apply K; now left). rewrite IH by (intros; apply K; now right). reflexivity.
Qed.

(** ** C35 *)
Lemma full_sets_nth g i : nth_error (derive_full_sets g) i =
  option_map (fun v => map (fun m => sz_addv m v) (gp_core g)) (nth_error (gp_lattice g) i).
Proof. apply nth_error_map. Qed.
Lemma nth_combine_eq {A B} (l : list A) (l' : list B) i a b :
  nth_error l i = Some a -> nth_error l' i = Some b -> nth_error (combine l l') i = Some (a, b).
Proof.
  revert l' i. induction l as [| x l IH]; intros [| y l'] [| i] H1 H2; cbn in *; try discriminate; auto; congruence.
Qed.
Lemma jones_done_iff m : (exists s, jones m = Done s) <-> exists l, rotation_jf (rot m) = Done l.
Proof.
  unfold jones. destruct (rotation_jf (rot m)); cbn [obind].
  - split; eauto. - split; intros [? ?]; discriminate. - split; intros [? ?]; discriminate.
Qed.
Lemma jones_entry m c v : rot m = rot c -> tra m = vadd (tra c) v -> jones m = jones (sz_addv c v).
Proof.
  intros R T. unfold jones, vlist. cbn [sz_addv rot tra vmap vx vy vz]. rewrite R, T. unfold rem12. change STBN with 12%Z.
  cbn [map]. now rewrite <- !jf_translation_rem.
Qed.
Lemma heading_lacks v : lacks newline_char (set_heading v) = true.
Proof. unfold set_heading. rewrite !lacks_app, !frac_lacks. reflexivity. Qed.
Lemma set_lines_spec n i set ls : set_lines n i set = Done ls ->
  length ls = length set /\ forallb (lacks newline_char) ls = true /\
  forall j m, nth_error set j = Some m -> exists s, jones m = Done s /\
    nth_error ls j = Some (Z_text (Z.of_nat (i * n + j + 1)) ++ ", " ++ s)%string.
Proof.
  intros H. unfold set_lines in H. destruct (omap_nth _ _ _ H) as [L N]. rewrite mapi_length in L.
  assert (P : forall j m, nth_error set j = Some m -> exists s, jones m = Done s /\
    nth_error ls j = Some (Z_text (Z.of_nat (i * n + j + 1)) ++ ", " ++ s)%string).
  { intros j m E. destruct (N j (j, m)) as (y & Ey & Fy); [rewrite nth_error_mapi, E; reflexivity |].
    cbn [fst snd] in Fy. destruct (jones m) as [s | |]; try discriminate. cbn [obind] in Fy.
    apply Done_eq in Fy. subst y. eauto. }
  split; [assumption | split; [| assumption]]. apply forallb_forall. intros x Hx.
  apply In_nth_error in Hx. destruct Hx as [j Ej].
  assert (j < length set) as Lj by (rewrite <- L; apply nth_error_Some; congruence).
  destruct (nth_error set j) as [m |] eqn:Em; [| apply nth_error_Some in Lj; congruence].
  destruct (P j m Em) as (s & Es & En). rewrite Ej in En. apply Some_eq in En. subst x.
  rewrite !lacks_app, Z_text_lacks, (jones_lacks _ _ Es). reflexivity.
Qed.
Definition block_of (g : gpos) (p : nat * list seitz * vec3) : outcome string :=
  obind (set_lines (num_of_general_pos g) (fst (fst p)) (snd (fst p))) (fun ls =>
    Done (sjoin newline [set_heading (snd p); sjoin newline ls])).
Lemma block_lines g p b : snd (fst p) <> [] -> block_of g p = Done b ->
  exists ls, set_lines (num_of_general_pos g) (fst (fst p)) (snd (fst p)) = Done ls /\
    split_on newline_char b = set_heading (snd p) :: ls.
Proof.
  unfold block_of. intros NE H. destruct (set_lines _ _ _) as [ls | |] eqn:S; try discriminate.
  cbn [obind] in H. apply Done_eq in H. subst b. exists ls. split; [reflexivity |].
  destruct (set_lines_spec _ _ _ _ S) as (L & K & _).
  change newline with (String newline_char ""). rewrite split_join. cbn [map List.concat].
  rewrite app_nil_r, (split_lacks _ (set_heading (snd p))) by apply heading_lacks.
  destruct ls as [| a r]; [destruct (snd (fst p)); [congruence | discriminate] |].
  rewrite split_join_lines by assumption. reflexivity.
Qed.
Lemma heading_fraction v : (0 <= v < 12)%Z -> fraction_text (frac12_text v) v.
Proof.
  intros H. unfold fraction_text.
  assert (v = 0 \/ v = 1 \/ v = 2 \/ v = 3 \/ v = 4 \/ v = 5 \/ v = 6 \/ v = 7 \/ v = 8 \/ v = 9 \/ v = 10 \/ v = 11)%Z as C by lia.
  repeat destruct C as [-> | C]; try subst v;
    (eexists; split; [vm_compute; reflexivity |]; cbn [lx ly lz lconst];
     split; [reflexivity | split; [reflexivity | split; [reflexivity | reflexivity]]]).
Qed.
(** every line of the text *)
Theorem C35_text_format_lines :
  forall g txt, gp_core g <> [] -> gp_lattice g <> [] -> (forall v, In v (gp_lattice g) -> vbetween 0 12 v) ->
  text_format g = Done txt ->
  let n := num_of_general_pos g in
  let lines := split_on newline_char txt in
  length lines = length (gp_lattice g) * (n + 1) /\
  (forall i v, nth_error (gp_lattice g) i = Some v -> exists a b c,
     nth_error lines (i * (n + 1)) = Some ("[" ++ a ++ ", " ++ b ++ ", " ++ c ++ "] + set")%string /\
     fraction_text a (vx v) /\ fraction_text b (vy v) /\ fraction_text c (vz v)) /\
  (forall i j m, entry g i j m -> exists num s,
     nth_error lines (i * (n + 1) + (1 + j)) = Some (num ++ ", " ++ s)%string /\
     number_value num = Some (Z.of_nat (i * n + j + 1)) /\ jones m = Done s).
Proof.
  intros g txt NC NL BL H n lines. unfold text_format in H.
  match type of H with obind (omap ?f ?l) _ = _ => change f with (block_of g) in H; set (ps := l) in H end.
  destruct (omap (block_of g) ps) as [bs | |] eqn:O; try discriminate. cbn [obind] in H. apply Done_eq in H.
  destruct (omap_nth _ _ _ O) as [LB NB].
  assert (Lps : length ps = length (gp_lattice g)).
  { unfold ps. rewrite combine_length, mapi_length. unfold derive_full_sets. rewrite map_length. lia. }
  assert (P : forall i v, nth_error (gp_lattice g) i = Some v ->
    nth_error ps i = Some (i, map (fun m => sz_addv m v) (gp_core g), v)).
  { intros i v E. unfold ps. apply nth_combine_eq; [| assumption].
    rewrite nth_error_mapi, full_sets_nth, E. reflexivity. }
  assert (NE : forall v, map (fun m => sz_addv m v) (gp_core g) <> []).
  { intros v. destruct (gp_core g); [congruence | discriminate]. }
  assert (EL : lines = List.concat (map (split_on newline_char) bs)).
  { unfold lines. rewrite <- H. change newline with (String newline_char "").
    destruct bs as [| b r]; [destruct (gp_lattice g); [congruence | cbn in *; lia] |]. apply split_join. }
  assert (B : forall i v, nth_error (gp_lattice g) i = Some v -> exists b ls, nth_error bs i = Some b /\
     set_lines n i (map (fun m => sz_addv m v) (gp_core g)) = Done ls /\
     split_on newline_char b = set_heading v :: ls /\ length ls = n).
  { intros i v E. destruct (NB i _ (P i v E)) as (b & Eb & Fb). exists b.
    destruct (block_lines g (i, map (fun m => sz_addv m v) (gp_core g), v) b (NE v) Fb) as (ls & S & Sp). exists ls. cbn [fst snd] in S, Sp.
    destruct (set_lines_spec _ _ _ _ S) as (L & _). rewrite map_length in L. auto. }
  assert (Lall : forall b, In b (map (split_on newline_char) bs) -> length b = n + 1).
  { intros b Hb. apply in_map_iff in Hb. destruct Hb as (x & <- & Hx). apply In_nth_error in Hx. destruct Hx as [i Ei].
    assert (i < length (gp_lattice g)) as Li by (rewrite <- Lps, <- LB; apply nth_error_Some; congruence).
    destruct (nth_error (gp_lattice g) i) as [v |] eqn:Ev; [| apply nth_error_Some in Li; congruence].
    destruct (B i v Ev) as (b & ls & Eb & _ & Es & L). assert (b = x) by congruence. subst b. rewrite Es. cbn [List.length]. lia. }
  destruct (nth_blocks (n + 1) _ Lall) as [LL NN]. rewrite <- EL in LL, NN. rewrite map_length, LB, Lps in LL.
  split; [assumption |]. split.
  - intros i v E. destruct (B i v E) as (b & ls & Eb & _ & Es & _).
    pose proof (NN i (split_on newline_char b) 0) as Q. rewrite nth_error_map, Eb in Q.
    specialize (Q eq_refl ltac:(lia)). rewrite Nat.add_0_r, Es in Q. cbn [nth_error] in Q.
    exists (frac12_text (vx v)), (frac12_text (vy v)), (frac12_text (vz v)).
    split; [exact Q |]. destruct (BL v (nth_error_In _ _ E)) as (X & Y & Z).
    auto using heading_fraction.
  - intros i j m (c & v & Ec & Ev & Er & Et). destruct (B i v Ev) as (b & ls & Eb & S & Es & L).
    destruct (set_lines_spec _ _ _ _ S) as (_ & _ & N).
    destruct (N j (sz_addv c v)) as (s & Js & Ns); [rewrite nth_error_map, Ec; reflexivity |].
    exists (Z_text (Z.of_nat (i * n + j + 1))), s.
    pose proof (NN i (split_on newline_char b) (1 + j)) as Q. rewrite nth_error_map, Eb in Q.
    assert (j < n) as Lj by (apply nth_error_Some; unfold n, num_of_general_pos; congruence).
    specialize (Q eq_refl ltac:(lia)). rewrite Es in Q. cbn [nth_error Nat.add] in Q.
    split; [cbn [Nat.add]; rewrite Q; exact Ns |]. split; [apply number_Z_text; lia |].
    rewrite <- Js. now apply jones_entry.
Qed.
(** the texts without numbers, in the same order *)
Theorem C35_pure_txt_entries :
  forall g l, pure_txt g = Done l ->
  let n := num_of_general_pos g in
  length l = length (gp_lattice g) * n /\
  forall i j m, entry g i j m -> exists s, jones m = Done s /\ nth_error l (i * n + j) = Some s.
Proof.
  intros g l H n. unfold pure_txt in H. destruct (omap _ _) as [bs | |] eqn:O; try discriminate.
  cbn [obind] in H. apply Done_eq in H. subst l. destruct (omap_nth _ _ _ O) as [LB NB].
  assert (Ld : length (derive_full_sets g) = length (gp_lattice g)) by (unfold derive_full_sets; apply map_length).
  assert (B : forall i v, nth_error (gp_lattice g) i = Some v -> exists b, nth_error bs i = Some b /\
     omap jones (map (fun m => sz_addv m v) (gp_core g)) = Done b /\ length b = n).
  { intros i v E. destruct (NB i (map (fun m => sz_addv m v) (gp_core g))) as (b & Eb & Fb).
    - rewrite full_sets_nth, E. reflexivity.
    - exists b. split; [assumption | split; [assumption |]]. destruct (omap_nth _ _ _ Fb) as [L _].
      now rewrite map_length in L. }
  assert (Lall : forall b, In b bs -> length b = n).
  { intros b Hb. apply In_nth_error in Hb. destruct Hb as [i Ei].
    assert (i < length (gp_lattice g)) as Li by (rewrite <- Ld, <- LB; apply nth_error_Some; congruence).
    destruct (nth_error (gp_lattice g) i) as [v |] eqn:Ev; [| apply nth_error_Some in Li; congruence].
    destruct (B i v Ev) as (b' & Eb & _ & L). congruence. }
  destruct (nth_blocks n _ Lall) as [LL NN]. split; [lia |].
  intros i j m (c & v & Ec & Ev & Er & Et). destruct (B i v Ev) as (b & Eb & Fb & L).
  destruct (omap_nth _ _ _ Fb) as [_ N].
  destruct (N j (sz_addv c v)) as (s & Ns & Js); [rewrite nth_error_map, Ec; reflexivity |].
  exists s. split; [rewrite <- Js; now apply jones_entry |].
  rewrite (NN i b j Eb); [assumption |]. apply nth_error_Some. unfold n, num_of_general_pos. congruence.
Qed.
(** both succeed exactly when every operation has a text; so for all entries -1, 0, 1 *)
Theorem C35_listing_defined :
  forall g, (forall m, In m (gp_core g) -> exists s, jones m = Done s) ->
  (exists txt, text_format g = Done txt) /\ (exists l, pure_txt g = Done l).
Proof.
  intros g H.
  assert (K : forall v m, In m (map (fun m => sz_addv m v) (gp_core g)) -> exists s, jones m = Done s).
  { intros v m Hm. apply in_map_iff in Hm. destruct Hm as (c & <- & Hc). apply jones_done_iff.
    cbn [sz_addv rot]. now apply jones_done_iff, H. }
  assert (K' : forall s m, In s (derive_full_sets g) -> In m s -> exists s, jones m = Done s).
  { intros s m Hs Hm. unfold derive_full_sets in Hs. apply in_map_iff in Hs. destruct Hs as (v & <- & _). eauto. }
  split.
  - unfold text_format.
    destruct (omap_done (block_of g) (combine (mapi_from (fun i s => (i, s)) 0 (derive_full_sets g)) (gp_lattice g))) as [ys E].
    + intros [[i s] v] Hp. apply in_combine_l in Hp. apply In_nth_error in Hp. destruct Hp as [k Ek].
      rewrite nth_error_mapi in Ek. destruct (nth_error (derive_full_sets g) k) as [s' |] eqn:Es; [| discriminate].
      cbn in Ek. injection Ek as <- <-. apply nth_error_In in Es. unfold block_of, set_lines. cbn [fst snd].
      match goal with |- context [omap ?f ?l] => destruct (omap_done f l) as [ls ->] end; [| cbn [obind]; eauto].
      intros [j m] Hm. apply In_nth_error in Hm. destruct Hm as [q Eq]. rewrite nth_error_mapi in Eq.
      destruct (nth_error s' q) as [m' |] eqn:Em; [| discriminate]. cbn in Eq. injection Eq as <- <-.
      cbn [fst snd]. destruct (K' s' m' Es (nth_error_In _ _ Em)) as [t ->]. cbn [obind]. eauto.
    + unfold block_of in E. rewrite E. cbn [obind]. eauto.
  - unfold pure_txt. destruct (omap_done (fun s => omap jones s) (derive_full_sets g)) as [ys ->]; [| cbn [obind]; eauto].
    intros s Hs. apply omap_done. intros m Hm. eauto.
Qed.
Theorem C35_unit_rotations_have_a_listing :
  forall g, (forall m, In m (gp_core g) -> unit_matrix (rot m)) ->
  (exists txt, text_format g = Done txt) /\ (exists l, pure_txt g = Done l).
Proof.
  intros g H. apply C35_listing_defined. intros m Hm. destruct (C22_text_reads_back m (H m Hm)) as (s & _ & E & _). eauto.
Qed.
Example C35_case :
  text_format (GP [V3 0 0 0; V3 0 6 6] [sz_identity; aff (M3 (-1) 0 0 0 (-1) 0 0 0 1) (V3 0 0 6)]) =
  Done (sjoin newline ["[0, 0, 0] + set"; "1, x,y,z"; "2, -x,-y,z+1/2"; "[0, 1/2, 1/2] + set"; "3, x,y+1/2,z+1/2"; "4, -x,-y+1/2,z"])%string.
Proof. vm_compute. reflexivity. Qed.
