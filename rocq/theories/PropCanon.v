(** * PropCanon: property C61: the exact written form of operations. *)
From Verif Require Import Base Notations Parser Seitz Jones Tables Generate Positions Spec SpecHall SpecXyz SpecCanon
  Algebra PropSeitz Restriction PropJones PropSymbols GenFacts PropGenerate.
Open Scope Z_scope.
Local Notation length := List.length.

Definition shift_ok (w : Z) : bool := String.eqb (jf_translation w) (shift_text w).
Lemma shifts_ok : forallb shift_ok rems = true.
Proof. vm_compute. reflexivity. Qed.
Lemma shift_canon v : jf_translation v = shift_text v.
Proof.
  pose proof (Z.rem_bound_abs v 12 ltac:(lia)) as W. rewrite jf_translation_rem.
  pose proof shifts_ok as K. rewrite forallb_forall in K. assert (I : In (Z.rem v 12) rems) by (apply rems_in; lia). specialize (K _ I).
  apply String.eqb_eq in K. rewrite K. unfold shift_text.
  assert (Z.rem (Z.rem v 12) 12 = Z.rem v 12) as -> by (apply Z.rem_small_iff; lia). reflexivity.
Qed.
Definition letters_ok (a b c : Z) : bool :=
  match jf_row a b c with Done s => String.eqb s (letters_text a b c) | _ => false end.
Lemma lettersb_ok : forallb (fun a => forallb (fun b => forallb (letters_ok a b) units) units) units = true.
Proof. vm_compute. reflexivity. Qed.
Lemma letters_canon a b c : -1 <= a <= 1 -> -1 <= b <= 1 -> -1 <= c <= 1 -> jf_row a b c = Done (letters_text a b c).
Proof.
  intros A B C. pose proof lettersb_ok as K. rewrite forallb_forall in K. specialize (K a (units_in a A)).
  rewrite forallb_forall in K. specialize (K b (units_in b B)).
  rewrite forallb_forall in K. specialize (K c (units_in c C)).
  unfold letters_ok in K. destruct (jf_row a b c); try discriminate. apply String.eqb_eq in K. congruence.
Qed.
Lemma app_assoc_s (a b c : string) : ((a ++ b) ++ c = a ++ (b ++ c))%string.
Proof. induction a; simpl; congruence. Qed.

(** ** C61 *)
(** whatever the translation, the text of an operation with matrix entries -1, 0, 1 is the
    one described in [SpecCanon] *)
Theorem C61_operation_text :
  forall m, unit_matrix (rot m) -> jones m = Done (operation_text (rot m) (tra m)).
Proof.
  intros m (U1 & U2 & U3 & U4 & U5 & U6 & U7 & U8 & U9).
  unfold jones, rotation_jf. rewrite !letters_canon by assumption.
  cbn [obind vlist map combine fst snd sjoin]. rewrite !shift_canon. unfold operation_text, coordinate_text.
  reflexivity.
Qed.
Theorem C61_rotation_text :
  forall m, unit_matrix (rot m) -> jones_rot m = Done (operation_text (rot m) (V3 0 0 0)).
Proof.
  intros m U. rewrite jones_rot_is_jones. exact (C61_operation_text (aff (rot m) v0) U).
Qed.
(** the three coordinates can be told apart again, and none is empty for an operation of a
    lattice *)
Definition rowsb (a b c : Z) : bool := (a =? 0) && (b =? 0) && (c =? 0) || negb (String.eqb (letters_text a b c) "").
Lemma rows_nonempty : forallb (fun a => forallb (fun b => forallb (rowsb a b) units) units) units = true.
Proof. vm_compute. reflexivity. Qed.
Theorem C61_no_empty_coordinate :
  forall m s, unit_matrix (rot m) -> unimodular (rot m) -> jones m = Done s ->
    exists x y z, split_on "," s = [x; y; z] /\ x <> ""%string /\ y <> ""%string /\ z <> ""%string.
Proof.
  intros m s U D E.
  assert (K : forall a b c t, -1 <= a <= 1 -> -1 <= b <= 1 -> -1 <= c <= 1 -> ~ (a = 0 /\ b = 0 /\ c = 0) ->
     coordinate_text a b c t <> ""%string).
  { intros a b c t A B C N. pose proof rows_nonempty as K. rewrite forallb_forall in K. specialize (K a (units_in a A)).
    rewrite forallb_forall in K. specialize (K b (units_in b B)).
    rewrite forallb_forall in K. specialize (K c (units_in c C)). unfold rowsb in K.
    apply orb_true_iff in K. destruct K as [K | K].
    - rewrite !andb_true_iff, !Z.eqb_eq in K. tauto.
    - apply negb_true_iff in K. apply String.eqb_neq in K. unfold coordinate_text.
      destruct (letters_text a b c); [congruence | discriminate]. }
  destruct U as (U1 & U2 & U3 & U4 & U5 & U6 & U7 & U8 & U9).
  destruct (coord_reads _ _ _ (vx (tra m)) U1 U2 U3) as (s1 & f1 & E1 & _ & _ & _ & _ & _ & L1).
  destruct (coord_reads _ _ _ (vy (tra m)) U4 U5 U6) as (s2 & f2 & E2 & _ & _ & _ & _ & _ & L2).
  destruct (coord_reads _ _ _ (vz (tra m)) U7 U8 U9) as (s3 & f3 & E3 & _ & _ & _ & _ & _ & L3).
  exists (coordinate_text (m11 (rot m)) (m12 (rot m)) (m13 (rot m)) (vx (tra m))),
    (coordinate_text (m21 (rot m)) (m22 (rot m)) (m23 (rot m)) (vy (tra m))),
    (coordinate_text (m31 (rot m)) (m32 (rot m)) (m33 (rot m)) (vz (tra m))).
  rewrite letters_canon in E1, E2, E3 by assumption.
  injection E1 as <-. injection E2 as <-. injection E3 as <-. rewrite !shift_canon in *.
  rewrite C61_operation_text in E by (repeat split; lia). injection E as <-.
  split.
  - unfold operation_text, coordinate_text in *. cbn [append].
    rewrite split_app, split_app, split_lacks by assumption. reflexivity.
  - unfold unimodular, mdet in D. repeat split; apply K; auto; intros (A & B & C); rewrite A, B, C in D; lia.
Qed.
(** *** texts made of ASCII characters only come from entries -1, 0, 1 *)
Fixpoint asciib (s : string) : bool :=
  match s with EmptyString => true | String c r => Nat.ltb (nat_of_ascii c) 128 && asciib r end.
Lemma asciib_app a b : asciib (a ++ b) = asciib a && asciib b.
Proof. induction a as [| c a IH]; simpl; [reflexivity |]. rewrite IH. apply andb_assoc. Qed.
Lemma asciib_zeros s : asciib (remove_zeros s) = asciib s.
Proof.
  induction s as [| c s IH]; cbn [remove_zeros]; [reflexivity |].
  destruct (Ascii.eqb_spec c "0"%char) as [-> |]; cbn [asciib]; rewrite IH; reflexivity.
Qed.
Lemma asciib_plus s : asciib (trim_plus s) = asciib s.
Proof.
  induction s as [| c s IH]; cbn [trim_plus]; [reflexivity |].
  destruct (Ascii.eqb_spec c "+"%char) as [-> |]; cbn [asciib]; [rewrite IH |]; reflexivity.
Qed.
Lemma nat_of_byte z : 0 <= z < 256 -> nat_of_ascii (byte z) = Z.to_nat z.
Proof. intros H. unfold byte. apply nat_ascii_embedding. lia. Qed.
Lemma lead_byte z r : 128 <= z < 256 -> asciib (String (byte z) r) = false.
Proof.
  intros H. cbn [asciib]. rewrite nat_of_byte by lia.
  destruct (Nat.ltb_spec (Z.to_nat z) 128); [lia | reflexivity].
Qed.
Lemma some_inj {A} (a b : A) : Some a = Some b -> a = b. Proof. congruence. Qed.
Lemma char_ascii v s : 128 <= v -> char_utf8 v = Some s -> asciib s = false.
Proof.
  intros V. unfold char_utf8. destruct (Z.ltb_spec v 128); [lia |].
  destruct (Z.ltb_spec v 2048).
  { intros E. apply some_inj in E; subst s. apply lead_byte. pose proof (Z.div_mod v 64 ltac:(lia)). pose proof (Z.mod_pos_bound v 64 ltac:(lia)). lia. }
  destruct (Z.ltb_spec v 65536).
  { destruct (_ && _); [discriminate |]. intros E. apply some_inj in E; subst s. apply lead_byte.
    pose proof (Z.div_mod v 4096 ltac:(lia)). pose proof (Z.mod_pos_bound v 4096 ltac:(lia)). lia. }
  destruct (Z.leb_spec v 1114111); [| discriminate].
  intros E. apply some_inj in E; subst s. apply lead_byte.
  pose proof (Z.div_mod v 262144 ltac:(lia)). pose proof (Z.mod_pos_bound v 262144 ltac:(lia)). lia.
Qed.
Lemma done_inj {A} (a b : A) : Done a = Done b -> a = b. Proof. congruence. Qed.
Lemma entry_ascii code v s : 120 <= code <= 122 -> jf_entry code v = Done s -> asciib s = true -> -1 <= v <= 1.
Proof.
  intros C H A. unfold jf_entry in H. destruct (char_utf8 (Z.abs (code * v))) as [t|] eqn:E; [| discriminate].
  assert (L : Z.abs (code * v) < 128 \/ 128 <= Z.abs (code * v)) by lia.
  destruct L as [L | L]; [nia |]. pose proof (char_ascii _ _ L E) as N. apply done_inj in H. subst s.
  destruct (code * v ?= 0) eqn:K.
  - apply Z.compare_eq in K. lia.
  - cbn [append asciib] in A. apply andb_true_iff in A. destruct A. congruence.
  - cbn [append asciib] in A. apply andb_true_iff in A. destruct A. congruence.
Qed.
Lemma row_ascii a b c s : jf_row a b c = Done s -> asciib s = true -> -1 <= a <= 1 /\ -1 <= b <= 1 /\ -1 <= c <= 1.
Proof.
  unfold jf_row. intros H A. apply obind_Done in H. destruct H as (x & X & H). apply obind_Done in H. destruct H as (y & Y & H).
  apply obind_Done in H. destruct H as (z & Z0 & H). injection H as <-.
  rewrite asciib_plus, asciib_zeros in A. cbn [sconcat] in A. rewrite !asciib_app, !andb_true_iff in A.
  destruct A as (A1 & A2 & A3 & _).
  split; [apply (entry_ascii 120 a x); auto; lia |]. split; [apply (entry_ascii 121 b y); auto; lia | apply (entry_ascii 122 c z); auto; lia].
Qed.
Lemma text_ascii m s : jones_rot m = Done s -> asciib s = true -> unit_matrix (rot m).
Proof.
  unfold jones_rot, rotation_jf. intros H A. apply obind_Done in H. destruct H as (l & H & E). injection E as <-.
  apply obind_Done in H. destruct H as (x & X & H). apply obind_Done in H. destruct H as (y & Y & H).
  apply obind_Done in H. destruct H as (z & Z0 & H). injection H as <-.
  cbn [sjoin] in A. rewrite !asciib_app, !andb_true_iff in A.
  pose proof (row_ascii _ _ _ _ X ltac:(tauto)). pose proof (row_ascii _ _ _ _ Y ltac:(tauto)).
  pose proof (row_ascii _ _ _ _ Z0 ltac:(tauto)). unfold unit_matrix. tauto.
Qed.
(** every position the library lists has matrix entries -1, 0, 1, so is written this way *)
Theorem C61_listed_positions :
  forall fuel h g, general_positions fuel h = Done g -> forall m, In m (gp_core g) ->
    unit_matrix (rot m) /\ jones m = Done (operation_text (rot m) (tra m)).
Proof.
  intros fuel h g H m Hm.
  assert (U : unit_matrix (rot m)).
  { destruct (general_positions_spec _ _ _ H) as (_ & l & Hl & Hs & P).
    destruct (generate_unsorted_spec _ _ _ Hl) as (mp & _ & _ & (r & Er) & _).
    apply (Permutation.Permutation_in _ (Permutation.Permutation_sym P)) in Hm.
    destruct r as [| b r].
    - subst l. destruct Hm as [<- | []]. unfold unit_matrix; cbn; lia.
    - destruct (h_syms h) as [| ms rest] eqn:Es.
      { destruct (C30_no_symbols_panics h l Es) as (w & W). congruence. }
      destruct (order_index (table_for ms) m) as [k | w |] eqn:K.
      + apply order_index_rank in K. destruct K as (s & J & N & _).
        apply (text_ascii m s J). apply nth_error_In in N.
        assert (T : forallb asciib (table_for ms) = true).
        { unfold table_for. destruct (ms_fold ms), (ms_diag ms); vm_compute; reflexivity. }
        rewrite forallb_forall in T. apply T, N.
      + exfalso. assert (W : exists w, sort_positions h l = Panic w).
        { apply (C30_sort_panics_iff h ms rest l Es). split; [subst l; simpl; lia |].
          exists m. split; auto. intros q Q. apply order_index_rank in Q. congruence. }
        destruct W as (w' & W). congruence.
      + exfalso. revert K. unfold order_index, jones_rot, rotation_jf, jf_row, jf_entry.
        repeat (match goal with |- context [match char_utf8 ?x with _ => _ end] => destruct (char_utf8 x) end; cbn [obind]; try discriminate).
        destruct (position _ _); discriminate. }
  split; auto. apply C61_operation_text, U.
Qed.
Example C61_case :
  unit_matrix (M3 0 (-1) 0 1 (-1) 0 0 0 (-1)) /\ unimodular (M3 0 (-1) 0 1 (-1) 0 0 0 (-1)) /\
  operation_text (M3 0 (-1) 0 1 (-1) 0 0 0 (-1)) (V3 8 (-3) 18) = "-y+2/3,x-y-1/4,-z+1/2"%string.
Proof. split; [unfold unit_matrix; cbn; lia |]. split; [unfold unimodular; vm_compute; auto | vm_compute; reflexivity]. Qed.
(** an all-zero matrix row, which no lattice operation has, keeps the plus sign of its shift *)
Example C61_zero_row : jones (aff (M3 0 0 0 0 1 0 0 0 1) (V3 6 0 0)) = Done "+1/2,y,z"%string.
Proof. vm_compute. reflexivity. Qed.
