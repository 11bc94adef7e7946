(** * PropSymbols: properties C06, C07, C08, C20, C24, C47 — symbols and their matrices. *)
From Coq Require Import Permutation.
From Verif Require Import Base Notations Seitz F64 Rotations Spec Algebra.
Open Scope Z_scope.

(** ** Specification vocabulary: what the parts of a symbol mean *)
(** the number N of an N-fold symbol *)
Definition fold_number (f : nfold) : nat :=
  match f with FInvalid => 0 | F1 => 1 | F2 => 2 | F3 => 3 | F4 => 4 | F6 => 6 end.
(** the subscript M of N_M *)
Definition sub_number (s : nfold_sub) : Z :=
  match s with SubNone => 0 | Sub1 => 1 | Sub2 => 2 | Sub3 => 3 | Sub4 => 4 | Sub5 => 5 end.
(** basis vector of a principal axis *)
Definition axis_vector (a : rot_axis) : vec3 :=
  match a with
  | AxX => V3 1 0 0 | AxY => V3 0 1 0 | AxZ => V3 0 0 1 | AxOmitted => V3 0 0 0
  end.
(** Hall's directions: principal axis; the face diagonals marked by a single or a double
    quote in the plane normal to the axis (a-b and a+b for c, b-c and b+c for a, a-c and
    a+c for b); the body diagonal a+b+c marked by an asterisk *)
Definition direction (d : nfold_diag) (a : rot_axis) : vec3 :=
  match d, a with
  | DiagNone, _ => axis_vector a
  | SingleQuote, AxX => V3 0 1 (-1) | SingleQuote, AxY => V3 1 0 (-1) | SingleQuote, AxZ => V3 1 (-1) 0
  | DoubleQuote, AxX => V3 0 1 1 | DoubleQuote, AxY => V3 1 0 1 | DoubleQuote, AxZ => V3 1 1 0
  | Asterisk, _ => V3 1 1 1
  | _, AxOmitted => V3 0 0 0
  end.
(** combinations of fold and direction that exist in Hall's notation *)
Definition direction_defined (f : nfold) (d : nfold_diag) (a : rot_axis) : Prop :=
  match f with
  | FInvalid => False
  | F1 => True
  | F2 => a <> AxOmitted /\ d <> Asterisk
  | F3 => (d = DiagNone /\ a <> AxOmitted) \/ d = Asterisk
  | F4 | F6 => d = DiagNone /\ a <> AxOmitted
  end.
(** the subscripts the code accepts *)
Definition screw_accepted (f : nfold) (s : nfold_sub) (a : rot_axis) : Prop :=
  s = SubNone \/ f = F1 \/ f = F2 \/
  (a <> AxOmitted /\ sub_number s < Z.of_nat (fold_number f)
   /\ 2 * sub_number s <> Z.of_nat (fold_number f)).
Definition parallel (u v : vec3) : Prop :=
  vx u * vy v = vy u * vx v /\ vy u * vz v = vz u * vy v /\ vx u * vz v = vz u * vx v.
(** rotation type with given handedness and fold *)
Definition type_named (minus : bool) (f : nfold) : option rot_type :=
  match minus, f with
  | false, F1 => Some RE | false, F2 => Some RN2 | false, F3 => Some RN3
  | false, F4 => Some RN4 | false, F6 => Some RN6
  | true, F1 => Some RI | true, F2 => Some RM | true, F3 => Some RM3
  | true, F4 => Some RM4 | true, F6 => Some RM6
  | _, FInvalid => None
  end.
Definition without_letters (m : msym) : msym :=
  MS (ms_minus m) (ms_fold m) (ms_sub m) (ms_diag m) (ms_axis m) None.
(** the proper rotation behind a (possibly improper) rotation part *)
Definition proper_part (minus : bool) (R : mat3) : mat3 := if minus then mopp R else R.

(** ** C06 *)
Theorem C06_defined_iff :
  forall ms, (exists m, seitz_matrix ms = Some m) <->
    direction_defined (ms_fold ms) (ms_diag ms) (ms_axis ms)
    /\ screw_accepted (ms_fold ms) (ms_sub ms) (ms_axis ms).
Proof.
  intros [mi f s d a trs]. unfold screw_accepted, seitz_matrix, get_rotation_matrix. cbn [ms_fold ms_sub ms_diag ms_axis ms_minus ms_trs].
  destruct f, d, a; cbn; (destruct s; cbn; (split;
    [ intros [m H]; try discriminate; split; first [tauto | intuition congruence | intuition (discriminate || lia)]
    | intros [H1 H2];
      first [ eexists; reflexivity
            | exfalso; clear trs mi;
              repeat match goal with H : _ \/ _ |- _ => destruct H | H : _ /\ _ |- _ => destruct H end;
              first [congruence | discriminate | contradiction | lia ] ] ])).
Qed.

Lemma seitz_matrix_letters ms :
  seitz_matrix ms =
  option_map (fun m => match ms_trs ms with
                       | Some l => Sz (rot m) (vadd (tra m) (vmap letter_mod (letter_sum l))) (bot m) (cor m)
                       | None => m end)
    (seitz_matrix (without_letters ms)).
Proof.
  destruct ms as [mi f s d a [l|]]; unfold without_letters, seitz_matrix; cbn [ms_trs ms_minus].
  - change (get_rotation_matrix (MS mi f s d a (Some l))) with (get_rotation_matrix (MS mi f s d a None)).
    cbn [ms_fold ms_sub ms_diag ms_axis].
    destruct (get_rotation_matrix (MS mi f s d a None)) as [s0 |]; [| reflexivity].
    change (set_transform (MS mi f s d a (Some l)) s0) with (set_transform (MS mi f s d a None) s0).
    destruct (set_transform (MS mi f s d a None) s0); [| reflexivity].
    unfold set_translation_from_symbols; cbn [ms_trs option_map]. destruct mi; reflexivity.
  - destruct (get_rotation_matrix _); [| reflexivity]. destruct (set_transform _ _); reflexivity.
Qed.

Theorem C06_matrix_of_symbol :
  forall ms m, seitz_matrix ms = Some m ->
    is_affine m /\
    mdet (rot m) = (if ms_minus ms then -1 else 1) /\
    has_order (proper_part (ms_minus ms) (rot m)) (fold_number (ms_fold ms)) /\
    rotation_type m = type_named (ms_minus ms) (ms_fold ms).
Proof.
  intros ms m H. rewrite seitz_matrix_letters in H.
  assert (G : exists m', seitz_matrix (without_letters ms) = Some m' /\ rot m = rot m' /\ bot m = bot m' /\ cor m = cor m').
  { destruct (seitz_matrix (without_letters ms)) as [m'|]; [| discriminate]. exists m'.
    cbn in H. destruct (ms_trs ms); injection H as <-; auto. }
  destruct G as (m' & G & Er & Eb & Ec). unfold is_affine, rotation_type, sz_det, sz_trace.
  rewrite Er, Eb, Ec. clear H m Er Eb Ec.
  destruct ms as [mi f s d a trs]; cbn [ms_minus ms_fold without_letters ms_sub ms_diag ms_axis ms_trs] in *.
  unfold without_letters in G; cbn [ms_minus ms_fold ms_sub ms_diag ms_axis ms_trs] in G. clear trs.
  destruct f, d, a; try discriminate; (destruct s; try discriminate; destruct mi;
    injection G as <-; (split; [split; reflexivity | split; [reflexivity | split;
      [ split; [cbn; lia | split; [reflexivity |]];
        cbn [fold_number]; intros k Hk;
        (destruct k as [|[|[|[|[|[|k]]]]]]; try lia); discriminate
      | vm_compute; reflexivity]]])).
Qed.

Lemma form_square x y : x <> 0 \/ y <> 0 -> 0 < x * x + y * y. Proof. nia. Qed.
Lemma form_hex x y : x <> 0 \/ y <> 0 -> 0 < x * x - x * y + y * y. Proof. nia. Qed.
(** the proper part fixes Hall's direction; for folds 3, 4, 6 it turns anti-clockwise *)
Theorem C06_axis_and_sense :
  forall ms m, seitz_matrix ms = Some m -> ms_fold ms <> F1 ->
    let R := proper_part (ms_minus ms) (rot m) in
    let v := direction (ms_diag ms) (ms_axis ms) in
    v <> V3 0 0 0 /\ mvmul R v = v /\
    (ms_fold ms <> F2 -> forall u, ~ parallel u v -> 0 < mdet (cols v u (mvmul R u))).
Proof.
  intros ms m H Hf R v. subst R. rewrite seitz_matrix_letters in H.
  assert (G : exists m', seitz_matrix (without_letters ms) = Some m' /\ rot m = rot m').
  { destruct (seitz_matrix (without_letters ms)) as [m'|]; [| discriminate]. exists m'.
    cbn in H. destruct (ms_trs ms); injection H as <-; auto. }
  destruct G as (m' & G & Er). subst v. rewrite Er. clear H m Er.
  destruct ms as [mi f s d a trs]; cbn [ms_minus ms_fold ms_sub ms_diag ms_axis ms_trs] in *.
  unfold without_letters in G; cbn [ms_minus ms_fold ms_sub ms_diag ms_axis ms_trs] in G. clear trs.
  destruct f; try congruence; try discriminate;
  (destruct d, a; try discriminate; (destruct s; try discriminate; destruct mi;
    injection G as <-; (split; [discriminate | split; [reflexivity |]]);
    intros Hf2; try congruence; clear Hf Hf2;
    intros [p q r] Hp; unfold parallel, direction, axis_vector in Hp;
    cbn [m11 m12 m13 m21 m22 m23 m31 m32 m33 vx vy vz] in Hp;
    match goal with |- context [mvmul ?R _] => let R' := eval vm_compute in R in change R with R' end;
    unfold mdet, cols, mvmul, direction, axis_vector;
    cbn [m11 m12 m13 m21 m22 m23 m31 m32 m33 vx vy vz];
    first [ pose proof (form_square p q ltac:(lia)); lia | pose proof (form_square q r ltac:(lia)); lia
          | pose proof (form_square p r ltac:(lia)); lia
          | pose proof (form_hex p q ltac:(lia)); lia | pose proof (form_hex q r ltac:(lia)); lia
          | pose proof (form_hex p r ltac:(lia)); lia
          | pose proof (form_hex (p - q) (r - q) ltac:(lia)); lia ])).
Qed.
Example C06_example :    (* -6_1 is rejected, -6 along z is accepted; -4_1 with letters too *)
  seitz_matrix (MS true F4 Sub1 DiagNone AxZ (Some [TB; TD])) =
    Some (aff (M3 0 1 0 (-1) 0 0 0 0 (-1)) (V3 3 9 6)) /\
  seitz_matrix (MS false F6 Sub3 DiagNone AxZ None) = None.
Proof. split; reflexivity. Qed.

(** ** C07 *)
Theorem C07_screw_translation :
  forall ms m, seitz_matrix ms = Some m -> ms_trs ms = None ->
    ms_fold ms <> F1 -> ms_fold ms <> F2 ->
    tra m = vscale (12 * sub_number (ms_sub ms) / Z.of_nat (fold_number (ms_fold ms)))
                   (axis_vector (ms_axis ms))
    /\ (12 * sub_number (ms_sub ms)) mod Z.of_nat (fold_number (ms_fold ms)) = 0.
Proof.
  intros [mi f s d a trs] m H Ht. cbn [ms_trs] in Ht. subst trs.
  cbn [ms_sub ms_fold ms_axis] in *. intros F1' F2'.
  destruct f; try congruence; try discriminate;
  (destruct d, a; try discriminate; (destruct s; try discriminate; destruct mi; injection H as <-; split; reflexivity)).
Qed.
(** for valid directions the rejected subscripts are those with M >= N, the two genuine
    screws 4_2 and 6_3, and any subscript on a body-diagonal 3* without axis *)
Theorem C07_rejected_iff :
  forall ms, direction_defined (ms_fold ms) (ms_diag ms) (ms_axis ms) ->
    (seitz_matrix ms = None <->
     (ms_sub ms <> SubNone /\ (ms_fold ms = F3 \/ ms_fold ms = F4 \/ ms_fold ms = F6) /\
      (ms_axis ms = AxOmitted \/ Z.of_nat (fold_number (ms_fold ms)) <= sub_number (ms_sub ms)
       \/ (ms_fold ms = F4 /\ ms_sub ms = Sub2) \/ (ms_fold ms = F6 /\ ms_sub ms = Sub3)))).
Proof.
  intros ms Hd.
  assert (E : seitz_matrix ms = None <-> ~ exists m, seitz_matrix ms = Some m).
  { destruct (seitz_matrix ms); split; intros H; try discriminate; auto.
    - exfalso; apply H; eauto. - intros [? ?]; discriminate. }
  rewrite E, C06_defined_iff. clear E. destruct ms as [mi f s d a trs].
  unfold screw_accepted; cbn [ms_fold ms_diag ms_axis ms_sub] in *.
  split.
  - intros H. assert (H' : ~ (s = SubNone \/ f = F1 \/ f = F2 \/
       (a <> AxOmitted /\ sub_number s < Z.of_nat (fold_number f)
        /\ 2 * sub_number s <> Z.of_nat (fold_number f)))) by tauto.
    clear H. destruct f, s; cbn in *; try tauto; (split; [discriminate |]); (split; [tauto |]);
      destruct a; try tauto;
      try (right; first [left; lia | right; tauto]);
      exfalso; apply H'; right; right; right; (split; [discriminate | lia]).
  - intros (H1 & H2 & H3) [_ H]. clear Hd d trs mi.
    destruct H as [H | [H | [H | (Ha & Hlt & Hne)]]]; [congruence | | |];
      try (subst f; destruct H2 as [K | [K | K]]; discriminate).
    destruct H3 as [K | [K | [[-> ->] | [-> ->]]]]; [congruence | lia | |]; cbn in Hne; lia.
Qed.
(** the crystallographically valid screws 4_2 and 6_3 are rejected, and 2_1 is read as 2 *)
Theorem C07_valid_screws_refuted :
  (forall mi a l, seitz_matrix (MS mi F4 Sub2 DiagNone a l) = None) /\
  (forall mi a l, seitz_matrix (MS mi F6 Sub3 DiagNone a l) = None) /\
  (forall mi s d a l, seitz_matrix (MS mi F2 s d a l) = seitz_matrix (MS mi F2 SubNone d a l)).
Proof.
  split; [| split]; intros.
  - destruct a; reflexivity. - destruct a; reflexivity. - destruct d, a; reflexivity.
Qed.
Example C07_example : exists m, seitz_matrix (MS false F6 Sub5 DiagNone AxZ None) = Some m
  /\ tra m = V3 0 0 10.
Proof. eexists; split; reflexivity. Qed.

(** ** C08 *)
Fixpoint letter_count (p : tsym -> bool) (l : list tsym) : Z :=
  match l with [] => 0 | t :: r => (if p t then 1 else 0) + letter_count p r end.
(** Hall's meaning of the letters: a b c are half translations, n half along all three,
    u v w quarter translations, d quarter along all three (in twelfths) *)
Definition letters_meaning (l : list tsym) : vec3 :=
  let n p := letter_count p l in
  let half p := 6 * n p in let quarter p := 3 * n p in
  V3 (half (fun t => match t with TA | TN => true | _ => false end)
      + quarter (fun t => match t with TU | TD => true | _ => false end))
     (half (fun t => match t with TB | TN => true | _ => false end)
      + quarter (fun t => match t with TV | TD => true | _ => false end))
     (half (fun t => match t with TC | TN => true | _ => false end)
      + quarter (fun t => match t with TW | TD => true | _ => false end)).
Lemma letter_sum_meaning l : letter_sum l = letters_meaning l.
Proof.
  unfold letter_sum.
  assert (G : forall acc, fold_left vadd (map translation_vector l) acc = vadd acc (letters_meaning l)).
  { induction l as [| t l IH]; intros acc.
    - unfold letters_meaning; simpl. symmetry. apply vadd_0_r.
    - simpl fold_left. rewrite IH. destruct acc as [x y z]. unfold letters_meaning.
      cbn [letter_count]. destruct t; unfold translation_vector, vadd, v0; mat_cbn;
        apply vec3_ext; mat_cbn; ring. }
  rewrite G. apply vadd_0_l.
Qed.
Lemma letter_mod_spec v : 0 <= letter_mod v < 12 /\ cong12 (letter_mod v) v.
Proof.
  unfold letter_mod. destruct (Z.leb_spec 0 v), (Z.ltb_spec v 12); cbn [andb negb];
    try (split; [lia | apply cong12_refl]);
    change (Z.rem v 12) with (rem12 v); pose proof (rem12_bound v); pose proof (cong12_rem v) as [k K];
    (destruct (Z.ltb_spec (rem12 v) 0); [split; [unfold STBN; lia | exists (k + 1); unfold STBN; lia]
                                        | split; [lia | exists k; lia]]).
Qed.
Theorem C08_letters_add_up :
  forall ms m l, seitz_matrix ms = Some m -> ms_trs ms = Some l ->
    exists m0 w, seitz_matrix (without_letters ms) = Some m0 /\
      rot m = rot m0 /\ tra m = vadd (tra m0) w /\
      vcong12 w (letters_meaning l) /\ vbetween 0 12 w.
Proof.
  intros ms m l H Hl. rewrite seitz_matrix_letters, Hl in H.
  destruct (seitz_matrix (without_letters ms)) as [m0|]; [| discriminate]. cbn in H. injection H as <-.
  exists m0, (vmap letter_mod (letter_sum l)). rewrite letter_sum_meaning. repeat split; simpl;
    apply letter_mod_spec.
Qed.
Theorem C08_letter_order_irrelevant :
  forall mi f s d a l l', Permutation l l' ->
    seitz_matrix (MS mi f s d a (Some l)) = seitz_matrix (MS mi f s d a (Some l')).
Proof.
  intros * P. rewrite (seitz_matrix_letters (MS mi f s d a (Some l))), (seitz_matrix_letters (MS mi f s d a (Some l'))).
  unfold without_letters; cbn [ms_minus ms_fold ms_sub ms_diag ms_axis ms_trs].
  assert (E : letter_sum l = letter_sum l').
  { rewrite !letter_sum_meaning. unfold letters_meaning.
    assert (C : forall p, letter_count p l = letter_count p l').
    { intros p. induction P; simpl; lia. }
    rewrite !C. reflexivity. }
  rewrite E. reflexivity.
Qed.
Theorem C08_letters_never_rejected :
  forall mi f s d a o, seitz_matrix (MS mi f s d a o) = None <-> seitz_matrix (MS mi f s d a None) = None.
Proof.
  intros. rewrite (seitz_matrix_letters (MS mi f s d a o)). unfold without_letters; cbn [ms_minus ms_fold ms_sub ms_diag ms_axis ms_trs].
  destruct (seitz_matrix (MS mi f s d a None)); cbn; split; discriminate || auto.
Qed.
Example C08_example : exists m, seitz_matrix (MS false F4 Sub3 DiagNone AxZ (Some [TC; TN; TW; TU])) = Some m
  /\ tra m = V3 9 6 12.
Proof. eexists; split; reflexivity. Qed.

(** ** C20 *)
Definition all_types : list rot_type := [RE; RN2; RN3; RN4; RN6; RI; RM; RM3; RM4; RM6].
Lemma all_types_complete t : In t all_types.
Proof. destruct t; simpl; tauto. Qed.
Theorem C20_equal_iff_same : forall a b, rtype_cmp a b = Eq <-> a = b.
Proof. destruct a, b; split; intros H; try discriminate; reflexivity. Qed.
Theorem C20_identity_first :
  forall a, a <> RE -> rtype_cmp RE a = Lt /\ rtype_cmp a RE = Gt.
Proof. destruct a; intros H; split; try reflexivity; congruence. Qed.
(** the pairs on which both "a < b" and "b < a" (or both ">") are answered *)
Definition both_less : list (rot_type * rot_type) :=
  [(RN2, RN4); (RN2, RN6); (RN2, RM3); (RN2, RM4); (RN2, RM6);
   (RN3, RN4); (RN3, RN6); (RN3, RM4); (RN3, RM6); (RN6, RM6)].
Definition both_greater : list (rot_type * rot_type) :=
  [(RN3, RI); (RN3, RM); (RN3, RM3)].
Theorem C20_antisymmetry_violations :
  forall a b, rtype_cmp b a = CompOpp (rtype_cmp a b) <->
    ~ (In (a, b) both_less \/ In (b, a) both_less \/ In (a, b) both_greater \/ In (b, a) both_greater).
Proof.
  intros a b.
  assert (D : forall l, {In (a, b) l} + {~ In (a, b) l}).
  { apply in_dec. decide equality; decide equality. }
  destruct a, b; cbn; split; intros H; try reflexivity; try discriminate;
    try (intros K; repeat match goal with K : _ \/ _ |- _ => destruct K end; congruence || contradiction);
    exfalso; apply H; tauto.
Qed.
Theorem C20_not_total_order_refuted :
  (rtype_cmp RN3 RN4 = Lt /\ rtype_cmp RN4 RN3 = Lt) /\
  (rtype_cmp RM RM3 = Gt /\ rtype_cmp RM3 RN3 = Gt /\ rtype_cmp RN3 RM = Gt).
Proof. repeat split. Qed.

(** ** C24 *)
Theorem C24_centring_group :
  forall l,
    In (V3 0 0 0) (translations l) /\
    NoDup (translations l) /\
    (forall v, In v (translations l) -> vbetween 0 12 v) /\
    (forall v w, In v (translations l) -> In w (translations l) ->
       exists u, In u (translations l) /\ vcong12 u (vadd v w)) /\
    (forall v, In v (translations l) -> exists u, In u (translations l) /\ vcong12 u (vopp v)) /\
    num_of_translations l = List.length (translations l).
Proof.
  intros l. split; [destruct l; simpl; tauto |].
  split; [destruct l; repeat (constructor; [cbn; intuition discriminate |]); constructor |].
  split.
  { intros v H; destruct l; cbn in H; intuition subst; unfold vbetween; cbn; lia. }
  split.
  { intros v w Hv Hw.
    assert (D : forall u, In u (translations l) ->
              (exists a b c, vx u - (vx v + vx w) = 12 * a /\ vy u - (vy v + vy w) = 12 * b
                             /\ vz u - (vz v + vz w) = 12 * c) ->
              exists u, In u (translations l) /\ vcong12 u (vadd v w)).
    { intros u Hu (a & b & c & ? & ? & ?). exists u. split; auto.
      split; [exists a; auto | split; [exists b; auto | exists c; auto]]. }
    assert (E : existsb (fun u => (Z.rem (vx u - (vx v + vx w)) 12 =? 0) && (Z.rem (vy u - (vy v + vy w)) 12 =? 0)
              && (Z.rem (vz u - (vz v + vz w)) 12 =? 0)) (translations l) = true).
    { destruct l; cbn in Hv, Hw;
      repeat match goal with H : _ \/ _ |- _ => destruct H end; subst; try contradiction; reflexivity. }
    apply existsb_exists in E. destruct E as (u & Hu & E). rewrite !andb_true_iff, !Z.eqb_eq in E.
    destruct E as [[E1 E2] E3]. apply Z.rem_divide in E1, E2, E3; try lia.
    destruct E1 as [a E1], E2 as [b E2], E3 as [c E3]. apply (D u Hu). exists a, b, c. lia. }
  split.
  { intros v Hv.
    assert (E : existsb (fun u => (Z.rem (vx u + vx v) 12 =? 0) && (Z.rem (vy u + vy v) 12 =? 0)
              && (Z.rem (vz u + vz v) 12 =? 0)) (translations l) = true).
    { destruct l; cbn in Hv;
      repeat match goal with H : _ \/ _ |- _ => destruct H end; subst; try contradiction; reflexivity. }
    apply existsb_exists in E. destruct E as (u & Hu & E). rewrite !andb_true_iff, !Z.eqb_eq in E.
    destruct E as [[E1 E2] E3]. apply Z.rem_divide in E1, E2, E3; try lia.
    destruct E1 as [a E1], E2 as [b E2], E3 as [c E3]. exists u. split; auto.
    split; [exists a | split; [exists b | exists c]]; unfold vopp; mat_cbn; lia. }
  destruct l; reflexivity.
Qed.
(** the lattice generators are the centring translations, each followed by the inversion
    through the same point when the symbol starts with a minus sign *)
Theorem C24_lattice_generators :
  forall ls g, In g (lattice_seitz ls) <->
    exists v, In v (translations (ls_char ls)) /\
      (g = aff I3 v \/ (ls_minus ls = true /\ g = aff (mopp I3) v)).
Proof.
  intros [mi l] g. unfold lattice_seitz; cbn [ls_minus ls_char].
  assert (A : forall R v, In v (translations l) -> sz_addv (aff R v0) v = aff R v).
  { intros R v Hv. unfold sz_addv, aff; cbn [rot tra bot cor]. f_equal.
    destruct l; cbn in Hv; intuition subst; reflexivity. }
  destruct mi.
  - rewrite in_flat_map. split.
    + intros (v & Hv & [H | [H | []]]); exists v; (split; [exact Hv |]).
      * left. rewrite <- H. apply (A I3); auto.
      * right; split; auto. rewrite <- H. apply (A (mopp I3)); auto.
    + intros (v & Hv & [H | [_ H]]); exists v; (split; [exact Hv |]); subst g; simpl.
      * left. apply (A I3); auto.
      * right; left. apply (A (mopp I3)); auto.
  - rewrite in_map_iff. split.
    + intros (v & H & Hv). exists v. split; auto. left. rewrite <- H. apply (A I3); auto.
    + intros (v & Hv & [H | [H _]]); [| discriminate]. exists v. split; auto. subst g. apply (A I3); auto.
Qed.

(** ** C47 *)
(** the value given by the last of a sequence of calls that set a field *)
Fixpoint last_set {A} (f : setter -> option A) (ss : list setter) : option A :=
  match ss with
  | [] => None
  | s :: r => match last_set f r with Some a => Some a | None => f s end
  end.
Definition gets_minus s := match s with SetMinus b => Some b | _ => None end.
Definition gets_fold s := match s with SetFold b => Some b | _ => None end.
Definition gets_sub s := match s with SetSub b => Some b | _ => None end.
Definition gets_diag s := match s with SetDiag b => Some b | _ => None end.
Definition gets_axis s := match s with SetAxis b => Some b | _ => None end.
Definition gets_trs s := match s with SetTrs b => Some b | _ => None end.
Definition default {A} (d : A) (o : option A) : A := match o with Some a => a | None => d end.
Definition over {A} (new old : option A) : option A := match new with Some a => Some a | None => old end.
Lemma builder_fold ss : forall b,
  fold_left apply_setter ss b =
  Bld (over (last_set gets_minus ss) (b_minus b)) (over (last_set gets_fold ss) (b_fold b))
      (over (last_set gets_sub ss) (b_sub b)) (over (last_set gets_diag ss) (b_diag b))
      (over (last_set gets_axis ss) (b_axis b)) (default (b_trs b) (last_set gets_trs ss)).
Proof.
  induction ss as [| s ss IH]; intros b; simpl.
  - destruct b; reflexivity.
  - rewrite IH. destruct s, b; cbn;
    destruct (last_set gets_minus ss), (last_set gets_fold ss), (last_set gets_sub ss),
      (last_set gets_diag ss), (last_set gets_axis ss), (last_set gets_trs ss); reflexivity.
Qed.
Theorem C47_build_last_setter_wins :
  forall ss, build (fold_left apply_setter ss new_builder) =
    match last_set gets_fold ss with
    | None => None
    | Some f =>
        Some (MS (default false (last_set gets_minus ss)) f (default SubNone (last_set gets_sub ss))
                 (default DiagNone (last_set gets_diag ss)) (default AxZ (last_set gets_axis ss))
                 (default None (last_set gets_trs ss)))
    end.
Proof.
  intros ss. rewrite builder_fold. unfold build; cbn.
  destruct (last_set gets_fold ss); cbn; [| reflexivity].
  destruct (last_set gets_minus ss), (last_set gets_sub ss), (last_set gets_diag ss),
    (last_set gets_axis ss); reflexivity.
Qed.
Theorem C47_build_fails_iff_no_fold :
  forall ss, build (fold_left apply_setter ss new_builder) = None <->
    forall f, ~ In (SetFold f) ss.
Proof.
  intros ss. rewrite C47_build_last_setter_wins.
  assert (E : last_set gets_fold ss = None <-> forall f, ~ In (SetFold f) ss).
  { induction ss as [| s ss IH]; simpl; [split; auto |].
    destruct (last_set gets_fold ss) eqn:E.
    - split; [discriminate |]. intros H. exfalso.
      assert (F : forall f, ~ In (SetFold f) ss) by (intros f K; apply (H f); auto).
      apply IH in F. discriminate.
    - destruct IH as [IH _]. specialize (IH eq_refl). destruct s; simpl; split; intros H; try discriminate; auto;
      try (intros f' [K | K]; [discriminate | eapply IH; eauto]).
      exfalso. apply (H f). auto. }
  rewrite <- E. destruct (last_set gets_fold ss); split; congruence.
Qed.
Example C47_example :
  build (fold_left apply_setter [SetFold F2; SetAxis AxX; SetFold F4; SetTrs (Some [TB])] new_builder)
  = Some (MS false F4 SubNone DiagNone AxX (Some [TB])).
Proof. reflexivity. Qed.
