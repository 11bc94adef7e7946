(** * PropValues: property C91 (printed rotation types and conversions of single values) and the
    setters of a matrix symbol (C47). *)
From Coq Require Import QArith.
From Verif Require Import Base Notations Parser Seitz F64 Jones Rotations Generate Positions Values Spec SpecHall SpecRotation SpecXyz
  Algebra PropSymbols PropSeitz PropRotation GenFacts PropGenerate PropPeriod PropClass PropKind.
Open Scope Z_scope.
Local Notation length := List.length.

(** ** C91 *)
(** the order in decimal, then an overline exactly for an operation that changes handedness *)
Theorem C91_printed_type :
  forall m, is_affine m -> entries_within 65536 (rot m) -> finite_order (rot m) ->
  exists t n, rotation_type m = Some t /\ In n [1; 2; 3; 4; 6]%nat /\ has_order (proper_of (rot m)) n /\
    rtype_text t = (nth n ["0"; "1"; "2"; "3"; "4"; "5"; "6"] "" ++ (if (mdet (rot m) =? 1)%Z then "" else overline))%string.
Proof.
  intros m A W F. destruct (C17_finite_order_classified m A W F) as (t & E & O & D & _). rewrite det_spec_mdet in D.
  exists t, (fst (type_meaning t)). split; [exact E |]. split; [destruct t; cbn; tauto |]. split; [exact O |].
  rewrite D. destruct t; reflexivity.
Qed.
Theorem C91_printed_positions :
  forall fuel h g m, general_positions fuel h = Done g -> In m (gp_core g) ->
  exists t n, rotation_type m = Some t /\ In n [1; 2; 3; 4; 6]%nat /\ has_order (proper_of (rot m)) n /\
    rtype_text t = (nth n ["0"; "1"; "2"; "3"; "4"; "5"; "6"] "" ++ (if (mdet (rot m) =? 1)%Z then "" else overline))%string.
Proof.
  intros fuel h g m H I. destruct (core_unit _ _ _ _ H I) as [A U]. destruct (C25_positions_sound _ _ _ H m I) as [_ G].
  apply C91_printed_type; [exact A | |].
  - unfold unit_matrix in U. unfold entries_within. decompose [and] U. clear U. repeat match goal with |- _ /\ _ => split end; lia.
  - exists 12%nat. split; [lia |]. apply class_order12. destruct (group_class _ _ _ H) as [C | C]; specialize (C _ G); auto.
Qed.
Theorem C91_type_texts_differ : forall a b, rtype_text a = rtype_text b <-> a = b.
Proof. intros a b. split; [destruct a, b; intros H; try reflexivity; discriminate H | intros ->; reflexivity]. Qed.
(** reading a subscript: exactly the digits 1 to 5 mean something, as text or as character; printing gives the digit back *)
Theorem C91_subscript_conversions :
  (forall s, sub_of_text (sub_text s) = s) /\
  (forall x, sub_of_text x = SubNone <-> ~ In x ["1"; "2"; "3"; "4"; "5"]%string) /\
  (forall c, sub_of_text (String c EmptyString) = sub_of_char c) /\
  (forall x, sub_of_text x <> SubNone -> sub_text (sub_of_text x) = x).
Proof.
  assert (K : forall x, (x = "1" /\ sub_of_text x = Sub1 \/ x = "2" /\ sub_of_text x = Sub2 \/ x = "3" /\ sub_of_text x = Sub3 \/
    x = "4" /\ sub_of_text x = Sub4 \/ x = "5" /\ sub_of_text x = Sub5 \/
    (~ In x ["1"; "2"; "3"; "4"; "5"] /\ sub_of_text x = SubNone))%string).
  { intros x. unfold sub_of_text.
    destruct (String.eqb_spec x "1"); [tauto |]. destruct (String.eqb_spec x "2"); [tauto |]. destruct (String.eqb_spec x "3"); [tauto |].
    destruct (String.eqb_spec x "4"); [tauto |]. destruct (String.eqb_spec x "5"); [tauto |].
    do 5 right. split; [| reflexivity]. cbn [In]. intros J. decompose [or] J; congruence. }
  split; [intros []; reflexivity |]. split; [| split].
  - intros x. destruct (K x) as [[-> E] | [[-> E] | [[-> E] | [[-> E] | [[-> E] | [N E]]]]]];
      rewrite E; split; intros J; try discriminate J; try (exfalso; apply J; cbn [In]; tauto); auto.
  - intros c. destruct (ascii_dec c "1") as [-> |]; [reflexivity |]. destruct (ascii_dec c "2") as [-> |]; [reflexivity |].
    destruct (ascii_dec c "3") as [-> |]; [reflexivity |]. destruct (ascii_dec c "4") as [-> |]; [reflexivity |].
    destruct (ascii_dec c "5") as [-> |]; [reflexivity |].
    assert (E : sub_of_text (String c EmptyString) = SubNone).
    { destruct (K (String c EmptyString)) as [[E _] | [[E _] | [[E _] | [[E _] | [[E _] | [_ E]]]]]]; [| | | | | exact E]; injection E; congruence. }
    rewrite E. symmetry. clear K E. destruct c as [[] [] [] [] [] [] [] []]; try reflexivity; congruence.
  - intros x. destruct (K x) as [[-> E] | [[-> E] | [[-> E] | [[-> E] | [[-> E] | [N E]]]]]]; intros J; try reflexivity. contradiction.
Qed.
(** the eight letters: each is printed as the character that is read as it, and nothing else is a letter *)
Theorem C91_letter_conversions :
  (forall t, t <> TInvalid -> exists c, tsym_text t = String c EmptyString /\ tsym_of_char c = t) /\
  (forall c, tsym_of_char c <> TInvalid -> tsym_text (tsym_of_char c) = String c EmptyString) /\
  (forall c, tsym_of_char c <> TInvalid <-> In c ["a"; "b"; "c"; "n"; "u"; "v"; "w"; "d"]%char).
Proof.
  split; [| split].
  - intros [] N; try (eexists; split; reflexivity). contradiction.
  - intros c. destruct c as [[] [] [] [] [] [] [] []]; intros N; try reflexivity; exfalso; apply N; reflexivity.
  - intros c. split.
    + intros N. destruct c as [[] [] [] [] [] [] [] []]; try (exfalso; apply N; reflexivity); cbn [In]; tauto.
    + cbn [In]. intros J. decompose [or] J; subst; try discriminate; contradiction.
Qed.
(** a two-fold mirror: "2" with an overline *)
Example C91_case : exists t, rotation_type (aff (M3 1 0 0 0 1 0 0 0 (-1)) (V3 6 0 0)) = Some t /\ rtype_text t = ("2" ++ overline)%string.
Proof. eexists. split; [vm_compute; reflexivity | reflexivity]. Qed.

(** ** C47: the setters of a symbol *)
Fixpoint last_put {A} (f : ms_setter -> option A) (old : A) (ss : list ms_setter) : A :=
  match ss with
  | [] => old
  | s :: r => last_put f (match f s with Some a => a | None => old end) r
  end.
Definition puts_minus s := match s with PutMinus b => Some b | _ => None end.
Definition puts_fold s := match s with PutFold b => Some b | _ => None end.
Definition puts_sub s := match s with PutSub b => Some b | _ => None end.
Definition puts_diag s := match s with PutDiag b => Some b | _ => None end.
Definition puts_axis s := match s with PutAxis b => Some b | _ => None end.
(** after any calls every field has the value given last, or the old one; the letters stay *)
Theorem C47_setters_last_wins :
  forall ss m, fold_left put ss m =
    MS (last_put puts_minus (ms_minus m) ss) (last_put puts_fold (ms_fold m) ss) (last_put puts_sub (ms_sub m) ss)
       (last_put puts_diag (ms_diag m) ss) (last_put puts_axis (ms_axis m) ss) (ms_trs m).
Proof.
  induction ss as [| s ss IH]; intros m; [destruct m; reflexivity |]. cbn [fold_left]. rewrite IH. destruct s; reflexivity.
Qed.
(** changing the sign negates the rotation part and nothing else *)
Theorem C47_minus_setter :
  forall ms m, seitz_matrix ms = Some m ->
    seitz_matrix (set_ms_minus (negb (ms_minus ms)) ms) = Some (aff (mopp (rot m)) (tra m)).
Proof.
  intros ms m H. pose proof (seitz_matrix_affine ms m H) as [A _]. destruct ms as [mi f s d a trs]. cbn [ms_minus] in *. unfold set_ms_minus. cbn [ms_fold ms_sub ms_diag ms_axis ms_trs].
  unfold seitz_matrix in *. unfold get_rotation_matrix, set_transform, set_translation_from_symbols in *. cbn [ms_minus ms_fold ms_sub ms_diag ms_axis ms_trs] in *.
  destruct f, d, a; try discriminate H; cbn in H |- *; destruct s; try discriminate H; cbn in H |- *; destruct mi, trs; cbn in H |- *;
    (assert (K := f_equal (fun o => match o with Some x => x | None => m end) H); cbv beta iota in K; subst m; reflexivity).
Qed.
(** the setters make of any symbol what the builder makes of the same values *)
Theorem C47_setters_and_builder :
  forall m mi f s d a, build (fold_left apply_setter [SetMinus mi; SetFold f; SetSub s; SetDiag d; SetAxis a; SetTrs (ms_trs m)] new_builder) =
    Some (fold_left put [PutMinus mi; PutFold f; PutSub s; PutDiag d; PutAxis a] m).
Proof. intros. reflexivity. Qed.
Example C47_setter_case : exists m, seitz_matrix (MS false F4 Sub1 DiagNone AxZ (Some [TN])) = Some m /\
  seitz_matrix (set_ms_minus true (MS false F4 Sub1 DiagNone AxZ (Some [TN]))) = Some (aff (mopp (rot m)) (tra m)) /\ tra m = V3 6 6 9.
Proof. eexists. split; [reflexivity |]. split; reflexivity. Qed.
