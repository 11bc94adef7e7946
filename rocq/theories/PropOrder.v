(** * PropOrder: property C50: equality and ordering of notations; C51: of general positions. *)
From Verif Require Import Base Notations Parser Seitz F64 Jones Rotations Generate Positions Order
  Spec SpecHall Algebra PropSeitz GenFacts PropGenerate PropFullSets PropParser PropRoundTrip.
Open Scope Z_scope.
Local Notation length := List.length.
Open Scope string_scope.
Open Scope list_scope.
Open Scope Z_scope.

(** ** Vocabulary *)
(** a total order whose equality is identity *)
Record total_order {A} (cmp : A -> A -> comparison) : Prop := {
  to_equal : forall a b, cmp a b = Eq <-> a = b;
  to_swap : forall a b, cmp b a = CompOpp (cmp a b);
  to_trans : forall a b c, cmp a b = Lt -> cmp b c = Lt -> cmp a c = Lt }.
(** the elements of [l] are listed in increasing order *)
Definition increasing {A} (cmp : A -> A -> comparison) (l : list A) : Prop :=
  forall i j a b, (i < j)%nat -> nth_error l i = Some a -> nth_error l j = Some b -> cmp a b = Lt.

(** ** Total orders *)
Lemma to_Z : total_order Z.compare.
Proof.
  constructor.
  - apply Z.compare_eq_iff.
  - intros. apply Z.compare_antisym.
  - intros a b c. rewrite !Z.compare_lt_iff. lia.
Qed.
Lemma to_nat : total_order Nat.compare.
Proof.
  constructor.
  - apply Nat.compare_eq_iff.
  - intros. apply Nat.compare_antisym.
  - intros a b c. rewrite !Nat.compare_lt_iff. lia.
Qed.
Lemma to_bool : total_order bool_cmp.
Proof.
  constructor.
  - intros [] []; cbn; split; congruence.
  - intros [] []; reflexivity.
  - intros [] [] []; cbn; congruence.
Qed.
Lemma to_key {A B} (cmp : B -> B -> comparison) (f : A -> B) :
  total_order cmp -> (forall a b, f a = f b -> a = b) -> total_order (fun a b => cmp (f a) (f b)).
Proof.
  intros [E S T] I. constructor.
  - intros a b. rewrite E. split; [apply I | congruence].
  - intros. apply S.
  - intros a b c. apply T.
Qed.
Definition pair_cmp {A B} (c : A -> A -> comparison) (d : B -> B -> comparison) (x y : A * B) : comparison :=
  then_cmp (c (fst x) (fst y)) (d (snd x) (snd y)).
Lemma to_pair {A B} (c : A -> A -> comparison) (d : B -> B -> comparison) :
  total_order c -> total_order d -> total_order (pair_cmp c d).
Proof.
  intros [E S T] [E' S' T']. constructor; unfold pair_cmp, then_cmp.
  - intros [a b] [a' b']. cbn [fst snd]. specialize (E a a'). specialize (E' b b').
    destruct (c a a'); split; intros H; try discriminate.
    + apply E' in H. apply proj1 in E. rewrite E, H; reflexivity.
    + apply E'. congruence.
    + exfalso. assert (a = a') by congruence. apply E in H0. discriminate.
    + exfalso. assert (a = a') by congruence. apply E in H0. discriminate.
  - intros [a b] [a' b']. cbn [fst snd]. rewrite (S a a'), (S' b b'). destruct (c a a'); reflexivity.
  - intros [a b] [a' b'] [a'' b'']. cbn [fst snd]. specialize (T a a' a'').
    pose proof (E a a') as E1. pose proof (E a' a'') as E2. pose proof (E a a'') as E3.
    destruct (c a a') eqn:C1; destruct (c a' a'') eqn:C2; intros H H'; try discriminate.
    + assert (a = a'') as -> by (transitivity a'; [now apply E1 | now apply E2]). rewrite (proj2 (E a'' a'') eq_refl). eapply T'; eauto.
    + rewrite (proj1 E1 eq_refl). now rewrite C2.
    + rewrite <- (proj1 E2 eq_refl). now rewrite C1.
    + now rewrite T.
Qed.
Lemma to_list {A} (c : A -> A -> comparison) : total_order c -> total_order (list_cmp c).
Proof.
  intros H. pose proof H as [E S T]. constructor.
  - induction a as [| a l IH]; intros [| b r]; cbn [list_cmp]; try (split; congruence).
    unfold then_cmp. destruct (c a b) eqn:C.
    + rewrite IH. apply E in C. subst b. split; congruence.
    + split; [discriminate |]. intros X. assert (a = b) as Y by congruence. apply E in Y. congruence.
    + split; [discriminate |]. intros X. assert (a = b) as Y by congruence. apply E in Y. congruence.
  - induction a as [| a l IH]; intros [| b r]; cbn [list_cmp]; try reflexivity.
    rewrite (S a b), IH. destruct (c a b); reflexivity.
  - induction a as [| a l IH]; intros [| b r] [| d q]; cbn [list_cmp]; try congruence. unfold then_cmp.
    destruct (c a b) eqn:C1; destruct (c b d) eqn:C2; intros X Y; try discriminate.
    + apply E in C1, C2. subst. rewrite (proj2 (E d d) eq_refl). eapply IH; eauto.
    + apply E in C1. subst. now rewrite C2.
    + apply E in C2. subst. now rewrite C1.
    + now rewrite (T _ _ _ C1 C2).
Qed.
Lemma to_option {A} (c : A -> A -> comparison) : total_order c -> total_order (option_cmp c).
Proof.
  intros [E S T]. constructor.
  - intros [a |] [b |]; cbn [option_cmp]; try (split; congruence). rewrite E. split; congruence.
  - intros [a |] [b |]; cbn [option_cmp]; auto.
  - intros [a |] [b |] [d |]; cbn [option_cmp]; try congruence. apply T.
Qed.
Lemma fold_index_inj a b : fold_index a = fold_index b -> a = b. Proof. destruct a, b; cbn; congruence. Qed.
Lemma sub_index_inj a b : sub_index a = sub_index b -> a = b. Proof. destruct a, b; cbn; congruence. Qed.
Lemma diag_index_inj a b : diag_index a = diag_index b -> a = b. Proof. destruct a, b; cbn; congruence. Qed.
Lemma axis_index_inj a b : axis_index a = axis_index b -> a = b. Proof. destruct a, b; cbn; congruence. Qed.
Lemma tsym_index_inj a b : tsym_index a = tsym_index b -> a = b. Proof. destruct a, b; cbn; congruence. Qed.
Lemma lattice_index_inj a b : lattice_index a = lattice_index b -> a = b. Proof. destruct a, b; cbn; congruence. Qed.
Lemma to_tsym : total_order (fun x y => Nat.compare (tsym_index x) (tsym_index y)).
Proof. apply to_key; [apply to_nat | apply tsym_index_inj]. Qed.
Lemma to_lsym : total_order lsym_cmp.
Proof.
  apply (to_key (pair_cmp bool_cmp Nat.compare) (fun a => (ls_minus a, lattice_index (ls_char a)))).
  - apply to_pair; [apply to_bool | apply to_nat].
  - intros [a b] [a' b']. cbn [ls_minus ls_char]. intros H. injection H. intros E ->. apply lattice_index_inj in E. now subst.
Qed.
Lemma to_msym : total_order msym_cmp.
Proof.
  apply (to_key (pair_cmp bool_cmp (pair_cmp Nat.compare (pair_cmp Nat.compare (pair_cmp Nat.compare (pair_cmp Nat.compare
           (option_cmp (list_cmp (fun x y => Nat.compare (tsym_index x) (tsym_index y)))))))))
         (fun a => (ms_minus a, (fold_index (ms_fold a), (sub_index (ms_sub a), (diag_index (ms_diag a), (axis_index (ms_axis a), ms_trs a))))))).
  - repeat apply to_pair; try apply to_nat; [apply to_bool | apply to_option, to_list, to_tsym].
  - intros [a b c d e f] [a' b' c' d' e' f']. cbn [ms_minus ms_fold ms_sub ms_diag ms_axis ms_trs]. intros H. injection H. intros -> E D C B ->.
    apply fold_index_inj in B. apply sub_index_inj in C. apply diag_index_inj in D. apply axis_index_inj in E. now subst.
Qed.
Lemma to_shift : total_order shift_cmp.
Proof.
  apply (to_key (pair_cmp Z.compare (pair_cmp Z.compare Z.compare)) (fun v => (vx v, (vy v, vz v)))).
  - repeat apply to_pair; apply to_Z.
  - intros [a b c] [a' b' c']. cbn [vx vy vz]. intros H. injection H. intros. now subst.
Qed.
Definition hall_cmp (a b : hall) : comparison :=
  then_cmp (lsym_cmp (h_lat a) (h_lat b)) (then_cmp (list_cmp msym_cmp (h_syms a) (h_syms b)) (shift_cmp (h_shift a) (h_shift b))).
Lemma to_hall : total_order hall_cmp.
Proof.
  apply (to_key (pair_cmp lsym_cmp (pair_cmp (list_cmp msym_cmp) shift_cmp)) (fun h => (h_lat h, (h_syms h, h_shift h)))).
  - repeat apply to_pair; [apply to_lsym | apply to_list, to_msym | apply to_shift].
  - intros [a b c] [a' b' c']. cbn [h_lat h_syms h_shift]. intros H. injection H. intros. now subst.
Qed.
Lemma hall_partial_total a b : hall_partial_cmp a b = Some (hall_cmp a b).
Proof. unfold hall_partial_cmp, hall_cmp, then_pcmp, then_cmp. destruct (lsym_cmp _ _); try reflexivity. now destruct (list_cmp _ _ _). Qed.

(** ** C50 *)
(** the ordering of notations is total, never undefined, and Equal means identical *)
Theorem C50_notations_totally_ordered :
  exists cmp, total_order cmp /\ forall a b, hall_partial_cmp a b = Some (cmp a b).
Proof. exists hall_cmp. split; [apply to_hall | apply hall_partial_total]. Qed.
Lemma list_eqb_spec {A} (eqb : A -> A -> bool) : (forall a b, eqb a b = true <-> a = b) -> forall l r, list_eqb eqb l r = true <-> l = r.
Proof.
  intros H. induction l as [| a l IH]; intros [| b r]; cbn [list_eqb]; try (split; congruence).
  destruct (eqb a b) eqn:E.
  - apply H in E. subst b. rewrite IH. split; congruence.
  - split; [discriminate |]. intros X. assert (a = b) as Y by congruence. apply H in Y. congruence.
Qed.
Lemma option_eqb_spec {A} (eqb : A -> A -> bool) : (forall a b, eqb a b = true <-> a = b) -> forall l r, option_eqb eqb l r = true <-> l = r.
Proof. intros H [a |] [b |]; cbn [option_eqb]; try (split; congruence). rewrite H. split; congruence. Qed.
Lemma key_eqb {A} (f : A -> nat) : (forall a b, f a = f b -> a = b) -> forall a b, Nat.eqb (f a) (f b) = true <-> a = b.
Proof. intros I a b. rewrite Nat.eqb_eq. split; [apply I | congruence]. Qed.
Lemma veqb_iff v w : veqb v w = true <-> v = w.
Proof. apply Algebra.veqb_eq. Qed.
Lemma msym_eqb_spec a b : msym_eqb a b = true <-> a = b.
Proof.
  unfold msym_eqb. rewrite !andb_true_iff, eqb_true_iff, (key_eqb _ fold_index_inj), (key_eqb _ sub_index_inj), (key_eqb _ diag_index_inj), (key_eqb _ axis_index_inj).
  rewrite (option_eqb_spec _ (list_eqb_spec _ (key_eqb _ tsym_index_inj))).
  destruct a as [a1 a2 a3 a4 a5 a6], b as [b1 b2 b3 b4 b5 b6]; cbn [ms_minus ms_fold ms_sub ms_diag ms_axis ms_trs]. split; [intros (((((? & ?) & ?) & ?) & ?) & ?); congruence |].
  intros H. injection H. intros. auto 10.
Qed.
(** [==] is identity, and agrees with the ordering *)
Theorem C50_equality_is_identity :
  forall a b, (hall_eqb a b = true <-> a = b) /\ (hall_partial_cmp a b = Some Eq <-> hall_eqb a b = true).
Proof.
  assert (K : forall a b, hall_eqb a b = true <-> a = b).
  { intros a b. unfold hall_eqb. rewrite !andb_true_iff, eqb_true_iff, (key_eqb _ lattice_index_inj), (list_eqb_spec _ msym_eqb_spec), veqb_iff.
    destruct a as [[p l] s t], b as [[p' l'] s' t']; cbn [h_lat h_syms h_shift ls_minus ls_char].
    split; [intros (((? & ?) & ?) & ?); congruence |]. intros H. injection H. intros. auto 10. }
  intros a b. split; [apply K |]. rewrite K, hall_partial_total. rewrite <- (to_equal _ to_hall a b). split; congruence.
Qed.
(** the order of the parts *)
Theorem C50_order_of_parts :
  increasing lsym_cmp [LS false LP; LS false LA; LS false LB; LS false LC; LS false LI; LS false LR; LS false LF;
                       LS true LP; LS true LA; LS true LB; LS true LC; LS true LI; LS true LR; LS true LF] /\
  (forall a b, lsym_cmp (h_lat a) (h_lat b) = Lt -> hall_partial_cmp a b = Some Lt) /\
  (forall a b, h_lat a = h_lat b -> list_cmp msym_cmp (h_syms a) (h_syms b) = Lt -> hall_partial_cmp a b = Some Lt) /\
  (forall a b, h_lat a = h_lat b -> h_syms a = h_syms b -> hall_partial_cmp a b = Some (shift_cmp (h_shift a) (h_shift b))) /\
  (forall l m r, list_cmp msym_cmp l (l ++ m :: r) = Lt) /\
  (forall l a b r q, msym_cmp a b = Lt -> list_cmp msym_cmp (l ++ a :: r) (l ++ b :: q) = Lt).
Proof.
  split; [| split; [| split; [| split; [| split]]]].
  - intros i j a b L Hi Hj. assert (j < 14)%nat as J by (change 14%nat with (length [LS false LP; LS false LA; LS false LB; LS false LC; LS false LI; LS false LR; LS false LF;
                       LS true LP; LS true LA; LS true LB; LS true LC; LS true LI; LS true LR; LS true LF]); apply nth_error_Some; congruence).
    do 14 (destruct j as [| j]; [do 14 (destruct i as [| i]; [first [lia | cbn in Hi, Hj; injection Hi; injection Hj; intros; subst; reflexivity] |]); lia |]). lia.
  - intros a b H. rewrite hall_partial_total. unfold hall_cmp. now rewrite H.
  - intros a b E H. rewrite hall_partial_total. unfold hall_cmp. now rewrite (proj2 (to_equal _ to_lsym _ _) E), H.
  - intros a b E F. rewrite hall_partial_total. unfold hall_cmp.
    now rewrite (proj2 (to_equal _ to_lsym _ _) E), (proj2 (to_equal _ (to_list _ to_msym) _ _) F).
  - induction l as [| a l IH]; intros m r; [reflexivity |]. cbn [app list_cmp]. now rewrite (proj2 (to_equal _ to_msym a a) eq_refl), IH.
  - induction l as [| x l IH]; intros a b r q H; cbn [app list_cmp]; [now rewrite H |].
    rewrite (proj2 (to_equal _ to_msym x x) eq_refl). now apply IH.
Qed.
(** [x] stands before [y] in the list [l] *)
Definition before {A} (l : list A) (x y : A) : Prop :=
  exists i j, (i < j)%nat /\ nth_error l i = Some x /\ nth_error l j = Some y.
Lemma before_index {A} (idx : A -> nat) (l : list A) x y :
  (forall i j a b, (i < j)%nat -> nth_error l i = Some a -> nth_error l j = Some b -> (idx a < idx b)%nat) ->
  before l x y -> Nat.compare (idx x) (idx y) = Lt.
Proof. intros H (i & j & L & X & Y). apply Nat.compare_lt_iff. exact (H i j x y L X Y). Qed.
(** the order of matrix symbols: the sign decides first, then the fold, the subscript, the
    diagonal mark, the axis and finally the letters; the order of each part is spelt out *)
Theorem C50_order_of_matrix_symbols :
  forall a b : msym,
    (ms_minus a = false -> ms_minus b = true -> msym_cmp a b = Lt) /\
    (ms_minus a = ms_minus b -> before [F1; F2; F3; F4; F6] (ms_fold a) (ms_fold b) -> msym_cmp a b = Lt) /\
    (ms_minus a = ms_minus b -> ms_fold a = ms_fold b ->
       before [SubNone; Sub1; Sub2; Sub3; Sub4; Sub5] (ms_sub a) (ms_sub b) -> msym_cmp a b = Lt) /\
    (ms_minus a = ms_minus b -> ms_fold a = ms_fold b -> ms_sub a = ms_sub b ->
       before [DiagNone; SingleQuote; DoubleQuote; Asterisk] (ms_diag a) (ms_diag b) -> msym_cmp a b = Lt) /\
    (ms_minus a = ms_minus b -> ms_fold a = ms_fold b -> ms_sub a = ms_sub b -> ms_diag a = ms_diag b ->
       before [AxOmitted; AxX; AxY; AxZ] (ms_axis a) (ms_axis b) -> msym_cmp a b = Lt) /\
    (ms_minus a = ms_minus b -> ms_fold a = ms_fold b -> ms_sub a = ms_sub b -> ms_diag a = ms_diag b -> ms_axis a = ms_axis b ->
       ((ms_trs a = None /\ ms_trs b <> None) \/
        (exists l x r, ms_trs a = Some l /\ ms_trs b = Some (l ++ x :: r)) \/
        (exists l x y r q, ms_trs a = Some (l ++ x :: r) /\ ms_trs b = Some (l ++ y :: q) /\
           before [TA; TB; TC; TN; TU; TV; TW; TD] x y)) -> msym_cmp a b = Lt).
Proof.
  intros [am af asb ad aa at_] [bm bf bs bd ba bt]. unfold msym_cmp. cbn [ms_minus ms_fold ms_sub ms_diag ms_axis ms_trs].
  assert (Q : forall A (idx : A -> nat) l, forallb (fun i => forallb (fun j => match nth_error l i, nth_error l j with
      | Some a, Some b => implb (Nat.ltb i j) (Nat.ltb (idx a) (idx b)) | _, _ => true end) (seq 0 (length l))) (seq 0 (length l)) = true ->
      forall i j a b, (i < j)%nat -> nth_error l i = Some a -> nth_error l j = Some b -> (idx a < idx b)%nat).
  { intros A idx l C i j a b L X Y. rewrite forallb_forall in C.
    specialize (C i ltac:(apply in_seq; assert (i < length l)%nat by (apply nth_error_Some; congruence); lia)).
    rewrite forallb_forall in C.
    specialize (C j ltac:(apply in_seq; assert (j < length l)%nat by (apply nth_error_Some; congruence); lia)).
    rewrite X, Y in C. apply Nat.ltb_lt in L. rewrite L in C. apply Nat.ltb_lt. exact C. }
  assert (EB : forall x, bool_cmp x x = Eq) by (intros []; reflexivity).
  split; [| split; [| split; [| split; [| split]]]].
  - intros -> ->. reflexivity.
  - intros -> B. rewrite EB. apply (before_index fold_index) in B; [| apply Q; reflexivity]. cbn [then_cmp]. now rewrite B.
  - intros -> -> B. rewrite EB, Nat.compare_refl. apply (before_index sub_index) in B; [| apply Q; reflexivity]. cbn [then_cmp]. now rewrite B.
  - intros -> -> -> B. rewrite EB, !Nat.compare_refl. apply (before_index diag_index) in B; [| apply Q; reflexivity]. cbn [then_cmp]. now rewrite B.
  - intros -> -> -> -> B. rewrite EB, !Nat.compare_refl. apply (before_index axis_index) in B; [| apply Q; reflexivity]. cbn [then_cmp]. now rewrite B.
  - intros -> -> -> -> -> B. rewrite EB, !Nat.compare_refl. cbn [then_cmp].
    assert (R : forall x, Nat.compare (tsym_index x) (tsym_index x) = Eq) by (intros; apply Nat.compare_refl).
    destruct B as [(-> & N) | [(l & x & r & -> & ->) | (l & x & y & r & q & -> & -> & B)]].
    + destruct bt; [reflexivity | congruence].
    + cbn [option_cmp]. induction l as [| z l IH]; [reflexivity |]. cbn [app list_cmp]. rewrite R. exact IH.
    + cbn [option_cmp]. apply (before_index tsym_index) in B; [| apply Q; reflexivity].
      induction l as [| z l IH]; cbn [app list_cmp]; [now rewrite B | rewrite R; exact IH].
Qed.
(** the origin shift is compared coordinate by coordinate *)
Theorem C50_order_of_shifts :
  forall a b : vec3,
    (vx a < vx b -> shift_cmp a b = Lt) /\ (vx a = vx b -> vy a < vy b -> shift_cmp a b = Lt) /\
    (vx a = vx b -> vy a = vy b -> vz a < vz b -> shift_cmp a b = Lt).
Proof.
  intros [a1 a2 a3] [b1 b2 b3]. unfold shift_cmp. cbn [vx vy vz]. split; [| split].
  - intros L. apply Z.compare_lt_iff in L. now rewrite L.
  - intros -> L. apply Z.compare_lt_iff in L. now rewrite Z.compare_refl, L.
  - intros -> -> L. apply Z.compare_lt_iff in L. now rewrite !Z.compare_refl, L.
Qed.
Lemma done_some_inj {A} (a b : A) : Done (Some b) = Done (Some a) -> a = b.
Proof. intros H. now inversion H. Qed.
(** among notations that survive the round trip, equal texts mean equal notations *)
Theorem C50_same_text_equal :
  forall s t a b, try_from_str s = Done (Some a) -> try_from_str t = Done (Some b) ->
    (forall i m, nth_error (h_syms a) i = Some m -> ~ lossy i m) ->
    (forall i m, nth_error (h_syms b) i = Some m -> ~ lossy i m) ->
    hall_text a = hall_text b -> hall_eqb a b = true.
Proof.
  intros s t a b A B La Lb E. apply (proj1 (C50_equality_is_identity a b)).
  apply (C05_round_trip_iff s a A) in La. apply (C05_round_trip_iff t b B) in Lb. rewrite E, Lb in La. now apply done_some_inj in La.
Qed.

(** otherwise not: a parsed notation and that of its own text *)
Theorem C50_same_text_refuted :
  exists a b, try_from_str "P 2 2 3" = Done (Some a) /\ try_from_str "P 2 2x 3*" = Done (Some b) /\
    hall_text a = hall_text b /\ hall_eqb a b = false.
Proof.
  eexists. eexists. split; [vm_compute; reflexivity |]. split; [vm_compute; reflexivity |].
  split; vm_compute; reflexivity.
Qed.
Example C50_case : exists a b, try_from_str "-R 3 2""c (1 -2 30)" = Done (Some a) /\ try_from_str "-R 3 2""c (1 -2 18)" = Done (Some b) /\
  (forall i m, nth_error (h_syms a) i = Some m -> ~ lossy i m) /\ hall_text a = hall_text b.
Proof.
  eexists. eexists. split; [vm_compute; reflexivity |]. split; [vm_compute; reflexivity |]. split; [| vm_compute; reflexivity].
  apply (C05_round_trip_iff "-R 3 2""c (1 -2 30)"); vm_compute; reflexivity.
Qed.

(** ** C51 *)
Lemma list_eqb_Forall2 {A} (eqb : A -> A -> bool) (R : A -> A -> Prop) : (forall a b, eqb a b = true <-> R a b) ->
  forall l r, list_eqb eqb l r = true <-> Forall2 R l r.
Proof.
  intros H. induction l as [| a l IH]; intros [| b r]; cbn [list_eqb].
  - split; [constructor | reflexivity].
  - split; [discriminate | inversion 1].
  - split; [discriminate | inversion 1].
  - destruct (eqb a b) eqn:E.
    + rewrite IH. split; [constructor; [now apply H | assumption] | now inversion 1].
    + split; [discriminate |]. inversion 1; subst. assert (eqb a b = true) by now apply H. congruence.
Qed.
(** equal positions: the same centring vectors, and position by position the same operation
    up to whole cells *)
Theorem C51_equal_iff :
  forall a b, gpos_eqb a b = true <-> gp_lattice a = gp_lattice b /\ Forall2 same_op (gp_core a) (gp_core b).
Proof.
  intros a b. unfold gpos_eqb. rewrite andb_true_iff, (list_eqb_spec _ veqb_iff).
  rewrite (list_eqb_Forall2 _ same_op); [reflexivity |]. intros. apply sz_eqb_same.
Qed.
Lemma vec_partial_cmp_eq a b : vec_partial_cmp a b = Some Eq <-> a = b.
Proof.
  unfold vec_partial_cmp. rewrite partial_cmp_from_Eq, Z.compare_eq_iff. destruct a as [x y z], b as [x' y' z']; cbn [vx vy vz]. split.
  - intros [-> F]. inversion F as [| ? ? E F']; subst. inversion F' as [| ? ? E' _]; subst. cbn in E, E'. now subst.
  - intros H. injection H as -> -> ->. split; [reflexivity |]. repeat constructor.
Qed.
Lemma list_partial_cmp_eq {A} (cmp : A -> A -> option comparison) : (forall a b, cmp a b = Some Eq <-> a = b) ->
  forall l r, list_partial_cmp cmp l r = Some Eq <-> l = r.
Proof.
  intros H. induction l as [| a l IH]; intros [| b r]; cbn [list_partial_cmp]; try (split; congruence).
  unfold then_pcmp. specialize (H a b). destruct (cmp a b) as [[] |].
  - rewrite IH. pose proof (proj1 H eq_refl). subst b. split; congruence.
  - split; [discriminate |]. intros E. assert (a = b) as E' by congruence. apply H in E'. discriminate.
  - split; [discriminate |]. intros E. assert (a = b) as E' by congruence. apply H in E'. discriminate.
  - split; [discriminate |]. intros E. assert (a = b) as E' by congruence. apply H in E'. discriminate.
Qed.
(** comparing Equal means identical *)
Theorem C51_compares_equal_iff_identical : forall a b, gpos_partial_cmp a b = Some Eq <-> a = b.
Proof.
  intros a b. unfold gpos_partial_cmp.
  assert (L := list_partial_cmp_eq _ vec_partial_cmp_eq (gp_lattice a) (gp_lattice b)).
  assert (C := list_partial_cmp_eq _ C14_partial_cmp_equal_iff (gp_core a) (gp_core b)).
  unfold then_pcmp. destruct a as [la ca], b as [lb cb]. cbn [gp_lattice gp_core] in *.
  destruct (list_partial_cmp vec_partial_cmp la lb) as [[] |].
  - rewrite C. pose proof (proj1 L eq_refl). subst lb. split; congruence.
  - split; [discriminate |]. intros E. assert (la = lb) as E' by congruence. apply L in E'. discriminate.
  - split; [discriminate |]. intros E. assert (la = lb) as E' by congruence. apply L in E'. discriminate.
  - split; [discriminate |]. intros E. assert (la = lb) as E' by congruence. apply L in E'. discriminate.
Qed.
(** so in general the two disagree, as in C14; but never on generated positions *)
Lemma residue_unique a b : 0 <= a < 12 -> 0 <= b < 12 -> cong12 a b -> a = b.
Proof. intros A B [k K]. lia. Qed.
Theorem C51_generated_equal_iff_identical :
  forall f h a f' h' b, general_positions f h = Done a -> general_positions f' h' = Done b ->
    (gpos_eqb a b = true <-> a = b) /\ (gpos_partial_cmp a b = Some Eq <-> gpos_eqb a b = true).
Proof.
  intros f h a f' h' b A B.
  assert (K : gpos_eqb a b = true <-> a = b).
  { rewrite C51_equal_iff. split.
    - intros [L F]. destruct a as [la ca], b as [lb cb]. cbn [gp_lattice gp_core] in *. subst lb. f_equal.
      pose proof (C28_normalised _ _ _ A) as NA. pose proof (C28_normalised _ _ _ B) as NB. cbn [gp_core] in NA, NB.
      clear A B. induction F as [| x y l r [R T] F IH]; [reflexivity |]. f_equal.
      + destruct (NA x (or_introl eq_refl)) as [[X1 X2] (X3 & X4 & X5)]. destruct (NB y (or_introl eq_refl)) as [[Y1 Y2] (Y3 & Y4 & Y5)].
        destruct T as (T1 & T2 & T3). apply seitz_ext; [assumption | apply vec3_ext; apply residue_unique; assumption | congruence | congruence].
      + apply IH; intros m Hm; [apply NA | apply NB]; now right.
    - intros ->. split; [reflexivity |]. apply list_eqb_Forall2 with (eqb := sz_eqb); [intros; apply sz_eqb_same |].
      induction (gp_core b) as [| m l IH]; [reflexivity |]. cbn [list_eqb]. rewrite (proj2 (sz_eqb_same m m)); [assumption |].
      split; [reflexivity |]. repeat split; exists 0; lia. }
  split; [exact K |]. rewrite K. apply C51_compares_equal_iff_identical.
Qed.
Theorem C51_contract_refuted :
  exists a b, gpos_eqb a b = true /\ gpos_partial_cmp a b = Some Lt.
Proof. exists (GP [v0] [aff I3 v0]), (GP [v0] [aff I3 (V3 12 0 0)]). split; reflexivity. Qed.
(** some positions are not comparable at all *)
Theorem C51_not_comparable :
  exists h h' a b, try_from_str "P 2" = Done (Some h) /\ try_from_str "P -2" = Done (Some h') /\
    general_positions 10 h = Done a /\ general_positions 10 h' = Done b /\ gpos_partial_cmp a b = None.
Proof. do 4 eexists. repeat (split; [vm_compute; reflexivity |]). vm_compute. reflexivity. Qed.
(** equal positions, equal groups *)
Theorem C51_equal_positions_same_group :
  forall f h a f' h' b, general_positions f h = Done a -> general_positions f' h' = Done b ->
    no_extra_translations h -> no_extra_translations h' -> gpos_eqb a b = true ->
    forall o, hall_group h o <-> hall_group h' o.
Proof.
  intros f h a f' h' b A B T T' E o. apply (proj1 (C51_generated_equal_iff_identical _ _ _ _ _ _ A B)) in E. subst b.
  rewrite (C26_full_sets_complete _ _ _ A T), (C26_full_sets_complete _ _ _ B T'). reflexivity.
Qed.

(** ** C52: the result depends only on the group *)
Lemma generated_mono (G G' : op -> Prop) : (forall o, G o -> generated G' o) -> forall o, generated G o -> generated G' o.
Proof.
  intros H o K. induction K as [| g K | a b _ IH _ IH' | a b _ IH E | a b _ IH E]; [apply gen_one | auto | now apply gen_comp | eapply gen_inv; eauto | eapply gen_cell; eauto].
Qed.
(** the order and the repetition of the matrix symbols do not matter *)
Theorem C52_symbol_order_irrelevant :
  forall h h', h_lat h = h_lat h' -> h_shift h = h_shift h' -> (forall ms, In ms (h_syms h) <-> In ms (h_syms h')) ->
  forall o, hall_group h o <-> hall_group h' o.
Proof.
  assert (K : forall h h', h_lat h = h_lat h' -> h_shift h = h_shift h' -> (forall ms, In ms (h_syms h) -> In ms (h_syms h')) ->
    forall o, hall_group h o -> hall_group h' o).
  { intros h h' L S I o. apply generated_mono. intros g [(v & V & ->) | [(M & ->) | (ms & m & X & Y & ->)]]; apply gen_base.
    - left. exists v. now rewrite <- L.
    - right. left. now rewrite <- L.
    - right. right. exists ms, m. rewrite <- S. auto. }
  intros h h' L S I o. split; apply K; auto; apply I.
Qed.
Definition lists (g : gpos) (m : seitz) : Prop := exists set, In set (derive_full_sets g) /\ In m set.
(** two symbols of one group list the same operations up to whole cells, and as many positions *)
Theorem C52_same_group_same_operations :
  forall f h a f' h' b, general_positions f h = Done a -> general_positions f' h' = Done b ->
    no_extra_translations h -> no_extra_translations h' -> (forall o, hall_group h o <-> hall_group h' o) ->
    num_of_general_pos a = num_of_general_pos b /\
    (forall m, lists a m -> exists n, lists b n /\ same_op m n) /\
    (forall n, lists b n -> exists m, lists a m /\ same_op n m).
Proof.
  assert (K : forall f h a f' h' b, general_positions f h = Done a -> general_positions f' h' = Done b ->
    no_extra_translations h -> no_extra_translations h' -> (forall o, hall_group h o <-> hall_group h' o) ->
    forall m, lists a m -> exists n, lists b n /\ same_op m n).
  { intros f h a f' h' b A B T T' E m (set & S & M). destruct (C25_full_sets_sound _ _ _ A set m S M) as [_ G].
    apply E in G. apply (C26_full_sets_complete _ _ _ B T') in G. destruct G as (set' & n & S' & M' & (R & V)).
    exists n. split; [exists set'; auto |]. unfold op_of in R, V. cbn [fst snd] in R, V. split; [now symmetry | now apply vcong12_sym]. }
  intros f h a f' h' b A B T T' E. split; [| split; [eapply K; eauto | eapply (K f' h' b f h a); eauto; intros; symmetry; apply E]].
  destruct (C27_one_position_per_rotation _ _ _ A T) as (N & X). destruct (C27_one_position_per_rotation _ _ _ B T') as (N' & X').
  unfold num_of_general_pos. rewrite <- (map_length rot (gp_core a)), <- (map_length rot (gp_core b)).
  apply Nat.le_antisymm; apply NoDup_incl_length; auto; intros R H.
  - apply X'. apply X in H. destruct H as (t & G). exists t. now apply E.
  - apply X. apply X' in H. destruct H as (t & G). exists t. now apply E.
Qed.
(** but the representatives listed may differ: [==] on positions does not decide equality of groups *)
Definition mirror_b (t : tsym) : hall :=
  Hall (LS false LB) [MS true F2 SubNone DiagNone AxZ (Some [t])] (V3 0 0 0).
Lemma mirror_b_incl t u w m n : seitz_matrix (MS true F2 SubNone DiagNone AxZ (Some [t])) = Some m ->
  seitz_matrix (MS true F2 SubNone DiagNone AxZ (Some [u])) = Some n -> In w (translations LB) ->
  op_same (op_comp (I3, w) (op_conj v0 (op_of n))) (op_conj v0 (op_of m)) ->
  forall o, hall_group (mirror_b t) o -> hall_group (mirror_b u) o.
Proof.
  intros M N W S. apply generated_mono. intros g [(v & V & ->) | [(B & ->) | (ms & k & X & Y & ->)]].
  - apply gen_base. left. exists v. auto.
  - discriminate B.
  - destruct X as [<- | []]. rewrite M in Y. injection Y as <-. eapply gen_cell; [| exact S]. apply gen_comp; apply gen_base.
    + left. exists w. auto.
    + right. right. exists (MS true F2 SubNone DiagNone AxZ (Some [u])), n. split; [now left | auto].
Qed.
Theorem C52_same_group_different_positions :
  exists h h' a b, try_from_str "B -2c" = Done (Some h) /\ try_from_str "B -2a" = Done (Some h') /\
    (forall fuel, (10 <= fuel)%nat -> general_positions fuel h = Done a) /\
    (forall fuel, (10 <= fuel)%nat -> general_positions fuel h' = Done b) /\
    (forall o, hall_group h o <-> hall_group h' o) /\ gpos_eqb a b = false.
Proof.
  exists (mirror_b TC), (mirror_b TA). do 2 eexists. split; [vm_compute; reflexivity |]. split; [vm_compute; reflexivity |].
  split; [intros fuel L; rewrite (C29_fuel_irrelevant 10 fuel); [vm_compute; reflexivity | vm_compute; discriminate | assumption] |].
  split; [intros fuel L; rewrite (C29_fuel_irrelevant 10 fuel); [vm_compute; reflexivity | vm_compute; discriminate | assumption] |].
  split; [| vm_compute; reflexivity].
  assert (C : forall a b k, a = b + 12 * k -> cong12 a b) by (intros a b k E; exists k; lia).
  intros o. split; eapply mirror_b_incl with (w := V3 6 0 6); try (vm_compute; reflexivity); try (right; left; reflexivity).
  - split; [vm_compute; reflexivity |]. split; [| split]; [apply (C _ _ 1) | apply (C _ _ 0) | apply (C _ _ 0)]; vm_compute; reflexivity.
  - split; [vm_compute; reflexivity |]. split; [| split]; [apply (C _ _ 0) | apply (C _ _ 0) | apply (C _ _ 1)]; vm_compute; reflexivity.
Qed.
(** in particular for two symbols with the same matrix symbols in another order, or repeated *)
Corollary C52_symbol_order_same_operations :
  forall f h a f' h' b, h_lat h = h_lat h' -> h_shift h = h_shift h' -> (forall ms, In ms (h_syms h) <-> In ms (h_syms h')) ->
    general_positions f h = Done a -> general_positions f' h' = Done b -> no_extra_translations h ->
    num_of_general_pos a = num_of_general_pos b /\
    (forall m, lists a m -> exists n, lists b n /\ same_op m n) /\
    (forall n, lists b n -> exists m, lists a m /\ same_op n m).
Proof.
  intros f h a f' h' b L Sh Sy A B T. pose proof (C52_symbol_order_irrelevant h h' L Sh Sy) as E.
  apply (C52_same_group_same_operations f h a f' h' b A B T); [| exact E].
  intros t G. apply E in G. specialize (T t G). now rewrite <- L.
Qed.
(** the hypotheses are met: a group written in two ways *)
Example C52_case :
  (exists h a, try_from_str "P 2 3*" = Done (Some h) /\ general_positions 10 h = Done a /\ no_extra_translations h /\ num_of_general_pos a = 12%nat) /\
  (exists h a, try_from_str "P 2 2 3*" = Done (Some h) /\ general_positions 10 h = Done a /\ no_extra_translations h /\ num_of_general_pos a = 12%nat).
Proof. split; apply case_spec; vm_compute; reflexivity. Qed.
