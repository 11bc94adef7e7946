(** * PropJones: properties C22 and C23: the "Jones faithful" texts. *)
From Coq Require Import QArith.
From Verif Require Import Base Notations Parser Seitz Jones Tables Spec SpecXyz Algebra PropSeitz Restriction.
Open Scope Z_scope.
Local Notation length := List.length.

(** ** one coordinate *)
Fixpoint lacks (c : ascii) (s : string) : bool :=
  match s with EmptyString => true | String d r => if Ascii.eqb d c then false else lacks c r end.
Definition coord_ok (a b c w : Z) : bool :=
  match jf_row a b c with
  | Done s =>
      let txt := (s ++ jf_translation w)%string in
      match read_coord txt with
      | Some f => (lx f =? a) && (ly f =? b) && (lz f =? c) && Qeq_bool (lconst f) (inject_Z w / 12) && lacks "," txt
      | None => false
      end
  | _ => false
  end.
Definition units : list Z := [-1; 0; 1].
Definition rems : list Z := map (fun n => Z.of_nat n - 11) (seq 0 23).
Lemma coords_ok :
  forallb (fun a => forallb (fun b => forallb (fun c => forallb (coord_ok a b c) rems) units) units) units = true.
Proof. vm_compute. reflexivity. Qed.
Lemma units_in a : -1 <= a <= 1 -> In a units. Proof. unfold units; simpl. lia. Qed.
Lemma rems_in w : -11 <= w <= 11 -> In w rems.
Proof.
  intros H. unfold rems. apply in_map_iff. exists (Z.to_nat (w + 11)). split; [lia |].
  apply in_seq. lia.
Qed.
Lemma jf_translation_rem v : jf_translation v = jf_translation (Z.rem v 12).
Proof.
  unfold jf_translation. change STBN with 12. pose proof (Z.rem_bound_abs v 12 ltac:(lia)) as B.
  assert ((- (12) + 1 <=? Z.rem v 12) && (Z.rem v 12 <? 12) = true) as ->.
  { apply andb_true_iff. split; [apply Z.leb_le | apply Z.ltb_lt]; lia. }
  destruct ((- (12) + 1 <=? v) && (v <? 12)) eqn:E; [| reflexivity].
  apply andb_true_iff in E. rewrite Z.leb_le, Z.ltb_lt in E.
  assert (Z.rem v 12 = v) as -> by (apply Z.rem_small_iff; lia). reflexivity.
Qed.
Lemma coord_reads a b c v : -1 <= a <= 1 -> -1 <= b <= 1 -> -1 <= c <= 1 ->
  exists s f, jf_row a b c = Done s /\ read_coord (s ++ jf_translation v) = Some f /\
    lx f = a /\ ly f = b /\ lz f = c /\ (lconst f == inject_Z (Z.rem v 12) / 12)%Q /\
    lacks "," (s ++ jf_translation v) = true.
Proof.
  intros A B C. pose proof (Z.rem_bound_abs v 12 ltac:(lia)) as W. rewrite jf_translation_rem.
  assert (coord_ok a b c (Z.rem v 12) = true) as K.
  { pose proof coords_ok as K. rewrite forallb_forall in K. specialize (K a (units_in a A)).
    rewrite forallb_forall in K. specialize (K b (units_in b B)).
    rewrite forallb_forall in K. specialize (K c (units_in c C)).
    rewrite forallb_forall in K. apply K. apply rems_in. lia. }
  unfold coord_ok in K. destruct (jf_row a b c) as [s | |]; try discriminate. cbv zeta in K.
  destruct (read_coord _) as [f |] eqn:R; [| discriminate].
  rewrite !andb_true_iff, !Z.eqb_eq, Qeq_bool_iff in K.
  exists s, f. rewrite R. tauto.
Qed.
(** ** splitting at commas *)
Lemma split_lacks c s : lacks c s = true -> split_on c s = [s].
Proof.
  induction s as [| d r IH]; cbn [lacks split_on]; [reflexivity |].
  destruct (Ascii.eqb d c); [discriminate |]. intros H. rewrite IH; auto.
Qed.
Lemma split_app c s t : lacks c s = true -> split_on c (s ++ String c t) = s :: split_on c t.
Proof.
  induction s as [| d r IH]; cbn [lacks split_on append].
  - intros _. rewrite Ascii.eqb_refl. reflexivity.
  - destruct (Ascii.eqb d c); [discriminate |]. intros H. rewrite IH; auto.
Qed.
Lemma jones_reads m : unit_matrix (rot m) -> exists s q,
  jones m = Done s /\ read_xyz s = Some (rot m, q) /\
  (qx q == inject_Z (Z.rem (vx (tra m)) 12) / 12)%Q /\ (qy q == inject_Z (Z.rem (vy (tra m)) 12) / 12)%Q /\
  (qz q == inject_Z (Z.rem (vz (tra m)) 12) / 12)%Q.
Proof.
  intros (U1 & U2 & U3 & U4 & U5 & U6 & U7 & U8 & U9).
  destruct (coord_reads _ _ _ (vx (tra m)) U1 U2 U3) as (s1 & f1 & E1 & R1 & X1 & Y1 & Z1 & Q1 & L1).
  destruct (coord_reads _ _ _ (vy (tra m)) U4 U5 U6) as (s2 & f2 & E2 & R2 & X2 & Y2 & Z2 & Q2 & L2).
  destruct (coord_reads _ _ _ (vz (tra m)) U7 U8 U9) as (s3 & f3 & E3 & R3 & X3 & Y3 & Z3 & Q3 & L3).
  eexists. exists (QV (lconst f1) (lconst f2) (lconst f3)). cbn [qx qy qz].
  unfold jones, rotation_jf. rewrite E1, E2, E3. cbn [obind vlist map combine fst snd sjoin].
  split; [reflexivity |]. split; [| auto].
  unfold read_xyz. cbn [append]. rewrite split_app, split_app, split_lacks by assumption.
  rewrite R1, R2, R3, X1, Y1, Z1, X2, Y2, Z2, X3, Y3, Z3. destruct (rot m); reflexivity.
Qed.
Lemma rem_cell v : exists k : Z, (inject_Z (Z.rem v 12) / 12 - inject_Z v / 12 == inject_Z k)%Q.
Proof.
  exists (- Z.quot v 12). pose proof (Z.quot_rem' v 12) as H.
  rewrite H at 2. rewrite inject_Z_plus, inject_Z_mult, inject_Z_opp. change (inject_Z 12) with (12 # 1). field.
Qed.
Lemma rem_small_q v : (-(1) < inject_Z (Z.rem v 12) / 12 < 1)%Q.
Proof.
  pose proof (Z.rem_bound_abs v 12 ltac:(lia)) as B. generalize dependent (Z.rem v 12). intros w B.
  unfold Qlt, Qdiv, Qmult, inject_Z; cbn. lia.
Qed.

(** ** C22 *)
Theorem C22_text_reads_back :
  forall m, unit_matrix (rot m) -> exists s q,
    jones m = Done s /\ read_xyz s = Some (rot m, q) /\
    cells_apart q (cells_of (tra m)) /\ within_one_cell q.
Proof.
  intros m U. destruct (jones_reads m U) as (s & q & E & R & X & Y & Z). exists s, q.
  split; [assumption | split; [assumption |]]. unfold cells_apart, within_one_cell, cells_of. cbn [qx qy qz].
  destruct (rem_cell (vx (tra m))) as [i I], (rem_cell (vy (tra m))) as [j J], (rem_cell (vz (tra m))) as [k K].
  split.
  - exists i, j, k. rewrite X, Y, Z. auto.
  - rewrite X, Y, Z. auto using rem_small_q.
Qed.
Lemma cells_rem v w : (inject_Z (Z.rem v 12) / 12 == inject_Z (Z.rem w 12) / 12)%Q -> cong12 v w.
Proof.
  intros H. assert (inject_Z (Z.rem v 12) == inject_Z (Z.rem w 12))%Q as E.
  { setoid_replace (inject_Z (Z.rem v 12)) with (inject_Z (Z.rem v 12) / 12 * 12)%Q by field.
    rewrite H. field. }
  apply (proj1 (inject_Z_injective _ _)) in E. pose proof (Z.quot_rem' v 12) as A. pose proof (Z.quot_rem' w 12) as B.
  exists (Z.quot v 12 - Z.quot w 12). clear H. rewrite E in A. revert A B.
  generalize (Z.quot v 12) (Z.quot w 12) (Z.rem w 12). intros; lia.
Qed.
(** different operations have different texts; equal operations may still have different ones *)
Theorem C22_same_text_same_operation :
  forall a b s, unit_matrix (rot a) -> unit_matrix (rot b) -> jones a = Done s -> jones b = Done s ->
  sz_eqb a b = true /\ same_op a b.
Proof.
  intros a b s Ua Ub Ea Eb. destruct (jones_reads a Ua) as (sa & qa & Ea' & Ra & Xa & Ya & Za).
  destruct (jones_reads b Ub) as (sb & qb & Eb' & Rb & Xb & Yb & Zb).
  assert (sa = s) by congruence. assert (sb = s) by congruence. subst sa sb.
  rewrite Ra in Rb. injection Rb as Er Eq. subst qb.
  assert (S : same_op a b).
  { split; [assumption |]. split; [| split]; apply cells_rem.
    - now rewrite <- Xa, <- Xb. - now rewrite <- Ya, <- Yb. - now rewrite <- Za, <- Zb. }
  split; [| assumption]. now apply sz_eqb_same.
Qed.
Theorem C22_equal_operations_different_texts :
  exists a b s t, sz_eqb a b = true /\ unit_matrix (rot a) /\ jones a = Done s /\ jones b = Done t /\ s <> t.
Proof.
  exists (aff I3 (V3 6 0 0)), (aff I3 (V3 (-6) 0 0)). eexists. eexists.
  split; [vm_compute; reflexivity |]. split; [unfold unit_matrix; cbn; lia |].
  split; [vm_compute; reflexivity |]. split; [vm_compute; reflexivity |]. discriminate.
Qed.
(** the text is the same for equal operations whose translations are reduced to 0..11 *)
Theorem C22_reduced_operations_same_text :
  forall a b, sz_eqb a b = true -> vbetween 0 12 (tra a) -> vbetween 0 12 (tra b) -> jones a = jones b.
Proof.
  intros a b H Ba Bb. apply sz_eqb_same in H. destruct H as (R & (i & X) & (j & Y) & (k & Z)).
  assert (tra a = tra b) as T.
  { apply vec3_ext; unfold vbetween in *; lia. }
  unfold jones. rewrite R, T. reflexivity.
Qed.
(** for arbitrary integer entries the text exists unless the product of some entry with the character code
    of its letter (120, 121, 122) is, up to sign, not a Unicode scalar value *)
Definition unicode_scalar (v : Z) : Prop := 0 <= v <= 1114111 /\ ~ (55296 <= v <= 57343).
Definition letter_products (R : mat3) : list Z :=
  [120 * m11 R; 121 * m12 R; 122 * m13 R; 120 * m21 R; 121 * m22 R; 122 * m23 R; 120 * m31 R; 121 * m32 R; 122 * m33 R].
Lemma char_scalar v : 0 <= v -> (unicode_scalar v <-> exists s, char_utf8 v = Some s).
Proof.
  intros P. unfold unicode_scalar, char_utf8.
  destruct (Z.ltb_spec v 128); [split; [eauto | lia] |].
  destruct (Z.ltb_spec v 2048); [split; [eauto | lia] |].
  destruct (Z.ltb_spec v 65536).
  - destruct (Z.leb_spec 55296 v), (Z.leb_spec v 57343); cbn [andb]; (split; [eauto || lia | intros (s & E)]); try discriminate; lia.
  - destruct (Z.leb_spec v 1114111); (split; [eauto || lia | intros (s & E)]); try discriminate; lia.
Qed.
Lemma entry_cases code a : (exists s, jf_entry code a = Done s /\ unicode_scalar (Z.abs (code * a))) \/
  (jf_entry code a = Panic "called `Option::unwrap()` on a `None` value" /\ ~ unicode_scalar (Z.abs (code * a))).
Proof.
  unfold jf_entry. pose proof (char_scalar (Z.abs (code * a)) (Z.abs_nonneg _)) as K.
  destruct (char_utf8 _) as [s |] eqn:E.
  - left. eexists. split; [reflexivity |]. apply K. eauto.
  - right. split; [reflexivity |]. rewrite K. intros (s & E'). congruence.
Qed.
Lemma row_cases a b c : (exists s, jf_row a b c = Done s /\ Forall (fun p => unicode_scalar (Z.abs p)) [120 * a; 121 * b; 122 * c]) \/
  (jf_row a b c = Panic "called `Option::unwrap()` on a `None` value" /\ Exists (fun p => ~ unicode_scalar (Z.abs p)) [120 * a; 121 * b; 122 * c]).
Proof.
  unfold jf_row. destruct (entry_cases 120 a) as [(x & -> & X) | [-> X]]; cbn [obind]; [| right; auto].
  destruct (entry_cases 121 b) as [(y & -> & Y) | [-> Y]]; cbn [obind]; [| right; auto].
  destruct (entry_cases 122 c) as [(z & -> & Z') | [-> Z']]; cbn [obind]; [| right; auto].
  left. eexists. split; [reflexivity |]. auto.
Qed.
Theorem C22_text_exists_iff :
  forall m, ((exists s, jones m = Done s) <-> Forall (fun p => unicode_scalar (Z.abs p)) (letter_products (rot m))) /\
            ((exists w, jones m = Panic w) <-> Exists (fun p => ~ unicode_scalar (Z.abs p)) (letter_products (rot m))).
Proof.
  intros m.
  assert (C : (exists s, jones m = Done s /\ Forall (fun p => unicode_scalar (Z.abs p)) (letter_products (rot m))) \/
    (exists w, jones m = Panic w /\ Exists (fun p => ~ unicode_scalar (Z.abs p)) (letter_products (rot m)))).
  { unfold jones, rotation_jf, letter_products. destruct (rot m) as [a b c d e f g h i]. cbn [m11 m12 m13 m21 m22 m23 m31 m32 m33].
    change (?a :: ?b :: ?c :: ?r) with ([a; b; c] ++ r)%list.
    destruct (row_cases a b c) as [(x & -> & X) | [-> X]]; cbn [obind]; [| right; eexists; split; [reflexivity |]; apply Exists_app; auto].
    destruct (row_cases d e f) as [(y & -> & Y) | [-> Y]]; cbn [obind]; [| right; eexists; split; [reflexivity |]; apply Exists_app; right; apply (Exists_app _ [120 * d; 121 * e; 122 * f]); auto].
    destruct (row_cases g h i) as [(z & -> & Z') | [-> Z']]; cbn [obind]; [| right; eexists; split; [reflexivity |]; apply Exists_app; right; apply (Exists_app _ [120 * d; 121 * e; 122 * f]); auto].
    left. eexists. split; [reflexivity |]. apply Forall_app. split; [exact X |]. apply (Forall_app _ [120 * d; 121 * e; 122 * f]). auto. }
  assert (X : ~ (Forall (fun p => unicode_scalar (Z.abs p)) (letter_products (rot m)) /\ Exists (fun p => ~ unicode_scalar (Z.abs p)) (letter_products (rot m)))).
  { intros [F E]. rewrite Forall_forall in F. apply Exists_exists in E. destruct E as (p & I & N). exact (N (F p I)). }
  destruct C as [(s & E & F) | (w & E & F)]; rewrite E; split; split.
  - auto. - eauto. - intros (w & D). discriminate. - intros Y. exfalso. auto.
  - intros (w' & D). discriminate. - intros Y. exfalso. auto. - auto. - eauto.
Qed.
Example C22_panic_case : (exists s, jones (aff (M3 460 0 0 0 1 0 0 0 1) v0) = Done s) /\
  jones (aff (M3 (-461) 0 0 0 1 0 0 0 1) v0) = Panic "called `Option::unwrap()` on a `None` value".
Proof. split; [eexists |]; vm_compute; reflexivity. Qed.
Example C22_case : unit_matrix (M3 0 (-1) 0 1 (-1) 0 0 0 (-1)) /\
  jones (aff (M3 0 (-1) 0 1 (-1) 0 0 0 (-1)) (V3 8 (-3) 18)) = Done "-y+2/3,x-y-1/4,-z+1/2"%string.
Proof. split; [unfold unit_matrix; cbn; lia | vm_compute; reflexivity]. Qed.

(** ** C23 *)
Lemma append_nil_r s : (s ++ "")%string = s.
Proof. induction s; cbn [append]; congruence. Qed.
Lemma jones_rot_is_jones m : jones_rot m = jones (aff (rot m) v0).
Proof.
  unfold jones_rot, jones, rotation_jf. cbn [rot aff tra].
  destruct (jf_row (m11 (rot m)) _ _); cbn [obind]; try reflexivity.
  destruct (jf_row (m21 (rot m)) _ _); cbn [obind]; try reflexivity.
  destruct (jf_row (m31 (rot m)) _ _); cbn [obind]; try reflexivity.
  change (map jf_translation (vlist v0)) with [EmptyString; EmptyString; EmptyString].
  cbn [combine map fst snd]. rewrite !append_nil_r. reflexivity.
Qed.
Theorem C23_rotation_text_reads_back :
  forall m, unit_matrix (rot m) -> exists s q, jones_rot m = Done s /\ read_xyz s = Some (rot m, q) /\
    (qx q == 0 /\ qy q == 0 /\ qz q == 0)%Q.
Proof.
  intros m U. rewrite jones_rot_is_jones.
  destruct (jones_reads (aff (rot m) v0) U) as (s & q & E & R & X & Y & Z).
  exists s, q. split; [assumption | split; [assumption |]]. rewrite X, Y, Z. repeat split; reflexivity.
Qed.
Theorem C23_rotation_text_injective :
  forall a b s, unit_matrix (rot a) -> unit_matrix (rot b) ->
  jones_rot a = Done s -> jones_rot b = Done s -> rot a = rot b.
Proof.
  intros a b s Ua Ub Ea Eb. destruct (C23_rotation_text_reads_back a Ua) as (sa & qa & Ea' & Ra & _).
  destruct (C23_rotation_text_reads_back b Ub) as (sb & qb & Eb' & Rb & _). congruence.
Qed.
(** outside -1..1 it is not injective: 121 x and 120 y have the same text *)
Theorem C23_injective_refuted_for_large_entries :
  exists a b s, jones_rot a = Done s /\ jones_rot b = Done s /\ rot a <> rot b.
Proof.
  exists (aff (M3 121 0 0 0 1 0 0 0 1) v0), (aff (M3 0 120 0 0 1 0 0 0 1) v0). eexists.
  split; [vm_compute; reflexivity |]. split; [vm_compute; reflexivity |]. discriminate.
Qed.

(** ** C23: the order tables *)
Definition unit_rows : list vec3 :=
  flat_map (fun a => flat_map (fun b => map (fun c => V3 a b c) units) units) units.
Definition row_cols (a b c : vec3) : mat3 := M3 (vx a) (vy a) (vz a) (vx b) (vy b) (vz b) (vx c) (vy c) (vz c).
Definition unit_matrices : list mat3 :=
  flat_map (fun a => flat_map (fun b => map (fun c => row_cols a b c) unit_rows) unit_rows) unit_rows.
Lemma unit_rows_in a b c : -1 <= a <= 1 -> -1 <= b <= 1 -> -1 <= c <= 1 -> In (V3 a b c) unit_rows.
Proof.
  intros A B C. apply in_flat_map. exists a. split; [now apply units_in |].
  apply in_flat_map. exists b. split; [now apply units_in |]. apply in_map. now apply units_in.
Qed.
Lemma unit_matrices_in M : unit_matrix M -> In M unit_matrices.
Proof.
  destruct M as [a b c d e f g h i]. unfold unit_matrix. cbn [m11 m12 m13 m21 m22 m23 m31 m32 m33].
  intros (A & B & C & D & E & F & G & H & I).
  apply in_flat_map. exists (V3 a b c). split; [now apply unit_rows_in |].
  apply in_flat_map. exists (V3 d e f). split; [now apply unit_rows_in |].
  apply in_map_iff. exists (V3 g h i). split; [reflexivity | now apply unit_rows_in].
Qed.
Definition preservesb (G R : mat3) : bool := meqb (mmul (mmul (transposed R) G) R) G.
Lemma preservesb_eq G R : preservesb G R = true <-> preserves G R.
Proof. unfold preservesb, preserves. apply meqb_eq. Qed.
Definition table_agrees (table : list string) (p : mat3 -> bool) (R : mat3) : bool :=
  match jones_rot (aff R v0) with
  | Done s => Bool.eqb (p R) (existsb (String.eqb s) table)
  | _ => false
  end.
Definition hex0 := M3 2 (-1) 0 (-1) 2 0 0 0 0.
Definition hex1 := M3 2 (-1) 0 (-1) 2 0 0 0 1.
Definition rho1 := M3 0 1 1 1 0 1 1 1 0.
Definition cubicb R := preservesb I3 R.
Definition hexb R := preservesb hex0 R && preservesb hex1 R.
Definition rhob R := preservesb I3 R && preservesb rho1 R.
Lemma table_agrees_spec table p R : table_agrees table p R = true ->
  (p R = true <-> exists s, In s table /\ jones_rot (aff R v0) = Done s).
Proof.
  unfold table_agrees. destruct (jones_rot (aff R v0)) as [s | |]; try discriminate.
  intros H. apply eqb_prop in H. rewrite H, existsb_exists. split.
  - intros (x & I & E). apply String.eqb_eq in E. subst x. eauto.
  - intros (x & I & E). injection E as ->. exists x. split; [assumption | apply String.eqb_refl].
Qed.
Lemma mmul_mscale_l' k a b : mmul (mscale k a) b = mscale k (mmul a b). Proof. mat_ring. Qed.
Lemma preserves_comb k l G H R : preserves G R -> preserves H R ->
  preserves (madd (mscale k G) (mscale l H)) R.
Proof.
  unfold preserves. intros A B.
  assert (mmul (mmul (transposed R) (madd (mscale k G) (mscale l H))) R =
          madd (mscale k (mmul (mmul (transposed R) G) R)) (mscale l (mmul (mmul (transposed R) H) R))) as ->.
  { rewrite mmul_madd_r, mmul_madd_l, !mmul_mscale_r. now rewrite !mmul_mscale_l'. }
  now rewrite A, B.
Qed.
Lemma hexb_spec R : hexb R = true <-> hexagonal_rotation R.
Proof.
  unfold hexb, hexagonal_rotation. rewrite andb_true_iff, !preservesb_eq. split.
  - intros [A B] c. pose proof (preserves_comb (1 - c) c _ _ _ A B) as H.
    replace (M3 2 (-1) 0 (-1) 2 0 0 0 c) with (madd (mscale (1 - c) hex0) (mscale c hex1)); [assumption |].
    unfold hex0, hex1. mat_ring.
  - intros H. split; [apply (H 0) | apply (H 1)].
Qed.
Lemma rhob_spec R : rhob R = true <-> rhombohedral_rotation R.
Proof.
  unfold rhob, rhombohedral_rotation. rewrite andb_true_iff, !preservesb_eq. split.
  - intros [A B] a b. pose proof (preserves_comb a b _ _ _ A B) as H.
    replace (M3 a b b b a b b b a) with (madd (mscale a I3) (mscale b rho1)); [assumption |].
    unfold rho1. mat_ring.
  - intros H. split; [apply (H 1 0) | apply (H 0 1)].
Qed.
Lemma cubicb_spec R : cubicb R = true <-> cubic_rotation R.
Proof. apply preservesb_eq. Qed.
Lemma sq3 x y z : x * x + y * y + z * z = 1 -> -1 <= x <= 1 /\ -1 <= y <= 1 /\ -1 <= z <= 1.
Proof. nia. Qed.
Lemma cubic_unit R : cubic_rotation R -> unit_matrix R.
Proof.
  unfold cubic_rotation, preserves. destruct R as [a b c d e f g h i]. unfold mmul, transposed, unit_matrix.
  cbn [m11 m12 m13 m21 m22 m23 m31 m32 m33]. intros H.
  pose proof (f_equal m11 H) as H1. pose proof (f_equal m22 H) as H2. pose proof (f_equal m33 H) as H3.
  cbn [m11 m12 m13 m21 m22 m23 m31 m32 m33] in H1, H2, H3. clear H.
  pose proof (sq3 a d g ltac:(lia)). pose proof (sq3 b e h ltac:(lia)). pose proof (sq3 c f i ltac:(lia)). tauto.
Qed.
Lemma hex_norm x y n : 2 * (x * x) - 2 * (x * y) + 2 * (y * y) = n -> 0 <= n <= 2 -> -1 <= x <= 1 /\ -1 <= y <= 1.
Proof.
  intros H N. assert ((2 * x - y) * (2 * x - y) + 3 * (y * y) = 2 * n) by (rewrite <- H; ring).
  assert ((2 * y - x) * (2 * y - x) + 3 * (x * x) = 2 * n) by (rewrite <- H; ring). nia.
Qed.
Lemma hexagonal_unit R : hexagonal_rotation R -> unit_matrix R.
Proof.
  intros H. pose proof (H 0) as H0. pose proof (H 1) as H1. clear H. unfold preserves in *.
  destruct R as [a b c d e f g h i]. unfold mmul, transposed, unit_matrix in *.
  cbn [m11 m12 m13 m21 m22 m23 m31 m32 m33] in *.
  pose proof (f_equal m11 H0) as A0. pose proof (f_equal m22 H0) as B0. pose proof (f_equal m33 H0) as C0.
  pose proof (f_equal m11 H1) as A1. pose proof (f_equal m22 H1) as B1. pose proof (f_equal m33 H1) as C1.
  cbn [m11 m12 m13 m21 m22 m23 m31 m32 m33] in *. clear H0 H1.
  pose proof (hex_norm a d 2 ltac:(lia) ltac:(lia)). pose proof (hex_norm b e 2 ltac:(lia) ltac:(lia)).
  pose proof (hex_norm c f 0 ltac:(lia) ltac:(lia)).
  assert (g * g = 0) by lia. assert (h * h = 0) by lia. assert (i * i = 1) by lia.
  assert (-1 <= g <= 1) by nia. assert (-1 <= h <= 1) by nia. assert (-1 <= i <= 1) by nia. tauto.
Qed.
Lemma rhombohedral_cubic R : rhombohedral_rotation R -> cubic_rotation R.
Proof. intros H. exact (H 1 0). Qed.
(** the rotations that preserve a metric, column by column *)
Definition qform (G : mat3) (u v : vec3) : Z := vdot u (mvmul G v).
Definition columns (a b c : vec3) : mat3 := M3 (vx a) (vx b) (vx c) (vy a) (vy b) (vy c) (vz a) (vz b) (vz c).
Definition preserving (G : mat3) : list mat3 :=
  flat_map (fun a => if qform G a a =? m11 G then
    flat_map (fun b => if qform G b b =? m22 G then if qform G a b =? m12 G then
      flat_map (fun c => if qform G c c =? m33 G then if qform G a c =? m13 G then if qform G b c =? m23 G then
        [columns a b c] else [] else [] else []) unit_rows else [] else []) unit_rows else []) unit_rows.
Lemma preserving_in G R : unit_matrix R -> preserves G R -> In R (preserving G).
Proof.
  destruct R as [a b c d e f g h i]. unfold unit_matrix. cbn [m11 m12 m13 m21 m22 m23 m31 m32 m33].
  intros (A & B & C & D & E & F & K & H & I) P. unfold preserves in P.
  assert (Q : forall (p : mat3 -> Z) u v, p (mmul (mmul (transposed (M3 a b c d e f g h i)) G) (M3 a b c d e f g h i)) = qform G u v ->
    (qform G u v =? p G) = true).
  { intros p u v Hp. rewrite <- Hp, P. apply Z.eqb_refl. }
  assert (Q11 : (qform G (V3 a d g) (V3 a d g) =? m11 G) = true) by (apply (Q m11); destruct G as [x1 x2 x3 x4 x5 x6 x7 x8 x9]; unfold qform, vdot, mmul, transposed, mvmul; cbn [m11 m12 m13 m21 m22 m23 m31 m32 m33 vx vy vz]; ring).
  assert (Q22 : (qform G (V3 b e h) (V3 b e h) =? m22 G) = true) by (apply (Q m22); destruct G as [x1 x2 x3 x4 x5 x6 x7 x8 x9]; unfold qform, vdot, mmul, transposed, mvmul; cbn [m11 m12 m13 m21 m22 m23 m31 m32 m33 vx vy vz]; ring).
  assert (Q33 : (qform G (V3 c f i) (V3 c f i) =? m33 G) = true) by (apply (Q m33); destruct G as [x1 x2 x3 x4 x5 x6 x7 x8 x9]; unfold qform, vdot, mmul, transposed, mvmul; cbn [m11 m12 m13 m21 m22 m23 m31 m32 m33 vx vy vz]; ring).
  assert (Q12 : (qform G (V3 a d g) (V3 b e h) =? m12 G) = true) by (apply (Q m12); destruct G as [x1 x2 x3 x4 x5 x6 x7 x8 x9]; unfold qform, vdot, mmul, transposed, mvmul; cbn [m11 m12 m13 m21 m22 m23 m31 m32 m33 vx vy vz]; ring).
  assert (Q13 : (qform G (V3 a d g) (V3 c f i) =? m13 G) = true) by (apply (Q m13); destruct G as [x1 x2 x3 x4 x5 x6 x7 x8 x9]; unfold qform, vdot, mmul, transposed, mvmul; cbn [m11 m12 m13 m21 m22 m23 m31 m32 m33 vx vy vz]; ring).
  assert (Q23 : (qform G (V3 b e h) (V3 c f i) =? m23 G) = true) by (apply (Q m23); destruct G as [x1 x2 x3 x4 x5 x6 x7 x8 x9]; unfold qform, vdot, mmul, transposed, mvmul; cbn [m11 m12 m13 m21 m22 m23 m31 m32 m33 vx vy vz]; ring).
  clear P Q. unfold preserving.
  apply in_flat_map. exists (V3 a d g). split; [now apply unit_rows_in |]. rewrite Q11.
  apply in_flat_map. exists (V3 b e h). split; [now apply unit_rows_in |]. rewrite Q22, Q12.
  apply in_flat_map. exists (V3 c f i). split; [now apply unit_rows_in |]. rewrite Q33, Q13, Q23. now left.
Qed.
(** the 48 rotations of a cube, the 24 of a hexagonal prism *)
Definition cubic48 : list mat3 := Eval vm_compute in filter cubicb unit_matrices.
Definition hexagonal24 : list mat3 := Eval vm_compute in filter hexb unit_matrices.
Definition mat_inb (R : mat3) (l : list mat3) : bool := existsb (meqb R) l.
Lemma mat_inb_in R l : mat_inb R l = true -> In R l.
Proof. unfold mat_inb. rewrite existsb_exists. intros (x & I & E). apply meqb_eq in E. now subst. Qed.
Lemma preserving_sub G l : forallb (fun R => mat_inb R l) (preserving G) = true -> forall R, unit_matrix R -> preserves G R -> In R l.
Proof.
  intros H R U P. rewrite forallb_forall in H. apply mat_inb_in, H, preserving_in; assumption.
Qed.
Lemma cubic48_in R : cubic_rotation R -> In R cubic48.
Proof.
  intros C. refine (preserving_sub I3 cubic48 _ R (cubic_unit R C) C). vm_cast_no_check (@eq_refl bool true).
Qed.
Lemma hexagonal24_in R : hexagonal_rotation R -> In R hexagonal24.
Proof.
  intros C. refine (preserving_sub hex1 hexagonal24 _ R (hexagonal_unit R C) (C 1)). vm_cast_no_check (@eq_refl bool true).
Qed.
Lemma agree48 : forallb (fun R => table_agrees order_48 cubicb R && table_agrees order_12 rhob R) cubic48 = true.
Proof. vm_cast_no_check (@eq_refl bool true). Qed.
Lemma agree24 : forallb (table_agrees order_24 hexb) hexagonal24 = true.
Proof. vm_cast_no_check (@eq_refl bool true). Qed.
Lemma agree48_at R : cubic_rotation R -> table_agrees order_48 cubicb R = true /\ table_agrees order_12 rhob R = true.
Proof.
  intros C. pose proof (proj1 (forallb_forall _ cubic48) agree48 R (cubic48_in R C)) as H. cbv beta in H.
  now apply andb_true_iff in H.
Qed.
Lemma agree24_at R : hexagonal_rotation R -> table_agrees order_24 hexb R = true.
Proof. intros C. exact (proj1 (forallb_forall _ hexagonal24) agree24 R (hexagonal24_in R C)). Qed.
(** the tables list each rotation of the metric once, and nothing else *)
Definition lists_exactly (table : list string) (p : mat3 -> Prop) : Prop :=
  NoDup table /\
  (forall s, In s table -> exists R q, read_xyz s = Some (R, q) /\ p R /\ (qx q == 0 /\ qy q == 0 /\ qz q == 0)%Q) /\
  (forall R, p R -> exists s, In s table /\ jones_rot (aff R v0) = Done s /\ exists q, read_xyz s = Some (R, q)).
Fixpoint nodupb (l : list string) : bool :=
  match l with [] => true | s :: r => negb (existsb (String.eqb s) r) && nodupb r end.
Lemma nodupb_sound l : nodupb l = true -> NoDup l.
Proof.
  induction l as [| s r IH]; cbn [nodupb]; [constructor |]. rewrite andb_true_iff, negb_true_iff. intros [A B].
  constructor; auto. intros I. rewrite <- not_true_iff_false in A. apply A. apply existsb_exists.
  exists s. split; [assumption | apply String.eqb_refl].
Qed.
Definition reads_as (p : mat3 -> bool) (s : string) : bool :=
  match read_xyz s with
  | Some (R, q) => p R && Qeq_bool (qx q) 0 && Qeq_bool (qy q) 0 && Qeq_bool (qz q) 0
  | None => false
  end.
Lemma lists_exactly_check table pb (p : mat3 -> Prop) :
  (forall R, pb R = true <-> p R) -> (forall R, p R -> unit_matrix R) ->
  (forall R, p R -> table_agrees table pb R = true) ->
  nodupb table = true -> forallb (reads_as pb) table = true -> lists_exactly table p.
Proof.
  intros S U A N F. split; [now apply nodupb_sound |]. split.
  - intros s I. pose proof (proj1 (forallb_forall _ _) F s I) as H. unfold reads_as in H.
    destruct (read_xyz s) as [[R q] |]; [| discriminate]. rewrite !andb_true_iff, !Qeq_bool_iff in H.
    exists R, q. split; [reflexivity |]. rewrite <- S. tauto.
  - intros R P. destruct (proj1 (table_agrees_spec _ _ _ (A R P)) (proj2 (S R) P)) as (s & I & E).
    exists s. split; [assumption | split; [assumption |]].
    destruct (C23_rotation_text_reads_back (aff R v0) (U R P)) as (s' & q & E' & R' & _). exists q.
    change (rot (aff R v0)) with R in R'. congruence.
Qed.
Theorem C23_order_48_is_the_cubic_rotations : lists_exactly order_48 cubic_rotation /\ length order_48 = 48%nat.
Proof.
  split; [| reflexivity]. apply (lists_exactly_check _ cubicb).
  - apply cubicb_spec. - apply cubic_unit. - intros R H. exact (proj1 (agree48_at R H)).
  - vm_compute; reflexivity. - vm_compute; reflexivity.
Qed.
Theorem C23_order_24_is_the_hexagonal_rotations : lists_exactly order_24 hexagonal_rotation /\ length order_24 = 24%nat.
Proof.
  split; [| reflexivity]. apply (lists_exactly_check _ hexb).
  - apply hexb_spec. - apply hexagonal_unit. - exact agree24_at.
  - vm_compute; reflexivity. - vm_compute; reflexivity.
Qed.
Theorem C23_order_12_is_the_rhombohedral_rotations :
  lists_exactly order_12 rhombohedral_rotation /\ length order_12 = 12%nat.
Proof.
  split; [| reflexivity]. apply (lists_exactly_check _ rhob).
  - apply rhob_spec. - intros R H. now apply cubic_unit, rhombohedral_cubic. - intros R H. exact (proj2 (agree48_at R (rhombohedral_cubic R H))).
  - vm_compute; reflexivity. - vm_compute; reflexivity.
Qed.
Lemma preserves_mul G A B : preserves G A -> preserves G B -> preserves G (mmul A B).
Proof.
  unfold preserves. intros HA HB.
  assert (transposed (mmul A B) = mmul (transposed B) (transposed A)) as -> by (unfold transposed; mat_ring).
  rewrite <- HB at 2. rewrite <- HA at 2. rewrite !mmul_assoc. reflexivity.
Qed.
(** so each of the three sets is closed under products *)
Theorem C23_order_tables_closed :
  forall table p, In (table, p) [(order_48, cubic_rotation); (order_24, hexagonal_rotation); (order_12, rhombohedral_rotation)] ->
  forall s t A B qa qb, In s table -> In t table -> read_xyz s = Some (A, qa) -> read_xyz t = Some (B, qb) ->
  exists u, In u table /\ jones_rot (aff (mmul A B) v0) = Done u.
Proof.
  intros table p Hin s t A B qa qb Is It Ra Rb.
  assert (lists_exactly table p /\ (forall X Y, p X -> p Y -> p (mmul X Y))) as ((_ & L1 & L2) & C).
  { destruct Hin as [E | [E | [E | []]]]; injection E as <- <-.
    - split; [apply C23_order_48_is_the_cubic_rotations |]. intros X Y. apply preserves_mul.
    - split; [apply C23_order_24_is_the_hexagonal_rotations |]. intros X Y HX HY c. now apply preserves_mul.
    - split; [apply C23_order_12_is_the_rhombohedral_rotations |]. intros X Y HX HY a b. now apply preserves_mul. }
  destruct (L1 s Is) as (A' & qa' & Ea & Pa & _), (L1 t It) as (B' & qb' & Eb & Pb & _).
  assert (A' = A) by congruence. assert (B' = B) by congruence. subst A' B'.
  destruct (L2 (mmul A B)) as (u & Iu & Eu & _); eauto.
Qed.
Example C23_case : In "-x+y,y,-z"%string order_24 /\ hexagonal_rotation (M3 (-1) 1 0 0 1 0 0 0 (-1)) /\
  ~ cubic_rotation (M3 (-1) 1 0 0 1 0 0 0 (-1)).
Proof.
  split; [vm_compute; tauto |]. split; [apply hexb_spec; vm_compute; reflexivity |].
  rewrite <- cubicb_spec. vm_compute. discriminate.
Qed.
