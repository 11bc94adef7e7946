(** * PropMachine3: property C45, continued: the printed listings with machine integers; the number of generators (C24). *)
From Coq Require Import Permutation.
From Verif Require Import Base Notations Parser Seitz F64 Jones Rotations Tables Generate Positions Display Machine Machine2 Machine3
  Spec SpecMachine SpecHall SpecRotation SpecXyz Algebra MachineFacts PropSymbols PropSeitz PropRotation GenFacts PropGenerate PropMachine PropMachine2 PropJones PropFullSets PropClass PropWork.
Open Scope Z_scope.
Local Notation length := List.length.

(** ** A debug build panics or prints the exact text, for any value *)
Lemma exact_iset_lines n i set : exact (iset_lines DebugBuild n i set) (set_lines n i set).
Proof.
  unfold iset_lines, set_lines. apply exact_omap. intros [k m]. cbn [fst snd].
  eapply exact_let; [apply exact_usize |]. eapply exact_let; [apply exact_usize |]. eapply exact_let; [apply exact_usize |].
  apply exact_bind; [apply exact_ijones |]. intros j. right. do 3 f_equal. lia.
Qed.
Lemma exact_itext g : exact (itext_format DebugBuild g) (text_format g).
Proof.
  unfold itext_format, text_format. eapply exact_let; [apply exact_iderive |].
  apply exact_bind; [| intros; now right]. apply exact_omap. intros q. apply exact_bind; [apply exact_iset_lines | intros; now right].
Qed.
Lemma exact_isz_display m : exact (isz_display DebugBuild m) (sz_display m).
Proof.
  unfold isz_display, sz_display. apply exact_bind; [apply exact_ijones |]. intros j.
  eapply exact_let; [apply exact_ieigenvector |]. now right.
Qed.
Lemma exact_ipositions g : exact (ipositions_display DebugBuild g) (positions_display g).
Proof.
  unfold ipositions_display, positions_display. eapply exact_let; [apply exact_iderive |].
  apply exact_bind; [| intros; now right]. apply exact_omap. intros q. apply exact_bind; [apply exact_omap, exact_isz_display | intros; now right].
Qed.
Theorem C45_debug_texts_exact_or_panic :
  (forall g, itext_format DebugBuild g = overflow \/ itext_format DebugBuild g = text_format g) /\
  (forall m, isz_display DebugBuild m = overflow \/ isz_display DebugBuild m = sz_display m) /\
  (forall g, ipositions_display DebugBuild g = overflow \/ ipositions_display DebugBuild g = positions_display g).
Proof. split; [exact exact_itext |]. split; [exact exact_isz_display | exact exact_ipositions]. Qed.

(** ** The listings of generated positions are exact in both builds *)
Lemma mapi_index {A} (l : list A) : forall k i a, In (i, a) (mapi_from (fun i m => (i, m)) k l) -> (i < k + length l)%nat /\ In a l.
Proof.
  induction l as [| x l IH]; intros k i a; cbn [mapi_from]; [intros [] |]. intros [E | I].
  - assert (i = k) by congruence. assert (a = x) by congruence. subst. cbn [length]. split; [lia | now left].
  - destruct (IH _ _ _ I) as [L J]. cbn [length]. split; [lia | now right].
Qed.
Lemma usize_fits p z : 0 <= z <= 18446744073709551615 -> usize p z = Done z.
Proof. intros H. unfold usize. destruct (Z.leb_spec 0 z); [| lia]. destruct (Z.leb_spec z 18446744073709551615); [reflexivity | lia]. Qed.
Lemma unit_display p m : unit_matrix (rot m) -> isz_display p m = sz_display m.
Proof.
  intros U. unfold isz_display, sz_display. rewrite (ijones_fits p m U). destruct (jones m) as [j | |]; cbn [obind]; [| reflexivity | reflexivity].
  assert (W : entries_within 65536 (rot m) /\ Z.abs (det_spec (rot m)) <= 700000000).
  { unfold unit_matrix in U. decompose [and] U. clear U. split; [unfold entries_within; repeat match goal with |- _ /\ _ => split end; lia |].
    unfold det_spec. destruct (rot m) as [a b c d e f x y z]. cbn [m11 m12 m13 m21 m22 m23 m31 m32 m33] in *.
    assert (P : forall x y, -1 <= x <= 1 -> -1 <= y <= 1 -> -1 <= x * y <= 1) by (intros; nia).
    assert (P2 : forall x y, -1 <= x <= 1 -> -2 <= y <= 2 -> -2 <= x * y <= 2) by (intros; nia).
    pose proof (P e z ltac:(lia) ltac:(lia)) as E1. pose proof (P f y ltac:(lia) ltac:(lia)) as E2. pose proof (P b z ltac:(lia) ltac:(lia)) as E3.
    pose proof (P c y ltac:(lia) ltac:(lia)) as E4. pose proof (P b f ltac:(lia) ltac:(lia)) as E5. pose proof (P c e ltac:(lia) ltac:(lia)) as E6.
    pose proof (P2 a (e * z - f * y) ltac:(lia) ltac:(lia)). pose proof (P2 d (b * z - c * y) ltac:(lia) ltac:(lia)).
    pose proof (P2 x (b * f - c * e) ltac:(lia) ltac:(lia)). lia. }
  rewrite (C45_eigenvector_fits p m (proj1 W) (proj2 W)). reflexivity.
Qed.
Theorem C45_texts_never_overflow :
  forall p fuel h g, general_positions fuel h = Done g ->
    itext_format p g = text_format g /\ ipositions_display p g = positions_display g.
Proof.
  intros p fuel h g H. assert (U : forall m, In m (gp_core g) -> unit_matrix (rot m)) by (intros m I; apply (core_unit _ _ _ _ H I)).
  destruct (C45_listing_never_overflows p fuel h g H U) as [F _].
  assert (Us : forall set m, In set (derive_full_sets g) -> In m set -> unit_matrix (rot m)).
  { intros set m I J. unfold derive_full_sets in I. apply in_map_iff in I. destruct I as (v & <- & _). apply in_map_iff in J. destruct J as (m0 & <- & J). exact (U m0 J). }
  assert (N : (num_of_general_pos g <= most_positions)%nat) by exact (C75_positions_bounded _ _ _ H).
  assert (Ls : forall set, In set (derive_full_sets g) -> length set = num_of_general_pos g).
  { intros set I. unfold derive_full_sets in I. apply in_map_iff in I. destruct I as (v & <- & _). apply map_length. }
  assert (La : (length (derive_full_sets g) <= 4)%nat).
  { unfold derive_full_sets. rewrite map_length. destruct (general_positions_spec _ _ _ H) as [-> _]. destruct (ls_char (h_lat h)); cbn; lia. }
  split.
  - unfold itext_format, text_format. rewrite F. cbn [obind].
    rewrite (omap_same _ (fun p0 => obind (set_lines (num_of_general_pos g) (fst (fst p0)) (snd (fst p0))) (fun ls => Done (sjoin newline [set_heading (snd p0); sjoin newline ls])))); [reflexivity |].
    intros [[i set] v] I. cbn [fst snd]. apply in_combine_l in I. apply mapi_index in I. destruct I as [Li I].
    assert (E : iset_lines p (num_of_general_pos g) i set = set_lines (num_of_general_pos g) i set); [| rewrite E; reflexivity].
    unfold iset_lines, set_lines. apply omap_same. intros [k m] J. apply mapi_index in J. destruct J as [Lk J]. cbn [fst snd].
    rewrite (Ls set I) in Lk. set (n := num_of_general_pos g) in *.
    assert (B : Z.of_nat n <= 63936) by (change 63936 with (Z.of_nat most_positions); lia).
    assert (Bi : Z.of_nat i <= 4) by lia. assert (Bk : Z.of_nat k < Z.of_nat n) by lia.
    rewrite (usize_fits p (Z.of_nat i * Z.of_nat n)) by nia. cbn [obind].
    rewrite (usize_fits p (Z.of_nat i * Z.of_nat n + Z.of_nat k)) by nia. cbn [obind].
    rewrite (usize_fits p (Z.of_nat i * Z.of_nat n + Z.of_nat k + 1)) by nia. cbn [obind].
    rewrite (ijones_fits p m (Us set m I J)). destruct (jones m); cbn [obind]; [| reflexivity | reflexivity].
    do 3 f_equal. lia.
  - unfold ipositions_display, positions_display. rewrite F. cbn [obind].
    rewrite (omap_same _ (fun p0 => obind (omap sz_display (fst p0)) (fun ls => Done (sjoin newline [set_heading (snd p0); sjoin newline ls])))); [reflexivity |].
    intros [set v] I. cbn [fst snd]. apply in_combine_l in I. rewrite (omap_same (isz_display p) sz_display); [reflexivity |].
    intros m J. exact (unit_display p m (Us set m I J)).
Qed.
(** the hypotheses are met: P 2c is listed and printed with four lines of operations *)
Example C45_texts_case : exists h g t d, try_from_str "P 2c"%string = Done (Some h) /\ general_positions 10 h = Done g /\
  itext_format ReleaseBuild g = Done t /\ ipositions_display DebugBuild g = Done d /\
  t = sjoin newline ["[0, 0, 0] + set"; "1, x,y,z"; "2, -x,-y,z+1/2"]%string.
Proof. eexists. eexists. eexists. eexists. split; [vm_compute; reflexivity |]. split; [vm_compute; reflexivity |]. split; [vm_compute; reflexivity |]. split; vm_compute; reflexivity. Qed.

(** ** The smallest exponent: [powi(i32::MIN)] fails in both builds, whatever the operation *)
Theorem C45_smallest_exponent_panics :
  forall p m, exists w, ipowi p m (-2147483648) = Panic w.
Proof.
  intros p m. change (ipowi p m (-2147483648)) with
    (match try_inverse m with
     | Some inv => let* n := i32 p 2147483648 in ipow_pos p inv (Z.to_nat n)
     | None => Panic "called `Option::unwrap()` on a `None` value" end).
  destruct (try_inverse m) as [i |]; [| eexists; reflexivity]. destruct p; eexists; reflexivity.
Qed.
(** while every larger negative exponent is fine, e.g. for the identity *)
Example C45_smallest_exponent_case : ipowi ReleaseBuild sz_identity (-3) = Done sz_identity /\ ipowi DebugBuild sz_identity (-3) = Done sz_identity.
Proof. split; vm_compute; reflexivity. Qed.

(** ** C24: the number of generators *)
Theorem C24_number_of_generators :
  forall h gs, generators h = Done gs -> Z.of_nat (length gs) = num_generators h.
Proof.
  intros h gs G. unfold generators in G. apply obind_Done in G. destruct G as (ss & E & G).
  assert (gs = lattice_seitz (h_lat h) ++ ss) by congruence. subst gs. rewrite app_length.
  assert (L : forall l ss, omap (symbol_generator h) l = Done ss -> length ss = length l).
  { clear. induction l as [| x l IH]; intros ss E; cbn [omap] in E; [injection E as <-; reflexivity |]. apply obind_Done in E. destruct E as (y & _ & E).
    apply obind_Done in E. destruct E as (ys & E1 & E2). assert (ss = y :: ys) by congruence. subst ss. cbn [length]. f_equal. exact (IH ys E1). }
  rewrite (L _ _ E), Nat2Z.inj_add. unfold num_generators. f_equal. destruct (h_lat h) as [[] []]; reflexivity.
Qed.
