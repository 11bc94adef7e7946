(** * PropCases: concrete inputs that meet the hypotheses of the properties that have no example beside them. *)
From Coq Require Import QArith.
From Verif Require Import Base Notations Parser Seitz F64 Jones Rotations Tables Lookup Generate Positions Order
  Spec SpecText SpecHall SpecXyz SpecCompat SpecOutcome SpecTables SpecRelabel SpecType SpecKind Algebra PropSeitz PropParser GenFacts
  PropGenerate GroupCheck PropFullSets PropTables PropTableGroups PropOrder RowData TypeFacts PropTypes PropSubgroup PropRelabel PropLatticeClass PropHash PropKind PropFaithful.
Open Scope Z_scope.
Local Notation length := List.length.

(** number 15, "-C 2yc": a centred lattice, a leading minus and a glide *)
Definition case15 : hall := Hall (LS true LC) [MS false F2 SubNone DiagNone AxY (Some [TC])] v0.
Lemma case15_text : try_from_str "-C 2yc" = Done (Some case15).
Proof. vm_compute. reflexivity. Qed.
Lemma case15_positions : exists g, general_positions 10 case15 = Done g /\ num_of_general_pos g = 4%nat /\
  map (@List.length seitz) (derive_full_sets g) = [4; 4]%nat.
Proof. eexists. split; [vm_compute; reflexivity |]. split; vm_compute; reflexivity. Qed.
Lemma case15_row : no_extra_translations case15.
Proof.
  destruct (row_of 15) as (label & s & h & g & El & E & En & P & G & T & _); [lia |].
  assert (Es : get_hall_symbol default_table (pred 15) = Some "-C 2yc"%string) by reflexivity. assert (s = "-C 2yc"%string) by congruence. subst s.
  pose proof case15_text. assert (h = case15) by congruence. subst h. exact T.
Qed.
(** C25, C27, C28, C33, C34, C36, C67, C74: the hypotheses hold together for "-C 2yc" *)
Example C34_case : exists g, try_from_str "-C 2yc" = Done (Some case15) /\ general_positions 10 case15 = Done g /\
  no_extra_translations case15 /\ ls_minus (h_lat case15) = true /\ num_of_general_pos g = 4%nat /\ map (@List.length seitz) (derive_full_sets g) = [4; 4]%nat.
Proof.
  destruct case15_positions as (g & H & N & L). exists g. split; [exact case15_text |]. split; [exact H |]. split; [exact case15_row |].
  split; [reflexivity |]. split; [exact N | exact L].
Qed.
(** C25, C28: the glide is listed with its translation, a member of the group *)
Example C25_case : exists g m, general_positions 10 case15 = Done g /\ In m (gp_core g) /\
  rot m = M3 1 0 0 0 (-1) 0 0 0 1 /\ tra m = V3 0 0 6 /\ hall_group case15 (op_of m).
Proof.
  destruct case15_positions as (g & H & _). pose proof H as H'. vm_compute in H'. injection H' as H'.
  assert (X : exists m, In m (gp_core g) /\ rot m = M3 1 0 0 0 (-1) 0 0 0 1 /\ tra m = V3 0 0 6).
  { rewrite <- H'. exists (aff (M3 1 0 0 0 (-1) 0 0 0 1) (V3 0 0 6)). cbn [gp_core]. split; [right; right; left; reflexivity | split; reflexivity]. }
  destruct X as (m & I & R & T). exists g, m. split; [exact H |]. split; [exact I |]. split; [exact R |]. split; [exact T |].
  exact (proj2 (C25_positions_sound _ _ _ H m I)).
Qed.
(** C27: a result with extra translations meets the first theorem's hypothesis but not the second's: "P 1 1n" lists two operations with the same rotation *)
Example C27_case : exists h g, try_from_str "P 1 1n" = Done (Some h) /\ general_positions 10 h = Done g /\
  map rot (gp_core g) = [I3; I3] /\ map tra (gp_core g) = [V3 0 0 0; V3 6 6 6].
Proof. do 2 eexists. split; [vm_compute; reflexivity |]. split; [vm_compute; reflexivity |]. split; vm_compute; reflexivity. Qed.
(** C36: both members of a pair related by the inversion, with opposite translations *)
Example C36_case : exists g m m', general_positions 10 case15 = Done g /\ listed g m /\ listed g m' /\
  rot m = M3 (-1) 0 0 0 1 0 0 0 (-1) /\ tra m = V3 6 6 6 /\ rot m' = mopp (rot m) /\ vcong12 (tra m') (vopp (tra m)).
Proof.
  destruct case15_positions as (g & H & _). pose proof H as H'. vm_compute in H'. injection H' as H'.
  assert (X : exists m, listed g m /\ rot m = M3 (-1) 0 0 0 1 0 0 0 (-1) /\ tra m = V3 6 6 6).
  { rewrite <- H'. exists (aff (M3 (-1) 0 0 0 1 0 0 0 (-1)) (V3 6 6 6)). split; [| split; reflexivity].
    eexists. split; [right; left; reflexivity |]. right. left. reflexivity. }
  destruct X as (m & L & R & T). destruct (C36_full_sets_centrosymmetric _ _ _ H eq_refl case15_row m L) as (m' & L' & A & B).
  exists g, m, m'. auto 8.
Qed.
(** C31, C32, C38-C44, C48: a row in the middle of the tables *)
Example C38_case : well_formed full_table /\ well_formed default_table /\ first_row (t_hall full_table) "-C 2yc" 89 /\
  get_space_group_number full_table 89 = Some "15:b1"%string /\ number_by_hall full_table "-C 2yc" = Some "15:b1"%string /\
  number_by_hall full_table "no such row" = None.
Proof.
  split; [split; vm_compute; reflexivity |]. split; [split; vm_compute; reflexivity |]. split; [| repeat split; vm_compute; reflexivity].
  split; [vm_compute; reflexivity |]. intros j Hj E.
  assert (C : forallb (fun j => match nth_error (t_hall full_table) j with Some s => negb (String.eqb s "-C 2yc") | None => false end) (seq 0 89) = true) by (vm_compute; reflexivity).
  rewrite forallb_forall in C. specialize (C j ltac:(apply in_seq; lia)). rewrite E, String.eqb_refl in C. discriminate C.
Qed.
(** C51, C67: two texts of one group give the same positions and the same listings *)
Example C67_case : exists h h' g, try_from_str "P 2 2" = Done (Some h) /\ try_from_str "P 2 2x 2y" = Done (Some h') /\ h <> h' /\
  general_positions 10 h = Done g /\ general_positions 10 h' = Done g /\ num_of_general_pos g = 4%nat /\
  (exists l, pure_txt g = Done l /\ length l = 4%nat).
Proof.
  do 3 eexists. split; [vm_compute; reflexivity |]. split; [vm_compute; reflexivity |]. split; [vm_compute; discriminate |].
  split; [vm_compute; reflexivity |]. split; [vm_compute; reflexivity |]. split; [reflexivity |]. eexists. split; vm_compute; reflexivity.
Qed.
Example C51_case : exists h h' a b, try_from_str "B -2c" = Done (Some h) /\ try_from_str "B -2a" = Done (Some h') /\
  general_positions 10 h = Done a /\ general_positions 10 h' = Done b /\ a <> b /\ gpos_eqb a b = false /\ gpos_eqb a a = true /\ gpos_partial_cmp a b <> Some Eq.
Proof.
  do 4 eexists. split; [vm_compute; reflexivity |]. split; [vm_compute; reflexivity |]. split; [vm_compute; reflexivity |]. split; [vm_compute; reflexivity |].
  split; [intros E; apply (f_equal (fun g => tra (nth 1 (gp_core g) sz_identity))) in E; vm_compute in E; discriminate E |].
  split; [vm_compute; reflexivity |]. split; [vm_compute; reflexivity |]. vm_compute; discriminate.
Qed.
(** C14: two operations that are equal, with different translations, hence different hashes *)
Example C14_case : let a := aff I3 (V3 0 0 0) in let b := aff I3 (V3 12 0 0) in
  is_affine a /\ is_affine b /\ sz_eqb a b = true /\ tra a <> tra b /\ sz_hash_input a <> sz_hash_input b /\ sz_partial_cmp a b = Some Lt.
Proof. cbn zeta. split; [split; reflexivity |]. split; [split; reflexivity |]. split; [vm_compute; reflexivity |]. split; [vm_compute; discriminate |]. split; [vm_compute; discriminate | vm_compute; reflexivity]. Qed.
(** C88: number 76, one of a mirror pair, changes; number 15 does not *)
Example C88_case : (exists g, general_positions 10 case15 = Done g) /\ mirror_number 15 = 15%nat /\ mirror_number 76 = 78%nat /\ of_type case15 15 /\ of_type (mirror_hall case15) 15.
Proof.
  destruct case15_positions as (g & H & _). split; [exists g; exact H |]. split; [reflexivity |]. split; [reflexivity |].
  assert (Ty : of_type case15 15).
  { exists 14%nat, "15:b1"%string, "-C 2yc"%string. split; [reflexivity |]. split; [reflexivity |]. split; [reflexivity |].
    destruct (same_type_refl (hall_group case15)) as (f & If & Kf & Tf). exists f. split; [exact If |]. split; [exact Kf |].
    refine (turns_same _ _ _ _ _ Tf). intros o. unfold text_group. rewrite case15_text. split.
    - intros G. exists case15. split; [reflexivity | exact G].
    - intros (h & E & G). injection E as <-. exact G. }
  split; [exact Ty |]. exact (proj2 (C88_mirror_image_has_the_mirror_number case15 15) Ty).
Qed.
