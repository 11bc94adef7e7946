(** * PropRelabel: properties C79 (relabelled axes) and C80 (mirror image of a symbol). *)
From Coq Require Import Permutation QArith.
From Verif Require Import Base Notations Parser Seitz F64 Jones Rotations Tables Generate Positions
  Spec SpecHall Algebra PropSeitz PropSymbols GenFacts PropGenerate GroupCheck PropFullSets PropShift PropOrder
  SpecOutcome SpecCompat PropCanon PropOutcome SpecType TypeFacts SpecRelabel.
Open Scope Z_scope.
Local Notation length := List.length.

(** ** A map of operations that takes the generators of one symbol into the group of another *)
Lemma generated_map (phi : op -> op) (gens gens' : op -> Prop) :
  phi op_id = op_id -> (forall a b, phi (op_comp a b) = op_comp (phi a) (phi b)) ->
  (forall a b, op_same a b -> op_same (phi a) (phi b)) ->
  (forall g, gens g -> generated gens' (phi g)) ->
  forall o, generated gens o -> generated gens' (phi o).
Proof.
  intros P1 PC PS PG o H. induction H as [| g Hg | a b Ha IHa Hb IHb | a b Ha IHa E | a b Ha IHa E].
  - rewrite P1. apply gen_one.
  - exact (PG g Hg).
  - rewrite PC. apply gen_comp; assumption.
  - apply gen_inv with (phi a); [assumption |]. rewrite <- PC, E. exact P1.
  - apply gen_cell with (phi a); [assumption | apply PS, E].
Qed.

(** ** C79 *)
Definition next_mat (R : mat3) : mat3 := M3 (m33 R) (m31 R) (m32 R) (m13 R) (m11 R) (m12 R) (m23 R) (m21 R) (m22 R).
Definition next_sz (m : seitz) : seitz := Sz (next_mat (rot m)) (next_vec (tra m)) (next_vec (bot m)) (cor m).
Lemma next_op_eq R t : next_op (R, t) = (next_mat R, next_vec t). Proof. reflexivity. Qed.
Lemma next_op_id : next_op op_id = op_id. Proof. reflexivity. Qed.
Lemma next_vec_add a b : next_vec (vadd a b) = vadd (next_vec a) (next_vec b). Proof. reflexivity. Qed.
Lemma next_vec_opp a : next_vec (vopp a) = vopp (next_vec a). Proof. reflexivity. Qed.
Lemma next_op_comp a b : next_op (op_comp a b) = op_comp (next_op a) (next_op b).
Proof.
  destruct a as [[a1 a2 a3 a4 a5 a6 a7 a8 a9] [x y z]], b as [[b1 b2 b3 b4 b5 b6 b7 b8 b9] [x' y' z']].
  unfold next_op, next_vec, op_comp, mmul, mvmul, vadd.
  cbn [fst snd m11 m12 m13 m21 m22 m23 m31 m32 m33 vx vy vz]. f_equal; f_equal; ring.
Qed.
Lemma next_vcong a b : vcong12 a b -> vcong12 (next_vec a) (next_vec b).
Proof. intros (A & B & C). unfold vcong12, next_vec. cbn [vx vy vz]. auto. Qed.
Lemma next_op_same a b : op_same a b -> op_same (next_op a) (next_op b).
Proof.
  intros [E F]. unfold next_op. split; cbn [fst snd]; [rewrite E; reflexivity | apply next_vcong, F].
Qed.
Lemma next_op_shift v : next_op (op_shift v) = op_shift (next_vec v). Proof. reflexivity. Qed.
Lemma next_op_conj v o : next_op (op_conj v o) = op_conj (next_vec v) (next_op o).
Proof. unfold op_conj. now rewrite !next_op_comp, !next_op_shift, next_vec_opp. Qed.
Lemma next_letter_vector t : translation_vector (next_letter t) = next_vec (translation_vector t).
Proof. now destruct t. Qed.
Lemma next_letter_sum l : letter_sum (map next_letter l) = next_vec (letter_sum l).
Proof.
  unfold letter_sum. change v0 with (next_vec v0) at 1. generalize v0. induction l as [| t l IH]; intros a; [reflexivity |].
  cbn [map fold_left]. rewrite next_letter_vector, <- next_vec_add. apply IH.
Qed.
Lemma next_rotation ms : get_rotation_matrix (next_symbol ms) = option_map next_sz (get_rotation_matrix ms).
Proof.
  unfold get_rotation_matrix, next_symbol. cbn [ms_fold ms_diag ms_axis].
  destruct (ms_fold ms), (ms_diag ms), (ms_axis ms); reflexivity.
Qed.
Lemma next_transform ms m : set_transform (next_symbol ms) (next_sz m) = option_map next_sz (set_transform ms m).
Proof.
  destruct m as [R t b c]. unfold set_transform, next_symbol, axis_column. cbn [ms_fold ms_sub ms_axis].
  destruct (ms_fold ms), (ms_sub ms), (ms_axis ms); reflexivity.
Qed.
Lemma next_letters ms m : set_translation_from_symbols (next_symbol ms) (next_sz m) = next_sz (set_translation_from_symbols ms m).
Proof.
  unfold set_translation_from_symbols, next_symbol. cbn [ms_trs]. destruct (ms_trs ms) as [l |]; [| reflexivity].
  cbn [option_map]. rewrite next_letter_sum. reflexivity.
Qed.
Lemma next_inversion m : set_inversion (next_sz m) = next_sz (set_inversion m).
Proof.
  destruct m as [[a1 a2 a3 a4 a5 a6 a7 a8 a9] t b c]. unfold set_inversion, next_sz, next_mat, mmul, mopp, mmap, I3.
  cbn [rot tra cor bot m11 m12 m13 m21 m22 m23 m31 m32 m33]. f_equal. f_equal; ring.
Qed.
Lemma next_seitz ms : seitz_matrix (next_symbol ms) = option_map next_sz (seitz_matrix ms).
Proof.
  unfold seitz_matrix. rewrite next_rotation. destruct (get_rotation_matrix ms) as [r |]; [| reflexivity].
  cbn [option_map]. rewrite next_transform. destruct (set_transform ms r) as [v |]; [| reflexivity].
  cbn [option_map]. cbv zeta. rewrite next_letters. change (ms_minus (next_symbol ms)) with (ms_minus ms).
  destruct (ms_minus ms); [rewrite next_inversion |]; reflexivity.
Qed.
Lemma next_translations l v : l <> LR -> In v (translations l) -> In (next_vec v) (translations (next_lattice l)).
Proof.
  intros N I. destruct l; cbn [translations next_lattice In] in *; try congruence;
    repeat destruct I as [<- | I]; try contradiction; cbn; auto 6.
Qed.
Lemma next_forward h o : ls_char (h_lat h) <> LR -> hall_group h o -> hall_group (next_hall h) (next_op o).
Proof.
  intros N. unfold hall_group. apply generated_map;
    [exact next_op_id | exact next_op_comp | exact next_op_same |].
  intros g [(v & Iv & ->) | [(Mi & ->) | (ms & m & Ims & Em & ->)]]; apply gen_base.
  - left. exists (next_vec v). split; [apply next_translations; assumption | reflexivity].
  - right; left. split; [exact Mi | reflexivity].
  - right; right. exists (next_symbol ms), (next_sz m). split; [exact (in_map next_symbol _ _ Ims) |].
    split; [rewrite next_seitz, Em; reflexivity |]. rewrite next_op_conj. reflexivity.
Qed.
(** three times brings everything back *)
Lemma next3_op o : next_op (next_op (next_op o)) = o.
Proof. destruct o as [[a1 a2 a3 a4 a5 a6 a7 a8 a9] [x y z]]. reflexivity. Qed.
Lemma next3_symbol m : next_symbol (next_symbol (next_symbol m)) = m.
Proof.
  destruct m as [mi f s d a t]. unfold next_symbol. cbn [ms_minus ms_fold ms_sub ms_diag ms_axis ms_trs]. f_equal.
  - now destruct a.
  - destruct t as [l |]; [| reflexivity]. cbn [option_map]. f_equal. rewrite !map_map. rewrite <- (map_id l) at 2.
    apply map_ext. intros []; reflexivity.
Qed.
Lemma next3_hall h : next_hall (next_hall (next_hall h)) = h.
Proof.
  destruct h as [[mi c] s [x y z]]. unfold next_hall. cbn [h_lat h_syms h_shift ls_minus ls_char]. f_equal.
  - f_equal. now destruct c.
  - rewrite !map_map. rewrite <- (map_id s) at 2. apply map_ext, next3_symbol.
Qed.
Lemma next_not_R h : ls_char (h_lat h) <> LR -> ls_char (h_lat (next_hall h)) <> LR.
Proof. cbn [next_hall h_lat ls_char]. destruct (ls_char (h_lat h)); cbn; congruence. Qed.

(** the relabelled symbol denotes the relabelled group *)
Theorem C79_group_relabelled :
  forall h o, ls_char (h_lat h) <> LR -> (hall_group (next_hall h) (next_op o) <-> hall_group h o).
Proof.
  intros h o N. split; [| apply next_forward; exact N]. intros H.
  apply next_forward in H; [| exact (next_not_R h N)].
  apply next_forward in H; [| exact (next_not_R _ (next_not_R h N))].
  rewrite next3_op, next3_hall in H. exact H.
Qed.

Lemma next_valid h : all_symbols_valid h <-> all_symbols_valid (next_hall h).
Proof.
  unfold all_symbols_valid. cbn [next_hall h_syms]. split.
  - intros V ms I. apply in_map_iff in I. destruct I as (ms0 & <- & I). specialize (V ms0 I). rewrite next_seitz.
    destruct (seitz_matrix ms0); cbn [option_map]; congruence.
  - intros V ms I. specialize (V _ (in_map next_symbol _ _ I)). rewrite next_seitz in V.
    destruct (seitz_matrix ms); cbn [option_map] in V; congruence.
Qed.
Lemma centring_next l t : l <> LR -> centring l t -> centring (next_lattice l) (next_vec t).
Proof.
  intros N (u & I & E). exists (next_vec u). split; [apply next_translations; assumption | apply next_vcong, E].
Qed.
Lemma next_no_extra_fwd h : ls_char (h_lat h) <> LR -> no_extra_translations h -> no_extra_translations (next_hall h).
Proof.
  intros N T t G.
  assert (G' : hall_group h (I3, next_vec (next_vec t))).
  { apply (C79_group_relabelled h _ N). destruct t as [x y z]. exact G. }
  specialize (T _ G'). apply (centring_next _ _ N) in T. destruct t as [x y z]. exact T.
Qed.
(** two groups that correspond: the listed operations correspond *)
Lemma listed_correspond (phi : op -> op) f h a f' h' b :
  general_positions f h = Done a -> general_positions f' h' = Done b -> no_extra_translations h' ->
  (forall o, hall_group h o -> hall_group h' (phi o)) ->
  forall m, lists a m -> exists n, lists b n /\ op_same (op_of n) (phi (op_of m)).
Proof.
  intros A B T' E m (st & Ist & Im). destruct (C25_full_sets_sound _ _ _ A st m Ist Im) as [_ G].
  apply E in G. apply (C26_full_sets_complete _ _ _ B T') in G. destruct G as (st' & n & Ist' & In' & K).
  exists n. split; [exists st'; auto | exact K].
Qed.
(** a rotation-wise injective map cannot lose positions *)
Lemma num_le (phi : op -> op) (rho : mat3 -> mat3) f h a f' h' b :
  general_positions f h = Done a -> general_positions f' h' = Done b -> no_extra_translations h -> no_extra_translations h' ->
  (forall o, fst (phi o) = rho (fst o)) -> (forall R S, rho R = rho S -> R = S) ->
  (forall o, hall_group h o -> hall_group h' (phi o)) -> (num_of_general_pos a <= num_of_general_pos b)%nat.
Proof.
  intros A B T T' Ph Inj E. unfold num_of_general_pos.
  destruct (C27_one_position_per_rotation _ _ _ A T) as [N1 M1].
  destruct (C27_one_position_per_rotation _ _ _ B T') as [N2 M2].
  rewrite <- (map_length rot (gp_core a)), <- (map_length rot (gp_core b)), <- (map_length rho (map rot (gp_core a))).
  apply NoDup_incl_length.
  - apply FinFun.Injective_map_NoDup; [exact Inj | exact N1].
  - intros R IR. apply in_map_iff in IR. destruct IR as (R0 & <- & I0). apply M1 in I0. destruct I0 as (t & G).
    apply M2. apply E in G. specialize (Ph (R0, t)). cbn [fst] in Ph. rewrite <- Ph.
    exists (snd (phi (R0, t))). now rewrite <- surjective_pairing.
Qed.
Lemma next_mat_inj R S' : next_mat R = next_mat S' -> R = S'.
Proof.
  destruct R as [a1 a2 a3 a4 a5 a6 a7 a8 a9], S' as [b1 b2 b3 b4 b5 b6 b7 b8 b9]. unfold next_mat.
  cbn [m11 m12 m13 m21 m22 m23 m31 m32 m33]. congruence.
Qed.
Lemma back_group h o : ls_char (h_lat h) <> LR -> hall_group (next_hall h) o -> hall_group h (next_op (next_op o)).
Proof.
  intros N G. apply (C79_group_relabelled h _ N). rewrite next3_op. exact G.
Qed.
(** its positions are those of the original symbol, relabelled *)
Theorem C79_positions_relabelled :
  forall f h a f' b, ls_char (h_lat h) <> LR -> no_extra_translations h ->
    general_positions f h = Done a -> general_positions f' (next_hall h) = Done b ->
    num_of_general_pos b = num_of_general_pos a /\
    (forall m, lists a m -> exists n, lists b n /\ op_same (op_of n) (next_op (op_of m))) /\
    (forall n, lists b n -> exists m, lists a m /\ op_same (op_of n) (next_op (op_of m))).
Proof.
  intros f h a f' b N T A B. pose proof (next_no_extra_fwd h N T) as T'. split; [| split].
  - apply Nat.le_antisymm.
    + apply (num_le (fun o => next_op (next_op o)) (fun R => next_mat (next_mat R)) f' (next_hall h) b f h a B A T' T).
      * reflexivity.
      * intros R S' E. apply next_mat_inj, next_mat_inj, E.
      * intros o G. exact (back_group h o N G).
    + apply (num_le next_op next_mat f h a f' (next_hall h) b A B T T').
      * reflexivity.
      * exact next_mat_inj.
      * intros o G. exact (next_forward h o N G).
  - apply (listed_correspond next_op f h a f' (next_hall h) b A B T'). intros o G. exact (next_forward h o N G).
  - intros n Ln.
    destruct (listed_correspond (fun o => next_op (next_op o)) f' (next_hall h) b f h a B A T (fun o G => back_group h o N G) n Ln)
      as (m & Lm & E).
    exists m. split; [exact Lm |]. apply next_op_same in E. rewrite next3_op in E. apply op_same_sym, E.
Qed.
(** unless the first symbol is a plain 3-fold or 6-fold rotation (whose axis must be z), the relabelled
    symbol returns positions exactly when the original one does *)
Lemma next_prod l : prod_folds (map next_symbol l) = prod_folds l.
Proof. induction l as [| m l IH]; [reflexivity |]. cbn [map]. unfold prod_folds in *. cbn [fold_right] in *. now rewrite IH. Qed.
Lemma next_buffer h : buffer_fits h <-> buffer_fits (next_hall h).
Proof.
  unfold buffer_fits. cbn [next_hall h_lat h_syms ls_char ls_minus]. rewrite next_prod.
  replace (length (translations (next_lattice (ls_char (h_lat h))))) with (length (translations (ls_char (h_lat h))))
    by (destruct (ls_char (h_lat h)); reflexivity). reflexivity.
Qed.
Definition axis_free (ms : msym) : Prop :=
  match ms_fold ms, ms_diag ms with F6, _ => False | F3, Asterisk => True | F3, _ => False | _, _ => True end.
Theorem C79_returns_alike :
  forall h, (forall first rest, h_syms h = first :: rest -> axis_free first) -> (returns (next_hall h) <-> returns h).
Proof.
  intros h Ax. destruct (C62_outcome h) as (O1 & _). destruct (C62_outcome (next_hall h)) as (O2 & _).
  rewrite O1, O2, <- next_valid, <- next_buffer.
  assert (F : one_family (h_syms (next_hall h)) <-> one_family (h_syms h)); [| rewrite F; reflexivity].
  cbn [next_hall h_syms]. destruct (h_syms h) as [| first rest] eqn:Es; [reflexivity |].
  specialize (Ax first rest eq_refl).
  assert (X : forall (P : msym -> Prop) l, (forall m, P (next_symbol m) <-> P m) ->
    ((forall m, In m (map next_symbol l) -> P m) <-> (forall m, In m l -> P m))).
  { intros P l Inv. split.
    - intros H m I. apply Inv, H, in_map, I.
    - intros H m I. apply in_map_iff in I. destruct I as (m0 & <- & I). apply Inv, H, I. }
  assert (C : forall m, cubic_kind (next_symbol m) <-> cubic_kind m) by reflexivity.
  assert (R : forall m, rhombohedral_kind (next_symbol m) <-> rhombohedral_kind m) by reflexivity.
  pose proof (X cubic_kind (first :: rest) C) as XC. pose proof (X rhombohedral_kind (first :: rest) R) as XR.
  cbn [map] in XC, XR |- *. unfold one_family, axis_free in *. cbn [next_symbol ms_fold ms_diag] in *.
  destruct (ms_fold first), (ms_diag first); first [exact XC | exact XR | contradiction].
Qed.
(** so the two groups are of the same space-group type *)
Definition next_change : change := Ch (M3 0 0 1 1 0 0 0 1 0) v0 1.
Lemma next_carries o : carries next_change o (next_op o).
Proof.
  apply carries_iff; [reflexivity |]. destruct o as [[a1 a2 a3 a4 a5 a6 a7 a8 a9] [x y z]].
  unfold carries_int, next_change, next_op, next_vec, mmul, mvmul, vadd, vscale.
  cbn [ch_M ch_q ch_d fst snd m11 m12 m13 m21 m22 m23 m31 m32 m33 vx vy vz v0].
  repeat split; f_equal; ring.
Qed.
Theorem C79_same_type : forall h, ls_char (h_lat h) <> LR -> same_type (hall_group h) (hall_group (next_hall h)).
Proof.
  intros h N. exists next_change. split; [split; [reflexivity | discriminate] |]. split; [reflexivity |]. split.
  - intros o G. exists (next_op o). split; [exact (next_forward h o N G) | apply next_carries].
  - intros o G. exists (next_op (next_op o)). split; [exact (back_group h o N G) |].
    rewrite <- (next3_op o) at 2. apply next_carries.
Qed.

(** ** C80 *)
Lemma mirror_op_id : mirror_op op_id = op_id. Proof. reflexivity. Qed.
Lemma mirror_op_comp a b : mirror_op (op_comp a b) = op_comp (mirror_op a) (mirror_op b).
Proof. destruct a as [R t], b as [R' t']. unfold mirror_op, op_comp. cbn [fst snd]. f_equal. mat_ring. Qed.
Lemma mirror_op_same a b : op_same a b -> op_same (mirror_op a) (mirror_op b).
Proof. intros [E F]. split; cbn [mirror_op fst snd]; [exact E | apply vcong12_vopp, F]. Qed.
Lemma mirror_op_conj v o : mirror_op (op_conj v o) = op_conj (vopp v) (mirror_op o).
Proof. unfold op_conj. rewrite !mirror_op_comp. reflexivity. Qed.
Lemma mirror2_op o : mirror_op (mirror_op o) = o.
Proof.
  destruct o as [R [x y z]]. unfold mirror_op, vopp. cbn [fst snd vx vy vz]. f_equal. f_equal; ring.
Qed.
Lemma letter_sum_cons t l : letter_sum (t :: l) = vadd (translation_vector t) (letter_sum l).
Proof.
  unfold letter_sum. cbn [map fold_left]. 
  assert (K : forall l a, fold_left vadd (map translation_vector l) a = vadd a (fold_left vadd (map translation_vector l) v0)).
  { clear. induction l as [| t l IH]; intros a; cbn [map fold_left]; [mat_ring |]. rewrite IH, (IH (vadd v0 _)). mat_ring. }
  rewrite K. f_equal. mat_ring.
Qed.
Lemma letter_sum_app l r : letter_sum (l ++ r) = vadd (letter_sum l) (letter_sum r).
Proof.
  induction l as [| t l IH]; [cbn [app]; unfold letter_sum at 2; cbn [map fold_left]; mat_ring |].
  cbn [app]. rewrite !letter_sum_cons, IH. mat_ring.
Qed.
Lemma mirror_letter_sum l : vcong12 (letter_sum (flat_map mirror_letter l)) (vopp (letter_sum l)).
Proof.
  induction l as [| t l IH]; [apply vcong12_refl |]. cbn [flat_map]. rewrite letter_sum_app, letter_sum_cons.
  replace (vopp (vadd (translation_vector t) (letter_sum l))) with (vadd (vopp (translation_vector t)) (vopp (letter_sum l))) by mat_ring.
  apply vcong12_vadd; [| exact IH]. clear.
  destruct t; vm_compute; repeat split; first [exists 0; reflexivity | exists 1; reflexivity | exists (-1); reflexivity].
Qed.

Definition opt_rel (P : seitz -> seitz -> Prop) (a b : option seitz) : Prop :=
  match a, b with Some x, Some y => P x y | None, None => True | _, _ => False end.
Definition mirrored (m m' : seitz) : Prop := rot m' = rot m /\ vcong12 (tra m') (vopp (tra m)).
Lemma mirror_rotation ms : get_rotation_matrix (mirror_symbol ms) = get_rotation_matrix ms.
Proof. reflexivity. Qed.
Lemma rotation_tra ms m : get_rotation_matrix ms = Some m -> tra m = v0.
Proof.
  unfold get_rotation_matrix. destruct (ms_fold ms), (ms_diag ms), (ms_axis ms); intros E; try discriminate E;
    apply some_inj in E; subst m; reflexivity.
Qed.
Lemma mirror_transform ms m : tra m = v0 -> opt_rel mirrored (set_transform ms m) (set_transform (mirror_symbol ms) m).
Proof.
  intros E. unfold set_transform, mirror_symbol, axis_column. cbn [ms_fold ms_sub ms_axis].
  destruct (ms_fold ms), (ms_sub ms), (ms_axis ms); cbn [mirror_sub option_map opt_rel]; try exact I;
    unfold mirrored; cbn [rot tra]; rewrite ?E; (split; [reflexivity |]); unfold vcong12, cong12, vopp, v0; cbn [vx vy vz];
    repeat split; first [exists 0; reflexivity | exists 1; reflexivity].
Qed.
Lemma mirror_letters ms m m' : mirrored m m' ->
  mirrored (set_translation_from_symbols ms m) (set_translation_from_symbols (mirror_symbol ms) m').
Proof.
  intros [R T]. unfold set_translation_from_symbols, mirror_symbol. cbn [ms_trs]. destruct (ms_trs ms) as [l |]; cbn [option_map].
  - split; cbn [rot tra]; [exact R |].
    assert (L : forall v, vcong12 (vmap letter_mod v) v).
    { intros v. repeat split; cbn [vmap vx vy vz]; apply letter_mod_spec. }
    eapply vcong12_trans; [apply vcong12_vadd; [exact T | eapply vcong12_trans; [apply L | apply mirror_letter_sum]] |].
    replace (vopp (vadd (tra m) (vmap letter_mod (letter_sum l)))) with (vadd (vopp (tra m)) (vopp (vmap letter_mod (letter_sum l)))) by mat_ring.
    apply vcong12_vadd; [apply vcong12_refl |]. apply vcong12_vopp, vcong12_sym, L.
  - split; assumption.
Qed.
Lemma mirror_seitz ms : opt_rel mirrored (seitz_matrix ms) (seitz_matrix (mirror_symbol ms)).
Proof.
  unfold seitz_matrix. rewrite mirror_rotation. destruct (get_rotation_matrix ms) as [r |] eqn:E; [| exact I].
  pose proof (mirror_transform ms r (rotation_tra ms r E)) as M.
  destruct (set_transform ms r) as [v |], (set_transform (mirror_symbol ms) r) as [v' |]; cbn [opt_rel] in *; try contradiction; try exact I.
  cbv zeta. apply (mirror_letters ms) in M. destruct M as [R T]. change (ms_minus (mirror_symbol ms)) with (ms_minus ms).
  destruct (ms_minus ms); [| split; assumption]. split; cbn [set_inversion rot tra]; [now rewrite R | exact T].
Qed.
Lemma centring_opp l v : In v (translations l) -> exists u, In u (translations l) /\ vcong12 (vopp v) u.
Proof.
  intros I. assert (D : forall a b, vmap positive_mod (vopp a) = b -> vcong12 (vopp a) b).
  { intros a b <-. apply vcong12_sym, vcong12_pm. }
  destruct l; cbn [translations In] in I; repeat destruct I as [<- | I]; try contradiction;
    eexists; (split; [| apply D; vm_compute; reflexivity]); cbn [translations In]; auto 6.
Qed.
Lemma mirror_forward h o : hall_group h o -> hall_group (mirror_hall h) (mirror_op o).
Proof.
  unfold hall_group. apply generated_map; [exact mirror_op_id | exact mirror_op_comp | exact mirror_op_same |].
  intros g [(v & Iv & ->) | [(Mi & ->) | (ms & m & Ims & Em & ->)]].
  - destruct (centring_opp _ _ Iv) as (u & Iu & E). apply gen_cell with (I3, u).
    + apply gen_base. left. exists u. split; [exact Iu | reflexivity].
    + split; [reflexivity | apply vcong12_sym, E].
  - apply gen_base. right; left. split; [exact Mi | reflexivity].
  - pose proof (mirror_seitz ms) as M. rewrite Em in M. destruct (seitz_matrix (mirror_symbol ms)) as [m' |] eqn:Em'; [| contradiction].
    apply gen_cell with (op_conj (h_shift (mirror_hall h)) (op_of m')).
    + apply gen_base. right; right. exists (mirror_symbol ms), m'. split; [exact (in_map mirror_symbol _ _ Ims) |]. auto.
    + rewrite mirror_op_conj. apply op_conj_same. destruct M as [R T]. split; [exact R | exact T].
Qed.
Lemma mirror_backward h o : hall_group (mirror_hall h) o -> hall_group h (mirror_op o).
Proof.
  unfold hall_group. apply generated_map; [exact mirror_op_id | exact mirror_op_comp | exact mirror_op_same |].
  intros g [(v & Iv & ->) | [(Mi & ->) | (ms' & m' & Ims & Em' & ->)]].
  - destruct (centring_opp _ _ Iv) as (u & Iu & E). apply gen_cell with (I3, u).
    + apply gen_base. left. exists u. split; [exact Iu | reflexivity].
    + split; [reflexivity | apply vcong12_sym, E].
  - apply gen_base. right; left. split; [exact Mi | reflexivity].
  - cbn [mirror_hall h_syms] in Ims. apply in_map_iff in Ims. destruct Ims as (ms & <- & Ims).
    pose proof (mirror_seitz ms) as M. rewrite Em' in M. destruct (seitz_matrix ms) as [m |] eqn:Em; [| contradiction].
    apply gen_cell with (op_conj (h_shift h) (op_of m)).
    + apply gen_base. right; right. exists ms, m. auto.
    + rewrite mirror_op_conj. cbn [mirror_hall h_shift].
      replace (vopp (vopp (h_shift h))) with (h_shift h) by (destruct (h_shift h) as [x y z]; unfold vopp; cbn [vx vy vz]; f_equal; ring).
      apply op_conj_same. destruct M as [R T]. split; [symmetry; exact R |]. cbn [op_of mirror_op fst snd].
      apply vcong12_vopp in T. replace (vopp (vopp (tra m))) with (tra m) in T by (destruct (tra m) as [x y z]; unfold vopp; cbn [vx vy vz]; f_equal; ring).
      apply vcong12_sym, T.
Qed.
(** the mirror image of a symbol denotes the mirror image of the group *)
Theorem C80_group_mirrored : forall h o, hall_group (mirror_hall h) (mirror_op o) <-> hall_group h o.
Proof.
  intros h o. split; [| apply mirror_forward]. intros G. apply mirror_backward in G. rewrite mirror2_op in G. exact G.
Qed.
Lemma mirror_no_extra h : no_extra_translations h -> no_extra_translations (mirror_hall h).
Proof.
  intros T t G. apply mirror_backward in G. specialize (T _ G). cbn [mirror_op snd] in T. destruct T as (u & Iu & E).
  destruct (centring_opp _ _ Iu) as (w & Iw & E'). exists w. split; [exact Iw |].
  apply vcong12_vopp in E. replace (vopp (vopp t)) with t in E by (destruct t as [x y z]; unfold vopp; cbn [vx vy vz]; f_equal; ring).
  eapply vcong12_trans; [exact E | exact E'].
Qed.
Lemma mirror_prod l : prod_folds (map mirror_symbol l) = prod_folds l.
Proof. induction l as [| m l IH]; [reflexivity |]. cbn [map]. unfold prod_folds in *. cbn [fold_right] in *. now rewrite IH. Qed.
Theorem C80_returns_alike : forall h, returns (mirror_hall h) <-> returns h.
Proof.
  intros h. destruct (C62_outcome h) as (O1 & _). destruct (C62_outcome (mirror_hall h)) as (O2 & _).
  rewrite O1, O2.
  assert (V : all_symbols_valid (mirror_hall h) <-> all_symbols_valid h).
  { unfold all_symbols_valid. cbn [mirror_hall h_syms]. split.
    - intros V ms I. specialize (V _ (in_map mirror_symbol _ _ I)). pose proof (mirror_seitz ms) as M.
      destruct (seitz_matrix ms), (seitz_matrix (mirror_symbol ms)); cbn in M; congruence.
    - intros V ms I. apply in_map_iff in I. destruct I as (ms0 & <- & I). specialize (V ms0 I). pose proof (mirror_seitz ms0) as M.
      destruct (seitz_matrix ms0), (seitz_matrix (mirror_symbol ms0)); cbn in M; congruence || contradiction. }
  assert (B : buffer_fits (mirror_hall h) <-> buffer_fits h).
  { unfold buffer_fits. cbn [mirror_hall h_lat h_syms]. replace (prod_folds (map mirror_symbol (h_syms h))) with (prod_folds (h_syms h)); [reflexivity |].
    symmetry. apply mirror_prod. }
  assert (F : one_family (h_syms (mirror_hall h)) <-> one_family (h_syms h)); [| rewrite V, B, F; reflexivity].
  cbn [mirror_hall h_syms].
  assert (X : forall (P : msym -> Prop) l, (forall m, P (mirror_symbol m) <-> P m) ->
    ((forall m, In m (map mirror_symbol l) -> P m) <-> (forall m, In m l -> P m))).
  { intros P l Inv. split.
    - intros H m I. apply Inv, H, in_map, I.
    - intros H m I. apply in_map_iff in I. destruct I as (m0 & <- & I). apply Inv, H, I. }
  destruct (h_syms h) as [| first rest] eqn:Es; [reflexivity |].
  pose proof (X cubic_kind (first :: rest) (fun m => iff_refl _)) as XC.
  pose proof (X rhombohedral_kind (first :: rest) (fun m => iff_refl _)) as XR.
  pose proof (X (hexagonal_kind AxZ) (first :: rest) (fun m => iff_refl _)) as XH.
  cbn [map] in XC, XR, XH |- *. unfold one_family. cbn [mirror_symbol ms_fold ms_diag].
  destruct (ms_fold first), (ms_diag first); first [exact XC | exact XR | exact XH].
Qed.
Theorem C80_positions_mirrored :
  forall f h a, no_extra_translations h -> general_positions f h = Done a ->
    exists f' b, general_positions f' (mirror_hall h) = Done b /\ num_of_general_pos b = num_of_general_pos a /\
      (forall m, lists a m -> exists n, lists b n /\ op_same (op_of n) (mirror_op (op_of m))) /\
      (forall n, lists b n -> exists m, lists a m /\ op_same (op_of n) (mirror_op (op_of m))).
Proof.
  intros f h a T A. pose proof (mirror_no_extra h T) as T'.
  assert (Rt : returns (mirror_hall h)) by (apply C80_returns_alike; exists f, a; exact A).
  destruct Rt as (f' & b & B). exists f', b. split; [exact B |]. split; [| split].
  - apply Nat.le_antisymm.
    + apply (num_le mirror_op (fun R => R) f' (mirror_hall h) b f h a B A T' T); [reflexivity | auto | apply mirror_backward].
    + apply (num_le mirror_op (fun R => R) f h a f' (mirror_hall h) b A B T T'); [reflexivity | auto | apply mirror_forward].
  - exact (listed_correspond mirror_op f h a f' (mirror_hall h) b A B T' (mirror_forward h)).
  - intros n Ln. destruct (listed_correspond mirror_op f' (mirror_hall h) b f h a B A T (mirror_backward h) n Ln) as (m & Lm & E).
    exists m. split; [exact Lm |]. apply mirror_op_same in E. rewrite mirror2_op in E. apply op_same_sym, E.
Qed.
(** a symbol with a leading minus has the same group as its mirror image *)
Theorem C80_minus_is_its_own_mirror_image :
  forall h, ls_minus (h_lat h) = true -> forall o, hall_group (mirror_hall h) o <-> hall_group h o.
Proof.
  intros h Mi o. 
  assert (K : forall h o, ls_minus (h_lat h) = true -> hall_group h o -> hall_group h (mirror_op o)).
  { clear. intros h o Mi G. assert (Iv : hall_group h (mopp I3, V3 0 0 0)) by (apply gen_base; right; left; auto).
    replace (mirror_op o) with (op_comp (op_comp (mopp I3, V3 0 0 0) o) (mopp I3, V3 0 0 0)).
    - apply gen_comp; [apply gen_comp |]; assumption.
    - destruct o as [R t]. unfold op_comp, mirror_op. cbn [fst snd]. f_equal; mat_ring. }
  split; intros G.
  - rewrite <- (mirror2_op o). apply K; [exact Mi |]. apply mirror_backward, G.
  - rewrite <- (mirror2_op o). apply mirror_forward, K; assumption.
Qed.
Definition mirror_change : change := Ch (mopp I3) v0 1.
Lemma mirror_carries o : carries mirror_change o (mirror_op o).
Proof.
  apply carries_iff; [reflexivity |]. destruct o as [R t]. unfold carries_int, mirror_change, mirror_op.
  cbn [ch_M ch_q ch_d fst snd]. split; mat_ring.
Qed.
Theorem C80_same_type_up_to_mirror : forall h, same_type_or_mirror (hall_group h) (hall_group (mirror_hall h)).
Proof.
  intros h. exists mirror_change. split; [split; [reflexivity | discriminate] |]. split.
  - intros o G. exists (mirror_op o). split; [exact (mirror_forward h o G) | apply mirror_carries].
  - intros o G. exists (mirror_op o). split; [exact (mirror_backward h o G) |].
    rewrite <- (mirror2_op o) at 2. apply mirror_carries.
Qed.

(** ** The hypotheses are met *)
Definition parsed (s : string) : hall :=
  match try_from_str s with Done (Some h) => h | _ => Hall (LS false LP) [] v0 end.
Example C79_case :
  next_hall (parsed "C 2c (0 0 3)") = parsed "A 2xa (3 0 0)" /\
  (exists g, general_positions 10 (parsed "C 2c 2 (0 0 3)") = Done g /\ num_of_general_pos g = 4%nat) /\
  (exists g, general_positions 10 (next_hall (parsed "C 2c 2 (0 0 3)")) = Done g /\ num_of_general_pos g = 4%nat).
Proof.
  split; [vm_compute; reflexivity |].
  split; eexists; (split; [vm_compute; reflexivity | vm_compute; reflexivity]).
Qed.
Example C80_case :
  mirror_hall (parsed "P 41 2 (0 0 1)") = parsed "P 43 2 (0 0 -1)" /\
  mirror_hall (parsed "P 61 2 (0 0 5)") = parsed "P 65 2 (0 0 -5)" /\
  mirror_hall (parsed "F 2 2d") = parsed "F 2 2ddd" /\
  (exists g, general_positions 10 (parsed "P 41 2 (0 0 1)") = Done g /\ num_of_general_pos g = 8%nat).
Proof.
  split; [vm_compute; reflexivity |]. split; [vm_compute; reflexivity |]. split; [vm_compute; reflexivity |].
  eexists; (split; [vm_compute; reflexivity | vm_compute; reflexivity]).
Qed.
(** and there are no extra translations in either case *)
Example C79_case_hyp :
  (exists h g, try_from_str "C 2c 2 (0 0 3)" = Done (Some h) /\ general_positions 10 h = Done g /\
    no_extra_translations h /\ num_of_general_pos g = 4%nat) /\
  (exists h g, try_from_str "P 41 2 (0 0 1)" = Done (Some h) /\ general_positions 10 h = Done g /\
    no_extra_translations h /\ num_of_general_pos g = 8%nat).
Proof. split; apply case_spec; vm_compute; reflexivity. Qed.
