(** * PropEdit: property C98: what editing the text of a Hall symbol does to its group. *)
From Coq Require Import QArith Permutation.
From Verif Require Import Base Notations Parser Seitz F64 Jones Rotations Tables Lookup Generate Positions
  Spec SpecText SpecHall SpecXyz SpecCompat SpecOutcome SpecTables SpecRelabel SpecEdit Algebra PropSeitz PropSymbols PropParser GenFacts
  PropGenerate GroupCheck PropFullSets PropTables PropTableGroups PropShift PropTermination PropOutcome PropOrder PropRelabel PropLatticeClass.
Open Scope Z_scope.
Local Notation length := List.length.

(** ** The value of a text in the usual form *)
Definition stored_shift (sh : option (Z * Z * Z)) : vec3 :=
  match sh with Some (a, b, c) => V3 (shift_component a) (shift_component b) (shift_component c) | None => V3 0 0 0 end.
Lemma component_cong a : exists k, shift_component a = a + 12 * k.
Proof. destruct (stored_component a) as [[_ E] | (_ & _ & k & E & _)]; [exists 0 | exists k]; lia. Qed.
Lemma stored_shift_cong sh : vcong12 (stored_shift sh) (shift_vector sh).
Proof.
  destruct sh as [[[a b] c] |]; cbn [stored_shift shift_vector].
  - destruct (component_cong a) as (i & Ei), (component_cong b) as (j & Ej), (component_cong c) as (k & Ek).
    rewrite Ei, Ej, Ek. unfold vcong12, cong12. cbn [vx vy vz]. repeat split; [exists i | exists j | exists k]; lia.
  - apply vcong12_refl.
Qed.
Lemma text_value minus lat ks sh : Forall plain ks -> in_range sh ->
  try_from_str (hall_written minus lat ks (shift_written sh)) = Done (Some (Hall (LS minus lat) (restore (map chunk_symbol ks)) (stored_shift sh))).
Proof.
  intros P R. destruct (C03_usual_form_is_read minus lat ks sh P R) as (h & E & L & D & X). rewrite E. do 2 f_equal.
  destruct h as [hl hs hv]. cbn [h_lat h_syms h_shift] in *. subst hl. rewrite (defaulted_unique _ _ _ D (restore_defaulted _)). f_equal.
  destruct sh as [[[a b] c] |]; [| exact X]. cbn [stored_shift]. destruct X as (A & B & C). destruct hv as [x y z]. cbn [vx vy vz] in *.
  f_equal; eapply stored_unique; eauto using stored_component.
Qed.
Lemma text_group_is minus lat ks sh o : Forall plain ks -> in_range sh ->
  (text_group (hall_written minus lat ks (shift_written sh)) o <-> hall_group (Hall (LS minus lat) (restore (map chunk_symbol ks)) (stored_shift sh)) o).
Proof.
  intros P R. unfold text_group. rewrite (text_value _ _ _ _ P R). split.
  - intros (h & E & G). injection E as <-. exact G.
  - intros G. eexists. split; [reflexivity | exact G].
Qed.
Lemma conj_cong v w o : vcong12 v w -> op_same (op_conj v o) (op_conj w o).
Proof.
  intros C. rewrite !op_conj_formula. split; [reflexivity |]. cbn [snd].
  apply vcong12_vadd; [apply vcong12_refl |]. apply vcong12_vsub; [exact C | apply vcong12_mvmul, C].
Qed.
Lemma group_same h a b : op_same a b -> (hall_group h a <-> hall_group h b).
Proof. intros S. split; intros G; [exact (gen_cell _ _ _ G S) | exact (gen_cell _ _ _ G (op_same_sym _ _ S))]. Qed.

Lemma group_shift_le L l v w o : vcong12 v w -> hall_group (Hall L l v) o -> hall_group (Hall L l w) o.
Proof.
  intros C. apply generated_mono. clear o. intros o [A | [A | (ms & m & I & E & ->)]].
  - apply gen_base. left. exact A.
  - apply gen_base. right. left. exact A.
  - apply (gen_cell _ (op_conj w (op_of m))); [| apply conj_cong, vcong12_sym, C]. apply gen_base. right. right. exists ms, m. auto.
Qed.
Lemma group_shift_cong L l v w o : vcong12 v w -> (hall_group (Hall L l v) o <-> hall_group (Hall L l w) o).
Proof. intros C. split; apply group_shift_le; [exact C | apply vcong12_sym, C]. Qed.

(** ** Parts of the text that do not matter *)
Theorem C98_components_decide :
  forall minus lat ks ks' rest rest' sh,
    chunked ks rest -> chunked ks' rest' -> ~ short_list rest -> ~ short_list rest' ->
    map chunk_symbol ks = map chunk_symbol ks' -> shift_read rest sh -> shift_read rest' sh ->
    try_from_str (hall_written minus lat ks rest) = try_from_str (hall_written minus lat ks' rest').
Proof.
  intros minus lat ks ks' rest rest' sh C C' N N' E R R'.
  destruct (C03_written_symbol_is_read minus lat ks rest C N) as (h & -> & L & D & X).
  destruct (C03_written_symbol_is_read minus lat ks' rest' C' N') as (h' & -> & L' & D' & X'). do 2 f_equal.
  rewrite E in D. destruct h as [hl hs hv], h' as [hl' hs' hv']. cbn [h_lat h_syms h_shift] in *. subst. rewrite (defaulted_unique _ _ _ D D').
  f_equal. destruct sh as [[[a b] c] |]; cbn [shift_read] in R, R'.
  - assert (K : forall r v, paren_list r [a; b; c] -> shift_result r v -> stored a (vx v) /\ stored b (vy v) /\ stored c (vz v)).
    { intros r v Pr [(a' & b' & c' & Pr' & S) | [Np _]]; [| destruct (Np _ _ _ Pr)].
      pose proof (proj2 (parse_paren_iff _ _) (conj Pr (le_n 3))) as Q. pose proof (proj2 (parse_paren_iff _ _) (conj Pr' (le_n 3))) as Q'. rewrite Q in Q'. injection Q' as <- <- <-. exact S. }
    destruct (K _ _ R X) as (S1 & S2 & S3), (K _ _ R' X') as (S1' & S2' & S3'). destruct hv, hv'. cbn in *. f_equal; eapply stored_unique; eauto.
  - destruct X as [(a & b & c & P & _) | [_ ->]]; [destruct (R _ _ _ P) |]. destruct X' as [(a & b & c & P & _) | [_ ->]]; [destruct (R' _ _ _ P) |]. reflexivity.
Qed.

(** ** Writing an origin shift behind *)
Theorem C98_shift_written :
  forall lat ks a b c o, Forall plain ks -> in_range (Some (a, b, c)) ->
    (text_group (hall_written false lat ks (shift_written (Some (a, b, c)))) (op_conj (V3 a b c) o) <->
     text_group (hall_written false lat ks "") o).
Proof.
  intros lat ks a b c o P R. rewrite (text_group_is _ _ _ _ _ P R). rewrite (text_group_is _ _ _ None _ P I).
  rewrite (group_same _ _ _ (op_same_sym _ _ (conj_cong _ _ o (stored_shift_cong (Some (a, b, c)))))).
  exact (C11_group_moves (Hall (LS false lat) (restore (map chunk_symbol ks)) v0) (stored_shift (Some (a, b, c))) o eq_refl).
Qed.

(** the printed positions too *)
Theorem C98_positions_of_shifted_text :
  forall fuel lat ks a b c h g, Forall plain ks -> in_range (Some (a, b, c)) ->
    try_from_str (hall_written false lat ks (shift_written (Some (a, b, c)))) = Done (Some h) ->
    no_extra_translations h -> general_positions fuel h = Done g ->
    exists h0 fuel0 g0, try_from_str (hall_written false lat ks "") = Done (Some h0) /\ general_positions fuel0 h0 = Done g0 /\
      num_of_general_pos g0 = num_of_general_pos g /\
      (forall m, listed g0 m -> exists n, listed g n /\ op_same (op_of n) (op_conj (V3 a b c) (op_of m))) /\
      (forall n, listed g n -> exists m, listed g0 m /\ op_same (op_of n) (op_conj (V3 a b c) (op_of m))).
Proof.
  intros fuel lat ks a b c h g P R E T H. rewrite (text_value _ _ _ _ P R) in E. injection E as <-.
  set (h1 := Hall (LS false lat) (restore (map chunk_symbol ks)) v0). set (v := stored_shift (Some (a, b, c))) in *.
  destruct (C11_positions_move fuel h1 v g eq_refl T H) as (fuel0 & g0 & H0 & N & A & B).
  exists h1, fuel0, g0. split; [exact (text_value false lat ks None P I) |]. split; [exact H0 |]. split; [exact N |].
  assert (C : forall o, op_same (op_conj v o) (op_conj (V3 a b c) o)) by (intros o; apply conj_cong, (stored_shift_cong (Some (a, b, c)))).
  split; [intros m L; destruct (A m L) as (n & Ln & S) | intros n L; destruct (B n L) as (m & Lm & S)]; eexists; (split; [eassumption |]);
    (eapply op_same_trans; [exact S | apply C]).
Qed.

(** ** The mirror image of a text *)
Lemma mirror_plain ks : Forall plain ks -> Forall plain (map mirror_chunk ks).
Proof.
  intros P. apply Forall_map. eapply Forall_impl; [| exact P]. intros k ([F L] & B & St & Pc). split; [split |]; [exact F | | auto].
  cbn [mirror_chunk k_letters]. intros K. apply in_flat_map in K. destruct K as (t & It & K). apply L.
  destruct t; cbn [mirror_letter In] in K; intuition (try discriminate). 
Qed.
Lemma mirror_chunk_symbol k : chunk_symbol (mirror_chunk k) = mirror_symbol (chunk_symbol k).
Proof.
  destruct k as [bs mi f ps st sub ls]. unfold chunk_symbol, mirror_symbol, mirror_chunk.
  cbn [k_blanks k_minus k_fold k_pieces k_stray k_sub k_letters ms_minus ms_fold ms_sub ms_diag ms_axis ms_trs]. f_equal.
  destruct ls as [| t ls]; [reflexivity |]. destruct t; reflexivity.
Qed.
Lemma mirror_restore l : restore (map mirror_symbol l) = map mirror_symbol (restore l).
Proof.
  apply (defaulted_unique (map mirror_symbol l)); [apply restore_defaulted |].
  destruct (restore_defaulted l) as [N D]. split; [rewrite !map_length; exact N |].
  intros i m Hi. rewrite nth_error_map in Hi. destruct (nth_error l i) as [m0 |] eqn:E; [| discriminate]. cbn [option_map] in Hi. injection Hi as <-.
  specialize (D i m0 E). rewrite nth_error_map.
  assert (Q : direction_default (map mirror_symbol l) i (mirror_symbol m0) = direction_default l i m0).
  { unfold direction_default. destruct i as [| [| [| i]]]; try reflexivity. rewrite nth_error_map. destruct (nth_error l 0); reflexivity. }
  rewrite Q. destruct (direction_default l i m0) as [a d]. rewrite D. reflexivity.
Qed.
Theorem C98_mirror_written :
  forall minus lat ks sh o, Forall plain ks -> in_range sh -> in_range (opposite_shift sh) ->
    (text_group (hall_written minus lat (map mirror_chunk ks) (shift_written (opposite_shift sh))) (mirror_op o) <->
     text_group (hall_written minus lat ks (shift_written sh)) o).
Proof.
  intros minus lat ks sh o P R R'. rewrite (text_group_is _ _ _ _ _ (mirror_plain _ P) R'), (text_group_is _ _ _ _ _ P R).
  rewrite map_map, (map_ext _ (fun k => mirror_symbol (chunk_symbol k)) mirror_chunk_symbol), <- map_map, mirror_restore.
  rewrite <- (C80_group_mirrored (Hall (LS minus lat) (restore (map chunk_symbol ks)) (stored_shift sh)) o).
  unfold mirror_hall. cbn [h_lat h_syms h_shift].
  assert (V : vcong12 (stored_shift (opposite_shift sh)) (vopp (stored_shift sh))).
  { eapply vcong12_trans; [apply stored_shift_cong |]. 
    assert (W : shift_vector (opposite_shift sh) = vopp (shift_vector sh)) by (destruct sh as [[[a b] c] |]; reflexivity).
    rewrite W. apply vcong12_vopp, vcong12_sym, stored_shift_cong. }
  revert V. generalize (stored_shift (opposite_shift sh)), (vopp (stored_shift sh)), (map mirror_symbol (restore (map chunk_symbol ks))), (mirror_op o).
  clear. intros v w l o V. apply group_shift_cong, V.
Qed.

(** ** The leading minus, the lattice letter and one more symbol *)
Theorem C98_minus_written :
  forall lat ks sh o, Forall plain ks -> in_range sh ->
    (text_group (hall_written true lat ks (shift_written sh)) o <->
     generated (fun g => text_group (hall_written false lat ks (shift_written sh)) g \/ g = (mopp I3, V3 0 0 0)) o).
Proof.
  intros lat ks sh o P R. rewrite (text_group_is _ _ _ _ _ P R). split; apply generated_mono; clear o.
  - intros o [(v & Iv & ->) | [[_ ->] | (ms & m & Im & E & ->)]]; apply gen_base; [left | right; reflexivity | left];
      apply (text_group_is _ _ _ _ _ P R), gen_base; [left; exists v; auto | right; right; exists ms, m; auto].
  - intros o [G | ->]; [| apply gen_base; right; left; auto]. apply (text_group_is _ _ _ _ _ P R) in G.
    revert G. apply generated_mono. clear o. intros o [A | [[A _] | A]]; [| discriminate A |]; apply gen_base; [left | right; right]; exact A.
Qed.
Theorem C98_lattice_letter :
  forall minus lat ks sh o, Forall plain ks -> in_range sh ->
    (text_group (hall_written minus lat ks (shift_written sh)) o <->
     generated (fun g => text_group (hall_written minus LP ks (shift_written sh)) g \/ exists v, In v (translations lat) /\ g = (I3, v)) o).
Proof.
  intros minus lat ks sh o P R. rewrite (text_group_is _ _ _ _ _ P R). split; apply generated_mono; clear o.
  - intros o [(v & Iv & ->) | [A | A]]; apply gen_base; [right; exists v; auto | left | left];
      apply (text_group_is _ _ _ _ _ P R), gen_base; [right; left | right; right]; exact A.
  - intros o [G | (v & Iv & ->)]; [| apply gen_base; left; exists v; auto]. apply (text_group_is _ _ _ _ _ P R) in G.
    revert G. apply generated_mono. clear o. intros o [(v & Iv & ->) | [A | A]]; [| apply gen_base; right; left; exact A | apply gen_base; right; right; exact A].
    destruct Iv as [<- | []]. exact (gen_one _).
Qed.
Lemma restore_app l m : exists m', restore (l ++ [m]) = (restore l ++ [m'])%list /\
  (let (a, d) := direction_default (l ++ [m]) (length l) m in m' = MS (ms_minus m) (ms_fold m) (ms_sub m) d a (ms_trs m)).
Proof.
  destruct (restore_defaulted (l ++ [m])) as [N D].
  assert (Hl : nth_error (l ++ [m])%list (length l) = Some m) by (rewrite nth_error_app2, Nat.sub_diag; [reflexivity | lia]).
  pose proof (D _ _ Hl) as Dl. destruct (direction_default (l ++ [m])%list (length l) m) as [a d].
  exists (MS (ms_minus m) (ms_fold m) (ms_sub m) d a (ms_trs m)). split; [| reflexivity].
  destruct (restore_defaulted l) as [N0 D0]. apply nth_error_ext. intros i.
  destruct (Nat.lt_trichotomy i (length l)) as [H | [-> | H]].
  - rewrite (nth_error_app1 (restore l)) by lia. destruct (nth_error l i) as [x |] eqn:E; [| apply nth_error_None in E; lia].
    assert (E' : nth_error (l ++ [m])%list i = Some x) by (rewrite nth_error_app1 by lia; exact E).
    specialize (D _ _ E'). specialize (D0 _ _ E).
    assert (Q : direction_default (l ++ [m]) i x = direction_default l i x).
    { unfold direction_default. destruct i as [| [| [| i]]]; try reflexivity. rewrite nth_error_app1 by lia. reflexivity. }
    rewrite Q in D. destruct (direction_default l i x). congruence.
  - rewrite Dl, nth_error_app2 by lia. rewrite N0, Nat.sub_diag. reflexivity.
  - rewrite app_length in N. cbn [List.length] in N.
    rewrite (proj2 (nth_error_None _ _)) by lia. symmetry. apply nth_error_None. rewrite app_length. cbn [List.length]. lia.
Qed.
Theorem C98_symbol_appended :
  forall minus lat ks k sh, Forall plain ks -> plain k -> in_range sh ->
    exists m, ms_minus m = k_minus k /\ ms_fold m = k_fold k /\ ms_sub m = k_sub k /\ ms_trs m = ms_trs (chunk_symbol k) /\
      (ms_axis m, ms_diag m) = direction_default (map chunk_symbol (ks ++ [k])) (length ks) (chunk_symbol k) /\
      forall o, text_group (hall_written minus lat (ks ++ [k]) (shift_written sh)) o <->
        generated (fun g => text_group (hall_written minus lat ks (shift_written sh)) g \/
                            exists x, seitz_matrix m = Some x /\ g = op_conj (shift_vector sh) (op_of x)) o.
Proof.
  intros minus lat ks k sh P Pk R. destruct (restore_app (map chunk_symbol ks) (chunk_symbol k)) as (m & E & D).
  assert (Pa : Forall plain (ks ++ [k])) by (apply Forall_app; split; [exact P | constructor; [exact Pk | constructor]]).
  assert (Em : map chunk_symbol (ks ++ [k]) = (map chunk_symbol ks ++ [chunk_symbol k])%list) by (rewrite map_app; reflexivity).
  exists m. rewrite <- Em, map_length in *. 
  assert (F : ms_minus m = k_minus k /\ ms_fold m = k_fold k /\ ms_sub m = k_sub k /\ ms_trs m = ms_trs (chunk_symbol k) /\
      (ms_axis m, ms_diag m) = direction_default (map chunk_symbol (ks ++ [k])) (length ks) (chunk_symbol k)).
  { destruct (direction_default _ _ _) as [a d]. subst m. repeat split. }
  destruct F as (F1 & F2 & F3 & F4 & F5). do 5 (split; [assumption |]). intros o.
  rewrite (text_group_is _ _ _ _ _ Pa R), E. clear E Em D F1 F2 F3 F4 F5.
  pose proof (fun o => text_group_is minus lat ks sh o P R) as T.
  split; apply generated_mono; clear o; intros o.
  - intros [A | [A | (ms & x & Im & E & ->)]].
    + apply gen_base. left. apply T, gen_base. left. exact A.
    + apply gen_base. left. apply T, gen_base. right. left. exact A.
    + cbn [h_syms h_shift] in *. apply in_app_iff in Im. destruct Im as [Im | [<- | []]].
      * apply gen_base. left. apply T, gen_base. right. right. exists ms, x. auto.
      * apply (gen_cell _ (op_conj (shift_vector sh) (op_of x))); [| apply conj_cong, vcong12_sym, stored_shift_cong].
        apply gen_base. right. exists x. auto.
  - intros [G | (x & E & ->)].
    + apply T in G. revert G. apply generated_mono. clear o. intros o [A | [A | (ms & x & Im & E & ->)]]; apply gen_base; [left; exact A | right; left; exact A |].
      right. right. exists ms, x. split; [apply in_app_iff; left; exact Im | auto].
    + apply (gen_cell _ (op_conj (stored_shift sh) (op_of x))); [| apply conj_cong, stored_shift_cong].
      apply gen_base. right. right. exists m, x. split; [apply in_app_iff; right; left; reflexivity | auto].
Qed.
(** number 178, "P 61 2 (0 0 -1)", is in the usual form; its mirror image is "P 65 2 (0 0 1)" *)
Example C98_case :
  exists ks h, Forall plain ks /\ in_range (Some (0, 0, -1)) /\ in_range (opposite_shift (Some (0, 0, -1))) /\
    hall_written false LP ks (shift_written (Some (0, 0, -1))) = "P 61 2 (0 0 -1)"%string /\
    hall_written false LP ks "" = "P 61 2"%string /\
    hall_written false LP (map mirror_chunk ks) (shift_written (opposite_shift (Some (0, 0, -1)))) = "P 65 2 (0 0 1)"%string /\
    direction_default (map chunk_symbol ks) 1 (chunk_symbol (nth 1 ks (Chunk [] false F1 [] false SubNone []))) = (AxZ, SingleQuote) /\
    try_from_str "P 61 2 (0 0 -1)" = Done (Some h) /\ no_extra_translations h /\
    exists g, general_positions 10 h = Done g /\ num_of_general_pos g = 12%nat.
Proof.
  destruct (row_of 178) as (label & s & h & g & El & E & En & P & G & T & _); [lia |].
  assert (Es : get_hall_symbol default_table (pred 178) = Some "P 61 2 (0 0 -1)"%string) by reflexivity. assert (s = "P 61 2 (0 0 -1)"%string) by congruence. subst s.
  exists [Chunk [Space] false F6 [] false Sub1 []; Chunk [Space] false F2 [] false SubNone []], h.
  split; [repeat constructor; try discriminate; intros [] |]. do 3 (split; [repeat split |]). do 3 (split; [reflexivity |]).
  split; [exact P |]. split; [exact T |].
  assert (Ep : exists h', try_from_str "P 61 2 (0 0 -1)" = Done (Some h') /\ exists g, general_positions 10 h' = Done g /\ num_of_general_pos g = 12%nat).
  { eexists. split; [vm_compute; reflexivity |]. eexists. split; vm_compute; reflexivity. }
  destruct Ep as (h' & Ep & X). replace h with h' by congruence. exact X.
Qed.
