(** * MachineFacts: when machine arithmetic agrees with exact arithmetic (proof support). *)
From Verif Require Import Base Notations Parser Seitz F64 Jones Rotations Tables Generate Positions Machine
  Spec SpecMachine Algebra PropSymbols GenFacts.
Open Scope Z_scope.
Local Notation length := List.length.

(** ** A debug build either stops at an overflow or computes the exact result *)
Definition exact {A} (x y : outcome A) : Prop := x = overflow \/ x = y.
Lemma exact_refl {A} (x : outcome A) : exact x x. Proof. now right. Qed.
Lemma exact_bind {A B} (x y : outcome A) (f g : A -> outcome B) :
  exact x y -> (forall a, exact (f a) (g a)) -> exact (obind x f) (obind y g).
Proof.
  intros [-> | ->] H; [left; reflexivity |]. destruct y; cbn; [apply H | now right | now right].
Qed.
(** when the exact result is a value known in advance *)
Lemma exact_let {A B} (x : outcome A) a (f : A -> outcome B) y :
  exact x (Done a) -> exact (f a) y -> exact (obind x f) y.
Proof. intros [-> | ->] H; [left; reflexivity | exact H]. Qed.
Lemma exact_i32 z : exact (i32 DebugBuild z) (Done z).
Proof. unfold i32. destruct (in_i32 z); [now right | now left]. Qed.
Lemma exact_usize z : exact (usize DebugBuild z) (Done z).
Proof. unfold usize. destruct (_ && _); [now right | now left]. Qed.
Lemma exact_omap {A B} (f g : A -> outcome B) l : (forall a, exact (f a) (g a)) -> exact (omap f l) (omap g l).
Proof.
  intros H. induction l as [| a l IH]; cbn [omap]; [now right |].
  apply exact_bind; [apply H |]. intros b. apply exact_bind; [exact IH |]. intros; now right.
Qed.
Lemma exact_omap_Done {A B} (f : A -> outcome B) (g : A -> B) l :
  (forall a, exact (f a) (Done (g a))) -> exact (omap f l) (Done (map g l)).
Proof.
  intros H. induction l as [| a l IH]; cbn [omap map]; [now right |].
  eapply exact_let; [apply H |]. eapply exact_let; [exact IH | now right].
Qed.
Ltac ex := repeat (eapply exact_let; [first [apply exact_i32 | apply exact_usize] |]); try now right.

Lemma exact_ivadd a b : exact (ivadd DebugBuild a b) (Done (vadd a b)).
Proof. unfold ivadd, iadd. ex. Qed.
Lemma exact_lift3 f g v : (forall z, exact (f z) (Done (g z))) -> exact (lift3 f v) (Done (vmap g v)).
Proof. intros H. unfold lift3. do 3 (eapply exact_let; [apply H |]). now right. Qed.
Lemma exact_idot a1 a2 a3 a4 b1 b2 b3 b4 :
  exact (idot DebugBuild a1 a2 a3 a4 b1 b2 b3 b4) (Done (a1 * b1 + a2 * b2 + a3 * b3 + a4 * b4)).
Proof.
  unfold idot, imul, iadd. ex. replace (a1 * b1 + a2 * b2 + a3 * b3 + a4 * b4) with (a4 * b4 + (a3 * b3 + (a2 * b2 + a1 * b1))) by ring.
  apply exact_i32.
Qed.
Definition column (a : seitz) (b1 b2 b3 b4 : Z) : vec3 * Z :=
  (V3 (m11 (rot a) * b1 + m12 (rot a) * b2 + m13 (rot a) * b3 + vx (tra a) * b4)
      (m21 (rot a) * b1 + m22 (rot a) * b2 + m23 (rot a) * b3 + vy (tra a) * b4)
      (m31 (rot a) * b1 + m32 (rot a) * b2 + m33 (rot a) * b3 + vz (tra a) * b4),
   vx (bot a) * b1 + vy (bot a) * b2 + vz (bot a) * b3 + cor a * b4).
Lemma mat4_mul_columns a b :
  let c1 := column a (m11 (rot b)) (m21 (rot b)) (m31 (rot b)) (vx (bot b)) in
  let c2 := column a (m12 (rot b)) (m22 (rot b)) (m32 (rot b)) (vy (bot b)) in
  let c3 := column a (m13 (rot b)) (m23 (rot b)) (m33 (rot b)) (vz (bot b)) in
  let c4 := column a (vx (tra b)) (vy (tra b)) (vz (tra b)) (cor b) in
  Sz (M3 (vx (fst c1)) (vx (fst c2)) (vx (fst c3))
         (vy (fst c1)) (vy (fst c2)) (vy (fst c3))
         (vz (fst c1)) (vz (fst c2)) (vz (fst c3)))
     (fst c4) (V3 (snd c1) (snd c2) (snd c3)) (snd c4) = mat4_mul a b.
Proof.
  cbv zeta. unfold mat4_mul, column, vdot, madd, mmul, mvmul, vmmul, vouter, vscale, vadd. cbn [fst snd vx vy vz m11 m12 m13 m21 m22 m23 m31 m32 m33].
  f_equal; try (f_equal; ring); ring.
Qed.
Lemma exact_icolumn a b1 b2 b3 b4 : exact (icolumn DebugBuild a b1 b2 b3 b4) (Done (column a b1 b2 b3 b4)).
Proof. unfold icolumn. do 4 (eapply exact_let; [apply exact_idot |]). now right. Qed.
Lemma exact_imat4 a b : exact (imat4_mul DebugBuild a b) (Done (mat4_mul a b)).
Proof.
  unfold imat4_mul. do 4 (eapply exact_let; [apply exact_icolumn |]). right. f_equal. apply mat4_mul_columns.
Qed.
Lemma exact_isz_addv a v : exact (isz_addv DebugBuild a v) (Done (sz_addv a v)).
Proof.
  unfold isz_addv. eapply exact_let; [apply exact_ivadd |]. unfold iadd. ex. right. unfold sz_addv. now rewrite Z.add_0_r.
Qed.
Lemma exact_isz_mul a b : exact (isz_mul DebugBuild a b) (Done (sz_mul a b)).
Proof. unfold isz_mul. eapply exact_let; [apply exact_imat4 |]. now right. Qed.
Lemma exact_isz_eq a b : exact (isz_eq DebugBuild a b) (Done (sz_eqb a b)).
Proof. unfold isz_eq, sz_eqb, isub. destruct (meqb _ _); [ex | now right]. Qed.
Lemma exact_itrace m : exact (itrace DebugBuild m) (Done (sz_trace m)).
Proof. unfold itrace, iadd, isub. ex. apply exact_i32. Qed.
Lemma exact_ipositive_mod v : exact (ipositive_mod DebugBuild v) (Done (positive_mod v)).
Proof. unfold ipositive_mod, positive_mod, iadd. destruct (v <? 0); [apply exact_i32 | now right]. Qed.
Lemma exact_ishifted v m : exact (ishifted DebugBuild v m) (Done (shifted_matrix v m)).
Proof.
  unfold ishifted. eapply exact_let; [apply (exact_lift3 _ Z.opp); intros; apply exact_i32 |].
  do 2 (eapply exact_let; [apply exact_imat4 |]).
  eapply exact_let; [apply (exact_lift3 _ positive_mod), exact_ipositive_mod |].
  eapply exact_let; [apply exact_ipositive_mod |]. now right.
Qed.
Lemma exact_ishift_component v : exact (ishift_component DebugBuild v) (Done (shift_component v)).
Proof. unfold ishift_component, shift_component, iadd. destruct (negb _); [apply exact_i32 | now right]. Qed.
Lemma concat_flat {A B} (f : A -> list B) l : List.concat (map f l) = flat_map f l.
Proof. induction l; cbn; [reflexivity | now f_equal]. Qed.
Lemma exact_ilattice l : exact (ilattice_seitz DebugBuild l) (Done (lattice_seitz l)).
Proof.
  unfold ilattice_seitz, lattice_seitz. destruct (ls_minus l).
  - eapply exact_let; [apply (exact_omap_Done _ (fun v => [sz_addv sz_identity v; sz_addv sz_inversion v])) |].
    + intros v. do 2 (eapply exact_let; [apply exact_isz_addv |]). now right.
    + right. f_equal. apply concat_flat.
  - apply exact_omap_Done. intros; apply exact_isz_addv.
Qed.
Lemma exact_iletter_mod v : exact (iletter_mod DebugBuild v) (Done (letter_mod v)).
Proof. unfold iletter_mod, letter_mod, iadd. destruct (negb _); [cbv zeta; destruct (_ <? 0); [apply exact_i32 |] |]; now right. Qed.
Lemma exact_iletter_sum l : forall acc, exact (iletter_sum DebugBuild acc l) (Done (fold_left vadd (map translation_vector l) acc)).
Proof.
  induction l as [| t l IH]; intros acc; cbn [iletter_sum fold_left map]; [now right |].
  eapply exact_let; [apply exact_ivadd | apply IH].
Qed.
Lemma exact_iset_letters ms m : exact (iset_letters DebugBuild ms m) (Done (set_translation_from_symbols ms m)).
Proof.
  unfold iset_letters, set_translation_from_symbols. destruct (ms_trs ms); [| now right].
  eapply exact_let; [apply exact_iletter_sum |].
  eapply exact_let; [apply (exact_lift3 _ letter_mod), exact_iletter_mod |].
  eapply exact_let; [apply exact_ivadd |]. unfold iadd. ex. right. now rewrite Z.add_0_r.
Qed.
Lemma exact_iset_inversion m : exact (iset_inversion DebugBuild m) (Done (set_inversion m)).
Proof.
  unfold iset_inversion. eapply exact_let; [apply exact_imat4 |]. right. unfold set_inversion. repeat f_equal.
  now rewrite mat4_mul_aff.
Qed.
Lemma exact_iseitz_matrix ms : exact (iseitz_matrix DebugBuild ms) (Done (seitz_matrix ms)).
Proof.
  unfold iseitz_matrix, seitz_matrix. destruct (get_rotation_matrix ms) as [r |]; [| now right].
  destruct (set_transform ms r) as [v |]; [| now right].
  eapply exact_let; [apply exact_iset_letters |]. destruct (ms_minus ms); [| now right].
  eapply exact_let; [apply exact_iset_inversion |]. now right.
Qed.
Lemma exact_iplus_mod t tr : exact (iplus_mod DebugBuild t tr) (Done (vmap positive_mod (vadd t tr))).
Proof. unfold iplus_mod. eapply exact_let; [apply exact_ivadd |]. apply (exact_lift3 _ positive_mod), exact_ipositive_mod. Qed.
Lemma exact_iminimal lt t : exact (iminimal_repr DebugBuild lt t) (Done (minimal_repr lt t)).
Proof.
  unfold iminimal_repr. eapply exact_let; [apply (exact_lift3 _ positive_mod), exact_ipositive_mod |].
  eapply exact_let; [apply exact_omap_Done; intros; apply exact_iplus_mod |]. now right.
Qed.
Lemma exact_inew t s lt : exact (inew_everywhere DebugBuild lt t s)
  (Done (forallb (fun tr => negb (set_mem (vmap positive_mod (vadd t tr)) s)
           && vforall (fun v => negb (rem12 v =? 0)) (vadd t tr)) lt)).
Proof.
  induction lt as [| tr lt IH]; cbn [inew_everywhere forallb]; [now right |].
  eapply exact_let; [apply exact_iplus_mod |]. destruct (set_mem _ s); [now right |].
  eapply exact_let; [apply exact_ivadd |]. destruct (vforall _ _); [exact IH | now right].
Qed.
Lemma exact_iadd_to_list lt st m : exact (iadd_to_list DebugBuild lt st m) (Done (add_to_list lt st m)).
Proof.
  unfold iadd_to_list, add_to_list. destruct (map_get _ _) as [s |].
  - eapply exact_let; [apply exact_inew |]. destruct (forallb _ lt); [| now right].
    eapply exact_let; [apply exact_iminimal |]. now right.
  - eapply exact_let; [apply exact_iminimal |]. now right.
Qed.
Lemma exact_iinner lt i js : forall st, exact (iinner_loop DebugBuild lt i js st) (Done (inner_loop lt i js st)).
Proof.
  induction js as [| j js IH]; intros st; cbn [iinner_loop inner_loop]; [now right |].
  eapply exact_let; [apply exact_isz_mul |]. eapply exact_let; [apply exact_iadd_to_list |].
  destruct (add_to_list lt st (sz_mul i j)) as [[|] st']; cbn [fst snd]; [now right | apply IH].
Qed.
Lemma exact_iouter lt l is_ : forall st, exact (iouter_loop DebugBuild lt l is_ st) (Done (fold_left (fun s i => inner_loop lt i l s) is_ st)).
Proof.
  induction is_ as [| i is_ IH]; intros st; cbn [iouter_loop fold_left]; [now right |].
  eapply exact_let; [apply exact_iinner | apply IH].
Qed.
Lemma exact_igen_loop fuel lt : forall st, exact (igen_loop DebugBuild fuel lt st) (gen_loop fuel lt st).
Proof.
  induction fuel as [| f IH]; intros st; cbn [igen_loop gen_loop]; [now right |].
  eapply exact_let; [apply exact_iouter |]. fold (one_pass lt st). cbv zeta.
  destruct (Nat.ltb _ _); [apply IH | now right].
Qed.
Lemma exact_imax l : forall acc, exact (imax_equiv_pos DebugBuild l acc)
  (fold_left (fun acc ms =>
    obind acc (fun a =>
      match seitz_matrix ms with
      | None => Panic "Invalid Seitz Matrix"
      | Some m => match sz_equiv_num m with
                  | Some n => Done (a * n)
                  | None => Panic "Invalid Seitz Matrix"
                  end
      end)) l (Done acc)).
Proof.
  assert (P : forall l w, fold_left (fun acc ms =>
    obind acc (fun a : Z =>
      match seitz_matrix ms with
      | None => Panic "Invalid Seitz Matrix"
      | Some m => match sz_equiv_num m with
                  | Some n => Done (a * n)
                  | None => Panic "Invalid Seitz Matrix"
                  end
      end)) l (Panic w) = Panic w) by (intros l0 w; induction l0; cbn; auto).
  induction l as [| ms l IH]; intros acc; cbn [imax_equiv_pos fold_left]; [now right |].
  eapply exact_let; [apply exact_iseitz_matrix |]. cbn [obind].
  destruct (seitz_matrix ms) as [m |]; [| right; now rewrite P].
  assert (E : exact (iequiv_num DebugBuild m) (match sz_equiv_num m with Some n => Done n | None => Panic "Invalid Seitz Matrix" end)).
  { unfold iequiv_num, sz_equiv_num, rotation_type. eapply exact_let; [apply exact_itrace |].
    destruct (rotation_type_of _ _); now right. }
  destruct (sz_equiv_num m) as [n |].
  - eapply exact_let; [exact E |]. eapply exact_let; [apply exact_usize |]. apply IH.
  - destruct E as [-> | ->]; cbn; [now left | right; now rewrite P].
Qed.
Lemma exact_iadd_all lt l : forall st, exact (iadd_all DebugBuild lt st l) (Done (add_all lt st l)).
Proof.
  induction l as [| m l IH]; intros st; cbn [iadd_all]; [now right |].
  eapply exact_let; [apply exact_iadd_to_list |]. apply IH.
Qed.
Lemma exact_isymbol h ms : exact (isymbol_generator DebugBuild h ms) (symbol_generator h ms).
Proof.
  unfold isymbol_generator, symbol_generator. eapply exact_let; [apply exact_iseitz_matrix |].
  destruct (seitz_matrix ms); [apply exact_ishifted | now right].
Qed.
(** ** Adding each generator at once or computing all of them first makes no difference *)
(** Both ways stop at an overflow: the only panic left once [max_equiv_pos] has returned. *)
Definition clean {A} (x : outcome A) : Prop := x = overflow \/ exists a, x = Done a.
Lemma clean_Done {A} (a : A) : clean (Done a). Proof. right. now exists a. Qed.
Lemma clean_bind {A B} (x : outcome A) (f : A -> outcome B) : clean x -> (forall a, clean (f a)) -> clean (obind x f).
Proof. intros [-> | (a & ->)] H; [left; reflexivity | apply H]. Qed.
Lemma clean_i32 p z : clean (i32 p z).
Proof. unfold i32. destruct (in_i32 z); [apply clean_Done |]. destruct p; [now left | apply clean_Done]. Qed.
Ltac clean := repeat match goal with |- clean (Done _) => apply clean_Done | |- clean (i32 _ _) => apply clean_i32 | |- clean (obind _ _) => apply clean_bind; [| intros ?] end.
Lemma clean_omap {A B} (f : A -> outcome B) l : (forall a, clean (f a)) -> clean (omap f l).
Proof. intros H. induction l as [| a l IH]; cbn [omap]; clean; auto. Qed.
Lemma clean_lift3 f v : (forall z, clean (f z)) -> clean (lift3 f v).
Proof. intros H. unfold lift3. clean; apply H. Qed.
Lemma clean_positive p z : clean (ipositive_mod p z).
Proof. unfold ipositive_mod, iadd. destruct (z <? 0); clean. Qed.
Lemma clean_ivadd p a b : clean (ivadd p a b). Proof. unfold ivadd, iadd. clean. Qed.
Lemma clean_iplus_mod p t tr : clean (iplus_mod p t tr).
Proof. unfold iplus_mod. clean; [apply clean_ivadd | apply clean_lift3, clean_positive]. Qed.
Lemma clean_iadd_to_list p lt st m : clean (iadd_to_list p lt st m).
Proof.
  assert (M : clean (iminimal_repr p lt (tra m))).
  { unfold iminimal_repr. clean; [apply clean_lift3, clean_positive | apply clean_omap, clean_iplus_mod]. }
  unfold iadd_to_list. cbv zeta. destruct (map_get _ _) as [s |]; [| clean; exact M].
  apply clean_bind; [| intros []; [clean; exact M | clean]].
  generalize (tra m). clear M. intros t. induction lt as [| tr r IH]; cbn [inew_everywhere]; [clean |].
  apply clean_bind; [apply clean_iplus_mod |]. intros u. destruct (set_mem u s); [clean |].
  apply clean_bind; [apply clean_ivadd |]. intros w. destruct (vforall _ w); [exact IH | clean].
Qed.
Lemma clean_iadd_all p lt l : forall st, clean (iadd_all p lt st l).
Proof. induction l as [| m l IH]; intros st; cbn [iadd_all]; [clean |]. apply clean_bind; [apply clean_iadd_to_list | auto]. Qed.
Lemma clean_ishifted p v m : clean (ishifted p v m).
Proof.
  unfold ishifted, imat4_mul, icolumn, idot, imul, iadd, ineg. clean.
  all: try (apply clean_lift3; intros; first [apply clean_i32 | apply clean_positive]). all: apply clean_positive.
Qed.
Lemma iadd_all_app p lt a : forall st b, iadd_all p lt st (a ++ b) = obind (iadd_all p lt st a) (fun s => iadd_all p lt s b).
Proof.
  induction a as [| m a IH]; intros st b; [reflexivity |]. cbn [iadd_all app].
  destruct (iadd_to_list p lt st m) as [r | |]; cbn [obind]; auto.
Qed.
Lemma imax_done_valid p l : forall acc n, imax_equiv_pos p l acc = Done n ->
  forall ms, In ms l -> exists m, iseitz_matrix p ms = Done (Some m).
Proof.
  induction l as [| ms l IH]; intros acc n H ms0 []; cbn [imax_equiv_pos] in H.
  - subst ms0. destruct (iseitz_matrix p ms) as [[m |] | |]; try discriminate. now exists m.
  - destruct (iseitz_matrix p ms) as [[m |] | |]; cbn [obind] in H; try discriminate.
    destruct (iequiv_num p m) as [k | |]; cbn [obind] in H; try discriminate.
    destruct (usize p (acc * k)) as [u | |]; cbn [obind] in H; try discriminate. eauto.
Qed.
Lemma add_symbols_batched p lt h l :
  (forall ms, In ms l -> exists m, iseitz_matrix p ms = Done (Some m)) -> forall st,
  iadd_symbols p lt h st l = obind (omap (isymbol_generator p h) l) (iadd_all p lt st).
Proof.
  intros V. induction l as [| ms l IH]; intros st; [reflexivity |].
  cbn [iadd_symbols omap]. assert (C : clean (isymbol_generator p h ms)).
  { unfold isymbol_generator. destruct (V ms (or_introl eq_refl)) as (m & ->). cbn [obind]. apply clean_ishifted. }
  assert (D : clean (omap (isymbol_generator p h) l)).
  { clear - V. induction l as [| a l IH]; [apply clean_Done |]. cbn [omap]. apply clean_bind.
    - unfold isymbol_generator. destruct (V a) as (m & ->); [cbn; auto |]. cbn [obind]. apply clean_ishifted.
    - intros x. apply clean_bind; [| intros; apply clean_Done]. apply IH. intros ms' [-> | H]; apply V; cbn; auto. }
  specialize (IH (fun a H => V a (or_intror H))).
  destruct C as [-> | (m & ->)]; [reflexivity |]. cbn [obind].
  destruct (clean_iadd_to_list p lt st m) as [E | (r & E)]; rewrite ?E; cbn [obind].
  - destruct D as [-> | (ms' & ->)]; cbn [obind]; [reflexivity |]. cbn [iadd_all]. now rewrite E.
  - rewrite IH. destruct D as [-> | (ms' & ->)]; cbn [obind]; [reflexivity |]. cbn [iadd_all]. now rewrite E.
Qed.
Definition igenerate_batched p (fuel : nat) (h : hall) : outcome (list seitz) :=
  let* n := imax_equiv_pos p (h_syms h) (lattice_equiv_num (h_lat h)) in
  if capacity_limit <? n then Panic "capacity overflow" else
  let* ls := ilattice_seitz p (h_lat h) in
  let* gs := omap (isymbol_generator p h) (h_syms h) in
  let lt := translations (ls_char (h_lat h)) in
  let* st := iadd_all p lt (GS [] []) (ls ++ gs) in
  igen_loop p fuel lt st.
Lemma igenerate_batch p fuel h : igenerate_unsorted p fuel h = igenerate_batched p fuel h.
Proof.
  unfold igenerate_unsorted, igenerate_batched.
  destruct (imax_equiv_pos p (h_syms h) (lattice_equiv_num (h_lat h))) as [n | |] eqn:M; cbn [obind]; try reflexivity.
  destruct (capacity_limit <? n); [reflexivity |].
  destruct (ilattice_seitz p (h_lat h)) as [ls | |]; cbn [obind]; try reflexivity.
  set (lt := translations _). cbv zeta.
  pose proof (imax_done_valid p _ _ _ M) as V.
  assert (D : clean (omap (isymbol_generator p h) (h_syms h))).
  { clear - V. induction (h_syms h) as [| a l IH]; [apply clean_Done |]. cbn [omap]. apply clean_bind.
    - unfold isymbol_generator. destruct (V a) as (m & ->); [cbn; auto |]. cbn [obind]. apply clean_ishifted.
    - intros x. apply clean_bind; [| intros; apply clean_Done]. apply IH. intros ms' H; apply V; cbn; auto. }
  destruct (clean_iadd_all p lt ls (GS [] [])) as [E | (st0 & E)]; rewrite E; cbn [obind].
  - destruct D as [-> | (gs & ->)]; cbn [obind]; [reflexivity |]. now rewrite iadd_all_app, E.
  - rewrite add_symbols_batched by exact V.
    destruct D as [-> | (gs & ->)]; cbn [obind]; [reflexivity |]. now rewrite iadd_all_app, E.
Qed.
Lemma exact_igenerate fuel h : exact (igenerate_unsorted DebugBuild fuel h) (generate_unsorted fuel h).
Proof.
  rewrite igenerate_batch. unfold igenerate_batched, generate_unsorted, max_equiv_pos. apply exact_bind; [apply exact_imax |]. intros n.
  destruct (capacity_limit <? n); [now right |]. eapply exact_let; [apply exact_ilattice |].
  unfold generators. 
  assert (R : forall A B C (x : outcome A) (f : A -> outcome B) (g : B -> outcome C), obind (obind x f) g = obind x (fun a => obind (f a) g))
    by (intros A B C [] f g; reflexivity).
  rewrite R. cbn [obind]. apply exact_bind; [apply exact_omap, exact_isymbol |]. intros gs. cbn [obind].
  eapply exact_let; [apply exact_iadd_all |]. apply exact_igen_loop.
Qed.
Lemma exact_ijf_entry c v : exact (ijf_entry DebugBuild c v) (jf_entry c v).
Proof.
  unfold ijf_entry, jf_entry, imul. eapply exact_let; [apply exact_i32 |]. cbv zeta. apply exact_refl.
Qed.
Lemma exact_ijf_row a b c : exact (ijf_row DebugBuild a b c) (jf_row a b c).
Proof. unfold ijf_row, jf_row. do 3 (apply exact_bind; [apply exact_ijf_entry | intros ?]). now right. Qed.
Lemma exact_irotation_jf R : exact (irotation_jf DebugBuild R) (rotation_jf R).
Proof. unfold irotation_jf, rotation_jf. do 3 (apply exact_bind; [apply exact_ijf_row | intros ?]). now right. Qed.
Lemma exact_ijones_rot m : exact (ijones_rot DebugBuild m) (jones_rot m).
Proof. unfold ijones_rot, jones_rot. apply exact_bind; [apply exact_irotation_jf |]. intros; now right. Qed.
Lemma exact_ijones m : exact (ijones DebugBuild m) (jones m).
Proof. unfold ijones, jones. apply exact_bind; [apply exact_irotation_jf |]. intros; now right. Qed.
Lemma exact_isort h l : exact (isort_positions DebugBuild h l) (sort_positions h l).
Proof.
  unfold isort_positions, sort_positions. apply exact_bind; [now right |]. intros order.
  destruct l as [| a [| b l]]; [now right | now right |].
  apply exact_bind; [| intros; now right]. apply exact_omap. intros m.
  apply exact_bind; [| intros; now right]. unfold iorder_index, order_index.
  apply exact_bind; [apply exact_ijones_rot |]. intros; now right.
Qed.
Lemma obind_assoc {A B C} (x : outcome A) (f : A -> outcome B) (g : B -> outcome C) :
  obind (obind x f) g = obind x (fun a => obind (f a) g).
Proof. destruct x; reflexivity. Qed.
Lemma exact_igeneral fuel h : exact (igeneral_positions DebugBuild fuel h) (general_positions fuel h).
Proof.
  unfold igeneral_positions, general_positions, generate_positions. rewrite obind_assoc.
  apply exact_bind; [apply exact_igenerate |]. intros l. apply exact_bind; [apply exact_isort |]. intros; now right.
Qed.
Lemma exact_iderive g : exact (iderive_full_sets DebugBuild g) (Done (derive_full_sets g)).
Proof. unfold iderive_full_sets, derive_full_sets. apply exact_omap_Done. intros v. apply exact_omap_Done. intros m. apply exact_isz_addv. Qed.
Lemma exact_ipure g : exact (ipure_txt DebugBuild g) (pure_txt g).
Proof.
  unfold ipure_txt, pure_txt. eapply exact_let; [apply exact_iderive |].
  apply exact_bind; [| intros; now right]. apply exact_omap. intros s. apply exact_omap. apply exact_ijones.
Qed.
Lemma exact_ipow_acc m n : forall acc, exact (ipow_acc DebugBuild m acc n) (Done (mat4_pow_acc m acc n)).
Proof.
  induction n as [| n IH]; intros acc; cbn [ipow_acc mat4_pow_acc]; [now right |].
  eapply exact_let; [apply exact_imat4 | apply IH].
Qed.
Lemma exact_ipowi m e : exact (ipowi DebugBuild m e) (powi m e).
Proof.
  unfold ipowi, powi. destruct (Z.compare_spec e 0) as [E | E | E]; [now right | |].
  - destruct (try_inverse m); [| now right]. eapply exact_let; [apply exact_i32 |].
    destruct (Z.to_nat (Z.abs e)) eqn:N; [lia |]. cbn [ipow_pos mat4_pow_pos]. apply exact_ipow_acc.
  - destruct (Z.to_nat e) eqn:N; [lia |]. cbn [ipow_pos mat4_pow_pos]. apply exact_ipow_acc.
Qed.

(** ** Where no intermediate result leaves the range, both builds compute the exact result *)
Section Fits.
Variable p : profile.
Lemma i32_fits z : -2147483648 <= z <= 2147483647 -> i32 p z = Done z.
Proof.
  intros H. unfold i32, in_i32. rewrite (proj2 (Z.leb_le _ _)) by lia. rewrite (proj2 (Z.leb_le _ _)) by lia. reflexivity.
Qed.
Lemma sm_mul A B a b : sm A a -> sm B b -> sm (A * B) (a * b).
Proof. unfold sm. intros. nia. Qed.
Lemma sm_add A B a b : sm A a -> sm B b -> sm (A + B) (a + b).
Proof. unfold sm. lia. Qed.
Lemma sm_weak A B z : sm A z -> A <= B -> sm B z. Proof. unfold sm. lia. Qed.
Lemma idot_fits A B a1 a2 a3 a4 b1 b2 b3 b4 :
  sm A a1 -> sm A a2 -> sm A a3 -> sm A a4 -> sm B b1 -> sm B b2 -> sm B b3 -> sm B b4 -> 4 * (A * B) <= 2147483647 ->
  idot p a1 a2 a3 a4 b1 b2 b3 b4 = Done (a1 * b1 + a2 * b2 + a3 * b3 + a4 * b4) /\
  sm (4 * (A * B)) (a1 * b1 + a2 * b2 + a3 * b3 + a4 * b4).
Proof.
  intros X1 X2 X3 X4 Y1 Y2 Y3 Y4 H.
  pose proof (sm_mul _ _ _ _ X1 Y1) as P1. pose proof (sm_mul _ _ _ _ X2 Y2) as P2.
  pose proof (sm_mul _ _ _ _ X3 Y3) as P3. pose proof (sm_mul _ _ _ _ X4 Y4) as P4. clear X1 X2 X3 X4 Y1 Y2 Y3 Y4.
  unfold idot, imul, iadd.
  set (q1 := a1 * b1) in *. set (q2 := a2 * b2) in *. set (q3 := a3 * b3) in *. set (q4 := a4 * b4) in *.
  set (N := A * B) in *. clearbody q1 q2 q3 q4 N. unfold sm in *.
  rewrite (i32_fits q1) by lia. cbn [obind]. rewrite (i32_fits q2) by lia. cbn [obind].
  rewrite (i32_fits (q2 + q1)) by lia. cbn [obind]. rewrite (i32_fits q3) by lia. cbn [obind].
  rewrite (i32_fits (q3 + (q2 + q1))) by lia. cbn [obind]. rewrite (i32_fits q4) by lia. cbn [obind].
  rewrite i32_fits by lia. split; [f_equal; lia | lia].
Qed.
Lemma icolumn_fits A B a b1 b2 b3 b4 : ssm A a -> sm B b1 -> sm B b2 -> sm B b3 -> sm B b4 -> 4 * (A * B) <= 2147483647 ->
  icolumn p a b1 b2 b3 b4 = Done (column a b1 b2 b3 b4) /\
  vsm (4 * (A * B)) (fst (column a b1 b2 b3 b4)) /\ sm (4 * (A * B)) (snd (column a b1 b2 b3 b4)).
Proof.
  intros (M & T & Bo & C) Y1 Y2 Y3 Y4 H. destruct M as (?&?&?&?&?&?&?&?&?), T as (?&?&?), Bo as (?&?&?).
  unfold icolumn, column, vsm. cbn [fst snd vx vy vz].
  destruct (idot_fits A B (m11 (rot a)) (m12 (rot a)) (m13 (rot a)) (vx (tra a)) b1 b2 b3 b4) as [-> ?]; auto.
  destruct (idot_fits A B (m21 (rot a)) (m22 (rot a)) (m23 (rot a)) (vy (tra a)) b1 b2 b3 b4) as [E2 ?]; auto.
  destruct (idot_fits A B (m31 (rot a)) (m32 (rot a)) (m33 (rot a)) (vz (tra a)) b1 b2 b3 b4) as [E3 ?]; auto.
  destruct (idot_fits A B (vx (bot a)) (vy (bot a)) (vz (bot a)) (cor a) b1 b2 b3 b4) as [E4 ?]; auto.
  cbn [obind]. rewrite E2. cbn [obind]. rewrite E3. cbn [obind]. rewrite E4. cbn [obind]. auto.
Qed.
Lemma imat4_fits A B a b : ssm A a -> ssm B b -> 4 * (A * B) <= 2147483647 ->
  imat4_mul p a b = Done (mat4_mul a b) /\ ssm (4 * (A * B)) (mat4_mul a b).
Proof.
  intros Ha (M & T & Bo & C) H. destruct M as (?&?&?&?&?&?&?&?&?), T as (?&?&?), Bo as (?&?&?).
  rewrite <- mat4_mul_columns. cbv zeta. unfold imat4_mul.
  destruct (icolumn_fits A B a (m11 (rot b)) (m21 (rot b)) (m31 (rot b)) (vx (bot b))) as (-> & (?&?&?) & ?); auto.
  destruct (icolumn_fits A B a (m12 (rot b)) (m22 (rot b)) (m32 (rot b)) (vy (bot b))) as (E2 & (?&?&?) & ?); auto.
  destruct (icolumn_fits A B a (m13 (rot b)) (m23 (rot b)) (m33 (rot b)) (vz (bot b))) as (E3 & (?&?&?) & ?); auto.
  destruct (icolumn_fits A B a (vx (tra b)) (vy (tra b)) (vz (tra b)) (cor b)) as (E4 & (?&?&?) & ?); auto.
  cbn [obind]. rewrite E2. cbn [obind]. rewrite E3. cbn [obind]. rewrite E4. cbn [obind].
  split; [reflexivity |]. unfold ssm, msm, vsm. cbn [rot tra bot cor vx vy vz m11 m12 m13 m21 m22 m23 m31 m32 m33].
  repeat match goal with |- _ /\ _ => split end; assumption.
Qed.
Lemma ivadd_fits N a b : vsm N a -> vsm N b -> 2 * N <= 2147483647 -> ivadd p a b = Done (vadd a b).
Proof.
  unfold vsm, sm. intros (?&?&?) (?&?&?) HN. unfold ivadd, iadd.
  rewrite (i32_fits (vx a + vx b)) by lia. cbn [obind]. rewrite (i32_fits (vy a + vy b)) by lia. cbn [obind].
  rewrite (i32_fits (vz a + vz b)) by lia. reflexivity.
Qed.
Lemma lift3_fits f g v : (forall z, z = vx v \/ z = vy v \/ z = vz v -> f z = Done (g z)) -> lift3 f v = Done (vmap g v).
Proof. intros H. unfold lift3, vmap. rewrite (H (vx v)), (H (vy v)), (H (vz v)) by tauto. reflexivity. Qed.
Lemma ipositive_mod_fits v : ipositive_mod p v = Done (positive_mod v).
Proof.
  unfold ipositive_mod, positive_mod, iadd. destruct (v <? 0); [| reflexivity].
  apply i32_fits. pose proof (rem12_bound v) as H. unfold rem12 in H. unfold STBN in *. lia.
Qed.
Lemma ivpm_fits v : lift3 (ipositive_mod p) v = Done (vmap positive_mod v).
Proof. apply lift3_fits. intros; apply ipositive_mod_fits. Qed.
Lemma isz_addv_fits a v : vsm 1000 (tra a) -> vsm 1000 v -> cor a = 1 -> isz_addv p a v = Done (sz_addv a v).
Proof.
  intros A V C. unfold isz_addv. rewrite (ivadd_fits 1000) by (assumption || lia). cbn [obind].
  unfold iadd. rewrite C, i32_fits by lia. cbn [obind]. unfold sz_addv. now rewrite C.
Qed.
Lemma isz_mul_fits A B a b : ssm A a -> ssm B b -> 4 * (A * B) <= 2147483647 -> isz_mul p a b = Done (sz_mul a b).
Proof. intros Ha Hb H. unfold isz_mul. destruct (imat4_fits A B a b Ha Hb H) as [-> _]. reflexivity. Qed.
(** rotation entries -1, 0, 1 and translation within -23..23 *)
Definition tame (m : seitz) : Prop := is_affine m /\ msm 1 (rot m) /\ vsm 23 (tra m).
Lemma tame_ssm m : tame m -> ssm 23 m.
Proof.
  intros ([B C] & R & T). unfold ssm. rewrite B, C. unfold msm, vsm, sm in *. cbn [vx vy vz]. lia.
Qed.
Lemma ishifted_fits v m : vsm 23 v -> tame m -> ishifted p v m = Done (shifted_matrix v m).
Proof.
  intros V T. pose proof (tame_ssm m T) as S. unfold ishifted.
  rewrite (lift3_fits _ Z.opp) by (unfold vsm, sm in V; intros z Hz; apply i32_fits; lia). cbn [obind].
  assert (S1 : forall w, vsm 23 w -> ssm 23 (aff I3 w)).
  { intros w W. unfold ssm, aff, I3, msm, vsm, sm in *. cbn [rot tra bot cor vx vy vz v0 m11 m12 m13 m21 m22 m23 m31 m32 m33]. lia. }
  destruct (imat4_fits 23 23 (aff I3 v) m) as [-> X]; [now apply S1 | assumption | lia |]. cbn [obind].
  destruct (imat4_fits (4 * (23 * 23)) 23 (mat4_mul (aff I3 v) m) (aff I3 (vmap Z.opp v))) as [-> Y]; [assumption | apply S1 | lia |].
  { unfold vsm, sm, vmap in *. cbn [vx vy vz]. lia. }
  cbn [obind]. rewrite ivpm_fits. cbn [obind]. rewrite ipositive_mod_fits. reflexivity.
Qed.
Lemma ishift_component_fits v : ishift_component p v = Done (shift_component v).
Proof.
  unfold ishift_component, shift_component, iadd. change (- (STBN - 1)) with (-11). change (v <? STBN) with (v <? 12).
  destruct (negb _); [| reflexivity]. apply i32_fits. pose proof (rem12_bound v) as H. unfold rem12 in H. unfold STBN in *. lia.
Qed.
Lemma iletter_mod_fits v : iletter_mod p v = Done (letter_mod v).
Proof.
  unfold iletter_mod, letter_mod, iadd. destruct (negb _); [| reflexivity]. cbv zeta.
  destruct (_ <? 0); [| reflexivity]. apply i32_fits. pose proof (rem12_bound v) as H. unfold rem12, STBN in *. lia.
Qed.
Lemma translation_vector_small t : vbetween 0 7 (translation_vector t).
Proof. destruct t; unfold vbetween; cbn; lia. Qed.
Lemma iletter_sum_fits l : forall acc, (forall n, n = Z.of_nat (length l) -> 
    0 <= vx acc /\ vx acc + 6 * n <= 2147483647 /\ 0 <= vy acc /\ vy acc + 6 * n <= 2147483647 /\
    0 <= vz acc /\ vz acc + 6 * n <= 2147483647) ->
  iletter_sum p acc l = Done (fold_left vadd (map translation_vector l) acc).
Proof.
  induction l as [| t l IH]; intros acc H; cbn [iletter_sum fold_left map]; [reflexivity |].
  pose proof (translation_vector_small t) as T. specialize (H _ eq_refl). cbn [List.length] in H. rewrite Nat2Z.inj_succ in H.
  unfold vbetween in T. unfold ivadd, iadd.
  rewrite (i32_fits (vx acc + _)) by lia. cbn [obind]. rewrite (i32_fits (vy acc + _)) by lia. cbn [obind].
  rewrite (i32_fits (vz acc + _)) by lia. cbn [obind]. apply IH. intros n ->. cbn [vx vy vz vadd]. lia.
Qed.
Definition letters (ms : msym) : list tsym := match ms_trs ms with Some l => l | None => [] end.
Definition few_letters (ms : msym) : Prop := 6 * Z.of_nat (length (letters ms)) <= 2147483647.
(** the matrix before the letters *)
Lemma base_tame ms r v : get_rotation_matrix ms = Some r -> set_transform ms r = Some v ->
  is_affine v /\ msm 1 (rot v) /\ vbetween 0 11 (tra v).
Proof.
  destruct ms as [mi f su d a tr]. unfold get_rotation_matrix, set_transform. cbn [ms_fold ms_diag ms_axis ms_sub].
  intros H K. destruct f, d, a; try discriminate; cbn in H; injection H as <-;
    destruct su; try discriminate; cbn in K; injection K as <-;
    (split; [split; reflexivity | unfold msm, sm, vbetween; cbn; lia]).
Qed.
Lemma set_inversion_tame m : tame m -> tame (set_inversion m).
Proof.
  intros ([B C] & R & T). split; [split; [reflexivity | exact C] |]. split; [| exact T].
  unfold set_inversion. cbn [rot]. unfold msm, sm, mmul, mopp, mmap, I3 in *.
  cbn [m11 m12 m13 m21 m22 m23 m31 m32 m33]. lia.
Qed.
Lemma iset_letters_fits ms v : few_letters ms -> is_affine v -> vbetween 0 11 (tra v) ->
  iset_letters p ms v = Done (set_translation_from_symbols ms v).
Proof.
  intros F [B C] T. unfold iset_letters, set_translation_from_symbols, few_letters, letters in *. destruct (ms_trs ms) as [l |]; [| reflexivity].
  rewrite iletter_sum_fits by (intros n ->; cbn [vx vy vz v0]; lia). cbn [obind]. fold (letter_sum l).
  rewrite (lift3_fits _ letter_mod) by (intros; apply iletter_mod_fits). cbn [obind].
  rewrite (ivadd_fits 23).
  - cbn [obind]. unfold iadd. rewrite C, i32_fits by lia. reflexivity.
  - unfold vbetween, vsm, sm in *. lia.
  - unfold vsm, sm, vmap; cbn [vx vy vz].
    pose proof (letter_mod_spec (vx (letter_sum l))). pose proof (letter_mod_spec (vy (letter_sum l))).
    pose proof (letter_mod_spec (vz (letter_sum l))). lia.
  - lia.
Qed.
Lemma set_letters_tame ms v : is_affine v -> msm 1 (rot v) -> vbetween 0 11 (tra v) -> tame (set_translation_from_symbols ms v).
Proof.
  intros [B C] R T. unfold set_translation_from_symbols. destruct (ms_trs ms) as [l |].
  - split; [split; assumption | split; [exact R |]]. cbn [tra]. unfold vsm, sm, vbetween, vmap, vadd in *; cbn [vx vy vz].
    pose proof (letter_mod_spec (vx (letter_sum l))). pose proof (letter_mod_spec (vy (letter_sum l))).
    pose proof (letter_mod_spec (vz (letter_sum l))). lia.
  - split; [split; assumption | split; [exact R |]]. unfold vsm, sm, vbetween in *. lia.
Qed.
Lemma seitz_matrix_tame ms m : seitz_matrix ms = Some m -> tame m.
Proof.
  unfold seitz_matrix. destruct (get_rotation_matrix ms) as [r |] eqn:G; [| discriminate].
  destruct (set_transform ms r) as [v |] eqn:S; [| discriminate]. cbv zeta. intros [= <-].
  destruct (base_tame ms r v G S) as (A & R & T). pose proof (set_letters_tame ms v A R T).
  destruct (ms_minus ms); [now apply set_inversion_tame | assumption].
Qed.
Lemma iset_inversion_fits m : tame m -> iset_inversion p m = Done (set_inversion m).
Proof.
  intros (A & R & T). unfold iset_inversion.
  destruct (imat4_fits 1 1 (aff (mopp I3) v0) (aff (rot m) v0)) as [-> _].
  - unfold ssm, msm, vsm, sm; cbn. lia.
  - unfold ssm, vsm, sm; cbn. repeat split; try lia; apply R.
  - lia.
  - cbn [obind]. rewrite mat4_mul_aff. reflexivity.
Qed.
Lemma iseitz_fits ms : few_letters ms -> iseitz_matrix p ms = Done (seitz_matrix ms).
Proof.
  intros F. unfold iseitz_matrix, seitz_matrix. destruct (get_rotation_matrix ms) as [r |] eqn:G; [| reflexivity].
  destruct (set_transform ms r) as [v |] eqn:S; [| reflexivity].
  destruct (base_tame ms r v G S) as (A & R & T). rewrite iset_letters_fits by assumption. cbn [obind]. cbv zeta.
  destruct (ms_minus ms); [| reflexivity]. rewrite iset_inversion_fits by (now apply set_letters_tame). reflexivity.
Qed.
Lemma itrace_fits m : ssm 1000 m -> itrace p m = Done (sz_trace m).
Proof.
  intros (M & _ & _ & C). unfold msm, sm in *. unfold itrace, iadd, isub, sz_trace, mtrace.
  rewrite (i32_fits (m11 (rot m) + m22 (rot m))) by lia. cbn [obind].
  rewrite (i32_fits (_ + m33 (rot m))) by lia. cbn [obind]. rewrite (i32_fits (_ + cor m)) by lia. cbn [obind].
  apply i32_fits. lia.
Qed.
End Fits.
