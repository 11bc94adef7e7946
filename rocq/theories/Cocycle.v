(** * Cocycle: the translations that go with a finite group of integer matrices, up to a shift
    of the origin (proof support for C86).

    A certificate for a finite matrix group lists generators, words for all elements, some
    relations, and a diagonalisation of the linear conditions that the relations put on the
    translations of the generators.  [cocycle_split]: if the certificate passes the check, then
    every choice of translations that satisfies the conditions is, after a shift of the
    origin, one of finitely many. *)
From Coq Require Import QArith.
From Verif Require Import Base Seitz Spec SpecType Algebra GenFacts GroupCheck TypeFacts TypeCount PropTypes.
Open Scope Z_scope.
Local Notation length := List.length.

(** ** Lists of integers as vectors *)
Fixpoint dot (a b : list Z) : Z := match a, b with x :: a, y :: b => x * y + dot a b | _, _ => 0 end.
Fixpoint addl (a b : list Z) : list Z :=
  match a, b with [], _ => b | _, [] => a | x :: a, y :: b => (x + y) :: addl a b end.
Definition scl (k : Z) (a : list Z) : list Z := map (Z.mul k) a.
Fixpoint comb (cs : list Z) (rows : list (list Z)) : list Z :=
  match cs, rows with c :: cs, r :: rows => addl (scl c r) (comb cs rows) | _, _ => [] end.
Fixpoint unitl (k : nat) : list Z := match k with O => [1] | S k => 0 :: unitl k end.
Lemma dot_nil_r a : dot a [] = 0. Proof. destruct a; reflexivity. Qed.
Lemma dot_addl : forall a b v, dot (addl a b) v = dot a v + dot b v.
Proof.
  induction a as [| x a IH]; intros [| y b] [| z v]; cbn [addl dot]; try lia. rewrite IH. ring.
Qed.
Lemma dot_scl k : forall a v, dot (scl k a) v = k * dot a v.
Proof. induction a as [| x a IH]; intros [| z v]; cbn [scl map dot]; try lia. fold (scl k a). rewrite IH. ring. Qed.
Lemma dot_unitl : forall k v, dot (unitl k) v = nth k v 0.
Proof.
  induction k as [| k IH]; intros [| z v]; try reflexivity.
  - change (1 * z + 0 = z). lia.
  - change (0 * z + dot (unitl k) v = nth k v 0). rewrite IH. lia.
Qed.
Lemma dot_zeros : forall n v, dot (repeat 0 n) v = 0.
Proof. induction n as [| n IH]; intros [| z v]; cbn [repeat dot]; auto. rewrite IH. ring. Qed.
Lemma dot_comb v : forall cs rows, dot (comb cs rows) v = dot cs (map (fun r => dot r v) rows).
Proof.
  induction cs as [| c cs IH]; intros [| r rows]; cbn [comb map dot]; auto.
  rewrite dot_addl, dot_scl, IH. reflexivity.
Qed.
Lemma dot_comm : forall a b, dot a b = dot b a.
Proof. induction a as [| x a IH]; intros [| y b]; cbn [dot]; auto. rewrite IH. ring. Qed.
Lemma nth_addl : forall a b k, nth k (addl a b) 0 = nth k a 0 + nth k b 0.
Proof.
  induction a as [| x a IH]; intros [| y b] [| k]; cbn [addl nth]; try lia. apply IH.
Qed.
Lemma nth_scl c : forall a k, nth k (scl c a) 0 = c * nth k a 0.
Proof. induction a as [| x a IH]; intros [| k]; cbn [scl map nth]; try lia. apply IH. Qed.
Lemma nth_comb k : forall cs rows, nth k (comb cs rows) 0 = dot cs (map (fun r => nth k r 0) rows).
Proof.
  induction cs as [| c cs IH]; intros [| r rows]; cbn [comb map dot]; try (destruct k; reflexivity).
  rewrite nth_addl, nth_scl, IH. reflexivity.
Qed.
(** the translation of generator number [i] *)
Definition part (tau : list Z) (i : nat) : vec3 := V3 (nth (3 * i) tau 0) (nth (3 * i + 1) tau 0) (nth (3 * i + 2) tau 0).
Lemma part_addl a b i : part (addl a b) i = vadd (part a i) (part b i).
Proof. unfold part. rewrite !nth_addl. reflexivity. Qed.
Lemma part_scl k a i : part (scl k a) i = vscale k (part a i).
Proof. unfold part. rewrite !nth_scl. reflexivity. Qed.
Lemma part_nil i : part [] i = v0.
Proof. unfold part. destruct (3 * i)%nat, (3 * i + 1)%nat, (3 * i + 2)%nat; reflexivity. Qed.

(** ** Words *)
Section Words.
Variable gens : list mat3.
Definition gen (i : nat) : mat3 := nth i gens I3.
Fixpoint ev (tau : list Z) (w : list nat) : op :=
  match w with [] => op_id | i :: w => op_comp (gen i, part tau i) (ev tau w) end.
Definition form3 := (list Z * list Z * list Z)%type.
Fixpoint evf (w : list nat) : mat3 * form3 :=
  match w with
  | [] => (I3, ([], [], []))
  | i :: w =>
      let '(P, (a, b, c)) := evf w in
      let g := gen i in
      let row k x y z := addl (unitl k) (addl (scl x a) (addl (scl y b) (scl z c))) in
      (mmul g P, (row (3 * i)%nat (m11 g) (m12 g) (m13 g), row (3 * i + 1)%nat (m21 g) (m22 g) (m23 g),
                  row (3 * i + 2)%nat (m31 g) (m32 g) (m33 g)))
  end.
Lemma ev_evf tau w : ev tau w = let '(P, (a, b, c)) := evf w in (P, V3 (dot a tau) (dot b tau) (dot c tau)).
Proof.
  induction w as [| i w IH]; cbn [ev evf]; [reflexivity |].
  destruct (evf w) as [P [[a b] c]]. cbv zeta. rewrite IH. unfold op_comp. cbn [fst snd]. f_equal.
  rewrite !dot_addl, !dot_scl, !dot_unitl. unfold part. generalize (gen i). intros [r11 r12 r13 r21 r22 r23 r31 r32 r33].
  unfold mvmul, vadd. mat_cbn. f_equal; ring.
Qed.
Lemma ev_matrix tau w : fst (ev tau w) = fst (evf w).
Proof. rewrite ev_evf. destruct (evf w) as [P [[a b] c]]. reflexivity. Qed.
Lemma ev_matrices tau rho w : fst (ev tau w) = fst (ev rho w).
Proof. now rewrite !ev_matrix. Qed.

(** ** Certificates *)
Inductive column_kind := Torsion (lambda : Z) (row : list Z) | Free (p : vec3).
Record column := Col { c_vec : list Z; c_form : list Z; c_kind : column_kind }.
Variable rels : list (list nat * list nat).
Variable e : Z.
Definition sub3 (a b : form3) : list (list Z) :=
  let '(a1, a2, a3) := a in let '(b1, b2, b3) := b in
  [addl a1 (scl (-1) b1); addl a2 (scl (-1) b2); addl a3 (scl (-1) b3)].
Definition rel_rows : list (list Z) := flat_map (fun r => sub3 (snd (evf (fst r))) (snd (evf (snd r)))) rels.
Definition column_ok (A : list (list Z)) (c : column) : bool :=
  match c_kind c with
  | Torsion l row => (0 <? l) && (12 mod l =? 0) && zlist_eqb (comb row A) (scl l (c_form c))
  | Free p => forallb (fun i => veqb (vscale e (part (c_vec c) i)) (vsub p (mvmul (gen i) p))) (seq 0 (length gens))
  end.
Definition complete_ok (cols : list column) : bool :=
  let N := (3 * length gens)%nat in
  forallb (fun k => zlist_eqb (comb (map (fun c => nth k (c_vec c) 0) cols) (map c_form cols)) (addl (unitl k) (repeat 0 N))) (seq 0 N).
Definition cert_ok (cols : list column) : bool :=
  (0 <? e) && forallb (fun r => meqb (fst (evf (fst r))) (fst (evf (snd r)))) rels
  && (let A := rel_rows in forallb (column_ok A) cols) && complete_ok cols.
(** the coefficients that are left after the shift *)
Definition col_choices (c : column) : list Z :=
  match c_kind c with
  | Torsion l _ => map (fun k => 12 / l * Z.of_nat k) (seq 0 (Z.to_nat l))
  | Free _ => [0]
  end.
Fixpoint choices (cols : list column) : list (list Z) :=
  match cols with [] => [[]] | c :: cols => flat_map (fun r => map (cons r) (choices cols)) (col_choices c) end.
Definition rep (cols : list column) (r : list Z) : list Z := comb r (map c_vec cols).

Lemma zlist_eqb_eq : forall a b, zlist_eqb a b = true -> a = b.
Proof.
  induction a as [| x a IH]; intros [| y b] H; cbn [zlist_eqb] in H; try discriminate; auto.
  destruct (Z.eqb_spec x y); [| discriminate]. f_equal; auto.
Qed.
Lemma rel_rows_zero tau : (forall r, In r rels -> vcong12 (snd (ev tau (fst r))) (snd (ev tau (snd r)))) ->
  forall row, In row rel_rows -> cong12 (dot row tau) 0.
Proof.
  intros H row I. apply in_flat_map in I. destruct I as (r & Ir & I). specialize (H r Ir).
  rewrite !ev_evf in H. destruct (evf (fst r)) as [P [[a b] c]], (evf (snd r)) as [Q [[a' b'] c']].
  cbn [snd sub3 In] in *. destruct H as (H1 & H2 & H3). cbn [vx vy vz] in *.
  assert (X : forall u v, cong12 (dot u tau) (dot v tau) -> cong12 (dot (addl u (scl (-1) v)) tau) 0).
  { intros u v (k & K). rewrite dot_addl, dot_scl. exists k. lia. }
  destruct I as [<- | [<- | [<- | []]]]; auto.
Qed.
Lemma dot_cong0 tau : forall row A, (forall a, In a A -> cong12 (dot a tau) 0) -> cong12 (dot row (map (fun r => dot r tau) A)) 0.
Proof.
  induction row as [| x row IH]; intros [| a A] H; cbn [map dot]; try (exists 0; lia).
  destruct (H a (or_introl eq_refl)) as (k & K). destruct (IH A (fun b I => H b (or_intror I))) as (k' & K').
  exists (x * k + k'). nia.
Qed.
Definition shifted (d : vec3) (p : vec3) (g : mat3) : Prop :=
  exists y, vsub (vscale e d) (vsub p (mvmul g p)) = vscale (12 * e) y.
Lemma split_columns tau : (forall row, In row rel_rows -> cong12 (dot row tau) 0) ->
  forall cols, (forall c, In c cols -> column_ok rel_rows c = true) ->
  exists r, In r (choices cols) /\ exists p, forall i, (i < length gens)%nat ->
    shifted (vsub (part (comb (map (fun c => dot (c_form c) tau) cols) (map c_vec cols)) i) (part (rep cols r) i)) p (gen i).
Proof.
  intros H. unfold rep. induction cols as [| c cols IH]; intros Ok.
  - exists []. split; [left; reflexivity |]. exists v0. intros i _. exists v0. cbn [map comb]. rewrite part_nil, mvmul_v0.
    generalize (gen i). mring.
  - destruct IH as (r & Ir & p & S). { intros c' I. apply Ok. right; exact I. }
    assert (Oc := Ok c (or_introl eq_refl)). unfold column_ok in Oc. destruct (c_kind c) as [l row | p0] eqn:Ek.
    + rewrite !andb_true_iff, Z.ltb_lt, Z.eqb_eq in Oc. destruct Oc as ((L & D) & E). apply zlist_eqb_eq in E.
      assert (C : cong12 (l * dot (c_form c) tau) 0).
      { rewrite <- dot_scl, <- E, dot_comb. apply dot_cong0, H. }
      apply Z.mod_divide in D; [| lia]. destruct D as (m & D).
      assert (Em : 12 / l = m) by (rewrite D; apply Z.div_mul; lia).
      destruct C as (k & C). set (s := dot (c_form c) tau) in *.
      assert (Es : s = m * k). { apply (Z.mul_reg_l _ _ l); [lia |]. rewrite Z.mul_assoc, (Z.mul_comm l m), <- D. lia. }
      exists ((m * (k mod l)) :: r). split.
      * cbn [choices]. apply in_flat_map. exists (m * (k mod l)). split; [| apply in_map; exact Ir].
        unfold col_choices. rewrite Ek. apply in_map_iff. exists (Z.to_nat (k mod l)).
        pose proof (Z.mod_pos_bound k l L). rewrite Z2Nat.id, Em by lia. split; [reflexivity |]. apply in_seq. lia.
      * exists p. intros i Hi. destruct (S i Hi) as (y & Y). cbn [map comb]. rewrite !part_addl, !part_scl. fold s.
        exists (vadd y (vscale (k / l) (part (c_vec c) i))).
        assert (K : m * k = m * (k mod l) + 12 * (k / l)). { rewrite (Z.div_mod k l) at 1 by lia. rewrite D. ring. }
        rewrite Es, K. revert Y. generalize (part (c_vec c) i) (part (comb (map (fun c => dot (c_form c) tau) cols) (map c_vec cols)) i)
          (part (comb r (map c_vec cols)) i) (k mod l) (k / l) (gen i). clear. intros v a b x z g Y.
        transitivity (vadd (vsub (vscale e (vsub a b)) (vsub p (mvmul g p))) (vscale (12 * e) (vscale z v))); [mring |].
        rewrite Y. mring.
    + exists (0 :: r). split.
      * cbn [choices]. apply in_flat_map. exists 0. split; [| apply in_map; exact Ir]. unfold col_choices. rewrite Ek. left; reflexivity.
      * set (s := dot (c_form c) tau). exists (vadd p (vscale s p0)). intros i Hi. destruct (S i Hi) as (y & Y). exists y.
        cbn [map comb]. rewrite !part_addl, !part_scl. fold s. rewrite forallb_forall in Oc.
        specialize (Oc i ltac:(apply in_seq; lia)). apply Algebra.veqb_eq in Oc. revert Y Oc.
        generalize (part (c_vec c) i) (part (comb (map (fun c => dot (c_form c) tau) cols) (map c_vec cols)) i)
          (part (comb r (map c_vec cols)) i) (gen i) s. clear. intros v a b g s Y Oc.
        transitivity (vadd (vsub (vscale e (vsub a b)) (vsub p (mvmul g p))) (vscale s (vsub (vscale e v) (vsub p0 (mvmul g p0))))); [mring |].
        rewrite Y, Oc. mring.
Qed.
Lemma cocycle_split cols tau : cert_ok cols = true ->
  (forall r, In r rels -> vcong12 (snd (ev tau (fst r))) (snd (ev tau (snd r)))) ->
  exists r, In r (choices cols) /\ exists p, forall i, (i < length gens)%nat ->
    shifted (vsub (part tau i) (part (rep cols r) i)) p (gen i).
Proof.
  intros C H. unfold cert_ok in C. cbv zeta in C. rewrite !andb_true_iff in C. destruct C as (((_ & _) & Co) & Cc).
  rewrite forallb_forall in Co. destruct (split_columns tau (rel_rows_zero tau H) cols Co) as (r & I & p & S).
  exists r. split; [exact I |]. exists p. intros i Hi. specialize (S i Hi).
  replace (part tau i) with (part (comb (map (fun c => dot (c_form c) tau) cols) (map c_vec cols)) i); [exact S |].
  assert (X : forall k, (k < 3 * length gens)%nat -> nth k (comb (map (fun c => dot (c_form c) tau) cols) (map c_vec cols)) 0 = nth k tau 0).
  { intros k Hk. unfold complete_ok in Cc. cbv zeta in Cc. rewrite forallb_forall in Cc. specialize (Cc k ltac:(apply in_seq; lia)).
    apply zlist_eqb_eq in Cc. rewrite nth_comb, map_map, dot_comm.
    transitivity (dot (comb (map (fun c => nth k (c_vec c) 0) cols) (map c_form cols)) tau).
    - rewrite dot_comb, map_map. reflexivity.
    - rewrite Cc, dot_addl, dot_zeros, dot_unitl. lia. }
  unfold part. rewrite !X by lia. reflexivity.
Qed.
(** the shift carries whole words along *)
Lemma shifted_words tau rho p : 0 < e ->
  (forall i, (i < length gens)%nat -> shifted (vsub (part tau i) (part rho i)) p (gen i)) ->
  forall w, (forall i, In i w -> (i < length gens)%nat) ->
  shifted (vsub (snd (ev tau w)) (snd (ev rho w))) p (fst (ev rho w)).
Proof.
  intros He S. induction w as [| i w IH]; intros Hw.
  - exists v0. cbn [ev op_id fst snd]. mring.
  - destruct IH as (y & Y); [intros j I; apply Hw; right; exact I |].
    destruct (S i (Hw i (or_introl eq_refl))) as (x & X). cbn [ev op_comp fst snd].
    unfold shifted. exists (vadd x (mvmul (gen i) y)). revert X Y.
    generalize (part tau i) (part rho i) (gen i) (snd (ev tau w)) (snd (ev rho w)) (fst (ev rho w)). clear.
    intros a b g t u A X Y.
    transitivity (vadd (vsub (vscale e (vsub a b)) (vsub p (mvmul g p))) (mvmul g (vsub (vscale e (vsub t u)) (vsub p (mvmul A p))))); [mring |].
    rewrite X, Y. mring.
Qed.
End Words.

(** ** Groups of operations of a primitive cell *)
(** closed under composition, inverses and whole cells, and whole cells are the only
    translations *)
Record primitive (K : op -> Prop) : Prop := {
  pr_one : K op_id;
  pr_comp : forall a b, K a -> K b -> K (op_comp a b);
  pr_inv : forall a, K a -> K (op_inv a);
  pr_cell : forall a b, K a -> op_same a b -> K b;
  pr_uni : forall a, K a -> unimodular (fst a);
  pr_tr : forall t, K (I3, t) -> vcong12 t v0
}.
Lemma primitive_unique K R t u : primitive K -> K (R, t) -> K (R, u) -> vcong12 t u.
Proof.
  intros P A B. assert (U := pr_uni K P _ B). cbn [fst] in U.
  assert (C := pr_comp K P _ _ A (pr_inv K P _ B)). unfold op_comp, op_inv in C. cbn [fst snd] in C.
  rewrite minv_r, mvmul_vopp, <- mvmul_mmul, minv_r, mvmul_I in C by exact U.
  apply (pr_tr K P) in C. apply vcong12_vsub0. eapply vcong12_trans; [| exact C].
  replace (vadd (vopp u) t) with (vsub t u) by mat_ring. apply vcong12_refl.
Qed.
Lemma change_moves U q e c c' : 0 < e -> unimodular U ->
  (forall m, In m c -> exists m', In m' c' /\ mmul U (fst m) = mmul (fst m') U /\
     exists y, vadd (vscale e (vsub (mvmul U (snd m)) (snd m'))) (vsub q (mvmul (fst m') q)) = vscale (12 * e) y) ->
  (forall m', In m' c' -> exists m, In m c /\ mmul U (fst m) = mmul (fst m') U /\
     exists y, vadd (vscale e (vsub (mvmul U (snd m)) (snd m'))) (vsub q (mvmul (fst m') q)) = vscale (12 * e) y) ->
  turns_into (Ch (mscale e U) q e) (pgroup c) (pgroup c').
Proof.
  intros E Un F B. split.
  - intros o (m & Hm & R & C). apply vcong12_scale in C. destruct C as (z & C).
    destruct (F m Hm) as (m' & Hm' & R' & y & Y).
    exists (fst m', vadd (snd m') (vscale 12 (vadd (mvmul U z) y))). split.
    + exists m'. split; auto. split; auto. cbn [snd]. apply vcong12_scale. exists (vadd (mvmul U z) y).
      generalize (vadd (mvmul U z) y). mat_ring.
    + apply carries_iff; auto. split; cbn [ch_M ch_q ch_d fst snd].
      * rewrite <- R, mmul_mscale_l, mmul_mscale_r, R'. reflexivity.
      * replace (snd o) with (vadd (snd m) (vscale 12 z)) by (rewrite <- C; mat_ring). clear - Y.
        rewrite mvmul_mscale. replace (vscale e (vadd (snd m') (vscale 12 (vadd (mvmul U z) y)))) with
          (vadd (vscale e (vadd (snd m') (vscale 12 (mvmul U z)))) (vscale (12 * e) y)) by mring.
        rewrite <- Y. mring.
  - intros o' (m' & Hm' & R & C). apply vcong12_scale in C. destruct C as (z & C).
    destruct (B m' Hm') as (m & Hm & R' & y & Y).
    exists (fst m, vadd (snd m) (vscale 12 (mvmul (minv U) (vsub z y)))). split.
    + exists m. split; auto. split; auto. cbn [snd]. apply vcong12_scale. exists (mvmul (minv U) (vsub z y)).
      generalize (mvmul (minv U) (vsub z y)). intros v. mring.
    + apply carries_iff; auto. split; cbn [ch_M ch_q ch_d fst snd].
      * rewrite <- R, mmul_mscale_l, mmul_mscale_r, R'. reflexivity.
      * replace (snd o') with (vadd (snd m') (vscale 12 z)) by (rewrite <- C; mat_ring).
        rewrite mvmul_mscale, mvmul_vadd, mvmul_vscale, <- (mvmul_mmul U), minv_r, mvmul_I, <- R by auto.
        clear - Y. replace (vscale e (vadd (mvmul U (snd m)) (vscale 12 (vsub z y)))) with
          (vsub (vadd (vscale e (mvmul U (snd m))) (vscale (12 * e) z)) (vscale (12 * e) y)) by mring.
        rewrite <- Y. mring.
Qed.
Definition words_ok (gens : list mat3) (words : list (list nat)) (G : list mat3) : bool :=
  forallb (fun w => forallb (fun i => Nat.ltb i (length gens)) w) words
  && forallb (fun R => existsb (fun w => meqb (fst (evf gens w)) R) words) G
  && forallb (fun g => existsb (meqb g) G) gens.
Definition rels_words_ok (gens : list mat3) (rels : list (list nat * list nat)) : bool :=
  forallb (fun r => forallb (fun i => Nat.ltb i (length gens)) (fst r ++ snd r)) rels.
Lemma choose_parts K (gens : list mat3) : (forall g, In g gens -> exists t, K (g, t)) ->
  exists tau, forall i, (i < length gens)%nat -> K (gen gens i, part tau i).
Proof.
  induction gens as [| g gens IH]; intros H.
  - exists []. intros i Hi. cbn [List.length] in Hi. lia.
  - destruct IH as (tau & T); [intros g' I; apply H; right; exact I |].
    destruct (H g (or_introl eq_refl)) as ([x y z] & G). exists (x :: y :: z :: tau).
    intros [| i] Hi; cbn [List.length] in Hi; [exact G |].
    specialize (T i ltac:(lia)). unfold gen in *. cbn [nth].
    replace (part (x :: y :: z :: tau) (S i)) with (part tau i); [exact T |].
    unfold part. replace (3 * S i)%nat with (S (S (S (3 * i)))) by lia.
    replace (S (S (S (3 * i))) + 1)%nat with (S (S (S (3 * i + 1)))) by lia.
    replace (S (S (S (3 * i))) + 2)%nat with (S (S (S (3 * i + 2)))) by lia. reflexivity.
Qed.
(** every group of a primitive cell with the given rotation parts is, up to the origin, one of
    the representatives *)
Lemma primitive_shifted K G gens words rels e cols : primitive K ->
  (forall R, In R G <-> exists t, K (R, t)) ->
  words_ok gens words G = true -> rels_words_ok gens rels = true -> cert_ok gens rels e cols = true ->
  exists r, In r (choices cols) /\ same_type K (pgroup (map (ev gens (rep cols r)) words)).
Proof.
  intros P HG W Rw C. unfold words_ok in W. rewrite !andb_true_iff in W. destruct W as ((W1 & W2) & W3).
  unfold rels_words_ok in Rw. rewrite forallb_forall in W1, W2, W3, Rw.
  destruct (choose_parts K gens) as (tau & T).
  { intros g I. apply HG. specialize (W3 g I). apply existsb_exists in W3. destruct W3 as (g' & I' & E).
    apply meqb_eq in E. subst. exact I'. }
  assert (Kw : forall w, (forall i, In i w -> (i < length gens)%nat) -> K (ev gens tau w)).
  { induction w as [| i w IH]; intros Hw; cbn [ev]; [apply (pr_one K P) |].
    apply (pr_comp K P); [apply T, Hw; left; reflexivity | apply IH; intros j I; apply Hw; right; exact I]. }
  assert (C' := C). unfold cert_ok in C'. cbv zeta in C'. rewrite !andb_true_iff in C'. destruct C' as (((He & Hr) & _) & _).
  apply Z.ltb_lt in He. rewrite forallb_forall in Hr.
  destruct (cocycle_split gens rels e cols tau C) as (r & Ir & p & S).
  { intros rl I. specialize (Hr rl I). apply meqb_eq in Hr. specialize (Rw rl I). rewrite forallb_forall in Rw.
    assert (A : forall i, In i (fst rl ++ snd rl) -> (i < length gens)%nat) by (intros i Ii; apply Nat.ltb_lt, Rw, Ii).
    assert (K1 := Kw (fst rl) (fun i Ii => A i (in_or_app _ _ _ (or_introl Ii)))).
    assert (K2 := Kw (snd rl) (fun i Ii => A i (in_or_app _ _ _ (or_intror Ii)))).
    rewrite <- !(ev_matrix gens tau) in Hr. destruct (ev gens tau (fst rl)) as [R1 t1], (ev gens tau (snd rl)) as [R2 t2].
    cbn [fst snd] in *. subst R2. exact (primitive_unique K R1 t1 t2 P K1 K2). }
  exists r. split; [exact Ir |]. set (rho := rep cols r) in *.
  assert (Sw : forall w, In w words -> shifted e (vsub (snd (ev gens tau w)) (snd (ev gens rho w))) p (fst (ev gens rho w))).
  { intros w I. apply shifted_words; [exact He | exact S |]. specialize (W1 w I). rewrite forallb_forall in W1.
    intros i Ii. apply Nat.ltb_lt, W1, Ii. }
  assert (Kg : forall o, K o <-> pgroup (map (ev gens tau) words) o).
  { intros [R t]. split.
    - intros Ko. assert (I : In R G) by (apply HG; eauto). specialize (W2 R I). apply existsb_exists in W2.
      destruct W2 as (w & Iw & E). apply meqb_eq in E. exists (ev gens tau w). split; [apply in_map, Iw |].
      rewrite ev_matrix. split; [exact E |]. specialize (W1 w Iw). rewrite forallb_forall in W1.
      assert (K1 := Kw w (fun i Ii => proj1 (Nat.ltb_lt _ _) (W1 i Ii))).
      assert (E' := ev_matrix gens tau w). destruct (ev gens tau w) as [R1 t1]. cbn [fst snd] in *.
      rewrite E', E in K1. exact (primitive_unique K R t t1 P Ko K1).
    - intros (m & I & R1 & E). apply in_map_iff in I. destruct I as (w & <- & Iw).
      specialize (W1 w Iw). rewrite forallb_forall in W1.
      apply (pr_cell K P (ev gens tau w)); [exact (Kw w (fun i Ii => proj1 (Nat.ltb_lt _ _) (W1 i Ii))) |].
      split; [exact R1 | apply vcong12_sym, E]. }
  assert (Tn : turns_into (Ch (mscale e I3) (vopp p) e) (pgroup (map (ev gens tau) words)) (pgroup (map (ev gens rho) words))).
  { assert (X : forall w, In w words -> mmul I3 (fst (ev gens tau w)) = mmul (fst (ev gens rho w)) I3 /\
      exists y, vadd (vscale e (vsub (mvmul I3 (snd (ev gens tau w))) (snd (ev gens rho w)))) (vsub (vopp p) (mvmul (fst (ev gens rho w)) (vopp p))) = vscale (12 * e) y).
    { intros w I. split; [rewrite mmul_I_l, mmul_I_r; apply ev_matrices |].
      destruct (Sw w I) as (y & Y). exists y. rewrite <- Y, mvmul_I. generalize (snd (ev gens tau w)) (snd (ev gens rho w)) (fst (ev gens rho w)).
      clear. mring. }
    apply change_moves; [exact He | apply unimodular_I | |].
    - intros m I. apply in_map_iff in I. destruct I as (w & <- & Iw). exists (ev gens rho w). split; [apply in_map, Iw | apply X, Iw].
    - intros m I. apply in_map_iff in I. destruct I as (w & <- & Iw). exists (ev gens tau w). split; [apply in_map, Iw | apply X, Iw]. }
  exists (Ch (mscale e I3) (vopp p) e). split; [| split].
  - split; cbn [ch_d ch_M]; [exact He |]. rewrite mdet_mscale, mdet_I. nia.
  - unfold keeps_handedness. cbn [ch_M]. rewrite mdet_mscale, mdet_I. nia.
  - destruct Tn as [T1 T2]. split.
    + intros o Ko. apply T1, Kg, Ko.
    + intros o' Go. destruct (T2 o' Go) as (o & A & B). exists o. split; [apply Kg, A | exact B].
Qed.
