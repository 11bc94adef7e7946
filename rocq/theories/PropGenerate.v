(** * PropGenerate: properties C25-C30 (and C33, C34, C36 on full sets). *)
From Coq Require Import Permutation Sorted.
From Verif Require Import Base Notations Parser Seitz F64 Jones Rotations Tables Generate Positions
  Spec SpecHall Algebra PropSeitz PropSymbols GenFacts.
Open Scope Z_scope.
Local Notation length := List.length.

(** ** Support: outcomes *)
Lemma obind_Done {A B} (x : outcome A) (f : A -> outcome B) b :
  obind x f = Done b -> exists a, x = Done a /\ f a = Done b.
Proof. destruct x; simpl; try discriminate. eauto. Qed.
Lemma omap_Done {A B} (f : A -> outcome B) l r :
  omap f l = Done r -> Forall2 (fun x y => f x = Done y) l r.
Proof.
  revert r. induction l as [| x l IH]; simpl; intros r H.
  - injection H as <-. constructor.
  - apply obind_Done in H. destruct H as (y & Hy & H). apply obind_Done in H.
    destruct H as (ys & Hys & H). injection H as <-. constructor; auto.
Qed.
Lemma omap_all_Done {A B} (f : A -> outcome B) l :
  (forall x, In x l -> exists y, f x = Done y) -> exists r, omap f l = Done r.
Proof.
  induction l as [| x l IH]; simpl; intros H; [eauto |].
  destruct (H x) as [y Hy]; auto. destruct IH as [r Hr]; [auto |].
  rewrite Hy. simpl. rewrite Hr. simpl. eauto.
Qed.

(** ** Support: generators *)
Lemma op_conj_formula v o : op_conj v o = (fst o, vadd (snd o) (vsub v (mvmul (fst o) v))).
Proof.
  destruct o as [R t]. unfold op_conj, op_shift, op_comp; cbn [fst snd]. f_equal; mat_ring.
Qed.
Lemma seitz_matrix_affine ms m : seitz_matrix ms = Some m -> is_affine m /\ unimodular (rot m).
Proof.
  intros H. destruct (C06_matrix_of_symbol ms m H) as (A & D & _). split; auto.
  unfold unimodular. rewrite D. destruct (ms_minus ms); auto.
Qed.
Lemma hall_gens_unimodular h o : hall_gens h o -> unimodular (fst o).
Proof.
  intros [(v & _ & ->) | [(_ & ->) | (ms & m & _ & Hm & ->)]].
  - left; reflexivity.
  - right; reflexivity.
  - rewrite op_conj_formula. apply (seitz_matrix_affine ms m Hm).
Qed.
Lemma generated_unimodular (gens : op -> Prop) o :
  (forall g, gens g -> unimodular (fst g)) -> generated gens o -> unimodular (fst o).
Proof.
  intros H G. induction G as [| g Hg | a b Ga IHa Gb IHb | a b Ga IHa E0 | a b Ga IHa E0].
  - apply unimodular_I.
  - auto.
  - cbn [op_comp fst]. apply unimodular_mmul; auto.
  - assert (E : mmul (fst a) (fst b) = I3) by exact (f_equal fst E0).
    rewrite (mmul_right_inverse_unique _ _ IHa E). apply unimodular_minv; auto.
  - destruct E0 as [<- _]. auto.
Qed.
Lemma hall_group_unimodular h o : hall_group h o -> unimodular (fst o).
Proof. apply generated_unimodular, hall_gens_unimodular. Qed.
Lemma hall_group_lat h v : in_lat (ls_char (h_lat h)) v -> hall_group h (I3, v).
Proof.
  intros (u & Hu & E). apply gen_cell with (I3, u).
  - apply gen_base. left. exists u. auto.
  - split; simpl; auto using vcong12_sym.
Qed.
(** multiplying an element of the group by a centring translation stays in the group *)
Lemma hall_group_coset h R t t' :
  hall_group h (R, t) -> in_lat (ls_char (h_lat h)) (vsub t' t) -> hall_group h (R, t').
Proof.
  intros G L. assert (H := gen_comp _ _ _ (hall_group_lat h _ L) G).
  unfold op_comp in H; cbn [fst snd] in H. rewrite mmul_I_l, mvmul_I in H.
  replace (vadd t (vsub t' t)) with t' in H by mat_ring. exact H.
Qed.

Lemma generators_spec h gs : generators h = Done gs ->
  (forall g, In g gs -> is_affine g /\ vlow (tra g) /\ hall_group h (op_of g)) /\
  (forall o, hall_gens h o -> exists g, In g gs /\ rot g = fst o) /\
  (exists rest, gs = aff I3 v0 :: rest) /\
  (forall ms, In ms (h_syms h) -> exists m, seitz_matrix ms = Some m).
Proof.
  unfold generators. intros H. apply obind_Done in H. destruct H as (ss & Hss & H). injection H as <-.
  apply omap_Done in Hss.
  assert (Sy : forall g, In g ss -> exists ms m, In ms (h_syms h) /\ seitz_matrix ms = Some m /\ g = shifted_matrix (h_shift h) m).
  { clear -Hss. induction Hss as [| ms g l r E F IH]; intros x Hx; [destruct Hx |].
    destruct Hx as [<- | Hx].
    - unfold symbol_generator in E. destruct (seitz_matrix ms) as [m|] eqn:M; [| discriminate].
      injection E as <-. exists ms, m. simpl; auto.
    - destruct (IH x Hx) as (ms' & m & ? & ? & ?). exists ms', m. simpl; auto. }
  assert (Sy2 : forall ms, In ms (h_syms h) -> exists m, seitz_matrix ms = Some m /\ In (shifted_matrix (h_shift h) m) ss).
  { clear -Hss. induction Hss as [| ms g l r E F IH]; intros x Hx; [destruct Hx |].
    destruct Hx as [<- | Hx].
    - unfold symbol_generator in E. destruct (seitz_matrix ms) as [m|] eqn:M; [| discriminate].
      injection E as <-. exists m. simpl; auto.
    - destruct (IH x Hx) as (m & ? & ?). exists m. simpl; auto. }
  split; [| split; [| split]].
  - intros g Hg. apply in_app_iff in Hg. destruct Hg as [Hg | Hg].
    + apply C24_lattice_generators in Hg. destruct Hg as (v & Hv & [-> | [Hm ->]]).
      * split; [apply aff_affine | split].
        -- apply (vlow_between 0 12); [lia | apply (translations_range _ _ Hv)].
        -- apply hall_group_lat, in_lat_in, Hv.
      * split; [apply aff_affine | split].
        -- apply (vlow_between 0 12); [lia | apply (translations_range _ _ Hv)].
        -- apply (hall_group_coset h (mopp I3) v0 v).
           ++ apply gen_base. right; left. auto.
           ++ simpl. replace (vsub v v0) with v by mat_ring. apply in_lat_in, Hv.
    + destruct (Sy g Hg) as (ms & m & Hms & Hm & ->). destruct (seitz_matrix_affine ms m Hm) as [A _].
      rewrite (affine_aff m A), shifted_matrix_aff. split; [apply aff_affine | split].
      * cbn [tra aff]. unfold vlow, vmap; cbn [vx vy vz].
        set (w := vadd _ _). pose proof (positive_mod_range (vx w)).
        pose proof (positive_mod_range (vy w)). pose proof (positive_mod_range (vz w)). lia.
      * apply gen_cell with (op_conj (h_shift h) (op_of m)).
        -- apply gen_base. right; right. exists ms, m. auto.
        -- rewrite op_conj_formula. split; simpl; auto. apply vcong12_sym, vcong12_pm.
  - intros o [(v & Hv & ->) | [(Hmi & ->) | (ms & m & Hms & Hm & ->)]].
    + exists (aff I3 v). split; auto. apply in_app_iff; left. apply C24_lattice_generators. eauto.
    + exists (aff (mopp I3) v0). split; auto. apply in_app_iff; left. apply C24_lattice_generators.
      exists v0. split; auto. apply C24_centring_group.
    + destruct (Sy2 ms Hms) as (m' & Hm' & Hin). assert (m' = m) by congruence. subst m'.
      exists (shifted_matrix (h_shift h) m). split; [apply in_app_iff; auto |].
      destruct (seitz_matrix_affine ms m Hm) as [A _]. rewrite op_conj_formula.
      rewrite (affine_aff m A), shifted_matrix_aff. reflexivity.
  - destruct (h_lat h) as [mi lt]. unfold lattice_seitz; cbn [ls_minus ls_char].
    destruct mi, lt; cbn; eexists; reflexivity.
  - intros ms Hms. destruct (Sy2 ms Hms) as (m & Hm & _). eauto.
Qed.

(** products followed by a centring translation stay in the group *)
Lemma hall_product_closed h :
  product_closed (ls_char (h_lat h)) (fun m => hall_group h (op_of m)).
Proof.
  intros i j x Ai Aj Gi Gj (t & -> & L & _).
  apply (hall_group_coset h _ (tra (sz_mul i j))); [| exact L].
  apply gen_cell with (op_comp (op_of i) (op_of j)); [apply gen_comp; auto |].
  rewrite (affine_aff i Ai), (affine_aff j Aj), sz_mul_aff. split; simpl; auto.
  apply vcong12_sym, vcong12_rem.
Qed.

(** *** pigeonhole and finite monoids of unimodular matrices *)
Lemma nodup_or_dup {A} (eqd : forall a b : A, {a = b} + {a <> b}) (f : nat -> A) n :
  NoDup (map f (seq 0 n)) \/ exists i j, (i < j < n)%nat /\ f i = f j.
Proof.
  induction n as [| n IH]; [left; constructor |].
  destruct IH as [IH | (i & j & H & E)]; [| right; exists i, j; split; [lia | auto]].
  destruct (in_dec eqd (f n) (map f (seq 0 n))) as [D | D].
  - right. apply in_map_iff in D. destruct D as (i & E & Hi). apply in_seq in Hi.
    exists i, n. split; [lia | auto].
  - left. rewrite seq_S, map_app. simpl. apply Permutation_NoDup with (f n :: map f (seq 0 n)).
    + apply Permutation_cons_append.
    + constructor; auto.
Qed.
Lemma pigeonhole {A} (eqd : forall a b : A, {a = b} + {a <> b}) (f : nat -> A) (l : list A) :
  (forall n, In (f n) l) -> exists i j, (i < j)%nat /\ f i = f j.
Proof.
  intros H. destruct (nodup_or_dup eqd f (S (length l))) as [D | (i & j & K & E)].
  - exfalso. assert (L := fun l' => @NoDup_incl_length _ _ l' D).
    assert (I : incl (map f (seq 0 (S (length l)))) l).
    { intros x Hx. apply in_map_iff in Hx. destruct Hx as (n & <- & _). apply H. }
    specialize (L _ I). rewrite map_length, seq_length in L. lia.
  - exists i, j. split; [lia | auto].
Qed.
Lemma mpow_add M i j : mpow M (i + j) = mmul (mpow M i) (mpow M j).
Proof. induction i; simpl; [rewrite mmul_I_l; auto |]. rewrite IHi, mmul_assoc; auto. Qed.
Lemma mpow_unimodular M n : unimodular M -> unimodular (mpow M n).
Proof. intros U. induction n; simpl; [apply unimodular_I | apply unimodular_mmul; auto]. Qed.
Lemma finite_powers_order M (S : list mat3) :
  unimodular M -> (forall n, In (mpow M n) S) -> finite_order M.
Proof.
  intros U H. destruct (pigeonhole mat3_eq_dec (mpow M) S H) as (i & j & L & E).
  exists (j - i)%nat. split; [lia |].
  replace j with (i + (j - i))%nat in E by lia. rewrite mpow_add in E.
  symmetry. apply (mmul_cancel_l (mpow M i)); [apply mpow_unimodular; auto |].
  rewrite mmul_I_r. exact E.
Qed.

(** ** What a finished generation returns, before sorting *)
Lemma generate_unsorted_spec fuel h l :
  generate_unsorted fuel h = Done l ->
  exists mp, Inv (ls_char (h_lat h)) (GS l mp) /\
    (forall m, In m l -> hall_group h (op_of m)) /\
    (exists rest, l = sz_identity :: rest) /\
    (forall i j, In i l -> In j l -> exists m, In m l /\ rot m = mmul (rot i) (rot j)) /\
    (forall o, hall_gens h o -> exists m, In m l /\ rot m = fst o) /\
    all_symbols_valid h.
Proof.
  unfold generate_unsorted. intros H. apply obind_Done in H. destruct H as (n & _ & H).
  destruct (capacity_limit <? n); [discriminate |].
  apply obind_Done in H. destruct H as (gs & Hgs & H).
  destruct (generators_spec h gs Hgs) as (G1 & G2 & (rest & G3) & G4).
  set (lat := ls_char (h_lat h)) in *.
  destruct (add_all_spec lat gs (GS [] []) (Inv_empty lat)) as (I & X & C).
  { intros g Hg. destruct (G1 g Hg) as (? & ? & _). auto. }
  set (st := add_all (translations lat) (GS [] []) gs) in *.
  assert (Hst : forall m, In m (g_list st) -> hall_group h (op_of m)).
  { destruct X as (ext & E & He). rewrite E. simpl. intros m Hm.
    destruct (He m Hm) as (g & Hg & t & -> & L & _). destruct (G1 g Hg) as (_ & _ & K).
    apply (hall_group_coset h _ (tra g)); auto. }
  assert (Hid : exists r, g_list st = sz_identity :: r).
  { unfold st. rewrite G3. unfold add_all; cbn [fold_left].
    assert (E : exists mp, snd (add_to_list (translations lat) (GS [] []) (aff I3 v0)) = GS [sz_identity] mp).
    { eexists. unfold add_to_list; cbn [g_map map_get g_list snd]. cbn [rot aff].
      replace (minimal_repr (translations lat) (tra (aff I3 v0))) with v0 by (destruct lat; reflexivity).
      reflexivity. }
    destruct E as (mp & ->).
    assert (Q : forall gs st0 a, (exists r, g_list st0 = a :: r) ->
              exists r, g_list (fold_left (fun s m => snd (add_to_list (translations lat) s m)) gs st0) = a :: r).
    { clear. induction gs as [| g gs IH]; intros st0 a (r & E); [simpl; eauto |]. cbn [fold_left]. apply IH.
      unfold add_to_list. destruct (map_get _ _); [destruct (forallb _ _); [destruct (set_mem _ _) |] |];
        cbn [snd g_list]; rewrite E; simpl; eauto. }
    apply Q. simpl; eauto. }
  destruct (gen_loop_spec lat (fun m => hall_group h (op_of m)) fuel st l I (hall_product_closed h) Hst H)
    as (mp & R1 & R2 & (ext & R3) & R4).
  exists mp. split; auto. split; auto.
  assert (Hl : exists rest, l = sz_identity :: rest).
  { destruct Hid as (r & Hid). rewrite R3, Hid. simpl. eauto. }
  split; auto. split; [| split].
  - destruct Hl as (r & ->). cbn [skipn] in R4.
    intros i j [<- | Hi] Hj.
    + exists j. split; auto. simpl. rewrite mmul_I_l; auto.
    + destruct Hj as [<- | Hj].
      * exists i. split; [simpl; auto |]. simpl. rewrite mmul_I_r; auto.
      * apply R4; auto.
  - intros o Ho. destruct (G2 o Ho) as (g & Hg & E). destruct (C g Hg) as (m & Hm & Em).
    exists m. split; [rewrite R3; apply in_app_iff; auto | congruence].
  - intros ms Hms. destruct (G4 ms Hms) as (m & ->). discriminate.
Qed.

(** ** C30  Sorting *)
(** position of an operation in an order table: its rotation text is the table's entry
    number [i] and no earlier one *)
Definition rank (order : list string) (m : seitz) (i : nat) : Prop :=
  exists s, jones_rot m = Done s /\ nth_error order i = Some s /\
            forall j, (j < i)%nat -> nth_error order j <> Some s.
(** boolean form, used to state stability *)
Definition rank_is (order : list string) (i : nat) (m : seitz) : bool :=
  match order_index order m with Done k => Nat.eqb k i | _ => false end.
(** the table chosen by the first matrix symbol *)
Definition table_for (ms : msym) : list string :=
  if nfold_eqb (ms_fold ms) F6 then order_24
  else if nfold_eqb (ms_fold ms) F3 then
    (if diag_eqb (ms_diag ms) Asterisk then order_12 else order_24)
  else order_48.

Lemma position_first {A} (p : A -> bool) l i :
  position p l = Some i <-> exists x, nth_error l i = Some x /\ p x = true /\
    forall j y, (j < i)%nat -> nth_error l j = Some y -> p y = false.
Proof.
  revert i. induction l as [| x l IH]; intros i; simpl.
  - split; [discriminate |]. intros (y & H & _). destruct i; discriminate.
  - destruct (p x) eqn:E.
    + split.
      * intros H. injection H as <-. exists x. split; auto. split; auto. intros; lia.
      * intros (y & H & Hy & Hf). destruct i; auto. exfalso.
        specialize (Hf O x ltac:(lia) eq_refl). congruence.
    + split.
      * destruct (position p l) as [k|] eqn:K; [| discriminate]. intros H. injection H as <-.
        destruct (proj1 (IH k) eq_refl) as (y & H1 & H2 & H3). exists y. split; auto. split; auto.
        intros [| j] z Hj Hz; [simpl in Hz; congruence |]. eapply H3; [| exact Hz]. lia.
      * intros (y & H & Hy & Hf). destruct i as [| i]; [simpl in H; congruence |].
        assert (K : position p l = Some i).
        { apply IH. exists y. split; auto. split; auto. intros j z Hj Hz. apply (Hf (S j) z); [lia | auto]. }
        rewrite K. reflexivity.
Qed.
Lemma order_index_rank order m i : order_index order m = Done i <-> rank order m i.
Proof.
  unfold order_index, rank. destruct (jones_rot m) as [s | w |]; simpl.
  - split.
    + intros H. destruct (position (String.eqb s) order) as [k|] eqn:E; [| discriminate].
      injection H as <-. apply position_first in E. destruct E as (x & E1 & E2 & E3).
      apply String.eqb_eq in E2. subst x. exists s. split; auto. split; auto.
      intros j Hj C. specialize (E3 j s Hj C). rewrite String.eqb_refl in E3. discriminate.
    + intros (s' & E & H1 & H2). injection E as <-.
      assert (K : position (String.eqb s) order = Some i).
      { apply position_first. exists s. split; auto. split; [apply String.eqb_refl |].
        intros j y Hj Hy. apply String.eqb_neq. intros ->. exact (H2 j Hj Hy). }
      rewrite K. reflexivity.
  - split; [discriminate | intros (s & E & _); discriminate].
  - split; [discriminate | intros (s & E & _); discriminate].
Qed.
Lemma insert_perm {A} (x : nat * A) l : Permutation (x :: l) (insert_sorted x l).
Proof.
  induction l as [| y l IH]; simpl; auto. destruct (Nat.ltb _ _); auto.
  eapply perm_trans; [apply perm_swap |]. auto.
Qed.
Lemma sort_perm {A} (l : list (nat * A)) : Permutation l (stable_sort l).
Proof.
  induction l; simpl; auto. eapply perm_trans; [| apply insert_perm]. auto.
Qed.
Definition key_le {A} (a b : nat * A) : Prop := (fst a <= fst b)%nat.
Lemma insert_sorted_sorted {A} (x : nat * A) l :
  StronglySorted key_le l -> StronglySorted key_le (insert_sorted x l).
Proof.
  induction l as [| y l IH]; intros H; simpl.
  - constructor; constructor.
  - inversion H; subst. destruct (Nat.ltb_spec (fst y) (fst x)).
    + constructor; auto. apply Forall_forall. intros z Hz.
      apply (Permutation_in _ (Permutation_sym (insert_perm x l))) in Hz.
      destruct Hz as [<- | Hz]; [unfold key_le; lia |].
      rewrite Forall_forall in H3. auto.
    + constructor; auto. constructor; [unfold key_le; lia |].
      apply Forall_forall. intros z Hz. rewrite Forall_forall in H3. specialize (H3 z Hz).
      unfold key_le in *. lia.
Qed.
Lemma stable_sort_sorted {A} (l : list (nat * A)) : StronglySorted key_le (stable_sort l).
Proof. induction l; simpl; [constructor | apply insert_sorted_sorted; auto]. Qed.
Lemma insert_filter {A} (x : nat * A) l k :
  filter (fun y => Nat.eqb (fst y) k) (insert_sorted x l)
  = filter (fun y => Nat.eqb (fst y) k) (x :: l).
Proof.
  induction l as [| y l IH]; [reflexivity |]. cbn [insert_sorted].
  destruct (Nat.ltb_spec (fst y) (fst x)); [| reflexivity].
  cbn [filter] in *. rewrite IH.
  destruct (Nat.eqb_spec (fst y) k), (Nat.eqb_spec (fst x) k); try reflexivity. lia.
Qed.
Lemma stable_sort_filter {A} (l : list (nat * A)) k :
  filter (fun y => Nat.eqb (fst y) k) (stable_sort l) = filter (fun y => Nat.eqb (fst y) k) l.
Proof.
  induction l as [| x l IH]; [reflexivity |]. cbn [stable_sort fold_right].
  fold (stable_sort l). rewrite insert_filter. cbn [filter]. rewrite IH. reflexivity.
Qed.

Lemma keyed_spec order l kl :
  omap (fun m => obind (order_index order m) (fun i => Done (i, m))) l = Done kl ->
  map snd kl = l /\ Forall (fun p => order_index order (snd p) = Done (fst p)) kl.
Proof.
  intros H. apply omap_Done in H. induction H as [| m p l kl E F IH]; [split; constructor |].
  apply obind_Done in E. destruct E as (i & E & K). injection K as <-. destruct IH as [I1 I2].
  split; [simpl; congruence | constructor; auto].
Qed.

Theorem C30_sort_stable_reordering :
  forall h ms rest l l', h_syms h = ms :: rest -> sort_positions h l = Done l' ->
    Permutation l l' /\
    (forall i, filter (rank_is (table_for ms) i) l' = filter (rank_is (table_for ms) i) l) /\
    StronglySorted (fun a b => forall i j, rank (table_for ms) a i -> rank (table_for ms) b j -> (i <= j)%nat) l'.
Proof.
  intros h ms rest l l' Hs H. unfold sort_positions in H. apply obind_Done in H.
  destruct H as (order & Ho & H). unfold get_matrice_order in Ho. rewrite Hs in Ho.
  assert (Eo : order = table_for ms).
  { injection Ho as <-. unfold table_for. destruct (ms_fold ms), (ms_diag ms); reflexivity. }
  subst order. clear Ho Hs.
  destruct l as [| a [| b l0]].
  - injection H as <-. repeat split; auto. constructor.
  - injection H as <-. repeat split; auto. constructor; [constructor |]. constructor.
  - set (l := a :: b :: l0) in *. apply obind_Done in H. destruct H as (kl & Hk & H).
    injection H as <-. destruct (keyed_spec _ _ _ Hk) as [K1 K2]. split; [| split].
    + rewrite <- K1. apply Permutation_map, sort_perm.
    + intros i. rewrite <- K1 at 1.
      assert (Q : forall ys, Forall (fun p => order_index (table_for ms) (snd p) = Done (fst p)) ys ->
                filter (rank_is (table_for ms) i) (map snd ys)
                = map snd (filter (fun y => Nat.eqb (fst y) i) ys)).
      { clear. induction ys as [| y ys IH]; intros F; [reflexivity |]. inversion F; subst.
        cbn [map filter]. unfold rank_is at 1. rewrite H1. destruct (Nat.eqb (fst y) i); simpl; rewrite IH; auto. }
      rewrite !Q; auto.
      * rewrite stable_sort_filter. reflexivity.
      * eapply Permutation_Forall; [apply sort_perm | exact K2].
    + assert (F : Forall (fun p => order_index (table_for ms) (snd p) = Done (fst p)) (stable_sort kl)).
      { eapply Permutation_Forall; [apply sort_perm | exact K2]. }
      assert (S := stable_sort_sorted kl). revert F S. generalize (stable_sort kl). clear.
      induction l as [| y ys IH]; intros F S; simpl; constructor.
      * inversion F; inversion S; subst; auto.
      * inversion F; inversion S; subst. apply Forall_forall. intros z Hz.
        apply in_map_iff in Hz. destruct Hz as (p & <- & Hp). intros i j Ri Rj.
        apply order_index_rank in Ri, Rj. rewrite Forall_forall in *.
        specialize (H2 p Hp). specialize (H6 p Hp). unfold key_le in H6. congruence || (assert (fst y = i) by congruence; assert (fst p = j) by congruence; lia).
Qed.
Theorem C30_sort_panics_iff :
  forall h ms rest l, h_syms h = ms :: rest ->
    ((exists w, sort_positions h l = Panic w) <->
     (2 <= length l)%nat /\ exists m, In m l /\ forall i, ~ rank (table_for ms) m i).
Proof.
  intros h ms rest l Hs. unfold sort_positions, get_matrice_order. rewrite Hs. cbn [obind].
  assert (Eo : match ms_fold ms with
               | F3 => match ms_diag ms with Asterisk => order_12 | _ => order_24 end
               | F6 => order_24 | _ => order_48 end = table_for ms).
  { unfold table_for. destruct (ms_fold ms), (ms_diag ms); reflexivity. }
  rewrite Eo. clear Eo.
  set (f := fun m : seitz => obind (order_index (table_for ms) m) (fun i : nat => Done (i, m))).
  assert (D : forall m, (exists i, order_index (table_for ms) m = Done i) \/ (exists w, order_index (table_for ms) m = Panic w)).
  { intros m. unfold order_index, jones_rot, rotation_jf, jf_row, jf_entry.
    repeat (match goal with |- context [match char_utf8 ?x with _ => _ end] => destruct (char_utf8 x) end; cbn [obind]; eauto).
    destruct (position _ _); eauto. }
  assert (P : (exists w, omap f l = Panic w) <-> exists m, In m l /\ forall i, ~ rank (table_for ms) m i).
  { clear -D. induction l as [| m l IH]; cbn [omap].
    - split; [intros (w & H); discriminate | intros (m & [] & _)].
    - destruct (D m) as [(i & E) | (w & E)]; unfold f at 1; rewrite E; cbn [obind].
      + split.
        * intros (w & H). destruct (omap f l) as [ys | w' |] eqn:O; cbn [obind] in H; try discriminate.
          destruct (proj1 IH (ex_intro _ _ eq_refl)) as (m' & H1 & H2). exists m'; simpl; auto.
        * intros (m' & [<- | Hm] & Hr).
          -- exfalso. apply (Hr i), order_index_rank, E.
          -- destruct (proj2 IH (ex_intro _ m' (conj Hm Hr))) as (w & ->). cbn. eauto.
      + split; [| eauto]. intros _. exists m. split; [simpl; auto |]. intros i Hi.
        apply order_index_rank in Hi. congruence. }
  destruct l as [| a [| b l0]].
  - split; [intros (w & H); discriminate | simpl; lia].
  - split; [intros (w & H); discriminate | simpl; lia].
  - rewrite <- P. split.
    + intros (w & H). split; [simpl; lia |].
      destruct (omap f (a :: b :: l0)) eqn:O; cbn [obind] in H; try discriminate. eauto.
    + intros (_ & w & ->). cbn. eauto.
Qed.
Theorem C30_no_symbols_panics :
  forall h l, h_syms h = [] -> exists w, sort_positions h l = Panic w.
Proof. intros h l H. unfold sort_positions, get_matrice_order. rewrite H. cbn. eauto. Qed.
Example C30_example :
  sort_positions (Hall (LS false LP) [MS false F2 SubNone DiagNone AxZ None] v0)
    [sz_identity; aff (M3 1 0 0 0 (-1) 0 0 0 (-1)) v0; aff (M3 (-1) 0 0 0 (-1) 0 0 0 1) v0]
  = Done [sz_identity; aff (M3 (-1) 0 0 0 (-1) 0 0 0 1) v0; aff (M3 1 0 0 0 (-1) 0 0 0 (-1)) v0].
Proof. vm_compute. reflexivity. Qed.

(** ** The returned positions *)
Lemma general_positions_spec fuel h g :
  general_positions fuel h = Done g ->
  gp_lattice g = translations (ls_char (h_lat h)) /\
  exists l, generate_unsorted fuel h = Done l /\ sort_positions h l = Done (gp_core g) /\
    Permutation l (gp_core g).
Proof.
  intros H. unfold general_positions, generate_positions in H. apply obind_Done in H.
  destruct H as (l' & H & E). injection E as <-. cbn [gp_lattice gp_core]. split; auto.
  apply obind_Done in H. destruct H as (l & H1 & H2). exists l. split; auto. split; auto.
  destruct (h_syms h) as [| ms rest] eqn:S.
  - destruct (C30_no_symbols_panics h l S) as (w & W). congruence.
  - apply (C30_sort_stable_reordering h ms rest l l' S H2).
Qed.

(** ** C25  Soundness *)
Theorem C25_positions_sound :
  forall fuel h g, general_positions fuel h = Done g ->
    forall m, In m (gp_core g) -> is_affine m /\ hall_group h (op_of m).
Proof.
  intros fuel h g H m Hm. destruct (general_positions_spec _ _ _ H) as (_ & l & Hl & _ & P).
  apply (Permutation_in _ (Permutation_sym P)) in Hm.
  destruct (generate_unsorted_spec _ _ _ Hl) as (mp & I & G & _).
  split; [apply (inv_affine _ _ I m Hm) | apply G, Hm].
Qed.
Theorem C25_full_sets_sound :
  forall fuel h g, general_positions fuel h = Done g ->
    forall set m, In set (derive_full_sets g) -> In m set -> is_affine m /\ hall_group h (op_of m).
Proof.
  intros fuel h g H set m Hs Hm. unfold derive_full_sets in Hs. apply in_map_iff in Hs.
  destruct Hs as (v & <- & Hv). apply in_map_iff in Hm. destruct Hm as (m0 & <- & Hm0).
  destruct (C25_positions_sound _ _ _ H m0 Hm0) as [A G]. split.
  - rewrite (affine_aff m0 A). apply aff_affine.
  - destruct (general_positions_spec _ _ _ H) as (E & _). rewrite E in Hv.
    apply gen_cell with (rot m0, vadd (tra m0) v).
    + apply (hall_group_coset h _ (tra m0)); auto.
      replace (vsub (vadd (tra m0) v) (tra m0)) with v by mat_ring. apply in_lat_in, Hv.
    + split; simpl; auto. apply vcong12_sym, vcong12_rem.
Qed.

(** ** C26  Completeness *)
Lemma rotations_complete fuel h g :
  general_positions fuel h = Done g ->
  forall o, hall_group h o -> exists m, In m (gp_core g) /\ rot m = fst o.
Proof.
  intros H o G. destruct (general_positions_spec _ _ _ H) as (_ & l & Hl & _ & P).
  destruct (generate_unsorted_spec _ _ _ Hl) as (mp & I & _ & (r & Er) & C & B & _).
  assert (K : exists m, In m l /\ rot m = fst o).
  { induction G as [| g' Hg | a b Ga IHa Gb IHb | a b Ga IHa E | a b Ga IHa E].
    - exists sz_identity. rewrite Er. simpl; auto.
    - apply B, Hg.
    - destruct IHa as (x & Hx & Ex), IHb as (y & Hy & Ey). destruct (C x y Hx Hy) as (z & Hz & Ez).
      exists z. split; auto. simpl. congruence.
    - destruct IHa as (x & Hx & Ex).
      assert (E1 : mmul (fst a) (fst b) = I3) by exact (f_equal fst E).
      assert (U : unimodular (fst a)) by (eapply mmul_I_unimodular; eauto).
      assert (Pw : forall n, exists y, In y l /\ rot y = mpow (fst a) n).
      { induction n as [| n (y & Hy & Ey)].
        - exists sz_identity. rewrite Er. simpl; auto.
        - destruct (C x y Hx Hy) as (z & Hz & Ez). exists z. split; auto. simpl. congruence. }
      destruct (finite_powers_order (fst a) (map rot l) U) as (n & Hn & En).
      { intros n. destruct (Pw n) as (y & Hy & Ey). rewrite <- Ey. apply in_map, Hy. }
      destruct n as [| n]; [lia |]. simpl in En. destruct (Pw n) as (y & Hy & Ey).
      exists y. split; auto. rewrite Ey.
      apply (mmul_cancel_l (fst a)); auto. congruence.
    - destruct E as [E _]. rewrite <- E. exact IHa. }
  destruct K as (m & Hm & Em). exists m. split; auto. eapply Permutation_in; eauto.
Qed.
Theorem C26_point_group_complete :
  forall fuel h g, general_positions fuel h = Done g ->
    forall R, (exists t, hall_group h (R, t)) <-> (exists m, In m (gp_core g) /\ rot m = R).
Proof.
  intros fuel h g H R. split.
  - intros (t & G). destruct (rotations_complete _ _ _ H _ G) as (m & ? & ?). eauto.
  - intros (m & Hm & <-). exists (tra m). apply (C25_positions_sound _ _ _ H m Hm).
Qed.
(** two elements with the same rotation part differ by a centring translation *)
Lemma same_rotation_coset h R t t' :
  no_extra_translations h -> hall_group h (R, t) -> hall_group h (R, t') ->
  centring (ls_char (h_lat h)) (vsub t' t).
Proof.
  intros T G G'.
  assert (U : unimodular R) by (apply (hall_group_unimodular h (R, t)), G).
  assert (Ginv : hall_group h (op_inv (R, t))).
  { apply gen_inv with (R, t); auto. apply op_inv_r; auto. }
  assert (K := gen_comp _ _ _ G' Ginv).
  unfold op_comp, op_inv in K; cbn [fst snd] in K.
  rewrite minv_r, mvmul_vopp, <- mvmul_mmul, minv_r, mvmul_I in K by auto.
  apply T in K. replace (vadd (vopp t) t') with (vsub t' t) in K by mat_ring. exact K.
Qed.
Theorem C26_full_sets_complete :
  forall fuel h g, general_positions fuel h = Done g -> no_extra_translations h ->
    forall o, hall_group h o <->
      exists set m, In set (derive_full_sets g) /\ In m set /\ op_same (op_of m) o.
Proof.
  intros fuel h g H T o. split.
  - intros G. destruct (rotations_complete _ _ _ H _ G) as (m & Hm & Em).
    destruct (C25_positions_sound _ _ _ H m Hm) as [A Gm]. destruct o as [R t]. simpl in Em. subst R.
    destruct (same_rotation_coset h (rot m) (tra m) t T Gm G) as (u & Hu & Eu).
    destruct (general_positions_spec _ _ _ H) as (E & _).
    exists (map (fun m => sz_addv m u) (gp_core g)), (sz_addv m u). split; [| split].
    + unfold derive_full_sets. rewrite E. apply in_map_iff. eauto.
    + apply in_map_iff. eauto.
    + split; simpl; auto. eapply vcong12_trans; [apply vcong12_rem |].
      eapply vcong12_trans; [apply vcong12_vadd; [apply vcong12_refl | apply vcong12_sym; exact Eu] |].
      replace (vadd (tra m) (vsub t (tra m))) with t by mat_ring. apply vcong12_refl.
  - intros (set & m & Hs & Hm & E). apply gen_cell with (op_of m); auto.
    apply (C25_full_sets_sound _ _ _ H set m Hs Hm).
Qed.

(** ** C27  No duplicates *)
Lemma equivL_sym l a b : equivL l a b -> equivL l b a.
Proof.
  intros [E L]. split; auto. apply in_lat_opp in L.
  replace (vsub (tra b) (tra a)) with (vopp (vsub (tra a) (tra b))) by mat_ring. exact L.
Qed.
Lemma distinctL_nth l xs : distinctL l xs -> forall i j a b,
  nth_error xs i = Some a -> nth_error xs j = Some b -> i <> j -> ~ equivL l a b.
Proof.
  induction 1 as [| xs x D IH N]; intros i j a b Ha Hb Hij.
  - destruct i; discriminate.
  - assert (Li : (i < length (xs ++ [x]))%nat) by (apply nth_error_Some; congruence).
    assert (Lj : (j < length (xs ++ [x]))%nat) by (apply nth_error_Some; congruence).
    rewrite app_length in Li, Lj. simpl in Li, Lj.
    destruct (Nat.lt_ge_cases i (length xs)) as [I1 | I1], (Nat.lt_ge_cases j (length xs)) as [J1 | J1].
    + rewrite nth_error_app1 in Ha, Hb by auto. eapply IH; eauto.
    + rewrite nth_error_app1 in Ha by auto. rewrite nth_error_app2 in Hb by auto.
      replace (j - length xs)%nat with O in Hb by lia. injection Hb as <-.
      intros E. apply (N a); [eapply nth_error_In; eauto | apply equivL_sym; auto].
    + rewrite nth_error_app1 in Hb by auto. rewrite nth_error_app2 in Ha by auto.
      replace (i - length xs)%nat with O in Ha by lia. injection Ha as <-.
      intros E. apply (N b); [eapply nth_error_In; eauto | auto].
    + lia.
Qed.
Lemma equivL_refl l a : equivL l a a.
Proof. split; auto. replace (vsub (tra a) (tra a)) with v0 by mat_ring. apply in_lat_0. Qed.
Definition pairwise_distinct (l : lattice) (xs : list seitz) : Prop :=
  forall i j a b, nth_error xs i = Some a -> nth_error xs j = Some b -> i <> j -> ~ equivL l a b.
Lemma pairwise_NoDup l xs : pairwise_distinct l xs <-> NoDup xs /\ forall a b, In a xs -> In b xs -> a <> b -> ~ equivL l a b.
Proof.
  split.
  - intros P. split.
    + apply NoDup_nth_error. intros i j Hi E.
      destruct (Nat.eq_dec i j) as [| N]; auto. exfalso.
      destruct (nth_error xs i) as [a|] eqn:Ea; [| apply nth_error_None in Ea; lia].
      apply (P i j a a); auto using equivL_refl.
    + intros a b Ha Hb Hab. apply In_nth_error in Ha, Hb. destruct Ha as (i & Ha), Hb as (j & Hb).
      apply (P i j a b); auto. intros ->. congruence.
  - intros [N D] i j a b Ha Hb Hij. apply D; try (eapply nth_error_In; eauto).
    intros ->. apply Hij. eapply NoDup_nth_error; eauto.
    + apply nth_error_Some. congruence. + congruence.
Qed.
Lemma core_pairwise fuel h g : general_positions fuel h = Done g ->
  pairwise_distinct (ls_char (h_lat h)) (gp_core g).
Proof.
  intros H. destruct (general_positions_spec _ _ _ H) as (_ & l & Hl & _ & P).
  destruct (generate_unsorted_spec _ _ _ Hl) as (mp & I & _).
  assert (D : pairwise_distinct (ls_char (h_lat h)) l).
  { intros i j a b. apply distinctL_nth. exact (inv_distinct _ _ I). }
  apply pairwise_NoDup in D. destruct D as [N D]. apply pairwise_NoDup. split.
  - eapply Permutation_NoDup; eauto.
  - intros a b Ha Hb. apply Permutation_sym in P. apply D; eapply Permutation_in; eauto.
Qed.
Theorem C27_no_duplicates :
  forall fuel h g, general_positions fuel h = Done g ->
    forall i j a b, nth_error (gp_core g) i = Some a -> nth_error (gp_core g) j = Some b -> i <> j ->
      ~ (rot a = rot b /\ centring (ls_char (h_lat h)) (vsub (tra a) (tra b))).
Proof. intros fuel h g H. exact (core_pairwise fuel h g H). Qed.
(** when there are no extra translations every rotation part occurs once, so the number of
    positions is the order of the point group *)
Theorem C27_one_position_per_rotation :
  forall fuel h g, general_positions fuel h = Done g -> no_extra_translations h ->
    NoDup (map rot (gp_core g)) /\
    forall R, In R (map rot (gp_core g)) <-> exists t, hall_group h (R, t).
Proof.
  intros fuel h g H T. split.
  - assert (P := core_pairwise fuel h g H).
    apply NoDup_nth_error. intros i j Hi E. rewrite map_length in Hi.
    rewrite !nth_error_map in E.
    destruct (nth_error (gp_core g) i) as [a|] eqn:Ea; [| apply nth_error_None in Ea; lia].
    destruct (nth_error (gp_core g) j) as [b|] eqn:Eb; [| discriminate]. simpl in E. injection E as E.
    destruct (Nat.eq_dec i j) as [| N]; auto. exfalso. apply (P i j a b Ea Eb N). split; auto.
    destruct (C25_positions_sound _ _ _ H a (nth_error_In _ _ Ea)) as [_ Ga].
    destruct (C25_positions_sound _ _ _ H b (nth_error_In _ _ Eb)) as [_ Gb].
    unfold op_of in *. rewrite <- E in Gb. exact (same_rotation_coset h _ _ _ T Gb Ga).
  - intros R. rewrite (C26_point_group_complete _ _ _ H R), in_map_iff.
    split; intros (m & A & B); exists m; auto.
Qed.

(** ** C28  Normalised translations, identity first *)
Theorem C28_normalised :
  forall fuel h g, general_positions fuel h = Done g ->
    forall m, In m (gp_core g) -> is_affine m /\ vbetween 0 12 (tra m).
Proof.
  intros fuel h g H m Hm. destruct (general_positions_spec _ _ _ H) as (_ & l & Hl & _ & P).
  apply (Permutation_in _ (Permutation_sym P)) in Hm.
  destruct (generate_unsorted_spec _ _ _ Hl) as (mp & I & _). apply (inv_affine _ _ I m Hm).
Qed.
Theorem C28_identity_first :
  forall fuel h g, general_positions fuel h = Done g -> nth_error (gp_core g) 0 = Some sz_identity.
Proof.
  intros fuel h g H. destruct (general_positions_spec _ _ _ H) as (_ & l & Hl & Hs & P).
  destruct (generate_unsorted_spec _ _ _ Hl) as (mp & I & _ & (r & Er) & _). subst l.
  unfold sort_positions in Hs. apply obind_Done in Hs. destruct Hs as (order & Ho & Hs).
  assert (E0 : order_index order sz_identity = Done O).
  { unfold get_matrice_order in Ho. destruct (h_syms h) as [| ms ?]; [discriminate |].
    injection Ho as <-. destruct (ms_fold ms), (ms_diag ms); vm_compute; reflexivity. }
  destruct r as [| b r].
  - injection Hs as <-. reflexivity.
  - apply obind_Done in Hs. destruct Hs as (kl & Hk & Hs). injection Hs as <-.
    change (sz_identity :: b :: r) with ([sz_identity] ++ b :: r) in Hk.
    cbn [app omap] in Hk. rewrite E0 in Hk. cbn [obind] in Hk.
    apply obind_Done in Hk. destruct Hk as (ys & _ & Hk). injection Hk as <-.
    cbn [stable_sort fold_right]. destruct (fold_right insert_sorted [] ys) as [| y ys']; reflexivity.
Qed.

(** ** C29  Termination *)
Fixpoint prod_folds (l : list msym) : Z :=
  match l with [] => 1 | m :: r => Z.of_nat (fold_number (ms_fold m)) * prod_folds r end.
(** the buffer reserved for the positions can be allocated: number of centring vectors
    (doubled by a leading minus) times all fold numbers, at 64 bytes each *)
Definition buffer_fits (h : hall) : Prop :=
  64 * (Z.of_nat (length (translations (ls_char (h_lat h)))) * (if ls_minus (h_lat h) then 2 else 1)
        * prod_folds (h_syms h)) <= 2 ^ 63 - 1.
Lemma sz_equiv_num_fold ms m : seitz_matrix ms = Some m ->
  sz_equiv_num m = Some (Z.of_nat (fold_number (ms_fold ms))).
Proof.
  intros H. destruct (C06_matrix_of_symbol ms m H) as (_ & _ & O & T).
  unfold sz_equiv_num. rewrite T. destruct (ms_minus ms), (ms_fold ms); try reflexivity;
  destruct O as (O & _); simpl in O; lia.
Qed.
Lemma max_equiv_pos_spec h :
  (all_symbols_valid h -> max_equiv_pos h = Done (lattice_equiv_num (h_lat h) * prod_folds (h_syms h))) /\
  (~ all_symbols_valid h -> exists w, max_equiv_pos h = Panic w).
Proof.
  unfold all_symbols_valid, max_equiv_pos. generalize (lattice_equiv_num (h_lat h)).
  induction (h_syms h) as [| ms l IH]; intros z; cbn [fold_left prod_folds].
  - split; [rewrite Z.mul_1_r; auto | intros H; exfalso; apply H; intros ? []].
  - cbn [obind]. destruct (seitz_matrix ms) as [m|] eqn:M.
    + rewrite (sz_equiv_num_fold ms m M). specialize (IH (z * Z.of_nat (fold_number (ms_fold ms)))).
      destruct IH as [IH1 IH2]. split.
      * intros V. rewrite Z.mul_assoc. apply IH1. intros; apply V; simpl; auto.
      * intros V. apply IH2. intros V'. apply V. intros ms' [<- | K]; [congruence | auto].
    + split; [intros V; exfalso; apply (V ms); simpl; auto |]. intros _.
      assert (Q : forall l w, fold_left (fun acc ms => obind acc (fun a =>
          match seitz_matrix ms with
          | Some m => match sz_equiv_num m with Some n => Done (a * n) | None => Panic "Invalid Seitz Matrix" end
          | None => Panic "Invalid Seitz Matrix" end)) l (@Panic Z w) = Panic w).
      { clear. induction l; intros; simpl; auto. }
      rewrite Q. eauto.
Qed.
Lemma generators_valid h : all_symbols_valid h -> exists gs, generators h = Done gs.
Proof.
  intros V. unfold generators.
  destruct (omap_all_Done (symbol_generator h) (h_syms h)) as (r & ->).
  - intros ms Hms. unfold symbol_generator. specialize (V ms Hms).
    destruct (seitz_matrix ms); [eauto | congruence].
  - cbn. eauto.
Qed.

(** a bound on the length of lists of distinct normalised operations *)
Definition zrange12 : list Z := map Z.of_nat (seq 0 12).
Definition cell12 : list vec3 :=
  flat_map (fun x => flat_map (fun y => map (fun z => V3 x y z) zrange12) zrange12) zrange12.
Lemma zrange12_in z : 0 <= z < 12 -> In z zrange12.
Proof. intros H. apply in_map_iff. exists (Z.to_nat z). split; [lia | apply in_seq; lia]. Qed.
Lemma cell12_in v : vbetween 0 12 v -> In v cell12.
Proof.
  intros (?&?&?). apply in_flat_map. exists (vx v). split; [apply zrange12_in; auto |].
  apply in_flat_map. exists (vy v). split; [apply zrange12_in; auto |].
  apply in_map_iff. exists (vz v). split; [destruct v; auto | apply zrange12_in; auto].
Qed.
Definition ops_over (S : list mat3) : list seitz :=
  flat_map (fun R => map (fun t => aff R t) cell12) S.
Lemma ops_over_length S : length (ops_over S) = (length S * 1728)%nat.
Proof.
  unfold ops_over. induction S as [| R S IH]; [reflexivity |]. cbn [flat_map length].
  rewrite app_length, map_length, IH. change (length cell12) with 1728%nat. lia.
Qed.
Lemma distinctL_NoDup l xs : distinctL l xs -> NoDup xs.
Proof.
  intros D. apply (pairwise_NoDup l). intros i j a b. apply distinctL_nth; auto.
Qed.
Lemma inv_length l st S : Inv l st -> (forall m, In m (g_list st) -> In (rot m) S) ->
  (length (g_list st) <= length S * 1728)%nat.
Proof.
  intros I H. rewrite <- ops_over_length. apply NoDup_incl_length.
  - eapply distinctL_NoDup, I.
  - intros m Hm. destruct (inv_affine l st I m Hm) as [A B]. apply in_flat_map.
    exists (rot m). split; auto. rewrite (affine_aff m A) at 1. apply in_map, cell12_in, B.
Qed.
Lemma gen_loop_terminates l P S fuel : forall st,
  Inv l st -> product_closed l P -> (forall m, In m (g_list st) -> P m) ->
  (forall m, P m -> In (rot m) S) ->
  (length S * 1728 < fuel + length (g_list st))%nat ->
  exists res, gen_loop fuel (translations l) st = Done res.
Proof.
  induction fuel as [| f IH]; intros st I PC HP HS L.
  - exfalso. assert (K := inv_length l st S I (fun m Hm => HS m (HP m Hm))). simpl in L. lia.
  - cbn [gen_loop]. destruct (one_pass_spec l st I) as (I' & X & C).
    set (st' := one_pass (translations l) st) in *.
    destruct (Nat.ltb_spec (length (g_list st)) (length (g_list st'))) as [L' | L']; [| eauto].
    apply IH; auto; [| lia].
    destruct X as (ext & E & He). rewrite E. intros m Hm. apply in_app_iff in Hm.
    destruct Hm as [Hm | Hm]; auto. destruct (He m Hm) as (i & j & Hi & Hj & Hp).
    apply (PC i j m); auto; apply (inv_affine l st I); auto.
Qed.
Lemma gen_loop_fuel_more lt f : forall st r, gen_loop f lt st = Done r ->
  forall f', (f <= f')%nat -> gen_loop f' lt st = Done r.
Proof.
  induction f as [| f IH]; intros st r H f' Hf; [discriminate |].
  destruct f' as [| f']; [lia |]. cbn [gen_loop] in *.
  destruct (Nat.ltb _ _); auto. apply IH with (f' := f') in H; auto. lia.
Qed.
Lemma gen_loop_no_panic lt f : forall st w, gen_loop f lt st <> Panic w.
Proof.
  induction f as [| f IH]; intros st w; cbn [gen_loop]; [discriminate |].
  destruct (Nat.ltb _ _); [apply IH | discriminate].
Qed.

(** more fuel never changes a result *)
Theorem C29_fuel_irrelevant :
  forall fuel fuel' h, general_positions fuel h <> OutOfFuel -> (fuel <= fuel')%nat ->
    general_positions fuel' h = general_positions fuel h.
Proof.
  intros fuel fuel' h H L.
  unfold general_positions, generate_positions, generate_unsorted in *.
  destruct (max_equiv_pos h) as [n | w |]; cbn [obind] in *; auto.
  destruct (capacity_limit <? n); cbn [obind] in *; auto.
  destruct (generators h) as [gs | w |]; cbn [obind] in *; auto.
  set (st := add_all _ _ gs) in *.
  destruct (gen_loop fuel _ st) as [r | w |] eqn:E; cbn [obind] in *.
  - rewrite (gen_loop_fuel_more _ _ _ _ E fuel' L). reflexivity.
  - exfalso; eapply gen_loop_no_panic; eauto.
  - exfalso; apply H; reflexivity.
Qed.
Lemma sort_not_oof h l : sort_positions h l <> OutOfFuel.
Proof.
  destruct (h_syms h) as [| ms rest] eqn:S.
  - destruct (C30_no_symbols_panics h l S) as (w & ->). discriminate.
  - unfold sort_positions, get_matrice_order. rewrite S. cbn [obind].
    destruct l as [| a [| b l0]]; try discriminate.
    match goal with |- obind (omap ?f ?x) _ <> _ => assert (Q : forall l, omap f l <> OutOfFuel) end.
    { induction l as [| m l IH]; cbn [omap]; [discriminate |].
      unfold order_index at 1, jones_rot, rotation_jf, jf_row, jf_entry.
      repeat (match goal with |- context [match char_utf8 ?x with _ => _ end] => destruct (char_utf8 x) end; cbn [obind]; try discriminate).
      destruct (position _ _); cbn [obind]; try discriminate.
      destruct (omap _ l); cbn [obind]; congruence. }
    match goal with |- obind ?x _ <> _ => specialize (Q (a :: b :: l0)); destruct x; cbn [obind]; congruence end.
Qed.
Theorem C29_terminates_iff_finite :
  forall h, all_symbols_valid h -> buffer_fits h ->
    ((exists fuel, general_positions fuel h <> OutOfFuel) <-> finite_point_group h).
Proof.
  intros h V B.
  assert (M : max_equiv_pos h = Done (lattice_equiv_num (h_lat h) * prod_folds (h_syms h))).
  { apply max_equiv_pos_spec; auto. }
  assert (Cap : (capacity_limit <? lattice_equiv_num (h_lat h) * prod_folds (h_syms h)) = false).
  { apply Z.ltb_ge. unfold buffer_fits in B. unfold lattice_equiv_num, capacity_limit.
    destruct (C24_centring_group (ls_char (h_lat h))) as (_&_&_&_&_&->).
    destruct (ls_minus (h_lat h)); lia. }
  destruct (generators_valid h V) as (gs & Hgs).
  assert (E : forall fuel, generate_unsorted fuel h =
     gen_loop fuel (translations (ls_char (h_lat h))) (add_all (translations (ls_char (h_lat h))) (GS [] []) gs)).
  { intros fuel. unfold generate_unsorted. rewrite M. cbn [obind]. rewrite Cap, Hgs. reflexivity. }
  split.
  - intros (fuel & H).
    assert (D : exists l, generate_unsorted fuel h = Done l).
    { destruct (generate_unsorted fuel h) as [l | w |] eqn:G; eauto.
      - rewrite E in G. exfalso; eapply gen_loop_no_panic; eauto.
      - exfalso. apply H. unfold general_positions, generate_positions. rewrite G. reflexivity. }
    destruct D as (l & Hl). exists (map rot l). intros R t G.
    (* same argument as completeness, on the unsorted list *)
    destruct (generate_unsorted_spec _ _ _ Hl) as (mp & I & _ & (r & Er) & C & Bs & _).
    assert (K : exists m, In m l /\ rot m = fst (R, t)).
    { revert G. generalize (R, t). clear R t. intros o G.
      induction G as [| g' Hg | a b Ga IHa Gb IHb | a b Ga IHa E1 | a b Ga IHa E1].
      - exists sz_identity. rewrite Er. simpl; auto.
      - apply Bs, Hg.
      - destruct IHa as (x & Hx & Ex), IHb as (y & Hy & Ey). destruct (C x y Hx Hy) as (z & Hz & Ez).
        exists z. split; auto. simpl. congruence.
      - destruct IHa as (x & Hx & Ex).
        assert (E2 : mmul (fst a) (fst b) = I3) by exact (f_equal fst E1).
        assert (U : unimodular (fst a)) by (eapply mmul_I_unimodular; eauto).
        assert (Pw : forall n, exists y, In y l /\ rot y = mpow (fst a) n).
        { induction n as [| n (y & Hy & Ey)].
          - exists sz_identity. rewrite Er. simpl; auto.
          - destruct (C x y Hx Hy) as (z & Hz & Ez). exists z. split; auto. simpl. congruence. }
        destruct (finite_powers_order (fst a) (map rot l) U) as (n & Hn & En).
        { intros n. destruct (Pw n) as (y & Hy & Ey). rewrite <- Ey. apply in_map, Hy. }
        destruct n as [| n]; [lia |]. simpl in En. destruct (Pw n) as (y & Hy & Ey).
        exists y. split; auto. rewrite Ey. apply (mmul_cancel_l (fst a)); auto. congruence.
      - destruct E1 as [E1 _]. rewrite <- E1. exact IHa. }
    destruct K as (m & Hm & E2). cbn [fst] in E2. rewrite <- E2. apply in_map, Hm.
  - intros (S & HS).
    destruct (generators_spec h gs Hgs) as (G1 & _ & _ & _).
    set (lat := ls_char (h_lat h)) in *.
    destruct (add_all_spec lat gs (GS [] []) (Inv_empty lat)) as (I & X & _).
    { intros g Hg. destruct (G1 g Hg) as (? & ? & _). auto. }
    set (st := add_all (translations lat) (GS [] []) gs) in *.
    assert (Hst : forall m, In m (g_list st) -> hall_group h (op_of m)).
    { destruct X as (ext & E' & He). rewrite E'. simpl. intros m Hm.
      destruct (He m Hm) as (g & Hg & t & -> & L & _). destruct (G1 g Hg) as (_ & _ & K).
      apply (hall_group_coset h _ (tra g)); auto. }
    exists (length S * 1728 + 1)%nat.
    destruct (gen_loop_terminates lat (fun m => hall_group h (op_of m)) S (length S * 1728 + 1) st I
                (hall_product_closed h) Hst) as (res & Hres).
    + intros m Hm. apply (HS (rot m) (tra m)), Hm.
    + lia.
    + unfold general_positions, generate_positions. rewrite E, Hres. cbn [obind].
      destruct (sort_positions h res) eqn:Q; cbn; try discriminate.
      exfalso; eapply sort_not_oof; eauto.
Qed.
(** invalid symbols and oversized products panic before anything is generated *)
Theorem C29_invalid_symbol_panics :
  forall h fuel, ~ all_symbols_valid h -> exists w, general_positions fuel h = Panic w.
Proof.
  intros h fuel V. destruct (proj2 (max_equiv_pos_spec h) V) as (w & W).
  exists w. unfold general_positions, generate_positions, generate_unsorted. rewrite W. reflexivity.
Qed.
Theorem C29_oversized_panics :
  forall h fuel, all_symbols_valid h -> ~ buffer_fits h -> exists w, general_positions fuel h = Panic w.
Proof.
  intros h fuel V B. exists "capacity overflow"%string.
  unfold general_positions, generate_positions, generate_unsorted.
  rewrite (proj1 (max_equiv_pos_spec h) V). cbn [obind].
  assert (Cap : (capacity_limit <? lattice_equiv_num (h_lat h) * prod_folds (h_syms h)) = true).
  { apply Z.ltb_lt. unfold buffer_fits in B. unfold lattice_equiv_num, capacity_limit.
    destruct (C24_centring_group (ls_char (h_lat h))) as (_&_&_&_&_&->).
    destruct (ls_minus (h_lat h)); lia. }
  rewrite Cap. reflexivity.
Qed.
