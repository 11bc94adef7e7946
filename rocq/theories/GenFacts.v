(** * GenFacts: invariants of the generation loop (proof support). *)
From Coq Require Import Permutation.
From Verif Require Import Base Notations Parser Seitz F64 Jones Rotations Generate Spec Algebra PropSymbols PropSeitz.
Open Scope Z_scope.
Local Notation length := List.length.

(** [v] is a centring translation of lattice [l], modulo the cell *)
Definition in_lat (l : lattice) (v : vec3) : Prop := exists u, In u (translations l) /\ vcong12 v u.

Lemma in_lat_0 l : in_lat l v0.
Proof. exists v0. split; [apply C24_centring_group | apply vcong12_refl]. Qed.
Lemma in_lat_cong l a b : vcong12 a b -> in_lat l a -> in_lat l b.
Proof. intros H (u & ? & ?). exists u. split; auto. eapply vcong12_trans; [apply vcong12_sym|]; eauto. Qed.
Lemma in_lat_add l a b : in_lat l a -> in_lat l b -> in_lat l (vadd a b).
Proof.
  intros (u & Hu & Eu) (w & Hw & Ew).
  destruct (C24_centring_group l) as (_&_&_&A&_). destruct (A u w Hu Hw) as (x & Hx & Ex).
  exists x. split; auto. eapply vcong12_trans; [apply vcong12_vadd; eauto |]. apply vcong12_sym; auto.
Qed.
Lemma in_lat_opp l a : in_lat l a -> in_lat l (vopp a).
Proof.
  intros (u & Hu & Eu).
  destruct (C24_centring_group l) as (_&_&_&_&A&_). destruct (A u Hu) as (x & Hx & Ex).
  exists x. split; auto. eapply vcong12_trans; [apply vcong12_vopp; eauto |]. apply vcong12_sym; auto.
Qed.
Lemma in_lat_in l u : In u (translations l) -> in_lat l u.
Proof. intros. exists u. split; auto using vcong12_refl. Qed.
Lemma translations_range l u : In u (translations l) -> vbetween 0 12 u.
Proof. apply C24_centring_group. Qed.

(** components above -12: where [positive_mod] is the residue *)
Definition vlow (v : vec3) : Prop := -12 < vx v /\ -12 < vy v /\ -12 < vz v.
Lemma vlow_between a b v : -12 < a -> vbetween a b v -> vlow v.
Proof. unfold vlow, vbetween. lia. Qed.
Lemma vlow_add t u : vlow t -> vbetween 0 12 u -> vlow (vadd t u).
Proof. unfold vlow, vbetween; simpl. lia. Qed.
Lemma vpm_range t : vlow t -> vbetween 0 12 (vmap positive_mod t).
Proof.
  intros (?&?&?). unfold vbetween, vmap; cbn [vx vy vz].
  rewrite !positive_mod_mod by assumption.
  pose proof (Z.mod_pos_bound (vx t) 12). pose proof (Z.mod_pos_bound (vy t) 12).
  pose proof (Z.mod_pos_bound (vz t) 12). lia.
Qed.

(** *** [minimal_repr] *)
Lemma minimal_fold_in cands : forall c, 
  let r := fold_left minimal_step cands c in r = c \/ In r cands.
Proof.
  induction cands as [| x cands IH]; intros c; simpl; [auto |].
  destruct (IH (minimal_step c x)) as [E | E]; [| auto].
  rewrite E. unfold minimal_step. destruct (_ && _); auto.
Qed.
Lemma minimal_repr_spec l t : 
  exists u, In u (translations l) /\ minimal_repr (translations l) t = vmap positive_mod (vadd t u).
Proof.
  unfold minimal_repr.
  destruct (minimal_fold_in (map (fun tr => vmap positive_mod (vadd t tr)) (translations l)) (vmap positive_mod t)) as [E | E].
  - exists v0. split; [apply C24_centring_group |]. rewrite E, vadd_0_r. reflexivity.
  - apply in_map_iff in E. destruct E as (u & E & Hu). exists u. auto.
Qed.
Lemma minimal_repr_range l t : vlow t -> vbetween 0 12 (minimal_repr (translations l) t).
Proof.
  intros H. destruct (minimal_repr_spec l t) as (u & Hu & ->). apply vpm_range, vlow_add; auto.
  apply (translations_range l); auto.
Qed.
Lemma minimal_repr_coset l t : in_lat l (vsub (minimal_repr (translations l) t) t).
Proof.
  destruct (minimal_repr_spec l t) as (u & Hu & ->). exists u. split; auto.
  destruct (vcong12_pm (vadd t u)) as ([a A]&[b B]&[c C]). cbn [vx vy vz vadd] in *.
  split; [exists a | split; [exists b | exists c]]; unfold vsub; cbn [vx vy vz]; lia.
Qed.

(** *** association lists *)
Lemma map_get_add mp R t R' :
  map_get (map_add mp R t) R' =
  if meqb R' R then Some (t :: match map_get mp R with Some s => s | None => [] end)
  else map_get mp R'.
Proof.
  induction mp as [| [Q s] mp IH]; simpl.
  - destruct (meqb R' R); reflexivity.
  - destruct (meqb R Q) eqn:E; simpl.
    + apply meqb_eq in E. subst Q. destruct (meqb R' R); reflexivity.
    + destruct (meqb R' Q) eqn:E2.
      * apply meqb_eq in E2. subst Q. destruct (meqb R' R) eqn:E3; [| reflexivity].
        apply meqb_eq in E3. subst R'. rewrite meqb_refl in E. discriminate.
      * apply IH.
Qed.
Lemma set_mem_In t s : set_mem t s = true <-> In t s.
Proof.
  unfold set_mem. rewrite existsb_exists. split.
  - intros (x & Hx & E). apply veqb_eq in E. subst; auto.
  - intros H. exists t. split; auto using veqb_refl.
Qed.

(** *** the invariant *)
(** same operation modulo cell and centring translations *)
Definition equivL (l : lattice) (a b : seitz) : Prop :=
  rot a = rot b /\ in_lat l (vsub (tra a) (tra b)).
Inductive distinctL (l : lattice) : list seitz -> Prop :=
| dl_nil : distinctL l []
| dl_app xs x : distinctL l xs -> (forall y, In y xs -> ~ equivL l x y) -> distinctL l (xs ++ [x]).
Record Inv (l : lattice) (st : gstate) : Prop := {
  inv_affine : forall m, In m (g_list st) -> is_affine m /\ vbetween 0 12 (tra m);
  inv_some : forall R s, map_get (g_map st) R = Some s ->
               s <> [] /\ forall t, In t s <-> In (aff R t) (g_list st);
  inv_none : forall R, map_get (g_map st) R = None -> forall t, ~ In (aff R t) (g_list st);
  inv_distinct : distinctL l (g_list st) }.

Lemma Inv_empty l : Inv l (GS [] []).
Proof. constructor; simpl; try tauto; try discriminate. constructor. Qed.

(** the effect of [add_to_list] *)
Definition pushed (l : lattice) (m m' : seitz) : Prop :=
  exists t, m' = aff (rot m) t /\ in_lat l (vsub t (tra m)) /\ vbetween 0 12 t.
Lemma add_to_list_spec l st m b st' :
  Inv l st -> is_affine m -> vlow (tra m) ->
  add_to_list (translations l) st m = (b, st') ->
  (b = false /\ st' = st /\ exists m', In m' (g_list st) /\ rot m' = rot m) \/
  (b = true /\ Inv l st' /\ exists m', g_list st' = g_list st ++ [m'] /\ pushed l m m').
Proof.
  intros I Ha Hl H. unfold add_to_list in H.
  set (t := minimal_repr (translations l) (tra m)) in *.
  assert (Hset : set_translation_part t m = aff (rot m) t).
  { destruct Ha as [Hb _]. unfold set_translation_part, aff. rewrite Hb. reflexivity. }
  rewrite Hset in H.
  assert (Hpush : pushed l m (aff (rot m) t)).
  { exists t. split; auto. split; [apply minimal_repr_coset | apply minimal_repr_range; auto]. }
  assert (Hdone : forall (Hnew : forall y, In y (g_list st) -> ~ equivL l (aff (rot m) t) y),
     Inv l (GS (g_list st ++ [aff (rot m) t]) (map_add (g_map st) (rot m) t))).
  { intros Hnew. constructor; cbn [g_list g_map].
    - intros x Hx. apply in_app_iff in Hx. destruct Hx as [Hx | [<- | []]]; [apply I; auto |].
      split; [apply aff_affine | simpl; apply minimal_repr_range; auto].
    - intros R s. rewrite map_get_add. destruct (meqb R (rot m)) eqn:E.
      + apply meqb_eq in E. subst R. intros K. injection K as <-. split; [discriminate |].
        intros t0. rewrite in_app_iff. simpl.
        assert (Q : In t0 (match map_get (g_map st) (rot m) with Some s => s | None => [] end)
                    <-> In (aff (rot m) t0) (g_list st)).
        { destruct (map_get (g_map st) (rot m)) eqn:G; [apply (inv_some l st I _ _ G) |].
          simpl. pose proof (inv_none l st I _ G t0). tauto. }
        rewrite Q. split.
        * intros [<- | K]; auto.
        * intros [K | [K | []]]; auto. left. injection K; auto.
      + apply meqb_neq in E. intros K. destruct (inv_some l st I _ _ K) as [K1 K2]. split; auto.
        intros t0. rewrite in_app_iff, K2. simpl. split; [auto |].
        intros [? | [C | []]]; auto. injection C; intros; congruence.
    - intros R. rewrite map_get_add. destruct (meqb R (rot m)) eqn:E; [discriminate |].
      apply meqb_neq in E. intros K t0. rewrite in_app_iff. intros [C | [C | []]].
      + exact (inv_none l st I _ K t0 C).
      + injection C; intros; congruence.
    - constructor; auto. apply I. }
  destruct (map_get (g_map st) (rot m)) as [s|] eqn:G.
  - destruct (inv_some l st I _ _ G) as [Hs Hin].
    assert (Hex : exists m', In m' (g_list st) /\ rot m' = rot m).
    { destruct s as [| t0 s]; [congruence |]. exists (aff (rot m) t0). split; [apply Hin; simpl; auto | auto]. }
    destruct (forallb _ _) eqn:F.
    + destruct (set_mem t s) eqn:M.
      * left. injection H as <- <-. auto.
      * right. injection H as <- <-. split; auto. split; [apply Hdone | exists (aff (rot m) t); split; [reflexivity | exact Hpush]].
        intros y Hy [E1 E2]. simpl in E1, E2.
        (* tra y = tra m + u mod 12 for a centring u, so F excludes it *)
        destruct (inv_affine l st I y Hy) as [Ya Yr].
        assert (L : in_lat l (vsub (tra y) (tra m))).
        { assert (L1 := minimal_repr_coset l (tra m)). fold t in L1.
          assert (L2 := in_lat_add l _ _ (in_lat_opp l _ E2) L1).
          replace (vadd (vopp (vsub t (tra y))) (vsub t (tra m))) with (vsub (tra y) (tra m)) in L2 by mat_ring.
          exact L2. }
        destruct L as (u & Hu & Eu). rewrite forallb_forall in F. specialize (F u Hu).
        apply andb_true_iff in F. destruct F as [F _]. apply negb_true_iff in F.
        assert (C : set_mem (vmap positive_mod (vadd (tra m) u)) s = true).
        { apply set_mem_In, Hin.
          assert (E : vmap positive_mod (vadd (tra m) u) = tra y).
          { apply vcong12_small; auto.
            - eapply vcong12_trans; [apply vcong12_pm |].
              eapply vcong12_trans; [apply vcong12_vadd; [apply vcong12_refl | apply vcong12_sym; exact Eu] |].
              replace (vadd (tra m) (vsub (tra y) (tra m))) with (tra y) by mat_ring. apply vcong12_refl.
            - apply vpm_range, vlow_add; auto. apply (translations_range l); auto. }
          rewrite E, E1. rewrite <- affine_aff; auto. }
        congruence.
    + left. injection H as <- <-. auto.
  - right. injection H as <- <-. split; auto. split; [apply Hdone | exists (aff (rot m) t); split; [reflexivity | exact Hpush]].
    intros y Hy [E1 E2]. simpl in E1. destruct (inv_affine l st I y Hy) as [Ya _].
    apply (inv_none l st I _ G (tra y)). rewrite E1, <- affine_aff; auto.
Qed.

(** extension of the list by elements satisfying [P] *)
Definition extends (P : seitz -> Prop) (st st' : gstate) : Prop :=
  exists ext, g_list st' = g_list st ++ ext /\ forall x, In x ext -> P x.
Lemma extends_refl P st : extends P st st.
Proof. exists []. rewrite app_nil_r. simpl; tauto. Qed.
Lemma extends_trans P a b c : extends P a b -> extends P b c -> extends P a c.
Proof.
  intros (e & E & He) (f & F & Hf). exists (e ++ f). rewrite F, E, app_assoc. split; auto.
  intros x Hx. apply in_app_iff in Hx. destruct Hx; auto.
Qed.
Lemma extends_length P a b : extends P a b -> (length (g_list a) <= length (g_list b))%nat.
Proof. intros (e & -> & _). rewrite app_length. lia. Qed.
Lemma extends_same P a b : extends P a b -> (length (g_list b) <= length (g_list a))%nat -> g_list b = g_list a.
Proof.
  intros (e & E & _) H. rewrite E in *. rewrite app_length in H.
  destruct e; [apply app_nil_r | simpl in H; lia].
Qed.
Lemma extends_weaken (P Q : seitz -> Prop) a b : (forall x, P x -> Q x) -> extends P a b -> extends Q a b.
Proof. intros H (e & E & He). exists e. auto. Qed.

Lemma mul_input i j : is_affine i -> is_affine j -> is_affine (sz_mul i j) /\ vlow (tra (sz_mul i j)).
Proof.
  intros Hi Hj. split; [apply C12_product_is_affine; auto |].
  apply (vlow_between (-11) 12); [lia | apply C12_product_translation_range].
Qed.

Lemma inner_loop_spec l i js : forall st,
  Inv l st -> is_affine i -> (forall j, In j js -> is_affine j) ->
  let st' := inner_loop (translations l) i js st in
  Inv l st' /\ extends (fun x => exists j, In j js /\ pushed l (sz_mul i j) x) st st' /\
  (length (g_list st') = length (g_list st) ->
     st' = st /\ forall j, In j js -> exists m, In m (g_list st) /\ rot m = mmul (rot i) (rot j)).
Proof.
  induction js as [| j js IH]; intros st I Hi Hj; cbn [inner_loop].
  - split; auto. split; [apply extends_refl |]. intros _. split; auto. intros ? [].
  - destruct (mul_input i j Hi (Hj j (or_introl eq_refl))) as [M1 M2].
    assert (Mr : rot (sz_mul i j) = mmul (rot i) (rot j)).
    { rewrite (affine_aff i Hi), (affine_aff j (Hj j (or_introl eq_refl))), sz_mul_aff. reflexivity. }
    destruct (add_to_list (translations l) st (sz_mul i j)) as [b st'] eqn:A.
    destruct (add_to_list_spec l st _ b st' I M1 M2 A) as [(-> & -> & m' & Hm & Er) | (-> & I' & m' & E & Hp)].
    + destruct (IH st I Hi (fun k Hk => Hj k (or_intror Hk))) as (I2 & X & C).
      split; auto. split.
      * eapply extends_weaken; [| exact X]. intros x (k & Hk & Hp). exists k. simpl; auto.
      * intros L. destruct (C L) as [C1 C2]. split; auto. intros k [<- | Hk]; auto.
        exists m'. rewrite Er, Mr. auto.
    + split; auto. split.
      * exists [m']. split; auto. intros x [<- | []]. exists j. simpl; auto.
      * intros L. rewrite E, app_length in L. simpl in L. lia.
Qed.

Lemma pass_spec l il js : forall st,
  Inv l st -> (forall i, In i il -> is_affine i) -> (forall j, In j js -> is_affine j) ->
  let st' := fold_left (fun s i => inner_loop (translations l) i js s) il st in
  Inv l st' /\ extends (fun x => exists i j, In i il /\ In j js /\ pushed l (sz_mul i j) x) st st' /\
  (length (g_list st') = length (g_list st) ->
     st' = st /\ forall i j, In i il -> In j js -> exists m, In m (g_list st) /\ rot m = mmul (rot i) (rot j)).
Proof.
  induction il as [| i il IH]; intros st I Hi Hj; cbn [fold_left].
  - split; auto. split; [apply extends_refl |]. intros _. split; auto. intros ? ? [].
  - destruct (inner_loop_spec l i js st I (Hi i (or_introl eq_refl)) Hj) as (I1 & X1 & C1).
    set (s1 := inner_loop (translations l) i js st) in *.
    destruct (IH s1 I1 (fun k Hk => Hi k (or_intror Hk)) Hj) as (I2 & X2 & C2).
    set (s2 := fold_left _ il s1) in *.
    split; auto. split.
    + eapply extends_trans; eapply extends_weaken; [| exact X1 | | exact X2].
      * intros x (j & Hx & Hp). exists i, j. simpl; auto.
      * intros x (i' & j & Hx & Hx2 & Hp). exists i', j. simpl; auto.
    + intros L. pose proof (extends_length _ _ _ X1). pose proof (extends_length _ _ _ X2).
      destruct (C1 ltac:(lia)) as [E1 D1]. rewrite E1 in *.
      destruct (C2 ltac:(lia)) as [E2 D2]. split; auto.
      intros a b [<- | Ha] Hb; auto.
Qed.

Lemma one_pass_spec l st :
  Inv l st ->
  let st' := one_pass (translations l) st in
  Inv l st' /\
  extends (fun x => exists i j, In i (g_list st) /\ In j (g_list st) /\ pushed l (sz_mul i j) x) st st' /\
  (length (g_list st') = length (g_list st) ->
     st' = st /\ forall i j, In i (skipn 1 (g_list st)) -> In j (skipn 1 (g_list st)) ->
       exists m, In m (g_list st) /\ rot m = mmul (rot i) (rot j)).
Proof.
  intros I. unfold one_pass.
  assert (S : forall m, In m (skipn 1 (g_list st)) -> In m (g_list st)).
  { intros m. destruct (g_list st); simpl; auto. }
  assert (A : forall m, In m (skipn 1 (g_list st)) -> is_affine m).
  { intros m Hm. apply (inv_affine l st I). auto. }
  destruct (pass_spec l _ _ st I A A) as (I' & X & C). split; auto. split; auto.
  eapply extends_weaken; [| exact X]. intros x (i & j & Hi & Hj & Hp). exists i, j. auto.
Qed.

(** *** the loop: what holds of a finished run, for a property [P] kept by products *)
Definition product_closed (l : lattice) (P : seitz -> Prop) : Prop :=
  forall i j x, is_affine i -> is_affine j -> P i -> P j -> pushed l (sz_mul i j) x -> P x.
Lemma gen_loop_spec l P fuel : forall st res,
  Inv l st -> product_closed l P -> (forall m, In m (g_list st) -> P m) ->
  gen_loop fuel (translations l) st = Done res ->
  exists mp, Inv l (GS res mp) /\ (forall m, In m res -> P m) /\
    (exists ext, res = g_list st ++ ext) /\
    (forall i j, In i (skipn 1 res) -> In j (skipn 1 res) ->
       exists m, In m res /\ rot m = mmul (rot i) (rot j)).
Proof.
  induction fuel as [| f IH]; intros st res I PC HP H; [discriminate |]. cbn [gen_loop] in H.
  destruct (one_pass_spec l st I) as (I' & X & C).
  set (st' := one_pass (translations l) st) in *.
  destruct (Nat.ltb_spec (length (g_list st)) (length (g_list st'))) as [L | L].
  - assert (HP' : forall m, In m (g_list st') -> P m).
    { destruct X as (ext & E & He). rewrite E. intros m Hm. apply in_app_iff in Hm.
      destruct Hm as [Hm | Hm]; auto. destruct (He m Hm) as (i & j & Hi & Hj & Hp).
      apply (PC i j m); auto; apply (inv_affine l st I); auto. }
    destruct (IH st' res I' PC HP' H) as (mp & R1 & R2 & (ext & R3) & R4).
    exists mp. split; auto. split; auto. split; auto.
    destruct X as (ext0 & E & _). exists (ext0 ++ ext). rewrite R3, E, app_assoc. reflexivity.
  - injection H as <-. pose proof (extends_length _ _ _ X).
    destruct (C ltac:(lia)) as [_ D]. exists (g_map st).
    split; [destruct st; exact I |]. split; auto. split; [exists []; rewrite app_nil_r; auto |]. exact D.
Qed.

(** *** adding the generators *)
Lemma add_all_spec l gs : forall st,
  Inv l st -> (forall g, In g gs -> is_affine g /\ vlow (tra g)) ->
  let st' := add_all (translations l) st gs in
  Inv l st' /\ extends (fun x => exists g, In g gs /\ pushed l g x) st st' /\
  (forall g, In g gs -> exists m, In m (g_list st') /\ rot m = rot g).
Proof.
  induction gs as [| g gs IH]; intros st I Hg; cbn [add_all fold_left].
  - split; auto. split; [apply extends_refl |]. intros ? [].
  - destruct (Hg g (or_introl eq_refl)) as [G1 G2].
    destruct (add_to_list (translations l) st g) as [b s1] eqn:A. cbn [snd].
    destruct (add_to_list_spec l st g b s1 I G1 G2 A) as [(-> & -> & m' & Hm & Er) | (-> & I' & m' & E & Hp)].
    + destruct (IH st I (fun k Hk => Hg k (or_intror Hk))) as (I2 & X & C).
      unfold add_all in *. split; auto. split.
      * eapply extends_weaken; [| exact X]. intros x (k & Hk & Hp). exists k. simpl; auto.
      * intros k [<- | Hk]; auto. exists m'. split; auto. destruct X as (e & -> & _).
        apply in_app_iff; auto.
    + destruct (IH s1 I' (fun k Hk => Hg k (or_intror Hk))) as (I2 & X & C).
      unfold add_all in *. split; auto. split.
      * apply extends_trans with s1.
        -- exists [m']. split; auto. intros x [<- | []]. exists g; simpl; auto.
        -- eapply extends_weaken; [| exact X]. intros x (k & Hk & Hx). exists k. simpl; auto.
      * intros k [<- | Hk]; auto. exists m'. destruct X as (e & X & _). split.
        -- rewrite X, E, !in_app_iff. simpl; auto.
        -- destruct Hp as (t & -> & _). reflexivity.
Qed.
