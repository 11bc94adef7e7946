(** * PropPatterson: property C96: Patterson symmetry. *)
From Coq Require Import QArith Permutation.
From Verif Require Import Base Notations Parser Seitz F64 Jones Rotations Tables Lookup Generate Positions
  Spec SpecHall SpecXyz SpecCompat SpecOutcome SpecTables SpecRotation SpecFamily SpecType SpecKind SpecLatticeClass SpecPatterson
  Algebra PropSeitz PropSymbols GenFacts
  PropGenerate GroupCheck PropFullSets PropTables PropTableGroups PropOrder RowData TypeFacts TypeCount PropTypes PropTermination PropOutcome
  PropFamily PropRelabel PropKind LatticeBasis PropLatticeClass.
Open Scope Z_scope.
Local Notation length := List.length.

(** ** Vectors between points *)
Theorem C96_vectors_between_points :
  forall G S, symmetric_set G S -> forall o d, patterson_group G o -> vectors_of S d -> vectors_of S (move o d).
Proof.
  intros G S (Sq & Sg) [R t] d (Gt & u & Gu) (p & q & Sp & Sq' & E). cbn [fst snd] in Gt, Gu. destruct E as (Ex & Ey & Ez). cbn [qx qy qz] in Ex, Ey, Ez.
  destruct Gu as [Gu | Gu].
  - exists (move (I3, t) (move (R, u) p)), (move (R, u) q). split; [apply Sg; auto |]. split; [apply Sg; auto |].
    unfold qsame, move, qdot, I3. cbn [qx qy qz m11 m12 m13 m21 m22 m23 m31 m32 m33]. rewrite Ex, Ey, Ez.
    change (inject_Z 0) with 0%Q. change (inject_Z 1) with 1%Q. unfold Qdiv. repeat split; ring.
  - exists (move (I3, t) (move (mopp R, u) q)), (move (mopp R, u) p). split; [apply Sg; auto |]. split; [apply Sg; auto |].
    unfold qsame, move, qdot, I3, mopp, mmap. cbn [qx qy qz m11 m12 m13 m21 m22 m23 m31 m32 m33]. rewrite Ex, Ey, Ez, !inject_Z_opp.
    change (inject_Z 0) with 0%Q. change (inject_Z 1) with 1%Q. unfold Qdiv. repeat split; ring.
Qed.

(** ** The notation *)
Lemma mvmul_mopp' R v : mvmul (mopp R) v = vopp (mvmul R v). Proof. mring. Qed.
Lemma vopp_vopp' v : vopp (vopp v) = v. Proof. mring. Qed.
Lemma vopp_v0 : vopp v0 = v0. Proof. reflexivity. Qed.
Lemma mvmul_v0 M : mvmul M v0 = v0. Proof. mring. Qed.
Lemma bare_patterson h o : hall_group (bare h) o -> hall_group (patterson h) o.
Proof.
  apply generated_mono. intros x [A | [(M & ->) | A]]; apply gen_base; [left; exact A | right; left; auto | right; right; exact A].
Qed.
Theorem C96_patterson_group :
  forall h, all_symbols_valid h -> no_extra_translations h -> forall o, hall_group (patterson h) o <-> patterson_group (hall_group h) o.
Proof.
  intros h V T.
  set (Pt := fun R => exists u, hall_group h (R, u)).
  assert (Pu : forall R, Pt R -> unimodular R) by (intros R (u & G); exact (hall_group_unimodular _ _ G)).
  assert (P1 : Pt I3) by (exists v0; apply gen_one).
  assert (Pm : forall R R', Pt R -> Pt R' -> Pt (mmul R R')) by (intros R R' (u & G) (w & G'); eexists; exact (gen_comp _ _ _ G G')).
  assert (Pi : forall R R', Pt R -> mmul R' R = I3 -> Pt R').
  { intros R R' (u & G) E. pose proof (group_inverse h (R, u) G) as Gi. exists (snd (op_inv (R, u))).
    assert (X : R' = fst (op_inv (R, u))); [| rewrite X; exact Gi].
    pose proof (op_inv_l (R, u) (hall_group_unimodular _ _ G)) as Y. unfold op_comp, op_id in Y. apply (f_equal fst) in Y. cbn [fst] in Y. rewrite <- E in Y.
    pose proof (f_equal (fun x => mmul x (minv R)) Y) as Y'. cbv beta in Y'. rewrite <- !mmul_assoc, !(minv_r R (hall_group_unimodular _ _ G)), !mmul_I_r in Y'. cbn [fst] in *. symmetry. exact Y'. }
  assert (Rc : forall R v, Pt R \/ Pt (mopp R) -> centring (ls_char (h_lat h)) v -> centring (ls_char (h_lat h)) (mvmul R v)).
  { intros R v [(u & G) | (u & G)] C; [exact (rot_centring h R u v T G C) |].
    pose proof (rot_centring h _ u v T G C) as X. rewrite mvmul_mopp' in X. apply in_lat_opp in X. rewrite vopp_vopp' in X. exact X. }
  assert (Bz : forall R, Pt R -> hall_group (bare h) (R, v0)).
  { intros R HR. apply (C90_bare_group h V T). split; [exact HR | apply in_lat_0]. }
  assert (K : forall o, hall_group (patterson h) o -> (Pt (fst o) \/ Pt (mopp (fst o))) /\ centring (ls_char (h_lat h)) (snd o)).
  { intros o G.
    induction G as [| o Go | a b Ga [IHa Ca] Gb [IHb Cb] | a b Ga [IHa Ca] E | a b Ga [IHa Ca] E].
    - split; [left; exact P1 | apply in_lat_0].
    - destruct Go as [(v & Iv & ->) | [(Mi & ->) | A]].
      + split; [left; exact P1 | exists v; split; [exact Iv | apply vcong12_refl]].
      + split; [right; cbn [fst]; rewrite mopp_mopp; exact P1 | apply in_lat_0].
      + assert (Gb : hall_group (bare h) o) by (apply gen_base; right; right; exact A). destruct o as [R t]. apply (C90_bare_group h V T) in Gb.
        cbn [fst snd]. split; [left; exact (proj1 Gb) | exact (proj2 Gb)].
    - split.
      + unfold op_comp. cbn [fst]. destruct IHa as [X | X], IHb as [Y | Y]; pose proof (Pm _ _ X Y) as Q; rewrite ?mmul_mopp_l, ?mmul_mopp_r, ?mopp_mopp in Q; auto.
      + unfold op_comp. cbn [snd]. apply in_lat_add; [exact (Rc _ _ IHa Cb) | exact Ca].
    - destruct (op_comp_id_swap a b E) as [E1 E2].
      assert (Gb : Pt (fst b) \/ Pt (mopp (fst b))).
      { destruct IHa as [X | X]; [left; exact (Pi _ _ X E1) |]. right. apply (Pi _ _ X). rewrite mmul_mopp_l, mmul_mopp_r, mopp_mopp. exact E1. }
      split; [exact Gb |]. rewrite E2. apply in_lat_opp. exact (Rc _ _ Gb Ca).
    - destruct E as [E1 E2]. rewrite <- E1. split; [exact IHa |]. exact (in_lat_cong _ _ _ E2 Ca). }
  intros [R t]. unfold patterson_group. cbn [fst snd]. split.
  - intros G. destruct (K _ G) as [A C]. cbn [fst snd] in A, C. split; [apply (pure_centring h T), C |]. destruct A as [(u & A) | (u & A)]; eauto.
  - intros (C & u & A). apply (pure_centring h T) in C. apply (hall_group_coset (patterson h) R v0 t).
    + destruct A as [A | A]; [apply bare_patterson, Bz; exists u; exact A |].
      assert (X : hall_group (patterson h) (mopp R, v0)) by (apply bare_patterson, Bz; exists u; exact A).
      assert (Y : hall_group (patterson h) (mopp I3, v0)) by (apply gen_base; right; left; auto).
      pose proof (gen_comp _ _ _ Y X) as Q. unfold op_comp in Q. cbn [fst snd] in Q. rewrite mmul_mopp_l, mmul_mopp_r, mopp_mopp, mmul_I_l, mvmul_v0 in Q. exact Q.
    + replace (vsub t v0) with t; [exact C |]. destruct t as [x y z]. unfold vsub, v0. cbn [vx vy vz]. f_equal; ring.
Qed.
(** ** Types *)
Lemma patterson_split (G : op -> Prop) : G (I3, v0) -> split_group (patterson_group G).
Proof.
  intros G0 R t. unfold patterson_group. cbn [fst snd]. split.
  - intros (A & u & B). split; [exists t; split; [exact A | exists u; exact B] |]. split; [exact A | exists v0; left; exact G0].
  - intros ((w & _ & u & B) & (A & _)). split; [exact A | exists u; exact B].
Qed.
Lemma patterson_trans (G : op -> Prop) v : G (I3, v0) -> (patterson_group G (I3, v) <-> G (I3, v)).
Proof. intros G0. unfold patterson_group. cbn [fst snd]. split; [intros (A & _); exact A | intros A; split; [exact A | exists v0; left; exact G0]]. Qed.
Lemma patterson_rot (G : op -> Prop) R : G (I3, v0) -> ((exists t, patterson_group G (R, t)) <-> exists u, G (R, u) \/ G (mopp R, u)).
Proof. intros G0. unfold patterson_group. cbn [fst snd]. split; [intros (t & _ & B); exact B | intros B; exists v0; auto]. Qed.
Lemma patterson_class (G G' : op -> Prop) : G (I3, v0) -> G' (I3, v0) -> same_arithmetic_class G G' ->
  same_arithmetic_class (patterson_group G) (patterson_group G').
Proof.
  intros G0 G0' (M & d & D & N & L1 & L2 & P1 & P2). exists M, d. split; [exact D |]. split; [exact N |].
  assert (O : forall R R', mmul M (mopp R) = mmul R' M -> mmul M R = mmul (mopp R') M).
  { intros R R' E. rewrite mmul_mopp_l, <- E, mmul_mopp_r, mopp_mopp. reflexivity. }
  assert (O' : forall R R', mmul M R = mmul (mopp R') M -> mmul M (mopp R) = mmul R' M).
  { intros R R' E. rewrite mmul_mopp_r, E, mmul_mopp_l, mopp_mopp. reflexivity. }
  split; [intros v H; destruct (L1 v (proj1 (patterson_trans G v G0) H)) as (v' & H' & E); exists v'; split; [exact (proj2 (patterson_trans G' v' G0') H') | exact E] |].
  split; [intros v' H; destruct (L2 v' (proj1 (patterson_trans G' v' G0') H)) as (v & H' & E); exists v; split; [exact (proj2 (patterson_trans G v G0) H') | exact E] |].
  split.
  - intros R t (_ & u & [A | A]); cbn [fst snd] in A; destruct (P1 _ _ A) as (R' & u' & A' & E).
    + exists R', v0. split; [split; [exact G0' | exists u'; left; exact A'] | exact E].
    + exists (mopp R'), v0. split; [split; [exact G0' | exists u'; right; cbn [fst]; rewrite mopp_mopp; exact A'] | exact (O _ _ E)].
  - intros R' t (_ & u & [A | A]); cbn [fst snd] in A; destruct (P2 _ _ A) as (R & u' & A' & E).
    + exists R, v0. split; [split; [exact G0 | exists u'; left; exact A'] | exact E].
    + exists (mopp R), v0. split; [split; [exact G0 | exists u'; right; cbn [fst]; rewrite mopp_mopp; exact A'] | exact (O' _ _ E)].
Qed.

(** one row: rotations up to sign against a centrosymmetric row *)
Definition sign_pair (a b : hall * list seitz) : bool :=
  if letter_eqb (data_letter a) (data_letter b) then
    forallb (fun m => pinb (rot m) (snd b) && pinb (mopp (rot m)) (snd b)) (snd a) &&
    forallb (fun m => pinb (rot m) (snd a) || pinb (mopp (rot m)) (snd a)) (snd b)
  else false.
Lemma sign_class fuel h g fuel' h' g' : general_positions fuel h = Done g -> general_positions fuel' h' = Done g' ->
  no_extra_translations h -> no_extra_translations h' -> sign_pair (h, gp_core g) (h', gp_core g') = true ->
  same_arithmetic_class (patterson_group (hall_group h)) (hall_group h').
Proof.
  intros H H' T T' K. unfold sign_pair in K. destruct (letter_eqb (data_letter (h, gp_core g)) (data_letter (h', gp_core g'))) eqn:L; [| discriminate K].
  rewrite andb_true_iff, !forallb_forall in K. destruct K as (A & B). cbn [snd] in A, B. unfold data_letter in L. cbn [fst] in L.
  assert (E : ls_char (h_lat h) = ls_char (h_lat h')) by (destruct (ls_char (h_lat h)), (ls_char (h_lat h')); try discriminate L; reflexivity).
  assert (G0 : hall_group h (I3, v0)) by apply gen_one.
  apply class_same.
  - intros v. rewrite (patterson_trans _ v G0), (pure_centring h T), (pure_centring h' T'), E. reflexivity.
  - intros R. rewrite (patterson_rot _ R G0), (C26_point_group_complete _ _ _ H' R). split.
    + intros (u & [X | X]); destruct (proj1 (C26_point_group_complete _ _ _ H _) (ex_intro _ u X)) as (m & Im & Em); specialize (A m Im); apply andb_true_iff in A; destruct A as [A1 A2].
      * apply pinb_spec. rewrite <- Em. exact A1.
      * apply pinb_spec. rewrite <- (mopp_mopp R), <- Em. exact A2.
    + intros (m & Im & <-). specialize (B m Im). apply orb_true_iff in B. destruct B as [B | B]; apply pinb_spec in B; apply (C26_point_group_complete _ _ _ H) in B; destruct B as (u & B); exists u; auto.
Qed.
(** rows of the full table with the 24 symmetries, and their numbers *)
Definition patterson_rows : list (nat * nat) :=
  [(1, 2); (56, 10); (62, 12); (226, 47); (309, 65); (310, 65); (333, 69); (336, 71); (356, 83); (362, 87); (399, 123); (423, 139);
   (434, 147); (435, 148); (453, 162); (455, 164); (457, 166); (468, 175); (484, 191); (493, 200); (496, 202); (499, 204); (516, 221);
   (522, 225); (528, 229)]%nat.
Definition patterson_numbers_check : bool :=
  forallb (fun x => match nth_error full_number (fst x) with
    | Some label => Nat.eqb (leading_number label) (snd x) && negb (Nat.eqb (snd x) 24) | None => false end) patterson_rows.
Definition listed_under (n k : nat) : bool := existsb (fun x => if Nat.eqb (fst x) k then inb n (snd x) else false) patterson_types.
Definition patterson_row_check (n : nat) (d : hall * list seitz) : bool :=
  existsb (fun x => if listed_under n (snd x) then match nth_error full_groups (fst x) with Some p => sign_pair d p | None => false end else false) patterson_rows.
Lemma patterson_numbers_ok : patterson_numbers_check = true.
Proof. vm_cast_no_check (@eq_refl bool true). Qed.
Lemma patterson_rows_ok : forallb (fun p => patterson_row_check (fst p) (snd p)) (combine (seq 1 230) default_groups) = true.
Proof. vm_cast_no_check (@eq_refl bool true). Qed.
Lemma listed_under_spec n k : listed_under n k = true -> exists ns, In (k, ns) patterson_types /\ In n ns.
Proof.
  unfold listed_under. intros H. apply existsb_exists in H. destruct H as ((k' & ns) & I & K). cbn [fst snd] in K.
  destruct (Nat.eqb k' k) eqn:E; [| discriminate K]. apply Nat.eqb_eq in E. subst k'. exists ns. split; [exact I | apply inb_spec, K].
Qed.
Lemma seq_at n : (1 <= n <= 230)%nat -> nth_error (seq 1 230) (pred n) = Some n.
Proof. intros W. rewrite (nth_error_nth' _ 0%nat) by (rewrite seq_length; lia). rewrite seq_nth by lia. f_equal. lia. Qed.
(** the lists *)
Section Lists.
Variable L : list (nat * list nat).
Variable top : nat.
Definition numbers_check : bool :=
  forallb (fun n => match filter (fun x => inb n (snd x)) L with [_] => true | _ => false end) (seq 1 top) &&
  forallb (fun x => inb (fst x) (snd x) && inb (fst x) symmorphic_types && forallb (fun n => Nat.leb 1 n && Nat.leb n top) (snd x)) L.
Hypothesis Ok : numbers_check = true.
Lemma number_entry_unique n x y : (1 <= n <= top)%nat -> In x L -> In y L -> In n (snd x) -> In n (snd y) -> x = y.
Proof.
  intros W Ix Iy Jx Jy. pose proof Ok as K. unfold numbers_check in K. apply andb_true_iff in K. destruct K as [K _].
  rewrite forallb_forall in K. assert (S : In n (seq 1 top)) by (apply in_seq; lia). specialize (K n S).
  assert (Fx : In x (filter (fun x => inb n (snd x)) L)) by (apply filter_In; split; [exact Ix | apply inb_spec, Jx]).
  assert (Fy : In y (filter (fun x => inb n (snd x)) L)) by (apply filter_In; split; [exact Iy | apply inb_spec, Jy]).
  destruct (filter (fun x => inb n (snd x)) L) as [| z [| z' r]]; [discriminate K | | discriminate K].
  destruct Fx as [<- | []]. destruct Fy as [<- | []]. reflexivity.
Qed.
Lemma number_entry_exists n : (1 <= n <= top)%nat -> exists x, In x L /\ In n (snd x).
Proof.
  intros W. pose proof Ok as K. unfold numbers_check in K. apply andb_true_iff in K. destruct K as [K _].
  rewrite forallb_forall in K. assert (S : In n (seq 1 top)) by (apply in_seq; lia). specialize (K n S).
  destruct (filter (fun x => inb n (snd x)) L) as [| z r] eqn:F; [discriminate K |].
  exists z. assert (I : In z (z :: r)) by (left; reflexivity). rewrite <- F in I. apply filter_In in I. destruct I as [I J]. split; [exact I | apply inb_spec, J].
Qed.
Lemma number_entry_head x : In x L -> In (fst x) (snd x) /\ In (fst x) symmorphic_types /\ forall n, In n (snd x) -> (1 <= n <= top)%nat.
Proof.
  intros I. pose proof Ok as K. unfold numbers_check in K. apply andb_true_iff in K. destruct K as [_ K]. rewrite forallb_forall in K. specialize (K x I).
  rewrite !andb_true_iff in K. destruct K as [[K1 K2] K3]. apply inb_spec in K1, K2. split; [exact K1 |]. split; [exact K2 |].
  intros n J. rewrite forallb_forall in K3. specialize (K3 n J). apply andb_true_iff in K3. destruct K3 as [A B]. apply Nat.leb_le in A, B. lia.
Qed.
End Lists.
Lemma numbers_ok : numbers_check patterson_types 230 = true. Proof. vm_cast_no_check (@eq_refl bool true). Qed.
(** a default row and the default row of its Patterson symmetry *)
Lemma row_patterson n h0 g0 : (1 <= n <= 230)%nat -> general_positions 10 h0 = Done g0 -> no_extra_translations h0 ->
  nth_error default_groups (pred n) = Some (h0, gp_core g0) ->
  exists k ns sk hk gk, In (k, ns) patterson_types /\ In n ns /\ (1 <= k <= 230)%nat /\ get_hall_symbol default_table (pred k) = Some sk /\
    try_from_str sk = Done (Some hk) /\ general_positions 10 hk = Done gk /\ no_extra_translations hk /\
    same_arithmetic_class (patterson_group (hall_group h0)) (hall_group hk).
Proof.
  intros W G T D. pose proof patterson_rows_ok as K. rewrite forallb_forall in K.
  specialize (K (n, (h0, gp_core g0)) (nth_error_combine _ _ _ _ _ (seq_at n W) D)). cbn [fst snd] in K. unfold patterson_row_check in K.
  apply existsb_exists in K. destruct K as ((i & k) & Ir & K). cbn [fst snd] in K. destruct (listed_under n k) eqn:Lu; [| discriminate K].
  apply listed_under_spec in Lu. destruct Lu as (ns & Ik & Jn). destruct (nth_error full_groups i) as [p |] eqn:Ep; [| discriminate K].
  pose proof patterson_numbers_ok as HN. unfold patterson_numbers_check in HN. rewrite forallb_forall in HN. specialize (HN _ Ir). cbn [fst snd] in HN.
  destruct (nth_error full_number i) as [label' |] eqn:Elf; [| discriminate HN]. apply andb_true_iff in HN. destruct HN as [HN H24].
  apply Nat.eqb_eq in HN. apply negb_true_iff in H24.
  assert (Ls : exists s1, nth_error full_hall i = Some s1).
  { destruct (nth_error full_hall i) as [s1 |] eqn:E1; [eauto |]. exfalso. apply nth_error_None in E1.
    assert (Q : length full_number = length full_hall) by reflexivity. rewrite <- Q in E1. apply nth_error_None in E1. congruence. }
  destruct Ls as (s1 & E1).
  destruct (row_facts true i label' s1 Elf E1) as (h1 & g1 & P1 & G1 & T1). specialize (G1 10%nat (le_n _)).
  assert (Dp : p = (h1, gp_core g1)).
  { destruct (row_data _ _ full_groups_ok i s1 E1) as (q & Eq & R). unfold row_group in R. rewrite P1, G1 in R. congruence. }
  subst p. pose proof (sign_class _ _ _ _ _ _ G G1 T T1 K) as C.
  destruct (full_row_type i label' s1 Elf E1) as (j & sj & Ej & Hj & Ty).
  change (type_number (leading_number label')) with (if Nat.eqb (leading_number label') 24 then 23%nat else leading_number label') in Ej. rewrite HN, H24 in Ej.
  assert (Wk : (1 <= k <= 230)%nat).
  { destruct (row_number j sj Hj) as (lj & Elj & Enj & _). destruct (default_number_of j lj Elj) as [X Y]. lia. }
  destruct (row_of k Wk) as (lk & sk & hk & gk & Elk & Ek & Enk & Pk & Gk & Tk & _).
  assert (j = pred k) by lia. subst j. assert (sj = sk) by congruence. subst sj.
  exists k, ns, sk, hk, gk. split; [exact Ik |]. split; [exact Jn |]. split; [exact Wk |]. split; [exact Ek |]. split; [exact Pk |]. split; [exact Gk |]. split; [exact Tk |].
  apply (class_trans _ (hall_group h1)); [exact C |].
  destruct Ty as (F & If & _ & Tf). pose proof (turns_class F _ _ If Tf) as C1. apply class_sym in C1.
  apply (class_ext _ (text_group sk)); [exact (row_text sk hk Pk) |]. apply class_sym. exact (class_ext _ _ _ (row_text s1 h1 P1) C1).
Qed.

(** ** C96 *)
Theorem C96_partition :
  length patterson_types = 24%nat /\
  (forall n, (1 <= n <= 230)%nat -> exists! x, In x patterson_types /\ In n (snd x)) /\
  (forall k ns, In (k, ns) patterson_types -> In k ns /\ In k symmorphic_types /\ forall n, In n ns -> (1 <= n <= 230)%nat).
Proof.
  split; [reflexivity |]. split.
  - intros n W. destruct (number_entry_exists _ _ numbers_ok n W) as (x & I & J). exists x. split; [auto |]. intros y [Iy Jy]. exact (number_entry_unique _ _ numbers_ok n x y W I Iy J Jy).
  - intros k ns I. exact (number_entry_head _ _ numbers_ok _ I).
Qed.
(** the number of the Patterson symmetry *)
Theorem C96_patterson_number :
  forall h n, all_symbols_valid h -> no_extra_translations h -> of_type h n ->
    forall k, of_type (patterson h) k <-> exists ns, In (k, ns) patterson_types /\ In n ns.
Proof.
  intros h n V T Ty. pose proof (C87_number_range _ _ Ty) as W. destruct (type_class h n Ty) as (s & h0 & g0 & _ & E & P & G & T0 & A).
  destruct (row_of n W) as (label & s' & h' & g' & El & E' & En & P' & G' & T' & D).
  assert (s' = s) by congruence. subst s'. assert (h' = h0) by congruence. subst h'. assert (g' = g0) by congruence. subst g'.
  destruct (row_patterson n h0 g0 W G T0 D) as (k & ns & sk & hk & gk & Ik & Jn & Wk & Ek & Pk & Gk & Tk & C).
  assert (G0 : hall_group h (I3, v0)) by apply gen_one. assert (G00 : hall_group h0 (I3, v0)) by apply gen_one.
  pose proof (class_trans _ _ _ (patterson_class _ _ G0 G00 A) C) as C1.
  assert (Sk : split_group (hall_group hk)).
  { destruct (number_entry_head _ _ numbers_ok _ Ik) as (_ & Hs & _). cbn [fst] in Hs.
    destruct (class_exists k Wk) as (c & Ic & Jc). destruct (class_head c Ic) as (x & F). pose proof (proj1 (head_in c x F k) (conj Jc Hs)) as X. subst x.
    exact (proj2 (class_fact c k k sk sk hk hk gk gk Ic F Jc Ek Pk Gk Tk Ek Pk Gk Tk)). }
  assert (Tp : same_type (hall_group (patterson h)) (hall_group hk)).
  { assert (S1 : split_group (hall_group (patterson h))).
    { intros R t. pose proof (patterson_split (hall_group h) G0 R t) as X. pose proof (C96_patterson_group h V T) as Q.
      rewrite (Q (R, t)), X, (Q (I3, t)). split; intros [(u & Y) Y']; (split; [exists u | exact Y']); apply Q, Y. }
    apply split_type; [exact S1 | exact Sk | intros v; apply group_opp |].
    apply class_sym. apply (class_ext _ (patterson_group (hall_group h))); [intros o; symmetry; exact (C96_patterson_group h V T o) |]. apply class_sym, C1. }
  assert (Ty1 : of_type (patterson h) k).
  { destruct (row_of k Wk) as (lk & sk' & hk' & gk' & Elk & Ek' & Enk & Pk' & _). assert (sk' = sk) by congruence. subst sk'.
    exists (pred k), lk, sk. split; [exact Elk |]. split; [exact Ek |]. split; [exact Enk |].
    destruct Tp as (f & If & Kf & Tf). exists f. split; [exact If |]. split; [exact Kf |].
    exact (turns_same _ _ _ _ (fun o => iff_sym (row_text sk hk Pk o)) Tf). }
  intros k'. split.
  - intros Ty'. exists ns. split; [| exact Jn]. assert (k' = k); [| subst k'; exact Ik].
    destruct Ty1 as (j & l1 & s1 & El1 & E1 & En1 & T1). destruct Ty' as (j' & l2 & s2 & El2 & E2 & En2 & T2).
    assert (j = j').
    { apply (proj1 (C58_default_rows_are_different_types j j' s1 s2 E1 E2)). apply (same_type_trans _ (hall_group (patterson h))); [apply same_type_sym, T1 | exact T2]. }
    subst j'. congruence.
  - intros (ns' & I' & J'). pose proof (number_entry_unique _ _ numbers_ok n _ _ W Ik I' Jn J') as Eq. injection Eq as <- <-. exact Ty1.
Qed.
(** the notation returns positions when the centrosymmetric version of the given one does *)
Theorem C96_patterson_returns :
  forall h, returns (Hall (LS true (ls_char (h_lat h))) (h_syms h) (h_shift h)) -> returns (patterson h).
Proof. intros h R. exact (C90_bare_returns _ R). Qed.
(** every result has exactly one of the 24 *)
Theorem C96_exactly_one_symmetry :
  forall fuel h g, general_positions fuel h = Done g -> no_extra_translations h ->
    exists! x, In x patterson_types /\ of_type (patterson h) (fst x).
Proof.
  intros fuel h g H T. pose proof (result_valid _ _ _ H) as V. destruct (C87_exactly_one_number _ _ _ H) as (n & Ty & _).
  pose proof (C87_number_range _ _ Ty) as W. destruct (number_entry_exists _ _ numbers_ok n W) as ((k & ns) & I & J). cbn [snd] in J.
  exists (k, ns). split.
  - split; [exact I |]. cbn [fst]. apply (C96_patterson_number h n V T Ty). eauto.
  - intros (k' & ns') [I' T']. cbn [fst] in T'. apply (C96_patterson_number h n V T Ty) in T'. destruct T' as (ns2 & I2 & J2).
    pose proof (number_entry_unique _ _ numbers_ok n _ _ W I I2 J J2) as Eq. injection Eq as <- <-.
    destruct (number_entry_head _ _ numbers_ok _ I) as (Jk & _ & Rk). destruct (number_entry_head _ _ numbers_ok _ I') as (Jk' & _ & Rk'). cbn [fst snd] in *.
    exact (number_entry_unique _ _ numbers_ok k _ _ (Rk k Jk) I I' Jk Jk').
Qed.
(** "P 41" (76): P 4/m (83) *)
Example C96_case : (exists g, general_positions 10 (parsed "P 41") = Done g) /\ of_type (parsed "P 41") 76 /\ no_extra_translations (parsed "P 41") /\
  patterson (parsed "P 41") = parsed "-P 4" /\ of_type (patterson (parsed "P 41")) 83.
Proof.
  destruct C87_cases as (H & Ty & _). split; [exact H |]. split; [exact Ty |].
  assert (T : no_extra_translations (parsed "P 41")).
  { destruct (row_of 76) as (label & s & h & g & El & E & En & P & G & T & _); [lia |].
    assert (Es : get_hall_symbol default_table (pred 76) = Some "P 41"%string) by reflexivity. assert (s = "P 41"%string) by congruence. subst s.
    assert (Ep : try_from_str "P 41" = Done (Some (parsed "P 41"))) by (vm_compute; reflexivity). assert (h = parsed "P 41") by congruence. subst h. exact T. }
  split; [exact T |]. split; [vm_compute; reflexivity |]. destruct H as (g & H).
  apply (C96_patterson_number _ 76 (result_valid _ _ _ H) T Ty). eexists. split; [exact (nth_error_In patterson_types 7%nat eq_refl) |]. cbn; tauto.
Qed.
