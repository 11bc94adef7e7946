(** * PropTypes: properties C57, C58, C59: the space-group types of the table rows. *)
From Coq Require Import QArith Permutation.
From Verif Require Import Base Notations Parser Seitz F64 Jones Rotations Tables Generate Positions Lookup
  Spec SpecHall SpecTables SpecType Algebra PropSeitz PropSymbols GenFacts PropGenerate GroupCheck PropFullSets
  PropShift PropTables PropTableGroups TypeFacts TypeCount TypeData.
Open Scope Z_scope.
Local Notation length := List.length.

(** ** Primitive cells *)
(** basis of the lattice of each centring type (columns, in twelfths), and 12 times its inverse *)
Definition pbasis (l : lattice) : mat3 :=
  match l with
  | LP => M3 12 0 0 0 12 0 0 0 12 | LA => M3 12 0 0 0 12 6 0 0 6 | LB => M3 12 0 6 0 12 0 0 0 6
  | LC => M3 12 6 0 0 6 0 0 0 12 | LI => M3 12 0 6 0 12 6 0 0 6 | LR => M3 12 0 8 0 12 4 0 0 4
  | LF => M3 0 6 6 6 0 6 6 6 0
  end.
Definition pdual (l : lattice) : mat3 :=
  match l with
  | LP => M3 1 0 0 0 1 0 0 0 1 | LA => M3 1 0 0 0 1 (-1) 0 0 2 | LB => M3 1 0 (-1) 0 1 0 0 0 2
  | LC => M3 1 (-1) 0 0 2 0 0 0 1 | LI => M3 1 0 (-1) 0 1 (-1) 0 0 2 | LR => M3 1 0 (-2) 0 1 (-1) 0 0 3
  | LF => M3 (-1) 1 1 1 (-1) 1 1 1 (-1)
  end.
Lemma dual_basis l : mmul (pdual l) (pbasis l) = mscale 12 I3. Proof. destruct l; reflexivity. Qed.
Lemma basis_dual l : mmul (pbasis l) (pdual l) = mscale 12 I3. Proof. destruct l; reflexivity. Qed.
Lemma pdual_det l : 0 < mdet (pdual l). Proof. destruct l; reflexivity. Qed.
Lemma in_lat_scale l k v : in_lat l v -> in_lat l (vscale k v).
Proof.
  intros H. assert (P : forall n : nat, in_lat l (vscale (Z.of_nat n) v)).
  { induction n as [| n IH].
    - replace (vscale (Z.of_nat 0) v) with v0 by mat_ring. apply in_lat_0.
    - rewrite Nat2Z.inj_succ. replace (vscale (Z.succ (Z.of_nat n)) v) with (vadd (vscale (Z.of_nat n) v) v).
      + apply in_lat_add; auto.
      + unfold Z.succ. generalize (Z.of_nat n). mat_ring. }
  destruct (Z.le_gt_cases 0 k) as [K | K].
  - specialize (P (Z.to_nat k)). rewrite Z2Nat.id in P by auto. exact P.
  - specialize (P (Z.to_nat (- k))). rewrite Z2Nat.id in P by lia. apply in_lat_opp in P.
    replace (vscale k v) with (vopp (vscale (- k) v)) by mat_ring. exact P.
Qed.
Lemma basis_in_lat l k : in_lat l (mvmul (pbasis l) k).
Proof.
  assert (B : in_lat l (mvmul (pbasis l) (V3 1 0 0)) /\ in_lat l (mvmul (pbasis l) (V3 0 1 0))
    /\ in_lat l (mvmul (pbasis l) (V3 0 0 1))).
  { destruct l; split; [| split | | split | | split | | split | | split | | split | | split];
    apply in_latb_spec; reflexivity. }
  destruct B as (B1 & B2 & B3). destruct k as [x y z].
  replace (mvmul (pbasis l) (V3 x y z)) with
    (vadd (vadd (vscale x (mvmul (pbasis l) (V3 1 0 0))) (vscale y (mvmul (pbasis l) (V3 0 1 0))))
          (vscale z (mvmul (pbasis l) (V3 0 0 1)))) by (generalize (pbasis l); mat_ring).
  apply in_lat_add; [apply in_lat_add |]; apply in_lat_scale; auto.
Qed.
Lemma dual_of_lat l v : in_lat l v -> exists z, mvmul (pdual l) v = vscale 12 z.
Proof.
  intros (u & Hu & C). apply vcong12_scale in C. destruct C as (w & C).
  assert (K : forallb (fun u => vmod0 12 (mvmul (pdual l) u)) (translations l) = true) by (destruct l; reflexivity).
  rewrite forallb_forall in K. specialize (K u Hu). apply vmod0_iff in K; [| lia]. destruct K as (y & Y).
  exists (vadd y (mvmul (pdual l) w)). replace v with (vadd u (vscale 12 w)) by (rewrite <- C; mat_ring).
  rewrite mvmul_vadd, Y. generalize (pdual l). mat_ring.
Qed.
Definition mdiv12 (M : mat3) : mat3 :=
  M3 (m11 M / 12) (m12 M / 12) (m13 M / 12) (m21 M / 12) (m22 M / 12) (m23 M / 12)
     (m31 M / 12) (m32 M / 12) (m33 M / 12).
Definition prim_op (l : lattice) (m : seitz) : op :=
  (mdiv12 (mmul (mmul (pdual l) (rot m)) (pbasis l)), mvmul (pdual l) (tra m)).
Fixpoint distinct_mats (l : list mat3) : bool :=
  match l with [] => true | R :: r => if existsb (meqb R) r then false else distinct_mats r end.
Definition prim_check (l : lattice) (core : list seitz) : bool :=
  let pc := map (prim_op l) core in
  forallb (fun m => meqb (mscale 12 (fst (prim_op l m))) (mmul (mmul (pdual l) (rot m)) (pbasis l))) core
  && distinct_mats (map fst pc)
  && existsb (fun o => meqb (fst o) I3 && vmod0 12 (snd o)) pc
  && forallb (fun o => negb (meqb (fst o) I3) || vmod0 12 (snd o)) pc.
Lemma distinct_mats_NoDup l : distinct_mats l = true -> NoDup l.
Proof.
  induction l as [| R l IH]; cbn [distinct_mats]; [constructor |].
  destruct (existsb (meqb R) l) eqn:E; [discriminate |]. intros H. constructor; auto.
  intros C. assert (X : existsb (meqb R) l = true); [| congruence].
  apply existsb_exists. exists R. split; auto. apply meqb_refl.
Qed.
Lemma vmod0_vcong v : vmod0 12 v = true -> vcong12 v v0.
Proof. intros H. apply vmod0_iff in H; [| lia]. destruct H as (z & ->). apply vcong12_12. Qed.
Lemma prim_check_good l core : prim_check l core = true -> good_core (map (prim_op l) core).
Proof.
  unfold prim_check. cbv zeta. rewrite !andb_true_iff. intros (((_ & N) & E) & P). split; [| split].
  - apply distinct_mats_NoDup, N.
  - apply existsb_exists in E. destruct E as ((R, t) & Ho & C). cbn [fst snd] in C.
    apply andb_true_iff in C. destruct C as [C1 C2]. apply meqb_eq in C1. subst R.
    exists t. split; auto. apply vmod0_vcong, C2.
  - intros m Hm R. rewrite forallb_forall in P. specialize (P m Hm).
    rewrite R, meqb_refl in P. cbn [negb orb] in P. apply vmod0_vcong, P.
Qed.
Definition prim_change (l : lattice) : change := Ch (pdual l) v0 1.
Lemma prim_invertible l : invertible (prim_change l).
Proof. split; [reflexivity |]. cbn. pose proof (pdual_det l). lia. Qed.
Lemma prim_turns p : certified p -> prim_check (ls_char (h_lat (fst p))) (snd p) = true ->
  turns_into (prim_change (ls_char (h_lat (fst p)))) (hall_group (fst p))
    (pgroup (map (prim_op (ls_char (h_lat (fst p)))) (snd p))).
Proof.
  intros Ce Ck. set (l := ls_char (h_lat (fst p))) in *.
  assert (R12 : forall m, In m (snd p) -> mmul (pdual l) (rot m) = mmul (fst (prim_op l m)) (pdual l)).
  { intros m Hm. unfold prim_check in Ck. cbv zeta in Ck. rewrite !andb_true_iff in Ck.
    destruct Ck as (((F & _) & _) & _). rewrite forallb_forall in F. specialize (F m Hm). apply meqb_eq in F.
    apply (mscale_inj 12); [lia |]. rewrite <- (mmul_mscale_l 12 (fst (prim_op l m))), F, <- mmul_assoc, basis_dual.
    rewrite mmul_mscale_r, mmul_I_r. reflexivity. }
  split.
  - intros o G. assert (C := ck_group _ _ (proj1 Ce) o G). fold l in C. destruct C as (m & Hm & R & L).
    exists (fst (prim_op l m), mvmul (pdual l) (snd o)). split.
    + exists (prim_op l m). split; [apply in_map; auto |]. split; auto. cbn [snd prim_op].
      destruct (dual_of_lat l _ L) as (z & Z). apply vcong12_scale. exists z. rewrite <- Z, mvmul_vsub. reflexivity.
    + apply carries_iff; [reflexivity |]. split; cbn [prim_change ch_M ch_q ch_d fst snd].
      * rewrite <- R. apply R12, Hm.
      * rewrite mvmul_v0. generalize (mvmul (pdual l) (snd o)). mat_ring.
  - intros o' (x & Hx & R & C). apply in_map_iff in Hx. destruct Hx as (m & <- & Hm).
    apply vcong12_scale in C. destruct C as (z & C). cbn [prim_op snd] in C.
    exists (rot m, vadd (tra m) (mvmul (pbasis l) z)). split.
    + apply (in_core_group p l); auto. exists m. split; auto. split; auto. cbn [snd].
      replace (vsub (vadd (tra m) (mvmul (pbasis l) z)) (tra m)) with (mvmul (pbasis l) z)
        by (generalize (mvmul (pbasis l) z); mat_ring). apply basis_in_lat.
    + apply carries_iff; [reflexivity |]. split; cbn [prim_change ch_M ch_q ch_d fst snd].
      * rewrite <- R. apply R12, Hm.
      * rewrite mvmul_v0, mvmul_vadd, <- mvmul_mmul, dual_basis, mvmul_mscale, mvmul_I, <- C.
        generalize (mvmul (pdual l) (tra m)). mat_ring.
Qed.
(** the primitive form of the group of a text *)
Definition group_prim (p : hall * list seitz) : option (list op) :=
  let l := ls_char (h_lat (fst p)) in
  if prim_check l (snd p) then Some (map (prim_op l) (snd p)) else None.
Definition row_prim (s : string) : option (list op) :=
  match row_group s with Some p => group_prim p | None => None end.
Definition known_row (s : string) : Prop := In s full_hall \/ In s default_hall.
Lemma row_prim_spec s c : known_row s -> row_prim s = Some c ->
  good_core c /\ exists f, invertible f /\ keeps_handedness f /\ turns_into f (text_group s) (pgroup c).
Proof.
  intros K H. assert (X : exists p, row_group s = Some p /\ certified p)
    by (destruct K; [apply full_certified | apply default_certified]; auto).
  destruct X as (p & R & Ce). unfold row_prim, group_prim in H. rewrite R in H. cbv zeta in H.
  destruct (prim_check _ _) eqn:Ck; [| discriminate]. injection H as <-.
  split; [apply prim_check_good, Ck |]. exists (prim_change (ls_char (h_lat (fst p)))).
  split; [apply prim_invertible |]. split; [apply pdual_det |].
  destruct (prim_turns p Ce Ck) as [T S]. split.
  - intros o G. apply (text_group_row _ _ R) in G. auto.
  - intros o' G'. destruct (S o' G') as (o & G & C). exists o. split; auto. apply (text_group_row _ _ R), G.
Qed.

(** ** Checking a change of coordinates between primitive groups *)
Definition change_of (w : mat3 * vec3 * Z) : change :=
  let '(U, q, e) := w in Ch (mscale e U) q e.
Definition moved (U : mat3) (q : vec3) (e : Z) (m m' : op) : bool :=
  if meqb (mmul U (fst m)) (mmul (fst m') U) then
    vmod0 (12 * e) (vadd (vscale e (vsub (mvmul U (snd m)) (snd m'))) (vsub q (mvmul (fst m') q)))
  else false.
Definition change_check (w : mat3 * vec3 * Z) (c c' : list op) : bool :=
  let '(U, q, e) := w in
  (0 <? e) && (Z.abs (mdet U) =? 1)
  && forallb (fun m => existsb (moved U q e m) c') c
  && forallb (fun m' => existsb (fun m => moved U q e m m') c) c'.
Lemma change_check_spec w c c' : change_check w c c' = true ->
  invertible (change_of w) /\ turns_into (change_of w) (pgroup c) (pgroup c').
Proof.
  destruct w as [[U q] e]. unfold change_check, change_of. rewrite !andb_true_iff.
  intros (((E & D) & F) & B). apply Z.ltb_lt in E. apply Z.eqb_eq in D.
  assert (Un : unimodular U) by (unfold unimodular; lia).
  assert (I : invertible (Ch (mscale e U) q e)).
  { split; cbn; auto. rewrite mdet_mscale. repeat (apply Z.neq_mul_0; split); lia. }
  assert (M : forall m m', moved U q e m m' = true ->
    mmul U (fst m) = mmul (fst m') U /\ exists y, vadd (vscale e (vsub (mvmul U (snd m)) (snd m'))) (vsub q (mvmul (fst m') q)) = vscale (12 * e) y).
  { intros m m' H. unfold moved in H. destruct (meqb _ _) eqn:R; [| discriminate].
    apply meqb_eq in R. apply vmod0_iff in H; [| lia]. auto. }
  rewrite forallb_forall in F, B. split; auto. split.
  - intros o (m & Hm & R & C). apply vcong12_scale in C. destruct C as (z & C).
    specialize (F m Hm). apply existsb_exists in F. destruct F as (m' & Hm' & K).
    destruct (M _ _ K) as (R' & y & Y).
    exists (fst m', vadd (snd m') (vscale 12 (vadd (mvmul U z) y))). split.
    + exists m'. split; auto. split; auto. cbn [snd]. apply vcong12_scale. exists (vadd (mvmul U z) y).
      generalize (vadd (mvmul U z) y). mat_ring.
    + apply carries_iff; auto. split; cbn [ch_M ch_q ch_d fst snd].
      * rewrite <- R, mmul_mscale_l, mmul_mscale_r, R'. reflexivity.
      * replace (snd o) with (vadd (snd m) (vscale 12 z)) by (rewrite <- C; mat_ring). clear - Y.
        rewrite mvmul_mscale. replace (vscale e (vadd (snd m') (vscale 12 (vadd (mvmul U z) y)))) with
          (vadd (vscale e (vadd (snd m') (vscale 12 (mvmul U z)))) (vscale (12 * e) y)) by mring.
        rewrite <- Y. mring.
  - intros o' (m' & Hm' & R & C). apply vcong12_scale in C. destruct C as (z & C).
    specialize (B m' Hm'). apply existsb_exists in B. destruct B as (m & Hm & K).
    destruct (M _ _ K) as (R' & y & Y).
    exists (fst m, vadd (snd m) (vscale 12 (mvmul (minv U) (vsub z y)))). split.
    + exists m. split; auto. split; auto. cbn [snd]. apply vcong12_scale. exists (mvmul (minv U) (vsub z y)).
      generalize (mvmul (minv U) (vsub z y)). intros v. mring.
    + apply carries_iff; auto. split; cbn [ch_M ch_q ch_d fst snd].
      * rewrite <- R, mmul_mscale_l, mmul_mscale_r, R'. reflexivity.
      * replace (snd o') with (vadd (snd m') (vscale 12 z)) by (rewrite <- C; mat_ring).
        rewrite mvmul_mscale, mvmul_vadd, mvmul_vscale, <- (mvmul_mmul U), minv_r, mvmul_I, <- R by auto.
        clear - Y. replace (vscale e (vadd (mvmul U (snd m)) (vscale 12 (vsub z y)))) with
          (vsub (vadd (vscale e (mvmul U (snd m))) (vscale (12 * e) z)) (vscale (12 * e) y)) by mring.
        rewrite <- Y. mring.
Qed.

(** ** The rows *)
Definition default_cores : list (list op) := Eval vm_compute in
  map (fun p => match group_prim p with Some c => c | None => [] end) default_groups.
Lemma prims_by_data halls groups : map row_group halls = map Some groups -> map row_prim halls = map group_prim groups.
Proof.
  revert groups. induction halls as [| s halls IH]; intros [| p groups] E; try discriminate; [reflexivity |].
  cbn [map] in E |- *. injection E as E1 E2. unfold row_prim at 1. rewrite E1, (IH _ E2). reflexivity.
Qed.
Lemma default_cores_ok : map row_prim default_hall = map Some default_cores.
Proof.
  refine (eq_trans (prims_by_data _ _ default_groups_ok) _).
  vm_cast_no_check (@eq_refl (list (option (list op))) (map Some default_cores)).
Qed.
Lemma default_core i s : nth_error default_hall i = Some s ->
  exists c, nth_error default_cores i = Some c /\ row_prim s = Some c.
Proof.
  intros H. assert (E := f_equal (fun l => nth_error l i) default_cores_ok). cbv beta in E.
  rewrite !nth_error_map, H in E. cbn [option_map] in E.
  destruct (nth_error default_cores i) as [c|]; cbn [option_map] in E; [| discriminate].
  exists c. split; auto. congruence.
Qed.
(** every row of the full table turns into the default row named in [row_changes] *)
Definition row_change_ok (o : option (list op)) (r : nat * (mat3 * vec3 * Z)) : bool :=
  match o, nth_error default_cores (Nat.pred (fst r)) with
  | Some c, Some c' => (0 <? mdet (fst (fst (snd r)))) && change_check (snd r) c c'
  | _, _ => false
  end.
Definition type_number (n : nat) : nat := if Nat.eqb n 24 then 23%nat else n.
Fixpoint row_changes_ok (labels : list string) (halls : list (option (list op))) (ws : list (nat * (mat3 * vec3 * Z))) : bool :=
  match labels, halls, ws with
  | [], [], [] => true
  | label :: labels, s :: halls, w :: ws =>
      if Nat.eqb (fst w) (type_number (leading_number label)) && Nat.ltb 0 (fst w) then
        if row_change_ok s w then row_changes_ok labels halls ws else false
      else false
  | _, _, _ => false
  end.
Lemma row_changes_sound : forall labels halls ws, row_changes_ok labels halls ws = true ->
  forall i label s, nth_error labels i = Some label -> nth_error halls i = Some s ->
  exists w, fst w = type_number (leading_number label) /\ (0 < fst w)%nat /\ row_change_ok s w = true.
Proof.
  induction labels as [| a labels IH]; intros [| b halls] [| w ws] H i label s; cbn [row_changes_ok] in H; try discriminate.
  - destruct i; discriminate.
  - destruct (Nat.eqb (fst w) _ && Nat.ltb 0 (fst w)) eqn:E; [| discriminate].
    destruct (row_change_ok b w) eqn:R; [| discriminate].
    destruct i as [| i]; cbn [nth_error]; [| apply IH with ws; auto].
    intros Hl Hs. exists w. apply andb_true_iff in E. destruct E as [E E'].
    apply Nat.eqb_eq in E. apply Nat.ltb_lt in E'. replace s with b by congruence. split; [congruence | auto].
Qed.
Lemma row_changes_checked : row_changes_ok full_number (map row_prim full_hall) row_changes = true.
Proof.
  refine (eq_trans (f_equal (fun x => row_changes_ok full_number x row_changes) (prims_by_data _ _ full_groups_ok)) _).
  vm_cast_no_check (@eq_refl bool true).
Qed.
(** the invariants *)
Fixpoint zlist_eqb (a b : list Z) : bool :=
  match a, b with
  | [], [] => true
  | x :: a', y :: b' => if x =? y then zlist_eqb a' b' else false
  | _, _ => false
  end.
Lemma zlist_eqb_refl a : zlist_eqb a a = true.
Proof. induction a as [| x a IH]; cbn [zlist_eqb]; [reflexivity |]. rewrite Z.eqb_refl. exact IH. Qed.
Fixpoint lookup_formulas (c : list Z) (t : list (list Z * list formula)) : list formula :=
  match t with
  | [] => []
  | (k, fs) :: r => if zlist_eqb k c then fs else lookup_formulas c r
  end.
Definition achiral_formulas (c : list Z) : list formula :=
  filter (fun F => negb (chiral F)) (lookup_formulas c formula_table).
Definition chiral_formulas (c : list Z) : list formula := filter chiral (lookup_formulas c formula_table).
Definition achiral_profile : list op -> list Z * list Z := profile kinds achiral_formulas.
Definition chiral_profile : list op -> list Z * list Z := profile kinds chiral_formulas.
Definition profile_eqb (a b : list Z * list Z) : bool :=
  if zlist_eqb (fst a) (fst b) then zlist_eqb (snd a) (snd b) else false.
Definition in_pairs (i j : nat) : bool :=
  existsb (fun p => if Nat.eqb (fst p) i then Nat.eqb (snd p) j else false) mirror_pairs.
Definition entry := (nat * (list Z * list Z) * (list Z * list Z))%type.
Definition apart (a b : entry) : bool :=
  let '(i, p, x) := a in let '(j, p', x') := b in
  if profile_eqb p p' then if in_pairs i j then negb (profile_eqb x x') else false else true.
Fixpoint all_apart (l : list entry) : bool :=
  match l with [] => true | a :: r => if forallb (apart a) r then all_apart r else false end.
Fixpoint entries (n : nat) (l : list (list op)) : list entry :=
  match l with [] => [] | c :: r => (n, achiral_profile c, chiral_profile c) :: entries (S n) r end.
Lemma entries_nth l : forall n i c, nth_error l i = Some c ->
  nth_error (entries n l) i = Some ((n + i)%nat, achiral_profile c, chiral_profile c).
Proof.
  induction l as [| a l IH]; intros n [| i] c H; cbn [nth_error] in H; try discriminate; cbn [entries nth_error].
  - injection H as <-. rewrite Nat.add_0_r. reflexivity.
  - rewrite (IH (S n) i c H). do 3 f_equal. lia.
Qed.
Lemma all_apart_nth : forall l i j a b, all_apart l = true -> (i < j)%nat ->
  nth_error l i = Some a -> nth_error l j = Some b -> apart a b = true.
Proof.
  induction l as [| x l IH]; intros i j a b H L Ha Hb; [destruct i; discriminate |].
  cbn [all_apart] in H. destruct (forallb (apart x) l) eqn:F; [| discriminate].
  destruct j as [| j]; [lia |]. cbn [nth_error] in Hb. destruct i as [| i]; cbn [nth_error] in Ha.
  - injection Ha as <-. rewrite forallb_forall in F. apply F. eapply nth_error_In; eauto.
  - apply (IH i j); auto. lia.
Qed.
Lemma all_rows_apart : all_apart (entries 1 default_cores) = true.
Proof. vm_compute. reflexivity. Qed.
Lemma formulas_pos : forallb (fun r => forallb formula_pos (snd r)) formula_table = true.
Proof. reflexivity. Qed.
Lemma lookup_pos c F : In F (lookup_formulas c formula_table) -> formula_pos F = true.
Proof.
  generalize formulas_pos. generalize formula_table as t. induction t as [| [k fs] t IH]; cbn [lookup_formulas forallb]; [intros _ [] |].
  intros H. apply andb_true_iff in H. destruct H as [H1 H2]. cbn [snd] in H1.
  destruct (zlist_eqb k c); auto. rewrite forallb_forall in H1. auto.
Qed.
(** a change of coordinates between two default rows *)
Lemma rows_apart i j c c' f : nth_error default_cores i = Some c -> nth_error default_cores j = Some c' ->
  good_core c -> good_core c' -> invertible f -> turns_into f (pgroup c) (pgroup c') -> (i < j)%nat ->
  In (S i, S j) mirror_pairs /\ ~ keeps_handedness f.
Proof.
  intros Hc Hc' G G' I T L.
  assert (A := all_apart_nth _ i j _ _ all_rows_apart L (entries_nth _ 1 i c Hc) (entries_nth _ 1 j c' Hc')).
  unfold apart in A. cbn [Nat.add] in A.
  assert (E : achiral_profile c = achiral_profile c').
  { apply (profile_invariant f); auto. intros k F HF. apply filter_In in HF. destruct HF as [HF HC].
    split; [eapply lookup_pos; eauto |]. intros X. rewrite X in HC. discriminate. }
  rewrite E in A. unfold profile_eqb at 1 in A. rewrite !zlist_eqb_refl in A.
  destruct (in_pairs (S i) (S j)) eqn:P; [| discriminate]. split.
  - unfold in_pairs in P. apply existsb_exists in P. destruct P as ((x, y) & Hx & P). cbn [fst snd] in P.
    destruct (Nat.eqb_spec x (S i)); [| discriminate]. apply Nat.eqb_eq in P. subst. exact Hx.
  - intros K. assert (X : chiral_profile c = chiral_profile c').
    { apply (profile_invariant f); auto. intros k F HF. apply filter_In in HF. destruct HF as [HF HC].
      split; [eapply lookup_pos; eauto | auto]. }
    rewrite X in A. unfold profile_eqb in A. rewrite !zlist_eqb_refl in A. discriminate.
Qed.
Lemma default_row i s : get_hall_symbol default_table i = Some s ->
  exists c, nth_error default_cores i = Some c /\ good_core c /\
    exists g, invertible g /\ keeps_handedness g /\ turns_into g (text_group s) (pgroup c).
Proof.
  intros H. change (nth_error default_hall i = Some s) in H. destruct (default_core i s H) as (c & Hc & R).
  exists c. split; auto. apply row_prim_spec; auto. right. eapply nth_error_In; eauto.
Qed.
Lemma between_rows i j s s' f : get_hall_symbol default_table i = Some s -> get_hall_symbol default_table j = Some s' ->
  invertible f -> turns_into f (text_group s) (text_group s') -> (i < j)%nat ->
  In (S i, S j) mirror_pairs /\ ~ keeps_handedness f.
Proof.
  intros Hs Hs' I T L.
  destruct (default_row i s Hs) as (c & Hc & G & g & Ig & Kg & Tg).
  destruct (default_row j s' Hs') as (c' & Hc' & G' & g' & Ig' & Kg' & Tg').
  destruct (rows_apart i j c c' (ch_comp g' (ch_comp f (ch_inv g))) Hc Hc' G G') as [P N]; auto.
  - auto using invertible_comp, invertible_inv.
  - eapply turns_comp; [| | | exact Tg']; auto using invertible_comp, invertible_inv.
    eapply turns_comp; [| | | exact T]; auto using invertible_inv, turns_inv.
  - split; auto. intros K. apply N. auto using keeps_comp, keeps_inv.
Qed.

(** ** C58  The 230 default rows are of 230 different types *)
Theorem C58_default_rows_are_different_types :
  forall i j s s', get_hall_symbol default_table i = Some s -> get_hall_symbol default_table j = Some s' ->
    (same_type (text_group s) (text_group s') <-> i = j).
Proof.
  intros i j s s' Hs Hs'. split.
  - intros Ty. destruct (Nat.lt_trichotomy i j) as [L | [E | L]]; auto; exfalso.
    + destruct Ty as (f & I & K & T). destruct (between_rows i j s s' f Hs Hs' I T L); auto.
    + apply same_type_sym in Ty. destruct Ty as (f & I & K & T).
      destruct (between_rows j i s' s f Hs' Hs I T L); auto.
  - intros <-. assert (s = s') by congruence. subst. apply same_type_refl.
Qed.

(** ** C59  Mirror images *)
Definition mirror_change_ok (r : nat * nat * (mat3 * vec3 * Z)) : bool :=
  match nth_error default_cores (Nat.pred (fst (fst r))), nth_error default_cores (Nat.pred (snd (fst r))) with
  | Some c, Some c' => change_check (snd r) c c'
  | _, _ => false
  end.
Lemma mirror_changes_checked :
  forallb (fun p => existsb (fun r => Nat.eqb (fst (fst r)) (fst p) && Nat.eqb (snd (fst r)) (snd p) && mirror_change_ok r)
    mirror_changes) mirror_pairs = true.
Proof. vm_compute. reflexivity. Qed.
Lemma mirror_pair_type i j s s' : get_hall_symbol default_table i = Some s -> get_hall_symbol default_table j = Some s' ->
  In (S i, S j) mirror_pairs -> same_type_or_mirror (text_group s) (text_group s').
Proof.
  intros Hs Hs' P. destruct (default_row i s Hs) as (c & Hc & G & g & Ig & Kg & Tg).
  destruct (default_row j s' Hs') as (c' & Hc' & G' & g' & Ig' & Kg' & Tg').
  assert (K := proj1 (forallb_forall _ _) mirror_changes_checked _ P). cbn [fst snd] in K.
  apply existsb_exists in K. destruct K as (((a, b), w) & _ & K). cbn [fst snd] in K.
  rewrite !andb_true_iff, !Nat.eqb_eq in K. destruct K as ((-> & ->) & K). unfold mirror_change_ok in K.
  cbn [fst snd Nat.pred] in K. rewrite Hc, Hc' in K. apply change_check_spec in K. destruct K as [Iw Tw].
  apply (mirror_type_trans _ (pgroup c)); [exists g; auto |].
  apply (mirror_type_trans _ (pgroup c')); [exists (change_of w); auto |].
  apply mirror_type_sym. exists g'; auto.
Qed.
Theorem C59_mirror_images :
  forall i j s s', get_hall_symbol default_table i = Some s -> get_hall_symbol default_table j = Some s' ->
    (same_type_or_mirror (text_group s) (text_group s') <->
     i = j \/ In (S i, S j) mirror_pairs \/ In (S j, S i) mirror_pairs).
Proof.
  intros i j s s' Hs Hs'. split.
  - intros Ty. destruct (Nat.lt_trichotomy i j) as [L | [E | L]]; auto; right.
    + left. destruct Ty as (f & I & T). destruct (between_rows i j s s' f Hs Hs' I T L); auto.
    + right. apply mirror_type_sym in Ty. destruct Ty as (f & I & T).
      destruct (between_rows j i s' s f Hs' Hs I T L); auto.
  - intros [<- | [P | P]].
    + assert (s = s') by congruence. subst. apply same_mirror, same_type_refl.
    + eapply mirror_pair_type; eauto.
    + apply mirror_type_sym. eapply mirror_pair_type; eauto.
Qed.

(** ** C57  Every variant is of the type its number names *)
(** default row [j] carries the number j + 1 *)
Lemma default_numbers : map leading_number default_number = map S (seq 0 230).
Proof. vm_compute. reflexivity. Qed.
Lemma default_number_of j label : get_space_group_number default_table j = Some label ->
  leading_number label = S j /\ (j < 230)%nat.
Proof.
  intros H. change (nth_error default_number j = Some label) in H.
  assert (E := f_equal (fun l => nth_error l j) default_numbers). cbv beta in E.
  rewrite !nth_error_map, H in E. cbn [option_map] in E.
  destruct (nth_error (seq 0 230) j) as [k|] eqn:K; [| discriminate]. cbn [option_map] in E.
  assert (L : (j < length (seq 0 230))%nat) by (apply nth_error_Some; congruence). rewrite seq_length in L.
  apply nth_error_nth with (d := 0%nat) in K. rewrite seq_nth in K by auto.
  split; [| exact L]. assert (leading_number label = S k) by congruence. lia.
Qed.
Lemma full_row_type v label s : variant_number v = Some label -> variant_hall v = Some s ->
  exists j s', S j = type_number (leading_number label) /\ get_hall_symbol default_table j = Some s' /\
    same_type (text_group s) (text_group s').
Proof.
  intros Hl Hs. change (nth_error full_number v = Some label) in Hl. change (nth_error full_hall v = Some s) in Hs.
  assert (Hm : nth_error (map row_prim full_hall) v = Some (row_prim s)) by (rewrite nth_error_map, Hs; reflexivity).
  destruct (row_changes_sound _ _ _ row_changes_checked v label _ Hl Hm) as (w & E & P & K).
  unfold row_change_ok in K. destruct (row_prim s) as [c|] eqn:R; [| discriminate].
  destruct (nth_error default_cores (Nat.pred (fst w))) as [c'|] eqn:Hc'; [| discriminate].
  apply andb_true_iff in K. destruct K as [D K]. apply Z.ltb_lt in D.
  assert (L : (Nat.pred (fst w) < length default_hall)%nat).
  { assert (X := f_equal (fun l => length l) default_cores_ok). cbv beta in X. rewrite !map_length in X. rewrite X.
    apply nth_error_Some. congruence. }
  apply nth_error_Some in L. destruct (nth_error default_hall (Nat.pred (fst w))) as [s'|] eqn:Hs'; [| congruence].
  exists (Nat.pred (fst w)), s'. split; [lia |]. split; auto.
  destruct (row_prim_spec s c (or_introl (nth_error_In _ _ Hs)) R) as (G & g & Ig & Kg & Tg).
  destruct (default_row _ s' Hs') as (c'' & Hc'' & G' & g' & Ig' & Kg' & Tg').
  assert (c'' = c') by congruence. subst c''.
  destruct (change_check_spec _ _ _ K) as (Iw & Tw).
  apply (same_type_trans _ (pgroup c)); [exists g; auto |].
  apply (same_type_trans _ (pgroup c')); [| apply same_type_sym; exists g'; auto].
  exists (change_of (snd w)). split; auto. split; auto. destruct Iw as [Pe _]. clear - D Pe.
  destruct (snd w) as [[U q] e]. unfold keeps_handedness. cbn [change_of ch_M ch_d fst] in *. rewrite mdet_mscale.
  repeat apply Z.mul_pos_pos; auto.
Qed.
(** [same_type] is an equivalence, so it sorts the groups into types *)
Theorem C57_types_are_classes :
  (forall G, same_type G G) /\ (forall G G', same_type G G' -> same_type G' G) /\
  (forall G G' G'', same_type G G' -> same_type G' G'' -> same_type G G'').
Proof. eauto 6 using same_type_refl, same_type_sym, same_type_trans. Qed.
(** a variant is of the type of exactly one default row: the one of its own number, except
    that number 24 of the full table is of the type of number 23 *)
Theorem C57_variant_has_the_type_of_its_number :
  forall v label s j label' s', variant_number v = Some label -> variant_hall v = Some s ->
    get_space_group_number default_table j = Some label' -> get_hall_symbol default_table j = Some s' ->
    (same_type (text_group s) (text_group s') <->
     leading_number label' = if Nat.eqb (leading_number label) 24 then 23%nat else leading_number label).
Proof.
  intros v label s j label' s' Hl Hs Hl' Hs'.
  destruct (full_row_type v label s Hl Hs) as (k & sk & Ek & Hk & Ty). destruct (default_number_of j label' Hl') as [Ej _].
  rewrite Ej. change (if Nat.eqb (leading_number label) 24 then 23%nat else leading_number label)
    with (type_number (leading_number label)). rewrite <- Ek. split.
  - intros T. assert (E : k = j); [| congruence].
    apply (proj1 (C58_default_rows_are_different_types k j sk s' Hk Hs')).
    apply (same_type_trans _ (text_group s)); auto. apply same_type_sym, Ty.
  - intros E. assert (k = j) by congruence. subst k. assert (sk = s') by congruence. subst. exact Ty.
Qed.
Theorem C57_variants_same_type_iff :
  forall v v' label label' s s', variant_number v = Some label -> variant_hall v = Some s ->
    variant_number v' = Some label' -> variant_hall v' = Some s' ->
    (same_type (text_group s) (text_group s') <->
     leading_number label = leading_number label' \/
     (In (leading_number label) [23; 24] /\ In (leading_number label') [23; 24])%nat).
Proof.
  intros v v' label label' s s' Hl Hs Hl' Hs'.
  destruct (full_row_type v label s Hl Hs) as (j & sj & Ej & Hj & Ty).
  destruct (full_row_type v' label' s' Hl' Hs') as (k & sk & Ek & Hk & Ty').
  assert (X : same_type (text_group s) (text_group s') <-> S j = S k).
  { split.
    - intros T. f_equal. apply (proj1 (C58_default_rows_are_different_types j k sj sk Hj Hk)).
      apply (same_type_trans _ (text_group s)); [apply same_type_sym; auto |].
      apply (same_type_trans _ (text_group s')); auto.
    - intros E. assert (j = k) by congruence. subst k. assert (sj = sk) by congruence. subst sk.
      apply (same_type_trans _ (text_group sj)); auto. apply same_type_sym; auto. }
  rewrite X, Ej, Ek. unfold type_number. cbn [In].
  destruct (Nat.eqb_spec (leading_number label) 24), (Nat.eqb_spec (leading_number label') 24); lia.
Qed.

(** ** Cases *)
(** P41 and P43 are mirror images but not of the same type *)
Example C59_case_P41_P43 : exists s s',
  get_hall_symbol default_table 75 = Some s /\ get_hall_symbol default_table 77 = Some s' /\
  same_type_or_mirror (text_group s) (text_group s') /\ ~ same_type (text_group s) (text_group s').
Proof.
  do 2 eexists. split; [reflexivity |]. split; [reflexivity |]. split.
  - apply (C59_mirror_images 75 77); [reflexivity | reflexivity |]. right. left. left. reflexivity.
  - intros T. apply (C58_default_rows_are_different_types 75 77) in T; [discriminate | reflexivity | reflexivity].
Qed.
(** the two origin choices of Fd-3m, and number 24 against number 23 *)
Example C57_case_Fd3m : exists s s',
  variant_number 524%nat = Some "227:1"%string /\ variant_hall 524%nat = Some s /\
  variant_number 525%nat = Some "227:2"%string /\ variant_hall 525%nat = Some s' /\
  s <> s' /\ same_type (text_group s) (text_group s').
Proof.
  do 2 eexists. split; [reflexivity |]. split; [reflexivity |]. split; [reflexivity |]. split; [reflexivity |].
  split; [discriminate |].
  apply (C57_variants_same_type_iff 524%nat 525%nat "227:1" "227:2"); try reflexivity. left. reflexivity.
Qed.
Example C57_case_23_24 : exists s s',
  variant_number 122%nat = Some "23"%string /\ variant_hall 122%nat = Some s /\
  variant_number 123%nat = Some "24"%string /\ variant_hall 123%nat = Some s' /\
  same_type (text_group s) (text_group s').
Proof.
  do 2 eexists. split; [reflexivity |]. split; [reflexivity |]. split; [reflexivity |]. split; [reflexivity |].
  apply (C57_variants_same_type_iff 122%nat 123%nat "23" "24"); try reflexivity. right. cbn; auto.
Qed.
