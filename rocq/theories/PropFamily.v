(** * PropFamily: property C78: textbook families of the tabulated space groups. *)
From Coq Require Import QArith Qfield Permutation.
From Verif Require Import Base Notations Parser Seitz F64 Jones Rotations Tables Lookup Generate Positions
  Spec SpecHall SpecXyz SpecCompat SpecOutcome SpecTables SpecRotation SpecCanon SpecOrbit SpecSite SpecFamily Algebra PropSeitz PropSymbols PropRotation GenFacts
  PropGenerate GroupCheck PropFullSets PropTables PropTableGroups PropJones Restriction PropTermination PropCanon PropOutcome Subgroups PropClass PropOrbit PropSubgroup
  PropSite FamilyData.
Open Scope Z_scope.
Local Notation length := List.length.

(** ** Equations without solution *)
(** (12 times) the row y (1 - R) and the number y t of one operation, summed *)
Fixpoint cert_sum (core : list seitz) (l : list (nat * vec3)) : option (vec3 * Z) :=
  match l with
  | [] => Some (v0, 0)
  | (i, y) :: r =>
      match nth_error core i, cert_sum core r with
      | Some c, Some (w, n) => Some (vadd (vmmul y (msub I3 (rot c))) w, vdot y (tra c) + n)
      | _, _ => None
      end
  end.
Definition cert_ok (lat : list vec3) (core : list seitz) (l : list (nat * vec3)) : bool :=
  forallb (fun p => forallb (fun v => vdot (snd p) v mod 12 =? 0) lat) l &&
  match cert_sum core l with Some (w, n) => veqb w v0 && negb (n mod 12 =? 0) | None => false end.
Definition qdotv (w : vec3) (p : qvec) : Q := qdot (vx w) (vy w) (vz w) p.
Lemma fixed_equation c v p y : cells_apart (act (sz_addv c v) p) p -> vdot y v mod 12 = 0 ->
  exists n, (inject_Z (vdot y (tra c)) == 12 * qdotv (vmmul y (msub I3 (rot c))) p + inject_Z (12 * n))%Q.
Proof.
  intros C D. apply Z.mod_divide in D; [| lia]. destruct D as (d & D).
  assert (C' : cells_apart (act_op (rot c, vadd (tra c) v) p) p).
  { eapply cells_apart_trans; [| exact C]. rewrite act_op_of. apply act_op_same. split; [reflexivity |].
    cbn [op_of snd tra sz_addv]. apply vcong12_sym, vcong12_rem. }
  clear C. destruct C' as (i & j & k & X & Y & W).
  unfold act_op, act, aff in X, Y, W. cbn [fst snd rot tra qx qy qz] in X, Y, W.
  exists (vx y * i + vy y * j + vz y * k - d).
  destruct c as [[r11 r12 r13 r21 r22 r23 r31 r32 r33] [t1 t2 t3] bt cr], v as [u1 u2 u3], y as [y1 y2 y3], p as [p1 p2 p3].
  unfold vadd, vdot, vmmul, msub, I3, qdotv, qdot, aff in *.
  cbn [rot tra fst snd m11 m12 m13 m21 m22 m23 m31 m32 m33 vx vy vz qx qy qz] in *.
  rewrite !inject_Z_plus in X, Y, W.
  unfold Z.sub. rewrite ?inject_Z_mult, ?inject_Z_plus, ?inject_Z_mult, ?inject_Z_plus, ?inject_Z_mult, ?inject_Z_opp.
  rewrite <- X, <- Y, <- W.
  assert (DQ : (inject_Z y1 * inject_Z u1 + inject_Z y2 * inject_Z u2 + inject_Z y3 * inject_Z u3 == inject_Z d * 12)%Q).
  { change 12%Q with (inject_Z 12). rewrite <- !inject_Z_mult, <- !inject_Z_plus, D. reflexivity. }
  change (inject_Z 12) with 12%Q. change (inject_Z 1) with 1%Q. change (inject_Z 0) with 0%Q.
  transitivity (inject_Z y1 * inject_Z t1 + inject_Z y2 * inject_Z t2 + inject_Z y3 * inject_Z t3 +
    (inject_Z y1 * inject_Z u1 + inject_Z y2 * inject_Z u2 + inject_Z y3 * inject_Z u3 - inject_Z d * 12))%Q.
  - rewrite DQ. ring.
  - field.
Qed.
Lemma cert_equation lat core l w n p :
  (forall c, In c core -> exists v, In v lat /\ cells_apart (act (sz_addv c v) p) p) ->
  forallb (fun q => forallb (fun v => vdot (snd q) v mod 12 =? 0) lat) l = true -> cert_sum core l = Some (w, n) ->
  exists k, (inject_Z n == 12 * qdotv w p + inject_Z (12 * k))%Q.
Proof.
  intros F. revert w n. induction l as [| [i y] l IH]; intros w n D E.
  - cbn in E. assert (Ew : w = v0) by congruence. assert (En : n = 0) by congruence. subst. exists 0.
    unfold qdotv, qdot, v0. cbn [vx vy vz]. change (inject_Z (12 * 0)) with 0%Q. change (inject_Z 0) with 0%Q. ring.
  - cbn [cert_sum] in E. destruct (nth_error core i) as [c |] eqn:Ec; [| discriminate].
    destruct (cert_sum core l) as [[w' n'] |]; [| discriminate].
    assert (Ew : w = vadd (vmmul y (msub I3 (rot c))) w') by congruence. assert (En : n = vdot y (tra c) + n') by congruence. subst w n. clear E.
    cbn [forallb] in D. apply andb_true_iff in D. destruct D as [D1 D2].
    destruct (IH w' n' D2 eq_refl) as (k & Ek).
    destruct (F c (nth_error_In _ _ Ec)) as (v & Iv & Fv). rewrite forallb_forall in D1. specialize (D1 v Iv). apply Z.eqb_eq in D1.
    destruct (fixed_equation c v p y Fv D1) as (k' & Ek').
    exists (k' + k). rewrite inject_Z_plus, Ek, Ek'. replace (12 * (k' + k)) with (12 * k' + 12 * k) by ring. rewrite (inject_Z_plus (12 * k')).
    unfold qdotv, qdot, vadd. cbn [vx vy vz]. rewrite !inject_Z_plus. ring.
Qed.
Lemma cert_sound lat core l p : cert_ok lat core l = true ->
  (forall c, In c core -> exists v, In v lat /\ cells_apart (act (sz_addv c v) p) p) -> False.
Proof.
  intros C F. unfold cert_ok in C. apply andb_true_iff in C. destruct C as [D C].
  destruct (cert_sum core l) as [[w n] |] eqn:E; [| discriminate]. apply andb_true_iff in C. destruct C as [Cw Cn].
  apply Algebra.veqb_eq in Cw. subst w. destruct (cert_equation lat core l v0 n p F D E) as (k & K).
  assert (N : n = 12 * k).
  { unfold qdotv, qdot, v0 in K. cbn [vx vy vz] in K. change (inject_Z 0) with 0%Q in K.
    assert (Q : (inject_Z n == inject_Z (12 * k))%Q) by (rewrite K; ring). unfold Qeq, inject_Z in Q. cbn [Qnum Qden] in Q. lia. }
  subst n. rewrite Z.mul_comm, Z.mod_mul in Cn by lia. discriminate.
Qed.
(** a point kept by as many operations as there are positions is kept by one operation of each rotation *)
Lemma full_site fuel h g p : general_positions fuel h = Done g -> no_extra_translations h ->
  length (site_symmetry g p) = num_of_general_pos g ->
  forall c, In c (gp_core g) -> exists v, In v (gp_lattice g) /\ cells_apart (act (sz_addv c v) p) p.
Proof.
  intros H T L c Ic. destruct (C27_one_position_per_rotation _ _ _ H T) as [Nr _].
  assert (J : In (rot c) (map rot (site_symmetry g p))).
  { assert (I : incl (map rot (gp_core g)) (map rot (site_symmetry g p))); [| apply I, in_map, Ic].
    apply NoDup_length_incl.
    - apply (site_NoDup fuel h g H).
    - rewrite !map_length. unfold num_of_general_pos in L. lia.
    - intros R IR. apply in_map_iff in IR. destruct IR as (m & <- & Im). apply site_in in Im. destruct Im as [Im _].
      destruct (all_core _ _ Im) as (c' & v & Ic' & _ & ->). exact (in_map rot _ _ Ic'). }
  apply in_map_iff in J. destruct J as (m & E & Im). apply site_in in Im. destruct Im as [Im C].
  destruct (all_core _ _ Im) as (c' & v & Ic' & Iv & ->). exists v. split; [exact Iv |].
  replace c with c'; [exact C |]. cbn [sz_addv rot] in E. clear - Nr Ic Ic' E.
  induction (gp_core g) as [| x l IH]; [destruct Ic |]. cbn [map] in Nr. inversion Nr as [| y l0 Nx N']; subst.
  destruct Ic as [-> | Ic], Ic' as [-> | Ic'].
  - reflexivity.
  - exfalso. apply Nx. rewrite <- E. now apply in_map.
  - exfalso. apply Nx. rewrite E. now apply in_map.
  - auto.
Qed.

(** ** Checks of a row *)
Definition inb (n : nat) (l : list nat) : bool := existsb (Nat.eqb n) l.
Lemma inb_spec n l : inb n l = true <-> In n l.
Proof.
  unfold inb. rewrite existsb_exists. split.
  - intros (x & I & E). apply Nat.eqb_eq in E. now subst.
  - intros I. exists n. split; [exact I | apply Nat.eqb_refl].
Qed.
Lemma inb_not n l : inb n l = false -> ~ In n l. Proof. intros E I. apply inb_spec in I. congruence. Qed.
Definition point24 (p : vec3) : qvec := QV (vx p # 24) (vy p # 24) (vz p # 24).
(** the point [p] / 24 is kept, up to whole cells, by the operation [c] followed by the lattice translation [v] *)
Definition fixes24 (p : vec3) (c : seitz) (v : vec3) : bool :=
  let f := fun r x t u => (r + 2 * (t + u) - x) mod 24 =? 0 in
  let R := rot c in
  f (m11 R * vx p + m12 R * vy p + m13 R * vz p) (vx p) (vx (tra c)) (vx v) &&
  f (m21 R * vx p + m22 R * vy p + m23 R * vz p) (vy p) (vy (tra c)) (vy v) &&
  f (m31 R * vx p + m32 R * vy p + m33 R * vz p) (vz p) (vz (tra c)) (vz v).
Lemma fixes24_line a b c x y z w t : (a * x + b * y + c * z + 2 * t - w) mod 24 = 0 ->
  exists n, (qdot a b c (QV (x # 24) (y # 24) (z # 24)) + inject_Z t / 12 - (w # 24) == inject_Z n)%Q.
Proof.
  intros D. apply Z.mod_divide in D; [| lia]. destruct D as (n & D). exists n. unfold qdot. cbn [qx qy qz].
  assert (Q : forall u, (u # 24 == inject_Z u / 24)%Q) by (intros u; unfold Qeq, inject_Z, Qdiv, Qmult, Qinv; cbn [Qnum Qden]; lia).
  rewrite !Q.
  transitivity (inject_Z (a * x + b * y + c * z + 2 * t - w) / 24)%Q.
  - unfold Z.sub. rewrite !inject_Z_plus, !inject_Z_mult, inject_Z_opp. change (inject_Z 2) with 2%Q. field.
  - rewrite D, inject_Z_mult. change (inject_Z 24) with 24%Q. field.
Qed.
Lemma fixes24_spec p c v : fixes24 p c v = true -> cells_apart (act (sz_addv c v) (point24 p)) (point24 p).
Proof.
  intros H. unfold fixes24 in H. cbv zeta in H. rewrite !andb_true_iff, !Z.eqb_eq in H. destruct H as ((X & Y) & W).
  assert (C' : cells_apart (act_op (rot c, vadd (tra c) v) (point24 p)) (point24 p)).
  { unfold act_op, act, aff, point24. cbn [fst snd rot tra qx qy qz].
    assert (L : forall r t w, (r + 2 * t - w) mod 24 = 0 -> (r + 2 * t - w) mod 24 = 0) by auto.
    destruct (fixes24_line (m11 (rot c)) (m12 (rot c)) (m13 (rot c)) (vx p) (vy p) (vz p) (vx p) (vx (tra c) + vx v) X) as (i & Ei).
    destruct (fixes24_line (m21 (rot c)) (m22 (rot c)) (m23 (rot c)) (vx p) (vy p) (vz p) (vy p) (vy (tra c) + vy v) Y) as (j & Ej).
    destruct (fixes24_line (m31 (rot c)) (m32 (rot c)) (m33 (rot c)) (vx p) (vy p) (vz p) (vz p) (vz (tra c) + vz v) W) as (k & Ek).
    exists i, j, k. unfold vadd. cbn [qx qy qz vx vy vz]. auto. }
  eapply cells_apart_trans; [| exact C']. rewrite act_op_of. apply act_op_same. split; [reflexivity |].
  cbn [op_of snd tra sz_addv]. apply vcong12_rem.
Qed.
Definition data_lattice (p : hall * list seitz) : list vec3 := translations (ls_char (h_lat (fst p))).
Definition symmorphic_row (full : bool) (label : string) (d : hall * list seitz) (w : fix_witness) : bool :=
  match w with
  | Fix p => inb (row_type full label) symmorphic_types &&
      forallb (fun c => existsb (fixes24 p c) (data_lattice d)) (snd d)
  | NoFix l => negb (inb (row_type full label) symmorphic_types) && cert_ok (data_lattice d) (snd d) l
  end.
Definition small_rows : list vec3 :=
  flat_map (fun i => flat_map (fun j => map (fun k => V3 i j k) [0; 1; -1; 2; -2]) [0; 1; -1; 2; -2]) [0; 1; -1; 2; -2].
Definition free_row (full : bool) (label : string) (d : hall * list seitz) (p : vec3) : bool :=
  if inb (row_type full label) fixed_point_free_types
  then forallb (fun c => meqb (rot c) I3 || existsb (fun y => cert_ok (data_lattice d) [c] [(O, y)]) small_rows) (snd d)
  else existsb (fun c => negb (meqb (rot c) I3) && existsb (fixes24 p c) (data_lattice d)) (snd d).
Definition msum (l : list mat3) : mat3 := fold_right madd (M3 0 0 0 0 0 0 0 0 0) l.
Definition type_z (m : seitz) : option rot_type := rotation_type_of (mdet (rot m)) (mtrace (rot m)).
Lemma type_unit m : is_affine m -> unit_matrix (rot m) -> rotation_type m = type_z m.
Proof.
  intros [_ A] U. unfold rotation_type, type_z. rewrite C18_small_entries_exact, det_spec_mdet.
  - f_equal. unfold sz_trace, mtrace. rewrite ?A. lia.
  - unfold unit_matrix in U. unfold entries_within. decompose [and] U. clear U. repeat match goal with |- _ /\ _ => split end; lia.
Qed.
Definition kind_row (full : bool) (label : string) (d : hall * list seitz) : bool :=
  let n := row_type full label in
  Bool.eqb (existsb (fun m => match type_z m with Some RI => true | _ => false end) (snd d)) (inb n centrosymmetric_types) &&
  Bool.eqb (forallb (fun m => match type_z m with Some RE | Some RN2 | Some RN3 | Some RN4 | Some RN6 => true | _ => false end) (snd d))
    (inb n sohncke_types) &&
  (if inb n polar_types
   then existsb (fun v => negb (veqb v v0) && forallb (fun m => veqb (mvmul (rot m) v) v) (snd d)) trial_vectors
   else meqb (msum (map rot (snd d))) (M3 0 0 0 0 0 0 0 0 0)).
Fixpoint all3 {A B C} (f : A -> B -> C -> bool) (a : list A) (b : list B) (c : list C) : bool :=
  match a, b, c with
  | x :: a, y :: b, z :: c => f x y z && all3 f a b c
  | [], [], _ => true
  | _, _, _ => false
  end.
Lemma all3_sound {A B C} (f : A -> B -> C -> bool) : forall a b c, all3 f a b c = true ->
  forall i x y, nth_error a i = Some x -> nth_error b i = Some y -> exists z, f x y z = true.
Proof.
  induction a as [| x a IH]; intros [| y b] [| z c] H i u v Hu Hv; cbn in H; try discriminate; try (destruct i; discriminate).
  apply andb_true_iff in H. destruct H as [H1 H2]. destruct i as [| i]; cbn [nth_error] in *.
  - exists z. congruence.
  - exact (IH _ _ H2 i u v Hu Hv).
Qed.
Lemma full_symmorphic : all3 (symmorphic_row true) full_number full_groups full_fix = true.
Proof. vm_cast_no_check (@eq_refl bool true). Qed.
Lemma default_symmorphic : all3 (symmorphic_row false) default_number default_groups default_fix = true.
Proof. vm_cast_no_check (@eq_refl bool true). Qed.
Lemma full_free : all3 (free_row true) full_number full_groups full_special = true.
Proof. vm_cast_no_check (@eq_refl bool true). Qed.
Lemma default_free : all3 (free_row false) default_number default_groups default_special = true.
Proof. vm_cast_no_check (@eq_refl bool true). Qed.
Lemma full_kind : all3 (fun a b _ => kind_row true a b) full_number full_groups full_number = true.
Proof. vm_cast_no_check (@eq_refl bool true). Qed.
Lemma default_kind : all3 (fun a b _ => kind_row false a b) default_number default_groups default_number = true.
Proof. vm_cast_no_check (@eq_refl bool true). Qed.
Definition table (full : bool) : sgtable := if full then full_table else default_table.
Lemma row_facts full i label s : get_space_group_number (table full) i = Some label -> get_hall_symbol (table full) i = Some s ->
  exists h g, try_from_str s = Done (Some h) /\ (forall fuel, (10 <= fuel)%nat -> general_positions fuel h = Done g) /\
    no_extra_translations h.
Proof.
  intros Hl Hs. assert (R : row_correct label s).
  { destruct full; [exact (rows_check_sound _ _ full_rows_ok i label s Hl Hs) | exact (rows_check_sound _ _ default_rows_ok i label s Hl Hs)]. }
  destruct R as (h & g & c & E & _ & G & T & _). exists h, g. auto.
Qed.
Lemma all3_row {C} (f : string -> hall * list seitz -> C -> bool) labels halls groups (c : list C) :
  map row_group halls = map Some groups -> all3 f labels groups c = true ->
  forall i label s h g, nth_error labels i = Some label -> nth_error halls i = Some s ->
    try_from_str s = Done (Some h) -> general_positions 10 h = Done g -> exists z, f label (h, gp_core g) z = true.
Proof.
  intros E A i label s h g Hl Hs P G. destruct (row_data _ _ E i s Hs) as (p & Hp & R).
  destruct (all3_sound f _ _ _ A i label p Hl Hp) as (z & K). exists z. unfold row_group in R. rewrite P, G in R.
  assert (Ep : p = (h, gp_core g)) by congruence. rewrite <- Ep. exact K.
Qed.
Lemma data_lattice_eq fuel h g : general_positions fuel h = Done g -> data_lattice (h, gp_core g) = gp_lattice g.
Proof. intros G. destruct (general_positions_spec _ _ _ G) as [-> _]. reflexivity. Qed.
Lemma site_listed g c v p : In c (gp_core g) -> In v (gp_lattice g) -> cells_apart (act (sz_addv c v) p) p ->
  In (sz_addv c v) (site_symmetry g p).
Proof.
  intros Ic Iv C. apply site_in. split; [| exact C]. apply listed_all. eexists. split; [apply in_map, Iv |]. apply in_map_iff. eauto.
Qed.
(** ** C78 *)
(** centrosymmetric, Sohncke and polar rows, in both tables *)
Theorem C78_kinds_of_rows :
  forall full i label s, get_space_group_number (table full) i = Some label -> get_hall_symbol (table full) i = Some s ->
    exists h g, try_from_str s = Done (Some h) /\ (forall fuel, (10 <= fuel)%nat -> general_positions fuel h = Done g) /\
      ((exists m, In m (gp_core g) /\ rotation_type m = Some RI) <-> In (row_type full label) centrosymmetric_types) /\
      ((forall m, In m (gp_core g) -> exists t, rotation_type m = Some t /\ In t [RE; RN2; RN3; RN4; RN6]) <->
         In (row_type full label) sohncke_types) /\
      ((exists v, v <> V3 0 0 0 /\ forall m, In m (gp_core g) -> mvmul (rot m) v = v) <-> In (row_type full label) polar_types).
Proof.
  intros full i label s Hl Hs. destruct (row_facts full i label s Hl Hs) as (h & g & E & G & T).
  exists h, g. split; [exact E |]. split; [exact G |].
  pose proof (G 10%nat (le_n _)) as G10.
  assert (K : kind_row full label (h, gp_core g) = true).
  { destruct full.
    - destruct (all3_row _ _ _ _ _ full_groups_ok full_kind i label s h g Hl Hs E G10) as (_ & K). exact K.
    - destruct (all3_row _ _ _ _ _ default_groups_ok default_kind i label s h g Hl Hs E G10) as (_ & K). exact K. }
  unfold kind_row in K. cbv zeta in K. cbn [snd] in K.
  assert (TZ : forall m, In m (gp_core g) -> rotation_type m = type_z m).
  { intros m I. destruct (core_unit _ _ _ _ G10 I). now apply type_unit. }
  rewrite !andb_true_iff in K. destruct K as ((K1 & K2) & K3). apply Bool.eqb_prop in K1, K2.
  split; [| split].
  - rewrite <- inb_spec, <- K1, existsb_exists. split; intros (m & I & X); exists m; (split; [exact I |]).
    + rewrite <- (TZ m I). now rewrite X.
    + rewrite (TZ m I). destruct (type_z m) as [[] |]; try discriminate; reflexivity.
  - rewrite <- inb_spec, <- K2, forallb_forall. split; intros X m I; specialize (X m I); [rewrite <- (TZ m I) | rewrite <- (TZ m I) in X].
    + destruct X as (t & -> & J). cbn in J. repeat destruct J as [<- | J]; try reflexivity. destruct J.
    + destruct (rotation_type m) as [t |]; [| discriminate]. exists t. split; [reflexivity |]. destruct t; try discriminate; cbn; tauto.
  - destruct (inb (row_type full label) polar_types) eqn:P.
    + split; [intros _; apply inb_spec, P |]. intros _. apply existsb_exists in K3. destruct K3 as (v & _ & K3).
      apply andb_true_iff in K3. destruct K3 as [N F]. exists v. split.
      * intros ->. discriminate N.
      * intros m I. rewrite forallb_forall in F. apply Algebra.veqb_eq, F, I.
    + split; [| intros I; exfalso; exact (inb_not _ _ P I)]. intros (v & Nv & F). exfalso. apply Nv.
      apply meqb_eq in K3.
      assert (S : forall l : list seitz, (forall m, In m l -> mvmul (rot m) v = v) -> mvmul (msum (map rot l)) v = vscale (Z.of_nat (length l)) v).
      { clear. induction l as [| m l IH]; intros F.
        - destruct v as [a b c]. unfold msum, mvmul, vscale. cbn [map fold_right m11 m12 m13 m21 m22 m23 m31 m32 m33 vx vy vz List.length Z.of_nat]. f_equal; ring.
        - cbn [map msum fold_right List.length]. fold (msum (map rot l)).
          assert (D : forall A B w, mvmul (madd A B) w = vadd (mvmul A w) (mvmul B w)).
          { intros [] [] []. unfold mvmul, madd, vadd. cbn. f_equal; ring. }
          rewrite D, (F m (or_introl eq_refl)), IH by (intros m' I; apply F; right; exact I).
          rewrite Nat2Z.inj_succ. destruct v as [a b c]. unfold vadd, vscale. cbn [vx vy vz]. f_equal; ring. }
      specialize (S (gp_core g) F). rewrite K3 in S.
      assert (L : (0 < length (gp_core g))%nat).
      { destruct (rotations_complete _ _ _ (G 10%nat (le_n _)) op_id (gen_one _)) as (m & I & _). destruct (gp_core g); [destruct I | simpl; lia]. }
      destruct v as [a b c]. unfold mvmul, vscale in S. cbn [m11 m12 m13 m21 m22 m23 m31 m32 m33 vx vy vz] in S.
      assert (Q : forall x, 0 = Z.of_nat (length (gp_core g)) * x -> x = 0) by (intros x; nia).
      pose proof (f_equal vx S) as S1. pose proof (f_equal vy S) as S2. pose proof (f_equal vz S) as S3. cbn [vx vy vz] in S1, S2, S3.
      rewrite (Q a), (Q b), (Q c) by lia. reflexivity.
Qed.
(** a row is of a symmorphic type exactly when some point is kept by an operation of every rotation *)
Theorem C78_symmorphic_rows :
  forall full i label s, get_space_group_number (table full) i = Some label -> get_hall_symbol (table full) i = Some s ->
    exists h g, try_from_str s = Done (Some h) /\ (forall fuel, (10 <= fuel)%nat -> general_positions fuel h = Done g) /\
      ((exists p, length (site_symmetry g p) = num_of_general_pos g) <-> In (row_type full label) symmorphic_types).
Proof.
  intros full i label s Hl Hs. destruct (row_facts full i label s Hl Hs) as (h & g & E & G & T).
  exists h, g. split; [exact E |]. split; [exact G |].
  pose proof (G 10%nat (le_n _)) as G10.
  assert (K : exists w, symmorphic_row full label (h, gp_core g) w = true).
  { destruct full; [exact (all3_row _ _ _ _ _ full_groups_ok full_symmorphic i label s h g Hl Hs E G10)
      | exact (all3_row _ _ _ _ _ default_groups_ok default_symmorphic i label s h g Hl Hs E G10)]. }
  destruct K as (w & K). unfold symmorphic_row in K. rewrite (data_lattice_eq 10 h g G10) in K. cbn [snd] in K.
  destruct w as [p | l]; apply andb_true_iff in K; destruct K as [K1 K2].
  - apply inb_spec in K1. split; [intros _; exact K1 | intros _]. exists (point24 p). rewrite forallb_forall in K2.
    destruct (C27_one_position_per_rotation _ _ _ G10 T) as [Nr _].
    unfold num_of_general_pos. rewrite <- (map_length rot (gp_core g)), <- (map_length rot (site_symmetry g (point24 p))).
    apply Nat.le_antisymm; apply NoDup_incl_length; [exact (site_NoDup 10 h g G10 _) | | exact Nr |].
    + intros R IR. apply in_map_iff in IR. destruct IR as (m & <- & Im). apply site_in in Im. destruct Im as [Im _].
      destruct (all_core _ _ Im) as (c & v & Ic & _ & ->). exact (in_map rot _ _ Ic).
    + intros R IR. apply in_map_iff in IR. destruct IR as (c & <- & Ic). specialize (K2 c Ic). apply existsb_exists in K2.
      destruct K2 as (v & Iv & K2). exact (in_map rot _ _ (site_listed g c v _ Ic Iv (fixes24_spec _ _ _ K2))).
  - apply negb_true_iff, inb_not in K1. split; [| contradiction]. intros (p & L). exfalso.
    apply (cert_sound _ _ _ p K2). exact (full_site _ _ _ p (G 10%nat (le_n _)) T L).
Qed.
(** the rows in which every point is in general position *)
Theorem C78_fixed_point_free_rows :
  forall full i label s, get_space_group_number (table full) i = Some label -> get_hall_symbol (table full) i = Some s ->
    exists h g, try_from_str s = Done (Some h) /\ (forall fuel, (10 <= fuel)%nat -> general_positions fuel h = Done g) /\
      ((forall p, length (site_symmetry g p) = 1%nat) <-> In (row_type full label) fixed_point_free_types).
Proof.
  intros full i label s Hl Hs. destruct (row_facts full i label s Hl Hs) as (h & g & E & G & T).
  exists h, g. split; [exact E |]. split; [exact G |].
  pose proof (G 10%nat (le_n _)) as G10.
  assert (K : exists w, free_row full label (h, gp_core g) w = true).
  { destruct full; [exact (all3_row _ _ _ _ _ full_groups_ok full_free i label s h g Hl Hs E G10)
      | exact (all3_row _ _ _ _ _ default_groups_ok default_free i label s h g Hl Hs E G10)]. }
  destruct K as (w & K). unfold free_row in K. rewrite (data_lattice_eq 10 h g G10) in K. cbn [snd] in K.
  destruct (inb (row_type full label) fixed_point_free_types) eqn:P.
  - split; [intros _; apply inb_spec, P |]. intros _ p. rewrite forallb_forall in K.
    assert (A : forall m, In m (site_symmetry g p) -> rot m = I3).
    { intros m Im. apply site_in in Im. destruct Im as [Im C]. destruct (all_core _ _ Im) as (c & v & Ic & Iv & ->).
      specialize (K c Ic). apply orb_true_iff in K. destruct K as [K | K]; [apply meqb_eq, K |]. exfalso.
      apply existsb_exists in K. destruct K as (y & _ & K). apply (cert_sound _ _ _ p K).
      intros c' [<- | []]. exists v. auto. }
    destruct (C77_site_symmetry_is_a_group _ _ _ p G10 T) as ((e & Ie & _) & _ & _ & I).
    pose proof (site_NoDup 10 h g G10 p) as N.
    destruct (site_symmetry g p) as [| x [| y l]]; [destruct Ie | reflexivity |]. exfalso.
    cbn [map] in N. inversion N as [| z l0 Nx N']; subst. apply Nx. left.
    rewrite (A x), (A y); [reflexivity | right; left; reflexivity | left; reflexivity].
  - split; [| intros I; exfalso; exact (inb_not _ _ P I)]. intros F. exfalso.
    apply existsb_exists in K. destruct K as (c & Ic & K). apply andb_true_iff in K. destruct K as [K1 K2].
    apply existsb_exists in K2. destruct K2 as (v & Iv & K2). apply fixes24_spec in K2.
    pose proof (site_listed g c v _ Ic Iv K2) as Im.
    destruct (C77_site_symmetry_is_a_group _ _ _ (point24 w) G10 T) as ((e & Ie & Ee) & _).
    specialize (F (point24 w)). destruct (site_symmetry g (point24 w)) as [| x [| y l]]; try discriminate F.
    destruct Im as [-> | []]. destruct Ie as [<- | []].
    apply negb_true_iff in K1. apply sz_eqb_same in Ee. destruct Ee as [Ee _]. change (rot (sz_addv c v)) with (rot c) in Ee.
    rewrite Ee in K1. discriminate K1.
Qed.
(** the families have the sizes given in the textbooks *)
Theorem C78_sizes :
  map (fun l => (length l, length (nodup Nat.eq_dec l)))
    [centrosymmetric_types; sohncke_types; polar_types; symmorphic_types; fixed_point_free_types]
  = [(92, 92); (65, 65); (68, 68); (73, 73); (13, 13)]%nat.
Proof. vm_compute. reflexivity. Qed.

(** both sides of each equivalence occur: type 4 (P 2_1) is polar,
    Sohncke and fixed-point-free; type 2 (P -1) is centrosymmetric and symmorphic *)
Example C78_case :
  get_space_group_number (table false) 1 = Some "2"%string /\ In (row_type false "2") centrosymmetric_types /\
  In (row_type false "2") symmorphic_types /\ ~ In (row_type false "2") polar_types /\
  get_space_group_number (table false) 3 = Some "4:b"%string /\ In (row_type false "4:b") fixed_point_free_types /\
  In (row_type false "4:b") polar_types /\ In (row_type false "4:b") sohncke_types /\ ~ In (row_type false "4:b") symmorphic_types.
Proof.
  repeat match goal with |- _ /\ _ => split end; try (vm_compute; reflexivity);
  match goal with
  | |- In _ _ => apply inb_spec; vm_compute; reflexivity
  | |- ~ In _ _ => apply inb_not; vm_compute; reflexivity
  end.
Qed.
