(** * PropHM2: a Hermann-Mauguin name tells the space-group number (C93) *)
From Verif Require Import Base Notations Parser Seitz F64 Jones Rotations Tables Generate Positions Lookup
  Spec SpecHall SpecText SpecDisplay SpecTables SpecRotation SpecMetric SpecFamily SpecHM
  Algebra GenFacts GroupCheck PropGenerate RowData PropTableGroups PropRotation PropFamily PropHM.
Open Scope Z_scope.
Local Notation length := List.length.

(** ** What a group cannot contain *)
Lemma glide_list_complete rh c d w : twice_glide rh c d w -> In w (glide_list rh c d).
Proof.
  unfold twice_glide, glide_list. intros [(-> & ->) | [(-> & I) | [(-> & -> & ->) | (-> & f & g & s & t & k & Ip & Is & It & Ik & ->)]]].
  - left. reflexivity.
  - destruct I as [I | [I | [I | []]]]; injection I as <- <-; left; reflexivity.
  - left. reflexivity.
  - destruct Ik as [I | [I | []]]; injection I as <- <-; cbn [Ascii.eqb Bool.eqb orb];
      (apply in_flat_map; exists (d, (f, g)); split; [exact Ip |]; cbn [fst snd];
       rewrite (proj2 (veqb_eq d d) eq_refl); cbv zeta; cbn [Ascii.eqb Bool.eqb orb];
       apply in_flat_map; exists s; split; [exact Is |];
       match goal with |- In _ (map ?F _) => exact (in_map F _ t It) end).
Qed.
Definition zcells (n : nat) : list Z := map (fun k => 12 * Z.of_nat k) (seq 0 n).
Definition residue (n : nat) (v : vec3) : vec3 := let k := 12 * Z.of_nat n in V3 (vx v mod k) (vy v mod k) (vz v mod k).
Definition no_repeats (l : list vec3) : list vec3 := fold_left (fun acc v => if existsb (veqb v) acc then acc else v :: acc) l [].
Lemma no_repeats_in l v : In v l -> In v (no_repeats l).
Proof.
  unfold no_repeats. assert (K : forall l acc, (In v l \/ In v acc) -> In v (fold_left (fun acc v => if existsb (veqb v) acc then acc else v :: acc) l acc)).
  { clear l. induction l as [| u l IH]; intros acc [I | I]; cbn [fold_left]; [destruct I | exact I | |].
    - apply IH. destruct I as [-> | I]; [| left; exact I]. right. destruct (existsb (veqb v) acc) eqn:E; [| left; reflexivity].
      apply existsb_exists in E. destruct E as (x & Ix & E). apply veqb_eq in E. subst x. exact Ix.
    - apply IH. right. destruct (existsb (veqb u) acc); [exact I | right; exact I]. }
  intros I. apply K. left. exact I.
Qed.
(** residues of the translations of the n-th power, for all operations with this rotation part:
    whole cells are added along one edge after the other *)
Definition along_edge (n : nat) (c : vec3) (l : list vec3) : list vec3 :=
  no_repeats (flat_map (fun r => let x := times r c in map (fun s => residue n (vadd s x)) l) (zcells n)).
Definition residues (n : nat) (N : mat3) (lat : list vec3) (t : vec3) : list vec3 :=
  flat_map (fun v => along_edge n (V3 (m13 N) (m23 N) (m33 N)) (along_edge n (V3 (m12 N) (m22 N) (m32 N))
    (along_edge n (V3 (m11 N) (m21 N) (m31 N)) [residue n (mvmul N (vadd t v))]))) lat.
Lemma along_edge_in n c l x r : In r (zcells n) -> In (residue n x) l -> In (residue n (vadd x (times r c))) (along_edge n c l).
Proof.
  intros Ir Ix. unfold along_edge. apply no_repeats_in. apply in_flat_map. exists r. split; [exact Ir |]. cbv zeta. apply in_map_iff.
  exists (residue n x). split; [| exact Ix]. destruct x as [x1 x2 x3], (times r c) as [y1 y2 y3]. unfold residue, vadd. cbv zeta. cbn [vx vy vz].
  f_equal; apply Zplus_mod_idemp_l.
Qed.
Lemma zcells_in n x : (0 < n)%nat -> cong12 x 0 -> exists r q, In r (zcells n) /\ x = r + 12 * Z.of_nat n * q.
Proof.
  intros L (k & E). exists (12 * (k mod Z.of_nat n)), (k / Z.of_nat n).
  assert (P := Z.mod_pos_bound k (Z.of_nat n)). pose proof (Z.div_mod k (Z.of_nat n)) as D. split; [| lia].
  unfold zcells. apply in_map_iff. exists (Z.to_nat (k mod Z.of_nat n)). split; [rewrite Z2Nat.id; lia |]. apply in_seq. lia.
Qed.
Lemma residues_in n N lat t v w : (0 < n)%nat -> In v lat -> vcong12 w v0 ->
  In (residue n (mvmul N (vadd t (vadd v w)))) (residues n N lat t).
Proof.
  intros L Iv (A & B & C). cbn [v0 vx vy vz] in A, B, C. destruct (zcells_in n _ L A) as (a & qa & Ia & Ea).
  destruct (zcells_in n _ L B) as (b & qb & Ib & Eb). destruct (zcells_in n _ L C) as (c & qc & Ic & Ec).
  unfold residues. apply in_flat_map. exists v. split; [exact Iv |].
  replace (residue n (mvmul N (vadd t (vadd v w)))) with
    (residue n (vadd (vadd (vadd (mvmul N (vadd t v)) (times a (V3 (m11 N) (m21 N) (m31 N)))) (times b (V3 (m12 N) (m22 N) (m32 N)))) (times c (V3 (m13 N) (m23 N) (m33 N))))).
  - repeat apply along_edge_in; auto. left. reflexivity.
  - destruct w as [w1 w2 w3]. cbn [vx vy vz] in *. subst w1 w2 w3. destruct N as [n11 n12 n13 n21 n22 n23 n31 n32 n33], t as [t1 t2 t3], v as [v1 v2 v3].
    unfold residue, times. cbv zeta. cbv [mvmul vadd]. cbn [m11 m12 m13 m21 m22 m23 m31 m32 m33 vx vy vz]. set (k := 12 * Z.of_nat n).
    assert (K : forall x y q, x = y + q * k -> y mod k = x mod k) by (intros x y q ->; symmetry; apply Z_mod_plus_full).
    f_equal; eapply K.
    + instantiate (1 := n11 * qa + n12 * qb + n13 * qc). ring.
    + instantiate (1 := n21 * qa + n22 * qb + n23 * qc). ring.
    + instantiate (1 := n31 * qa + n32 * qb + n33 * qc). ring.
Qed.
Definition possible_b (rh : bool) (lat : list vec3) (core : list seitz) (d : vec3) (e : element) : bool :=
  existsb (fun m => if turn_b e d (rot m) then
    match e with
    | Axis n k => if negb (Nat.ltb 2 n) || ccw_b (rot m) d then
        (let u := residue n (times (12 * Z.of_nat k) d) in existsb (veqb u) (residues n (power_sum (rot m) n) lat (tra m))) else false
    | BarAxis _ => true
    | Plane c => (let us := map (residue 2) (glide_list rh c d) in existsb (fun x => existsb (veqb x) us) (residues 2 (power_sum (rot m) 2) lat (tra m)))
    end else false) core.
Section Not.
Variables (G : op -> Prop) (lat : list vec3) (core : list seitz).
Hypothesis Hcos : forall R t, G (R, t) -> exists m v w, In m core /\ rot m = R /\ In v lat /\ vcong12 w v0 /\ t = vadd (tra m) (vadd v w).
Lemma possible rh d e : has_element rh G d e -> possible_b rh lat core d e = true.
Proof.
  intros (R & t & HG & T & K). destruct (Hcos R t HG) as (m & v & w & Im & ER & Iv & W & ->). subst R.
  unfold possible_b. apply existsb_exists. exists m. split; [exact Im |]. rewrite (proj2 (turn_b_spec e d (rot m)) T).
  destruct e as [n k | n | c].
  - destruct K as [C P].
    assert (L : (0 < n)%nat) by (destruct T as (_ & _ & L & _); exact L).
    destruct (Nat.ltb 2 n) eqn:L2; cbn [negb orb].
    + apply Nat.ltb_lt in L2. destruct (C L2) as (x & Ix & V).
      assert (CC : ccw_b (rot m) d = true) by (unfold ccw_b; apply existsb_exists; exists x; split; [exact Ix | apply Z.ltb_lt; exact V]).
      rewrite CC. cbv zeta. apply existsb_exists. eexists. split; [exact (residues_in n (power_sum (rot m) n) lat (tra m) v w L Iv W) |].
      rewrite op_pow_sum in P. apply (f_equal snd) in P. cbn [snd] in P. rewrite P. apply veqb_eq. reflexivity.
    + cbv zeta. apply existsb_exists. eexists. split; [exact (residues_in n (power_sum (rot m) n) lat (tra m) v w L Iv W) |].
      rewrite op_pow_sum in P. apply (f_equal snd) in P. cbn [snd] in P. rewrite P. apply veqb_eq. reflexivity.
  - reflexivity.
  - destruct K as (u & U & P). cbv zeta. apply existsb_exists. eexists. split; [exact (residues_in 2 (power_sum (rot m) 2) lat (tra m) v w (Nat.lt_0_succ 1) Iv W) |].
    rewrite op_pow_sum in P. apply (f_equal snd) in P. cbn [snd] in P. rewrite P. apply existsb_exists. exists (residue 2 u). cbn [snd].
    split; [apply in_map; apply glide_list_complete; exact U | apply veqb_eq; reflexivity].
Qed.
End Not.

(** ** Profiles: what can stand along the directions of a group *)
Definition element_code (e : element) : Z :=
  match e with Axis n k => Z.of_nat (6 * n + k) | BarAxis n => - Z.of_nat n | Plane c => 1000 + Z.of_nat (nat_of_ascii c) end.
Definition all_codes : list (Z * element) := map (fun p => (element_code (snd p), snd p)) element_names.
Definition empty_along (core : list seitz) (d : vec3) : bool :=
  forallb (fun m => negb (axis_b (rot m) d) || (meqb (rot m) I3 || meqb (rot m) (mopp I3))) core.
(** for every direction: nothing along it, and the codes of the elements that may be there *)
Definition profile (label : string) (p : hall * list seitz) : list (bool * list Z) :=
  map (fun ds => (forallb (empty_along (snd p)) ds,
     map fst (filter (fun q => existsb (fun d => possible_b (rhombohedral_axes label) (translations (ls_char (h_lat (fst p)))) (snd p) d (snd q)) ds) all_codes)))
    (directions label).
(** for every word: [None] for 1, otherwise the codes of its elements *)
Definition needs (hm : string) : list (option (list Z)) :=
  map (fun w => if String.eqb w "1" then None else Some (map element_code (name_list w))) (tl (hm_words hm)).
Definition zmem (z : Z) (l : list Z) : bool := existsb (Z.eqb z) l.
Fixpoint clash (n : list (option (list Z))) (p : list (bool * list Z)) : bool :=
  match n, p with
  | None :: n, (e, _) :: p => negb e || clash n p
  | Some l :: n, (_, q) :: p => existsb (fun z => negb (zmem z q)) l || clash n p
  | _, _ => false
  end.
Definition axes_code (label : string) : nat :=
  match system_of_number (leading_number label) with
  | Triclinic => 0 | Monoclinic | Orthorhombic => 1 | Tetragonal => 2
  | Trigonal | Hexagonal => if rhombohedral_axes label then 3 else 4 | Cubic => 5
  end.
Lemma axes_code_inj a b : directions a = directions b -> axes_code a = axes_code b.
Proof.
  unfold directions, axes_code.
  destruct (system_of_number (leading_number a)), (system_of_number (leading_number b));
    destruct (rhombohedral_axes a), (rhombohedral_axes b); intros E; try reflexivity; discriminate.
Qed.
Lemma axes_code_rh a b : directions a = directions b -> rhombohedral_axes a = rhombohedral_axes b.
Proof.
  unfold directions. assert (K : forall l, rhombohedral_axes l = true -> system_of_number (leading_number l) = Trigonal).
  { intros l. unfold rhombohedral_axes. destruct (system_of_number (leading_number l)); congruence. }
  pose proof (K a) as Ka. pose proof (K b) as Kb.
  destruct (rhombohedral_axes a); destruct (rhombohedral_axes b); try reflexivity.
  - rewrite (Ka eq_refl). destruct (system_of_number (leading_number b)); intros E; discriminate.
  - rewrite (Kb eq_refl). destruct (system_of_number (leading_number a)); intros E; discriminate.
Qed.
Lemma clash_sound label hm (G : op -> Prop) h core :
  (forall R t, G (R, t) -> exists m v w, In m core /\ rot m = R /\ In v (translations (ls_char (h_lat h))) /\ vcong12 w v0 /\ t = vadd (tra m) (vadd v w)) ->
  (forall m, In m core -> exists t, G (rot m, t)) ->
  clash (needs hm) (profile label (h, core)) = true -> ~ name_fits label hm G.
Proof.
  intros Hcos Hcore H (l & ws & W & _ & _ & _ & K). unfold needs, profile in H. cbn [fst snd] in H. rewrite W in H. cbn [tl] in H. clear W.
  set (rh := rhombohedral_axes label) in *. revert K H. generalize (directions label) as dss. induction ws as [| w ws IH]; intros [| ds dss] K H; try discriminate.
  - cbn [map clash] in H. destruct (String.eqb w "1"); discriminate.
  - cbn [map clash] in H.
    assert (K0 : word_fits rh G ds w) by exact (K 0%nat w ds eq_refl eq_refl).
    assert (K' : forall i u es, nth_error ws i = Some u -> nth_error dss i = Some es -> word_fits rh G es u) by exact (fun i u es A B => K (S i) u es A B).
    destruct (String.eqb_spec w "1") as [-> | N].
    + apply orb_true_iff in H. destruct H as [H | H]; [| exact (IH dss K' H)]. destruct K0 as [(_ & F) | ((e & F) & _)].
      * apply negb_true_iff in H. enough (Q : forallb (empty_along core) ds = true) by congruence.
        apply forallb_forall. intros d Id. apply forallb_forall. intros m Im. destruct (axis_b (rot m) d) eqn:A; [| reflexivity]. cbn [negb orb].
        apply axis_b_spec in A. destruct (Hcore m Im) as (t & HG). apply orb_true_iff. rewrite !meqb_eq. exact (F d _ t Id HG A).
      * exact (in_names _ _ F).
    + apply orb_true_iff in H. destruct H as [H | H]; [| exact (IH dss K' H)]. destruct K0 as [(-> & _) | (_ & F)]; [destruct N; reflexivity |].
      apply existsb_exists in H. destruct H as (z & Iz & H). apply in_map_iff in Iz. destruct Iz as (e & <- & Ie). apply negb_true_iff in H.
      destruct (F e (names_in w e Ie)) as (d & Id & E). pose proof (possible G _ core Hcos rh d e E) as P.
      enough (Q : zmem (element_code e) (map fst (filter (fun q => existsb (fun d => possible_b rh (translations (ls_char (h_lat h))) core d (snd q)) ds) all_codes)) = true) by congruence.
      apply existsb_exists. exists (element_code e). split; [| apply Z.eqb_refl]. apply in_map_iff. exists (element_code e, e). split; [reflexivity |].
      apply filter_In. split.
      * unfold all_codes. destruct (names_in w e Ie) as [I | (_ & [I | I])]; exact (in_map (fun p => (element_code (snd p), snd p)) _ _ I).
      * cbn [snd]. apply existsb_exists. exists d. split; [exact Id | exact P].
Qed.

(** ** The sweep over pairs of rows of the full table *)
Definition letter_needed (label hm : string) : option lattice :=
  if rhombohedral_axes label then Some LP else the_letter hm.
Definition name_side (q : string * string) : (Z * nat * option ascii) * (list (option (list Z)) * (string * string)) :=
  ((Z.of_nat (leading_number (fst q)), axes_code (fst q), option_map lattice_char (letter_needed (fst q) (snd q))), (needs (snd q), q)).
Definition group_side (q : string * (hall * list seitz)) : (Z * nat * ascii) * (list (bool * list Z) * (hall * list seitz)) :=
  ((Z.of_nat (leading_number (fst q)), axes_code (fst q), lattice_char (ls_char (h_lat (fst (snd q))))), (profile (fst q) (snd q), snd q)).
Definition full_names := Eval vm_compute in map name_side (combine full_number full_hm).
Lemma full_names_ok : full_names = map name_side (combine full_number full_hm).
Proof. vm_cast_no_check (@eq_refl _ full_names). Qed.
Definition full_sides := Eval vm_compute in map group_side (combine full_number full_groups).
Lemma full_sides_ok : full_sides = map group_side (combine full_number full_groups).
Proof. vm_cast_no_check (@eq_refl _ full_sides). Qed.
Definition exceptional (a b : Z) : bool :=
  (((a =? 23) || (a =? 24)) && ((b =? 23) || (b =? 24))) || (((a =? 197) || (a =? 199)) && ((b =? 197) || (b =? 199))).
Definition told (x : (Z * nat * option ascii) * (list (option (list Z)) * (string * string))) (y : (Z * nat * ascii) * (list (bool * list Z) * (hall * list seitz))) : bool :=
  let '((n, c, l), (ws, q)) := x in let '((n', c', l'), (pr, p)) := y in
  if n =? n' then true else if negb (Nat.eqb c c') then true
  else if match l with Some l => negb (Ascii.eqb l l') | None => true end then true
  else if clash ws pr then true else if exceptional n n' then true else incomplete_b 48 (fst q) (snd q) p.
Lemma full_told : forallb (fun x => forallb (told x) full_sides) full_names = true.
Proof. vm_cast_no_check (@eq_refl bool true). Qed.
(** the default table, without the names that are cut *)
Definition uncut (q : string * string) : bool := negb (inb (leading_number (fst q)) cut_names).
Definition default_names := Eval vm_compute in map name_side (filter uncut (combine default_number default_hm)).
Lemma default_names_ok : default_names = map name_side (filter uncut (combine default_number default_hm)).
Proof. vm_cast_no_check (@eq_refl _ default_names). Qed.
Definition default_sides := Eval vm_compute in map group_side (combine default_number default_groups).
Lemma default_sides_ok : default_sides = map group_side (combine default_number default_groups).
Proof. vm_cast_no_check (@eq_refl _ default_sides). Qed.
Lemma full_default_told : forallb (fun x => forallb (told x) default_sides) full_names = true.
Proof. vm_cast_no_check (@eq_refl bool true). Qed.
Lemma default_full_told : forallb (fun x => forallb (told x) full_sides) default_names = true.
Proof. vm_cast_no_check (@eq_refl bool true). Qed.
Lemma default_told : forallb (fun x => forallb (told x) default_sides) default_names = true.
Proof. vm_cast_no_check (@eq_refl bool true). Qed.

(** ** Lattices are told apart by their translations *)
Lemma centring_letter a b : (forall v, centring a v <-> centring b v) -> a = b.
Proof.
  assert (C : forall l v, centring l v -> exists u, In u (translations l) /\ vx v mod 12 = vx u mod 12 /\ vy v mod 12 = vy u mod 12 /\ vz v mod 12 = vz u mod 12).
  { intros l v (u & I & (x & X) & (y & Y) & (z & Z0)). exists u. split; [exact I |].
    assert (K : forall p q k, p - q = 12 * k -> p mod 12 = q mod 12) by (intros p q k E; replace p with (q + k * 12) by lia; apply Z_mod_plus_full).
    repeat split; eapply K; eassumption. }
  assert (own : forall l u, In u (translations l) -> centring l u) by (intros l u I; exists u; split; [exact I | repeat split; exists 0; lia]).
  assert (F : forall l u, In u (translations l) -> forall k, centring k u -> existsb (fun w => (vx u mod 12 =? vx w mod 12) && ((vy u mod 12 =? vy w mod 12) && (vz u mod 12 =? vz w mod 12))) (translations k) = true).
  { intros l u _ k H. destruct (C k u H) as (w & I & X & Y & W). apply existsb_exists. exists w. split; [exact I |]. rewrite X, Y, W, !Z.eqb_refl. reflexivity. }
  intros H.
  assert (A : forallb (fun u => existsb (fun w => (vx u mod 12 =? vx w mod 12) && ((vy u mod 12 =? vy w mod 12) && (vz u mod 12 =? vz w mod 12))) (translations b)) (translations a) = true).
  { apply forallb_forall. intros u I. apply (F a u I). apply H. exact (own a u I). }
  assert (B : forallb (fun u => existsb (fun w => (vx u mod 12 =? vx w mod 12) && ((vy u mod 12 =? vy w mod 12) && (vz u mod 12 =? vz w mod 12))) (translations a)) (translations b) = true).
  { apply forallb_forall. intros u I. apply (F b u I). apply H. exact (own b u I). }
  clear - A B. destruct a, b; try reflexivity; vm_compute in A, B; discriminate.
Qed.
Lemma letter_found hm l ws : hm_words hm = String (lattice_char l) EmptyString :: ws -> the_letter hm = Some l.
Proof. intros E. unfold the_letter. rewrite E. destruct l; reflexivity. Qed.
Lemma row_cosets full i label s : get_space_group_number (table full) i = Some label -> get_hall_symbol (table full) i = Some s ->
  forall p, row_group s = Some p -> forall R t, text_group s (R, t) ->
  exists m v w, In m (snd p) /\ rot m = R /\ In v (translations (ls_char (h_lat (fst p)))) /\ vcong12 w v0 /\ t = vadd (tra m) (vadd v w).
Proof.
  intros Hl Hs [h core] Rg R t HG. destruct (row_group_spec _ _ _ Rg) as (g & E & G & <-). destruct (row_facts full i label s Hl Hs) as (h' & g' & E' & G' & T).
  assert (h' = h) by congruence. subst h'. cbn [fst snd]. apply (proj1 (text_group_row _ _ Rg _)) in HG. cbn [fst] in HG.
  destruct (rotations_complete _ _ _ G _ HG) as (m & Im & ER). cbn [fst] in ER. subst R. destruct (C25_positions_sound _ _ _ G m Im) as [_ HG'].
  destruct (same_rotation_coset h (rot m) (tra m) t T HG' HG) as (v & Iv & (x & X) & (y & Y) & (z & Z0)).
  exists m, v, (vsub (vsub t (tra m)) v). split; [exact Im | split; [reflexivity | split; [exact Iv |]]]. destruct t as [t1 t2 t3], (tra m) as [u1 u2 u3], v as [v1 v2 v3].
  unfold vadd, vsub in *. cbn [vx vy vz v0] in X, Y, Z0 |- *. split; [| f_equal; lia]. split; [exists x | split; [exists y | exists z]]; cbn [vx vy vz v0]; lia.
Qed.

(** ** C93 *)
Lemma combine_nth {X Y : Type} : forall (a : list X) (b : list Y) i x y, nth_error a i = Some x -> nth_error b i = Some y -> nth_error (combine a b) i = Some (x, y).
Proof.
  induction a as [| u a IH]; intros [| v b] [| j] x y E F; try discriminate; cbn in *.
  - congruence.
  - exact (IH b j x y E F).
Qed.
Lemma named_row full i label hm : get_space_group_number (table full) i = Some label -> get_hm_full_notation (table full) i = Some hm ->
  ~ (full = false /\ In (leading_number label) cut_names) -> In (name_side (label, hm)) (if full then full_names else default_names).
Proof.
  intros Hl Hm N. destruct full.
  - rewrite full_names_ok. apply in_map. exact (nth_error_In _ i (combine_nth _ _ i _ _ Hl Hm)).
  - rewrite default_names_ok. apply in_map. apply filter_In. split; [exact (nth_error_In _ i (combine_nth _ _ i _ _ Hl Hm)) |].
    unfold uncut. cbn [fst]. destruct (inb (leading_number label) cut_names) eqn:E; [| reflexivity]. apply inb_spec in E. destruct N. split; [reflexivity | exact E].
Qed.
Lemma grouped_row full j label s : get_space_group_number (table full) j = Some label -> get_hall_symbol (table full) j = Some s ->
  exists p, row_group s = Some p /\ In (group_side (label, p)) (if full then full_sides else default_sides).
Proof.
  intros Hl Hs. destruct full.
  - destruct (row_data _ _ full_groups_ok j s Hs) as (p & Hp & Rg). exists p. split; [exact Rg |].
    rewrite full_sides_ok. apply in_map. exact (nth_error_In _ j (combine_nth _ _ j _ _ Hl Hp)).
  - destruct (row_data _ _ default_groups_ok j s Hs) as (p & Hp & Rg). exists p. split; [exact Rg |].
    rewrite default_sides_ok. apply in_map. exact (nth_error_In _ j (combine_nth _ _ j _ _ Hl Hp)).
Qed.
(** along the same axes, a name of either table (if not one of the cut ones) describes no group
    of either table with another number; the only groups that share a name in this sense are
    I 2 2 2 with I 21 21 21 (23, 24) and I 2 3 with I 21 3 (197, 199), which have the same elements *)
Theorem C93_name_tells_the_number : forall full full' i j label label' hm s',
  get_space_group_number (table full) i = Some label -> get_hm_full_notation (table full) i = Some hm ->
  get_space_group_number (table full') j = Some label' -> get_hall_symbol (table full') j = Some s' ->
  ~ (full = false /\ In (leading_number label) cut_names) ->
  directions label = directions label' ->
  name_describes label hm (text_group s') ->
  leading_number label = leading_number label' \/
  (In (leading_number label) [23; 24] /\ In (leading_number label') [23; 24])%nat \/
  (In (leading_number label) [197; 199] /\ In (leading_number label') [197; 199])%nat.
Proof.
  intros full full' i j label label' hm s' Hl Hm Hl' Hs' NC D [F C].
  destruct (grouped_row full' j label' s' Hl' Hs') as ((h & core) & Rg & I2). pose proof (named_row full i label hm Hl Hm NC) as I1.
  destruct (row_pair full' j label' s' Hl' Hs' _ Rg) as (P1 & P2 & P3 & P4). pose proof (row_cosets full' j label' s' Hl' Hs' _ Rg) as P5.
  cbn [fst snd] in *.
  assert (K : told (name_side (label, hm)) (group_side (label', (h, core))) = true).
  { assert (Q : forallb (fun x => forallb (told x) (if full' then full_sides else default_sides)) (if full then full_names else default_names) = true)
      by (destruct full, full'; [exact full_told | exact full_default_told | exact default_full_told | exact default_told]).
    rewrite forallb_forall in Q. specialize (Q _ I1). rewrite forallb_forall in Q. exact (Q _ I2). }
  clear I1 I2. unfold name_side, group_side, told in K. cbn [fst snd] in K.
  destruct (Z.eqb_spec (Z.of_nat (leading_number label)) (Z.of_nat (leading_number label'))) as [N | N]; [left; lia |].
  rewrite (axes_code_inj _ _ D), Nat.eqb_refl in K. cbn [negb] in K.
  assert (L : option_map lattice_char (letter_needed label hm) = Some (lattice_char (ls_char (h_lat h)))).
  { destruct F as (l & ws & W & T & _). unfold letter_needed. rewrite (letter_found _ _ _ W).
    assert (E : (if rhombohedral_axes label then LP else l) = ls_char (h_lat h)) by (apply centring_letter; intros v; rewrite <- T; apply P3).
    rewrite <- E. destruct (rhombohedral_axes label); reflexivity. }
  rewrite L, Ascii.eqb_refl in K. cbn [negb] in K.
  assert (E : profile label' (h, core) = profile label (h, core)).
  { unfold profile. rewrite (axes_code_rh _ _ D), D. reflexivity. }
  rewrite E in K. destruct (clash (needs hm) (profile label (h, core))) eqn:CL.
  { destruct (clash_sound label hm (text_group s') h core P5 (core_in _ h core P1) CL F). }
  destruct (exceptional _ _) eqn:X.
  - right. unfold exceptional in X. rewrite orb_true_iff, !andb_true_iff, !orb_true_iff, !Z.eqb_eq in X. cbn [In]. lia.
  - destruct (incomplete_sound _ h core P1 P2 48 label hm K C).
Qed.
(** the exceptions are real: both names of each pair describe both groups *)
Lemma pair_describes i j label label' hm s' p : get_space_group_number (table true) i = Some label -> get_hm_full_notation (table true) i = Some hm ->
  get_space_group_number (table true) j = Some label' -> get_hall_symbol (table true) j = Some s' -> nth_error full_groups j = Some p ->
  name_b label hm p = true -> complete_b 48 label hm p = true -> name_describes label hm (text_group s').
Proof.
  intros Hl Hm Hl' Hs' Hp A B. destruct (row_data _ _ full_groups_ok j s' Hs') as ((h & core) & Hp' & Rg).
  assert (E : p = (h, core)) by congruence. subst p.
  destruct (row_pair true j label' s' Hl' Hs' _ Rg) as (P1 & P2 & P3 & P4). cbn [fst snd] in *.
  split; [exact (name_b_sound _ h core P1 P2 P3 label hm A) | exact (complete_sound _ h core P1 P2 P3 P4 48 label hm B)].
Qed.
Lemma pair_ok i j : (match nth_error full_number i, nth_error full_hm i, nth_error full_number j, nth_error full_hall j, nth_error full_groups j with
  | Some label, Some hm, Some _, Some _, Some p => name_b label hm p && complete_b 48 label hm p | _, _, _, _, _ => false end) = true ->
  exists label hm label' s', get_space_group_number (table true) i = Some label /\ get_hm_full_notation (table true) i = Some hm /\
  get_space_group_number (table true) j = Some label' /\ get_hall_symbol (table true) j = Some s' /\ name_describes label hm (text_group s').
Proof.
  intros H. destruct (nth_error full_number i) as [label |] eqn:E1; [| discriminate]. destruct (nth_error full_hm i) as [hm |] eqn:E2; [| discriminate].
  destruct (nth_error full_number j) as [label' |] eqn:E3; [| discriminate]. destruct (nth_error full_hall j) as [s' |] eqn:E4; [| discriminate].
  destruct (nth_error full_groups j) as [p |] eqn:E5; [| discriminate]. apply andb_true_iff in H. destruct H as [A B].
  exists label, hm, label', s'. split; [exact E1 | split; [exact E2 | split; [exact E3 | split; [exact E4 |]]]].
  exact (pair_describes i j label label' hm s' p E1 E2 E3 E4 E5 A B).
Qed.
Theorem C93_exceptions_real :
  name_describes "23" "I 2 2 2" (text_group "I 2ac 2bc") /\ name_describes "24" "I 21 21 21" (text_group "I 2 2") /\
  name_describes "197" "I 2 3" (text_group "I 2b 2c 3") /\ name_describes "199" "I 21 3" (text_group "I 2 2 3").
Proof.
  assert (K : forall i j label hm s', nth_error full_number i = Some label -> nth_error full_hm i = Some hm -> nth_error full_hall j = Some s' ->
    (match nth_error full_number i, nth_error full_hm i, nth_error full_number j, nth_error full_hall j, nth_error full_groups j with
     | Some label, Some hm, Some _, Some _, Some p => name_b label hm p && complete_b 48 label hm p | _, _, _, _, _ => false end) = true ->
    name_describes label hm (text_group s')).
  { intros i j label hm s' A B C H. destruct (pair_ok i j H) as (l & n & l' & s & A' & B' & _ & C' & D).
    replace label with l by exact (f_equal (fun o => match o with Some x => x | None => l end) (eq_trans (eq_sym A') A)).
    replace hm with n by exact (f_equal (fun o => match o with Some x => x | None => n end) (eq_trans (eq_sym B') B)).
    replace s' with s by exact (f_equal (fun o => match o with Some x => x | None => s end) (eq_trans (eq_sym C') C)). exact D. }
  split; [apply (K 122 123)%nat; vm_compute; reflexivity |]. split; [apply (K 123 122)%nat; vm_compute; reflexivity |].
  split; [apply (K 490 492)%nat; vm_compute; reflexivity | apply (K 492 490)%nat; vm_compute; reflexivity].
Qed.
(** hypotheses met, and telling apart the two hands: P 41 does not describe the group of P 43 *)
Example C93_case :
  get_hm_full_notation (table true) 349 = Some "P 41"%string /\ get_hall_symbol (table true) 349 = Some "P 4w"%string /\
  name_describes "76" "P 41" (text_group "P 4w") /\ directions "76" = directions "78" /\ ~ name_describes "76" "P 41" (text_group "P 4cw").
Proof.
  assert (A : get_space_group_number (table true) 349 = Some "76"%string) by (vm_compute; reflexivity).
  assert (B : get_hm_full_notation (table true) 349 = Some "P 41"%string) by (vm_compute; reflexivity).
  assert (C : get_hall_symbol (table true) 349 = Some "P 4w"%string) by (vm_compute; reflexivity).
  assert (D : directions "76" = directions "78") by (vm_compute; reflexivity).
  split; [exact B | split; [exact C | split; [| split; [exact D |]]]].
  - split.
    + refine (proj2 (C92_names_fit true 349 _ _ _ A B C) _). vm_compute. discriminate.
    + refine (proj2 (C92_names_complete true 349 _ _ _ A B C) _). intros [E _]. discriminate.
  - intros H. assert (A' : get_space_group_number (table true) 351 = Some "78"%string) by (vm_compute; reflexivity).
    assert (C' : get_hall_symbol (table true) 351 = Some "P 4cw"%string) by (vm_compute; reflexivity).
    destruct (C93_name_tells_the_number true true 349 351 _ _ _ _ A B A' C' (fun X => eq_ind true (fun b => if b then True else False) I false (proj1 X)) D H) as [E | [(I & _) | (I & _)]]; clear - E || clear - I.
    + discriminate.
    + destruct I as [E | [E | []]]; discriminate.
    + destruct I as [E | [E | []]]; discriminate.
Qed.
