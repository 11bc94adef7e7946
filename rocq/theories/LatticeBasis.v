(** * LatticeBasis: membership in a generated group is decidable, and its translations have a
    basis (proof support for C86). *)
From Coq Require Import QArith.
From Verif Require Import Base Notations Parser Seitz Rotations Spec SpecHall Generate Algebra PropSymbols GenFacts PropGenerate TypeFacts TypeCount.
Open Scope Z_scope.
Local Notation length := List.length.

(** ** Finite closures *)
Section Saturate.
Variable X : Type.
Variable dec : forall x y : X, {x = y} + {x <> y}.
Variable P : X -> Prop.
Variable U : list X.
Variable next : list X -> list X.
Hypothesis Hnext : forall s, (forall x, In x s -> P x /\ In x U) -> forall y, In y (next s) -> P y /\ In y U.
Lemma outside (l s : list X) : {y | In y l /\ ~ In y s} + {forall y, In y l -> In y s}.
Proof.
  induction l as [| x l IH]; [right; intros y [] |].
  destruct (in_dec dec x s) as [I | N].
  - destruct IH as [(y & A & B) | A].
    + left. exists y. split; [right; exact A | exact B].
    + right. intros y [<- | Iy]; auto.
  - left. exists x. split; [left; reflexivity | exact N].
Qed.
Lemma saturate_from : forall n s, NoDup s -> (forall x, In x s -> P x /\ In x U) -> (length U - length s <= n)%nat ->
  exists s', (forall x, In x s' -> P x /\ In x U) /\ forall y, In y (next s') -> In y s'.
Proof.
  induction n as [| n IH]; intros s N H L; destruct (outside (next s) s) as [(y & A & B) | A].
  - exfalso. assert (Q : (length (y :: s) <= length U)%nat).
    { apply NoDup_incl_length; [constructor; auto |]. intros x [<- | I]; [exact (proj2 (Hnext s H y A)) | exact (proj2 (H x I))]. }
    cbn [List.length] in Q. lia.
  - exists s. auto.
  - apply (IH (y :: s)).
    + constructor; auto.
    + intros x [<- | I]; [exact (Hnext s H y A) | exact (H x I)].
    + cbn [List.length]. lia.
  - exists s. auto.
Qed.
Lemma saturate : exists s, (forall x, In x s -> P x /\ In x U) /\ forall y, In y (next s) -> In y s.
Proof. apply (saturate_from (length U) []); [constructor | intros x [] | lia]. Qed.
End Saturate.

(** ** The group of a symbol *)
Definition norm_op (o : op) : op := (fst o, vmap (fun z => z mod 12) (snd o)).
Definition range12 : list Z := [0; 1; 2; 3; 4; 5; 6; 7; 8; 9; 10; 11].
Definition cells12 : list vec3 := flat_map (fun x => flat_map (fun y => map (V3 x y) range12) range12) range12.
Lemma range12_in z : 0 <= z < 12 <-> In z range12.
Proof. unfold range12. cbn [In]. lia. Qed.
Lemma cells12_in v : vbetween 0 12 v -> In v cells12.
Proof.
  destruct v as [x y z]. intros (A & B & C). cbn [vx vy vz] in *. unfold cells12. apply in_flat_map. exists x. split; [apply range12_in; lia |].
  apply in_flat_map. exists y. split; [apply range12_in; lia |]. apply in_map, range12_in. lia.
Qed.
Lemma norm_vec_cong v : vcong12 (vmap (fun z => z mod 12) v) v.
Proof. repeat split; cbn [vmap vx vy vz]; apply cong12_mod, Z.mod_mod; lia. Qed.
Lemma norm_op_same o : op_same (norm_op o) o.
Proof. split; [reflexivity | apply norm_vec_cong]. Qed.
Lemma norm_op_cong a b : op_same a b -> norm_op a = norm_op b.
Proof.
  intros [E (A & B & C)]. unfold norm_op. rewrite E. f_equal. apply cong12_mod in A, B, C.
  apply vec3_ext; assumption.
Qed.
Lemma norm_op_range o : vbetween 0 12 (snd (norm_op o)).
Proof.
  unfold norm_op, vbetween. cbn [snd vmap vx vy vz].
  pose proof (Z.mod_pos_bound (vx (snd o)) 12 ltac:(lia)). pose proof (Z.mod_pos_bound (vy (snd o)) 12 ltac:(lia)).
  pose proof (Z.mod_pos_bound (vz (snd o)) 12 ltac:(lia)). repeat split; lia.
Qed.
Lemma op_eq_dec (a b : op) : {a = b} + {a <> b}.
Proof. destruct a as [R t], b as [S u]. destruct (mat3_eq_dec R S), (vec3_eq_dec t u); [left; congruence | right; congruence ..]. Qed.
Definition base_ops (h : hall) : list op :=
  op_id :: map (fun v => (I3, v)) (translations (ls_char (h_lat h)))
  ++ (if ls_minus (h_lat h) then [(mopp I3, V3 0 0 0)] else [])
  ++ flat_map (fun ms => match seitz_matrix ms with Some m => [op_conj (h_shift h) (op_of m)] | None => [] end) (h_syms h).
Lemma base_ops_complete h o : hall_gens h o -> In o (base_ops h).
Proof.
  intros [(v & I & ->) | [(E & ->) | (ms & m & I & S & ->)]]; right; apply in_or_app.
  - left. apply in_map_iff. eauto.
  - right. apply in_or_app. left. rewrite E. left; reflexivity.
  - right. apply in_or_app. right. apply in_flat_map. exists ms. split; [exact I |]. rewrite S. left; reflexivity.
Qed.
Lemma base_ops_sound h o : In o (base_ops h) -> hall_group h o.
Proof.
  intros [<- | I]; [apply gen_one |]. apply gen_base. apply in_app_or in I. destruct I as [I | I].
  - left. apply in_map_iff in I. destruct I as (v & <- & I). eauto.
  - right. apply in_app_or in I. destruct I as [I | I].
    + left. destruct (ls_minus (h_lat h)); [| destruct I]. destruct I as [<- | []]. auto.
    + right. apply in_flat_map in I. destruct I as (ms & I & J). destruct (seitz_matrix ms) as [m |] eqn:E; [| destruct J].
      destruct J as [<- | []]. eauto.
Qed.
Lemma op_inv_same a b : op_same a b -> op_same (op_inv a) (op_inv b).
Proof.
  intros [E C]. unfold op_inv. rewrite E. split; [reflexivity |]. cbn [snd]. apply vcong12_vopp, vcong12_mvmul, C.
Qed.
Lemma inverse_is a b : unimodular (fst a) -> op_comp a b = op_id -> b = op_inv a.
Proof.
  intros U E. rewrite <- (op_comp_id_l b), <- (op_inv_l a U), <- op_comp_assoc, E, op_comp_id_r. reflexivity.
Qed.
Lemma group_inverse h a : hall_group h a -> hall_group h (op_inv a).
Proof. intros G. apply (gen_inv _ a); [exact G |]. apply op_inv_r, (hall_group_unimodular h), G. Qed.
(** when the rotation parts come from a finite list, membership is decidable *)
Lemma group_decidable h (G : list mat3) : (forall o, hall_group h o -> In (fst o) G) ->
  forall o, hall_group h o \/ ~ hall_group h o.
Proof.
  intros HG.
  destruct (saturate op op_eq_dec (hall_group h) (list_prod G cells12)
    (fun s => map norm_op (base_ops h ++ map op_inv s ++ map (fun p => op_comp (fst p) (snd p)) (list_prod s s)))) as (s & S1 & S2).
  { intros s Hs y I. apply in_map_iff in I. destruct I as (o & <- & I).
    assert (Go : hall_group h o).
    { apply in_app_or in I. destruct I as [I | I]; [apply base_ops_sound, I |]. apply in_app_or in I. destruct I as [I | I]; apply in_map_iff in I.
      - destruct I as (a & <- & I). apply group_inverse, Hs, I.
      - destruct I as ((a, b) & <- & I). apply in_prod_iff in I. destruct I as [A B]. apply gen_comp; [apply Hs, A | apply Hs, B]. }
    assert (Gn : hall_group h (norm_op o)) by (apply (gen_cell _ o); [exact Go | apply op_same_sym, norm_op_same]).
    split; [exact Gn |]. unfold norm_op. apply in_prod; [exact (HG o Go) | apply cells12_in, norm_op_range]. }
  assert (C : forall o, hall_group h o -> In (norm_op o) s).
  { intros o G'. induction G' as [| o Ho | a b Ga IHa Gb IHb | a b Ga IHa E | a b Ga IHa E].
    - apply S2, in_map, in_or_app. left. left; reflexivity.
    - apply S2, in_map, in_or_app. left. apply base_ops_complete, Ho.
    - rewrite (norm_op_cong _ (op_comp (norm_op a) (norm_op b))) by (apply op_same_comp; apply op_same_sym, norm_op_same).
      apply S2, in_map, in_or_app. right. apply in_or_app. right. apply in_map_iff. exists (norm_op a, norm_op b).
      split; [reflexivity | apply in_prod; assumption].
    - rewrite (inverse_is a b (hall_group_unimodular h a Ga) E).
      rewrite (norm_op_cong _ (op_inv (norm_op a))) by (apply op_inv_same, op_same_sym, norm_op_same).
      apply S2, in_map, in_or_app. right. apply in_or_app. left. apply in_map, IHa.
    - rewrite <- (norm_op_cong _ _ E). exact IHa. }
  intros o. destruct (in_dec op_eq_dec (norm_op o) s) as [I | N].
  - left. apply (gen_cell _ (norm_op o)); [exact (proj1 (S1 _ I)) | apply norm_op_same].
  - right. intros G'. apply N, C, G'.
Qed.

(** ** Bases *)
Definition divisors12 : list Z := [1; 2; 3; 4; 6; 12].
Definition zupto (n : Z) : list Z := map Z.of_nat (seq 0 (Z.to_nat n)).
(** the bases (columns (a,b,d), (0,c,e), (0,0,f)) of the lattices between 12 Z^3 and Z^3 *)
Definition bases : list mat3 :=
  flat_map (fun a => flat_map (fun c => flat_map (fun f => flat_map (fun e =>
    if (12 / c * e) mod f =? 0 then flat_map (fun b => flat_map (fun d =>
      let k := 12 / a in
      if ((k * b) mod c =? 0) && ((k * d - k * b / c * e) mod f =? 0) then [M3 a 0 0 b c 0 d e f] else [])
      (zupto f)) (zupto c) else [])
    (zupto f)) divisors12) divisors12) divisors12.
Lemma zupto_in n z : 0 <= z < n -> In z (zupto n).
Proof.
  intros H. unfold zupto. apply in_map_iff. exists (Z.to_nat z). split; [lia |]. apply in_seq. lia.
Qed.
Lemma divisors12_in z : 0 < z <= 12 -> (z | 12) -> In z divisors12.
Proof.
  intros H (k & K). unfold divisors12. cbn [In]. assert (0 < k <= 12) by nia.
  assert (z = 1 \/ z = 2 \/ z = 3 \/ z = 4 \/ z = 5 \/ z = 6 \/ z = 7 \/ z = 8 \/ z = 9 \/ z = 10 \/ z = 11 \/ z = 12) as Q by lia.
  repeat (destruct Q as [-> | Q]; [lia |]). lia.
Qed.
Lemma bases_in a b c d e f : In a divisors12 -> In c divisors12 -> In f divisors12 -> 0 <= e < f -> 0 <= b < c -> 0 <= d < f ->
  (f | 12 / c * e) -> (c | 12 / a * b) -> (f | 12 / a * d - 12 / a * b / c * e) -> In (M3 a 0 0 b c 0 d e f) bases.
Proof.
  intros A C F He Hb Hd D1 D2 D3. unfold bases.
  apply in_flat_map. exists a. split; [exact A |]. apply in_flat_map. exists c. split; [exact C |].
  apply in_flat_map. exists f. split; [exact F |]. apply in_flat_map. exists e. split; [apply zupto_in, He |].
  apply Z.mod_divide in D1; [| lia]. rewrite D1, Z.eqb_refl.
  apply in_flat_map. exists b. split; [apply zupto_in, Hb |]. apply in_flat_map. exists d. split; [apply zupto_in, Hd |].
  cbv zeta. apply Z.mod_divide in D2; [| lia]. apply Z.mod_divide in D3; [| lia]. rewrite D2, D3, !Z.eqb_refl. left; reflexivity.
Qed.
Section Basis.
Variable T : vec3 -> Prop.
Hypothesis Tadd : forall u v, T u -> T v -> T (vadd u v).
Hypothesis Topp : forall v, T v -> T (vopp v).
Hypothesis Tcell : forall v, T (vscale 12 v).
Hypothesis Tdec : forall v, T v \/ ~ T v.
Lemma T_scale k v : T v -> T (vscale k v).
Proof.
  intros H. assert (P : forall n : nat, T (vscale (Z.of_nat n) v)).
  { induction n as [| n IH].
    - replace (vscale (Z.of_nat 0) v) with (vscale 12 v0) by (cbn; mring). apply Tcell.
    - rewrite Nat2Z.inj_succ. replace (vscale (Z.succ (Z.of_nat n)) v) with (vadd (vscale (Z.of_nat n) v) v); auto.
      unfold Z.succ. generalize (Z.of_nat n). intros. mring. }
  destruct (Z.le_gt_cases 0 k) as [K | K].
  - specialize (P (Z.to_nat k)). rewrite Z2Nat.id in P by auto. exact P.
  - specialize (P (Z.to_nat (- k))). rewrite Z2Nat.id in P by lia. apply Topp in P.
    replace (vscale k v) with (vopp (vscale (- k) v)) by mring. exact P.
Qed.
Lemma T_sub_scale k u v : T u -> T v -> T (vsub u (vscale k v)).
Proof.
  intros A B. replace (vsub u (vscale k v)) with (vadd u (vscale (- k) v)) by mring. apply Tadd; [exact A | apply T_scale, B].
Qed.
Lemma dec_list (Q : Z -> Prop) : (forall z, Q z \/ ~ Q z) -> forall l, (exists z, In z l /\ Q z) \/ (forall z, In z l -> ~ Q z).
Proof.
  intros D. induction l as [| x l IH]; [right; intros z [] |].
  destruct (D x) as [H | H]; [left; exists x; split; [left; reflexivity | exact H] |].
  destruct IH as [(z & A & B) | A]; [left; exists z; split; [right; exact A | exact B] |].
  right. intros z [<- | I]; auto.
Qed.
Lemma least (Q : Z -> Prop) : (forall z, Q z \/ ~ Q z) -> Q 12 -> exists m, 0 < m <= 12 /\ Q m /\ forall k, 0 < k < m -> ~ Q k.
Proof.
  intros D Q12. assert (X : forall n : nat, (exists m, 0 < m <= Z.of_nat n /\ Q m /\ forall k, 0 < k < m -> ~ Q k) \/ (forall k, 0 < k <= Z.of_nat n -> ~ Q k)).
  { induction n as [| n [(m & A & B & C) | A]].
    - right. intros k K. lia.
    - left. exists m. split; [lia | auto].
    - destruct (D (Z.of_nat (S n))) as [H | H].
      + left. exists (Z.of_nat (S n)). split; [lia |]. split; [exact H |]. intros k K. apply A. lia.
      + right. intros k K E. destruct (Z.eq_dec k (Z.of_nat (S n))) as [-> | N]; [auto |]. apply (A k); [lia | exact E]. }
  destruct (X 12%nat) as [R | R]; [exact R |]. exfalso. apply (R 12); [lia | exact Q12].
Qed.
(** least positive values divide all values, when the values are closed under subtracting
    multiples *)
Lemma least_divides (Q : Z -> Prop) m : 0 < m -> (forall k, 0 < k < m -> ~ Q k) -> forall x, Q (x mod m) -> (m | x).
Proof.
  intros Hm L x Hx. apply Z.mod_divide; [lia |]. pose proof (Z.mod_pos_bound x m Hm).
  destruct (Z.eq_dec (x mod m) 0) as [E | N]; [exact E |]. exfalso. apply (L (x mod m)); [lia | exact Hx].
Qed.
Lemma lattice_basis : exists B, In B bases /\ forall v, T v <-> exists z, v = mvmul B z.
Proof.
  assert (T0 : T v0) by (replace v0 with (vscale 12 v0) by reflexivity; apply Tcell).
  (* third axis *)
  destruct (least (fun z => T (V3 0 0 z)) (fun z => Tdec _)) as (f & Hf & Tf & Lf); [exact (Tcell (V3 0 0 1)) |].
  assert (Df : forall x, T (V3 0 0 x) -> (f | x)).
  { intros x Hx. apply (least_divides (fun z => T (V3 0 0 z)) f ltac:(lia) Lf).
    replace (V3 0 0 (x mod f)) with (vsub (V3 0 0 x) (vscale (x / f) (V3 0 0 f))); [apply T_sub_scale; auto |].
    apply vec3_ext; cbn [vsub vscale vmap vx vy vz]; [lia | lia |]. rewrite Z.mod_eq by lia. ring. }
  (* second axis *)
  destruct (least (fun y => exists z, In z range12 /\ T (V3 0 y z))) as (c & Hc & (e0 & _ & Te0) & Lc).
  { intros y. destruct (dec_list (fun z => T (V3 0 y z)) (fun z => Tdec _) range12) as [H | H]; [left; exact H |].
    right. intros (z & A & B). exact (H z A B). }
  { exists 0. split; [apply range12_in; lia | exact (Tcell (V3 0 1 0))]. }
  set (e := e0 mod f).
  assert (Te : T (V3 0 c e)).
  { replace (V3 0 c e) with (vsub (V3 0 c e0) (vscale (e0 / f) (V3 0 0 f))); [apply T_sub_scale; auto |].
    apply vec3_ext; cbn [vsub vscale vmap vx vy vz]; [lia | lia |]. unfold e. rewrite Z.mod_eq by lia. ring. }
  assert (Dc : forall y x, T (V3 0 y x) -> (c | y)).
  { intros y x Hx. apply (least_divides (fun y => exists z, In z range12 /\ T (V3 0 y z)) c ltac:(lia) Lc).
    exists ((x - y / c * e) mod 12). split; [apply range12_in, Z.mod_pos_bound; lia |].
    replace (V3 0 (y mod c) ((x - y / c * e) mod 12)) with
      (vsub (vsub (V3 0 y x) (vscale (y / c) (V3 0 c e))) (vscale ((x - y / c * e) / 12) (V3 0 0 12))).
    - apply T_sub_scale; [apply T_sub_scale; auto |]. exact (Tcell (V3 0 0 1)).
    - apply vec3_ext; cbn [vsub vscale vmap vx vy vz]; [lia | rewrite Z.mod_eq by lia; ring | rewrite (Z.mod_eq (x - y / c * e)) by lia; ring]. }
  (* first axis *)
  destruct (least (fun x => exists y, In y range12 /\ exists z, In z range12 /\ T (V3 x y z))) as (a & Ha & (b0 & _ & d0 & _ & Ta0) & La).
  { intros x. destruct (dec_list (fun y => exists z, In z range12 /\ T (V3 x y z))) with (l := range12) as [H | H]; [| left; exact H |].
    - intros y. destruct (dec_list (fun z => T (V3 x y z)) (fun z => Tdec _) range12) as [H | H]; [left; exact H |].
      right. intros (z & A & B). exact (H z A B).
    - right. intros (y & A & B). exact (H y A B). }
  { exists 0. split; [apply range12_in; lia |]. exists 0. split; [apply range12_in; lia | exact (Tcell (V3 1 0 0))]. }
  set (b := b0 mod c). set (d1 := d0 - b0 / c * e). set (d := d1 mod f).
  assert (Ta : T (V3 a b d)).
  { replace (V3 a b d) with (vsub (vsub (V3 a b0 d0) (vscale (b0 / c) (V3 0 c e))) (vscale (d1 / f) (V3 0 0 f)));
      [apply T_sub_scale; [apply T_sub_scale; auto |]; auto |].
    apply vec3_ext; cbn [vsub vscale vmap vx vy vz]; [lia | unfold b; rewrite Z.mod_eq by lia; ring |].
    unfold d. rewrite Z.mod_eq by lia. unfold d1. ring. }
  assert (Da : forall x y z, T (V3 x y z) -> (a | x)).
  { intros x y z Hx. apply (least_divides (fun x => exists y, In y range12 /\ exists z, In z range12 /\ T (V3 x y z)) a ltac:(lia) La).
    set (k := x / a). exists ((y - k * b) mod 12). split; [apply range12_in, Z.mod_pos_bound; lia |].
    exists ((z - k * d) mod 12). split; [apply range12_in, Z.mod_pos_bound; lia |].
    replace (V3 (x mod a) ((y - k * b) mod 12) ((z - k * d) mod 12)) with
      (vsub (vsub (V3 x y z) (vscale k (V3 a b d))) (vscale 12 (V3 0 ((y - k * b) / 12) ((z - k * d) / 12)))).
    - replace (vsub (vsub (V3 x y z) (vscale k (V3 a b d))) (vscale 12 (V3 0 ((y - k * b) / 12) ((z - k * d) / 12))))
        with (vadd (vsub (V3 x y z) (vscale k (V3 a b d))) (vopp (vscale 12 (V3 0 ((y - k * b) / 12) ((z - k * d) / 12))))) by mring.
      apply Tadd; [apply T_sub_scale; auto |]. apply Topp, Tcell.
    - apply vec3_ext; cbn [vsub vscale vmap vx vy vz]; [unfold k; rewrite Z.mod_eq by lia; ring | rewrite (Z.mod_eq (y - k * b)) by lia; ring
        | rewrite (Z.mod_eq (z - k * d)) by lia; ring]. }
  assert (Dc12 : (c | 12)) by (apply (Dc 12 0); exact (Tcell (V3 0 1 0))).
  assert (Da12 : (a | 12)) by (apply (Da 12 0 0); exact (Tcell (V3 1 0 0))).
  assert (Df12 : (f | 12)) by (apply (Df 12); exact (Tcell (V3 0 0 1))).
  exists (M3 a 0 0 b c 0 d e f). split.
  - assert (Dkb : (c | 12 / a * b)).
    { apply (Dc _ (12 / a * d)).
      replace (V3 0 (12 / a * b) (12 / a * d)) with (vsub (vscale (12 / a) (V3 a b d)) (vscale 1 (V3 12 0 0))).
      - apply T_sub_scale; [apply T_scale, Ta | exact (Tcell (V3 1 0 0))].
      - destruct Da12 as (k & K). assert (E : 12 / a = k) by (rewrite K; apply Z.div_mul; lia).
        apply vec3_ext; cbn [vsub vscale vmap vx vy vz]; rewrite E; lia. }
    apply bases_in; try (apply divisors12_in; assumption).
    + unfold e. apply Z.mod_pos_bound. lia.
    + unfold b. apply Z.mod_pos_bound. lia.
    + unfold d. apply Z.mod_pos_bound. lia.
    + apply Df. replace (V3 0 0 (12 / c * e)) with (vsub (vscale (12 / c) (V3 0 c e)) (vscale 1 (V3 0 12 0))).
      * apply T_sub_scale; [apply T_scale, Te | exact (Tcell (V3 0 1 0))].
      * destruct Dc12 as (k & K). assert (E : 12 / c = k) by (rewrite K; apply Z.div_mul; lia).
        apply vec3_ext; cbn [vsub vscale vmap vx vy vz]; rewrite E; lia.
    + exact Dkb.
    + apply Df.
      replace (V3 0 0 (12 / a * d - 12 / a * b / c * e)) with
        (vsub (vsub (vscale (12 / a) (V3 a b d)) (vscale 1 (V3 12 0 0))) (vscale (12 / a * b / c) (V3 0 c e))).
      * apply T_sub_scale; [apply T_sub_scale; [apply T_scale, Ta | exact (Tcell (V3 1 0 0))] | exact Te].
      * destruct Da12 as (k & K). assert (E : 12 / a = k) by (rewrite K; apply Z.div_mul; lia).
        destruct Dkb as (j & J). assert (E' : 12 / a * b / c = j) by (rewrite J; apply Z.div_mul; lia).
        apply vec3_ext; cbn [vsub vscale vmap vx vy vz]; rewrite E', E in *; lia.
  - intros [x y z]. split.
    + intros Hv. destruct (Da _ _ _ Hv) as (i & Hi).
      assert (H1 : T (V3 0 (y - i * b) (z - i * d))).
      { replace (V3 0 (y - i * b) (z - i * d)) with (vsub (V3 x y z) (vscale i (V3 a b d))); [apply T_sub_scale; auto |].
        apply vec3_ext; cbn [vsub vscale vmap vx vy vz]; lia. }
      destruct (Dc _ _ H1) as (j & Hj).
      assert (H2 : T (V3 0 0 (z - i * d - j * e))).
      { replace (V3 0 0 (z - i * d - j * e)) with (vsub (V3 0 (y - i * b) (z - i * d)) (vscale j (V3 0 c e))); [apply T_sub_scale; auto |].
        apply vec3_ext; cbn [vsub vscale vmap vx vy vz]; lia. }
      destruct (Df _ H2) as (k & Hk). exists (V3 i j k). apply vec3_ext; unfold mvmul; mat_cbn; lia.
    + intros ((i, j, k) & ->).
      replace (mvmul (M3 a 0 0 b c 0 d e f) (V3 i j k)) with
        (vadd (vadd (vscale i (V3 a b d)) (vscale j (V3 0 c e))) (vscale k (V3 0 0 f))).
      * apply Tadd; [apply Tadd |]; apply T_scale; auto.
      * mring.
Qed.
End Basis.
